# Generates rocq/theories/XtCoef.v: coefficients in Xt of the views in ThreshViews.v, with the lemmas that they are the coefficients.
import re
src=open('/verif/rocq/theories/ThreshViews.v').read()
defs={}
for m in re.finditer(r"Definition (\w+) ((?:\([^)]*\) )+): R :=\n(.*?)\.\n\nLemma", src, re.S):
    name,params,body=m.groups()
    ps=[]
    for g in re.findall(r"\(([^:)]*):([^)]*)\)",params): ps+=g[0].split()
    lets=[]
    while True:
        mm=re.match(r"\s*let (\w+) := (.*?) in\n(.*)",body,re.S)
        if not mm: break
        lets.append((mm.group(1),mm.group(2))); body=mm.group(3)
    defs[name]=(ps,lets,body)
def tokens(s): return re.findall(r"#\(-?\d+\)|#\d+|[A-Za-z_]\w*|[-+*/()]",s)
FUN=lambda t: re.match(r"(pow\d+|power10|nlog|Li2)$",t)
class P:
    def __init__(s,txt): s.t=tokens(txt); s.i=0
    def pk(s): return s.t[s.i] if s.i<len(s.t) else None
    def nx(s): s.i+=1; return s.t[s.i-1]
    def expr(s):
        if s.pk()=='-': s.nx(); l=('neg',s.term())
        else: l=s.term()
        while s.pk() in ('+','-'):
            o=s.nx(); l=(o,l,s.term())
        return l
    def term(s):
        l=s.un()
        while s.pk() in ('*','/'):
            o=s.nx(); l=(o,l,s.un())
        return l
    def un(s):
        if s.pk()=='-': s.nx(); return ('neg',s.un())
        return s.app()
    def app(s):
        t=s.nx()
        if t=='(':
            e=s.expr(); assert s.nx()==')'; return e
        if FUN(t): return ('f',t,s.app())
        return ('a',t)
def show(e):
    k=e[0]
    if k=='a': return e[1]
    if k=='f': return "%s %s"%(e[1],par(e[2]))
    if k=='neg': return "- "+par(e[1])
    return "%s %s %s"%(par(e[1]),k,par(e[2]))
def par(e): return show(e) if e[0]=='a' and not e[1].startswith('#') else ("("+show(e)+")" if e[0]!='a' else e[1])
ZERO=None
def add(a,b): return b if a is None else a if b is None else ('+',a,b)
def sub(a,b): return a if b is None else ('neg',b) if a is None else ('-',a,b)
def mul(a,b): return None if a is None or b is None else ('*',a,b)
def conv(A,B):
    r={}
    for i,a in A.items():
        for j,b in B.items():
            k=tuple(x+y for x,y in zip(i,j)); r[k]=add(r.get(k),mul(a,b))
    return r
def coef(e,vs):
    k=e[0]; z=tuple(0 for _ in vs)
    if k=='a':
        if e[1] in vs: return {tuple(1 if v==e[1] else 0 for v in vs):('a','#1')}
        return {z:e}
    if not any(re.search(r"\b%s\b"%v,show(e)) for v in vs): return {z:e}
    if k=='neg': return {i:('neg',x) for i,x in coef(e[1],vs).items()}
    if k in '+-':
        A=coef(e[1],vs); B=coef(e[2],vs); r=dict(A)
        for i,b in B.items(): r[i]=(add if k=='+' else sub)(r.get(i),b)
        return r
    if k=='*': return conv(coef(e[1],vs),coef(e[2],vs))
    if k=='/':
        B=coef(e[2],vs); assert list(B)==[z],e; return {i:('/',a,B[z]) for i,a in coef(e[1],vs).items()}
    if k=='f':
        n=int(e[1][3:]) if e[1].startswith('pow') and e[1]!='power10' else 10
        assert e[1] not in('nlog','Li2')
        A=coef(e[2],vs); r=A
        for _ in range(n-1): r=conv(r,A)
        return r
    raise Exception(k)
def wrap(s,w=110):
    out=[];line="    "
    for t in s.split(" "):
        if len(line)+len(t)+1>w: out.append(line.rstrip()); line="      "
        line+=t+" "
    out.append(line.rstrip()); return "\n".join(out)
out='''(** * The corrections as polynomials in Xt
    GENERATED by tools/gen_xt.py; not part of the model, only used in proofs. *)
From Coq Require Import Reals ZArith Bool String.
From Verif Require Import Num Except Params HierFormulas Dilog LoopFun Thresh ThreshTwo NumFacts ThreshViews.
Open Scope num_scope.
Local Notation "a + b" := (@nadd R NumR a b) : num_scope. Local Notation "a - b" := (@nsub R NumR a b) : num_scope.
Local Notation "a * b" := (@nmul R NumR a b) : num_scope. Local Notation "a / b" := (@ndiv R NumR a b) : num_scope.
Local Notation "- a" := (@nneg R NumR a) : num_scope. Local Notation "# z" := (@nint R NumR z) (at level 1, z constr at level 0) : num_scope.
Local Notation nlog := (@Num.nlog R NumR).

'''

out+='''Lemma p2 x : pow2 x = (x ^ 2)%R. Proof. unfold pow2. unR. ring. Qed.
Lemma p3 x : pow3 x = (x ^ 3)%R. Proof. unfold pow3. unR. ring. Qed.
Lemma p4 x : pow4 x = (x ^ 4)%R. Proof. unfold pow4, pow2. unR. ring. Qed.
Lemma p6 x : pow6 x = (x ^ 6)%R. Proof. unfold pow6, pow2. unR. ring. Qed.
Lemma p5 x : pow5 x = (x ^ 5)%R. Proof. unfold pow5, pow4, pow2. unR. ring. Qed.

'''
deg={}
for n,(ps,lets,body) in defs.items():
    v=n.split('_')[0]
    if v in('yta','yta2','lat','lata'): vs=['Xt']
    elif v=='xtt': vs=['Xt4','Xt5','Xt6']
    else: continue
    C=coef(P(body).expr(),vs)
    ps2=[p for p in ps if p not in vs]
    sig=("(Li2 : R -> R) " if 'Li2' in ps2 else "")+"(%s : R)"%" ".join(p for p in ps2 if p!='Li2')
    names=[]
    ks=sorted(C)
    if v!='xtt':
        D=max(k[0] for k in ks)
        ks=[(i,) for i in range(D+1)]
    deg[n]=[k for k in ks]
    for k in ks:
        if v=='xtt':
            if k==(0,0,0): raise Exception
            suf=str(4+k.index(1)); assert sum(k)==1
        else: suf=str(k[0])
        b=C.get(k); b=show(b) if b is not None else '#0'
        l="".join("    let %s := %s in\n"%(a,c) for a,c in lets)
        out+="Definition %s_%s %s : R :=\n%s%s.\n"%(n,suf,sig,l,wrap(b))
        names.append((k,"%s_%s"%(n,suf)))
    args=" ".join(ps2)
    def mon(k):
        if v=='xtt': return vs[k.index(1)]
        return "Xt^%d"%k[0]
    sig2=("(Li2 : R -> R) " if 'Li2' in ps2 else "")+"(%s : R)"%" ".join(p for p in ps if p!='Li2')
    out+="Lemma %s_poly %s : %s %s = (%s)%%R.\n"%(n,sig2,n," ".join(ps)," + ".join("%s %s * %s"%(nm,args,mon(k)) for k,nm in names))
    out+="Proof. unfold %s. %s unR. unfold Rdiv. first [ring|unfold pow5, pow4, pow3, pow2; unR; ring]. Qed.\n\n"%(", ".join([n]+[x for _,x in names]), "rewrite ?(p2 Xt), ?(p3 Xt), ?(p4 Xt), ?(p5 Xt)." if v!='xtt' else "")
open('/verif/rocq/theories/XtCoef.v','w').write(out)
print({n:len(d) for n,d in deg.items()}, len(out))
