import re,sys
sys.path.insert(0,'/verif/tools')
import fort2coq as F
PATH='source/himalaya/mh2l/DSZHiggs.f'
src=open('/repo/'+PATH).read().split('\n')
F.units.__doc__
def units(a,b):
    res=[]; cur=None
    for n,t in F.logical_lines(src,a,b):
        m=re.match(r'(subroutine|double precision function|function|complex\*16 function)\s+(\w+)\s*\((.*?)\)',t)
        if m and cur is None:
            cur=[m.group(1),m.group(2),[x.strip() for x in m.group(3).split(',')],n,None,[]]; continue
        if t=='end' or t.startswith('end function') or t.startswith('end subroutine'):
            cur[4]=n; res.append(cur); cur=None; continue
        if cur is not None: cur[5].append((n,t))
    return {u[1]:u for u in res}
U=units(1,len(src))
OUT={'strfuncs':['f1','f2','f3'],'strsfuncs':['sf2','sf3'],'strresfuncs':['f2_s','sf2_a','sf3_a'],'strdfuncs':['df1','df2','df3','dsf2','dsf3'],
 'dszhiggs':['s11','s22','s12'],'dszodd':['dma'],'strfuncsodd':['fa','fa_a'],
 'taubot':['s11','s12','s22'],'taubotodd':['dma'],'makefuncstau':'f1t f2t f3t f4t f1b f2b f3b f4b f5 f6 ft fb gt gb fap'.split(),
 'tausqhiggs':['s11','s22','s12'],'tausqodd':['dma'],'taufuncs':['f1','f2','f3'],'tauresfuncs':['f2_s'],
 'tausfuncs':['dmuf2','dmuf3','datf2','datf3','dm12','dm22'],'taudfuncs':['df1','df2','df3','ddmuf2','ddmuf3','ddatf2','ddatf3'],
 'taufuncsodd':['fa','fa_a'],'makefuncs':'f1t f2t f3t f4t f1b f2b f3b f4b f5 f6 ft fb gt gb fap'.split()}
subs={}
for k,o in OUT.items():
    d=U[k][2]; subs[k]={'outs':[d.index(x) for x in o]}
F.KW.update({'fix':'fix_','where':'where_','mod':'mod_','ft':'ft_'})
pw0=F.Tr.e
def e(s,a,lv=0):
    if a[0]=='pow':
        x=a[2][1]; v={'2':2,'2.d0':2,'2.0d0':2,'2d0':2,'3.0d0':3,'4.0d0':4,'3':3,'4':4}[x]
        t='pow%d %s'%(v,s.e(a[1],2)); return '(%s)'%t if lv>=2 else t
    if a[0]=='call' and a[1] in CALLS:
        t=' '.join([CALLS[a[1]]]+[s.e(x,2) for x in a[2]]); return '(%s)'%t if lv>=2 else t
    return pw0(s,a,lv)
F.Tr.e=e
CALLS={}
def emit(name,outs=None,ints=(),oracle=True,stmts=None,extra_final=None,rng=None):
    kind,_,dum,a,b,st=U[name]
    if stmts is None: stmts=st
    ints=set(ints)
    tr=F.Tr('f_','',ints)
    blk=F.block(stmts)
    outs=outs if outs is not None else ([name] if 'function' in kind else OUT[name])
    ins=[d for d in dum if d not in outs]
    asg=F.assigned(blk,subs)
    bad=[v for v in asg if v in ins]
    assert not bad,(name,bad)
    final=extra_final or (F.nm(outs[0]) if len(outs)==1 else '('+', '.join(map(F.nm,outs))+')')
    defined=set(ins)
    lines=F.emit_block(tr,blk,subs,'    ',defined,final)
    ty='T' if len(outs)==1 else ' * '.join(['T']*len(outs))
    o=['','  (** %s:%d-%d *)'%(PATH,a,b),'  Definition f_%s %s : %s :='%(name,' '.join('(%s : %s)'%(F.nm(d),'Z' if d in ints else 'T') for d in ins),ty)]
    for l in lines: o+=F.wrapl(l)
    o[-1]+='.'
    return '\n'.join(o)
HEAD='''(** * FORTRAN two-loop routines
    GENERATED by tools/gen_fort.py from %s, statement by statement.  FORTRAN is case insensitive: all names are in lower case.
    Output arguments are results, in the order of the dummy argument list.  Assignments to input arguments are only made by DDSHiggs and
    DDSodd (their guards, [dds_guards]).  A variable that is not assigned on some path is [undef].  x**2.0d0 is x*x.
    Not translated (fields of [FExt]): the complex dilogarithm cdli2 of Li2.f90 [fx_li2: real part for a real argument], the branch of myphi
    with complex logarithms [fx_phi u v, u = x/z, v = y/z], makefuncs with its 3300-line helper makederiv [fx_makefuncs].
    Not modelled: the tadpole routines (DDStad, ewsb2loop, taubottad, tausqtad), which the library never calls. *)
From Coq Require Import ZArith Bool List.
From Verif Require Import Num Except DSZ.

(** external routines *)
Record FExt (T : Type) := mkFExt {
  fx_li2 : T -> T;
  fx_phi : T -> T -> T;
  (* arguments as in makefuncs (%s:%d); results in the order of its dummy arguments *)
  fx_makefuncs : T -> T -> T -> T -> T -> T -> T -> T -> T -> T -> T -> T -> T -> T -> T -> Z ->
    T * T * T * T * T * T * T * T * T * T * T * T * T * T * T }.
Arguments mkFExt {T}. Arguments fx_li2 {T}. Arguments fx_phi {T}. Arguments fx_makefuncs {T}.

Section Fortran.
  Context {T : Type} {N : Num T} (fx : FExt T).
  Open Scope num_scope.
  Local Notation "a + b" := (@nadd T N a b). Local Notation "a - b" := (@nsub T N a b).
  Local Notation "a * b" := (@nmul T N a b). Local Notation "a / b" := (@ndiv T N a b).
  Local Notation "- a" := (@nneg T N a). Local Notation "# z" := (@nint T N z) (at level 1, z constr at level 0).
  Local Notation ndec := (@Num.ndec T N). Local Notation nlog := (@Num.nlog T N). Local Notation nsqrt := (@Num.nsqrt T N).
  Local Notation pow2 := (@Num.pow2 T N). Local Notation pow3 := (@Num.pow3 T N). Local Notation pow4 := (@Num.pow4 T N).
  Definition undef : T := #0 / #0.
  (** the parameter pi of the routines *)
  Definition pi_f : T := ndec 31415926535897932 16.
'''%(PATH,PATH,U['makefuncs'][3])
out=[HEAD]
out.append('''  (** %s:%d-%d; pLi2 is the real part of the complex dilogarithm *)
  Definition f_pli2 (x : T) : T := fx_li2 fx x.'''%(PATH,U['pli2'][3],U['pli2'][4]))
# myphi: replace the general branch
st=U['myphi'][5]
i=[k for k,(n,t) in enumerate(st) if t.startswith('if((1d0-u-v)**2')][0]
j=[k for k,(n,t) in enumerate(st) if t.startswith('myphi = dreal')][0]
st2=st[:i]+[(st[i][0],'myphi = ftphi(u,v)')]+st[j+1:]
CALLS['ftphi']='fx_phi fx'
out.append(emit('myphi',stmts=st2))
out.append(emit('phi'))
out.append(emit('delt'))
for f in ['myaa','omega','myb0']: out.append(emit(f,outs=[f]))
def group(names): 
    for x in names: out.append(emit(x))
def order(a,b):
    return [u for u in U.values() if a<=u[3]<=b]
def topo(names):
    done=[]
    def go(n):
        if n in done: return
        body=' '.join(t for _,t in U[n][5])
        for m in names:
            if m!=n and re.search(r'\b%s\s*\('%m,body): go(m)
        done.append(n)
    for n in names: go(n)
    return done
def emitall(names,ints):
    for n in topo(names):
        out.append(emit(n,ints=[d for d in U[n][2] if d in ints]))
atas=[u[1] for u in order(4258,4855) if u[1] not in('ewsb2loop','strfuncstad')]
emitall(atas,('os',))
tb=[u[1] for u in order(5294,5724) if u[1]!='taubottad']
emitall(tb,())
tt=[u[1] for u in order(5725,6728)]
emitall(tt,('os',))
# DDS guards
def dds(name,finalouts):
    st=U[name][5]
    k=[i for i,(n,t) in enumerate(st) if t.startswith('s2t =')][0]
    g=[(n,t) for n,t in st[:k] if not re.match(r'm[tb] =',t)]
    return st,k,g
st,k,g=dds('ddshiggs',None); st_,k_,g_=dds('ddsodd',None)
assert [t for _,t in g if not t.startswith('double') and not t.startswith('integer')]==[t for _,t in g_ if not t.startswith('double') and not t.startswith('integer')]
tr=F.Tr('f_','',())
gv='t1 t2 b1 b2 st ct sb cb'.split()
lines=F.emit_block(tr,F.block(g),subs,'    ',set(gv),'(t1, b1, b2, st, ct, sb, cb)')
o=['','  (** the guards at the beginning of DDSHiggs (%s:%d-%d) and, word for word, of DDSodd (:%d-%d): new values of T1, B1, B2, st, ct,'%(PATH,g[0][0],g[-1][0],g_[0][0],g_[-1][0]),
 '      sb, cb.  The dummy arguments are the variables of the C++ caller, so that these changes are visible there. *)',
 '  Definition dds_guards (t1 t2 b1 b2 st ct sb cb : T) : T * T * T * T * T * T * T :=']
for l in lines: o+=F.wrapl(l)
o[-1]+='.'; out.append('\n'.join(o))
CALLS['makefuncs']='fx_makefuncs fx'
eb0=F.emit_block
def emitdds(name):
    kind,_,dum,a,b,st=U[name]
    k=[i for i,(n,t) in enumerate(st) if t.startswith('s2t =')][0]
    pre=[(n,t) for n,t in st[:k] if re.match(r'm[tb] =',t)]
    tr=F.Tr('f_','',('atat',))
    for n,t in st:
        m=re.match(r'double precision, parameter :: pi',t)
    tr.consts['pi']='pi_f'
    outs=['s11','s12','s22'] if name=='ddshiggs' else ['dma']
    ins=[d for d in dum if d not in outs]
    blk=F.block(pre+st[k:])
    lines=F.emit_block(tr,blk,subs,'    ',set(ins),F.nm(outs[0]) if len(outs)==1 else '(%s)'%', '.join(outs))
    lines=[l.replace('f_makefuncs','fx_makefuncs fx').replace('(nint atat)','atat') for l in lines]
    o=['','  (** %s:%d-%d, after the guards *)'%(PATH,st[k][0],b),'  Definition f_%s_core %s : %s :='%(name,' '.join('(%s : %s)'%(F.nm(d),'Z' if d=='atat' else 'T') for d in ins),'T' if len(outs)==1 else 'T * T * T')]
    for l in lines: o+=F.wrapl(l)
    o[-1]+='.'
    out.append('\n'.join(o))
emitdds('ddshiggs'); emitdds('ddsodd')
out.append('''
  (** what the addresses passed by the C++ code hold after the calls *)
  Definition f_ddshiggs (t b a0 t1 t2 b1 b2 st ct sb cb q mu tanb vv : T) (atat : Z) : (T * T * T * T * T * T * T) * (T * T * T) :=
    let '(t1, b1, b2, st, ct, sb, cb) := dds_guards t1 t2 b1 b2 st ct sb cb in
    ((t1, b1, b2, st, ct, sb, cb), f_ddshiggs_core t b a0 t1 t2 b1 b2 st ct sb cb q mu tanb vv atat).
  Definition f_ddsodd (t b a0 t1 t2 b1 b2 st ct sb cb q mu tanb vv : T) (atat : Z) : T :=
    let '(t1, b1, b2, st, ct, sb, cb) := dds_guards t1 t2 b1 b2 st ct sb cb in
    f_ddsodd_core t b a0 t1 t2 b1 b2 st ct sb cb q mu tanb vv atat.

  (** the routines the library is linked with *)
  Definition fortran : Fort T :=
    mkFort (fun t mg t1 t2 st ct q mu tanb v2 gs os => f_dszhiggs t mg t1 t2 st ct q mu tanb v2 gs os)
      (fun t mg t1 t2 st ct q mu tanb v2 gs => f_dszodd t mg t1 t2 st ct q mu tanb v2 gs)
      f_ddshiggs f_ddsodd f_tausqhiggs f_tausqodd f_taubot f_taubotodd (fx_li2 fx).
End Fortran.
''')
open('/verif/rocq/theories/Fortran.v','w').write('\n'.join(out))
