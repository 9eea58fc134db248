# Generates rocq/theories/XtIdent.v: the Xt^4..Xt^6 coefficients of the conversion equal those of the formulas that remove them
import re
src=open('/verif/rocq/theories/ThreshViews.v').read()
par={}
for m in re.finditer(r"Definition (\w+) ((?:\([^)]*\) )+): R :=\n(.*?)\.\n\nLemma", src, re.S):
    ps=[]
    for g in re.findall(r"\(([^:)]*):([^)]*)\)",m.group(2)): ps+=g[0].split()
    par[m.group(1)]=ps
ren=dict(mQ32='(q*q)',mU32='(u*u)',m32='(m*m)',mQ3='q',mU3='u',m3='m',msq2='(s*s)',msq='s',lmQ3MR='L',Li2='Li2')
lims={'G':('q u m s','q <> u -> m <> q -> m <> u -> ',[('s','m'),('u','q')]),
 'QU':('q m s','m <> q -> ',[('s','m')]),
 'QM':('q u s','q <> u -> s <> q -> ',[('u','q'),('q','s')]),
 'UM':('q u s','q <> u -> s <> u -> ',[('q','u'),('u','s')]),
 'QUM':('q s','s <> q -> ',[('q','s')]),
 'D':('q','',[])}
sub={'yta':dict(D='QUM'),'lat':dict(QM='G',UM='G',QUM='QU',D='QU'),'lata':dict(D='QUM')}
eqs={'G':{},'QU':dict(mU32='(q*q)',mU3='q'),'QM':dict(m32='(q*q)',m3='q'),'UM':dict(m32='(u*u)',m3='u'),'QUM':dict(mU32='(q*q)',mU3='q',m32='(q*q)',m3='q'),'D':dict(mU32='(q*q)',mU3='q',m32='(q*q)',m3='q',msq2='(q*q)',msq='q')}
out='''(** * The terms with high powers of Xt in the DR'-to-MSbar conversion
    GENERATED by tools/gen_xt2.py; only used in proofs. *)
From Coq Require Import Reals Lra ZArith Bool String.
From Verif Require Import Num Except Params HierFormulas Dilog LoopFun Thresh ThreshTwo NumFacts ThreshViews XtCoef.
Open Scope R_scope.

(** coefficient of Xt^k of -2 (l (3 y^2 + 2 z) + (a - 4 y l) (g + 2 y)) *)
Definition k4 (y0 y1 z0 z1 z2 l0 l1 l2 l3 l4 a0 a1 a2 a3 a4 a5 g : R) : R :=
  -2 * (l4 * (3*y0^2 + 2*z0) + l3 * (6*y0*y1 + 2*z1) + l2 * (3*y1^2 + 2*z2) + (a4 - 4*(y0*l4 + y1*l3)) * (g + 2*y0) + (a3 - 4*(y0*l3 + y1*l2)) * (2*y1)).
Definition k5 (y0 y1 z0 z1 z2 l0 l1 l2 l3 l4 a0 a1 a2 a3 a4 a5 g : R) : R :=
  -2 * (l4 * (6*y0*y1 + 2*z1) + l3 * (3*y1^2 + 2*z2) + (a5 - 4*y1*l4) * (g + 2*y0) + (a4 - 4*(y0*l4 + y1*l3)) * (2*y1)).
Definition k6 (y0 y1 z0 z1 z2 l0 l1 l2 l3 l4 a0 a1 a2 a3 a4 a5 g : R) : R :=
  -2 * (l4 * (3*y1^2 + 2*z2) + (a5 - 4*y1*l4) * (2*y1)).
(** the strong-coupling threshold *)
Definition g3v (L lq lu lm ls : R) : R := 1/2 - (L + lm - lq) - (L + 10 * (L + ls - lq) + (L + lu - lq)) / 12.

Lemma ln_quot a b : 0 < a -> 0 < b -> ln (a / b) = ln a - ln b.
Proof. intros. unfold Rdiv. rewrite ln_mult by (try apply Rinv_0_lt_compat; assumption). rewrite ln_Rinv by assumption. ring. Qed.
Definition landen_at (f : R -> R) (a b : R) : Prop := f (1 - a * a / (b * b)) = - / 2 * (ln (a * a) - ln (b * b)) ^ 2 - f (1 - b * b / (a * a)).
Ltac opn := unfold pow20, pow19, pow18, pow17, pow16, pow15, pow14, pow13, pow12, pow11, power10, pow9, pow8, pow7, pow6, pow5, pow4, pow3, pow2; unR.
Lemma sqd a b : 0 < a -> 0 < b -> a <> b -> a * a - b * b <> 0.
Proof. intros Ha Hb N E. apply N. assert (F : (a - b) * (a + b) = 0) by lra. apply Rmult_integral in F. destruct F; lra. Qed.
Lemma sqc c a b : 0 < c -> 0 < a -> 0 < b -> a <> b -> c * (a * a - b * b) <> 0.
Proof. intros Hc Ha Hb N E. apply Rmult_integral in E. destruct E as [E|E]; [lra|]. exact (sqd a b Ha Hb N E). Qed.
Ltac tr c a b H := apply (sqc c a b); [repeat apply Rmult_lt_0_compat; assumption|assumption|assumption|exact H|lra].
Ltac nzq := let E := fresh in intros E; match goal with | H : ?a <> ?b |- _ => first [tr a a b H|tr b a b H|tr (a*a) a b H|tr (b*b) a b H|tr (a*b) a b H|tr (a*a*a) a b H|tr (b*b*b) a b H|tr (a*a*a*a) a b H|tr (b*b*b*b) a b H] end.
Ltac nz := let E := fresh in intros E; match goal with | H : ?a <> ?b |- _ => apply (sqd a b); [assumption|assumption|exact H|lra] end.

'''
def call(v,l,k):
    n=v+'_'+sub.get(v,{}).get(l,l)
    r=dict(ren); r.update(eqs[l])
    vs=['Xt','Xt4','Xt5','Xt6']
    return "(%s_%d %s)"%(n,k," ".join(r[p] for p in par[n] if p not in vs)), "%s_%d"%(n,k)
def logs(l):
    r=eqs[l]
    f=lambda n:"(ln (%s))"%(r.get(n,ren[n])[1:-1])
    return "(g3v L %s %s %s %s)"%(f('mQ32'),f('mU32'),f('m32'),f('msq2'))
DEG=dict(yta=2,yta2=3,lat=5,lata=6)
for l,(vs,hyp,lan) in lims.items():
    for k in (4,5,6):
        args=[];names=set()
        for v in ('yta','yta2','lat','lata'):
            for i in range(DEG[v]):
                a,n=call(v,l,i); args.append(a); names.add(n)
        x,n=call('xtt',l,k); names.add(n)
        li="(Li2 : R -> R) " if any('Li2' in par[nn] for nn in ('yta2_'+l,'xtt_'+l)) else ""
        pos=" ".join("0 < %s ->"%v for v in vs.split())
        lh="" .join("landen_at Li2 %s %s -> "%ab for ab in lan)
        out+="Lemma id_%s_%d %s(%s L : R) : %s %s%s\n  %s = k%d %s\n    %s.\n"%(l,k,li,vs,pos,hyp,lh,x,k,"\n    ".join(args),logs(l))
        intro="intros "+" ".join("P%s"%v for v in vs.split())+" "+" ".join("N%d"%i for i in range(hyp.count('->')))+" "+" ".join("E%d"%i for i in range(len(lan)))+"."
        out+="Proof.\n  %s unfold k%d, g3v, %s.\n  opn. unfold landen_at in *.\n"%(intro,k,", ".join(sorted(names)))
        out+="".join("  try rewrite E%d.\n"%i for i in range(len(lan)))
        out+="".join("  assert (Q%s : 0 < %s * %s) by (apply Rmult_lt_0_compat; assumption).\n"%(v,v,v) for v in vs.split())
        out+="  rewrite ?ln_quot by assumption.\n"
        out+="".join("  set (l%s := ln (%s * %s)) in *; clearbody l%s.\n"%(v,v,v,v) for v in vs.split())
        out+="  repeat match goal with |- context [Li2 ?x] => let d := fresh \"D\" in set (d := Li2 x) in *; clearbody d end.\n" if li else ""
        out+="  field. repeat split; first [lra|nz|nzq].\nQed.\n"
open('/verif/rocq/theories/XtIdent.v','w').write(out)
