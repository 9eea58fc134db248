#!/usr/bin/env python3
"""Generates LimitProofs.v from ThreshViews.v: limits of the building blocks along the paths of PathSpec."""
import re,os
D=os.path.join(os.path.dirname(os.path.abspath(__file__)),'..','rocq','theories')
src=open(os.path.join(D,'ThreshViews.v')).read()
views={m[0]:(bool(m[1]),m[2].split()) for m in re.findall(r'^Definition (\w+) (\(Li2 : R -> R\) )?\(([\w ]+) : R\) : R :=',src,re.M)}
views['vev_QU']=(False,['mQ32','Xt2'])
alias={'vev':{'QM':'G','UM':'G','QUM':'QU','D':'QU'},'yta':{'D':'QUM'},'lat':{'QM':'G','UM':'G','QUM':'QU','D':'QU'},'lata':{'D':'QUM'},'lata2':{'D':'QUM'}}
get=lambda b,l: alias.get(b,{}).get(l,l)
lims=['G','QU','QM','UM','QUM','D']
masses={'mQ32':'(mQ * mQ)','mU32':'(mU * mU)','m32':'(m3 * m3)','msq2':'(ms * ms)','mQ3':'mQ','mU3':'mU','m3':'m3','msq':'ms'}
oth={'Xt':'X','Xt2':'X','Xt4':'X4','Xt5':'X5','Xt6':'X6','z3':'z','lmQ3MR':'lam'}
def call(v):
    li,args=views[v]
    return '('+v+(' L' if li else '')+' '+' '.join(masses.get(x) or oth[x] for x in args)+')'
out=['''(** * Limits of the building blocks of the strong corrections
    GENERATED by tools/gen_limitproofs.py *)
From Coq Require Import Reals Lra Lia List ZArith Bool.
From Verif Require Import Num NumFacts Except Params HierFormulas LoopFun Thresh ThreshTwo Threshold DilogSpec ThreshViews ThreshSpec ThreshProofs LimitSpec PathSpec AsymPoly AsymNF AsymReif AsymCases.
Import ListNotations.
Open Scope R_scope.
Local Notation "# z" := (@nint R NumR z) (at level 1, z constr at level 0).

Lemma bigO_lim (G : R -> R) q v : 0 < q -> bigO 1 (fun e => G (q * (1 + e)) - v) -> Lim G q v.
Proof.
  intros Hq (C & d & HC & Hd & HB) eps He. exists (Rmin (q * d) (q * (eps / (C + 1)))). split; [apply Rmin_glb_lt; apply Rmult_lt_0_compat; try assumption; apply Rdiv_lt_0_compat; lra|].
  intros m Hm1 Hm2. set (e := (m - q) / q). assert (E : m = q * (1 + e)) by (unfold e; field; lra). assert (Ne : e <> 0) by (intros Z0; apply Hm1; rewrite E, Z0; ring).
  assert (A : Rabs (m - q) = q * Rabs e) by (rewrite <- (Rabs_pos_eq q) at 2 by lra; rewrite <- Rabs_mult; f_equal; unfold e; field; lra). rewrite A in Hm2.
  assert (B1 : Rabs e < d) by (apply (Rmult_lt_reg_l q); [exact Hq|]; eapply Rlt_le_trans; [exact Hm2|apply Rmin_l]).
  assert (B2 : Rabs e < eps / (C + 1)) by (apply (Rmult_lt_reg_l q); [exact Hq|]; eapply Rlt_le_trans; [exact Hm2|apply Rmin_r]).
  rewrite E. eapply Rle_lt_trans; [apply HB; assumption|]. simpl. rewrite Rmult_1_r. apply Rle_lt_trans with ((C + 1) * Rabs e); [apply Rmult_le_compat_r; [apply Rabs_pos|lra]|].
  apply (Rmult_lt_compat_l (C + 1)) in B2; [|lra]. replace ((C + 1) * (eps / (C + 1))) with eps in B2 by (field; lra). exact B2.
Qed.
''']
F=[('vev','vev_yt2',[],'vev_yt2 p'),('yta','yt_as',[],''),('lat','lambda_at',[],''),('yta2','yt_as2',['ms'],''),('lata','lambda_at_as',[],''),('lata2','lambda_at_as2',['ms','xo'],''),('xtt','xt_terms',['ms','xo'],'')]
lamd='(#o * nlog (pow2 (v0 (MSt (tc_p c))) / pow2 (scale (tc_p c)))%num + nlog ((mQ * mQ) / pow2 (v0 (MSt (tc_p c))))%num)'
for f,nm,ex,_ in F:
    args='mQ mU m3 ms X lam z X4 X5 X6'
    out.append(f'Definition m_{f} (L : R -> R) (l : Z) ({args} : R) : R := pick l {" ".join(call(f+"_"+get(f,l)) for l in lims)}.\n')
    if f=='vev': Xs='(pow2 (calcXt (tc_p c)))'
    else: Xs='(calcXt (tc_p c))'
    if f=='lata2': x456='(if (xo <? 4)%Z then #0 else pow4 (calcXt (tc_p c))) (if (xo <? 5)%Z then #0 else pow5 (calcXt (tc_p c))) 0'
    elif f=='xtt': x456='(if negb (xo =? 4)%Z then #0 else pow4 (calcXt (tc_p c))) (if negb (xo =? 5)%Z then #0 else pow5 (calcXt (tc_p c))) (if negb (xo =? 6)%Z then #0 else pow6 (calcXt (tc_p c)))'
    else: x456='0 0 0'
    z='(ndec 1202056903159594 15)' if f=='lata2' else '0'
    lam='0' if f=='vev' else lamd
    rhs=f'm_{f} L l mQ mU m3 ms {Xs} {lam} {z} {x456}'
    at='(tc_p (at_masses c (mQ, mU, m3, ms)))'
    lhs=f'vev_yt2 {at} l' if f=='vev' else f'{nm} L {at} {"(tc_msq2 (at_masses c (mQ, mU, m3, ms))) " if "ms" in ex else ""}{"xo " if "xo" in ex else ""}l o'
    out.append(f'''Lemma {nm}_at L c mQ mU m3 ms {"xo " if "xo" in ex else ""}l {"" if f=="vev" else "o "}: 0 < mQ -> 0 < mU -> 0 < m3 -> 0 < ms -> {lhs} = {rhs}.
Proof. intros H1 H2 H3 H4. unfold {nm}, at_masses. cbn [tc_p tc_msq2 mq2 mu2 a22 with_a22 MG]. change (pow2 m3) with (m3 * m3). rewrite ?(nsqrt_sq mQ), ?(nsqrt_sq mU), ?(nsqrt_sq m3), ?(nsqrt_sq ms) by assumption. reflexivity. Qed.
''')
cases=[('GQU','GENERAL','MQ3_EQ_MU3','q m (q * x1) (q * x2)','q q (q * x1) (q * x2)'),('GQM','GENERAL','MQ3_EQ_M3','q (q * x1) m (q * x2)','q (q * x1) q (q * x2)'),
 ('GUM','GENERAL','MU3_EQ_M3','(q * x1) q m (q * x2)','(q * x1) q q (q * x2)'),('QU','MQ3_EQ_MU3','MQ3_EQ_MU3_EQ_M3','q q m (q * x1)','q q q (q * x1)'),
 ('QM','MQ3_EQ_M3','MQ3_EQ_MU3_EQ_M3','q m q (q * x1)','q q q (q * x1)'),('UM','MU3_EQ_M3','MQ3_EQ_MU3_EQ_M3','q m m (q * x1)','q q q (q * x1)'),('D','MQ3_EQ_MU3_EQ_M3','DEGENERATE','q q q m','q q q q'),
 ('GQUa','GENERAL','MQ3_EQ_MU3','q m (q * x1) (q * x1)','q q (q * x1) (q * x1)'),('GQUb','GENERAL','MQ3_EQ_MU3','q m (q * x1) q','q q (q * x1) q'),
 ('GQMa','GENERAL','MQ3_EQ_M3','q (q * x1) m (q * x1)','q (q * x1) q (q * x1)'),('GUMa','GENERAL','MU3_EQ_M3','(q * x1) q m (q * x1)','(q * x1) q q (q * x1)')]
out.append('''Section Lims.
  Context (L : R -> R) (q x1 x2 X lam z X4 X5 X6 : R) (HL : is_ReLi2 L) (Hq : 0 < q) (H1 : 0 < x1) (H2 : 0 < x2) (N1 : x1 <> 1) (N2 : x2 <> 1) (N12 : x1 <> x2).
''')
for f,nm,ex,_ in F:
    for c,l,l2,g,s in cases:
        w='X lam z X4 X5 X6'
        out.append(f'  Lemma l_{f}_{c} : Lim (fun m => m_{f} L {l} {g} {w}) q (m_{f} L {l2} {s} {w}).\n  Proof. exact (bigO_lim (fun m => m_{f} L {l} {g} {w}) q _ Hq (c_{f}_{c} L q x1 x2 X lam z X4 X5 X6 HL Hq H1 H2 N1 N2 N12)). Qed.\n')
out.append('End Lims.\n')
open(os.path.join(D,'LimitProofs.v'),'w').write(''.join(out))
