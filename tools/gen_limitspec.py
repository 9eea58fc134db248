#!/usr/bin/env python3
"""Generates LimitSpec.v from ThreshViews.v: the strong corrections with the dilogarithm as a parameter."""
import re,os
D=os.path.join(os.path.dirname(os.path.abspath(__file__)),'..','rocq','theories')
src=open(os.path.join(D,'ThreshViews.v')).read()
eq={}
for m in re.finditer(r'^Lemma (\w+)_eq \(p : Params R\)(.*?) : (\w+) .*? = (?:Ok )?(.*)\.\nProof',src,re.M):
    eq[m[1]]=(m[3],m[4])
alias={'yta':{'D':'QUM'},'lat':{'QM':'G','UM':'G','QUM':'QU','D':'QU'},'lata':{'D':'QUM'},'lata2':{'D':'QUM'}}
lims=['G','QU','QM','UM','QUM','D']
sig={'yta':('yt_as','getDeltaYtAlphas p l o',''),'lat':('lambda_at','getDeltaLambdaAlphat p l o',''),
 'yta2':('yt_as2','getDeltaYtAlphas2 p msq2 l o','(msq2 : R) '),'lata':('lambda_at_as','getDeltaLambdaAlphatAlphas p l o',''),
 'lata2':('lambda_at_as2','getDeltaLambdaAlphatAlphas2 p msq2 xo l o','(msq2 : R) (xo : Z) '),
 'xtt':('xt_terms','getDRbarPrimeToMSbarXtTerms p msq2 l xo o','(msq2 : R) (xo : Z) ')}
out=['''(** * The strong corrections with the dilogarithm as a parameter
    GENERATED by tools/gen_limitspec.py.  The functions below are the formulas of the model (ThreshTwo.v, Thresh.v) as functions of
    the function [Li2] that they use as dilogarithm; the lemmas [*_code] state that with [Li2 := dilog], the function of
    the code, they are the model. *)
From Coq Require Import Reals ZArith Bool List Lia.
From Verif Require Import Num Except Params HierFormulas Dilog LoopFun Thresh ThreshTwo Threshold ThreshViews ThreshSpec ThreshProofs.
Import ListNotations.
Open Scope R_scope.

(** the value for the mass limit l: GENERAL, MQ3_EQ_MU3, MQ3_EQ_M3, MU3_EQ_M3, MQ3_EQ_MU3_EQ_M3, DEGENERATE *)
Definition pick (l : Z) (g qu qm um qum d : R) : R :=
  if (l =? GENERAL)%Z then g else if (l =? MQ3_EQ_MU3)%Z then qu else if (l =? MQ3_EQ_M3)%Z then qm
  else if (l =? MU3_EQ_M3)%Z then um else if (l =? MQ3_EQ_MU3_EQ_M3)%Z then qum else d.
Local Notation "# z" := (@nint R NumR z) (at level 1, z constr at level 0).
Ltac by_limit H := apply known_cases in H; destruct H as [ -> |[ -> |[ -> |[ -> |[ -> | -> ]]]]]; reflexivity.
''']
for f,(nm,code,ex) in sig.items():
    out.append(f'\nDefinition {nm} (Li2 : R -> R) (p : Params R) {ex}(l o : Z) : R := pick l\n')
    rows=[]
    for l in lims:
        v=f'{f}_{alias.get(f,{}).get(l,l)}'
        rows.append('  '+re.sub(r'\bdilog\b','Li2',eq[v][1]))
    out.append('\n'.join(rows)+'.\n')
    out.append(f'Lemma {nm}_code p {ex}l o : known_limit l -> {code} = Ok ({nm} dilog p {"msq2 " if "msq2" in ex else ""}{"xo " if "xo" in ex else ""}l o).\nProof. intros H. by_limit H. Qed.\n')
out.append('''
Definition vev_yt2 (p : Params R) (l : Z) : R := pick l (vev_G (a22 (mq2 p)) (a22 (mu2 p)) (pow2 (calcXt p))) (pow2 (calcXt p) / (4 * a22 (mq2 p))) (vev_G (a22 (mq2 p)) (a22 (mu2 p)) (pow2 (calcXt p)))
  (vev_G (a22 (mq2 p)) (a22 (mu2 p)) (pow2 (calcXt p))) (pow2 (calcXt p) / (4 * a22 (mq2 p))) (pow2 (calcXt p) / (4 * a22 (mq2 p))).
Lemma vev_yt2_code p l : known_limit l -> getDeltaVevYt2 p l = vev_yt2 p l.
Proof. intros H. by_limit H. Qed.

(** ** getThresholdCorrection and getDRbarPrimeToMSbarShift with the dilogarithm as a parameter *)
Definition correction_with (Li2 : R -> R) (c : TC R) (o : tco) (s : scheme) (omitLogs : Z) : res R :=
  let p := tc_p c in let msq2 := tc_msq2 c in let l := massLimit3LThreshold p in
  let g3as := getDeltaG3Alphas p msq2 omitLogs in let ytas := yt_as Li2 p l omitLogs in let ytas2 := yt_as2 Li2 p msq2 l omitLogs in
  let lat := lambda_at Li2 p l omitLogs in let lata := lambda_at_as Li2 p l omitLogs in let lata2 := lambda_at_as2 Li2 p msq2 (tc_xt c) l omitLogs in
  match o with
  | G3_AS => Ok (match s with S_DRBARPRIME => - g3as | _ => g3as end)
  | YT_AS => Ok (match s with S_DRBARPRIME => - ytas | _ => ytas end)
  | YT_AS2 => Ok (match s with S_DRBARPRIME => 2 * g3as * ytas + ytas * ytas - ytas2 | _ => ytas2 end)
  | LAMBDA_AT => Ok lat
  | LAMBDA_AT_AS => Ok (match s with S_DRBARPRIME => lata - 4 * lat * ytas | _ => lata end)
  | LAMBDA_AT_AS2 => Ok (match s with S_DRBARPRIME => lata2 + (lata * (- 2 * g3as - 4 * ytas) + lat * (8 * g3as * ytas + 10 * (ytas * ytas) - 4 * ytas2)) | _ => lata2 end)
  | VEV_YT2 => Ok (vev_yt2 p l)
  | _ => getThresholdCorrection c o s omitLogs
  end.
Definition shift_with (Li2 : R -> R) (c : TC R) (xtOrder omitLogs omitXtLogs : Z) : res R :=
  let p := tc_p c in let msq2 := tc_msq2 c in let l := massLimit3LThreshold p in
  let g3as := getDeltaG3Alphas p msq2 omitLogs in let ytas := yt_as Li2 p l omitLogs in let ytas2 := yt_as2 Li2 p msq2 l omitLogs in
  let lat := lambda_at Li2 p l omitLogs in let lata := lambda_at_as Li2 p l omitLogs in
  let x k := xt_terms Li2 p msq2 k l omitXtLogs in
  let xt := if (xtOrder <=? 3)%Z then x 4%Z + x 5%Z + x 6%Z else x 5%Z + x 6%Z in
  Ok (- (-2 * (lat * (3 * (ytas * ytas) + 2 * ytas2) + (lata - 4 * ytas * lat) * (g3as + 2 * ytas)) - xt)).
(** with the dilogarithm of the code this is the code *)
Theorem correction_with_code c o s omitLogs : known_limit (getLimit c) -> correction_with dilog c o s omitLogs = getThresholdCorrection c o s omitLogs.
Proof.
  destruct c as [p ms xo]. cbn [getLimit tc_p]. intros H. unfold correction_with, getThresholdCorrection. cbn [tc_p tc_msq2 tc_xt].
  destruct o; try reflexivity; rewrite ?yt_as_code, ?yt_as2_code, ?lambda_at_code, ?lambda_at_as_code, ?lambda_at_as2_code, ?vev_yt2_code by exact H; destruct s; reflexivity.
Qed.
Theorem shift_with_code c x o ox : known_limit (getLimit c) -> shift_with dilog c x o ox = getDRbarPrimeToMSbarShift c x o ox.
Proof.
  destruct c as [p ms xo]. cbn [getLimit tc_p]. intros H. unfold shift_with, getDRbarPrimeToMSbarShift. cbn [tc_p tc_msq2 tc_xt].
  rewrite ?yt_as_code, ?yt_as2_code, ?lambda_at_code, ?lambda_at_as_code, ?xt_terms_code by exact H. cbn [bind]. destruct (x <=? 3)%Z; reflexivity.
Qed.
''')
open(os.path.join(D,'LimitSpec.v'),'w').write(''.join(out))
