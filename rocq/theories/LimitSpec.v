(** * The strong corrections with the dilogarithm as a parameter
    GENERATED by tools/gen_limitspec.py.  The functions below are the formulas of the model (ThreshTwo.v, Thresh.v) as functions of
    the function [Li2] that they use as dilogarithm; the lemmas [*_code] state that with [Li2 := dilog], the function of
    the code, they are the model. *)
From Coq Require Import Reals ZArith Bool List Lia.
From Verif Require Import Num Except Params HierFormulas Dilog LoopFun Thresh ThreshTwo Threshold ThreshViews ThreshSpec ThreshProofs.
Import ListNotations.
Open Scope R_scope.

(** the value for the mass limit l: GENERAL, MQ3_EQ_MU3, MQ3_EQ_M3, MU3_EQ_M3, MQ3_EQ_MU3_EQ_M3, DEGENERATE *)
Definition pick (l : Z) (g qu qm um qum d : R) : R :=
  if (l =? GENERAL)%Z then g else if (l =? MQ3_EQ_MU3)%Z then qu else if (l =? MQ3_EQ_M3)%Z then qm
  else if (l =? MU3_EQ_M3)%Z then um else if (l =? MQ3_EQ_MU3_EQ_M3)%Z then qum else d.
Local Notation "# z" := (@nint R NumR z) (at level 1, z constr at level 0).
Ltac by_limit H := apply known_cases in H; destruct H as [ -> |[ -> |[ -> |[ -> |[ -> | -> ]]]]]; reflexivity.

Definition yt_as (Li2 : R -> R) (p : Params R) (l o : Z) : R := pick l
  (yta_G (a22 (mq2 p)) (a22 (mu2 p)) (pow2 (MG p)) (nsqrt (a22 (mq2 p))) (nsqrt (a22 (mu2 p))) (nsqrt (pow2 (MG p))) (calcXt p) (#o * nlog (pow2 (v0 (MSt p)) / pow2 (scale p)) + nlog (a22 (mq2 p) / pow2 (v0 (MSt p)))))
  (yta_QU (a22 (mq2 p)) (pow2 (MG p)) (nsqrt (a22 (mq2 p))) (nsqrt (pow2 (MG p))) (calcXt p) (#o * nlog (pow2 (v0 (MSt p)) / pow2 (scale p)) + nlog (a22 (mq2 p) / pow2 (v0 (MSt p)))))
  (yta_QM (a22 (mq2 p)) (a22 (mu2 p)) (nsqrt (a22 (mq2 p))) (calcXt p) (#o * nlog (pow2 (v0 (MSt p)) / pow2 (scale p)) + nlog (a22 (mq2 p) / pow2 (v0 (MSt p)))))
  (yta_UM (a22 (mq2 p)) (a22 (mu2 p)) (nsqrt (a22 (mq2 p))) (nsqrt (a22 (mu2 p))) (calcXt p) (#o * nlog (pow2 (v0 (MSt p)) / pow2 (scale p)) + nlog (a22 (mq2 p) / pow2 (v0 (MSt p)))))
  (yta_QUM (nsqrt (a22 (mq2 p))) (calcXt p) (#o * nlog (pow2 (v0 (MSt p)) / pow2 (scale p)) + nlog (a22 (mq2 p) / pow2 (v0 (MSt p)))))
  (yta_QUM (nsqrt (a22 (mq2 p))) (calcXt p) (#o * nlog (pow2 (v0 (MSt p)) / pow2 (scale p)) + nlog (a22 (mq2 p) / pow2 (v0 (MSt p))))).
Lemma yt_as_code p l o : known_limit l -> getDeltaYtAlphas p l o = Ok (yt_as dilog p l o).
Proof. intros H. by_limit H. Qed.

Definition lambda_at (Li2 : R -> R) (p : Params R) (l o : Z) : R := pick l
  (lat_G (a22 (mq2 p)) (a22 (mu2 p)) (calcXt p) (#o * nlog (pow2 (v0 (MSt p)) / pow2 (scale p)) + nlog (a22 (mq2 p) / pow2 (v0 (MSt p)))))
  (lat_QU (a22 (mq2 p)) (calcXt p) (#o * nlog (pow2 (v0 (MSt p)) / pow2 (scale p)) + nlog (a22 (mq2 p) / pow2 (v0 (MSt p)))))
  (lat_G (a22 (mq2 p)) (a22 (mu2 p)) (calcXt p) (#o * nlog (pow2 (v0 (MSt p)) / pow2 (scale p)) + nlog (a22 (mq2 p) / pow2 (v0 (MSt p)))))
  (lat_G (a22 (mq2 p)) (a22 (mu2 p)) (calcXt p) (#o * nlog (pow2 (v0 (MSt p)) / pow2 (scale p)) + nlog (a22 (mq2 p) / pow2 (v0 (MSt p)))))
  (lat_QU (a22 (mq2 p)) (calcXt p) (#o * nlog (pow2 (v0 (MSt p)) / pow2 (scale p)) + nlog (a22 (mq2 p) / pow2 (v0 (MSt p)))))
  (lat_QU (a22 (mq2 p)) (calcXt p) (#o * nlog (pow2 (v0 (MSt p)) / pow2 (scale p)) + nlog (a22 (mq2 p) / pow2 (v0 (MSt p))))).
Lemma lambda_at_code p l o : known_limit l -> getDeltaLambdaAlphat p l o = Ok (lambda_at dilog p l o).
Proof. intros H. by_limit H. Qed.

Definition yt_as2 (Li2 : R -> R) (p : Params R) (msq2 : R) (l o : Z) : R := pick l
  (yta2_G Li2 (a22 (mq2 p)) (a22 (mu2 p)) (pow2 (MG p)) (nsqrt (a22 (mq2 p))) (nsqrt (a22 (mu2 p))) (nsqrt (pow2 (MG p))) msq2 (nsqrt msq2) (calcXt p) (#o * nlog (pow2 (v0 (MSt p)) / pow2 (scale p)) + nlog (a22 (mq2 p) / pow2 (v0 (MSt p)))))
  (yta2_QU Li2 (a22 (mq2 p)) (pow2 (MG p)) (nsqrt (a22 (mq2 p))) (nsqrt (pow2 (MG p))) msq2 (nsqrt msq2) (calcXt p) (#o * nlog (pow2 (v0 (MSt p)) / pow2 (scale p)) + nlog (a22 (mq2 p) / pow2 (v0 (MSt p)))))
  (yta2_QM Li2 (a22 (mq2 p)) (a22 (mu2 p)) (nsqrt (a22 (mq2 p))) (nsqrt (a22 (mu2 p))) msq2 (nsqrt msq2) (calcXt p) (#o * nlog (pow2 (v0 (MSt p)) / pow2 (scale p)) + nlog (a22 (mq2 p) / pow2 (v0 (MSt p)))))
  (yta2_UM Li2 (a22 (mq2 p)) (a22 (mu2 p)) (nsqrt (a22 (mq2 p))) (nsqrt (a22 (mu2 p))) msq2 (nsqrt msq2) (calcXt p) (#o * nlog (pow2 (v0 (MSt p)) / pow2 (scale p)) + nlog (a22 (mq2 p) / pow2 (v0 (MSt p)))))
  (yta2_QUM Li2 (a22 (mq2 p)) (nsqrt (a22 (mq2 p))) msq2 (calcXt p) (#o * nlog (pow2 (v0 (MSt p)) / pow2 (scale p)) + nlog (a22 (mq2 p) / pow2 (v0 (MSt p)))))
  (yta2_D (a22 (mq2 p)) (nsqrt (a22 (mq2 p))) (calcXt p) (#o * nlog (pow2 (v0 (MSt p)) / pow2 (scale p)) + nlog (a22 (mq2 p) / pow2 (v0 (MSt p))))).
Lemma yt_as2_code p (msq2 : R) l o : known_limit l -> getDeltaYtAlphas2 p msq2 l o = Ok (yt_as2 dilog p msq2 l o).
Proof. intros H. by_limit H. Qed.

Definition lambda_at_as (Li2 : R -> R) (p : Params R) (l o : Z) : R := pick l
  (lata_G Li2 (a22 (mq2 p)) (a22 (mu2 p)) (pow2 (MG p)) (nsqrt (a22 (mq2 p))) (nsqrt (a22 (mu2 p))) (nsqrt (pow2 (MG p))) (calcXt p) (#o * nlog (pow2 (v0 (MSt p)) / pow2 (scale p)) + nlog (a22 (mq2 p) / pow2 (v0 (MSt p)))))
  (lata_QU Li2 (a22 (mq2 p)) (pow2 (MG p)) (nsqrt (a22 (mq2 p))) (nsqrt (pow2 (MG p))) (calcXt p) (#o * nlog (pow2 (v0 (MSt p)) / pow2 (scale p)) + nlog (a22 (mq2 p) / pow2 (v0 (MSt p)))))
  (lata_QM Li2 (a22 (mq2 p)) (a22 (mu2 p)) (nsqrt (a22 (mq2 p))) (nsqrt (a22 (mu2 p))) (calcXt p) (#o * nlog (pow2 (v0 (MSt p)) / pow2 (scale p)) + nlog (a22 (mq2 p) / pow2 (v0 (MSt p)))))
  (lata_UM Li2 (a22 (mq2 p)) (a22 (mu2 p)) (nsqrt (a22 (mq2 p))) (nsqrt (a22 (mu2 p))) (calcXt p) (#o * nlog (pow2 (v0 (MSt p)) / pow2 (scale p)) + nlog (a22 (mq2 p) / pow2 (v0 (MSt p)))))
  (lata_QUM (a22 (mq2 p)) (nsqrt (a22 (mq2 p))) (calcXt p) (#o * nlog (pow2 (v0 (MSt p)) / pow2 (scale p)) + nlog (a22 (mq2 p) / pow2 (v0 (MSt p)))))
  (lata_QUM (a22 (mq2 p)) (nsqrt (a22 (mq2 p))) (calcXt p) (#o * nlog (pow2 (v0 (MSt p)) / pow2 (scale p)) + nlog (a22 (mq2 p) / pow2 (v0 (MSt p))))).
Lemma lambda_at_as_code p l o : known_limit l -> getDeltaLambdaAlphatAlphas p l o = Ok (lambda_at_as dilog p l o).
Proof. intros H. by_limit H. Qed.

Definition lambda_at_as2 (Li2 : R -> R) (p : Params R) (msq2 : R) (xo : Z) (l o : Z) : R := pick l
  (lata2_G Li2 (a22 (mq2 p)) (a22 (mu2 p)) (pow2 (MG p)) (nsqrt (a22 (mq2 p))) (nsqrt (a22 (mu2 p))) (nsqrt (pow2 (MG p))) msq2 (calcXt p) (if (xo <? 4)%Z then #0 else pow4 (calcXt p)) (if (xo <? 5)%Z then #0 else pow5 (calcXt p)) (ndec 1202056903159594 15) (#o * nlog (pow2 (v0 (MSt p)) / pow2 (scale p)) + nlog (a22 (mq2 p) / pow2 (v0 (MSt p)))))
  (lata2_QU Li2 (a22 (mq2 p)) (pow2 (MG p)) (nsqrt (a22 (mq2 p))) (nsqrt (pow2 (MG p))) msq2 (calcXt p) (if (xo <? 4)%Z then #0 else pow4 (calcXt p)) (if (xo <? 5)%Z then #0 else pow5 (calcXt p)) (ndec 1202056903159594 15) (#o * nlog (pow2 (v0 (MSt p)) / pow2 (scale p)) + nlog (a22 (mq2 p) / pow2 (v0 (MSt p)))))
  (lata2_QM Li2 (a22 (mq2 p)) (a22 (mu2 p)) (nsqrt (a22 (mq2 p))) (nsqrt (a22 (mu2 p))) msq2 (calcXt p) (if (xo <? 4)%Z then #0 else pow4 (calcXt p)) (if (xo <? 5)%Z then #0 else pow5 (calcXt p)) (ndec 1202056903159594 15) (#o * nlog (pow2 (v0 (MSt p)) / pow2 (scale p)) + nlog (a22 (mq2 p) / pow2 (v0 (MSt p)))))
  (lata2_UM Li2 (a22 (mq2 p)) (a22 (mu2 p)) (nsqrt (a22 (mq2 p))) (nsqrt (a22 (mu2 p))) msq2 (calcXt p) (if (xo <? 4)%Z then #0 else pow4 (calcXt p)) (if (xo <? 5)%Z then #0 else pow5 (calcXt p)) (ndec 1202056903159594 15) (#o * nlog (pow2 (v0 (MSt p)) / pow2 (scale p)) + nlog (a22 (mq2 p) / pow2 (v0 (MSt p)))))
  (lata2_QUM (a22 (mq2 p)) (nsqrt (a22 (mq2 p))) msq2 (calcXt p) (if (xo <? 4)%Z then #0 else pow4 (calcXt p)) (if (xo <? 5)%Z then #0 else pow5 (calcXt p)) (ndec 1202056903159594 15) (#o * nlog (pow2 (v0 (MSt p)) / pow2 (scale p)) + nlog (a22 (mq2 p) / pow2 (v0 (MSt p)))))
  (lata2_QUM (a22 (mq2 p)) (nsqrt (a22 (mq2 p))) msq2 (calcXt p) (if (xo <? 4)%Z then #0 else pow4 (calcXt p)) (if (xo <? 5)%Z then #0 else pow5 (calcXt p)) (ndec 1202056903159594 15) (#o * nlog (pow2 (v0 (MSt p)) / pow2 (scale p)) + nlog (a22 (mq2 p) / pow2 (v0 (MSt p))))).
Lemma lambda_at_as2_code p (msq2 : R) (xo : Z) l o : known_limit l -> getDeltaLambdaAlphatAlphas2 p msq2 xo l o = Ok (lambda_at_as2 dilog p msq2 xo l o).
Proof. intros H. by_limit H. Qed.

Definition xt_terms (Li2 : R -> R) (p : Params R) (msq2 : R) (xo : Z) (l o : Z) : R := pick l
  (xtt_G Li2 (a22 (mq2 p)) (a22 (mu2 p)) (pow2 (MG p)) (nsqrt (a22 (mq2 p))) (nsqrt (a22 (mu2 p))) (nsqrt (pow2 (MG p))) msq2 (nsqrt msq2) (if negb (xo =? 4)%Z then #0 else pow4 (calcXt p)) (if negb (xo =? 5)%Z then #0 else pow5 (calcXt p)) (if negb (xo =? 6)%Z then #0 else pow6 (calcXt p)) (#o * nlog (pow2 (v0 (MSt p)) / pow2 (scale p)) + nlog (a22 (mq2 p) / pow2 (v0 (MSt p)))))
  (xtt_QU Li2 (a22 (mq2 p)) (pow2 (MG p)) (nsqrt (a22 (mq2 p))) (nsqrt (pow2 (MG p))) msq2 (nsqrt msq2) (if negb (xo =? 4)%Z then #0 else pow4 (calcXt p)) (if negb (xo =? 5)%Z then #0 else pow5 (calcXt p)) (if negb (xo =? 6)%Z then #0 else pow6 (calcXt p)) (#o * nlog (pow2 (v0 (MSt p)) / pow2 (scale p)) + nlog (a22 (mq2 p) / pow2 (v0 (MSt p)))))
  (xtt_QM Li2 (a22 (mq2 p)) (a22 (mu2 p)) (nsqrt (a22 (mq2 p))) (nsqrt (a22 (mu2 p))) msq2 (nsqrt msq2) (if negb (xo =? 4)%Z then #0 else pow4 (calcXt p)) (if negb (xo =? 5)%Z then #0 else pow5 (calcXt p)) (if negb (xo =? 6)%Z then #0 else pow6 (calcXt p)) (#o * nlog (pow2 (v0 (MSt p)) / pow2 (scale p)) + nlog (a22 (mq2 p) / pow2 (v0 (MSt p)))))
  (xtt_UM Li2 (a22 (mq2 p)) (a22 (mu2 p)) (nsqrt (a22 (mq2 p))) (nsqrt (a22 (mu2 p))) msq2 (nsqrt msq2) (if negb (xo =? 4)%Z then #0 else pow4 (calcXt p)) (if negb (xo =? 5)%Z then #0 else pow5 (calcXt p)) (if negb (xo =? 6)%Z then #0 else pow6 (calcXt p)) (#o * nlog (pow2 (v0 (MSt p)) / pow2 (scale p)) + nlog (a22 (mq2 p) / pow2 (v0 (MSt p)))))
  (xtt_QUM Li2 (a22 (mq2 p)) (nsqrt (a22 (mq2 p))) msq2 (nsqrt msq2) (if negb (xo =? 4)%Z then #0 else pow4 (calcXt p)) (if negb (xo =? 5)%Z then #0 else pow5 (calcXt p)) (if negb (xo =? 6)%Z then #0 else pow6 (calcXt p)) (#o * nlog (pow2 (v0 (MSt p)) / pow2 (scale p)) + nlog (a22 (mq2 p) / pow2 (v0 (MSt p)))))
  (xtt_D (nsqrt (a22 (mq2 p))) (if negb (xo =? 4)%Z then #0 else pow4 (calcXt p)) (if negb (xo =? 5)%Z then #0 else pow5 (calcXt p)) (if negb (xo =? 6)%Z then #0 else pow6 (calcXt p)) (#o * nlog (pow2 (v0 (MSt p)) / pow2 (scale p)) + nlog (a22 (mq2 p) / pow2 (v0 (MSt p))))).
Lemma xt_terms_code p (msq2 : R) (xo : Z) l o : known_limit l -> getDRbarPrimeToMSbarXtTerms p msq2 l xo o = Ok (xt_terms dilog p msq2 xo l o).
Proof. intros H. by_limit H. Qed.

Definition vev_yt2 (p : Params R) (l : Z) : R := pick l (vev_G (a22 (mq2 p)) (a22 (mu2 p)) (pow2 (calcXt p))) (pow2 (calcXt p) / (4 * a22 (mq2 p))) (vev_G (a22 (mq2 p)) (a22 (mu2 p)) (pow2 (calcXt p)))
  (vev_G (a22 (mq2 p)) (a22 (mu2 p)) (pow2 (calcXt p))) (pow2 (calcXt p) / (4 * a22 (mq2 p))) (pow2 (calcXt p) / (4 * a22 (mq2 p))).
Lemma vev_yt2_code p l : known_limit l -> getDeltaVevYt2 p l = vev_yt2 p l.
Proof. intros H. by_limit H. Qed.

(** ** getThresholdCorrection and getDRbarPrimeToMSbarShift with the dilogarithm as a parameter *)
Definition correction_with (Li2 : R -> R) (c : TC R) (o : tco) (s : scheme) (omitLogs : Z) : res R :=
  let p := tc_p c in let msq2 := tc_msq2 c in let l := massLimit3LThreshold p in
  let g3as := getDeltaG3Alphas p msq2 omitLogs in let ytas := yt_as Li2 p l omitLogs in let ytas2 := yt_as2 Li2 p msq2 l omitLogs in
  let lat := lambda_at Li2 p l omitLogs in let lata := lambda_at_as Li2 p l omitLogs in let lata2 := lambda_at_as2 Li2 p msq2 (tc_xt c) l omitLogs in
  match o with
  | G3_AS => Ok (match s with S_DRBARPRIME => - g3as | _ => g3as end)
  | YT_AS => Ok (match s with S_DRBARPRIME => - ytas | _ => ytas end)
  | YT_AS2 => Ok (match s with S_DRBARPRIME => 2 * g3as * ytas + ytas * ytas - ytas2 | _ => ytas2 end)
  | LAMBDA_AT => Ok lat
  | LAMBDA_AT_AS => Ok (match s with S_DRBARPRIME => lata - 4 * lat * ytas | _ => lata end)
  | LAMBDA_AT_AS2 => Ok (match s with S_DRBARPRIME => lata2 + (lata * (- 2 * g3as - 4 * ytas) + lat * (8 * g3as * ytas + 10 * (ytas * ytas) - 4 * ytas2)) | _ => lata2 end)
  | VEV_YT2 => Ok (vev_yt2 p l)
  | _ => getThresholdCorrection c o s omitLogs
  end.
Definition shift_with (Li2 : R -> R) (c : TC R) (xtOrder omitLogs omitXtLogs : Z) : res R :=
  let p := tc_p c in let msq2 := tc_msq2 c in let l := massLimit3LThreshold p in
  let g3as := getDeltaG3Alphas p msq2 omitLogs in let ytas := yt_as Li2 p l omitLogs in let ytas2 := yt_as2 Li2 p msq2 l omitLogs in
  let lat := lambda_at Li2 p l omitLogs in let lata := lambda_at_as Li2 p l omitLogs in
  let x k := xt_terms Li2 p msq2 k l omitXtLogs in
  let xt := if (xtOrder <=? 3)%Z then x 4%Z + x 5%Z + x 6%Z else x 5%Z + x 6%Z in
  Ok (- (-2 * (lat * (3 * (ytas * ytas) + 2 * ytas2) + (lata - 4 * ytas * lat) * (g3as + 2 * ytas)) - xt)).
(** with the dilogarithm of the code this is the code *)
Theorem correction_with_code c o s omitLogs : known_limit (getLimit c) -> correction_with dilog c o s omitLogs = getThresholdCorrection c o s omitLogs.
Proof.
  destruct c as [p ms xo]. cbn [getLimit tc_p]. intros H. unfold correction_with, getThresholdCorrection. cbn [tc_p tc_msq2 tc_xt].
  destruct o; try reflexivity; rewrite ?yt_as_code, ?yt_as2_code, ?lambda_at_code, ?lambda_at_as_code, ?lambda_at_as2_code, ?vev_yt2_code by exact H; destruct s; reflexivity.
Qed.
Theorem shift_with_code c x o ox : known_limit (getLimit c) -> shift_with dilog c x o ox = getDRbarPrimeToMSbarShift c x o ox.
Proof.
  destruct c as [p ms xo]. cbn [getLimit tc_p]. intros H. unfold shift_with, getDRbarPrimeToMSbarShift. cbn [tc_p tc_msq2 tc_xt].
  rewrite ?yt_as_code, ?yt_as2_code, ?lambda_at_code, ?lambda_at_as_code, ?xt_terms_code by exact H. cbn [bind]. destruct (x <=? 3)%Z; reflexivity.
Qed.
