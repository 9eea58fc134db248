(** * C72, second part: the corrections that depend on the mass unit *)
From Coq Require Import Reals ZArith Bool String Lra Lia.
From Verif Require Import Num NumFacts Except Params HierFormulas Dilog LoopFun LoopProofs Thresh ThreshTwo Threshold UnitSpec UnitProofs UnitFalse UnitRefute PropUnit.
Open Scope R_scope.

(** C72 (iv): the five corrections with the three-mass function Phi: expressed in a unit smaller by the factor 2 they have another value *)
Theorem C72_unit_refuted (o : tco) (sch : scheme) :
  o = LAMBDA_YB6 \/ o = LAMBDA_YT6 \/ o = LAMBDA_YTAU6 \/ o = LAMBDA_YT2_YB4 \/ o = LAMBDA_YT4_YB2 ->
  exists c : TC R, getThresholdCorrection (rescaleTC 2 c) o sch 1 <> getThresholdCorrection c o sch 1.
Proof.
  assert (G : forall f : Params R -> Z -> R, (exists p, f (rescale 2 p) 1%Z <> f p 1%Z) -> exists c : TC R, (Ok (f (tc_p (rescaleTC 2 c)) 1%Z) : res R) <> Ok (f (tc_p c) 1%Z)).
  { intros f (p & H). exists (mkTC p 1 0%Z). cbn [tc_p rescaleTC]. intros E. apply H. congruence. }
  intros [-> |[-> |[-> |[-> | ->]]]].
  - exact (G getDeltaLambdaYb6 Yb6_refuted).
  - exact (G getDeltaLambdaYt6 Yt6_refuted).
  - exact (G getDeltaLambdaYtau6 Ytau6_refuted).
  - exact (G getDeltaLambdaYt2Yb4 Yt2Yb4_refuted).
  - exact (G getDeltaLambdaYt4Yb2 Yt4Yb2_refuted).
Qed.

(** C72 (v): without logarithms (omitLogs = 0) LAMBDA_YB4_G32 depends on the unit: only the logarithms of the scale are dropped *)
Definition ptd (s : R) : Params R :=
  mkParams 1 0 1 1 1 4 3 (dg 1 1 (s * s)) (dg 1 1 (s * s)) (dg 1 1 1) (dg 1 1 1) (dg 1 1 1) (dg 0 0 0) (dg 0 0 0) (dg 0 0 0) (dg 0 0 1) (dg 0 0 1) (dg 0 0 1)
    1 1 s 1 1 1 1 1 1 (mkV2 1 4) (mkV2 1 3) (mkV2 1 3) 0 0 0 0 0 0 0%Z.
Lemma yb4_deg (p : Params R) (s : R) : 0 < s -> a22 (mq2 p) = s * s -> a22 (md2 p) = s * s -> MG p = s -> calcXb p = 0 ->
  getDeltaLambdaYb4G32 p 0 = -128 * ((ln s) * (ln s) - ln s).
Proof.
  intros Hs Hq Hd Hm Hx. unfold getDeltaLambdaYb4G32. rewrite Hq, Hd, Hm, Hx. unfold pow4, pow3, pow2. cbn [nsqrt nmul nsub nadd ndiv nneg nabs nltb nint ndec nlog NumR].
  rewrite !sqrt_square by lra. rewrite (Rminus_diag_eq s s) by reflexivity. rewrite Rabs_R0.
  rewrite Rltb_true by (unfold Rdec; cbn; lra). cbn [andb]. field. lra.
Qed.
Theorem C72_yb4g32_refuted (sch : scheme) :
  exists c : TC R, getThresholdCorrection (rescaleTC 2 c) LAMBDA_YB4_G32 sch 0 <> getThresholdCorrection c LAMBDA_YB4_G32 sch 0.
Proof.
  exists (mkTC (ptd 1) 1 0%Z). intros E.
  assert (E1 : getDeltaLambdaYb4G32 (rescale 2 (ptd 1)) 0 = getDeltaLambdaYb4G32 (ptd 1) 0) by (unfold getThresholdCorrection in E; cbn [tc_p rescaleTC] in E; congruence).
  rewrite (yb4_deg (ptd 1) 1), (yb4_deg (rescale 2 (ptd 1)) 2) in E1; try lra; try (cbn; ring); try (unfold calcXb; cbn; ring).
  rewrite ln_1 in E1. assert (L : 0 < ln 2) by (rewrite <- ln_1; apply ln_increasing; lra).
  assert (U : ln 2 < 1). { rewrite <- (ln_exp 1). apply ln_increasing; [lra|]. pose proof (exp_ineq1 1). lra. }
  nra.
Qed.

(** a concrete case of C72 (i): the same point in two units; its squared masses and its scale differ, its corrections do not *)
Example C72_unit_witness :
  let c := mkTC (pt6 1) 100 3%Z in
  a22 (mu2 (tc_p (rescaleTC 3 c))) = 4050 / 49 /\ a22 (mu2 (tc_p c)) = 450 / 49 /\ scale (tc_p (rescaleTC 3 c)) = 3 /\ tc_msq2 (rescaleTC 3 c) = 900 /\
  getThresholdCorrection (rescaleTC 3 c) LAMBDA_AT_AS S_DRBARPRIME 1 = getThresholdCorrection c LAMBDA_AT_AS S_DRBARPRIME 1.
Proof.
  cbv zeta. repeat split; try (cbn; lra). apply C72_threshold_unit; [lra|reflexivity].
Qed.
