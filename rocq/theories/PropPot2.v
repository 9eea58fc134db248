(** * Property theorem C62: the field renormalisation of the light Higgs boson enters vev and Yukawa couplings universally *)
From Coq Require Import Reals Lra Lia List ZArith Bool.
From Coquelicot Require Import Coquelicot.
From Verif Require Import Num NumFacts Except Params HierFormulas LoopFun LoopSpec Thresh Threshold ThreshSpec ParamsExamples ThreshProofs PropLoop PotSpec PotProofs PropPot.
Import ListNotations.
Open Scope R_scope.

(** the point with other third-generation trilinear couplings *)
Definition set22 (m : mat3 R) (x : R) : mat3 R := mkM3 (a00 m) (a01 m) (a02 m) (a10 m) (a11 m) (a12 m) (a20 m) (a21 m) x.
Definition with_trilinears (c : TC R) (At Ab Atau : R) : TC R :=
  let p := tc_p c in
  mkTC (mkParams (scale p) (mu p) (g1 p) (g2 p) (g3 p) (vd p) (vu p) (mq2 p) (md2 p) (mu2 p) (ml2 p) (me2 p)
    (set22 (Au p) At) (set22 (Ad p) Ab) (set22 (Ae p) Atau) (Yu p) (Yd p) (Ye p) (M1 p) (M2 p) (MG p) (MW p) (MZ p) (Mt p) (Mb p) (Mtau p) (MA p)
    (MSt p) (MSb p) (MStau p) (s2t p) (s2b p) (s2tau p) (theta_t p) (theta_b p) (theta_tau p) (massLimit3LThreshold p)) (tc_msq2 c) (tc_xt c).
Definition sb2 (p : Params R) : R := vu p ^ 2 / (vu p ^ 2 + vd p ^ 2).
Definition cb2 (p : Params R) : R := vd p ^ 2 / (vu p ^ 2 + vd p ^ 2).

(** Z = 1 + 3 y^2 X^2 wfr (1 + ... for leptons), v -> v (1 + 1/2 dZ): the coefficient of y^2 *)
Theorem C62_vev (c : TC R) (s : scheme) (o : Z) : let p := tc_p c in phys p -> In (massLimit3LThreshold p) [GENERAL; MQ3_EQ_M3; MU3_EQ_M3] ->
  let mQ := a22 (mq2 p) in let mU := a22 (mu2 p) in let mD := a22 (md2 p) in let mL := a22 (ml2 p) in let mE := a22 (me2 p) in
  mQ <> mU -> mQ / 100 <= Rabs (mQ - mD) -> mL / 100 <= Rabs (mL - mE) ->
  getThresholdCorrection c VEV_YT2 s o = Ok (1/2 * (3 * X_t p ^ 2 * wfr mQ mU)) /\
  getThresholdCorrection c VEV_YB2 s o = Ok (1/2 * (3 * X_b p ^ 2 * wfr mQ mD)) /\
  getThresholdCorrection c VEV_YTAU2 s o = Ok (1/2 * (X_tau p ^ 2 * wfr mL mE)).
Proof.
  intros p (HM & HQ & _ & _ & _ & _ & _ & HS & Hvu & Hvd) HL mQ mU mD mL mE N1 N2 N3.
  assert (Hq : 0 < mQ) by apply (HM (mq2 p) ltac:(left; reflexivity)). assert (Hd : 0 < mD) by apply (HM (md2 p) ltac:(right; left; reflexivity)).
  assert (Hu : 0 < mU) by apply (HM (mu2 p) ltac:(right; right; left; reflexivity)).
  assert (Hl : 0 < mL) by apply (HM (ml2 p) ltac:(right; right; right; left; reflexivity)). assert (He : 0 < mE) by apply (HM (me2 p) ltac:(right; right; right; right; left; reflexivity)).
  assert (HX : calcXt p = X_t p) by (unfold calcXt, calcTanBeta, X_t; unR; field; split; lra).
  assert (HB : calcXb p = X_b p) by (unfold calcXb, calcTanBeta, X_b; unR; field; lra).
  assert (HT : calcXtau p = X_tau p) by (unfold calcXtau, calcTanBeta, X_tau; unR; field; lra).
  assert (N2' : mQ <> mD) by (intros E; rewrite E, Rminus_eq_0, Rabs_R0 in N2; lra). assert (N3' : mL <> mE) by (intros E; rewrite E, Rminus_eq_0, Rabs_R0 in N3; lra).
  cbn [getThresholdCorrection]. fold p. split; [|split].
  - unfold getDeltaVevYt2. cbv zeta. rewrite HX.
    assert (E : forall l, In l [GENERAL; MQ3_EQ_M3; MU3_EQ_M3] -> l = GENERAL \/ l = MQ3_EQ_M3 \/ l = MU3_EQ_M3) by (intros l [H|[H|[H|[]]]]; auto).
    f_equal. rewrite wfr_value by assumption. destruct (E _ HL) as [-> | [-> | ->]]; unfold GENERAL, MQ3_EQ_M3, MU3_EQ_M3; cbn [Z.eqb Pos.eqb orb]; unpow; fold mQ mU; field; lra.
  - unfold getDeltaVevYb2. cbv zeta. rewrite HB. f_equal. rewrite wfr_value by assumption. unpow. change (@ndec R NumR 1 2) with (Rdec 1 2). fold mQ mD.
    destruct (Rltb_spec (Rabs (mQ - mD)) (mQ * Rdec 1 2)) as [B|_].
    + exfalso. unfold Rdec in B. simpl in B. lra.
    + field. lra.
  - unfold getDeltaVevYtau2. cbv zeta. rewrite HT. f_equal. rewrite wfr_value by assumption. unpow. change (@ndec R NumR 1 2) with (Rdec 1 2). fold mL mE.
    destruct (Rltb_spec (Rabs (mL - mE)) (mL * Rdec 1 2)) as [B|_].
    + exfalso. unfold Rdec in B. simpl in B. lra.
    + field. lra.
Qed.

(** second difference of a correction as function of a trilinear coupling: k h^2; for r0 + r1 X - 1/2 K X^2 it is -K h^2 *)
Definition curvature (f : R -> res R) (k : R) : Prop :=
  forall x h, exists v v1 v2, f x = Ok v /\ f (x + h) = Ok v1 /\ f (x - h) = Ok v2 /\ v1 + v2 - 2 * v = k * h ^ 2.
Definition in_At (c : TC R) (o : tco) (s : scheme) (l : Z) (Ab Atau : R) : R -> res R := fun A => getThresholdCorrection (with_trilinears c A Ab Atau) o s l.
Definition in_Ab (c : TC R) (o : tco) (s : scheme) (l : Z) (At Atau : R) : R -> res R := fun A => getThresholdCorrection (with_trilinears c At A Atau) o s l.
Definition in_Atau (c : TC R) (o : tco) (s : scheme) (l : Z) (At Ab : R) : R -> res R := fun A => getThresholdCorrection (with_trilinears c At Ab A) o s l.

Lemma F5_wfr a d : 0 < a -> 0 < d -> apart a d -> F5 (sqrt a / sqrt d) / (sqrt a * sqrt d) = 6 * wfr a d.
Proof.
  intros Ha Hd [H1 H2]. destruct (C24_outside _ H1 H2) as (_ & _ & _ & _ & K5 & _). rewrite K5.
  assert (Pq := sqrt_lt_R0 a Ha). assert (Pu := sqrt_lt_R0 d Hd). assert (Ea := pow2_sqrt a (Rlt_le _ _ Ha)). assert (Ed := pow2_sqrt d (Rlt_le _ _ Hd)).
  set (q := sqrt a) in *. set (u := sqrt d) in *. clearbody q u. subst a d.
  assert (N : q <> u) by (intros E; rewrite E in H2; replace (u / u - 1) with 0 in H2 by (field; lra); rewrite Rabs_R0 in H2; lra).
  assert (N2 : q ^ 2 - u ^ 2 <> 0) by (intros E; assert (E' : (q - u) * (q + u) = 0) by lra; apply Rmult_integral in E'; destruct E'; lra).
  rewrite wfr_value by lra. unfold F5c. replace (q ^ 2 / u ^ 2) with ((q / u) ^ 2) by (field; lra). set (L := ln _). clearbody L.
  field. repeat split; try lra; try (intros E; apply N2; lra).
Qed.
Lemma wfr_pos a d : 0 < a -> 0 < d -> 0 < wfr a d.
Proof.
  intros Ha Hd. unfold wfr.
  assert (P : forall x, 0 <= x <= 1 -> 0 < x * a + (1 - x) * d).
  { intros x Hx. destruct (Rlt_or_le 0 x); [assert (0 < x * a) by (apply Rmult_lt_0_compat; lra); assert (0 <= (1 - x) * d) by (apply Rmult_le_pos; lra); lra|]. replace x with 0 by lra. lra. }
  apply RInt_gt_0; [lra| |].
  - intros x Hx. apply Rdiv_lt_0_compat; [apply Rmult_lt_0_compat; lra|apply P; lra].
  - intros x Hx. specialize (P x Hx). apply (ex_derive_continuous (fun x => x * (1 - x) / (x * a + (1 - x) * d))). auto_derive. replace (1 + - x) with (1 - x) by ring. lra.
Qed.
Lemma sin2_eq (p : Params R) : 0 < vu p -> 0 < vd p -> calcSinBeta p * calcSinBeta p = sb2 p.
Proof.
  intros Hu Hd. unfold calcSinBeta, calcV, calcV2, sb2. unpow. assert (H : 0 < vu p * vu p + vd p * vd p) by nra. assert (S := sqrt_sqrt _ (Rlt_le _ _ H)).
  assert (0 < sqrt (vu p * vu p + vd p * vd p)) by (apply sqrt_lt_R0; exact H).
  replace (vu p / sqrt (vu p * vu p + vd p * vd p) * (vu p / sqrt (vu p * vu p + vd p * vd p))) with (vu p ^ 2 / (sqrt (vu p * vu p + vd p * vd p) * sqrt (vu p * vu p + vd p * vd p))) by (field; lra).
  rewrite S. f_equal. ring.
Qed.
Lemma cos2_eq (p : Params R) : 0 < vu p -> 0 < vd p -> calcCosBeta p * calcCosBeta p = cb2 p.
Proof.
  intros Hu Hd. unfold calcCosBeta, calcV, calcV2, cb2. unpow. assert (H : 0 < vu p * vu p + vd p * vd p) by nra. assert (S := sqrt_sqrt _ (Rlt_le _ _ H)).
  assert (0 < sqrt (vu p * vu p + vd p * vd p)) by (apply sqrt_lt_R0; exact H).
  replace (vd p / sqrt (vu p * vu p + vd p * vd p) * (vd p / sqrt (vu p * vu p + vd p * vd p))) with (vd p ^ 2 / (sqrt (vu p * vu p + vd p * vd p) * sqrt (vu p * vu p + vd p * vd p))) by (field; lra).
  rewrite S. f_equal. ring.
Qed.
(** what the code contains *)
Section Curv.
  Context (c : TC R) (s : scheme) (l : Z).
  Let p := tc_p c.
  Context (HP : phys p).
  Let mQ := a22 (mq2 p). Let mU := a22 (mu2 p). Let mD := a22 (md2 p). Let mL := a22 (ml2 p). Let mE := a22 (me2 p).
  Context (HQU : apart mQ mU) (HQD : apart mQ mD) (HLE : apart mL mE).
  Ltac start := destruct HP as (HM & HQ & Hmu & _ & _ & _ & _ & _ & Hvu & Hvd);
    assert (Hq : 0 < mQ) by apply (HM (mq2 p) ltac:(left; reflexivity)); assert (Hd : 0 < mD) by apply (HM (md2 p) ltac:(right; left; reflexivity));
    assert (Hu : 0 < mU) by apply (HM (mu2 p) ltac:(right; right; left; reflexivity));
    assert (Hl : 0 < mL) by apply (HM (ml2 p) ltac:(right; right; right; left; reflexivity)); assert (He : 0 < mE) by apply (HM (me2 p) ltac:(right; right; right; right; left; reflexivity));
    assert (Sb := sin2_eq p Hvu Hvd); assert (Cb := cos2_eq p Hvu Hvd);
    intros x h; do 3 eexists; split; [reflexivity|]; split; [reflexivity|]; split; [reflexivity|].
  Lemma curv_YT_YT Ab Atau : curvature (in_At c YT_YT s l Ab Atau) (- (3 * sb2 p * wfr mQ mU)).
  Proof.
    start. unfold in_At, with_trilinears. cbn [getThresholdCorrection tc_p]. unfold getDeltaYtYt, calcXt, calcTanBeta. cbv zeta.
    change (calcSinBeta _) with (calcSinBeta p). change (calcCosBeta _) with (calcCosBeta p). cbn [scale mu vu vd mq2 mu2 md2 ml2 me2 Au Ad Ae MA set22 a22]. fold p. unpow. rewrite Sb, Cb.
    replace (- (3 * sb2 p * wfr mQ mU)) with (- (1/2 * sb2 p * (F5 (sqrt mQ / sqrt mU) / (sqrt mQ * sqrt mU)))) by (rewrite (F5_wfr mQ mU Hq Hu HQU); field).
    fold mQ mU. assert (Pq := sqrt_lt_R0 mQ Hq). assert (Pu := sqrt_lt_R0 mU Hu). field. repeat split; lra.
  Qed.
  Lemma curv_YTAU_YTAU At Ab : curvature (in_Atau c YTAU_YTAU s l At Ab) (- (cb2 p * wfr mL mE)).
  Proof.
    start. unfold in_Atau, with_trilinears. cbn [getThresholdCorrection tc_p]. unfold getDeltaYtauYtau, calcXt, calcXb, calcXtau, calcTanBeta. cbv zeta.
    change (calcSinBeta _) with (calcSinBeta p). change (calcCosBeta _) with (calcCosBeta p). cbn [scale mu vu vd mq2 mu2 md2 ml2 me2 Au Ad Ae MA set22 a22]. fold p. unpow. rewrite ?Sb, ?Cb.
    assert (Ps : 0 < sb2 p) by (unfold sb2; apply Rdiv_lt_0_compat; nra).
    replace (- (cb2 p * wfr mL mE)) with (- (1/6 * cb2 p * (F5 (sqrt mL / sqrt mE) / (sqrt mL * sqrt mE)))) by (rewrite (F5_wfr mL mE Hl He HLE); field; lra).
    fold mQ mU mD mL mE. assert (P1 := sqrt_lt_R0 mQ Hq). assert (P2 := sqrt_lt_R0 mU Hu). assert (P3 := sqrt_lt_R0 mD Hd). assert (P4 := sqrt_lt_R0 mL Hl). assert (P5 := sqrt_lt_R0 mE He).
    field. repeat split; lra.
  Qed.
  Lemma curv_YB_YB At Atau : curvature (in_Ab c YB_YB s l At Atau) (- (3 * (cb2 p / sb2 p) * wfr mQ mD)).
  Proof.
    start. unfold in_Ab, with_trilinears. cbn [getThresholdCorrection tc_p]. unfold getDeltaYbYb, calcXt, calcXb, calcXtau, calcTanBeta. cbv zeta.
    change (calcSinBeta _) with (calcSinBeta p). change (calcCosBeta _) with (calcCosBeta p). cbn [scale mu vu vd mq2 mu2 md2 ml2 me2 Au Ad Ae MA set22 a22]. fold p. unpow. rewrite ?Sb, ?Cb.
    assert (Ps : 0 < sb2 p) by (unfold sb2; apply Rdiv_lt_0_compat; nra).
    replace (- (3 * (cb2 p / sb2 p) * wfr mQ mD)) with (- (1/2 * (cb2 p / sb2 p) * (F5 (sqrt mQ / sqrt mD) / (sqrt mQ * sqrt mD)))) by (rewrite (F5_wfr mQ mD Hq Hd HQD); field; lra).
    fold mQ mU mD mL mE. assert (P1 := sqrt_lt_R0 mQ Hq). assert (P2 := sqrt_lt_R0 mU Hu). assert (P3 := sqrt_lt_R0 mD Hd). assert (P4 := sqrt_lt_R0 mL Hl). assert (P5 := sqrt_lt_R0 mE He).
    field. repeat split; lra.
  Qed.
  Lemma curv_YT_YB At Atau : curvature (in_Ab c YT_YB s l At Atau) (- (3 * (cb2 p * (1 + sb2 p) / sb2 p) * wfr mQ mD)).
  Proof.
    start. unfold in_Ab, with_trilinears. cbn [getThresholdCorrection tc_p]. unfold getDeltaYtYb, calcXt, calcXb, calcXtau, calcTanBeta. cbv zeta.
    change (calcSinBeta _) with (calcSinBeta p). change (calcCosBeta _) with (calcCosBeta p). cbn [scale mu vu vd mq2 mu2 md2 ml2 me2 Au Ad Ae MA set22 a22]. fold p. unpow. rewrite ?Sb, ?Cb.
    assert (Ps : 0 < sb2 p) by (unfold sb2; apply Rdiv_lt_0_compat; nra).
    replace (- (3 * (cb2 p * (1 + sb2 p) / sb2 p) * wfr mQ mD)) with (- (1/2 * (cb2 p * (1 + sb2 p) / sb2 p) * (F5 (sqrt mQ / sqrt mD) / (sqrt mQ * sqrt mD)))) by (rewrite (F5_wfr mQ mD Hq Hd HQD); field; lra).
    fold mQ mU mD mL mE. assert (P1 := sqrt_lt_R0 mQ Hq). assert (P2 := sqrt_lt_R0 mU Hu). assert (P3 := sqrt_lt_R0 mD Hd). assert (P4 := sqrt_lt_R0 mL Hl). assert (P5 := sqrt_lt_R0 mE He).
    field. repeat split; lra.
  Qed.
  Lemma curv_YB_YT Ab Atau : curvature (in_At c YB_YT s l Ab Atau) (- (6 * sb2 p * wfr mQ mU)).
  Proof.
    start. unfold in_At, with_trilinears. cbn [getThresholdCorrection tc_p]. unfold getDeltaYbYt, calcXt, calcXb, calcXtau, calcTanBeta. cbv zeta.
    change (calcSinBeta _) with (calcSinBeta p). change (calcCosBeta _) with (calcCosBeta p). cbn [scale mu vu vd mq2 mu2 md2 ml2 me2 Au Ad Ae MA set22 a22]. fold p. unpow. rewrite ?Sb, ?Cb.
    assert (Ps : 0 < sb2 p) by (unfold sb2; apply Rdiv_lt_0_compat; nra).
    replace (- (6 * sb2 p * wfr mQ mU)) with (- (sb2 p * (F5 (sqrt mQ / sqrt mU) / (sqrt mQ * sqrt mU)))) by (rewrite (F5_wfr mQ mU Hq Hu HQU); field; lra).
    fold mQ mU mD mL mE. assert (P1 := sqrt_lt_R0 mQ Hq). assert (P2 := sqrt_lt_R0 mU Hu). assert (P3 := sqrt_lt_R0 mD Hd). assert (P4 := sqrt_lt_R0 mL Hl). assert (P5 := sqrt_lt_R0 mE He).
    field. repeat split; lra.
  Qed.
  Lemma curv_YTAU_YB At Atau : curvature (in_Ab c YTAU_YB s l At Atau) 0.
  Proof. start. unfold in_Ab, with_trilinears. cbn [getThresholdCorrection tc_p]. unfold getDeltaYtauYb, calcXt, calcTanBeta. cbv zeta. change (calcSinBeta _) with (calcSinBeta p). cbn [scale mu vu vd mq2 mu2 md2 ml2 me2 Au Ad Ae MA set22 a22 with_trilinears tc_p]. unR. ring. Qed.
End Curv.
Lemma curvature_unique f k k' : curvature f k -> curvature f k' -> k = k'.
Proof.
  intros H H'. destruct (H 0 1) as (v & v1 & v2 & E & E1 & E2 & HH). destruct (H' 0 1) as (w & w1 & w2 & D & D1 & D2 & HH').
  rewrite E in D. injection D as <-. rewrite E1 in D1. injection D1 as <-. rewrite E2 in D2. injection D2 as <-. lra.
Qed.

(** top and tau Yukawa couplings: the Higgs field renormalisation, with the SM-like coupling y sin(beta) or y cos(beta) *)
Theorem C62_yukawa (c : TC R) (s : scheme) (l : Z) : let p := tc_p c in phys p -> apart (a22 (mq2 p)) (a22 (mu2 p)) -> apart (a22 (ml2 p)) (a22 (me2 p)) ->
  (forall Ab Atau, curvature (in_At c YT_YT s l Ab Atau) (- (3 * sb2 p * wfr (a22 (mq2 p)) (a22 (mu2 p))))) /\
  (forall At Ab, curvature (in_Atau c YTAU_YTAU s l At Ab) (- (cb2 p * wfr (a22 (ml2 p)) (a22 (me2 p))))).
Proof. intros p HP H1 H2. split; intros; [apply curv_YT_YT|apply curv_YTAU_YTAU]; assumption. Qed.
(** for the bottom-quark corrections it fails at every point *)
Theorem C62_bottom_refuted (c : TC R) (s : scheme) (l : Z) (A A' : R) : let p := tc_p c in phys p -> apart (a22 (mq2 p)) (a22 (mu2 p)) -> apart (a22 (mq2 p)) (a22 (md2 p)) ->
  ~ curvature (in_Ab c YB_YB s l A A') (- (3 * cb2 p * wfr (a22 (mq2 p)) (a22 (md2 p)))) /\
  ~ curvature (in_Ab c YT_YB s l A A') (- (3 * cb2 p * wfr (a22 (mq2 p)) (a22 (md2 p)))) /\
  ~ curvature (in_Ab c YTAU_YB s l A A') (- (3 * cb2 p * wfr (a22 (mq2 p)) (a22 (md2 p)))) /\
  ~ curvature (in_At c YB_YT s l A A') (- (3 * sb2 p * wfr (a22 (mq2 p)) (a22 (mu2 p)))).
Proof.
  intros p HP H1 H2. assert (HP' := HP). destruct HP as (HM & _ & _ & _ & _ & _ & _ & _ & Hvu & Hvd).
  assert (Wd := wfr_pos (a22 (mq2 p)) (a22 (md2 p)) ltac:(apply (HM (mq2 p)); left; reflexivity) ltac:(apply (HM (md2 p)); right; left; reflexivity)).
  assert (Wu := wfr_pos (a22 (mq2 p)) (a22 (mu2 p)) ltac:(apply (HM (mq2 p)); left; reflexivity) ltac:(apply (HM (mu2 p)); right; right; left; reflexivity)).
  assert (U : 0 < vu p ^ 2) by (apply pow_lt; exact Hvu). assert (V : 0 < vd p ^ 2) by (apply pow_lt; exact Hvd).
  assert (Ps : 0 < sb2 p) by (apply Rdiv_lt_0_compat; lra). assert (Pc : 0 < cb2 p) by (apply Rdiv_lt_0_compat; lra). assert (Psc : sb2 p + cb2 p = 1) by (unfold sb2, cb2; field; lra).
  set (W := wfr (a22 (mq2 p)) (a22 (md2 p))) in *. set (W' := wfr (a22 (mq2 p)) (a22 (mu2 p))) in *.
  assert (CW : 0 < cb2 p * W) by (apply Rmult_lt_0_compat; assumption). assert (SW : 0 < sb2 p * W') by (apply Rmult_lt_0_compat; assumption).
  assert (I1 : 1 < / sb2 p) by (rewrite <- Rinv_1; apply Rinv_lt_contravar; lra).
  repeat split; intros HC.
  - assert (E : _ = _) by (eapply (curvature_unique _ _ _ HC); apply curv_YB_YB; assumption). fold p W in E. unfold Rdiv in E.
    assert (3 * (cb2 p * W) * (/ sb2 p - 1) = 0) by lra. assert (0 < (cb2 p * W) * (/ sb2 p - 1)) by (apply Rmult_lt_0_compat; lra). lra.
  - assert (E : _ = _) by (eapply (curvature_unique _ _ _ HC); apply curv_YT_YB; assumption). fold p W in E.
    replace (cb2 p * (1 + sb2 p) / sb2 p) with (cb2 p * (/ sb2 p + 1)) in E by (field; lra). nra.
  - assert (E : _ = _) by (eapply (curvature_unique _ _ _ HC); apply curv_YTAU_YB; assumption). fold p W in E. lra.
  - assert (E : _ = _) by (eapply (curvature_unique _ _ _ HC); apply curv_YB_YT; assumption). fold p W' in E. lra.
Qed.
Example C62_case : phys p_pot /\ apart (a22 (mq2 p_pot)) (a22 (mu2 p_pot)) /\ apart (a22 (mq2 p_pot)) (a22 (md2 p_pot)) /\ apart (a22 (ml2 p_pot)) (a22 (me2 p_pot)).
Proof. destruct C61_case as [[H _] [_ [A [B C]]]]. split; [exact H|]. split; [exact A|]. split; [exact B|exact C]. Qed.
Print Assumptions C62_bottom_refuted.
