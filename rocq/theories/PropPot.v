(** * Property theorem C61: the one-loop matching of the quartic coupling follows from the effective potential *)
From Coq Require Import Reals Lra Lia List ZArith Bool.
From Coquelicot Require Import Coquelicot.
From Verif Require Import Num NumFacts Except Params HierFormulas LoopFun LoopSpec Thresh Threshold ThreshSpec ParamsExamples ThreshProofs PropLoop PotSpec PotProofs.
Import ListNotations.
Open Scope R_scope.

(** the pieces without charginos and neutralinos *)
Definition is_chi (o : tco) : bool := match o with LAMBDA_CHI_G14 | LAMBDA_CHI_G24 | LAMBDA_CHI_G12_G22 => true | _ => false end.
Definition scalar_orders := filter (fun x : tco * (R -> R -> R -> R -> R -> R) => negb (is_chi (fst x))) lambda_orders.
Definition scalar_one_loop (c : TC R) (g1 g2 yt yb ytau : R) : res R :=
  fold_right (fun x acc => let '(o, f) := x in
      do a <- acc; do v <- getThresholdCorrection c o S_DRBARPRIME 1; Ok (f g1 g2 yt yb ytau * v + a))
    (Ok 0) scalar_orders.
(** the ratio of two masses is outside the interval (0.99, 1.01), where the loop functions are evaluated by series (C24) *)
Definition apart (a d : R) : Prop := / 2 ^ 52 < sqrt a / sqrt d /\ 1/100 < Rabs (sqrt a / sqrt d - 1).

Lemma cos2b (p : Params R) : 0 < vu p -> 0 < vd p -> cos (2 * calcBeta p) = c2b p.
Proof.
  intros Hu Hd. unfold calcBeta, calcTanBeta, c2b. unR. rewrite cos_2a_cos, Rmult_assoc, ThreshProofs.cos_atan. field. repeat split; nra.
Qed.
Lemma s2b2 (p : Params R) : 0 < vu p -> 0 < vd p -> s2b p ^ 2 = 1 - c2b p ^ 2.
Proof. intros Hu Hd. unfold s2b, c2b. field. nra. Qed.
Lemma sin4b (x : R) : sin (4 * x) * sin (4 * x) = 1 - cos (4 * x) * cos (4 * x).
Proof. pose proof (sin2_cos2 (4 * x)) as H. unfold Rsqr in H. lra. Qed.

(** ** One sfermion pair *)
Section Pair.
  Context (q u X y g1 g2 c Q : R) (Hq : 0 < q) (Hu : 0 < u) (HN : q <> u) (HQ : 0 < Q).
  Let Lq := ln (q ^ 2 / Q ^ 2).
  Let Lu := ln (u ^ 2 / Q ^ 2).
  Lemma ln_qu : ln ((q / u) ^ 2) = Lq - Lu.
  Proof.
    unfold Lq, Lu. assert (0 < q ^ 2) by (apply pow_lt; exact Hq). assert (0 < u ^ 2) by (apply pow_lt; exact Hu). assert (0 < Q ^ 2) by (apply pow_lt; exact HQ).
    rewrite !ln_div by assumption. replace ((q / u) ^ 2) with (q ^ 2 / u ^ 2) by (field; lra). rewrite ln_div by assumption. ring.
  Qed.
  Lemma q2u2 : q ^ 2 - u ^ 2 <> 0.
  Proof. intros H. assert ((q - u) * (q + u) = 0) by lra. apply Rmult_integral in H0. destruct H0; lra. Qed.
  (** Yukawa and mixed contributions of stops, sbottoms, staus in terms of the closed forms of the loop functions *)
  Lemma pair_up :
    y ^ 4 * (12 * X ^ 4 / (q ^ 2 - u ^ 2) ^ 2 + 12 * Lq + (6 - 12 * X ^ 2 / (q ^ 2 - u ^ 2) + 6 * (q ^ 2 + u ^ 2) / (q ^ 2 - u ^ 2) ^ 3 * X ^ 4) * (Lu - Lq))
    + y ^ 2 * g1 ^ 2 * ((-3) * c * ((-3) * X ^ 2 * F3c (q / u) + c * X ^ 2 * F5c (q / u) + 2 * q * u * (Lq - 4 * Lu)) / (10 * q * u))
    + y ^ 2 * g2 ^ 2 * (- c * X ^ 2 * ((-3) * F4c (q / u) + c * F5c (q / u)) / (2 * q * u) + 3 * c * Lq)
    = 3 * (ev2 (Q ^ 2) (q ^ 2) (y ^ 2 + dterm g1 g2 c (1/2) (1/6)) (u ^ 2) (y ^ 2 + dterm g1 g2 c 0 (-2/3)) (y ^ 2 * X ^ 2) 0
           + ev2 (Q ^ 2) (u ^ 2) (y ^ 2 + dterm g1 g2 c 0 (-2/3)) (q ^ 2) (y ^ 2 + dterm g1 g2 c (1/2) (1/6)) (y ^ 2 * X ^ 2) 0
           - 2 * Lq * dterm g1 g2 c (1/2) (1/6) ^ 2 - 2 * Lu * dterm g1 g2 c 0 (-2/3) ^ 2)
      - 2 * lambda_tree2 g1 g2 c * (3 * y ^ 2 * X ^ 2 * wfr (q ^ 2) (u ^ 2)).
  Proof.
    assert (N := q2u2). assert (0 < q ^ 2) by (apply pow_lt; exact Hq). assert (0 < u ^ 2) by (apply pow_lt; exact Hu).
    rewrite wfr_value by (assumption || lra). replace (q ^ 2 / u ^ 2) with ((q / u) ^ 2) by (field; lra).
    unfold F1c, F2c, F3c, F4c, F5c, ev2. fold Lq Lu. rewrite ln_qu. clearbody Lq Lu. unfold dterm, lambda_tree2.
    field. repeat split; try lra; try (intros E; apply N; lra).
  Qed.
  Lemma pair_down :
    y ^ 4 * ((12 * u * q * X ^ 2 * F1c (q / u) - X ^ 4 * F2c (q / u)) / (u ^ 2 * q ^ 2) + 6 * (Lu + Lq))
    + y ^ 2 * g1 ^ 2 * ((-3) * c * (X ^ 2 * (3 * (F3c (q / u) + F4c (q / u)) + 2 * c * F5c (q / u)) + 4 * u * q * (2 * Lu + Lq)) / (20 * u * q))
    + y ^ 2 * g2 ^ 2 * (- (c * X ^ 2 * (3 * F4c (q / u) + c * F5c (q / u))) / (2 * u * q) - 3 * c * Lq)
    = 3 * (ev2 (Q ^ 2) (q ^ 2) (y ^ 2 + dterm g1 g2 c (-1/2) (1/6)) (u ^ 2) (y ^ 2 + dterm g1 g2 c 0 (1/3)) (y ^ 2 * X ^ 2) 0
           + ev2 (Q ^ 2) (u ^ 2) (y ^ 2 + dterm g1 g2 c 0 (1/3)) (q ^ 2) (y ^ 2 + dterm g1 g2 c (-1/2) (1/6)) (y ^ 2 * X ^ 2) 0
           - 2 * Lq * dterm g1 g2 c (-1/2) (1/6) ^ 2 - 2 * Lu * dterm g1 g2 c 0 (1/3) ^ 2)
      - 2 * lambda_tree2 g1 g2 c * (3 * y ^ 2 * X ^ 2 * wfr (q ^ 2) (u ^ 2)).
  Proof.
    assert (N := q2u2). assert (0 < q ^ 2) by (apply pow_lt; exact Hq). assert (0 < u ^ 2) by (apply pow_lt; exact Hu).
    rewrite wfr_value by (assumption || lra). replace (q ^ 2 / u ^ 2) with ((q / u) ^ 2) by (field; lra).
    unfold F1c, F2c, F3c, F4c, F5c, ev2. fold Lq Lu. rewrite ln_qu. clearbody Lq Lu. unfold dterm, lambda_tree2.
    field. repeat split; try lra; try (intros E; apply N; lra).
  Qed.
  Lemma pair_tau :
    y ^ 4 * ((12 * u * q * X ^ 2 * F1c (q / u) - X ^ 4 * F2c (q / u)) / (3 * u ^ 2 * q ^ 2) + 2 * (Lu + Lq))
    + y ^ 2 * g1 ^ 2 * (c * (X ^ 2 * ((-9) * F3c (q / u) + 3 * F4c (q / u) - 2 * c * F5c (q / u)) / (u * q) + 12 * ((-2) * Lu + Lq)) / 20)
    + y ^ 2 * g2 ^ 2 * (- c * X ^ 2 * (3 * F4c (q / u) + c * F5c (q / u)) / (6 * u * q) - c * Lq)
    = 1 * (ev2 (Q ^ 2) (q ^ 2) (y ^ 2 + dterm g1 g2 c (-1/2) (-1/2)) (u ^ 2) (y ^ 2 + dterm g1 g2 c 0 (1)) (y ^ 2 * X ^ 2) 0
           + ev2 (Q ^ 2) (u ^ 2) (y ^ 2 + dterm g1 g2 c 0 (1)) (q ^ 2) (y ^ 2 + dterm g1 g2 c (-1/2) (-1/2)) (y ^ 2 * X ^ 2) 0
           - 2 * Lq * dterm g1 g2 c (-1/2) (-1/2) ^ 2 - 2 * Lu * dterm g1 g2 c 0 (1) ^ 2)
      - 2 * lambda_tree2 g1 g2 c * (1 * y ^ 2 * X ^ 2 * wfr (q ^ 2) (u ^ 2)).
  Proof.
    assert (N := q2u2). assert (0 < q ^ 2) by (apply pow_lt; exact Hq). assert (0 < u ^ 2) by (apply pow_lt; exact Hu).
    rewrite wfr_value by (assumption || lra). replace (q ^ 2 / u ^ 2) with ((q / u) ^ 2) by (field; lra).
    unfold F1c, F2c, F3c, F4c, F5c, ev2. fold Lq Lu. rewrite ln_qu. clearbody Lq Lu. unfold dterm, lambda_tree2.
    field. repeat split; try lra; try (intros E; apply N; lra).
  Qed.
End Pair.


(** ** Assembling *)
Lemma sd_sf Q2 g1 g2 c T3 YL YR a d y X : 0 < Q2 -> 0 < a -> 0 < d -> a <> d ->
  second_derivative (sfermion_potential Q2 g1 g2 c T3 YL YR a d y X)
    (ev2 Q2 a (y ^ 2 + dterm g1 g2 c T3 YL) d (y ^ 2 + dterm g1 g2 c 0 YR) (y ^ 2 * X ^ 2) 0
     + ev2 Q2 d (y ^ 2 + dterm g1 g2 c 0 YR) a (y ^ 2 + dterm g1 g2 c T3 YL) (y ^ 2 * X ^ 2) 0).
Proof. intros. apply sd_pair; assumption. Qed.
Lemma sd_sc Q2 g1 g2 c T3 Y a : 0 < Q2 -> 0 < a -> second_derivative (scalar_potential Q2 g1 g2 c T3 Y a) (2 * ln (a / Q2) * dterm g1 g2 c T3 Y ^ 2).
Proof. intros. apply sd_single; assumption. Qed.

Definition gen2 (Q2 g1 g2 c a b d l e : R) : R :=
  3 * (2 * ln (a / Q2) * dterm g1 g2 c (1/2) (1/6) ^ 2 + 2 * ln (a / Q2) * dterm g1 g2 c (-1/2) (1/6) ^ 2
       + 2 * ln (b / Q2) * dterm g1 g2 c 0 (-2/3) ^ 2 + 2 * ln (d / Q2) * dterm g1 g2 c 0 (1/3) ^ 2)
  + (2 * ln (l / Q2) * dterm g1 g2 c (1/2) (-1/2) ^ 2 + 2 * ln (l / Q2) * dterm g1 g2 c (-1/2) (-1/2) ^ 2 + 2 * ln (e / Q2) * dterm g1 g2 c 0 1 ^ 2).
Lemma sd_gen p g1 g2 a b d l e : 0 < Q2 p -> 0 < a -> 0 < b -> 0 < d -> 0 < l -> 0 < e ->
  second_derivative (light_generation p g1 g2 a b d l e) (gen2 (Q2 p) g1 g2 (c2b p) a b d l e).
Proof.
  intros HQ Ha Hb Hd Hl He.
  exact (sd_plus _ _ _ _
    (sd_scal _ _ 3 (sd_plus _ _ _ _ (sd_plus _ _ _ _ (sd_plus _ _ _ _ (sd_sc (Q2 p) g1 g2 (c2b p) (1/2) (1/6) a HQ Ha) (sd_sc (Q2 p) g1 g2 (c2b p) (-1/2) (1/6) a HQ Ha))
       (sd_sc (Q2 p) g1 g2 (c2b p) 0 (-2/3) b HQ Hb)) (sd_sc (Q2 p) g1 g2 (c2b p) 0 (1/3) d HQ Hd)))
    (sd_plus _ _ _ _ (sd_plus _ _ _ _ (sd_sc (Q2 p) g1 g2 (c2b p) (1/2) (-1/2) l HQ Hl) (sd_sc (Q2 p) g1 g2 (c2b p) (-1/2) (-1/2) l HQ Hl))
       (sd_sc (Q2 p) g1 g2 (c2b p) 0 1 e HQ He))).
Qed.
Definition sf2 (Q2 g1 g2 c T3 YL YR a d y X : R) : R :=
  ev2 Q2 a (y ^ 2 + dterm g1 g2 c T3 YL) d (y ^ 2 + dterm g1 g2 c 0 YR) (y ^ 2 * X ^ 2) 0
  + ev2 Q2 d (y ^ 2 + dterm g1 g2 c 0 YR) a (y ^ 2 + dterm g1 g2 c T3 YL) (y ^ 2 * X ^ 2) 0.
Definition third2 (p : Params R) (g1 g2 yt yb ytau : R) : R :=
  3 * sf2 (Q2 p) g1 g2 (c2b p) (1/2) (1/6) (-2/3) (a22 (mq2 p)) (a22 (mu2 p)) yt (X_t p)
  + 3 * sf2 (Q2 p) g1 g2 (c2b p) (-1/2) (1/6) (1/3) (a22 (mq2 p)) (a22 (md2 p)) yb (X_b p)
  + sf2 (Q2 p) g1 g2 (c2b p) (-1/2) (-1/2) 1 (a22 (ml2 p)) (a22 (me2 p)) ytau (X_tau p)
  + 2 * ln (a22 (ml2 p) / Q2 p) * dterm g1 g2 (c2b p) (1/2) (-1/2) ^ 2.
Lemma sd_third p g1 g2 yt yb ytau : 0 < Q2 p -> 0 < a22 (mq2 p) -> 0 < a22 (mu2 p) -> 0 < a22 (md2 p) -> 0 < a22 (ml2 p) -> 0 < a22 (me2 p) ->
  a22 (mq2 p) <> a22 (mu2 p) -> a22 (mq2 p) <> a22 (md2 p) -> a22 (ml2 p) <> a22 (me2 p) ->
  second_derivative (third_generation p g1 g2 yt yb ytau) (third2 p g1 g2 yt yb ytau).
Proof.
  intros HQ Ha Hb Hd Hl He N1 N2 N3.
  exact (sd_plus _ _ _ _ (sd_plus _ _ _ _ (sd_plus _ _ _ _
    (sd_scal _ _ 3 (sd_sf (Q2 p) g1 g2 (c2b p) (1/2) (1/6) (-2/3) _ _ yt (X_t p) HQ Ha Hb N1))
    (sd_scal _ _ 3 (sd_sf (Q2 p) g1 g2 (c2b p) (-1/2) (1/6) (1/3) _ _ yb (X_b p) HQ Ha Hd N2)))
    (sd_sf (Q2 p) g1 g2 (c2b p) (-1/2) (-1/2) 1 _ _ ytau (X_tau p) HQ Hl He N3))
    (sd_sc (Q2 p) g1 g2 (c2b p) (1/2) (-1/2) _ HQ Hl)).
Qed.
Definition heavy2 (Q2 M2 g1 g2 s c : R) : R :=
  ev2 Q2 M2 (Z3 g1 g2 s + Z4 g1 g2 s + Z5 g1 g2 s) 0 (3 * Z1 g1 g2 c) 0 ((3 * Z6 g1 g2 s c) ^ 2)
  + ev2 Q2 M2 (Z3 g1 g2 s + Z4 g1 g2 s - Z5 g1 g2 s) 0 (Z1 g1 g2 c) 0 (Z6 g1 g2 s c ^ 2)
  + 2 * ev2 Q2 M2 (Z3 g1 g2 s) 0 (Z1 g1 g2 c) 0 (Z6 g1 g2 s c ^ 2).
Lemma sd_heavy4 Q2 M2 g1 g2 s c : 0 < Q2 -> 0 < M2 -> second_derivative (heavy_potential g1 g2 s c Q2 M2) (heavy2 Q2 M2 g1 g2 s c).
Proof.
  intros HQ HM. exact (sd_plus _ _ _ _ (sd_plus _ _ _ _ (sd_heavy Q2 M2 _ _ _ HQ HM) (sd_heavy Q2 M2 _ _ _ HQ HM)) (sd_scal _ _ 2 (sd_heavy Q2 M2 _ _ _ HQ HM))).
Qed.
(** the values of the pieces *)
Ltac unpow := unfold pow4, pow3; unfold pow2; unR.
Lemma val_AT (c : TC R) : let p := tc_p c in phys p -> In (massLimit3LThreshold p) [GENERAL; MQ3_EQ_M3; MU3_EQ_M3] ->
  let a := a22 (mq2 p) in let d := a22 (mu2 p) in let X := X_t p in a <> d ->
  getThresholdCorrection c LAMBDA_AT S_DRBARPRIME 1 =
  Ok (12 * X ^ 4 / (a - d) ^ 2 + 12 * ln (a / Q2 p) + (6 - 12 * X ^ 2 / (a - d) + 6 * (a + d) / (a - d) ^ 3 * X ^ 4) * (ln (d / Q2 p) - ln (a / Q2 p))).
Proof.
  intros p (HM & HQ & _ & _ & _ & _ & _ & HS & Hvu & Hvd) HL a d X N.
  assert (Ha : 0 < a) by apply (HM (mq2 p) ltac:(left; reflexivity)). assert (Hd : 0 < d) by apply (HM (mu2 p) ltac:(right; right; left; reflexivity)).
  assert (HQ2 : 0 < Q2 p) by (apply pow_lt; exact HQ). assert (HS2 : 0 < v0 (MSt p) * v0 (MSt p)) by (apply Rmult_lt_0_compat; exact HS).
  assert (HX : calcXt p = X) by (unfold calcXt, calcTanBeta, X, X_t; unR; field; split; lra).
  unfold getThresholdCorrection. fold p. unfold getDeltaLambdaAlphat. cbv zeta. rewrite HX.
  assert (E : forall l, In l [GENERAL; MQ3_EQ_M3; MU3_EQ_M3] -> l = GENERAL \/ l = MQ3_EQ_M3 \/ l = MU3_EQ_M3) by (intros l [H|[H|[H|[]]]]; auto).
  destruct (E _ HL) as [-> | [-> | ->]]; cbn [GENERAL MQ3_EQ_M3 MU3_EQ_M3 MQ3_EQ_MU3 MQ3_EQ_MU3_EQ_M3 DEGENERATE Z.eqb Pos.eqb orb];
  unfold GENERAL, MQ3_EQ_M3, MU3_EQ_M3, MQ3_EQ_MU3, MQ3_EQ_MU3_EQ_M3, DEGENERATE; cbn [Z.eqb Pos.eqb orb]; f_equal; unpow; fold a d;
  change (scale p * scale p) with (scale p * scale p); replace (scale p * scale p) with (Q2 p) by (unfold Q2; ring);
  rewrite !ln_div by assumption; field; lra.
Qed.
Lemma val_up (p : Params R) y1 y2 y v : phys p -> apart (a22 (mq2 p)) (a22 (mu2 p)) -> a22 (mq2 p) <> a22 (mu2 p) ->
  let a := a22 (mq2 p) in let d := a22 (mu2 p) in let X := X_t p in
  v = 12 * X ^ 4 / (a - d) ^ 2 + 12 * ln (a / Q2 p) + (6 - 12 * X ^ 2 / (a - d) + 6 * (a + d) / (a - d) ^ 3 * X ^ 4) * (ln (d / Q2 p) - ln (a / Q2 p)) ->
  y ^ 4 * v + y ^ 2 * y1 ^ 2 * getDeltaLambdaYt2G12 p 1 + y ^ 2 * y2 ^ 2 * getDeltaLambdaYt2G22 p 1 =
  3 * (sf2 (Q2 p) y1 y2 (c2b p) (1/2) (1/6) (-2/3) a d y X - 2 * ln (a / Q2 p) * dterm y1 y2 (c2b p) (1/2) (1/6) ^ 2 - 2 * ln (d / Q2 p) * dterm y1 y2 (c2b p) 0 (-2/3) ^ 2)
  - 2 * lambda_tree2 y1 y2 (c2b p) * (3 * y ^ 2 * X ^ 2 * wfr a d).
Proof.
  intros (HM & HQ & _ & _ & _ & _ & _ & HS & Hvu & Hvd) [HF1 HF2] N a d X ->.
  assert (Ha : 0 < a) by apply (HM (mq2 p) ltac:(left; reflexivity)). assert (Hd : 0 < d) by apply (HM (mu2 p) ltac:(right; right; left; reflexivity)).
  assert (HX : calcXt p = X) by (unfold calcXt, calcTanBeta, X, X_t; unR; field; split; lra).
  destruct (C24_outside _ HF1 HF2) as (_ & _ & K3 & K4 & K5 & _).
  unfold getDeltaLambdaYt2G12, getDeltaLambdaYt2G22. cbv zeta. rewrite HX. unpow. rewrite (cos2b p Hvu Hvd). rewrite K3, K4, K5.
  fold a d. fold a d in N. replace (scale p * scale p) with (Q2 p) by (unfold Q2; ring).
  assert (Pq := sqrt_lt_R0 a Ha). assert (Pu := sqrt_lt_R0 d Hd). assert (Ea := pow2_sqrt a (Rlt_le _ _ Ha)). assert (Ed := pow2_sqrt d (Rlt_le _ _ Hd)).
  assert (NN : sqrt a <> sqrt d) by (intros E; apply N; rewrite <- Ea, <- Ed, E; reflexivity).
  assert (HP := pair_up (sqrt a) (sqrt d) X y y1 y2 (c2b p) (scale p) Pq Pu NN HQ). rewrite Ea, Ed in HP. change (scale p ^ 2) with (Q2 p) in HP.
  unfold sf2. rewrite <- HP. clear HP. set (la := ln (a / Q2 p)). set (ld := ln (d / Q2 p)). clearbody la ld.
  clear - Pq Pu. unfold Rdiv. ring.
Qed.
Lemma val_down (p : Params R) y1 y2 y : phys p -> apart (a22 (mq2 p)) (a22 (md2 p)) -> a22 (mq2 p) <> a22 (md2 p) ->
  let a := a22 (mq2 p) in let d := a22 (md2 p) in let X := X_b p in
  y ^ 4 * getDeltaLambdaYb4 p 1 + y ^ 2 * y1 ^ 2 * getDeltaLambdaYb2G12 p 1 + y ^ 2 * y2 ^ 2 * getDeltaLambdaYb2G22 p 1 =
  3 * (sf2 (Q2 p) y1 y2 (c2b p) (-1/2) (1/6) (1/3) a d y X - 2 * ln (a / Q2 p) * dterm y1 y2 (c2b p) (-1/2) (1/6) ^ 2 - 2 * ln (d / Q2 p) * dterm y1 y2 (c2b p) 0 (1/3) ^ 2)
  - 2 * lambda_tree2 y1 y2 (c2b p) * (3 * y ^ 2 * X ^ 2 * wfr a d).
Proof.
  intros (HM & HQ & _ & _ & _ & _ & _ & HS & Hvu & Hvd) [HF1 HF2] N a d X.
  assert (Ha : 0 < a) by apply (HM (mq2 p) ltac:(left; reflexivity)). assert (Hd : 0 < d) by apply (HM (md2 p) ltac:(right; left; reflexivity)).
  assert (HX : calcXb p = X) by (unfold calcXb, calcTanBeta, X, X_b; unR; field; lra).
  destruct (C24_outside _ HF1 HF2) as (K1 & K2 & K3 & K4 & K5 & _).
  unfold getDeltaLambdaYb4, getDeltaLambdaYb2G12, getDeltaLambdaYb2G22. cbv zeta. rewrite HX. unpow. rewrite (cos2b p Hvu Hvd). rewrite K1, K2, K3, K4, K5.
  fold a d. fold a d in N. replace (scale p * scale p) with (Q2 p) by (unfold Q2; ring).
  assert (Pq := sqrt_lt_R0 a Ha). assert (Pu := sqrt_lt_R0 d Hd). assert (Ea := pow2_sqrt a (Rlt_le _ _ Ha)). assert (Ed := pow2_sqrt d (Rlt_le _ _ Hd)).
  assert (NN : sqrt a <> sqrt d) by (intros E; apply N; rewrite <- Ea, <- Ed, E; reflexivity).
  assert (HP := pair_down (sqrt a) (sqrt d) X y y1 y2 (c2b p) (scale p) Pq Pu NN HQ). rewrite Ea, Ed in HP. change (scale p ^ 2) with (Q2 p) in HP.
  unfold sf2. rewrite <- HP. clear HP. set (la := ln (a / Q2 p)). set (ld := ln (d / Q2 p)). clearbody la ld.
  clear - Pq Pu Ha Hd. field. repeat split; lra.
Qed.
Lemma val_tau (p : Params R) y1 y2 y : phys p -> apart (a22 (ml2 p)) (a22 (me2 p)) -> a22 (ml2 p) <> a22 (me2 p) ->
  let a := a22 (ml2 p) in let d := a22 (me2 p) in let X := X_tau p in
  y ^ 4 * getDeltaLambdaYtau4 p 1 + y ^ 2 * y1 ^ 2 * getDeltaLambdaYtau2G12 p 1 + y ^ 2 * y2 ^ 2 * getDeltaLambdaYtau2G22 p 1 =
  1 * (sf2 (Q2 p) y1 y2 (c2b p) (-1/2) (-1/2) (1) a d y X - 2 * ln (a / Q2 p) * dterm y1 y2 (c2b p) (-1/2) (-1/2) ^ 2 - 2 * ln (d / Q2 p) * dterm y1 y2 (c2b p) 0 (1) ^ 2)
  - 2 * lambda_tree2 y1 y2 (c2b p) * (1 * y ^ 2 * X ^ 2 * wfr a d).
Proof.
  intros (HM & HQ & _ & _ & _ & _ & _ & HS & Hvu & Hvd) [HF1 HF2] N a d X.
  assert (Ha : 0 < a) by apply (HM (ml2 p) ltac:(right; right; right; left; reflexivity)). assert (Hd : 0 < d) by apply (HM (me2 p) ltac:(right; right; right; right; left; reflexivity)).
  assert (HX : calcXtau p = X) by (unfold calcXtau, calcTanBeta, X, X_tau; unR; field; lra).
  destruct (C24_outside _ HF1 HF2) as (K1 & K2 & K3 & K4 & K5 & _).
  unfold getDeltaLambdaYtau4, getDeltaLambdaYtau2G12, getDeltaLambdaYtau2G22. cbv zeta. rewrite HX. unpow. rewrite (cos2b p Hvu Hvd). rewrite K1, K2, K3, K4, K5.
  fold a d. fold a d in N. replace (scale p * scale p) with (Q2 p) by (unfold Q2; ring).
  assert (Pq := sqrt_lt_R0 a Ha). assert (Pu := sqrt_lt_R0 d Hd). assert (Ea := pow2_sqrt a (Rlt_le _ _ Ha)). assert (Ed := pow2_sqrt d (Rlt_le _ _ Hd)).
  assert (NN : sqrt a <> sqrt d) by (intros E; apply N; rewrite <- Ea, <- Ed, E; reflexivity).
  assert (HP := pair_tau (sqrt a) (sqrt d) X y y1 y2 (c2b p) (scale p) Pq Pu NN HQ). rewrite Ea, Ed in HP. change (scale p ^ 2) with (Q2 p) in HP.
  unfold sf2. rewrite <- HP. clear HP. set (la := ln (a / Q2 p)). set (ld := ln (d / Q2 p)). clearbody la ld.
  clear - Pq Pu Ha Hd. field. repeat split; lra.
Qed.

(** D-term, heavy Higgs and regularisation pieces *)
Lemma val_gauge (p : Params R) y1 y2 : phys p ->
  y1 ^ 4 * getDeltaLambdaG14 p 1 + y2 ^ 4 * getDeltaLambdaG24 p 1 + y1 ^ 2 * y2 ^ 2 * getDeltaLambdaG12G22 p 1
  = gen2 (Q2 p) y1 y2 (c2b p) (a00 (mq2 p)) (a00 (mu2 p)) (a00 (md2 p)) (a00 (ml2 p)) (a00 (me2 p))
    + gen2 (Q2 p) y1 y2 (c2b p) (a11 (mq2 p)) (a11 (mu2 p)) (a11 (md2 p)) (a11 (ml2 p)) (a11 (me2 p))
    + gen2 (Q2 p) y1 y2 (c2b p) (a22 (mq2 p)) (a22 (mu2 p)) (a22 (md2 p)) (a22 (ml2 p)) (a22 (me2 p))
    + 1/2 * heavy2 (Q2 p) (MA p ^ 2) y1 y2 (s2b p) (c2b p) + gauge_redefinition p y1 y2.
Proof.
  intros (HM & HQ & _ & HA & _ & _ & _ & HS & Hvu & Hvd).
  unfold getDeltaLambdaG14, getDeltaLambdaG24, getDeltaLambdaG12G22. cbv zeta. unpow. rewrite !sin4b, !trig8, !trig4, (cos2b p Hvu Hvd).
  unfold gen2, heavy2, gauge_redefinition, gauge_generation, gauge_shift, b1_scalar, b2_scalar, lnm, dterm, ev2, Z3, Z4, Z5, Z1, Z6, GG.
  replace (scale p * scale p) with (Q2 p) by (unfold Q2; ring). replace (MA p * MA p) with (MA p ^ 2) by ring.
  assert (HA2 : MA p ^ 2 <> 0) by (apply pow_nonzero; exact HA).
  assert (HS2 := s2b2 p Hvu Hvd).
  replace ((- ((y2 ^ 2 + 3 / 5 * y1 ^ 2) / 4 * s2b p * c2b p)) ^ 2) with (((y2 ^ 2 + 3 / 5 * y1 ^ 2) / 4) ^ 2 * s2b p ^ 2 * c2b p ^ 2) by ring.
  replace ((3 * - ((y2 ^ 2 + 3 / 5 * y1 ^ 2) / 4 * s2b p * c2b p)) ^ 2) with (9 * ((y2 ^ 2 + 3 / 5 * y1 ^ 2) / 4) ^ 2 * s2b p ^ 2 * c2b p ^ 2) by ring.
  rewrite HS2. set (A := MA p ^ 2) in *. 
  repeat match goal with |- context [ln ?x] => let l := fresh "l" in set (l := ln x); clearbody l end. clearbody A.
  field. exact HA2.
Qed.
Lemma val_reg (p : Params R) y1 y2 : phys p ->
  y1 ^ 4 * getDeltaLambdaRegG14 p + y2 ^ 4 * getDeltaLambdaRegG24 p + y1 ^ 2 * y2 ^ 2 * getDeltaLambdaRegG12G22 p = msbar_shift y1 y2 (c2b p).
Proof.
  intros (HM & HQ & _ & HA & _ & _ & _ & HS & Hvu & Hvd). unfold getDeltaLambdaRegG14, getDeltaLambdaRegG24, getDeltaLambdaRegG12G22, msbar_shift. cbv zeta. unpow.
  rewrite (cos2b p Hvu Hvd). field.
Qed.
Theorem C61 (c : TC R) (y1 y2 yt yb ytau : R) :
  let p := tc_p c in
  phys_tc c -> In (massLimit3LThreshold p) [GENERAL; MQ3_EQ_M3; MU3_EQ_M3] ->
  apart (a22 (mq2 p)) (a22 (mu2 p)) -> apart (a22 (mq2 p)) (a22 (md2 p)) -> apart (a22 (ml2 p)) (a22 (me2 p)) ->
  exists lam s, scalar_one_loop c y1 y2 yt yb ytau = Ok lam /\ second_derivative (potential p y1 y2 yt yb ytau) s /\
  lam = s - 2 * lambda_tree2 y1 y2 (c2b p) * field_renormalisation p yt yb ytau + gauge_redefinition p y1 y2 + msbar_shift y1 y2 (c2b p).
Proof.
  intros p [HP _] HL HQU HQD HLE. fold p in HP. assert (HP' := HP). destruct HP' as (HM & HQ & Hmu & HA & _ & _ & _ & HS & Hvu & Hvd).
  assert (M1 := HM (mq2 p) ltac:(left; reflexivity)). assert (M2 := HM (md2 p) ltac:(right; left; reflexivity)).
  assert (M3 := HM (mu2 p) ltac:(right; right; left; reflexivity)). assert (M4 := HM (ml2 p) ltac:(right; right; right; left; reflexivity)).
  assert (M5 := HM (me2 p) ltac:(right; right; right; right; left; reflexivity)). clear HM.
  assert (HQ2 : 0 < Q2 p) by (apply pow_lt; exact HQ).
  assert (HA2 : 0 < MA p ^ 2) by (replace (MA p ^ 2) with (Rsqr (MA p)) by (unfold Rsqr; ring); apply Rlt_0_sqr; exact HA).
  assert (ND : forall a d, 0 < a -> 0 < d -> apart a d -> a <> d).
  { intros a d Ha Hd [_ H] E. rewrite E in H. replace (sqrt d / sqrt d - 1) with 0 in H by (field; apply Rgt_not_eq, sqrt_lt_R0; exact Hd). rewrite Rabs_R0 in H. lra. }
  assert (NQU := ND _ _ (proj2 (proj2 M1)) (proj2 (proj2 M3)) HQU). assert (NQD := ND _ _ (proj2 (proj2 M1)) (proj2 (proj2 M2)) HQD).
  assert (NLE := ND _ _ (proj2 (proj2 M4)) (proj2 (proj2 M5)) HLE). clear ND.
  assert (AT := val_AT c HP HL NQU). cbv zeta in AT. fold p in AT.
  match type of AT with _ = Ok ?v => set (vat := v) in AT end.
  assert (UP := val_up p y1 y2 yt vat HP HQU NQU eq_refl). assert (DN := val_down p y1 y2 yb HP HQD NQD). assert (TA := val_tau p y1 y2 ytau HP HLE NLE).
  assert (GA := val_gauge p y1 y2 HP). assert (RG := val_reg p y1 y2 HP). cbv zeta in UP, DN, TA. clearbody vat.
  eexists. eexists. split; [|split].
  2:{ refine (sd_plus _ _ _ _ (sd_plus _ _ _ _ (sd_plus _ _ _ _ (sd_gen p y1 y2 _ _ _ _ _ HQ2 _ _ _ _ _) (sd_gen p y1 y2 _ _ _ _ _ HQ2 _ _ _ _ _))
        (sd_third p y1 y2 yt yb ytau HQ2 _ _ _ _ _ NQU NQD NLE)) (sd_scal _ _ (1/2) (sd_heavy4 (Q2 p) (MA p ^ 2) y1 y2 (s2b p) (c2b p) HQ2 HA2))); tauto. }
  - unfold scalar_one_loop, scalar_orders, lambda_orders. cbn [filter is_chi negb fst fold_right bind]. rewrite AT. cbn [bind getThresholdCorrection]. fold p. reflexivity.
  - unfold third2, field_renormalisation. unfold gen2 in GA at 3. clear - UP DN TA GA RG.
    set (s1 := sf2 _ _ _ _ (1/2) _ _ _ _ _ _) in *. set (s2 := sf2 _ _ _ _ _ _ (1/3) _ _ _ _) in *. set (s3 := sf2 _ _ _ _ _ _ 1 _ _ _ _) in *.
    clearbody s1 s2 s3.
    match type of UP with ?a = ?a' => match type of DN with ?b = ?b' => match type of TA with ?t = ?t' => match type of GA with ?g = ?g' => match type of RG with ?r = ?r' =>
      match goal with |- ?l = _ => replace l with (a + b + t + g + r) by ring; rewrite UP, DN, TA, GA, RG end end end end end end.
    ring.
Qed.
Print Assumptions C61.

(** a concrete point: mQ3 = 1000, mU3 = 2000, mD3 = 1500, mL3 = 1000, mE3 = 1100, MA = 1000, scale 1500 *)
Definition p_pot : Params R :=
  mkParams 1500 500 (1/2) (2/3) 1 20 200 (diag3 1000000) (diag3 2250000) (diag3 4000000) (diag3 1000000) (diag3 1210000)
    (diag3 1500) (diag3 100) (diag3 0) (diag3 0) (diag3 0) (diag3 0) 400 800 3000 80 91 150 3 2 1000
    (mkV2 900 2100) (mkV2 1000 1500) (mkV2 1000 1100) (1/10) 0 0 0 0 0 0.
Definition c_pot : TC R := mkTC p_pot 2250000 6.
Lemma apart_squares q u : 0 < q -> 0 < u -> q < u * (99/100) -> u / 1000 < q -> apart (q ^ 2) (u ^ 2).
Proof.
  intros Hq Hu H1 H2. unfold apart. rewrite !sqrt_pow2 by lra.
  assert (q / u < 99/100) by (apply (Rmult_lt_reg_r u); [exact Hu|]; replace (q / u * u) with q by (field; lra); lra).
  assert (1/1000 < q / u) by (apply (Rmult_lt_reg_r u); [exact Hu|]; replace (q / u * u) with q by (field; lra); lra).
  split; [lra|]. rewrite Rabs_left; lra.
Qed.
Example C61_case : phys_tc c_pot /\ In (massLimit3LThreshold p_pot) [GENERAL; MQ3_EQ_M3; MU3_EQ_M3] /\
  apart (a22 (mq2 p_pot)) (a22 (mu2 p_pot)) /\ apart (a22 (mq2 p_pot)) (a22 (md2 p_pot)) /\ apart (a22 (ml2 p_pot)) (a22 (me2 p_pot)).
Proof.
  unfold phys_tc, phys, c_pot. cbn [tc_p tc_msq2]. unfold p_pot, diag3.
  cbn [scale mu mq2 md2 mu2 ml2 me2 MA M1 M2 MG MSt vu vd v0 massLimit3LThreshold a22 In].
  split; [split; [split|lra]|].
  - intros m [<-|[<-|[<-|[<-|[<-|[]]]]]]; cbn [a00 a11 a22]; lra.
  - repeat split; lra.
  - split; [left; reflexivity|].
    replace 1000000 with (1000 ^ 2) by ring. replace 4000000 with (2000 ^ 2) by ring. replace 2250000 with (1500 ^ 2) by ring. replace 1210000 with (1100 ^ 2) by ring.
    repeat split; try (apply apart_squares; lra).
    all: apply apart_squares; lra.
Qed.
