(** * Two-loop threshold corrections obey the renormalisation group equations (C50) *)
From Coq Require Import Reals ZArith Bool List Lra Psatz.
From Coquelicot Require Import Coquelicot.
From Verif Require Import Num NumFacts Except Params HierFormulas LoopFun Dilog Thresh ThreshTwo Threshold ThreshViews DerivTac
  ThreshSpec ThreshProofs.
Open Scope R_scope.

Ltac unpow := unfold pow16, pow14, pow12, pow11, power10, pow9, pow8, pow7, pow6, pow5, pow4, pow3, pow2 in *.

(** derivative along the soft step of the one-loop functions *)
Lemma lat_soft q u g X L : 0 < q -> 0 < u -> q <> u ->
  let d := - (16/3) * g^2 in
  is_derive (fun t : R => lat_G (q + d * t) (u + d * t) (X + 16/3 * g * t) (L + ln ((q + d * t) / q)) : R) 0
  (12 * (d / q)
   + (24 * (X*X*X) * (16/3*g) / ((q-u)*(q-u)) * 2
   + (- 24 * X * (16/3*g) / (q-u) + 6 * (d+d) / ((q-u)*(q-u)*(q-u)) * (X*X*X*X) + 24 * (q+u) / ((q-u)*(q-u)*(q-u)) * (X*X*X) * (16/3*g)) * ln (u / q)
   + (6 - 12 * (X*X)/(q-u) + 6 * (q+u)/((q-u)*(q-u)*(q-u)) * (X*X*X*X)) * (d / u - d / q))).
Proof.
  intros Hq Hu Hn d. unfold lat_G. unR. unpow. unR.
  assert (q - u <> 0) by lra.
  auto_derive.
  - rewrite !Rmult_0_r, !Rplus_0_r. assert (q + - u <> 0) by lra.
    repeat split; try lra; try (repeat apply Rmult_integral_contrapositive_currified; lra).
    + apply Rmult_lt_0_compat; [lra|apply Rinv_0_lt_compat; lra].
    + apply Rmult_lt_0_compat; [lra|apply Rinv_0_lt_compat; lra].
  - rewrite !Rmult_0_r, !Rplus_0_r. unfold Rdiv, Rminus. generalize (ln (u * / q)). intros lu.
    field. repeat split; lra.
Qed.

(** two-loop lambda, real functions *)
Lemma lata_rge_fun Li q u g X L : 0 < q -> 0 < u -> 0 < g -> q <> u -> q * q <> u * u -> q * q <> g * g -> u * u <> g * g ->
  exists D, is_derive (fun l : R => lata_G Li (q*q) (u*u) (g*g) q u g X l : R) L D /\
  forall Dm, is_derive (fun t : R => lat_G (q*q + - (16/3) * g^2 * t) (u*u + - (16/3) * g^2 * t) (X + 16/3 * g * t)
                              (L + ln ((q*q + - (16/3) * g^2 * t) / (q*q))) : R) 0 Dm ->
  - D + Dm = 16 * lat_G (q*q) (u*u) X L - 64.
Proof.
  intros Hq Hu Hg Hn N1 N2 N3. eexists. split.
  { unfold lata_G. unR. dstep. }
  intros Dm HD. apply is_derive_unique in HD. subst Dm.
  rewrite (is_derive_unique _ _ _ (lat_soft (q*q) (u*u) g X L ltac:(nra) ltac:(nra) N1)).
  unfold lat_G. unR. unpow. unR. unfold Rdiv. generalize (ln (u * u * / (q * q))). intros lu.
  generalize (ln (g * g * / (q * q))) (Li (1 - g * g * / (q * q))) (Li (1 - g * g * / (u * u))). intros lg l1 l2.
  field. repeat split; lra.
Qed.

(** one-loop y_t along the soft step *)
Lemma yta_soft q u g X L : 0 < q -> 0 < u -> 0 < g -> q * q <> u * u -> q * q <> g * g -> u * u <> g * g ->
  let d := - (16/3) * g^2 in
  exists D, is_derive (fun t : R => yta_G (q*q + d * t) (u*u + d * t) ((g * (1 - 3 * t)) * (g * (1 - 3 * t)))
     (sqrt (q*q + d * t)) (sqrt (u*u + d * t)) (g * (1 - 3 * t)) (X + 16/3 * g * t) (L + ln ((q*q + d * t) / (q*q))) : R) 0 D /\
  forall Li s2 s, 0 < s2 -> exists D2, is_derive (fun l : R => yta2_G Li (q*q) (u*u) (g*g) q u g s2 s X l : R) L D2 /\
   let y := yta_G (q*q) (u*u) (g*g) q u g X L in
   - D2 + D = (7 + 4/3) * y - 16/3 * (1/2 - (L + ln (g*g/(q*q))) - (L + 10 * (L + ln (s2/(q*q))) + (L + ln (u*u/(q*q)))) / 12) + 478/9.
Proof.
  intros Hq Hu Hg N1 N2 N3 d. evar (D : R). exists D. split.
  { unfold yta_G. unR. unpow. unR. auto_derive.
    - unfold Rminus; rewrite !Rmult_0_r, ?Ropp_0, !Rplus_0_r, !Rmult_1_r. rewrite !sqrt_square by lra.
      assert (q * q + - (u * u) <> 0) by lra. assert (- (q * q) + u * u <> 0) by lra.
      assert (g * g + - (q * q) <> 0) by lra. assert (- (g * g) + q * q <> 0) by lra.
      assert (g * g + - (u * u) <> 0) by lra. assert (0 < q * q) by nra. assert (0 < u * u) by nra. assert (0 < g * g) by nra.
      repeat match goal with |- _ /\ _ => split | |- True => exact I end; try assumption; try lra;
      try (repeat apply Rmult_integral_contrapositive_currified; lra);
      apply Rmult_lt_0_compat; try (apply Rinv_0_lt_compat); lra.
    - subst D. reflexivity. }
  intros Li s2 s Hs. eexists. split.
  { unfold yta2_G. unR. dstep. }
  subst D. cbv zeta.
  unfold Rminus; rewrite !Rmult_0_r, ?Ropp_0, !Rplus_0_r, !Rmult_1_r. rewrite !sqrt_square by lra.
  unfold yta_G. unR. unpow. unR. unfold d, Rdiv, Rminus. clear d.
  generalize (ln (u * u * / (q * q))) (ln (g * g * / (q * q))) (ln (s2 * / (q * q))). intros lu lg ls.
  rewrite ?Rinv_r by nra. rewrite ?ln_1.
  generalize (Li (1 + - (g * g * / (q * q)))) (Li (1 + - (g * g * / (u * u)))). intros l1 l2.
  field. repeat split; lra.
Qed.

(** ** The same for the calculator *)
Lemma LQ_one p : 0 < v0 (MSt p) -> 0 < a22 (mq2 p) -> 0 < scale p -> LQ p 1 = ln (a22 (mq2 p)) - ln (scale p ^ 2).
Proof.
  intros H1 H2 H3. unfold LQ, pow2. unR. assert (0 < v0 (MSt p) * v0 (MSt p)) by nra. assert (0 < scale p * scale p) by nra.
  rewrite !ln_div by assumption. replace (scale p ^ 2) with (scale p * scale p) by ring. ring.
Qed.
Lemma exp_half L : exp (L / 2) ^ 2 = exp L.
Proof. simpl. rewrite Rmult_1_r, <- exp_plus. f_equal. field. Qed.
Lemma sqrt_pow2 g : 0 < g -> sqrt (pow2 g) = g.
Proof. intros. unfold pow2. unR. apply sqrt_square. lra. Qed.

Lemma lata_G_LQ p o : getDeltaLambdaAlphatAlphas p GENERAL o =
  Ok (lata_G dilog (a22 (mq2 p)) (a22 (mu2 p)) (pow2 (MG p)) (sqrt (a22 (mq2 p))) (sqrt (a22 (mu2 p))) (sqrt (pow2 (MG p))) (calcXt p) (LQ p o)).
Proof. exact (lata_G_eq p o). Qed.
Lemma lat_G_LQ p o : getDeltaLambdaAlphat p GENERAL o = Ok (lat_G (a22 (mq2 p)) (a22 (mu2 p)) (calcXt p) (LQ p o)).
Proof. exact (lat_G_eq p o). Qed.
Lemma yta_G_LQ p o : getDeltaYtAlphas p GENERAL o =
  Ok (yta_G (a22 (mq2 p)) (a22 (mu2 p)) (pow2 (MG p)) (sqrt (a22 (mq2 p))) (sqrt (a22 (mu2 p))) (sqrt (pow2 (MG p))) (calcXt p) (LQ p o)).
Proof. exact (yta_G_eq p o). Qed.
Lemma yta2_G_LQ p m o : getDeltaYtAlphas2 p m GENERAL o =
  Ok (yta2_G dilog (a22 (mq2 p)) (a22 (mu2 p)) (pow2 (MG p)) (sqrt (a22 (mq2 p))) (sqrt (a22 (mu2 p))) (sqrt (pow2 (MG p))) m (sqrt m) (calcXt p) (LQ p o)).
Proof. exact (yta2_G_eq p m o). Qed.

(** a point with limit GENERAL and three different masses *)
Definition distinct (c : TC R) : Prop :=
  let p := tc_p c in
  getLimit c = GENERAL /\ a22 (mq2 p) <> a22 (mu2 p) /\ a22 (mq2 p) <> MG p ^ 2 /\ a22 (mu2 p) <> MG p ^ 2.

Lemma soft_LQ p d x : 0 < v0 (MSt p) -> 0 < a22 (mq2 p) -> 0 < x -> 0 < scale p ->
  #1 * nlog (pow2 (v0 (MSt p)) / pow2 (scale p)) + nlog (x / pow2 (v0 (MSt p))) =
  LQ p 1 + ln (x / a22 (mq2 p)) + 0 * d.
Proof.
  intros. unfold LQ. unR. assert (0 < pow2 (v0 (MSt p))) by (unfold pow2; unR; nra).
  rewrite (ln_div x), (ln_div (a22 _)), (ln_div x) by assumption. ring.
Qed.

Lemma near0 (a b : R) : 0 < a -> exists eps : posreal, forall t, Rabs (t - 0) < eps -> 0 < a + b * t.
Proof.
  intros Ha. assert (He : 0 < a / (1 + Rabs b)) by (apply Rdiv_lt_0_compat; [|pose proof (Rabs_pos b)]; lra).
  exists (mkposreal _ He). intros t Ht. simpl in Ht. rewrite Rminus_0_r in Ht.
  pose proof (Rabs_pos b). pose proof (Rabs_pos t).
  assert (Rabs (b * t) < a).
  { rewrite Rabs_mult. apply Rle_lt_trans with ((1 + Rabs b) * Rabs t); [nra|].
    apply Rlt_le_trans with ((1 + Rabs b) * (a / (1 + Rabs b))); [apply Rmult_lt_compat_l; lra|]. right. field. lra. }
  assert (K := Rabs_def2 _ _ H1). lra.
Qed.

Theorem lambda_atas_rge c : phys_tc c -> distinct c ->
  exists d2 d1,
  is_derive (fun L : R => value (getThresholdCorrection (at_lnQ2 c L) LAMBDA_AT_AS S_TEST 1) : R) (lnQ2 c) d2 /\
  is_derive (fun t : R => value (getThresholdCorrection (soft_step c t) LAMBDA_AT S_TEST 1) : R) 0 d1 /\
  d2 + d1 = 16 * value (getThresholdCorrection c LAMBDA_AT S_TEST 1) - 64.
Proof.
  intros Hc (HL & N1 & N2 & N3). unfold getLimit in HL.
  pose proof (phys_facts _ (proj1 Hc)) as ((_ & _ & Hq2) & _ & (_ & _ & Hu2) & _ & _).
  destruct Hc as ((_ & Hsc & _ & _ & _ & _ & Hg & Hst & _ & _) & Hms).
  set (p := tc_p c) in *. set (q := sqrt (a22 (mq2 p))). set (u := sqrt (a22 (mu2 p))). set (g := MG p) in *.
  assert (Eq : a22 (mq2 p) = q * q) by (symmetry; apply sqrt_sqrt; lra).
  assert (Eu : a22 (mu2 p) = u * u) by (symmetry; apply sqrt_sqrt; lra).
  assert (Hq : 0 < q) by (apply sqrt_lt_R0; lra). assert (Hu : 0 < u) by (apply sqrt_lt_R0; lra).
  assert (Eg : pow2 g = g * g) by reflexivity.
  set (X := calcXt p). set (L := LQ p 1).
  rewrite Eq, Eu in *. 
  destruct (lata_rge_fun dilog q u g X L Hq Hu Hg) as (D & HD & HR); [intros E; apply N1; rewrite E; reflexivity | lra | lra | lra |].
  pose proof (lat_soft (q * q) (u * u) g X L ltac:(lra) ltac:(lra) N1) as HS. cbv zeta in HS.
  eexists (- D). eexists. split; [|split].
  - apply (is_derive_ext (fun l : R => lata_G dilog (q*q) (u*u) (g*g) q u g X (ln (q * q) - l) : R)).
    { intros l. unfold at_lnQ2, at_scale, getThresholdCorrection. cbn [tc_p tc_msq2].
      change (massLimit3LThreshold (with_scale (tc_p c) (exp (l/2)))) with (massLimit3LThreshold p). rewrite HL.
      rewrite lata_G_LQ. cbn [bind value].
      change (tc_p c) with p. rewrite LQ_one; [| assumption | cbn [with_scale mq2]; rewrite Eq; lra | apply exp_pos].
      cbn [with_scale mq2 mu2 MG scale]. change (calcXt (with_scale p (exp (l/2)))) with X.
      rewrite exp_half, ln_exp. unR. fold q u g. rewrite (sqrt_pow2 g Hg), Eg, Eq, Eu. reflexivity. }
    assert (EL : L = ln (q * q) - lnQ2 c).
    { unfold L. rewrite LQ_one by (try assumption; rewrite Eq; lra). rewrite Eq. reflexivity. }
    rewrite EL in HD.
    replace (- D) with (-1 * D) by ring.
    apply (is_derive_comp (fun l : R => lata_G dilog (q*q) (u*u) (g*g) q u g X l : R) (fun l : R => ln (q * q) - l)).
    + exact HD.
    + auto_derive; [exact I | ring].
  - apply (is_derive_ext_loc (fun t : R => lat_G (q*q + - (16/3) * g^2 * t) (u*u + - (16/3) * g^2 * t) (X + 16/3 * g * t)
                              (L + ln ((q*q + - (16/3) * g^2 * t) / (q*q))) : R)); [|exact HS].
    destruct (near0 (q * q) (- (16/3) * g^2) ltac:(nra)) as [e He]. exists e. intros t Ht. apply He in Ht.
    unfold soft_step, getThresholdCorrection. cbn [tc_p tc_msq2 massLimit3LThreshold]. fold p. rewrite HL.
    rewrite lat_G_eq. cbn [value mq2 mu2 MSt scale a22]. fold g. rewrite Eq, Eu.
    rewrite (soft_LQ p 0); [| assumption | rewrite Eq; lra | assumption | assumption].
    fold L. rewrite Eq, Rmult_0_l, Rplus_0_r. f_equal.
    unfold X, calcXt, calcTanBeta. cbn [Au mu vu vd a22]. unR. ring.
  - apply HR in HS.
    match goal with |- _ = 16 * value ?x - 64 => replace x with (Ok (lat_G (q * q) (u * u) X L) : res R) end; [exact HS|].
    unfold getThresholdCorrection. fold p. rewrite HL. rewrite lat_G_LQ. fold L. fold X. rewrite Eq, Eu. reflexivity.
Qed.

Theorem yt_as2_rge c : phys_tc c -> distinct c ->
  exists d2 d1,
  is_derive (fun L : R => value (getThresholdCorrection (at_lnQ2 c L) YT_AS2 S_TEST 1) : R) (lnQ2 c) d2 /\
  is_derive (fun t : R => value (getThresholdCorrection (soft_step c t) YT_AS S_TEST 1) : R) 0 d1 /\
  d2 + d1 = (7 + 4/3) * value (getThresholdCorrection c YT_AS S_TEST 1)
            - 16/3 * value (getThresholdCorrection c G3_AS S_TEST 1) + 478/9.
Proof.
  intros Hc (HL & N1 & N2 & N3). unfold getLimit in HL.
  pose proof (phys_facts _ (proj1 Hc)) as ((_ & _ & Hq2) & _ & (_ & _ & Hu2) & _ & _).
  destruct Hc as ((_ & Hsc & _ & _ & _ & _ & Hg & Hst & _ & _) & Hms).
  set (p := tc_p c) in *. set (q := sqrt (a22 (mq2 p))). set (u := sqrt (a22 (mu2 p))). set (g := MG p) in *.
  assert (Eq : a22 (mq2 p) = q * q) by (symmetry; apply sqrt_sqrt; lra).
  assert (Eu : a22 (mu2 p) = u * u) by (symmetry; apply sqrt_sqrt; lra).
  assert (Hq : 0 < q) by (apply sqrt_lt_R0; lra). assert (Hu : 0 < u) by (apply sqrt_lt_R0; lra).
  assert (Eg : pow2 g = g * g) by reflexivity.
  set (X := calcXt p). set (L := LQ p 1).
  rewrite Eq, Eu in *. replace (g ^ 2) with (g * g) in N2, N3 by ring.
  destruct (yta_soft q u g X L Hq Hu Hg N1 N2 N3) as (D & HD & HR).
  destruct (HR dilog (tc_msq2 c) (sqrt (tc_msq2 c)) Hms) as (D2 & HD2 & HE). clear HR.
  exists (- D2), D. split; [|split].
  - apply (is_derive_ext (fun l : R => yta2_G dilog (q*q) (u*u) (g*g) q u g (tc_msq2 c) (sqrt (tc_msq2 c)) X (ln (q * q) - l) : R)).
    { intros l. unfold at_lnQ2, at_scale, getThresholdCorrection. cbn [tc_p tc_msq2].
      change (massLimit3LThreshold (with_scale (tc_p c) (exp (l/2)))) with (massLimit3LThreshold p). rewrite HL.
      rewrite yta2_G_LQ. cbn [bind value]. change (tc_p c) with p.
      rewrite LQ_one; [| assumption | cbn [with_scale mq2]; rewrite Eq; lra | apply exp_pos].
      cbn [with_scale mq2 mu2 MG scale]. change (calcXt (with_scale p (exp (l/2)))) with X.
      rewrite exp_half, ln_exp. fold q u g. rewrite (sqrt_pow2 g Hg), Eg, Eq, Eu. reflexivity. }
    assert (EL : L = ln (q * q) - lnQ2 c).
    { unfold L. rewrite LQ_one by (try assumption; rewrite Eq; lra). rewrite Eq. reflexivity. }
    rewrite EL in HD2. replace (- D2) with (-1 * D2) by ring.
    apply (is_derive_comp (fun l : R => yta2_G dilog (q*q) (u*u) (g*g) q u g (tc_msq2 c) (sqrt (tc_msq2 c)) X l : R) (fun l : R => ln (q * q) - l)).
    + exact HD2.
    + auto_derive; [exact I | ring].
  - eapply is_derive_ext_loc; [|exact HD].
    destruct (near0 (q * q) (- (16/3) * g^2) ltac:(nra)) as [e He].
    destruct (near0 (u * u) (- (16/3) * g^2) ltac:(nra)) as [e' He'].
    destruct (near0 1 (-3) ltac:(lra)) as [e'' He''].
    exists (mkposreal (Rmin e (Rmin e' e'')) ltac:(apply Rmin_pos; [|apply Rmin_pos]; apply cond_pos)). intros t Ht.
    change (Rabs (t - 0) < Rmin e (Rmin e' e'')) in Ht.
    pose proof (Rmin_l e (Rmin e' e'')). pose proof (Rmin_r e (Rmin e' e'')). pose proof (Rmin_l e' e''). pose proof (Rmin_r e' e'').
    assert (T1 : 0 < q * q + - (16 / 3) * g ^ 2 * t) by (apply He; lra).
    assert (T3 : 0 < 1 + -3 * t) by (apply He''; lra).
    unfold soft_step, getThresholdCorrection. cbn [tc_p tc_msq2 massLimit3LThreshold]. fold p. rewrite HL.
    rewrite yta_G_LQ. cbn [bind value mq2 mu2 MSt MG scale a22].
    unfold LQ. cbn [mq2 MSt scale a22]. fold g. rewrite Eq, Eu.
    rewrite (soft_LQ p 0); [| assumption | rewrite Eq; lra | assumption | assumption].
    fold L. rewrite Eq, Rmult_0_l, Rplus_0_r.
    rewrite (sqrt_pow2 (g * (1 - 3 * t))) by (apply Rmult_lt_0_compat; lra).
    change (pow2 (g * (1 - 3 * t))) with (g * (1 - 3 * t) * (g * (1 - 3 * t))).
    replace (calcXt _) with (X + 16/3 * g * t) by (unfold X, calcXt, calcTanBeta; cbn [Au mu vu vd a22]; unR; ring).
    reflexivity.
  - unfold getThresholdCorrection. fold p. rewrite HL. rewrite yta_G_LQ. cbn [bind value].
    fold L X g q u. rewrite Eg, <- Eg, (sqrt_pow2 g Hg), Eg, Eq, Eu. rewrite HE. f_equal. f_equal. f_equal.
    unfold getDeltaG3Alphas. fold p. cbv zeta. fold g. rewrite Eg, Eq, Eu.
    unfold L, LQ. rewrite ?Eq. assert (HM : 0 < pow2 (v0 (MSt p))) by (unfold pow2; unR; nra).
    unR. rewrite !(ln_div _ (pow2 (v0 (MSt p)))), !(ln_div _ (q * q)) by nra. field.
Qed.
