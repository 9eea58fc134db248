(** * Threshold corrections: property theorems C31, C32, C33, C50 *)
From Coq Require Import Reals ZArith Bool List Lra Lia Psatz.
From Coquelicot Require Import Coquelicot.
From Verif Require Import Num NumFacts Except Params ParamsSpec ParamsProofs2 ParamsExamples HierFormulas Thresh ThreshTwo Threshold
  ThreshSpec ThreshProofs ThreshRGE ThreshConv ThreshLimit.
Import ListNotations.
Open Scope R_scope.

(** ** C31 *)
(** strong one-loop corrections: fixed coefficients, in every mass limit.  With omitLogs = 0 the definition of
    [log_coefficient] says that the value does not depend on the scale. *)
Theorem C31_strong_one_loop (c : TC R) : phys_tc c -> known_limit (getLimit c) ->
  a22 (mq2 (tc_p c)) <> MG (tc_p c) ^ 2 \/ getLimit c <> MQ3_EQ_MU3 ->
  log_coefficient c G3_AS S_TEST 2 /\ log_coefficient c G3_AS S_DRBARPRIME (-2) /\
  log_coefficient c YT_AS S_TEST (4/3) /\ log_coefficient c YT_AS S_DRBARPRIME (-(4/3)) /\
  (forall s, log_coefficient c LAMBDA_AT s (-12)).
Proof.
  intros H HL Hd. repeat split.
  - apply coef_G3; assumption.
  - apply coef_G3_DR; assumption.
  - apply coef_YT_AS; assumption.
  - apply coef_YT_AS_DR; assumption.
  - intros s. apply coef_LAMBDA_AT; assumption.
Qed.

(** gauge couplings: half the difference of the one-loop beta coefficients *)
Theorem C31_gauge (c : TC R) : phys_tc c ->
  (forall s, log_coefficient c G1_G1 s ((bMSSM 0 - bSM 0) / 2)) /\
  (forall s, log_coefficient c G2_G2 s ((bMSSM 1 - bSM 1) / 2)) /\
  log_coefficient c G3_AS S_TEST ((bMSSM 2 - bSM 2) / 2).
Proof.
  intros H. unfold bMSSM, bSM. cbn [nth]. repeat split; try intros s.
  - replace ((33/5 - 41/10) / 2) with (5/4) by lra. apply coef_G1_G1; assumption.
  - replace ((1 - -19/6) / 2) with (25/12) by lra. apply coef_G2_G2; assumption.
  - replace ((-3 - -7) / 2) with 2 by lra. apply coef_G3; assumption.
Qed.

(** ** C50: agreement with the renormalisation group *)
(** sum of all 18 one-loop pieces of lambda: the scale dependence is that of the SM coupling minus that of the
    tree-level MSSM expression *)
Theorem C50_lambda_one_loop (c : TC R) (y1 y2 yt yb ytau : R) : phys_tc c -> known_limit (getLimit c) ->
  let cb := cos (calcBeta (tc_p c)) in let sb := sin (calcBeta (tc_p c)) in
  forall Q Q', 0 < Q -> 0 < Q' ->
  exists t t', lambda_one_loop (at_scale c Q) y1 y2 yt yb ytau = Ok t /\
               lambda_one_loop (at_scale c Q') y1 y2 yt yb ytau = Ok t' /\
  t' = t + (sm_lambda (lambda_tree y1 y2 (cb^2 - sb^2)) y1 y2 yt yb ytau - d_lambda_tree y1 y2 sb cb yt yb ytau)
           * ln (Q'^2 / Q^2).
Proof.
  intros H HL cb sb Q Q' HQ HQ'.
  destruct (beta_trig c) as (T1 & _ & T3 & T4); [apply H | apply H |].
  assert (Hu : 0 < vu (tc_p c)) by apply H. assert (Hd : 0 < vd (tc_p c)) by apply H.
  assert (Hr : 0 < vu (tc_p c) / vd (tc_p c)) by (apply Rdiv_lt_0_compat; assumption).
  pose proof (atan_bound (vu (tc_p c) / vd (tc_p c))) as Hb.
  assert (Hb0 : 0 < atan (vu (tc_p c) / vd (tc_p c))).
  { rewrite <- atan_0. apply atan_increasing. assumption. }
  assert (C0 : 0 < cb) by (apply cos_gt_0; unfold calcBeta, calcTanBeta; unR; lra).
  assert (S0 : 0 < sb) by (apply sin_gt_0; unfold calcBeta, calcTanBeta; unR; pose proof PI_RGT_0; lra).
  assert (E : SB c = sb /\ CB c = cb).
  { assert (T2 : SB c ^ 2 + CB c ^ 2 = 1) by (apply beta_trig; assumption).
    assert (E2 : CB c ^ 2 - SB c ^ 2 = cb ^ 2 - sb ^ 2).
    { rewrite <- T1. unfold C2, cb, sb. rewrite cos_2a. ring. }
    assert (E3 : sb ^ 2 + cb ^ 2 = 1) by (unfold sb, cb; pose proof (sin2_cos2 (calcBeta (tc_p c))) as E3; unfold Rsqr in E3; lra).
    split; apply Rsqr_inj; unfold Rsqr; lra. }
  destruct E as [<- <-]. rewrite <- T1. apply lambda_rge; assumption.
Qed.

(** Yukawa couplings (in units of MSSM Yukawa couplings Yt = y_t/sin(beta), Yb = y_b/cos(beta)) *)
Theorem C50_yukawa_one_loop (c : TC R) : phys_tc c -> known_limit (getLimit c) ->
  a22 (mq2 (tc_p c)) <> MG (tc_p c) ^ 2 \/ getLimit c <> MQ3_EQ_MU3 ->
  exists kas ktt ktb bas bt bb ll lb : R,
  (log_coefficient c YT_AS S_DRBARPRIME kas /\ log_coefficient c YT_YT S_DRBARPRIME ktt /\ log_coefficient c YT_YB S_DRBARPRIME ktb) /\
  (log_coefficient c YB_AS S_DRBARPRIME bas /\ log_coefficient c YB_YT S_DRBARPRIME bt /\ log_coefficient c YB_YB S_DRBARPRIME bb) /\
  (log_coefficient c YTAU_YTAU S_DRBARPRIME ll /\ log_coefficient c YTAU_YB S_DRBARPRIME lb) /\
  let sb := calcSinBeta (tc_p c) in let cb := calcCosBeta (tc_p c) in
  sb^2 + cb^2 = 1 /\
  forall g3 Yt Yb Yl,
  (* y_t = Yt sin(beta): d ln sin(beta) = cos^2(beta) d ln tan(beta); the code has no tau contribution to y_t, y_b *)
  kas * g3^2 + ktt * Yt^2 + ktb * Yb^2 =
    (sm_yt g3 (Yt * sb) (Yb * cb) 0 - mssm_yt g3 Yt Yb 0 - cb^2 * mssm_tanb Yt Yb 0) / 2 /\
  bas * g3^2 + bt * Yt^2 + bb * Yb^2 =
    (sm_yb g3 (Yt * sb) (Yb * cb) 0 - mssm_yb g3 Yt Yb 0 + sb^2 * mssm_tanb Yt Yb 0) / 2 /\
  ll * Yl^2 + lb * Yb^2 =
    (sm_ytau 0 (Yb * cb) (Yl * cb) - mssm_ytau 0 Yb Yl + sb^2 * mssm_tanb 0 Yb Yl) / 2.
Proof.
  intros H HL Hd.
  exists (-(4/3)), (- (6 * CB c ^ 2 + 6) / 8), (- (2 + 8 * CB c ^ 2 + 2 * SB c ^ 2) / 8),
    (- (4/3)), (- (2 + 2 * CB c ^ 2 + 8 * SB c ^ 2) / 8), (- (6 + 6 * SB c ^ 2) / 8), (- (6 * SB c ^ 2 + 6) / 8), 0.
  split; [|split; [|split]].
  - split; [|split]; [apply coef_YT_AS_DR | apply coef_YT_YT | apply coef_YT_YB]; assumption.
  - split; [|split]; [apply coef_YB_AS | apply coef_YB_YT | apply coef_YB_YB]; assumption.
  - split; [apply coef_YTAU_YTAU | apply coef_YTAU_YB]; assumption.
  - intros sb cb. change (calcSinBeta (tc_p c)) with (SB c) in sb. change (calcCosBeta (tc_p c)) with (CB c) in cb.
    destruct (beta_trig c) as (_ & T2 & _ & _); [apply H | apply H |].
    fold sb cb in T2. split; [exact T2|]. intros g3 Yt Yb Yl. fold sb cb.
    unfold sm_yt, mssm_yt, mssm_tanb, sm_yb, mssm_yb, sm_ytau, mssm_ytau.
    assert (E : sb ^ 2 = 1 - cb ^ 2) by lra. rewrite !Rpow_mult_distr, E. repeat split; field.
Qed.

(** two-loop lambda at O(alpha_t alpha_s): explicit scale dependence and soft-parameter running against
    the one-loop value times the SM anomalous dimension; -64 is the SM two-loop beta coefficient *)
Theorem C50_lambda_two_loop_partial (c : TC R) : phys_tc c -> distinct c ->
  exists d2 d1,
  is_derive (fun L : R => value (getThresholdCorrection (at_lnQ2 c L) LAMBDA_AT_AS S_TEST 1) : R) (lnQ2 c) d2 /\
  is_derive (fun t : R => value (getThresholdCorrection (soft_step c t) LAMBDA_AT S_TEST 1) : R) 0 d1 /\
  d2 + d1 = 16 * value (getThresholdCorrection c LAMBDA_AT S_TEST 1) - 64.
Proof. exact (lambda_atas_rge c). Qed.

Theorem C50_yt_two_loop_partial (c : TC R) : phys_tc c -> distinct c ->
  exists d2 d1,
  is_derive (fun L : R => value (getThresholdCorrection (at_lnQ2 c L) YT_AS2 S_TEST 1) : R) (lnQ2 c) d2 /\
  is_derive (fun t : R => value (getThresholdCorrection (soft_step c t) YT_AS S_TEST 1) : R) 0 d1 /\
  d2 + d1 = (7 + 4/3) * value (getThresholdCorrection c YT_AS S_TEST 1)
            - 16/3 * value (getThresholdCorrection c G3_AS S_TEST 1) + 478/9.
Proof. exact (yt_as2_rge c). Qed.

(** a concrete point: mQ3 = 1000, mU3 = 2000, m3 = 3000, msq = 1500, scale 1500 *)
Definition p_thr : Params R :=
  mkParams 1500 500 (1/2) (2/3) 1 20 200 (diag3 1000000) (diag3 2250000) (diag3 4000000) (diag3 1000000) (diag3 1000000)
    (diag3 1500) (diag3 0) (diag3 0) (diag3 0) (diag3 0) (diag3 0) 400 800 3000 80 91 150 3 2 1000
    (mkV2 900 2100) (mkV2 1000 1500) (mkV2 1000 1000) (1/10) 0 0 0 0 0 0.
Definition c_thr : TC R := mkTC p_thr 2250000 6.
Example C50_nonvacuous : phys_tc c_thr /\ distinct c_thr /\ known_limit (getLimit c_thr) /\
  (a22 (mq2 (tc_p c_thr)) <> MG (tc_p c_thr) ^ 2 \/ getLimit c_thr <> MQ3_EQ_MU3).
Proof.
  unfold phys_tc, phys, distinct, known_limit, getLimit, c_thr, p_thr, diag3. cbn [tc_p tc_msq2 scale mu mq2 md2 mu2 ml2 me2 MA M1 M2 MG MSt vu vd v0 massLimit3LThreshold a22 In].
  repeat match goal with |- _ /\ _ => split end; try lra; try reflexivity; try lia.
  - intros m [<-|[<-|[<-|[<-|[<-|[]]]]]]; cbn [a00 a11 a22]; lra.
Qed.

(** ** C32 *)
Theorem C32_scheme_independent {T} {N : Num T} (c : TC T) (o : tco) (s s' : scheme) (l : Z) :
  ~ In o [G3_AS; YT_AS; YT_AS2; LAMBDA_AT_AS; LAMBDA_AT_AS2] ->
  getThresholdCorrection c o s l = getThresholdCorrection c o s' l.
Proof. intros H. apply scheme_free. destruct o; try reflexivity; exfalso; apply H; simpl; tauto. Qed.

Theorem C32_only_DRbarprime_converts {T} {N : Num T} (c : TC T) (o : tco) (s s' : scheme) (l : Z) :
  s <> S_DRBARPRIME -> s' <> S_DRBARPRIME -> getThresholdCorrection c o s l = getThresholdCorrection c o s' l.
Proof. intros H H'. rewrite (scheme_raw c o s l H), (scheme_raw c o s' l H'). reflexivity. Qed.

Theorem C32_unknown_order {T} {N : Num T} (c : TC T) (z : Z) (s : scheme) (l : Z) :
  getThresholdCorrection c (tco_other z) s l = Ok (nint 0).
Proof. reflexivity. Qed.

(** y_t(raw) = Y (1 + a h + b h^2), g(raw)^2 = h (1 + g h)^2, h = G^2: the DR' coefficients invert the relation through h^2 *)
Theorem C32_yt_conversion (c : TC R) (l : Z) (a b g a' b' : R) :
  getThresholdCorrection c YT_AS S_TEST l = Ok a -> getThresholdCorrection c YT_AS2 S_TEST l = Ok b ->
  getThresholdCorrection c G3_AS S_TEST l = Ok g ->
  getThresholdCorrection c YT_AS S_DRBARPRIME l = Ok a' -> getThresholdCorrection c YT_AS2 S_DRBARPRIME l = Ok b' ->
  agree_h2 (fun h => (1 + a * h + b * h^2) * (let h' := h * (1 + g * h)^2 in 1 + a' * h' + b' * h'^2)) (fun _ => 1).
Proof. exact (yt_conversion c l a b g a' b'). Qed.

(** y^4 (L1 + L2 g^2 + L3 g^4) in raw couplings, rewritten with y = Y (1 + a' G^2 + b' G^4), g = G (1 + g' G^2), is
    Y^4 (M1 + M2 G^2 + M3 G^4) through three loops *)
Theorem C32_lambda_conversion (c : TC R) (l : Z) (L1 L2 L3 M1 M2 M3 a' b' g' : R) :
  getThresholdCorrection c LAMBDA_AT S_TEST l = Ok L1 -> getThresholdCorrection c LAMBDA_AT_AS S_TEST l = Ok L2 ->
  getThresholdCorrection c LAMBDA_AT_AS2 S_TEST l = Ok L3 ->
  getThresholdCorrection c LAMBDA_AT S_DRBARPRIME l = Ok M1 -> getThresholdCorrection c LAMBDA_AT_AS S_DRBARPRIME l = Ok M2 ->
  getThresholdCorrection c LAMBDA_AT_AS2 S_DRBARPRIME l = Ok M3 ->
  getThresholdCorrection c YT_AS S_DRBARPRIME l = Ok a' -> getThresholdCorrection c YT_AS2 S_DRBARPRIME l = Ok b' ->
  getThresholdCorrection c G3_AS S_DRBARPRIME l = Ok g' ->
  agree_h2
    (fun h => (1 + a' * h + b' * h^2)^4 * (let h' := h * (1 + g' * h)^2 in L1 + L2 * h' + L3 * h'^2))
    (fun h => M1 + M2 * h + M3 * h^2).
Proof. exact (lambda_conversion c l L1 L2 L3 M1 M2 M3 a' b' g'). Qed.

(** all nine calls succeed, in every known limit and for every omitLogs *)
Theorem C32_defined (c : TC R) (l : Z) (s : scheme) (o : tco) : known_limit (getLimit c) ->
  exists v, getThresholdCorrection c o s l = Ok v.
Proof.
  intros H. unfold getLimit in H.
  assert (A1 : exists v, getDeltaYtAlphas (tc_p c) (massLimit3LThreshold (tc_p c)) l = Ok v).
  { destruct (known_cases _ H) as [E|[E|[E|[E|[E|E]]]]]; rewrite E; eexists; reflexivity. }
  assert (A2 : exists v, getDeltaYtAlphas2 (tc_p c) (tc_msq2 c) (massLimit3LThreshold (tc_p c)) l = Ok v).
  { destruct (known_cases _ H) as [E|[E|[E|[E|[E|E]]]]]; rewrite E; eexists; reflexivity. }
  assert (A3 : exists v, getDeltaLambdaAlphat (tc_p c) (massLimit3LThreshold (tc_p c)) l = Ok v).
  { destruct (known_cases _ H) as [E|[E|[E|[E|[E|E]]]]]; rewrite E; eexists; reflexivity. }
  assert (A4 : exists v, getDeltaLambdaAlphatAlphas (tc_p c) (massLimit3LThreshold (tc_p c)) l = Ok v).
  { destruct (known_cases _ H) as [E|[E|[E|[E|[E|E]]]]]; rewrite E; eexists; reflexivity. }
  assert (A5 : exists v, getDeltaLambdaAlphatAlphas2 (tc_p c) (tc_msq2 c) (tc_xt c) (massLimit3LThreshold (tc_p c)) l = Ok v).
  { destruct (known_cases _ H) as [E|[E|[E|[E|[E|E]]]]]; rewrite E; eexists; reflexivity. }
  destruct A1 as [a1 A1], A2 as [a2 A2], A3 as [a3 A3], A4 as [a4 A4], A5 as [a5 A5].
  destruct o; cbn [getThresholdCorrection]; rewrite ?A1, ?A2, ?A3, ?A4, ?A5; cbn [bind]; try (eexists; reflexivity);
  destruct s; rewrite ?A1, ?A2, ?A3, ?A4, ?A5; cbn [bind]; eexists; reflexivity.
Qed.

(** ** C33 *)
Lemma Rltb_iff a b : Rltb a b = true <-> a < b.
Proof. unfold Rltb. destruct (Rlt_dec a b); split; auto; discriminate. Qed.
Lemma nearb_iff ms l : nearb ms l = true <-> near ms l.
Proof.
  unfold nearb, near. rewrite forallb_forall. split.
  - intros H i j Hij. specialize (H (i, j) Hij). cbn [fst snd] in H. unR. rewrite Rltb_iff in H.
    replace (nth _ ms 0 / 100) with ((if (l =? MU3_EQ_M3)%Z then nth 1 ms 0 else nth 0 ms 0) * Rdec 1 2); [exact H|].
    unfold Rdec. simpl Z.pow. destruct (l =? MU3_EQ_M3)%Z; field.
  - intros H [i j] Hij. specialize (H i j Hij). cbn [fst snd]. unR. rewrite Rltb_iff.
    replace ((if (l =? MU3_EQ_M3)%Z then nth 1 ms 0 else nth 0 ms 0) * Rdec 1 2) with (nth (if (l =? MU3_EQ_M3)%Z then 1 else 0) ms 0 / 100); [exact H|].
    unfold Rdec. simpl Z.pow. destruct (l =? MU3_EQ_M3)%Z; field.
Qed.

(** A limit differing from the user's is only chosen for masses that agree within 1%, no limit declaring
    more masses equal applies, and the general formula is unstable. *)
Theorem C33_choice_consistent (E : EigenLib R) (p p' : Params R) (c : TC R) :
  validate E p = Ok p' -> newTC E p false = Ok c ->
  getLimit c = massLimit3LThreshold p \/
  (let ms := masses p' (calculateMsq2 p) in let l := getLimit c in
   near ms l /\ declared l <> [] /\
   (forall l', incl (declared l) (declared l') -> near ms l' -> incl (declared l') (declared l)) /\
   exists e s a, probe p' (calculateMsq2 p) l = Ok (e, s, a) /\ unstable e s a).
Proof.
  intros HV H. unfold newTC in H. rewrite HV in H. cbn [bind] in H. rewrite choose_spec in H.
  pose proof (validate_frame E p p' HV) as HF.
  assert (HM : massLimit3LThreshold p' = massLimit3LThreshold p) by apply HF. rewrite HM in H.
  destruct (first_near (masses p' (calculateMsq2 p))) as [l|] eqn:EF.
  2: { cbn [bind] in H. injection H as <-. left. reflexivity. }
  destruct (probe p' (calculateMsq2 p) l) as [[[e s] a]|] eqn:EP; cbn [bind] in H; [|discriminate].
  destruct (isGeneralStable e s a) eqn:ES; cbn [bind] in H; injection H as <-; [left; reflexivity|right].
  unfold getLimit. cbn [tc_p with_limit massLimit3LThreshold].
  set (ms := masses p' (calculateMsq2 p)) in *.
  unfold first_near in EF. pose proof (find_some _ _ EF) as [HI HN].
  split; [apply nearb_iff; assumption|]. split.
  { destruct HI as [<-|[<-|[<-|[<-|[<-|[]]]]]]; discriminate. }
  split; [|exists e, s, a; split; [exact EP | apply unstable_iff; exact ES]].
  intros l' Hi Hn. apply nearb_iff in Hn.
  assert (HK : In l' tried \/ declared l' = []).
  { unfold declared. destruct (l' =? MQ3_EQ_MU3)%Z eqn:E1; [apply Z.eqb_eq in E1; subst l'; left; simpl; tauto|].
    destruct (l' =? MQ3_EQ_M3)%Z eqn:E2; [apply Z.eqb_eq in E2; subst l'; left; simpl; tauto|].
    destruct (l' =? MU3_EQ_M3)%Z eqn:E3; [apply Z.eqb_eq in E3; subst l'; left; simpl; tauto|].
    destruct (l' =? MQ3_EQ_MU3_EQ_M3)%Z eqn:E4; [apply Z.eqb_eq in E4; subst l'; left; simpl; tauto|].
    destruct (l' =? DEGENERATE)%Z eqn:E5; [apply Z.eqb_eq in E5; subst l'; left; simpl; tauto|auto]. }
  destruct HK as [HK|HK]; [|rewrite HK; intros x []].
  clear - EF Hi Hn HI HK. unfold tried, find in EF.
  Ltac cmp Hi :=
    try congruence; try (intros x Hx; simpl in Hx |- *; tauto);
    exfalso; pose proof (Hi (0,1)%nat) as H1; pose proof (Hi (0,2)%nat) as H2; pose proof (Hi (1,2)%nat) as H3;
    simpl in H1, H2, H3;
    repeat match goal with
    | H : ?A -> _ |- _ => let a := fresh in assert (a : A) by tauto; specialize (H a); clear a
    | H : _ \/ _ |- _ => destruct H
    | H : False |- _ => destruct H
    end; discriminate.
  destruct (nearb ms DEGENERATE) eqn:N1; [injection EF as <-; destruct HK as [<-|[<-|[<-|[<-|[<-|[]]]]]]; cmp Hi|].
  destruct (nearb ms MQ3_EQ_MU3_EQ_M3) eqn:N2; [injection EF as <-; destruct HK as [<-|[<-|[<-|[<-|[<-|[]]]]]]; cmp Hi|].
  destruct (nearb ms MQ3_EQ_MU3) eqn:N3; [injection EF as <-; destruct HK as [<-|[<-|[<-|[<-|[<-|[]]]]]]; cmp Hi|].
  destruct (nearb ms MQ3_EQ_M3) eqn:N4; [injection EF as <-; destruct HK as [<-|[<-|[<-|[<-|[<-|[]]]]]]; cmp Hi|].
  destruct (nearb ms MU3_EQ_M3) eqn:N5; [injection EF as <-; destruct HK as [<-|[<-|[<-|[<-|[<-|[]]]]]]; cmp Hi|discriminate].
Qed.

(** No two masses close: the user's limit stays. *)
Theorem C33_far_masses (E : EigenLib R) (p p' : Params R) (c : TC R) :
  validate E p = Ok p' -> newTC E p false = Ok c ->
  (forall l, declared l <> [] -> ~ near (masses p' (calculateMsq2 p)) l) -> getLimit c = massLimit3LThreshold p.
Proof.
  intros HV H HN. destruct (C33_choice_consistent E p p' c HV H) as [K|(K & K' & _)]; [exact K|].
  exfalso. exact (HN _ K' K).
Qed.

(** Close masses and an unstable general formula: the limit is switched *)
Theorem C33_switches {T} {N : Num T} (p : Params T) (msq2 : T) (l : Z) (e s a : T) :
  first_near (masses p msq2) = Some l -> probe p msq2 l = Ok (e, s, a) -> unstable e s a ->
  choose_limit p msq2 = Ok l.
Proof. intros H1 H2 H3. rewrite choose_spec, H1, H2. cbn [bind]. apply unstable_iff in H3. rewrite H3. reflexivity. Qed.

(** With the check flag the user's limit is used unchanged, for every number type. *)
Theorem C33_check_keeps_limit {T} {N : Num T} (E : EigenLib T) (p : Params T) (c : TC T) :
  newTC E p true = Ok c -> getLimit c = massLimit3LThreshold p /\
  forall p', validate E p = Ok p' -> tc_p c = p'.
Proof.
  unfold newTC. destruct (validate E p) as [p'|] eqn:HV; cbn [bind]; [|discriminate].
  intros H. injection H as <-. split.
  - apply (validate_frame E p p' HV).
  - intros q Hq. injection Hq as <-. reflexivity.
Qed.
