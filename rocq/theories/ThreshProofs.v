(** * Scale dependence of the one-loop threshold corrections (C31, C50) *)
From Coq Require Import Reals ZArith Bool List Lra Psatz.
From Coquelicot Require Import Coquelicot.
From Verif Require Import Num NumFacts Except Params HierFormulas LoopFun Thresh Threshold ThreshViews ThreshSpec.
Import ListNotations.
Open Scope R_scope.

Lemma lnQ x Q Q' : 0 < x -> 0 < Q -> 0 < Q' -> ln (x / (Q' * Q')) = ln (x / (Q * Q)) - ln (Q'^2 / Q^2).
Proof.
  intros. assert (0 < Q * Q) by nra. assert (0 < Q' * Q') by nra.
  replace (Q'^2 / Q^2) with ((Q' * Q') / (Q * Q)) by (field; lra).
  rewrite !ln_div by assumption. lra.
Qed.

(** positivity facts of a physical point *)
Lemma phys_facts p : phys p ->
  (0 < a00 (mq2 p) /\ 0 < a11 (mq2 p) /\ 0 < a22 (mq2 p)) /\ (0 < a00 (md2 p) /\ 0 < a11 (md2 p) /\ 0 < a22 (md2 p)) /\
  (0 < a00 (mu2 p) /\ 0 < a11 (mu2 p) /\ 0 < a22 (mu2 p)) /\ (0 < a00 (ml2 p) /\ 0 < a11 (ml2 p) /\ 0 < a22 (ml2 p)) /\
  (0 < a00 (me2 p) /\ 0 < a11 (me2 p) /\ 0 < a22 (me2 p)).
Proof. intros [H _]. repeat split; apply H; simpl; tauto. Qed.

Lemma sq_pos x : x <> 0 -> 0 < x * x. Proof. intros. nra. Qed.
Lemma sq_pos' x : 0 < x -> 0 < x * x. Proof. intros. nra. Qed.

Ltac pos := first [assumption | apply sq_pos; assumption | apply sq_pos'; assumption].
Ltac facts H :=
  pose proof (phys_facts _ (proj1 H)) as ((? & ? & ?) & (? & ? & ?) & (? & ? & ?) & (? & ? & ?) & (? & ? & ?));
  destruct H as ((_ & ? & ? & ? & ? & ? & ? & Hst & Hvu & Hvd) & ?).
Ltac logs Q Q' :=
  repeat match goal with
  | |- context [ln (?x / (Q' * Q'))] => rewrite (lnQ x Q Q') by pos
  end.
Ltac nz := repeat split; try (apply Rgt_not_eq; first [apply sqrt_lt_R0; assumption | assumption]); try assumption; try lra.
Ltac prj := cbn [scale mu g1 g2 g3 vd vu mq2 md2 mu2 ml2 me2 Au Ad Ae M1 M2 MG Mt Mb Mtau MA MSt massLimit3LThreshold].
Lemma vsq (c : TC R) : 0 < vu (tc_p c) -> 0 < vd (tc_p c) -> sqrt (vu (tc_p c) * vu (tc_p c) + vd (tc_p c) * vd (tc_p c)) <> 0.
Proof. intros. apply Rgt_not_eq, sqrt_lt_R0. nra. Qed.
Tactic Notation "coef" reference(f) :=
  intros l Q Q' HQ HQ';
  unfold at_scale, getThresholdCorrection; cbn [tc_p tc_msq2 tc_xt];
  unfold f; unfold calcXt, calcXb, calcXtau, calcBeta, calcSinBeta, calcCosBeta, calcTanBeta, calcV, calcV2, with_scale;
  prj; cbv zeta; unfold pow2; unR; logs Q Q'.

Definition C2 (c : TC R) := cos (2 * calcBeta (tc_p c)).
Definition C4 (c : TC R) := cos (4 * calcBeta (tc_p c)).
Definition C8 (c : TC R) := cos (8 * calcBeta (tc_p c)).
Definition SB (c : TC R) := calcSinBeta (tc_p c).
Definition CB (c : TC R) := calcCosBeta (tc_p c).

Lemma coef_G3 c : phys_tc c -> log_coefficient c G3_AS S_TEST (2).
Proof. intros Hc. facts Hc. coef getDeltaG3Alphas. field. Qed.

Lemma coef_YB2_G12 c s : phys_tc c -> log_coefficient c LAMBDA_YB2_G12 s (9/5 * C2 c).
Proof. intros Hc. facts Hc. coef getDeltaLambdaYb2G12. unfold C2, C4, C8, SB, CB, calcBeta, calcTanBeta, calcSinBeta, calcCosBeta, calcV, calcV2, pow2; unR; field; nz. Qed.

Lemma coef_G14 c s : phys_tc c -> log_coefficient c LAMBDA_G14 s (- (87 - 12 * C4 c - 27 * C8 c + 960 * (C2 c * C2 c)) / 800).
Proof. intros Hc. facts Hc. coef getDeltaLambdaG14. unfold C2, C4, C8, SB, CB, calcBeta, calcTanBeta, calcSinBeta, calcCosBeta, calcV, calcV2, pow2; unR; field; nz. Qed.

Lemma coef_REG_G14 c s : phys_tc c -> log_coefficient c LAMBDA_REG_G14 s (0).
Proof. intros Hc. facts Hc. coef getDeltaLambdaRegG14. unfold C2, C4, C8, SB, CB, calcBeta, calcTanBeta, calcSinBeta, calcCosBeta, calcV, calcV2, pow2; unR; field; nz. Qed.

Lemma coef_CHI_G14 c s : phys_tc c -> log_coefficient c LAMBDA_CHI_G14 s (3 * (22 - 2 * C4 c) / 200).
Proof. intros Hc. facts Hc. coef getDeltaLambdaChiG14. unfold C2, C4, C8, SB, CB, calcBeta, calcTanBeta, calcSinBeta, calcCosBeta, calcV, calcV2, pow2; unR; field; nz. Qed.

Lemma coef_CHI_G24 c s : phys_tc c -> log_coefficient c LAMBDA_CHI_G24 s ((90 + 18 * C4 c) / 24).
Proof. intros Hc. facts Hc. coef getDeltaLambdaChiG24. unfold C2, C4, C8, SB, CB, calcBeta, calcTanBeta, calcSinBeta, calcCosBeta, calcV, calcV2, pow2; unR; field; nz. Qed.

Lemma coef_G24 c s : phys_tc c -> log_coefficient c LAMBDA_G24 s (- (53 - 28 * C4 c - 9 * C8 c + 192 * (C2 c * C2 c)) / 96).
Proof. intros Hc. facts Hc. coef getDeltaLambdaG24. unfold C2, C4, C8, SB, CB, calcBeta, calcTanBeta, calcSinBeta, calcCosBeta, calcV, calcV2, pow2; unR; field; nz. Qed.

Lemma coef_REG_G24 c s : phys_tc c -> log_coefficient c LAMBDA_REG_G24 s (0).
Proof. intros Hc. facts Hc. coef getDeltaLambdaRegG24. unfold C2, C4, C8, SB, CB, calcBeta, calcTanBeta, calcSinBeta, calcCosBeta, calcV, calcV2, pow2; unR; field; nz. Qed.

Lemma coef_G12_G22 c s : phys_tc c -> log_coefficient c LAMBDA_G12_G22 s (3 * (-7 + 4 * C4 c + 3 * C8 c) / 80).
Proof. intros Hc. facts Hc. coef getDeltaLambdaG12G22. unfold C2, C4, C8, SB, CB, calcBeta, calcTanBeta, calcSinBeta, calcCosBeta, calcV, calcV2, pow2; unR; field; nz. Qed.

Lemma coef_REG_G12_G22 c s : phys_tc c -> log_coefficient c LAMBDA_REG_G12_G22 s (0).
Proof. intros Hc. facts Hc. coef getDeltaLambdaRegG12G22. unfold C2, C4, C8, SB, CB, calcBeta, calcTanBeta, calcSinBeta, calcCosBeta, calcV, calcV2, pow2; unR; field; nz. Qed.

Lemma coef_CHI_G12_G22 c s : phys_tc c -> log_coefficient c LAMBDA_CHI_G12_G22 s ((24 - 24 * C4 c) / 40).
Proof. intros Hc. facts Hc. coef getDeltaLambdaChiG12G22. unfold C2, C4, C8, SB, CB, calcBeta, calcTanBeta, calcSinBeta, calcCosBeta, calcV, calcV2, pow2; unR; field; nz. Qed.

Lemma coef_YB2_G22 c s : phys_tc c -> log_coefficient c LAMBDA_YB2_G22 s (3 * C2 c).
Proof. intros Hc. facts Hc. coef getDeltaLambdaYb2G22. unfold C2, C4, C8, SB, CB, calcBeta, calcTanBeta, calcSinBeta, calcCosBeta, calcV, calcV2, pow2; unR; field; nz. Qed.

Lemma coef_YB4 c s : phys_tc c -> log_coefficient c LAMBDA_YB4 s (-12).
Proof. intros Hc. facts Hc. coef getDeltaLambdaYb4. unfold C2, C4, C8, SB, CB, calcBeta, calcTanBeta, calcSinBeta, calcCosBeta, calcV, calcV2, pow2; unR; field; nz. Qed.

Lemma coef_YT2_G12 c s : phys_tc c -> log_coefficient c LAMBDA_YT2_G12 s (- (9/5) * C2 c).
Proof. intros Hc. facts Hc. coef getDeltaLambdaYt2G12. unfold C2, C4, C8, SB, CB, calcBeta, calcTanBeta, calcSinBeta, calcCosBeta, calcV, calcV2, pow2; unR; field; nz. Qed.

Lemma coef_YT2_G22 c s : phys_tc c -> log_coefficient c LAMBDA_YT2_G22 s (- 3 * C2 c).
Proof. intros Hc. facts Hc. coef getDeltaLambdaYt2G22. unfold C2, C4, C8, SB, CB, calcBeta, calcTanBeta, calcSinBeta, calcCosBeta, calcV, calcV2, pow2; unR; field; nz. Qed.

Lemma coef_YTAU2_G12 c s : phys_tc c -> log_coefficient c LAMBDA_YTAU2_G12 s (3/5 * C2 c).
Proof. intros Hc. facts Hc. coef getDeltaLambdaYtau2G12. unfold C2, C4, C8, SB, CB, calcBeta, calcTanBeta, calcSinBeta, calcCosBeta, calcV, calcV2, pow2; unR; field; nz. Qed.

Lemma coef_YTAU2_G22 c s : phys_tc c -> log_coefficient c LAMBDA_YTAU2_G22 s (C2 c).
Proof. intros Hc. facts Hc. coef getDeltaLambdaYtau2G22. unfold C2, C4, C8, SB, CB, calcBeta, calcTanBeta, calcSinBeta, calcCosBeta, calcV, calcV2, pow2; unR; field; nz. Qed.

Lemma coef_YTAU4 c s : phys_tc c -> log_coefficient c LAMBDA_YTAU4 s (-4).
Proof. intros Hc. facts Hc. coef getDeltaLambdaYtau4. unfold C2, C4, C8, SB, CB, calcBeta, calcTanBeta, calcSinBeta, calcCosBeta, calcV, calcV2, pow2; unR; field; nz. Qed.

Lemma coef_G1_G1 c s : phys_tc c -> log_coefficient c G1_G1 s (5/4).
Proof. intros Hc. facts Hc. coef getDeltaG1G1. unfold C2, C4, C8, SB, CB, calcBeta, calcTanBeta, calcSinBeta, calcCosBeta, calcV, calcV2, pow2; unR; generalize (sqrt (vu (tc_p c) * vu (tc_p c) + vd (tc_p c) * vd (tc_p c))) (vsq c Hvu Hvd); intros v Hv; field; nz. Qed.

Lemma coef_G2_G2 c s : phys_tc c -> log_coefficient c G2_G2 s (25/12).
Proof. intros Hc. facts Hc. coef getDeltaG2G2. unfold C2, C4, C8, SB, CB, calcBeta, calcTanBeta, calcSinBeta, calcCosBeta, calcV, calcV2, pow2; unR; generalize (sqrt (vu (tc_p c) * vu (tc_p c) + vd (tc_p c) * vd (tc_p c))) (vsq c Hvu Hvd); intros v Hv; field; nz. Qed.

Lemma coef_YT_YT c s : phys_tc c -> log_coefficient c YT_YT s (- (6 * CB c ^ 2 + 6) / 8).
Proof. intros Hc. facts Hc. coef getDeltaYtYt. unfold C2, C4, C8, SB, CB, calcBeta, calcTanBeta, calcSinBeta, calcCosBeta, calcV, calcV2, pow2; unR; generalize (sqrt (vu (tc_p c) * vu (tc_p c) + vd (tc_p c) * vd (tc_p c))) (vsq c Hvu Hvd); intros v Hv; field; nz. Qed.

Lemma coef_YTAU_YTAU c s : phys_tc c -> log_coefficient c YTAU_YTAU s (- (6 * SB c ^ 2 + 6) / 8).
Proof. intros Hc. facts Hc. coef getDeltaYtauYtau. unfold C2, C4, C8, SB, CB, calcBeta, calcTanBeta, calcSinBeta, calcCosBeta, calcV, calcV2, pow2; unR; generalize (sqrt (vu (tc_p c) * vu (tc_p c) + vd (tc_p c) * vd (tc_p c))) (vsq c Hvu Hvd); intros v Hv; field; nz. Qed.

Lemma coef_YB_YB c s : phys_tc c -> log_coefficient c YB_YB s (- (6 + 6 * SB c ^ 2) / 8).
Proof. intros Hc. facts Hc. coef getDeltaYbYb. unfold C2, C4, C8, SB, CB, calcBeta, calcTanBeta, calcSinBeta, calcCosBeta, calcV, calcV2, pow2; unR; generalize (sqrt (vu (tc_p c) * vu (tc_p c) + vd (tc_p c) * vd (tc_p c))) (vsq c Hvu Hvd); intros v Hv; field; nz. Qed.

Lemma coef_YB_YT c s : phys_tc c -> log_coefficient c YB_YT s (- (2 + 2 * CB c ^ 2 + 8 * SB c ^ 2) / 8).
Proof. intros Hc. facts Hc. coef getDeltaYbYt. unfold C2, C4, C8, SB, CB, calcBeta, calcTanBeta, calcSinBeta, calcCosBeta, calcV, calcV2, pow2; unR; generalize (sqrt (vu (tc_p c) * vu (tc_p c) + vd (tc_p c) * vd (tc_p c))) (vsq c Hvu Hvd); intros v Hv; field; nz. Qed.

Lemma coef_YB_AS c s : phys_tc c -> log_coefficient c YB_AS s (- (4/3)).
Proof. intros Hc. facts Hc. coef getDeltaYbAs. unfold C2, C4, C8, SB, CB, calcBeta, calcTanBeta, calcSinBeta, calcCosBeta, calcV, calcV2, pow2; unR; generalize (sqrt (vu (tc_p c) * vu (tc_p c) + vd (tc_p c) * vd (tc_p c))) (vsq c Hvu Hvd); intros v Hv; field; nz. Qed.

Lemma coef_YT_YB c s : phys_tc c -> log_coefficient c YT_YB s (- (2 + 8 * CB c ^ 2 + 2 * SB c ^ 2) / 8).
Proof. intros Hc. facts Hc. coef getDeltaYtYb. unfold C2, C4, C8, SB, CB, calcBeta, calcTanBeta, calcSinBeta, calcCosBeta, calcV, calcV2, pow2; unR; generalize (sqrt (vu (tc_p c) * vu (tc_p c) + vd (tc_p c) * vd (tc_p c))) (vsq c Hvu Hvd); intros v Hv; field; nz. Qed.

Lemma coef_YTAU_YB c s : phys_tc c -> log_coefficient c YTAU_YB s (0).
Proof. intros Hc. facts Hc. coef getDeltaYtauYb. unfold C2, C4, C8, SB, CB, calcBeta, calcTanBeta, calcSinBeta, calcCosBeta, calcV, calcV2, pow2; unR; generalize (sqrt (vu (tc_p c) * vu (tc_p c) + vd (tc_p c) * vd (tc_p c))) (vsq c Hvu Hvd); intros v Hv; field; nz. Qed.

(** all limits 0..5 *)
Definition known_limit (l : Z) : Prop := (0 <= l <= 5)%Z.
Lemma known_cases l : known_limit l -> l = 0%Z \/ l = 1%Z \/ l = 2%Z \/ l = 3%Z \/ l = 4%Z \/ l = 5%Z.
Proof. unfold known_limit. lia. Qed.


(** the logarithm lmQ3MR of the strong threshold corrections *)
Definition LQ (p : Params R) (o : Z) : R := #o * nlog (pow2 (v0 (MSt p)) / pow2 (scale p)) + nlog (a22 (mq2 p) / pow2 (v0 (MSt p))).
Lemma LQ_scale p Q Q' l : 0 < v0 (MSt p) -> 0 < Q -> 0 < Q' ->
  LQ (with_scale p Q') l = LQ (with_scale p Q) l - IZR l * ln (Q'^2 / Q^2).
Proof. intros H HQ HQ'. unfold LQ, with_scale. prj. unfold pow2. unR. rewrite (lnQ _ Q Q') by pos. ring. Qed.

(** the O(alpha_s) correction to y_t in the six limits *)
Definition yta_at (lim : Z) (p : Params R) (L : R) : R :=
  let mQ32 := a22 (mq2 p) in let mU32 := a22 (mu2 p) in let m32 := pow2 (MG p) in
  let mQ3 := nsqrt mQ32 in let mU3 := nsqrt mU32 in let m3 := nsqrt m32 in let X := calcXt p in
  if (lim =? 0)%Z then yta_G mQ32 mU32 m32 mQ3 mU3 m3 X L
  else if (lim =? 1)%Z then yta_QU mQ32 m32 mQ3 m3 X L
  else if (lim =? 2)%Z then yta_QM mQ32 mU32 mQ3 X L
  else if (lim =? 3)%Z then yta_UM mQ32 mU32 mQ3 mU3 X L
  else yta_QUM mQ3 X L.
Lemma yta_at_eq p lim o : known_limit lim -> getDeltaYtAlphas p lim o = Ok (yta_at lim p (LQ p o)).
Proof. intros H. destruct (known_cases _ H) as [E|[E|[E|[E|[E|E]]]]]; rewrite E; reflexivity. Qed.
Lemma yta_affine lim p L d : known_limit lim -> 0 < a22 (mq2 p) ->
  a22 (mq2 p) <> pow2 (MG p) \/ lim <> 1%Z ->
  yta_at lim p (L - d) = yta_at lim p L + 4/3 * d.
Proof.
  intros H Hq Hd. assert (Hs : sqrt (a22 (mq2 p)) <> 0) by (apply Rgt_not_eq, sqrt_lt_R0; lra).
  unfold yta_at. destruct (known_cases _ H) as [E|[E|[E|[E|[E|E]]]]]; subst lim; cbn [Z.eqb Pos.eqb].
  - unfold yta_G. unR. unfold Rdiv. ring.
  - destruct Hd as [Hd|Hd]; [|exfalso; apply Hd; reflexivity]. revert Hd. generalize (pow2 (MG p)). intros g Hd.
    unfold yta_QU. unR. unfold pow2. unR. field. lra.
  - unfold yta_QM. unR. unfold Rdiv. ring.
  - unfold yta_UM. unR. unfold Rdiv. ring.
  - unfold yta_QUM. unR. field. auto.
  - unfold yta_QUM. unR. field. auto.
Qed.

Lemma coef_YT_AS c : phys_tc c -> known_limit (getLimit c) ->
  a22 (mq2 (tc_p c)) <> MG (tc_p c) ^ 2 \/ getLimit c <> MQ3_EQ_MU3 -> log_coefficient c YT_AS S_TEST (4/3).
Proof.
  intros Hc HL Hd. facts Hc. intros l Q Q' HQ HQ'. unfold at_scale, getThresholdCorrection. cbn [tc_p tc_msq2 tc_xt].
  unfold getLimit in *. change (massLimit3LThreshold (with_scale (tc_p c) Q)) with (massLimit3LThreshold (tc_p c)).
  change (massLimit3LThreshold (with_scale (tc_p c) Q')) with (massLimit3LThreshold (tc_p c)).
  rewrite !yta_at_eq by assumption. cbn [bind].
  rewrite (LQ_scale _ Q Q') by assumption.
  change (yta_at ?l (with_scale ?p Q') ?L) with (yta_at l (with_scale p Q) L).
  rewrite yta_affine; [ring | assumption | assumption |].
  destruct Hd as [Hd|Hd]; [left|right; exact Hd].
  intros E. apply Hd. cbn [with_scale mq2 MG] in E. rewrite E. unfold pow2. unR. ring.
Qed.

Definition lat_at (lim : Z) (p : Params R) (L : R) : R :=
  if (lim =? 0)%Z || (lim =? 2)%Z || (lim =? 3)%Z then lat_G (a22 (mq2 p)) (a22 (mu2 p)) (calcXt p) L
  else lat_QU (a22 (mq2 p)) (calcXt p) L.
Lemma lat_at_eq p lim o : known_limit lim -> getDeltaLambdaAlphat p lim o = Ok (lat_at lim p (LQ p o)).
Proof. intros H. destruct (known_cases _ H) as [E|[E|[E|[E|[E|E]]]]]; rewrite E; reflexivity. Qed.
Lemma lat_affine lim p L d : lat_at lim p (L - d) = lat_at lim p L - 12 * d.
Proof. unfold lat_at, lat_G, lat_QU. unR. destruct ((lim =? 0)%Z || (lim =? 2)%Z || (lim =? 3)%Z); ring. Qed.
Lemma coef_LAMBDA_AT c s : phys_tc c -> known_limit (getLimit c) -> log_coefficient c LAMBDA_AT s (-12).
Proof.
  intros Hc HL. facts Hc. intros l Q Q' HQ HQ'. unfold at_scale, getThresholdCorrection. cbn [tc_p tc_msq2 tc_xt].
  unfold getLimit in *. change (massLimit3LThreshold (with_scale (tc_p c) Q)) with (massLimit3LThreshold (tc_p c)).
  change (massLimit3LThreshold (with_scale (tc_p c) Q')) with (massLimit3LThreshold (tc_p c)).
  rewrite !lat_at_eq by assumption. cbn [bind].
  rewrite (LQ_scale _ Q Q') by assumption.
  change (lat_at ?l (with_scale ?p Q') ?L) with (lat_at l (with_scale p Q) L).
  rewrite lat_affine. ring.
Qed.

(** the DR'-scheme value of the O(alpha_s) terms is minus the raw one *)
Lemma coef_neg c o k : (forall s', getThresholdCorrection (at_scale c s') o S_DRBARPRIME = fun l => 
   match getThresholdCorrection (at_scale c s') o S_TEST l with Ok x => Ok (- x) | Throw e => Throw e end) ->
  log_coefficient c o S_TEST k -> log_coefficient c o S_DRBARPRIME (- k).
Proof.
  intros He H l Q Q' HQ HQ'. specialize (H l Q Q' HQ HQ'). rewrite !He.
  destruct (getThresholdCorrection (at_scale c Q) o S_TEST l), (getThresholdCorrection (at_scale c Q') o S_TEST l); try contradiction.
  rewrite H. unR. ring.
Qed.
Lemma coef_G3_DR c : phys_tc c -> log_coefficient c G3_AS S_DRBARPRIME (-2).
Proof. intros. replace (-2) with (- (2)) by ring. apply coef_neg; [reflexivity|]. apply coef_G3. assumption. Qed.
Lemma coef_YT_AS_DR c : phys_tc c -> known_limit (getLimit c) ->
  a22 (mq2 (tc_p c)) <> MG (tc_p c) ^ 2 \/ getLimit c <> MQ3_EQ_MU3 -> log_coefficient c YT_AS S_DRBARPRIME (- (4/3)).
Proof.
  intros. apply coef_neg; [|apply coef_YT_AS; assumption].
  intros Q. apply FunctionalExtensionality.functional_extensionality. intros l.
  unfold getThresholdCorrection. destruct (getDeltaYtAlphas _ _ l); reflexivity.
Qed.

(** ** Sum of all one-loop pieces *)
Lemma trig4 x : cos (4 * x) = 2 * (cos (2 * x) * cos (2 * x)) - 1.
Proof. replace (4 * x) with (2 * (2 * x)) by ring. rewrite cos_2a. pose proof (sin2_cos2 (2*x)) as H. unfold Rsqr in H. lra. Qed.
Lemma trig8 x : cos (8 * x) = 2 * (cos (4 * x) * cos (4 * x)) - 1.
Proof. replace (8 * x) with (2 * (4 * x)) by ring. rewrite cos_2a. pose proof (sin2_cos2 (4*x)) as H. unfold Rsqr in H. lra. Qed.

Lemma cos_atan x : cos (atan x) * cos (atan x) = / (1 + x * x).
Proof.
  pose proof (cos_atan_pos := atan_bound x). 
  assert (Hc : 0 < cos (atan x)) by (apply cos_gt_0; lra).
  pose proof (sin2_cos2 (atan x)) as H. unfold Rsqr in H.
  assert (Ht : tan (atan x) = x) by apply tan_atan.
  unfold tan in Ht. assert (Hs : sin (atan x) = x * cos (atan x)) by (rewrite <- Ht at 2; field; lra).
  rewrite Hs in H. apply (Rmult_eq_reg_l (1 + x * x)); [|nra]. rewrite Rinv_r by nra. nra.
Qed.

Lemma beta_trig c : 0 < vu (tc_p c) -> 0 < vd (tc_p c) ->
  C2 c = CB c ^ 2 - SB c ^ 2 /\ SB c ^ 2 + CB c ^ 2 = 1 /\ 0 < SB c /\ 0 < CB c.
Proof.
  intros Hu Hd. set (u := vu (tc_p c)) in *. set (d := vd (tc_p c)) in *.
  assert (HV : 0 < u * u + d * d) by nra.
  assert (Hs : sqrt (u * u + d * d) * sqrt (u * u + d * d) = u * u + d * d) by (apply sqrt_sqrt; lra).
  assert (Hp : 0 < sqrt (u * u + d * d)) by (apply sqrt_lt_R0; lra).
  assert (E1 : SB c = u / sqrt (u * u + d * d)) by reflexivity.
  assert (E2 : CB c = d / sqrt (u * u + d * d)) by reflexivity.
  assert (E3 : C2 c = cos (2 * atan (u / d))) by reflexivity.
  assert (Q1 : SB c ^ 2 = u * u / (u * u + d * d)) by (rewrite E1; replace ((u / sqrt (u * u + d * d)) ^ 2) with (u * u / (sqrt (u * u + d * d) * sqrt (u * u + d * d))) by (field; lra); rewrite Hs; reflexivity).
  assert (Q2 : CB c ^ 2 = d * d / (u * u + d * d)) by (rewrite E2; replace ((d / sqrt (u * u + d * d)) ^ 2) with (d * d / (sqrt (u * u + d * d) * sqrt (u * u + d * d))) by (field; lra); rewrite Hs; reflexivity).
  repeat split.
  - rewrite E3, Q1, Q2. rewrite cos_2a_cos. rewrite Rmult_assoc, cos_atan. field. repeat split; nra.
  - rewrite Q1, Q2. field. lra.
  - rewrite E1. apply Rdiv_lt_0_compat; assumption.
  - rewrite E2. apply Rdiv_lt_0_compat; assumption.
Qed.

Theorem lambda_rge c y1 y2 yt yb ytau : phys_tc c -> known_limit (getLimit c) -> forall Q Q', 0 < Q -> 0 < Q' ->
  exists t t', lambda_one_loop (at_scale c Q) y1 y2 yt yb ytau = Ok t /\
               lambda_one_loop (at_scale c Q') y1 y2 yt yb ytau = Ok t' /\
  t' = t + (sm_lambda (lambda_tree y1 y2 (C2 c)) y1 y2 yt yb ytau - d_lambda_tree y1 y2 (SB c) (CB c) yt yb ytau)
           * ln (Q'^2 / Q^2).
Proof.
  intros Hc HL Q Q' HQ HQ'.
  assert (HB := beta_trig c). destruct HB as (T1 & T2 & T3 & T4); [apply Hc | apply Hc |].
  assert (E4 : C4 c = 2 * (C2 c * C2 c) - 1) by apply trig4.
  assert (E8 : C8 c = 2 * (C4 c * C4 c) - 1) by apply trig8.
  unfold lambda_one_loop, lambda_orders. cbn [fold_right].
  pose proof (coef_LAMBDA_AT c S_DRBARPRIME Hc HL 1%Z Q Q' HQ HQ') as K0.
  pose proof (coef_YB4 c S_DRBARPRIME Hc 1%Z Q Q' HQ HQ') as K1.
  pose proof (coef_YTAU4 c S_DRBARPRIME Hc 1%Z Q Q' HQ HQ') as K2.
  pose proof (coef_YT2_G12 c S_DRBARPRIME Hc 1%Z Q Q' HQ HQ') as K3.
  pose proof (coef_YT2_G22 c S_DRBARPRIME Hc 1%Z Q Q' HQ HQ') as K4.
  pose proof (coef_YB2_G12 c S_DRBARPRIME Hc 1%Z Q Q' HQ HQ') as K5.
  pose proof (coef_YB2_G22 c S_DRBARPRIME Hc 1%Z Q Q' HQ HQ') as K6.
  pose proof (coef_YTAU2_G12 c S_DRBARPRIME Hc 1%Z Q Q' HQ HQ') as K7.
  pose proof (coef_YTAU2_G22 c S_DRBARPRIME Hc 1%Z Q Q' HQ HQ') as K8.
  pose proof (coef_G14 c S_DRBARPRIME Hc 1%Z Q Q' HQ HQ') as K9.
  pose proof (coef_REG_G14 c S_DRBARPRIME Hc 1%Z Q Q' HQ HQ') as K10.
  pose proof (coef_CHI_G14 c S_DRBARPRIME Hc 1%Z Q Q' HQ HQ') as K11.
  pose proof (coef_G24 c S_DRBARPRIME Hc 1%Z Q Q' HQ HQ') as K12.
  pose proof (coef_REG_G24 c S_DRBARPRIME Hc 1%Z Q Q' HQ HQ') as K13.
  pose proof (coef_CHI_G24 c S_DRBARPRIME Hc 1%Z Q Q' HQ HQ') as K14.
  pose proof (coef_G12_G22 c S_DRBARPRIME Hc 1%Z Q Q' HQ HQ') as K15.
  pose proof (coef_REG_G12_G22 c S_DRBARPRIME Hc 1%Z Q Q' HQ HQ') as K16.
  pose proof (coef_CHI_G12_G22 c S_DRBARPRIME Hc 1%Z Q Q' HQ HQ') as K17.
  clear Hc HL.
  repeat match goal with K : match getThresholdCorrection ?a ?o ?s ?l with _ => _ end |- _ =>
    destruct (getThresholdCorrection a o s l); [|contradiction] end.
  repeat match goal with K : match getThresholdCorrection ?a ?o ?s ?l with _ => _ end |- _ =>
    destruct (getThresholdCorrection a o s l); [|contradiction] end.
  cbn [bind]. eexists. eexists. split; [reflexivity|]. split; [reflexivity|].
  rewrite K0, K1, K2, K3, K4, K5, K6, K7, K8, K9, K10, K11, K12, K13, K14, K15, K16, K17.
  rewrite E8, E4. unfold sm_lambda, lambda_tree, d_lambda_tree, mssm_tanb, bSM. cbn [nth].
  rewrite T1. clear - T2 T3 T4. generalize dependent (SB c). generalize dependent (CB c). intros cb H0 sb H1 H2.
  assert (E : sb ^ 2 = 1 - cb ^ 2) by lra.
  set (D := ln _). clearbody D.
  replace ((yt / sb) ^ 2) with (yt ^ 2 / (sb ^ 2)) by (field; lra).
  replace ((sb * cb) ^ 2) with (sb ^ 2 * cb ^ 2) by ring.
  rewrite E. field. split; [lra|]. rewrite <- E. nra.
Qed.
