(** * The EFT Higgs mass is independent of the renormalisation scale at O(at), O(at as) (C51) *)
From Coq Require Import Reals ZArith Bool List Lra Lia Psatz.
From Coquelicot Require Import Coquelicot.
From Verif Require Import Num NumFacts Except Params ParamsProofs2 HierFormulas LoopFun Dilog PV Thresh ThreshTwo Threshold ThreshViews
  ThreshSpec ThreshProofs ThreshRGE ThreshLimit Mh2EFT EFTForm EFTSpec.
Import ListNotations.
Open Scope R_scope.

Lemma Rltb_false a b : b <= a -> Rltb a b = false.
Proof. intros. unfold Rltb. destruct (Rlt_dec a b); [lra|reflexivity]. Qed.
Lemma Rltb_true a b : a < b -> Rltb a b = true.
Proof. intros. unfold Rltb. destruct (Rlt_dec a b); [reflexivity|lra]. Qed.

Lemma stdmin_nonneg a b : 0 <= a -> 0 <= b -> 0 <= stdmin a b.
Proof. intros. unfold stdmin. unR. destruct (Rltb b a); assumption. Qed.
Lemma mat3_min_nonneg (m : mat3 R) :
  0 <= a00 m /\ 0 <= a01 m /\ 0 <= a02 m /\ 0 <= a10 m /\ 0 <= a11 m /\ 0 <= a12 m /\ 0 <= a20 m /\ 0 <= a21 m /\ 0 <= a22 m ->
  0 <= mat3_min m.
Proof. intros (H1 & H2 & H3 & H4 & H5 & H6 & H7 & H8 & H9). unfold mat3_min. cbn [mat3_entries tl fold_left]. repeat (apply stdmin_nonneg; try assumption). Qed.

Lemma eps8_R : (ndec 1 8 : R) = / 100000000.
Proof. unR. unfold Rdec. simpl Z.pow. field. Qed.

Lemma validate_R (E : EigenLib R) p : eft_point p -> exists p', validate E p = Ok p' /\ 0 < v0 (MSt p').
Proof.
  intros (Hm & Hq & Hu & Hg & Hs & Ht & Hvu & Hvd & Hs0 & Hs1 & Hl & He & Hd).
  unfold validate.
  assert (E1 : soft_masses_negative p = false).
  { unfold soft_masses_negative. unR. rewrite !Rltb_false; [reflexivity | ..]; apply mat3_min_nonneg, Hm; cbn [In]; tauto. }
  rewrite E1. unR. rewrite (Rltb_false (MG p) 0) by lra.
  assert (E2 : forall x, 0 < x -> Rleb x 0 = false) by (intros; unfold Rleb; destruct (Rle_dec x 0); [lra|reflexivity]).
  change (@nisnan R NumR) with (fun _ : R => false). cbv beta. cbn [orb].
  rewrite (E2 _ Hvu), (E2 _ Hvd).
  unfold calc_theta, fill_doublet. change (@nisnan R NumR) with (fun _ : R => false). cbv beta. cbn [negb andb orb bind].
  destruct (sort_ev (MSt p) _ _) as [[mt tt] st] eqn:S1.
  destruct (sort_ev (MSb p) _ _) as [[mb tb] sb]. destruct (sort_ev (MStau p) _ _) as [[ml tl'] sl].
  eexists. split; [reflexivity|]. cbn [MSt].
  assert (0 < v0 mt /\ 0 < v1 mt).
  { unfold sort_ev in S1. revert S1. unR. destruct (Rltb _ _); intros S1; injection S1 as <- _ _; cbn [v0 v1]; split; assumption. }
  unfold shift_MSt. destruct (nltb _ _); cbn [v0]; [|tauto].
  unfold eps8. rewrite eps8_R. unR. apply Rdiv_lt_0_compat; [tauto|lra].
Qed.

Lemma newTC_R (E : EigenLib R) p : eft_point p -> exists tc, newTC E p false = Ok tc /\ getLimit tc = GENERAL /\
  tc_msq2 tc = calculateMsq2 p /\ tc_xt tc = 6%Z /\
  (let p' := tc_p tc in mq2 p' = mq2 p /\ mu2 p' = mu2 p /\ MG p' = MG p /\ scale p' = scale p /\ 0 < v0 (MSt p') /\ calcXt p' = calcXt p).
Proof.
  intros Hp. destruct (validate_R E p Hp) as (p' & HV & HM).
  destruct Hp as (Hm & Hq & Hu & Hg & Hs & Ht & Hvu & Hvd & Hs0 & Hs1 & Hl & He & Hd).
  unfold newTC. rewrite HV. cbn [bind].
  pose proof (validate_frame E p p' HV) as (F1 & F2 & F3 & F4 & F5 & F6 & F7 & F8 & F9 & F10 & F11 & F12 & F13 & F14 & F15 & F16 & F17 & F18 & F19 & _ & _ & _ & _ & _ & F20).
  assert (Fq : mq2 p' = mq2 p).
  { apply F20. rewrite eps8_R. unR. apply Rltb_false. lra. }
  assert (Fg : MG p' = MG p) by (rewrite F19; unR; apply Rabs_pos_eq; lra).
  rewrite choose_spec.
  assert (EN : first_near (masses p' (calculateMsq2 p)) = None).
  { cbv zeta in Hd. destruct Hd as (D1 & D2 & D3).
    assert (Hsq : 0 < sqrt (a22 (mq2 p))) by (apply sqrt_lt_R0; assumption).
    assert (Hsu : 0 < sqrt (a22 (mu2 p))) by (apply sqrt_lt_R0; assumption).
    unfold first_near, masses. rewrite Fq, F9, Fg.
    unfold tried, find, nearb. cbn [declared forallb Z.eqb Pos.eqb DEGENERATE MQ3_EQ_MU3_EQ_M3 MQ3_EQ_MU3 MQ3_EQ_M3 MU3_EQ_M3 nth fst snd].
    unR. rewrite !(Rltb_false (Rabs (sqrt (a22 (mq2 p)) - sqrt (a22 (mu2 p))))), (Rltb_false (Rabs (sqrt (a22 (mq2 p)) - MG p))),
      (Rltb_false (Rabs (sqrt (a22 (mu2 p)) - MG p)) (sqrt (a22 (mu2 p)) * Rdec 1 2)); [reflexivity|..]; unfold Rdec; simpl Z.pow; lra. }
  rewrite EN. cbn [bind]. eexists. split; [reflexivity|].
  unfold getLimit. cbn [tc_p tc_msq2 tc_xt with_limit massLimit3LThreshold mq2 mu2 MG scale MSt].
  repeat split; try assumption; try congruence.
  unfold calcXt, calcTanBeta. cbn [with_limit Au mu vu vd]. rewrite F2, F6, F7, F12. reflexivity.
Qed.

(** flags with the O(at) and O(at as) orders switched on *)
Definition at_as : cord -> Z := fun o => if cord_eqb o YT4 || cord_eqb o G32YT4 then 1%Z else 0%Z.

Definition kap : R := 1 / (4 * PI * (4 * PI)).
(** the two corrections as plain functions: Q2, Mt, v2, g3, mq2, mu2, m3, Xt *)
Definition F1L (l : R) (Mt v2 q u X : R) : R :=
  kap * (2 * Mt^4 / v2) * (12 * (l - ln (Mt^2)) + lat_G q u X (ln q - l)).
Definition F2L (l : R) (Mt v2 g3 q u g X : R) : R :=
  let lm := l - ln (Mt^2) in
  let y := yta_G q u (g*g) (sqrt q) (sqrt u) g X (ln q - l) in
  kap * kap * (2 * Mt^4 * g3^2 / v2) *
  (96 * lm^2 + (-32 - 48 * y) * lm + 24 * y + (lata_G dilog q u (g*g) (sqrt q) (sqrt u) g X (ln q - l) - 4 * lat_G q u X (ln q - l) * y)).

Lemma gt_eq (p : Params R) : 0 < vu p -> 0 < vd p -> pow2 (Mt p * (nconst Csqrt2 * Mt p / calcV p)) = 2 * Mt p ^ 4 / calcV2 p :> R.
Proof.
  intros H1 H2. unfold pow2, calcV. unR. cbn [Rconst].
  assert (HV : 0 < calcV2 p) by (unfold calcV2, pow2; unR; apply Rplus_lt_0_compat; apply Rmult_lt_0_compat; assumption).
  pose proof (sqrt_sqrt 2 ltac:(lra)) as S2. pose proof (sqrt_sqrt (calcV2 p) (Rlt_le _ _ HV)) as S3.
  assert (0 < sqrt (calcV2 p)) by (apply sqrt_lt_R0; assumption).
  replace (Mt p * (sqrt 2 * Mt p / sqrt (calcV2 p)) * (Mt p * (sqrt 2 * Mt p / sqrt (calcV2 p))))
    with (Mt p ^ 4 * (sqrt 2 * sqrt 2) / (sqrt (calcV2 p) * sqrt (calcV2 p))) by (field; lra).
  rewrite S2, S3. field. lra.
Qed.
Lemma lmMt_eq (p : Params R) : 0 < scale p -> 0 < Mt p -> nint 1 * nlog (pow2 (scale p / Mt p)) = ln (scale p ^ 2) - ln (Mt p ^ 2) :> R.
Proof.
  intros. unfold pow2. unR. replace (scale p / Mt p * (scale p / Mt p)) with (scale p ^ 2 / Mt p ^ 2) by (field; lra).
  rewrite ln_div by (apply pow_lt; assumption). ring.
Qed.

Lemma one_loop_value E p : eft_point p ->
  getDeltaMh2EFT1Loop E (mkEFT p at_as) 1 1 =
  Ok (F1L (ln (scale p ^ 2)) (Mt p) (calcV2 p) (a22 (mq2 p)) (a22 (mu2 p)) (calcXt p)).
Proof.
  intros Hp. destruct (newTC_R E p Hp) as (tc & HT & HL & _ & _ & F1 & F2 & F3 & F4 & F5 & F6).
  destruct Hp as (Hm & Hq & Hu & Hg & Hs & Ht & Hvu & Hvd & Hs0 & Hs1 & Hl & He & Hd).
  rewrite (one_form_eq E p at_as 1 1 tc HT) by (rewrite HL; unfold known_limit, GENERAL; lia).
  f_equal. unfold one_form. cbv zeta. unfold at_as, cord_eqb. cbn [cord_index Z.eqb Pos.eqb orb negb].
  unfold dmh2yt4. cbv zeta. unfold discardNaN. change (@nisnan R NumR) with (fun _ : R => false). cbv beta iota.
  rewrite gt_eq, lmMt_eq by assumption.
  unfold thr, getThresholdCorrection. unfold getLimit in HL. rewrite HL.
  rewrite lat_G_LQ, LQ_one by (try assumption; rewrite ?F1, ?F4; assumption). rewrite F1, F2, F4, F6.
  unR. cbn [Rconst]. unfold F1L, kap. ring.
Qed.
Lemma two_loop_value E p : eft_point p ->
  getDeltaMh2EFT2Loop E (mkEFT p at_as) 1 1 =
  Ok (F2L (ln (scale p ^ 2)) (Mt p) (calcV2 p) (g3 p) (a22 (mq2 p)) (a22 (mu2 p)) (MG p) (calcXt p)).
Proof.
  intros Hp. destruct (newTC_R E p Hp) as (tc & HT & HL & _ & _ & F1 & F2 & F3 & F4 & F5 & F6).
  destruct Hp as (Hm & Hq & Hu & Hg & Hs & Ht & Hvu & Hvd & Hs0 & Hs1 & Hl & He & Hd).
  rewrite (two_form_eq E p at_as 1 1 tc HT) by (rewrite HL; unfold known_limit, GENERAL; lia).
  f_equal. unfold two_form. cbv zeta. unfold at_as, cord_eqb. cbn [cord_index Z.eqb Pos.eqb orb negb].
  unfold dmh2yt4g32. cbv zeta. unfold discardNaN. change (@nisnan R NumR) with (fun _ : R => false). cbv beta iota.
  rewrite lmMt_eq by assumption.
  replace (pow2 (Mt p * (nconst Csqrt2 * Mt p / calcV p) * g3 p))%num with (2 * Mt p ^ 4 / calcV2 p * g3 p ^ 2)
    by (rewrite <- gt_eq by assumption; unfold pow2; unR; ring).
  unfold thr, getThresholdCorrection. unfold getLimit in HL. rewrite HL.
  rewrite lat_G_LQ, yta_G_LQ, lata_G_LQ, LQ_one by (try assumption; rewrite ?F1, ?F4; assumption). cbn [bind]. rewrite F1, F2, F3, F4, F6.
  rewrite sqrt_pow2 by assumption. unfold pow2. unR. cbn [Rconst]. unfold F2L, kap. cbv zeta.
  assert (HK : 4 * PI * (4 * PI) <> 0) by (pose proof PI_RGT_0; nra).
  replace (1 / (4 * PI * (4 * PI) * (4 * PI * (4 * PI)))) with (1 / (4 * PI * (4 * PI)) * (1 / (4 * PI * (4 * PI)))) by (field; pose proof PI_RGT_0; lra).
  generalize (1 / (4 * PI * (4 * PI))). intros k. unfold Rdiv. ring.
Qed.

Lemma lat_G_aff q u X L d : lat_G q u X (L - d) = lat_G q u X L - 12 * d.
Proof. unfold lat_G. unR. ring. Qed.
Lemma yta_G_aff q2 u2 g2 q u g X L d : yta_G q2 u2 g2 q u g X (L - d) = yta_G q2 u2 g2 q u g X L + 4/3 * d.
Proof. unfold yta_G. unR. unfold Rdiv. ring. Qed.

Lemma F1L_scale l l' Mt v2 q u X : F1L l Mt v2 q u X = F1L l' Mt v2 q u X.
Proof. unfold F1L. replace (ln q - l) with (ln q - l' - (l - l')) by ring. rewrite lat_G_aff. ring. Qed.

Lemma F_rge l Mt v2 g3 q u g X : 0 < Mt -> 0 < v2 -> 0 < q -> 0 < u -> 0 < g -> q <> u -> q <> g * g -> u <> g * g ->
  exists d2 d1,
  is_derive (fun l : R => F2L l Mt v2 g3 q u g X : R) l d2 /\
  is_derive (fun t : R => F1L l (Mt * (1 - 8/3 * t)) v2 (q + - (16/3) * g^2 * t) (u + - (16/3) * g^2 * t) (X + 16/3 * g * t) : R) 0 d1 /\
  kap * g3^2 * d1 + d2 = 0.
Proof.
  intros HMt Hv Hq Hu Hg N1 N2 N3.
  assert (Eq : sqrt q * sqrt q = q) by (apply sqrt_sqrt; lra). assert (Eu : sqrt u * sqrt u = u) by (apply sqrt_sqrt; lra).
  assert (Hsq : 0 < sqrt q) by (apply sqrt_lt_R0; lra). assert (Hsu : 0 < sqrt u) by (apply sqrt_lt_R0; lra).
  destruct (lata_rge_fun dilog (sqrt q) (sqrt u) g X (ln q - l)) as (D & HD & HR); rewrite ?Eq, ?Eu in *; try assumption.
  { intros K. apply N1. rewrite <- Eq, <- Eu, K. reflexivity. }
  pose proof (lat_soft q u g X (ln q - l) Hq Hu N1) as HS. cbv zeta in HS.
  match type of HS with is_derive _ _ ?d => set (Dm := d) in HS end. pose proof (HR Dm HS) as HE. clear HR. clearbody Dm.
  set (y0 := yta_G q u (g*g) (sqrt q) (sqrt u) g X (ln q - l)) in *. set (a0 := lat_G q u X (ln q - l)) in *.
  set (lm := l - ln (Mt^2)).
  exists (kap * kap * (2 * Mt^4 * g3^2 / v2) * (192 * lm + (-32 - 48 * y0) - 64 * lm + 24 * (4/3) + (- D + 48 * y0 - 4 * a0 * (4/3)))).
  exists (kap * (2 * Mt^4 / v2) * (4 * -(8/3) * (12 * lm + a0) + 12 * (16/3) + Dm)).
  split; [|split].
  - pose (G := fun l' : R => lata_G dilog q u (g*g) (sqrt q) (sqrt u) g X (ln q - l') : R).
    assert (HG : is_derive (G : R -> R) l (- D)).
    { replace (- D) with (-1 * D) by ring. unfold G.
      apply (is_derive_comp (fun L : R => lata_G dilog q u (g*g) (sqrt q) (sqrt u) g X L : R) (fun l' : R => ln q - l')); [exact HD|].
      auto_derive; [exact I|ring]. }
    apply (is_derive_ext (fun l' : R => kap * kap * (2 * Mt^4 * g3^2 / v2) * (96 * (lm + (l' - l))^2 + (-32 - 48 * (y0 + 4/3 * (l' - l))) * (lm + (l' - l))
       + 24 * (y0 + 4/3 * (l' - l)) + (G l' - 4 * (a0 - 12 * (l' - l)) * (y0 + 4/3 * (l' - l)))) : R)).
    { intros l'. unfold F2L. cbv zeta. unfold G. replace (ln q - l') with (ln q - l - (l' - l)) by ring.
      rewrite lat_G_aff, yta_G_aff. fold y0 a0. unfold lm.
      match goal with |- ?a = ?b => change (@eq R a b) end. ring. }
    auto_derive; [exists (- D); exact HG|]. replace (Derive _ l) with (- D) by (symmetry; apply is_derive_unique; exact HG).
    field. lra.
  - pose (G := fun t : R => lat_G (q + - (16/3) * g^2 * t) (u + - (16/3) * g^2 * t) (X + 16/3 * g * t) (ln q - l + ln ((q + - (16/3) * g^2 * t) / q)) : R).
    change (is_derive (G : R -> R) 0 Dm) in HS.
    apply (is_derive_ext_loc (fun t : R => kap * (2 * (Mt * (1 - 8/3 * t))^4 / v2) * (12 * (l - ln ((Mt * (1 - 8/3 * t))^2)) + G t) : R)).
    { destruct (near0 q (- (16/3) * g^2) Hq) as [e He]. exists e. intros t Ht. apply He in Ht.
      unfold F1L, G. rewrite ln_div by assumption.
      replace (ln q - l + (ln (q + - (16/3) * g^2 * t) - ln q)) with (ln (q + - (16/3) * g^2 * t) - l) by ring. reflexivity. }
    auto_derive.
    + unfold Rminus; rewrite ?Rmult_0_r, ?Ropp_0, ?Rplus_0_r, ?Rmult_1_r. repeat split; try (exists Dm; exact HS); try exact I; nra.
    + replace (Derive _ 0) with Dm by (symmetry; apply is_derive_unique; exact HS).
      unfold Rminus; rewrite !Rmult_0_r, Ropp_0, !Rplus_0_r, !Rmult_1_r.
      assert (EG : G 0 = a0). { unfold G, a0. rewrite !Rmult_0_r, !Rplus_0_r. replace (q / q) with 1 by (field; lra). rewrite ln_1, Rplus_0_r. reflexivity. }
      rewrite EG. unfold lm, Rminus. replace (Mt ^ 2) with (Mt * Mt) by ring. field. split; nra.
  - replace Dm with (16 * a0 - 64 + D) by (rewrite <- HE; ring). unfold lm. field. lra.
Qed.

Lemma locally_pos (f : R -> R) : ex_derive f 0 -> 0 < f 0 -> locally 0 (fun t => 0 < f t).
Proof.
  intros H Hf. apply (ex_derive_continuous f 0) in H.
  apply (H (fun y => 0 < y)). exists (mkposreal _ Hf). intros y Hy. change (Rabs (y - f 0) < f 0) in Hy. apply Rabs_def2 in Hy. lra.
Qed.
Lemma Rabs_pos_ne x y : y < Rabs x -> 0 < y -> x <> 0.
Proof. intros H2 H1 ->. rewrite Rabs_R0 in H2. lra. Qed.

Lemma eft_point_step p : eft_point p -> locally 0 (fun t => eft_point (qcd_step p t)).
Proof.
  intros (Hm & Hq & Hu & Hg & Hs & Ht & Hvu & Hvd & Hs0 & Hs1 & Hl & He & D1 & D2 & D3).
  set (q := a22 (mq2 p)) in *. set (u := a22 (mu2 p)) in *. set (g := MG p) in *. pose (d := - (16/3) * g^2).
  assert (Hsq : 0 < sqrt q) by (apply sqrt_lt_R0; assumption). assert (Hsu : 0 < sqrt u) by (apply sqrt_lt_R0; assumption).
  pose proof (Rabs_pos_ne _ _ D1 ltac:(lra)) as N1. pose proof (Rabs_pos_ne _ _ D2 ltac:(lra)) as N2. pose proof (Rabs_pos_ne _ _ D3 ltac:(lra)) as N3.
  assert (P1 : locally 0 (fun t => 0 < q + d * t)) by (apply (locally_pos (fun t => q + d * t)); [auto_derive; exact I | lra]).
  assert (P2 : locally 0 (fun t => 0 < u + d * t)) by (apply (locally_pos (fun t => u + d * t)); [auto_derive; exact I | lra]).
  assert (P3 : locally 0 (fun t => 0 < 1 - 3 * t)) by (apply (locally_pos (fun t => 1 - 3 * t)); [auto_derive; exact I | lra]).
  assert (P4 : locally 0 (fun t => 0 < 1 - 8/3 * t)) by (apply (locally_pos (fun t => 1 - 8/3 * t)); [auto_derive; exact I | lra]).
  assert (P5 : locally 0 (fun t => 0 < Rabs (sqrt (q + d * t) - sqrt (u + d * t)) - sqrt (q + d * t) / 100)).
  { apply (locally_pos (fun t => Rabs (sqrt (q + d * t) - sqrt (u + d * t)) - sqrt (q + d * t) / 100)).
    - auto_derive. rewrite Rmult_0_r, !Rplus_0_r. repeat split; assumption.
    - rewrite Rmult_0_r, !Rplus_0_r. lra. }
  assert (P6 : locally 0 (fun t => 0 < Rabs (sqrt (q + d * t) - g * (1 - 3 * t)) - sqrt (q + d * t) / 100)).
  { apply (locally_pos (fun t => Rabs (sqrt (q + d * t) - g * (1 - 3 * t)) - sqrt (q + d * t) / 100)).
    - auto_derive. unfold Rminus in *. rewrite !Rmult_0_r, Ropp_0, !Rplus_0_r, Rmult_1_r. repeat split; assumption.
    - rewrite !Rmult_0_r, Rminus_0_r, !Rplus_0_r, Rmult_1_r. lra. }
  assert (P7 : locally 0 (fun t => 0 < Rabs (sqrt (u + d * t) - g * (1 - 3 * t)) - sqrt (u + d * t) / 100)).
  { apply (locally_pos (fun t => Rabs (sqrt (u + d * t) - g * (1 - 3 * t)) - sqrt (u + d * t) / 100)).
    - auto_derive. unfold Rminus in *. rewrite !Rmult_0_r, Ropp_0, !Rplus_0_r, Rmult_1_r. repeat split; assumption.
    - rewrite !Rmult_0_r, Rminus_0_r, !Rplus_0_r, Rmult_1_r. lra. }
  generalize (filter_and _ _ P1 (filter_and _ _ P2 (filter_and _ _ P3 (filter_and _ _ P4 (filter_and _ _ P5 (filter_and _ _ P6 P7)))))).
  apply filter_imp. clear P1 P2 P3 P4 P5 P6 P7. intros t (P1 & P2 & P3 & P4 & P5 & P6 & P7).
  unfold eft_point, qcd_step.
  cbn [scale Params.mu vd vu mq2 md2 mu2 ml2 me2 MG Mt MSt massLimit3LThreshold a22].
  fold q u g. fold d.
  assert (Hm1 := Hm (mq2 p) ltac:(cbn [In]; tauto)). assert (Hm2 := Hm (mu2 p) ltac:(cbn [In]; tauto)).
  repeat match goal with |- _ /\ _ => split end; try assumption; try lra.
  - intros m [<-|[<-|[<-|[<-|[<-|[]]]]]]; try (apply Hm; cbn [In]; tauto); cbn [a00 a01 a02 a10 a11 a12 a20 a21 a22]; fold q u; repeat split; try tauto; lra.
  - apply Rmult_lt_0_compat; assumption.
  - apply Rmult_lt_0_compat; assumption.
  - replace (q + d * t - (u + d * t)) with (q - u) by ring. exact He.
Qed.

Theorem mh2_rge (E : EigenLib R) (p : Params R) : eft_point p ->
  exists d2 d1,
  is_derive (fun L : R => value (getDeltaMh2EFT2Loop E (mkEFT (with_scale p (exp (L / 2))) at_as) 1 1) : R) (ln (scale p ^ 2)) d2 /\
  is_derive (fun t : R => value (getDeltaMh2EFT1Loop E (mkEFT (qcd_step p t) at_as) 1 1) : R) 0 d1 /\
  g3 p ^ 2 / (4 * PI) ^ 2 * d1 + d2 = 0.
Proof.
  intros Hp. pose proof Hp as (Hm & Hq & Hu & Hg & Hs & Ht & Hvu & Hvd & Hs0 & Hs1 & Hl & He & D1 & D2 & D3).
  assert (Hsq : 0 < sqrt (a22 (mq2 p))) by (apply sqrt_lt_R0; assumption). assert (Hsu : 0 < sqrt (a22 (mu2 p))) by (apply sqrt_lt_R0; assumption).
  pose proof (Rabs_pos_ne _ _ D1 ltac:(lra)) as N1. pose proof (Rabs_pos_ne _ _ D2 ltac:(lra)) as N2. pose proof (Rabs_pos_ne _ _ D3 ltac:(lra)) as N3.
  assert (HV : 0 < calcV2 p) by (unfold calcV2, pow2; unR; apply Rplus_lt_0_compat; apply Rmult_lt_0_compat; assumption).
  destruct (F_rge (ln (scale p ^ 2)) (Mt p) (calcV2 p) (g3 p) (a22 (mq2 p)) (a22 (mu2 p)) (MG p) (calcXt p) Ht HV Hq Hu Hg) as (d2 & d1 & H2 & H1 & HE).
  { intros K. apply N1. rewrite K. ring. }
  { intros K. apply N2. rewrite K, sqrt_square by lra. ring. }
  { intros K. apply N3. rewrite K, sqrt_square by lra. ring. }
  exists d2, d1. split; [|split].
  - eapply is_derive_ext; [|exact H2]. intros L.
    rewrite two_loop_value.
    + cbn [value with_scale scale Mt g3 mq2 mu2 MG]. rewrite exp_half, ln_exp. reflexivity.
    + unfold eft_point. cbn [with_scale scale vd vu mq2 md2 mu2 ml2 me2 MG Mt MSt massLimit3LThreshold].
      repeat match goal with |- _ /\ _ => split end; try assumption. apply exp_pos.
  - eapply is_derive_ext_loc; [|exact H1]. generalize (eft_point_step p Hp). apply filter_imp. intros t Hpt.
    rewrite (one_loop_value E _ Hpt). cbn [value qcd_step scale Mt mq2 mu2 a22].
    f_equal. unfold calcXt, calcTanBeta, qcd_step. cbn [Au Params.mu vu vd a22]. unR. ring.
  - rewrite <- HE. unfold kap. field. apply PI_neq0.
Qed.
Theorem mh2_one_loop_scale (E : EigenLib R) (p : Params R) (Q : R) : eft_point p -> 0 < Q ->
  exists v, getDeltaMh2EFT1Loop E (mkEFT p at_as) 1 1 = Ok v /\ getDeltaMh2EFT1Loop E (mkEFT (with_scale p Q) at_as) 1 1 = Ok v.
Proof.
  intros Hp HQ. eexists. split; [apply one_loop_value; exact Hp|].
  rewrite one_loop_value.
  - cbn [with_scale scale Mt mq2 mu2]. f_equal. apply F1L_scale.
  - destruct Hp as (Hm & Hq & Hu & Hg & Hs & Ht & Hvu & Hvd & Hs0 & Hs1 & Hl & He & D1 & D2 & D3).
    unfold eft_point. cbn [with_scale scale vd vu mq2 md2 mu2 ml2 me2 MG Mt MSt massLimit3LThreshold].
    repeat match goal with |- _ /\ _ => split end; assumption.
Qed.
