(** * EFT calculator: property theorems C34, C35 (EFT part), C36, C51 *)
From Coq Require Import Reals ZArith Bool String List Lra Lia Psatz.
From Coquelicot Require Import Coquelicot.
From Verif Require Import Num NumFacts Except Params ParamsSpec ParamsProofs ParamsProofs2 ParamsExamples HierFormulas Thresh ThreshTwo Threshold
  ThreshSpec ThreshProofs ThreshLimit PropThresh Mh2EFT EFTForm EFTSpec EFTProofs EFTRGE.
Import ListNotations.
Open Scope R_scope.

(** a valid parameter point with a declared mass limit has a threshold calculator with a known limit *)
Lemma newTC_known {T} {N : Num T} (E : EigenLib T) (p p' : Params T) : validate E p = Ok p' -> known_limit (massLimit3LThreshold p) ->
  exists tc, newTC E p false = Ok tc /\ known_limit (getLimit tc).
Proof.
  intros HV HL. unfold newTC. rewrite HV. cbn [bind].
  assert (HL' : massLimit3LThreshold p' = massLimit3LThreshold p) by apply (validate_frame E p p' HV).
  rewrite choose_spec. destruct (first_near _) as [l|] eqn:EF.
  2: { cbn [bind]. eexists. split; [reflexivity|]. unfold getLimit. cbn [tc_p with_limit massLimit3LThreshold]. rewrite HL'. exact HL. }
  assert (KL : known_limit l).
  { apply find_some in EF. destruct EF as [[<-|[<-|[<-|[<-|[<-|[]]]]]] _]; unfold known_limit; split; discriminate. }
  assert (HY : forall (q : Params T) ms k, known_limit k -> exists v, getDeltaYtAlphas2 q ms k 1 = Ok v).
  { intros q ms k Hk. destruct (known_cases _ Hk) as [X|[X|[X|[X|[X|X]]]]]; rewrite X; eexists; reflexivity. }
  unfold probe.
  destruct (HY p' (calculateMsq2 p) l KL) as [a ->]. cbn [bind].
  destruct (HY p' (calculateMsq2 p) GENERAL) as [e ->]; [unfold known_limit, GENERAL; lia|]. cbn [bind].
  match goal with |- context [getDeltaYtAlphas2 ?q ?m GENERAL 1] => destruct (HY q m GENERAL) as [s ->]; [unfold known_limit, GENERAL; lia|] end.
  cbn [bind]. eexists. split; [reflexivity|]. unfold getLimit. cbn [tc_p with_limit massLimit3LThreshold].
  destruct (isGeneralStable _ _ _); [rewrite HL'; exact HL | exact KL].
Qed.

(** ** C34 *)
(** For every valid parameter point with finite couplings there are numbers r(order) such that, whatever flags are set,
    the correction is the sum of r over the orders with a non-zero flag.  In the partial reading an undefined
    sub-expression is [None]; the theorem says that the result is a number in every case, in particular that an
    order that is switched off contributes nothing even if its expression is undefined.  *)
Theorem C34_one_loop_additive (E : EigenLib PR) (p p' : Params PR) (s m : Z) :
  validate E p = Ok p' -> known_limit (massLimit3LThreshold p) -> couplings_defined p ->
  exists r : cord -> R,
    (forall k, In k all_orders -> getDeltaMh2EFT1Loop E (mkEFT p (only k)) s m = Ok (Some (r k))) /\
    (forall o, getDeltaMh2EFT1Loop E (mkEFT p o) s m = Ok (Some (sum_enabled o r))).
Proof.
  intros HV HL HC. destruct (newTC_known E p p' HV HL) as (tc & HT & HK).
  destruct (one_loop_additive E p tc s m HT HK HC) as (r & H1 & H2). exists r. split; [|exact H2].
  intros k Hk. destruct (H1 k) as [A B]. rewrite A, (B Hk). reflexivity.
Qed.
Theorem C34_two_loop_additive (E : EigenLib PR) (p p' : Params PR) (s m : Z) :
  validate E p = Ok p' -> known_limit (massLimit3LThreshold p) -> couplings_defined p ->
  exists r : cord -> R,
    (forall k, In k all_orders -> getDeltaMh2EFT2Loop E (mkEFT p (only k)) s m = Ok (Some (r k))) /\
    (forall o, getDeltaMh2EFT2Loop E (mkEFT p o) s m = Ok (Some (sum_enabled o r))).
Proof.
  intros HV HL HC. destruct (newTC_known E p p' HV HL) as (tc & HT & HK).
  destruct (two_loop_additive E p tc s m HT HK HC) as (r & H1 & H2). exists r. split; [|exact H2].
  intros k Hk. destruct (H1 k) as [A B]. rewrite A, (B Hk). reflexivity.
Qed.
(** which orders can contribute at one and at two loops: all others are 0 whatever the flag *)
Definition one_loop_orders : list cord := [G12G22; G14; G24; G12YB2; G22YB2; YB4; G12YTAU2; G22YTAU2; YTAU4; G12YT2; G22YT2; YT4].
Definition two_loop_orders : list cord := [G32YB4; YB6; YT6; YTAU2YB4; YTAU6; YT2YB4; G32YT4; YB2YT4; YTAU4YB2].
(** finding: YTAU2YT4 is a documented order that contributes to neither *)
Theorem C34_loop_order {T} {N : Num T} (E : EigenLib T) (p p' : Params T) (o o' : cord -> Z) (s m : Z) :
  validate E p = Ok p' -> known_limit (massLimit3LThreshold p) ->
  ((forall k, In k one_loop_orders -> o k = o' k) -> getDeltaMh2EFT1Loop E (mkEFT p o) s m = getDeltaMh2EFT1Loop E (mkEFT p o') s m) /\
  ((forall k, In k two_loop_orders -> o k = o' k) -> getDeltaMh2EFT2Loop E (mkEFT p o) s m = getDeltaMh2EFT2Loop E (mkEFT p o') s m).
Proof.
  intros HV HL. destruct (newTC_known E p p' HV HL) as (tc & HT & HK). split; intros H.
  - rewrite !(one_form_eq E p _ s m tc HT HK). f_equal. unfold one_form. cbv zeta.
    rewrite !H by (cbn; tauto). reflexivity.
  - rewrite !(two_form_eq E p _ s m tc HT HK). f_equal. unfold two_form. cbv zeta.
    rewrite !H by (cbn; tauto). reflexivity.
Qed.

(** The flags after construction, for every number type and parameter point: O(at), O(at as), O(at^2) and the unused
    O(atau at) are on unless a mass is (nearly) zero. *)
Theorem C34_constructed {T} {N : Num T} (E : EigenLib T) (p : Params T) (c : EFT T) : newEFT E p = Ok c ->
  exists p', validate E p = Ok p' /\ eft_p c = p' /\
  let zero x := nltb (nabs x) (ndec 1 10) in
  forall k, In k all_orders -> eft_orders c k =
    match k with
    | YT4 | G32YT4 => if zero (Mt p') then 0%Z else 1%Z
    | YT6 => if zero (Mt p') || zero (Mb p') then 0%Z else 1%Z
    | YTAU2YT4 => if zero (Mt p') || zero (Mtau p') then 0%Z else 1%Z
    | ONLY_AT_AS => 1%Z
    | _ => 0%Z
    end.
Proof.
  unfold newEFT. destruct (validate E p) as [p'|]; cbn [bind]; [|discriminate]. intros H. injection H as <-.
  exists p'. do 2 (split; [reflexivity|]). cbv zeta. intros k Hk. cbn [eft_orders].
  destruct (nltb (nabs (g1 p')) _), (nltb (nabs (g2 p')) _), (nltb (nabs (Mt p')) _), (nltb (nabs (Mb p')) _), (nltb (nabs (Mtau p')) _);
    destruct k; try reflexivity; exfalso; clear - Hk; cbn in Hk; repeat destruct Hk as [Hk|Hk]; discriminate || contradiction.
Qed.
(** If no order is on, the corrections are exactly 0. *)
Theorem C34_all_off (E : EigenLib R) (p p' : Params R) (s m : Z) :
  validate E p = Ok p' -> known_limit (massLimit3LThreshold p) ->
  getDeltaMh2EFT1Loop E (mkEFT p (fun _ => 0%Z)) s m = Ok 0 /\ getDeltaMh2EFT2Loop E (mkEFT p (fun _ => 0%Z)) s m = Ok 0.
Proof.
  intros HV HL. destruct (newTC_known E p p' HV HL) as (tc & HT & HK). split.
  - rewrite (one_form_eq E p _ s m tc HT HK). f_equal. unfold one_form. cbv zeta. cbn [Z.eqb negb]. unR. ring.
  - rewrite (two_form_eq E p _ s m tc HT HK). f_equal. unfold two_form. cbv zeta. cbn [Z.eqb negb]. unR. ring.
Qed.

(** a concrete point with these hypotheses: masses given, everything a number *)
Definition o_thr : optional :=
  mkOpt (Some 80) (Some 91) (Some 150) (Some 3) (Some 2) (mkV2 (Some 900) (Some 2100)) (mkV2 (Some 1000) (Some 1500))
    (mkV2 (Some 1000) (Some 1000)) (Some (1/10)) (Some 0) (Some 0) (Some 0) (Some 0) (Some 0) (Some 200) (Some 20).
Lemma thr_complete : complete (oMSt o_thr) (os2t o_thr) (oth_t o_thr) /\ complete (oMSb o_thr) (os2b o_thr) (oth_b o_thr)
  /\ complete (oMStau o_thr) (os2tau o_thr) (oth_tau o_thr).
Proof.
  repeat split; cbn; eauto; try discriminate.
Qed.
Lemma thr_accepted : exists p', validate E0 (point p_thr o_thr) = Ok p'.
Proof.
  destruct (validate E0 (point p_thr o_thr)) as [p'|msg] eqn:E; [eauto|].
  exfalso. assert (H : rejected ER0 p_thr o_thr) by (apply (validate_throws E0 ER0 _ _ E0_lifts ER0_ok); eauto).
  unfold rejected in H. destruct thr_complete as (C1 & C2 & C3).
  destruct H as [H|[H|[H|[H|[H|[H|[H|[H|H]]]]]]]];
    try (cbn in H; lra); try (revert H; apply nonneg_diag; lra).
  destruct H as (u & d & _ & _ & _ & _ & H). tauto.
Qed.
Corollary C34_example : exists p', validate E0 (point p_thr o_thr) = Ok p' /\ known_limit (massLimit3LThreshold (point p_thr o_thr)) /\
  couplings_defined (point p_thr o_thr).
Proof.
  destruct thr_accepted as [p' H]. exists p'. split; [exact H|]. split; [unfold known_limit; cbn; lia|].
  unfold couplings_defined. cbn. do 8 eexists. repeat (split; [reflexivity|]). split; lra.
Qed.

(** ** C35, EFT part: the property is violated.  Any int is stored; values other than 0 act as 1. *)
Theorem C35_eft_refuted : exists (c c' : EFT R),
  setCorrectionFlag c YT4 7 = Ok c' /\ eft_orders c YT4 <> 7%Z /\ eft_orders c' YT4 = 7%Z.
Proof.
  exists (mkEFT p_thr (fun _ => 1%Z)). eexists. split; [reflexivity|]. split; [discriminate|reflexivity].
Qed.
(** what the code does do: the addressed flag gets the value, all others and the parameters are kept *)
Theorem C35_eft_partial {T} {N : Num T} (c : EFT T) (k : cord) (f : Z) :
  (In k all_orders -> exists c', setCorrectionFlag c k f = Ok c' /\ eft_p c' = eft_p c /\
     forall o, In o all_orders -> eft_orders c' o = if cord_eqb o k then f else eft_orders c o) /\
  ((cord_index k < 0 \/ 22 < cord_index k)%Z -> exists msg, setCorrectionFlag c k f = Throw msg).
Proof.
  unfold setCorrectionFlag. split.
  - intros Hk. cbn in Hk. assert (HI : (0 <=? cord_index k)%Z && (cord_index k <? 23)%Z = true).
    { repeat destruct Hk as [<-|Hk]; try contradiction Hk; reflexivity. }
    rewrite HI. eexists. split; [reflexivity|]. split; [reflexivity|]. intros o _. reflexivity.
  - intros Hk. assert (HI : (0 <=? cord_index k)%Z && (cord_index k <? 23)%Z = false).
    { destruct (Z.leb_spec 0 (cord_index k)), (Z.ltb_spec (cord_index k) 23); try reflexivity. lia. }
    rewrite HI. eexists. reflexivity.
Qed.
Theorem C35_eft_any_nonzero_partial {T} {N : Num T} (E : EigenLib T) (p p' : Params T) (o o' : cord -> Z) (s m : Z) :
  validate E p = Ok p' -> known_limit (massLimit3LThreshold p) ->
  (forall k, o k = 0%Z <-> o' k = 0%Z) ->
  getDeltaMh2EFT1Loop E (mkEFT p o) s m = getDeltaMh2EFT1Loop E (mkEFT p o') s m /\
  getDeltaMh2EFT2Loop E (mkEFT p o) s m = getDeltaMh2EFT2Loop E (mkEFT p o') s m.
Proof.
  intros HV HL H. destruct (newTC_known E p p' HV HL) as (tc & HT & HK).
  assert (HB : forall k, (o k =? 0)%Z = (o' k =? 0)%Z).
  { intros k. destruct (Z.eqb_spec (o k) 0), (Z.eqb_spec (o' k) 0); try reflexivity; exfalso; specialize (H k); tauto. }
  split.
  - rewrite !(one_form_eq E p _ s m tc HT HK). f_equal. unfold one_form. cbv zeta. rewrite !HB. reflexivity.
  - rewrite !(two_form_eq E p _ s m tc HT HK). f_equal. unfold two_form. cbv zeta. rewrite !HB. reflexivity.
Qed.

(** ** C36: tree-level mass *)
Definition tree (vu vd MZ : R) : R := MZ^2 * ((vd^2 - vu^2) / (vd^2 + vu^2))^2.
Lemma tree_value (c : EFT R) : 0 < vu (eft_p c) -> 0 < vd (eft_p c) ->
  getDeltaMh2EFT0Loop c = tree (vu (eft_p c)) (vd (eft_p c)) (MZ (eft_p c)).
Proof.
  intros Hu Hd. unfold getDeltaMh2EFT0Loop, calcBeta, calcTanBeta, pow2, tree. unR.
  set (t := vu (eft_p c) / vd (eft_p c)). rewrite cos_2a.
  assert (Ht : 0 < 1 + t * t) by nra.
  assert (HS : sin (atan t) * sin (atan t) = t * t / (1 + t * t)).
  { pose proof (sin2_cos2 (atan t)) as H. unfold Rsqr in H. rewrite cos_atan in H.
    replace (t * t / (1 + t * t)) with (1 - / (1 + t * t)) by (field; lra). lra. }
  rewrite HS, cos_atan. unfold t. field. repeat split; nra.
Qed.
Theorem C36_tree_level (c : EFT R) : 0 < vu (eft_p c) -> 0 < vd (eft_p c) ->
  let m2 := getDeltaMh2EFT0Loop c in
  m2 = (MZ (eft_p c) * cos (2 * atan (vu (eft_p c) / vd (eft_p c)))) ^ 2 /\
  0 <= m2 <= MZ (eft_p c) ^ 2 /\
  (forall c', vu (eft_p c') = vd (eft_p c) -> vd (eft_p c') = vu (eft_p c) -> MZ (eft_p c') = MZ (eft_p c) ->
     getDeltaMh2EFT0Loop c' = m2) /\
  (0 < MZ (eft_p c) -> (m2 = 0 <-> vu (eft_p c) = vd (eft_p c))).
Proof.
  intros Hu Hd m2. split; [|split; [|split]].
  - unfold m2, getDeltaMh2EFT0Loop, calcBeta, calcTanBeta, pow2. unR. ring.
  - unfold m2, getDeltaMh2EFT0Loop, pow2. unR. pose proof (COS_bound (2 * calcBeta (eft_p c))) as B.
    set (x := cos _) in *. split; [nra|]. replace (_ * _) with (MZ (eft_p c) ^ 2 * (x * x)) by ring.
    assert (x * x <= 1) by nra. pose proof (pow2_ge_0 (MZ (eft_p c))). nra.
  - intros c' E1 E2 E3. unfold m2. rewrite !tree_value by (rewrite ?E1, ?E2; assumption). rewrite E1, E2, E3. unfold tree. field. nra.
  - intros HZ. unfold m2. rewrite tree_value by assumption. unfold tree.
    set (u := vu _) in *. set (d := vd _) in *. set (z := MZ _) in *. split.
    + intros H. assert (HN : (d^2 - u^2) / (d^2 + u^2) = 0).
      { destruct (Rmult_integral _ _ H) as [K|K]; [exfalso; assert (0 < z ^ 2) by (apply pow_lt; assumption); lra|].
        destruct (Rmult_integral _ _ K) as [K'|K']; lra. }
      assert (K : d^2 - u^2 = 0). { apply (f_equal (fun x => x * (d^2 + u^2))) in HN. replace ((d^2 - u^2) / (d^2 + u^2) * (d^2 + u^2)) with (d^2 - u^2) in HN by (field; nra). lra. }
      nra.
    + intros ->. unfold Rdiv. ring.
Qed.

(** ** C51: renormalisation-group invariance of the Higgs mass at O(at) and O(at as) *)
Theorem C51_one_loop_scale (E : EigenLib R) (p : Params R) (Q : R) : eft_point p -> 0 < Q ->
  exists v, getDeltaMh2EFT1Loop E (mkEFT p at_as) 1 1 = Ok v /\ getDeltaMh2EFT1Loop E (mkEFT (with_scale p Q) at_as) 1 1 = Ok v.
Proof. exact (mh2_one_loop_scale E p Q). Qed.
Theorem C51_two_loop_rge (E : EigenLib R) (p : Params R) : eft_point p ->
  exists d2 d1,
  is_derive (fun L : R => value (getDeltaMh2EFT2Loop E (mkEFT (with_scale p (exp (L / 2))) at_as) 1 1) : R) (ln (scale p ^ 2)) d2 /\
  is_derive (fun t : R => value (getDeltaMh2EFT1Loop E (mkEFT (qcd_step p t) at_as) 1 1) : R) 0 d1 /\
  g3 p ^ 2 / (4 * PI) ^ 2 * d1 + d2 = 0.
Proof. exact (mh2_rge E p). Qed.
Corollary C51_example : eft_point p_thr.
Proof.
  unfold eft_point, p_thr.
  cbn [scale Params.mu vd vu mq2 md2 mu2 ml2 me2 MG Mt MSt massLimit3LThreshold a22 v0 v1 diag3].
  replace (sqrt 1000000) with 1000 by (symmetry; apply sqrt_lem_1; lra).
  replace (sqrt 4000000) with 2000 by (symmetry; apply sqrt_lem_1; lra).
  repeat split; try lra; try reflexivity;
    try (cbn [In] in *; repeat match goal with H : _ \/ _ |- _ => destruct H as [<-|H] | H : False |- _ => destruct H end; cbn; lra);
    unfold Rabs; destruct (Rcase_abs _); lra.
Qed.
