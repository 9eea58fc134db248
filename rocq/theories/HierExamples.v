(** Witnesses for the hierarchy selection: spectra of every shape exist, the assumptions on the
    called routines can be met, and the points at which claims fail. *)
From Coq Require Import String ZArith List Bool Lia Reals Lra.
From Coq Require Import Floats.SpecFloat.
From Verif Require Import Num NumFacts Except HObj Params ParamsExamples HierFormulas HierCalc HierSpec
  HierProofs HierProofs2 HierProofs3 HierProofs4 HierProofs5 HierProofs6.
Import ListNotations.
Open Scope string_scope.
Open Scope R_scope.

(** a point with stop = sbottom masses m1, m2, gluino mg and mean squark mass mq *)
Definition point_with (m1 m2 mg mq : R) : Params R :=
  mkParams 1000 500 (1/2) (2/3) 1 20 20 (diag3 (mq * mq)) (diag3 (mq * mq)) (diag3 (mq * mq)) (diag3 (mq * mq)) (diag3 (mq * mq))
    zero3 zero3 zero3 zero3 zero3 zero3 1000 1000 mg 80 90 160 0 1 800
    (mkV2 m1 m2) (mkV2 m1 m2) (mkV2 m1 m2) (1/2) (1/2) 0 1 1 0 1.

Lemma spectrum_exists ab m1 m2 mg mq : 0 < mq -> spectrum (point_with m1 m2 mg mq) ab m1 m2 mg mq.
Proof.
  intros Hq. constructor; try (destruct ab; reflexivity).
  unfold msq2_factors, point_with, diag3. cbn [mq2 mu2 md2 a00 a11 a22 Mb MZ MW vu vd].
  assert (E0 : calc_cos2beta 20 20 = 0).
  { unfold calc_cos2beta, calc_v2, pow2. unR. lra. }
  rewrite E0. unfold pow2. unR.
  assert (Hp : 0 < mq * mq) by nra.
  match goal with |- sqrt (Rabs (Rpower ?e _)) = _ => replace e with ((mq * mq) ^ 10) by field end.
  rewrite <- (Rpower_pow 10 (mq * mq)) by exact Hp.
  rewrite Rpower_mult. replace (INR 10 * (1 / 10)) with 1 by (cbn; lra).
  rewrite Rpower_1 by exact Hp. rewrite Rabs_pos_eq by lra.
  apply sqrt_square. lra.
Qed.

(** an environment that meets [no_throw]; every routine returns something that depends on its input *)
Definition env_ex {T} {N : Num T} (E : EigenLib T) : Env T :=
  mkEnv E (fun m => mkV2 (m00 m) (m11 m))
    (fun h _ args _ a b c => mkHierOut (nint h) (nint a) (nint b) (nint c) (nint 1) (nint 2) (nth 0 args (nint 0)))
    (fun a b c _ _ _ _ _ _ _ _ _ => (a, b, c))
    (fun q _ => Ok (MZ q)) (fun q _ _ _ => Ok (MZ q)) (fun q _ _ _ => Ok (MZ q)) (fun q _ _ _ _ => Ok (MZ q))
    (fun q _ _ _ => Ok (Mt q)) (fun q _ _ _ _ => Ok (Mt q)) (fun q _ _ _ => Ok (Mt q))
    (fun q _ => Ok (MZ q, Mt q, Mb q))
    (fun a b c d => (m00 a, m00 b, m00 c, m00 d)).
Lemma env_ex_ok {T} {N : Num T} (E : EigenLib T) : no_throw (env_ex E).
Proof. repeat split; intros; eexists; reflexivity. Qed.

(** if some hierarchy is suitable the selection returns one of the 14 *)
Lemma pick_some {T} {N : Num T} (X : Env T) (p : Params T) d ho (m1neg : nltb (nneg (nint 1)) (nint 0) = true) hs :
  forall st r, (forall k, In k hs -> is_hierarchy k) ->
    (is_hierarchy (snd (fst st)) \/ fst (fst st) = nneg (nint 1) /\ exists k, In k hs /\ isHierarchySuitable p (isAlphab ho) k = true) ->
    pick X p d ho st hs = Ok r -> is_hierarchy (snd (fst r)).
Proof.
  induction hs as [|h hs IH]; intros [[e s] pay] r Hin Hst H.
  - cbn in H. injection H as <-. destruct Hst as [Hst|(_ & k & [] & _)]. exact Hst.
  - cbn [pick] in H. cbn [fst snd] in Hst. destruct (isHierarchySuitable p (isAlphab ho) h) eqn:Es.
    + destruct (estimate X p d ho h) as [x|]; cbn [bind] in H; [|discriminate].
      eapply IH; [intros; apply Hin; right; assumption| |exact H]. left.
      destruct Hst as [Hst|[-> _]].
      * destruct (_ || _); cbn [fst snd]; [apply Hin; left; reflexivity|exact Hst].
      * rewrite m1neg. cbn. apply Hin. left. reflexivity.
    + eapply IH; [intros; apply Hin; right; assumption| |exact H]. cbn [fst snd].
      destruct Hst as [Hst|(E1 & k & [->|Hk] & Hs)]; [left; exact Hst|congruence|right; eauto].
Qed.
Lemma compare_some {T} {N : Num T} (X : Env T) (p : Params T) ho d ho' h d' :
  nltb (nneg (nint 1)) (nint 0) = true ->
  (exists k, is_hierarchy k /\ isHierarchySuitable p (isAlphab ho) k = true) ->
  compareHierarchies X p ho d = (Ok (ho', h), d') -> is_hierarchy h /\ hierarchy ho' = h.
Proof.
  intros m1 [k [Hk Hs]] H. apply compare_pick in H as (_ & E & err & pay & Hp & _). split; [|exact E].
  apply (pick_some X p _ ho m1) in Hp; [exact Hp|intros; apply in_all; assumption|].
  right. cbn. split; [reflexivity|]. exists k. split; [apply in_all, Hk|exact Hs].
Qed.

(** calculateDMh3L fails iff no hierarchy is suitable *)
Lemma calculate_iff {T} {N : Num T} (X : Env T) (p : Params T) ab d :
  nltb (nneg (nint 1)) (nint 0) = true -> no_throw X ->
  ((exists h, is_hierarchy h /\ isHierarchySuitable p ab h = true) /\ (exists o, calculateDMh3L X p ab d = (Ok o, d))) \/
  ((forall h, is_hierarchy h -> isHierarchySuitable p ab h = false) /\
   calculateDMh3L X p ab d = (Throw "No suitable hierarchy found!", d)).
Proof.
  intros M1 NT.
  assert (D : (exists h, is_hierarchy h /\ isHierarchySuitable p ab h = true) \/
              (forall h, is_hierarchy h -> isHierarchySuitable p ab h = false)).
  { destruct (existsb (isHierarchySuitable p ab) all_hierarchies) eqn:E.
    - apply existsb_exists in E as (h & Hi & Hs). left. exists h. split; [apply in_all, Hi|exact Hs].
    - right. intros h Hh. apply in_all in Hh. destruct (isHierarchySuitable p ab h) eqn:Es; [|reflexivity].
      enough (existsb (isHierarchySuitable p ab) all_hierarchies = true) by congruence.
      apply existsb_exists. eauto. }
  assert (C : forall ho h, compareHierarchies X p (with_mdrFlag (newHO ab) 0) d = (Ok (ho, h), d) ->
            calculateDMh3L X p ab d = finishDMh3L X p ho d).
  { intros ho h H. unfold calculateDMh3L, bindC, lift. cbn [set negb Z.eqb andb].
    change (with_mdrFlag (newHO ab) 0) with (with_mdrFlag (newHO ab) 0) in *.
    match goal with |- context [compareHierarchies X p ?o d] => change o with (with_mdrFlag (newHO (T:=T) ab) 0) end.
    rewrite H. reflexivity. }
  destruct D as [[h [Hh Hs]]|Hn].
  - left. split; [eauto|].
    destruct (compare_ok X p NT (with_mdrFlag (newHO ab) 0) d) as [[ho k] E].
    rewrite (C _ _ E).
    assert (Hk : is_hierarchy (hierarchy ho)).
    { destruct (compare_some X p (with_mdrFlag (newHO ab) 0) d ho k d M1 (ex_intro _ h (conj Hh Hs)) E) as [Hi ->]. exact Hi. }
    destruct (finish_ok X p NT ho d Hk) as [o Eo]. eauto.
  - right. split; [exact Hn|].
    destruct (compare_none X p (with_mdrFlag (newHO ab) 0) d) as [ho E]; [exact Hn|].
    rewrite (C _ _ E). apply finish_none.
    apply compare_pick in E as (_ & -> & _). reflexivity.
Qed.

(** ** The failures *)
(** gluino degenerate with stop 2 and stops within 10%: nothing is suitable *)
Lemma gap_point ab : forall h, is_hierarchy h -> isHierarchySuitable (point_with 1000 1050 1050 2000) ab h = false.
Proof.
  intros h Hh. destruct (isHierarchySuitable (point_with 1000 1050 1050 2000) ab h) eqn:E; [|reflexivity]. exfalso.
  assert (S := spectrum_exists ab 1000 1050 1050 2000 ltac:(lra)).
  assert (X : exists h, is_hierarchy h /\ isHierarchySuitable (point_with 1000 1050 1050 2000) ab h = true) by eauto.
  apply (proj1 (coverage _ _ _ _ _ _ S ltac:(lra))) in X. destruct X as (_ & _ & [X|[X|X]]); [apply X; reflexivity|lra|lra].
Qed.
(** h9q2 is declared suitable although the stops are further apart than the gluino is below stop 1 *)
Lemma h9q2_point ab : isHierarchySuitable (point_with 1000 1500 900 2000) ab 13 = true /\ ~ meaning 13 1000 1500 900 2000.
Proof.
  assert (S := spectrum_exists ab 1000 1500 900 2000 ltac:(lra)). split.
  - apply (suit_iff _ _ _ _ _ _ S). unfold suitableP. cbv zeta iota beta. lra.
  - unfold meaning. cbv iota beta. lra.
Qed.

(** binary64: the first suitable hierarchy has a NaN error and wins over a later one with error 0 *)
Definition lm_ex : Libm :=
  {| lm_log := fun x => match x with S754_zero _ => F64ninf | S754_finite true _ _ => S754_nan | S754_infinity true => S754_nan
                        | S754_infinity false => F64inf | S754_nan => S754_nan | _ => F64int 1 end;
     lm_log1p := fun x => x; lm_sin := fun x => x; lm_cos := fun x => x; lm_tan := fun x => x; lm_atan := fun x => x;
     lm_asin := fun x => x; lm_acos := fun x => x; lm_pow := fun _ _ => F64int 16;
     lm_fmod := fun x _ => x |}.
Lemma lm_ex_ok : libm_ok lm_ex.
Proof. constructor; intros; reflexivity. Qed.
Definition p_nan : Params F64 :=
  mkParams F1 F1 F1 F1 F1 F1 F1 (m3F F1) (m3F F1) (m3F F1) (m3F F1) (m3F F1)
    (m3F F1) (m3F F1) (m3F F1) (m3F F1) (m3F F1) (m3F F1) F1 F1 (F64int 3) F1 F1 F1 F1 F1 F1
    (mkV2 F1 (F64int 2)) (mkV2 F1 (F64int 2)) (mkV2 F1 F1)
    F1 F1 F1 F1 F1 F1 0.
Definition X_nan : Env F64 :=
  mkEnv (mkEigen (fun m => (mkV2 F1 F1, m)) (fun _ => (F1, F1, F1)))
    (fun m => if F64isnan (m00 m) then mkV2 S754_nan S754_nan else mkV2 F1 F1)
    (fun h _ _ _ _ _ _ => let x := if (h =? 0)%Z then S754_nan else F1 in mkHierOut x x x x x x x)
    (fun _ _ _ _ _ _ _ _ _ _ _ _ => (F1, F1, F1))
    (fun _ _ => Ok F1) (fun _ _ _ _ => Ok F1) (fun _ _ _ _ => Ok F1) (fun _ _ _ _ _ => Ok F1)
    (fun _ _ _ _ => Ok F1) (fun _ _ _ _ _ => Ok F1) (fun _ _ _ _ => Ok F1) (fun _ _ => Ok (F1, F1, F1))
    (fun _ _ _ _ => (F1, F1, F1, F1)).
Lemma nan_point :
  exists ho e0 e10,
    @compareHierarchies _ (NumF lm_ex) X_nan p_nan (@newHO _ (NumF lm_ex) false) depth_ones = (Ok (ho, 0%Z), depth_ones) /\
    @isHierarchySuitable _ (NumF lm_ex) p_nan false 0 = true /\ @isHierarchySuitable _ (NumF lm_ex) p_nan false 10 = true /\
    @estimate _ (NumF lm_ex) X_nan p_nan (selection_depth depth_ones) (@newHO _ (NumF lm_ex) false) 0 = Ok e0 /\
    @estimate _ (NumF lm_ex) X_nan p_nan (selection_depth depth_ones) (@newHO _ (NumF lm_ex) false) 10 = Ok e10 /\
    F64isnan (est_error e0) = true /\ est_error e10 = S754_zero false.
Proof. do 3 eexists. split; [vm_compute; reflexivity|]. split; [vm_compute; reflexivity|]. split; [vm_compute; reflexivity|].
  split; [vm_compute; reflexivity|]. split; [vm_compute; reflexivity|]. split; vm_compute; reflexivity. Qed.

(** binary64 coverage *)
Lemma SF_total a b : F64isnan a = false -> F64isnan b = false -> SFltb a b = false -> SFeqb a b = false -> SFltb b a = true.
Proof.
  unfold SFltb, SFeqb. intros Ha Hb. 
  destruct a as [[]|[]| |[] m e], b as [[]|[]| |[] m' e']; cbn in *; try discriminate; try reflexivity;
    rewrite (Z.compare_antisym e e'); destruct (e ?= e')%Z eqn:E; cbn; try discriminate; try reflexivity;
    change (Pos.compare_cont Eq m m') with (m ?= m')%positive; change (Pos.compare_cont Eq m' m) with (m' ?= m)%positive;
    rewrite (Pos.compare_antisym m m'); destruct (m ?= m')%positive; cbn; try discriminate; reflexivity.
Qed.
Lemma SF_le_of a b : F64isnan a = false -> F64isnan b = false -> SFltb a b = false -> SFleb b a = true.
Proof.
  unfold SFltb, SFleb. intros Ha Hb.
  destruct a as [[]|[]| |[] m e], b as [[]|[]| |[] m' e']; cbn in *; try discriminate; try reflexivity;
    rewrite (Z.compare_antisym e e'); destruct (e ?= e')%Z eqn:E; cbn; try discriminate; try reflexivity;
    change (Pos.compare_cont Eq m m') with (m ?= m')%positive; change (Pos.compare_cont Eq m' m) with (m' ?= m)%positive;
    rewrite (Pos.compare_antisym m m'); destruct (m ?= m')%positive; cbn; try discriminate; reflexivity.
Qed.
Lemma coverage_F lm (p : Params F64) ab :
  let m2 := @sfMass2 F64 p ab in let mq := @calcMeanMsq _ (NumF lm) p in
  F64isnan m2 = false -> F64isnan mq = false -> F64isnan (MG p) = false ->
  SFltb (@nmul _ (NumF lm) (F64dec 13 1) mq) m2 = false -> SFltb (@nmul _ (NumF lm) (F64dec 13 1) mq) (MG p) = false ->
  SFeqb (MG p) m2 = false ->
  exists h, is_hierarchy h /\ @isHierarchySuitable _ (NumF lm) p ab h = true.
Proof.
  intros m2 mq N2 Nq Ng A B E.
  assert (G : forall h, @isHierarchySuitable _ (NumF lm) p ab h = true <->
     (match h with
      | 0%Z => SFltb m2 (MG p) | 1%Z => SFleb mq m2 && SFltb (MG p) m2 | 2%Z => SFltb m2 mq && SFltb (MG p) m2
      | _ => @isHierarchySuitable _ (NumF lm) p ab h end) = true).
  { intros h. unfold isHierarchySuitable. cbn [nltb nleb nmul ndec NumF]. fold m2 mq.
    change (SFmul f64_prec f64_emax (F64dec 13 1) mq) with (@nmul _ (NumF lm) (F64dec 13 1) mq). rewrite A, B.
    destruct h as [|h|h]; try reflexivity. destruct h as [h|h|]; [| |reflexivity]; destruct h; reflexivity. }
  destruct (SFltb (MG p) m2) eqn:L.
  - destruct (SFltb m2 mq) eqn:L'.
    + exists 2%Z. split; [unfold is_hierarchy; lia|]. apply G. rewrite ?L, ?L'. reflexivity.
    + exists 1%Z. split; [unfold is_hierarchy; lia|]. apply G. rewrite ?L. rewrite (SF_le_of m2 mq) by assumption. reflexivity.
  - exists 0%Z. split; [unfold is_hierarchy; lia|]. apply G. apply SF_total; assumption.
Qed.
