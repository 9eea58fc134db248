(** * Property theorems C12-C23, C48 (class HierarchyCalculator).

    [X : Env T] stands for the routines called from the calculator (hierarchy formulas, two-loop
    routines, EFT, eigenvalues): every theorem holds for all of them.  [d : Depth] are the expansion
    flags of the calculator object; a member function maps it to (result or exception, new flags). *)
From Coq Require Import String ZArith List Bool Lia Reals Lra.
From Coq Require Import Floats.SpecFloat.
From Verif Require Import Num NumFacts Except HObj Params HierFormulas HierCalc HierSpec
  HierProofs HierProofs2 HierProofs3 HierProofs4 HierProofs5 HierProofs6 HierExamples ParamsExamples HObjProofs.
Import ListNotations.
Open Scope string_scope.

(** ** C12: the selected hierarchy *)
Theorem C12_best_hierarchy :
  forall (X : Env R) (p : Params R) (d d' : Depth) (ho ho' : HO R) (h : Z),
  compareHierarchies X p ho d = (Ok (ho', h), d') ->
  d' = d /\ hierarchy ho' = h /\
  ((h = (-1)%Z /\ forall k, is_hierarchy k -> isHierarchySuitable p (isAlphab ho) k = false) \/
   (exists est, (forall k, is_hierarchy k -> isHierarchySuitable p (isAlphab ho) k = true ->
                   estimate X p (selection_depth d) ho k = Ok (est k)) /\
      best (fun k => isHierarchySuitable p (isAlphab ho) k = true) (fun k => est_error (est k)) h /\
      absDiff2L ho' = est_abs (est h) /\ relDiff2L ho' = est_rel (est h) /\
      e2 (expUncertainties ho') = est_exp2 (est h) /\ e3 (expUncertainties ho') = est_exp3 (est h))).
Proof. intros X p d d' ho ho' h. apply best_R. Qed.
Print Assumptions C12_best_hierarchy.

(** the same in binary64 arithmetic, if none of the error estimates is NaN *)
Theorem C12_best_hierarchy_binary64 :
  forall (lm : Libm) (X : Env F64) (p : Params F64) (d d' : Depth) (ho ho' : HO F64) (h : Z),
  @compareHierarchies _ (NumF lm) X p ho d = (Ok (ho', h), d') ->
  (forall k e, is_hierarchy k -> @isHierarchySuitable _ (NumF lm) p (isAlphab ho) k = true ->
     @estimate _ (NumF lm) X p (selection_depth d) ho k = Ok e -> F64isnan (est_error e) = false) ->
  (h = (-1)%Z /\ forall k, is_hierarchy k -> @isHierarchySuitable _ (NumF lm) p (isAlphab ho) k = false) \/
  (is_hierarchy h /\ @isHierarchySuitable _ (NumF lm) p (isAlphab ho) h = true /\
   exists e, @estimate _ (NumF lm) X p (selection_depth d) ho h = Ok e /\
     absDiff2L ho' = est_abs e /\ relDiff2L ho' = est_rel e /\
     e2 (expUncertainties ho') = est_exp2 e /\ e3 (expUncertainties ho') = est_exp3 e /\
     forall k ek, is_hierarchy k -> @isHierarchySuitable _ (NumF lm) p (isAlphab ho) k = true ->
       @estimate _ (NumF lm) X p (selection_depth d) ho k = Ok ek ->
       SFleb (est_error e) (est_error ek) = true /\
       ((k < h)%Z -> SFltb (est_error e) (est_error ek) = true)).
Proof. intros lm X p d d' ho ho' h. apply best_F. Qed.
Print Assumptions C12_best_hierarchy_binary64.

(** -1 is returned, without an exception, if nothing is suitable *)
Theorem C12_none :
  forall (T : Type) (N : Num T) (X : Env T) (p : Params T) (ho : HO T) (d : Depth),
  (forall k, is_hierarchy k -> isHierarchySuitable p (isAlphab ho) k = false) ->
  exists ho', compareHierarchies X p ho d = (Ok (ho', (-1)%Z), d).
Proof. intros T N X p ho d. apply compare_none. Qed.
Print Assumptions C12_none.
(** hypotheses are met: whenever the called routines return, so does the selection *)
Example C12_example : forall ho d, exists v, compareHierarchies (env_ex ER0) (point_with 1000 1200 1100 2000) ho d = (Ok v, d).
Proof. intros. apply compare_ok, env_ex_ok. Qed.

(** ** C13: NaN error estimates.  True if the lowest-numbered suitable hierarchy has a non-NaN error. *)
Theorem C13_nan_partial :
  forall (lm : Libm) (X : Env F64) (p : Params F64) (d d' : Depth) (ho ho' : HO F64) (h k0 : Z) (e0 : estimate_t F64),
  @compareHierarchies _ (NumF lm) X p ho d = (Ok (ho', h), d') ->
  lowest_suitable lm p (isAlphab ho) k0 ->
  @estimate _ (NumF lm) X p (selection_depth d) ho k0 = Ok e0 -> F64isnan (est_error e0) = false ->
  is_hierarchy h /\ @isHierarchySuitable _ (NumF lm) p (isAlphab ho) h = true /\
  exists e, @estimate _ (NumF lm) X p (selection_depth d) ho h = Ok e /\ F64isnan (est_error e) = false /\
    forall k ek, is_hierarchy k -> @isHierarchySuitable _ (NumF lm) p (isAlphab ho) k = true ->
       @estimate _ (NumF lm) X p (selection_depth d) ho k = Ok ek -> F64isnan (est_error ek) = false ->
       SFleb (est_error e) (est_error ek) = true /\
       ((k < h)%Z -> SFltb (est_error e) (est_error ek) = true).
Proof. intros lm X p d d' ho ho' h k0 e0. apply nan_later. Qed.
Print Assumptions C13_nan_partial.
(** ... and false otherwise: a NaN of the lowest-numbered suitable hierarchy always wins *)
Theorem C13_nan_first_sticks :
  forall (lm : Libm) (X : Env F64) (p : Params F64) (d d' : Depth) (ho ho' : HO F64) (h k0 : Z) (e0 : estimate_t F64),
  @compareHierarchies _ (NumF lm) X p ho d = (Ok (ho', h), d') ->
  lowest_suitable lm p (isAlphab ho) k0 ->
  @estimate _ (NumF lm) X p (selection_depth d) ho k0 = Ok e0 -> F64isnan (est_error e0) = true ->
  h = k0.
Proof. intros lm X p d d' ho ho' h k0 e0. apply nan_sticks. Qed.
Print Assumptions C13_nan_first_sticks.
(** a concrete case: h3 (NaN) is returned, h6bq2g2 has error 0 *)
Theorem C13_refuted :
  exists (lm : Libm) (X : Env F64) (p : Params F64) (ho' : HO F64) (bad good : estimate_t F64),
    libm_ok lm /\
    @compareHierarchies _ (NumF lm) X p (@newHO _ (NumF lm) false) depth_ones = (Ok (ho', 0%Z), depth_ones) /\
    @isHierarchySuitable _ (NumF lm) p false 0 = true /\ @isHierarchySuitable _ (NumF lm) p false 10 = true /\
    @estimate _ (NumF lm) X p (selection_depth depth_ones) (@newHO _ (NumF lm) false) 0 = Ok bad /\
    @estimate _ (NumF lm) X p (selection_depth depth_ones) (@newHO _ (NumF lm) false) 10 = Ok good /\
    F64isnan (est_error bad) = true /\ est_error good = S754_zero false.
Proof.
  destruct nan_point as (ho & bad & good & H). exists lm_ex, X_nan, p_nan, ho, bad, good. split; [exact lm_ex_ok|exact H].
Qed.
Print Assumptions C13_refuted.

(** ** C14: coverage.  Exact condition for a suitable hierarchy to exist, exact reals. *)
Theorem C14_coverage :
  forall (p : Params R) (ab : bool) (m1 m2 mg mq : R), spectrum p ab m1 m2 mg mq -> (0 < m1 <= m2)%R ->
    ((exists h, is_hierarchy h /\ isHierarchySuitable p ab h = true) <->
     (m2 <= 13/10 * mq /\ mg <= 13/10 * mq /\ (mg <> m2 \/ 1/10 * m1 < m2 - m1 \/ m1 = m2 /\ m1 < mq))%R).
Proof. exact coverage. Qed.
Print Assumptions C14_coverage.
Example C14_example : forall ab, spectrum (point_with 1000 1200 1100 2000) ab 1000 1200 1100 2000.
Proof. intros. apply spectrum_exists. lra. Qed.
(** binary64, any masses that are not NaN: a gluino mass different from Mst2 is enough *)
Theorem C14_coverage_binary64 :
  forall (lm : Libm) (p : Params F64) (ab : bool),
  let m2 := if ab then v1 (MSb p) else v1 (MSt p) in let mq := @calcMeanMsq _ (NumF lm) p in
  F64isnan m2 = false -> F64isnan mq = false -> F64isnan (MG p) = false ->
  SFltb (SFmul 53 1024 (F64dec 13 1) mq) m2 = false -> SFltb (SFmul 53 1024 (F64dec 13 1) mq) (MG p) = false ->
  SFeqb (MG p) m2 = false ->
  exists h, is_hierarchy h /\ @isHierarchySuitable _ (NumF lm) p ab h = true.
Proof. intros lm p ab. apply coverage_F. Qed.
Print Assumptions C14_coverage_binary64.
(** what it means for the user: calculateDMh3L succeeds iff some hierarchy is suitable, otherwise it throws *)
Theorem C14_calculate :
  forall (X : Env R) (p : Params R) (ab : bool) (d : Depth), no_throw X ->
  ((exists h, is_hierarchy h /\ isHierarchySuitable p ab h = true) /\ (exists o, calculateDMh3L X p ab d = (Ok o, d))) \/
  ((forall h, is_hierarchy h -> isHierarchySuitable p ab h = false) /\
   calculateDMh3L X p ab d = (Throw "No suitable hierarchy found!", d)).
Proof. intros X p ab d. apply calculate_iff. unR. apply Rltb_true. lra. Qed.
Print Assumptions C14_calculate.
Theorem C14_calculate_binary64 :
  forall (lm : Libm) (X : Env F64) (p : Params F64) (ab : bool) (d : Depth), no_throw X ->
  ((exists h, is_hierarchy h /\ @isHierarchySuitable _ (NumF lm) p ab h = true) /\
     (exists o, @calculateDMh3L _ (NumF lm) X p ab d = (Ok o, d))) \/
  ((forall h, is_hierarchy h -> @isHierarchySuitable _ (NumF lm) p ab h = false) /\
   @calculateDMh3L _ (NumF lm) X p ab d = (Throw "No suitable hierarchy found!", d)).
Proof. intros lm X p ab d. apply calculate_iff. reflexivity. Qed.
Print Assumptions C14_calculate_binary64.
(** the claim as written is false: gluino mass equal to Mst2 and stops within 10 % *)
Theorem C14_refuted :
  exists (p : Params R) (X : Env R), no_throw X /\
    (forall ab, spectrum p ab 1000 1050 1050 2000) /\
    (forall ab h, is_hierarchy h -> isHierarchySuitable p ab h = false) /\
    (forall ab d, calculateDMh3L X p ab d = (Throw "No suitable hierarchy found!", d)).
Proof.
  exists (point_with 1000 1050 1050 2000), (env_ex ER0). split; [apply env_ex_ok|].
  split; [intros; apply spectrum_exists; lra|]. split; [intros; apply gap_point; assumption|].
  intros ab d. destruct (C14_calculate (env_ex ER0) (point_with 1000 1050 1050 2000) ab d (env_ex_ok _)) as [[(h & Hh & Hs) _]|[_ H]]; [|exact H].
  rewrite (gap_point ab h Hh) in Hs. discriminate.
Qed.
Print Assumptions C14_refuted.

(** ** C15: a hierarchy is only used where its name makes sense -- all but h9q2 *)
Theorem C15_meaning_partial :
  forall (p : Params R) (ab : bool) (m1 m2 mg mq : R) (h : Z), spectrum p ab m1 m2 mg mq -> (0 < m1 <= m2)%R ->
    h <> 13%Z -> isHierarchySuitable p ab h = true -> meaning h m1 m2 mg mq.
Proof. intros p ab m1 m2 mg mq h S. apply meaning_of. exact S. Qed.
Print Assumptions C15_meaning_partial.
Theorem C15_refuted :
  exists p : Params R, forall ab, spectrum p ab 1000 1500 900 2000 /\ isHierarchySuitable p ab 13 = true /\
    ~ meaning 13 1000 1500 900 2000.
Proof.
  exists (point_with 1000 1500 900 2000). intros ab. split; [apply spectrum_exists; lra|]. apply h9q2_point.
Qed.
Print Assumptions C15_refuted.

(** ** C16: mother hierarchies *)
Theorem C16_mother :
  forall h : Z,
    (is_hierarchy h -> exists m, getMotherHierarchy h = Ok m /\ is_mother_of m h /\ getMotherHierarchy m = Ok m) /\
    (~ is_hierarchy h -> exists msg, getMotherHierarchy h = Throw msg) /\
    (h = (-1)%Z -> getMotherHierarchy h = Throw "No suitable hierarchy found!").
Proof.
  intros h. split; [|split].
  - intros Hh. unfold is_hierarchy in Hh.
    assert (D : (h = 0 \/ h = 1 \/ h = 2 \/ h = 3 \/ h = 4 \/ h = 5 \/ h = 6 \/ h = 7 \/ h = 8 \/ h = 9 \/ h = 10 \/ h = 11 \/ h = 12 \/ h = 13)%Z) by lia.
    repeat destruct D as [->|D]; try subst h; eexists; (split; [reflexivity|]);
      (split; [|reflexivity]); unfold is_mother_of; (split; [vm_compute; tauto|]); (split; [reflexivity|]);
      intros k Hk; repeat destruct Hk as [<-|Hk]; try destruct Hk; vm_compute; intros; try discriminate; lia.
  - intros Hn. unfold getMotherHierarchy, NUMBER_OF_HIERARCHIES. unfold is_hierarchy in Hn.
    destruct ((h <? 0)%Z || (14 <=? h)%Z) eqn:E; [destruct (h =? -1)%Z; eauto|].
    apply orb_false_iff in E as [A B]. apply Z.ltb_ge in A. apply Z.leb_gt in B. lia.
  - intros ->. reflexivity.
Qed.
Print Assumptions C16_mother.

(** ** C17: any sequence of calls leaves the settings as they were, and each call gives what it gives on
    a fresh calculator, whatever came before and whichever calls threw. *)
Theorem C17_calculator_unchanged :
  forall (T : Type) (N : Num T) (X : Env T) (p : Params T) (d : Depth) (cs : list (call T)),
    session X p d cs = (map (fun c => fst (exec_call X p c d)) cs, d).
Proof.
  intros T N X p d cs. induction cs as [|c cs IH]; [reflexivity|].
  cbn [session map]. pose proof (pres_call X p c d) as P.
  destruct (exec_call X p c d) as [r d1]. cbn [fst snd] in *. subst d1. rewrite IH. reflexivity.
Qed.
Print Assumptions C17_calculator_unchanged.
(** an exception is thrown in the middle of this session *)
Example C17_example : forall o, exists r2, session (env_ex ER0) (point_with 1000 1050 1050 2000) depth_ones
    [CallCalculateDMh3L false; CallCompareHierarchies o] =
  ([Throw "No suitable hierarchy found!"; r2], depth_ones).
Proof.
  intros o. rewrite C17_calculator_unchanged. cbn [map]. unfold exec_call at 1. unfold bindC at 1.
  destruct (C14_calculate (env_ex ER0) (point_with 1000 1050 1050 2000) false depth_ones (env_ex_ok _)) as [[(h & Hh & Hs) _]|[_ H]].
  - rewrite (gap_point false h Hh) in Hs. discriminate.
  - rewrite H. eexists. reflexivity.
Qed.

(** ** C18: symmetry of all reported matrices *)
Theorem C18_symmetric :
  forall (T : Type) (N : Num T) (X : Env T) (p : Params T) (ab : bool) (d d' : Depth) (o : HO T),
  calculateDMh3L X p ab d = (Ok o, d') ->
    (forall loops m, getDMh o loops = Ok m -> mat2_sym m) /\ mat2_sym (mdrShift o) /\ mat2_sym (h3mShift o).
Proof.
  intros T N X p ab d d' o H. apply final_sym in H as (A & B & C & D & E & F).
  split; [|split; assumption]. intros l m. unfold getDMh, at_checked.
  destruct (loop03 l) eqn:L; [|discriminate]. unfold loop03 in L. apply andb_true_iff in L as [L1 L2].
  apply Z.leb_le in L1. apply Z.leb_le in L2.
  assert (K : (l = 0 \/ l = 1 \/ l = 2 \/ l = 3)%Z) by lia. destruct K as [->|[->|[->| ->]]]; cbn; intros [= <-]; assumption.
Qed.
Print Assumptions C18_symmetric.
Example C18_example : forall d, exists o, calculateDMh3L (env_ex ER0) (point_with 1000 1200 1100 2000) false d = (Ok o, d).
Proof.
  intros d. destruct (C14_calculate (env_ex ER0) (point_with 1000 1200 1100 2000) false d (env_ex_ok _)) as [[_ H]|[H _]]; [exact H|].
  exfalso.
  assert (S := spectrum_exists false 1000 1200 1100 2000 ltac:(lra)).
  destruct (proj2 (coverage _ _ _ _ _ _ S ltac:(lra))) as (h & Hh & Hs); [lra|]. rewrite (H h Hh) in Hs. discriminate.
Qed.

(** ** C19: the result is what one gets from an object that was only told the selected hierarchy and its
    three selection errors: nothing else survives from the candidates tried and discarded. *)
Theorem C19_no_leak :
  forall (T : Type) (N : Num T) (X : Env T) (p : Params T) (ab : bool) (d d' : Depth) (o : HO T),
  calculateDMh3L X p ab d = (Ok o, d') ->
    exists ho h, compareHierarchies X p (newHO ab) d = (Ok (ho, h), d) /\
      finishDMh3L X p (told p ab h (absDiff2L ho, relDiff2L ho, e2 (expUncertainties ho))) d = (Ok o, d') /\ d' = d.
Proof. intros T N X p ab d d' o. apply no_leak. Qed.
Print Assumptions C19_no_leak.

(** ** C20: expansion uncertainty *)
Theorem C20_uncertainty :
  forall (X : Env R) (p : Params R) (ho : HO R) (m : mat2 R) (l1 l2 l3 : Z) (d d' : Depth) (u : R),
  getExpansionUncertainty X p ho m l1 l2 l3 d = (Ok u, d') ->
  is_hierarchy (hierarchy ho) /\
  exists M Ms, mass_with X p ho m l1 l2 l3 (full_depth d) = Ok M /\
    all_ok (fun f => mass_with X p ho m l1 l2 l3 (depth_put (full_depth d) f 0)) (expansion_variables (hierarchy ho)) = Ok Ms /\
    (u = sqrt (Rsum_sq (map (fun x => M - x) Ms)) /\ 0 <= u /\ (u = 0 <-> forall x, In x Ms -> x = M))%R.
Proof. intros X p ho m l1 l2 l3 d d' u. apply unc_R. Qed.
Print Assumptions C20_uncertainty.
Theorem C20_throws :
  forall (T : Type) (N : Num T) (X : Env T) (p : Params T) (ho : HO T) (m : mat2 T) (l1 l2 l3 : Z) (d : Depth),
  ~ is_hierarchy (hierarchy ho) -> exists e, getExpansionUncertainty X p ho m l1 l2 l3 d = (Throw e, d).
Proof. intros T N X p ho m l1 l2 l3 d. apply unc_throws. Qed.
Print Assumptions C20_throws.
Example C20_example : forall m d, exists u, getExpansionUncertainty (env_ex ER0) (point_with 1000 1200 1100 2000) (newHO false) m 0 1 0 d = (Ok u, d).
Proof. intros. apply unc_ok. split; cbn; lia. Qed.

(** ** C21: loop orders add up *)
Theorem C21_additive :
  forall (X : Env R) (p : Params R) (d : Depth) (ho o : HO R) (l1 l2 l3 : Z) (m : mat2 R),
  calculateHierarchy X p d ho l1 l2 l3 = Ok (o, m) ->
  exists a b c, contribution X p d ho 1 l1 a /\ contribution X p d ho 2 l2 b /\ contribution X p d ho 3 l3 c /\
    m = mat2_add (mat2_add a b) c.
Proof.
  intros X p d ho o l1 l2 l3 m H. destruct (additive X p d ho l1 l2 l3 o m H) as (a & b & c & A & B & C & D & _). eauto 9.
Qed.
Print Assumptions C21_additive.
Corollary C21_zero :
  forall (X : Env R) (p : Params R) (d : Depth) (ho o : HO R) (m : mat2 R),
  calculateHierarchy X p d ho 0 0 0 = Ok (o, m) -> m = mkM2 0%R 0%R 0%R 0%R /\ o = ho.
Proof.
  intros X p d ho o m H. destruct (additive X p d ho 0 0 0 o m H) as (a & b & c & A & B & C & -> & D).
  unfold contribution in *. cbn in A, B, C. subst a b c. split; [|apply D; reflexivity].
  unfold mat2_add; cbn; f_equal; lra.
Qed.
Print Assumptions C21_zero.
Example C21_example : exists o m, calculateHierarchy (env_ex ER0) (point_with 1000 1200 1100 2000) depth_ones (newHO false) 1 1 1 = Ok (o, m).
Proof.
  destruct (calcH_ok (env_ex ER0) (point_with 1000 1200 1100 2000) depth_ones (newHO false) 1 1 1) as [[o m] E];
    [split; cbn; lia|eauto].
Qed.

(** ** C22: no MDR shift with the flag off *)
Theorem C22_no_shift :
  forall (p : Params R) (ab : bool) (h order : Z), is_hierarchy h -> (order = 1 \/ order = 2 \/ order = 3)%Z ->
  sfMass1 p ab <> 0%R -> sfMass2 p ab <> 0%R -> calcMeanMsq p <> 0%R ->
  calcMsfMDRFlag p ab h 0 order = Ok (sfMass1 p ab, sfMass2 p ab) /\
  shiftMst1ToMDR p ab h 0 0 = Ok (sfMass1 p ab) /\ shiftMst2ToMDR p ab h 0 0 = Ok (sfMass2 p ab).
Proof.
  intros p ab h order Hh Ho N1 N2 NQ. split; [apply no_shift_flag; assumption|apply no_shift; assumption].
Qed.
Print Assumptions C22_no_shift.
(** without the strong interaction DR and MDR agree, whatever the flags *)
Theorem C22_no_strong_coupling :
  forall (X : Env R) (p : Params R) (ab : bool) (h : Z) (one two : bool), is_hierarchy h -> g3 p = 0%R ->
  sfMass1 p ab <> 0%R -> sfMass2 p ab <> 0%R -> calcMeanMsq p <> 0%R ->
  calcDRbarToMDRbarShift X p ab h one two = Ok (mkM2 0%R 0%R 0%R 0%R).
Proof. intros X p ab h one two. apply no_mdr_difference. Qed.
Print Assumptions C22_no_strong_coupling.
Example C22_example : calcMeanMsq (point_with 1000 1200 1100 2000) = 2000%R.
Proof. exact (sp_q _ _ _ _ _ _ (spectrum_exists false 1000 1200 1100 2000 ltac:(lra))). Qed.

(** ** C23: alpha_b mode *)
Theorem C23_alphab :
  forall (T : Type) (N : Num T) (X : Env T) (p : Params T) (d d' : Depth) (o : HO T),
  calculateDMh3L X p true d = (Ok o, d') ->
    isAlphab o = true /\ getDLambda o 3 = Ok (nint 0) /\ dLambdaH3m o = nint 0 /\ dLambdaEFT o = nint 0 /\ dLambdaNonLog o = nint 0 /\
    getDLambdaShift o 3 = Ok (nint 0) /\ dLambdaXtUncertainty o = nint 0.
Proof.
  intros T N X p d d' o H. apply final_consistent in H as (A & _ & _ & _ & _ & _ & _ & _ & _ & E & _ & _ & _ & Z).
  destruct (Z eq_refl) as (Z1 & Z2 & Z3 & Z4 & Z5).
  unfold getDLambda, getDLambdaShift, at_checked, loop03. cbn. rewrite E, Z2, Z5. repeat split; assumption || reflexivity.
Qed.
Print Assumptions C23_alphab.
(** the reported uncertainty is 0 too, in exact and in binary64 arithmetic *)
Theorem C23_alphab_uncertainty :
  (forall (X : Env R) (p : Params R) (d d' : Depth) (o : HO R), calculateDMh3L X p true d = (Ok o, d') ->
     getDLambdaUncertainty o 3 = Ok 0%R) /\
  (forall (lm : Libm) (X : Env F64) (p : Params F64) (d d' : Depth) (o : HO F64),
     @calculateDMh3L _ (NumF lm) X p true d = (Ok o, d') -> @getDLambdaUncertainty _ (NumF lm) o 3 = Ok (S754_zero false)).
Proof.
  split.
  - intros X p d d' o H. apply C23_alphab in H as (_ & _ & Z1 & Z2 & _ & _ & Z4).
    unfold getDLambdaUncertainty. cbn -[Rabs]. rewrite Z4, Z2, Z1. cbn -[Rabs]. rewrite Rminus_0_r, !Rabs_R0. f_equal; ring.
  - intros lm X p d d' o H. apply C23_alphab in H as (_ & _ & Z1 & Z2 & _ & _ & Z4).
    unfold getDLambdaUncertainty. rewrite Z4, Z2, Z1. reflexivity.
Qed.
Print Assumptions C23_alphab_uncertainty.

(** Consistency of the finished object, both modes *)
Theorem C49_consistent :
  forall (T : Type) (N : Num T) (X : Env T) (p : Params T) (ab : bool) (d d' : Depth) (o : HO T),
  calculateDMh3L X p ab d = (Ok o, d') ->
    isAlphab o = ab /\ mdrFlag o = 0%Z /\ renormalizationScheme o = 1%Z /\
    getDMh o 0 = Ok (treelvl p) /\
    getDMhExpUncertainty o 1 = Ok (nint 0) /\
    getDMh2FOAt o 0 = Ok (nint 0) /\
    getDMh2FO o 3 = getDMh2 o 3 /\ getDMh2FOAt o 3 = getDMh2 o 3 /\
    getDLambdaShift o 0 = Ok (nint 0) /\ getDLambdaShift o 1 = Ok (nint 0) /\
    getDLambda o 3 = Ok (dLambdaEFT o) /\
    env_pert X (e0 (dMhMap o)) (e1 (dMhMap o)) (e2 (dMhMap o)) (e3 (dMhMap o)) =
      (e0 (dMh2Map o), e1 (dMh2Map o), e2 (dMh2Map o), e3 (dMh2Map o)).
Proof.
  intros T N X p ab d d' o H. apply final_consistent in H as (A & B & C & D & E & F & G & H1 & H2 & H3 & H4 & _ & H5 & _).
  unfold getDMh, getDMhExpUncertainty, getDMh2FOAt, getDMh2FO, getDMh2, getDLambdaShift, getDLambda, at_checked, loop03, loop13. cbn.
  rewrite D, E, F, G, H1, H2, H3, <- H5, H4. repeat split; assumption || reflexivity.
Qed.
Print Assumptions C49_consistent.

(** ** C48: the two-loop DR' -> MS-bar shift of lambda is not the expected one: it carries an
    additional loop factor times Mt^2 yt^2 / v^2, because the one-loop lambda that is inserted already
    contains the prefactor. *)
Theorem C48_two_loop_shift_refuted :
  forall (X : Env R) (p : Params R) (d d' : Depth) (o : HO R),
  calculateDMh3L X p false d = (Ok o, d') ->
    exists y, env_threshold X (p_mass_ES p) 4 YT_AS 1 = Ok y /\
      let v2 := calcV2 p in let gt := (sqrt 2 * Mt p / sqrt v2)%R in
      e2 (dLambdaShiftMap o) =
        (msbar_shift_2L p (e1 (dLambdaMap o)) y * (1 / ((4 * PI) * (4 * PI)) * (Mt p * gt) ^ 2 / v2))%R.
Proof.
  intros X p d d' o H. apply final_shift2 in H as (y & E & S). exists y. split; [exact E|].
  cbv zeta in *. rewrite S. unfold msbar_shift_2L, pow2. unR. cbn [Rconst].
  set (k := ((4 * PI) * (4 * PI))%R). set (gt := (sqrt 2 * Mt p / sqrt (calcV2 p))%R).
  assert (K : (k <> 0)%R) by (unfold k; pose proof PI_RGT_0; nra).
  unfold Rdiv. rewrite (Rinv_mult k k). ring.
Qed.
Print Assumptions C48_two_loop_shift_refuted.
