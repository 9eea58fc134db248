(** * Property theorem C63: the three-loop DR'-to-MSbar shift contains exactly the requested powers of Xt *)
From Coq Require Import Reals Lra Lia List ZArith Bool String.
From Verif Require Import Num NumFacts Except Params ParamsExamples HierFormulas Dilog LoopFun Thresh ThreshTwo Threshold ThreshSpec ThreshProofs PotSpec PropPot2 ThreshConv PropThresh XtProofs XtCases.
Import ListNotations.
Open Scope R_scope.

(** the squared masses satisfy exactly the relations of the mass limit, and no others *)
Definition masses_of_limit (c : TC R) : Prop :=
  let p := tc_p c in let mQ := a22 (mq2 p) in let mU := a22 (mu2 p) in let mG := MG p * MG p in let mS := tc_msq2 c in
  (getLimit c = GENERAL /\ mQ <> mU /\ mG <> mQ /\ mG <> mU) \/
  (getLimit c = MQ3_EQ_MU3 /\ mU = mQ /\ mG <> mQ) \/
  (getLimit c = MQ3_EQ_M3 /\ mG = mQ /\ mQ <> mU /\ mS <> mQ) \/
  (getLimit c = MU3_EQ_M3 /\ mG = mU /\ mQ <> mU /\ mS <> mU) \/
  (getLimit c = MQ3_EQ_MU3_EQ_M3 /\ mU = mQ /\ mG = mQ /\ mS <> mQ) \/
  (getLimit c = DEGENERATE /\ mU = mQ /\ mG = mQ /\ mS = mQ).
(** no squared mass is exactly twice another one (where the implementation of the dilogarithm switches) *)
Definition no_factor_two (c : TC R) : Prop :=
  let p := tc_p c in free_of_two [a22 (mq2 p); a22 (mu2 p); MG p * MG p; tc_msq2 c].

Lemma calcXt_X_t p : 0 < vu p -> 0 < vd p -> calcXt p = X_t p.
Proof. intros Hu Hd. unfold calcXt, calcTanBeta, X_t. unR. field. lra. Qed.

(** There are coefficients a_0, ..., a_6, depending on the masses, the scale and omitLogs but not on A_t, such that for every A_t:
    the difference of the three-loop threshold correction between the schemes is the sum of a_k Xt^k, and the shift is this sum with the powers
    above the requested order removed (at their value for the separate switch omitXtLogs). *)
Theorem C63 (c : TC R) : phys_tc c -> masses_of_limit c -> no_factor_two c ->
  exists a : Z -> nat -> R, forall At Ab Atau, let c' := with_trilinears c At Ab Atau in let X := X_t (tc_p c') in
  (forall o, exists v w, getThresholdCorrection c' LAMBDA_AT_AS2 S_H3m o = Ok v /\ getThresholdCorrection c' LAMBDA_AT_AS2 S_DRBARPRIME o = Ok w /\
     v - w = powers (a o) X 0 6) /\
  (forall x o o', (x <= 3)%Z -> getDRbarPrimeToMSbarShift c' x o o' = Ok (powers (a o) X 0 6 - powers (a o') X 4 6)) /\
  (forall x o o', (3 < x)%Z -> getDRbarPrimeToMSbarShift c' x o o' = Ok (powers (a o) X 0 6 - powers (a o') X 5 6)).
Proof.
  intros HP HM HT. assert (HX : forall A Ab Atau, calcXt (tc_p (with_trilinears c A Ab Atau)) = X_t (tc_p (with_trilinears c A Ab Atau))).
  { intros. destruct HP as [(_ & _ & _ & _ & _ & _ & _ & _ & Hu & Hd) _]. apply calcXt_X_t; assumption. }
  unfold masses_of_limit, getLimit in HM. cbv zeta in HM.
  destruct HM as [H|[H|[H|[H|[H|H]]]]]; decompose [and] H; clear H.
  - exists (co_G c). intros A Ab At' c' X. unfold X, c'. rewrite <- HX. apply case_G; assumption.
  - exists (co_QU c). intros A Ab At' c' X. unfold X, c'. rewrite <- HX. apply case_QU; assumption.
  - exists (co_QM c). intros A Ab At' c' X. unfold X, c'. rewrite <- HX. apply case_QM; assumption.
  - exists (co_UM c). intros A Ab At' c' X. unfold X, c'. rewrite <- HX. apply case_UM; assumption.
  - exists (co_QUM c). intros A Ab At' c' X. unfold X, c'. rewrite <- HX. apply case_QUM; assumption.
  - exists (co_D c). intros A Ab At' c' X. unfold X, c'. rewrite <- HX. apply case_D; assumption.
Qed.

(** With equal switches the result is a polynomial in Xt whose degree is the requested order. *)
Corollary C63_truncated (c : TC R) (o : Z) : phys_tc c -> masses_of_limit c -> no_factor_two c ->
  exists a : nat -> R, forall At Ab Atau, let c' := with_trilinears c At Ab Atau in let X := X_t (tc_p c') in
  (forall x, (x <= 3)%Z -> getDRbarPrimeToMSbarShift c' x o o = Ok (a 0%nat + a 1%nat * X + a 2%nat * X^2 + a 3%nat * X^3)) /\
  (forall x, (3 < x)%Z -> getDRbarPrimeToMSbarShift c' x o o = Ok (a 0%nat + a 1%nat * X + a 2%nat * X^2 + a 3%nat * X^3 + a 4%nat * X^4)).
Proof.
  intros H1 H2 H3. destruct (C63 c H1 H2 H3) as [a Ha]. exists (a o). intros A Ab At' c' X. destruct (Ha A Ab At') as (_ & L & G). fold c' in L, G. fold X in L, G.
  split; intros x Hx; [rewrite (L x o o Hx)|rewrite (G x o o Hx)]; f_equal; unfold powers; simpl; ring.
Qed.

(** The hypotheses are met by a spectrum with four different masses and, in the degenerate limit, by one with all masses equal. *)
Definition c_deg : TC R := mkTC (mkParams 1500 500 (1/2) (2/3) 1 20 200 (diag3 1000000) (diag3 1000000) (diag3 1000000) (diag3 1000000) (diag3 1000000)
    (diag3 1500) (diag3 0) (diag3 0) (diag3 0) (diag3 0) (diag3 0) 400 800 1000 80 91 150 3 2 1000
    (mkV2 900 2100) (mkV2 1000 1500) (mkV2 1000 1000) (1/10) 0 0 0 0 0 DEGENERATE) 1000000 6.
Example C63_nonvacuous : (phys_tc c_thr /\ masses_of_limit c_thr /\ no_factor_two c_thr) /\ (phys_tc c_deg /\ masses_of_limit c_deg /\ no_factor_two c_deg).
Proof.
  unfold phys_tc, phys, masses_of_limit, no_factor_two, free_of_two, getLimit, c_thr, p_thr, c_deg, diag3, GENERAL, DEGENERATE. cbn [tc_p tc_msq2 scale mu mq2 md2 mu2 ml2 me2 MA M1 M2 MG MSt vu vd v0 massLimit3LThreshold a22 In].
  repeat match goal with |- (_ /\ _) => split end; try lra; try reflexivity; try lia.
  all: try (intros m [<-|[<-|[<-|[<-|[<-|[]]]]]]; cbn [a00 a11 a22]; lra).
  - left. repeat split; lra.
  - intros a b. intros Ha Hb. repeat destruct Ha as [<-|Ha]; repeat destruct Hb as [<-|Hb]; try contradiction; lra.
  - do 5 right. repeat split; lra.
  - intros a b. intros Ha Hb. repeat destruct Ha as [<-|Ha]; repeat destruct Hb as [<-|Hb]; try contradiction; lra.
Qed.
