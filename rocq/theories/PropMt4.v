(** * The one-loop expression of the hierarchy calculator: property theorem C57 *)
From Coq Require Import Reals ZArith Bool List Lra Lia Psatz.
From Coquelicot Require Import Coquelicot.
From Verif Require Import Num NumFacts Except Linalg Params HierFormulas Fortran PropFortRGE.
Open Scope R_scope.

Section C57.
  Variables (p : Params R) (h : Z).
  Hypothesis Hh : (0 <= h < 14)%Z.
  Lemma mother_ok : exists k, getMotherHierarchy h = Ok k /\ In k (h3 :: h4 :: h5 :: h6 :: h6b :: h9 :: nil).
  Proof.
    unfold getMotherHierarchy, NUMBER_OF_HIERARCHIES. assert (In h (0 :: 1 :: 2 :: 3 :: 4 :: 5 :: 6 :: 7 :: 8 :: 9 :: 10 :: 11 :: 12 :: 13 :: nil)%Z).
    { simpl. lia. }
    simpl in H. repeat (destruct H as [<-|H]; [eexists; split; [reflexivity|vm_compute; tauto]|]). destruct H.
  Qed.
  Hypotheses (H1 : 0 < v0 (MSt p)) (H2 : 0 < v1 (MSt p)) (Hm : 0 < calcMeanMsq p).
  Lemma shift1_0 : shiftMst1ToMDR p false h 0 0 = Ok (v0 (MSt p)).
  Proof.
    unfold shiftMst1ToMDR. cbv zeta. destruct mother_ok as (k & -> & Hk). cbn [bind sfMass1 sfMass2].
    apply f_equal. 
    match goal with |- nmul _ (nsqrt ?M) = _ => assert (HM : M = 1) end.
    { unfold pow5, pow4, pow3, pow2. unR. set (x := v0 (MSt p)) in *. set (y := calcMeanMsq p) in *.
      unfold h3, h4, h5, h6, h6b, h9 in *. cbn [In] in Hk.
      do 6 (destruct Hk as [<-|Hk]; [cbn [Z.eqb Pos.eqb orb]; field; repeat split; lra|]). destruct Hk. }
    rewrite HM. unR. rewrite sqrt_1. ring.
  Qed.
  Lemma shift2_0 : shiftMst2ToMDR p false h 0 0 = Ok (v1 (MSt p)).
  Proof.
    unfold shiftMst2ToMDR. cbv zeta. destruct mother_ok as (k & -> & Hk). cbn [bind sfMass1 sfMass2].
    apply f_equal. 
    match goal with |- nmul _ (nsqrt ?M) = _ => assert (HM : M = 1) end.
    { unfold pow5, pow4, pow3, pow2. unR. set (x := v1 (MSt p)) in *. set (y := calcMeanMsq p) in *.
      unfold h3, h4, h5, h6, h6b, h9 in *. cbn [In] in Hk.
      do 6 (destruct Hk as [<-|Hk]; [cbn [Z.eqb Pos.eqb orb]; field; repeat split; lra|]). destruct Hk. }
    rewrite HM. unR. rewrite sqrt_1. ring.
  Qed.
End C57.

(** With no conversion to the MDR scheme, the one-loop correction the hierarchy calculator compares its expansions with is the O(at)
    correction to the CP-even Higgs mass matrix (for the program's other sign convention of mu: here A_t = X_t + mu cot(beta)), in every
    hierarchy *)
Theorem C57 (p : Params R) (h : Z) : (0 <= h < 14)%Z ->
  0 < v0 (MSt p) -> 0 < v1 (MSt p) -> v0 (MSt p) <> v1 (MSt p) -> 0 < calcMeanMsq p -> 0 < Mt p -> 0 < vu p -> 0 < vd p ->
  getMt41L p false h 0 0 =
  Ok (one_loop PI (Mt p) (v0 (MSt p) * v0 (MSt p)) (v1 (MSt p) * v1 (MSt p)) (s2t p) (- mu p) (vu p / vd p) (vu p * vu p + vd p * vd p)).
Proof.
  intros Hh H1 H2 H12 Hq Hm Hu Hd. unfold getMt41L. cbv zeta. rewrite shift1_0, shift2_0 by assumption. cbn [bind fMass sfS2].
  apply f_equal. unfold mat2_scale, one_loop, calcHiggsMassMatrixPrefactor, calcSinBeta, calcCosBeta, calcBeta, calcTanBeta, calcV, calcV2. cbv zeta.
  unfold pow4, pow3, pow2. unR. change (Rconst CPi) with PI.
  rewrite tan_atan, sin_atan. unfold Rsqr.
  set (x := v0 (MSt p)) in *. set (y := v1 (MSt p)) in *. set (m := Mt p) in *. set (z := s2t p) in *. set (u := mu p) in *.
  set (U := vu p) in *. set (D := vd p) in *.
  assert (HV : 0 < U * U + D * D) by nra. assert (HR := sqrt_sqrt (U * U + D * D) (Rlt_le _ _ HV)). assert (HR0 := sqrt_lt_R0 _ HV).
  set (V := sqrt (U * U + D * D)) in *.
  assert (HW : 0 < 1 + U / D * (U / D)) by (assert (0 <= U / D * (U / D)) by (apply Rle_0_sqr); lra).
  assert (HSB : U / D / sqrt (1 + U / D * (U / D)) = U / V).
  { replace (1 + U / D * (U / D)) with ((V / D) * (V / D)).
    - rewrite sqrt_square by (apply Rlt_le, Rdiv_lt_0_compat; assumption). field. lra.
    - transitivity (V * V / (D * D)); [field; lra|]. rewrite HR. field. lra. }
  rewrite HSB. rewrite !ln_mult by assumption. rewrite <- HR.
  assert (HP := PI_neq0). assert (HD : x * x - y * y <> 0).
  { intros HE. apply H12. assert ((x - y) * (x + y) = 0) by lra. apply Rmult_integral in H. lra. }
  set (P := PI) in *. set (X := ln x). set (Y := ln y). set (L := ln m).
  clearbody P X Y L. clearbody V. 
  cbn [m00 m01 m10 m11]. f_equal; field; repeat split; try assumption; lra.
Qed.
