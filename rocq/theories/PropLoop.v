(** * Property theorems C24-C26 (loop functions of ThresholdLoopFunctions.cpp)

    The functions F1..F9, f1..f8, phi_xyz below are the model (LoopFun.v) read over the real numbers;
    F1c..F9c, f1c..f8c are the textbook closed forms (LoopSpec.v).  In C25 the same code is read over
    partial reals [PR]: [Some v] is a real number, [None] the result of a division by zero or of a
    logarithm of a non-positive number. *)
From Coq Require Import Reals List Bool Lra Lia ZArith.
From Verif Require Import Num NumFacts Dilog LoopFun LoopSpec LoopProofs LoopProofs2 LoopProofs3 LoopDef LoopSym LoopProofs4.
Open Scope R_scope.

(** ** C24: the series used near equal masses *)
(** one argument near 1 *)
Theorem C24_window : forall x : R, Rabs (x - 1) <= 1/100 -> x <> 1 ->
  Rabs (F1 x - F1c x) <= 1/8 * Rabs (x - 1) ^ 5 /\
  Rabs (F2 x - F2c x) <= 3/5 * Rabs (x^2 - 1) ^ 5 /\
  Rabs (F3 x - F3c x) <= 1/20 * Rabs (x - 1) ^ 5 /\
  Rabs (F4 x - F4c x) <= 1/5 * Rabs (x - 1) ^ 5 /\
  Rabs (F5 x - F5c x) <= 1/5 * Rabs (x - 1) ^ 5.
Proof. intros x H H1. repeat split; [apply F1_window|apply F2_window|apply F3_window|apply F4_window|apply F5_window]; assumption. Qed.
Print Assumptions C24_window.
Theorem C24_window_minus1 : forall x : R, Rabs (x + 1) <= 1/100 -> x <> -1 -> Rabs (F5 x - F5c x) <= 1/5 * Rabs (x + 1) ^ 5.
Proof. exact F5_window_m1. Qed.
(** F6 and F7 switch on x^2; F6 is only accurate to fourth order *)
Theorem C24_window_F6_F7 : forall x : R, Rabs (x^2 - 1) <= 1/100 -> x^2 <> 1 ->
  Rabs (F6 x - F6c x) <= 1/10 * Rabs (x^2 - 1) ^ 4 /\
  Rabs (F7 x - F7c x) <= 1/5 * Rabs (x^2 - 1) ^ 5.
Proof. intros x H H1. split; [apply F6_window|apply F7_window]; assumption. Qed.
Print Assumptions C24_window_F6_F7.
(** f1..f4 switch on |r|, so both r near 1 and r near -1 are covered *)
Theorem C24_window_f : forall r : R, Rabs (Rabs r - 1) <= 1/100 -> r^2 <> 1 ->
  Rabs (f1 r - f1c r) <= 1/5 * Rabs (r^2 - 1) ^ 5 /\
  Rabs (f2 r - f2c r) <= 3/20 * Rabs (r^2 - 1) ^ 5 /\
  Rabs (f3 r - f3c r) <= 2/5 * Rabs (r^2 - 1) ^ 5 /\
  Rabs (f4 r - f4c r) <= 13/25 * Rabs (r^2 - 1) ^ 5.
Proof. intros r H H1. repeat split; [apply f1_window|apply f2_window|apply f3_window|apply f4_window]; assumption. Qed.
Print Assumptions C24_window_f.
(** at the point itself, where the closed forms are 0/0, the value is their limit, 1 *)
Theorem C24_at_1 :
  F1 1 = 1 /\ F2 1 = 1 /\ F3 1 = 1 /\ F4 1 = 1 /\ F5 1 = 1 /\ F6 1 = 0 /\ F7 1 = 1 /\
  f1 1 = 1 /\ f2 1 = 1 /\ f3 1 = 1 /\ f4 1 = 1 /\
  F8 1 1 = 1 /\ F9 1 1 = 1 /\ f5 1 1 = 1 /\ f6 1 1 = 1 /\ f7 1 1 = 1 /\ f8 1 1 = 1.
Proof. exact at_one. Qed.
(** two arguments, both near 1 (or -1) *)
Theorem C24_window_F8_F9 : forall x1 x2 : R,
  Rabs (Rabs x1 - 1) <= 1/100 -> Rabs (Rabs x2 - 1) <= 1/100 -> x1^2 <> 1 -> x2^2 <> 1 -> x1^2 <> x2^2 ->
  Rabs (F8 x1 x2 - F8c x1 x2) <= 1/4 * Rmax (Rabs (x1^2 - 1)) (Rabs (x2^2 - 1)) ^ 5 /\
  Rabs (F9 x1 x2 - F9c x1 x2) <= 2/5 * Rmax (Rabs (x1^2 - 1)) (Rabs (x2^2 - 1)) ^ 5.
Proof. intros. split; [apply F8_window|apply F9_window]; assumption. Qed.
Print Assumptions C24_window_F8_F9.
Theorem C24_window_f5_f8 : forall r1 r2 : R,
  Rabs (r1 - 1) <= 1/100 -> Rabs (r2 - 1) <= 1/100 -> r1 <> 1 -> r2 <> 1 -> r1 <> r2 ->
  Rabs (f5 r1 r2 - f5c r1 r2) <= 21/200 * Rmax (Rabs (r1 - 1)) (Rabs (r2 - 1)) ^ 5 /\
  Rabs (f8 r1 r2 - f8c r1 r2) <= 3/10 * Rmax (Rabs (r1 - 1)) (Rabs (r2 - 1)) ^ 5.
Proof.
  intros r1 r2 H1 H2 N1 N2 N. rewrite (f5_is_11 r1 r2 _ H1 H2 eq_refl), (f8_is_11 r1 r2 _ H1 H2 eq_refl).
  split; [apply f5_11_window|apply f8_11_window]; assumption.
Qed.
Theorem C24_window_f6_f7 : forall r1 r2 : R,
  Rabs (r1 - 1) <= 2/100 -> Rabs (r2 - 1) <= 2/100 -> r1 <> 1 -> r2 <> 1 -> r1 <> r2 ->
  Rabs (f6 r1 r2 - f6c r1 r2) <= 1/5 * Rmax (Rabs (r1 - 1)) (Rabs (r2 - 1)) ^ 5 /\
  Rabs (f7 r1 r2 - f7c r1 r2) <= 3/5 * Rmax (Rabs (r1 - 1)) (Rabs (r2 - 1)) ^ 5.
Proof.
  intros r1 r2 H1 H2 N1 N2 N. rewrite (f6_is_11 r1 r2 _ H1 H2 eq_refl), (f7_is_11 r1 r2 _ H1 H2 eq_refl).
  split; [apply f6_11_window|apply f7_11_window]; assumption.
Qed.
Print Assumptions C24_window_f6_f7.
(** both near -1; f8 is replaced by the constant -1 there, an error of second order *)
Theorem C24_window_minus1_f5_f8 : forall r1 r2 : R,
  Rabs (r1 + 1) <= 1/100 -> Rabs (r2 + 1) <= 1/100 -> r1 <> -1 -> r2 <> -1 -> r1 <> r2 ->
  Rabs (f5 r1 r2 - f5c r1 r2) <= 21/200 * Rmax (Rabs (r1 + 1)) (Rabs (r2 + 1)) ^ 5 /\
  Rabs (f8 r1 r2 - f8c r1 r2) <= Rmax (Rabs (r1 + 1)) (Rabs (r2 + 1)) ^ 2.
Proof.
  intros r1 r2 H1 H2 N1 N2 N. split; [|apply f8_m11_bound; assumption].
  rewrite (f5_is_m11 r1 r2 _ H1 H2 eq_refl). pose proof (f5_11_window (- r1) (- r2)) as W.
  rewrite !Ropp_m1, f5c_even in W. apply W; auto; lra.
Qed.
Theorem C24_window_minus1_f6_f7 : forall r1 r2 : R,
  Rabs (r1 + 1) <= 2/100 -> Rabs (r2 + 1) <= 2/100 -> r1 <> -1 -> r2 <> -1 -> r1 <> r2 ->
  Rabs (f6 r1 r2 - f6c r1 r2) <= 1/5 * Rmax (Rabs (r1 + 1)) (Rabs (r2 + 1)) ^ 5 /\
  Rabs (f7 r1 r2 - f7c r1 r2) <= 3/5 * Rmax (Rabs (r1 + 1)) (Rabs (r2 + 1)) ^ 5.
Proof.
  intros r1 r2 H1 H2 N1 N2 N. rewrite (f6_is_m11 r1 r2 _ H1 H2 eq_refl), (f7_is_m11 r1 r2 _ H1 H2 eq_refl). split.
  - pose proof (f6_11_window (- r1) (- r2)) as W. rewrite !Ropp_m1, f6c_even in W. apply W; auto; lra.
  - pose proof (f7_11_window (- r1) (- r2)) as W. rewrite !Ropp_m1, f7c_even in W. apply W; auto; lra.
Qed.
(** outside the windows the code evaluates the closed form itself *)
Theorem C24_outside : forall x : R, / 2^52 < x -> 1/100 < Rabs (x - 1) ->
  F1 x = F1c x /\ F2 x = F2c x /\ F3 x = F3c x /\ F4 x = F4c x /\ F5 x = F5c x /\
  (1/100 < Rabs (x^2 - 1) -> F6 x = F6c x /\ F7 x = F7c x).
Proof. exact outside1. Qed.
Print Assumptions C24_outside.
Theorem C24_outside_f : forall r : R, 1/100 < Rabs (Rabs r - 1) ->
  (1/100 <= Rabs r -> f1 r = f1c r /\ f2 r = f2c r) /\ (1/1000000 < Rabs r -> f3 r = f3c r /\ f4 r = f4c r).
Proof. intros r H. split; intros H'; split; [apply f1_exact|apply f2_exact|apply f3_exact|apply f4_exact]; assumption. Qed.
Theorem C24_outside_two : forall x1 x2 : R, 1/10000 < x1 -> 1/10000 < x2 ->
  2/100 < Rabs (x1 - 1) -> 2/100 < Rabs (x2 - 1) -> 1/10000 < Rabs (x1 - x2) ->
  F8 x1 x2 = F8c x1 x2 /\ F9 x1 x2 = F9c x1 x2 /\
  f5 x1 x2 = f5c x1 x2 /\ f6 x1 x2 = f6c x1 x2 /\ f7 x1 x2 = f7c x1 x2 /\ f8 x1 x2 = f8c x1 x2.
Proof. exact outside2. Qed.
Print Assumptions C24_outside_two.

(** Findings: (1) F6 is not accurate to the fifth order reached by all the others: the last coefficient of
    its series has the wrong sign; (2) F9 with one argument near 1 and the other at most 0.01 has an
    error of 1%: the term linear in x1^2-1 has the wrong sign. *)
Theorem C24_F6_refuted : forall C : R, exists x : R, Rabs (x^2 - 1) <= 1/100 /\ x^2 <> 1 /\ C * Rabs (x^2 - 1) ^ 5 < Rabs (F6 x - F6c x).
Proof. exact F6_not_order5. Qed.
Theorem C24_F9_refuted : exists x1 x2 : R, 0 < x1 /\ 0 < x2 /\ Rabs (x1 - 1) <= 1/100 /\ x2 <= 1/100 /\ 1/100 < F9 x1 x2 - F9c x1 x2.
Proof. exact F9_1_0_wrong. Qed.
Print Assumptions C24_F9_refuted.
(** the windows are inhabited *)
Example C24_example : Rabs (1005/1000 - 1) <= 1/100 /\ 1005/1000 <> 1 /\ Rabs (999/1000 - 1) <= 1/100 /\ 999/1000 <> 1005/1000 /\
  1/10000 < 3 /\ 2/100 < Rabs (3 - 1) /\ 2/100 < Rabs (1/2 - 1) /\ 1/10000 < Rabs (3 - 1/2).
Proof. repeat split; try lra; unfold Rabs; destruct Rcase_abs; lra. Qed.

(** ** C25: a real number for every positive ratio *)
Definition a_real (a : PR) : Prop := exists v : R, a = Some v.
Theorem C25_defined : forall x : R, 0 < x ->
  a_real (F1 (Some x : PR)) /\ a_real (F2 (Some x : PR)) /\ a_real (F3 (Some x : PR)) /\ a_real (F4 (Some x : PR)) /\
  a_real (F5 (Some x : PR)) /\ a_real (F6 (Some x : PR)) /\ a_real (F7 (Some x : PR)) /\
  a_real (f1 (Some x : PR)) /\ a_real (f2 (Some x : PR)) /\ a_real (f3 (Some x : PR)) /\ a_real (f4 (Some x : PR)).
Proof.
  intros x H. repeat split; [apply F1_def|apply F2_def|apply F3_def|apply F4_def|apply F5_def|apply F6_def|apply F7_def
    |apply f1_def|apply f2_def|apply f3_def|apply f4_def]; assumption.
Qed.
Print Assumptions C25_defined.
Theorem C25_defined_two : forall x1 x2 : R, 0 < x1 -> 0 < x2 ->
  a_real (F8 (Some x1 : PR) (Some x2)) /\ a_real (F9 (Some x1 : PR) (Some x2)) /\
  a_real (f5 (Some x1 : PR) (Some x2)) /\ a_real (f6 (Some x1 : PR) (Some x2)) /\
  a_real (f7 (Some x1 : PR) (Some x2)) /\ a_real (f8 (Some x1 : PR) (Some x2)).
Proof.
  intros x1 x2 H1 H2. repeat split; [apply F8_def|apply F9_def|apply f5_def|apply f6_def|apply f7_def|apply f8_def]; assumption.
Qed.
Print Assumptions C25_defined_two.
(** not so if a ratio is zero or negative (the class passes signed ratios mu/m): *)
Theorem C25_nonpositive_refuted :
  F8 (Some (1/1000000) : PR) (Some 0) = None /\ a_real (F8 (Some 0 : PR) (Some (1/1000000))) /\ f7 (Some (-1) : PR) (Some 2) = None.
Proof. destruct F8_zero_undef. split; [|split]; auto. apply f7_minus1_undef. Qed.
Print Assumptions C25_nonpositive_refuted.

(** ** C26: symmetry.  Exact outside the window where the two arguments are both tiny or nearly equal. *)
Theorem C26_symmetric_partial : forall x1 x2 : R,
  1/10000 < Rmax (Rabs x1) (Rabs x2) -> 1/10000 < Rabs (x1 - x2) ->
  (1/100000 < Rabs (Rabs x1 - Rabs x2) -> F8 x1 x2 = F8 x2 x1 /\ F9 x1 x2 = F9 x2 x1) /\
  f5 x1 x2 = f5 x2 x1 /\ f6 x1 x2 = f6 x2 x1 /\ f7 x1 x2 = f7 x2 x1 /\ f8 x1 x2 = f8 x2 x1.
Proof.
  intros x1 x2 H D. repeat split; intros; [apply F8_sym|apply F9_sym|apply f5_sym|apply f6_sym|apply f7_sym|apply f8_sym]; lra.
Qed.
Print Assumptions C26_symmetric_partial.
(** inside the window of two tiny arguments it fails *)
Theorem C26_symmetric_refuted : exists x1 x2 : R, 0 < x1 /\ 0 < x2 /\ F8 x1 x2 <> F8 x2 x1.
Proof. exact F8_tiny_asym. Qed.
Print Assumptions C26_symmetric_refuted.
Theorem C26_phi_symmetric : forall x y z : R,
  phi_xyz x y z = phi_xyz x z y /\ phi_xyz x y z = phi_xyz y x z /\ phi_xyz x y z = phi_xyz y z x /\
  phi_xyz x y z = phi_xyz z x y /\ phi_xyz x y z = phi_xyz z y x.
Proof. exact phi_sym. Qed.
Print Assumptions C26_phi_symmetric.
Example C26_example : 1/10000 < Rmax (Rabs 3) (Rabs 2) /\ 1/10000 < Rabs (3 - 2) /\ 1/100000 < Rabs (Rabs 3 - Rabs 2).
Proof. repeat split; unfold Rmax, Rabs; repeat destruct Rcase_abs; try destruct Rle_dec; lra. Qed.
