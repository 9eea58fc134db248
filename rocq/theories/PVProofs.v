(** * Passarino-Veltman functions: proofs *)
From Coq Require Import Reals QArith Qreals List Bool Lra Lia ZArith.
From Coquelicot Require Import Coquelicot.
From Verif Require Import Num NumFacts Taylor PV PVSpec.
Open Scope R_scope.

Lemma EPST : @EPSTOL R NumR = 1/1000000000000000.
Proof. unfold EPSTOL; unR. unfold Rdec. simpl Z.pow. lra. Qed.

(** ** integrals *)
Lemma B0_int_equal m q : 0 < m -> 0 < q -> B0_int 0 m m q = - ln (m / q).
Proof.
  intros. unfold B0_int. rewrite (RInt_ext _ (fun _ => ln (m / q))).
  - rewrite RInt_const. unfold scal; simpl. unfold mult; simpl. ring.
  - intros x _. f_equal. field. lra.
Qed.

Lemma RInt_deriv (f df : R -> R) a b : a <= b ->
  (forall x, a <= x <= b -> is_derive f x (df x)) -> (forall x, a <= x <= b -> continuous df x) ->
  RInt df a b = f b - f a.
Proof.
  intros H D C. apply is_RInt_unique. apply (is_RInt_derive f df); rewrite Rmin_left, Rmax_right by lra; auto.
Qed.

Lemma conv_pos m1 m2 x : 0 < m1 -> 0 < m2 -> 0 <= x <= 1 -> 0 < x * m1 + (1 - x) * m2.
Proof. intros. destruct (Rle_lt_dec x (1/2)); nra. Qed.

Lemma B0_int_zero m1 m2 q : 0 < m1 -> 0 < m2 -> m1 <> m2 -> 0 < q ->
  B0_int 0 m1 m2 q = 1 - ln (m2 / q) + m1 * ln (m2 / m1) / (m1 - m2).
Proof.
  intros H1 H2 N Q. unfold B0_int.
  set (y := fun x => x * m1 + (1 - x) * m2).
  rewrite (RInt_ext _ (fun x => ln (y x / q))) by (intros; f_equal; unfold y; field; lra).
  rewrite (RInt_deriv (fun x => y x * (ln (y x / q) - 1) / (m1 - m2))); [| lra | | ].
  - unfold y. replace (1 * m1 + (1 - 1) * m2) with m1 by ring. replace (0 * m1 + (1 - 0) * m2) with m2 by ring.
    rewrite !ln_div by lra. field. lra.
  - intros x Hx. pose proof (conv_pos m1 m2 x H1 H2 Hx). unfold y.
    auto_derive. { repeat split; auto; apply Rdiv_lt_0_compat; lra. } unfold Rdiv, Rminus in *. field. repeat split; lra.
  - intros x Hx. pose proof (conv_pos m1 m2 x H1 H2 Hx). unfold y.
    apply (ex_derive_continuous (fun x => ln ((x * m1 + (1 - x) * m2) / q))). auto_derive. apply Rdiv_lt_0_compat; lra.
Qed.

Lemma asin_form a : 0 < a -> a < 1 -> asin (sqrt a) = atan (/ sqrt (/ a - 1)).
Proof.
  intros H H1. assert (S : 0 < sqrt a) by (apply sqrt_lt_R0; auto).
  assert (SS : sqrt a * sqrt a = a) by (apply sqrt_sqrt; lra).
  assert (S1 : sqrt a < 1) by (rewrite <- sqrt_1; apply sqrt_lt_1; lra).
  rewrite asin_atan by lra. f_equal. unfold Rsqr. rewrite SS.
  replace (/ a - 1) with ((1 - a) / a) by (field; lra). rewrite sqrt_div by lra. field.
  split; apply Rgt_not_eq, sqrt_lt_R0; lra.
Qed.

Lemma B0_int_xx p m q : 0 < p -> p < 4 * m -> 0 < q ->
  B0_int p m m q = 2 - ln (m / q) - 2 * sqrt (4 * m / p - 1) * asin (sqrt (p / (4 * m))).
Proof.
  intros Hp Hm Q. assert (0 < m) by lra. unfold B0_int.
  set (c := sqrt (4 * m / p - 1)).
  assert (Cp : 0 < 4 * m / p - 1). { apply Rlt_Rminus. apply Rmult_lt_reg_r with p; [lra|]. field_simplify; lra. }
  assert (C0 : 0 < c) by (apply sqrt_lt_R0; auto).
  assert (CC : c * c = 4 * m / p - 1) by (apply sqrt_sqrt; lra).
  assert (CM : p * c * c = 4 * m - p). { rewrite Rmult_assoc, CC. field. lra. }
  set (Qf := fun x => x * m + (1 - x) * m - x * (1 - x) * p).
  assert (QP : forall x, 4 * Qf x = p * ((2*x - 1)^2 + c * c)).
  { intros x. unfold Qf. rewrite Rmult_plus_distr_l, <- Rmult_assoc, CM. ring. }
  assert (QQ : forall x, 0 < Qf x). { intros x. specialize (QP x). pose proof (pow2_ge_0 (2*x-1)). assert (0 < p * ((2*x-1)^2 + c*c)) by (apply Rmult_lt_0_compat; nra). lra. }
  rewrite (RInt_deriv (fun x => (x - 1/2) * ln (Qf x / q) - 2 * x + c * atan ((2 * x - 1) / c))); [| lra | | ].
  - replace ((2 * 1 - 1) / c) with (/ c) by (field; lra). replace ((2 * 0 - 1) / c) with (- / c) by (field; lra).
    rewrite atan_opp. unfold Qf. replace (1 * m + (1 - 1) * m - 1 * (1 - 1) * p) with m by ring.
    replace (0 * m + (1 - 0) * m - 0 * (1 - 0) * p) with m by ring.
    rewrite asin_form; [| apply Rdiv_lt_0_compat; lra | apply Rmult_lt_reg_r with (4 * m); [lra|]; field_simplify; lra].
    replace (/ (p / (4 * m)) - 1) with (4 * m / p - 1) by (field; lra). fold c. ring.
  - intros x Hx. specialize (QP x). pose proof (QQ x) as QX.
    assert (D : ((2 * x - 1)^2 + c * c) <> 0). { pose proof (pow2_ge_0 (2*x-1)). nra. }
    unfold Qf in *. auto_derive.
    { repeat split; auto. fold (Rminus 1 x). apply Rdiv_lt_0_compat; lra. }
    unfold Rdiv, Rminus in *.
    set (L := ln _). clearbody L. clearbody c.
    replace (x * m + (1 + - x) * m + - (x * (1 + - x) * p)) with (p * ((2 * x + - (1)) ^ 2 + c * c) * / 4) by lra.
    field. repeat split; try lra.
  - intros x Hx. apply (ex_derive_continuous (fun x => ln (Qf x / q))). unfold Qf. auto_derive. apply Rdiv_lt_0_compat; [exact (QQ x)|exact Q].
Qed.

Lemma dB0_int_gen m1 m2 : 0 < m1 -> 0 < m2 -> m1 <> m2 ->
  dB0_int m1 m2 = ((m1 - m2) * (m1 + m2) + 2 * m1 * m2 * ln (m2 / m1)) / (2 * (m1 - m2)^3).
Proof.
  intros H1 H2 N. unfold dB0_int. set (d := m1 - m2). assert (d <> 0) by (unfold d; lra).
  set (y := fun x => x * m1 + (1 - x) * m2).
  (* x = (y - m2)/d, 1 - x = (m1 - y)/d *)
  rewrite (RInt_deriv (fun x => (- (y x)^2 / 2 + (m1 + m2) * y x - m1 * m2 * ln (y x)) / d^3)); [| lra | | ].
  - unfold y. replace (1 * m1 + (1 - 1) * m2) with m1 by ring. replace (0 * m1 + (1 - 0) * m2) with m2 by ring.
    rewrite !ln_div by lra. unfold d in *. field. lra.
  - intros x Hx. pose proof (conv_pos m1 m2 x H1 H2 Hx). unfold y, d in *.
    auto_derive. { repeat split; auto. } field. repeat split; lra.
  - intros x Hx. pose proof (conv_pos m1 m2 x H1 H2 Hx). unfold y.
    apply (ex_derive_continuous (fun x => x * (1 - x) / (x * m1 + (1 - x) * m2))). auto_derive. lra.
Qed.
Lemma dB0_int_equal m : 0 < m -> dB0_int m m = / (6 * m).
Proof.
  intros H. unfold dB0_int.
  rewrite (RInt_ext _ (fun x => (x - x^2) / m)) by (intros x _; match goal with |- ?a = ?b => change (@eq R a b) end; field; lra).
  rewrite (RInt_deriv (fun x => (x^2/2 - x^3/3) / m)); [field; lra|lra| |].
  - intros x _. auto_derive; auto. field. lra.
  - intros x _. apply (ex_derive_continuous (fun x => (x - x^2)/m)). auto_derive. auto.
Qed.
