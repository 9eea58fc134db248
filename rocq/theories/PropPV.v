(** * Property theorems C29 (one-loop integrals, source/himalaya/mh2_fo/PV.cpp)

    [a0], [b0], [d1_b0] are the model (PV.v) read over the real numbers; the right-hand sides are the
    Feynman-parameter integrals of PVSpec.v.  [IRfree] says that the arguments are not all below 1e-15 of the
    renormalization scale (where the code deliberately returns 0). *)
From Coq Require Import Reals List Bool Lra Lia ZArith.
From Coquelicot Require Import Coquelicot.
From Verif Require Import Num NumFacts PV PVSpec PVProofs PVProofs2 PVProofs3 PVProofs4 PVProofs5.
Open Scope R_scope.

(** exchange of the two lines of the loop, and sign of the squared arguments: every real input *)
Theorem C29_symmetric : forall p m1 m2 q : R, b0 p m1 m2 q = b0 p m2 m1 q.
Proof. exact b0_sym. Qed.
Print Assumptions C29_symmetric.
Theorem C29_abs : forall p m1 m2 q : R, b0 p m1 m2 q = b0 (Rabs p) (Rabs m1) (Rabs m2) (Rabs q).
Proof. exact b0_abs. Qed.

(** scale dependence: B0 depends on the scale only through + ln q, A0 through m ln q *)
Theorem C29_scale : forall p m1 m2 q q' : R, 0 < q -> 0 < q' -> IRfree p m1 m2 q -> IRfree p m1 m2 q' ->
  b0 p m1 m2 q - b0 p m1 m2 q' = ln (q / q').
Proof. intros p m1 m2 q q' H H' I I'. rewrite (b0_scale p m1 m2 q q') by auto. rewrite lndiv by auto. reflexivity. Qed.
Print Assumptions C29_scale.
Theorem C29_scale_a0 : forall m q q' : R, 1/1000000000000000 <= Rabs m -> 0 < q -> 0 < q' -> a0 m q - a0 m q' = Rabs m * ln (q / q').
Proof.
  intros m q q' Hm H H'. rewrite a0_scale by auto. destruct (Rlt_dec _ _); [lra|]. rewrite lndiv by auto. reflexivity.
Qed.
Example C29_scale_instance : IRfree 1 2 3 1 /\ IRfree 1 2 3 100.
Proof. split; left; rewrite Rabs_pos_eq; lra. Qed.

(** zero momentum, every pair of positive masses (the branches for tiny and for almost equal masses included) *)
Theorem C29_zero_momentum : forall m1 m2 q : R, 0 < m1 -> 0 < m2 -> 0 < q -> 2/1000000000000000 * q <= Rmax m1 m2 ->
  Rabs (b0 0 m1 m2 q - B0_int 0 m1 m2 q) <= 4/1000000000000.
Proof. exact b0_zero_momentum. Qed.
Print Assumptions C29_zero_momentum.

(** equal masses, every momentum *)
Lemma b0_xx (p m q : R) : 0 < m -> 0 <= p -> 0 < q -> 1/1000000000000000 * q <= m -> b0 p m m q = b0xx p m q.
Proof.
  intros Hm Hp Hq N. unfold b0; cbv zeta; unR. rewrite EPST, !(Rabs_pos_eq p), !(Rabs_pos_eq m), !(Rabs_pos_eq q) by lra.
  rewrite (Rltb_false m (_ * q)) by lra. rewrite !andb_false_r, (Rltb_false m m) by lra. cbv iota beta.
  rewrite Rltb_true by lra. reflexivity.
Qed.
Theorem C29_equal_masses : forall p m q : R, 0 < m -> 0 < q -> 1/1000000000000000 * q <= m ->
  (0 < p < 1/1000 * m -> Rabs (b0 p m m q - B0_int p m m q) <= 1/1000 * (p / m) ^ 8) /\
  (1/1000 * m <= p < 4 * m -> b0 p m m q = B0_int p m m q) /\
  (p = 4 * m -> b0 p m m q = 2 - ln (m / q)) /\
  (4 * m < p < 100 * m -> b0 p m m q = B0_above p m q) /\
  (100 * m <= p -> Rabs (b0 p m m q - B0_above p m q) <= 10/1000000000000).
Proof.
  intros p m q Hm Hq N. repeat split; intros H.
  - rewrite b0_xx by lra. apply xx_small_bound; lra.
  - rewrite b0_xx by lra. apply xx_mid_exact; lra.
  - rewrite b0_xx by lra. apply xx_threshold; lra.
  - rewrite b0_xx by lra. apply xx_above; lra.
  - rewrite b0_xx by lra. apply xx_far; lra.
Qed.
Print Assumptions C29_equal_masses.

(** derivative at zero momentum *)
Theorem C29_derivative : forall m1 m2 : R, 0 < m1 -> 0 < m2 -> 1/1000000000000000 <= Rmax m1 m2 ->
  Rabs (d1_b0 m1 m2 - dB0_int m1 m2) <= 4/1000000000 / m1.
Proof. exact d1_b0_ok. Qed.
Print Assumptions C29_derivative.
(** the integral is symmetric, so the (asymmetric) code is symmetric up to the truncation error *)
Lemma dB0_int_sym m1 m2 : 0 < m1 -> 0 < m2 -> dB0_int m1 m2 = dB0_int m2 m1.
Proof.
  intros H1 H2. destruct (Req_dec m1 m2) as [<-|N]; [reflexivity|].
  rewrite !dB0_int_gen by auto. rewrite !lndiv by auto. field. split; lra.
Qed.
Theorem C29_derivative_symmetric : forall m1 m2 : R, 0 < m1 -> 0 < m2 -> 1/1000000000000000 <= Rmax m1 m2 ->
  Rabs (d1_b0 m1 m2 - d1_b0 m2 m1) <= 4/1000000000 / m1 + 4/1000000000 / m2.
Proof.
  intros m1 m2 H1 H2 HM. pose proof (d1_b0_ok m1 m2 H1 H2 HM) as A. rewrite Rmax_comm in HM. pose proof (d1_b0_ok m2 m1 H2 H1 HM) as B.
  rewrite (dB0_int_sym m2 m1) in B by auto.
  replace (d1_b0 m1 m2 - d1_b0 m2 m1) with ((d1_b0 m1 m2 - dB0_int m1 m2) + - (d1_b0 m2 m1 - dB0_int m1 m2)) by ring.
  eapply Rle_trans; [apply Rabs_triang|]. rewrite Rabs_Ropp. lra.
Qed.

(** one massless line: B0_massless is the value of the (improper) integral ... *)
Theorem C29_massless_reference : forall p m q : R, 0 < p -> p < m -> 0 < q ->
  filterlim (fun e => - RInt (fun x => ln ((x * 0 + (1 - x) * m - x * (1 - x) * p) / q)) 0 (1 - e)) (at_right 0) (locally (B0_massless p m q)).
Proof. exact B0_massless_limit. Qed.
Print Assumptions C29_massless_reference.
(** ... and the code misses it for every momentum below the threshold, without bound for p -> 0:
    PV.cpp:162 divides by p2 inside the logarithm where m22 is needed *)
Theorem C29_massless_refuted : forall p m q : R, 0 < p -> p < m -> 0 < q -> 2/1000000000000000 * q <= m ->
  b0 p 0 m q - B0_massless p m q >= (m - p) / p * ln (m / p).
Proof. intros p m q H1 H2 H3 H4. apply Rle_ge, b0_massless_off; auto. Qed.
Print Assumptions C29_massless_refuted.
Corollary C29_massless_refuted_instance : b0 1 0 2 1 - B0_massless 1 2 1 >= 1/2.
Proof.
  pose proof (C29_massless_refuted 1 2 1 ltac:(lra) ltac:(lra) ltac:(lra) ltac:(lra)) as H.
  replace ((2 - 1) / 1 * ln (2 / 1)) with (ln 2) in H by (replace (2/1) with 2 by lra; lra). pose proof ln_lt_2. lra.
Qed.
(** no continuity at zero momentum: b0(0,0,m,q) = 1 - ln(m/q), yet b0(p,0,m,q) exceeds every bound for small p *)
Theorem C29_massless_unbounded : forall m q K : R, 0 < m -> 0 < q -> 2/1000000000000000 * q <= m ->
  exists d, 0 < d /\ forall p, 0 < p < d -> b0 p 0 m q > K.
Proof.
  intros m q K Hm Hq N. set (c := Rmax 0 (K + ln (m / q))).
  assert (C0 : 0 <= c) by apply Rmax_l. assert (C1 : K + ln (m / q) <= c) by apply Rmax_r.
  exists (m / (2 * (c + 3))). split; [apply Rdiv_lt_0_compat; lra|]. intros p [P1 P2].
  assert (P3 : p * (2 * (c + 3)) < m). { apply Rmult_lt_compat_r with (r := 2 * (c + 3)) in P2; [|lra]. replace (m / (2 * (c + 3)) * (2 * (c + 3))) with m in P2 by (field; lra). exact P2. }
  assert (PM : p < m / 6) by nra.
  rewrite b0_massless_code by lra. set (h := sqrt _).
  assert (Hh : m / 2 <= h). { unfold h. rewrite <- (sqrt_pow2 (m / 2)) at 1 by lra. apply sqrt_le_1; try nra; pose proof (pow2_ge_0 (m / 1000000000000000)); nra. }
  assert (E : exp 1 <= h / p).
  { apply Rle_trans with 3; [exact exp_le_3|]. apply Rmult_le_reg_r with p; auto. replace (h / p * p) with h by (field; lra). lra. }
  assert (L : 1 <= ln (h / p)). { rewrite <- (ln_exp 1). apply ln_le; [apply exp_pos|exact E]. }
  assert (F : c + 1 <= (m - p) / p). { apply Rmult_le_reg_r with p; auto. replace ((m - p) / p * p) with (m - p) by (field; lra). nra. }
  nra.
Qed.
Print Assumptions C29_massless_unbounded.
Theorem C29_massless_zero_momentum : forall m q : R, 0 < m -> 0 < q -> 2/1000000000000000 * q <= m -> b0 0 0 m q = 1 - ln (m / q).
Proof.
  intros m q Hm Hq NIR. rewrite b0_is_tail; auto.
  2:{ right. rewrite Rabs_R0, (Rabs_pos_eq m) by lra. eapply Rle_trans; [exact NIR|apply Rmax_r]. }
  rewrite Rabs_R0, (Rabs_pos_eq m), Rmin_left, Rmax_right by lra.
  unfold b0tail. rewrite Rltb_false by lra. rewrite Rleb_true by lra. rewrite Rltb_true by lra. reflexivity.
Qed.
