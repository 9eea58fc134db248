(** * Passarino-Veltman functions: the code *)
From Coq Require Import Reals QArith Qreals List Bool Lra Lia ZArith.
From Coquelicot Require Import Coquelicot.
From Verif Require Import Num NumFacts Taylor PV PVSpec PVProofs.
Open Scope R_scope.

Ltac dR := match goal with
  | |- context [Rltb ?a ?b] => destruct (Rltb_spec a b)
  | |- context [Rleb ?a ?b] => destruct (Rleb_spec a b)
  end; cbn [andb xorb]; cbv iota.

(** away from the infrared cut-off of b0 *)
Definition IRfree (p m1 m2 q : R) : Prop :=
  1/1000000000000000 * q <= Rabs p \/ 2/1000000000000000 * q <= Rmax (Rabs m1) (Rabs m2).
Lemma Rltb_true_iff a b : Rltb a b = true <-> a < b.
Proof. destruct (Rltb_spec a b); split; intros; auto; try discriminate; lra. Qed.

Lemma b0_sym (p m1 m2 q : R) : b0 p m1 m2 q = b0 p m2 m1 q.
Proof.
  unfold b0; cbv zeta; unR. rewrite EPST.
  set (a := Rabs m1). set (b := Rabs m2).
  assert (E : (if Rltb b a then (b, a) else (a, b)) = (if Rltb a b then (a, b) else (b, a))).
  { destruct (Rltb_spec b a), (Rltb_spec a b); try reflexivity; try lra. assert (a = b) by lra. congruence. }
  rewrite E. rewrite <- !andb_assoc. rewrite (andb_comm (Rltb a _)). reflexivity.
Qed.

Lemma b0_abs (p m1 m2 q : R) : b0 p m1 m2 q = b0 (Rabs p) (Rabs m1) (Rabs m2) (Rabs q).
Proof. unfold b0; cbv zeta; unR. rewrite !Rabs_Rabsolu. reflexivity. Qed.

Lemma lndiv a b : 0 < a -> 0 < b -> ln (a / b) = ln a - ln b. Proof. apply ln_div. Qed.
Lemma div0 x : 0 / x = 0. Proof. unfold Rdiv. ring. Qed.

(** b0xx for non-negative arguments *)
Lemma b0xx_scale (p m q q' : R) : 0 <= p -> 0 <= m -> 0 < q -> 0 < q' ->
  ~ (p < 1/1000000000000000 * q /\ m < 1/1000000000000000 * q) -> ~ (p < 1/1000000000000000 * q' /\ m < 1/1000000000000000 * q') ->
  b0xx p m q - b0xx p m q' = ln q - ln q'.
Proof.
  intros Hp Hm Hq Hq' N N'. unfold b0xx; cbv zeta; unR. rewrite !EPST, !(Rabs_pos_eq p), !(Rabs_pos_eq m), !(Rabs_pos_eq q), !(Rabs_pos_eq q') by lra.
  repeat (dR; try (exfalso; tauto)); try (exfalso; apply N; split; assumption); try (exfalso; apply N'; split; assumption).
  all: unfold Rdec in *; simpl Z.pow in *.
  all: assert (0 < m \/ m = 0) as [M|M] by lra; [rewrite ?(lndiv m) by lra|subst m].
  all: try (assert (0 < p) by (destruct (Req_dec p 0); [subst p; exfalso; apply N; lra|lra])); rewrite ?(lndiv p) by lra; try lra.
Qed.


Definition b0tail (p a b q : R) : R :=
  if Rltb b (a * (1 + 1/1000000000000000)) then b0xx p a q else if Rleb p (Rdec 1 11 * a) then
    if Rltb a (1/1000000000000000 * b) then 1 - ln (b / q) else 1 - ln (b / q) + a * ln (b / a) / (a - b)
  else if Rltb a (1/1000000000000000 * (1/1000000000000000) * b)
    then 2 - ln (b / q) + (b - p) / p * ln (hypot (b - p) (1/1000000000000000 * b) / p)
    else let '(fp, fm) := b0_fB p a b in - ln (p / q) - fp - fm.
Lemma b0_is_tail (p m1 m2 q : R) : 0 < q -> IRfree p m1 m2 q ->
  b0 p m1 m2 q = b0tail (Rabs p) (Rmin (Rabs m1) (Rabs m2)) (Rmax (Rabs m1) (Rabs m2)) q.
Proof.
  intros Hq N. unfold b0, IRfree in *; cbv zeta; unR. rewrite !EPST, !(Rabs_pos_eq q) by lra.
  destruct (_ && _ && _)%bool eqn:B.
  { exfalso. rewrite !andb_true_iff, !Rltb_true_iff in B. destruct B as [[B1 B2] B3].
    destruct N as [N|N]; [lra|]. assert (Rmax (Rabs m1) (Rabs m2) < 2/1000000000000000 * q) by (apply Rmax_lub_lt; lra). lra. }
  unfold b0tail. destruct (Rltb_spec (Rabs m2) (Rabs m1)).
  - rewrite Rmin_right, Rmax_left by lra. reflexivity.
  - rewrite Rmin_left, Rmax_right by lra. reflexivity.
Qed.
Lemma b0tail_scale p a b q q' : 0 < q -> 0 < q' -> 0 <= p -> 0 <= a -> a <= b ->
  1/1000000000000000 * q <= p \/ 2/1000000000000000 * q <= b -> 1/1000000000000000 * q' <= p \/ 2/1000000000000000 * q' <= b ->
  b0tail p a b q - b0tail p a b q' = ln q - ln q'.
Proof.
  intros Hq Hq' Hp Ha Hab M M'. unfold b0tail. dR.
  - apply b0xx_scale; auto; lra.
  - destruct (Rleb_spec p (Rdec 1 11 * a)); [|dR].
    + assert (0 < b). { destruct (Req_dec b 0); [exfalso|lra]. subst b. assert (a = 0) by lra. subst a. unfold Rdec in *. simpl Z.pow in *. lra. }
      dR; rewrite (lndiv b q), (lndiv b q') by assumption; ring.
    + assert (0 < b) by lra. rewrite (lndiv b q), (lndiv b q') by assumption. ring.
    + destruct (b0_fB p a b). assert (0 < p). { unfold Rdec in *. simpl Z.pow in *. lra. } rewrite !(lndiv p) by lra. lra.
Qed.
Lemma b0_scale (p m1 m2 q q' : R) : 0 < q -> 0 < q' -> IRfree p m1 m2 q -> IRfree p m1 m2 q' ->
  b0 p m1 m2 q - b0 p m1 m2 q' = ln q - ln q'.
Proof.
  intros Hq Hq' N N'. rewrite !b0_is_tail by auto. apply b0tail_scale; auto using Rabs_pos.
  - apply Rmin_glb; apply Rabs_pos.
  - apply Rle_trans with (Rabs m1); [apply Rmin_l|apply Rmax_l].
Qed.
Lemma a0_scale (m q q' : R) : 0 < q -> 0 < q' -> a0 m q - a0 m q' = (if Rlt_dec (Rabs m) (1/1000000000000000) then 0 else Rabs m * (ln q - ln q')).
Proof.
  intros. unfold a0; cbv zeta; unR. rewrite EPST. unfold Rltb. destruct (Rlt_dec (Rabs m) _); [lra|].
  rewrite !lndiv by lra. lra.
Qed.

(** ** p^2 = 0 *)
Lemma B0_int_sym m1 m2 q : 0 < m1 -> 0 < m2 -> 0 < q -> B0_int 0 m1 m2 q = B0_int 0 m2 m1 q.
Proof.
  intros H1 H2 Q. destruct (Req_dec m1 m2) as [->|N]; [reflexivity|].
  rewrite !B0_int_zero by auto. rewrite !lndiv by lra. field. lra.
Qed.

(** -t ln t <= 8 t^(7/8) *)
Lemma tlnt t : 0 < t -> t <= 2/1000000000000000 -> Rabs (t * ln t) <= 2/1000000000000.
Proof.
  intros H H1.
  assert (Hl : ln t < 0). { rewrite <- ln_1. apply ln_increasing; lra. }
  rewrite Rabs_left by nra.
  (* -ln t = -8 ln (t^(1/8)) <= 8 / t^(1/8) *)
  set (u := sqrt (sqrt (sqrt t))).
  assert (S1 : 0 < sqrt t) by (apply sqrt_lt_R0; auto). assert (S2 : 0 < sqrt (sqrt t)) by (apply sqrt_lt_R0; auto).
  assert (U : 0 < u) by (apply sqrt_lt_R0; auto).
  assert (U8 : u ^ 8 = t).
  { replace (u ^ 8) with (((u * u) * (u * u)) * ((u * u) * (u * u))) by ring. unfold u. rewrite !sqrt_sqrt by lra. reflexivity. }
  assert (LT : ln t = 8 * ln u). { rewrite <- U8. replace (u^8) with (u*u*u*u*u*u*u*u) by ring. rewrite !ln_mult; repeat apply Rmult_lt_0_compat; auto. ring. }
  assert (LU : - ln u <= / u). { rewrite <- ln_Rinv by auto. pose proof (exp_ineq1_le (ln (/ u))). rewrite exp_ln in H0 by (apply Rinv_0_lt_compat; auto). lra. }
  (* u^8 <= 1e-15, so u^7 <= (1e-15)^(7/8) < 1.25e-13 *)
  assert (U2 : u <= 1/68).
  { destruct (Rle_lt_dec u (1/68)) as [L|L]; auto. exfalso.
    assert ((1/68)^8 <= u^8) by (apply pow_incr; lra). lra. }
  assert (U7 : u ^ 7 <= 2/8000000000000).
  { apply Rle_trans with ((1/68)^7); [apply pow_incr; lra|lra]. }
  rewrite LT. replace (- (t * (8 * ln u))) with (8 * (t * - ln u)) by ring.
  apply Rle_trans with (8 * (t * / u)). { apply Rmult_le_compat_l; [lra|]. apply Rmult_le_compat_l; lra. }
  replace (t * / u) with (u ^ 7). { lra. } rewrite <- U8. field. lra.
Qed.

Lemma b0_zero_momentum (m1 m2 q : R) : 0 < m1 -> 0 < m2 -> 0 < q -> 2/1000000000000000 * q <= Rmax m1 m2 ->
  Rabs (b0 0 m1 m2 q - B0_int 0 m1 m2 q) <= 4/1000000000000.
Proof.
  intros H1 H2 Hq HM.
  assert (W : forall a b, 0 < a -> a <= b -> 2/1000000000000000 * q <= b -> Rabs (b0tail 0 a b q - B0_int 0 a b q) <= 4/1000000000000).
  { intros a b Ha Hab Hb. unfold b0tail. dR.
    - (* nearly equal *)
      assert (E : b0xx 0 a q = - ln (a / q)).
      { unfold b0xx; cbv zeta; unR. rewrite EPST, Rabs_R0, !(Rabs_pos_eq a), !(Rabs_pos_eq q) by lra.
        rewrite (Rltb_false a) by lra. rewrite andb_false_r. rewrite Rltb_true by (unfold Rdec; simpl Z.pow; lra).
        rewrite !div0. ring. }
      rewrite E. destruct (Req_dec a b) as [<-|N]; [rewrite B0_int_equal by auto; replace (- ln (a/q) - - ln (a/q)) with 0 by ring; rewrite Rabs_R0; lra|].
      rewrite B0_int_zero by lra.
      (* 0 <= ln (b/a) <= (b-a)/a *)
      set (x := ln (b / a)).
      assert (X : x = ln b - ln a) by (apply lndiv; lra).
      assert (X1 : x <= b / a - 1). { pose proof (exp_ineq1_le x) as K. unfold x in K. rewrite exp_ln in K by (apply Rdiv_lt_0_compat; lra). unfold x. lra. }
      assert (X2 : 1 - a / b <= x).
      { pose proof (exp_ineq1_le (ln (a / b))) as K. rewrite exp_ln in K by (apply Rdiv_lt_0_compat; lra). rewrite lndiv in K by lra. lra. }
      assert (BA : b / a - 1 <= 1/1000000000000000). { apply Rmult_le_reg_r with a; [lra|]. field_simplify; lra. }
      assert (Q1 : a * (1 - a / b) <= a * x) by (apply Rmult_le_compat_l; lra).
      assert (Q2 : a * x <= b - a). { replace (b - a) with (a * (b / a - 1)) by (field; lra). apply Rmult_le_compat_l; lra. }
      assert (Y : a / b <= a * x / (b - a) <= 1).
      { assert (0 < b - a) by lra. split.
        - apply Rmult_le_reg_r with (b - a); auto. replace (a * x / (b - a) * (b - a)) with (a * x) by (field; lra).
          replace (a / b * (b - a)) with (a * (1 - a / b)) by (field; lra). auto.
        - apply Rmult_le_reg_r with (b - a); auto. replace (a * x / (b - a) * (b - a)) with (a * x) by (field; lra). lra. }
      assert (AB : 1 - 1/1000000000000000 <= a / b). { apply Rmult_le_reg_r with b; [lra|]. replace (a / b * b) with a by (field; lra). lra. }
      replace (a * x / (a - b)) with (- (a * x / (b - a))) by (field; lra).
      rewrite !lndiv by lra. apply Rabs_le. lra.
    - rewrite Rleb_true by (unfold Rdec; simpl Z.pow; lra). dR.
      + (* one mass negligible *)
        rewrite B0_int_zero by lra. set (t := a / b).
        assert (T : 0 < t) by (apply Rdiv_lt_0_compat; lra).
        assert (T1 : t <= 1/1000000000000000). { apply Rmult_le_reg_r with b; [lra|]. unfold t. replace (a / b * b) with a by (field; lra). lra. }
        assert (T2 := tlnt t T ltac:(lra)).
        replace (1 - ln (b / q) - (1 - ln (b / q) + a * ln (b / a) / (a - b))) with (- (t * ln t) / (1 - t)).
        2:{ unfold t. rewrite !lndiv by lra. field. lra. }
        unfold Rdiv. rewrite Rabs_mult, Rabs_Ropp, (Rabs_pos_eq (/ (1 - t))) by (left; apply Rinv_0_lt_compat; lra).
        apply Rle_trans with (2/1000000000000 * 2); [|lra]. apply Rmult_le_compat; auto using Rabs_pos.
        { left; apply Rinv_0_lt_compat; lra. }
        replace 2 with (/ (1/2)) by field. apply Rinv_le_contravar; lra.
      + rewrite B0_int_zero by lra. match goal with |- Rabs ?e <= _ => replace e with 0 by ring end. rewrite Rabs_R0. lra. }
  rewrite b0_is_tail; auto.
  2:{ right. rewrite !Rabs_pos_eq by lra. exact HM. }
  rewrite Rabs_R0, !(Rabs_pos_eq m1), !(Rabs_pos_eq m2) by lra.
  destruct (Rle_lt_dec m1 m2).
  - rewrite Rmin_left, Rmax_right in * by lra. apply W; lra.
  - rewrite Rmin_right, Rmax_left in * by lra. rewrite (B0_int_sym m1 m2) by auto. apply W; lra.
Qed.
