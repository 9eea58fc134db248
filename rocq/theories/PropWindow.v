(** * C77-C79: the expansions used next to the singular lines of the two-argument loop functions *)
From Coq Require Import Reals ZArith List Bool Lra Lia.
From Verif Require Import Num NumFacts LoopFun LoopSpec LoopProofs LoopProofs4 WindowTab WindowProofs WindowProofs2 WindowProofs3.
Import ListNotations.
Open Scope R_scope.

(** Values that are neither small nor close to 1 in modulus *)
Definition ordinary (M r : R) : Prop := 1 / 1000 <= Rabs r <= M /\ 2 / 100 < Rabs (Rabs r - 1).

Lemma far1 r e : e < Rabs (Rabs r - 1) -> e < Rabs (r - 1) /\ e < Rabs (r + 1) /\ e < Rabs (r - Ropp 1).
Proof.
  intros H. assert (A : Rabs (Rabs r - 1) <= Rabs (r - 1)) by (pose proof (Rabs_triang_inv2 r 1); rewrite Rabs_R1 in *; lra).
  assert (B : Rabs (Rabs r - 1) <= Rabs (r - Ropp 1)) by (pose proof (Rabs_triang_inv2 r (Ropp 1)); rewrite Rabs_Ropp, Rabs_R1 in *; lra).
  replace (r + 1) with (r - Ropp 1) by ring. lra.
Qed.
Ltac dc := unR; unfold Rdec; simpl Z.pow.
Ltac zF := match goal with |- context [is_zero ?a ?p] => rewrite (is_zeroR_false a p) by (rewrite ?eps_defaultR; dc; lra) end.
Ltac eF := match goal with |- context [is_equal ?a ?b ?p] => rewrite (is_equalR_false a b p) by (dc; lra) end.
Ltac eT := match goal with |- context [is_equal ?a ?b ?p] => rewrite (is_equalR_true a b p) by (dc; lra) end.
Ltac zT := match goal with |- context [is_zero ?a ?p] => rewrite (is_zeroR_true a p) by (dc; lra) end.
Ltac nxt := first [zF | eF]; rewrite ?andb_false_r; cbn [andb]; cbv iota.


(** the closed forms are symmetric *)
Lemma F8c_sym a b : a * a <> b * b -> F8c a b = F8c b a.
Proof. intros H. unfold F8c. set (A := a ^ 4 / (a ^ 2 - 1) * ln (a ^ 2)). set (B := b ^ 4 / (b ^ 2 - 1) * ln (b ^ 2)). field. split; intros X; apply H; lra. Qed.
Lemma F9c_sym a b : a * a <> b * b -> F9c a b = F9c b a.
Proof. intros H. unfold F9c. set (A := a ^ 2 / (a ^ 2 - 1) * ln (a ^ 2)). set (B := b ^ 2 / (b ^ 2 - 1) * ln (b ^ 2)). field. split; intros X; apply H; lra. Qed.
Section Sym.
  Variables a b : R.
  Hypothesis H : a <> b. Hypothesis Ha : a ^ 2 - 1 <> 0. Hypothesis Hb : b ^ 2 - 1 <> 0.
  Ltac sy := set (A := ln (a ^ 2)); set (B := ln (b ^ 2)); field; repeat split; first [assumption | intros X; apply H; lra].
  Lemma f5c_sym : f5c a b = f5c b a. Proof. unfold f5c. sy. Qed.
  Lemma f6c_sym : f6c a b = f6c b a. Proof. unfold f6c. sy. Qed.
  Lemma f7c_sym : f7c a b = f7c b a. Proof. unfold f7c. sy. Qed.
  Lemma f8c_sym : f8c a b = f8c b a. Proof. unfold f8c. sy. Qed.
End Sym.
Lemma sq_ne1 r : 0 < Rabs (Rabs r - 1) -> r ^ 2 - 1 <> 0.
Proof.
  intros H E. assert (Rabs r * Rabs r = 1) by (rewrite Rabs_sq; lra). assert (Rabs r = 1) by (pose proof (Rabs_pos r); nra). rewrite H1 in H. replace (1 - 1) with 0 in H by ring. rewrite Rabs_R0 in H. lra.
Qed.

(** which branch is taken *)
Section Equal.
  Variables (M r1 r2 : R).
  Hypothesis O1 : ordinary M r1. Hypothesis O2 : ordinary M r2.
  Ltac go := intros Hd; destruct O1 as ((A1 & A2) & A3), O2 as ((B1 & B2) & B3); pose proof (Rabs_triang_inv2 r1 r2) as T;
    pose proof (far1 r1 _ A3); pose proof (far1 r2 _ B3); cbv zeta; unR; repeat nxt; eT; reflexivity.
  Lemma eq_F8 : Rabs (r1 - r2) <= 1 / 100000 -> F8 r1 r2 = F8_x1_x2 r1 r2. Proof. unfold F8. go. Qed.
  Lemma eq_F9 : Rabs (r1 - r2) <= 1 / 100000 -> F9 r1 r2 = F9_x1_x2 r1 r2. Proof. unfold F9. go. Qed.
  Lemma eq_f5 : Rabs (r1 - r2) <= 1 / 10000 -> f5 r1 r2 = f5_r1_r2 r2 r1. Proof. unfold f5. go. Qed.
  Lemma eq_f6 : Rabs (r1 - r2) <= 1 / 10000 -> f6 r1 r2 = f6_r1_r2 r2 r1. Proof. unfold f6. go. Qed.
  Lemma eq_f7 : Rabs (r1 - r2) <= 1 / 10000 -> f7 r1 r2 = f7_r1_r2 r2 r1. Proof. unfold f7. go. Qed.
  Lemma eq_f8 : Rabs (r1 - r2) <= 1 / 10000 -> f8 r1 r2 = f8_r1_r2 r2 r1. Proof. unfold f8. go. Qed.
  Lemma equal_near : 1 <= M -> 0 < Rabs (r1 - r2) <= 1 / 10000 -> near_equal (1000 * M) r1 r2 /\ near_equal (1000 * M) r2 r1.
  Proof.
    intros HM (H0 & H1). destruct O1 as ((A1 & A2) & A3), O2 as ((B1 & B2) & B3). pose proof (far1 r1 _ A3). pose proof (far1 r2 _ B3).
    assert (L : 1 / (1000 * M) <= 1 / 1000) by (unfold Rdiv; rewrite !Rmult_1_l; apply Rinv_le_contravar; lra).
    unfold near_equal. rewrite (Rabs_minus_sym r2 r1). repeat split; lra.
  Qed.
End Equal.

Section One.
  Variables (M w r1 r2 : R).
  Hypothesis Hw : Rabs (r1 - 1) <= w. Hypothesis Hw2 : w <= 2 / 100.
  Hypothesis O2 : 1 / 100 < Rabs r2 <= M. Hypothesis O3 : 3 / 100 <= Rabs (Rabs r2 - 1).
  Ltac go := intros Hd; assert (E2 : 2 / 100 < Rabs (Rabs r2 - 1)) by lra; pose proof (far1 r2 _ E2); pose proof (Rabs_triang_inv2 r1 1) as T; rewrite Rabs_R1 in T;
    assert (E3 : 98 / 100 <= r1 <= 102 / 100) by (revert Hw; unfold Rabs at 1; destruct (Rcase_abs (r1 - 1)); lra);
    assert (E4 : Rabs r1 = r1) by (apply Rabs_pos_eq; lra); assert (E5 : Rabs (r1 - Ropp 1) = r1 + 1) by (rewrite Rabs_pos_eq; lra); cbv zeta; unR;
    repeat first [nxt | eT; cbn [andb]; cbv iota]; reflexivity.
  Lemma one_F8 : w <= 1 / 100 -> F8 r1 r2 = F8_1_x2 r1 r2. Proof. unfold F8. go. Qed.
  Lemma one_F8' : w <= 1 / 100 -> F8 r2 r1 = F8_1_x2 r1 r2. Proof. unfold F8. go. Qed.
  Lemma one_F9 : w <= 1 / 100 -> F9 r1 r2 = F9_1_x2 r1 r2. Proof. unfold F9. go. Qed.
  Lemma one_F9' : w <= 1 / 100 -> F9 r2 r1 = F9_1_x2 r1 r2. Proof. unfold F9. go. Qed.
  Lemma one_f5 : w <= 1 / 100 -> f5 r1 r2 = f5_1_r2 r1 r2. Proof. unfold f5. go. Qed.
  Lemma one_f5' : w <= 1 / 100 -> f5 r2 r1 = f5_1_r2 r1 r2. Proof. unfold f5. go. Qed.
  Lemma one_f6 : w <= 1 / 1000 -> f6 r1 r2 = f6_1_r2 r1 r2. Proof. unfold f6. go. Qed.
  Lemma one_f6' : w <= 1 / 1000 -> f6 r2 r1 = f6_1_r2 r1 r2. Proof. unfold f6. go. Qed.
  Lemma one_f7 : w <= 2 / 100 -> f7 r1 r2 = f7_1_r2 r1 r2. Proof. unfold f7. go. Qed.
  Lemma one_f7' : w <= 2 / 100 -> f7 r2 r1 = f7_1_r2 r1 r2. Proof. unfold f7. go. Qed.
  Lemma one_f8 : w <= 1 / 100 -> f8 r1 r2 = f8_1_r2 r1 r2. Proof. unfold f8. go. Qed.
  Lemma one_f8' : w <= 1 / 100 -> f8 r2 r1 = f8_1_r2 r1 r2. Proof. unfold f8. go. Qed.
  Lemma one_near : 1 <= M -> r1 <> 1 -> near_one (100 * M) r1 r2.
  Proof.
    intros HM N1. assert (E2 : 2 / 100 < Rabs (Rabs r2 - 1)) by lra. pose proof (far1 r2 _ E2).
    assert (L : 1 / (100 * M) <= 1 / 100) by (unfold Rdiv; rewrite !Rmult_1_l; apply Rinv_le_contravar; lra).
    assert (P : 0 < Rabs (r1 - 1)) by (apply Rabs_pos_lt; lra).
    assert (Q1 : Rabs (r2 - 1) <= Rabs (r1 - r2) + Rabs (r1 - 1)) by (rewrite (Rabs_minus_sym r1 r2); replace (r2 - 1) with ((r2 - r1) + (r1 - 1)) by ring; apply Rabs_triang).
    assert (Q2 : Rabs (r2 + 1) <= Rabs (r1 + r2) + Rabs (r1 - 1)) by (rewrite (Rabs_minus_sym r1 1); replace (r2 + 1) with ((r1 + r2) + (1 - r1)) by ring; apply Rabs_triang).
    assert (E3 : 3 / 100 <= Rabs (r2 - 1)) by (pose proof (Rabs_triang_inv2 r2 1) as X; rewrite Rabs_R1 in X; lra).
    assert (E4 : 3 / 100 <= Rabs (r2 + 1)) by (pose proof (Rabs_triang_inv2 r2 (Ropp 1)) as X; rewrite Rabs_Ropp, Rabs_R1 in X; replace (r2 + 1) with (r2 - Ropp 1) by ring; lra).
    unfold near_one. repeat split; lra.
  Qed.
End One.

Section Zero.
  Variables (M r1 r2 : R).
  Hypothesis O2 : ordinary M r2. Hypothesis H0 : 0 < Rabs r1.
  Ltac go := intros Hd; destruct O2 as ((B1 & B2) & B3); pose proof (far1 r2 _ B3); pose proof (Rabs_pos r1);
    assert (E3 : -1 / 10000 <= r1 <= 1 / 10000) by (clear - Hd; revert Hd; unfold Rabs at 1; destruct (Rcase_abs r1); lra);
    assert (E4 : 1 / 2 < Rabs (r1 - 1)) by (rewrite Rabs_left; lra); assert (E5 : 1 / 2 < Rabs (r1 - Ropp 1)) by (rewrite Rabs_pos_eq; lra);
    assert (E6 : 1 / 2 < Rabs (Rabs r1 - 1)) by (rewrite (Rabs_left (Rabs r1 - 1)); lra); cbv zeta; unR;
    repeat first [nxt | zT; cbn [andb]; cbv iota]; reflexivity.
  Lemma zero_F8 : Rabs r1 <= 1 / 100000 -> F8 r1 r2 = F8_0_x2 r1 r2. Proof. unfold F8. go. Qed.
  Lemma zero_F8' : Rabs r1 <= 1 / 100000 -> F8 r2 r1 = F8_0_x2 r1 r2. Proof. unfold F8. go. Qed.
  Lemma zero_F9 : Rabs r1 <= 1 / 10000 -> F9 r1 r2 = F9_0_x2 r1 r2. Proof. unfold F9. go. Qed.
  Lemma zero_F9' : Rabs r1 <= 1 / 10000 -> F9 r2 r1 = F9_0_x2 r1 r2. Proof. unfold F9. go. Qed.
  Lemma zero_f5 : Rabs r1 <= 1 / 10000 -> f5 r1 r2 = f5_0_r2 r1 r2. Proof. unfold f5. go. Qed.
  Lemma zero_f5' : Rabs r1 <= 1 / 10000 -> f5 r2 r1 = f5_0_r2 r1 r2. Proof. unfold f5. go. Qed.
  Lemma zero_f6 : Rabs r1 <= 1 / 10000 -> f6 r1 r2 = f6_0_r2 r1 r2. Proof. unfold f6. go. Qed.
  Lemma zero_f6' : Rabs r1 <= 1 / 10000 -> f6 r2 r1 = f6_0_r2 r1 r2. Proof. unfold f6. go. Qed.
  Lemma zero_f7 : Rabs r1 <= 1 / 10000 -> f7 r1 r2 = f7_0_r2 r1 r2. Proof. unfold f7. go. Qed.
  Lemma zero_f7' : Rabs r1 <= 1 / 10000 -> f7 r2 r1 = f7_0_r2 r1 r2. Proof. unfold f7. go. Qed.
  Lemma zero_f8 : Rabs r1 <= 1 / 20000 -> f8 r1 r2 = f8_0_r2 r1 r2. Proof. unfold f8. go. Qed.
  Lemma zero_f8' : Rabs r1 <= 1 / 20000 -> f8 r2 r1 = f8_0_r2 r1 r2. Proof. unfold f8. go. Qed.
  Lemma zero_near : 1 <= M -> Rabs r1 <= 1 / 10000 -> near_zero (10000 * M) r1 r2.
  Proof.
    intros HM Hd. destruct O2 as ((B1 & B2) & B3). pose proof (far1 r2 _ B3).
    assert (L : 1 / (10000 * M) <= 1 / 10000) by (unfold Rdiv; rewrite !Rmult_1_l; apply Rinv_le_contravar; lra).
    assert (1 / 10000 <= Rabs (r2 * r2 - 1)) by (replace (r2 * r2 - 1) with ((r2 - 1) * (r2 + 1)) by ring; rewrite Rabs_mult; nra).
    unfold near_zero. repeat split; lra.
  Qed.
End Zero.

Lemma le_sum C D x y : 0 <= x -> y <= C * x -> C <= D -> y <= D * x. Proof. intros. nra. Qed.
Ltac fin K := eapply le_sum; [apply pow_le; first [apply Rabs_pos | apply sqrt_pos] | apply K | lra].

(** C77.  Two ratios of which neither is small nor near 1, at a distance where the code switches to an expansion around equal arguments: the expansion
    is right up to a power of the distance, uniformly on every bounded range, in both orders of the arguments. *)
Theorem C77_equal_arguments : forall M, 1 <= M -> exists C, 0 <= C /\ forall r1 r2,
  ordinary M r1 -> ordinary M r2 -> 0 < Rabs (r1 - r2) <= 1 / 10000 ->
  (Rabs (r1 - r2) <= 1 / 100000 -> Rabs (F8 r1 r2 - F8c r1 r2) <= C * Rabs (r1 - r2) ^ 4 /\ Rabs (F9 r1 r2 - F9c r1 r2) <= C * Rabs (r1 - r2) ^ 4) /\
  Rabs (f5 r1 r2 - f5c r1 r2) <= C * Rabs (r1 - r2) ^ 4 /\ Rabs (f6 r1 r2 - f6c r1 r2) <= C * Rabs (r1 - r2) ^ 5 /\
  Rabs (f7 r1 r2 - f7c r1 r2) <= C * Rabs (r1 - r2) ^ 5 /\ Rabs (f8 r1 r2 - f8c r1 r2) <= C * Rabs (r1 - r2) ^ 5.
Proof.
  intros M HM. assert (HM' : 1 <= 1000 * M) by lra.
  destruct (A_F8 _ HM') as (C1 & P1 & K1), (A_F9 _ HM') as (C2 & P2 & K2), (A_f5 _ HM') as (C3 & P3 & K3), (A_f6 _ HM') as (C4 & P4 & K4),
    (A_f7 _ HM') as (C5 & P5 & K5), (A_f8 _ HM') as (C6 & P6 & K6).
  exists (C1 + C2 + C3 + C4 + C5 + C6). split; [lra|]. intros r1 r2 O1 O2 H. destruct (equal_near M r1 r2 O1 O2 HM H) as (N1 & N2). destruct H as (H0 & H1).
  assert (S1 : r1 ^ 2 - 1 <> 0) by (apply sq_ne1; destruct O1; lra). assert (S2 : r2 ^ 2 - 1 <> 0) by (apply sq_ne1; destruct O2; lra).
  assert (Ne : r1 <> r2) by (intros ->; replace (r2 - r2) with 0 in H0 by ring; rewrite Rabs_R0 in H0; lra).
  split; [intros H5; rewrite (eq_F8 M r1 r2 O1 O2 H5), (eq_F9 M r1 r2 O1 O2 H5); split; [fin (K1 _ _ N1)|fin (K2 _ _ N1)]|].
  rewrite (eq_f5 M r1 r2 O1 O2 H1), (eq_f6 M r1 r2 O1 O2 H1), (eq_f7 M r1 r2 O1 O2 H1), (eq_f8 M r1 r2 O1 O2 H1).
  rewrite (f5c_sym r1 r2), (f6c_sym r1 r2), (f7c_sym r1 r2), (f8c_sym r1 r2) by assumption. rewrite (Rabs_minus_sym r1 r2).
  repeat split; [fin (K3 _ _ N2)|fin (K4 _ _ N2)|fin (K5 _ _ N2)|fin (K6 _ _ N2)].
Qed.

(** One ratio near 1, the other neither small nor near 1 in modulus; both orders of the arguments. *)
Theorem C77_one_argument_near_one : forall M, 1 <= M -> exists C, 0 <= C /\ forall r1 r2,
  0 < Rabs (r1 - 1) <= 2 / 100 -> 1 / 100 < Rabs r2 <= M -> 3 / 100 <= Rabs (Rabs r2 - 1) ->
  (Rabs (r1 - 1) <= 1 / 100 ->
     (Rabs (F8 r1 r2 - F8c r1 r2) <= C * Rabs (r1 - 1) ^ 5 /\ Rabs (F8 r2 r1 - F8c r2 r1) <= C * Rabs (r1 - 1) ^ 5) /\
     (Rabs (F9 r1 r2 - F9c r1 r2) <= C * Rabs (r1 - 1) ^ 5 /\ Rabs (F9 r2 r1 - F9c r2 r1) <= C * Rabs (r1 - 1) ^ 5) /\
     (Rabs (f5 r1 r2 - f5c r1 r2) <= C * Rabs (r1 - 1) ^ 5 /\ Rabs (f5 r2 r1 - f5c r2 r1) <= C * Rabs (r1 - 1) ^ 5) /\
     (Rabs (f8 r1 r2 - f8c r1 r2) <= C * Rabs (r1 - 1) ^ 5 /\ Rabs (f8 r2 r1 - f8c r2 r1) <= C * Rabs (r1 - 1) ^ 5)) /\
  (Rabs (r1 - 1) <= 1 / 1000 ->
     Rabs (f6 r1 r2 - f6c r1 r2) <= C * Rabs (r1 - 1) ^ 5 /\ Rabs (f6 r2 r1 - f6c r2 r1) <= C * Rabs (r1 - 1) ^ 5) /\
  Rabs (f7 r1 r2 - f7c r1 r2) <= C * Rabs (r1 - 1) ^ 5 /\ Rabs (f7 r2 r1 - f7c r2 r1) <= C * Rabs (r1 - 1) ^ 5.
Proof.
  intros M HM. assert (HM' : 1 <= 100 * M) by lra.
  destruct (B_F8 _ HM') as (C1 & P1 & K1), (B_F9 _ HM') as (C2 & P2 & K2), (B_f5 _ HM') as (C3 & P3 & K3), (B_f6 _ HM') as (C4 & P4 & K4),
    (B_f7 _ HM') as (C5 & P5 & K5), (B_f8 _ HM') as (C6 & P6 & K6).
  exists (C1 + C2 + C3 + C4 + C5 + C6). split; [lra|]. intros r1 r2 (H0 & H1) O2 O3.
  assert (N1 : r1 <> 1) by (intros ->; replace (1 - 1) with 0 in H0 by ring; rewrite Rabs_R0 in H0; lra).
  pose proof (one_near M _ r1 r2 H1 (Rle_refl _) O2 O3 HM N1) as Nr. pose proof Nr as (Q1 & Q2 & Q3 & Q4 & Q5 & Q6).
  assert (PP : 0 < 1 / (100 * M)) by (apply Rdiv_lt_0_compat; lra).
  assert (Ne : r1 <> r2) by (intros ->; replace (r2 - r2) with 0 in Q5 by ring; rewrite Rabs_R0 in Q5; lra).
  assert (Np : r1 <> - r2) by (intros ->; replace (- r2 + r2) with 0 in Q6 by ring; rewrite Rabs_R0 in Q6; lra).
  assert (S2 : r2 ^ 2 - 1 <> 0) by (apply sq_ne1; lra).
  assert (E3 : 98 / 100 <= r1 <= 102 / 100) by (revert H1; unfold Rabs at 1; destruct (Rcase_abs (r1 - 1)); lra).
  assert (S1 : r1 ^ 2 - 1 <> 0) by (intros X; assert ((r1 - 1) * (r1 + 1) = 0) by lra; assert (r1 - 1 = 0) by nra; apply N1; lra).
  assert (Nq : r1 * r1 <> r2 * r2) by (intros X; assert ((r1 - r2) * (r1 + r2) = 0) by lra; destruct (Rmult_integral _ _ H) as [Y|Y]; [apply Ne|apply Np]; lra).
  assert (z1 : 1 / 100 < Rabs r2) by lra. assert (z2 : 1 / 10000 < Rabs r2) by lra.
  rewrite (F8c_sym r2 r1), (F9c_sym r2 r1) by (intros X; apply Nq; symmetry; exact X). rewrite <- (f5c_sym r1 r2), <- (f6c_sym r1 r2), <- (f7c_sym r1 r2), <- (f8c_sym r1 r2) by assumption.
  split; [|split].
  - intros Hw. rewrite (one_F8 M _ r1 r2 Hw ltac:(lra) O2 O3), (one_F8' M _ r1 r2 Hw ltac:(lra) O2 O3), (one_F9 M _ r1 r2 Hw ltac:(lra) O2 O3), (one_F9' M _ r1 r2 Hw ltac:(lra) O2 O3),
      (one_f5 M _ r1 r2 Hw ltac:(lra) O2 O3), (one_f5' M _ r1 r2 Hw ltac:(lra) O2 O3), (one_f8 M _ r1 r2 Hw ltac:(lra) O2 O3), (one_f8' M _ r1 r2 Hw ltac:(lra) O2 O3) by lra.
    repeat split; first [fin (K1 _ _ z1 Nr)|fin (K2 _ _ z1 Nr)|fin (K3 _ _ z1 Nr)|fin (K6 _ _ z2 Nr)].
  - intros Hw. rewrite (one_f6 M _ r1 r2 Hw ltac:(lra) O2 O3), (one_f6' M _ r1 r2 Hw ltac:(lra) O2 O3) by lra. split; fin (K4 _ _ z2 Nr).
  - rewrite (one_f7 M _ r1 r2 H1 ltac:(lra) O2 O3), (one_f7' M _ r1 r2 H1 ltac:(lra) O2 O3) by lra. split; fin (K5 _ _ z2 Nr).
Qed.

(** One ratio near 0, the other neither small nor near 1; both orders of the arguments. *)
Theorem C77_one_argument_near_zero : forall M, 1 <= M -> exists C, 0 <= C /\ forall r1 r2,
  0 < Rabs r1 <= 1 / 10000 -> ordinary M r2 ->
  (Rabs r1 <= 1 / 100000 -> Rabs (F8 r1 r2 - F8c r1 r2) <= C * sqrt (Rabs r1) ^ 7 /\ Rabs (F8 r2 r1 - F8c r2 r1) <= C * sqrt (Rabs r1) ^ 7) /\
  (Rabs (F9 r1 r2 - F9c r1 r2) <= C * sqrt (Rabs r1) ^ 3 /\ Rabs (F9 r2 r1 - F9c r2 r1) <= C * sqrt (Rabs r1) ^ 3) /\
  (Rabs (f5 r1 r2 - f5c r1 r2) <= C * sqrt (Rabs r1) ^ 5 /\ Rabs (f5 r2 r1 - f5c r2 r1) <= C * sqrt (Rabs r1) ^ 5) /\
  (Rabs (f6 r1 r2 - f6c r1 r2) <= C * sqrt (Rabs r1) ^ 9 /\ Rabs (f6 r2 r1 - f6c r2 r1) <= C * sqrt (Rabs r1) ^ 9) /\
  (1 / 10000000 < Rabs r1 -> Rabs (f7 r1 r2 - f7c r1 r2) <= C * sqrt (Rabs r1) ^ 9 /\ Rabs (f7 r2 r1 - f7c r2 r1) <= C * sqrt (Rabs r1) ^ 9) /\
  (1 / 10000000 < Rabs r1 <= 1 / 20000 -> Rabs (f8 r1 r2 - f8c r1 r2) <= C * sqrt (Rabs r1) ^ 9 /\ Rabs (f8 r2 r1 - f8c r2 r1) <= C * sqrt (Rabs r1) ^ 9) /\
  (Rabs r1 <= 1 / 10000000 ->
     (Rabs (f7 r1 r2 - f7c r1 r2) <= C * sqrt (Rabs r1) ^ 5 /\ Rabs (f7 r2 r1 - f7c r2 r1) <= C * sqrt (Rabs r1) ^ 5) /\
     (Rabs (f8 r1 r2 - f8c r1 r2) <= C * sqrt (Rabs r1) ^ 7 /\ Rabs (f8 r2 r1 - f8c r2 r1) <= C * sqrt (Rabs r1) ^ 7)).
Proof.
  intros M HM. assert (HM' : 1 <= 10000 * M) by lra.
  destruct (C_F8 _ HM') as (C1 & P1 & K1), (C_F9 _ HM') as (C2 & P2 & K2), (C_f5 _ HM') as (C3 & P3 & K3), (C_f6 _ HM') as (C4 & P4 & K4),
    (C_f7 _ HM') as (C5 & P5 & K5), (C_f8 _ HM') as (C6 & P6 & K6),
    (C_f7' _ HM') as (C7 & P7 & K7), (C_f8' _ HM') as (C8 & P8 & K8).
  exists (C1 + C2 + C3 + C4 + C5 + C6 + C7 + C8). split; [lra|]. intros r1 r2 (H0 & H1) O2. pose proof (zero_near M r1 r2 O2 H0 HM H1) as Nr. pose proof O2 as ((B1 & B2) & B3).
  assert (z0 : -1 < r1 * r1) by nra.
  assert (z1 : 1 / 10000000 < Rabs r1 -> 1 / 100000000000000 < r1 * r1) by (intros X; rewrite <- Rabs_sq; nra).
  assert (z2 : Rabs r1 <= 1 / 10000000 -> r1 * r1 <= 1 / 100000000000000) by (intros X; rewrite <- Rabs_sq; nra).
  assert (Nq : r1 * r1 <> r2 * r2) by (rewrite <- (Rabs_sq r1), <- (Rabs_sq r2); nra).
  assert (Ne : r1 <> r2) by (intros ->; apply Nq; reflexivity).
  assert (S2 : r2 ^ 2 - 1 <> 0) by (apply sq_ne1; lra). assert (S1 : r1 ^ 2 - 1 <> 0) by (pose proof (Rabs_sq r1); nra).
  rewrite (F8c_sym r2 r1), (F9c_sym r2 r1) by (intros X; apply Nq; symmetry; exact X). rewrite <- (f5c_sym r1 r2), <- (f6c_sym r1 r2), <- (f7c_sym r1 r2), <- (f8c_sym r1 r2) by assumption.
  rewrite (zero_F9 M r1 r2 O2), (zero_F9' M r1 r2 O2), (zero_f5 M r1 r2 O2), (zero_f5' M r1 r2 O2), (zero_f6 M r1 r2 O2), (zero_f6' M r1 r2 O2), (zero_f7 M r1 r2 O2), (zero_f7' M r1 r2 O2) by assumption.
  repeat split; intros.
  all: try (rewrite (zero_F8 M r1 r2 O2) by lra). all: try (rewrite (zero_F8' M r1 r2 O2) by lra). all: try (rewrite (zero_f8 M r1 r2 O2) by lra). all: try (rewrite (zero_f8' M r1 r2 O2) by lra).
  all: first [fin (K1 _ _ z0 Nr)|fin (K2 _ _ z0 Nr)|fin (K3 _ _ z0 Nr)|fin (K4 _ _ z0 Nr)|fin (K5 _ _ (z1 ltac:(lra)) Nr)|fin (K6 _ _ (z1 ltac:(lra)) Nr)|fin (K7 _ _ (z2 ltac:(lra)) Nr)|fin (K8 _ _ (z2 ltac:(lra)) Nr)].
Qed.

(** ** One ratio near 0, the other near 1 *)
Section ZeroOne.
  Variables (r1 r2 : R).
  Ltac go := intros H1 H2; pose proof (Rabs_triang_inv2 r2 1) as T; rewrite Rabs_R1 in T; pose proof (Rabs_pos r1);
    assert (E3 : 98 / 100 <= r2 <= 102 / 100) by (clear - H2; revert H2; unfold Rabs; destruct (Rcase_abs (r2 - 1)); lra);
    assert (E3' : -1 / 100 <= r1 <= 1 / 100) by (clear - H1; revert H1; unfold Rabs; destruct (Rcase_abs r1); lra);
    assert (E4 : Rabs r2 = r2) by (apply Rabs_pos_eq; lra); assert (E5 : Rabs (r2 - Ropp 1) = r2 + 1) by (rewrite Rabs_pos_eq; lra);
    assert (E6 : 1 / 2 < Rabs (r1 - 1)) by (rewrite Rabs_left; lra); assert (E7 : 1 / 2 < Rabs (r1 - Ropp 1)) by (rewrite Rabs_pos_eq; lra);
    assert (E8 : 1 / 2 < Rabs (Rabs r1 - 1)) by (rewrite (Rabs_left (Rabs r1 - 1)); lra); cbv zeta; unR;
    repeat first [nxt | eT; cbn [andb]; cbv iota].
  Lemma zo_F8 : Rabs r1 <= 1 / 100 -> Rabs (r2 - 1) <= 1 / 100 -> F8 r1 r2 = F8w01 r1 r2. Proof. unfold F8. go. unfold F8_1_x2; cbv zeta. zT. reflexivity. Qed.
  Lemma zo_F8' : Rabs r1 <= 1 / 100 -> Rabs (r2 - 1) <= 1 / 100 -> F8 r2 r1 = F8w01 r1 r2. Proof. unfold F8. go. unfold F8_1_x2; cbv zeta. zT. reflexivity. Qed.
  Lemma zo_f5 : Rabs r1 <= 1 / 100 -> Rabs (r2 - 1) <= 1 / 100 -> f5 r1 r2 = f5w01 r1 r2. Proof. unfold f5. go. unfold f5_1_r2; cbv zeta. zT. reflexivity. Qed.
  Lemma zo_f5' : Rabs r1 <= 1 / 100 -> Rabs (r2 - 1) <= 1 / 100 -> f5 r2 r1 = f5w01 r1 r2. Proof. unfold f5. go. unfold f5_1_r2; cbv zeta. zT. reflexivity. Qed.
  Lemma zo_f6 : Rabs r1 <= 1 / 10000 -> Rabs (r2 - 1) <= 1 / 1000 -> f6 r1 r2 = f6_0_1 r1 r2. Proof. unfold f6. go. unfold f6_1_r2; cbv zeta. zT. reflexivity. Qed.
  Lemma zo_f6' : Rabs r1 <= 1 / 10000 -> Rabs (r2 - 1) <= 1 / 1000 -> f6 r2 r1 = f6_0_1 r1 r2. Proof. unfold f6. go. unfold f6_1_r2; cbv zeta. zT. reflexivity. Qed.
  Lemma zo_f7 : Rabs r1 <= 1 / 10000 -> Rabs (r2 - 1) <= 2 / 100 -> f7 r1 r2 = f7_0_1 r1 r2. Proof. unfold f7. go. unfold f7_1_r2; cbv zeta. zT. reflexivity. Qed.
  Lemma zo_f7' : Rabs r1 <= 1 / 10000 -> Rabs (r2 - 1) <= 2 / 100 -> f7 r2 r1 = f7_0_1 r1 r2. Proof. unfold f7. go. unfold f7_1_r2; cbv zeta. zT. reflexivity. Qed.
  Lemma zo_f8 : Rabs r1 <= 1 / 10000 -> Rabs (r2 - 1) <= 1 / 100 -> f8 r1 r2 = f8_0_1 r1 r2. Proof. unfold f8. go. unfold f8_1_r2; cbv zeta. zT. reflexivity. Qed.
  Lemma zo_f8' : Rabs r1 <= 1 / 10000 -> Rabs (r2 - 1) <= 1 / 100 -> f8 r2 r1 = f8_0_1 r1 r2. Proof. unfold f8. go. unfold f8_1_r2; cbv zeta. zT. reflexivity. Qed.
End ZeroOne.

(** The distance to the corner (0, 1).  C79: in the corners.  F9 is missing here, it is wrong (C24_F9_refuted). *)
Definition corner01 (r1 r2 : R) : R := sqrt (Rmax (Rabs r1) (Rabs (r2 - 1))).
Theorem C79_zero_and_one_partial : exists C, 0 <= C /\ forall r1 r2, 0 < Rabs r1 <= 1 / 100 -> 0 < Rabs (r2 - 1) <= 2 / 100 ->
  (Rabs (r2 - 1) <= 1 / 100 ->
     (Rabs (F8 r1 r2 - F8c r1 r2) <= C * corner01 r1 r2 ^ 6 /\ Rabs (F8 r2 r1 - F8c r2 r1) <= C * corner01 r1 r2 ^ 6) /\
     (Rabs (f5 r1 r2 - f5c r1 r2) <= C * corner01 r1 r2 ^ 5 /\ Rabs (f5 r2 r1 - f5c r2 r1) <= C * corner01 r1 r2 ^ 5)) /\
  (Rabs r1 <= 1 / 10000 ->
     (Rabs (f7 r1 r2 - f7c r1 r2) <= C * corner01 r1 r2 ^ 5 /\ Rabs (f7 r2 r1 - f7c r2 r1) <= C * corner01 r1 r2 ^ 5) /\
     (Rabs (r2 - 1) <= 1 / 1000 -> Rabs (f6 r1 r2 - f6c r1 r2) <= C * corner01 r1 r2 ^ 9 /\ Rabs (f6 r2 r1 - f6c r2 r1) <= C * corner01 r1 r2 ^ 9) /\
     (Rabs (r2 - 1) <= 1 / 100 -> Rabs (f8 r1 r2 - f8c r1 r2) <= C * corner01 r1 r2 ^ 7 /\ Rabs (f8 r2 r1 - f8c r2 r1) <= C * corner01 r1 r2 ^ 7)).
Proof.
  destruct D_F8 as (C1 & P1 & K1), D_f5 as (C3 & P3 & K3), D_f6 as (C4 & P4 & K4), D_f7 as (C5 & P5 & K5), D_f8 as (C6 & P6 & K6).
  exists (C1 + C3 + C4 + C5 + C6). split; [lra|]. intros r1 r2 H1 H2.
  assert (Z : zero_one (corner01 r1 r2) r1 r2).
  { unfold zero_one, corner01. set (m := Rmax (Rabs r1) (Rabs (r2 - 1))). pose proof (Rmax_l (Rabs r1) (Rabs (r2 - 1))) as L1. pose proof (Rmax_r (Rabs r1) (Rabs (r2 - 1))) as L2. fold m in L1, L2.
    assert (m <= 2 / 100) by (apply Rmax_lub; lra). assert (0 < m) by lra. rewrite (sqrt_sqrt m) by lra. repeat split; try lra; [apply sqrt_lt_R0; assumption|].
    rewrite <- sqrt_1. apply sqrt_le_1_alt. lra. }
  assert (E3 : 98 / 100 <= r2 <= 102 / 100) by (destruct H2 as (_ & H2); revert H2; unfold Rabs; destruct (Rcase_abs (r2 - 1)); lra).
  assert (E3' : -1 / 100 <= r1 <= 1 / 100) by (destruct H1 as (_ & H1); revert H1; unfold Rabs; destruct (Rcase_abs r1); lra).
  assert (N1 : r2 - 1 <> 0) by (intros X; rewrite X, Rabs_R0 in H2; lra).
  assert (Nq : r1 * r1 <> r2 * r2) by nra. assert (Ne : r1 <> r2) by lra.
  assert (S1 : r1 ^ 2 - 1 <> 0) by nra. assert (S2 : r2 ^ 2 - 1 <> 0) by (replace (r2 ^ 2 - 1) with ((r2 - 1) * (r2 + 1)) by ring; apply Rmult_integral_contrapositive_currified; lra).
  rewrite (F8c_sym r2 r1) by (intros X; apply Nq; symmetry; exact X). rewrite <- (f5c_sym r1 r2), <- (f6c_sym r1 r2), <- (f7c_sym r1 r2), <- (f8c_sym r1 r2) by assumption.
  repeat split; intros.
  all: try (rewrite (zo_F8 r1 r2) by lra). all: try (rewrite (zo_F8' r1 r2) by lra). all: try (rewrite (zo_f5 r1 r2) by lra). all: try (rewrite (zo_f5' r1 r2) by lra).
  all: try (rewrite (zo_f6 r1 r2) by lra). all: try (rewrite (zo_f6' r1 r2) by lra). all: try (rewrite (zo_f7 r1 r2) by lra). all: try (rewrite (zo_f7' r1 r2) by lra).
  all: try (rewrite (zo_f8 r1 r2) by lra). all: try (rewrite (zo_f8' r1 r2) by lra).
  all: first [fin (K1 _ _ _ Z)|fin (K3 _ _ _ Z)|fin (K4 _ _ _ Z)|fin (K5 _ _ _ Z)|fin (K6 _ _ _ Z)].
Qed.

(** ** Both ratios near 0 *)
Section BothZero.
  Variables (r1 r2 : R).
  Hypothesis H0 : Rabs r1 <= Rabs r2 / 2.
  Ltac tst := repeat first [nxt | zT; cbn [andb]; cbv iota].
  Ltac pre := pose proof (Rabs_pos r1); pose proof (Rabs_pos r2); cbv zeta; unR.
  Ltac sw := first [rewrite Rltb_false by lra | rewrite Rltb_true by lra].
  Lemma bz_F8 : Rabs r1 <= 1 / 100000 -> 1 / 10000000000000 < Rabs r2 <= 1 / 2 -> F8 r1 r2 = F8_0_x2 r1 r2.
  Proof.
    intros H1 H2. assert (E8 : 1 / 4 < Rabs (Rabs r1 - 1)) by (rewrite (Rabs_left (Rabs r1 - 1)); lra). assert (E9 : 1 / 4 < Rabs (Rabs r2 - 1)) by (rewrite (Rabs_left (Rabs r2 - 1)); lra).
    unfold F8. pre. tst. reflexivity.
  Qed.
  Lemma bz_f5 : 1 / 1000000 < Rabs r2 <= 1 / 10000 -> f5 r1 r2 - f5c r1 r2 = revW r1 r2 xE5 /\ f5 r2 r1 = f5 r1 r2.
  Proof. intros H2. split; unfold f5; pre; tst; unfold f5_0_0; cbv zeta; unR; tst; unfold xlogx, logx; repeat sw; unR; tst; reflexivity. Qed.
  Lemma bz_f6 : 1 / 10000000000 < Rabs r2 <= 1 / 10000 -> f6 r1 r2 - f6c r1 r2 = revW r1 r2 xE6.
  Proof. intros H2. unfold f6; pre; tst; unfold f6_0_0; cbv zeta; unR; tst. reflexivity. Qed.
  Lemma bz_f7 : 1 / 1000000 < Rabs r2 <= 1 / 10000 -> f7 r1 r2 - f7c r1 r2 = revW r1 r2 xE7 /\ f7 r2 r1 = f7 r1 r2.
  Proof. intros H2. split; unfold f7; pre; tst; unfold f7_0_0; cbv zeta; unR; tst; repeat sw; reflexivity. Qed.
  Lemma bz_f8 : 1 / 10000000 <= Rabs r2 <= 1 / 20000 -> f8 r1 r2 - f8c r1 r2 = revW r1 r2 xE8 /\ f8 r2 r1 = f8 r1 r2.
  Proof.
    intros H2. assert (Q : 1 / 100000000000000 <= Rabs (r2 * r2)) by (rewrite Rabs_mult; nra).
    split; unfold f8; pre; tst; unfold f8_0_0; cbv zeta; unR; tst; repeat sw; tst; unfold logx, pow2; unR; tst; reflexivity.
  Qed.
End BothZero.

(** Both ratios in the small window, the larger one at least twice the smaller one (for f5 the larger one positive, see C24 for its logarithm). *)
Theorem C79_both_near_zero_partial : exists C, 0 <= C /\ forall r1 r2, 0 < Rabs r1 <= Rabs r2 / 2 ->
  (Rabs r1 <= 1 / 100000 -> 1 / 10000000000000 < Rabs r2 <= 1 / 2 -> Rabs (F8 r1 r2 - F8c r1 r2) <= C * sqrt (Rabs r2) ^ 3) /\
  (1 / 1000000 < r2 <= 1 / 10000 -> Rabs (f5 r1 r2 - f5c r1 r2) <= C * sqrt (Rabs r2) ^ 3 /\ Rabs (f5 r2 r1 - f5c r2 r1) <= C * sqrt (Rabs r2) ^ 3) /\
  (1 / 10000000000 < Rabs r2 <= 1 / 10000 -> Rabs (f6 r1 r2 - f6c r1 r2) <= C * sqrt (Rabs r2) ^ 7) /\
  (1 / 1000000 < Rabs r2 <= 1 / 10000 -> Rabs (f7 r1 r2 - f7c r1 r2) <= C * sqrt (Rabs r2) ^ 3 /\ Rabs (f7 r2 r1 - f7c r2 r1) <= C * sqrt (Rabs r2) ^ 3) /\
  (1 / 10000000 <= Rabs r2 <= 1 / 20000 -> Rabs (f8 r1 r2 - f8c r1 r2) <= C * sqrt (Rabs r2) ^ 5 /\ Rabs (f8 r2 r1 - f8c r2 r1) <= C * sqrt (Rabs r2) ^ 5).
Proof.
  destruct E_F8 as (C1 & P1 & K1), E_f5 as (C3 & P3 & K3), E_f6 as (C4 & P4 & K4), E_f7 as (C5 & P5 & K5), E_f8 as (C6 & P6 & K6).
  exists (C1 + C3 + C4 + C5 + C6). split; [lra|]. intros r1 r2 (H0 & H1).
  assert (BS : Rabs r2 <= 1 / 2 -> both_small r1 r2) by (intros X; unfold both_small; repeat split; lra).
  assert (Nq : r1 * r1 <> r2 * r2) by (rewrite <- (Rabs_sq r1), <- (Rabs_sq r2); nra). assert (Ne : r1 <> r2) by (intros ->; apply Nq; reflexivity).
  assert (S1 : Rabs r2 <= 1 / 2 -> r1 ^ 2 - 1 <> 0) by (intros; pose proof (Rabs_sq r1); nra). assert (S2 : Rabs r2 <= 1 / 2 -> r2 ^ 2 - 1 <> 0) by (intros; pose proof (Rabs_sq r2); nra).
  split; [|split; [|split; [|split]]].
  - intros A B. rewrite (bz_F8 r1 r2 A B). change (sqrt (Rabs r2) ^ 3) with (powerRZ (sqrt (Rabs r2)) 3). eapply le_sum; [apply powerRZ_le; apply sqrt_lt_R0; lra|exact (K1 r1 r2 (BS ltac:(lra)))|lra].
  - intros B. assert (B' : 1 / 1000000 < Rabs r2 <= 1 / 10000) by (rewrite Rabs_pos_eq; lra). destruct (bz_f5 r1 r2 H1 B') as (E1 & E2). rewrite E2, <- (f5c_sym r1 r2) by (try apply S1; try apply S2; try lra; assumption).
    rewrite E1. change (sqrt (Rabs r2) ^ 3) with (powerRZ (sqrt (Rabs r2)) 3). split; (eapply le_sum; [apply powerRZ_le; apply sqrt_lt_R0; lra|exact (K3 r1 r2 ltac:(lra) (BS ltac:(lra)))|lra]).
  - intros B. rewrite (bz_f6 r1 r2 H1 B). change (sqrt (Rabs r2) ^ 7) with (powerRZ (sqrt (Rabs r2)) 7). eapply le_sum; [apply powerRZ_le; apply sqrt_lt_R0; lra|exact (K4 r1 r2 (BS ltac:(lra)))|lra].
  - intros B. destruct (bz_f7 r1 r2 H1 B) as (E1 & E2). rewrite E2, <- (f7c_sym r1 r2) by (try apply S1; try apply S2; try lra; assumption).
    rewrite E1. change (sqrt (Rabs r2) ^ 3) with (powerRZ (sqrt (Rabs r2)) 3). split; (eapply le_sum; [apply powerRZ_le; apply sqrt_lt_R0; lra|exact (K5 r1 r2 (BS ltac:(lra)))|lra]).
  - intros B. destruct (bz_f8 r1 r2 H1 B) as (E1 & E2). rewrite E2, <- (f8c_sym r1 r2) by (try apply S1; try apply S2; try lra; assumption).
    rewrite E1. change (sqrt (Rabs r2) ^ 5) with (powerRZ (sqrt (Rabs r2)) 5). split; (eapply le_sum; [apply powerRZ_le; apply sqrt_lt_R0; lra|exact (K6 r1 r2 (BS ltac:(lra)))|lra]).
Qed.

(** F9 is missing from C79_both_near_zero_partial: when both ratios are below 1/10000 the code keeps only the logarithm of one of them, and the error does not vanish. *)
Theorem C79_F9_both_near_zero_refuted : forall x, 0 < x <= 1 / 10000 -> 1 / 2 <= F9 (x / 2) x - F9c (x / 2) x.
Proof.
  intros x Hx.
  assert (E : F9 (x / 2) x = F9_0_x2 (x / 2) x).
  { assert (A1 : Rabs (x / 2) = x / 2) by (apply Rabs_pos_eq; lra). assert (A2 : Rabs x = x) by (apply Rabs_pos_eq; lra).
    assert (A3 : 1 / 2 < Rabs (Rabs (x / 2) - 1)) by (rewrite A1, Rabs_left; lra). assert (A4 : 1 / 2 < Rabs (Rabs x - 1)) by (rewrite A2, Rabs_left; lra).
    unfold F9. cbv zeta. unR. repeat first [nxt | zT; cbn [andb]; cbv iota]. reflexivity. }
  rewrite E. unfold F9_0_x2, F9c, pow2; cbv zeta; unR. set (y := x * x).
  assert (Hy : 0 < y <= 1 / 100000000) by (unfold y; nra). replace (x ^ 2) with y by (unfold y; ring). replace ((x / 2) ^ 2) with (y / 4) by (unfold y; field).
  assert (L4 : ln (y / 4) = ln y - ln 4) by (unfold Rdiv; rewrite ln_mult, ln_Rinv by lra; ring). rewrite L4.
  assert (P4 : 1 <= ln 4). { rewrite <- (ln_exp 1). destruct exp_le_3 as [X|X]; [left; apply ln_increasing; [apply exp_pos|lra]|rewrite X; left; apply ln_increasing; lra]. }
  pose proof (xlnx_small y ltac:(lra) ltac:(lra)) as Q. assert (sq : sqrt y <= 1 / 10000). { rewrite <- (sqrt_square (1 / 10000)) by lra. apply sqrt_le_1_alt. lra. }
  set (L := ln y) in *. set (q := ln 4) in *.
  match goal with |- _ <= ?e => replace e with (2 / 3 * q / (1 - y / 4) + 1 / 2 * (y * L) / ((1 - y) * (1 - y / 4))) by (field; lra) end.
  assert (D1 : 0 < 1 - y / 4 <= 1) by lra. assert (D2 : 9 / 10 <= (1 - y) * (1 - y / 4)) by nra.
  assert (T1 : 2 / 3 <= 2 / 3 * q / (1 - y / 4)). { apply Rmult_le_reg_r with (1 - y / 4); [lra|]. replace (2 / 3 * q / (1 - y / 4) * (1 - y / 4)) with (2 / 3 * q) by (field; lra). nra. }
  assert (T2 : -1 / 100 <= 1 / 2 * (y * L) / ((1 - y) * (1 - y / 4))).
  { apply Rmult_le_reg_r with ((1 - y) * (1 - y / 4)); [lra|]. set (dd := (1 - y) * (1 - y / 4)) in *. replace (1 / 2 * (y * L) / dd * dd) with (1 / 2 * (y * L)) by (field; lra). lra. }
  lra.
Qed.

(** ** C78: F8 and F9 depend on the moduli of their arguments only *)
Lemma sub_add a b : (Rabs a - b) * (Rabs a + b) = (a - b) * (a + b).
Proof. pose proof (Rabs_sq a). replace ((Rabs a - b) * (Rabs a + b)) with (Rabs a * Rabs a - b * b) by ring. rewrite H. ring. Qed.
Lemma sub_add2 a b : (Rabs a - Rabs b) * (Rabs a + Rabs b) = (a - b) * (a + b).
Proof. rewrite sub_add. pose proof (Rabs_sq b). replace ((a - Rabs b) * (a + Rabs b)) with (a * a - Rabs b * Rabs b) by ring. rewrite H. ring. Qed.
Ltac ev := cbv zeta; unfold pow2; unR; rewrite ?sub_add2, ?sub_add, ?Rabs_sq; reflexivity.
Theorem C78_F8_F9_of_moduli : forall x1 x2 : R, F8 (Rabs x1) (Rabs x2) = F8 x1 x2 /\ F9 (Rabs x1) (Rabs x2) = F9 x1 x2.
Proof.
  intros x1 x2.
  assert (a1 : forall a b, F8_1_1 (Rabs a) (Rabs b) = F8_1_1 a b) by (intros; unfold F8_1_1; ev).
  assert (a2 : forall a b, F9_1_1 (Rabs a) (Rabs b) = F9_1_1 a b) by (intros; unfold F9_1_1; ev).
  assert (a3 : forall a b, F8_1_x2 (Rabs a) (Rabs b) = F8_1_x2 a b) by (intros; unfold F8_1_x2; rewrite !is_zeroR, Rabs_Rabsolu; ev).
  assert (a4 : forall a b, F9_1_x2 (Rabs a) (Rabs b) = F9_1_x2 a b) by (intros; unfold F9_1_x2; rewrite !is_zeroR, Rabs_Rabsolu; ev).
  assert (a5 : forall a b, F8_0_x2 (Rabs a) (Rabs b) = F8_0_x2 a b) by (intros; unfold F8_0_x2; ev).
  assert (a6 : forall a b, F9_0_x2 (Rabs a) (Rabs b) = F9_0_x2 a b) by (intros; unfold F9_0_x2; ev).
  assert (a7 : forall a b, F8_x1_x2 (Rabs a) (Rabs b) = F8_x1_x2 a b) by (intros; unfold F8_x1_x2; ev).
  assert (a8 : forall a b, F9_x1_x2 (Rabs a) (Rabs b) = F9_x1_x2 a b) by (intros; unfold F9_x1_x2; ev).
  split; [unfold F8|unfold F9]; cbv zeta; rewrite !is_zeroR, ?a1, ?a2, ?a3, ?a4, ?a5, ?a6, ?a7, ?a8; unfold pow2; unR; rewrite ?Rabs_Rabsolu, ?Rabs_sq; reflexivity.
Qed.

(** The hypotheses of C77 and C79 are met *)
Example C77_points : ordinary 10 2 /\ ordinary 10 (2 + 1 / 20000) /\ (0 < Rabs (2 - (2 + 1 / 20000)) <= 1 / 10000) /\ ordinary 10 (-3) /\
  (0 < Rabs (1 + 1 / 2000 - 1) <= 2 / 100) /\ (3 / 100 <= Rabs (Rabs (1 / 2) - 1)) /\ (0 < Rabs (-1 / 50000) <= Rabs (1 / 20000) / 2).
Proof.
  unfold ordinary. replace (2 - (2 + 1 / 20000)) with (-1 / 20000) by lra. replace (1 + 1 / 2000 - 1) with (1 / 2000) by lra.
  rewrite (Rabs_pos_eq 2), (Rabs_pos_eq (2 + 1 / 20000)), (Rabs_left (-3)), (Rabs_left (-1 / 20000)), (Rabs_pos_eq (1 / 2000)), (Rabs_pos_eq (1 / 2)), (Rabs_left (-1 / 50000)), (Rabs_pos_eq (1 / 20000)) by lra.
  replace (2 - 1) with 1 by lra. replace (1 / 2 - 1) with (-1 / 2) by lra. rewrite (Rabs_left (-1 / 2)), Rabs_R1, (Rabs_pos_eq (2 + 1 / 20000 - 1)), (Rabs_pos_eq (- -3 - 1)) by lra. lra.
Qed.
