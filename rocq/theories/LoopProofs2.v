(** * Loop functions outside the special-case windows equal their closed forms; F5 near -1 *)
From Coq Require Import Reals QArith Qreals List Bool Lra Lia ZArith.
From Verif Require Import Num NumFacts Dilog LoopFun LoopSpec Taylor LoopWindows LoopProofs.
Open Scope R_scope.

Lemma mone : Ropp 1 = -1. Proof. lra. Qed.
Definition eps0 : R := / 2 ^ 52.
Lemma eps0_eq : (eps_default : R) = eps0.
Proof. rewrite eps_defaultR. unfold eps0. rewrite (pow_IZR 2 52). change (2 ^ Z.of_nat 52)%Z with 4503599627370496%Z. lra. Qed.
Lemma eps0_pos : 0 < eps0. Proof. unfold eps0. apply Rinv_0_lt_compat, pow_lt. lra. Qed.
Lemma eps0_small : eps0 < 1 / 1000000000000.
Proof. rewrite <- eps0_eq, eps_defaultR. lra. Qed.

Ltac genericR := unfold pow5, pow4, pow3, pow2; unR; unfold Rdiv; ring.
Ltac farz := first [assumption | unfold Rdec; simpl Z.pow; lra | rewrite ?eps0_eq; lra].

Section Single.
  Variable x : R.
  Hypothesis Hz : eps0 < Rabs x.
  Lemma F1_exact : 1/100 < Rabs (x - 1) -> F1 x = F1c x.
  Proof. intros H. unfold F1, F1c; cbv zeta. rewrite is_zeroR_false by farz. unR. rewrite is_equalR_false by farz. unfold pow2; unR. simpl pow. rewrite Rmult_1_r. reflexivity. Qed.
  Lemma F2_exact : 1/100 < Rabs (x - 1) -> F2 x = F2c x.
  Proof. intros H. unfold F2, F2c; cbv zeta. rewrite is_zeroR_false by farz. unR. rewrite is_equalR_false by farz. unfold pow2, pow3; unR. f_equal; [|ring]. f_equal; [ring|]. f_equal. 1: ring. f_equal; [ring|]. f_equal. ring. Qed.
  Lemma F3_exact : 1/100 < Rabs (x - 1) -> F3 x = F3c x.
  Proof. intros H. unfold F3, F3c; cbv zeta. rewrite is_zeroR_false by farz. unR. rewrite is_equalR_false by farz. unfold pow2, pow3; unR. simpl pow. rewrite !Rmult_1_r. reflexivity. Qed.
  Lemma F4_exact : 1/100 < Rabs (x - 1) -> F4 x = F4c x.
  Proof. intros H. unfold F4, F4c; cbv zeta. rewrite is_zeroR_false by farz. unR. rewrite is_equalR_false by farz. unfold pow2, pow3; unR. simpl pow. rewrite !Rmult_1_r. reflexivity. Qed.
  Lemma F5_exact : 1/100 < Rabs (x - 1) -> 1/100 < Rabs (x - -1) -> F5 x = F5c x.
  Proof. intros H H'. unfold F5, F5c; cbv zeta. rewrite is_zeroR_false by farz. unR. rewrite is_equalR_false by farz.
    rewrite mone, is_equalR_false by farz. unfold pow2, pow3; unR. replace (x ^ 2) with (x * x) by ring. f_equal; [|ring]. f_equal. f_equal. ring. Qed.
  Lemma F6_exact : 1/100 < Rabs (x^2 - 1) -> F6 x = F6c x.
  Proof. intros H. unfold F6, F6c; cbv zeta. rewrite is_zeroR_false by farz. unfold pow2; unR. replace (x * x) with (x^2) by ring. rewrite is_equalR_false by farz.
    replace ((1 - x^2)^2) with ((1 - x ^ 2) * (1 - x ^ 2)) by ring. reflexivity. Qed.
  Lemma F7_exact : 1/100 < Rabs (x^2 - 1) -> F7 x = F7c x.
  Proof. intros H. unfold F7, F7c; cbv zeta. rewrite is_zeroR_false by farz. unfold pow3, pow2; unR. replace (x * x) with (x^2) by ring. rewrite is_equalR_false by farz.
    replace (x^4) with (x^2 * x^2) by ring.
    replace ((x^2 - 1)^2) with ((x^2 - 1) * (x ^ 2 - 1)) by ring. 
    replace ((x^2 - 1)^3) with ((x^2 - 1) * (x ^ 2 - 1) * (x^2 - 1)) by ring. reflexivity. Qed.
End Single.

Lemma F5_odd x : F5c (- x) = - F5c x.
Proof. unfold F5c. replace ((-x)^2) with (x^2) by ring. replace ((-x)^4) with (x^4) by ring. unfold Rdiv. ring. Qed.
Lemma F5_window_m1 x : Rabs (x + 1) <= 1/100 -> x <> -1 -> Rabs (F5 x - F5c x) <= 1 / 5 * Rabs (x + 1) ^ 5.
Proof.
  intros H N.
  assert (E : F5 x = - F5 (- x)).
  { assert (B := absle _ _ H). unfold F5; cbv zeta.
    rewrite !is_zeroR_false by (rewrite eps_defaultR, ?Rabs_Ropp; unfold Rabs; destruct (Rcase_abs x); lra).
    unR. rewrite mone, dec_1_2.
    rewrite is_equalR_false by (unfold Rabs; destruct (Rcase_abs (x - 1)); lra).
    rewrite is_equalR_true by (replace (x - -1) with (x + 1) by ring; exact H).
    rewrite is_equalR_true by (replace (- x - 1) with (- (x + 1)) by ring; rewrite Rabs_Ropp; exact H).
    unfold pow2, Rdec; unR. simpl Z.pow. field. }
  replace (F5c x) with (- F5c (- x)) by (rewrite F5_odd; ring). rewrite E.
  replace (- F5 (- x) - - F5c (- x)) with (- (F5 (- x) - F5c (- x))) by ring. rewrite Rabs_Ropp.
  replace (x + 1) with (- ((- x) - 1)) by ring. rewrite Rabs_Ropp.
  apply F5_window; [|lra]. replace (- x - 1) with (- (x + 1)) by ring. rewrite Rabs_Ropp. exact H.
Qed.

Section SingleAbs.
  Variable r : R.
  Hypothesis Ha : 1/100 < Rabs (Rabs r - 1).
  Lemma neq0 e : 0 < e -> e <= Rabs r -> r <> 0.
  Proof. intros H1 H2 E. rewrite E, Rabs_R0 in H2. lra. Qed.
  Lemma neq0' e : 0 < e -> e < Rabs r -> r <> 0.
  Proof. intros H1 H2. apply (neq0 e); lra. Qed.
  Lemma f1_exact : 1/100 <= Rabs r -> f1 r = f1c r.
  Proof. intros Hz. unfold f1, f1c; cbv zeta. unR. rewrite Reqb_false by (apply (neq0 (1/100)); lra). rewrite dec_1_2. rewrite Rltb_false by lra.
    rewrite is_equalR_false by exact Ha. unfold pow2; unR. replace (r * r) with (r^2) by ring. unfold Rdiv.
    f_equal; [f_equal; f_equal; ring|]. f_equal; [|f_equal; ring]. replace (r^4) with (r^2 * r^2) by ring. ring. Qed.
  Lemma f2_exact : 1/100 <= Rabs r -> f2 r = f2c r.
  Proof. intros Hz. unfold f2, f2c; cbv zeta. unR. rewrite Reqb_false by (apply (neq0 (1/100)); lra). rewrite dec_1_2. rewrite Rltb_false by lra.
    rewrite is_equalR_false by exact Ha. unfold pow2; unR. replace (r * r) with (r^2) by ring. unfold Rdiv.
    f_equal; [f_equal; f_equal; ring|]. f_equal; [|f_equal; ring]. replace (r^4) with (r^2 * r^2) by ring. ring. Qed.
  Lemma f3_exact : 1/1000000 < Rabs r -> f3 r = f3c r.
  Proof. intros Hz. unfold f3, f3c; cbv zeta. unR. rewrite Reqb_false by (apply (neq0' (1/1000000)); lra). rewrite is_zeroR_false by farz.
    rewrite is_equalR_false by farz. unfold pow2; unR. replace (r * r) with (r^2) by ring. unfold Rdiv.
    replace (r^4) with (r^2 * r^2) by ring. f_equal; f_equal; f_equal; ring. Qed.
  Lemma f4_exact : 1/1000000 < Rabs r -> f4 r = f4c r.
  Proof. intros Hz. unfold f4, f4c; cbv zeta. unR. rewrite Reqb_false by (apply (neq0' (1/1000000)); lra). rewrite is_zeroR_false by farz.
    rewrite is_equalR_false by farz. unfold pow2; unR. replace (r * r) with (r^2) by ring. unfold Rdiv.
    replace (r^4) with (r^2 * r^2) by ring. f_equal; f_equal; f_equal; ring. Qed.
End SingleAbs.

(** Two arguments, no special case *)
Section Two.
  Variables x1 x2 : R.
  Hypothesis A1 : 1/100 < Rabs (Rabs x1 - 1).
  Hypothesis A2 : 1/100 < Rabs (Rabs x2 - 1).
  Lemma F8_exact : 1/100000 < Rabs x1 -> 1/100000 < Rabs x2 -> 1/100000 < Rabs (Rabs x1 - Rabs x2) -> F8 x1 x2 = F8c x1 x2.
  Proof.
    intros Z1 Z2 D. pose proof eps0_small. unfold F8, F8c; cbv zeta. unR.
    rewrite (is_zeroR_false x1 (_ * _)) by (rewrite eps0_eq; lra). cbn [andb].
    rewrite !(is_equalR_false (Rabs _) 1) by farz. cbn [andb].
    rewrite !is_zeroR_false by farz. rewrite is_equalR_false by farz.
    unfold pow2; unR. replace (x1 * x1) with (x1^2) by ring. replace (x2 * x2) with (x2^2) by ring.
    replace (x1^4) with (x1^2 * x1^2) by ring. replace (x2^4) with (x2^2 * x2^2) by ring. reflexivity.
  Qed.
  Lemma F9_exact : 1/10000 < Rabs x1 -> 1/10000 < Rabs x2 -> 1/100000 < Rabs (Rabs x1 - Rabs x2) -> F9 x1 x2 = F9c x1 x2.
  Proof.
    intros Z1 Z2 D. unfold F9, F9c; cbv zeta. unR.
    rewrite !(is_equalR_false (Rabs _) 1) by farz. cbn [andb].
    rewrite !is_zeroR_false by farz. rewrite is_equalR_false by farz.
    unfold pow2; unR. replace (x1 * x1) with (x1^2) by ring. replace (x2 * x2) with (x2^2) by ring. reflexivity.
  Qed.
End Two.
Section Two'.
  Variables r1 r2 e0 : R.
  Hypothesis Z1 : e0 < Rabs r1.
  Hypothesis Z2 : e0 < Rabs r2.
  Hypothesis D : 1/10000 < Rabs (r1 - r2).
  Ltac go := unfold pow5, pow4, pow3, pow2; unR; unfold Rdec; simpl Z.pow; unfold Rdiv;
    replace (r1 * r1) with (r1^2) by ring; replace (r2 * r2) with (r2^2) by ring;
    replace ((r1^2 - 1) * (r1^2 - 1)) with ((r1^2 - 1)^2) by ring; replace ((r2^2 - 1) * (r2^2 - 1)) with ((r2^2 - 1)^2) by ring;
    generalize (ln (r1^2)) (ln (r2^2)) (/ ((r1 ^ 2 - 1) * (r2 ^ 2 - 1))) (/ ((r1 ^ 2 - 1) ^ 2 * (r1 - r2))) (/ ((r1 - r2) * (r2 ^ 2 - 1) ^ 2)); intros; lra || (field_simplify; ring) || field.
  Lemma f5_exact : e0 = 1/10000 -> 1/100 < Rabs (r1 - 1) -> 1/100 < Rabs (r2 - 1) ->
    (1/100 < Rabs (r1 - -1) \/ 1/100 < Rabs (r2 - -1)) -> f5 r1 r2 = f5c r1 r2.
  Proof.
    intros E A1 A2 B. unfold f5, f5c; cbv zeta. unR. rewrite ?mone.
    rewrite !is_zeroR_false by farz. cbn [andb].
    rewrite !(is_equalR_false _ 1) by farz. cbn [andb].
    assert (C : is_equal r1 (-1) (Rdec 1 2) && is_equal r2 (-1) (Rdec 1 2) = false).
    { destruct B as [B|B]; [rewrite (is_equalR_false r1 (-1)) by (rewrite dec_1_2; exact B)|rewrite (is_equalR_false r2 (-1)) by (rewrite dec_1_2; exact B)]; auto using andb_false_r. }
    rewrite C. rewrite is_equalR_false by farz. go.
  Qed.
  Lemma f6_exact : e0 = 1/10000 -> 1/1000 < Rabs (r1 - 1) -> 1/1000 < Rabs (r2 - 1) ->
    (2/100 < Rabs (r1 - 1) \/ 2/100 < Rabs (r2 - 1)) ->
    (2/100 < Rabs (r1 - -1) \/ 2/100 < Rabs (r2 - -1)) -> f6 r1 r2 = f6c r1 r2.
  Proof.
    intros E A1 A2 B0 B. unfold f6, f6c; cbv zeta. unR. rewrite ?mone.
    rewrite !is_zeroR_false by farz. cbn [andb].
    assert (D2 : Rdec 2 2 = 2/100) by (unfold Rdec; simpl Z.pow; lra).
    assert (C0 : is_equal r1 1 (Rdec 2 2) && is_equal r2 1 (Rdec 2 2) = false).
    { destruct B0 as [B0|B0]; [rewrite (is_equalR_false r1 1) by (rewrite D2; exact B0)|rewrite (is_equalR_false r2 1) by (rewrite D2; exact B0)]; auto using andb_false_r. }
    assert (C : is_equal r1 (-1) (Rdec 2 2) && is_equal r2 (-1) (Rdec 2 2) = false).
    { destruct B as [B|B]; [rewrite (is_equalR_false r1 (-1)) by (rewrite D2; exact B)|rewrite (is_equalR_false r2 (-1)) by (rewrite D2; exact B)]; auto using andb_false_r. }
    rewrite C0, C. rewrite !is_equalR_false by farz. go.
  Qed.
  Lemma f7_exact : e0 = 1/10000 -> 2/100 < Rabs (r1 - 1) -> 2/100 < Rabs (r2 - 1) ->
    (2/100 < Rabs (r1 - -1) \/ 2/100 < Rabs (r2 - -1)) -> f7 r1 r2 = f7c r1 r2.
  Proof.
    intros E A1 A2 B. unfold f7, f7c; cbv zeta. unR. rewrite ?mone.
    rewrite !is_zeroR_false by farz. cbn [andb].
    assert (D2 : Rdec 2 2 = 2/100) by (unfold Rdec; simpl Z.pow; lra).
    rewrite !(is_equalR_false _ 1) by farz. cbn [andb].
    assert (C : is_equal r1 (-1) (Rdec 2 2) && is_equal r2 (-1) (Rdec 2 2) = false).
    { destruct B as [B|B]; [rewrite (is_equalR_false r1 (-1)) by (rewrite D2; exact B)|rewrite (is_equalR_false r2 (-1)) by (rewrite D2; exact B)]; auto using andb_false_r. }
    rewrite C. rewrite is_equalR_false by farz. go.
  Qed.
  Lemma f8_exact : e0 = 5/100000 -> 1/100 < Rabs (r1 - 1) -> 1/100 < Rabs (r2 - 1) ->
    (1/100 < Rabs (r1 - -1) \/ 1/100 < Rabs (r2 - -1)) -> f8 r1 r2 = f8c r1 r2.
  Proof.
    intros E A1 A2 B. unfold f8, f8c; cbv zeta. unR. rewrite ?mone.
    rewrite !is_zeroR_false by farz. cbn [andb].
    rewrite !(is_equalR_false _ 1) by farz. cbn [andb].
    assert (C : is_equal r1 (-1) (Rdec 1 2) && is_equal r2 (-1) (Rdec 1 2) = false).
    { destruct B as [B|B]; [rewrite (is_equalR_false r1 (-1)) by (rewrite dec_1_2; exact B)|rewrite (is_equalR_false r2 (-1)) by (rewrite dec_1_2; exact B)]; auto using andb_false_r. }
    rewrite C. rewrite is_equalR_false by farz. go.
  Qed.
End Two'.
