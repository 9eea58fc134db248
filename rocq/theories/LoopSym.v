(** * Symmetry of the two-argument loop functions: proofs *)
From Coq Require Import Reals List Bool Lra Lia ZArith.
From Verif Require Import Num NumFacts Dilog LoopFun LoopProofs LoopProofs2.
Open Scope R_scope.

Lemma is_equal_sym (a b p : R) : is_equal a b p = is_equal b a p.
Proof. rewrite !is_equalR, Rabs_minus_sym. reflexivity. Qed.
Lemma Hinv (x p : R) : is_zero x p = true -> Rabs x <= p.
Proof. rewrite is_zeroR. unfold Rleb. destruct (Rle_dec (Rabs x) p); [auto|discriminate]. Qed.
Lemma Heinv (x y p : R) : is_equal x y p = true -> Rabs (x - y) <= p.
Proof. rewrite is_equalR. unfold Rleb. destruct (Rle_dec (Rabs (x - y)) p); [auto|discriminate]. Qed.
Lemma Heinv0 (x y p : R) : is_equal x y p = false -> p < Rabs (x - y).
Proof. rewrite is_equalR. unfold Rleb. destruct (Rle_dec (Rabs (x - y)) p); [discriminate|lra]. Qed.

Lemma F8_1_1_sym (x1 x2 : R) : F8_1_1 x1 x2 = F8_1_1 x2 x1.
Proof. unfold F8_1_1, pow2; cbv zeta; unR. lra. Qed.
Lemma F9_1_1_sym (x1 x2 : R) : F9_1_1 x1 x2 = F9_1_1 x2 x1.
Proof. unfold F9_1_1, pow2; cbv zeta; unR. lra. Qed.
Lemma f5_1_1_sym (x1 x2 : R) : f5_1_1 x1 x2 = f5_1_1 x2 x1.
Proof. unfold f5_1_1, pow2; cbv zeta; unR. lra. Qed.
Lemma f6_1_1_sym (x1 x2 : R) : f6_1_1 x1 x2 = f6_1_1 x2 x1.
Proof. unfold f6_1_1, pow2; cbv zeta; unR. field. Qed.
Lemma f7_1_1_sym (x1 x2 : R) : f7_1_1 x1 x2 = f7_1_1 x2 x1.
Proof. unfold f7_1_1, pow2; cbv zeta; unR. field. Qed.
Lemma f8_1_1_sym (x1 x2 : R) : f8_1_1 x1 x2 = f8_1_1 x2 x1.
Proof. unfold f8_1_1, pow2; cbv zeta; unR. field. Qed.

Lemma F8_sym (x1 x2 : R) :
  1/100000 < Rmax (Rabs x1) (Rabs x2) -> 1/100000 < Rabs (Rabs x1 - Rabs x2) -> F8 x1 x2 = F8 x2 x1.
Proof.
  intros HM HD. unfold F8; cbv zeta; unR. rewrite (is_equal_sym (Rabs x2) (Rabs x1)).
  rewrite (is_equalR_false (Rabs x1) (Rabs x2)) by farz.
  set (e := 10 * eps_default). rewrite (andb_comm (is_zero x2 e)). rewrite (andb_comm (is_equal (Rabs x2) 1 _)).
  destruct (is_zero x1 e && is_zero x2 e); [reflexivity|].
  destruct (is_equal (Rabs x1) 1 _), (is_equal (Rabs x2) 1 _); cbn [andb]; try reflexivity.
  { apply F8_1_1_sym. }
  destruct (is_zero x1 (Rdec 1 5)) eqn:Z1, (is_zero x2 (Rdec 1 5)) eqn:Z2; try reflexivity.
  - exfalso. apply Hinv in Z1. apply Hinv in Z2. unfold Rdec in *. simpl Z.pow in *.
    revert HM. apply Rle_not_lt. apply Rmax_lub; lra.
  - unfold pow2; unR. set (A := _ / _ * ln (x1 * x1)). set (B := _ / _ * ln (x2 * x2)).
    assert (x1 * x1 - x2 * x2 <> 0).
    { intros E. assert (EE : Rabs x1 = Rabs x2) by (apply Rsqr_eq_abs_0; unfold Rsqr; lra).
      rewrite EE in HD. replace (Rabs x2 - Rabs x2) with 0 in HD by ring. rewrite Rabs_R0 in HD. lra. }
    field. lra.
Qed.
Lemma F9_sym (x1 x2 : R) :
  1/10000 < Rmax (Rabs x1) (Rabs x2) -> 1/100000 < Rabs (Rabs x1 - Rabs x2) -> F9 x1 x2 = F9 x2 x1.
Proof.
  intros HM HD. unfold F9; cbv zeta; unR. rewrite (is_equal_sym (Rabs x2) (Rabs x1)).
  rewrite (is_equalR_false (Rabs x1) (Rabs x2)) by farz.
  rewrite (andb_comm (is_equal (Rabs x2) 1 _)).
  destruct (is_equal (Rabs x1) 1 _), (is_equal (Rabs x2) 1 _); cbn [andb]; try reflexivity.
  { apply F9_1_1_sym. }
  destruct (is_zero x1 (Rdec 1 4)) eqn:Z1, (is_zero x2 (Rdec 1 4)) eqn:Z2; try reflexivity.
  - exfalso. apply Hinv in Z1. apply Hinv in Z2. unfold Rdec in *. simpl Z.pow in *.
    revert HM. apply Rle_not_lt. apply Rmax_lub; lra.
  - unfold pow2; unR. set (A := _ / _ * ln (x1 * x1)). set (B := _ / _ * ln (x2 * x2)).
    assert (x1 * x1 - x2 * x2 <> 0).
    { intros E. assert (EE : Rabs x1 = Rabs x2) by (apply Rsqr_eq_abs_0; unfold Rsqr; lra).
      rewrite EE in HD. replace (Rabs x2 - Rabs x2) with 0 in HD by ring. rewrite Rabs_R0 in HD. lra. }
    field. lra.
Qed.


Section Sym.
  Variables r1 r2 : R.
  Hypothesis D : 1/10000 < Rabs (r1 - r2).
  Lemma ned : r1 <> r2. Proof. intros E. rewrite E in D. replace (r2 - r2) with 0 in D by ring. rewrite Rabs_R0 in D. lra. Qed.
  Ltac last :=
    unfold pow5, pow4, pow3, pow2; unR; unfold Rdiv; rewrite ?Rinv_mult;
    replace (/ (r2 - r1)) with (- / (r1 - r2)) by (field; pose proof ned; lra);
    generalize (ln (r1 * r1)) (ln (r2 * r2)) (/ (r1 - r2)) (/ (r1 * r1 - 1)) (/ (r2 * r2 - 1)); intros; ring.
  Ltac zz HM e := exfalso; repeat match goal with H : is_zero _ _ = true |- _ => apply Hinv in H end; unfold Rdec in *; simpl Z.pow in *;
    revert HM; apply Rle_not_lt, Rmax_lub; lra.
  Lemma f5_sym : 1/10000 < Rmax (Rabs r1) (Rabs r2) -> f5 r1 r2 = f5 r2 r1.
  Proof.
    intros HM. unfold f5; cbv zeta; unR. rewrite (is_equal_sym r2 r1), (is_equalR_false r1 r2) by farz.
    rewrite (andb_comm (is_zero r2 _)). rewrite (andb_comm (is_equal r2 1 _)), (andb_comm (is_equal r2 (-(1)) _)).
    destruct (is_zero r1 _) eqn:Z1, (is_zero r2 _) eqn:Z2; cbn [andb]; [zz HM e| | |];
    destruct (is_equal r1 1 _), (is_equal r2 1 _), (is_equal r1 (-(1)) _), (is_equal r2 (-(1)) _); cbn [andb]; try reflexivity; try apply f5_1_1_sym;
    last.
  Qed.
  Lemma f6_sym : 1/10000 < Rmax (Rabs r1) (Rabs r2) -> f6 r1 r2 = f6 r2 r1.
  Proof.
    intros HM. unfold f6; cbv zeta; unR. rewrite (is_equal_sym r2 r1), (is_equalR_false r1 r2) by farz.
    rewrite (andb_comm (is_zero r2 _)). rewrite (andb_comm (is_equal r2 1 _)), (andb_comm (is_equal r2 (-(1)) _)).
    destruct (is_zero r1 _) eqn:Z1, (is_zero r2 _) eqn:Z2; cbn [andb]; [zz HM e| | |].
    all: destruct (is_equal r1 1 (Rdec 2 2) && is_equal r2 1 (Rdec 2 2)) eqn:B1; [apply f6_1_1_sym|].
    all: destruct (is_equal r1 (-(1)) (Rdec 2 2) && is_equal r2 (-(1)) (Rdec 2 2)) eqn:B2; [apply f6_1_1_sym|].
    all: destruct (is_equal r1 1 (Rdec 1 3)) eqn:C1, (is_equal r2 1 (Rdec 1 3)) eqn:C2; try reflexivity; try last.
    all: exfalso; apply andb_false_iff in B1; apply Heinv in C1; apply Heinv in C2; destruct B1 as [B1|B1]; apply Heinv0 in B1;
      unfold Rdec in *; simpl Z.pow in *; lra.
  Qed.
  Lemma f7_sym : 1/10000 < Rmax (Rabs r1) (Rabs r2) -> f7 r1 r2 = f7 r2 r1.
  Proof.
    intros HM. unfold f7; cbv zeta; unR. rewrite (is_equal_sym r2 r1), (is_equalR_false r1 r2) by farz.
    rewrite (andb_comm (is_zero r2 _)). rewrite (andb_comm (is_equal r2 1 _)), (andb_comm (is_equal r2 (-(1)) _)).
    destruct (is_zero r1 _) eqn:Z1, (is_zero r2 _) eqn:Z2; cbn [andb]; [zz HM e| | |];
    destruct (is_equal r1 1 _), (is_equal r2 1 _), (is_equal r1 (-(1)) _), (is_equal r2 (-(1)) _); cbn [andb]; try reflexivity; try apply f7_1_1_sym;
    last.
  Qed.
  Lemma f8_sym : 5/100000 < Rmax (Rabs r1) (Rabs r2) -> f8 r1 r2 = f8 r2 r1.
  Proof.
    intros HM. unfold f8; cbv zeta; unR. rewrite (is_equal_sym r2 r1), (is_equalR_false r1 r2) by farz.
    rewrite (andb_comm (is_zero r2 _)). rewrite (andb_comm (is_equal r2 1 _)), (andb_comm (is_equal r2 (-(1)) _)).
    destruct (is_zero r1 _) eqn:Z1, (is_zero r2 _) eqn:Z2; cbn [andb]; [zz HM e| | |];
    destruct (is_equal r1 1 _), (is_equal r2 1 _), (is_equal r1 (-(1)) _), (is_equal r2 (-(1)) _); cbn [andb]; try reflexivity; try apply f8_1_1_sym;
    last.
  Qed.
End Sym.

(** sort3 depends only on the multiset of its arguments *)
Lemma sort3_12 (x y z : R) : sort3 x y z = sort3 y x z.
Proof.
  unfold sort3; unR. repeat match goal with |- context [Rltb ?a ?b] => destruct (Rltb_spec a b) end; cbn; 
  repeat match goal with |- context [Rltb ?a ?b] => destruct (Rltb_spec a b) end; cbn; repeat f_equal; lra.
Qed.
Lemma sort3_23 (x y z : R) : sort3 x y z = sort3 x z y.
Proof.
  unfold sort3; unR. repeat match goal with |- context [Rltb ?a ?b] => destruct (Rltb_spec a b) end; cbn; 
  repeat match goal with |- context [Rltb ?a ?b] => destruct (Rltb_spec a b) end; cbn; repeat f_equal; lra.
Qed.
