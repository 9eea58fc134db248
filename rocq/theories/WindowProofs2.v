(** * Special-case branches of the two-argument loop functions: the branches
    Each branch evaluated on expressions is the branch on numbers; the bounds of WindowProofs.v apply to them. *)
From Coq Require Import Reals ZArith List Bool Lra Lia.
From Verif Require Import Num NumFacts HierExpr HierPoly FieldPoly FieldNF MirrorNF LoopFun LoopSpec LoopProofs WindowNF WindowTab WindowProofs.
Import ListNotations.
Open Scope R_scope.

Lemma powZ x n : powerRZ x (Z.of_nat n) = x ^ n. Proof. symmetry. apply pow_powerRZ. Qed.
Lemma nth_bound {A} (P : A -> bool) l x : forallb P l = true -> In x l -> P x = true.
Proof. intros H. exact (proj1 (forallb_forall P l) H x). Qed.
Lemma chkA_ok : chkA = true. Proof. vm_compute. reflexivity. Qed.
Lemma chkB_ok : chkB = true. Proof. vm_compute. reflexivity. Qed.
Lemma chkC_ok : chkC = true. Proof. vm_compute. reflexivity. Qed.

Definition bdA (f g : R -> R -> R) (n : nat) : Prop := forall Mx, 1 <= Mx -> exists C, 0 <= C /\ forall r1 r2, near_equal Mx r1 r2 -> Rabs (f r1 r2 - g r1 r2) <= C * Rabs (r1 - r2) ^ n.
Definition bdB (f g : R -> R -> R) (n : nat) : Prop := forall Mx, 1 <= Mx -> exists C, 0 <= C /\ forall r1 r2, near_one Mx r1 r2 -> Rabs (f r1 r2 - g r1 r2) <= C * Rabs (r1 - 1) ^ n.
Definition bdC (f g : R -> R -> R) (n : nat) (z : R) : Prop := forall Mx, 1 <= Mx -> exists C, 0 <= C /\ forall r1 r2, z < r1 * r1 -> near_zero Mx r1 r2 -> Rabs (f r1 r2 - g r1 r2) <= C * sqrt (Rabs r1) ^ n.

Ltac winA_ k := let Mx := fresh "Mx" in let HM := fresh "HM" in intros Mx HM;
  match k with (?n, ?e) => destruct (winA n e (nth_bound _ _ (n, e) chkA_ok ltac:(cbn [In]; tauto)) Mx HM) as (C & HC & K);
  exists C; split; [exact HC|]; intros r1 r2 H; rewrite <- powZ; exact (K r1 r2 H) end.
Open Scope num_scope.
Lemma A_F8 : bdA F8_x1_x2 F8c 4. Proof. winA_ (4%Z, F8_x1_x2 xa xb - F8x xa xb). Qed.
Lemma A_F9 : bdA F9_x1_x2 F9c 4. Proof. winA_ (4%Z, F9_x1_x2 xa xb - F9x xa xb). Qed.
Lemma A_f5 : bdA f5_r1_r2 f5c 4. Proof. winA_ (4%Z, f5_r1_r2 xa xb - f5x xa xb). Qed.
Lemma A_f6 : bdA f6_r1_r2 f6c 5. Proof. winA_ (5%Z, f6_r1_r2 xa xb - f6x xa xb). Qed.
Lemma A_f7 : bdA f7_r1_r2 f7c 5. Proof. winA_ (5%Z, f7_r1_r2 xa xb - f7x xa xb). Qed.
Lemma A_f8 : bdA f8_r1_r2 f8c 5. Proof. winA_ (5%Z, f8_r1_r2 xa xb - f8x xa xb). Qed.
Ltac winC_ k := let Mx := fresh "Mx" in let HM := fresh "HM" in intros Mx HM;
  match k with (?n, ?e) => destruct (winC n e (nth_bound _ _ (n, e) chkC_ok ltac:(cbn [In]; tauto)) Mx HM) as (C & HC & K);
  exists C; split; [exact HC|]; intros r1 r2 Hz H; rewrite <- powZ; specialize (K r1 r2 H) end.
Lemma C_F8 : bdC F8_0_x2 F8c 7 (-1)%R. Proof. winC_ (7%Z, F8_0_x2 xa xb - F8x xa xb). exact K. Qed.
Lemma C_F9 : bdC F9_0_x2 F9c 3 (-1)%R. Proof. winC_ (3%Z, F9_0_x2 xa xb - F9x xa xb). exact K. Qed.
Lemma C_f5 : bdC f5_0_r2 f5c 5 (-1)%R. Proof. winC_ (5%Z, f5_0_r2 xa xb - f5x xa xb). exact K. Qed.
Lemma C_f6 : bdC f6_0_r2 f6c 9 (-1)%R. Proof. winC_ (9%Z, f6_0_r2 xa xb - f6x xa xb). exact K. Qed.
Lemma xlogx_big (x : R) : 1 / 100000000000000 < x -> xlogx x = x * ln x.
Proof. intros H. unfold xlogx. rewrite is_zeroR_false; [reflexivity|]. rewrite Rabs_pos_eq by lra. unfold ndec, NumR, Rdec. change (IZR (10 ^ 14)) with (IZR 100000000000000). lra. Qed.
Lemma C_f7 : bdC f7_0_r2 f7c 9 (1 / 100000000000000)%R. Proof. winC_ (9%Z, f7_0_r2 xa xb - f7x xa xb). unfold f7_0_r2. cbv zeta. change (xlogx (pow2 r1)) with (xlogx (r1 * r1)%R). rewrite (xlogx_big _ Hz). exact K. Qed.
Lemma C_f8 : bdC f8_0_r2 f8c 9 (1 / 100000000000000)%R. Proof. winC_ (9%Z, f8_0_r2 xa xb - f8x xa xb). unfold f8_0_r2. cbv zeta. change (xlogx (pow2 r1)) with (xlogx (r1 * r1)%R). rewrite (xlogx_big _ Hz). exact K. Qed.

Lemma xlogx_small (x : R) : (Rabs x <= 1 / 100000000000000)%R -> xlogx x = 0%R.
Proof. intros H. unfold xlogx. rewrite is_zeroR_true; [reflexivity|]. unR. unfold Rdec. simpl Z.pow. lra. Qed.
Definition bdC0 (f g : R -> R -> R) (n : nat) : Prop :=
  (forall Mx, 1 <= Mx -> exists C, 0 <= C /\ forall r1 r2, r1 * r1 <= 1 / 100000000000000 -> near_zero Mx r1 r2 -> Rabs (f r1 r2 - g r1 r2) <= C * sqrt (Rabs r1) ^ n)%R.
Lemma C_f7' : bdC0 f7_0_r2 f7c 5.
Proof. winC_ (5%Z, f7w0 xa xb - f7x xa xb). unfold f7_0_r2. cbv zeta. change (xlogx (pow2 r1)) with (xlogx (r1 * r1)%R). rewrite xlogx_small by (rewrite Rabs_pos_eq; nra). exact K. Qed.
Lemma C_f8' : bdC0 f8_0_r2 f8c 7.
Proof. winC_ (7%Z, f8w0 xa xb - f8x xa xb). unfold f8_0_r2. cbv zeta. change (xlogx (pow2 r1)) with (xlogx (r1 * r1)%R). rewrite xlogx_small by (rewrite Rabs_pos_eq; nra). exact K. Qed.

Ltac winB_ e := let Mx := fresh "Mx" in let HM := fresh "HM" in intros Mx HM;
  destruct (winB 5%Z e (nth_bound _ _ e chkB_ok ltac:(cbn [In]; tauto)) Mx HM) as (C & HC & K);
  exists C; split; [exact HC|]; intros r1 r2 Hz H; change (Rabs (r1 - 1)%R ^ 5)%R with (powerRZ (Rabs (r1 - 1)%R) 5); specialize (K r1 r2 H).
Definition bdB' (f g : R -> R -> R) (z : R) : Prop :=
  forall Mx, (1 <= Mx)%R -> exists C, (0 <= C)%R /\ forall r1 r2, (z < Rabs r2)%R -> near_one Mx r1 r2 -> (Rabs (f r1 r2 - g r1 r2) <= C * Rabs (r1 - 1) ^ 5)%R.
Ltac zf := rewrite is_zeroR_false by (unR; unfold Rdec; simpl Z.pow; lra).
Lemma B_F8 : bdB' F8_1_x2 F8c (1 / 100)%R. Proof. winB_ (F8_1_x2 xa xb - F8x xa xb). unfold F8_1_x2. cbv zeta. zf. exact K. Qed.
Lemma B_F9 : bdB' F9_1_x2 F9c (1 / 100)%R. Proof. winB_ (F9_1_x2 xa xb - F9x xa xb). unfold F9_1_x2. cbv zeta. zf. exact K. Qed.
Lemma B_f5 : bdB' f5_1_r2 f5c (1 / 100)%R. Proof. winB_ (f5_1_r2 xa xb - f5x xa xb). unfold f5_1_r2. cbv zeta. zf. exact K. Qed.
Lemma B_f6 : bdB' f6_1_r2 f6c (1 / 10000)%R. Proof. winB_ (f6_1_r2 xa xb - f6x xa xb). unfold f6_1_r2. cbv zeta. zf. exact K. Qed.
Lemma B_f7 : bdB' f7_1_r2 f7c (1 / 10000)%R. Proof. winB_ (f7_1_r2 xa xb - f7x xa xb). unfold f7_1_r2. cbv zeta. zf. exact K. Qed.
Lemma B_f8 : bdB' f8_1_r2 f8c (1 / 10000)%R. Proof. winB_ (f8_1_r2 xa xb - f8x xa xb). unfold f8_1_r2. cbv zeta. zf. exact K. Qed.
