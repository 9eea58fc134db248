(** * Reading the decimal literals as rationals *)
From Coq Require Import ZArith List Reals Lra Lia Bool.
From Verif Require Import Num NumFacts HierExpr HierPoly HierNF HierRead.
Import ListNotations.
Local Open Scope Z_scope.

Fixpoint lookup (t : list ((Z * Z) * (Z * positive))) (m k : Z) : option (Z * positive) :=
  match t with
  | [] => None
  | ((m', k'), ab) :: t => if (m =? m') && (k =? k') then Some ab else lookup t m k
  end.
(** value of the literal m / 10^k in the rational reading *)
Definition reading (m k : Z) : Z * positive :=
  match lookup hier_reading m k with Some ab => ab | None => (m, Z.to_pos (10 ^ k)) end.
Definition reading_R (m k : Z) : R := let '(a, b) := reading m k in (IZR a / IZR (Zpos b))%R.
Definition reading_P (m k : Z) : PR := Some (reading_R m k).

Definition close (e : (Z * Z) * (Z * positive)) : bool :=
  let '((m, k), (a, b)) := e in
  (0 <=? k) && (Z.abs (a * 10 ^ k - m * Zpos b) * (10 ^ 16) <=? 4 * Z.abs m * Zpos b).
Lemma all_close : forallb close hier_reading = true.
Proof. vm_compute. reflexivity. Qed.

Lemma lookup_in t m k ab : lookup t m k = Some ab -> In ((m, k), ab) t.
Proof.
  induction t as [|[[m' k'] ab'] t IH]; [discriminate|]. cbn [lookup].
  destruct (Z.eqb_spec m m'); [destruct (Z.eqb_spec k k')|]; cbn [andb]; try (intros H; right; apply IH; exact H).
  intros H; inversion H; subst. left; reflexivity.
Qed.

(** every literal is read as a number that differs from it by at most 4 units in the 16th digit *)
Theorem reading_close m k : 0 <= k -> (Rabs (reading_R m k - Rdec m k) <= 4 / 10 ^ 16 * Rabs (Rdec m k))%R.
Proof.
  intros Hk. unfold reading_R, reading.
  assert (P : (0 < IZR (10 ^ k))%R) by (apply IZR_lt; apply Z.pow_pos_nonneg; lia).
  destruct (lookup hier_reading m k) as [[a b]|] eqn:E.
  - apply lookup_in in E. assert (H := proj1 (forallb_forall close hier_reading) all_close _ E).
    unfold close in H. apply andb_true_iff in H. destruct H as (_ & H). apply Z.leb_le in H.
    apply IZR_le in H. rewrite !mult_IZR, !abs_IZR, minus_IZR, !mult_IZR in H.
    change (IZR (10 ^ 16)) with (10000000000000000)%R in H.
    assert (Pb : (0 < IZR (Zpos b))%R) by (apply IZR_lt; lia).
    unfold Rdec.
    replace (IZR a / IZR (Z.pos b) - IZR m / IZR (10 ^ k))%R with ((IZR a * IZR (10 ^ k) - IZR m * IZR (Z.pos b)) / (IZR (Z.pos b) * IZR (10 ^ k)))%R by (field; lra).
    unfold Rdiv. rewrite !Rabs_mult. rewrite (Rabs_pos_eq (/ _)) by (left; apply Rinv_0_lt_compat; apply Rmult_lt_0_compat; assumption).
    rewrite (Rabs_pos_eq (/ IZR (10 ^ k))) by (left; apply Rinv_0_lt_compat; assumption).
    set (X := Rabs (IZR a * IZR (10 ^ k) - IZR m * IZR (Z.pos b))) in *. set (Y := Rabs (IZR m)) in *.
    apply (Rmult_le_reg_r (IZR (Z.pos b) * IZR (10 ^ k))); [apply Rmult_lt_0_compat; assumption|].
    replace (X * / (IZR (Z.pos b) * IZR (10 ^ k)) * (IZR (Z.pos b) * IZR (10 ^ k)))%R with X by (field; lra).
    replace (4 * / 10 ^ 16 * (Y * / IZR (10 ^ k)) * (IZR (Z.pos b) * IZR (10 ^ k)))%R with (4 * Y * IZR (Z.pos b) / 10000000000000000)%R by (simpl pow; field; lra).
    lra.
  - rewrite Z2Pos.id by (apply Z.pow_pos_nonneg; lia). unfold Rdec.
    replace (IZR m / IZR (10 ^ k) - IZR m / IZR (10 ^ k))%R with 0%R by ring. rewrite Rabs_R0.
    apply Rmult_le_pos; [|apply Rabs_pos]. simpl pow. lra.
Qed.

Definition read_lit (m k : Z) : lp := let '(a, b) := reading m k in (PC a, b).
Lemma lit_reading : lit_ok reading_P read_lit.
Proof.
  intros rho m k Hk. unfold reading_P, reading_R, read_lit. destruct (reading m k) as [a b]. split; [reflexivity|exact I].
Qed.
