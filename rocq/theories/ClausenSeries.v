(** * Power series of the Clausen function at 0 and at pi: error bounds (proof tool for C28) *)
From Coq Require Import Reals ZArith List Bool Lra Lia.
From Coquelicot Require Import Coquelicot.
From Verif Require Import DilogKernel DilogApprox ClausenSpec ClausenExists ClausenData.
Import ListNotations.
Open Scope R_scope.

Ltac rg := match goal with |- ?a = ?b => change (@eq R a b) end; ring.
(** ** odd polynomials x * c(x^2) and their derivatives *)
Fixpoint d1 (k : Z) (c : list Z) : list Z := match c with [] => [] | a :: c' => ((2 * k + 1) * a)%Z :: d1 (k + 1) c' end.
Fixpoint d2 (k : Z) (c : list Z) : list Z := match c with [] => [] | a :: c' => (2 * k * a)%Z :: d2 (k + 1) c' end.
Lemma d1_ok c (k : nat) x : is_derive (fun x : R => (x ^ (2 * k + 1) * pev c (x * x) : R)) x (x ^ (2 * k) * pev (d1 (Z.of_nat k) c) (x * x)).
Proof.
  revert k. induction c as [|a c IH]; intros k; cbn [d1 pev].
  - rewrite Rmult_0_r. apply (is_derive_ext (fun _ : R => (0 : R))); [intros t; rg|]. apply @is_derive_const.
  - specialize (IH (S k)). replace (Z.of_nat (S k)) with (Z.of_nat k + 1)%Z in IH by lia. set (e := d1 (Z.of_nat k + 1) c) in *.
    apply (is_derive_ext (fun t : R => (IZR a * t ^ (2 * k + 1) + t ^ (2 * S k + 1) * pev c (t * t) : R))).
    { intros t. match goal with |- ?u = ?v => change (@eq R u v) end. replace (2 * S k + 1)%nat with (S (S (2 * k + 1))) by lia. cbn [pow]. ring. }
    replace (x ^ (2 * k) * (IZR ((2 * Z.of_nat k + 1) * a) + x * x * pev e (x * x))) with (IZR a * (INR (2 * k + 1) * x ^ (2 * k)) + x ^ (2 * S k) * pev e (x * x)).
    2: { replace (2 * S k)%nat with (S (S (2 * k))) by lia. cbn [pow]. rewrite INR_IZR_INZ. replace (Z.of_nat (2 * k + 1)) with (2 * Z.of_nat k + 1)%Z by lia. rewrite mult_IZR. ring. }
    apply (is_derive_plus (V := R_NormedModule) (fun t : R => (IZR a * t ^ (2 * k + 1) : R)) (fun t : R => (t ^ (2 * S k + 1) * pev c (t * t) : R))); [|exact IH].
    apply is_derive_scal. replace (2 * k + 1)%nat with (S (2 * k)) by lia.
    replace (INR (S (2 * k)) * x ^ (2 * k)) with (INR (S (2 * k)) * 1 * x ^ pred (S (2 * k))) by (cbn [pred]; ring). apply (is_derive_pow (fun t : R => t) (S (2 * k)) x 1). apply @is_derive_id.
Qed.
Lemma d2_ok c (k : nat) x : x <> 0 -> is_derive (fun x : R => (x ^ (2 * k) * pev c (x * x) : R)) x (x ^ (2 * k) * pev (d2 (Z.of_nat k) c) (x * x) / x).
Proof.
  intros Nx. revert k. induction c as [|a c IH]; intros k; cbn [d2 pev].
  - replace (x ^ (2 * k) * 0 / x) with 0 by (field; exact Nx). apply (is_derive_ext (fun _ : R => (0 : R))); [intros t; rg|]. apply @is_derive_const.
  - specialize (IH (S k)). replace (Z.of_nat (S k)) with (Z.of_nat k + 1)%Z in IH by lia. set (e := d2 (Z.of_nat k + 1) c) in *.
    apply (is_derive_ext (fun t : R => (IZR a * t ^ (2 * k) + t ^ (2 * S k) * pev c (t * t) : R))).
    { intros t. match goal with |- ?u = ?v => change (@eq R u v) end. replace (2 * S k)%nat with (S (S (2 * k))) by lia. cbn [pow]. ring. }
    replace (x ^ (2 * k) * (IZR (2 * Z.of_nat k * a) + x * x * pev e (x * x)) / x) with (IZR a * (INR (2 * k) * x ^ (2 * k) / x) + x ^ (2 * S k) * pev e (x * x) / x).
    2: { replace (2 * S k)%nat with (S (S (2 * k))) by lia. cbn [pow]. rewrite INR_IZR_INZ. replace (Z.of_nat (2 * k)) with (2 * Z.of_nat k)%Z by lia. rewrite (mult_IZR _ a). field. exact Nx. }
    apply (is_derive_plus (V := R_NormedModule) (fun t : R => (IZR a * t ^ (2 * k) : R)) (fun t : R => (t ^ (2 * S k) * pev c (t * t) : R))); [|exact IH].
    apply is_derive_scal. destruct (2 * k)%nat as [|j].
    + cbn [pow INR]. replace (0 * 1 / x) with 0 by (field; exact Nx). apply @is_derive_const.
    + replace (INR (S j) * x ^ S j / x) with (INR (S j) * 1 * x ^ pred (S j)) by (cbn [pred pow]; field; exact Nx). apply (is_derive_pow (fun t : R => t) (S j) x 1). apply @is_derive_id.
Qed.
Lemma d1_0 c x : is_derive (fun x : R => (x * pev c (x * x) : R)) x (pev (d1 0 c) (x * x)).
Proof.
  assert (H := d1_ok c 0 x). cbn [Nat.mul Nat.add Z.of_nat pow] in H. rewrite Rmult_1_l in H.
  apply (is_derive_ext (fun x : R => (x * 1 * pev c (x * x) : R))); [intros t; rg|exact H].
Qed.
Lemma d2_0 c x : x <> 0 -> is_derive (fun x : R => (pev c (x * x) : R)) x (pev (d2 0 c) (x * x) / x).
Proof.
  intros N. assert (H := d2_ok c 0 x N). cbn [Nat.mul Nat.add Z.of_nat pow] in H. rewrite Rmult_1_l in H.
  apply (is_derive_ext (fun x : R => (1 * pev c (x * x) : R))); [intros t; rg|exact H].
Qed.
(** c(k x) *)
Fixpoint pstr (k f : Z) (c : list Z) : list Z := match c with [] => [] | a :: c' => (f * a)%Z :: pstr k (k * f) c' end.
Lemma pstr_ok k f c x : pev (pstr k f c) x = IZR f * pev c (IZR k * x).
Proof. revert f. induction c as [|a c IH]; intros f; cbn [pstr pev]; [ring|]. rewrite IH, !mult_IZR. ring. Qed.

(** ** bound of |c(v)| for 0 <= v <= a/b *)
Fixpoint hb (a b : Z) (c : list Z) : Z * Z := match c with [] => (0, 1)%Z | x :: c' => let '(n, d) := hb a b c' in (Z.abs x * (b * d) + a * n, b * d)%Z end.
Lemma hb_ok a b c v : (0 < b)%Z -> (0 <= a)%Z -> 0 <= v -> v * IZR b <= IZR a -> let '(n, d) := hb a b c in (0 < d)%Z /\ (0 <= n)%Z /\ Rabs (pev c v) * IZR d <= IZR n.
Proof.
  intros Hb Ha Hv Hab. induction c as [|x c IH]; cbn [hb pev].
  - rewrite Rabs_R0. repeat split; try lia. lra.
  - destruct (hb a b c) as [n d]. destruct IH as (I1 & I2 & I3). split; [nia|]. split; [nia|]. rewrite plus_IZR, !mult_IZR, abs_IZR.
    apply IZR_lt in Hb, I1. apply IZR_le in Ha. assert (T : Rabs (IZR x + v * pev c v) <= Rabs (IZR x) + v * Rabs (pev c v)).
    { eapply Rle_trans; [apply Rabs_triang|]. rewrite Rabs_mult, (Rabs_pos_eq v) by exact Hv. lra. }
    assert (Q := Rabs_pos (pev c v)). set (p := Rabs (pev c v)) in *. set (B := IZR b) in *. set (D := IZR d) in *. 
    apply Rle_trans with ((Rabs (IZR x) + v * p) * (B * D)); [apply Rmult_le_compat_r; [nra|exact T]|].
    rewrite Rmult_plus_distr_r. apply Rplus_le_compat_l. replace (v * p * (B * D)) with ((v * B) * (p * D)) by ring.
    apply Rmult_le_compat; try assumption; nra.
Qed.
(** check: |c(v)| <= n0/d0 *)
Definition hb_check (a b : Z) (c : list Z) (n0 d0 : Z) : bool := let '(n, d) := hb a b c in (n * d0 <=? n0 * d)%Z.
Lemma hb_check_ok a b c n0 d0 v : hb_check a b c n0 d0 = true -> (0 < b)%Z -> (0 <= a)%Z -> (0 < d0)%Z -> 0 <= v -> v * IZR b <= IZR a -> Rabs (pev c v) * IZR d0 <= IZR n0.
Proof.
  unfold hb_check. intros H Hb Ha Hd Hv Hab. assert (K := hb_ok a b c v Hb Ha Hv Hab). destruct (hb a b c) as [n d]. destruct K as (K1 & K2 & K3).
  apply Z.leb_le, IZR_le in H. rewrite !mult_IZR in H. apply IZR_lt in K1, Hd. apply (Rmult_le_reg_r (IZR d)); [exact K1|].
  apply Rle_trans with (IZR n * IZR d0); [|exact H]. replace (Rabs (pev c v) * IZR d0 * IZR d) with (Rabs (pev c v) * IZR d * IZR d0) by ring. apply Rmult_le_compat_r; lra.
Qed.

(** ** sine and cosine *)
Fixpoint fz (n : nat) : Z := match n with O => 1%Z | S n' => (Z.of_nat n * fz n')%Z end.
Lemma fz_ok n : INR (fact n) = IZR (fz n).
Proof. induction n as [|n IH]; [reflexivity|]. change (fact (S n)) with (S n * fact n)%nat. rewrite mult_INR, IH. cbn [fz]. rewrite mult_IZR, <- INR_IZR_INZ. reflexivity. Qed.
Lemma fz_pos n : (0 < fz n)%Z.
Proof. induction n as [|n IH]; cbn [fz]; lia. Qed.
Definition FZ : Z := Eval vm_compute in fz 21.
Definition sg (i : nat) : Z := if Nat.even i then 1%Z else (-1)%Z.
Fixpoint sl (k : nat) : list Z := match k with O => [] | S k' => sl k' ++ [ (sg k' * (FZ / fz (2 * k' + 1)))%Z ] end.
Fixpoint cl (k : nat) : list Z := match k with O => [] | S k' => cl k' ++ [ (sg k' * (FZ / fz (2 * k')))%Z ] end.
Lemma fz_div : forallb (fun k => (FZ mod fz k =? 0)%Z) (seq 0 22) = true.
Proof. vm_compute. reflexivity. Qed.
Lemma FZ_pos : 0 < IZR FZ. Proof. apply IZR_lt. reflexivity. Qed.
Lemma div_ok k : (k < 22)%nat -> IZR (FZ / fz k) = IZR FZ / INR (fact k).
Proof.
  intros H. assert (D := fz_div). rewrite forallb_forall in D. assert (M := D k ltac:(apply in_seq; lia)). apply Z.eqb_eq in M.
  assert (P := fz_pos k). assert (E := Z.div_mod FZ (fz k) ltac:(lia)). rewrite M, Z.add_0_r in E. rewrite fz_ok. apply IZR_lt in P. rewrite E at 2. rewrite mult_IZR. field. lra.
Qed.
Lemma sg_ok i : IZR (sg i) = (-1) ^ i.
Proof.
  unfold sg. induction i as [|i IH]; [reflexivity|]. rewrite Nat.even_succ, <- Nat.negb_even. cbn [pow]. rewrite <- IH. destruct (Nat.even i); cbn [negb]; lra.
Qed.
Lemma sl_length k : length (sl k) = k. Proof. induction k as [|k IH]; cbn [sl]; [reflexivity|]. rewrite app_length, IH. cbn. lia. Qed.
Lemma cl_length k : length (cl k) = k. Proof. induction k as [|k IH]; cbn [cl]; [reflexivity|]. rewrite app_length, IH. cbn. lia. Qed.
Lemma pow_sq u k : (u * u) ^ k = u ^ (2 * k). Proof. rewrite pow_mult. f_equal. cbn [pow]. ring. Qed.
Lemma sl_ok k u : (k <= 10)%nat -> u * pev (sl (S k)) (u * u) = IZR FZ * sin_approx u k.
Proof.
  induction k as [|k IH]; intros Hk.
  - unfold sin_approx. cbn [sum_f_R0]. unfold sin_term. change (sl 1) with ([] ++ [ (sg 0 * (FZ / fz (2 * 0 + 1)))%Z ]). cbn [app pev]. rewrite mult_IZR, sg_ok, div_ok by lia. cbn [Nat.mul Nat.add pow]. change (INR (fact 1)) with 1. field.
  - change (sl (S (S k))) with (sl (S k) ++ [ (sg (S k) * (FZ / fz (2 * S k + 1)))%Z ]). rewrite pev_app, sl_length, Rmult_plus_distr_l, IH by lia. cbn [pev]. rewrite mult_IZR, sg_ok, div_ok by lia.
    unfold sin_approx. rewrite tech5. change (sin_term u (S k)) with ((-1) ^ S k * (u ^ (2 * S k + 1) / INR (fact (2 * S k + 1)))). rewrite pow_sq. replace (2 * S k + 1)%nat with (S (2 * S k)) by lia. set (F := INR (fact (S (2 * S k)))). assert (F <> 0) by (apply INR_fact_neq_0). clearbody F.
    change (u ^ S (2 * S k)) with (u * u ^ (2 * S k)). set (A := u ^ (2 * S k)). set (B := (-1) ^ S k). clearbody A B. set (X := sum_f_R0 _ _). clearbody X. field. assumption.
Qed.
Lemma cl_ok k u : (k <= 10)%nat -> pev (cl (S k)) (u * u) = IZR FZ * cos_approx u k.
Proof.
  induction k as [|k IH]; intros Hk.
  - unfold cos_approx. cbn [sum_f_R0]. unfold cos_term. change (cl 1) with ([] ++ [ (sg 0 * (FZ / fz (2 * 0)))%Z ]). cbn [app pev]. rewrite mult_IZR, sg_ok, div_ok by lia. cbn [Nat.mul Nat.add pow]. change (INR (fact 0)) with 1. field.
  - change (cl (S (S k))) with (cl (S k) ++ [ (sg (S k) * (FZ / fz (2 * S k)))%Z ]). rewrite pev_app, cl_length, IH by lia. cbn [pev]. rewrite mult_IZR, sg_ok, div_ok by lia.
    unfold cos_approx. rewrite tech5. change (cos_term u (S k)) with ((-1) ^ S k * (u ^ (2 * S k) / INR (fact (2 * S k)))). rewrite pow_sq. set (F := INR (fact (2 * S k))). assert (F <> 0) by (apply INR_fact_neq_0). clearbody F. field. assumption.
Qed.
Definition SL : list Z := Eval vm_compute in sl 11.
Definition CL : list Z := Eval vm_compute in cl 11.
Definition vb : R := 6169 / 10000.
Lemma pow9_small v : 0 <= v <= vb -> 0 <= v ^ 9 <= 13 / 1000.
Proof.
  unfold vb. intros H. split; [apply pow_le; lra|]. apply Rle_trans with ((6169 / 10000) ^ 9); [apply pow_incr; lra|]. simpl. lra.
Qed.
(** sin u = u (s(v) - e), cos u = c(v) - e' with v = u^2 *)
Lemma sin_bd u : 0 < u -> u * u <= vb -> exists e, sin u = u * (pev SL (u * u) / IZR FZ - e) /\ 0 <= e <= u * u * (1 / 10 ^ 20).
Proof.
  intros Hu Hv. assert (U4 : u <= 4) by (unfold vb in Hv; nra). destruct (pre_sin_bound u 4 ltac:(lra) U4) as [A B]. cbn [Nat.mul Nat.add] in A, B.
  assert (E10 := sl_ok 10 u ltac:(lia)). change (sl 11) with SL in E10. assert (FP := FZ_pos).
  assert (T : sin_approx u 10 = sin_approx u 9 + u ^ 21 / INR (fact 21)).
  { unfold sin_approx. rewrite tech5. f_equal. unfold sin_term. replace ((-1) ^ 10) with 1 by (simpl; ring). rewrite Rmult_1_l. reflexivity. }
  exists ((sin_approx u 10 - sin u) / u). split.
  - replace (u * (pev SL (u * u) / IZR FZ - (sin_approx u 10 - sin u) / u)) with (u * pev SL (u * u) / IZR FZ - (sin_approx u 10 - sin u)) by (field; split; lra). rewrite E10. field. lra.
  - split; [apply Rmult_le_pos; [lra|apply Rlt_le, Rinv_0_lt_compat; exact Hu]|].
    apply (Rmult_le_reg_r u); [exact Hu|]. unfold Rdiv at 1. rewrite Rmult_assoc, Rinv_l, Rmult_1_r by lra.
    apply Rle_trans with (u ^ 21 / INR (fact 21)); [lra|]. rewrite fz_ok. change (fz 21) with FZ.
    replace (u ^ 21) with (u * (u * u) * (u * u) ^ 9) by (rewrite pow_sq; simpl; ring). destruct (pow9_small (u * u) ltac:(nra)) as [P1 P2].
    replace (u * u * (1 / 10 ^ 20) * u) with (u * (u * u) * (1 / 10 ^ 20)) by ring. unfold Rdiv. rewrite Rmult_assoc. apply Rmult_le_compat_l; [nra|].
    apply Rle_trans with (13 / 1000 * / IZR FZ); [apply Rmult_le_compat_r; [apply Rlt_le, Rinv_0_lt_compat; exact FP|exact P2]|]. unfold FZ. simpl. lra.
Qed.
Lemma cos_bd u : 0 < u -> u * u <= vb -> exists e, cos u = pev CL (u * u) / IZR FZ - e /\ 0 <= e <= u * u * (1 / 10 ^ 20).
Proof.
  intros Hu Hv. assert (U2 : u <= 2) by (unfold vb in Hv; nra). destruct (pre_cos_bound u 4 ltac:(lra) U2) as [A B]. cbn [Nat.mul Nat.add] in A, B.
  assert (E10 := cl_ok 10 u ltac:(lia)). change (cl 11) with CL in E10. assert (FP := FZ_pos).
  assert (T : cos_approx u 10 = cos_approx u 9 + u ^ 20 / INR (fact 20)).
  { unfold cos_approx. rewrite tech5. f_equal. unfold cos_term. replace ((-1) ^ 10) with 1 by (simpl; ring). rewrite Rmult_1_l. reflexivity. }
  exists (cos_approx u 10 - cos u). split; [rewrite E10; field; lra|]. split; [lra|].
  apply Rle_trans with (u ^ 20 / INR (fact 20)); [lra|]. rewrite fz_ok.
  replace (u ^ 20) with (u * u * (u * u) ^ 9) by (rewrite pow_sq; simpl; ring). destruct (pow9_small (u * u) ltac:(nra)) as [P1 P2].
  unfold Rdiv. rewrite Rmult_assoc. apply Rmult_le_compat_l; [nra|].
  assert (P20 : 0 < IZR (fz 20)) by (apply IZR_lt, fz_pos).
  apply Rle_trans with (13 / 1000 * / IZR (fz 20)); [apply Rmult_le_compat_r; [apply Rlt_le, Rinv_0_lt_compat; exact P20|exact P2]|]. 
  replace (IZR (fz 20)) with 2432902008176640000 by (vm_compute; reflexivity). simpl. lra.
Qed.
