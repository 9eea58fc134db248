(** * The rational approximation of the dilogarithm on [0, 1/2]: auxiliary lemmas (real-number semantics) *)
From Coq Require Import Reals ZArith List Bool Lra Lia Psatz.
From Coquelicot Require Import Coquelicot.
From Verif Require Import DilogSpec DilogProofs.
Import ListNotations.
Open Scope R_scope.

(** ** polynomials with integer coefficients, lowest degree first *)
Fixpoint pev (c : list Z) (x : R) : R := match c with [] => 0 | a :: c' => IZR a + x * pev c' x end.
Fixpoint padd (a b : list Z) : list Z :=
  match a, b with [], _ => b | _, [] => a | x :: a', y :: b' => (x + y)%Z :: padd a' b' end.
Definition pscal (k : Z) (c : list Z) : list Z := map (Z.mul k) c.
Fixpoint pmul (a b : list Z) : list Z := match a with [] => [] | x :: a' => padd (pscal x b) (0%Z :: pmul a' b) end.
Lemma padd_ok a b x : pev (padd a b) x = pev a x + pev b x.
Proof. revert b. induction a as [|p a IH]; intros [|q b]; cbn [padd pev]; try ring. rewrite IH, plus_IZR. ring. Qed.
Lemma pscal_ok k c x : pev (pscal k c) x = IZR k * pev c x.
Proof. induction c as [|a c IH]; cbn [pscal map pev]; [ring|]. fold (pscal k c). rewrite IH, mult_IZR. ring. Qed.
Lemma pmul_ok a b x : pev (pmul a b) x = pev a x * pev b x.
Proof. induction a as [|p a IH]; cbn [pmul pev]; [ring|]. rewrite padd_ok, pscal_ok. cbn [pev]. rewrite IH. ring. Qed.
(** c(x + s) *)
Fixpoint pmulx (s : Z) (c : list Z) (lead : Z) : list Z :=   (* lead + (x + s) * c *)
  match c with [] => [lead] | a :: c' => (lead + s * a)%Z :: pmulx s c' a end.
Fixpoint pshift (s : Z) (c : list Z) : list Z := match c with [] => [] | a :: c' => pmulx s (pshift s c') a end.
Lemma pmulx_ok s c lead x : pev (pmulx s c lead) x = IZR lead + (x + IZR s) * pev c x.
Proof. revert lead. induction c as [|a c IH]; intros lead; cbn [pmulx pev]; [ring|]. rewrite IH, plus_IZR, mult_IZR. ring. Qed.
Lemma pshift_ok s c x : pev (pshift s c) x = pev c (x + IZR s).
Proof. induction c as [|a c IH]; cbn [pshift pev]; [reflexivity|]. rewrite pmulx_ok, IH. ring. Qed.
Fixpoint pabs (c : list Z) : Z := match c with [] => 0%Z | a :: c' => (Z.abs a + pabs c')%Z end.
Lemma pabs_ok c x : Rabs x <= 1 -> Rabs (pev c x) <= IZR (pabs c).
Proof.
  intros Hx. induction c as [|a c IH]; cbn [pev pabs]; [rewrite Rabs_R0; lra|]. rewrite plus_IZR, abs_IZR.
  eapply Rle_trans; [apply Rabs_triang|]. apply Rplus_le_compat_l. rewrite Rabs_mult.
  assert (0 <= Rabs (pev c x)) by apply Rabs_pos. nra.
Qed.
Definition plow (c : list Z) : Z := match c with [] => 0%Z | a :: c' => (a - pabs c')%Z end.
Lemma plow_ok c x : Rabs x <= 1 -> IZR (plow c) <= pev c x.
Proof.
  intros Hx. destruct c as [|a c]; cbn [plow pev]; [lra|]. rewrite minus_IZR. assert (H := pabs_ok c x Hx).
  assert (H2 : Rabs (x * pev c x) <= IZR (pabs c)). { rewrite Rabs_mult. assert (0 <= Rabs (pev c x)) by apply Rabs_pos. nra. }
  apply Rabs_le_between in H2. lra.
Qed.
(** scaled argument: c(x / k) * k^(length c - 1) *)
Fixpoint pgrow (k : Z) (c : list Z) : list Z * Z :=
  match c with [] => ([], 1%Z) | a :: c' => let '(r, f) := pgrow k c' in ((a * f)%Z :: r, (f * k)%Z) end.
Lemma pgrow_ok k c x : (0 < k)%Z -> let '(r, f) := pgrow k c in (0 < f)%Z /\ IZR k * pev r (IZR k * x) = IZR f * pev c x.
Proof.
  intros Hk. induction c as [|a c IH]; cbn [pgrow pev]; [split; [lia|ring]|].
  destruct (pgrow k c) as [r f]. destruct IH as (Hf & IH). cbn [pev]. split; [nia|]. rewrite !mult_IZR.
  replace (IZR k * (IZR a * IZR f + IZR k * x * pev r (IZR k * x))) with (IZR k * IZR a * IZR f + IZR k * x * (IZR k * pev r (IZR k * x))) by ring. rewrite IH. ring.
Qed.

(** ** |D| <= (b / w) * Q on [0, n / k] by subdivision into n / 2 pieces *)
Definition piece_ok (D Q : list Z) (b w : Z) (j : Z) : bool :=
  let s := (2 * j + 1)%Z in let q := plow (pshift s Q) in (0 <? q)%Z && (pabs (pshift s D) * w <=? b * q)%Z.
Lemma piece_sound D Q b w j u : (0 < w)%Z -> piece_ok D Q b w j = true -> IZR (2 * j) <= u <= IZR (2 * j + 2) ->
  0 < pev Q u /\ Rabs (pev D u) * IZR w <= IZR b * pev Q u.
Proof.
  unfold piece_ok. cbv zeta. intros Hw HB Hu. apply andb_true_iff in HB. destruct HB as [B1 B2]. apply Z.ltb_lt in B1. apply Z.leb_le in B2.
  set (s := (2 * j + 1)%Z) in *. set (x := u - IZR s).
  assert (Hx : Rabs x <= 1). { apply Rabs_le. unfold x, s. rewrite !plus_IZR in *. lra. }
  assert (HQ := plow_ok (pshift s Q) x Hx). assert (HD := pabs_ok (pshift s D) x Hx).
  rewrite pshift_ok in HQ, HD. replace (x + IZR s) with u in HQ, HD by (unfold x; ring).
  apply IZR_lt in B1. apply IZR_le in B2. rewrite !mult_IZR in B2. apply IZR_lt in Hw.
  assert (Hb : 0 <= IZR b).
  { assert (0 <= IZR (pabs (pshift s D))) by (eapply Rle_trans; [apply Rabs_pos|exact HD]).
    destruct (Rle_dec 0 (IZR b)); [assumption|]. exfalso. assert (0 <= IZR (pabs (pshift s D)) * IZR w) by (apply Rmult_le_pos; lra). nra. }
  split; [lra|].
  apply Rle_trans with (IZR (pabs (pshift s D)) * IZR w); [apply Rmult_le_compat_r; lra|].
  eapply Rle_trans; [exact B2|]. apply Rmult_le_compat_l; assumption.
Qed.
Definition pieces (n : nat) : list Z := map Z.of_nat (seq 0 n).
Lemma pieces_sound D Q b w n u : (0 < w)%Z -> forallb (piece_ok D Q b w) (pieces n) = true -> 0 <= u <= IZR (2 * Z.of_nat n) -> (0 < n)%nat ->
  0 < pev Q u /\ Rabs (pev D u) * IZR w <= IZR b * pev Q u.
Proof.
  intros Hw HB Hu Hn. rewrite forallb_forall in HB.
  assert (HJ : exists j, (j < n)%nat /\ IZR (2 * Z.of_nat j) <= u <= IZR (2 * Z.of_nat j + 2)).
  { clear HB. revert Hu. induction n as [|n IH]; [lia|]. intros Hu. destruct (Rle_dec u (IZR (2 * Z.of_nat n))) as [H|H].
    - destruct n as [|n]; [exists 0%nat; split; [lia|]; simpl in *; lra|]. destruct IH as (j & Hj & HH); [lia|lra|]. exists j. split; [lia|exact HH].
    - exists n. split; [lia|]. replace (2 * Z.of_nat n + 2)%Z with (2 * Z.of_nat (S n))%Z by lia. lra. }
  destruct HJ as (j & Hj & HH). apply (piece_sound D Q b w (Z.of_nat j)); [exact Hw| |exact HH].
  apply HB. unfold pieces. apply in_map. apply in_seq. lia.
Qed.

(** ** the dilogarithm and its power series *)
Definition sl (n : nat) (y : R) : R := sum_f_R0 (fun k => y ^ (k + 1) / INR (k + 1)) n.
Definition sd (n : nat) (y : R) : R := sum_f_R0 (fun k => y ^ (k + 1) / (INR (k + 1)) ^ 2) n.
Lemma nonneg_from_0 (F F' : R -> R) (y : R) : 0 <= y -> F 0 = 0 -> (forall x, 0 <= x <= y -> continuous F x) ->
  (forall x, 0 < x < y -> is_derive F x (F' x) /\ 0 <= F' x) -> 0 <= F y.
Proof.
  intros Hy H0 Hc Hd. destruct (MVT_gen F 0 y (fun x => Rmax (F' x) 0)) as (c & Hc' & HE).
  - intros x Hx. rewrite Rmin_left, Rmax_right in Hx by exact Hy. destruct (Hd x Hx) as [D N]. rewrite Rmax_left by exact N. exact D.
  - intros x Hx. rewrite Rmin_left, Rmax_right in Hx by exact Hy. apply continuity_pt_filterlim. apply Hc. exact Hx.
  - assert (0 <= Rmax (F' c) 0) by apply Rmax_r. assert (0 <= Rmax (F' c) 0 * (y - 0)) by (apply Rmult_le_pos; lra). lra.
Qed.
Lemma sl_0 n : sl n 0 = 0.
Proof. unfold sl. induction n as [|n IH]; [simpl; field|]. rewrite tech5, IH. rewrite pow_ne_zero by lia. unfold Rdiv. ring. Qed.
Lemma sd_0 n : sd n 0 = 0.
Proof. unfold sd. induction n as [|n IH]; [simpl; field|]. rewrite tech5, IH. rewrite pow_ne_zero by lia. unfold Rdiv. ring. Qed.
Lemma sd0 (t : R) : t = sd 0 t.
Proof. unfold sd. simpl. field. Qed.
Lemma INR_ne n : INR (n + 1) <> 0. Proof. apply not_0_INR. lia. Qed.
Lemma geo_sum n y : (1 - y) * sum_f_R0 (fun k => y ^ k) n = 1 - y ^ (n + 1).
Proof. induction n as [|n IH]; [simpl; ring|]. rewrite tech5, Rmult_plus_distr_l, IH. replace (S n + 1)%nat with (S (n + 1)) by lia. replace (n + 1)%nat with (S n) by lia. simpl. ring. Qed.
Lemma powc_d (m : nat) (c y : R) : c <> 0 -> is_derive (fun y : R => (y ^ (m + 1) / c : R)) y (INR (m + 1) * y ^ m / c).
Proof.
  intros Hc. remember (m + 1)%nat as k eqn:Ek. replace m with (pred k) by lia. auto_derive; [trivial|].
  match goal with |- ?x = ?y => change (@eq R x y) end. unfold Rdiv. ring.
Qed.
Lemma sl_d n y : is_derive (sl n) y (sum_f_R0 (fun k => y ^ k) n).
Proof.
  induction n as [|n IH].
  - unfold sl. simpl. auto_derive; [trivial|]. match goal with |- ?x = ?y => change (@eq R x y) end. field.
  - apply is_derive_ext with (fun y : R => (sl n y + y ^ (S n + 1) / INR (S n + 1) : R)); [intros t; reflexivity|].
    rewrite tech5. apply (is_derive_plus (V := R_NormedModule)); [exact IH|]. assert (H := INR_ne (S n)).
    replace (y ^ S n) with (INR (S n + 1) * y ^ (S n) / INR (S n + 1)) by (field; exact H). apply powc_d. exact H.
Qed.
Lemma sd_d n y : y <> 0 -> is_derive (sd n) y (sl n y / y).
Proof.
  intros Hy. induction n as [|n IH].
  - unfold sd, sl. simpl. auto_derive; [trivial|]. match goal with |- ?x = ?y => change (@eq R x y) end. field. exact Hy.
  - apply is_derive_ext with (fun y : R => (sd n y + y ^ (S n + 1) / (INR (S n + 1)) ^ 2 : R)); [intros t; reflexivity|].
    replace (sl (S n) y / y) with (sl n y / y + y ^ (S n) / INR (S n + 1)).
    2: { unfold sl. rewrite tech5. replace (S n + 1)%nat with (S (S n)) by lia. simpl pow. field. split; [apply not_0_INR; lia|exact Hy]. }
    apply (is_derive_plus (V := R_NormedModule)); [exact IH|]. assert (H := INR_ne (S n)).
    replace (y ^ S n / INR (S n + 1)) with (INR (S n + 1) * y ^ (S n) / INR (S n + 1) ^ 2) by (field; exact H). apply powc_d. apply pow_nonzero. exact H.
Qed.
Lemma ln_tail n y : 0 <= y <= / 2 -> 0 <= - ln (1 - y) - sl n y <= 2 * y ^ (n + 2) / INR (n + 2).
Proof.
  intros Hy.
  assert (HD : forall x, 0 <= x <= / 2 -> is_derive (fun x => (- ln (1 - x) - sl n x : R)) x (x ^ (n + 1) / (1 - x))).
  { intros x Hx. replace (x ^ (n + 1) / (1 - x)) with (/ (1 - x) - sum_f_R0 (fun k => x ^ k) n).
    2: { assert (HG := geo_sum n x). apply Rmult_eq_reg_l with (1 - x); [|lra]. replace ((1 - x) * (x ^ (n + 1) / (1 - x))) with (x ^ (n + 1)) by (field; lra).
         rewrite Rmult_minus_distr_l, HG, Rinv_r by lra. ring. }
    apply (is_derive_minus (V := R_NormedModule)); [|apply sl_d].
    auto_derive; [lra|]. match goal with |- ?x = ?y => change (@eq R x y) end. field. lra. }
  assert (HI : 0 < INR (n + 2)) by (apply lt_0_INR; lia).
  split.
  - apply (nonneg_from_0 (fun x => - ln (1 - x) - sl n x) (fun x => x ^ (n + 1) / (1 - x))); [lra| | |].
    + rewrite sl_0. replace (1 - 0) with 1 by ring. rewrite ln_1. ring.
    + intros x Hx. apply (ex_derive_continuous (fun x : R => (- ln (1 - x) - sl n x : R))). eexists. apply HD. lra.
    + intros x Hx. split; [apply HD; lra|]. apply Rmult_le_pos; [apply pow_le; lra|apply Rlt_le, Rinv_0_lt_compat; lra].
  - assert (0 <= 2 * y ^ (n + 2) / INR (n + 2) - (- ln (1 - y) - sl n y)); [|lra].
    assert (HE : forall x, 0 <= x <= / 2 -> is_derive (fun x => (2 * x ^ (n + 2) / INR (n + 2) - (- ln (1 - x) - sl n x) : R)) x (2 * x ^ (n + 1) - x ^ (n + 1) / (1 - x))).
    { intros x Hx. apply (is_derive_minus (V := R_NormedModule)); [|apply HD, Hx].
      auto_derive; [trivial|]. replace (pred (n + 2)) with (n + 1)%nat by lia. match goal with |- ?x = ?y => change (@eq R x y) end. field. lra. }
    apply (nonneg_from_0 (fun x => 2 * x ^ (n + 2) / INR (n + 2) - (- ln (1 - x) - sl n x)) (fun x => 2 * x ^ (n + 1) - x ^ (n + 1) / (1 - x))); [lra| | |].
    + rewrite sl_0, pow_ne_zero by lia. replace (1 - 0) with 1 by ring. rewrite ln_1. field. lra.
    + intros x Hx. apply (ex_derive_continuous (fun x : R => (2 * x ^ (n + 2) / INR (n + 2) - (- ln (1 - x) - sl n x) : R))). eexists. apply HE. lra.
    + intros x Hx. split; [apply HE; lra|]. assert (0 <= x ^ (n + 1)) by (apply pow_le; lra).
      assert (/ (1 - x) <= 2). { replace 2 with (/ / 2) by field. apply Rinv_le_contravar; lra. }
      assert (x ^ (n + 1) / (1 - x) <= x ^ (n + 1) * 2) by (apply Rmult_le_compat_l; lra). lra.
Qed.
Lemma li2_tail L n y : is_ReLi2 L -> 0 <= y <= / 2 -> 0 <= L y - sd n y <= 2 * y ^ (n + 2) / (INR (n + 2)) ^ 2.
Proof.
  intros HL Hy. assert (HI : 0 < INR (n + 2)) by (apply lt_0_INR; lia). assert (L0 := proj1 HL). assert (Lc := proj1 (proj2 HL)).
  assert (SC : forall x, continuous (sd n) x).
  { intros x. induction n as [|k IH].
    - apply (continuous_ext (fun y : R => (y : R))); [exact sd0|apply continuous_id].
    - apply (continuous_ext (fun y : R => (sd k y + y ^ (S k + 1) / (INR (S k + 1)) ^ 2 : R))); [intros t; reflexivity|].
      apply (continuous_plus (V := R_NormedModule)); [apply IH; apply lt_0_INR; lia|].
      apply (ex_derive_continuous (fun y : R => (y ^ (S k + 1) / (INR (S k + 1)) ^ 2 : R))). auto_derive. trivial. }
  assert (HD : forall x, 0 < x <= / 2 -> is_derive (fun x => (L x - sd n x : R)) x ((- ln (1 - x) - sl n x) / x)).
  { intros x Hx. replace ((- ln (1 - x) - sl n x) / x) with (- ln (1 - x) / x - sl n x / x) by (field; lra).
    apply (is_derive_minus (V := R_NormedModule)); [apply (Ld_lt L HL); lra|apply sd_d; lra]. }
  split.
  - apply (nonneg_from_0 (fun x => L x - sd n x) (fun x => (- ln (1 - x) - sl n x) / x)); [lra| | |].
    + rewrite sd_0, L0. ring.
    + intros x Hx. apply (continuous_minus (V := R_NormedModule)); [apply Lc|apply SC].
    + intros x Hx. split; [apply HD; lra|]. assert (H := ln_tail n x ltac:(lra)). apply Rmult_le_pos; [lra|apply Rlt_le, Rinv_0_lt_compat; lra].
  - assert (0 <= 2 * y ^ (n + 2) / INR (n + 2) ^ 2 - (L y - sd n y)); [|lra].
    apply (nonneg_from_0 (fun x => 2 * x ^ (n + 2) / INR (n + 2) ^ 2 - (L x - sd n x)) (fun x => 2 * x ^ (n + 1) / INR (n + 2) - (- ln (1 - x) - sl n x) / x)); [lra| | |].
    + rewrite sd_0, L0, pow_ne_zero by lia. field. lra.
    + intros x Hx. apply (continuous_minus (V := R_NormedModule)); [|apply (continuous_minus (V := R_NormedModule)); [apply Lc|apply SC]].
      apply (ex_derive_continuous (fun x : R => (2 * x ^ (n + 2) / INR (n + 2) ^ 2 : R))). auto_derive. trivial.
    + intros x Hx. split.
      * apply (is_derive_minus (V := R_NormedModule)); [|apply HD; lra]. auto_derive; [trivial|]. replace (pred (n + 2)) with (n + 1)%nat by lia.
        match goal with |- ?x = ?y => change (@eq R x y) end. field. lra.
      * assert (H := ln_tail n x ltac:(lra)). assert ((- ln (1 - x) - sl n x) / x <= 2 * x ^ (n + 1) / INR (n + 2)); [|lra].
        apply (Rmult_le_reg_r x); [lra|]. replace ((- ln (1 - x) - sl n x) / x * x) with (- ln (1 - x) - sl n x) by (field; lra).
        replace (2 * x ^ (n + 1) / INR (n + 2) * x) with (2 * x ^ (n + 2) / INR (n + 2)); [lra|].
        replace (n + 2)%nat with (S (n + 1)) at 1 by lia. simpl pow. field. lra.
Qed.

(** ** the same with pieces of different width: (centre, radius) *)
Fixpoint pscale (r : Z) (c : list Z) : list Z := match c with [] => [] | a :: c' => a :: map (Z.mul r) (pscale r c') end.
Lemma pscale_ok r c x : pev (pscale r c) x = pev c (IZR r * x).
Proof.
  induction c as [|a c IH]; cbn [pscale pev]; [reflexivity|]. change (map (Z.mul r) (pscale r c)) with (pscal r (pscale r c)). rewrite pscal_ok, IH. ring.
Qed.
Definition wpiece_ok (D Q : list Z) (b w : Z) (p : Z * Z) : bool :=
  let '(s, r) := p in let q := plow (pscale r (pshift s Q)) in (0 <? r)%Z && (0 <? q)%Z && (pabs (pscale r (pshift s D)) * w <=? b * q)%Z.
Lemma wpiece_sound D Q b w s r u : (0 < w)%Z -> wpiece_ok D Q b w (s, r) = true -> IZR (s - r) <= u <= IZR (s + r) ->
  0 < pev Q u /\ Rabs (pev D u) * IZR w <= IZR b * pev Q u.
Proof.
  unfold wpiece_ok. cbv zeta. intros Hw HB Hu. apply andb_true_iff in HB. destruct HB as [HB B2]. apply andb_true_iff in HB. destruct HB as [B0 B1]. apply Z.ltb_lt in B0, B1. apply Z.leb_le in B2.
  apply IZR_lt in B0. rewrite minus_IZR, plus_IZR in Hu. set (x := (u - IZR s) / IZR r).
  assert (EX : IZR r * x = u - IZR s) by (unfold x; field; lra).
  assert (Hx : Rabs x <= 1). { apply Rabs_le. split; apply (Rmult_le_reg_l (IZR r)); lra. }
  assert (HQ := plow_ok (pscale r (pshift s Q)) x Hx). assert (HD := pabs_ok (pscale r (pshift s D)) x Hx).
  rewrite pscale_ok, pshift_ok in HQ, HD. rewrite EX in HQ, HD. replace (u - IZR s + IZR s) with u in HQ, HD by ring.
  apply IZR_lt in B1. apply IZR_le in B2. rewrite !mult_IZR in B2. apply IZR_lt in Hw.
  set (pd := IZR (pabs (pscale r (pshift s D)))) in *. set (pq := IZR (plow (pscale r (pshift s Q)))) in *. clearbody pd pq.
  assert (H0 : 0 <= pd) by (eapply Rle_trans; [apply Rabs_pos|exact HD]).
  assert (Hb : 0 <= IZR b).
  { destruct (Rle_dec 0 (IZR b)); [assumption|]. exfalso. assert (0 <= pd * IZR w) by (apply Rmult_le_pos; lra). nra. }
  split; [lra|].
  apply Rle_trans with (pd * IZR w); [apply Rmult_le_compat_r; lra|].
  eapply Rle_trans; [exact B2|]. apply Rmult_le_compat_l; assumption.
Qed.
Fixpoint cover (lo hi : Z) (l : list (Z * Z)) : bool :=
  match l with [] => false | (s, r) :: l' => (s - r <=? lo)%Z && ((hi <=? s + r)%Z || cover (s + r) hi l') end.
Lemma wpieces_sound D Q b w l : (0 < w)%Z -> forallb (wpiece_ok D Q b w) l = true -> forall lo hi u, cover lo hi l = true -> IZR lo <= u <= IZR hi ->
  0 < pev Q u /\ Rabs (pev D u) * IZR w <= IZR b * pev Q u.
Proof.
  intros Hw HB. induction l as [|[s r] l IH]; intros lo hi u HC Hu; [discriminate|].
  cbn [cover] in HC. apply andb_true_iff in HC. destruct HC as [C1 C2]. apply Z.leb_le in C1. apply IZR_le in C1.
  change (wpiece_ok D Q b w (s, r) && forallb (wpiece_ok D Q b w) l = true) in HB. apply andb_true_iff in HB. destruct HB as [B1 B2].
  destruct (Rle_dec u (IZR (s + r))) as [H|H].
  - apply (wpiece_sound D Q b w s r); [exact Hw|exact B1|split; [lra|exact H]].
  - apply orb_true_iff in C2. destruct C2 as [C2|C2].
    + apply Z.leb_le in C2. apply IZR_le in C2. lra.
    + apply (IH B2 (s + r)%Z hi u C2). lra.
Qed.
(** proposes pieces: doubles or halves the radius *)
Fixpoint propose (fuel : nat) (ok : Z * Z -> bool) (lo hi r : Z) : list (Z * Z) :=
  match fuel with
  | O => []
  | S fuel => if (hi <=? lo)%Z then [] else
      if ok (lo + r, r)%Z then (lo + r, r)%Z :: propose fuel ok (lo + 2 * r) hi (2 * r)%Z else propose fuel ok lo hi (r / 2)%Z
  end.
