(** * Verified Taylor bounds for expressions (A + B ln(1+t)) / D

    Polynomials with rational coefficients, evaluated on reals; the checks run in Coq by
    computation and their correctness is proved here.  Not a model of any code: proof tools. *)
From Coq Require Import Reals QArith Qreals List Bool Lra Lia Psatz Ranalysis.
From Coq Require Import Qabs Qround.
Import ListNotations.
Open Scope R_scope.

(** ** The logarithm series *)
(** S_n(t) = t - t^2/2 + ... up to t^n *)
Fixpoint lnS (n : nat) (t : R) : R :=
  match n with
  | O => 0
  | S k => lnS k t - (- t) ^ (S k) / INR (S k)
  end.

Lemma lnS_0 n : lnS n 0 = 0.
Proof. induction n; simpl; [reflexivity|]. rewrite IHn. rewrite Ropp_0, Rmult_0_l. unfold Rdiv. ring. Qed.

Fixpoint geoS (n : nat) (t : R) : R :=
  match n with O => 0 | S k => geoS k t + (- t) ^ k end.

Lemma geoS_sum n t : (1 + t) * geoS n t = 1 - (- t) ^ n.
Proof. induction n; simpl; [ring|]. rewrite Rmult_plus_distr_l, IHn. ring. Qed.

Lemma deriv_negpow k t : derivable_pt_lim (fun t => (- t) ^ (S k)) t (- INR (S k) * (- t) ^ k).
Proof.
  replace (- INR (S k) * (- t) ^ k) with (INR (S k) * (- t) ^ (pred (S k)) * (-1)) by (simpl pred; ring).
  apply (derivable_pt_lim_comp (fun t => - t) (fun x => x ^ (S k))).
  - replace (-1) with (- 1) by ring. apply derivable_pt_lim_opp. apply derivable_pt_lim_id.
  - apply derivable_pt_lim_pow.
Qed.

Lemma lnS_deriv n t : derivable_pt_lim (lnS n) t (geoS n t).
Proof.
  induction n.
  - apply derivable_pt_lim_const.
  - change (lnS (S n)) with (fun t => lnS n t - (- t) ^ (S n) / INR (S n)). cbn [geoS].
    replace (geoS n t + (- t) ^ n) with (geoS n t - (- INR (S n) * (- t) ^ n) * / INR (S n)).
    + apply (derivable_pt_lim_minus (lnS n) (fun t => (- t) ^ (S n) / INR (S n))); [exact IHn|].
      unfold Rdiv.
      replace (- INR (S n) * (- t) ^ n * / INR (S n)) with (- INR (S n) * (- t) ^ n * / INR (S n) + (- t) ^ (S n) * 0) by ring.
      apply (derivable_pt_lim_mult (fun t => (- t) ^ (S n)) (fun _ => / INR (S n))).
      * apply deriv_negpow.
      * apply derivable_pt_lim_const.
    + field. apply not_0_INR. lia.
Qed.

Lemma ln1p_deriv t : -1 < t -> derivable_pt_lim (fun t => ln (1 + t)) t (/ (1 + t)).
Proof.
  intros H. replace (/ (1 + t)) with (/ (1 + t) * 1) by ring.
  apply (derivable_pt_lim_comp (fun t => 1 + t) ln).
  - assert (D : derivable_pt_lim (fun t => 1 + t) t (0 + 1)).
    { apply (derivable_pt_lim_plus (fun _ => 1) (fun t => t)); [apply derivable_pt_lim_const|apply derivable_pt_lim_id]. }
    rewrite Rplus_0_l in D. exact D.
  - apply derivable_pt_lim_ln. lra.
Qed.

Lemma MVT_bound (f f' : R -> R) (a b M : R) :
  (forall c, Rmin a b <= c <= Rmax a b -> derivable_pt_lim f c (f' c)) ->
  (forall c, Rmin a b <= c <= Rmax a b -> Rabs (f' c) <= M) ->
  Rabs (f b - f a) <= M * Rabs (b - a).
Proof.
  intros Hd HM. destruct (Rtotal_order a b) as [H|[H|H]].
  - rewrite Rmin_left, Rmax_right in * by lra.
    destruct (MVT_cor2 f f' a b H) as [c [E [H1 H2]]]; [intros; apply Hd; lra|].
    rewrite E, Rabs_mult. apply Rmult_le_compat_r; [apply Rabs_pos|]. apply HM; lra.
  - subst. replace (f b - f b) with 0 by ring. replace (b - b) with 0 by ring. rewrite Rabs_R0. lra.
  - rewrite Rmin_right, Rmax_left in * by lra.
    destruct (MVT_cor2 f f' b a H) as [c [E [H1 H2]]]; [intros; apply Hd; lra|].
    rewrite (Rabs_minus_sym (f b)), (Rabs_minus_sym b). rewrite E, Rabs_mult.
    apply Rmult_le_compat_r; [apply Rabs_pos|]. apply HM; lra.
Qed.

Lemma between_abs a c : Rmin 0 a <= c <= Rmax 0 a -> Rabs c <= Rabs a.
Proof.
  intros [H1 H2]. unfold Rmin, Rmax in *. destruct (Rle_dec 0 a); unfold Rabs; destruct (Rcase_abs c); destruct (Rcase_abs a); lra.
Qed.

Theorem ln_taylor n t : Rabs t <= 1 / 2 -> Rabs (ln (1 + t) - lnS n t) <= 2 * Rabs t ^ (S n).
Proof.
  intros Ht.
  assert (B : -1/2 <= t <= 1/2) by (apply Rabs_le_inv in Ht || (revert Ht; unfold Rabs; destruct (Rcase_abs t)); lra).
  pose (f := fun t => ln (1 + t) - lnS n t).
  pose (f' := fun t => / (1 + t) - geoS n t).
  assert (Hc : forall c, Rmin 0 t <= c <= Rmax 0 t -> Rabs c <= Rabs t) by (intros; apply between_abs; auto).
  assert (R1 : forall c, Rabs c <= Rabs t -> -1/2 <= c).
  { intros c H. assert (Rabs c <= 1/2) by lra. revert H0. unfold Rabs. destruct (Rcase_abs c); lra. }
  assert (M : Rabs (f t - f 0) <= (2 * Rabs t ^ n) * Rabs (t - 0)).
  { apply (MVT_bound f f').
    - intros c H. apply derivable_pt_lim_minus; [apply ln1p_deriv|apply lnS_deriv].
      specialize (R1 c (Hc c H)). lra.
    - intros c H. specialize (Hc c H). specialize (R1 c Hc). unfold f'.
      assert (G := geoS_sum n c).
      replace (/ (1 + c) - geoS n c) with ((- c) ^ n * / (1 + c)).
      + rewrite Rabs_mult, <- RPow_abs, Rabs_Ropp.
        rewrite (Rabs_pos_eq (/ (1 + c))) by (left; apply Rinv_0_lt_compat; lra).
        rewrite (Rmult_comm 2). apply Rmult_le_compat; [apply pow_le, Rabs_pos|left; apply Rinv_0_lt_compat; lra| |].
        * apply pow_incr. split; [apply Rabs_pos|auto].
        * replace 2 with (/ (1/2)) by field. apply Rinv_le_contravar; lra.
      + assert (E : (- c) ^ n = 1 - (1 + c) * geoS n c) by lra. rewrite E. field. lra. }
  unfold f in M. rewrite Rplus_0_r, ln_1, lnS_0, !Rminus_0_r in M. simpl. lra.
Qed.

(** ** Rational polynomials *)
Definition poly := list Q.
Fixpoint pev (p : poly) (t : R) : R := match p with [] => 0 | c :: q => Q2R c + t * pev q t end.
Fixpoint padd (p q : poly) : poly :=
  match p, q with [] , _ => q | _, [] => p | a :: p', b :: q' => Qred (a + b) :: padd p' q' end.
Definition pscal (c : Q) (p : poly) : poly := map (fun a => Qred (c * a)) p.
Fixpoint pmul (p q : poly) : poly :=
  match p with [] => [] | a :: p' => padd (pscal a q) (0%Q :: pmul p' q) end.
Definition pneg (p : poly) : poly := pscal (-1) p.
Definition pshift (m : nat) (p : poly) : poly := repeat 0%Q m ++ p.
Fixpoint pder_aux (k : Z) (p : poly) : poly :=
  match p with [] => [] | a :: p' => Qred (inject_Z k * a) :: pder_aux (k + 1) p' end.
Definition pder (p : poly) : poly := match p with [] => [] | _ :: p' => pder_aux 1 p' end.
Fixpoint pbound (p : poly) (r : Q) : Q := match p with [] => 0%Q | c :: q => Qred (Qabs c + r * pbound q r) end.
Fixpoint lowzero (k : nat) (p : poly) : bool :=
  match k, p with O, _ => true | _, [] => true | S k', c :: q => Qeq_bool c 0 && lowzero k' q end.
Fixpoint lnP_aux (n : nat) (k : positive) (s : Q) : poly :=
  match n with O => [] | S n' => Qred (s * (1 # k)) :: lnP_aux n' (k + 1) (- s) end.
Definition lnP (n : nat) : poly := 0%Q :: lnP_aux n 1 1.

Lemma Q2R_red q : Q2R (Qred q) = Q2R q.
Proof. apply Qeq_eqR, Qred_correct. Qed.
Lemma Q2R_0' : Q2R 0 = 0. Proof. unfold Q2R; simpl; field. Qed.
Lemma Q2R_1' : Q2R 1 = 1. Proof. unfold Q2R; simpl; field. Qed.

Lemma pev_add p : forall q t, pev (padd p q) t = pev p t + pev q t.
Proof. induction p; intros [|b q] t; cbn [padd pev]; try ring. rewrite Q2R_red, Q2R_plus, IHp. ring. Qed.
Lemma pev_scal c p t : pev (pscal c p) t = Q2R c * pev p t.
Proof. unfold pscal. induction p; cbn [map pev]; [ring|]. rewrite IHp, Q2R_red, Q2R_mult. ring. Qed.
Lemma pev_mul p q t : pev (pmul p q) t = pev p t * pev q t.
Proof. induction p; cbn [pmul pev]; [ring|]. rewrite pev_add, pev_scal. cbn [pev]. rewrite Q2R_0', IHp. ring. Qed.
Lemma pev_neg p t : pev (pneg p) t = - pev p t.
Proof. unfold pneg. rewrite pev_scal. replace (Q2R (-1)) with (-1) by (unfold Q2R; simpl; field). ring. Qed.
Lemma pev_shift m p t : pev (pshift m p) t = t ^ m * pev p t.
Proof. unfold pshift. induction m; simpl; [ring|]. rewrite IHm, Q2R_0'. ring. Qed.

Lemma Q2R_inject_Z z : Q2R (inject_Z z) = IZR z.
Proof. unfold Q2R, inject_Z; simpl. field. Qed.

Lemma deriv_ext (f g : R -> R) x l : (forall y, f y = g y) -> derivable_pt_lim f x l -> derivable_pt_lim g x l.
Proof. intros E H eps He. destruct (H eps He) as [d Hd]. exists d. intros h. rewrite <- !E. apply Hd. Qed.

Lemma pev_deriv_aux p : forall k t,
  exists s, derivable_pt_lim (pev p) t s /\ pev (pder_aux k p) t = IZR k * pev p t + t * s.
Proof.
  induction p; intros k t.
  - exists 0. split; [apply (derivable_pt_lim_const 0)|simpl; ring].
  - destruct (IHp (k + 1)%Z t) as [s [Hs E]]. exists (0 + (1 * pev p t + t * s)). split.
    + apply (derivable_pt_lim_plus (fun _ => Q2R a) (fun t => t * pev p t)); [apply derivable_pt_lim_const|].
      apply (derivable_pt_lim_mult (fun t => t) (pev p)); [apply derivable_pt_lim_id|auto].
    + cbn [pder_aux pev]. rewrite Q2R_red, Q2R_mult, E, Q2R_inject_Z, plus_IZR. ring.
Qed.
Lemma pev_deriv p t : derivable_pt_lim (pev p) t (pev (pder p) t).
Proof.
  destruct p as [|a p]; [apply (derivable_pt_lim_const 0)|].
  destruct (pev_deriv_aux p 1 t) as [s [Hs E]]. simpl pder. rewrite E.
  replace (IZR 1 * pev p t + t * s) with (0 + (1 * pev p t + t * s)) by ring.
  apply (derivable_pt_lim_plus (fun _ => Q2R a) (fun t => t * pev p t)); [apply derivable_pt_lim_const|].
  apply (derivable_pt_lim_mult (fun t => t) (pev p)); [apply derivable_pt_lim_id|auto].
Qed.

Lemma Q2R_abs q : Q2R (Qabs q) = Rabs (Q2R q).
Proof.
  apply Qabs_case; intros H.
  - rewrite Rabs_pos_eq; auto. rewrite <- Q2R_0'. apply Qle_Rle; auto.
  - rewrite Rabs_left1; [apply Q2R_opp|]. rewrite <- Q2R_0'. apply Qle_Rle; auto.
Qed.
Lemma pbound_pos p r : (0 <= r)%Q -> 0 <= Q2R (pbound p r).
Proof.
  intros Hr. induction p; [simpl; rewrite Q2R_0'; lra|]. cbn [pbound].
  rewrite Q2R_red, Q2R_plus, Q2R_mult, Q2R_abs.
  assert (0 <= Q2R r) by (rewrite <- Q2R_0'; apply Qle_Rle; auto). generalize (Rabs_pos (Q2R a)). nra.
Qed.
Lemma pbound_ok p r t : Rabs t <= Q2R r -> Rabs (pev p t) <= Q2R (pbound p r).
Proof.
  intros H. assert (Hr : 0 <= Q2R r) by (generalize (Rabs_pos t); lra).
  assert (Hq : (0 <= r)%Q) by (apply Rle_Qle; rewrite Q2R_0'; auto).
  induction p; [simpl; rewrite Q2R_0', Rabs_R0; lra|]. cbn [pbound pev].
  rewrite Q2R_red, Q2R_plus, Q2R_mult, Q2R_abs.
  eapply Rle_trans; [apply Rabs_triang|]. apply Rplus_le_compat_l. rewrite Rabs_mult.
  apply Rmult_le_compat; auto using Rabs_pos.
Qed.
Lemma lowzero_ok k : forall p t, lowzero k p = true -> pev p t = t ^ k * pev (skipn k p) t.
Proof.
  induction k; intros [|c p] t H; simpl in *; try ring.
  apply andb_true_iff in H as [H1 H2]. apply Qeq_bool_iff, Qeq_eqR in H1. rewrite H1, Q2R_0', (IHk p t H2). ring.
Qed.

(** partial sums: lnS (k + n) = lnS k + t^(k+1) * tail *)
Lemma lnP_tail n : forall k t s, Q2R s = - (-1) ^ (S k) ->
  lnS (k + n) t = lnS k t + t ^ (S k) * pev (lnP_aux n (Pos.of_succ_nat k) s) t.
Proof.
  induction n; intros k t s Hs.
  - rewrite Nat.add_0_r. simpl. ring.
  - replace (k + S n)%nat with (S k + n)%nat by lia. cbn [lnP_aux pev].
    assert (E : (Pos.of_succ_nat k + 1)%positive = Pos.of_succ_nat (S k)) by (simpl; lia).
    rewrite E. rewrite (IHn (S k) t (- s)%Q).
    + cbn [lnS]. rewrite Q2R_red, Q2R_mult.
      assert (Q2R (1 # Pos.of_succ_nat k) = / INR (S k)).
      { unfold Q2R. simpl Qnum. simpl Qden. rewrite Rmult_1_l.
        change (IZR (Z.pos (Pos.of_succ_nat k))) with (IZR (Z.pos (Pos.of_succ_nat k))).
        rewrite <- Znat.Zpos_P_of_succ_nat || idtac. f_equal. rewrite INR_IZR_INZ. f_equal. }
      rewrite H, Hs. unfold Rdiv. replace (- t) with (-1 * t) by ring. rewrite (Rpow_mult_distr (-1) t (S k)).
      simpl. ring.
    + rewrite Q2R_opp, Hs. simpl. ring.
Qed.
Lemma lnP_ok n t : pev (lnP n) t = lnS n t.
Proof.
  unfold lnP. cbn [pev]. rewrite Q2R_0'.
  pose proof (lnP_tail n 0 t 1%Q) as H. simpl Pos.of_succ_nat in H. rewrite plus_O_n in H. rewrite H.
  - simpl. ring.
  - rewrite Q2R_1'. simpl. ring.
Qed.

(** ** The window theorem *)
Record window := {
  wA : poly; wB : poly; wD : poly; wm : nat;   (* closed form (A + B ln(1+t)) / (t^m D) *)
  wP : poly;                                   (* the expansion used by the code *)
  wk : nat;                                    (* order of the error *)
  wr : Q;                                      (* |t| <= r *)
  wC : Q                                       (* error constant *)
}.
Definition wclosed (w : window) (t : R) : R := (pev (wA w) t + pev (wB w) t * ln (1 + t)) / (t ^ wm w * pev (wD w) t).
Definition wres (w : window) : poly :=
  padd (pmul (wP w) (pshift (wm w) (wD w))) (pneg (padd (wA w) (pmul (wB w) (lnP (wm w + wk w))))).
Definition wdmin (w : window) : Q :=
  match wD w with [] => 0%Q | c :: q => Qred (Qabs c - wr w * pbound q (wr w)) end.
Definition wcheck (w : window) : bool :=
  Qle_bool 0 (wr w) && Qle_bool (wr w) (1 # 2)
  && lowzero (wm w + wk w) (wres w)
  && negb (Qle_bool (wdmin w) 0)
  && Qle_bool (pbound (skipn (wm w + wk w) (wres w)) (wr w) + 2 * (wr w) * pbound (wB w) (wr w)) (wC w * wdmin w).

Lemma wdmin_ok w t : Rabs t <= Q2R (wr w) -> Q2R (wdmin w) <= Rabs (pev (wD w) t).
Proof.
  intros H. unfold wdmin. destruct (wD w) as [|c q]; cbn [pev].
  - rewrite Q2R_0', Rabs_R0. lra.
  - rewrite Q2R_red, Q2R_minus, Q2R_mult, Q2R_abs.
    assert (Rabs (t * pev q t) <= Q2R (wr w) * Q2R (pbound q (wr w))).
    { rewrite Rabs_mult. apply Rmult_le_compat; auto using Rabs_pos, pbound_ok. }
    pose proof (Rabs_triang_inv (Q2R c) (- (t * pev q t))). rewrite Rabs_Ropp in H1.
    replace (Q2R c - - (t * pev q t)) with (Q2R c + t * pev q t) in H1 by ring. lra.
Qed.

Theorem window_ok w : wcheck w = true ->
  forall t, t <> 0 -> Rabs t <= Q2R (wr w) ->
  Rabs (pev (wP w) t - wclosed w t) <= Q2R (wC w) * Rabs t ^ wk w.
Proof.
  unfold wcheck. rewrite !andb_true_iff, negb_true_iff. intros [[[[H0 H1] HL] HD] HC] t Ht Hr.
  apply Qle_bool_iff in H0, H1, HC.
  assert (HD' : 0 < Q2R (wdmin w)).
  { rewrite <- Q2R_0'. apply Qlt_Rlt. destruct (Qlt_le_dec 0 (wdmin w)) as [L|L]; auto.
    apply Qle_bool_iff in L. congruence. }
  clear HD. apply Qle_Rle in H0, H1, HC. rewrite Q2R_0' in H0.
  rewrite Q2R_plus, !Q2R_mult in HC. replace (Q2R 2) with 2 in HC by (unfold Q2R; simpl; field).
  replace (Q2R (1 # 2)) with (1/2) in H1 by (unfold Q2R; simpl; field).
  pose proof (wdmin_ok w t Hr) as HDt.
  assert (HDn : pev (wD w) t <> 0) by (intros E; rewrite E, Rabs_R0 in HDt; lra).
  pose (n := (wm w + wk w)%nat).
  pose (E := ln (1 + t) - lnS n t).
  assert (HE : Rabs E <= 2 * Rabs t ^ S n) by (apply ln_taylor; lra).
  pose (D := t ^ wm w * pev (wD w) t).
  assert (Ht0 : 0 < Rabs t) by (apply Rabs_pos_lt; auto).
  assert (HDne : D <> 0) by (apply Rmult_integral_contrapositive_currified; auto using pow_nonzero).
  assert (EQ : pev (wP w) t - wclosed w t = (pev (wres w) t - pev (wB w) t * E) / D).
  { unfold wclosed, wres. rewrite pev_add, pev_neg, pev_add, !pev_mul, pev_shift, lnP_ok. fold n. fold D. unfold E. field. auto. }
  rewrite EQ. unfold Rdiv. rewrite Rabs_mult, Rabs_inv.
  rewrite (lowzero_ok _ _ t HL). fold n.
  assert (HDa : Rabs t ^ wm w * Q2R (wdmin w) <= Rabs D).
  { unfold D. rewrite Rabs_mult, <- RPow_abs. apply Rmult_le_compat_l; auto. apply pow_le, Rabs_pos. }
  assert (P1 : 0 < Rabs t ^ wm w) by (apply pow_lt; auto).
  assert (P2 : 0 <= Rabs t ^ wk w) by (apply pow_le, Rabs_pos).
  apply (Rmult_le_reg_r (Rabs D)); [apply Rabs_pos_lt; auto|].
  rewrite Rmult_assoc, Rinv_l, Rmult_1_r by (apply Rabs_no_R0; auto).
  assert (N : Rabs (t ^ n * pev (skipn n (wres w)) t - pev (wB w) t * E)
      <= Rabs t ^ n * (Q2R (pbound (skipn n (wres w)) (wr w)) + 2 * Q2R (wr w) * Q2R (pbound (wB w) (wr w)))).
  { eapply Rle_trans; [apply Rabs_triang|]. rewrite Rabs_Ropp, !Rabs_mult, <- RPow_abs.
    pose proof (pbound_ok (skipn n (wres w)) (wr w) t Hr) as B1.
    pose proof (pbound_ok (wB w) (wr w) t Hr) as B2.
    assert (P3 : 0 < Rabs t ^ n) by (apply pow_lt; auto).
    assert (HE2 : Rabs E <= Rabs t ^ n * (2 * Q2R (wr w))).
    { eapply Rle_trans; [exact HE|]. simpl. nra. }
    assert (Rabs (pev (wB w) t) * Rabs E <= Q2R (pbound (wB w) (wr w)) * (Rabs t ^ n * (2 * Q2R (wr w)))).
    { apply Rmult_le_compat; auto using Rabs_pos. }
    nra. }
  eapply Rle_trans; [exact N|].
  apply Rle_trans with (Rabs t ^ n * (Q2R (wC w) * Q2R (wdmin w))).
  - apply Rmult_le_compat_l; [apply pow_le, Rabs_pos|exact HC].
  - unfold n. rewrite pow_add.
    assert (0 <= Q2R (wC w)).
    { assert (0 <= Q2R (wC w) * Q2R (wdmin w)).
      { eapply Rle_trans; [|exact HC]. pose proof (pbound_pos (skipn (wm w + wk w) (wres w)) (wr w)).
        pose proof (pbound_pos (wB w) (wr w)).
        assert (0 <= wr w)%Q by (apply Rle_Qle; rewrite Q2R_0'; auto). specialize (H H3). specialize (H2 H3).
        assert (0 <= Q2R (wr w) * Q2R (pbound (wB w) (wr w))) by (apply Rmult_le_pos; auto). nra. }
      nra. }
    replace (Rabs t ^ wm w * Rabs t ^ wk w * (Q2R (wC w) * Q2R (wdmin w)))
      with ((Q2R (wC w) * Rabs t ^ wk w) * (Rabs t ^ wm w * Q2R (wdmin w))) by ring.
    apply Rmult_le_compat_l; auto. apply Rmult_le_pos; auto.
Qed.
