(** * Divided differences of expanded functions (proof tools, no model) *)
From Coq Require Import Reals QArith Qreals List Bool Lra Lia Ranalysis.
From Verif Require Import Taylor.
Import ListNotations.
Open Scope R_scope.

Definition PX1 : poly := [1; 1]%Q.
Definition wDf (w : window) := pshift (wm w) (wD w).
Definition wder (w : window) (C2 : Q) : window := {|
  wA := padd (pmul PX1 (padd (pmul (pder (wA w)) (wDf w)) (pneg (pmul (wA w) (pder (wDf w)))))) (pmul (wB w) (wDf w));
  wB := pmul PX1 (padd (pmul (pder (wB w)) (wDf w)) (pneg (pmul (wB w) (pder (wDf w)))));
  wD := pmul PX1 (pmul (wD w) (wD w)); wm := wm w + wm w;
  wP := pder (wP w); wk := pred (wk w); wr := wr w; wC := C2 |}.

Lemma wclosed_deriv w C2 t : t <> 0 -> -1 < t -> pev (wD w) t <> 0 ->
  derivable_pt_lim (wclosed w) t (wclosed (wder w C2) t).
Proof.
  intros Ht H1 HD.
  pose (num := fun t => pev (wA w) t + pev (wB w) t * ln (1 + t)).
  pose (num' := pev (pder (wA w)) t + (pev (pder (wB w)) t * ln (1 + t) + pev (wB w) t * / (1 + t))).
  assert (Dn : derivable_pt_lim num t num').
  { apply (derivable_pt_lim_plus (pev (wA w)) (fun t => pev (wB w) t * ln (1 + t))); [apply pev_deriv|].
    apply (derivable_pt_lim_mult (pev (wB w)) (fun t => ln (1 + t))); [apply pev_deriv|apply ln1p_deriv; auto]. }
  assert (HDf : pev (wDf w) t <> 0).
  { unfold wDf. rewrite pev_shift. apply Rmult_integral_contrapositive_currified; auto using pow_nonzero. }
  pose proof (derivable_pt_lim_div num (pev (wDf w)) t num' _ Dn (pev_deriv (wDf w) t) HDf) as Dd.
  assert (E : wclosed (wder w C2) t = (num' * pev (wDf w) t - pev (pder (wDf w)) t * num t) / (pev (wDf w) t)²).
  { unfold wclosed at 1. unfold wder, wA, wB, wD, wm. fold (wA w) (wB w) (wD w) (wm w).
    repeat rewrite ?pev_add, ?pev_mul, ?pev_neg. rewrite pow_add.
    assert (E1 : pev PX1 t = 1 + t) by (unfold PX1; cbn [pev]; rewrite !Q2R_1'; ring). rewrite E1.
    assert (E2 : pev (wDf w) t = t ^ wm w * pev (wD w) t) by apply pev_shift.
    unfold num, num', Rsqr. set (D' := pev (pder (wDf w)) t). rewrite E2.
    field. repeat split; auto using pow_nonzero; lra. }
  rewrite E. eapply deriv_ext; [|exact Dd]. intros y. unfold div_fct, wclosed, num, wDf. rewrite pev_shift. reflexivity.
Qed.

Lemma between_same t1 t2 c r : Rabs t1 <= r -> Rabs t2 <= r -> Rmin t1 t2 <= c <= Rmax t1 t2 -> Rabs c <= Rmax (Rabs t1) (Rabs t2) /\ Rabs c <= r.
Proof.
  intros H1 H2 [H3 H4]. unfold Rmin, Rmax in *.
  destruct (Rle_dec t1 t2); destruct (Rle_dec (Rabs t1) (Rabs t2)); revert H1 H2 n r1 r0 || revert H1 H2;
  unfold Rabs in *; destruct (Rcase_abs t1); destruct (Rcase_abs t2); destruct (Rcase_abs c); intros; split; lra.
Qed.

Definition dd (f : R -> R) (a b : R) : R := (f a - f b) / (a - b).

Definition ddcheck (w : window) (C2 : Q) : bool :=
  wcheck w && wcheck (wder w C2) && Qle_bool (wC w) C2.

Theorem dd_ok w C2 : ddcheck w C2 = true -> (0 < wk w)%nat ->
  forall t1 t2, t1 <> 0 -> t2 <> 0 -> t1 <> t2 -> Rabs t1 <= Q2R (wr w) -> Rabs t2 <= Q2R (wr w) ->
  Rabs (dd (pev (wP w)) t1 t2 - dd (wclosed w) t1 t2) <= Q2R C2 * Rmax (Rabs t1) (Rabs t2) ^ pred (wk w).
Proof.
  unfold ddcheck. rewrite !andb_true_iff. intros [[W1 W2] WC] Hk t1 t2 N1 N2 N12 R1 R2.
  apply Qle_bool_iff, Qle_Rle in WC.
  pose (E := fun t => pev (wP w) t - wclosed w t).
  assert (ED : dd (pev (wP w)) t1 t2 - dd (wclosed w) t1 t2 = (E t1 - E t2) / (t1 - t2)) by (unfold dd, E; field; lra).
  rewrite ED. set (M := Rmax (Rabs t1) (Rabs t2)). set (k := pred (wk w)).
  assert (H12 : 0 < Rabs (t1 - t2)) by (apply Rabs_pos_lt; lra).
  assert (M1 : Rabs t1 <= M) by apply Rmax_l. assert (M2 : Rabs t2 <= M) by apply Rmax_r.
  assert (M0 : 0 <= M) by (generalize (Rabs_pos t1); lra).
  assert (G : Rabs (E t1 - E t2) <= (Q2R C2 * M ^ k) * Rabs (t1 - t2)).
  2:{ unfold Rdiv. rewrite Rabs_mult, Rabs_inv. apply (Rmult_le_reg_r (Rabs (t1 - t2))); auto.
      rewrite Rmult_assoc, Rinv_l, Rmult_1_r by lra. exact G. }
  assert (P0 : forall t, t <> 0 -> Rabs t <= Q2R (wr w) -> Rabs (E t) <= Q2R (wC w) * Rabs t ^ S k).
  { intros t H H'. unfold E, k. replace (S (pred (wk w))) with (wk w) by lia. apply window_ok; auto. }
  destruct (Rlt_or_le 0 (t1 * t2)) as [Same|Opp].
  - apply (MVT_bound E (fun c => pev (pder (wP w)) c - wclosed (wder w C2) c) t2 t1).
    + intros c Hc. destruct (between_same t2 t1 c (Q2R (wr w))) as [_ Hr]; auto.
      assert (c <> 0).
      { intros ->. destruct Hc as [A B]. unfold Rmin, Rmax in *. destruct (Rle_dec t2 t1); nra. }
      apply derivable_pt_lim_minus; [apply pev_deriv|]. 
      pose proof W1 as W1'. unfold wcheck in W1'. rewrite !andb_true_iff, negb_true_iff in W1'. destruct W1' as [[[[K0 K1] _] KD] _].
      apply Qle_bool_iff, Qle_Rle in K1. replace (Q2R (1 # 2)) with (1/2) in K1 by (unfold Q2R; simpl; field).
      apply wclosed_deriv; auto.
      * revert Hr. unfold Rabs. destruct (Rcase_abs c); lra.
      * pose proof (wdmin_ok w c Hr) as L. intros Z. rewrite Z, Rabs_R0 in L.
        assert (0 < Q2R (wdmin w)). { rewrite <- Q2R_0'. apply Qlt_Rlt. destruct (Qlt_le_dec 0 (wdmin w)) as [Y|Y]; auto. apply Qle_bool_iff in Y. congruence. }
        lra.
    + intros c Hc. destruct (between_same t2 t1 c (Q2R (wr w))) as [Hm Hr]; auto. rewrite Rmax_comm in Hm. fold M in Hm.
      assert (c <> 0).
      { intros ->. destruct Hc as [A B]. unfold Rmin, Rmax in *. destruct (Rle_dec t2 t1); nra. }
      pose proof (window_ok (wder w C2) W2 c H Hr) as B.
      change (wP (wder w C2)) with (pder (wP w)) in B. change (wk (wder w C2)) with k in B. change (wC (wder w C2)) with C2 in B.
      eapply Rle_trans; [exact B|]. apply Rmult_le_compat_l.
      * assert (0 <= Q2R C2 * Rabs c ^ k) by (eapply Rle_trans; [apply Rabs_pos|exact B]).
        assert (0 < Rabs c ^ k) by (apply pow_lt, Rabs_pos_lt; auto). nra.
      * apply pow_incr. split; [apply Rabs_pos|auto].
  - assert (A : Rabs (t1 - t2) = Rabs t1 + Rabs t2).
    { unfold Rabs. destruct (Rcase_abs t1); destruct (Rcase_abs t2); destruct (Rcase_abs (t1 - t2)); nra. }
    pose proof (P0 t1 N1 R1) as B1. pose proof (P0 t2 N2 R2) as B2.
    assert (C0 : 0 <= Q2R (wC w)).
    { assert (0 <= Q2R (wC w) * Rabs t1 ^ S k) by (eapply Rle_trans; [apply Rabs_pos|exact B1]).
      assert (0 < Rabs t1 ^ S k) by (apply pow_lt, Rabs_pos_lt; auto). nra. }
    assert (Q : forall t, Rabs t <= M -> Q2R (wC w) * Rabs t ^ S k <= Q2R C2 * M ^ k * Rabs t).
    { intros t Ht. simpl. rewrite (Rmult_comm (Rabs t)), <- Rmult_assoc. apply Rmult_le_compat_r; [apply Rabs_pos|].
      apply Rmult_le_compat; auto. apply pow_le, Rabs_pos. apply pow_incr. split; [apply Rabs_pos|auto]. }
    pose proof (Q t1 M1). pose proof (Q t2 M2).
    eapply Rle_trans; [apply Rabs_triang|]. rewrite Rabs_Ropp, A, Rmult_plus_distr_l. lra.
Qed.
