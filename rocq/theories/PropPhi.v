(** * C80: the roots in which the two-loop function Phi is written
    Phi(u,v) is a combination of logarithms and dilogarithms of x = (1 - lambda + u - v)/2 and y = (1 - lambda - u + v)/2,
    lambda^2 = (1 - u - v)^2 - 4 u v (Davydychev, Tausk).  For small ratios the code replaces x and y by expansions ([luv]; for u = v inside [phi_pos]). *)
From Coq Require Import Reals ZArith List Bool Lra Lia.
From Verif Require Import Num NumFacts LoopFun LoopProofs.
Open Scope R_scope.

Definition lam (u v : R) : R := sqrt ((1 - u - v) ^ 2 - 4 * u * v).
Definition root_x (u v : R) : R := (1 - lam u v + u - v) / 2.
Definition root_y (u v : R) : R := (1 - lam u v - u + v) / 2.

(** the threshold of the code is about 2.2e-4 *)
Lemma qdrt_bounds : 1 / 5000 < (qdrt_eps : R) < 1 / 4000.
Proof.
  unfold qdrt_eps, phi_eps. rewrite eps_defaultR. unR. unfold Rdec. simpl Z.pow. set (e := 10 / 1 * (1 / 4503599627370496)).
  assert (P : 0 < e) by (unfold e; lra).
  assert (G : forall a, 0 < a -> Rpower (a ^ 4) (25 / 100) = a).
  { intros a Ha. rewrite <- (Rpower_pow 4 a Ha), Rpower_mult. replace (INR 4 * (25 / 100)) with 1 by (cbn [INR]; lra). apply Rpower_1. exact Ha. }
  assert (M : forall a b, 0 < a < b -> Rpower a (25 / 100) < Rpower b (25 / 100)).
  { intros a b (A & B). unfold Rpower. apply exp_increasing. apply Rmult_lt_compat_l; [lra|]. apply ln_increasing; assumption. }
  split.
  - rewrite <- (G (1 / 5000)) by lra. apply M. unfold e. lra.
  - rewrite <- (G (1 / 4000)) by lra. apply M. unfold e. lra.
Qed.

Lemma lam_sym u v : lam u v = lam v u.
Proof. unfold lam. f_equal. ring. Qed.
Lemma root_sym u v : root_x u v = root_y v u.
Proof. unfold root_x, root_y. rewrite (lam_sym u v). lra. Qed.

(** ** both ratios small *)
Lemma mono_bd m (i : nat) a : 0 <= a <= m -> 0 <= a ^ i <= m ^ i.
Proof. intros H. split; [apply pow_le; lra|apply pow_incr; lra]. Qed.
Lemma mon4 m a b i j : 0 <= a <= m -> 0 <= b <= m -> (i + j = 4)%nat -> 0 <= a ^ i * b ^ j <= m ^ 4.
Proof.
  intros Ha Hb <-. destruct (mono_bd m i a Ha), (mono_bd m j b Hb). rewrite pow_add. split; [apply Rmult_le_pos; lra|]. apply Rmult_le_compat; lra.
Qed.
Lemma mon5 m a b i j : 0 <= a <= m -> 0 <= b <= m -> m <= 1 / 4000 -> (5 <= i + j)%nat -> 0 <= a ^ i * b ^ j <= m ^ 4 / 4000.
Proof.
  intros Ha Hb Hm L. destruct (mono_bd m i a Ha), (mono_bd m j b Hb).
  assert (H3 : a ^ i * b ^ j <= m ^ (i + j)) by (rewrite pow_add; apply Rmult_le_compat; lra).
  assert (H4 : m ^ (i + j) <= m ^ 4 / 4000).
  { replace (i + j)%nat with (4 + S (i + j - 5))%nat by lia. rewrite pow_add. cbn [pow]. assert (0 <= m * (m * (m * (m * 1)))) by (repeat apply Rmult_le_pos; lra).
    assert (m ^ (i + j - 5) <= 1) by (rewrite <- (pow1 (i + j - 5)); apply pow_incr; lra). assert (0 <= m ^ (i + j - 5)) by (apply pow_le; lra).
    unfold Rdiv. apply Rmult_le_compat_l; [assumption|]. nra. }
  split; [apply Rmult_le_pos; lra|lra].
Qed.
Lemma l00_root a b m : 0 < a <= m -> 0 < b <= m -> m <= 1 / 4000 -> Rabs (l00 a b - root_y a b) <= 6 * b * m ^ 4.
Proof.
  intros Ha Hb Hm.
  assert (D : 0 <= (1 - a - b) ^ 2 - 4 * a * b) by nra.
  pose proof (sqrt_pos ((1 - a - b) ^ 2 - 4 * a * b)) as L0. pose proof (sqrt_sqrt _ D) as L1. fold (lam a b) in L0, L1.
  unfold root_y. set (l := lam a b) in *. set (E := (1 - l - a + b) / 2).
  assert (PE : E * E - (1 - a + b) * E + b = 0) by (unfold E; nra).
  set (Sx := 1 + a * (1 + a * (1 + a)) + b * (a * (1 + a * (3 + 6 * a)) + a * (1 + a * (6 + 20 * a)) * b)).
  change (l00 a b) with (b * Sx).
  assert (ha : 0 <= a <= m) by lra. assert (hb : 0 <= b <= m) by lra.
  set (Q := b * (Sx * Sx) - (1 - a + b) * Sx + 1).
  assert (HQ : 0 <= Q <= 5 / 2 * m ^ 4).
  { pose proof (mon4 m a b 1 3 ha hb eq_refl). pose proof (mon4 m a b 4 0 ha hb eq_refl).
    assert (five : forall i j, (5 <= i + j)%nat -> 0 <= a ^ i * b ^ j <= m ^ 4 / 4000) by (intros; apply mon5; assumption || lra).
    pose proof (five 2%nat 3%nat ltac:(lia)). pose proof (five 4%nat 1%nat ltac:(lia)). pose proof (five 2%nat 4%nat ltac:(lia)). pose proof (five 3%nat 3%nat ltac:(lia)).
    pose proof (five 4%nat 2%nat ltac:(lia)). pose proof (five 5%nat 1%nat ltac:(lia)). pose proof (five 2%nat 5%nat ltac:(lia)). pose proof (five 3%nat 4%nat ltac:(lia)).
    pose proof (five 4%nat 3%nat ltac:(lia)). pose proof (five 5%nat 2%nat ltac:(lia)). pose proof (five 6%nat 1%nat ltac:(lia)). pose proof (five 3%nat 5%nat ltac:(lia)).
    pose proof (five 4%nat 4%nat ltac:(lia)). pose proof (five 5%nat 3%nat ltac:(lia)). pose proof (five 6%nat 2%nat ltac:(lia)). pose proof (five 4%nat 5%nat ltac:(lia)).
    pose proof (five 5%nat 4%nat ltac:(lia)). pose proof (five 6%nat 3%nat ltac:(lia)). pose proof (five 5%nat 5%nat ltac:(lia)). pose proof (five 6%nat 4%nat ltac:(lia)). pose proof (five 6%nat 5%nat ltac:(lia)).
    replace Q with (1 * (a ^ 1 * b ^ 3) + 1 * (a ^ 4 * b ^ 0) + 9 * (a ^ 2 * b ^ 3) + 9 * (a ^ 4 * b ^ 1) + 2 * (a ^ 2 * b ^ 4) + 40 * (a ^ 3 * b ^ 3) + 40 * (a ^ 4 * b ^ 2) + 2 * (a ^ 5 * b ^ 1)
      + 1 * (a ^ 2 * b ^ 5) + 18 * (a ^ 3 * b ^ 4) + 75 * (a ^ 4 * b ^ 3) + 18 * (a ^ 5 * b ^ 2) + 1 * (a ^ 6 * b ^ 1) + 12 * (a ^ 3 * b ^ 5) + 88 * (a ^ 4 * b ^ 4) + 88 * (a ^ 5 * b ^ 3) + 12 * (a ^ 6 * b ^ 2)
      + 76 * (a ^ 4 * b ^ 5) + 192 * (a ^ 5 * b ^ 4) + 76 * (a ^ 6 * b ^ 3) + 240 * (a ^ 5 * b ^ 5) + 240 * (a ^ 6 * b ^ 4) + 400 * (a ^ 6 * b ^ 5)) by (unfold Q, Sx; ring).
    lra. }
  assert (HS : 0 <= Sx <= 2).
  { assert (0 <= a * (1 + a * (1 + a)) <= 1 / 100) by nra. assert (0 <= a * (1 + a * (3 + 6 * a)) <= 1) by nra. assert (0 <= a * (1 + a * (6 + 20 * a)) <= 1) by nra. unfold Sx. nra. }
  assert (Hy : 0 <= b * Sx <= 1 / 1000) by nra.
  assert (K : (b * Sx - E) * ((1 - a + b + l) / 2 - b * Sx) = - (b * Q)) by (unfold Q, E in *; nra).
  set (g := (1 - a + b + l) / 2 - b * Sx) in *. assert (Hg : 45 / 100 <= g) by (unfold g; lra).
  assert (H1 : b * Sx - E <= 0) by nra. rewrite Rabs_left1 by exact H1. assert (0 <= m ^ 4) by (apply pow_le; lra). nra.
Qed.
Theorem C80_both_ratios_small : forall l u v : R, 0 < u <= v -> v < qdrt_eps ->
  Rabs (fst (luv l u v) - root_y u v) <= 6 * v * v ^ 4 /\ Rabs (snd (luv l u v) - root_x u v) <= 6 * u * v ^ 4.
Proof.
  intros l u v Hu Hv. pose proof qdrt_bounds as B. unfold luv. unR. rewrite Rltb_true by exact Hv. cbn [fst snd]. rewrite root_sym. split; apply l00_root; lra.
Qed.

(** ** one ratio small: the expansion parameter is w = u/(1-v)^2 *)
Section OneSmall.
  Variables u v : R.
  Hypothesis Hu : 0 < u. Hypothesis Hv : 0 <= v < 1.
  Hypothesis Hd : 0 <= (1 - u - v) ^ 2 - 4 * u * v.
  Let a := 1 - v. Let w := u / a ^ 2. Let s := 1 + w * v + w * w * v * (1 + v).
  Lemma a_pos : 0 < a. Proof. unfold a. lra. Qed.
  Lemma w_u : u = w * a ^ 2. Proof. unfold w. field. pose proof a_pos. lra. Qed.
  Lemma l0v_s : l0v u v = w * a * s.
  Proof. pose proof a_pos. unfold l0v. cbv zeta. unR. unfold Rdec. simpl Z.pow. unfold s, w. unfold a in *. field. lra. Qed.
  Lemma lv0_s : lv0 u v - root_y u v = l0v u v - root_x u v.
  Proof. pose proof a_pos. unfold lv0, l0v, root_x, root_y. cbv zeta. unR. unfold Rdec. simpl Z.pow. unfold a in *. field. lra. Qed.
  Lemma key : (l0v u v - root_x u v) * ((1 + u - v + lam u v) / 2 - l0v u v) = - (u * (w ^ 3 * v * (v * (1 + w * (1 + v)) + (1 + v) * (s + v)))).
  Proof.
    pose proof (sqrt_sqrt _ Hd) as L1. fold (lam u v) in L1. set (l := lam u v) in *. rewrite l0v_s. unfold root_x. fold l.
    set (X := w * a * s). replace ((X - (1 - l + u - v) / 2) * ((1 + u - v + l) / 2 - X)) with (- (X * X - (1 + u - v) * X + ((1 + u - v) * (1 + u - v) - l * l) / 4)) by field.
    rewrite L1. replace (((1 + u - v) * (1 + u - v) - ((1 - u - v) ^ 2 - 4 * u * v)) / 4) with u by field. f_equal. unfold X. rewrite w_u. unfold s, a. ring.
  Qed.
End OneSmall.
Theorem C80_one_ratio_small : forall l u v : R, 0 < u < qdrt_eps -> qdrt_eps <= v < 1 -> u <= (1 - v) ^ 2 / 16 ->
  Rabs (fst (luv l u v) - root_x u v) <= 15 * (u / (1 - v)) * (u / (1 - v) ^ 2) ^ 3 /\
  Rabs (snd (luv l u v) - root_y u v) <= 15 * (u / (1 - v)) * (u / (1 - v) ^ 2) ^ 3.
Proof.
  intros l0 u v Hu Hv Hw. pose proof qdrt_bounds as B. unfold luv. unR. rewrite Rltb_false by lra. rewrite Rltb_true by lra. cbn [fst snd].
  assert (hv : 0 <= v < 1) by lra. assert (hd : 0 <= (1 - u - v) ^ 2 - 4 * u * v) by nra.
  rewrite lv0_s by assumption. pose proof (key u v hv hd) as K. pose proof (l0v_s u v hv) as L0.
  assert (hl : 0 <= lam u v) by apply sqrt_pos.
  set (a := 1 - v) in *. assert (ha : 0 < a <= 1) by (unfold a; lra). set (w := u / a ^ 2) in *.
  assert (wu : u = w * a ^ 2) by (unfold w; field; lra).
  assert (hw : 0 < w <= 1 / 16).
  { split; [unfold w; apply Rdiv_lt_0_compat; [lra|nra]|]. apply Rmult_le_reg_r with (a ^ 2); [nra|]. rewrite <- wu. lra. }
  set (s := 1 + w * v + w * w * v * (1 + v)) in *.
  assert (hs : 1 <= s <= 9 / 8) by (assert (0 <= w * v <= 1 / 16) by nra; assert (0 <= w * w <= 1 / 256) by nra; assert (0 <= w * w * v * (1 + v) <= 2 / 256) by nra; unfold s; lra).
  assert (ua : u / a = w * a) by (rewrite wu; field; lra). rewrite ua.
  set (X := l0v u v) in *. set (x := root_x u v) in *. set (h := v * (1 + w * (1 + v)) + (1 + v) * (s + v)) in *.
  assert (hh : 0 <= h <= 6) by (unfold h; assert (0 <= v * (1 + w * (1 + v)) <= 9 / 8) by nra; assert (0 <= (1 + v) * (s + v) <= 2 * (17 / 8)) by nra; lra).
  set (g := (1 + u - v + lam u v) / 2 - X) in *.
  assert (hg : 2 / 5 * a <= g). { unfold g. rewrite L0. assert (w * a * s <= 9 / 128 * a) by (assert (w * s <= 9 / 128) by nra; nra). unfold a in *. lra. }
  assert (w3 : 0 < w ^ 3) by (apply pow_lt; lra).
  assert (R0 : 0 <= u * (w ^ 3 * v * h) <= 6 * u * w ^ 3).
  { assert (0 <= w ^ 3 * v * h <= w ^ 3 * 6) by (assert (0 <= v * h <= 6) by nra; rewrite Rmult_assoc; nra). split; [nra|]. nra. }
  assert (N : X - x <= 0) by (assert (0 < g) by nra; nra).
  assert (M : x - X <= 15 * (w * a) * w ^ 3).
  { assert (G1 : (x - X) * (2 / 5 * a) <= 6 * u * w ^ 3) by nra. apply Rmult_le_reg_r with (2 / 5 * a); [lra|].
    replace (15 * (w * a) * w ^ 3 * (2 / 5 * a)) with (6 * (w * a ^ 2) * w ^ 3) by field. rewrite <- wu. exact G1. }
  rewrite Rabs_left1 by exact N. lra.
Qed.

(** The window of the code is larger: it only asks u to be small.  Where v is near 1 the expansion parameter u/(1-v)^2 is not small and the root is
    wrong by almost one per cent. *)
Theorem C80_window_refuted : forall l : R, exists u v : R, 0 < u < qdrt_eps /\ qdrt_eps <= v < 1 /\ 0 < (1 - u - v) ^ 2 - 4 * u * v /\
  fst (luv l u v) <= (1 - 1 / 125) * root_x u v.
Proof.
  intros l0. exists (1 / 10000), (97 / 100). pose proof qdrt_bounds as B. split; [lra|]. split; [lra|]. split; [lra|].
  unfold luv. unR. rewrite Rltb_false by lra. rewrite Rltb_true by lra. cbn [fst].
  unfold l0v, root_x, lam. cbv zeta. unR. unfold Rdec. simpl Z.pow.
  assert (L : sqrt ((1 - 1 / 10000 - 97 / 100) ^ 2 - 4 * (1 / 10000) * (97 / 100)) <= 224947 / 10000000).
  { rewrite <- (sqrt_square (224947 / 10000000)) by lra. apply sqrt_le_1_alt. lra. }
  set (l := sqrt _) in *. lra.
Qed.

(** ** equal ratios: the root that [phi_pos] uses *)
Lemma equal_root u : 0 < u <= 1 / 4000 -> Rabs (u * (1 + u * (1 + u * (2 + 5 * u))) - root_x u u) <= 30 * u ^ 5.
Proof.
  intros Hu. assert (D : 0 <= (1 - u - u) ^ 2 - 4 * u * u) by nra.
  pose proof (sqrt_pos ((1 - u - u) ^ 2 - 4 * u * u)) as L0. pose proof (sqrt_sqrt _ D) as L1. fold (lam u u) in L0, L1.
  unfold root_x. set (l := lam u u) in *. set (t := u * (1 + u * (1 + u * (2 + 5 * u)))). set (q := 14 + 14 * u + 20 * u ^ 2 + 25 * u ^ 3 - 10 * u * 0).
  assert (u2 : 0 < u ^ 2 <= u / 4000) by (split; [apply pow_lt; lra|simpl; nra]). assert (u3 : 0 < u ^ 3 <= u ^ 2 / 4000) by (split; [apply pow_lt; lra|simpl in *; nra]).
  assert (u4 : 0 < u ^ 4 <= u ^ 3 / 4000) by (split; [apply pow_lt; lra|simpl in *; nra]). assert (u5 : 0 < u ^ 5) by (apply pow_lt; lra).
  assert (ht : t = u + u ^ 2 + 2 * u ^ 3 + 5 * u ^ 4) by (unfold t; ring).
  assert (K : (t - (1 - l + u - u) / 2) * ((1 + l) / 2 - t) = - (u ^ 5 * q)).
  { replace ((t - (1 - l + u - u) / 2) * ((1 + l) / 2 - t)) with (- (t * t - t + (1 - l * l) / 4)) by field. rewrite L1. unfold t, q. field. }
  set (x := (1 - l + u - u) / 2) in *.
  assert (hl : 99 / 100 <= l) by nra.
  assert (hg : 9 / 10 <= (1 + l) / 2 - t) by lra. set (g := (1 + l) / 2 - t) in *.
  assert (hq : 0 <= q <= 15) by (unfold q; lra).
  assert (R0 : 0 <= u ^ 5 * q <= 15 * u ^ 5) by nra.
  assert (N : t - x <= 0) by nra. rewrite Rabs_left1 by exact N. nra.
Qed.
Theorem C80_equal_ratios : forall u : R, 0 < u < qdrt_eps -> exists x : R, Rabs (x - root_x u u) <= 30 * u ^ 5 /\
  phi_pos u u = (- (ln u * ln u) + 2 * (ln x * ln x) - 4 * Dilog.dilog x + 32898681336964529 / 10 ^ 16) / lam u u.
Proof.
  intros u Hu. pose proof qdrt_bounds as B. exists (u * (1 + u * (1 + u * (2 + 5 * u)))). split; [apply equal_root; lra|].
  assert (P : (phi_eps : R) <= 1 / 1000) by (unfold phi_eps; rewrite eps_defaultR; unR; unfold Rdec; simpl Z.pow; lra).
  assert (P0 : 0 <= (phi_eps : R)) by (unfold phi_eps; rewrite eps_defaultR; unR; unfold Rdec; simpl Z.pow; lra).
  unfold phi_pos. unR.
  rewrite (is_equalR_false u) by (rewrite Rabs_left1; lra). cbn [andb].
  rewrite (is_equalR_true u u) by (rewrite Rminus_diag_eq, Rabs_R0; lra).
  rewrite Rltb_true by lra. unfold pow2, lambda_2, lam. cbv zeta. unR. unfold pow2, Rdec. simpl Z.pow. unR.
  replace ((1 - u - u) ^ 2) with ((1 - u - u) * (1 - u - u)) by ring. unfold Rdiv. f_equal. lra.
Qed.

(** ** the function itself: the double-logarithm form holds with roots that are right to one part in 10^7 *)
Theorem C80_phi_of_roots : forall u v : R, 0 < u < v -> v <= 1 / 2 -> 1 / 10 ^ 14 < v - u -> 0 < (1 - u - v) ^ 2 - 4 * u * v ->
  exists x y : R, Rabs (x - root_x u v) <= u / 10 ^ 7 /\ Rabs (y - root_y u v) <= v / 10 ^ 7 /\
  phi_pos u v = (- (ln u * ln v) + 2 * ln x * ln y - 2 * Dilog.dilog x - 2 * Dilog.dilog y + 32898681336964529 / 10 ^ 16) / lam u v.
Proof.
  intros u v Hu Hv Hd Hl. pose proof qdrt_bounds as B.
  assert (P : (phi_eps : R) <= 1 / 10 ^ 14) by (unfold phi_eps; rewrite eps_defaultR; unR; unfold Rdec; simpl Z.pow; lra).
  unfold phi_pos. unR. rewrite (is_equalR_false u) by (rewrite Rabs_left1; lra). cbn [andb].
  rewrite (is_equalR_false u v) by (rewrite Rabs_left1; lra).
  replace (sqrt (lambda_2 u v)) with (lam u v) by (unfold lam, lambda_2, pow2; cbv zeta; unR; f_equal; ring).
  unfold Rdec. simpl Z.pow. set (l := lam u v). set (c := 32898681336964529 * / 10000000000000000).
  assert (u0 : 0 < u / 10 ^ 7) by lra. assert (v0 : 0 < v / 10 ^ 7) by lra.
  destruct (Rlt_dec v qdrt_eps) as [h1|h1]; [|destruct (Rlt_dec u qdrt_eps) as [h2|h2]].
  - destruct (C80_both_ratios_small l u v ltac:(lra) h1) as (K1 & K2). destruct (luv l u v) as [x y]. cbn [fst snd] in *.
    assert (0 <= v ^ 4 <= 1 / 10 ^ 9) by (assert (v ^ 4 <= (1 / 4000) ^ 4) by (apply pow_incr; lra); split; [apply pow_le; lra|lra]).
    exists y, x. split; [apply Rle_trans with (1 := K2); nra|]. split; [apply Rle_trans with (1 := K1); nra|].
    unR. fold l c. unfold Rdiv. f_equal. lra.
  - assert (ha : 1 / 2 <= 1 - v) by lra.
    assert (i1 : 0 < / (1 - v) <= 2) by (split; [apply Rinv_0_lt_compat; lra|rewrite <- (Rinv_inv 2); apply Rinv_le_contravar; lra]).
    destruct (C80_one_ratio_small l u v ltac:(lra) ltac:(lra) ltac:(nra)) as (K1 & K2). destruct (luv l u v) as [x y]. cbn [fst snd] in *.
    assert (bd : 15 * (u / (1 - v)) * (u / (1 - v) ^ 2) ^ 3 <= u / 10 ^ 7).
    { assert (w1 : 0 <= u / (1 - v) ^ 2 <= 1 / 1000).
      { replace (u / (1 - v) ^ 2) with (u * (/ (1 - v) * / (1 - v))) by (field; lra). assert (0 <= / (1 - v) * / (1 - v) <= 4) by nra. nra. }
      assert (w3 : 0 <= (u / (1 - v) ^ 2) ^ 3 <= (1 / 1000) ^ 3) by (split; [apply pow_le; lra|apply pow_incr; lra]).
      assert (0 <= u / (1 - v) <= 2 * u) by (unfold Rdiv; nra). nra. }
    exists x, y. split; [lra|]. split; [lra|]. unR. fold l c. unfold Rdiv. f_equal. lra.
  - unfold luv. unR. rewrite !Rltb_false by lra. unfold Rdec. simpl Z.pow. exists (root_x u v), (root_y u v). rewrite !Rminus_diag_eq, !Rabs_R0 by reflexivity.
    split; [lra|]. split; [lra|]. unfold root_x, root_y. fold l c. unR.
    match goal with |- context [ln (?k * (1 - l + u - v))] => assert (hk : k = 1 / 2) by (unfold Rdec; simpl Z.pow; lra); rewrite !hk end.
    replace ((1 - l + u - v) / 2) with (1 / 2 * (1 - l + u - v)) by lra.
    replace ((1 - l - u + v) / 2) with (1 / 2 * (1 - l - u + v)) by lra.
    apply (f_equal2 Rdiv); [lra|reflexivity].
Qed.

(** non-vacuity: the three windows *)
Example C80_both_case : 0 < (1 / 100000 : R) <= 1 / 10000 /\ (1 / 10000 : R) < qdrt_eps.
Proof. pose proof qdrt_bounds. lra. Qed.
Example C80_one_case : 0 < (1 / 10000 : R) < qdrt_eps /\ qdrt_eps <= (1 / 2 : R) < 1 /\ (1 / 10000 : R) <= (1 - 1 / 2) ^ 2 / 16.
Proof. pose proof qdrt_bounds. lra. Qed.
Example C80_phi_case : 0 < (1 / 10 : R) < 3 / 10 /\ (3 / 10 : R) <= 1 / 2 /\ 1 / 10 ^ 14 < (3 / 10 - 1 / 10 : R) /\ 0 < (1 - 1 / 10 - 3 / 10) ^ 2 - 4 * (1 / 10) * (3 / 10 : R).
Proof. lra. Qed.
