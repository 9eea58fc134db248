(** * Passarino-Veltman functions: one massless line *)
From Coq Require Import Reals List Bool Lra Lia ZArith.
From Coquelicot Require Import Coquelicot.
From Verif Require Import Num NumFacts PV PVSpec PVProofs PVProofs2.
Open Scope R_scope.

Definition Hml (p m x : R) : R := - (m - x * p) * (ln (m - x * p) - 1) / p.
Lemma massless_part p m q e : 0 < p -> p < m -> 0 < q -> 0 < e < 1 ->
  RInt (fun x => ln ((x * 0 + (1 - x) * m - x * (1 - x) * p) / q)) 0 (1 - e) =
    - (e * ln e) + e - 1 + Hml p m (1 - e) - Hml p m 0 - (1 - e) * ln q.
Proof.
  intros Hp Hm Hq He.
  rewrite (RInt_ext _ (fun x => ln (1 - x) + ln (m - x * p) - ln q)).
  2:{ intros x Hx. rewrite Rmin_left, Rmax_right in Hx by lra. change (@eq R (ln ((x * 0 + (1 - x) * m - x * (1 - x) * p) / q)) (ln (1 - x) + ln (m - x * p) - ln q)).
      replace (x * 0 + (1 - x) * m - x * (1 - x) * p) with ((1 - x) * (m - x * p)) by ring.
      assert (0 < m - x * p) by nra. rewrite lndiv, ln_mult; try lra. apply Rmult_lt_0_compat; lra. }
  rewrite (RInt_deriv (fun x => - ((1 - x) * ln (1 - x)) - x + Hml p m x - x * ln q)).
  - match goal with |- ?a = ?b => change (@eq R a b) end. replace (1 - (1 - e)) with e by ring. replace (1 - 0) with 1 by ring. rewrite ln_1. ring.
  - lra.
  - intros x Hx. assert (0 < m - x * p) by nra. unfold Hml. auto_derive; [repeat split; lra|].
    unfold Rminus in *. field. repeat split; lra.
  - intros x Hx. assert (0 < m - x * p) by nra.
    apply (ex_derive_continuous (V := R_NormedModule)). auto_derive. repeat split; lra.
Qed.

Lemma xlnx_0 : filterlim (fun e => e * ln e) (at_right 0) (locally 0).
Proof.
  apply filterlim_locally. intros [eps He]. unfold at_right, within.
  assert (D : 0 < Rmin 1 (eps * eps / 4)) by (apply Rmin_pos; [lra|nra]).
  exists (mkposreal _ D). intros e Hb Hpos.
  assert (E1 : e < 1 /\ e < eps * eps / 4).
  { change (Rabs (e - 0) < Rmin 1 (eps * eps / 4)) in Hb. rewrite Rminus_0_r, Rabs_pos_eq in Hb by lra.
    pose proof (Rmin_l 1 (eps * eps / 4)). pose proof (Rmin_r 1 (eps * eps / 4)). lra. }
  destruct E1 as [E1 E2].
  set (u := sqrt e). assert (U : 0 < u) by (apply sqrt_lt_R0; auto). assert (UU : u * u = e) by (apply sqrt_sqrt; lra).
  assert (L : ln e = 2 * ln u) by (rewrite <- UU, ln_mult by auto; ring).
  assert (U1 : u < 1) by nra.
  assert (LN : ln u < 0) by (rewrite <- ln_1; apply ln_increasing; lra).
  assert (LU : - ln u <= / u). { rewrite <- ln_Rinv by auto. pose proof (exp_ineq1_le (ln (/ u))) as K. rewrite exp_ln in K by (apply Rinv_0_lt_compat; auto). lra. }
  assert (B : u * - ln u <= 1). { apply Rle_trans with (u * / u); [apply Rmult_le_compat_l; lra|]. rewrite Rinv_r; lra. }
  assert (EU : 2 * u < eps) by nra.
  change (Rabs (e * ln e - 0) < eps).
  replace (e * ln e - 0) with (- (2 * u * (u * - ln u))) by (rewrite L, <- UU; ring).
  rewrite Rabs_Ropp, Rabs_pos_eq by nra. nra.
Qed.

Lemma B0_massless_limit p m q : 0 < p -> p < m -> 0 < q ->
  filterlim (fun e => - RInt (fun x => ln ((x * 0 + (1 - x) * m - x * (1 - x) * p) / q)) 0 (1 - e)) (at_right 0) (locally (B0_massless p m q)).
Proof.
  intros Hp Hm Hq.
  set (g := fun e => - (e - 1 + Hml p m (1 - e) - Hml p m 0 - (1 - e) * ln q)).
  assert (G0 : B0_massless p m q = 0 + g 0).
  { unfold g, B0_massless, Hml. rewrite Rabs_pos_eq by lra. replace (m - 0 * p) with m by ring. replace (m - (1 - 0) * p) with (m - p) by ring.
    rewrite !lndiv by lra. field. lra. }
  rewrite G0.
  apply (filterlim_ext_loc (fun e => e * ln e + g e)).
  - unfold at_right, within. exists (mkposreal 1 Rlt_0_1). intros e Hb Hpos.
    change (Rabs (e - 0) < 1) in Hb. rewrite Rminus_0_r, Rabs_pos_eq in Hb by lra.
    rewrite massless_part by lra. unfold g. ring.
  - apply (filterlim_comp_2 (G := locally 0) (H := locally (g 0))).
    + apply xlnx_0.
    + assert (C : continuous g 0).
      { apply (ex_derive_continuous (V := R_NormedModule)). unfold g, Hml. auto_derive. repeat split; lra. }
      intros P HP. specialize (C P HP). unfold filtermap in *. unfold at_right, within. revert C. apply filter_imp. auto.
    + apply (filterlim_plus (V := R_NormedModule)).
Qed.

Lemma b0_massless_code (p m q : R) : 0 < p -> 0 < m -> 0 < q -> 2/1000000000000000 * q <= m ->
  b0 p 0 m q = 2 - ln (m / q) + (m - p) / p * ln (sqrt ((m - p)^2 + (m / 1000000000000000)^2) / p).
Proof.
  intros Hp Hm Hq NIR. rewrite b0_is_tail; auto.
  2:{ right. rewrite Rabs_R0, (Rabs_pos_eq m) by lra. eapply Rle_trans; [exact NIR|apply Rmax_r]. }
  rewrite Rabs_R0, (Rabs_pos_eq m), (Rabs_pos_eq p), Rmin_left, Rmax_right by lra.
  unfold b0tail. rewrite Rltb_false by lra. rewrite Rleb_false by lra. rewrite Rltb_true by lra.
  unfold hypot; unR. do 5 f_equal. field.
Qed.
(** below the threshold the code is off by at least (m-p)/p ln(m/p), which diverges for p -> 0 *)
Lemma b0_massless_off (p m q : R) : 0 < p -> p < m -> 0 < q -> 2/1000000000000000 * q <= m ->
  (m - p) / p * ln (m / p) <= b0 p 0 m q - B0_massless p m q.
Proof.
  intros Hp Hm Hq NIR. rewrite b0_massless_code by lra. unfold B0_massless. rewrite Rabs_pos_eq by lra.
  set (h := sqrt _).
  assert (H : m - p <= h). { unfold h. rewrite <- (sqrt_pow2 (m - p)) at 1 by lra. apply sqrt_le_1; [nra| |]; pose proof (pow2_ge_0 (m / 1000000000000000)); nra. }
  assert (L : ln (m - p) <= ln h) by (apply ln_le; lra).
  rewrite !lndiv by lra.
  assert (F : 0 < (m - p) / p) by (apply Rdiv_lt_0_compat; lra). nra.
Qed.
