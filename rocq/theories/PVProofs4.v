(** * Passarino-Veltman functions: large momenta, derivative, massless line *)
From Coq Require Import Reals QArith Qreals List Bool Lra Lia ZArith.
From Coquelicot Require Import Coquelicot.
From Verif Require Import Num NumFacts Taylor LoopWindows LoopProofs PV PVSpec PVProofs PVProofs2 PVProofs3 PVWindows.
Import ListNotations.
Open Scope R_scope.

(** B0_above in terms of u = (1 - sqrt(1 - 4 m/p))/2 *)
Lemma above_u p m q : 0 < m -> 100 * m <= p -> 0 < q -> exists u, 0 < u <= 51/5000 /\ m / p = u * (1 - u) /\
  B0_above p m q = 2 - ln (p / q) - 2 * u * ln u - 2 * (1 - u) * ln (1 - u).
Proof.
  intros Hm H Hq. set (s := sqrt (1 - 4 * m / p)). exists ((1 - s) / 2).
  assert (D : 0 < m / p <= 1/100).
  { split; [apply Rdiv_lt_0_compat; lra|]. apply Rmult_le_reg_r with p; [lra|]. field_simplify; lra. }
  assert (E4 : 4 * m / p = 4 * (m / p)) by (field; lra).
  assert (S0 : 0 <= s) by apply sqrt_pos.
  assert (SS : s * s = 1 - 4 * (m / p)). { unfold s. rewrite sqrt_sqrt; lra. }
  assert (S1 : s < 1) by nra.
  assert (S2 : 9796/10000 <= s) by nra.
  split; [lra|]. split; [replace (m / p) with ((1 - s * s) / 4) by lra; field|].
  unfold B0_above. fold s. 
  assert (L1 : ln (m / q) = ln (p / q) + ln ((1 - s) / 2) + ln (1 - (1 - s) / 2)).
  { replace (m / q) with (p / q * (((1 - s) / 2) * (1 - (1 - s) / 2))).
    - assert (P1 : 0 < p / q) by (apply Rdiv_lt_0_compat; lra). assert (P2 : 0 < (1 - s) / 2) by lra. assert (P3 : 0 < 1 - (1 - s) / 2) by lra.
      rewrite (ln_mult (p / q)) by (auto; apply Rmult_lt_0_compat; auto). rewrite ln_mult by auto. ring.
    - replace ((1 - s) / 2 * (1 - (1 - s) / 2)) with ((1 - s * s) / 4) by field. rewrite SS. field. lra. }
  assert (L2 : ln ((1 - s) / (1 + s)) = ln ((1 - s) / 2) - ln (1 - (1 - s) / 2)).
  { replace ((1 - s) / (1 + s)) with (((1 - s) / 2) / (1 - (1 - s) / 2)) by (field; lra). apply lndiv; lra. }
  rewrite L1, L2. field.
Qed.

Lemma xx_far (p m q : R) : 0 < m -> 0 < q -> 1/1000000000000000 * q <= m -> 100 * m <= p ->
  Rabs (b0xx p m q - B0_above p m q) <= 10/1000000000000.
Proof.
  intros Hm Hq NIR H. destruct (above_u p m q Hm H Hq) as (u & [U0 U1] & DU & E). rewrite E. clear E.
  assert (LU : ln u < 0) by (rewrite <- ln_1; apply ln_increasing; lra).
  unfold b0xx; cbv zeta; unR. rewrite EPST, !(Rabs_pos_eq p), !(Rabs_pos_eq m), !(Rabs_pos_eq q) by lra.
  rewrite (Rltb_false m) by lra. rewrite andb_false_r. rewrite Rltb_false by (unfold Rdec; simpl Z.pow; lra). rewrite Rleb_false by lra.
  rewrite Rltb_false by lra.
  assert (LD : ln (m / p) = ln u + ln (1 - u)) by (rewrite DU; apply ln_mult; lra).
  rewrite LD, DU. dR.
  - (* series *)
    set (d := u * (1 - u)).
    pose proof (window_ok wxx ltac:(vm_compute; reflexivity) (- u) ltac:(lra)) as W.
    assert (R1 : Rabs (- u) <= Q2R (wr wxx)). { rewrite Rabs_Ropp, Rabs_pos_eq by lra. unfold wxx, wr, Q2R; cbn [Qnum Qden]. lra. }
    specialize (W R1).
    assert (EA : pev (wA wxx) (- u) = d * (2 + d * (-1 + d * (-10/3 + d * (-59/6 + d * (-449/15 + d * (-1417/15 + d * (-32254/105 + d * (-429697/420))))))))).
    { unfold wxx, wA. rewrite pev_phorner. replace (pev dpol (- u)) with d. 2:{ unfold dpol, d; cbn [pev]. unfold Q2R; cbn [Qnum Qden]. field. }
      unfold xxA; cbn [pev]. unfold Q2R; cbn [Qnum Qden]. field. }
    assert (EB0 : pev (phorner xxB dpol) (- u) = d * (-2 + d * (-2 + d * (-4 + d * (-10 + d * (-28 + d * (-84 + d * (-264 + d * (-858))))))))).
    { rewrite pev_phorner. replace (pev dpol (- u)) with d. 2:{ unfold dpol, d; cbn [pev]. unfold Q2R; cbn [Qnum Qden]. field. }
      unfold xxB; cbn [pev]. unfold Q2R; cbn [Qnum Qden]. field. }
    assert (EB : pev (wB wxx) (- u) = pev (phorner xxB dpol) (- u) + 2 - 2 * u).
    { unfold wxx, wB. rewrite pev_add. cbn [pev]. unfold Q2R; cbn [Qnum Qden]. field. }
    assert (B2 : Rabs (pev (phorner xxB dpol) (- u) + 2 * u) <= 10000 * u^9).
    { replace (pev (phorner xxB dpol) (- u) + 2 * u) with (pev xxB2u (- u)).
      2:{ unfold xxB2u. rewrite pev_add. cbn [pev]. unfold Q2R; cbn [Qnum Qden]. field. }
      rewrite (lowzero_ok 9 xxB2u (- u)) by (vm_compute; reflexivity).
      rewrite Rabs_mult, <- RPow_abs, Rabs_Ropp, (Rabs_pos_eq u), Rmult_comm by lra.
      apply Rmult_le_compat_r; [apply pow_le; lra|].
      eapply Rle_trans; [apply (pbound_ok _ (wr wxx)); exact R1|].
      replace 10000 with (Q2R 10000) by (unfold Q2R; simpl; lra). apply Qle_Rle. apply Qle_bool_iff. vm_compute. reflexivity. }
    assert (EC : wclosed wxx (- u) = pev (wA wxx) (- u) + pev (wB wxx) (- u) * ln (1 - u)).
    { unfold wclosed. replace (1 + - u) with (1 - u) by ring.
      assert (D1 : pev (wD wxx) (- u) = 1) by (unfold wxx, wD; cbn [pev]; unfold Q2R; cbn [Qnum Qden]; field).
      rewrite D1. unfold wxx at 3, wm. simpl (_ ^ 0). field. }
    rewrite EC in W. 
    assert (EP : pev (wP wxx) (- u) = 0) by reflexivity. rewrite EP in W.
    assert (WK : Q2R (wC wxx) * Rabs (- u) ^ wk wxx = 20000 * u^9).
    { rewrite Rabs_Ropp, (Rabs_pos_eq u) by lra. unfold wxx, wC, wk, Q2R; cbn [Qnum Qden]. field. }
    rewrite WK in W. clear WK EP EC. rewrite EB in W. set (b := pev (phorner xxB dpol) (- u)) in *. rewrite EA in W. clear EA EB R1.
    match goal with |- Rabs ?x <= _ => replace x with (- (0 - (d * (2 + d * (-1 + d * (-10/3 + d * (-59/6 + d * (-449/15 + d * (-1417/15 + d * (-32254/105 + d * (-429697/420)))))))) + (b + 2 - 2 * u) * ln (1 - u))) + (b + 2 * u) * ln u) end.
    2:{ rewrite EB0. field. }
    eapply Rle_trans; [apply Rabs_triang|]. rewrite Rabs_Ropp, Rabs_mult, (Rabs_left (ln u)) by auto.
    assert (U9 : u^9 <= (51/5000)^9) by (apply pow_incr; lra).
    assert (U8 : u^8 <= (51/5000)^8) by (apply pow_incr; lra).
    assert (UL : u * - ln u <= 1).
    { assert (- ln u <= / u). { rewrite <- ln_Rinv by auto. pose proof (exp_ineq1_le (ln (/ u))) as K. rewrite exp_ln in K by (apply Rinv_0_lt_compat; auto). lra. }
      apply Rle_trans with (u * / u); [apply Rmult_le_compat_l; lra|]. rewrite Rinv_r; lra. }
    assert (Z : Rabs (b + 2 * u) * - ln u <= 10000 * u^8).
    { apply Rle_trans with (10000 * u^9 * - ln u); [apply Rmult_le_compat_r; lra|].
      replace (10000 * u^9 * - ln u) with (10000 * u^8 * (u * - ln u)) by ring.
      rewrite <- (Rmult_1_r (10000 * u^8)) at 2. apply Rmult_le_compat_l; [|exact UL]. assert (0 <= u^8) by (apply pow_le; lra). lra. }
    lra.
  - (* tiny mass *)
    assert (UT : u <= 2/1000000000000000).
    { assert (m / p <= 1/1000000000000000). { apply Rmult_le_reg_r with p; [lra|]. field_simplify; lra. }
      rewrite DU in H1. nra. }
    pose proof (tlnt u U0 UT) as T. apply absle in T.
    assert (L1 : - (2 * u) <= ln (1 - u) <= 0).
    { split.
      - assert (K : - ln (1 - u) <= / (1 - u) - 1).
        { rewrite <- ln_Rinv by lra. pose proof (exp_ineq1_le (ln (/ (1 - u)))) as K. rewrite exp_ln in K by (apply Rinv_0_lt_compat; lra). lra. }
        assert (/ (1 - u) <= 1 + 2 * u). { apply Rmult_le_reg_r with (1 - u); [lra|]. rewrite Rinv_l by lra. nra. }
        lra.
      - rewrite <- ln_1. apply ln_le; lra. }
    replace (2 - ln (p / q) - (2 - ln (p / q) - 2 * u * ln u - 2 * (1 - u) * ln (1 - u))) with (2 * (u * ln u) + 2 * ((1 - u) * ln (1 - u))) by ring.
    apply Rabs_le. assert (- (2 * u) <= (1 - u) * ln (1 - u) <= 0) by nra. lra.
Qed.

(** ** the derivative *)
Lemma d1_window (m1 m2 : R) : 0 < m1 -> 0 < m2 -> m1 <> m2 -> Rabs (m2 - m1) < 5/100 * m1 ->
  Rabs (1 / (6 * m1) + (m1 - m2) / (12 * (m1 * m1)) + (m1 - m2)^2 / (20 * m1^3) + (m1 - m2)^3 / (30 * m1^4) + (m1 - m2)^4 / (42 * m1^5)
     + (m1 - m2)^5 / (56 * m1^6) - dB0_int m1 m2) <= 4/1000000000 / m1.
Proof.
  intros H1 H2 N Hw. rewrite dB0_int_gen by auto.
  set (t := m2 / m1 - 1). assert (M2 : m2 = m1 * (1 + t)) by (unfold t; field; lra).
  assert (T0 : t <> 0). { intros E. rewrite E in M2. lra. }
  assert (T1 : Rabs t <= 1/20).
  { assert (Rabs (m2 - m1) = m1 * Rabs t). { rewrite M2. replace (m1 * (1 + t) - m1) with (m1 * t) by ring. rewrite Rabs_mult, (Rabs_pos_eq m1) by lra. reflexivity. }
    rewrite H in Hw. apply Rmult_le_reg_l with m1; lra. }
  pose proof (window_ok wd1 ltac:(vm_compute; reflexivity) t T0) as W.
  assert (R1 : Rabs t <= Q2R (wr wd1)) by (unfold wd1, wr, Q2R; cbn [Qnum Qden]; lra).
  specialize (W R1).
  assert (EQ : 1 / (6 * m1) + (m1 - m2) / (12 * (m1 * m1)) + (m1 - m2)^2 / (20 * m1^3) + (m1 - m2)^3 / (30 * m1^4) + (m1 - m2)^4 / (42 * m1^5)
     + (m1 - m2)^5 / (56 * m1^6) = pev (wP wd1) t / m1).
  { unfold wd1, wP; cbn [pev]; unfold Q2R; cbn [Qnum Qden]. rewrite M2. field. lra. }
  assert (EC : ((m1 - m2) * (m1 + m2) + 2 * m1 * m2 * ln (m2 / m1)) / (2 * (m1 - m2)^3) = wclosed wd1 t / m1).
  { unfold wclosed. unfold wd1 at 1 2 3 4, wA, wB, wD, wm; cbn [pev]; unfold Q2R; cbn [Qnum Qden].
    replace (m2 / m1) with (1 + t) by (unfold t; ring). rewrite M2. field. repeat split; auto; try lra. all: intros Hz; assert (m1 * t = 0) as K0 by lra; apply Rmult_integral in K0; destruct K0; lra. }
  rewrite EQ, EC. replace (pev (wP wd1) t / m1 - wclosed wd1 t / m1) with ((pev (wP wd1) t - wclosed wd1 t) * / m1) by (field; lra).
  rewrite Rabs_mult, (Rabs_pos_eq (/ m1)) by (left; apply Rinv_0_lt_compat; auto).
  unfold Rdiv at 2. apply Rmult_le_compat_r; [left; apply Rinv_0_lt_compat; auto|].
  eapply Rle_trans; [exact W|]. unfold wd1 at 1 2, wC, wk, Q2R; cbn [Qnum Qden].
  assert (Rabs t ^ 6 <= (1/20)^6) by (apply pow_incr; split; [apply Rabs_pos|auto]). lra.
Qed.

Lemma d1_massless_bound a b : 0 < a -> a < 1/100000000000000 * b ->
  Rabs ((a - b) * (a + b) / (2 * (a - b)^3) - ((a - b) * (a + b) + 2 * a * b * ln (b / a)) / (2 * (a - b)^3)) <= 1/1000000000 / b.
Proof.
  intros Ha Hab. set (t := a / b).
  assert (T : 0 < t) by (apply Rdiv_lt_0_compat; lra).
  assert (T1 : t <= 1/100000000000000). { apply Rmult_le_reg_r with b; [lra|]. unfold t. replace (a / b * b) with a by (field; lra). lra. }
  assert (LT : ln t < 0) by (rewrite <- ln_1; apply ln_increasing; lra).
  (* |t ln t| <= 4 t^(3/4) *)
  set (u := sqrt (sqrt t)).
  assert (S1 : 0 < sqrt t) by (apply sqrt_lt_R0; auto). assert (U : 0 < u) by (apply sqrt_lt_R0; auto).
  assert (U4 : u^4 = t). { replace (u ^ 4) with ((u * u) * (u * u)) by ring. unfold u. rewrite !sqrt_sqrt by lra. reflexivity. }
  assert (L4 : ln t = 4 * ln u). { rewrite <- U4. replace (u^4) with (u*u*u*u) by ring. rewrite !ln_mult by (repeat apply Rmult_lt_0_compat; auto). ring. }
  assert (LU : - ln u <= / u). { rewrite <- ln_Rinv by auto. pose proof (exp_ineq1_le (ln (/ u))) as K. rewrite exp_ln in K by (apply Rinv_0_lt_compat; auto). lra. }
  assert (U2 : u <= 1/3100).
  { destruct (Rle_lt_dec u (1/3100)) as [L|L]; auto. exfalso. assert ((1/3100)^4 <= u^4) by (apply pow_incr; lra). lra. }
  assert (U3 : u^3 <= (1/3100)^3) by (apply pow_incr; lra).
  assert (TL : t * - ln t <= 4 * u^3).
  { rewrite L4. replace (t * - (4 * ln u)) with (4 * (t * - ln u)) by ring. apply Rmult_le_compat_l; [lra|].
    apply Rle_trans with (t * / u); [apply Rmult_le_compat_l; lra|]. right. rewrite <- U4. field. lra. }
  match goal with |- Rabs ?x <= _ => replace x with (- (t * - ln t / (1 - t)^3 * - / b)) end.
  2:{ unfold t. rewrite !lndiv by lra. field. repeat split; lra. }
  rewrite Rabs_Ropp, Rabs_mult, Rabs_Ropp, (Rabs_pos_eq (/ b)) by (left; apply Rinv_0_lt_compat; lra).
  unfold Rdiv at 2. apply Rmult_le_compat_r; [left; apply Rinv_0_lt_compat; lra|].
  assert (T3 : 1/2 <= (1 - t)^3). { apply Rle_trans with ((9/10)^3); [lra|apply pow_incr; lra]. }
  rewrite Rabs_pos_eq.
  - apply Rmult_le_reg_r with ((1-t)^3); [lra|]. unfold Rdiv at 1. rewrite Rmult_assoc, Rinv_l, Rmult_1_r by lra. nra.
  - apply Rle_mult_inv_pos; [nra|lra].
Qed.

Lemma d1_b0_ok (m1 m2 : R) : 0 < m1 -> 0 < m2 -> 1/1000000000000000 <= Rmax m1 m2 ->
  Rabs (d1_b0 m1 m2 - dB0_int m1 m2) <= 4/1000000000 / m1.
Proof.
  intros H1 H2 HM. unfold d1_b0; cbv zeta; unR. rewrite EPST, !(Rabs_pos_eq m1), !(Rabs_pos_eq m2) by lra.
  unfold pow6, pow5, pow4, pow3, pow2; unR.
  assert (I : 0 < / m1) by (apply Rinv_0_lt_compat; auto).
  destruct (Rltb_spec m1 (Rdec 1 14 * m2)) as [A|A]; destruct (Rltb_spec m2 (Rdec 1 14 * m1)) as [B|B]; cbn [xorb]; unfold Rdec in A, B; simpl Z.pow in A, B.
  - exfalso. lra.
  - rewrite dB0_int_gen by lra. pose proof (d1_massless_bound m1 m2 H1 ltac:(lra)) as K.
    replace ((m1 - m2) * (m1 - m2) * (m1 - m2)) with ((m1 - m2)^3) by ring. eapply Rle_trans; [exact K|].
    assert (/ m2 <= / m1) by (apply Rinv_le_contravar; lra). assert (0 < / m2) by (apply Rinv_0_lt_compat; auto). unfold Rdiv. lra.
  - rewrite dB0_int_gen by lra. pose proof (d1_massless_bound m2 m1 H2 ltac:(lra)) as K.
    replace ((m1 - m2) * (m1 - m2) * (m1 - m2)) with ((m1 - m2)^3) by ring.
    replace ((m1 - m2) * (m1 + m2) / (2 * (m1 - m2) ^ 3) - ((m1 - m2) * (m1 + m2) + 2 * m1 * m2 * ln (m2 / m1)) / (2 * (m1 - m2) ^ 3))
      with ((m2 - m1) * (m2 + m1) / (2 * (m2 - m1) ^ 3) - ((m2 - m1) * (m2 + m1) + 2 * m2 * m1 * ln (m1 / m2)) / (2 * (m2 - m1) ^ 3)).
    2:{ rewrite !lndiv by lra. field. lra. }
    eapply Rle_trans; [exact K|]. unfold Rdiv. lra.
  - destruct (Rltb_spec m1 (1/1000000000000000)) as [A1|A1]; destruct (Rltb_spec m2 (1/1000000000000000)) as [B1|B1]; cbn [andb].
    { exfalso. assert (Rmax m1 m2 < 1/1000000000000000) by (apply Rmax_lub_lt; auto). lra. }
    all: destruct (Rltb_spec (Rabs (m2 - m1)) (Rdec 5 2 * m1)) as [C|C]; unfold Rdec in C; simpl Z.pow in C.
    all: try (replace (m1 * m1 * (m1 * m1) * m1) with (m1^5) by ring; replace (m1 * m1 * m1 * (m1 * m1 * m1)) with (m1^6) by ring; replace (m1 * m1 * (m1 * m1)) with (m1^4) by ring;
         replace ((m1 - m2) * (m1 - m2) * ((m1 - m2) * (m1 - m2)) * (m1 - m2)) with ((m1-m2)^5) by ring; replace ((m1 - m2) * (m1 - m2) * ((m1 - m2) * (m1 - m2))) with ((m1-m2)^4) by ring;
         replace (m1 * m1 * m1) with (m1^3) by ring; replace ((m1 - m2) * (m1 - m2) * (m1 - m2)) with ((m1-m2)^3) by ring; replace ((m1 - m2) * (m1 - m2)) with ((m1-m2)^2) by ring).
    all: try (destruct (Req_dec m1 m2) as [<-|N];
       [rewrite dB0_int_equal by auto; match goal with |- Rabs ?x <= _ => replace x with 0 by (field; lra) end; rewrite Rabs_R0; unfold Rdiv; lra
       |apply d1_window; auto]).
    all: assert (m1 <> m2) by (intros <-; replace (m1 - m1) with 0 in C by ring; rewrite Rabs_R0 in C; lra).
    all: rewrite dB0_int_gen by lra; match goal with |- Rabs ?x <= _ => replace x with 0 by ring end; rewrite Rabs_R0; unfold Rdiv; lra.
Qed.
