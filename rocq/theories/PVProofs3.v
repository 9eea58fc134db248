(** * Passarino-Veltman functions: equal masses, all momenta; derivative; massless line *)
From Coq Require Import Reals QArith Qreals List Bool Lra Lia ZArith.
From Coquelicot Require Import Coquelicot.
From Verif Require Import Num NumFacts Taylor PV PVSpec PVProofs PVProofs2.
Import ListNotations.
Open Scope R_scope.

Section XX.
  Variables p m q : R.
  Hypothesis Hp : 0 <= p.
  Hypothesis Hm : 0 < m.
  Hypothesis Hq : 0 < q.
  Hypothesis NIR : 1/1000000000000000 * q <= m.
  Let d := p / m.

  Lemma xx_small : p < 1/1000 * m ->
    b0xx p m q = - ln (m / q) + d * (1/6 + d * (1/60 + d * (1/420 + d * (1/2520 + d * (1/13860 + d * (1/72072 + d / 360360)))))).
  Proof.
    intros H. unfold b0xx; cbv zeta; unR. rewrite EPST, !(Rabs_pos_eq p), !(Rabs_pos_eq m), !(Rabs_pos_eq q) by lra.
    rewrite (Rltb_false m) by lra. rewrite andb_false_r. rewrite Rltb_true by (unfold Rdec; simpl Z.pow; lra). reflexivity.
  Qed.
  Lemma xx_mid : 1/1000 * m <= p -> p <= 4 * m ->
    b0xx p m q = 2 - ln (m / q) - 2 * sqrt (4 * m / p - 1) * asin (sqrt (p / (4 * m))).
  Proof.
    intros H H'. unfold b0xx; cbv zeta; unR. rewrite EPST, !(Rabs_pos_eq p), !(Rabs_pos_eq m), !(Rabs_pos_eq q) by lra.
    rewrite (Rltb_false m) by lra. rewrite andb_false_r. rewrite Rltb_false by (unfold Rdec; simpl Z.pow; lra). rewrite Rleb_true by lra. reflexivity.
  Qed.
  Lemma xx_mid_exact : 1/1000 * m <= p -> p < 4 * m -> b0xx p m q = B0_int p m m q.
  Proof. intros. rewrite xx_mid, B0_int_xx by lra. reflexivity. Qed.
  Lemma xx_threshold : p = 4 * m -> b0xx p m q = 2 - ln (m / q).
  Proof.
    intros H. rewrite xx_mid by lra. replace (4 * m / p - 1) with 0 by (rewrite H; field; lra). rewrite sqrt_0. ring.
  Qed.
  Lemma xx_above : 4 * m < p -> p < 100 * m -> b0xx p m q = B0_above p m q.
  Proof.
    intros H H'. unfold b0xx; cbv zeta; unR. rewrite EPST, !(Rabs_pos_eq p), !(Rabs_pos_eq m), !(Rabs_pos_eq q) by lra.
    rewrite (Rltb_false m) by lra. rewrite andb_false_r. rewrite Rltb_false by (unfold Rdec; simpl Z.pow; lra). rewrite Rleb_false by lra.
    rewrite Rltb_true by lra. unfold B0_above. set (s := sqrt (1 - 4 * m / p)).
    assert (P : 0 < 1 - 4 * m / p). { apply Rlt_Rminus. apply Rmult_lt_reg_r with p; [lra|]. field_simplify; lra. }
    assert (S0 : 0 < s) by (apply sqrt_lt_R0; auto). assert (SS : s * s = 1 - 4 * m / p) by (apply sqrt_sqrt; lra).
    assert (SP : p * s * s = p - 4 * m) by (rewrite Rmult_assoc, SS; field; lra).
    do 3 f_equal. clearbody s. clear SS. 
    apply Rmult_eq_reg_r with (2 * m * (1 + s)); [|nra]. field_simplify; try lra.
  Qed.

  (** the series for small p^2 *)
  Definition aP (s : R) : R := 1 + 2/3*s^2 + 8/15*s^4 + 16/35*s^6 + 128/315*s^8 + 256/693*s^10 + 1024/3003*s^12 + 2048/6435*s^14.
  Lemma asin_series s : 0 <= s -> s <= 1/10 -> Rabs (asin s - sqrt (1 - s^2) * (s * aP s)) <= 6 * s^17.
  Proof.
    intros H0 H1.
    pose (g := fun x => asin x - sqrt (1 - x^2) * (x * aP x)).
    pose (g' := fun x => 32768/6435 * x^16 / sqrt (1 - x^2)).
    assert (G0 : g 0 = 0). { unfold g. rewrite asin_0. ring. }
    replace (asin s - sqrt (1 - s^2) * (s * aP s)) with (g s - g 0) by (rewrite G0; unfold g; ring).
    assert (B : Rabs (g s - g 0) <= 32768/6435 * s^16 * (11/10) * Rabs (s - 0)).
    { apply MVT_bound with (f' := g').
      - intros c Hc. rewrite Rmin_left, Rmax_right in Hc by lra. apply is_derive_Reals. unfold g, g'.
        assert (C2 : 0 <= c^2 <= 1/100) by nra.
        assert (SQ : 0 < sqrt (1 - c^2)) by (apply sqrt_lt_R0; lra).
        assert (SS : sqrt (1 - c^2) * sqrt (1 - c^2) = 1 - c^2) by (apply sqrt_sqrt; lra).
        evar_last.
        { apply (is_derive_minus asin (fun x => sqrt (1 - x^2) * (x * aP x))).
          - apply is_derive_Reals. pose proof (derive_pt_asin c ltac:(lra)) as E.
            apply (derive_pt_eq_1 _ _ _ _ E).
          - unfold aP. auto_derive; [repeat split; auto; lra|]. reflexivity. }
        unfold minus, plus, opp; simpl. unfold Rsqr.
        replace (1 - c * c) with (1 - c^2) by ring.
        replace (1 + - (c * (c * 1))) with (1 - c^2) by ring. replace (1 - c * (c * 1)) with (1 - c^2) by ring.
        set (w := sqrt (1 - c^2)) in *.
        apply Rmult_eq_reg_r with w; [|lra]. unfold aP. field_simplify; try lra.
        replace (w^2) with (1 - c^2) by (rewrite <- SS; ring). field.
      - intros c Hc. rewrite Rmin_left, Rmax_right in Hc by lra. unfold g'.
        assert (C2 : 0 <= c^2 <= 1/100) by nra.
        assert (SQ : 10/11 <= sqrt (1 - c^2)). { rewrite <- (sqrt_pow2 (10/11)) by lra. apply sqrt_le_1; nra. }
        assert (C16 : 0 <= c^16 <= s^16). { split; [apply pow_le; lra|apply pow_incr; lra]. }
        rewrite Rabs_pos_eq.
        + unfold Rdiv at 1. apply Rmult_le_compat; try nra.
          * left. apply Rinv_0_lt_compat. lra.
          * replace (11/10) with (/ (10/11)) by field. apply Rinv_le_contravar; lra.
        + apply Rle_mult_inv_pos; nra. }
    rewrite Rminus_0_r, (Rabs_pos_eq s) in B by lra.
    replace (32768 / 6435 * s ^ 16 * (11 / 10) * s) with (32768/6435 * (11/10) * s^17) in B by ring.
    assert (0 <= s^17) by (apply pow_le; lra). lra.
  Qed.
  Lemma xx_small_bound : 0 < p -> p < 1/1000 * m -> Rabs (b0xx p m q - B0_int p m m q) <= 1/1000 * d^8.
  Proof.
    intros P H. rewrite xx_small by auto. rewrite B0_int_xx by lra.
    assert (D0 : 0 < d) by (apply Rdiv_lt_0_compat; lra).
    assert (D1 : d < 1/1000). { apply Rmult_lt_reg_r with m; auto. unfold d. field_simplify; lra. }
    set (s := sqrt (d / 4)).
    assert (S0 : 0 < s) by (apply sqrt_lt_R0; lra). assert (SS : s^2 = d/4) by (apply pow2_sqrt; lra).
    assert (S1 : s <= 1/10) by nra.
    replace (p / (4 * m)) with (d / 4) by (unfold d; field; lra). fold s.
    replace (4 * m / p - 1) with ((1 - s^2) / s^2) by (rewrite SS; unfold d; field; lra).
    rewrite sqrt_div by nra. rewrite (sqrt_pow2 s) by lra.
    pose proof (asin_series s ltac:(lra) S1) as A.
    set (w := sqrt (1 - s^2)) in *.
    assert (W0 : 0 <= w) by apply sqrt_pos.
    assert (WW : w * w = 1 - s^2) by (apply sqrt_sqrt; nra).
    assert (W1 : w <= 1) by nra.
    set (e := asin s - w * (s * aP s)) in *.
    replace (asin s) with (e + w * (s * aP s)) by (unfold e; ring).
    replace d with (4 * s^2) by lra.
    match goal with |- Rabs ?x <= _ => replace x with (- (4096/6435) * s^16 + 2 * w * e / s) end.
    2:{ unfold aP. apply Rmult_eq_reg_r with s; [|lra].
        replace (2 * (w / s) * (e + w * (s * (1 + 2/3*s^2 + 8/15*s^4 + 16/35*s^6 + 128/315*s^8 + 256/693*s^10 + 1024/3003*s^12 + 2048/6435*s^14))))
          with (2 * w * e / s + 2 * (w * w) * (1 + 2/3*s^2 + 8/15*s^4 + 16/35*s^6 + 128/315*s^8 + 256/693*s^10 + 1024/3003*s^12 + 2048/6435*s^14)) by (field; lra).
        rewrite WW. field. lra. }
    replace ((4 * s ^ 2) ^ 8) with (65536 * s^16) by ring.
    eapply Rle_trans; [apply Rabs_triang|].
    assert (S16 : 0 < s^16) by (apply pow_lt; lra).
    rewrite Rabs_mult, (Rabs_left (- (4096/6435))), (Rabs_pos_eq (s^16)) by lra.
    unfold Rdiv at 2. rewrite !Rabs_mult, (Rabs_pos_eq 2), (Rabs_pos_eq w), (Rabs_pos_eq (/ s)) by (try lra; left; apply Rinv_0_lt_compat; lra).
    assert (EE : Rabs e * / s <= 6 * s^16).
    { apply Rmult_le_reg_r with s; auto. rewrite Rmult_assoc, Rinv_l, Rmult_1_r by lra. replace (6 * s^16 * s) with (6 * s^17) by ring. exact A. }
    assert (w * (Rabs e * / s) <= 6 * s^16). { assert (0 <= Rabs e * / s) by (apply Rmult_le_pos; [apply Rabs_pos|left; apply Rinv_0_lt_compat; lra]). nra. }
    lra.
  Qed.
End XX.
