(** * Taylor windows of the two-argument loop functions at equal masses *)
From Coq Require Import Reals QArith Qreals List Bool Lra Lia ZArith.
From Verif Require Import Num NumFacts Dilog LoopFun LoopSpec Taylor Taylor2 LoopWindows LoopProofs LoopProofs2.
Import ListNotations.
Open Scope R_scope.

Lemma mono d1 d2 M i j : Rabs d1 <= M -> Rabs d2 <= M -> M <= 1 -> (5 <= i + j)%nat -> - M ^ 5 <= d1 ^ i * d2 ^ j <= M ^ 5.
Proof.
  intros H1 H2 HM H. apply absle. rewrite Rabs_mult, <- !RPow_abs.
  assert (0 <= M) by (generalize (Rabs_pos d1); lra).
  apply Rle_trans with (M ^ i * M ^ j).
  - apply Rmult_le_compat; try (apply pow_le, Rabs_pos); apply pow_incr; split; auto; apply Rabs_pos.
  - rewrite <- pow_add. replace (i + j)%nat with (5 + (i + j - 5))%nat by lia. rewrite pow_add.
    rewrite <- (Rmult_1_r (M ^ 5)) at 2. apply Rmult_le_compat_l; [apply pow_le; auto|].
    rewrite <- (pow1 (i + j - 5)). apply pow_incr; auto.
Qed.
Lemma absle' a b : - b <= a <= b -> Rabs a <= b.
Proof. unfold Rabs; destruct (Rcase_abs a); lra. Qed.

Section FF.
  Variables x1 x2 : R.
  Hypothesis H1 : Rabs (Rabs x1 - 1) <= 1 / 100.
  Hypothesis H2 : Rabs (Rabs x2 - 1) <= 1 / 100.
  Hypothesis N1 : x1^2 <> 1.
  Hypothesis N2 : x2^2 <> 1.
  Hypothesis N12 : x1^2 <> x2^2.
  Let M := Rmax (Rabs (x1^2 - 1)) (Rabs (x2^2 - 1)).

  Lemma F8_window : Rabs (F8 x1 x2 - F8c x1 x2) <= 1 / 4 * M ^ 5.
  Proof.
    assert (E1 : F8 x1 x2 = 2 * dd (pev (wP wG8)) (x1^2 - 1) (x2^2 - 1) - 2).
    { unfold F8; cbv zeta; unR. rewrite (is_zeroR_false x1) by (rewrite eps_defaultR; apply (far0r x1 H1); lra). cbn [andb]. rewrite !(is_equalR_true (Rabs _) 1) by (rewrite dec_1_2; assumption). cbn [andb].
      unfold F8_1_1, pow2; unR. unfold dd, wG8, wP; pevs. field. intros E. apply N12. nra. }
    assert (E2 : F8c x1 x2 = 2 * dd (wclosed wG8) (x1^2 - 1) (x2^2 - 1) - 2).
    { unfold F8c, dd, wclosed, wG8, wA, wB, wD, wm; pevs. rewrite (lntab x1), (lntab x2).
      replace (x1^4) with ((x1^2)^2) by ring. replace (x2^4) with ((x2^2)^2) by ring.
      set (L1 := ln _). set (L2 := ln _). field. repeat split; nra. }
    pose proof (dd_ok wG8 (Qmake 1 8) ltac:(vm_compute; reflexivity) ltac:(simpl; lia) (x1^2 - 1) (x2^2 - 1) (tab_ne x1 N1) (tab_ne x2 N2)
       ltac:(lra) (tab_r x1 H1) (tab_r x2 H2)) as W.
    change (pred (wk wG8)) with 5%nat in W. fold M in W. unfold Q2R in W; cbn [Qnum Qden] in W.
    rewrite E1, E2. apply absle in W. apply absle'. lra.
  Qed.

  Lemma F9_window : Rabs (F9 x1 x2 - F9c x1 x2) <= 2 / 5 * M ^ 5.
  Proof.
    assert (E1 : F9 x1 x2 = 2 * dd (pev (wP wG9)) (x1^2 - 1) (x2^2 - 1)).
    { unfold F9; cbv zeta; unR. rewrite !(is_equalR_true (Rabs _) 1) by (rewrite dec_1_2; assumption). cbn [andb].
      unfold F9_1_1, pow2; unR. unfold dd, wG9, wP; pevs. field. intros E. apply N12. nra. }
    assert (E2 : F9c x1 x2 = 2 * dd (wclosed wG9) (x1^2 - 1) (x2^2 - 1)).
    { unfold F9c, dd, wclosed, wG9, wA, wB, wD, wm; pevs. rewrite (lntab x1), (lntab x2).
      replace (x1^4) with ((x1^2)^2) by ring. replace (x2^4) with ((x2^2)^2) by ring.
      set (L1 := ln _). set (L2 := ln _). field. repeat split; nra. }
    pose proof (dd_ok wG9 (Qmake 1 5) ltac:(vm_compute; reflexivity) ltac:(simpl; lia) (x1^2 - 1) (x2^2 - 1) (tab_ne x1 N1) (tab_ne x2 N2)
       ltac:(lra) (tab_r x1 H1) (tab_r x2 H2)) as W.
    change (pred (wk wG9)) with 5%nat in W. fold M in W. unfold Q2R in W; cbn [Qnum Qden] in W.
    rewrite E1, E2. apply absle in W. apply absle'. lra.
  Qed.
End FF.

Section Wf5.
  Variables r1 r2 : R.
  Hypothesis H1 : Rabs (r1 - 1) <= 1 / 100.
  Hypothesis H2 : Rabs (r2 - 1) <= 1 / 100.
  Hypothesis N1 : r1 <> 1.
  Hypothesis N2 : r2 <> 1.
  Hypothesis N12 : r1 <> r2.
  Let d1 := r1 - 1.
  Let d2 := r2 - 1.
  Let M := Rmax (Rabs d1) (Rabs d2).
  Lemma f5_11_window : Rabs (f5_1_1 r1 r2 - f5c r1 r2) <= 21 / 200 * M ^ 5.
  Proof.
    assert (P1 := absle _ _ H1). assert (P2 := absle _ _ H2).
    assert (E1 : f5_1_1 r1 r2 = 3 / 4 * dd (pev (wP wg5)) d1 d2).
    { unfold f5_1_1, pow2; cbv zeta; unR. fold d1 d2. unfold dd, wg5, wP; pevs. field. unfold d1, d2. lra. }
    assert (E2 : f5c r1 r2 = 3 / 4 * dd (wclosed wg5) d1 d2).
    { unfold f5c, dd, wclosed, wg5, Dq, wA, wB, wD, wm; rewrite ?pev_add; pevs.
      rewrite (ln_sq r1), (ln_sq r2) by lra.
      replace r1 with (1 + d1) by (unfold d1; ring). replace r2 with (1 + d2) by (unfold d2; ring).
      set (L1 := ln _). set (L2 := ln _). assert (d1 <> 0) by (unfold d1; lra). assert (d2 <> 0) by (unfold d2; lra).
      assert (2 + d1 <> 0) by (unfold d1; lra). assert (2 + d2 <> 0) by (unfold d2; lra). assert (d1 - d2 <> 0) by (unfold d1, d2; lra).
      clearbody d1 d2 L1 L2.
      replace ((1 + d1)^2 - 1) with (d1 * (2 + d1)) by ring. replace ((1 + d2)^2 - 1) with (d2 * (2 + d2)) by ring.
      replace (1 + d1 - (1 + d2)) with (d1 - d2) by ring.
      field. repeat split; lra. }
    pose proof (dd_ok wg5 (Qmake 7 50) ltac:(vm_compute; reflexivity) ltac:(simpl; lia) d1 d2 ltac:(unfold d1; lra) ltac:(unfold d2; lra)
       ltac:(unfold d1, d2; lra) ltac:(unfold wg5, wr, Q2R, d1; cbn [Qnum Qden]; lra) ltac:(unfold wg5, wr, Q2R, d2; cbn [Qnum Qden]; lra)) as W.
    change (pred (wk wg5)) with 5%nat in W. fold M in W. unfold Q2R in W; cbn [Qnum Qden] in W.
    assert (M1 : Rabs d1 <= M) by apply Rmax_l. assert (M2 : Rabs d2 <= M) by apply Rmax_r.
    assert (M3 : M <= 1). { unfold M, d1, d2. apply Rmax_lub; lra. }
    assert (M0 : 0 <= M ^ 5). { apply pow_le. generalize (Rabs_pos d1); lra. }

    rewrite E1, E2. apply absle in W. apply absle'. lra.
  Qed.
End Wf5.

Section Wf6.
  Variables r1 r2 : R.
  Hypothesis H1 : Rabs (r1 - 1) <= 2 / 100.
  Hypothesis H2 : Rabs (r2 - 1) <= 2 / 100.
  Hypothesis N1 : r1 <> 1.
  Hypothesis N2 : r2 <> 1.
  Hypothesis N12 : r1 <> r2.
  Let d1 := r1 - 1.
  Let d2 := r2 - 1.
  Let M := Rmax (Rabs d1) (Rabs d2).
  Lemma f6_11_window : Rabs (f6_1_1 r1 r2 - f6c r1 r2) <= 1 / 5 * M ^ 5.
  Proof.
    assert (P1 := absle _ _ H1). assert (P2 := absle _ _ H2).
    assert (E1 : f6_1_1 r1 r2 = 6 / 7 * dd (pev (wP wg6)) d1 d2 + (-3/245) * (d1 ^ 1 * d2 ^ 4) + (-3/245) * (d1 ^ 2 * d2 ^ 3) + (1/147) * (d1 ^ 2 * d2 ^ 4) + (-3/245) * (d1 ^ 3 * d2 ^ 2) + (1/147) * (d1 ^ 3 * d2 ^ 3) + (-1/294) * (d1 ^ 3 * d2 ^ 4) + (-3/245) * (d1 ^ 4 * d2 ^ 1) + (1/147) * (d1 ^ 4 * d2 ^ 2) + (-1/294) * (d1 ^ 4 * d2 ^ 3) + (5/3234) * (d1 ^ 4 * d2 ^ 4)).
    { unfold f6_1_1, pow2; cbv zeta; unR. fold d1 d2. unfold dd, wg6, wP; pevs. field. unfold d1, d2. lra. }
    assert (E2 : f6c r1 r2 = 6 / 7 * dd (wclosed wg6) d1 d2).
    { unfold f6c, dd, wclosed, wg6, Dq, wA, wB, wD, wm; rewrite ?pev_add; pevs.
      rewrite (ln_sq r1), (ln_sq r2) by lra.
      replace r1 with (1 + d1) by (unfold d1; ring). replace r2 with (1 + d2) by (unfold d2; ring).
      set (L1 := ln _). set (L2 := ln _). assert (d1 <> 0) by (unfold d1; lra). assert (d2 <> 0) by (unfold d2; lra).
      assert (2 + d1 <> 0) by (unfold d1; lra). assert (2 + d2 <> 0) by (unfold d2; lra). assert (d1 - d2 <> 0) by (unfold d1, d2; lra).
      clearbody d1 d2 L1 L2.
      replace ((1 + d1)^2 - 1) with (d1 * (2 + d1)) by ring. replace ((1 + d2)^2 - 1) with (d2 * (2 + d2)) by ring.
      replace (1 + d1 - (1 + d2)) with (d1 - d2) by ring.
      field. repeat split; lra. }
    pose proof (dd_ok wg6 (Qmake 1 10) ltac:(vm_compute; reflexivity) ltac:(simpl; lia) d1 d2 ltac:(unfold d1; lra) ltac:(unfold d2; lra)
       ltac:(unfold d1, d2; lra) ltac:(unfold wg6, wr, Q2R, d1; cbn [Qnum Qden]; lra) ltac:(unfold wg6, wr, Q2R, d2; cbn [Qnum Qden]; lra)) as W.
    change (pred (wk wg6)) with 5%nat in W. fold M in W. unfold Q2R in W; cbn [Qnum Qden] in W.
    assert (M1 : Rabs d1 <= M) by apply Rmax_l. assert (M2 : Rabs d2 <= M) by apply Rmax_r.
    assert (M3 : M <= 1). { unfold M, d1, d2. apply Rmax_lub; lra. }
    assert (M0 : 0 <= M ^ 5). { apply pow_le. generalize (Rabs_pos d1); lra. }
    pose proof (mono d1 d2 M 1 4 M1 M2 M3 ltac:(lia)).
    pose proof (mono d1 d2 M 2 3 M1 M2 M3 ltac:(lia)).
    pose proof (mono d1 d2 M 2 4 M1 M2 M3 ltac:(lia)).
    pose proof (mono d1 d2 M 3 2 M1 M2 M3 ltac:(lia)).
    pose proof (mono d1 d2 M 3 3 M1 M2 M3 ltac:(lia)).
    pose proof (mono d1 d2 M 3 4 M1 M2 M3 ltac:(lia)).
    pose proof (mono d1 d2 M 4 1 M1 M2 M3 ltac:(lia)).
    pose proof (mono d1 d2 M 4 2 M1 M2 M3 ltac:(lia)).
    pose proof (mono d1 d2 M 4 3 M1 M2 M3 ltac:(lia)).
    pose proof (mono d1 d2 M 4 4 M1 M2 M3 ltac:(lia)).
    rewrite E1, E2. apply absle in W. apply absle'. lra.
  Qed.
End Wf6.

Section Wf7.
  Variables r1 r2 : R.
  Hypothesis H1 : Rabs (r1 - 1) <= 2 / 100.
  Hypothesis H2 : Rabs (r2 - 1) <= 2 / 100.
  Hypothesis N1 : r1 <> 1.
  Hypothesis N2 : r2 <> 1.
  Hypothesis N12 : r1 <> r2.
  Let d1 := r1 - 1.
  Let d2 := r2 - 1.
  Let M := Rmax (Rabs d1) (Rabs d2).
  Lemma f7_11_window : Rabs (f7_1_1 r1 r2 - f7c r1 r2) <= 3 / 5 * M ^ 5.
  Proof.
    assert (P1 := absle _ _ H1). assert (P2 := absle _ _ H2).
    assert (E1 : f7_1_1 r1 r2 = 6 * dd (pev (wP wg7)) d1 d2 + (-3/70) * (d1 ^ 1 * d2 ^ 4) + (-3/70) * (d1 ^ 2 * d2 ^ 3) + (1/210) * (d1 ^ 2 * d2 ^ 4) + (-3/70) * (d1 ^ 3 * d2 ^ 2) + (1/210) * (d1 ^ 3 * d2 ^ 3) + (1/105) * (d1 ^ 3 * d2 ^ 4) + (-3/70) * (d1 ^ 4 * d2 ^ 1) + (1/210) * (d1 ^ 4 * d2 ^ 2) + (1/105) * (d1 ^ 4 * d2 ^ 3) + (-1/77) * (d1 ^ 4 * d2 ^ 4)).
    { unfold f7_1_1, pow2; cbv zeta; unR. fold d1 d2. unfold dd, wg7, wP; pevs. field. unfold d1, d2. lra. }
    assert (E2 : f7c r1 r2 = 6 * dd (wclosed wg7) d1 d2).
    { unfold f7c, dd, wclosed, wg7, Dq, wA, wB, wD, wm; rewrite ?pev_add; pevs.
      rewrite (ln_sq r1), (ln_sq r2) by lra.
      replace r1 with (1 + d1) by (unfold d1; ring). replace r2 with (1 + d2) by (unfold d2; ring).
      set (L1 := ln _). set (L2 := ln _). assert (d1 <> 0) by (unfold d1; lra). assert (d2 <> 0) by (unfold d2; lra).
      assert (2 + d1 <> 0) by (unfold d1; lra). assert (2 + d2 <> 0) by (unfold d2; lra). assert (d1 - d2 <> 0) by (unfold d1, d2; lra).
      clearbody d1 d2 L1 L2.
      replace ((1 + d1)^2 - 1) with (d1 * (2 + d1)) by ring. replace ((1 + d2)^2 - 1) with (d2 * (2 + d2)) by ring.
      replace (1 + d1 - (1 + d2)) with (d1 - d2) by ring.
      field. repeat split; lra. }
    pose proof (dd_ok wg7 (Qmake 3 50) ltac:(vm_compute; reflexivity) ltac:(simpl; lia) d1 d2 ltac:(unfold d1; lra) ltac:(unfold d2; lra)
       ltac:(unfold d1, d2; lra) ltac:(unfold wg7, wr, Q2R, d1; cbn [Qnum Qden]; lra) ltac:(unfold wg7, wr, Q2R, d2; cbn [Qnum Qden]; lra)) as W.
    change (pred (wk wg7)) with 5%nat in W. fold M in W. unfold Q2R in W; cbn [Qnum Qden] in W.
    assert (M1 : Rabs d1 <= M) by apply Rmax_l. assert (M2 : Rabs d2 <= M) by apply Rmax_r.
    assert (M3 : M <= 1). { unfold M, d1, d2. apply Rmax_lub; lra. }
    assert (M0 : 0 <= M ^ 5). { apply pow_le. generalize (Rabs_pos d1); lra. }
    pose proof (mono d1 d2 M 1 4 M1 M2 M3 ltac:(lia)).
    pose proof (mono d1 d2 M 2 3 M1 M2 M3 ltac:(lia)).
    pose proof (mono d1 d2 M 2 4 M1 M2 M3 ltac:(lia)).
    pose proof (mono d1 d2 M 3 2 M1 M2 M3 ltac:(lia)).
    pose proof (mono d1 d2 M 3 3 M1 M2 M3 ltac:(lia)).
    pose proof (mono d1 d2 M 3 4 M1 M2 M3 ltac:(lia)).
    pose proof (mono d1 d2 M 4 1 M1 M2 M3 ltac:(lia)).
    pose proof (mono d1 d2 M 4 2 M1 M2 M3 ltac:(lia)).
    pose proof (mono d1 d2 M 4 3 M1 M2 M3 ltac:(lia)).
    pose proof (mono d1 d2 M 4 4 M1 M2 M3 ltac:(lia)).
    rewrite E1, E2. apply absle in W. apply absle'. lra.
  Qed.
End Wf7.

Section Wf8.
  Variables r1 r2 : R.
  Hypothesis H1 : Rabs (r1 - 1) <= 1 / 100.
  Hypothesis H2 : Rabs (r2 - 1) <= 1 / 100.
  Hypothesis N1 : r1 <> 1.
  Hypothesis N2 : r2 <> 1.
  Hypothesis N12 : r1 <> r2.
  Let d1 := r1 - 1.
  Let d2 := r2 - 1.
  Let M := Rmax (Rabs d1) (Rabs d2).
  Lemma f8_11_window : Rabs (f8_1_1 r1 r2 - f8c r1 r2) <= 3 / 10 * M ^ 5.
  Proof.
    assert (P1 := absle _ _ H1). assert (P2 := absle _ _ H2).
    assert (E1 : f8_1_1 r1 r2 = 3 / 2 * dd (pev (wP wg8)) d1 d2 + (3/140) * (d1 ^ 1 * d2 ^ 4) + (3/140) * (d1 ^ 2 * d2 ^ 3) + (-1/105) * (d1 ^ 2 * d2 ^ 4) + (3/140) * (d1 ^ 3 * d2 ^ 2) + (-1/105) * (d1 ^ 3 * d2 ^ 3) + (1/280) * (d1 ^ 3 * d2 ^ 4) + (3/140) * (d1 ^ 4 * d2 ^ 1) + (-1/105) * (d1 ^ 4 * d2 ^ 2) + (1/280) * (d1 ^ 4 * d2 ^ 3) + (-1/1155) * (d1 ^ 4 * d2 ^ 4)).
    { unfold f8_1_1, pow2; cbv zeta; unR. fold d1 d2. unfold dd, wg8, wP; pevs. field. unfold d1, d2. lra. }
    assert (E2 : f8c r1 r2 = 3 / 2 * dd (wclosed wg8) d1 d2).
    { unfold f8c, dd, wclosed, wg8, Dq, wA, wB, wD, wm; rewrite ?pev_add; pevs.
      rewrite (ln_sq r1), (ln_sq r2) by lra.
      replace r1 with (1 + d1) by (unfold d1; ring). replace r2 with (1 + d2) by (unfold d2; ring).
      set (L1 := ln _). set (L2 := ln _). assert (d1 <> 0) by (unfold d1; lra). assert (d2 <> 0) by (unfold d2; lra).
      assert (2 + d1 <> 0) by (unfold d1; lra). assert (2 + d2 <> 0) by (unfold d2; lra). assert (d1 - d2 <> 0) by (unfold d1, d2; lra).
      clearbody d1 d2 L1 L2.
      replace ((1 + d1)^2 - 1) with (d1 * (2 + d1)) by ring. replace ((1 + d2)^2 - 1) with (d2 * (2 + d2)) by ring.
      replace (1 + d1 - (1 + d2)) with (d1 - d2) by ring.
      field. repeat split; lra. }
    pose proof (dd_ok wg8 (Qmake 1 10) ltac:(vm_compute; reflexivity) ltac:(simpl; lia) d1 d2 ltac:(unfold d1; lra) ltac:(unfold d2; lra)
       ltac:(unfold d1, d2; lra) ltac:(unfold wg8, wr, Q2R, d1; cbn [Qnum Qden]; lra) ltac:(unfold wg8, wr, Q2R, d2; cbn [Qnum Qden]; lra)) as W.
    change (pred (wk wg8)) with 5%nat in W. fold M in W. unfold Q2R in W; cbn [Qnum Qden] in W.
    assert (M1 : Rabs d1 <= M) by apply Rmax_l. assert (M2 : Rabs d2 <= M) by apply Rmax_r.
    assert (M3 : M <= 1). { unfold M, d1, d2. apply Rmax_lub; lra. }
    assert (M0 : 0 <= M ^ 5). { apply pow_le. generalize (Rabs_pos d1); lra. }
    pose proof (mono d1 d2 M 1 4 M1 M2 M3 ltac:(lia)).
    pose proof (mono d1 d2 M 2 3 M1 M2 M3 ltac:(lia)).
    pose proof (mono d1 d2 M 2 4 M1 M2 M3 ltac:(lia)).
    pose proof (mono d1 d2 M 3 2 M1 M2 M3 ltac:(lia)).
    pose proof (mono d1 d2 M 3 3 M1 M2 M3 ltac:(lia)).
    pose proof (mono d1 d2 M 3 4 M1 M2 M3 ltac:(lia)).
    pose proof (mono d1 d2 M 4 1 M1 M2 M3 ltac:(lia)).
    pose proof (mono d1 d2 M 4 2 M1 M2 M3 ltac:(lia)).
    pose proof (mono d1 d2 M 4 3 M1 M2 M3 ltac:(lia)).
    pose proof (mono d1 d2 M 4 4 M1 M2 M3 ltac:(lia)).
    rewrite E1, E2. apply absle in W. apply absle'. lra.
  Qed.
End Wf8.
