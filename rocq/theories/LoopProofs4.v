(** * Loop functions: remaining windows and counterexamples *)
From Coq Require Import Reals QArith Qreals List Bool Lra Lia ZArith.
From Verif Require Import Num NumFacts Dilog LoopFun LoopSpec Taylor Taylor2 LoopWindows LoopProofs LoopProofs2 LoopProofs3 LoopDef LoopSym.
Open Scope R_scope.

(** ** double windows at (1,1) and (-1,-1) of f5..f8 *)
Lemma f5c_even r1 r2 : f5c (- r1) (- r2) = f5c r1 r2.
Proof. unfold f5c. replace ((-r1)^2) with (r1^2) by ring. replace ((-r2)^2) with (r2^2) by ring. unfold Rdiv. rewrite !Rinv_mult.
  replace (- r1 - - r2) with (- (r1 - r2)) by ring. rewrite Rinv_opp. ring. Qed.
Lemma f6c_even r1 r2 : f6c (- r1) (- r2) = f6c r1 r2.
Proof. unfold f6c. replace ((-r1)^2) with (r1^2) by ring. replace ((-r2)^2) with (r2^2) by ring. unfold Rdiv. rewrite !Rinv_mult.
  replace (- r1 - - r2) with (- (r1 - r2)) by ring. rewrite Rinv_opp. ring. Qed.
Lemma f7c_even r1 r2 : f7c (- r1) (- r2) = f7c r1 r2.
Proof. unfold f7c. replace ((-r1)^2) with (r1^2) by ring. replace ((-r2)^2) with (r2^2) by ring. unfold Rdiv. rewrite !Rinv_mult.
  replace (- r1 - - r2) with (- (r1 - r2)) by ring. rewrite Rinv_opp. ring. Qed.
Lemma f8c_odd r1 r2 : f8c (- r1) (- r2) = - f8c r1 r2.
Proof. unfold f8c. replace ((-r1)^2) with (r1^2) by ring. replace ((-r2)^2) with (r2^2) by ring. unfold Rdiv. rewrite !Rinv_mult.
  replace (- r1 - - r2) with (- (r1 - r2)) by ring. rewrite Rinv_opp. ring. Qed.

Lemma near1_abs r e : Rabs (r - 1) <= e -> e < 1/2 -> 1/2 < Rabs r.
Proof. intros H H'. apply absle in H. unfold Rabs. destruct (Rcase_abs r); lra. Qed.
Lemma nearm1_abs r e : Rabs (r + 1) <= e -> e < 1/2 -> 1/2 < Rabs r.
Proof. intros H H'. apply absle in H. unfold Rabs. destruct (Rcase_abs r); lra. Qed.
Lemma nearm1_far r e : Rabs (r + 1) <= e -> e < 1/2 -> 1 < Rabs (r - 1).
Proof. intros H H'. apply absle in H. unfold Rabs. destruct (Rcase_abs (r - 1)); lra. Qed.
Lemma Ropp_m1 r : Rabs (- r - 1) = Rabs (r + 1).
Proof. replace (- r - 1) with (- (r + 1)) by ring. apply Rabs_Ropp. Qed.

Ltac near0 H := eapply Rlt_trans; [|eapply near1_abs; [exact H|lra]]; unfold Rdec; simpl Z.pow; lra.
Ltac near0m H := eapply Rlt_trans; [|eapply nearm1_abs; [exact H|lra]]; unfold Rdec; simpl Z.pow; lra.

Section W11.
  Variables r1 r2 e : R.
  Hypothesis H1 : Rabs (r1 - 1) <= e.
  Hypothesis H2 : Rabs (r2 - 1) <= e.
  Lemma f5_is_11 : e = 1/100 -> f5 r1 r2 = f5_1_1 r1 r2.
  Proof. intros ->. unfold f5; cbv zeta; unR. rewrite (is_zeroR_false r1) by near0 H1. cbn [andb].
    rewrite (is_equalR_true r1 1), (is_equalR_true r2 1) by (rewrite dec_1_2; assumption). reflexivity. Qed.
  Lemma f6_is_11 : e = 2/100 -> f6 r1 r2 = f6_1_1 r1 r2.
  Proof. intros ->. unfold f6; cbv zeta; unR. rewrite (is_zeroR_false r1) by near0 H1. cbn [andb].
    rewrite (is_equalR_true r1 1), (is_equalR_true r2 1) by (unfold Rdec; simpl Z.pow; assumption). reflexivity. Qed.
  Lemma f7_is_11 : e = 2/100 -> f7 r1 r2 = f7_1_1 r1 r2.
  Proof. intros ->. unfold f7; cbv zeta; unR. rewrite (is_zeroR_false r1) by near0 H1. cbn [andb].
    rewrite (is_equalR_true r1 1), (is_equalR_true r2 1) by (unfold Rdec; simpl Z.pow; assumption). reflexivity. Qed.
  Lemma f8_is_11 : e = 1/100 -> f8 r1 r2 = f8_1_1 r1 r2.
  Proof. intros ->. unfold f8; cbv zeta; unR. rewrite (is_zeroR_false r1) by near0 H1. cbn [andb].
    rewrite (is_equalR_true r1 1), (is_equalR_true r2 1) by (rewrite dec_1_2; assumption). reflexivity. Qed.
End W11.
Section Wm11.
  Variables r1 r2 e : R.
  Hypothesis H1 : Rabs (r1 + 1) <= e.
  Hypothesis H2 : Rabs (r2 + 1) <= e.
  Ltac fars := eapply Rlt_trans; [|eapply nearm1_far; [exact H1|lra]]; unfold Rdec; simpl Z.pow; lra.
  Ltac go := rewrite (is_zeroR_false r1) by near0m H1; cbn [andb];
    rewrite (is_equalR_false r1 1) by fars; cbn [andb]; rewrite mone;
    rewrite (is_equalR_true r1 (-1)), (is_equalR_true r2 (-1)) by (unfold Rdec; simpl Z.pow; match goal with |- Rabs (?r - -1) <= _ => replace (r - -1) with (r + 1) by ring end; assumption); reflexivity.
  Lemma f5_is_m11 : e = 1/100 -> f5 r1 r2 = f5_1_1 (- r1) (- r2).
  Proof. intros ->. unfold f5; cbv zeta; unR. go. Qed.
  Lemma f6_is_m11 : e = 2/100 -> f6 r1 r2 = f6_1_1 (- r1) (- r2).
  Proof. intros ->. unfold f6; cbv zeta; unR. go. Qed.
  Lemma f7_is_m11 : e = 2/100 -> f7 r1 r2 = f7_1_1 (- r1) (- r2).
  Proof. intros ->. unfold f7; cbv zeta; unR. go. Qed.
  Lemma f8_is_m11 : e = 1/100 -> f8 r1 r2 = -1.
  Proof. intros ->. unfold f8; cbv zeta; unR. go. Qed.
End Wm11.

Lemma mono2 d1 d2 M i j : Rabs d1 <= M -> Rabs d2 <= M -> M <= 1/100 -> (2 <= i + j)%nat -> - M ^ 2 <= d1 ^ i * d2 ^ j <= M ^ 2.
Proof.
  intros H1 H2 HM H. apply absle. rewrite Rabs_mult, <- !RPow_abs.
  assert (0 <= M) by (generalize (Rabs_pos d1); lra).
  apply Rle_trans with (M ^ i * M ^ j).
  - apply Rmult_le_compat; try (apply pow_le, Rabs_pos); apply pow_incr; split; auto; apply Rabs_pos.
  - rewrite <- pow_add. replace (i + j)%nat with (2 + (i + j - 2))%nat by lia. rewrite pow_add.
    rewrite <- (Rmult_1_r (M ^ 2)) at 2. apply Rmult_le_compat_l; [apply pow_le; auto|].
    rewrite <- (pow1 (i + j - 2)). apply pow_incr; lra.
Qed.

Lemma f8_m11_bound r1 r2 : Rabs (r1 + 1) <= 1/100 -> Rabs (r2 + 1) <= 1/100 -> r1 <> -1 -> r2 <> -1 -> r1 <> r2 ->
  Rabs (f8 r1 r2 - f8c r1 r2) <= Rmax (Rabs (r1 + 1)) (Rabs (r2 + 1)) ^ 2.
Proof.
  intros H1 H2 N1 N2 N12. rewrite (f8_is_m11 r1 r2 _ H1 H2 eq_refl).
  pose proof (f8_11_window (- r1) (- r2)) as W. rewrite !Ropp_m1 in W. specialize (W H1 H2 ltac:(lra) ltac:(lra) ltac:(lra)).
  rewrite f8c_odd in W. set (M := Rmax (Rabs (r1 + 1)) (Rabs (r2 + 1))) in *.
  assert (M1 : Rabs (- r1 - 1) <= M) by (rewrite Ropp_m1; apply Rmax_l).
  assert (M2 : Rabs (- r2 - 1) <= M) by (rewrite Ropp_m1; apply Rmax_r).
  assert (M3 : M <= 1/100) by (apply Rmax_lub; lra).
  assert (M0 : 0 <= M) by (generalize (Rabs_pos (- r1 - 1)); lra).
  assert (M5 : M ^ 5 <= M ^ 2 * (1/10)). { replace (M^5) with (M^2 * M^3) by ring. apply Rmult_le_compat_l; [apply pow_le; auto|].
    apply Rle_trans with ((1/100)^3); [apply pow_incr; lra|lra]. }
  assert (MM : 0 <= M ^ 2) by (apply pow_le; auto).
  set (d1 := - r1 - 1) in *. set (d2 := - r2 - 1) in *.
  assert (E : f8_1_1 (- r1) (- r2) = 1 - 1/10 * (d1^0 * d2^2) + 3/40 * (d1^0 * d2^3) - 3/70 * (d1^0*d2^4)
    - 1/10 * (d1^1 * d2^1) + 3/40 * (d1^1 * d2^2) - 3/70 * (d1^1 * d2^3) + 3/140 * (d1^1 * d2^4)
    - 1/10 * (d1^2 * d2^0) + 3/40 * (d1^2 * d2^1) - 3/70 * (d1^2 * d2^2) + 3/140 * (d1^2 * d2^3) - 1/105 * (d1^2 * d2^4)
    + 3/40 * (d1^3 * d2^0) - 3/70 * (d1^3 * d2^1) + 3/140 * (d1^3 * d2^2) - 1/105 * (d1^3 * d2^3) + 1/280 * (d1^3 * d2^4)
    - 3/70 * (d1^4 * d2^0) + 3/140 * (d1^4 * d2^1) - 1/105 * (d1^4 * d2^2) + 1/280 * (d1^4 * d2^3) - 1/1155 * (d1^4 * d2^4)).
  { unfold f8_1_1, pow2; cbv zeta; unR. fold d1 d2. field. }
  rewrite E in W. apply absle in W. apply absle'.
  pose proof (mono2 d1 d2 M 0 2 M1 M2 M3 ltac:(lia)). pose proof (mono2 d1 d2 M 0 3 M1 M2 M3 ltac:(lia)). pose proof (mono2 d1 d2 M 0 4 M1 M2 M3 ltac:(lia)).
  pose proof (mono2 d1 d2 M 1 1 M1 M2 M3 ltac:(lia)). pose proof (mono2 d1 d2 M 1 2 M1 M2 M3 ltac:(lia)). pose proof (mono2 d1 d2 M 1 3 M1 M2 M3 ltac:(lia)). pose proof (mono2 d1 d2 M 1 4 M1 M2 M3 ltac:(lia)).
  pose proof (mono2 d1 d2 M 2 0 M1 M2 M3 ltac:(lia)). pose proof (mono2 d1 d2 M 2 1 M1 M2 M3 ltac:(lia)). pose proof (mono2 d1 d2 M 2 2 M1 M2 M3 ltac:(lia)). pose proof (mono2 d1 d2 M 2 3 M1 M2 M3 ltac:(lia)). pose proof (mono2 d1 d2 M 2 4 M1 M2 M3 ltac:(lia)).
  pose proof (mono2 d1 d2 M 3 0 M1 M2 M3 ltac:(lia)). pose proof (mono2 d1 d2 M 3 1 M1 M2 M3 ltac:(lia)). pose proof (mono2 d1 d2 M 3 2 M1 M2 M3 ltac:(lia)). pose proof (mono2 d1 d2 M 3 3 M1 M2 M3 ltac:(lia)). pose proof (mono2 d1 d2 M 3 4 M1 M2 M3 ltac:(lia)).
  pose proof (mono2 d1 d2 M 4 0 M1 M2 M3 ltac:(lia)). pose proof (mono2 d1 d2 M 4 1 M1 M2 M3 ltac:(lia)). pose proof (mono2 d1 d2 M 4 2 M1 M2 M3 ltac:(lia)). pose proof (mono2 d1 d2 M 4 3 M1 M2 M3 ltac:(lia)). pose proof (mono2 d1 d2 M 4 4 M1 M2 M3 ltac:(lia)).
  lra.
Qed.

(** ** F6: the order-5 bound of the other functions fails *)
Lemma F6_not_order5 : forall C : R, exists x, Rabs (x^2 - 1) <= 1/100 /\ x^2 <> 1 /\ C * Rabs (x^2 - 1) ^ 5 < Rabs (F6 x - F6c x).
Proof.
  intros C.
  pose (K := Rmax (Rabs C) 10). pose (t := 1 / (20 * K)).
  assert (K1 : Rabs C <= K) by apply Rmax_l. assert (K2 : 10 <= K) by apply Rmax_r.
  assert (T0 : 0 < t). { unfold t. apply Rdiv_lt_0_compat; lra. }
  assert (T1 : t * K = 1/20). { unfold t. field. lra. }
  assert (T2 : t <= 1/200). { assert (10 * t <= t * K) by nra. lra. }
  exists (sqrt (1 + t)).
  assert (S : sqrt (1 + t) ^ 2 = 1 + t) by (apply pow2_sqrt; lra). 
  assert (A : Rabs (sqrt (1 + t) ^ 2 - 1) = t). { rewrite S. replace (1 + t - 1) with t by ring. apply Rabs_pos_eq; lra. }
  split; [lra|]. split; [lra|].
  pose proof (F6_error_exact (sqrt (1 + t)) ltac:(lra) ltac:(lra)) as W. rewrite A in W. rewrite A.
  rewrite S in W. replace (1 + t - 1) with t in W by ring. apply absle in W.
  assert (P4 : 0 < t ^ 4) by (apply pow_lt; auto). replace (t ^ 5) with (t ^ 4 * t) in * by ring.
  assert (L : t ^ 4 * (1/12 - t/10) <= F6 (sqrt (1 + t)) - F6c (sqrt (1 + t))) by lra.
  assert (C * (t ^ 4 * t) < t ^ 4 * (1/12 - t/10)).
  { assert (C * t <= 1/20). { rewrite <- T1, (Rmult_comm t K). apply Rmult_le_compat_r; [lra|]. generalize (Rle_abs C); lra. }
    replace (C * (t ^ 4 * t)) with (t ^ 4 * (C * t)) by ring. apply Rmult_lt_compat_l; auto. lra. }
  eapply Rlt_le_trans; [exact H|]. eapply Rle_trans; [exact L|]. apply Rle_abs.
Qed.

(** ** F9(x1,x2) with x1 near 1 and |x2| <= 0.01: wrong sign of the linear term *)
Lemma xlnx_small b : 0 < b -> b < 1 -> - (2 * sqrt b) <= b * ln b <= 0.
Proof.
  intros H H1. assert (S : 0 < sqrt b) by (apply sqrt_lt_R0; auto).
  assert (SS : sqrt b * sqrt b = b) by (apply sqrt_sqrt; lra).
  assert (L : ln b = - (2 * ln (/ sqrt b))).
  { rewrite ln_Rinv by auto. rewrite <- SS at 1. rewrite ln_mult by auto. ring. }
  assert (I : ln (/ sqrt b) <= / sqrt b).
  { pose proof (exp_ineq1_le (ln (/ sqrt b))). rewrite exp_ln in H0 by (apply Rinv_0_lt_compat; auto). lra. }
  split.
  - rewrite L. replace (2 * sqrt b) with (b * (2 * / sqrt b)); [nra|]. rewrite <- SS at 1. field. lra.
  - assert (ln b < 0) by (rewrite <- ln_1; apply ln_increasing; auto). nra.
Qed.

Lemma F9_1_0_wrong : exists x1 x2, 0 < x1 /\ 0 < x2 /\ Rabs (x1 - 1) <= 1/100 /\ x2 <= 1/100 /\ 1/100 < F9 x1 x2 - F9c x1 x2.
Proof.
  exists (1005/1000), (1/1000000). repeat split; try lra.
  { rewrite Rabs_pos_eq; lra. }
  assert (E : F9 (1005/1000) (1/1000000) = 2 + 10025/1000000).
  { unfold F9; cbv zeta; unR. rewrite !(Rabs_pos_eq (1005/1000)), !(Rabs_pos_eq (1/1000000)) by lra.
    rewrite (is_equalR_true (1005/1000) 1) by (unfold Rdec; simpl Z.pow; rewrite Rabs_pos_eq; lra).
    rewrite (is_equalR_false (1/1000000) 1) by (unfold Rdec; simpl Z.pow; rewrite Rabs_left; lra). cbn [andb].
    unfold F9_1_x2; cbv zeta; unR. rewrite is_zeroR_true by (unfold Rdec; simpl Z.pow; rewrite Rabs_pos_eq; lra). lra. }
  rewrite E. unfold F9c.
  replace ((1005/1000)^2) with (1 + 10025/1000000) by lra.
  replace ((1/1000000)^2) with (1/1000000000000) by lra.
  pose proof (ln_taylor 2 (10025/1000000)) as T. cbn [lnS INR pow] in T.
  rewrite !(Rabs_pos_eq (10025/1000000)) in T by lra. specialize (T ltac:(lra)). apply absle in T.
  pose proof (xlnx_small (1/1000000000000) ltac:(lra) ltac:(lra)) as B.
  assert (SQ : sqrt (1/1000000000000) = 1/1000000).
  { replace (1/1000000000000) with ((1/1000000) * (1/1000000)) by lra. apply sqrt_square. lra. }
  rewrite SQ in B. set (b := 1/1000000000000 * ln (1/1000000000000)) in *.
  set (l := ln (1 + 10025/1000000)) in *.
  replace (1 / 1000000000000 / (1 / 1000000000000 - 1) * ln (1 / 1000000000000))
    with (b * (- (1000000000000 / 999999999999))) by (unfold b; field).
  lra.
Qed.

(** ** zero and negative ratios *)
Ltac rab := unfold Rdec; simpl Z.pow; unfold Rabs; repeat destruct Rcase_abs; lra.
Ltac czt :=
  match goal with
  | |- context [@is_zero PR NumP ?a ?p] => erewrite (is_zeroP a p) by pd
  | |- context [@is_equal PR NumP ?a ?b ?p] => erewrite (is_equalP a b p) by pd
  end;
  match goal with |- context [Rleb ?u ?v] =>
    first [ rewrite (Rleb_true u v) by rab | rewrite (Rleb_false u v) by rab ] end; cbn [andb]; cbv iota.
Lemma F8_zero_undef' (a z : PR) : a = Some (1/1000000) -> z = Some 0 -> F8 a z = None /\ defd (F8 z a).
Proof.
  intros Ha Hz. split.
  - unfold F8; cbv zeta. repeat czt. unfold F8_0_x2; cbv zeta. rewrite Ha, Hz.
    unfold pow2.
    replace (@nlog PR NumP (nmul (Some 0) (Some 0))) with (None : PR).
    + reflexivity.
    + change (None = pguard (fun x => Rltb 0 x) ln (Some (0 * 0))). unfold pguard. rewrite Rltb_false by lra. reflexivity.
  - unfold F8; cbv zeta. repeat czt. unfold F8_0_x2; cbv zeta. eexists. pd; lra.
Qed.
Lemma F8_zero_undef : F8 (Some (1/1000000) : PR) (Some 0) = None /\ defd (F8 (Some 0 : PR) (Some (1/1000000))).
Proof. apply F8_zero_undef'; reflexivity. Qed.

Lemma f7_minus1_undef' (a b : PR) : a = Some (-1) -> b = Some 2 -> f7 a b = None.
Proof.
  intros Ha Hb. unfold f7; cbv zeta. repeat czt. 
  assert (Z : @ndiv PR NumP (nadd (nint 1) (nmul a b)) (nmul (nsub (pow2 a) (nint 1)) (nsub (pow2 b) (nint 1))) = None).
  { rewrite Ha, Hb. unfold pow2. unP. unfold p2, pdiv. rewrite Reqb_true by lra. reflexivity. }
  rewrite Z. reflexivity.
Qed.
Lemma f7_minus1_undef : f7 (Some (-1) : PR) (Some 2) = None.
Proof. apply f7_minus1_undef'; reflexivity. Qed.

(** ** values at 1, collected exactness, asymmetry *)
Ltac at1 := repeat first
  [ rewrite is_zeroR_false by (rewrite ?eps_defaultR; rab)
  | rewrite is_equalR_true by rab
  | match goal with |- context [Reqb ?a ?b] => rewrite (Reqb_false a b) by lra end
  | match goal with |- context [Rltb ?a ?b] => rewrite (Rltb_false a b) by rab end
  | rewrite is_zeroR_true by rab ]; cbn [andb]; cbv iota.
Ltac one f := unfold f; cbv zeta; unfold pow2; unR; at1; rewrite ?Rabs_R1; unfold Rdec; simpl Z.pow; lra.
Lemma at_one :
  F1 1 = 1 /\ F2 1 = 1 /\ F3 1 = 1 /\ F4 1 = 1 /\ F5 1 = 1 /\ F6 1 = 0 /\ F7 1 = 1 /\
  f1 1 = 1 /\ f2 1 = 1 /\ f3 1 = 1 /\ f4 1 = 1 /\
  F8 1 1 = 1 /\ F9 1 1 = 1 /\ f5 1 1 = 1 /\ f6 1 1 = 1 /\ f7 1 1 = 1 /\ f8 1 1 = 1.
Proof.
  assert (E1 : Rabs (Rabs 1 - 1) <= 1/100) by rab.
  assert (E2 : Rabs (1 - 1) <= 1/100) by rab.
  assert (E3 : Rabs (1 - 1) <= 2/100) by rab.
  split; [one @F1|]. split; [one @F2|]. split; [one @F3|]. split; [one @F4|]. split; [one @F5|]. split; [one @F6|]. split; [one @F7|].
  split; [one @f1|]. split; [one @f2|]. split; [one @f3|]. split; [one @f4|].
  split. { unfold F8; cbv zeta; unR. at1. unfold F8_1_1, pow2; cbv zeta; unR. lra. }
  split. { unfold F9; cbv zeta; unR. at1. unfold F9_1_1, pow2; cbv zeta; unR. lra. }
  rewrite (f5_is_11 1 1 _ E2 E2 eq_refl), (f6_is_11 1 1 _ E3 E3 eq_refl), (f7_is_11 1 1 _ E3 E3 eq_refl), (f8_is_11 1 1 _ E2 E2 eq_refl).
  repeat split; [unfold f5_1_1|unfold f6_1_1|unfold f7_1_1|unfold f8_1_1]; cbv zeta; unfold pow2; unR; unfold Rdec; simpl Z.pow; lra.
Qed.

Lemma outside1 : forall x : R, / 2^52 < x -> 1/100 < Rabs (x - 1) ->
  F1 x = F1c x /\ F2 x = F2c x /\ F3 x = F3c x /\ F4 x = F4c x /\ F5 x = F5c x /\
  (1/100 < Rabs (x^2 - 1) -> F6 x = F6c x /\ F7 x = F7c x).
Proof.
  intros x H H1. assert (P : 0 < x) by (eapply Rlt_trans; [|exact H]; apply Rinv_0_lt_compat, pow_lt; lra).
  assert (E : eps0 < Rabs x) by (rewrite Rabs_pos_eq by lra; unfold eps0; lra).
  assert (M : 1/100 < Rabs (x - -1)) by (rewrite Rabs_pos_eq; lra).
  repeat split; try (intros); [apply F1_exact|apply F2_exact|apply F3_exact|apply F4_exact|apply F5_exact|apply F6_exact|apply F7_exact]; assumption.
Qed.
Lemma outside2 : forall x1 x2 : R, 1/10000 < x1 -> 1/10000 < x2 ->
  2/100 < Rabs (x1 - 1) -> 2/100 < Rabs (x2 - 1) -> 1/10000 < Rabs (x1 - x2) ->
  F8 x1 x2 = F8c x1 x2 /\ F9 x1 x2 = F9c x1 x2 /\
  f5 x1 x2 = f5c x1 x2 /\ f6 x1 x2 = f6c x1 x2 /\ f7 x1 x2 = f7c x1 x2 /\ f8 x1 x2 = f8c x1 x2.
Proof.
  intros x1 x2 P1 P2 N1 N2 D.
  assert (A1 : Rabs x1 = x1) by (apply Rabs_pos_eq; lra). assert (A2 : Rabs x2 = x2) by (apply Rabs_pos_eq; lra).
  assert (M1 : 2/100 < Rabs (x1 - -1)) by (rewrite Rabs_pos_eq; lra).
  repeat split.
  - apply F8_exact; rewrite ?A1, ?A2; lra.
  - apply F9_exact; rewrite ?A1, ?A2; lra.
  - apply (f5_exact x1 x2 (1/10000)); rewrite ?A1, ?A2; lra.
  - apply (f6_exact x1 x2 (1/10000)); rewrite ?A1, ?A2; lra.
  - apply (f7_exact x1 x2 (1/10000)); rewrite ?A1, ?A2; lra.
  - apply (f8_exact x1 x2 (5/100000)); rewrite ?A1, ?A2; lra.
Qed.
Lemma F8_tiny_asym : exists x1 x2 : R, 0 < x1 /\ 0 < x2 /\ F8 x1 x2 <> F8 x2 x1.
Proof.
  exists (1/1000000), (1/100000). split; [lra|]. split; [lra|]. 
  assert (E : forall a b, 1/1000000 <= a <= 1/100000 -> 1/1000000 <= b <= 1/100000 -> 1/1000000 < Rmax a b ->
     F8 a b = 2 * (1 - b * b + (a * a + b * b) * ln (b * b)) / (-1 + b * b)).
  { intros a b Ha Hb Hm. unfold F8; cbv zeta; unR. rewrite (is_zeroR_false a) by (rewrite eps_defaultR; rab). cbn [andb].
    rewrite (is_equalR_false (Rabs a) 1), (is_equalR_false (Rabs b) 1) by rab. cbn [andb].
    rewrite is_zeroR_true by rab. unfold F8_0_x2, pow2; cbv zeta; unR. reflexivity. }
  rewrite !E; try lra; try (unfold Rmax; destruct Rle_dec; lra).
  set (c := ln (1/100000 * (1/100000))).
  assert (L1 : ln (1/1000000 * (1/1000000)) = c + ln (1/100)).
  { unfold c. rewrite <- ln_mult by lra. f_equal. lra. }
  rewrite L1. assert (P : ln (1/100) < 0) by (rewrite <- ln_1; apply ln_increasing; lra).
  assert (L2 : c = 5 * ln (1/100)).
  { unfold c. replace (1/100000 * (1/100000)) with ((1/100)*(1/100)*(1/100)*(1/100)*(1/100)) by lra.
    rewrite !ln_mult by lra. ring. }
  rewrite L2. set (t := ln (1/100)) in *. intro Q.
  apply (Rmult_eq_compat_r ((-1 + 1/1000000 * (1/1000000)) * (-1 + 1/100000 * (1/100000)))) in Q.
  field_simplify in Q; try lra.
Qed.
Lemma phi_sym : forall x y z : R,
  phi_xyz x y z = phi_xyz x z y /\ phi_xyz x y z = phi_xyz y x z /\ phi_xyz x y z = phi_xyz y z x /\
  phi_xyz x y z = phi_xyz z x y /\ phi_xyz x y z = phi_xyz z y x.
Proof.
  intros x y z.
  assert (S : forall a b c : R, phi_xyz a b c = phi_xyz b a c) by (intros; unfold phi_xyz; rewrite sort3_12; reflexivity).
  assert (Q : forall a b c : R, phi_xyz a b c = phi_xyz a c b) by (intros; unfold phi_xyz; rewrite sort3_23; reflexivity).
  repeat split; try solve [apply S | apply Q].
  - rewrite (S x y z). apply Q.
  - rewrite (Q x y z). apply S.
  - rewrite (S x y z), (Q y x z). apply S.
Qed.
