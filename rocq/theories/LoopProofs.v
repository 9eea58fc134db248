(** * Taylor windows of the single-argument loop functions: proofs *)
From Coq Require Import Reals QArith Qreals List Bool Lra Lia ZArith.
From Verif Require Import Num NumFacts Dilog LoopFun LoopSpec Taylor LoopWindows.
Import ListNotations.
Open Scope R_scope.

Lemma dabsR (a : R) : dabs a = Rabs a.
Proof. unfold dabs; unR. destruct (Rleb_spec 0 a); [rewrite Rabs_pos_eq; auto|rewrite Rabs_left; auto]. Qed.
Lemma is_zeroR (a p : R) : is_zero a p = Rleb (Rabs a) p.
Proof. unfold is_zero; unR. rewrite dabsR. reflexivity. Qed.
Lemma is_equalR (a b p : R) : is_equal a b p = Rleb (Rabs (a - b)) p.
Proof. unfold is_equal; unR. apply is_zeroR. Qed.
Lemma is_zeroR_true (a p : R) : Rabs a <= p -> is_zero a p = true.
Proof. intros. rewrite is_zeroR. apply Rleb_true; auto. Qed.
Lemma is_zeroR_false (a p : R) : p < Rabs a -> is_zero a p = false.
Proof. intros. rewrite is_zeroR. apply Rleb_false; auto. Qed.
Lemma is_equalR_true (a b p : R) : Rabs (a - b) <= p -> is_equal a b p = true.
Proof. intros. rewrite is_equalR. apply Rleb_true; auto. Qed.
Lemma is_equalR_false (a b p : R) : p < Rabs (a - b) -> is_equal a b p = false.
Proof. intros. rewrite is_equalR. apply Rleb_false; auto. Qed.

Lemma eps_defaultR : (eps_default : R) = 1 / 4503599627370496.
Proof. reflexivity. Qed.
Lemma dec_1_2 : Rdec 1 2 = 1 / 100. Proof. unfold Rdec. simpl Z.pow. reflexivity. Qed.
Lemma dec_1_1 : Rdec 1 1 = 1 / 10. Proof. unfold Rdec. simpl Z.pow. reflexivity. Qed.

Lemma ln_sq x : 0 < x -> ln (x^2) = 2 * ln x.
Proof. intros. replace (x^2) with (x * x) by ring. rewrite ln_mult by auto. ring. Qed.

(** evaluate polynomials with literal coefficients *)
Ltac pevs := repeat (rewrite pev_prod_cons || rewrite pev_prod_nil); unfold X1, Y2; cbn [pev]; unfold Q2R; cbn [Qnum Qden].

Lemma absle a b : Rabs a <= b -> - b <= a <= b.
Proof. unfold Rabs; destruct (Rcase_abs a); lra. Qed.
Lemma absge a b : b < Rabs a -> a < - b \/ b < a.
Proof. unfold Rabs; destruct (Rcase_abs a); lra. Qed.

Ltac notzero := apply is_zeroR_false; rewrite ?eps_defaultR; unR;
  match goal with |- _ < Rabs ?x => let H := fresh in destruct (Rle_lt_dec (Rabs x) (1/2)) as [H|H]; [apply absle in H; exfalso; nra|lra] end.

(** |x - 1| <= 1/100: branch taken *)
Ltac enter Hx :=
  rewrite ?is_zeroR_false by (rewrite ?eps_defaultR; match goal with |- _ < Rabs ?x => destruct (Rle_lt_dec (Rabs x) (1/2)); [apply absle in Hx; match goal with H : Rabs x <= _ |- _ => apply absle in H end; exfalso; lra|lra] end);
  unR; rewrite ?dec_1_2, ?dec_1_1.

Section Single.
  Variable x : R.
  Hypothesis Hx : Rabs (x - 1) <= 1 / 100.
  Hypothesis N1 : x <> 1.
  Let d := x - 1.

  Lemma pos_x : 0 < x. Proof. apply absle in Hx. lra. Qed.
  Lemma d_ne : d <> 0. Proof. unfold d. lra. Qed.
  Lemma d_r : Rabs d <= Q2R (Qmake 1 100). Proof. unfold Q2R; simpl. unfold d. lra. Qed.
  Lemma d2_ne : 2 + d <> 0. Proof. unfold d. apply absle in Hx. lra. Qed.
  Lemma xsq : x^2 - 1 = d * (2 + d). Proof. unfold d. ring. Qed.
  Lemma t_ne : (x - 1) * (x + 1) <> 0. Proof. pose proof pos_x. apply Rmult_integral_contrapositive_currified; lra. Qed.
  Lemma t_r : Rabs ((x - 1) * (x + 1)) <= Q2R (Qmake 201 10000).
  Proof.
    rewrite Rabs_mult. unfold Q2R; simpl. pose proof (absle _ _ Hx).
    rewrite (Rabs_pos_eq (x + 1)) by lra. apply Rle_trans with (1/100 * (x+1)); [|lra].
    apply Rmult_le_compat_r; lra.
  Qed.
  Lemma lnx2 : ln (x^2) = 2 * ln (1 + d).
  Proof. rewrite ln_sq by apply pos_x. unfold d. do 2 f_equal. ring. Qed.
  Lemma lnt : ln (x^2) = ln (1 + (x - 1) * (x + 1)).
  Proof. f_equal. ring. Qed.


  Ltac dwin w := pose proof (window_ok w ltac:(vm_compute; reflexivity) d d_ne d_r) as W.
  Ltac twin w := pose proof (window_ok w ltac:(vm_compute; reflexivity) _ t_ne t_r) as W.

  Lemma F1_window : Rabs (F1 x - F1c x) <= 1 / 8 * Rabs (x - 1) ^ 5.
  Proof.
    assert (E1 : F1 x = pev (wP wF1) d) by (unfold F1; cbv zeta; enter Hx; rewrite is_equalR_true by exact Hx; unfold pow2, pow3; unR; unfold wF1, wP, Rdec; pevs; simpl Z.pow; unfold d; field).
    assert (E2 : F1c x = wclosed wF1 d).
    { unfold F1c, wclosed; unfold wF1, wA, wB, wD, wm; pevs. rewrite lnx2. rewrite xsq. replace x with (1 + d) by (unfold d; ring).
      field. pose proof d_ne; pose proof d2_ne. repeat split; lra. }
    dwin wF1. rewrite E1, E2. revert W. unfold wF1 at 3 4, wk, wC, Q2R; cbn [Qnum Qden]. unfold d. intros W. exact W.
  Qed.
  Lemma F3_window : Rabs (F3 x - F3c x) <= 1 / 20 * Rabs (x - 1) ^ 5.
  Proof.
    assert (E1 : F3 x = pev (wP wF3) d) by (unfold F3; cbv zeta; enter Hx; rewrite is_equalR_true by exact Hx; unfold pow2, pow3; unR; unfold wF3, wP, Rdec; pevs; simpl Z.pow; unfold d; field).
    assert (E2 : F3c x = wclosed wF3 d).
    { unfold F3c, wclosed; unfold wF3, wA, wB, wD, wm; pevs. rewrite lnx2. rewrite xsq. replace x with (1 + d) by (unfold d; ring).
      field. pose proof d_ne; pose proof d2_ne. repeat split; lra. }
    dwin wF3. rewrite E1, E2. revert W. unfold wF3 at 3 4, wk, wC, Q2R; cbn [Qnum Qden]. unfold d. intros W. exact W.
  Qed.
  Lemma F4_window : Rabs (F4 x - F4c x) <= 1 / 5 * Rabs (x - 1) ^ 5.
  Proof.
    assert (E1 : F4 x = pev (wP wF4) d) by (unfold F4; cbv zeta; enter Hx; rewrite is_equalR_true by exact Hx; unfold pow2, pow3; unR; unfold wF4, wP, Rdec; pevs; simpl Z.pow; unfold d; field).
    assert (E2 : F4c x = wclosed wF4 d).
    { unfold F4c, wclosed; unfold wF4, wA, wB, wD, wm; pevs. rewrite lnx2. rewrite xsq. replace x with (1 + d) by (unfold d; ring).
      field. pose proof d_ne; pose proof d2_ne. repeat split; lra. }
    dwin wF4. rewrite E1, E2. revert W. unfold wF4 at 3 4, wk, wC, Q2R; cbn [Qnum Qden]. unfold d. intros W. exact W.
  Qed.
  Lemma F5_window : Rabs (F5 x - F5c x) <= 1 / 5 * Rabs (x - 1) ^ 5.
  Proof.
    assert (E1 : F5 x = pev (wP wF5) d) by (unfold F5; cbv zeta; enter Hx; rewrite is_equalR_true by exact Hx; unfold pow2, pow3; unR; unfold wF5, wP, Rdec; pevs; simpl Z.pow; unfold d; field).
    assert (E2 : F5c x = wclosed wF5 d).
    { unfold F5c, wclosed; unfold wF5, wA, wB, wD, wm; pevs. rewrite lnx2. try replace (1 - x^2) with (- (x^2 - 1)) by ring; rewrite xsq. replace x with (1 + d) by (unfold d; ring).
      field. pose proof d_ne; pose proof d2_ne. repeat split; lra. }
    dwin wF5. rewrite E1, E2. revert W. unfold wF5 at 3 4, wk, wC, Q2R; cbn [Qnum Qden]. unfold d. intros W. exact W.
  Qed.
  Lemma F2_window : Rabs (F2 x - F2c x) <= 3 / 5 * Rabs (x^2 - 1) ^ 5.
  Proof.
    assert (E1 : F2 x = pev (wP wF2) ((x - 1) * (x + 1))).
    { unfold F2; cbv zeta; enter Hx; rewrite is_equalR_true by exact Hx; unfold pow2, pow3; unR; unfold wF2, wP; pevs; field. }
    assert (E2 : F2c x = wclosed wF2 ((x - 1) * (x + 1))).
    { unfold F2c, wclosed; unfold wF2, wA, wB, wD, wm; pevs. rewrite lnt. replace (x^2 - 1) with ((x - 1) * (x + 1)) by ring.
      pose proof t_ne as H. set (t := (x - 1) * (x + 1)) in *. replace (x^2) with (1 + t) by (unfold t; ring).
      field. lra. }
    twin wF2. rewrite E1, E2. revert W. unfold wF2 at 3 4, wk, wC, Q2R; cbn [Qnum Qden].
    replace (x^2 - 1) with ((x - 1) * (x + 1)) by ring. intros W. exact W.
  Qed.
End Single.

(** window in x^2: F6, F7 *)
Section SingleSq.
  Variable x : R.
  Hypothesis Hx : Rabs (x^2 - 1) <= 1 / 100.
  Hypothesis N1 : x^2 <> 1.
  Lemma tsq_r : Rabs ((x - 1) * (x + 1)) <= Q2R (Qmake 1 100).
  Proof. replace ((x - 1) * (x + 1)) with (x^2 - 1) by ring. unfold Q2R; cbn [Qnum Qden]. lra. Qed.
  Lemma tsq_ne : (x - 1) * (x + 1) <> 0.
  Proof. replace ((x - 1) * (x + 1)) with (x^2 - 1) by ring. lra. Qed.
  Lemma far0 (e : R) : e < 1/2 -> e < Rabs x.
  Proof. intros He. destruct (Rle_lt_dec (Rabs x) (1/2)) as [H|H]; [|lra]. apply absle in H. apply absle in Hx. exfalso. nra. Qed.

  Lemma F6_code (c : Q) : Q2R c = 1 / 24 -> F6 x = pev [0; Qmake 1 3; Qmake (-1) 8; Qmake 1 15; c]%Q ((x - 1) * (x + 1)).
  Proof.
    intros Hc. unfold F6; cbv zeta. rewrite is_zeroR_false by (rewrite eps_defaultR; apply far0; lra).
    unfold pow2; unR; rewrite ?dec_1_2. replace (x * x) with (x^2) by ring.
    rewrite is_equalR_true by exact Hx. cbn [pev]. rewrite Hc. unfold Q2R; cbn [Qnum Qden]. field.
  Qed.
  Lemma F6_closed c k : F6c x = wclosed (wF6g c k) ((x - 1) * (x + 1)).
  Proof.
    unfold F6c, wclosed, wF6g, wA, wB, wD, wm; pevs. rewrite lnt. replace (1 - x^2) with (- ((x - 1) * (x + 1))) by ring.
    pose proof tsq_ne as H. set (t := (x - 1) * (x + 1)) in *. replace (x^2) with (1 + t) by (unfold t; ring).
    field. lra.
  Qed.
  Lemma F6_window : Rabs (F6 x - F6c x) <= 1 / 10 * Rabs (x^2 - 1) ^ 4.
  Proof.
    rewrite (F6_code (Qmake 1 24)) by (unfold Q2R; simpl; field). rewrite (F6_closed (Qmake 1 24) 4).
    pose proof (window_ok (wF6g (Qmake 1 24) 4) ltac:(vm_compute; reflexivity) _ tsq_ne tsq_r) as W.
    replace (x^2 - 1) with ((x - 1) * (x + 1)) by ring.
    revert W. unfold wF6g at 3 4, wk, wC, Q2R; cbn [Qnum Qden]. intros W. exact W.
  Qed.
  (** the correct fourth-order coefficient is -1/24: with +1/24 the error is t^4/12 + O(t^5) *)
  Lemma F6_error_exact : Rabs (F6 x - F6c x - (x^2 - 1) ^ 4 / 12) <= 1 / 10 * Rabs (x^2 - 1) ^ 5.
  Proof.
    rewrite (F6_code (Qmake 1 24)) by (unfold Q2R; simpl; field). rewrite (F6_closed (Qmake (-1) 24) 5).
    pose proof (window_ok (wF6g (Qmake (-1) 24) 5) ltac:(vm_compute; reflexivity) _ tsq_ne tsq_r) as W.
    replace (x^2 - 1) with ((x - 1) * (x + 1)) by ring.
    revert W. unfold wF6g at 1 3 4, wk, wC, wP. unfold Q2R at 1; cbn [Qnum Qden]. intros W.
    match goal with |- Rabs ?a <= _ => replace a with (pev [0%Q; Qmake 1 3; Qmake (-1) 8; Qmake 1 15; Qmake (-1) 24] ((x - 1) * (x + 1)) - wclosed (wF6g (Qmake (-1) 24) 5) ((x - 1) * (x + 1))) end.
    - eapply Rle_trans; [exact W|]. lra.
    - cbn [pev]. unfold Q2R; cbn [Qnum Qden]. field.
  Qed.
  Lemma F7_window : Rabs (F7 x - F7c x) <= 1 / 5 * Rabs (x^2 - 1) ^ 5.
  Proof.
    assert (E1 : F7 x = pev (wP wF7) ((x - 1) * (x + 1))).
    { unfold F7; cbv zeta. rewrite is_zeroR_false by (rewrite eps_defaultR; apply far0; lra).
      unfold pow2; unR; rewrite ?dec_1_2. replace (x * x) with (x^2) by ring.
      rewrite is_equalR_true by exact Hx. unfold wF7, wP, Rdec. pevs. simpl Z.pow. field. }
    assert (E2 : F7c x = wclosed wF7 ((x - 1) * (x + 1))).
    { unfold F7c, wclosed; unfold wF7, wA, wB, wD, wm; pevs. rewrite lnt. replace (x^2 - 1) with ((x - 1) * (x + 1)) by ring.
      replace (x^4) with ((x^2)^2) by ring.
      pose proof tsq_ne as H. set (t := (x - 1) * (x + 1)) in *. replace (x^2) with (1 + t) by (unfold t; ring).
      field. lra. }
    pose proof (window_ok wF7 ltac:(vm_compute; reflexivity) _ tsq_ne tsq_r) as W.
    rewrite E1, E2. revert W. unfold wF7 at 3 4, wk, wC, Q2R; cbn [Qnum Qden].
    replace (x^2 - 1) with ((x - 1) * (x + 1)) by ring. intros W. exact W.
  Qed.
End SingleSq.

(** window in |r|: f1..f4 *)
Section SingleAbs.
  Variable r : R.
  Hypothesis Hr : Rabs (Rabs r - 1) <= 1 / 100.
  Hypothesis N1 : r^2 <> 1.
  Lemma ra : 99/100 <= Rabs r <= 101/100. Proof. apply absle in Hr. lra. Qed.
  Lemma rsq : r^2 = Rabs r ^ 2. Proof. apply pow2_abs || (rewrite pow2_abs; reflexivity) || (rewrite <- pow2_abs; reflexivity). Qed.
  Lemma tab_r : Rabs (r^2 - 1) <= Q2R (Qmake 201 10000).
  Proof. rewrite rsq. pose proof ra. unfold Q2R; simpl. apply Rabs_le. nra. Qed.
  Lemma tab_ne : r^2 - 1 <> 0. Proof. lra. Qed.
  Lemma r_ne0 : r <> 0. Proof. intros E. pose proof ra as H. rewrite E, Rabs_R0 in H. lra. Qed.
  Lemma lntab : ln (r^2) = ln (1 + (r^2 - 1)). Proof. f_equal. ring. Qed.
  Lemma far0r (e : R) : e < 1/2 -> e < Rabs r. Proof. pose proof ra. lra. Qed.
  Lemma f1_window : Rabs (f1 r - f1c r) <= 1 / 5 * Rabs (r^2 - 1) ^ 5.
  Proof.
    assert (E1 : f1 r = pev (wP wf1) (r^2 - 1)).
    { unfold f1; cbv zeta; unR. rewrite Reqb_false by apply r_ne0. rewrite ?dec_1_2. rewrite (Rltb_false (Rabs r)) by (pose proof ra; lra).
      rewrite is_equalR_true by exact Hr. unfold pow2; unR. unfold wf1, wP; pevs; field. }
    assert (E2 : f1c r = wclosed wf1 (r^2 - 1)).
    { unfold f1c, wclosed; unfold wf1, wA, wB, wD, wm; pevs. rewrite lntab. replace (r^4) with ((r^2)^2) by ring.
      pose proof tab_ne as H. set (t := r^2 - 1) in *. replace (r^2) with (1 + t) by (unfold t; ring).
      field. lra. }
    pose proof (window_ok wf1 ltac:(vm_compute; reflexivity) _ tab_ne tab_r) as W.
    rewrite E1, E2. revert W. unfold wf1 at 3 4, wk, wC, Q2R; cbn [Qnum Qden]. intros W. exact W.
  Qed.
  Lemma f2_window : Rabs (f2 r - f2c r) <= 3 / 20 * Rabs (r^2 - 1) ^ 5.
  Proof.
    assert (E1 : f2 r = pev (wP wf2) (r^2 - 1)).
    { unfold f2; cbv zeta; unR. rewrite Reqb_false by apply r_ne0. rewrite ?dec_1_2. rewrite (Rltb_false (Rabs r)) by (pose proof ra; lra).
      rewrite is_equalR_true by exact Hr. unfold pow2; unR. unfold wf2, wP; pevs; field. }
    assert (E2 : f2c r = wclosed wf2 (r^2 - 1)).
    { unfold f2c, wclosed; unfold wf2, wA, wB, wD, wm; pevs. rewrite lntab. replace (r^4) with ((r^2)^2) by ring.
      pose proof tab_ne as H. set (t := r^2 - 1) in *. replace (r^2) with (1 + t) by (unfold t; ring).
      field. lra. }
    pose proof (window_ok wf2 ltac:(vm_compute; reflexivity) _ tab_ne tab_r) as W.
    rewrite E1, E2. revert W. unfold wf2 at 3 4, wk, wC, Q2R; cbn [Qnum Qden]. intros W. exact W.
  Qed.
  Lemma f3_window : Rabs (f3 r - f3c r) <= 2 / 5 * Rabs (r^2 - 1) ^ 5.
  Proof.
    assert (E1 : f3 r = pev (wP wf3) (r^2 - 1)).
    { unfold f3; cbv zeta; unR. rewrite Reqb_false by apply r_ne0. rewrite ?dec_1_2. rewrite is_zeroR_false by (apply far0r; unfold Rdec; simpl Z.pow; lra).
      rewrite is_equalR_true by exact Hr. unfold pow2; unR. unfold wf3, wP; pevs; field. }
    assert (E2 : f3c r = wclosed wf3 (r^2 - 1)).
    { unfold f3c, wclosed; unfold wf3, wA, wB, wD, wm; pevs. rewrite lntab. replace (r^4) with ((r^2)^2) by ring.
      pose proof tab_ne as H. set (t := r^2 - 1) in *. replace (r^2) with (1 + t) by (unfold t; ring).
      field. lra. }
    pose proof (window_ok wf3 ltac:(vm_compute; reflexivity) _ tab_ne tab_r) as W.
    rewrite E1, E2. revert W. unfold wf3 at 3 4, wk, wC, Q2R; cbn [Qnum Qden]. intros W. exact W.
  Qed.
  Lemma f4_window : Rabs (f4 r - f4c r) <= 13 / 25 * Rabs (r^2 - 1) ^ 5.
  Proof.
    assert (E1 : f4 r = pev (wP wf4) (r^2 - 1)).
    { unfold f4; cbv zeta; unR. rewrite Reqb_false by apply r_ne0. rewrite ?dec_1_2. rewrite is_zeroR_false by (apply far0r; unfold Rdec; simpl Z.pow; lra).
      rewrite is_equalR_true by exact Hr. unfold pow2; unR. unfold wf4, wP; pevs; field. }
    assert (E2 : f4c r = wclosed wf4 (r^2 - 1)).
    { unfold f4c, wclosed; unfold wf4, wA, wB, wD, wm; pevs. rewrite lntab. replace (r^4) with ((r^2)^2) by ring.
      pose proof tab_ne as H. set (t := r^2 - 1) in *. replace (r^2) with (1 + t) by (unfold t; ring).
      field. lra. }
    pose proof (window_ok wf4 ltac:(vm_compute; reflexivity) _ tab_ne tab_r) as W.
    rewrite E1, E2. revert W. unfold wf4 at 3 4, wk, wC, Q2R; cbn [Qnum Qden]. intros W. exact W.
  Qed.
End SingleAbs.
