(** * Relabelling of the two sfermions in the FORTRAN routines (real-number semantics) *)
From Coq Require Import Reals ZArith Bool List Lra Lia Psatz.
From Verif Require Import Num NumFacts Except Linalg DSZ Fortran FOProofs PropFO2 FortProofs.
Open Scope R_scope.

Lemma ln_swap (x y : R) : 0 < x -> 0 < y -> ln (y / x) = - ln (x / y).
Proof. intros Hx Hy. unfold Rdiv. rewrite !ln_mult by (try apply Rinv_0_lt_compat; assumption). rewrite !ln_Rinv by assumption. ring. Qed.

Section Relabel.
  Variable fx : FExt R.
  Variables (t mg t1 t2 q mu tb v2 gs : R).
  Hypotheses (Ht1 : 0 < t1) (Ht2 : 0 < t2) (Hne : t1 <> t2).
  Let Hd : t1 - t2 <> 0. Proof. lra. Qed.
  Let Hd' : t2 - t1 <> 0. Proof. lra. Qed.

  Lemma strfuncs_swap s2 c2 : f_strfuncs fx t mg t2 t1 (- s2) (- c2) q =
    let '(x, y, z) := f_strfuncs fx t mg t1 t2 s2 c2 q in (x, - y, z).
  Proof.
    unfold f_strfuncs. cbv zeta. unR. replace (- - s2) with s2 by ring.
    set (X1 := f_strf1c fx t mg t1 s2 q). set (X2 := f_strf1c fx t mg t2 (- s2) q).
    set (Y1 := f_strf2c fx t mg t1 t2 s2 q). set (Y2 := f_strf2c fx t mg t2 t1 (- s2) q).
    set (Z1 := f_strf3c fx t mg t1 t2 s2 q). set (Z2 := f_strf3c fx t mg t2 t1 (- s2) q).
    apply triple_eq.
    - unfold f_strf1ab. cbv zeta. unR. rewrite (Rmult_comm t2 t1), (ln_swap t1 t2) by assumption. unfold pow2. unR. unfold Rdiv. ring.
    - unfold f_strf2ab. cbv zeta. unR. rewrite (ln_swap t1 t2) by assumption. unfold pow2. unR. field. repeat split; lra.
    - unfold f_strf3ab. cbv zeta. unR. rewrite (Rmult_comm t2 t1), (ln_swap t1 t2) by assumption. unfold pow2. unR. field. repeat split; lra.
  Qed.
  Lemma strsfuncs_swap a : f_strsfuncs mg t2 t1 q a = let '(x, y) := f_strsfuncs mg t1 t2 q a in (- x, y).
  Proof. unfold f_strsfuncs. cbv zeta. unR. f_equal; unfold Rdiv; [ring|]. set (A := / a). unfold pow2. unR. field. split; lra. Qed.
  Lemma strresfuncs_swap : f_strresfuncs fx t mg t2 t1 q = let '(x, y, z) := f_strresfuncs fx t mg t1 t2 q in (x, - y, z).
  Proof. unfold f_strresfuncs. cbv zeta. unR. apply triple_eq; unfold pow2; unR; field; lra. Qed.
  Lemma Reqb_opp x : Reqb (- x) 0 = Reqb x 0.
  Proof. destruct (Reqb_spec x 0) as [H|H]; destruct (Reqb_spec (- x) 0) as [K|K]; try reflexivity; lra. Qed.

  Lemma dszhiggs_swap st ct : f_dszhiggs fx t mg t2 t1 ct (- st) q mu tb v2 gs 0 = f_dszhiggs fx t mg t1 t2 st ct q mu tb v2 gs 0.
  Proof.
    unfold f_dszhiggs. cbv zeta. unR.
    replace (2 * - st * ct) with (- (2 * ct * st)) by ring. replace (pow2 (- st) - pow2 ct) with (- (pow2 ct - pow2 st)) by (unfold pow2; unR; ring).
    set (s2 := 2 * ct * st). set (c2 := pow2 ct - pow2 st). replace ((t2 - t1) * - s2) with ((t1 - t2) * s2) by ring.
    set (X := (t1 - t2) * s2 / 2 / sqrt t). set (A := X - mu / tb).
    rewrite strfuncs_swap, strsfuncs_swap.
    destruct (f_strfuncs fx t mg t1 t2 s2 c2 q) as [[h1 h2] h3]. destruct (f_strsfuncs mg t1 t2 q A) as [sh2 sh3].
    destruct (f_strdfuncs t mg t2 t1 (- s2) (- c2) q A X) as [[[[dh1 dh2] dh3] dsh2] dsh3].
    destruct (f_strdfuncs t mg t1 t2 s2 c2 q A X) as [[[[eh1 eh2] eh3] esh2] esh3].
    rewrite Reqb_opp. rewrite strresfuncs_swap.
    destruct (f_strresfuncs fx t mg t1 t2 q) as [[r1 r2] r3].
    unfold pow2. unR.
    destruct (Reqb s2 0), (Reqb A 0); cbn [negb andb]; apply triple_eq; ring.
  Qed.
  Lemma strfuncsodd_swap s2 a : f_strfuncsodd fx t mg t2 t1 (- s2) q a = let '(x, y) := f_strfuncsodd fx t mg t1 t2 s2 q a in (- x, - y).
  Proof.
    unfold f_strfuncsodd. cbv zeta. unR. replace (- - s2) with s2 by ring.
    set (Z1 := f_strfac fx t mg t1 t2 s2 a q). set (Z2 := f_strfac fx t mg t2 t1 (- s2) a q).
    f_equal; [|ring]. unfold f_strfaab. cbv zeta. unR. rewrite (ln_swap t1 t2) by assumption. unfold pow2. unR. field. lra.
  Qed.
  Lemma dszodd_swap st ct : f_dszodd fx t mg t2 t1 ct (- st) q mu tb v2 gs = f_dszodd fx t mg t1 t2 st ct q mu tb v2 gs.
  Proof.
    unfold f_dszodd. cbv zeta. unR. replace (2 * - st * ct) with (- (2 * ct * st)) by ring.
    set (s2 := 2 * ct * st). replace ((t2 - t1) * - s2) with ((t1 - t2) * s2) by ring.
    set (X := (t1 - t2) * s2 / 2 / sqrt t). set (A := X - mu / tb). rewrite strfuncsodd_swap.
    destruct (f_strfuncsodd fx t mg t1 t2 s2 q A) as [fa faa]. replace (t2 - t1) with (- (t1 - t2)) by ring.
    destruct (Reqb A 0); cbn [negb]; unfold Rdiv; rewrite Rinv_opp; ring.
  Qed.

  Variables (a0 bl : R).
  Lemma taufuncs_swap s2 c2 cb sb : f_taufuncs fx t a0 bl t2 t1 (- s2) (- c2) cb sb q mu =
    let '(x, y, z) := f_taufuncs fx t a0 bl t1 t2 s2 c2 cb sb q mu in (x, - y, z).
  Proof.
    unfold f_taufuncs. cbv zeta. unR. replace (- - s2) with s2 by ring. replace (- - c2) with c2 by ring.
    set (X1 := f_tauf1c fx t a0 bl t1 t2 s2 c2 cb sb q mu). set (X2 := f_tauf1c fx t a0 bl t2 t1 (- s2) (- c2) cb sb q mu).
    set (Y1 := f_tauf2c fx t a0 bl t1 t2 s2 c2 cb sb q mu). set (Y2 := f_tauf2c fx t a0 bl t2 t1 (- s2) (- c2) cb sb q mu).
    set (Z1 := f_tauf3c fx t a0 bl t1 t2 s2 c2 cb sb q mu). set (Z2 := f_tauf3c fx t a0 bl t2 t1 (- s2) (- c2) cb sb q mu).
    apply triple_eq.
    - unfold f_tauf1ab. cbv zeta. unR.
      replace (- s2 * (t2 - t1)) with (s2 * (t1 - t2)) by ring. unfold pow2. unR. unfold Rdiv. ring.
    - unfold f_tauf2ab. cbv zeta. unR. unfold pow2. unR. unfold Rdiv. ring.
    - unfold f_tauf3ab. cbv zeta. unR. rewrite ?(ln_swap t1 t2) by assumption. unfold pow2. unR. field. repeat split; lra.
  Qed.

  Lemma tauresfuncs_swap s2 c2 cb sb : f_tauresfuncs fx t a0 bl t2 t1 (- s2) (- c2) cb sb q mu = f_tauresfuncs fx t a0 bl t1 t2 s2 c2 cb sb q mu.
  Proof.
    unfold f_tauresfuncs. cbv zeta. unR. replace (- s2 * (t2 - t1)) with (s2 * (t1 - t2)) by ring. rewrite (ln_swap t1 t2) by assumption.
    set (X := s2 * (t1 - t2) / 2 / sqrt t). set (Y := X - mu / cb / sb). unfold pow2. unR. field. repeat split; lra.
  Qed.
  Lemma tausqhiggs_swap st ct : f_tausqhiggs fx t a0 bl t2 t1 ct (- st) q mu tb v2 0 = f_tausqhiggs fx t a0 bl t1 t2 st ct q mu tb v2 0.
  Proof.
    unfold f_tausqhiggs. cbv zeta. unR.
    replace (2 * - st * ct) with (- (2 * ct * st)) by ring. replace (pow2 (- st) - pow2 ct) with (- (pow2 ct - pow2 st)) by (unfold pow2; unR; ring).
    set (s2 := 2 * ct * st). set (c2 := pow2 ct - pow2 st). replace ((t2 - t1) * - s2) with ((t1 - t2) * s2) by ring.
    set (X := (t1 - t2) * s2 / 2 / sqrt t). set (A := X - mu / (1 / tb)).
    rewrite taufuncs_swap, tauresfuncs_swap.
    destruct (f_taufuncs fx t a0 bl t1 t2 s2 c2 _ _ q mu) as [[h1 h2] h3].
    unfold f_tausfuncs. cbv zeta. unR.
    destruct (f_taudfuncs t a0 bl t2 t1 (- s2) (- c2) _ _ q mu A v2) as [[[[[[d1 d2] d3] d4] d5] d6] d7].
    destruct (f_taudfuncs t a0 bl t1 t2 s2 c2 _ _ q mu A v2) as [[[[[[e1 e2] e3] e4] e5] e6] e7].
    rewrite Reqb_opp, (ln_swap t1 t2) by assumption. replace ((t2 + t1) / (t2 - t1)) with (- ((t1 + t2) / (t1 - t2))) by (field; lra).
    set (H := (t1 + t2) / (t1 - t2)). set (h := sqrt (2 / v2) * sqrt t / sin (atan (1 / tb))).
    set (f2s := f_tauresfuncs fx t a0 bl t1 t2 s2 c2 _ _ q mu).
    unfold pow2. unR.
    destruct (Reqb s2 0) eqn:Hs, (Reqb A 0); cbn [negb andb]; apply triple_eq; try (unfold Rdiv; ring).
  Qed.
  Lemma taufuncsodd_swap s2 c2 cb sb : f_taufuncsodd fx t a0 bl t2 t1 (- s2) (- c2) cb sb q mu =
    let '(x, y) := f_taufuncsodd fx t a0 bl t1 t2 s2 c2 cb sb q mu in (- x, - y).
  Proof.
    unfold f_taufuncsodd. cbv zeta. unR. replace (- - s2) with s2 by ring. replace (- - c2) with c2 by ring.
    f_equal; [|ring]. unfold f_taufaab. cbv zeta. unR. ring.
  Qed.
  Lemma tausqodd_swap st ct : f_tausqodd fx t a0 bl t2 t1 ct (- st) q mu tb v2 = f_tausqodd fx t a0 bl t1 t2 st ct q mu tb v2.
  Proof.
    unfold f_tausqodd. cbv zeta. unR.
    replace (2 * - st * ct) with (- (2 * ct * st)) by ring. replace (pow2 (- st) - pow2 ct) with (- (pow2 ct - pow2 st)) by (unfold pow2; unR; ring).
    set (s2 := 2 * ct * st). set (c2 := pow2 ct - pow2 st). replace ((t2 - t1) * - s2) with ((t1 - t2) * s2) by ring.
    set (X := (t1 - t2) * s2 / 2 / sqrt t). set (A := X - mu / (1 / tb)). rewrite taufuncsodd_swap.
    destruct (f_taufuncsodd fx t a0 bl t1 t2 s2 c2 _ _ q mu) as [fa faa]. replace (t2 - t1) with (- (t1 - t2)) by ring.
    destruct (Rltb _ (Rabs A)); unfold Rdiv; rewrite Rinv_opp; ring.
  Qed.

  (** the staus in the O(ab atau) routines *)
  Variables (b b1 b2 sb cb : R).
  Hypotheses (Hb1 : 0 < b1) (Hb2 : 0 < b2) (Hbne : b1 <> b2).
  Lemma makefuncstau_swap s2 c2 x y : s2 <> 0 -> x <> 0 -> f_makefuncstau t b t2 t1 b1 b2 (- s2) (- c2) x y q mu v2 tb =
    let '(g1, g2, g3, g4, h1, h2, h3, h4, g5, g6, gg, hh, gi, hi, ga) := f_makefuncstau t b t1 t2 b1 b2 s2 c2 x y q mu v2 tb in
    (g1, - g2, g3, - g4, h1, h2, h3, h4, - g5, g6, - gg, hh, gi, hi, ga).
  Proof.
    intros Hs Hx. unfold f_makefuncstau, f_tauf1q, f_tauf2q, f_tauf3q, f_tauf4q, f_tauf5q, f_tauf6q, f_taufq, f_taugq, f_taufaq. cbv zeta. unR.
    rewrite ?(Rmult_comm t2 t1), ?(ln_swap t1 t2) by assumption.
    set (L := ln (t1 / t2)). set (L1 := ln (t1 / q)). set (L2 := ln (t2 / q)).
    set (h := sqrt (2 * t / v2) / cos (atan tb)). set (h' := sqrt (2 * b / v2) / cos (atan tb)).
    set (LL := ln (t1 * t2 / pow2 q)). set (MM := ln (b1 * b2 / pow2 q)). set (Q1 := ln (b1 / q)). set (Q2 := ln (b2 / q)). set (M := ln (b1 / b2)).
    replace ((t2 - t1) * - s2) with ((t1 - t2) * s2) by ring. 
    set (X := (t1 - t2) * s2 / 2 / sqrt t). set (B := (b1 - b2) * x / 2 / sqrt b). unfold pow2. unR.
    repeat match goal with |- (_, _) = (_, _) => apply (f_equal2 (@pair _ _)) end; try reflexivity; field; repeat split; lra.
  Qed.

  Lemma makefuncstau_swap_b s2 c2 x y : s2 <> 0 -> x <> 0 -> f_makefuncstau t b t1 t2 b2 b1 s2 c2 (- x) (- y) q mu v2 tb =
    let '(g1, g2, g3, g4, h1, h2, h3, h4, g5, g6, gg, hh, gi, hi, ga) := f_makefuncstau t b t1 t2 b1 b2 s2 c2 x y q mu v2 tb in
    (g1, g2, g3, g4, h1, - h2, h3, - h4, - g5, g6, gg, - hh, gi, hi, ga).
  Proof.
    intros Hs Hx. unfold f_makefuncstau, f_tauf1q, f_tauf2q, f_tauf3q, f_tauf4q, f_tauf5q, f_tauf6q, f_taufq, f_taugq, f_taufaq. cbv zeta. unR.
    rewrite ?(Rmult_comm b2 b1), ?(ln_swap b1 b2) by assumption.
    set (L := ln (t1 / t2)). set (L1 := ln (t1 / q)). set (L2 := ln (t2 / q)).
    set (h := sqrt (2 * t / v2) / cos (atan tb)). set (h' := sqrt (2 * b / v2) / cos (atan tb)).
    set (LL := ln (t1 * t2 / pow2 q)). set (MM := ln (b1 * b2 / pow2 q)). set (Q1 := ln (b1 / q)). set (Q2 := ln (b2 / q)). set (M := ln (b1 / b2)).
    replace ((b2 - b1) * - x) with ((b1 - b2) * x) by ring. 
    set (X := (t1 - t2) * s2 / 2 / sqrt t). set (B := (b1 - b2) * x / 2 / sqrt b). unfold pow2. unR.
    repeat match goal with |- (_, _) = (_, _) => apply (f_equal2 (@pair _ _)) end; try reflexivity; field; repeat split; lra.
  Qed.
  Lemma taubot_swap st ct : 2 * ct * st <> 0 -> 2 * cb * sb <> 0 ->
    f_taubot t b t2 t1 b1 b2 ct (- st) sb cb q mu tb v2 = f_taubot t b t1 t2 b1 b2 st ct sb cb q mu tb v2 /\
    f_taubotodd t b t2 t1 b1 b2 ct (- st) sb cb q mu tb v2 = f_taubotodd t b t1 t2 b1 b2 st ct sb cb q mu tb v2.
  Proof.
    intros H1 H2. unfold f_taubot, f_taubotodd. cbv zeta. unR.
    replace (2 * - st * ct) with (- (2 * ct * st)) by ring. replace (pow2 (- st) - pow2 ct) with (- (pow2 ct - pow2 st)) by (unfold pow2; unR; ring).
    set (s2 := 2 * ct * st) in *. set (c2 := pow2 ct - pow2 st) in *. replace ((t2 - t1) * - s2) with ((t1 - t2) * s2) by ring.
    rewrite makefuncstau_swap by assumption.
    destruct (f_makefuncstau t b t1 t2 b1 b2 _ _ _ _ q mu v2 tb) as [[[[[[[[[[[[[[y1 y2] y3] y4] y5] y6] y7] y8] y9] y10] y11] y12] y13] y14] y15].
    unfold pow2. unR. split; [apply triple_eq; ring|]. replace (t2 - t1) with (- (t1 - t2)) by ring. unfold Rdiv. rewrite Rinv_opp. ring.
  Qed.
  Lemma taubot_swap_b st ct : 2 * ct * st <> 0 -> 2 * cb * sb <> 0 ->
    f_taubot t b t1 t2 b2 b1 st ct cb (- sb) q mu tb v2 = f_taubot t b t1 t2 b1 b2 st ct sb cb q mu tb v2 /\
    f_taubotodd t b t1 t2 b2 b1 st ct cb (- sb) q mu tb v2 = f_taubotodd t b t1 t2 b1 b2 st ct sb cb q mu tb v2.
  Proof.
    intros H1 H2. unfold f_taubot, f_taubotodd. cbv zeta. unR.
    replace (2 * - sb * cb) with (- (2 * cb * sb)) by ring. replace (pow2 (- sb) - pow2 cb) with (- (pow2 cb - pow2 sb)) by (unfold pow2; unR; ring).
    set (x := 2 * cb * sb) in *. set (y := pow2 cb - pow2 sb) in *. replace ((b2 - b1) * - x) with ((b1 - b2) * x) by ring.
    rewrite makefuncstau_swap_b by assumption.
    destruct (f_makefuncstau t b t1 t2 b1 b2 _ _ _ _ q mu v2 tb) as [[[[[[[[[[[[[[y1 y2] y3] y4] y5] y6] y7] y8] y9] y10] y11] y12] y13] y14] y15].
    unfold pow2. unR. split; [apply triple_eq; ring|]. replace (b2 - b1) with (- (b1 - b2)) by ring. unfold Rdiv. rewrite Rinv_opp. ring.
  Qed.
End Relabel.
