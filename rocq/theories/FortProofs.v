(** * Symmetries of the FORTRAN two-loop routines (real-number semantics) *)
From Coq Require Import Reals ZArith Bool List Lra Lia Psatz.
From Verif Require Import Num NumFacts Except Linalg DSZ Fortran FOProofs PropFO2.
Open Scope R_scope.

(** ** Reflection of the up-type Higgs doublet: mu -> -mu, tan(beta) -> -tan(beta) *)
Definition odd_mat (m : mat2 R) : mat2 R := mkM2 (m00 m) (- m01 m) (- m10 m) (m11 m).

Lemma quot_opp (x y : R) : y <> 0 -> - x / - y = x / y.
Proof. intros H. field. exact H. Qed.
Lemma quot_opp3 (x c s : R) : - x / c / - s = x / c / s.
Proof.
  destruct (Req_dec s 0) as [->|H].
  - unfold Rdiv. rewrite Ropp_0, Rinv_0. ring.
  - unfold Rdiv. rewrite Rinv_opp. ring.
Qed.
Lemma quot_opp3' (x c s : R) : - x / - s / c = x / s / c.
Proof. unfold Rdiv. rewrite Rinv_opp. ring. Qed.
Lemma pow2_opp (x : R) : pow2 (- x) = pow2 x.
Proof. unfold pow2. unR. ring. Qed.
Lemma sin_atan_opp (x : R) : sin (atan (- x)) = - sin (atan x).
Proof. rewrite atan_opp. apply sin_neg. Qed.
Lemma cos_atan_opp (x : R) : cos (atan (- x)) = cos (atan x).
Proof. rewrite atan_opp. apply cos_neg. Qed.
Lemma div_opp_r (x y : R) : x / - y = - (x / y).
Proof. unfold Rdiv. rewrite Rinv_opp. ring. Qed.

Lemma triple_eq {A B C : Type} (a d : A) (b e : B) (c f : C) : a = d -> b = e -> c = f -> (a, b, c) = (d, e, f).
Proof. intros -> -> ->. reflexivity. Qed.

Section Sym.
  Variable fx : FExt R.
  Variables (t mg t1 t2 st ct q mu tb v2 gs : R).

  Definition odd3 (x : R * R * R) : R * R * R := let '(a, b, c) := x in (a, b, - c).

  Lemma dszhiggs_odd os : tb <> 0 ->
    f_dszhiggs fx t mg t1 t2 st ct q (- mu) (- tb) v2 gs os = odd3 (f_dszhiggs fx t mg t1 t2 st ct q mu tb v2 gs os).
  Proof.
    intros Htb. unfold f_dszhiggs. cbv zeta. unR. rewrite sin_atan_opp, !quot_opp by exact Htb.
    set (A := _ - mu / tb). set (s2 := 2 * ct * st). set (c2 := pow2 ct - pow2 st).
    destruct (f_strfuncs fx t mg t1 t2 s2 c2 q) as [[h1 h2] h3].
    destruct (f_strsfuncs mg t1 t2 q A) as [sh2 sh3].
    destruct (f_strdfuncs t mg t1 t2 s2 c2 q A _) as [[[[dh1 dh2] dh3] dsh2] dsh3].
    rewrite !div_opp_r.
    set (H := sqrt (2 / v2) * sqrt t / sin (atan tb)). rewrite !pow2_opp.
    destruct (Reqb s2 0), (Reqb A 0); cbn [negb andb]; try destruct (f_strresfuncs fx t mg t1 t2 q) as [[r1 r2] r3];
      cbn [odd3]; apply triple_eq; ring.
  Qed.

  Lemma dszodd_odd : tb <> 0 ->
    f_dszodd fx t mg t1 t2 st ct q (- mu) (- tb) v2 gs = f_dszodd fx t mg t1 t2 st ct q mu tb v2 gs.
  Proof.
    intros Htb. unfold f_dszodd. cbv zeta. unR. rewrite sin_atan_opp, cos_atan_opp, !quot_opp by exact Htb.
    set (A := _ - mu / tb). destruct (f_strfuncsodd fx t mg t1 t2 (2 * ct * st) q A) as [fa faa].
    rewrite !div_opp_r. rewrite !pow2_opp. destruct (Reqb A 0); cbn [negb]; unfold Rdiv; ring.
  Qed.

  Variables (b b1 b2 sb cb : R).
  Lemma mul_opp_opp (x y : R) : - x * - y = x * y. Proof. ring. Qed.
  Lemma makefuncstau_odd x1 x2 x3 x4 : f_makefuncstau t b t1 t2 b1 b2 x1 x2 x3 x4 q (- mu) v2 (- tb) =
    let '(r, z) := f_makefuncstau t b t1 t2 b1 b2 x1 x2 x3 x4 q mu v2 tb in (r, - z).
  Proof.
    unfold f_makefuncstau, f_tauf1q, f_tauf2q, f_tauf3q, f_tauf4q, f_tauf5q, f_tauf6q, f_taufq, f_taugq, f_taufaq. cbv zeta. unR.
    rewrite !cos_atan_opp, ?mul_opp_opp, ?pow2_opp. f_equal. unfold Rdiv. ring.
  Qed.
  Lemma taubot_odd : 
    f_taubot t b t1 t2 b1 b2 st ct sb cb q (- mu) (- tb) v2 = let '(x, y, z) := f_taubot t b t1 t2 b1 b2 st ct sb cb q mu tb v2 in (x, - y, z).
  Proof.
    unfold f_taubot. cbv zeta. unR. rewrite makefuncstau_odd. rewrite !cos_atan_opp, !mul_opp_opp.
    destruct (f_makefuncstau t b t1 t2 b1 b2 _ _ _ _ q mu v2 tb) as [[[[[[[[[[[[[[y1 y2] y3] y4] y5] y6] y7] y8] y9] y10] y11] y12] y13] y14] y15].
    rewrite !pow2_opp. apply triple_eq; unfold Rdiv; ring.
  Qed.
  Lemma taubotodd_odd : 
    f_taubotodd t b t1 t2 b1 b2 st ct sb cb q (- mu) (- tb) v2 = f_taubotodd t b t1 t2 b1 b2 st ct sb cb q mu tb v2.
  Proof.
    unfold f_taubotodd. cbv zeta. unR. rewrite makefuncstau_odd. rewrite !cos_atan_opp, !mul_opp_opp.
    destruct (f_makefuncstau t b t1 t2 b1 b2 _ _ _ _ q mu v2 tb) as [[[[[[[[[[[[[[y1 y2] y3] y4] y5] y6] y7] y8] y9] y10] y11] y12] y13] y14] y15].
    rewrite sin_atan_opp, !div_opp_r. unfold Rdiv. ring.
  Qed.

  Variables (a0 bl : R).
  Ltac tau_odd := intros; cbv zeta; unR; rewrite ?quot_opp3, ?quot_opp3', ?pow2_opp; reflexivity.
  Lemma tauf1ab_odd x1 x2 y1 y2 z w : f_tauf1ab fx t a0 bl y1 y2 x1 x2 z (- w) q (- mu) = f_tauf1ab fx t a0 bl y1 y2 x1 x2 z w q mu.
  Proof. unfold f_tauf1ab. tau_odd. Qed.
  Lemma tauf1c_odd x1 x2 y1 y2 z w : f_tauf1c fx t a0 bl y1 y2 x1 x2 z (- w) q (- mu) = f_tauf1c fx t a0 bl y1 y2 x1 x2 z w q mu.
  Proof. unfold f_tauf1c. tau_odd. Qed.
  Lemma tauf2ab_odd x1 x2 y1 y2 z w : f_tauf2ab t a0 bl y1 y2 x1 x2 z (- w) q (- mu) = f_tauf2ab t a0 bl y1 y2 x1 x2 z w q mu.
  Proof. unfold f_tauf2ab. tau_odd. Qed.
  Lemma tauf2c_odd x1 x2 y1 y2 z w : f_tauf2c fx t a0 bl y1 y2 x1 x2 z (- w) q (- mu) = f_tauf2c fx t a0 bl y1 y2 x1 x2 z w q mu.
  Proof. unfold f_tauf2c. tau_odd. Qed.
  Lemma tauf3ab_odd x1 x2 y1 y2 z w : f_tauf3ab t a0 bl y1 y2 x1 x2 z (- w) q (- mu) = f_tauf3ab t a0 bl y1 y2 x1 x2 z w q mu.
  Proof. unfold f_tauf3ab. tau_odd. Qed.
  Lemma tauf3c_odd x1 x2 y1 y2 z w : f_tauf3c fx t a0 bl y1 y2 x1 x2 z (- w) q (- mu) = f_tauf3c fx t a0 bl y1 y2 x1 x2 z w q mu.
  Proof. unfold f_tauf3c. tau_odd. Qed.
  Lemma taufuncs_odd x1 x2 z w : f_taufuncs fx t a0 bl t1 t2 x1 x2 z (- w) q (- mu) = f_taufuncs fx t a0 bl t1 t2 x1 x2 z w q mu.
  Proof. unfold f_taufuncs. cbv zeta. rewrite !tauf1ab_odd, !tauf1c_odd, !tauf2ab_odd, !tauf2c_odd, !tauf3ab_odd, !tauf3c_odd. reflexivity. Qed.

  Lemma tauresfuncs_odd x1 x2 z w : f_tauresfuncs fx t a0 bl t1 t2 x1 x2 z (- w) q (- mu) = f_tauresfuncs fx t a0 bl t1 t2 x1 x2 z w q mu.
  Proof. unfold f_tauresfuncs. tau_odd. Qed.
  Lemma taufaab_odd x1 x2 y1 y2 z w : f_taufaab t a0 bl y1 y2 x1 x2 z (- w) q (- mu) = f_taufaab t a0 bl y1 y2 x1 x2 z w q mu.
  Proof. unfold f_taufaab. tau_odd. Qed.
  Lemma taufac_odd x1 x2 y1 y2 z w : f_taufac fx t a0 bl y1 y2 x1 x2 z (- w) q (- mu) = f_taufac fx t a0 bl y1 y2 x1 x2 z w q mu.
  Proof. unfold f_taufac. tau_odd. Qed.
  Lemma tauresfac_odd x1 x2 y1 y2 z w : f_tauresfac fx t a0 bl y1 y2 x1 x2 z (- w) q (- mu) = f_tauresfac fx t a0 bl y1 y2 x1 x2 z w q mu.
  Proof. unfold f_tauresfac. tau_odd. Qed.
  Lemma tausqodd_odd : tb <> 0 -> f_tausqodd fx t a0 bl t1 t2 st ct q (- mu) (- tb) v2 = f_tausqodd fx t a0 bl t1 t2 st ct q mu tb v2.
  Proof.
    intros Htb. unfold f_tausqodd, f_taufuncsodd. cbv zeta. unR. rewrite div_opp_r, sin_atan_opp, cos_atan_opp.
    assert (1 / tb <> 0) by (unfold Rdiv; apply Rmult_integral_contrapositive_currified; [lra|apply Rinv_neq_0_compat, Htb]).
    rewrite !quot_opp by assumption. rewrite !taufaab_odd, !taufac_odd, !tauresfac_odd.
    rewrite !div_opp_r, !pow2_opp. match goal with |- context [Rltb ?x ?y] => destruct (Rltb x y) end; unfold Rdiv; ring.
  Qed.
  Lemma tausqhiggs_odd : tb <> 0 -> f_tausqhiggs fx t a0 bl t1 t2 st ct q (- mu) (- tb) v2 0 = odd3 (f_tausqhiggs fx t a0 bl t1 t2 st ct q mu tb v2 0).
  Proof.
    intros Htb. unfold f_tausqhiggs. cbv zeta. unR. rewrite div_opp_r, sin_atan_opp, cos_atan_opp.
    assert (1 / tb <> 0) by (unfold Rdiv; apply Rmult_integral_contrapositive_currified; [lra|apply Rinv_neq_0_compat, Htb]).
    rewrite !quot_opp by assumption. rewrite !taufuncs_odd, !tauresfuncs_odd.
    set (A := _ - mu / _). set (s2 := 2 * ct * st). set (c2 := pow2 ct - pow2 st). rewrite !div_opp_r.
    set (H' := sqrt (2 / v2) * sqrt t / sin (atan (1 / tb))).
    destruct (f_taufuncs fx t a0 bl t1 t2 s2 c2 _ _ q mu) as [[h1 h2] h3].
    unfold f_tausfuncs. cbv zeta. unR.
    destruct (f_taudfuncs t a0 bl t1 t2 s2 c2 _ _ q mu A v2) as [[[[[[d1 d2] d3] d4] d5] d6] d7].
    destruct (f_taudfuncs t a0 bl t1 t2 s2 c2 _ _ q (- mu) A v2) as [[[[[[e1 e2] e3] e4] e5] e6] e7].
    rewrite !pow2_opp. 
    destruct (Reqb s2 0), (Reqb A 0); cbn [negb andb odd3]; apply triple_eq; unfold Rdiv; ring.
  Qed.
End Sym.
