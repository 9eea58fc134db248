(** * Scale dependence of the O(at as) routine: auxiliary lemmas (real-number semantics) *)
From Coq Require Import Reals ZArith Bool List Lra Lia Psatz.
From Coquelicot Require Import Coquelicot.
From Verif Require Import Num NumFacts Except Linalg DSZ Fortran FOProofs PropFO2 FortProofs FortRelabel.
Open Scope R_scope.

(** the one-loop functions F1, F2, F3 *)
Definition o1 (m a b : R) : R := ln a + ln b - 4 * ln m.
Definition o2 (a b : R) : R := ln a - ln b.
Definition o3 (a b : R) : R := 2 - (a + b) / (a - b) * (ln a - ln b).

Lemma ln_quot (x y : R) : 0 < x -> 0 < y -> ln (x / y) = ln x - ln y.
Proof. intros Hx Hy. unfold Rdiv. rewrite ln_mult, ln_Rinv by (try apply Rinv_0_lt_compat; assumption). ring. Qed.

Lemma dlog1 (x q : R) : 0 < x -> 0 < q -> x * (- (q * (1 * 1)) * / (q * 1 * (q * 1))) * / (x * / (q * 1)) = - 1.
Proof. intros. field. lra. Qed.
Lemma dlog2 (x q : R) : 0 < x -> 0 < q ->
  x * (- (q * (1 * 1) * (q * 1) + q * 1 * (q * (1 * 1))) * / (q * 1 * (q * 1) * (q * 1 * (q * 1)))) * / (x * / (q * 1 * (q * 1))) = - 2.
Proof. intros. field. lra. Qed.
Lemma log1 (x q : R) : 0 < x -> 0 < q -> ln (x * / (q * 1)) = ln x - ln q.
Proof. intros. rewrite Rmult_1_r. apply ln_quot; assumption. Qed.
Lemma log2 (x y q : R) : 0 < x -> 0 < y -> 0 < q -> ln (x * y * / (q * 1 * (q * 1))) = ln x + ln y - 2 * ln q.
Proof. intros. rewrite !Rmult_1_r. change (ln (x * y / (q * q)) = ln x + ln y - 2 * ln q).
  rewrite ln_quot by (apply Rmult_lt_0_compat; assumption). rewrite !ln_mult by assumption. ring. Qed.

Section RGE.
  Variable fx : FExt R.
  Variables (m mg a b z q k : R).
  Hypotheses (Hm : 0 < m) (Hg : 0 < mg) (Ha : 0 < a) (Hb : 0 < b) (Hab : a <> b) (Hz : z <> 0) (Hq : 0 < q).
  Let t := m * m. Let g := mg * mg.
  Hypothesis HD1 : g * g + t * t + a * a - 2 * (g * t + g * a + t * a) <> 0.
  Hypothesis HD2 : g * g + t * t + b * b - 2 * (g * t + g * b + t * b) <> 0.
  (** the running of mt, of the stop masses squared and of sin(2 theta), in units of CF g3^2 / (16 pi^2) and for s = ln Q^2 *)
  Let dm := - 2 * m.
  Let dLR := - ((a - b) * z) + 4 * mg * m.
  Let da := - 4 * (g + t) + z * dLR.
  Let db := - 4 * (g + t) - z * dLR.
  Let dz := 2 * (1 - z * z) * dLR / (a - b).
  Definition do1 := da / a + db / b - 4 * dm / m.
  Definition do2 := da / a - db / b.
  Definition do3 := - ((da + db) / (a - b) - (a + b) * (da - db) / (a - b) ^ 2) * (ln a - ln b) - (a + b) / (a - b) * (da / a - db / b).

  Variable c2 : R. Hypothesis Hc : c2 * c2 = 1 - z * z.
  Let Q s := q * exp s.
  Let lnQ x s : 0 < x -> ln (x / Q s) = ln x - ln q - s.
  Proof. intros Hx. unfold Q. rewrite ln_quot by (try apply Rmult_lt_0_compat; try apply exp_pos; assumption).
    rewrite ln_mult by (try apply exp_pos; assumption). rewrite ln_exp. ring. Qed.
  Let lnQQ x y s : 0 < x -> 0 < y -> ln (x * y / (Q s * Q s)) = ln x + ln y - 2 * ln q - 2 * s.
  Proof. intros Hx Hy. assert (0 < Q s) by (apply Rmult_lt_0_compat; [exact Hq|apply exp_pos]).
    rewrite ln_quot by (apply Rmult_lt_0_compat; assumption). rewrite !ln_mult by assumption.
    unfold Q. rewrite ln_mult by (try apply exp_pos; assumption). rewrite ln_exp. ring. Qed.

  Lemma side (x : R) : 0 < x -> 0 < x * / (q * exp 0).
  Proof. intros Hx. apply Rmult_lt_0_compat; [exact Hx|]. apply Rinv_0_lt_compat, Rmult_lt_0_compat; [exact Hq|apply exp_pos]. Qed.
  Lemma side2 (x y : R) : 0 < x -> 0 < y -> 0 < x * y * / (q * exp 0 * (q * exp 0)).
  Proof. intros Hx Hy. assert (0 < q * exp 0) by (apply Rmult_lt_0_compat; [exact Hq|apply exp_pos]).
    apply Rmult_lt_0_compat; [apply Rmult_lt_0_compat; assumption|apply Rinv_0_lt_compat, Rmult_lt_0_compat; assumption]. Qed.
  Let f3of (q : R) := snd (f_strfuncs fx t mg a b z c2 q).
  Let f2of (q : R) := snd (fst (f_strfuncs fx t mg a b z c2 q)).
  Let f1of (q : R) := fst (fst (f_strfuncs fx t mg a b z c2 q)).
  Let s2of (q : R) := snd (fst (f_strresfuncs fx t mg a b q)).
  Let s3of (q : R) := snd (f_strresfuncs fx t mg a b q).
  Ltac start :=
    assert (Hst : sqrt t = m) by (unfold t; apply sqrt_square; lra); try rewrite Hst;
    assert (Ht : 0 < t) by (unfold t; nra); assert (Hgg : 0 < pow2 mg) by (unfold pow2; unR; nra);
    set (P1 := f_phi fx t a (pow2 mg)); set (P2 := f_phi fx t b (pow2 mg));
    replace (pow2 c2) with (1 - z * z) by (rewrite <- Hc; reflexivity);
    replace (pow2 mg) with g in * by reflexivity;
    unfold pow2; unR; unfold Q; auto_derive;
    [ assert (0 < q * exp 0) by (apply Rmult_lt_0_compat; [exact Hq|apply exp_pos]);
      assert (Hsd := side); assert (Hsd2 := side2);
      repeat (first [split | apply Rgt_not_eq; (assumption || (apply Rmult_lt_0_compat; assumption)) | auto])
    | rewrite exp_0;
      rewrite ?dlog1, ?dlog2 by (try apply Rmult_lt_0_compat; assumption);
      rewrite ?log1, ?log2 by assumption;
      rewrite ?(ln_quot g t), ?(ln_quot t g), ?(ln_quot a b), ?(ln_quot a g), ?(ln_quot b g) by assumption ].
  Ltac finish :=
    match goal with |- ?x = ?y => change (@eq R x y) end; field; repeat split; try assumption; try lra.
  Lemma rge3 : is_derive (fun s => (f3of (Q s) : R)) 0 (- (- 4 * o3 a b + 2 * dz / z * o3 a b + do3)).
  Proof.
    unfold f3of, f_strfuncs, f_strf3ab, f_strf3c. cbv zeta. cbn [snd]. unR.
    start.
    unfold o3, do3, da, db, dz, dLR.
    set (A := ln a). set (B := ln b). set (TT := ln t). set (G := ln g). set (q' := ln q).
    subst t g. finish.
  Qed.
  Lemma rge2 : is_derive (fun s => (m * z * f2of (Q s) + / 2 * (z * z) * s3of (Q s) : R)) 0
    (- (- 6 * m * z * o2 a b + m * dz * o2 a b + m * z * do2 + / 2 * (z * z) * (4 * mg) * o3 a b)).
  Proof.
    unfold f2of, s3of, f_strresfuncs, f_strfuncs, f_strf2ab, f_strf2c. cbv zeta. cbn [fst snd]. unR.
    start.
    unfold o3, o2, do2, da, db, dz, dLR.
    set (A := ln a). set (B := ln b). set (TT := ln t). set (G := ln g). set (q' := ln q).
    subst t g. finish.
  Qed.
  Lemma rge1 : is_derive (fun s => (m * z * s2of (Q s) + m * m * f1of (Q s) : R)) 0
    (- (m * z * (4 * mg) * o2 a b + m * m * (- 8 * o1 m a b + do1))).
  Proof.
    unfold f1of, s2of, f_strresfuncs, f_strfuncs, f_strf1ab, f_strf1c. cbv zeta. cbn [fst snd]. unR.
    start.
    unfold o1, do1, o2, do2, da, db, dz, dm, dLR.
    set (A := ln a). set (B := ln b). set (TT := ln t). set (G := ln g). set (q' := ln q).
    assert (HT : TT = 2 * ln m) by (unfold TT, t; rewrite ln_mult by assumption; ring).
    assert (HG : ln g = 2 * ln mg) by (unfold g; rewrite ln_mult by assumption; ring).
    rewrite HT. subst t g. finish.
  Qed.
  (** CP-odd mass: K is the one-loop function, X the derivative of A * FA *)
  Let K := a * (1 - (ln a - ln q)) - b * (1 - (ln b - ln q)).
  Let dK := - da * (ln a - ln q) + db * (ln b - ln q).
  Definition Xodd (A : R) := 4 * (A - mg) * (a - b) - (- 4 * A * K + 4 * mg * K + A * dK - A * K * (da - db) / (a - b)).
  Lemma rge_odd (A : R) : A <> 0 -> is_derive (fun s => (A * fst (f_strfuncsodd fx t mg a b z (Q s) A) : R)) 0 (Xodd A).
  Proof.
    intros HA. unfold f_strfuncsodd, f_strfaab, f_strfac. cbv zeta. cbn [fst snd]. unR.
    start.
    unfold Xodd, K, dK, da, db, dLR.
    set (LA := ln a). set (B := ln b). set (TT := ln t). set (G := ln g). set (q' := ln q).
    subst t g. finish.
  Qed.
  Lemma rge_odd0 : is_derive (fun s => (snd (f_strfuncsodd fx t mg a b z (Q s) 0) : R)) 0 (Xodd 0).
  Proof.
    unfold f_strfuncsodd, f_strresfac. cbv zeta. cbn [fst snd]. unR.
    start.
    unfold Xodd, K, dK, da, db, dLR.
    set (LA := ln a). set (B := ln b). set (TT := ln t). set (G := ln g). set (q' := ln q).
    subst t g. finish.
  Qed.
End RGE.
