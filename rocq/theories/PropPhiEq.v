(** * C82: one function Phi for both signs of the discriminant
    The two closed forms (dilogarithms for positive, Clausen functions for negative discriminant) satisfy the same linear differential equation in
    u, and the code agrees with them. *)
From Coq Require Import Reals ZArith List Bool Lra Lia.
From Coquelicot Require Import Coquelicot.
From Verif Require Import Num NumFacts Dilog LoopFun DilogSpec PropDilog ClausenSpec ClausenExists PropClausen PropPhi PropPhiNeg ClausenApprox.
Open Scope R_scope.

Definition disc (u v : R) : R := (1 - u - v) ^ 2 - 4 * u * v.
Definition PhiPos (L : R -> R) (u v : R) : R :=
  (- (ln u * ln v) + 2 * ln (root_x u v) * ln (root_y u v) - 2 * L (root_x u v) - 2 * L (root_y u v) + PI ^ 2 / 3) / sqrt (disc u v).
Definition Phi0 (L C : R -> R) (u v : R) : R := if Rlt_dec 0 (disc u v) then PhiPos L u v else PhiNeg C u v.

Lemma near_sign (v u : R) : disc u v <> 0 -> locally u (fun t => (0 < disc u v -> 0 < disc t v) /\ (disc u v < 0 -> disc t v < 0)).
Proof.
  intros N. assert (Hc : continuous (fun t => disc t v) u) by (unfold disc; apply (ex_derive_continuous (V := R_NormedModule)); auto_derive; exact I).
  destruct (Rlt_dec 0 (disc u v)) as [P|P].
  - assert (H := Hc (fun y => 0 < y) (open_gt 0 (disc u v) P)). apply (filter_imp (fun t => 0 < disc t v)); [intros t Ht; split; intros; lra|exact H].
  - assert (P' : disc u v < 0) by lra. assert (H := Hc (fun y => y < 0) (open_lt 0 (disc u v) P')). apply (filter_imp (fun t => disc t v < 0)); [intros t Ht; split; intros; lra|exact H].
Qed.

Lemma lt_sq a b : 0 < b -> a * a < b * b -> a < b.
Proof. intros. destruct (Rlt_le_dec a b); [assumption|nra]. Qed.

Lemma derive_const (f : R -> R) (x d c : R) : is_derive f x d -> is_derive (fun t => f t + c) x d.
Proof.
  intros H. replace d with (plus d 0) by (unfold plus; cbn; ring). apply (is_derive_plus (V := R_NormedModule) f (fun _ => c)); [exact H|].
  apply (is_derive_const (V := R_NormedModule)).
Qed.

Section Pos.
  Variables (L : R -> R) (u v : R).
  Hypothesis HL : is_ReLi2 L. Hypothesis Hu : 0 < u. Hypothesis Hv : 0 < v. Hypothesis Hs : u + v < 1. Hypothesis Hd : 0 < disc u v.
  Let l := lam u v. Let x := root_x u v. Let y := root_y u v.
  Lemma l_pos : 0 < l. Proof. apply sqrt_lt_R0. exact Hd. Qed.
  Lemma l_sq : l * l = disc u v. Proof. unfold l, lam. apply sqrt_sqrt. unfold disc in *. lra. Qed.
  Lemma x_rng : 0 < x < 1.
  Proof. pose proof l_pos. pose proof l_sq as Q. unfold disc in Q. assert (l < 1 + u - v) by (apply lt_sq; nra). unfold x, root_x. fold l. split; [lra|]. lra. Qed.
  Lemma y_rng : 0 < y < 1.
  Proof. pose proof l_pos. pose proof l_sq as Q. unfold disc in Q. assert (l < 1 - u + v) by (apply lt_sq; nra). unfold y, root_y. fold l. split; [lra|]. lra. Qed.
  Lemma xy_v : (1 - x) * y = v. Proof. pose proof l_sq as Q. unfold disc in Q. unfold x, y, root_x, root_y. fold l. nra. Qed.
  Lemma xy_u : (1 - y) * x = u. Proof. pose proof l_sq as Q. unfold disc in Q. unfold x, y, root_x, root_y. fold l. nra. Qed.
  Lemma lam_der : is_derive (fun t => lam t v) u ((u - v - 1) / l).
  Proof.
    pose proof l_pos as P. unfold lam, l, lam in *. auto_derive; [unfold disc in Hd; lra|]. 
    replace ((1 + - u + - v) * ((1 + - u + - v) * 1) + - (4 * u * v)) with ((1 - u - v) ^ 2 - 4 * u * v) by ring. field. lra.
  Qed.
  Lemma x_der : is_derive (fun t => root_x t v) u ((1 - x) / l).
  Proof.
    pose proof l_pos as P. apply (is_derive_ext (fun t => (1 + t - v) / 2 - lam t v / 2)). { intros t. unfold root_x. lra. }
    replace ((1 - x) / l) with (1 / 2 - (u - v - 1) / l / 2) by (unfold x, root_x; fold l; field; lra).
    apply (is_derive_minus (V := R_NormedModule) (fun t => (1 + t - v) / 2) (fun t => lam t v / 2)); [auto_derive; [exact I|lra]|].
    apply (is_derive_ext (fun t => / 2 * lam t v)). { intros; lra. } replace ((u - v - 1) / l / 2) with (/ 2 * ((u - v - 1) / l)) by lra. apply is_derive_scal. exact lam_der.
  Qed.
  Lemma y_der : is_derive (fun t => root_y t v) u (y / l).
  Proof.
    pose proof l_pos as P. apply (is_derive_ext (fun t => (1 - t + v) / 2 - lam t v / 2)). { intros t. unfold root_y. lra. }
    replace (y / l) with (- 1 / 2 - (u - v - 1) / l / 2) by (unfold y, root_y; fold l; field; lra).
    apply (is_derive_minus (V := R_NormedModule) (fun t => (1 - t + v) / 2) (fun t => lam t v / 2)); [auto_derive; [exact I|lra]|].
    apply (is_derive_ext (fun t => / 2 * lam t v)). { intros; lra. } replace ((u - v - 1) / l / 2) with (/ 2 * ((u - v - 1) / l)) by lra. apply is_derive_scal. exact lam_der.
  Qed.
  Definition num (t : R) : R := - (ln t * ln v) + 2 * ln (root_x t v) * ln (root_y t v) - 2 * L (root_x t v) - 2 * L (root_y t v) + PI ^ 2 / 3.
  Lemma ln_der (f : R -> R) d : 0 < f u -> is_derive f u d -> is_derive (fun t => ln (f t)) u (d / f u).
  Proof. intros P H. unfold Rdiv. apply (is_derive_comp ln f); [apply is_derive_ln; exact P|exact H]. Qed.
  Lemma num_der : is_derive num u ((2 * ln u + (1 - u - v) / u * ln v) / l).
  Proof.
    pose proof l_pos as P. pose proof x_rng as X. pose proof y_rng as Y. pose proof xy_u as EU. pose proof xy_v as EV.
    assert (LV : ln (1 - x) + ln y = ln v) by (rewrite <- EV, ln_mult; lra). assert (LU : ln (1 - y) + ln x = ln u) by (rewrite <- EU, ln_mult; lra).
    assert (dx := x_der). assert (dy := y_der). assert (lx := ln_der (fun t => root_x t v) _ (proj1 X) dx). assert (ly := ln_der (fun t => root_y t v) _ (proj1 Y) dy). cbv beta in lx, ly. fold x in lx. fold y in ly.
    assert (Lx : is_derive (fun t => L (root_x t v)) u ((1 - x) / l * (- ln (1 - x) / x))).
    { apply (is_derive_comp L (fun t => root_x t v)); [|exact dx]. fold x. replace (ln (1 - x)) with (ln (Rabs (1 - x))) by (rewrite Rabs_pos_eq; lra). apply HL; lra. }
    assert (Ly : is_derive (fun t => L (root_y t v)) u (y / l * (- ln (1 - y) / y))).
    { apply (is_derive_comp L (fun t => root_y t v)); [|exact dy]. fold y. replace (ln (1 - y)) with (ln (Rabs (1 - y))) by (rewrite Rabs_pos_eq; lra). apply HL; lra. }
    assert (l0 : is_derive (fun t => ln t) u (1 / u)). { apply (ln_der (fun t => t)); [exact Hu|]. apply (is_derive_id (K := R_AbsRing)). }
    replace ((2 * ln u + (1 - u - v) / u * ln v) / l) with
      (((- ln v * (1 / u) + 2 * ((1 - x) / l / x * ln y + ln x * (y / l / y))) - 2 * ((1 - x) / l * (- ln (1 - x) / x))) - 2 * (y / l * (- ln (1 - y) / y))).
    - unfold num.
      apply (is_derive_ext (fun t => ((- ln v * ln t + 2 * (ln (root_x t v) * ln (root_y t v)) - 2 * L (root_x t v)) - 2 * L (root_y t v)) + PI ^ 2 / 3)). { intros t. match goal with |- ?a = ?b => change (@eq R a b) end. ring. }
      apply derive_const. apply (is_derive_minus (V := R_NormedModule)); [|apply is_derive_scal; exact Ly].
      apply (is_derive_minus (V := R_NormedModule)); [|apply is_derive_scal; exact Lx]. apply (is_derive_plus (V := R_NormedModule)); [apply is_derive_scal; exact l0|].
      apply is_derive_scal. apply (is_derive_mult (fun t => ln (root_x t v)) (fun t => ln (root_y t v))); [exact lx|exact ly|intros; apply Rmult_comm].
    - assert (K : (1 - x) / x = (1 - u - v + l) / (2 * u)).
      { pose proof l_sq as Q. unfold disc in Q. assert (K1 : 2 * ((1 - x) * (1 - y)) = 1 - u - v + l) by (unfold x, y, root_x, root_y; fold l; nra).
        rewrite <- K1, <- EU. field. lra. }
      replace ((1 - x) / l / x) with ((1 - x) / x / l) by (field; lra). replace ((1 - x) / l * (- ln (1 - x) / x)) with ((1 - x) / x / l * - ln (1 - x)) by (field; lra).
      rewrite K. replace (ln (1 - x)) with (ln v - ln y) by lra. replace (ln (1 - y)) with (ln u - ln x) by lra. field. lra.
  Qed.
  Lemma pos_ode : exists d, is_derive (fun t => PhiPos L t v) u d /\ disc u v * d + (u - v - 1) * PhiPos L u v = 2 * ln u + (1 - u - v) / u * ln v.
  Proof.
    pose proof l_pos as P. eexists. split.
    - apply (is_derive_ext (fun t => num t / lam t v)). { intros t. reflexivity. }
      apply (is_derive_div num (fun t => lam t v)); [exact num_der|exact lam_der|fold l; lra].
    - change (PhiPos L u v) with (num u / l). fold l. rewrite <- l_sq. change (@minus R_AbelianGroup) with Rminus. field. lra.
  Qed.
End Pos.

Section Neg.
  Variables (C : R -> R) (u v : R).
  Hypothesis HC : is_Cl2 C. Hypothesis Hu : 0 < u. Hypothesis Hv : 0 < v. Hypothesis Hd : disc u v < 0.
  Let s := sqrt (4 * u * v - (1 - u - v) ^ 2).
  Lemma ns_pos : 0 < s. Proof. apply sqrt_lt_R0. unfold disc in Hd. lra. Qed.
  Lemma ns_sq : s * s = - disc u v. Proof. unfold s. rewrite sqrt_sqrt; unfold disc in *; lra. Qed.
  Lemma ns_der : is_derive (fun t => sqrt (4 * t * v - (1 - t - v) ^ 2)) u (- (u - v - 1) / s).
  Proof.
    pose proof ns_pos as P. unfold s in *. auto_derive; [unfold disc in Hd; lra|].
    match goal with |- context [sqrt ?t] => replace t with (4 * u * v - (1 - u - v) ^ 2) by ring end. field. lra.
  Qed.
  (** one angle: f = cos of the angle at u, r its sine *)
  Lemma angle (f : R -> R) (f' r : R) : 0 < r -> r * r = 1 - f u * f u -> is_derive f u f' ->
    is_derive (fun t => C (2 * acos (f t))) u (2 * ln (2 * r) * (f' / r)).
  Proof.
    intros Hr Hq Hf. assert (B : -1 < f u < 1) by nra.
    assert (S : sqrt (1 - Rsqr (f u)) = r) by (unfold Rsqr; rewrite <- Hq; apply sqrt_square; lra).
    assert (Sn : sin (acos (f u)) = r) by (rewrite sin_acos by lra; exact S).
    assert (D : is_derive acos (f u) (- / r)).
    { apply is_derive_Reals. replace (- / r) with (-1 / sqrt (1 - Rsqr (f u))) by (rewrite S; field; lra). rewrite <- (derive_pt_acos (f u) B). apply derive_pt_eq_1 with (pr := derivable_pt_acos (f u) B). reflexivity. }
    assert (R0 : 0 < acos (f u) < PI) by (apply acos_bound_lt; exact B).
    replace (2 * ln (2 * r) * (f' / r)) with (2 * (f' * - / r) * - ln (2 * sin (2 * acos (f u) / 2))).
    - apply (is_derive_comp C (fun t => 2 * acos (f t))); [apply HC; lra|]. apply is_derive_scal. apply (is_derive_comp acos f); [exact D|exact Hf].
    - replace (2 * acos (f u) / 2) with (acos (f u)) by field. rewrite Sn. field. lra.
  Qed.
  Definition nnum (t : R) : R := 2 * (C (2 * acos ((1 + t - v) / (2 * sqrt t))) + C (2 * acos ((1 - t + v) / (2 * sqrt v))) + C (2 * acos ((t + v - 1) / (2 * sqrt (t * v))))).
  Lemma nnum_der : is_derive nnum u (- (2 * ln u + (1 - u - v) / u * ln v) / s).
  Proof.
    pose proof ns_pos as P. pose proof ns_sq as Q. unfold disc in Q.
    assert (su := sqrt_lt_R0 u Hu). assert (sv := sqrt_lt_R0 v Hv). assert (qu := sqrt_sqrt u ltac:(lra)). assert (qv := sqrt_sqrt v ltac:(lra)).
    assert (uv0 : 0 < u * v) by nra. assert (sw : sqrt (u * v) = sqrt u * sqrt v) by (apply sqrt_mult; lra).
    assert (lnu : ln u = 2 * ln (sqrt u)) by (rewrite <- qu at 1; rewrite ln_mult by assumption; lra).
    assert (lnv : ln v = 2 * ln (sqrt v)) by (rewrite <- qv at 1; rewrite ln_mult by assumption; lra).
    set (a := sqrt u) in *. set (b := sqrt v) in *.
    assert (d1 : is_derive (fun t => (1 + t - v) / (2 * sqrt t)) u ((u - 1 + v) / (4 * u * a))).
    { auto_derive; [fold a; split; [lra|split; [|exact I]]; nra|]. fold a. rewrite <- qu at 3. rewrite <- qu. field. lra. }
    assert (d2 : is_derive (fun t => (1 - t + v) / (2 * sqrt v)) u (- / (2 * b))) by (fold b; auto_derive; [exact I|field; lra]).
    assert (d3 : is_derive (fun t => (t + v - 1) / (2 * sqrt (t * v))) u ((u - v + 1) / (4 * u * (a * b)))).
    { auto_derive; [rewrite sw; split; [lra|split; [|exact I]]; nra|]. rewrite sw. set (ab := a * b). assert (0 < ab) by (unfold ab; nra). assert (QQ : ab * ab = u * v) by (unfold ab; rewrite <- qu, <- qv; ring). replace (2 * ab * (2 * ab)) with (4 * (u * v)) by (rewrite <- QQ; ring). clearbody ab. field. lra. }
    assert (r1 : s / (2 * a) * (s / (2 * a)) = 1 - (1 + u - v) / (2 * sqrt u) * ((1 + u - v) / (2 * sqrt u))).
    { fold a. replace (s / (2 * a) * (s / (2 * a))) with (s * s / (4 * (a * a))) by (field; lra). replace (1 - (1 + u - v) / (2 * a) * ((1 + u - v) / (2 * a))) with (1 - (1 + u - v) ^ 2 / (4 * (a * a))) by (field; lra).
      rewrite Q, qu. field. lra. }
    assert (r2 : s / (2 * b) * (s / (2 * b)) = 1 - (1 - u + v) / (2 * sqrt v) * ((1 - u + v) / (2 * sqrt v))).
    { fold b. replace (s / (2 * b) * (s / (2 * b))) with (s * s / (4 * (b * b))) by (field; lra). replace (1 - (1 - u + v) / (2 * b) * ((1 - u + v) / (2 * b))) with (1 - (1 - u + v) ^ 2 / (4 * (b * b))) by (field; lra).
      rewrite Q, qv. field. lra. }
    assert (r3 : s / (2 * (a * b)) * (s / (2 * (a * b))) = 1 - (u + v - 1) / (2 * sqrt (u * v)) * ((u + v - 1) / (2 * sqrt (u * v)))).
    { rewrite sw. replace (s / (2 * (a * b)) * (s / (2 * (a * b)))) with (s * s / (4 * ((a * a) * (b * b)))) by (field; lra).
      replace (1 - (u + v - 1) / (2 * (a * b)) * ((u + v - 1) / (2 * (a * b)))) with (1 - (u + v - 1) ^ 2 / (4 * ((a * a) * (b * b)))) by (field; lra).
      rewrite Q, qu, qv. field. lra. }
    assert (ab : 0 < a * b) by nra.
    assert (p1 : 0 < s / (2 * a)) by (apply Rdiv_lt_0_compat; lra). assert (p2 : 0 < s / (2 * b)) by (apply Rdiv_lt_0_compat; lra). assert (p3 : 0 < s / (2 * (a * b))) by (apply Rdiv_lt_0_compat; lra).
    assert (K1 := angle (fun t => (1 + t - v) / (2 * sqrt t)) _ _ p1 r1 d1). assert (K2 := angle (fun t => (1 - t + v) / (2 * sqrt v)) _ _ p2 r2 d2).
    assert (K3 := angle (fun t => (t + v - 1) / (2 * sqrt (t * v))) _ _ p3 r3 d3).
    assert (L1 : ln (2 * (s / (2 * a))) = ln s - ln a) by (replace (2 * (s / (2 * a))) with (s / a) by (field; lra); unfold Rdiv; rewrite ln_mult, ln_Rinv by (try apply Rinv_0_lt_compat; lra); ring).
    assert (L2 : ln (2 * (s / (2 * b))) = ln s - ln b) by (replace (2 * (s / (2 * b))) with (s / b) by (field; lra); unfold Rdiv; rewrite ln_mult, ln_Rinv by (try apply Rinv_0_lt_compat; lra); ring).
    assert (L3 : ln (2 * (s / (2 * (a * b)))) = ln s - ln a - ln b) by (replace (2 * (s / (2 * (a * b)))) with (s / (a * b)) by (field; lra); unfold Rdiv; rewrite ln_mult, ln_Rinv by (try apply Rinv_0_lt_compat; lra); rewrite ln_mult by lra; ring).
    rewrite L1 in K1. rewrite L2 in K2. rewrite L3 in K3. rewrite lnu, lnv.
    match goal with |- is_derive _ _ ?d => match type of K1 with is_derive _ _ ?e1 => match type of K2 with is_derive _ _ ?e2 => match type of K3 with is_derive _ _ ?e3 => replace d with (2 * ((e1 + e2) + e3)) end end end end.
    - unfold nnum. apply is_derive_scal. apply (is_derive_plus (V := R_NormedModule)); [apply (is_derive_plus (V := R_NormedModule)); [exact K1|exact K2]|exact K3].
    - field. lra.
  Qed.
  Lemma neg_ode : exists d, is_derive (fun t => PhiNeg C t v) u d /\ disc u v * d + (u - v - 1) * PhiNeg C u v = 2 * ln u + (1 - u - v) / u * ln v.
  Proof.
    pose proof ns_pos as P. pose proof ns_sq as Q. eexists. split.
    - apply (is_derive_ext (fun t => nnum t / sqrt (4 * t * v - (1 - t - v) ^ 2))). { intros t. reflexivity. }
      apply (is_derive_div nnum (fun t => sqrt (4 * t * v - (1 - t - v) ^ 2))); [exact nnum_der|exact ns_der|fold s; lra].
    - change (PhiNeg C u v) with (nnum u / s). fold s. replace (disc u v) with (- (s * s)) by lra. change (@minus R_AbelianGroup) with Rminus. field. lra.
  Qed.
End Neg.

(** At every point in which the code evaluates one of the two forms the function has a derivative and satisfies the equation. *)
Theorem C82_equation : forall L C, is_ReLi2 L -> is_Cl2 C -> forall u v : R, 0 < u -> 0 < v -> disc u v <> 0 -> (0 < disc u v -> u + v < 1) ->
  exists d, is_derive (fun t => Phi0 L C t v) u d /\ disc u v * d + (u - v - 1) * Phi0 L C u v = 2 * ln u + (1 - u - v) / u * ln v.
Proof.
  intros L C HL HC u v Hu Hv N Hs. assert (NS := near_sign v u N). destruct (Rlt_dec 0 (disc u v)) as [P|P].
  - destruct (pos_ode L u v HL Hu Hv (Hs P) P) as (d & D & E). exists d. split.
    + apply (is_derive_ext_loc (fun t => PhiPos L t v)); [|exact D]. apply filter_imp with (2 := NS). intros t (Ht & _). unfold Phi0. destruct (Rlt_dec 0 (disc t v)); [reflexivity|exfalso; apply n, Ht, P].
    + unfold Phi0. destruct (Rlt_dec 0 (disc u v)); [exact E|contradiction].
  - assert (P' : disc u v < 0) by lra. destruct (neg_ode C u v HC Hu Hv P') as (d & D & E). exists d. split.
    + apply (is_derive_ext_loc (fun t => PhiNeg C t v)); [|exact D]. apply filter_imp with (2 := NS). intros t (_ & Ht). specialize (Ht P'). unfold Phi0. destruct (Rlt_dec 0 (disc t v)); [lra|reflexivity].
    + unfold Phi0. destruct (Rlt_dec 0 (disc u v)); [contradiction|exact E].
Qed.

(** non-vacuity: both signs *)
Example C82_positive : 0 < disc (1 / 10) (2 / 10) /\ (1 / 10 + 2 / 10 : R) < 1.
Proof. unfold disc. lra. Qed.
Example C82_negative : disc 2 3 < 0.
Proof. unfold disc. lra. Qed.

(** ** the code *)
Ltac op0 := unP; cbv beta iota zeta delta [p1 p2 pdiv pguard pcmp option_map].
Lemma qP : exists q : R, (qdrt_eps : PR) = Some q /\ q < 1 / 4000.
Proof.
  pose proof qdrt_bounds as B. exists (qdrt_eps : R). split; [|lra].
  unfold qdrt_eps, phi_eps, eps_default. unP. cbv beta iota zeta delta [p2 pdiv]. rewrite case_ne by lra. match goal with |- @npow PR NumP (Some ?a) (Some ?b) = _ => change (@npow PR NumP (Some a) (Some b)) with (if Rltb 0 a then Some (Rpower a b) else None : PR) end. rewrite case_lt by (unfold Rdec; simpl Z.pow; lra). reflexivity.
Qed.
Theorem C82_code : forall L C, is_ReLi2 L -> is_Cl2 C -> forall u v : R, 1 / 4000 <= u -> 1 / 4000 <= v -> u + v < 1 -> 1 / 10 ^ 14 < disc u v -> apart u v ->
  exists t : R, phi_uv (Some u : PR) (Some v : PR) = Some t /\ Rabs (t - Phi0 L C u v) <= 1 / 10 ^ 15 / sqrt (disc u v).
Proof.
  intros L C HL HC u v Hu Hv Hs Hd Ha. destruct eps_small as (e & He & E0). destruct qP as (q & Hq & Q0).
  assert (D0 : 0 < disc u v) by (simpl pow in Hd; lra). assert (X := x_rng u v ltac:(lra) ltac:(lra) Hs D0). assert (Y := y_rng u v ltac:(lra) ltac:(lra) Hs D0).
  assert (lp := l_pos u v D0).
  destruct (C27_dilog L HL (root_x u v)) as (wx & Fx & Kx & _). destruct (C27_dilog L HL (root_y u v)) as (wy & Fy & Ky & _).
  assert (EL : @lambda_2 PR NumP (Some u) (Some v) = Some (disc u v)).
  { unfold lambda_2, pow2. cbv zeta. unP. cbv beta iota zeta delta [p2]. f_equal. unfold disc. ring. }
  unfold phi_uv. cbv zeta. rewrite EL, He.
  assert (Z : @is_zero PR NumP (Some (disc u v)) (Some e) = false).
  { assert (W := eqP_false (disc u v) 0 e ltac:(rewrite Rminus_0_r, Rabs_pos_eq by lra; lra)). unfold is_equal in W. revert W. unP. cbv beta iota zeta delta [p2]. rewrite Rminus_0_r. intros W; exact W. }
  rewrite Z. 
  exists ((- (ln u * ln v) + 2 * ln (root_x u v) * ln (root_y u v) - 2 * wx - 2 * wy + Rdec 32898681336964529 16) / lam u v). split.
  - assert (G : @nltb PR NumP (nint 0) (Some (disc u v)) = true) by (unP; cbv beta iota zeta delta [pcmp]; apply case_lt; lra). rewrite G.
    assert (G1 : @nleb PR NumP (Some u) (nint 1) = true) by (unP; cbv beta iota zeta delta [pcmp]; apply case_le; lra).
    assert (G2 : @nleb PR NumP (Some v) (nint 1) = true) by (unP; cbv beta iota zeta delta [pcmp]; apply case_le; lra). rewrite G1, G2. cbn [andb].
    unfold phi_pos. cbv zeta. rewrite EL, He. change (nint 1) with (Some 1 : PR).
    assert (N1 : @is_equal PR NumP (Some u) (Some 1) (Some e) && @is_equal PR NumP (Some v) (Some 1) (Some e) = false).
    { destruct (Rlt_dec u (1 / 2)); [rewrite (eqP_false u 1 e) by (rewrite Rabs_left; simpl pow in *; lra)|rewrite (eqP_false v 1 e), andb_false_r by (rewrite Rabs_left; simpl pow in *; lra)]; reflexivity. }
    rewrite N1, (eqP_false u v e) by (unfold apart in Ha; lra).
    assert (SQ : @nsqrt PR NumP (Some (disc u v)) = Some (lam u v)) by (unP; cbv beta iota zeta delta [pguard]; rewrite case_le by lra; reflexivity). rewrite SQ.
    unfold luv. rewrite Hq. assert (T1 : @nltb PR NumP (Some v) (Some q) = false) by (unP; cbv beta iota zeta delta [pcmp]; apply case_ge; lra).
    assert (T2 : @nltb PR NumP (Some u) (Some q) = false) by (unP; cbv beta iota zeta delta [pcmp]; apply case_ge; lra). rewrite T1, T2. change (nint 1) with (Some 1 : PR).
    match goal with |- context [@dilog PR NumP ?t] => replace t with (Some (root_x u v) : PR) by (op0; f_equal; unfold root_x, Rdec; simpl Z.pow; field) end.
    match goal with |- context [@dilog PR NumP (@nmul PR NumP ?a ?b)] => replace (@nmul PR NumP a b) with (Some (root_y u v) : PR) by (op0; f_equal; unfold root_y, Rdec; simpl Z.pow; field) end.
    rewrite Fx, Fy. op0. rewrite !case_lt by lra. cbv iota. rewrite case_ne by lra. apply f_equal. apply (f_equal2 Rdiv); [|reflexivity]. unfold Rdec. simpl Z.pow. lra.
  - unfold Phi0. destruct (Rlt_dec 0 (disc u v)); [|contradiction]. unfold PhiPos. change (sqrt (disc u v)) with (lam u v).
    assert (HN := pi_near). assert (HP := pl_val). rewrite HP in HN. simpl pow in HN. destruct HN as (HN & _).
    assert (c0 : Rabs (Rdec 32898681336964529 16 - PI ^ 2 / 3) <= 1 / 10 ^ 16).
    { assert (B1 : PI * PI <= (314159265358979324 / 100000000000000000) * (314159265358979324 / 100000000000000000)) by (apply Rmult_le_compat; lra).
      assert (B2 : (3141592653589793238 / 1000000000000000000) * (3141592653589793238 / 1000000000000000000) <= PI * PI) by (apply Rmult_le_compat; lra).
      simpl pow. unfold Rdec. simpl Z.pow. apply Rabs_le. lra. }
    set (A := - (ln u * ln v) + 2 * ln (root_x u v) * ln (root_y u v)). set (c := Rdec 32898681336964529 16) in *. set (lx := L (root_x u v)) in *. set (ly := L (root_y u v)) in *. set (l := lam u v) in *.
    replace ((A - 2 * wx - 2 * wy + c) / l - (A - 2 * lx - 2 * ly + PI ^ 2 / 3) / l) with ((-2 * (wx - lx) + -2 * (wy - ly) + (c - PI ^ 2 / 3)) / l) by (field; lra).
    unfold Rdiv at 1 4. rewrite Rabs_mult, (Rabs_right (/ l)) by (apply Rle_ge, Rlt_le, Rinv_0_lt_compat; exact lp).
    apply Rmult_le_compat_r; [apply Rlt_le, Rinv_0_lt_compat; exact lp|].
    assert (i1 := Rabs_triang (-2 * (wx - lx) + -2 * (wy - ly)) (c - PI ^ 2 / 3)). assert (i2 := Rabs_triang (-2 * (wx - lx)) (-2 * (wy - ly))).
    rewrite !Rabs_mult in i2. replace (Rabs (-2)) with 2 in i2 by (rewrite Rabs_left; lra). simpl pow in *. lra.
Qed.
