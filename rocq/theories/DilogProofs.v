(** * Functional equations of the dilogarithm: auxiliary lemmas (real-number semantics) *)
From Coq Require Import Reals Lra Lia Psatz.
From Coquelicot Require Import Coquelicot.
From Verif Require Import DilogSpec.
Open Scope R_scope.

Lemma const_between (F : R -> R) (x y : R) : x <= y -> (forall z, x <= z <= y -> is_derive F z 0) -> F x = F y.
Proof.
  intros Hxy HF. destruct (MVT_gen F x y (fun _ => 0)) as (c & Hc & HE).
  - intros z Hz. apply HF. rewrite Rmin_left, Rmax_right in Hz by exact Hxy. lra.
  - intros z Hz. rewrite Rmin_left, Rmax_right in Hz by exact Hxy. apply continuity_pt_filterlim.
    apply (ex_derive_continuous F z). exists 0. apply HF. exact Hz.
  - lra.
Qed.
Lemma const_on (P : R -> Prop) (F : R -> R) : (forall x y z, P x -> P y -> x <= z <= y -> P z) -> (forall z, P z -> is_derive F z 0) ->
  forall x y, P x -> P y -> F x = F y.
Proof.
  intros HP HF x y Hx Hy. destruct (Rle_dec x y) as [H|H].
  - apply const_between; [exact H|]. intros z Hz. apply HF, (HP x y z); assumption.
  - symmetry. apply const_between; [lra|]. intros z Hz. apply HF, (HP y x z); assumption.
Qed.
Lemma cont_eps (F : R -> R) (p : R) : continuous F p -> forall eps, 0 < eps -> exists d, 0 < d /\ forall x, Rabs (x - p) < d -> Rabs (F x - F p) < eps.
Proof.
  intros HF eps He. destruct (proj1 (filterlim_locally F (F p)) HF (mkposreal eps He)) as [d Hd].
  exists d. split; [apply cond_pos|]. intros x Hx. apply (Hd x). exact Hx.
Qed.
Lemma eq_by_eps (a b : R) : (forall eps, 0 < eps -> Rabs (a - b) < eps) -> a = b.
Proof. intros H. destruct (Req_dec a b) as [E|E]; [exact E|]. assert (0 < Rabs (a - b)) by (apply Rabs_pos_lt; lra). specialize (H _ H0). lra. Qed.

(** |ln(1-u) ln u| <= 4 sqrt u for small u *)
Lemma ln_ln_small (u : R) : 0 < u <= / 2 -> Rabs (ln (1 - u) * ln u) <= 4 * sqrt u.
Proof.
  intros Hu. assert (Hs : 0 < sqrt u) by (apply sqrt_lt_R0; lra). assert (Hss := sqrt_sqrt u ltac:(lra)).
  assert (Hs1 : sqrt u <= 1) by (rewrite <- sqrt_1; apply sqrt_le_1; lra).
  assert (L1 : ln (1 - u) <= 0) by (rewrite <- ln_1; apply ln_le; lra).
  assert (L2 : - (2 * u) <= ln (1 - u)).
  { assert (H := exp_ineq1_le (2 * u)). destruct (Rle_dec (- (2 * u)) (ln (1 - u))) as [G|G]; [exact G|]. exfalso.
    assert (ln (1 - u) < - (2 * u)) by lra. apply exp_increasing in H0. rewrite exp_ln in H0 by lra. rewrite exp_Ropp in H0.
    assert (/ exp (2 * u) <= / (1 + 2 * u)) by (apply Rinv_le_contravar; lra).
    assert (1 - u < / (1 + 2 * u)) by lra. apply (Rmult_lt_compat_r (1 + 2 * u)) in H2; [|lra]. rewrite Rinv_l in H2 by lra. nra. }
  assert (L3 : ln u <= 0) by (rewrite <- ln_1; apply ln_le; lra).
  assert (L4 : - (2 / sqrt u) <= ln u).
  { rewrite <- Hss at 2. rewrite ln_mult by exact Hs.
    assert (- (1 / sqrt u) <= ln (sqrt u)); [|lra].
    assert (H := exp_ineq1_le (- ln (sqrt u))). rewrite exp_Ropp, exp_ln in H by exact Hs. unfold Rdiv. lra. }
  rewrite Rabs_pos_eq by nra.
  replace (ln (1 - u) * ln u) with ((- ln (1 - u)) * (- ln u)) by ring.
  apply Rle_trans with (2 * u * (2 / sqrt u)).
  - apply Rmult_le_compat; lra.
  - right. rewrite <- Hss at 1. field. lra.
Qed.
Lemma sqrt_small (eps : R) : 0 < eps -> forall u, 0 < u -> u < eps * eps / 16 -> 4 * sqrt u < eps.
Proof.
  intros He u Hu H. assert (sqrt u < eps / 4); [|lra]. replace (eps / 4) with (sqrt (eps * eps / 16)).
  - apply sqrt_lt_1; lra || nra.
  - replace (eps * eps / 16) with ((eps / 4) * (eps / 4)) by field. apply sqrt_square. lra.
Qed.

Section Li2.
  Variable L : R -> R.
  Hypothesis HL : is_ReLi2 L.
  Let L0 : L 0 = 0 := proj1 HL.
  Let Lc : forall x, continuous L x := proj1 (proj2 HL).
  Lemma Ld (x : R) : x <> 0 -> x <> 1 -> is_derive L x (- ln (Rabs (1 - x)) / x).
  Proof. exact (proj2 (proj2 HL) x). Qed.
  Lemma Ld_lt (x : R) : x <> 0 -> x < 1 -> is_derive L x (- ln (1 - x) / x).
  Proof. intros H1 H2. rewrite <- (Rabs_pos_eq (1 - x)) at 1 by lra. apply Ld; lra. Qed.
  Lemma Ld_gt (x : R) : 1 < x -> is_derive L x (- ln (x - 1) / x).
  Proof. intros H. replace (x - 1) with (Rabs (1 - x)) by (rewrite Rabs_left; lra). apply Ld; lra. Qed.

  Definition K : R := 2 * L (/ 2) + ln 2 * ln 2.

  (** Landen: x < 0 *)
  Lemma landen (x : R) : x < 0 -> L x = - / 2 * (ln (1 - x) * ln (1 - x)) - L (x / (x - 1)).
  Proof.
    intros Hx. set (F := fun x => L x + / 2 * (ln (1 - x) * ln (1 - x)) + L (x / (x - 1))).
    assert (HF : forall z, z < 0 -> is_derive F z 0).
    { intros z Hz. unfold F.
      assert (E1 := Ld_lt z ltac:(lra) ltac:(lra)).
      assert (Hy : z / (z - 1) <> 0 /\ z / (z - 1) < 1).
      { split. - unfold Rdiv. apply Rmult_integral_contrapositive. split; [lra|]. apply Rinv_neq_0_compat. lra.
        - apply (Rmult_lt_reg_r (1 - z)); [lra|]. replace (z / (z - 1) * (1 - z)) with (- z) by (field; lra). lra. }
      assert (E2 := Ld_lt (z / (z - 1)) (proj1 Hy) (proj2 Hy)).
      auto_derive.
      - repeat split; try lra; eexists; [exact E1|]. replace (z * / (z + - (1))) with (z / (z - 1)) by (unfold Rdiv, Rminus; reflexivity). exact E2.
      - change (z + - (1)) with (z - 1). change (z * / (z - 1)) with (z / (z - 1)). change (1 + - z) with (1 - z).
        change (fun x : R => L x) with L. rewrite (is_derive_unique _ _ _ E1), (is_derive_unique _ _ _ E2).
        replace (1 - z / (z - 1)) with (/ (1 - z)) by (field; lra). rewrite ln_Rinv by lra. 
        match goal with |- ?x = ?y => change (@eq R x y) end. field. lra. }
    assert (HC : F x = 0).
    { assert (HF0 : continuous F 0).
      { unfold F. apply (continuous_plus (V := R_NormedModule)); [apply (continuous_plus (V := R_NormedModule))|].
        - apply Lc.
        - apply (ex_derive_continuous (fun x : R => (/ 2 * (ln (1 - x) * ln (1 - x)) : R))). auto_derive. lra.
        - apply (continuous_comp (fun x : R => x / (x - 1)) L); [|apply Lc].
          apply (ex_derive_continuous (fun x : R => (x / (x - 1) : R))). auto_derive. lra. }
      assert (F0 : F 0 = 0).
      { unfold F. replace (0 / (0 - 1)) with 0 by field. rewrite L0. replace (1 - 0) with 1 by ring. rewrite ln_1. ring. }
      rewrite <- F0. apply eq_by_eps. intros eps He. destruct (cont_eps F 0 HF0 eps He) as (d & Hd & HH).
      rewrite (const_on (fun z => z < 0) F) with (y := - (d / 2)); try (lra || assumption).
      - apply HH. rewrite Rabs_left; lra.
      - intros; lra. }
    unfold F in HC. lra.
  Qed.

  (** reflection: 0 < x < 1 *)
  Lemma reflect (x : R) : 0 < x < 1 -> L x = K - ln x * ln (1 - x) - L (1 - x).
  Proof.
    intros Hx. set (F := fun x => L x + ln x * ln (1 - x) + L (1 - x)).
    assert (HF : forall z, 0 < z < 1 -> is_derive F z 0).
    { intros z Hz. unfold F. assert (E1 := Ld_lt z ltac:(lra) ltac:(lra)). assert (E2 := Ld_lt (1 - z) ltac:(lra) ltac:(lra)).
      auto_derive.
      - repeat split; try lra; eexists; [exact E1|exact E2].
      - change (1 + - z) with (1 - z). change (fun x : R => L x) with L.
        rewrite (is_derive_unique _ _ _ E1), (is_derive_unique _ _ _ E2). replace (1 - (1 - z)) with z by ring.
        match goal with |- ?x = ?y => change (@eq R x y) end. field. lra. }
    assert (HC : F x = F (/ 2)).
    { apply (const_on (fun z => 0 < z < 1)); try assumption; intros; lra. }
    assert (HK : F (/ 2) = K). { unfold F, K. replace (1 - / 2) with (/ 2) by field. rewrite ln_Rinv by lra. ring. }
    unfold F in HC at 1. lra.
  Qed.
  Lemma at_one : L 1 = K.
  Proof.
    apply eq_by_eps. intros eps He.
    destruct (cont_eps L 1 (Lc 1) (eps / 4) ltac:(lra)) as (d1 & Hd1 & H1). destruct (cont_eps L 0 (Lc 0) (eps / 4) ltac:(lra)) as (d0 & Hd0 & H0).
    rewrite L0 in H0.
    set (u := Rmin (/ 2) (Rmin (d1 / 2) (Rmin (d0 / 2) (eps / 4 * (eps / 4) / 32)))).
    assert (Hu : 0 < u). { repeat apply Rmin_glb_lt; try lra. apply Rdiv_lt_0_compat; nra. }
    assert (U1 : u <= / 2) by apply Rmin_l.
    assert (U2 : u <= d1 / 2) by (eapply Rle_trans; [apply Rmin_r|apply Rmin_l]).
    assert (U3 : u <= d0 / 2) by (eapply Rle_trans; [apply Rmin_r|]; eapply Rle_trans; [apply Rmin_r|apply Rmin_l]).
    assert (U4 : u <= eps / 4 * (eps / 4) / 32) by (eapply Rle_trans; [apply Rmin_r|]; eapply Rle_trans; [apply Rmin_r|]; eapply Rle_trans; [apply Rmin_r|]; lra).
    clearbody u.
    assert (R1 := reflect (1 - u) ltac:(lra)). replace (1 - (1 - u)) with u in R1 by ring.
    assert (A1 := H1 (1 - u) ltac:(rewrite Rabs_left; lra)). assert (A0 := H0 u ltac:(rewrite Rabs_pos_eq; lra)).
    assert (A2 := ln_ln_small u (conj Hu U1)). assert (A3 := sqrt_small (eps / 4) ltac:(lra) u Hu ltac:(nra)).
    unfold Rabs in *. repeat destruct (Rcase_abs _); lra.
  Qed.

  (** 1 < x *)
  Lemma small_choice (eps d1 d0 : R) : 0 < eps -> 0 < d1 -> 0 < d0 -> exists u, 0 < u /\ u <= / 2 /\ u <= d1 / 4 /\ u <= d0 / 2 /\ u < eps * eps / 16 /\ u <= eps / 4.
  Proof.
    intros. exists (Rmin (/ 2) (Rmin (d1 / 4) (Rmin (d0 / 2) (Rmin (eps * eps / 32) (eps / 4))))).
    assert (0 < eps * eps) by nra.
    assert (forall a b c e f, let m := Rmin a (Rmin b (Rmin c (Rmin e f))) in m <= a /\ m <= b /\ m <= c /\ m <= e /\ m <= f).
    { intros a b c e f. cbv zeta. unfold Rmin. repeat destruct (Rle_dec _ _); lra. }
    destruct (H3 (/ 2) (d1 / 4) (d0 / 2) (eps * eps / 32) (eps / 4)) as (B1 & B2 & B3 & B4 & B5).
    split; [repeat apply Rmin_glb_lt; lra|]. lra.
  Qed.
  Lemma above_aux (u : R) : 0 < u <= / 2 -> 0 <= ln (/ (1 - u)) <= 2 * u.
  Proof.
    intros Hu. rewrite ln_Rinv by lra. split.
    - assert (ln (1 - u) <= 0) by (rewrite <- ln_1; apply ln_le; lra). lra.
    - assert (H := exp_ineq1_le (2 * u)). destruct (Rle_dec (- (2 * u)) (ln (1 - u))) as [G|G]; [lra|]. exfalso.
      assert (ln (1 - u) < - (2 * u)) by lra. apply exp_increasing in H0. rewrite exp_ln in H0 by lra. rewrite exp_Ropp in H0.
      assert (/ exp (2 * u) <= / (1 + 2 * u)) by (apply Rinv_le_contravar; lra).
      assert (1 - u < / (1 + 2 * u)) by lra. apply (Rmult_lt_compat_r (1 + 2 * u)) in H2; [|lra]. rewrite Rinv_l in H2 by lra. nra.
  Qed.
  Lemma above1 (x : R) : 1 < x -> L x = K - ln x * (ln (1 - / x) + / 2 * ln x) + L (1 - / x).
  Proof.
    intros Hx. set (F := fun x => L x + ln x * (ln (1 - / x) + / 2 * ln x) - L (1 - / x)).
    assert (Hinv : forall z, 1 < z -> 0 < / z < 1).
    { intros z Hz. split; [apply Rinv_0_lt_compat; lra|]. rewrite <- Rinv_1. apply Rinv_lt_contravar; lra. }
    assert (HF : forall z, 1 < z -> is_derive F z 0).
    { intros z Hz. unfold F. assert (Hi := Hinv z Hz). assert (E1 := Ld_gt z Hz). assert (E2 := Ld_lt (1 - / z) ltac:(lra) ltac:(lra)).
      auto_derive.
      - repeat split; try lra; eexists; [exact E1|exact E2].
      - change (1 + - / z) with (1 - / z). change (fun x : R => L x) with L.
        rewrite (is_derive_unique _ _ _ E1), (is_derive_unique _ _ _ E2). replace (1 - (1 - / z)) with (/ z) by ring.
        replace (1 - / z) with ((z - 1) / z) by (field; lra). rewrite ln_Rinv by lra. unfold Rdiv at 4. 
        replace (ln ((z - 1) / z)) with (ln (z - 1) - ln z) by (unfold Rdiv; rewrite ln_mult, ln_Rinv by (try apply Rinv_0_lt_compat; lra); ring).
        match goal with |- ?x = ?y => change (@eq R x y) end. field. lra. }
    assert (HC : F x = K).
    { rewrite <- at_one. apply eq_by_eps. intros eps He.
      destruct (cont_eps L 1 (Lc 1) (eps / 4) ltac:(lra)) as (d1 & Hd1 & H1). destruct (cont_eps L 0 (Lc 0) (eps / 4) ltac:(lra)) as (d0 & Hd0 & H0). rewrite L0 in H0.
      destruct (small_choice (Rmin 1 (eps / 4)) d1 d0) as (u & U0 & U1 & U2 & U3 & U4 & U5); try assumption; [apply Rmin_glb_lt; lra|].
      assert (M1 := Rmin_l 1 (eps / 4)). assert (M2 := Rmin_r 1 (eps / 4)).
      assert (HZ : 1 < / (1 - u)) by (rewrite <- Rinv_1 at 1; apply Rinv_lt_contravar; lra).
      rewrite (const_on (fun z => 1 < z) F) with (y := / (1 - u)); try (lra || assumption); [|intros; lra].
      unfold F. rewrite Rinv_inv. replace (1 - (1 - u)) with u by ring.
      assert (A := above_aux u (conj U0 U1)). assert (A2 := ln_ln_small u (conj U0 U1)).
      assert (A3 := sqrt_small (Rmin 1 (eps / 4)) ltac:(apply Rmin_glb_lt; lra) u U0 U4).
      assert (A4 : Rabs (/ (1 - u) - 1) < d1).
      { replace (/ (1 - u) - 1) with (u / (1 - u)) by (field; lra). rewrite Rabs_pos_eq by (apply Rlt_le, Rdiv_lt_0_compat; lra).
        apply (Rmult_lt_reg_r (1 - u)); [lra|]. replace (u / (1 - u) * (1 - u)) with u by (field; lra). nra. }
      assert (A1 := H1 _ A4). assert (A0 := H0 u ltac:(rewrite Rabs_pos_eq; lra)).
      assert (A5 : Rabs (ln (/ (1 - u)) * ln u) <= 4 * sqrt u).
      { rewrite ln_Rinv by lra. replace (- ln (1 - u) * ln u) with (- (ln (1 - u) * ln u)) by ring. rewrite Rabs_Ropp. exact A2. }
      set (l := ln (/ (1 - u))) in *. set (w := ln u) in *.
      assert (0 <= / 2 * (l * l) <= eps / 8 * 4) by nra.
      replace (L (/ (1 - u)) + l * (w + / 2 * l) - L u - L 1) with ((L (/ (1 - u)) - L 1) + l * w + / 2 * (l * l) - (L u - 0)) by ring.
      assert (/ 2 * (l * l) < eps / 4) by nra.
      unfold Rabs in *. repeat destruct (Rcase_abs _); lra. }
    unfold F in HC. lra.
  Qed.
  Lemma invert (x : R) : 1 < x -> L x = 2 * K - / 2 * (ln x * ln x) - L (/ x).
  Proof.
    intros Hx. assert (Hi : 0 < / x < 1) by (split; [apply Rinv_0_lt_compat; lra|]; rewrite <- Rinv_1; apply Rinv_lt_contravar; lra).
    rewrite above1 by exact Hx. rewrite (reflect (/ x) Hi). rewrite ln_Rinv by lra. ring.
  Qed.
  Lemma below (x : R) : x < 0 -> L x = - K + ln (1 - x) * (/ 2 * ln (1 - x) - ln (- x)) + L (/ (1 - x)).
  Proof.
    intros Hx. rewrite (landen x Hx). assert (Hy : 0 < x / (x - 1) < 1).
    { split; apply (Rmult_lt_reg_r (1 - x)); try lra; replace (x / (x - 1) * (1 - x)) with (- x) by (field; lra); lra. }
    rewrite (reflect _ Hy). replace (1 - x / (x - 1)) with (/ (1 - x)) by (field; lra).
    replace (x / (x - 1)) with (- x * / (1 - x)) by (field; lra). rewrite ln_mult, ln_Rinv by (try apply Rinv_0_lt_compat; lra). field.
  Qed.
  Lemma at_minus_one : L (- 1) = - (/ 2 * K).
  Proof. rewrite landen by lra. unfold K. replace (-1 / (-1 - 1)) with (/ 2) by field. replace (1 - -1) with 2 by ring. field. Qed.
End Li2.
