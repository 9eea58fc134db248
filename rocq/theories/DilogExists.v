(** * The real dilogarithm exists and is unique *)
From Coq Require Import Reals Lra Lia.
From Coquelicot Require Import Coquelicot.
From Verif Require Import DilogSpec DilogProofs.
Open Scope R_scope.

Lemma unique_01 L1 L2 y : is_ReLi2 L1 -> is_ReLi2 L2 -> 0 <= y <= 1 -> L1 y = L2 y.
Proof.
  intros (Z1 & C1 & D1) (Z2 & C2 & D2) Hy.
  destruct (MVT_gen (fun x : R => (L1 x - L2 x : R)) 0 y (fun _ => 0)) as (c & _ & HE).
  - intros x Hx. rewrite Rmin_left, Rmax_right in Hx by lra. replace 0 with (- ln (Rabs (1 - x)) / x - - ln (Rabs (1 - x)) / x) by ring.
    apply (is_derive_minus (V := R_NormedModule)); [apply D1|apply D2]; lra.
  - intros x Hx. apply continuity_pt_filterlim. apply (continuous_minus (V := R_NormedModule)); [apply C1|apply C2].
  - rewrite Z1, Z2 in HE. lra.
Qed.

Theorem ReLi2_unique (L1 L2 : R -> R) : is_ReLi2 L1 -> is_ReLi2 L2 -> forall x, L1 x = L2 x.
Proof.
  intros H1 H2 x.
  assert (HK : K L1 = K L2) by (unfold K; rewrite (unique_01 L1 L2 (/ 2) H1 H2) by lra; reflexivity).
  destruct (Rlt_dec x 0) as [N|N].
  - rewrite (landen L1 H1 x N), (landen L2 H2 x N).
    assert (0 <= x / (x - 1) <= 1).
    { replace (x / (x - 1)) with (- x / (1 - x)) by (field; lra). split; [apply Rmult_le_pos; [lra|apply Rlt_le, Rinv_0_lt_compat; lra]|].
      apply (Rmult_le_reg_r (1 - x)); [lra|]. replace (- x / (1 - x) * (1 - x)) with (- x) by (field; lra). lra. }
    rewrite (unique_01 L1 L2 _ H1 H2 H). reflexivity.
  - destruct (Rle_dec x 1) as [A|A]; [apply (unique_01 L1 L2 x H1 H2); lra|].
    rewrite (invert L1 H1 x), (invert L2 H2 x), HK by lra. rewrite (unique_01 L1 L2 (/ x) H1 H2); [reflexivity|].
    split; [apply Rlt_le, Rinv_0_lt_compat; lra|]. rewrite <- Rinv_1. apply Rinv_le_contravar; lra.
Qed.

Definition gD (t : R) : R := if Req_EM_T t 0 then 1 else - ln (1 - t) / t.
Lemma gD_cont t : t < 1 -> continuous gD t.
Proof.
  intros Ht. destruct (Req_EM_T t 0) as [->|N].
  - assert (HD : is_derive (fun s : R => (- ln (1 - s) : R)) 0 1).
    { auto_derive; [lra|]. match goal with |- ?a = ?b => change (@eq R a b) end. field. }
    apply is_derive_Reals in HD. intros P [e He]. destruct (HD e (cond_pos e)) as [d Hd].
    exists d. intros y Hy. apply He. change (Rabs (y - 0) < d) in Hy. change (Rabs (gD y - gD 0) < e). unfold gD at 2. destruct (Req_EM_T 0 0); [|lra].
    unfold gD. destruct (Req_EM_T y 0) as [E|E]; [replace (1 - 1) with 0 by ring; rewrite Rabs_R0; apply cond_pos|].
    specialize (Hd y E). rewrite Rminus_0_r in Hy. specialize (Hd Hy). rewrite Rplus_0_l, Rminus_0_r, ln_1 in Hd.
    replace (- ln (1 - y) / y - 1) with ((- ln (1 - y) - - 0) / y - 1) by (field; exact E). exact Hd.
  - apply (continuous_ext_loc (T := R_UniformSpace) (U := R_UniformSpace) gD (fun s : R => (- ln (1 - s) / s : R))).
    + exists (mkposreal (Rabs t) (Rabs_pos_lt t N)). intros y Hy. change (Rabs (y - t) < Rabs t) in Hy. unfold gD. destruct (Req_EM_T y 0) as [E|E]; [|reflexivity].
      exfalso. rewrite E, Rminus_0_l, Rabs_Ropp in Hy. lra.
    + apply (ex_derive_continuous (fun s : R => (- ln (1 - s) / s : R))). auto_derive. repeat split; [lra|exact N].
Qed.
Definition IL (x : R) : R := RInt gD 0 x.
Lemma IL_d x : x < 1 -> is_derive IL x (gD x).
Proof.
  intros Hx. unfold IL. apply (is_derive_RInt gD (fun x => RInt gD 0 x) 0 x).
  - exists (mkposreal (1 - x) ltac:(lra)). intros y Hy. change (Rabs (y - x) < 1 - x) in Hy. apply Rabs_lt_between' in Hy.
    apply (RInt_correct (V := R_CompleteNormedModule)). apply (ex_RInt_continuous (V := R_CompleteNormedModule) gD). intros z Hz. apply gD_cont. assert (z <= Rmax 0 y) by lra. unfold Rmax in H. destruct (Rle_dec 0 y); lra.
  - apply gD_cont. exact Hx.
Qed.
Lemma IL_0 : IL 0 = 0.
Proof. unfold IL. apply (RInt_point (V := R_CompleteNormedModule)). Qed.
Lemma IL_d' x : x < 1 -> x <> 0 -> is_derive IL x (- ln (1 - x) / x).
Proof. intros H N. replace (- ln (1 - x) / x) with (gD x); [apply IL_d, H|]. unfold gD. destruct (Req_EM_T x 0); [contradiction|reflexivity]. Qed.
Definition K0 : R := 2 * IL (/ 2) + ln 2 * ln 2.
Lemma IL_reflect x : 0 < x < 1 -> IL x = K0 - ln x * ln (1 - x) - IL (1 - x).
Proof.
  intros Hx.
  assert (HC := const_on (fun x => 0 < x < 1) (fun x => IL x + IL (1 - x) + ln x * ln (1 - x))).
  assert (H : IL x + IL (1 - x) + ln x * ln (1 - x) = IL (/ 2) + IL (1 - / 2) + ln (/ 2) * ln (1 - / 2)).
  { apply HC; [intros; lra| |exact Hx|lra]. intros z Hz.
    replace 0 with (- ln (1 - z) / z + - 1 * (- ln (1 - (1 - z)) / (1 - z)) + (/ z * ln (1 - z) + ln z * (- / (1 - z)))).
    2: { replace (1 - (1 - z)) with z by ring. field. lra. }
    apply (is_derive_plus (V := R_NormedModule)).
    - apply (is_derive_plus (V := R_NormedModule)); [apply IL_d'; lra|].
      apply (is_derive_comp IL (fun z : R => (1 - z : R))); [apply IL_d'; lra|]. auto_derive; [trivial|]. match goal with |- ?a = ?b => change (@eq R a b) end. ring.
    - auto_derive; [lra|]. match goal with |- ?a = ?b => change (@eq R a b) end. change (1 + - z) with (1 - z). field. lra. }
  replace (1 - / 2) with (/ 2) in H by lra. rewrite ln_Rinv in H by lra. unfold K0. lra.
Qed.
Definition Lx (x : R) : R := if Rlt_dec x 1 then IL x else if Rle_dec x 1 then K0 else 2 * K0 - / 2 * (ln x * ln x) - IL (/ x).
Lemma Lx_lt x : x < 1 -> Lx x = IL x. Proof. intros H. unfold Lx. destruct (Rlt_dec x 1); [reflexivity|lra]. Qed.
Lemma Lx_gt x : 1 < x -> Lx x = 2 * K0 - / 2 * (ln x * ln x) - IL (/ x). Proof. intros H. unfold Lx. destruct (Rlt_dec x 1); [lra|]. destruct (Rle_dec x 1); [lra|reflexivity]. Qed.
Lemma Lx_1 : Lx 1 = K0. Proof. unfold Lx. destruct (Rlt_dec 1 1); [lra|]. destruct (Rle_dec 1 1); [reflexivity|lra]. Qed.
Lemma Lx_d x : x <> 0 -> x <> 1 -> is_derive Lx x (- ln (Rabs (1 - x)) / x).
Proof.
  intros H0 H1. destruct (Rlt_dec x 1) as [A|A].
  - apply (is_derive_ext_loc IL).
    + exists (mkposreal (1 - x) ltac:(lra)). intros y Hy. change (Rabs (y - x) < 1 - x) in Hy. apply Rabs_lt_between' in Hy. symmetry. apply Lx_lt. lra.
    + rewrite Rabs_pos_eq by lra. apply IL_d'; assumption.
  - assert (1 < x) by lra. apply (is_derive_ext_loc (fun x : R => (2 * K0 - / 2 * (ln x * ln x) - IL (/ x) : R))).
    + exists (mkposreal (x - 1) ltac:(lra)). intros y Hy. change (Rabs (y - x) < x - 1) in Hy. apply Rabs_lt_between' in Hy. symmetry. apply Lx_gt. lra.
    + assert (HI : 0 < / x) by (apply Rinv_0_lt_compat; lra). assert (HI2 : / x < 1) by (rewrite <- Rinv_1; apply Rinv_lt_contravar; lra).
      rewrite Rabs_left1 by lra.
      replace (- ln (- (1 - x)) / x) with (- (ln x / x) - (- / (x * x)) * (- ln (1 - / x) / / x)).
      2: { replace (1 - / x) with ((x - 1) * / x) by (field; lra). rewrite ln_mult, ln_Rinv by lra. replace (- (1 - x)) with (x - 1) by ring. field. lra. }
      apply (is_derive_minus (V := R_NormedModule)).
      * auto_derive; [lra|]. match goal with |- ?a = ?b => change (@eq R a b) end. field. lra.
      * apply (is_derive_comp IL (fun z : R => (/ z : R))); [apply IL_d'; lra|]. auto_derive; [lra|]. match goal with |- ?a = ?b => change (@eq R a b) end. field. lra.
Qed.
Lemma IL_near_1 : forall eps, 0 < eps -> exists d, 0 < d /\ forall x, 1 - d < x < 1 -> Rabs (IL x - K0) < eps.
Proof.
  intros eps He.
  assert (C0 : continuous IL 0) by (apply (ex_derive_continuous IL); eexists; apply IL_d; lra).
  destruct (cont_eps IL 0 C0 (eps / 2) ltac:(lra)) as (d & Hd & HC).
  set (m := eps / 2 * (eps / 2) / 16). assert (Hm : 0 < m). { unfold m. assert (0 < eps / 2 * (eps / 2)) by (apply Rmult_lt_0_compat; lra). lra. }
  exists (Rmin (/ 2) (Rmin d m)). split; [repeat apply Rmin_pos; lra|]. intros x Hx.
  assert (B1 := Rmin_l (/ 2) (Rmin d m)). assert (B2 := Rmin_r (/ 2) (Rmin d m)). assert (B3 := Rmin_l d m). assert (B4 := Rmin_r d m).
  rewrite IL_reflect by lra.
  assert (S1 := ln_ln_small (1 - x) ltac:(lra)). replace (1 - (1 - x)) with x in S1 by ring.
  assert (S2 := sqrt_small (eps / 2) ltac:(lra) (1 - x) ltac:(lra) ltac:(fold m; lra)).
  assert (S3 := HC (1 - x)). rewrite Rminus_0_r, Rabs_pos_eq, IL_0, Rminus_0_r in S3 by lra. specialize (S3 ltac:(lra)).
  replace (K0 - ln x * ln (1 - x) - IL (1 - x) - K0) with (- (ln x * ln (1 - x)) + - IL (1 - x)) by ring.
  eapply Rle_lt_trans; [apply Rabs_triang|]. rewrite !Rabs_Ropp. lra.
Qed.
Theorem ReLi2_exists : exists L, is_ReLi2 L.
Proof.
  exists Lx. split; [rewrite Lx_lt by lra; apply IL_0|]. split; [|exact Lx_d]. intros x.
  destruct (Rlt_dec x 1) as [A|A].
  - apply (continuous_ext_loc (T := R_UniformSpace) (U := R_UniformSpace) Lx IL).
    + exists (mkposreal (1 - x) ltac:(lra)). intros y Hy. change (Rabs (y - x) < 1 - x) in Hy. apply Rabs_lt_between' in Hy. symmetry. apply Lx_lt. lra.
    + apply (ex_derive_continuous IL). eexists. apply IL_d. exact A.
  - destruct (Req_EM_T x 1) as [->|N].
    2: { apply (ex_derive_continuous Lx). eexists. apply Lx_d; lra. }
    intros P [e He]. destruct (IL_near_1 (e / 2) ltac:(destruct e; simpl; lra)) as (d & Hd & HI).
    assert (CL : continuous (fun x : R => (/ 2 * (ln x * ln x) : R)) 1) by (apply (ex_derive_continuous (fun x : R => (/ 2 * (ln x * ln x) : R))); auto_derive; lra).
    destruct (cont_eps _ 1 CL (e / 2) ltac:(destruct e; simpl; lra)) as (d2 & Hd2 & HL).
    exists (mkposreal (Rmin d d2) ltac:(apply Rmin_pos; assumption)). intros y Hy. apply He. change (Rabs (y - 1) < Rmin d d2) in Hy. change (Rabs (Lx y - Lx 1) < e).
    assert (B1 := Rmin_l d d2). assert (B2 := Rmin_r d d2). rewrite Lx_1. assert (He0 := cond_pos e).
    destruct (Rlt_dec y 1) as [Y|Y]; [rewrite Lx_lt by exact Y|].
    + assert (H := HI y). apply Rabs_lt_between in Hy. specialize (H ltac:(lra)). lra.
    + destruct (Req_EM_T y 1) as [->|Y1]; [rewrite Lx_1; replace (K0 - K0) with 0 by ring; rewrite Rabs_R0; exact He0|].
      rewrite Lx_gt by lra. assert (H2 := HL y ltac:(lra)). apply Rabs_lt_between in Hy. rewrite ln_1 in H2.
      assert (P1 : / y < 1) by (rewrite <- Rinv_1; apply Rinv_lt_contravar; lra).
      assert (P2 : 1 - d < / y). { apply (Rmult_lt_reg_r y); [lra|]. rewrite Rinv_l by lra. nra. }
      assert (H1 := HI (/ y) (conj P2 P1)).
      replace (2 * K0 - / 2 * (ln y * ln y) - IL (/ y) - K0) with (- (/ 2 * (ln y * ln y) - / 2 * (0 * 0)) + - (IL (/ y) - K0)) by ring.
      eapply Rle_lt_trans; [apply Rabs_triang|]. rewrite !Rabs_Ropp. lra.
Qed.
