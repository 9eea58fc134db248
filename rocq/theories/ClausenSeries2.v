(** * The Clausen function near 0 and near pi: truncated power series with error bounds (proof tool for C28) *)
From Coq Require Import Reals ZArith List Bool Lra Lia.
From Coquelicot Require Import Coquelicot.
From Verif Require Import DilogKernel DilogApprox ClausenSpec ClausenExists ClausenData ClausenSeries.
Import ListNotations.
Open Scope R_scope.

Ltac rg' := match goal with |- ?a = ?b => change (@eq R a b) end; unfold Rdiv; ring.
Definition lim0 (f : R -> R) : Prop := forall eps, 0 < eps -> exists d, 0 < d /\ forall x, 0 < x < d -> Rabs (f x) < eps.
Lemma int0 (f g : R -> R) X K : (forall x, 0 < x <= X -> is_derive f x (g x)) -> lim0 f -> (forall x, 0 < x <= X -> Rabs (g x) <= K) -> forall x, 0 < x <= X -> Rabs (f x) <= K * x.
Proof.
  intros HD HL HK x Hx. destruct (Rle_dec (Rabs (f x)) (K * x)) as [H|H]; [exact H|exfalso]. apply Rnot_le_lt in H.
  destruct (HL (Rabs (f x) - K * x) ltac:(lra)) as (d & Hd & B). set (a := Rmin (d / 2) (x / 2)).
  assert (A0 : 0 < a) by (apply Rmin_glb_lt; lra). assert (A1 : a <= d / 2) by apply Rmin_l. assert (A2 : a <= x / 2) by apply Rmin_r.
  specialize (B a ltac:(lra)). assert (K0 : 0 <= K) by (eapply Rle_trans; [apply Rabs_pos|apply (HK x Hx)]).
  destruct (MVT_gen f a x g) as (c & Hc & E).
  - intros z Hz. rewrite Rmin_left, Rmax_right in Hz by lra. apply HD. lra.
  - intros z Hz. rewrite Rmin_left, Rmax_right in Hz by lra. apply continuity_pt_filterlim. apply (ex_derive_continuous f). exists (g z). apply HD. lra.
  - rewrite Rmin_left, Rmax_right in Hc by lra. assert (G := HK c ltac:(lra)).
    assert (M : Rabs (f x - f a) <= K * x). { rewrite E, Rabs_mult, (Rabs_pos_eq (x - a)) by lra. apply Rmult_le_compat; try apply Rabs_pos; lra. }
    assert (T := Rabs_triang (f x - f a) (f a)). replace (f x - f a + f a) with (f x) in T by ring. lra.
Qed.
Lemma cont_lim0 (f : R -> R) : continuous f 0 -> f 0 = 0 -> lim0 f.
Proof.
  intros HC Z e He. destruct (HC (ball (f 0) (mkposreal e He)) (locally_ball (T := R_UniformSpace) (f 0) _)) as [d B]. exists d. split; [apply cond_pos|].
  intros x Hx. assert (Q : Rabs (f x - f 0) < e) by (apply B; change (Rabs (x - 0) < d); rewrite Rminus_0_r, Rabs_pos_eq; lra). rewrite Z, Rminus_0_r in Q. exact Q.
Qed.
Lemma pev_cont c x : continuous (fun x : R => (pev c (x * x) : R)) x.
Proof.
  induction c as [|a c IH]; cbn [pev]; [apply continuous_const|].
  apply (continuous_plus (V := R_NormedModule) (fun _ : R => (IZR a : R)) (fun x : R => (x * x * pev c (x * x) : R))); [apply continuous_const|].
  apply (continuous_mult (K := R_AbsRing) (fun x : R => (x * x : R)) (fun x : R => (pev c (x * x) : R))); [|exact IH].
  apply (continuous_mult (K := R_AbsRing) (fun x : R => (x : R)) (fun x : R => (x : R))); apply continuous_id.
Qed.
Lemma sin_low u : 0 < u -> u * u <= vb -> u / 2 <= sin u.
Proof.
  intros Hu Hv. unfold vb in Hv. destruct (pre_sin_bound u 0 ltac:(lra) ltac:(nra)) as [A _]. cbn [Nat.mul Nat.add] in A.
  replace (sin_approx u 1) with (u - u * (u * u) / 6) in A; [nra|]. unfold sin_approx, sum_f_R0, sin_term. simpl. field.
Qed.
Lemma cos_low u : 0 < u -> u * u <= vb -> / 2 <= cos u.
Proof.
  intros Hu Hv. unfold vb in Hv. destruct (pre_cos_bound u 0 ltac:(nra) ltac:(nra)) as [A _]. cbn [Nat.mul Nat.add] in A.
  replace (cos_approx u 1) with (1 - u * u / 2) in A; [lra|]. unfold cos_approx, sum_f_R0, cos_term. simpl. field.
Qed.

(** ** near 0 *)
Definition E1 : list Z := Eval vm_compute in d1 0 S1Z.
Definition E2 : list Z := Eval vm_compute in d2 0 E1.
Definition B1 : list Z := Eval vm_compute in padd [ (- wS1)%Z ] (pstr 4 1 E2).
Definition D1 : list Z := Eval vm_compute in padd (pscal wS1 CL) (pmul SL B1).
Lemma D1_hd : D1 = 0%Z :: tl D1. Proof. reflexivity. Qed.
Lemma D1_check : hb_check 6169 10000 (tl D1) (FZ * wS1) (10 ^ 19) = true. Proof. vm_compute. reflexivity. Qed.
Lemma B1_check : hb_check 6169 10000 B1 (2 * wS1) 1 = true. Proof. vm_compute. reflexivity. Qed.
Lemma wS1_pos : 0 < IZR wS1. Proof. apply IZR_lt. reflexivity. Qed.
Lemma wS2_pos : 0 < IZR wS2. Proof. apply IZR_lt. reflexivity. Qed.
Lemma vb_ab v : v <= vb -> v * IZR 10000 <= IZR 6169. Proof. unfold vb. lra. Qed.
Lemma scaled_abs x w k b : 0 < w -> 0 < k -> Rabs x * k <= b * w -> Rabs (x / w) <= b / k.
Proof.
  intros W K H. unfold Rdiv. rewrite Rabs_mult, (Rabs_pos_eq (/ w)) by (apply Rlt_le, Rinv_0_lt_compat; exact W).
  apply (Rmult_le_reg_r (w * k)); [nra|]. replace (Rabs x * / w * (w * k)) with (Rabs x * k) by (field; lra). replace (b * / k * (w * k)) with (b * w) by (field; lra). exact H.
Qed.
Lemma core1 u : 0 < u -> u * u <= vb -> Rabs (u * cos u + sin u * (-1 + pev E2 (4 * (u * u)) / IZR wS1)) <= u * (u * u) * (2 / 10 ^ 19).
Proof.
  intros Hu Hv. destruct (sin_bd u Hu Hv) as (e1 & -> & A1 & A2). destruct (cos_bd u Hu Hv) as (e2 & -> & C1 & C2).
  assert (FP := FZ_pos). assert (WP := wS1_pos). set (v := u * u) in *. assert (V0 : 0 < v) by (unfold v; nra).
  set (b := -1 + pev E2 (4 * v) / IZR wS1).
  assert (EB : pev B1 v = IZR wS1 * b).
  { change B1 with (padd [ (- wS1)%Z ] (pstr 4 1 E2)). rewrite padd_ok, pstr_ok. cbn [pev]. rewrite opp_IZR. unfold b. field. lra. }
  assert (HB : Rabs b <= 2). { assert (K := hb_check_ok _ _ _ _ _ v B1_check ltac:(lia) ltac:(lia) ltac:(lia) ltac:(lra) (vb_ab v Hv)). rewrite EB, Rabs_mult, (Rabs_pos_eq (IZR wS1)), mult_IZR in K by lra. nra. }
  assert (ED : pev D1 v = IZR FZ * IZR wS1 * (pev CL v / IZR FZ + pev SL v / IZR FZ * b)).
  { change D1 with (padd (pscal wS1 CL) (pmul SL B1)). rewrite padd_ok, pscal_ok, pmul_ok, EB. field. lra. }
  assert (HD : Rabs (pev CL v / IZR FZ + pev SL v / IZR FZ * b) <= v * (1 / 10 ^ 19)).
  { assert (K := hb_check_ok _ _ _ _ _ v D1_check ltac:(lia) ltac:(lia) ltac:(lia) ltac:(lra) (vb_ab v Hv)).
    rewrite D1_hd in ED. cbn [pev] in ED. rewrite Rplus_0_l in ED. replace (pev CL v / IZR FZ + pev SL v / IZR FZ * b) with (v * (pev (tl D1) v / (IZR FZ * IZR wS1))).
    2: { replace (v * (pev (tl D1) v / (IZR FZ * IZR wS1))) with (v * pev (tl D1) v / (IZR FZ * IZR wS1)) by (field; lra). rewrite ED. field. lra. }
    rewrite Rabs_mult, (Rabs_pos_eq v) by lra. apply Rmult_le_compat_l; [lra|]. apply scaled_abs; [nra|simpl; lra|]. rewrite mult_IZR in K. replace (IZR (10 ^ 19)) with (10 ^ 19) in K by (simpl; lra). rewrite Rmult_1_l. exact K. }
  replace (u * (pev CL v / IZR FZ - e2) + u * (pev SL v / IZR FZ - e1) * b) with (u * ((pev CL v / IZR FZ + pev SL v / IZR FZ * b) + - e2 + - (e1 * b))) by ring.
  rewrite Rabs_mult, (Rabs_pos_eq u), Rmult_assoc by lra. apply Rmult_le_compat_l; [lra|].
  eapply Rle_trans; [apply Rabs_triang|]. rewrite Rabs_Ropp, Rabs_mult, (Rabs_pos_eq e1) by exact A1.
  eapply Rle_trans; [apply Rplus_le_compat_r, Rabs_triang|]. rewrite Rabs_Ropp, (Rabs_pos_eq e2) by exact C1.
  assert (M : e1 * Rabs b <= v * (1 / 10 ^ 20) * 2) by (apply Rmult_le_compat; try assumption; apply Rabs_pos).
  set (q := Rabs (pev CL v / IZR FZ + pev SL v / IZR FZ * b)) in *. clearbody q. simpl in *. lra.
Qed.
Lemma series1 x : 0 < x -> x / 2 * (x / 2) <= vb -> Rabs (IS x + x * (pev S1Z (x * x) / IZR wS1)) <= x * (4 / 10 ^ 19).
Proof.
  intros Hx Hv. assert (WP := wS1_pos). assert (X16 : x <= 16 / 10) by (unfold vb in Hv; nra). assert (P3 := PI2_3_2). assert (PI3 : 3 < PI) by (unfold PI2 in P3; lra). clear P3.
  set (h := fun t : R => (sinc t + pev E1 (t * t) / IZR wS1 : R)).
  assert (Sub : forall t, 0 < t <= x -> t / 2 * (t / 2) <= vb) by (intros t Ht; nra).
  assert (H0 : forall t, 0 < t <= x -> is_derive (fun t : R => (IS t + t * (pev S1Z (t * t) / IZR wS1) : R)) t (h t)).
  { intros t Ht. unfold h. apply (is_derive_plus (V := R_NormedModule) IS (fun t : R => (t * (pev S1Z (t * t) / IZR wS1) : R))); [apply IS_d; lra|].
    apply (is_derive_ext (fun t : R => (/ IZR wS1 * (t * pev S1Z (t * t)) : R))); [intros s; rg'|].
    replace (pev E1 (t * t) / IZR wS1) with (/ IZR wS1 * pev E1 (t * t)) by (unfold Rdiv; ring). apply is_derive_scal. apply (d1_0 S1Z t). }
  assert (H1 : forall t, 0 < t <= x -> is_derive h t (cos (t / 2) / (2 * sin (t / 2)) - / t + pev E2 (t * t) / t / IZR wS1)).
  { intros t Ht. assert (SP := sinh_pos t ltac:(lra)). unfold h. apply (is_derive_plus (V := R_NormedModule) sinc (fun t : R => (pev E1 (t * t) / IZR wS1 : R))).
    - apply (is_derive_ext_loc (fun s : R => (ln (2 * sin (s / 2) / s) : R))).
      + exists (mkposreal t (proj1 Ht)). intros y Hy. change (Rabs (y - t) < t) in Hy. apply Rabs_lt_between' in Hy. unfold sinc. destruct (Req_EM_T y 0); [lra|reflexivity].
      + assert (Q : 0 < 2 * sin (t / 2) / t) by (apply sinc_pos; lra). auto_derive; [repeat split; first [lra|exact Q]|]. match goal with |- ?a = ?b => change (@eq R a b) end. unfold Rdiv in *. field. split; lra.
    - apply (is_derive_ext (fun t : R => (/ IZR wS1 * pev E1 (t * t) : R))); [intros s; rg'|].
      replace (pev E2 (t * t) / t / IZR wS1) with (/ IZR wS1 * (pev E2 (t * t) / t)) by (unfold Rdiv; ring). apply is_derive_scal. apply (d2_0 E1 t). lra. }
  assert (K2 : forall t, 0 < t <= x -> Rabs (cos (t / 2) / (2 * sin (t / 2)) - / t + pev E2 (t * t) / t / IZR wS1) <= 2 / 10 ^ 19).
  { intros t Ht. set (u := t / 2). assert (U0 : 0 < u) by (unfold u; lra). assert (UV : u * u <= vb) by (apply Sub; exact Ht). assert (SL2 := sin_low u U0 UV). assert (CR := core1 u U0 UV).
    replace t with (2 * u) by (unfold u; field). replace (2 * u * (2 * u)) with (4 * (u * u)) by ring.
    replace (cos u / (2 * sin u) - / (2 * u) + pev E2 (4 * (u * u)) / (2 * u) / IZR wS1) with ((u * cos u + sin u * (-1 + pev E2 (4 * (u * u)) / IZR wS1)) / (2 * u * sin u)) by (field; repeat split; lra).
    unfold Rdiv at 1. rewrite Rabs_mult. assert (DP : 0 < 2 * u * sin u) by nra. rewrite (Rabs_pos_eq (/ _)) by (apply Rlt_le, Rinv_0_lt_compat; exact DP).
    apply (Rmult_le_reg_r (2 * u * sin u)); [exact DP|]. rewrite Rmult_assoc, Rinv_l, Rmult_1_r by lra. eapply Rle_trans; [exact CR|].
    assert (U1 : u <= 1) by (unfold vb in UV; nra). replace (u * (u * u) * (2 / 10 ^ 19)) with (2 / 10 ^ 19 * (u * (u * u))) by ring. apply Rmult_le_compat_l; [simpl; lra|]. nra. }
  assert (L1 : lim0 h).
  { apply cont_lim0.
    - apply (continuous_plus (V := R_NormedModule) sinc (fun t : R => (pev E1 (t * t) / IZR wS1 : R))); [apply sinc_cont; lra|].
      apply (continuous_mult (K := R_AbsRing) (fun t : R => (pev E1 (t * t) : R)) (fun _ : R => (/ IZR wS1 : R))); [apply pev_cont|apply continuous_const].
    - unfold h, sinc. destruct (Req_EM_T 0 0); [|lra]. change E1 with (0%Z :: tl E1). cbn [pev]. unfold Rdiv. ring. }
  assert (L0 : lim0 (fun t : R => (IS t + t * (pev S1Z (t * t) / IZR wS1) : R))).
  { apply cont_lim0; [|rewrite IS_0; ring].
    apply (continuous_plus (V := R_NormedModule) IS (fun t : R => (t * (pev S1Z (t * t) / IZR wS1) : R))); [apply (ex_derive_continuous IS); exists (sinc 0); apply IS_d; lra|].
    apply (continuous_mult (K := R_AbsRing) (fun t : R => (t : R)) (fun t : R => (pev S1Z (t * t) / IZR wS1 : R))); [apply continuous_id|].
    apply (continuous_mult (K := R_AbsRing) (fun t : R => (pev S1Z (t * t) : R)) (fun _ : R => (/ IZR wS1 : R))); [apply pev_cont|apply continuous_const]. }
  assert (I1 := int0 h _ x _ H1 L1 K2).
  assert (I0 := int0 _ h x (4 / 10 ^ 19) H0 L0). rewrite (Rmult_comm x (4 / 10 ^ 19)). apply I0; [|lra].
  intros t Ht. eapply Rle_trans; [apply I1; exact Ht|]. simpl. lra.
Qed.

(** ** near pi *)
Definition F1 : list Z := Eval vm_compute in d1 0 S2Z.
Definition F2 : list Z := Eval vm_compute in d2 0 F1.
Definition T2 : list Z := Eval vm_compute in pstr 4 1 F2.
Definition D2 : list Z := Eval vm_compute in padd (pscal wS2 (0%Z :: SL)) (pscal (-1) (pmul T2 CL)).
Lemma D2_hd : D2 = 0%Z :: tl D2. Proof. reflexivity. Qed.
Lemma D2_check : hb_check 6169 10000 (tl D2) (FZ * wS2) (10 ^ 19) = true. Proof. vm_compute. reflexivity. Qed.
Lemma T2_check : hb_check 6169 10000 T2 (2 * wS2) 1 = true. Proof. vm_compute. reflexivity. Qed.
Lemma core2 u : 0 < u -> u * u <= vb -> Rabs (u * sin u - pev F2 (4 * (u * u)) / IZR wS2 * cos u) <= u * u * (2 / 10 ^ 19).
Proof.
  intros Hu Hv. destruct (sin_bd u Hu Hv) as (e1 & -> & A1 & A2). destruct (cos_bd u Hu Hv) as (e2 & -> & C1 & C2).
  assert (FP := FZ_pos). assert (WP := wS2_pos). set (v := u * u) in *. assert (V0 : 0 < v) by (unfold v; nra).
  set (b := pev F2 (4 * v) / IZR wS2).
  assert (EB : pev T2 v = IZR wS2 * b).
  { change T2 with (pstr 4 1 F2). rewrite pstr_ok. unfold b. field. lra. }
  assert (HB : Rabs b <= 2). { assert (K := hb_check_ok _ _ _ _ _ v T2_check ltac:(lia) ltac:(lia) ltac:(lia) ltac:(lra) (vb_ab v Hv)). rewrite EB, Rabs_mult, (Rabs_pos_eq (IZR wS2)), mult_IZR in K by lra. nra. }
  assert (ED : pev D2 v = IZR FZ * IZR wS2 * (v * (pev SL v / IZR FZ) - b * (pev CL v / IZR FZ))).
  { change D2 with (padd (pscal wS2 (0%Z :: SL)) (pscal (-1) (pmul T2 CL))). rewrite padd_ok, !pscal_ok, pmul_ok, EB. cbn [pev]. field. lra. }
  assert (HD : Rabs (v * (pev SL v / IZR FZ) - b * (pev CL v / IZR FZ)) <= v * (1 / 10 ^ 19)).
  { assert (K := hb_check_ok _ _ _ _ _ v D2_check ltac:(lia) ltac:(lia) ltac:(lia) ltac:(lra) (vb_ab v Hv)).
    rewrite D2_hd in ED. cbn [pev] in ED. rewrite Rplus_0_l in ED. replace (v * (pev SL v / IZR FZ) - b * (pev CL v / IZR FZ)) with (v * (pev (tl D2) v / (IZR FZ * IZR wS2))).
    2: { replace (v * (pev (tl D2) v / (IZR FZ * IZR wS2))) with (v * pev (tl D2) v / (IZR FZ * IZR wS2)) by (field; lra). rewrite ED. field. lra. }
    rewrite Rabs_mult, (Rabs_pos_eq v) by lra. apply Rmult_le_compat_l; [lra|]. apply scaled_abs; [nra|simpl; lra|]. rewrite mult_IZR in K. replace (IZR (10 ^ 19)) with (10 ^ 19) in K by (simpl; lra). rewrite Rmult_1_l. exact K. }
  replace (u * (u * (pev SL v / IZR FZ - e1)) - b * (pev CL v / IZR FZ - e2)) with ((v * (pev SL v / IZR FZ) - b * (pev CL v / IZR FZ)) + - (v * e1) + b * e2) by (unfold v; ring).
  eapply Rle_trans; [apply Rabs_triang|]. rewrite (Rabs_mult b), (Rabs_pos_eq e2) by exact C1.
  eapply Rle_trans; [apply Rplus_le_compat_r, Rabs_triang|]. rewrite Rabs_Ropp, (Rabs_pos_eq (v * e1)) by nra.
  assert (M : Rabs b * e2 <= 2 * (v * (1 / 10 ^ 20))) by (apply Rmult_le_compat; try assumption; apply Rabs_pos).
  assert (M' : v * e1 <= v * (1 / 10 ^ 20)). { apply Rmult_le_compat_l; [lra|]. eapply Rle_trans; [exact A2|]. assert (v <= 1) by (unfold vb in Hv; lra). simpl. lra. }
  set (q := Rabs (v * (pev SL v / IZR FZ) - b * (pev CL v / IZR FZ))) in *. clearbody q. simpl in *. lra.
Qed.
Lemma series2 y : 0 < y -> y / 2 * (y / 2) <= vb -> Rabs (y * (ln 2 - pev S2Z (y * y) / IZR wS2) - J (PI - y)) <= y * (4 / 10 ^ 19).
Proof.
  intros Hx Hv. assert (WP := wS2_pos). assert (X16 : y <= 16 / 10) by (unfold vb in Hv; nra). assert (P3 := PI2_3_2). assert (PI3 : 3 < PI) by (unfold PI2 in P3; lra). clear P3.
  set (h := fun t : R => (- ln (cos (t / 2)) - pev F1 (t * t) / IZR wS2 : R)).
  assert (Sub : forall t, 0 < t <= y -> t / 2 * (t / 2) <= vb) by (intros t Ht; nra).
  set (f := fun t : R => (t * (ln 2 - pev S2Z (t * t) / IZR wS2) - J (PI - t) : R)).
  assert (CP : forall t, 0 <= t <= y -> 0 < cos (t / 2)) by (intros t Ht; apply cos_gt_0; lra).
  assert (H0' : forall t, 0 <= t <= y -> is_derive f t (h t)).
  { intros t Ht. unfold f, h. specialize (CP t Ht).
    apply (is_derive_ext (fun t : R => (ln 2 * t - / IZR wS2 * (t * pev S2Z (t * t)) - J (PI - t) : R))); [intros s; rg'|].
    replace (- ln (cos (t / 2)) - pev F1 (t * t) / IZR wS2) with ((ln 2 * 1 - / IZR wS2 * pev F1 (t * t)) - (-1) * (- ln (2 * sin ((PI - t) / 2)))).
    2: { replace (sin ((PI - t) / 2)) with (cos (t / 2)) by (rewrite <- (sin_shift (t / 2)); f_equal; field). rewrite ln_mult by lra. unfold Rdiv. ring. }
    apply (is_derive_minus (V := R_NormedModule) (fun t : R => (ln 2 * t - / IZR wS2 * (t * pev S2Z (t * t)) : R)) (fun t : R => (J (PI - t) : R))).
    - apply (is_derive_minus (V := R_NormedModule) (fun t : R => (ln 2 * t : R)) (fun t : R => (/ IZR wS2 * (t * pev S2Z (t * t)) : R))).
      + apply is_derive_scal. apply @is_derive_id.
      + apply is_derive_scal. apply (d1_0 S2Z t).
    - apply (is_derive_comp (K := R_AbsRing) (V := R_NormedModule) J (fun s : R => (PI - s : R)) t (- ln (2 * sin ((PI - t) / 2))) (-1)); [apply J_d; lra|].
      auto_derive; [exact Logic.I|]. match goal with |- ?a = ?b => change (@eq R a b) end. ring. }
  assert (H0 : forall t, 0 < t <= y -> is_derive f t (h t)) by (intros t Ht; apply H0'; lra).
  assert (H1 : forall t, 0 < t <= y -> is_derive h t (sin (t / 2) / (2 * cos (t / 2)) - pev F2 (t * t) / t / IZR wS2)).
  { intros t Ht. assert (SP := CP t ltac:(lra)). unfold h. apply (is_derive_minus (V := R_NormedModule) (fun t : R => (- ln (cos (t / 2)) : R)) (fun t : R => (pev F1 (t * t) / IZR wS2 : R))).
    - auto_derive; [repeat split; unfold Rdiv in SP; exact SP|]. match goal with |- ?a = ?b => change (@eq R a b) end. unfold Rdiv in *. field. lra.
    - apply (is_derive_ext (fun t : R => (/ IZR wS2 * pev F1 (t * t) : R))); [intros s; rg'|].
      replace (pev F2 (t * t) / t / IZR wS2) with (/ IZR wS2 * (pev F2 (t * t) / t)) by (unfold Rdiv; ring). apply is_derive_scal. apply (d2_0 F1 t). lra. }
  assert (K2 : forall t, 0 < t <= y -> Rabs (sin (t / 2) / (2 * cos (t / 2)) - pev F2 (t * t) / t / IZR wS2) <= 2 / 10 ^ 19).
  { intros t Ht. set (u := t / 2). assert (U0 : 0 < u) by (unfold u; lra). assert (UV : u * u <= vb) by (apply Sub; exact Ht). assert (SL2 := cos_low u U0 UV). assert (CR := core2 u U0 UV).
    replace t with (2 * u) by (unfold u; field). replace (2 * u * (2 * u)) with (4 * (u * u)) by ring.
    replace (sin u / (2 * cos u) - pev F2 (4 * (u * u)) / (2 * u) / IZR wS2) with ((u * sin u - pev F2 (4 * (u * u)) / IZR wS2 * cos u) / (2 * u * cos u)) by (field; repeat split; lra).
    unfold Rdiv at 1. rewrite Rabs_mult. assert (DP : 0 < 2 * u * cos u) by nra. rewrite (Rabs_pos_eq (/ _)) by (apply Rlt_le, Rinv_0_lt_compat; exact DP).
    apply (Rmult_le_reg_r (2 * u * cos u)); [exact DP|]. rewrite Rmult_assoc, Rinv_l, Rmult_1_r by lra. eapply Rle_trans; [exact CR|].
    assert (U1 : u <= 1) by (unfold vb in UV; nra). replace (u * u * (2 / 10 ^ 19)) with (2 / 10 ^ 19 * (u * u)) by ring. apply Rmult_le_compat_l; [simpl; lra|]. nra. }
  assert (L1 : lim0 h).
  { apply cont_lim0.
    - apply (continuous_minus (V := R_NormedModule) (fun t : R => (- ln (cos (t / 2)) : R)) (fun t : R => (pev F1 (t * t) / IZR wS2 : R))).
      + apply (ex_derive_continuous (fun t : R => (- ln (cos (t / 2)) : R))). auto_derive. repeat split. rewrite Rmult_0_l, cos_0. lra.
      + apply (continuous_mult (K := R_AbsRing) (fun t : R => (pev F1 (t * t) : R)) (fun _ : R => (/ IZR wS2 : R))); [apply pev_cont|apply continuous_const].
    - unfold h. replace (0 / 2) with 0 by field. rewrite cos_0, ln_1. change F1 with (0%Z :: tl F1). cbn [pev]. unfold Rdiv. ring. }
  assert (L0 : lim0 f).
  { apply cont_lim0; [|unfold f; rewrite Rminus_0_r, J_pi; ring]. apply (ex_derive_continuous f). exists (h 0). apply H0'. lra. }
  assert (I1 := int0 h _ y _ H1 L1 K2).
  assert (I0 := int0 f h y (4 / 10 ^ 19) H0 L0). change (Rabs (f y) <= y * (4 / 10 ^ 19)). rewrite (Rmult_comm y (4 / 10 ^ 19)). apply I0; [|lra].
  intros t Ht. eapply Rle_trans; [apply I1; exact Ht|]. simpl. lra.
Qed.
