(** * Series of functions given by a linear differential equation of first order *)
From Coq Require Import Reals Lra Lia List ZArith Bool.
From Coquelicot Require Import Coquelicot.
From Verif Require Import AsymPoly DilogSpec.
Import ListNotations.
Open Scope R_scope.

Section Der.
  Context (l : list R).
  Notation sem := (sem l).
  Fixpoint sder (s : list P) : list P := match s with [] => [] | p :: t => sadd t (pc 0 :: sder t) end.
  Lemma sder_ok s e : is_derive (sem s : R -> R) e (sem (sder s) e : R).
  Proof.
    induction s as [|p s IH]; [apply (is_derive_const (K := R_AbsRing) (V := R_NormedModule) 0)|].
    cbn [AsymPoly.sem sder]. rewrite sadd_ok. cbn [AsymPoly.sem]. rewrite pc_ok.
    assert (H : is_derive (fun x : R => (PE l p + x * sem s x : R)) e (0 + (1 * sem s e + e * sem (sder s) e))).
    { apply (is_derive_plus (V := R_NormedModule) (fun _ => PE l p) (fun x => x * sem s x)); [apply (is_derive_const (V := R_NormedModule))|].
      apply (is_derive_mult (fun x : R => x) (sem s)); [apply (is_derive_id (K := R_AbsRing))|exact IH|]. intros a b. apply Rmult_comm. }
    match type of H with is_derive _ _ ?a => match goal with |- is_derive _ _ ?b => replace b with a; [exact H|] end end. simpl. ring.
  Qed.
  Lemma ode_ok n (f f' g h : R -> R) (A : list P) (K d0 g0 : R) : 0 < d0 -> 0 < g0 ->
    (forall e, e <> 0 -> Rabs e < d0 -> is_derive f e (f' e)) -> (forall e, Rabs e < d0 -> continuous f e) ->
    (forall e, e <> 0 -> Rabs e < d0 -> f' e * g e = h e /\ g0 <= Rabs (g e)) ->
    bigO n (fun e => K * h e - sem (sder A) e * g e) -> f 0 * K = sem A 0 -> bigO (S n) (fun e => f e * K - sem A e).
  Proof.
    intros H0 Hg HD HC HE (C & d & PC & Pd & HB) H00. exists (C / g0), (Rmin d0 d). split; [apply Rmult_le_pos; [exact PC|apply Rlt_le, Rinv_0_lt_compat; exact Hg]|].
    split; [apply Rmin_glb_lt; assumption|]. intros e He1 He2.
    assert (D1 : Rabs e < d0) by (eapply Rlt_le_trans; [exact He2|apply Rmin_l]). assert (D2 : Rabs e < d) by (eapply Rlt_le_trans; [exact He2|apply Rmin_r]).
    assert (BT : forall x, Rmin 0 e <= x <= Rmax 0 e -> Rabs x <= Rabs e).
    { intros x. unfold Rmin, Rmax, Rabs. destruct (Rle_dec 0 e); destruct (Rcase_abs x), (Rcase_abs e); lra. }
    set (F := fun x => f x * K - sem A x). set (dF := fun x => if Req_EM_T x 0 then 0 else f' x * K - sem (sder A) x).
    destruct (MVT_gen F 0 e dF) as (c & Hc & E).
    - intros x Hx. assert (Bx : Rabs x <= Rabs e) by (apply BT; lra). assert (Nx : x <> 0) by (intros ->; unfold Rmin, Rmax in Hx; destruct (Rle_dec 0 e); lra).
      unfold dF. destruct (Req_EM_T x 0) as [|_]; [contradiction|]. unfold F. apply (is_derive_minus (V := R_NormedModule)); [|apply sder_ok].
      apply (is_derive_ext (fun y : R => (K * f y : R))); [intros y; apply Rmult_comm|]. rewrite (Rmult_comm (f' x) K). apply (is_derive_scal f x K (f' x)). apply HD; [exact Nx|lra].
    - intros x Hx. assert (Bx : Rabs x <= Rabs e) by (apply BT; lra). apply continuity_pt_filterlim. unfold F.
      apply (continuous_minus (V := R_NormedModule) (fun x : R => (f x * K : R)) (sem A)); [|apply (ex_derive_continuous (K := R_AbsRing) (V := R_NormedModule)); exists (sem (sder A) x); apply sder_ok].
      apply (continuous_mult (K := R_AbsRing) f (fun _ => K)); [apply HC; lra|apply continuous_const].
    - assert (F0 : F 0 = 0) by (unfold F; lra). rewrite F0, !Rminus_0_r in E. change (f e * K - sem A e) with (F e). rewrite E.
      rewrite Rabs_mult. simpl. replace (C / g0 * (Rabs e * Rabs e ^ n)) with ((C / g0 * Rabs e ^ n) * Rabs e) by ring. apply Rmult_le_compat_r; [apply Rabs_pos|].
      assert (Bc : Rabs c <= Rabs e) by (apply BT; exact Hc).
      unfold dF. destruct (Req_EM_T c 0) as [|Nc]; [rewrite Rabs_R0; apply Rmult_le_pos; [apply Rmult_le_pos; [exact PC|apply Rlt_le, Rinv_0_lt_compat; exact Hg]|apply pow_le, Rabs_pos]|].
      destruct (HE c Nc) as [E1 E2]; [lra|]. specialize (HB c Nc ltac:(lra)).
      apply (Rmult_le_reg_r g0); [exact Hg|]. apply Rle_trans with (Rabs (f' c * K - sem (sder A) c) * Rabs (g c)); [apply Rmult_le_compat_l; [apply Rabs_pos|exact E2]|].
      rewrite <- Rabs_mult. replace ((f' c * K - sem (sder A) c) * g c) with (K * (f' c * g c) - sem (sder A) c * g c) by ring. rewrite E1.
      eapply Rle_trans; [exact HB|]. replace (C / g0 * Rabs e ^ n * g0) with (C * Rabs e ^ n) by (field; lra). apply Rmult_le_compat_l; [exact PC|]. apply pow_incr. split; [apply Rabs_pos|exact Bc].
  Qed.
End Der.

(** Landen's identity *)
Lemma Li2_landen (L : R -> R) : is_ReLi2 L -> forall w, 0 < w -> L (1 - 1 / w) = - / 2 * ln w ^ 2 - L (1 - w).
Proof.
  intros (L0 & LC & LD) w Hw.
  set (F := fun w => L (1 - 1 / w) + / 2 * ln w ^ 2 + L (1 - w)).
  assert (D : forall x, 0 < x -> x <> 1 -> is_derive F x 0).
  { intros x Hx N. assert (P1 : 0 < / x) by (apply Rinv_0_lt_compat; exact Hx). assert (N1 : 1 - 1 / x <> 0) by (intros E; apply N; apply (f_equal (fun t => t * x)) in E; field_simplify in E; lra).
    assert (N2 : 1 - 1 / x <> 1) by (unfold Rdiv; lra). assert (N3 : 1 - x <> 0) by lra. assert (N4 : 1 - x <> 1) by lra.
    pose proof (LD _ N1 N2) as D1. pose proof (LD _ N3 N4) as D2.
    replace (1 - (1 - 1 / x)) with (/ x) in D1 by (field; lra). replace (1 - (1 - x)) with x in D2 by ring. rewrite Rabs_pos_eq in D1, D2 by lra. rewrite ln_Rinv in D1 by exact Hx.
    assert (E1 : is_derive (fun x : R => (1 - 1 / x : R)) x (1 / x ^ 2)) by (auto_derive; [lra|field; lra]).
    assert (E2 : is_derive (fun x : R => (1 - x : R)) x (-1)) by (auto_derive; [exact I|ring]).
    assert (E3 : is_derive (fun x : R => (/ 2 * ln x ^ 2 : R)) x (ln x / x)) by (auto_derive; [lra|field; lra]).
    pose proof (is_derive_comp L (fun x : R => (1 - 1 / x : R)) x _ _ D1 E1) as G1. pose proof (is_derive_comp L (fun x : R => (1 - x : R)) x _ _ D2 E2) as G2.
    pose proof (is_derive_plus (V := R_NormedModule) _ _ x _ _ (is_derive_plus (V := R_NormedModule) _ _ x _ _ G1 E3) G2) as G.
    unfold F. match type of G with is_derive _ _ ?a => replace 0 with a; [exact G|] end. unfold plus, scal. simpl. unfold mult. simpl. field. split; [lra|]. split; [lra|]. lra. }
  assert (C : forall x, 0 < x -> continuous F x).
  { intros x Hx. unfold F. apply (continuous_plus (V := R_NormedModule)); [apply (continuous_plus (V := R_NormedModule))|].
    - apply (continuous_comp (fun x : R => (1 - 1 / x : R)) L); [|apply LC]. apply (ex_derive_continuous (V := R_NormedModule)). auto_derive. lra.
    - apply (ex_derive_continuous (V := R_NormedModule)). auto_derive. lra.
    - apply (continuous_comp (fun x : R => (1 - x : R)) L); [|apply LC]. apply (ex_derive_continuous (V := R_NormedModule)). auto_derive. exact I. }
  assert (B : forall x, Rmin 1 w <= x <= Rmax 1 w -> 0 < x) by (intros x; unfold Rmin, Rmax; destruct (Rle_dec 1 w); lra).
  destruct (MVT_gen F 1 w (fun _ => 0)) as (c & _ & E).
  - intros x Hx. apply D; [apply B; lra|]. intros ->. unfold Rmin, Rmax in Hx. destruct (Rle_dec 1 w); lra.
  - intros x Hx. apply continuity_pt_filterlim. apply C. apply B. exact Hx.
  - unfold F in E. replace (1 - 1 / 1) with 0 in E by field. replace (1 - 1) with 0 in E by ring. rewrite L0, ln_1 in E. lra.
Qed.
