(** * The Clausen function exists and is unique *)
From Coq Require Import Reals Lra Lia ZArith.
From Coquelicot Require Import Coquelicot.
From Verif Require Import ClausenSpec.
Open Scope R_scope.

Lemma sinh_pos x : 0 < x < 2 * PI -> 0 < sin (x / 2).
Proof. intros H. apply sin_gt_0; lra. Qed.

(** ** reduction modulo 2 pi *)
Definition kx (x : R) : Z := Int_part (x / (2 * PI)).
Definition rx (x : R) : R := x - 2 * PI * IZR (kx x).
Lemma tpi : 0 < 2 * PI. Proof. assert (H := PI_RGT_0). lra. Qed.
Lemma rx_range x : 0 <= rx x < 2 * PI.
Proof.
  unfold rx, kx. destruct (base_Int_part (x / (2 * PI))) as [A B]. assert (T := tpi). set (k := IZR (Int_part (x / (2 * PI)))) in *.
  assert (E : x = 2 * PI * (x / (2 * PI))) by (field; assert (H := PI_RGT_0); lra). set (y := x / (2 * PI)) in *. rewrite E. split; nra.
Qed.
Lemma rx_unique x r (k : Z) : 0 <= r < 2 * PI -> x = r + 2 * PI * IZR k -> rx x = r.
Proof.
  intros Hr E. assert (H := rx_range x). assert (T := tpi). unfold rx in *. assert (K : kx x = k); [|rewrite K; lra].
  assert (B : -1 < IZR k - IZR (kx x) < 1) by (set (a := IZR (kx x)) in *; clearbody a; subst x; split; nra). rewrite <- minus_IZR in B. destruct B as [B1 B2].
  apply lt_IZR in B1. apply lt_IZR in B2. lia.
Qed.
Lemma rx_period x : rx (x + 2 * PI) = rx x.
Proof. apply (rx_unique _ _ (kx x + 1)); [apply rx_range|]. unfold rx. rewrite plus_IZR. ring. Qed.
Lemma rx_id x : 0 <= x < 2 * PI -> rx x = x.
Proof. intros H. apply (rx_unique _ _ 0); [exact H|]. simpl. ring. Qed.
Lemma rx_opp x : rx x <> 0 -> rx (- x) = 2 * PI - rx x.
Proof.
  intros N. assert (H := rx_range x). apply (rx_unique _ _ (- kx x - 1)); [lra|]. unfold rx. rewrite minus_IZR, opp_IZR. ring.
Qed.
Lemma rx_opp0 x : rx x = 0 -> rx (- x) = 0.
Proof. intros N. assert (T := tpi). apply (rx_unique _ _ (- kx x)); [lra|]. unfold rx in N. rewrite opp_IZR. lra. Qed.

(** ** the function on (0, 2 pi) *)
Definition sinc (t : R) : R := if Req_EM_T t 0 then 0 else ln (2 * sin (t / 2) / t).
Lemma sinc_pos t : - (2 * PI) < t < 2 * PI -> t <> 0 -> 0 < 2 * sin (t / 2) / t.
Proof.
  intros H N. destruct (Rtotal_order t 0) as [L|[E|G]]; [|contradiction|].
  - replace (2 * sin (t / 2) / t) with (2 * sin ((- t) / 2) / (- t)) by (replace (- t / 2) with (- (t / 2)) by field; rewrite sin_neg; field; exact N).
    apply Rdiv_lt_0_compat; [|lra]. assert (0 < sin ((- t) / 2)) by (apply sinh_pos; lra). lra.
  - apply Rdiv_lt_0_compat; [|lra]. assert (0 < sin (t / 2)) by (apply sinh_pos; lra). lra.
Qed.
Lemma sinc_cont t : - (2 * PI) < t < 2 * PI -> continuous sinc t.
Proof.
  intros Ht. destruct (Req_EM_T t 0) as [->|N].
  - assert (HD : is_derive (fun s : R => (2 * sin (s / 2) : R)) 0 1).
    { auto_derive; [exact Logic.I|]. match goal with |- ?a = ?b => change (@eq R a b) end. rewrite Rmult_0_l, cos_0. field. }
    apply is_derive_Reals in HD.
    assert (HL : continuous ln 1) by (apply (ex_derive_continuous ln); auto_derive; lra).
    intros P [e He]. destruct (HL (ball (ln 1) e) (locally_ball (T := R_UniformSpace) (ln 1) e)) as [d1 Hd1].
    destruct (HD d1 (cond_pos d1)) as [d Hd].
    exists d. intros y Hy. apply He. change (Rabs (y - 0) < d) in Hy. unfold sinc at 1. destruct (Req_EM_T 0 0); [|lra].
    unfold sinc. destruct (Req_EM_T y 0) as [E|E]; [apply ball_center|]. rewrite <- ln_1. apply Hd1.
    rewrite Rminus_0_r in Hy. specialize (Hd y E Hy). change (Rabs (2 * sin (y / 2) / y - 1) < d1).
    rewrite Rplus_0_l in Hd. replace (2 * sin (y / 2) / y - 1) with ((2 * sin (y / 2) - 2 * sin (0 / 2)) / y - 1); [exact Hd|].
    replace (0 / 2) with 0 by field. rewrite sin_0. field. exact E.
  - apply (continuous_ext_loc (T := R_UniformSpace) (U := R_UniformSpace) sinc (fun s : R => (ln (2 * sin (s / 2) / s) : R))).
    + exists (mkposreal (Rabs t) (Rabs_pos_lt t N)). intros y Hy. change (Rabs (y - t) < Rabs t) in Hy. unfold sinc. destruct (Req_EM_T y 0) as [E|E]; [|reflexivity].
      exfalso. rewrite E, Rminus_0_l, Rabs_Ropp in Hy. lra.
    + apply (ex_derive_continuous (fun s : R => (ln (2 * sin (s / 2) / s) : R))). auto_derive. assert (H := sinc_pos t Ht N). unfold Rdiv in H. repeat split; first [exact N|exact H].
Qed.
Definition IS (x : R) : R := RInt sinc 0 x.
Lemma IS_d x : - (2 * PI) < x < 2 * PI -> is_derive IS x (sinc x).
Proof.
  intros Hx. unfold IS. apply (is_derive_RInt sinc (fun x => RInt sinc 0 x) 0 x); [|apply sinc_cont; exact Hx].
  assert (P : 0 < Rmin (2 * PI - x) (2 * PI + x)) by (apply Rmin_glb_lt; lra).
  exists (mkposreal _ P). intros y Hy. change (Rabs (y - x) < Rmin (2 * PI - x) (2 * PI + x)) in Hy.
  assert (Y : - (2 * PI) < y < 2 * PI) by (apply Rabs_lt_between' in Hy; assert (A := Rmin_l (2 * PI - x) (2 * PI + x)); assert (B := Rmin_r (2 * PI - x) (2 * PI + x)); lra).
  apply (RInt_correct (V := R_CompleteNormedModule)). apply (ex_RInt_continuous (V := R_CompleteNormedModule) sinc). intros z Hz. apply sinc_cont. assert (T := tpi).
  unfold Rmin, Rmax in Hz. destruct (Rle_dec 0 y); lra.
Qed.
Lemma IS_0 : IS 0 = 0.
Proof. unfold IS. apply (RInt_point (V := R_CompleteNormedModule)). Qed.
Definition J (x : R) : R := if Req_EM_T x 0 then 0 else x - x * ln x - IS x.
Lemma J_d x : 0 < x < 2 * PI -> is_derive J x (- ln (2 * sin (x / 2))).
Proof.
  intros Hx. apply (is_derive_ext_loc (fun s : R => (s - s * ln s - IS s : R))).
  { exists (mkposreal x (proj1 Hx)). intros y Hy. change (Rabs (y - x) < x) in Hy. apply Rabs_lt_between' in Hy. unfold J. destruct (Req_EM_T y 0); [lra|reflexivity]. }
  replace (- ln (2 * sin (x / 2))) with ((1 - (1 * ln x + x * / x)) - sinc x).
  2: { unfold sinc. destruct (Req_EM_T x 0); [lra|]. unfold Rdiv at 1. assert (S := sinh_pos x Hx). rewrite ln_mult by (try apply Rinv_0_lt_compat; lra). rewrite ln_Rinv by lra. field. lra. }
  apply (is_derive_minus (V := R_NormedModule) (fun s : R => (s - s * ln s : R)) IS); [|apply IS_d; lra].
  auto_derive; [lra|]. match goal with |- ?a = ?b => change (@eq R a b) end. field. lra.
Qed.
(** J(x) -> 0 for x -> 0 *)
Lemma J_small eps : 0 < eps -> exists d, 0 < d /\ forall x, 0 <= x < d -> Rabs (J x) < eps.
Proof.
  intros He. assert (HC : continuous IS 0) by (apply (ex_derive_continuous IS); exists (sinc 0); apply IS_d; assert (T := tpi); lra).
  assert (He4 : 0 < eps / 4) by lra. destruct (HC (ball (IS 0) (mkposreal _ He4)) (locally_ball (T := R_UniformSpace) (IS 0) _)) as [d1 Hd1].
  set (r := Rmin (eps / 8) 1). assert (R0 : 0 < r) by (apply Rmin_glb_lt; lra). assert (R1 : r <= eps / 8) by apply Rmin_l. assert (R2 : r <= 1) by apply Rmin_r.
  exists (Rmin d1 (r * r)). split; [apply Rmin_glb_lt; [apply cond_pos|nra]|]. intros x Hx. unfold J. destruct (Req_EM_T x 0) as [E|E]; [rewrite Rabs_R0; exact He|].
  assert (X0 : 0 < x) by lra. assert (X1 : x < d1) by (eapply Rlt_le_trans; [apply Hx|apply Rmin_l]). assert (X2 : x < r * r) by (eapply Rlt_le_trans; [apply Hx|apply Rmin_r]).
  assert (B1 : Rabs (IS x - IS 0) < eps / 4) by (apply Hd1; change (Rabs (x - 0) < d1); rewrite Rminus_0_r, Rabs_pos_eq; lra). rewrite IS_0, Rminus_0_r in B1.
  set (s := sqrt x). assert (S0 : 0 < s) by (apply sqrt_lt_R0; exact X0). assert (SS : s * s = x) by (apply sqrt_sqrt; lra).
  assert (SR : s < r) by nra. assert (XS : x < eps / 4) by nra.
  assert (LN : - ln x <= 2 / s).
  { rewrite <- SS, ln_mult by assumption. assert (L : ln (/ s) <= / s - 1).
    { assert (I := Rinv_0_lt_compat s S0). assert (Q := exp_ineq1_le (ln (/ s))). rewrite exp_ln in Q by exact I. lra. }
    rewrite ln_Rinv in L by exact S0. unfold Rdiv. lra. }
  assert (LN1 : ln x <= 0) by (rewrite <- ln_1; apply Rlt_le, ln_increasing; nra).
  assert (XL : 0 <= - (x * ln x) <= 2 * s).
  { split; [nra|]. replace (- (x * ln x)) with (x * (- ln x)) by ring. apply Rle_trans with (x * (2 / s)); [apply Rmult_le_compat_l; lra|]. rewrite <- SS. right. field. lra. }
  apply Rabs_lt_between in B1. apply Rabs_def1; lra.
Qed.
Lemma J_cont x : 0 < x < 2 * PI -> continuous J x.
Proof. intros H. apply (ex_derive_continuous J). exists (- ln (2 * sin (x / 2))). apply J_d. exact H. Qed.
Lemma const_on (f : R -> R) a b : (forall x, a < x < b -> is_derive f x 0) -> forall x y, a < x < b -> a < y < b -> f x = f y.
Proof.
  intros H. assert (W : forall x y, x < y -> a < x < b -> a < y < b -> f x = f y).
  { intros x y L Hx Hy. destruct (MVT_gen f x y (fun _ => 0)) as (c & _ & E).
    - intros z Hz. rewrite Rmin_left, Rmax_right in Hz by lra. apply H. lra.
    - intros z Hz. rewrite Rmin_left, Rmax_right in Hz by lra. apply continuity_pt_filterlim. apply (ex_derive_continuous f). exists 0. apply H. lra.
    - lra. }
  intros x y Hx Hy. destruct (Rtotal_order x y) as [L|[->|G]]; [apply W; assumption|reflexivity|symmetry; apply W; assumption].
Qed.
(** duplication: J(2x) = 2 J(x) - 2 J(pi - x) + const; the constant is J(pi) and 2 J(pi) *)
Lemma J_pi : J PI = 0.
Proof.
  assert (P := PI_RGT_0). set (f := fun x : R => (J (2 * x) - 2 * J x + 2 * J (PI - x) : R)).
  assert (D : forall x, 0 < x < PI -> is_derive f x 0).
  { intros x Hx. replace 0 with ((2 * (- ln (2 * sin (2 * x / 2))) - 2 * (- ln (2 * sin (x / 2)))) + 2 * (-1 * (- ln (2 * sin ((PI - x) / 2))))).
    - unfold f. apply (is_derive_plus (V := R_NormedModule) (fun s : R => (J (2 * s) - 2 * J s : R)) (fun s : R => (2 * J (PI - s) : R))).
      + apply (is_derive_minus (V := R_NormedModule) (fun s : R => (J (2 * s) : R)) (fun s : R => (2 * J s : R))).
        * apply (is_derive_comp (K := R_AbsRing) (V := R_NormedModule) J (fun s : R => (2 * s : R)) x (- ln (2 * sin (2 * x / 2))) 2); [apply J_d; lra|].
          auto_derive; [exact Logic.I|]. match goal with |- ?a = ?b => change (@eq R a b) end. ring.
        * apply is_derive_scal. apply J_d. lra.
      + apply is_derive_scal. apply (is_derive_comp (K := R_AbsRing) (V := R_NormedModule) J (fun s : R => (PI - s : R)) x (- ln (2 * sin ((PI - x) / 2))) (-1)); [apply J_d; lra|].
        auto_derive; [exact Logic.I|]. match goal with |- ?a = ?b => change (@eq R a b) end. ring.
    - replace (sin ((PI - x) / 2)) with (cos (x / 2)) by (rewrite <- (sin_shift (x / 2)); f_equal; field). replace (2 * x / 2) with (2 * (x / 2)) by field. rewrite sin_2a.
      assert (S := sinh_pos x ltac:(lra)). assert (Q : 0 < cos (x / 2)) by (apply cos_gt_0; lra).
      replace (2 * (2 * sin (x / 2) * cos (x / 2))) with ((2 * sin (x / 2)) * (2 * cos (x / 2))) by ring. rewrite (ln_mult (2 * sin (x / 2)) (2 * cos (x / 2))) by lra. ring. }
  assert (H2 : f (PI / 2) = J PI) by (unfold f; replace (2 * (PI / 2)) with PI by field; replace (PI - PI / 2) with (PI / 2) by field; ring).
  destruct (Req_dec (J PI) 0) as [E|N]; [exact E|exfalso].
  assert (E6 : 0 < Rabs (J PI) / 8) by (assert (0 < Rabs (J PI)) by (apply Rabs_pos_lt; exact N); lra).
  destruct (J_small _ E6) as (d1 & D1 & B1).
  destruct (J_cont PI ltac:(lra) (ball (J PI) (mkposreal _ E6)) (locally_ball (T := R_UniformSpace) (J PI) _)) as [d2 B2].
  set (x := Rmin (Rmin (d1 / 4) (d2 / 2)) (PI / 4)). assert (X0 : 0 < x) by (repeat apply Rmin_glb_lt; try lra; assert (Q := cond_pos d2); lra).
  assert (X1 : x <= d1 / 4) by (eapply Rle_trans; [apply Rmin_l|apply Rmin_l]). assert (X2 : x <= d2 / 2) by (eapply Rle_trans; [apply Rmin_l|apply Rmin_r]). assert (X3 : x <= PI / 4) by apply Rmin_r.
  assert (F : f x = J PI) by (rewrite <- H2; apply (const_on f 0 PI D); lra). unfold f in F.
  assert (A1 := B1 (2 * x) ltac:(lra)). assert (A2 := B1 x ltac:(lra)).
  assert (A3 : Rabs (J (PI - x) - J PI) < Rabs (J PI) / 8) by (apply B2; change (Rabs (PI - x - PI) < d2); replace (PI - x - PI) with (- x) by ring; rewrite Rabs_Ropp, Rabs_pos_eq by lra; assert (Q := cond_pos d2); lra).
  apply Rabs_lt_between in A1, A2, A3. unfold Rabs in *. destruct (Rcase_abs (J PI)); lra.
Qed.
Lemma J_reflect x : 0 < x < 2 * PI -> J (2 * PI - x) = - J x.
Proof.
  intros Hx. set (f := fun s : R => (J s + J (2 * PI - s) : R)). assert (P := PI_RGT_0).
  assert (D : forall s, 0 < s < 2 * PI -> is_derive f s 0).
  { intros s Hs. replace 0 with (- ln (2 * sin (s / 2)) + (-1) * (- ln (2 * sin ((2 * PI - s) / 2)))).
    - unfold f. apply (is_derive_plus (V := R_NormedModule) J (fun s : R => (J (2 * PI - s) : R))); [apply J_d; exact Hs|].
      apply (is_derive_comp (K := R_AbsRing) (V := R_NormedModule) J (fun s : R => (2 * PI - s : R)) s (- ln (2 * sin ((2 * PI - s) / 2))) (-1)); [apply J_d; lra|].
      auto_derive; [exact Logic.I|]. match goal with |- ?a = ?b => change (@eq R a b) end. ring.
    - replace ((2 * PI - s) / 2) with (PI - s / 2) by field. rewrite sin_PI_x. ring. }
  assert (E := const_on f 0 (2 * PI) D x PI Hx ltac:(lra)). unfold f in E. replace (2 * PI - PI) with PI in E by ring. rewrite J_pi in E. lra.
Qed.
Definition Clx (x : R) : R := J (rx x).
Lemma Clx_is : is_Cl2 Clx.
Proof.
  assert (P := PI_RGT_0). assert (J0 : J 0 = 0) by (unfold J; destruct (Req_EM_T 0 0); [reflexivity|lra]).
  assert (O : forall x, Clx (- x) = - Clx x).
  { intros x. unfold Clx. destruct (Req_dec (rx x) 0) as [E|N]; [rewrite (rx_opp0 x E), E, J0; ring|].
    rewrite (rx_opp x N). apply J_reflect. assert (H := rx_range x). lra. }
  split; [exact O|]. split; [intros x; unfold Clx; rewrite rx_period; reflexivity|]. split.
  - intros Q [e He]. destruct (J_small e (cond_pos e)) as (d & D & B).
    assert (DP : 0 < Rmin d PI) by (apply Rmin_glb_lt; lra). exists (mkposreal _ DP). intros y Hy. change (Rabs (y - 0) < Rmin d PI) in Hy. rewrite Rminus_0_r in Hy. apply He.
    assert (Y1 : Rabs y < d) by (eapply Rlt_le_trans; [exact Hy|apply Rmin_l]). assert (Y2 : Rabs y < PI) by (eapply Rlt_le_trans; [exact Hy|apply Rmin_r]).
    change (Rabs (Clx y - Clx 0) < e). assert (Z : Clx 0 = 0) by (unfold Clx; rewrite rx_id by lra; exact J0). rewrite Z, Rminus_0_r.
    unfold Rabs in Y1, Y2. destruct (Rcase_abs y) as [N|N].
    + replace y with (- (- y)) by ring. rewrite O, Rabs_Ropp. unfold Clx. rewrite rx_id by lra. apply B. lra.
    + unfold Clx. rewrite rx_id by lra. apply B. lra.
  - intros x Hx. apply (is_derive_ext_loc J); [|apply J_d; exact Hx].
    assert (M : 0 < Rmin x (2 * PI - x)) by (apply Rmin_glb_lt; lra). exists (mkposreal _ M). intros y Hy. change (Rabs (y - x) < Rmin x (2 * PI - x)) in Hy.
    apply Rabs_lt_between' in Hy. assert (A := Rmin_l x (2 * PI - x)). assert (B := Rmin_r x (2 * PI - x)). unfold Clx. rewrite rx_id by lra. reflexivity.
Qed.
Theorem Cl2_exists : exists C, is_Cl2 C.
Proof. exists Clx. exact Clx_is. Qed.
Lemma Cl2_0 C : is_Cl2 C -> C 0 = 0.
Proof. intros (O & _). assert (H := O 0). rewrite Ropp_0 in H. lra. Qed.
Lemma Cl2_pi C : is_Cl2 C -> C PI = 0.
Proof. intros (O & T & _). assert (H := O PI). assert (K := T (- PI)). replace (- PI + 2 * PI) with PI in K by ring. lra. Qed.
Theorem Cl2_unique (C1 C2 : R -> R) : is_Cl2 C1 -> is_Cl2 C2 -> forall x, C1 x = C2 x.
Proof.
  intros H1 H2. assert (Z1 := Cl2_pi C1 H1). assert (Z2 := Cl2_pi C2 H2). assert (E1 := Cl2_0 C1 H1). assert (E2 := Cl2_0 C2 H2). assert (P := PI_RGT_0).
  destruct H1 as (O1 & T1 & _ & D1). destruct H2 as (O2 & T2 & _ & D2).
  assert (B : forall r, 0 <= r < 2 * PI -> C1 r = C2 r).
  { intros r Hr. destruct (Req_dec r 0) as [->|N]; [congruence|].
    assert (E := const_on (fun x : R => (C1 x - C2 x : R)) 0 (2 * PI)). cbv beta in E. assert (Q : C1 r - C2 r = C1 PI - C2 PI); [|lra]. apply E; [|lra|lra].
    intros x Hx. replace 0 with (- ln (2 * sin (x / 2)) - - ln (2 * sin (x / 2))) by ring. apply (is_derive_minus (V := R_NormedModule)); [apply D1|apply D2]; exact Hx. }
  assert (N : forall C : R -> R, (forall x, C (x + 2 * PI) = C x) -> forall (n : nat) x, C (x + 2 * PI * INR n) = C x).
  { intros C T n. induction n as [|n IH]; intros x; [rewrite Rmult_0_r, Rplus_0_r; reflexivity|]. rewrite S_INR. replace (x + 2 * PI * (INR n + 1)) with (x + 2 * PI * INR n + 2 * PI) by ring. rewrite T. apply IH. }
  assert (M : forall C : R -> R, (forall x, C (x + 2 * PI) = C x) -> forall k x, C (x + 2 * PI * IZR k) = C x).
  { intros C T k x. destruct k as [|k|k]; [rewrite Rmult_0_r, Rplus_0_r; reflexivity| |].
    - rewrite <- (positive_nat_Z k), <- INR_IZR_INZ. apply N. exact T.
    - rewrite <- (N C T (Pos.to_nat k) (x + 2 * PI * IZR (Z.neg k))). f_equal. rewrite INR_IZR_INZ, positive_nat_Z. change (Z.neg k) with (- Z.pos k)%Z. rewrite opp_IZR. ring. }
  intros x. assert (R0 := B (rx x) (rx_range x)). unfold rx in R0. replace (x - 2 * PI * IZR (kx x)) with (x + 2 * PI * IZR (- kx x)) in R0 by (rewrite opp_IZR; ring).
  rewrite (M C1 T1), (M C2 T2) in R0. exact R0.
Qed.
