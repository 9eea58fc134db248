(** * C81: the two-loop function Phi for negative discriminant
    There Phi is 2/sqrt(-lambda^2) times the sum of the Clausen functions of the three doubled angles of the triangle with squared sides 1, u, v
    (Davydychev, Tausk).  [phi_neg] has own formulas for u = v, u = 1 and v = 1. *)
From Coq Require Import Reals ZArith List Bool Lra Lia.
From Coquelicot Require Import Coquelicot.
From Verif Require Import Num NumFacts Dilog LoopFun ClausenSpec ClausenExists PropClausen.
Open Scope R_scope.

(** the sum over the three angles *)
Definition PhiNeg (C : R -> R) (u v : R) : R :=
  2 * (C (2 * acos ((1 + u - v) / (2 * sqrt u))) + C (2 * acos ((1 - u + v) / (2 * sqrt v))) + C (2 * acos ((u + v - 1) / (2 * sqrt (u * v)))))
  / sqrt (4 * u * v - (1 - u - v) ^ 2).

(** ** the duplication formula Cl2(2x) = 2 Cl2(x) - 2 Cl2(pi - x) *)
Section Dup.
  Variable C : R -> R.
  Hypothesis HC : is_Cl2 C.
  Lemma cl_pi : C PI = 0.
  Proof. destruct HC as (Ho & Hp & _). pose proof (Ho PI). pose proof (Hp (- PI)). replace (- PI + 2 * PI) with PI in H0 by ring. lra. Qed.
  Lemma cl_zero : C 0 = 0.
  Proof. destruct HC as (Ho & _). pose proof (Ho 0). rewrite Ropp_0 in H. lra. Qed.
  Lemma cl_cont x : 0 <= x < 2 * PI -> continuous C x.
  Proof.
    intros H. destruct HC as (_ & _ & H0 & Hd). destruct (Req_dec x 0) as [->|N]; [exact H0|].
    apply (ex_derive_continuous (V := R_NormedModule)). eexists. apply Hd. lra.
  Qed.
  Let D (x : R) := C (2 * x) - 2 * C x + 2 * C (PI - x).
  Lemma D_der x : 0 < x < PI -> is_derive D x 0.
  Proof.
    intros Hx. destruct HC as (_ & _ & _ & Hd).
    assert (s1 : 0 < sin (x / 2)) by (apply sin_gt_0; lra). assert (c1 : 0 < cos (x / 2)) by (apply cos_gt_0; lra).
    assert (E2 : is_derive (fun t => C (2 * t)) x (2 * - ln (2 * sin (2 * x / 2)))).
    { apply (is_derive_comp C (fun t => 2 * t)); [apply Hd; lra|]. auto_derive; [exact I|ring]. }
    assert (E3 : is_derive (fun t => C (PI - t)) x (-1 * - ln (2 * sin ((PI - x) / 2)))).
    { apply (is_derive_comp C (fun t => PI - t)); [apply Hd; lra|]. auto_derive; [exact I|ring]. }
    assert (E1 := Hd x ltac:(lra)).
    replace 0 with (minus (2 * - ln (2 * sin (2 * x / 2))) (2 * - ln (2 * sin (x / 2))) + 2 * (-1 * - ln (2 * sin ((PI - x) / 2)))).
    - apply (is_derive_plus (V := R_NormedModule) (fun t => C (2 * t) - 2 * C t) (fun t => 2 * C (PI - t))).
      + apply (is_derive_minus (V := R_NormedModule) (fun t => C (2 * t)) (fun t => 2 * C t)); [exact E2|apply is_derive_scal; exact E1].
      + apply is_derive_scal. exact E3.
    - replace ((PI - x) / 2) with (PI / 2 - x / 2) by field. rewrite sin_shift. replace (2 * x / 2) with (2 * (x / 2)) by field. rewrite sin_2a.
      replace (2 * (2 * sin (x / 2) * cos (x / 2))) with ((2 * sin (x / 2)) * (2 * cos (x / 2))) by ring. rewrite ln_mult by lra.
      unfold minus, plus, opp; cbn. ring.
  Qed.
  Lemma D_cont x : 0 <= x < PI -> continuous D x.
  Proof.
    intros H. unfold D. apply (continuous_plus (fun t => C (2 * t) - 2 * C t) (fun t => 2 * C (PI - t))).
    - apply (continuous_minus (fun t => C (2 * t)) (fun t => 2 * C t)).
      + apply (continuous_comp (fun t => 2 * t) C); [|apply cl_cont; lra]. apply (ex_derive_continuous (V := R_NormedModule)). auto_derive. exact I.
      + apply (continuous_scal_r 2 C). apply cl_cont; lra.
    - apply (continuous_scal_r 2 (fun t => C (PI - t))). apply (continuous_comp (fun t => PI - t) C); [|apply cl_cont; lra]. apply (ex_derive_continuous (V := R_NormedModule)). auto_derive. exact I.
  Qed.
  Lemma duplication x : 0 < x < PI -> C (2 * x) = 2 * C x - 2 * C (PI - x).
  Proof.
    intros Hx. enough (D x = 0) by (unfold D in *; lra).
    replace 0 with (D 0) by (unfold D; rewrite Rmult_0_r, Rminus_0_r, cl_pi, cl_zero; ring).
    destruct (MVT_gen D 0 x (fun _ => 0)) as [c [_ E]].
    - rewrite Rmin_left, Rmax_right by lra. intros t Ht. apply D_der. lra.
    - rewrite Rmin_left, Rmax_right by lra. intros t Ht. apply continuity_pt_filterlim. apply D_cont. lra.
    - lra.
  Qed.
End Dup.

(** ** evaluation of the code *)
Lemma tri_bd a k : 0 < k -> a ^ 2 <= 4 * k -> -1 <= a / (2 * sqrt k) <= 1.
Proof.
  intros Hk H. assert (S := sqrt_lt_R0 k Hk). assert (Q := sqrt_sqrt k ltac:(lra)).
  assert (B : - (2 * sqrt k) <= a <= 2 * sqrt k) by (split; nra).
  split.
  - apply Rmult_le_reg_r with (2 * sqrt k); [lra|]. unfold Rdiv. rewrite Rmult_assoc, Rinv_l by lra. lra.
  - apply Rmult_le_reg_r with (2 * sqrt k); [lra|]. unfold Rdiv. rewrite Rmult_assoc, Rinv_l by lra. lra.
Qed.
Lemma cl2acos_ok C : is_Cl2 C -> forall a : R, -1 <= a <= 1 -> exists v, cl2acos (Some a : PR) = Some v /\ Rabs (v - C (2 * acos a)) <= 3 / 10 ^ 17.
Proof.
  intros HC a Ha. pose proof (acos_bound a) as B. destruct (C28_clausen C HC (2 * acos a) ltac:(lra)) as (v & E & K). exists v. split; [|exact K].
  unfold cl2acos. rewrite <- E. unP. cbv beta iota zeta delta [p2 pguard]. rewrite (case_le (-1) a), (case_le a 1) by lra. reflexivity.
Qed.
Lemma eps_small : exists e : R, (phi_eps : PR) = Some e /\ 0 < e <= 1 / 10 ^ 14.
Proof.
  eexists. unfold phi_eps, eps_default. unP. cbv beta iota zeta delta [p2 pdiv]. rewrite case_ne by lra. split; [reflexivity|]. unfold Rdec. simpl Z.pow. lra.
Qed.
Lemma eqP_true (a e : R) : 0 < e -> is_equal (Some a : PR) (Some a) (Some e) = true.
Proof.
  intros He. unfold is_equal, is_zero, dabs. unP. cbv beta iota zeta delta [p1 p2 pcmp option_map]. rewrite Rminus_diag_eq by reflexivity. rewrite (case_le 0 0) by lra. apply case_le. lra.
Qed.
Lemma eqP_false (a b e : R) : e < Rabs (a - b) -> is_equal (Some a : PR) (Some b) (Some e) = false.
Proof.
  intros He. unfold is_equal, is_zero, dabs. unP. cbv beta iota zeta delta [p1 p2 pcmp option_map]. unfold Rabs in He. destruct (Rcase_abs (a - b)) as [N|N].
  - rewrite (case_gt 0 (a - b)) by lra. apply case_gt. lra.
  - rewrite (case_le 0 (a - b)) by lra. apply case_gt. lra.
Qed.

(** equal, or further apart than the tolerance of the code *)
Definition apart (a b : R) : Prop := 1 / 10 ^ 14 < Rabs (a - b).

Section Main.
  Variables (C : R -> R) (u v : R).
  Hypothesis HC : is_Cl2 C. Hypothesis Hu : 0 < u. Hypothesis Hv : 0 < v.
  Hypothesis Hl : (1 - u - v) ^ 2 - 4 * u * v < 0.
  Let s := sqrt (4 * u * v - (1 - u - v) ^ 2).
  Lemma s_pos : 0 < s. Proof. apply sqrt_lt_R0. lra. Qed.
  Lemma lam_ok : @nsqrt PR NumP (@nneg PR NumP (@lambda_2 PR NumP (Some u) (Some v))) = (Some s : PR).
  Proof.
    unfold lambda_2, pow2. cbv zeta. unP. cbv beta iota zeta delta [p1 p2 pguard option_map].
    match goal with |- context [sqrt ?t] => replace t with (4 * u * v - (1 - u - v) ^ 2) by ring end. rewrite case_le by lra. reflexivity.
  Qed.
  Lemma angle_u : -1 <= (1 + u - v) / (2 * sqrt u) <= 1. Proof. apply tri_bd; nra. Qed.
  Lemma angle_v : -1 <= (1 - u + v) / (2 * sqrt v) <= 1. Proof. apply tri_bd; nra. Qed.
  Lemma angle_w : -1 <= (u + v - 1) / (2 * sqrt (u * v)) <= 1. Proof. apply tri_bd; nra. Qed.
  Lemma bd3 k1 k2 k3 v1 v2 v3 e : 0 <= e -> Rabs (v1 - k1) <= e -> Rabs (v2 - k2) <= e -> Rabs (v3 - k3) <= e ->
    Rabs (2 * (v1 + v2 + v3) / s - 2 * (k1 + k2 + k3) / s) <= 6 * e / s.
  Proof.
    intros He H1 H2 H3. pose proof s_pos as S. replace (2 * (v1 + v2 + v3) / s - 2 * (k1 + k2 + k3) / s) with (2 * ((v1 - k1) + (v2 - k2) + (v3 - k3)) / s) by (field; lra).
    unfold Rdiv. rewrite Rabs_mult, (Rabs_right (/ s)) by (apply Rle_ge, Rlt_le, Rinv_0_lt_compat; exact S).
    apply Rmult_le_compat_r; [apply Rlt_le, Rinv_0_lt_compat; exact S|].
    unfold Rabs in *; destruct (Rcase_abs (2 * _)); destruct (Rcase_abs (v1 - k1)), (Rcase_abs (v2 - k2)), (Rcase_abs (v3 - k3)); lra.
  Qed.

  (** the general formula *)
  Definition near (r : PR) : Prop := exists t : R, r = Some t /\ Rabs (t - PhiNeg C u v) <= 2 / 10 ^ 16 / s.
  Ltac op0 := unP; cbv beta iota zeta delta [p1 p2 pdiv pguard pcmp option_map].
  Lemma arg_u : @ndiv PR NumP (@nmul PR NumP (ndec 5 1) (@nsub PR NumP (@nadd PR NumP (Some 1) (Some u)) (Some v))) (@nsqrt PR NumP (Some u)) = Some ((1 + u - v) / (2 * sqrt u)).
  Proof.
    assert (su := sqrt_lt_R0 u Hu). op0. rewrite (case_le 0 u) by lra. cbv iota. rewrite case_ne by lra. f_equal. unfold Rdec. simpl Z.pow. field. lra.
  Qed.
  Lemma arg_v : @ndiv PR NumP (@nmul PR NumP (ndec 5 1) (@nadd PR NumP (@nsub PR NumP (Some 1) (Some u)) (Some v))) (@nsqrt PR NumP (Some v)) = Some ((1 - u + v) / (2 * sqrt v)).
  Proof.
    assert (sv := sqrt_lt_R0 v Hv). op0. rewrite (case_le 0 v) by lra. cbv iota. rewrite case_ne by lra. f_equal. unfold Rdec. simpl Z.pow. field. lra.
  Qed.
  Lemma arg_w : @ndiv PR NumP (@nmul PR NumP (ndec 5 1) (@nadd PR NumP (@nadd PR NumP (nint (-1)) (Some u)) (Some v))) (@nmul PR NumP (@nsqrt PR NumP (Some u)) (@nsqrt PR NumP (Some v))) = Some ((u + v - 1) / (2 * sqrt (u * v))).
  Proof.
    assert (su := sqrt_lt_R0 u Hu). assert (sv := sqrt_lt_R0 v Hv). rewrite sqrt_mult by lra. op0. rewrite (case_le 0 u), (case_le 0 v) by lra. cbv iota.
    rewrite case_ne by (apply Rmult_integral_contrapositive_currified; lra). f_equal. unfold Rdec. simpl Z.pow. field. lra.
  Qed.
  Ltac fin v1 v2 v3 K1 K2 K3 := exists (2 * (v1 + v2 + v3) / s); split;
    [op0; rewrite ?case_ne by (pose proof s_pos; lra); f_equal; field; pose proof s_pos; lra|
     unfold PhiNeg; fold s; replace (2 / 10 ^ 16 / s) with ((2 / 10 ^ 16) / s) by reflexivity;
     apply Rle_trans with (1 := bd3 _ _ _ v1 v2 v3 (3 / 10 ^ 17) ltac:(lra) K1 K2 K3);
     unfold Rdiv; apply Rmult_le_compat_r; [apply Rlt_le, Rinv_0_lt_compat, s_pos|lra]].
  Lemma generic e : phi_eps = (Some e : PR) -> is_equal (Some u : PR) (Some v) (Some e) = false -> is_equal (Some u : PR) (Some 1) (Some e) = false ->
    is_equal (Some v : PR) (Some 1) (Some e) = false -> near (@phi_neg PR NumP (Some u) (Some v)).
  Proof.
    intros He E1 E2 E3. unfold near, phi_neg. cbv zeta. rewrite lam_ok, He. change (nint 1) with (Some 1 : PR).
    rewrite E2, E1, E3. cbn [andb].
    assert (su := sqrt_lt_R0 u Hu). assert (sv := sqrt_lt_R0 v Hv). assert (sw : sqrt (u * v) = sqrt u * sqrt v) by (apply sqrt_mult; lra).
    destruct (cl2acos_ok C HC _ angle_u) as (v1 & F1 & K1). destruct (cl2acos_ok C HC _ angle_v) as (v2 & F2 & K2). destruct (cl2acos_ok C HC _ angle_w) as (v3 & F3 & K3).
    rewrite arg_u, arg_v, arg_w, F1, F2, F3. fin v1 v2 v3 K1 K2 K3.
  Qed.
  Lemma at_u1 : u = 1 -> near (@ndiv PR NumP (@phi_neg_1v PR NumP (Some v)) (Some s)).
  Proof.
    intros E. unfold near, phi_neg_1v. pose proof angle_u as A1. pose proof angle_v as A2.
    assert (sv := sqrt_lt_R0 v Hv). assert (qv := sqrt_sqrt v ltac:(lra)).
    destruct (cl2acos_ok C HC _ A1) as (v1 & F1 & K1). destruct (cl2acos_ok C HC _ A2) as (v2 & F2 & K2).
    replace (@nsub PR NumP _ _) with (Some ((1 + u - v) / (2 * sqrt u)) : PR).
    2:{ rewrite E, sqrt_1. op0. f_equal. unfold Rdec. simpl Z.pow. field. }
    replace (@nmul PR NumP (ndec 5 1) (@nsqrt PR NumP _)) with (Some ((1 - u + v) / (2 * sqrt v)) : PR).
    2:{ rewrite E. op0. rewrite case_le by lra. f_equal. unfold Rdec. simpl Z.pow. rewrite <- qv at 1. field. lra. }
    rewrite F1, F2.
    assert (K3 : Rabs (v2 - C (2 * acos ((u + v - 1) / (2 * sqrt (u * v))))) <= 3 / 10 ^ 17).
    { replace ((u + v - 1) / (2 * sqrt (u * v))) with ((1 - u + v) / (2 * sqrt v)); [exact K2|]. rewrite E, Rmult_1_l. f_equal. ring. }
    fin v1 v2 v2 K1 K2 K3.
  Qed.
  Lemma at_v1 : v = 1 -> near (@ndiv PR NumP (@phi_neg_1v PR NumP (Some u)) (Some s)).
  Proof.
    intros E. unfold near, phi_neg_1v. pose proof angle_u as A1. pose proof angle_v as A2.
    assert (su := sqrt_lt_R0 u Hu). assert (qu := sqrt_sqrt u ltac:(lra)).
    destruct (cl2acos_ok C HC _ A1) as (v1 & F1 & K1). destruct (cl2acos_ok C HC _ A2) as (v2 & F2 & K2).
    replace (@nsub PR NumP _ _) with (Some ((1 - u + v) / (2 * sqrt v)) : PR).
    2:{ rewrite E, sqrt_1. op0. f_equal. unfold Rdec. simpl Z.pow. field. }
    replace (@nmul PR NumP (ndec 5 1) (@nsqrt PR NumP _)) with (Some ((1 + u - v) / (2 * sqrt u)) : PR).
    2:{ rewrite E. op0. rewrite case_le by lra. f_equal. unfold Rdec. simpl Z.pow. rewrite <- qu at 1. field. lra. }
    rewrite F1, F2.
    assert (K3 : Rabs (v1 - C (2 * acos ((u + v - 1) / (2 * sqrt (u * v))))) <= 3 / 10 ^ 17).
    { replace ((u + v - 1) / (2 * sqrt (u * v))) with ((1 + u - v) / (2 * sqrt u)); [exact K1|]. rewrite E, Rmult_1_r. f_equal. ring. }
    fin v1 v2 v1 K1 K2 K3.
  Qed.
  Lemma at_uv : u = v -> near (@ndiv PR NumP (@nmul PR NumP (nint 4) (@clausen_2 PR NumP (@nmul PR NumP (nint 2) (@nasin PR NumP (@nsqrt PR NumP (@ndiv PR NumP (ndec 25 2) (Some u))))))) (Some s)).
  Proof.
    intros E. assert (u4 : 1 / 4 < u) by nra. unfold near.
    assert (su := sqrt_lt_R0 u Hu). assert (qu := sqrt_sqrt u ltac:(lra)).
    set (k := / (2 * sqrt u)). assert (hk : 0 < k < 1).
    { unfold k. split; [apply Rinv_0_lt_compat; lra|]. rewrite <- Rinv_1. apply Rinv_lt_contravar; nra. }
    assert (kk : k * k = 1 / 4 / u) by (unfold k; replace (1 / 4 / u) with (1 / 4 / (sqrt u * sqrt u)) by (rewrite qu; reflexivity); field; lra).
    set (al := asin k). assert (sal : sin al = k) by (apply sin_asin; lra).
    assert (bal : 0 < al < PI / 2).
    { assert (B := asin_bound_lt k ltac:(lra)). fold al in B. split; [|lra]. destruct (Rlt_le_dec 0 al) as [X|X]; [exact X|exfalso].
      assert (0 <= sin (- al)) by (apply sin_ge_0; lra). rewrite sin_neg in H. lra. }
    destruct (C28_clausen C HC (2 * al) ltac:(lra)) as (w & F & K).
    replace (@nmul PR NumP (nint 2) _) with (Some (2 * al) : PR).
    2:{ op0. rewrite (case_ne u 0) by lra. cbv iota. assert (0 < Rdec 25 2 / u) by (apply Rdiv_lt_0_compat; [unfold Rdec; simpl Z.pow; lra|lra]). rewrite case_le by lra. 
        replace (Rdec 25 2 / u) with (k * k) by (rewrite kk; unfold Rdec; simpl Z.pow; field; lra). rewrite sqrt_square by lra.
        rewrite (case_le (-1) k), (case_le k 1) by lra. reflexivity. }
    rewrite F. exists (4 * w / s). split. { op0. rewrite case_ne by (pose proof s_pos; lra). reflexivity. }
    assert (A1 : 2 * acos ((1 + u - v) / (2 * sqrt u)) = PI - 2 * al).
    { replace ((1 + u - v) / (2 * sqrt u)) with k by (unfold k; rewrite <- E; field; lra). rewrite acos_asin by lra. fold al. lra. }
    assert (A2 : 2 * acos ((1 - u + v) / (2 * sqrt v)) = PI - 2 * al).
    { replace ((1 - u + v) / (2 * sqrt v)) with k by (unfold k; rewrite <- E; field; lra). rewrite acos_asin by lra. fold al. lra. }
    assert (A3 : 2 * acos ((u + v - 1) / (2 * sqrt (u * v))) = 2 * (2 * al)).
    { rewrite <- E, sqrt_square by lra. replace ((u + u - 1) / (2 * u)) with (cos (2 * al)).
      - rewrite acos_cos by lra. reflexivity.
      - rewrite cos_2a_sin, sal. replace (2 * k * k) with (2 * (k * k)) by ring. rewrite kk. field. lra. }
    unfold PhiNeg. fold s. rewrite A1, A2, A3, (duplication C HC (2 * al)) by lra. pose proof s_pos as S.
    replace (4 * w / s - 2 * (C (PI - 2 * al) + C (PI - 2 * al) + (2 * C (2 * al) - 2 * C (PI - 2 * al))) / s) with (4 * (w - C (2 * al)) / s) by (field; lra).
    unfold Rdiv at 1. rewrite Rabs_mult, (Rabs_right (/ s)) by (apply Rle_ge, Rlt_le, Rinv_0_lt_compat; exact S).
    apply Rmult_le_compat_r; [apply Rlt_le, Rinv_0_lt_compat; exact S|]. rewrite Rabs_mult, (Rabs_right 4) by lra. lra.
  Qed.
End Main.

Theorem C81_phi_negative : forall C, is_Cl2 C -> forall u v : R, 0 < u -> 0 < v -> (1 - u - v) ^ 2 - 4 * u * v < 0 ->
  (u = v \/ apart u v) -> (u = 1 \/ apart u 1) -> (v = 1 \/ apart v 1) -> ~ (u = 1 /\ v = 1) ->
  exists t : R, phi_neg (Some u : PR) (Some v : PR) = Some t /\ Rabs (t - PhiNeg C u v) <= 2 / 10 ^ 16 / sqrt (4 * u * v - (1 - u - v) ^ 2).
Proof.
  intros C HC u v Hu Hv Hl D1 D2 D3 N. destruct eps_small as (e & He & E0).
  assert (nt : forall a b : R, apart a b -> is_equal (Some a : PR) (Some b) (Some e) = false) by (intros a b H; apply eqP_false; unfold apart in H; lra).
  assert (yes : forall a : R, is_equal (Some a : PR) (Some a) (Some e) = true) by (intros; apply eqP_true; lra).
  assert (L := lam_ok u v Hl).
  destruct D1 as [D1|D1].
  - change (near C u v (phi_neg (Some u : PR) (Some v : PR))). unfold phi_neg. cbv zeta. rewrite L, He. change (nint 1) with (Some 1 : PR).
    destruct D2 as [D2|D2]; [exfalso; apply N; lra|]. rewrite (nt _ _ D2). cbn [andb]. assert (Y : is_equal (Some u : PR) (Some v) (Some e) = true) by (rewrite D1; apply yes). rewrite Y. apply at_uv; assumption.
  - destruct D2 as [D2|D2].
    + assert (D4 : apart v 1) by (destruct D3; [exfalso; apply N; lra|assumption]).
      change (near C u v (phi_neg (Some u : PR) (Some v : PR))). unfold phi_neg. cbv zeta. rewrite L, He. change (nint 1) with (Some 1 : PR).
      rewrite (nt _ _ D4), andb_false_r, (nt _ _ D1). assert (Y : is_equal (Some u : PR) (Some 1) (Some e) = true) by (rewrite D2; apply yes). rewrite Y. apply at_u1; assumption.
    + destruct D3 as [D3|D3].
      * change (near C u v (phi_neg (Some u : PR) (Some v : PR))). unfold phi_neg. cbv zeta. rewrite L, He. change (nint 1) with (Some 1 : PR).
        rewrite (nt _ _ D2), (nt _ _ D1). cbn [andb]. assert (Y : is_equal (Some v : PR) (Some 1) (Some e) = true) by (rewrite D3; apply yes). rewrite Y. apply at_v1; assumption.
      * apply (generic C u v HC Hu Hv Hl e He); apply nt; assumption.
Qed.

(** non-vacuity: the four kinds of points *)
Example C81_cases : (1 - 1 - 2) ^ 2 - 4 * 1 * 2 < 0 /\ (1 - 3 / 4 - 3 / 4) ^ 2 - 4 * (3 / 4) * (3 / 4) < 0 /\ (1 - 2 - 3) ^ 2 - 4 * 2 * 3 < 0.
Proof. lra. Qed.
Example C81_instance : exists C t, is_Cl2 C /\ phi_neg (Some 2 : PR) (Some 3 : PR) = Some t /\ Rabs (t - PhiNeg C 2 3) <= 1 / 10 ^ 16.
Proof.
  destruct Cl2_exists as (C & HC). exists C. destruct (C81_phi_negative C HC 2 3) as (t & E & K); try lra; try (right; unfold apart; rewrite Rabs_left by lra; lra); try (right; unfold apart; rewrite Rabs_right by lra; lra).
  exists t. split; [exact HC|]. split; [exact E|]. apply Rle_trans with (1 := K).
  assert (2 <= sqrt (4 * 2 * 3 - (1 - 2 - 3) ^ 2)). { apply Rle_trans with (sqrt (2 * 2)); [rewrite sqrt_square; lra|apply sqrt_le_1_alt; lra]. }
  set (q := sqrt _) in *. unfold Rdiv. apply Rle_trans with (2 * / 10 ^ 16 * / 2); [|lra]. apply Rmult_le_compat_l; [lra|]. apply Rinv_le_contravar; lra.
Qed.

(** ** u = v = 1: a literal *)
From Coq Require Import QArith Qreals.
From Verif Require Import QInterval ConstBounds ClausenApprox.
Close Scope Q_scope.
Open Scope R_scope.
Definition ayE : aexp := AAdd (AQ (Qmake (314159265358979324) 100000000000000000)) (AMul (AQ (Qmake (-2) 3)) (AVar 0)).
Definition azE : aexp := AAdd (AMul ayE ayE) (AQ (Qmake (-98696044010893586284939875059496976) 80000000000000000000000000000000000)).
Definition apE : aexp :=
  AAdd (AAdd (AAdd (AQ (Qmake (64005702446195512) 100000000000000000)) (AMul azE (AQ (Qmake (-20641655351338783) 100000000000000000))))
    (AMul (AMul azE azE) (AAdd (AQ (Qmake (24175305223497718) 1000000000000000000)) (AMul azE (AQ (Qmake (-12355955287855728) 10000000000000000000))))))
    (AMul (AMul (AMul azE azE) (AMul azE azE)) (AAdd (AQ (Qmake (25649833551291124) 1000000000000000000000)) (AMul azE (AQ (Qmake (-1478382912877332) 10000000000000000000000))))).
Definition aqE : aexp :=
  AAdd (AAdd (AAdd (AQ (Qmake 1 1)) (AMul azE (AQ (Qmake (-25299102015666356) 100000000000000000))))
    (AMul (AMul azE azE) (AAdd (AQ (Qmake (22148751048467057) 1000000000000000000)) (AMul azE (AQ (Qmake (-78183920462457496) 100000000000000000000))))))
    (AMul (AMul (AMul azE azE) (AMul azE azE)) (AAdd (AQ (Qmake (9543254219631067) 1000000000000000000000)) (AMul azE (AQ (Qmake (-18184302880448247) 1000000000000000000000000))))).
Definition aE : aexp := AMul (AMul (AQ (Qmake 6 1)) (AMul (AMul ayE apE) (AInv aqE))) (AInv (AVar 1)).
Lemma aE_check : acheck (pi_bounds :: sqrt_bounds 3 1 :: nil)%list aE (Qmake 23439072386894585 10000000000000000) (Qmake 23439072386894595 10000000000000000) = true.
Proof. vm_compute. reflexivity. Qed.
Lemma aE_is : aeval (PI :: sqrt 3 :: nil) aE = 6 * h2 (2 * PI / 3) / sqrt 3.
Proof.
  unfold aE, apE, aqE. cbn [aeval].
  assert (Ey : aeval (PI :: sqrt 3 :: nil) ayE = pl - 2 * PI / 3) by (unfold ayE; cbn [aeval nth]; unfold Q2R; cbn [Qnum Qden]; rewrite pl_val; lra).
  assert (Ez : aeval (PI :: sqrt 3 :: nil) azE = (pl - 2 * PI / 3) * (pl - 2 * PI / 3) - pl * pl / 8).
  { unfold azE. cbn [aeval]. rewrite Ey. unfold Q2R. cbn [Qnum Qden]. rewrite pl_val. lra. }
  rewrite Ey, Ez. unfold h2. set (z := (pl - 2 * PI / 3) * (pl - 2 * PI / 3) - pl * pl / 8). set (y := pl - 2 * PI / 3). cbn [nth]. unfold Rdiv.
  assert (EP : forall a b, a = b -> 6 * (y * a) = 6 * (y * b)) by (intros a b ->; reflexivity).
  replace (p2k z) with (Q2R (Qmake (64005702446195512) 100000000000000000) + z * Q2R (Qmake (-20641655351338783) 100000000000000000) + z * z * (Q2R (Qmake (24175305223497718) 1000000000000000000) + z * Q2R (Qmake (-12355955287855728) 10000000000000000000)) +
     z * z * (z * z) * (Q2R (Qmake (25649833551291124) 1000000000000000000000) + z * Q2R (Qmake (-1478382912877332) 10000000000000000000000))).
  2:{ unfold p2k, Rdec, Q2R. cbn [Qnum Qden]. simpl Z.pow. lra. }
  replace (q2k z) with (Q2R (Qmake 1 1) + z * Q2R (Qmake (-25299102015666356) 100000000000000000) + z * z * (Q2R (Qmake (22148751048467057) 1000000000000000000) + z * Q2R (Qmake (-78183920462457496) 100000000000000000000)) +
     z * z * (z * z) * (Q2R (Qmake (9543254219631067) 1000000000000000000000) + z * Q2R (Qmake (-18184302880448247) 1000000000000000000000000))).
  2:{ unfold q2k, Rdec, Q2R. cbn [Qnum Qden]. simpl Z.pow. lra. }
  replace (Q2R (Qmake 6 1)) with 6 by (unfold Q2R; cbn; lra). ring.
Qed.
Theorem C81_all_equal : forall C, is_Cl2 C -> exists t : R, phi_neg (Some 1 : PR) (Some 1 : PR) = Some t /\ Rabs (t - PhiNeg C 1 1) <= 1 / 10 ^ 15.
Proof.
  intros C HC. destruct eps_small as (e & He & E0). exists (Rdec 2343907238689459 15). split.
  { unfold phi_neg. cbv zeta. rewrite He. change (nint 1) with (Some 1 : PR). rewrite eqP_true by lra. reflexivity. }
  assert (S3 := sqrt_lt_R0 3 ltac:(lra)). assert (Q3 := sqrt_sqrt 3 ltac:(lra)).
  assert (A0 : acos (1 / 2) = PI / 3) by (rewrite <- cos_PI3; apply acos_cos; pose proof PI_RGT_0; lra).
  assert (EP : PhiNeg C 1 1 = 6 * C (2 * PI / 3) / sqrt 3).
  { unfold PhiNeg. replace (1 * 1) with 1 by ring. rewrite sqrt_1. replace (1 + 1 - 1) with 1 by ring. replace (1 - 1 + 1) with 1 by ring.
    replace (1 / (2 * 1)) with (1 / 2) by field. rewrite A0. replace (2 * (PI / 3)) with (2 * PI / 3) by field. replace (4 * 1 * 1 - (1 - 1 - 1) ^ 2) with 3 by ring. field. lra. }
  rewrite EP. assert (HP := pl_val). assert (HN := pi_near). assert (HR := pi_rough). simpl pow in HN.
  destruct (C28_clausen C HC (2 * PI / 3) ltac:(lra)) as (w & F & K).
  rewrite cl_split in F. unfold red in F.
  assert (F2 : w = h2 (2 * PI / 3)).
  { revert F. op. rewrite case_ge by lra. cbv iota. rewrite case_gt by lra. cbv iota. rewrite case_ge by lra. cbv iota.
    change (Some (IZR 1)) with (Some 1 : PR). rewrite low_2 by lra. intros F. injection F as F. lra. }
  rewrite F2 in K. assert (B := acheck_ok (PI :: sqrt 3 :: nil) (pi_bounds :: sqrt_bounds 3 1 :: nil) aE _ _ ltac:(constructor; [exact pi_in|constructor; [|constructor]]; replace (sqrt 3) with (sqrt (IZR 3 / IZR 1)) by (f_equal; lra); apply (sqrt_q_in 3 1); vm_compute; reflexivity) aE_check).
  rewrite aE_is in B. unfold Q2R in B. cbn [Qnum Qden] in B. set (r := h2 (2 * PI / 3)) in *. set (c := C (2 * PI / 3)) in *.
  assert (I3 : 0 < / sqrt 3 <= 1). { split; [apply Rinv_0_lt_compat; lra|]. rewrite <- Rinv_1. apply Rinv_le_contravar; [lra|]. nra. }
  unfold Rdiv in *. assert (K2 : Rabs ((r - c) * / sqrt 3) <= 3 * / 10 ^ 17).
  { rewrite Rabs_mult, (Rabs_right (/ sqrt 3)) by lra. assert (0 <= Rabs (r - c)) by apply Rabs_pos. nra. }
  replace (6 * c * / sqrt 3) with (6 * r * / sqrt 3 - 6 * ((r - c) * / sqrt 3)) by ring. set (d := (r - c) * / sqrt 3) in *. set (g := 6 * r * / sqrt 3) in *.
  unfold Rdec, Rdiv. simpl Z.pow. apply Rabs_le. revert K2. unfold Rabs. destruct (Rcase_abs d); intros; lra.
Qed.
