(** * The five corrections with the three-mass function depend on the mass unit
    Soundness of the tables of UnitFalse.v and the refutations.  Proof tool. *)
From Coq Require Import Reals ZArith List Bool String Lra Lia.
From Verif Require Import Num NumFacts Except Params HierFormulas Dilog LoopFun LoopProofs LoopProofs4 Thresh ThreshTwo Threshold HierExpr HierPoly FieldPoly FieldNF ThreshTree ThreshDeep Grading UnitSpec UnitProofs UnitFalse.
Import ListNotations.
Open Scope R_scope.

Lemma q103_pos : 0 < q103.
Proof. unfold q103. apply sqrt_lt_R0. unfold Rdec. cbn. lra. Qed.
Lemma ln_q (a b : positive) : ln (IZR (Zpos a) / IZR (Zpos b)) = ln (IZR (Zpos a)) - ln (IZR (Zpos b)).
Proof.
  assert (0 < IZR (Zpos a)) by (apply IZR_lt; lia). assert (0 < IZR (Zpos b)) by (apply IZR_lt; lia).
  unfold Rdiv. rewrite ln_mult by (try apply Rinv_0_lt_compat; assumption). rewrite ln_Rinv by assumption. ring.
Qed.
Fixpoint inall {A} (P : A -> Prop) (l : list A) : Prop := match l with [] => True | x :: l => P x /\ inall P l end.
Lemma inall_in {A} (P : A -> Prop) l x : inall P l -> In x l -> P x.
Proof. induction l as [|y l IH]; cbn; [tauto|]. intros (A1 & A2) [-> |H]; auto. Qed.

Section Tables.
  Notation ev := (lev rho0). Notation ok := (lwf 100).
  Lemma pc_ev a d : ev (PC a, d) = IZR a / IZR (Zpos d). Proof. reflexivity. Qed.
  Lemma px_ev v z : ev (PX v 1 (PC z) (PC 0), 1%positive) = rho0 v * IZR z.
  Proof. unfold lev; cbn [fst snd pev]. unfold xp. rewrite pz1. field. Qed.
  Lemma li_ok k v : In (k, v) tab_li -> fun1 1 (ev k) = ev v /\ ok v.
  Proof.
    intros H. refine (inall_in (fun kv => fun1 1 (ev (fst kv)) = ev (snd kv) /\ ok (snd kv)) tab_li (k, v) _ H). clear H k v.
    unfold tab_li; cbn [inall fst snd]. repeat split; try (rewrite pc_ev, px_ev; cbn [rho0]; rewrite Rmult_1_r; reflexivity); try lia; unfold lwf; cbn; lia.
  Qed.
  Lemma ln4 : ln 4 = 2 * ln 2. Proof. replace 4 with (2 * 2) by lra. rewrite ln_mult by lra. ring. Qed.
  Lemma ln6 : ln 6 = ln 2 + ln 3. Proof. replace 6 with (2 * 3) by lra. rewrite ln_mult by lra. ring. Qed.
  Lemma ln8 : ln 8 = 3 * ln 2. Proof. replace 8 with (4 * 2) by lra. rewrite ln_mult, ln4 by lra. ring. Qed.
  Lemma ln9 : ln 9 = 2 * ln 3. Proof. replace 9 with (3 * 3) by lra. rewrite ln_mult by lra. ring. Qed.
  Lemma ln12 : ln 12 = 2 * ln 2 + ln 3. Proof. replace 12 with (4 * 3) by lra. rewrite ln_mult, ln4 by lra. ring. Qed.
  Lemma ln16 : ln 16 = 4 * ln 2. Proof. replace 16 with (8 * 2) by lra. rewrite ln_mult, ln8 by lra. ring. Qed.
  Lemma ln18 : ln 18 = ln 2 + 2 * ln 3. Proof. replace 18 with (9 * 2) by lra. rewrite ln_mult, ln9 by lra. ring. Qed.
  Lemma ln32 : ln 32 = 5 * ln 2. Proof. replace 32 with (16 * 2) by lra. rewrite ln_mult, ln16 by lra. ring. Qed.
  Lemma ln36 : ln 36 = 2 * ln 2 + 2 * ln 3. Proof. replace 36 with (9 * 4) by lra. rewrite ln_mult, ln9, ln4 by lra. ring. Qed.
  Lemma ln64 : ln 64 = 6 * ln 2. Proof. replace 64 with (16 * 4) by lra. rewrite ln_mult, ln16, ln4 by lra. ring. Qed.
  Definition lgP (k : Z * positive) (v : lp) : Prop := ln (IZR (fst k) / IZR (Zpos (snd k))) = ev v /\ ok v.
  Lemma lg_ok k v : In (k, v) tab_lg -> ln (ev k) = ev v /\ ok v.
  Proof.
    intros H. refine (inall_in (fun kv => ln (ev (fst kv)) = ev (snd kv) /\ ok (snd kv)) tab_lg (k, v) _ H). clear H k v.
    assert (P1n : forall x : R, x ^ Pos.to_nat 1 = x) by (intros; change (x * 1 = x); ring).
    unfold tab_lg; cbn [inall fst snd].
    repeat split; rewrite ?pc_ev;
      try (rewrite px_ev; cbn [rho0]; rewrite Rmult_1_r; reflexivity);
      try (right; lia);
      try (rewrite ln_q; rewrite ?ln_1, ?ln4, ?ln6, ?ln8, ?ln9, ?ln12, ?ln16, ?ln18, ?ln32, ?ln36, ?ln64; unfold lev; cbn; unfold xp; rewrite ?pz1, ?P1n; cbn [rho0]; field).
  all: try (right; lia).
  Qed.
  Lemma sq_ok k v : In (k, v) tab_sq -> R_sqrt.sqrt (ev k) = ev v /\ ok v.
  Proof.
    intros H. refine (inall_in (fun kv => R_sqrt.sqrt (ev (fst kv)) = ev (snd kv) /\ ok (snd kv)) tab_sq (k, v) _ H). clear H k v.
    unfold tab_sq; cbn [inall fst snd].
    repeat split; rewrite ?pc_ev; try (right; lia).
    - rewrite px_ev. cbn [rho0]. rewrite Rmult_1_r. unfold q103, Rdec. f_equal.
    - apply sqrt_lem_1; lra.
    - apply sqrt_lem_1; lra.
    - apply sqrt_lem_1; lra.
    - apply sqrt_lem_1; lra.
    - apply sqrt_lem_1; lra.
    - apply sqrt_lem_1; lra.
  Qed.
  Lemma phi4 x y z : phi_xyz (4 * x) (4 * y) (4 * z) = phi_xyz x y z * 4.
  Proof. pose proof (phi_dim 2 x y z ltac:(lra)) as H. change (powerRZ 2 2) with (2 * (2 * 1)) in H. replace (2 * (2 * 1)) with 4 in H by ring. rewrite H. ring. Qed.
  Lemma phi_ok a b c v : In (a, b, c, v) tab_phi -> fun3 1 (ev a) (ev b) (ev c) = ev v /\ ok v.
  Proof.
    intros H. refine (inall_in (fun q => fun3 1 (ev (fst (fst (fst q)))) (ev (snd (fst (fst q)))) (ev (snd (fst q))) = ev (snd q) /\ ok (snd q)) tab_phi (a, b, c, v) _ H). clear H a b c v.
    assert (E : forall x y z, phi_xyz (IZR x / 1) (IZR y / 1) (IZR z / 1) = phi_xyz (IZR x) (IZR y) (IZR z)) by (intros; f_equal; field).
    unfold tab_phi; cbn [inall fst snd].
    repeat split; rewrite ?pc_ev, ?px_ev; try (right; lia); cbn [rho0]; change (fun3 1) with (@phi_xyz R NumR); rewrite E.
    - ring.
    - replace (phi_xyz 4 4 4) with (phi_xyz (4 * 1) (4 * 1) (4 * 1)) by (f_equal; ring). apply phi4.
    - ring.
    - replace (phi_xyz 4 4 36) with (phi_xyz (4 * 1) (4 * 1) (4 * 9)) by (f_equal; ring). apply phi4.
    - ring.
    - replace (phi_xyz 4 36 36) with (phi_xyz (4 * 1) (4 * 9) (4 * 9)) by (f_equal; ring). apply phi4.
    - ring.
    - replace (phi_xyz 4 64 4) with (phi_xyz (4 * 1) (4 * 16) (4 * 1)) by (f_equal; ring). apply phi4.
    - ring.
    - replace (phi_xyz 4 64 36) with (phi_xyz (4 * 1) (4 * 16) (4 * 9)) by (f_equal; ring). apply phi4.
    - rewrite Rmult_1_r. exact (proj1 (phi_sym 1 9 1)).
    - replace (phi_xyz 4 36 4) with (phi_xyz (4 * 1) (4 * 9) (4 * 1)) by (f_equal; ring). rewrite phi4. f_equal. exact (proj1 (phi_sym 1 9 1)).
  Qed.
  Lemma env0_zero e : fcheck env0 e = true -> rev u0 fun1 fun2 fun3 e = 0.
  Proof.
    apply (fcheck_sound env0 rho0 u0 fun1 fun2 fun3).
    - intros v Hv. cbn [f_K env0] in Hv. destruct (Pos.eq_dec v 102) as [-> |N]; [exact (Rgt_not_eq _ _ q103_pos)|].
      assert (E : rho0 v = 1). { do 8 (destruct v as [v|v|]; try reflexivity; try lia). }
      rewrite E. lra.
    - split; [cbn; lia|cbn; ring].
    - intros v. cbn [f_var env0]. split.
      + destruct (Pos.eq_dec v 7) as [-> |N]; [cbn [u0]; rewrite px_ev; cbn [rho0]; ring|].
        transitivity 0; [unfold u0; do 3 (destruct v as [v|v|]; try reflexivity); tauto|].
        transitivity (ev (PC 0, 1%positive)); [unfold lev; cbn; field|]. do 3 (destruct v as [v|v|]; try reflexivity); tauto.
      + destruct (Pos.eq_dec v 7) as [-> |N]; [unfold lwf; cbn; repeat split; right; lia|].
        do 3 (destruct v as [v|v|]; try exact I); tauto.
    - intros c. cbn [f_const env0]. split; [rewrite px_ev; destruct c; cbn [cnum rho0]; ring|]. unfold lwf; cbn. repeat split; try lia.
    - intros v l H. discriminate.
    - intros D v [].
    - exact li_ok.
    - exact lg_ok.
    - exact sq_ok.
    - exact phi_ok.
  Qed.
End Tables.

(** ** leaves at the points *)
Fixpoint xin (l : list positive) (e : rx) : bool :=
  match e with
  | XV v => existsb (Pos.eqb v) l
  | XAdd a b | XSub a b | XMul a b | XDiv a b | XSel _ a b | XF2 _ a b => xin l a && xin l b
  | XNeg a | XLog a | XSqrt a | XAbs a | XF1 _ a => xin l a
  | XF3 _ a b c => xin l a && xin l b && xin l c
  | _ => true
  end.
Lemma xin_ev l u u' e : (forall v, In v l -> u v = u' v) -> xin l e = true -> rev u fun1 fun2 fun3 e = rev u' fun1 fun2 fun3 e.
Proof.
  intros Hu. induction e; cbn [xin rev]; rewrite ?andb_true_iff; intros H; try reflexivity; try (rewrite IHe by tauto; reflexivity);
    try (rewrite IHe1, IHe2 by tauto; reflexivity); try (rewrite IHe1, IHe2, IHe3 by tauto; reflexivity).
  apply existsb_exists in H. destruct H as (w & Hw & E). apply Pos.eqb_eq in E. subst w. apply Hu. exact Hw.
Qed.
Lemma calcV_pt a b c : calcV (pt a b c) = 5.
Proof. unfold calcV, calcV2, pt. cbn. unfold pow2. cbn. apply sqrt_lem_1; lra. Qed.
Lemma calcV_pt6 a : calcV (pt6 a) = 5.
Proof. unfold calcV, calcV2, pt6. cbn. unfold pow2. cbn. apply sqrt_lem_1; lra. Qed.
Definition lv : list positive := [1; 2; 3; 4; 5; 6; 12; 15; 20; 21; 22; 25; 26; 27; 28; 35; 36; 37]%positive.
Notation RV := (rev u0 fun1 fun2 fun3).
Lemma pt_leaf a b c v : In v lv -> leafR (pt (IZR a) (IZR b) (IZR c)) 1 1 v = RV (leafX 1 a b c v).
Proof.
  intros H. cbn [lv In] in H.
  assert (P : Rpower (2 * 2) (Rdec 15 1) = 8).
  { replace (2 * 2) with (Rpower 2 2). - rewrite Rpower_mult. replace (2 * Rdec 15 1) with (INR 3) by (unfold Rdec; cbn; lra). rewrite Rpower_pow by lra. cbn. ring.
    - replace 2 with (INR 2) at 2 by (cbn; ring). rewrite Rpower_pow by lra. cbn. ring. }
  repeat (destruct H as [<- |H]; [cbn [leafR leafX rev]; unfold calcXt, calcXb, calcXtau, calcYt, calcYb, calcYtau, calcSinBeta, calcCosBeta, calcTanBeta; rewrite ?calcV_pt; cbn;
    try reflexivity; try (rewrite ?Z.mul_1_r; try (destruct a as [|a|a]); try (destruct b as [|b|b]); try (destruct c as [|c|c]); cbn; try reflexivity; field; fail)|]);
    try contradiction.
  exact P.
Qed.
Ltac pw := cbn [leafD leafX leafX6 rev]; rewrite ?pz0, ?pz1, ?pz2; try change (powerRZ 2 3) with (2 ^ 3); rewrite ?mult_IZR; field.
Lemma pt_leaf2 a b c v : In v lv -> leafR (rescale 2 (pt (IZR a) (IZR b) (IZR c))) (2 ^ 2 * 1) 1 v = RV (leafX 2 a b c v).
Proof.
  intros H. assert (E : leafR (rescale 2 (pt (IZR a) (IZR b) (IZR c))) (2 ^ 2 * 1) 1 v = powerRZ 2 (leafD v) * leafR (pt (IZR a) (IZR b) (IZR c)) 1 1 v).
  { destruct (Pos.eq_dec v 1) as [-> |N]; [apply leaf_mu3; cbn; lra|apply leaf_s; [lra|exact N]]. }
  rewrite E, (pt_leaf a b c v H). clear E. cbn [lv In] in H.
  repeat (destruct H as [<- |H]; [pw|]). contradiction.
Qed.
Definition lv6 : list positive := [2; 3; 5; 20; 21; 22; 25; 27; 28; 36]%positive.
Lemma pt6_leaf a v : In v lv6 -> leafR (pt6 (IZR a)) 1 1 v = RV (leafX6 1 a 0 0 v).
Proof.
  intros H. cbn [lv6 In] in H. pose proof q103_pos as Q.
  repeat (destruct H as [<- |H]; [cbn [leafR leafX6 rev]; unfold calcXt, calcYt, calcSinBeta, calcCosBeta, calcTanBeta; rewrite ?calcV_pt6; cbn; fold q103;
    try reflexivity; rewrite ?Z.mul_1_r; try (destruct a as [|a|a]); cbn; try reflexivity; field; try lra|]);
    try contradiction.
Qed.
Lemma pt6_leaf2 a v : In v lv6 -> leafR (rescale 2 (pt6 (IZR a))) (2 ^ 2 * 1) 1 v = RV (leafX6 2 a 0 0 v).
Proof.
  intros H. pose proof q103_pos as Q. unfold q103 in Q. assert (E : leafR (rescale 2 (pt6 (IZR a))) (2 ^ 2 * 1) 1 v = powerRZ 2 (leafD v) * leafR (pt6 (IZR a)) 1 1 v).
  { apply leaf_s; [lra|]. intros ->. cbn in H. repeat (destruct H as [H|H]; [discriminate|]). exact H. }
  rewrite E, (pt6_leaf a v H). clear E. cbn [lv6 In] in H.
  repeat (destruct H as [<- |H]; [pw; try lra|]). contradiction.
Qed.

(** ** Phi(1,1,1) is not 0 *)
Lemma phi111 : phi_xyz 1 1 1 <> 0.
Proof.
  unfold phi_xyz, phi_uv. assert (S1 : sort3 1 1 1 = ((1, 1, 1) : R * R * R)).
  { unfold sort3. repeat (destruct (nltb _ _)); reflexivity. }
  rewrite S1. replace (@ndiv R NumR 1 1) with 1 by (cbn; field).
  assert (L : lambda_2 1 1 = -3) by (unfold lambda_2, pow2; cbn; ring). rewrite L.
  assert (E0 : 0 < phi_eps < 1) by (unfold phi_eps; unR; rewrite eps_defaultR; unfold Rdec; cbn; lra).
  rewrite is_zeroR_false by (rewrite Rabs_left by lra; lra).
  change (@nltb R NumR (@nint R NumR 0) (-3)) with (Rltb 0 (-3)). rewrite Rltb_false by lra.
  unfold phi_neg. rewrite is_equalR_true by (rewrite Rminus_diag_eq by reflexivity; rewrite Rabs_R0; lra). cbn [andb].
  unfold Rdec; cbn; unfold Rdec; lra.
Qed.

(** ** the refutations *)
Lemma sub_ev u u' l (L : Z -> positive -> rx) x k : xin l (genr x) = true -> (forall v, In v l -> u v = RV (L k v)) -> (forall v, u v = u' v) ->
  RV (xsub (L k) (genr x)) = rev u' fun1 fun2 fun3 (genr x).
Proof. intros A B C. rewrite xsub_ok. apply (xin_ev l); [|exact A]. intros v Hv. rewrite <- B, C by exact Hv. reflexivity. Qed.
Section One.
  Variables (x : rs) (f : Params R -> R) (l : list positive) (L : Z -> Z -> positive -> rx) (P : Z -> Params R).
  Hypothesis Hx : xin l (genr x) = true.
  Hypothesis Hf : forall p m, (exists a, p = P a \/ p = rescale 2 (P a)) -> f p = rev (leafR p m 1) fun1 fun2 fun3 (genr x).
  Hypothesis H1 : forall a v, In v l -> leafR (P a) 1 1 v = RV (L a 1%Z v).
  Hypothesis H2 : forall a v, In v l -> leafR (rescale 2 (P a)) (2 ^ 2 * 1) 1 v = RV (L a 2%Z v).
  Lemma at2_ev a : RV (at2 (L a) x) = f (rescale 2 (P a)) - f (P a).
  Proof.
    unfold at2. cbn [rev]. f_equal.
    - rewrite (Hf (rescale 2 (P a)) (2 ^ 2 * 1)) by (exists a; right; reflexivity). eapply sub_ev; [exact Hx|exact (H2 a)|reflexivity].
    - rewrite (Hf (P a) 1) by (exists a; left; reflexivity). eapply sub_ev; [exact Hx|exact (H1 a)|reflexivity].
  Qed.
End One.

Lemma sevT_if (u : positive -> R) (x : rs) (c : cx) : (match x with SIf c' _ (SRet _) => c' = c | _ => False end) -> cev fun3 u c = false ->
  sevT u x = rev u fun1 fun2 fun3 (genr x).
Proof. destruct x as [|c' a b|]; try tauto. destruct b; try tauto. intros -> H. unfold sevT; cbn [sevTG genr]. rewrite H. reflexivity. Qed.
Definition q1 (v : positive) := CLt (XAbs (XSub (XSqrt (XV v)) (XSqrt (XV 3)))) (XMul (XSqrt (XV 3)) (XDec 1 2)).
Lemma q1_far u v k j : u v = j * j -> u 3%positive = k * k -> 0 < k -> 3 * k <= j -> cev fun3 u (q1 v) = false.
Proof.
  intros Hv H3 Hk Hj. unfold q1; cbn [cev rev]. rewrite Hv, H3, !sqrt_square by lra. cbn. apply Rltb_false. unfold Rdec; cbn. rewrite Rabs_pos_eq; lra.
Qed.
Lemma Yb6_at a : RV (at2 (fun k => leafX k 0 a 0) d_getDeltaLambdaYb6) = getDeltaLambdaYb6 (rescale 2 (pt 0 (IZR a) 0)) 1 - getDeltaLambdaYb6 (pt 0 (IZR a) 0) 1.
Proof.
  apply (at2_ev d_getDeltaLambdaYb6 (fun p => getDeltaLambdaYb6 p 1) lv (fun a k => leafX k 0 a 0) (fun a => pt 0 (IZR a) 0)).
  - vm_compute. reflexivity.
  - intros p m (b & Hp). rewrite (d_getDeltaLambdaYb6_eq p m). apply (sevT_if _ _ (CAnd (CAnd (q1 4) (CLt (XAbs (XSub (XV 21) (XSqrt (XV 3)))) (XMul (XSqrt (XV 3)) (XDec 1 2)))) (CLt (XAbs (XSub (XV 22) (XSqrt (XV 3)))) (XMul (XSqrt (XV 3)) (XDec 1 2))))); [vm_compute; reflexivity|].
    destruct Hp as [-> | ->].
    + cbn [cev]. rewrite (q1_far _ 4 1 3); [reflexivity|cbn; lra|cbn; lra|lra|lra].
    + cbn [cev]. rewrite (q1_far _ 4 2 6); [reflexivity|cbn; lra|cbn; lra|lra|lra].
  - intros b v. exact (pt_leaf 0 b 0 v).
  - intros b v. exact (pt_leaf2 0 b 0 v).
Qed.
Lemma Yb6_refuted : exists p : Params R, getDeltaLambdaYb6 (rescale 2 p) 1 <> getDeltaLambdaYb6 p 1.
Proof.
  pose proof (env0_zero _ id_Yb6_ok) as H. unfold id_Yb6 in H. cbn [rev] in H.
  rewrite !Yb6_at in H. change (fun3 1 1 1 1) with (@phi_xyz R NumR 1 1 1) in H. pose proof phi111 as N.
  set (f := fun p : Params R => getDeltaLambdaYb6 p 1) in *.
  destruct (Req_dec (f (rescale 2 (pt 0 (-3) 0))) (f (pt 0 (-3) 0))) as [E0|]; [|exists (pt 0 (-3) 0); assumption].
  destruct (Req_dec (f (rescale 2 (pt 0 (-2) 0))) (f (pt 0 (-2) 0))) as [E1|]; [|exists (pt 0 (-2) 0); assumption].
  destruct (Req_dec (f (rescale 2 (pt 0 (-1) 0))) (f (pt 0 (-1) 0))) as [E2|]; [|exists (pt 0 (-1) 0); assumption].
  exfalso. apply N. unfold f in *. lra.
Qed.
Lemma Ytau6_at a : RV (at2 (fun k => leafX k 0 0 a) d_getDeltaLambdaYtau6) = getDeltaLambdaYtau6 (rescale 2 (pt 0 0 (IZR a))) 1 - getDeltaLambdaYtau6 (pt 0 0 (IZR a)) 1.
Proof.
  apply (at2_ev d_getDeltaLambdaYtau6 (fun p => getDeltaLambdaYtau6 p 1) lv (fun a k => leafX k 0 0 a) (fun a => pt 0 0 (IZR a))).
  - vm_compute. reflexivity.
  - intros p m (b & Hp). rewrite (d_getDeltaLambdaYtau6_eq p m). apply (sevT_if _ _ (CLt (XAbs (XSub (XSqrt (XV 12)) (XSqrt (XV 15)))) (XMul (XDec 1 1) (XSqrt (XV 12))))); [vm_compute; reflexivity|].
    destruct Hp as [-> | ->].
    + cbn [cev rev]. change (leafR (pt _ _ _) m 1 12) with 9. change (leafR (pt _ _ _) m 1 15) with 1. replace 9 with (3 * 3) by lra. rewrite sqrt_square, sqrt_1 by lra. cbn. apply Rltb_false. unfold Rdec; cbn. rewrite Rabs_pos_eq; lra.
    + cbn [cev rev]. change (leafR (rescale 2 (pt _ _ _)) m 1 12) with (2 ^ 2 * 9). change (leafR (rescale 2 (pt _ _ _)) m 1 15) with (2 ^ 2 * 1). replace (2 ^ 2 * 9) with (6 * 6) by ring. replace (2 ^ 2 * 1) with (2 * 2) by ring. rewrite !sqrt_square by lra. cbn. apply Rltb_false. unfold Rdec; cbn. rewrite Rabs_pos_eq; lra.
  - intros b v. exact (pt_leaf 0 0 b v).
  - intros b v. exact (pt_leaf2 0 0 b v).
Qed.
Lemma Ytau6_refuted : exists p : Params R, getDeltaLambdaYtau6 (rescale 2 p) 1 <> getDeltaLambdaYtau6 p 1.
Proof.
  pose proof (env0_zero _ id_Ytau6_ok) as H. unfold id_Ytau6 in H. cbn [rev] in H.
  rewrite !Ytau6_at in H. change (fun3 1 1 1 1) with (@phi_xyz R NumR 1 1 1) in H. pose proof phi111 as N.
  set (f := fun p : Params R => getDeltaLambdaYtau6 p 1) in *.
  destruct (Req_dec (f (rescale 2 (pt 0 0 (-3)))) (f (pt 0 0 (-3)))) as [E0|]; [|exists (pt 0 0 (-3)); assumption].
  destruct (Req_dec (f (rescale 2 (pt 0 0 (-2)))) (f (pt 0 0 (-2)))) as [E1|]; [|exists (pt 0 0 (-2)); assumption].
  destruct (Req_dec (f (rescale 2 (pt 0 0 (-1)))) (f (pt 0 0 (-1)))) as [E2|]; [|exists (pt 0 0 (-1)); assumption].
  exfalso. apply N. unfold f in *. lra.
Qed.
Lemma Yt2Yb4_at a : RV (at2 (fun k => leafX k 0 a 0) d_getDeltaLambdaYt2Yb4) = getDeltaLambdaYt2Yb4 (rescale 2 (pt 0 (IZR a) 0)) 1 - getDeltaLambdaYt2Yb4 (pt 0 (IZR a) 0) 1.
Proof.
  apply (at2_ev d_getDeltaLambdaYt2Yb4 (fun p => getDeltaLambdaYt2Yb4 p 1) lv (fun a k => leafX k 0 a 0) (fun a => pt 0 (IZR a) 0)).
  - vm_compute. reflexivity.
  - intros p m (b & Hp). rewrite (d_getDeltaLambdaYt2Yb4_eq p m). apply (sevT_if _ _ (CAnd (CAnd (q1 20) (q1 4)) (CLt (XAbs (XSub (XV 22) (XSqrt (XV 3)))) (XMul (XSqrt (XV 3)) (XDec 1 2))))); [vm_compute; reflexivity|].
    destruct Hp as [-> | ->].
    + cbn [cev]. rewrite (q1_far _ 20 1 4); [reflexivity|cbn; lra|cbn; lra|lra|lra].
    + cbn [cev]. rewrite (q1_far _ 20 2 8); [reflexivity|cbn; lra|cbn; lra|lra|lra].
  - intros b v. exact (pt_leaf 0 b 0 v).
  - intros b v. exact (pt_leaf2 0 b 0 v).
Qed.
Lemma Yt2Yb4_refuted : exists p : Params R, getDeltaLambdaYt2Yb4 (rescale 2 p) 1 <> getDeltaLambdaYt2Yb4 p 1.
Proof.
  pose proof (env0_zero _ id_Yt2Yb4_ok) as H. unfold id_Yt2Yb4 in H. cbn [rev] in H.
  rewrite !Yt2Yb4_at in H. change (fun3 1 1 1 1) with (@phi_xyz R NumR 1 1 1) in H. pose proof phi111 as N.
  set (f := fun p : Params R => getDeltaLambdaYt2Yb4 p 1) in *.
  destruct (Req_dec (f (rescale 2 (pt 0 (-3) 0))) (f (pt 0 (-3) 0))) as [E0|]; [|exists (pt 0 (-3) 0); assumption].
  destruct (Req_dec (f (rescale 2 (pt 0 (-2) 0))) (f (pt 0 (-2) 0))) as [E1|]; [|exists (pt 0 (-2) 0); assumption].
  destruct (Req_dec (f (rescale 2 (pt 0 (-1) 0))) (f (pt 0 (-1) 0))) as [E2|]; [|exists (pt 0 (-1) 0); assumption].
  destruct (Req_dec (f (rescale 2 (pt 0 0 0))) (f (pt 0 0 0))) as [E3|]; [|exists (pt 0 0 0); assumption].
  exfalso. apply N. unfold f in *. lra.
Qed.
Lemma Yt4Yb2_at a : RV (at2 (fun k => leafX k a 0 0) d_getDeltaLambdaYt4Yb2) = getDeltaLambdaYt4Yb2 (rescale 2 (pt (IZR a) 0 0)) 1 - getDeltaLambdaYt4Yb2 (pt (IZR a) 0 0) 1.
Proof.
  apply (at2_ev d_getDeltaLambdaYt4Yb2 (fun p => getDeltaLambdaYt4Yb2 p 1) lv (fun a k => leafX k a 0 0) (fun a => pt (IZR a) 0 0)).
  - vm_compute. reflexivity.
  - intros p m (b & Hp). rewrite (d_getDeltaLambdaYt4Yb2_eq p m). apply (sevT_if _ _ (CAnd (CAnd (q1 20) (q1 4)) (CLt (XAbs (XSub (XV 22) (XSqrt (XV 3)))) (XMul (XSqrt (XV 3)) (XDec 1 2))))); [vm_compute; reflexivity|].
    destruct Hp as [-> | ->].
    + cbn [cev]. rewrite (q1_far _ 20 1 4); [reflexivity|cbn; lra|cbn; lra|lra|lra].
    + cbn [cev]. rewrite (q1_far _ 20 2 8); [reflexivity|cbn; lra|cbn; lra|lra|lra].
  - intros b v. exact (pt_leaf b 0 0 v).
  - intros b v. exact (pt_leaf2 b 0 0 v).
Qed.
Lemma Yt4Yb2_refuted : exists p : Params R, getDeltaLambdaYt4Yb2 (rescale 2 p) 1 <> getDeltaLambdaYt4Yb2 p 1.
Proof.
  pose proof (env0_zero _ id_Yt4Yb2_ok) as H. unfold id_Yt4Yb2 in H. cbn [rev] in H.
  rewrite !Yt4Yb2_at in H. change (fun3 1 1 1 1) with (@phi_xyz R NumR 1 1 1) in H. pose proof phi111 as N.
  set (f := fun p : Params R => getDeltaLambdaYt4Yb2 p 1) in *.
  destruct (Req_dec (f (rescale 2 (pt (-3) 0 0))) (f (pt (-3) 0 0))) as [E0|]; [|exists (pt (-3) 0 0); assumption].
  destruct (Req_dec (f (rescale 2 (pt (-2) 0 0))) (f (pt (-2) 0 0))) as [E1|]; [|exists (pt (-2) 0 0); assumption].
  destruct (Req_dec (f (rescale 2 (pt (-1) 0 0))) (f (pt (-1) 0 0))) as [E2|]; [|exists (pt (-1) 0 0); assumption].
  destruct (Req_dec (f (rescale 2 (pt 0 0 0))) (f (pt 0 0 0))) as [E3|]; [|exists (pt 0 0 0); assumption].
  exfalso. apply N. unfold f in *. lra.
Qed.
Lemma yt6_rel (a b k : R) : a = k * (50 / 51) -> b = k * (450 / 49) -> k = 1 \/ k = 4 -> is_equal_rel a b (Rdec 1 1) = false.
Proof.
  intros Ea Eb Hk.
  assert (A : 0 < a) by (destruct Hk; subst; lra). assert (B : 0 < b) by (destruct Hk; subst; lra).
  assert (DA : dabs a = a) by (unfold dabs; cbn; rewrite Rleb_true by lra; reflexivity).
  assert (DB : dabs b = b) by (unfold dabs; cbn; rewrite Rleb_true by lra; reflexivity).
  unfold is_equal_rel. rewrite DA, DB. unfold stdmin, stdmax; cbn [nltb NumR].
  rewrite is_equalR_false by (rewrite eps_defaultR; rewrite Rabs_left; destruct Hk; subst; lra).
  rewrite (Rltb_false b a) by (destruct Hk; subst; lra). rewrite (Rltb_true a b) by (destruct Hk; subst; lra).
  rewrite (Rltb_false a) by (rewrite eps_defaultR; destruct Hk; subst; lra).
  apply is_equalR_false. cbn. unfold Rdec; cbn. rewrite Rabs_left; destruct Hk; subst; lra.
Qed.
Lemma Yt6_at a : RV (at2 (fun k => leafX6 k a 0 0) d_getDeltaLambdaYt6) = getDeltaLambdaYt6 (rescale 2 (pt6 (IZR a))) 1 - getDeltaLambdaYt6 (pt6 (IZR a)) 1.
Proof.
  apply (at2_ev d_getDeltaLambdaYt6 (fun p => getDeltaLambdaYt6 p 1) lv6 (fun a k => leafX6 k a 0 0) (fun a => pt6 (IZR a))).
  - vm_compute. reflexivity.
  - intros p m (b & Hp). rewrite (d_getDeltaLambdaYt6_eq p m).
    apply (sevT_if _ _ (CAnd (CRel (XV 3) (XV 20) (XDec 1 1)) (COr (CRel (XV 3) (XMul (XV 21) (XV 21)) (XDec 1 1)) (CRel (XV 20) (XMul (XV 21) (XV 21)) (XDec 1 1))))); [vm_compute; reflexivity|].
    cbn [cev]. destruct Hp as [-> | ->]; cbn [rev].
    + rewrite (yt6_rel _ _ 1); [reflexivity|cbn; lra|cbn; lra|lra].
    + rewrite (yt6_rel _ _ 4); [reflexivity|cbn; lra|cbn; lra|lra].
  - intros b v. exact (pt6_leaf b v).
  - intros b v. exact (pt6_leaf2 b v).
Qed.
Lemma Yt6_refuted : exists p : Params R, getDeltaLambdaYt6 (rescale 2 p) 1 <> getDeltaLambdaYt6 p 1.
Proof.
  pose proof (env0_zero _ id_Yt6_ok) as H. unfold id_Yt6 in H. cbn [rev] in H.
  rewrite !Yt6_at in H. change (fun3 1 1 1 1) with (@phi_xyz R NumR 1 1 1) in H. pose proof phi111 as N. fold q103 in H. pose proof q103_pos as Q.
  set (f := fun p : Params R => getDeltaLambdaYt6 p 1) in *.
  destruct (Req_dec (f (rescale 2 (pt6 (-3)))) (f (pt6 (-3)))) as [E0|]; [|exists (pt6 (-3)); assumption].
  destruct (Req_dec (f (rescale 2 (pt6 (-2)))) (f (pt6 (-2)))) as [E1|]; [|exists (pt6 (-2)); assumption].
  destruct (Req_dec (f (rescale 2 (pt6 (-1)))) (f (pt6 (-1)))) as [E2|]; [|exists (pt6 (-1)); assumption].
  destruct (Req_dec (f (rescale 2 (pt6 (1)))) (f (pt6 (1)))) as [E3|]; [|exists (pt6 (1)); assumption].
  destruct (Req_dec (f (rescale 2 (pt6 (2)))) (f (pt6 (2)))) as [E4|]; [|exists (pt6 (2)); assumption].
  destruct (Req_dec (f (rescale 2 (pt6 (3)))) (f (pt6 (3)))) as [E5|]; [|exists (pt6 (3)); assumption].
  exfalso. assert (Z : phi_xyz 1 1 1 / q103 = 0) by (unfold f in *; lra). apply N.
  replace (phi_xyz 1 1 1) with (phi_xyz 1 1 1 / q103 * q103) by (field; lra). rewrite Z. ring.
Qed.
