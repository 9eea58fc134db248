(** * Property theorems C65-C71: the fourteen hierarchy classes H3, ..., H9q2
    [hier_lib h d args mdr f1 f2 f3] is the model of "construct the class with hierarchy number h, call its seven member
    functions" (HierLib.v, HierH*.v); [hout g] picks one of them: FS1, FS2, FS12 the self energies getS1, getS2, getS12,
    FC0..FC3 the coefficients of the powers of the logarithm in Delta lambda.  Quantities are written in terms of a
    point [i : Inp] (HierInp.v); [C65_matrix] says what it has to do with the user's parameters.
    Some of the classes contain decimal literals which are rational numbers printed with 16 digits; a statement about
    [hier_lib_lit reading_P] is about the program with these literals replaced by the rational numbers (HierRead.v);
    [C65_readings] bounds the difference. *)
From Coq Require Import ZArith List Reals Lra Lia Bool.
From Verif Require Import Num NumFacts Except HObj Params HierFormulas HierCalc HierSpec HierProofs3 HierExpr HierLib HierInp HierNF HierLit HierOrder HierCheck
  HierAgree HierSibling HierProj HierFalse.
From Verif Require PropHier.
Import ListNotations.
Local Open Scope R_scope.

(** ** C65: constructor arguments, data members, definedness *)
(** [i] are the quantities of parameter point [p] at loop order [k] *)
Definition point_of (p : Params PR) (ab : bool) (h mdr k : Z) (i : Inp) : Prop :=
  fMass p ab = Some (i_mf i) /\ sfS2 p ab = Some (i_s2 i) /\ calcMeanMsq p = Some (i_msq i) /\ scale p = Some (i_scale i) /\
  calcAsOver4Pi p = Some (i_al i) /\ calcBeta p = Some (i_beta i) /\ MG p = Some (i_mg i) /\ Params.mu p = Some (i_mu i) /\
  (if ab then a22 (Ad p) else a22 (Au p)) = Some (i_At i) /\
  calcMsfMDRFlag p ab h mdr k = Ok (Some (i_m1 i), Some (i_m2 i)) /\
  i_Dq2 i = i_msq i - i_m2 i /\ inp_ok i.
(** 3/(2 pi^2 vu^2) *)
Definition prefactor (vu : R) : R := 3 / (2 * (PI * vu * (PI * vu))).

Lemma order_val (X : Env PR) p d ab h mdr k i : env_hier X = hier_lib -> is_hierarchy h -> point_of p ab h mdr k i ->
  hier_order X p d ab h mdr k
  = Ok (hier_lib h d (arg_list h i) mdr (if (k =? 1)%Z then 1%Z else 0%Z) (if (k =? 2)%Z then 1%Z else 0%Z) (if (k =? 3)%Z then 1%Z else 0%Z),
        Some (lmass i (i_m1 i))).
Proof.
  intros EX Hh (E1 & E2 & E3 & E4 & E5 & E6 & E7 & E8 & E9 & E10 & E11 & Hi).
  unfold hier_order. rewrite E10. cbn [bind]. rewrite (hier_args_inp p ab h i Hh Hi E1 E2 E3 E4 E5 E6 E7 E8 E9 E11). rewrite EX. f_equal. f_equal.
  rewrite E4. destruct Hi as (P1 & _ & P3 & _).
  change (@ndiv PR NumP (Some (i_scale i)) (Some (i_m1 i))) with (pdiv (Some (i_scale i)) (Some (i_m1 i))).
  rewrite pdiv_some by lra.
  change (pguard (fun x => Rltb 0 x) ln (Some (i_scale i / i_m1 i * (i_scale i / i_m1 i))) = Some (lmass i (i_m1 i))).
  rewrite plog_some; [reflexivity|]. apply Rmult_lt_0_compat; apply Rdiv_lt_0_compat; assumption.
Qed.
Lemma pref_val (p : Params PR) v : vu p = Some v -> 0 < v -> calcHiggsMassMatrixPrefactor p = Some (prefactor v).
Proof.
  intros E Hv. unfold calcHiggsMassMatrixPrefactor. rewrite E.
  assert (P := PI_RGT_0).
  change (pdiv (Some 3) (Some (2 * (PI * v * (PI * v)))) = Some (prefactor v)).
  rewrite pdiv_some; [reflexivity|]. apply Rgt_not_eq. apply Rmult_lt_0_compat; [lra|]. apply Rmult_lt_0_compat; apply Rmult_lt_0_compat; assumption.
Qed.

(** the seven numbers of class h at the point i *)
Definition outputs (h : Z) (d : Depth) (i : Inp) (mdr f1 f2 f3 : Z) (s1 s2 s12 c0 c1 c2 c3 : R) : Prop :=
  hier_lib h d (arg_list h i) mdr f1 f2 f3 = mkHierOut (Some s1 : PR) (Some s2) (Some s12) (Some c0) (Some c1) (Some c2) (Some c3).

(** all seven numbers exist at every point with positive masses and 0 < beta < pi/2 *)
Theorem C65_defined : forall h d i mdr f1 f2 f3, is_hierarchy h -> inp_ok i ->
  exists s1 s2 s12 c0 c1 c2 c3, outputs h d i mdr f1 f2 f3 s1 s2 s12 c0 c1 c2 c3.
Proof.
  intros h d i mdr f1 f2 f3 Hh Hi.
  assert (EA : with_al i (i_al i) = i) by (destruct i; reflexivity).
  assert (A : forall g, In g [FS1; FS2; FS12; FC0; FC1; FC2; FC3] -> exists x : R, hout g (hier_lib h d (arg_list h i) mdr f1 f2 f3) = Some x).
  { intros g Hg. cbn in Hg.
    assert (In g [FS1; FS2; FS12] \/ In g [FC0; FC1; FC2; FC3]) as [H|H] by (cbn; tauto).
    - destruct (hier_loops h g Hh H i d mdr Hi) as (a & b & c & E). specialize (E (i_al i) f1 f2 f3). rewrite EA in E. eauto.
    - destruct (hier_coefs h g Hh H i Hi) as (a & E). specialize (E (i_al i) d mdr f1 f2 f3). rewrite EA in E. eauto. }
  destruct (A FS1 ltac:(cbn; tauto)) as (s1 & E1). destruct (A FS2 ltac:(cbn; tauto)) as (s2 & E2). destruct (A FS12 ltac:(cbn; tauto)) as (s12 & E12).
  destruct (A FC0 ltac:(cbn; tauto)) as (c0 & F0). destruct (A FC1 ltac:(cbn; tauto)) as (c1 & F1). destruct (A FC2 ltac:(cbn; tauto)) as (c2 & F2).
  destruct (A FC3 ltac:(cbn; tauto)) as (c3 & F3). clear A.
  exists s1, s2, s12, c0, c1, c2, c3. unfold outputs.
  destruct (hier_lib h d (arg_list h i) mdr f1 f2 f3) as [a b c e f g k] eqn:E.
  cbn [hout getS1 getS2 getS12 coef0 coef1 coef2 coef3] in *. subst. reflexivity.
Qed.
Print Assumptions C65_defined.

(** which point each constructor works with: calculateHierarchy at one and two loops *)
Theorem C65_matrix : forall (X : Env PR) (p : Params PR) (d : Depth) (ho : HO PR) (k : Z) (i : Inp) (v : R),
  env_hier X = hier_lib -> is_hierarchy (hierarchy ho) -> vu p = Some v -> 0 < v -> (k = 1 \/ k = 2)%Z ->
  point_of p (isAlphab ho) (hierarchy ho) (mdrFlag ho) k i ->
  exists s1 s2 s12 c0 c1 c2 c3 : R,
    outputs (hierarchy ho) d i (mdrFlag ho) (if (k =? 1)%Z then 1 else 0) (if (k =? 2)%Z then 1 else 0) 0 s1 s2 s12 c0 c1 c2 c3 /\
    calculateHierarchy X p d ho (if (k =? 1)%Z then 1 else 0) (if (k =? 2)%Z then 1 else 0) 0
    = Ok (ho, mkM2 (Some (prefactor v * s1)) (Some (prefactor v * s12)) (Some (prefactor v * s12)) (Some (prefactor v * s2))).
Proof.
  intros X p d ho k i v EX Hh Ev Hv Hk Hp.
  destruct (C65_defined (hierarchy ho) d i (mdrFlag ho) (if (k =? 1)%Z then 1 else 0) (if (k =? 2)%Z then 1 else 0) 0 Hh) as (s1 & s2 & s12 & c0 & c1 & c2 & c3 & O).
  { apply Hp. }
  exists s1, s2, s12, c0, c1, c2, c3. split; [exact O|].
  assert (OV := order_val X p d (isAlphab ho) (hierarchy ho) (mdrFlag ho) k i EX Hh Hp).
  unfold outputs in O. unfold calculateHierarchy. rewrite (pref_val p v Ev Hv).
  destruct Hk as [-> | ->]; cbn [Z.eqb Pos.eqb andb bind] in *; rewrite OV; cbn [bind]; rewrite O;
    cbn [getS1 getS2 getS12]; unfold mat2_scale; cbn [m00 m01 m10 m11].
  - assert (Q : forall x : R, @nmul PR NumP (Some (prefactor v)) (@nadd PR NumP (@nint PR NumP 0) (Some x)) = Some (prefactor v * x)).
    { intros x. change (Some (prefactor v * (0 + x)) = (Some (prefactor v * x) : option R)). apply f_equal. ring. }
    rewrite !Q. reflexivity.
  - assert (Q : forall x : R, @nmul PR NumP (Some (prefactor v)) (@nadd PR NumP (@nint PR NumP 0) (Some x)) = Some (prefactor v * x)).
    { intros x. change (Some (prefactor v * (0 + x)) = (Some (prefactor v * x) : option R)). apply f_equal. ring. }
    rewrite !Q. reflexivity.
Qed.
Print Assumptions C65_matrix.

(** ... and at three loops, where it also stores Delta lambda *)
Theorem C65_three_loops : forall (X : Env PR) (p : Params PR) (d : Depth) (ho : HO PR) (i : Inp) (v : R),
  env_hier X = hier_lib -> is_hierarchy (hierarchy ho) -> vu p = Some v -> 0 < v ->
  point_of p (isAlphab ho) (hierarchy ho) (mdrFlag ho) 3 i ->
  exists s1 s2 s12 c0 c1 c2 c3 : R, exists o : HO PR,
    outputs (hierarchy ho) d i (mdrFlag ho) 0 0 1 s1 s2 s12 c0 c1 c2 c3 /\
    calculateHierarchy X p d ho 0 0 1
    = Ok (o, mkM2 (Some (prefactor v * s1)) (Some (prefactor v * s12)) (Some (prefactor v * s12)) (Some (prefactor v * s2))) /\
    dLambdaH3m o = Some (delta_lambda (lmass i (i_m1 i)) c0 c1 c2 c3) /\ dLambdaNonLog o = Some c0.
Proof.
  intros X p d ho i v EX Hh Ev Hv Hp.
  destruct (C65_defined (hierarchy ho) d i (mdrFlag ho) 0 0 1 Hh) as (s1 & s2 & s12 & c0 & c1 & c2 & c3 & O); [apply Hp|].
  exists s1, s2, s12, c0, c1, c2, c3. eexists. split; [exact O|].
  assert (OV := order_val X p d (isAlphab ho) (hierarchy ho) (mdrFlag ho) 3 i EX Hh Hp).
  destruct Hp as (_ & _ & _ & _ & _ & _ & _ & _ & _ & EM & _ & Hi).
  unfold outputs in O. unfold calculateHierarchy. rewrite (pref_val p v Ev Hv).
  cbn [Z.eqb Pos.eqb andb bind] in *. rewrite OV. cbn [bind]. rewrite O. cbn [getS1 getS2 getS12 coef0 coef1 coef2 coef3 set bind].
  change (mdrFlag (with_dLambdaNonLog _ _)) with (mdrFlag ho). rewrite EM. cbn [bind].
  unfold mat2_scale; cbn [m00 m01 m10 m11].
  assert (Q : forall x : R, @nmul PR NumP (Some (prefactor v)) (@nadd PR NumP (@nint PR NumP 0) (Some x)) = Some (prefactor v * x)).
  { intros x. change (Some (prefactor v * (0 + x)) = (Some (prefactor v * x) : option R)). apply f_equal. ring. }
  rewrite !Q. split; [reflexivity|]. split; [|reflexivity].
  set (L := lmass i (i_m1 i)).
  change (Some (c0 + L * c1 + L * L * c2 + L * L * L * c3) = (Some (delta_lambda L c0 c1 c2 c3) : option R)). apply f_equal. unfold delta_lambda. ring.
Qed.
Print Assumptions C65_three_loops.

(** the quantities behind the data members: h3.cpp to h9q2.cpp, constructors.  ([member] names xDmst12 the depth of Dmglst1: as in the code) *)
Theorem C65_members : forall h d i mdr f1 f2 f3 v, is_hierarchy h -> inp_ok i -> hier_sets h v = true ->
  hier_members h d (arg_list h i) mdr f1 f2 f3 v = (Some (member i d mdr f1 f2 f3 v) : PR).
Proof. intros h d i mdr f1 f2 f3 v Hh Hi Hv. rewrite members_ok by assumption. rewrite Hv. reflexivity. Qed.
Print Assumptions C65_members.
Theorem C65_readings : forall m k, (0 <= k)%Z ->
  exists x, reading_P m k = (Some x : PR) /\ Rabs (x - Rdec m k) <= 4 / 10 ^ 16 * Rabs (Rdec m k).
Proof. intros m k Hk. exists (reading_R m k). split; [reflexivity|]. apply reading_close; exact Hk. Qed.
Print Assumptions C65_readings.
(** not vacuous: H4 with unit masses, one loop, mu = A_t = ... = 1 *)
Example C65_example : inp_ok inp1 /\ in_box 2 inp1.
Proof.
  split; [exact inp1_ok|]. unfold in_box, inp1; cbn [i_scale i_mf i_m1 i_m2 i_msq i_mg i_beta i_al i_mu i_s2 i_At i_Dq2].
  assert (S : / 2 <= sin (PI / 4) <= 2).
  { pose proof sin4 as H. pose proof (SIN_bound (PI / 4)). pose proof PI_RGT_0. assert (0 < sin (PI / 4)) by (apply sin_gt_0; lra). split; nra. }
  assert (C : cos (PI / 4) = sin (PI / 4)) by (rewrite sin_PI4, cos_PI4; reflexivity).
  pose proof PI_RGT_0. rewrite C. rewrite Rabs_R0, !Rabs_R1. repeat split; lra.
Qed.

(** ** C66: loop orders *)
(** each self energy is (one loop) + alpha_s/(4 pi) (two loops) + (alpha_s/(4 pi))^2 (three loops), each multiplied by its flag *)
Theorem C66_orders : forall h g i d mdr, is_hierarchy h -> In g [FS1; FS2; FS12] -> inp_ok i ->
  exists a b c : R, forall al f1 f2 f3,
    hout g (hier_lib h d (arg_list h (with_al i al)) mdr f1 f2 f3)
    = (Some (IZR f1 * a + IZR f2 * (al * b) + IZR f3 * (al ^ 2 * c)) : PR).
Proof. intros h g i d mdr Hh Hg Hi. exact (hier_loops h g Hh Hg i d mdr Hi). Qed.
Print Assumptions C66_orders.
(** the Delta lambda coefficients depend on no flag, no expansion depth and not on alpha_s *)
Theorem C66_coefficients : forall h g i, is_hierarchy h -> In g [FC0; FC1; FC2; FC3] -> inp_ok i ->
  exists a : R, forall al d mdr f1 f2 f3, hout g (hier_lib h d (arg_list h (with_al i al)) mdr f1 f2 f3) = (Some a : PR).
Proof. intros h g i Hh Hg Hi. exact (hier_coefs h g Hh Hg i Hi). Qed.
Print Assumptions C66_coefficients.

(** ** C67: units *)
(** if the number handed over as Dmsqst2 is a squared mass (and for the ten classes that do not use it), the self energies
    have the dimension of the fourth power of a mass, the Delta lambda coefficients are dimensionless *)
Theorem C67_self_energies : forall h g i d mdr f1 f2 f3 t, is_hierarchy h -> In g [FS1; FS2; FS12] -> inp_ok i -> 0 < t ->
  exists s : R, hout g (hier_lib h d (arg_list h i) mdr f1 f2 f3) = (Some s : PR)
    /\ hout g (hier_lib h d (arg_list h (rescale t i)) mdr f1 f2 f3) = (Some (t ^ 4 * s) : PR).
Proof. intros h g i d mdr f1 f2 f3 t Hh Hg Hi Ht. exact (hier_dim_S h g Hh Hg i d mdr f1 f2 f3 t Hi Ht). Qed.
Print Assumptions C67_self_energies.
Theorem C67_coefficients : forall h g i d mdr f1 f2 f3 t, is_hierarchy h -> In g [FC0; FC1; FC2; FC3] -> inp_ok i -> 0 < t ->
  exists s : R, hout g (hier_lib h d (arg_list h i) mdr f1 f2 f3) = (Some s : PR)
    /\ hout g (hier_lib h d (arg_list h (rescale t i)) mdr f1 f2 f3) = (Some s : PR).
Proof. intros h g i d mdr f1 f2 f3 t Hh Hg Hi Ht. exact (hier_dim_C h g Hh Hg i d mdr f1 f2 f3 t Hi Ht). Qed.
Print Assumptions C67_coefficients.
(** the same point in units that are t times smaller, as calculateHierarchy sees it: Dmsqst2 is the mass msq - m2 there *)
Definition rescale_api (t : R) (i : Inp) : Inp :=
  mkInp (i_al i) (i_beta i) (t * i_scale i) (t * i_mf i) (t * i_m1 i) (t * i_m2 i) (t * i_msq i) (t * i_mg i) (t * i_mu i) (i_s2 i)
    (t * i_At i) (t * i_msq i - t * i_m2 i).
Theorem C67_other_classes : forall h g i d mdr f1 f2 f3 t, In h [0; 1; 2; 3; 4; 5; 6; 11; 12; 13]%Z -> In g [FS1; FS2; FS12; FC0; FC1; FC2; FC3] -> inp_ok i -> 0 < t ->
  exists s : R, hout g (hier_lib h d (arg_list h i) mdr f1 f2 f3) = (Some s : PR)
    /\ hout g (hier_lib h d (arg_list h (rescale_api t i)) mdr f1 f2 f3)
       = (Some (match g with FS1 | FS2 | FS12 => t ^ 4 * s | _ => s end) : PR).
Proof.
  intros h g i d mdr f1 f2 f3 t Hh Hg Hi Ht.
  assert (Hn : is_hierarchy h) by (apply hnum; repeat (destruct Hh as [<-|Hh]; [reflexivity|]); destruct Hh).
  assert (E : arg_list h (rescale_api t i) = arg_list h (rescale t i)) by (repeat (destruct Hh as [<-|Hh]; [reflexivity|]); destruct Hh).
  rewrite E. assert (In g [FS1; FS2; FS12] \/ In g [FC0; FC1; FC2; FC3]) as [H|H] by (cbn in *; tauto).
  - destruct (hier_dim_S h g Hn H i d mdr f1 f2 f3 t Hi Ht) as (s & A & B). exists s. split; [exact A|]. rewrite B.
    destruct H as [<-|[<-|[<-|[]]]]; reflexivity.
  - destruct (hier_dim_C h g Hn H i d mdr f1 f2 f3 t Hi Ht) as (s & A & B). exists s. split; [exact A|]. rewrite B.
    destruct H as [<-|[<-|[<-|[<-|[]]]]]; reflexivity.
Qed.
Print Assumptions C67_other_classes.
(** the four classes that use Dmsqst2 give a different Delta lambda in GeV and in other units *)
Theorem C67_unit_dependence : forall h, In h [7; 8; 9; 10]%Z ->
  exists i x y, inp_ok i /\ i_Dq2 i = i_msq i - i_m2 i /\ x <> y /\
    hout FC2 (hier_lib h depth_ones (arg_list h i) 0 0 0 1) = (Some x : PR) /\
    hout FC2 (hier_lib h depth_ones (arg_list h (rescale_api 2 i)) 0 0 0 1) = (Some y : PR).
Proof.
  intros h Hh. destruct (unit_values h Hh) as (x & y & D & A & B).
  exists (pt 1 2 0 1 1), x, y. split; [apply pt_ok; lia|]. split; [cbn; lra|]. split; [exact D|]. split; [exact A|].
  assert (J : rescale_api 2 (pt 1 2 0 1 1) = mkInp 1 (PI / 4) 2 2 2 2 4 2 0 1 2 2).
  { unfold rescale_api, pt. cbn [i_al i_beta i_scale i_mf i_m1 i_m2 i_msq i_mg i_mu i_s2 i_At i_Dq2]. change (IZR (2 * 1)) with 2. f_equal; lra. }
  rewrite J, <- B. do 2 f_equal. repeat (destruct Hh as [<-|Hh]; [reflexivity|]). destruct Hh.
Qed.
Print Assumptions C67_unit_dependence.

(** ** C68: sibling classes *)
(** the classes of one family where the masses that one of them expands coincide with those of the other *)
Theorem C68_coincide : forall k h h' g i d mdr f1 f2 f3,
  In (k, h, h') [(G1, 0%Z, 2%Z); (Q1, 2%Z, 1%Z); (Q1, 12%Z, 13%Z)] -> In g [FS1; FS2; FS12; FC0; FC1; FC2; FC3] -> inp_ok i -> merged k i ->
  exists x : R, hout g (hier_lib h d (arg_list h i) mdr f1 f2 f3) = (Some x : PR)
    /\ hout g (hier_lib h' d (arg_list h' i) mdr f1 f2 f3) = (Some x : PR).
Proof. intros k h h' g i d mdr f1 f2 f3 H Hg. exact (agree_exact k h h' g H Hg i d mdr f1 f2 f3). Qed.
Print Assumptions C68_coincide.
Theorem C68_coincide_read : forall k h h' g i d mdr f1 f2 f3,
  In (k, h, h') [(G1, 4%Z, 5%Z); (G2, 6%Z, 11%Z); (G2, 7%Z, 8%Z); (Q2, 7%Z, 9%Z); (Q2, 8%Z, 10%Z); (G2, 9%Z, 10%Z)] -> In g [FS1; FS2; FS12] -> inp_ok i -> merged k i ->
  exists x : R, hout g (hier_lib_lit reading_P h d (arg_list h i) mdr f1 f2 f3) = (Some x : PR)
    /\ hout g (hier_lib_lit reading_P h' d (arg_list h' i) mdr f1 f2 f3) = (Some x : PR).
Proof. intros k h h' g i d mdr f1 f2 f3 H Hg. exact (agree_read k h h' g H Hg i d mdr f1 f2 f3). Qed.
Print Assumptions C68_coincide_read.
Theorem C68_coefficients : forall k h h' g i d mdr f1 f2 f3,
  In (k, h, h') [(G2, 6%Z, 11%Z); (G2, 7%Z, 8%Z); (Q2, 7%Z, 9%Z); (Q2, 8%Z, 10%Z); (G2, 9%Z, 10%Z)] -> In g [FC0; FC1; FC2; FC3] -> inp_ok i -> merged k i ->
  exists x : R, hout g (hier_lib h d (arg_list h i) mdr f1 f2 f3) = (Some x : PR)
    /\ hout g (hier_lib h' d (arg_list h' i) mdr f1 f2 f3) = (Some x : PR).
Proof. intros k h h' g i d mdr f1 f2 f3 H Hg. exact (agree_coefs k h h' g H Hg i d mdr f1 f2 f3). Qed.
Print Assumptions C68_coefficients.
(** the pair missing from C68_coefficients: H5 and H5g1 disagree *)
Theorem C68_h5_disagrees : exists i x y, inp_ok i /\ merged G1 i /\ x <> y /\
  hout FC2 (hier_lib 4 depth_ones (arg_list 4 i) 0 0 0 1) = (Some x : PR) /\ hout FC2 (hier_lib 5 depth_ones (arg_list 5 i) 0 0 0 1) = (Some y : PR).
Proof.
  exists (pt 1 1 1 0 0), (58000 / 45), (45520 / 45). split; [apply pt_ok; lia|]. split; [reflexivity|]. split; [lra|]. exact h5_coef2.
Qed.
Print Assumptions C68_h5_disagrees.
(** away from that the self energies differ by the order to which the siblings are expanded, uniformly on every box *)
Theorem C68_siblings : forall k h h' n g B,
  In (k, h, h', n) [(G1, 0%Z, 2%Z, 4%nat); (Q1, 2%Z, 1%Z, 3%nat); (Q1, 12%Z, 13%Z, 3%nat); (G1, 4%Z, 5%Z, 3%nat); (G2, 6%Z, 11%Z, 3%nat);
    (G2, 7%Z, 8%Z, 3%nat); (Q2, 7%Z, 9%Z, 3%nat); (Q2, 8%Z, 10%Z, 3%nat); (G2, 9%Z, 10%Z, 3%nat)] -> In g [FS1; FS2; FS12] -> 1 <= B ->
  exists C, forall i mdr f1 f2 f3, in_box B i -> flags_in B depth_ones mdr f1 f2 f3 ->
    (k = Q2 -> i_Dq2 i = i_msq i * i_msq i - i_m2 i * i_m2 i) ->
    exists x y : R, hout g (hier_lib_lit reading_P h depth_ones (arg_list h i) mdr f1 f2 f3) = (Some x : PR)
      /\ hout g (hier_lib_lit reading_P h' depth_ones (arg_list h' i) mdr f1 f2 f3) = (Some y : PR)
      /\ Rabs (x - y) <= C * Rabs (gap k i) ^ n.
Proof. intros k h h' n g B H Hg HB. exact (siblings k h h' n g H Hg B HB). Qed.
Print Assumptions C68_siblings.

(** ** C69: Delta lambda and the three-loop self energies *)
(** at Q = mt, without MDR shifts and with the full expansion, the Delta lambda coefficients are the three-loop self energies
    projected on the light Higgs: 12 (cos^2 S1 + sin^2 S2 + 2 sin cos S12) = mt^4 sin^2(beta) (alpha_s/(4 pi))^2 sum_k L^k coef_k.
    L is log(Q^2/Mst1^2), for H4 log(Q^2/Msusy^2) *)
Theorem C69_lambda_partial : forall h i, In h [0; 1; 2; 3; 5; 6; 7; 8; 11; 12; 13]%Z -> inp_ok i -> i_scale i = i_mf i ->
  exists s1 s2 s12 c0 c1 c2 c3 : R,
    map (fun g => hout g (hier_lib_lit reading_P h depth_ones (arg_list h i) 0 0 0 1)) [FS1; FS2; FS12; FC0; FC1; FC2; FC3]
      = map (Some (A := R)) [s1; s2; s12; c0; c1; c2; c3] /\
    12 * (cos (i_beta i) ^ 2 * s1 + sin (i_beta i) ^ 2 * s2 + 2 * (sin (i_beta i) * cos (i_beta i)) * s12)
    = i_mf i ^ 4 * sin (i_beta i) ^ 2 * i_al i ^ 2 *
      (let L := lmass i (if (h =? 3)%Z then msusy i else i_m1 i) in c0 + L * c1 + L ^ 2 * c2 + L ^ 3 * c3).
Proof. intros h i Hh Hi Hs. exact (hier_lambda h i Hh Hi Hs). Qed.
Print Assumptions C69_lambda_partial.
Theorem C69_lambda_upto_partial : forall h B, In h [9; 10]%Z -> 1 <= B -> exists C, forall i, in_box B i -> i_scale i = i_mf i ->
  exists s1 s2 s12 c0 c1 c2 c3 : R,
    map (fun g => hout g (hier_lib_lit reading_P h depth_ones (arg_list h i) 0 0 0 1)) [FS1; FS2; FS12; FC0; FC1; FC2; FC3]
      = map (Some (A := R)) [s1; s2; s12; c0; c1; c2; c3] /\
    Rabs (12 * (cos (i_beta i) ^ 2 * s1 + sin (i_beta i) ^ 2 * s2 + 2 * (sin (i_beta i) * cos (i_beta i)) * s12)
      - i_mf i ^ 4 * sin (i_beta i) ^ 2 * i_al i ^ 2 * (let L := lmass i (i_m1 i) in c0 + L * c1 + L ^ 2 * c2 + L ^ 3 * c3))
      <= C * Rabs (i_Dq2 i) ^ 4.
Proof.
  intros h B Hh HB. destruct (hier_lambda4 h Hh B HB) as (C & H). exists C. intros i Hi Hs.
  destruct (H i Hi Hs) as (s1 & s2 & s12 & c0 & c1 & c2 & c3 & A & Bd). exists s1, s2, s12, c0, c1, c2, c3. split; [exact A|].
  destruct Hh as [<-|[<-|[]]]; exact Bd.
Qed.
Print Assumptions C69_lambda_upto_partial.

(** H5, for mu = 0 only, and up to terms of the order of the gluino-stop mass difference *)
Theorem C69_lambda_h5_partial : forall B, 1 <= B -> exists C, forall i, in_box B i -> i_scale i = i_mf i -> i_mu i = 0 ->
  exists s1 s2 s12 c0 c1 c2 c3 : R,
    map (fun g => hout g (hier_lib_lit reading_P 4 depth_ones (arg_list 4 i) 0 0 0 1)) [FS1; FS2; FS12; FC0; FC1; FC2; FC3]
      = map (Some (A := R)) [s1; s2; s12; c0; c1; c2; c3] /\
    Rabs (12 * (cos (i_beta i) ^ 2 * s1 + sin (i_beta i) ^ 2 * s2 + 2 * (sin (i_beta i) * cos (i_beta i)) * s12)
      - i_mf i ^ 4 * sin (i_beta i) ^ 2 * i_al i ^ 2 * (let L := lmass i (i_m1 i) in c0 + L * c1 + L ^ 2 * c2 + L ^ 3 * c3))
      <= C * Rabs (i_mg i - i_m1 i).
Proof. exact hier_lambda5. Qed.
Print Assumptions C69_lambda_h5_partial.

(** ** C70: the light Higgs mass depends on mu and tan(beta) through the squark masses and mixing only *)
(** with_mb i m b: the same masses and mixing angle, other mu and beta *)
Theorem C70_projection : forall h i d mdr f1 f2 f3, In h [0; 1; 2; 3; 12; 13]%Z -> inp_ok i -> x_Dmglst1 d = 1%Z ->
  exists q : R, forall m b, 0 < b < PI / 2 ->
    exists s1 s2 s12 : R,
      map (fun g => hout g (hier_lib h d (arg_list h (with_mb i m b)) mdr f1 f2 f3)) [FS1; FS2; FS12] = map (Some (A := R)) [s1; s2; s12] /\
      cos b ^ 2 * s1 + sin b ^ 2 * s2 + 2 * (sin b * cos b) * s12 = sin b ^ 2 * q.
Proof. intros h i d mdr f1 f2 f3 Hh Hi Hd. exact (proj_indep h i d mdr f1 f2 f3 Hh Hi Hd). Qed.
Print Assumptions C70_projection.
Theorem C70_projection_upto : forall h B, In h [6; 7; 8; 9; 10; 11]%Z -> 1 <= B -> exists C, forall i m b d mdr f1 f2 f3,
  in_box B i -> in_box B (with_mb i m b) -> flags_in B d mdr f1 f2 f3 -> x_Dmglst1 d = 1%Z ->
  exists s1 s2 s12 s1' s2' s12' : R,
    map (fun g => hout g (hier_lib_lit reading_P h d (arg_list h i) mdr f1 f2 f3)) [FS1; FS2; FS12] = map (Some (A := R)) [s1; s2; s12] /\
    map (fun g => hout g (hier_lib_lit reading_P h d (arg_list h (with_mb i m b)) mdr f1 f2 f3)) [FS1; FS2; FS12] = map (Some (A := R)) [s1'; s2'; s12'] /\
    Rabs (projection i s1 s2 s12 / sin (i_beta i) ^ 2 - projection (with_mb i m b) s1' s2' s12' / sin b ^ 2)
      <= C * match h with 6%Z | 11%Z => Rabs (i_mg i - i_m2 i) ^ 2 | _ => Rabs (i_Dq2 i) ^ 4 end.
Proof.
  intros h B Hh HB. destruct (proj_small h Hh B HB) as (C & H). exists C. intros i m b d mdr f1 f2 f3 H1 H2 H3 H4.
  destruct (H i m b d mdr f1 f2 f3 H1 H2 H3 H4) as (s1 & s2 & s12 & s1' & s2' & s12' & A & A' & Bd).
  exists s1, s2, s12, s1', s2', s12'. split; [exact A|]. split; [exact A'|].
  repeat (destruct Hh as [<-|Hh]; [exact Bd|]). destruct Hh.
Qed.
Print Assumptions C70_projection_upto.
(** H5 and H5g1: not even at one loop *)
Theorem C70_h5_depends_on_mu : forall h, In h [4; 5]%Z -> exists i m s1 s2 s12 s1' s2' s12', inp_ok i /\
  map (fun g => hout g (hier_lib h depth_ones (arg_list h i) 0 1 0 0)) [FS1; FS2; FS12] = map (Some (A := R)) [s1; s2; s12] /\
  map (fun g => hout g (hier_lib h depth_ones (arg_list h (with_mb i m (i_beta i))) 0 1 0 0)) [FS1; FS2; FS12] = map (Some (A := R)) [s1'; s2'; s12'] /\
  projection i s1 s2 s12 <> projection (with_mb i m (i_beta i)) s1' s2' s12'.
Proof.
  intros h Hh. destruct (h5_mu h Hh) as (A & B).
  exists (pt 1 1 0 1 0), 1, 0, 0, 0, (1 / 4), (1 / 4), (- (1 / 8)). split; [apply pt_ok; lia|]. split; [exact A|]. split; [exact B|].
  unfold projection. cbn [i_beta pt with_mb]. assert (C : cos (PI / 4) = sin (PI / 4)) by (rewrite sin_PI4, cos_PI4; reflexivity).
  rewrite C. pose proof sin4 as S. replace (sin (PI / 4) * sin (PI / 4)) with (sin (PI / 4) ^ 2) by ring. rewrite S. lra.
Qed.
Print Assumptions C70_h5_depends_on_mu.

(** ** C71: truncation flags *)
(** switching off the flag of an expansion variable changes the self energies by the next order in that variable only.
    The flag of Dmglst1 truncates both Dmglst1 and Dmst12 in H3, H32q2g, H3q22g (see below) *)
Theorem C71_truncation : forall h fl n g B, is_hierarchy h -> In g [FS1; FS2; FS12] -> 1 <= B ->
  In (fl, n)
    (if (h <=? 2)%Z then [(DDmglst1, 3%nat); (DDmsqst1, 2%nat)]
     else if (h =? 3)%Z then [(DAt, 2%nat)]
     else if (h <=? 5)%Z then [(DDmglst1, 2%nat)]
     else if (h =? 6)%Z || (h =? 11)%Z then [(DDmglst2, 2%nat)]
     else if (h <=? 10)%Z then [(DDmglst2, 2%nat); (DDmsqst2, 2%nat)]
     else [(DDmsqst1, 2%nat)]) ->
  exists C, forall i d mdr f1 f2 f3, in_box B i -> flags_in B d mdr f1 f2 f3 ->
    exists x y : R, hout g (hier_lib h (depth_put d fl 1) (arg_list h i) mdr f1 f2 f3) = (Some x : PR)
      /\ hout g (hier_lib h (depth_put d fl 0) (arg_list h i) mdr f1 f2 f3) = (Some y : PR)
      /\ Rabs (x - y) <= C * small_size fl i ^ n.
Proof. intros h fl n g B Hh Hg HB Hf. exact (flag_order h fl n g Hh Hf Hg B HB). Qed.
Print Assumptions C71_truncation.

(** the flag of Dmst12 does nothing, in any class and any arithmetic *)
Theorem C71_dmst12_ignored : forall (T : Type) (N : Num T) h d z args mdr f1 f2 f3,
  hier_lib h (depth_put d DDmst12 z) args mdr f1 f2 f3 = hier_lib h d args mdr f1 f2 f3.
Proof.
  intros T N h d z args mdr f1 f2 f3. destruct d as [q0 q1 q2 q3 q4 q5 q6 q7 q8 q9 q10 q11].
  unfold hier_lib, hier_lib_lit.
  assert (E : hier_members h (depth_put (mkDepth q0 q1 q2 q3 q4 q5 q6 q7 q8 q9 q10 q11) DDmst12 z) args mdr f1 f2 f3
              = hier_members h (mkDepth q0 q1 q2 q3 q4 q5 q6 q7 q8 q9 q10 q11) args mdr f1 f2 f3) by reflexivity.
  rewrite E. reflexivity.
Qed.
Print Assumptions C71_dmst12_ignored.

Lemma mass_dmst12 (X : Env R) p ho m l1 l2 l3 d z : env_hier X = hier_lib ->
  mass_with X p ho m l1 l2 l3 (depth_put d DDmst12 z) = mass_with X p ho m l1 l2 l3 d.
Proof.
  intros EX. unfold mass_with.
  assert (E : forall ab h mdr k, hier_order X p (depth_put d DDmst12 z) ab h mdr k = hier_order X p d ab h mdr k).
  { intros ab h mdr k. unfold hier_order. destruct (calcMsfMDRFlag p ab h mdr k) as [[a b]|e]; [|reflexivity]. cbn [bind].
    destruct (hier_args p ab h a b); [|reflexivity]. rewrite EX, C71_dmst12_ignored. reflexivity. }
  assert (E2 : calculateHierarchy X p (depth_put d DDmst12 z) ho l1 l2 l3 = calculateHierarchy X p d ho l1 l2 l3).
  { unfold calculateHierarchy. cbv zeta. cbn [bind]. rewrite !E.
    destruct (l1 =? 0)%Z.
    - cbn [bind]. destruct (l2 =? 0)%Z.
      + cbn [bind]. destruct (l3 =? 0)%Z; [reflexivity|]. cbn [bind]. rewrite ?E. reflexivity.
      + match goal with |- bind (bind ?A _) _ = _ => idtac | _ => idtac end. rewrite ?E.
        destruct (hier_order X p d (isAlphab ho) (hierarchy ho) (mdrFlag ho) 2) as [[o lm]|e]; [|reflexivity]. cbn [bind andb].
        destruct (l3 =? 0)%Z; [reflexivity|]. rewrite ?E. reflexivity.
    - cbn [andb]. destruct (hier_order X p d (isAlphab ho) (hierarchy ho) (mdrFlag ho) 1) as [[o lm]|e]; [|reflexivity]. cbn [bind andb].
      destruct (l2 =? 0)%Z; cbn [bind]; [destruct (l3 =? 0)%Z; [reflexivity|]; rewrite ?E; reflexivity|]. rewrite ?E.
      destruct (hier_order X p d (isAlphab ho) (hierarchy ho) (mdrFlag ho) 2) as [[o' lm']|e']; [|reflexivity]. cbn [bind andb].
      destruct (l3 =? 0)%Z; [reflexivity|]. rewrite ?E. reflexivity. }
  rewrite E2. reflexivity.
Qed.
(** so the expansion uncertainty of the families h3 and h9 never includes the expansion in Dmst12 *)
Theorem C71_uncertainty_without_dmst12 :
  forall (X : Env R) (p : Params R) (ho : HO R) (m : mat2 R) (l1 l2 l3 : Z) (d d' : Depth) (u : R),
  env_hier X = hier_lib -> In (hierarchy ho) [0; 1; 2; 12; 13]%Z ->
  getExpansionUncertainty X p ho m l1 l2 l3 d = (Ok u, d') ->
  exists M Ms, mass_with X p ho m l1 l2 l3 (full_depth d) = Ok M /\
    all_ok (fun f => mass_with X p ho m l1 l2 l3 (depth_put (full_depth d) f 0))
      (if (hierarchy ho <=? 2)%Z then [DDmglst1; DDmsqst1] else [DDmsqst1; DMgl]) = Ok Ms /\
    u = sqrt (Rsum_sq (map (fun x => M - x) Ms)).
Proof.
  intros X p ho m l1 l2 l3 d d' u EX Hh H.
  destruct (PropHier.C20_uncertainty X p ho m l1 l2 l3 d d' u H) as (_ & M & Ms & A & B & C & _).
  assert (D := mass_dmst12 X p ho m l1 l2 l3 (full_depth d) 0 EX). rewrite A in D.
  assert (Z0 : (M - M) * (M - M) = 0) by ring.
  repeat (destruct Hh as [Eh|Hh];
    [rewrite <- Eh in B |- *; cbn [expansion_variables Z.leb Z.eqb Z.compare Pos.compare Pos.compare_cont Pos.eqb orb all_ok] in B |- *; rewrite D in B;
     match type of B with bind ?x _ = _ => destruct x as [a|] eqn:Ea; [|discriminate] end; cbn [bind] in B;
     match type of B with bind (bind ?x _) _ = _ => destruct x as [b|] eqn:Eb; [|discriminate] end; cbn [bind] in B;
     injection B as <-; exists M; eexists; (split; [exact A|]); (split; [cbn [bind]; try rewrite Ea; try rewrite Eb; reflexivity|]);
     rewrite C; cbn [map Rsum_sq]; f_equal; ring|]); destruct Hh.
Qed.
Print Assumptions C71_uncertainty_without_dmst12.
