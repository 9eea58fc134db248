(** * The checks that are made once on the normal form of every function of every class (proofs)
    Everything in this file is about the fully symbolic normal form (HierNF.f0). *)
From Coq Require Import ZArith List Reals Lra Lia Bool.
From Verif Require Import Num NumFacts HierCalc HierExpr HierPoly HierLib HierInp HierNF HierOrder HierMono.
Import ListNotations.
Definition sfuns := [FS1; FS2; FS12]. Definition cfuns := [FC0; FC1; FC2; FC3].

(** ** loop orders: variables 41, 42, 43 are the flags, 24 is alpha_s/(4 pi) *)
Definition loopvar (v : positive) : bool := Pos.eqb v 24 || Pos.eqb v 41 || Pos.eqb v 42 || Pos.eqb v 43.
Definition loop_parts (l : lp) : lp * lp * lp := (lget 41 1 l, lget 24 1 (lget 42 1 l), lget 24 2 (lget 43 1 l)).
Definition loop_id (l : lp) : lt :=
  let '(a, b, c) := loop_parts l in
  LSub (LA l) (LAdd (LAdd (LMul (LV 41) (LA a)) (LMul (LV 42) (LMul (LV 24) (LA b)))) (LMul (LV 43) (LMul (LMul (LV 24) (LV 24)) (LA c)))).
Definition loop_ok (l : lp) : bool :=
  let '(a, b, c) := loop_parts l in
  nooc loopvar (fst a) && nooc loopvar (fst b) && nooc loopvar (fst c) && lzero (Some (lt_nf (loop_id l))).
(** a coefficient of Delta lambda contains neither loop flags, nor alpha_s, nor truncation flags, nor the scheme flag *)
Definition setting (v : positive) : bool := Pos.leb 24 v && Pos.leb v 43.

(** ** units *)
Definition dim (v : positive) : Z :=
  match v with
  | 4%positive | 5%positive | 6%positive | 7%positive | 8%positive | 9%positive | 10%positive | 11%positive | 12%positive | 16%positive => 1%Z
  | 13%positive | 14%positive | 15%positive => 2%Z
  | _ => 0%Z
  end.

(** ** truncation flags (xDmst12, variable 32, is wired to the flag Dmglst1) *)
Definition flag_vars (fl : depth_flag) (v : positive) : bool :=
  match fl with
  | DDmglst1 => Pos.eqb v 30 || Pos.eqb v 32 | DDmglst2 => Pos.eqb v 31 | DDmsqst1 => Pos.eqb v 33 | DDmsqst2 => Pos.eqb v 34 | DAt => Pos.eqb v 38
  | _ => false
  end.
(** the small quantities behind a flag *)
Definition small_vars (fl : depth_flag) (v : positive) : bool :=
  match fl with
  | DDmglst1 => Pos.eqb v 11 || Pos.eqb v 15 | DDmglst2 => Pos.eqb v 12 | DDmsqst1 => Pos.eqb v 13 | DDmsqst2 => Pos.eqb v 14 | DAt => Pos.eqb v 16
  | _ => false
  end.
Definition flag_cases (h : Z) : list (depth_flag * nat) :=
  if (h <=? 2)%Z then [(DDmglst1, 3%nat); (DDmsqst1, 2%nat)]
  else if (h =? 3)%Z then [(DAt, 2%nat)]
  else if (h <=? 5)%Z then [(DDmglst1, 2%nat)]
  else if (h =? 6)%Z || (h =? 11)%Z then [(DDmglst2, 2%nat)]
  else if (h <=? 10)%Z then [(DDmglst2, 2%nat); (DDmsqst2, 2%nat)]
  else [(DDmsqst1, 2%nat)].

Definition chk_S (h : Z) (g : hfun) : bool :=
  match hnf read_raw h f0 lg0 (hexpr h g) with
  | Some l => loop_ok l && weight dim 4 (fst l) && forallb (fun '(fl, n) => flagdeg (small_vars fl) (flag_vars fl) n (fst l)) (flag_cases h)
  | None => false
  end.
Definition chk_C (h : Z) (g : hfun) : bool :=
  match hnf read_raw h f0 lg0 (hexpr h g) with
  | Some l => nooc setting (fst l) && weight dim 0 (fst l)
  | None => false
  end.
Lemma chk_all : hall (fun h => forallb (chk_S h) sfuns && forallb (chk_C h) cfuns) = true.
Proof. vm_compute. reflexivity. Qed.
Lemma chk_S_ok h g : hnumber h -> In g sfuns -> chk_S h g = true.
Proof.
  intros Hh Hg. assert (H := hall_ok _ h chk_all Hh). cbv beta in H. apply andb_true_iff in H. exact (proj1 (forallb_forall _ _) (proj1 H) g Hg).
Qed.
Lemma chk_C_ok h g : hnumber h -> In g cfuns -> chk_C h g = true.
Proof.
  intros Hh Hg. assert (H := hall_ok _ h chk_all Hh). cbv beta in H. apply andb_true_iff in H. exact (proj1 (forallb_forall _ _) (proj2 H) g Hg).
Qed.

Local Open Scope R_scope.
(** the value of a function at a point *)
Lemma hout_f0 lit rd h g l i d mdr f1 f2 f3 : lit_ok lit rd -> hnumber h -> inp_ok i -> hnf rd h f0 lg0 (hexpr h g) = Some l ->
  hout g (hier_lib_lit lit h d (arg_list h i) mdr f1 f2 f3) = (Some (lev (rho_of (member i d mdr f1 f2 f3) 1) l) : PR) /\ lwf ninv l.
Proof.
  intros HL Hh Hi E. apply (hout_nf lit rd _ h f0 lg0 i d mdr f1 f2 f3 g l HL Hh); [apply env_ok_rho; [exact Hi|lra]|apply valid_f0; exact Hi|exact E].
Qed.
Definition inp1 : Inp := mkInp 1 (PI / 4) 1 1 1 1 1 1 1 1 1 0.
Lemma inp1_ok : inp_ok inp1.
Proof. unfold inp_ok, inp1; cbn; pose proof PI_RGT_0; repeat split; lra. Qed.

(** ** loop orders *)
Definition with_al (i : Inp) (al : R) : Inp :=
  mkInp al (i_beta i) (i_scale i) (i_mf i) (i_m1 i) (i_m2 i) (i_msq i) (i_mg i) (i_mu i) (i_s2 i) (i_At i) (i_Dq2 i).
Ltac byvar v := do 7 (try (destruct v as [v|v|])); try reflexivity; try discriminate.

Theorem hier_loops h g : hnumber h -> In g [FS1; FS2; FS12] -> forall i d mdr, inp_ok i ->
  exists a b c : R, forall al f1 f2 f3,
    hout g (hier_lib h d (arg_list h (with_al i al)) mdr f1 f2 f3)
    = (Some (IZR f1 * a + IZR f2 * (al * b) + IZR f3 * (al ^ 2 * c)) : PR).
Proof.
  intros Hh Hg i d mdr Hi. assert (K := chk_S_ok h g Hh Hg). unfold chk_S in K.
  destruct (hnf read_raw h f0 lg0 (hexpr h g)) as [l|] eqn:E0; [|discriminate].
  rewrite !andb_true_iff in K. destruct K as ((K & _) & _). unfold loop_ok in K.
  destruct (loop_parts l) as [[a b] c] eqn:Ep.
  rewrite !andb_true_iff in K. destruct K as (((Ka & Kb) & Kc) & Kz).
  set (rho1 := rho_of (member (with_al i 1) d mdr 0 0 0) 1).
  exists (lev rho1 a), (lev rho1 b), (lev rho1 c). intros al f1 f2 f3.
  destruct (hout_f0 ndec read_raw h g l (with_al i al) d mdr f1 f2 f3 lit_raw Hh Hi E0) as (A0 & W).
  unfold hier_lib. rewrite A0. f_equal. clear A0.
  set (rho := rho_of (member (with_al i al) d mdr f1 f2 f3) 1).
  assert (Ind : forall v, loopvar v = false -> rho v = rho1 v) by (intros v Hv; unfold rho, rho1; byvar v).
  rewrite <- !(lev_indep loopvar rho rho1 _ Ind) by assumption.
  assert (HE : env_ok rho) by (apply env_ok_rho; [exact Hi|lra]).
  assert (Wa : lwf ninv a /\ lwf ninv b /\ lwf ninv c).
  { unfold loop_parts in Ep. inversion Ep. unfold lwf, lget; cbn [fst]. repeat split; repeat apply wf_pget; exact W. }
  destruct Wa as (Wa & Wb & Wc).
  unfold loop_id in Kz. rewrite Ep in Kz. apply (lt_zero rho _ (proj1 HE)) in Kz; [|cbn [lt_wf]; tauto].
  cbn [lt_ev] in Kz.
  change (rho 41%positive) with (IZR f1) in Kz. change (rho 42%positive) with (IZR f2) in Kz.
  change (rho 43%positive) with (IZR f3) in Kz. change (rho 24%positive) with al in Kz. simpl pow. lra.
Qed.

Theorem hier_coefs h g : hnumber h -> In g [FC0; FC1; FC2; FC3] -> forall i, inp_ok i ->
  exists a : R, forall al d mdr f1 f2 f3,
    hout g (hier_lib h d (arg_list h (with_al i al)) mdr f1 f2 f3) = (Some a : PR).
Proof.
  intros Hh Hg i Hi. assert (K := chk_C_ok h g Hh Hg). unfold chk_C in K.
  destruct (hnf read_raw h f0 lg0 (hexpr h g)) as [l|] eqn:E0; [|discriminate].
  apply andb_true_iff in K. destruct K as (K & _).
  set (rho1 := rho_of (member (with_al i 1) depth_ones 0 0 0 0) 1).
  exists (lev rho1 l). intros al d mdr f1 f2 f3.
  destruct (hout_f0 ndec read_raw h g l (with_al i al) d mdr f1 f2 f3 lit_raw Hh Hi E0) as (A0 & W).
  unfold hier_lib. rewrite A0. f_equal.
  apply (lev_indep setting); [|exact K]. intros v Hv. unfold rho1. byvar v.
Qed.

(** ** units *)
(** the same physical point in another unit of mass; the number used for Dmsqst2 is rescaled like a squared mass *)
Definition rescale (t : R) (i : Inp) : Inp :=
  mkInp (i_al i) (i_beta i) (t * i_scale i) (t * i_mf i) (t * i_m1 i) (t * i_m2 i) (t * i_msq i) (t * i_mg i) (t * i_mu i) (i_s2 i)
    (t * i_At i) (t ^ 2 * i_Dq2 i).
Lemma inp_ok_rescale t i : 0 < t -> inp_ok i -> inp_ok (rescale t i).
Proof.
  intros Ht (A & B & C & D & E & F & G). unfold inp_ok, rescale; cbn [i_scale i_mf i_m1 i_m2 i_msq i_mg i_beta].
  repeat split; try apply Rmult_lt_0_compat; try assumption; apply G.
Qed.
Lemma lmass_rescale t i m : 0 < t -> 0 < m -> lmass (rescale t i) (t * m) = lmass i m.
Proof.
  intros Ht Hm. unfold lmass, rescale; cbn [i_scale]. f_equal.
  replace (t * i_scale i / (t * m)) with (i_scale i / m) by (field; lra). reflexivity.
Qed.
Lemma rho_rescale i d mdr f1 f2 f3 t : inp_ok i -> 0 < t -> forall v,
  rho_of (member (rescale t i) d mdr f1 f2 f3) 1 v = powerRZ t (dim v) * rho_of (member i d mdr f1 f2 f3) 1 v.
Proof.
  intros (A & B & C & D & E & F & G) Ht.
  assert (P0 : powerRZ t 0 = 1) by reflexivity. assert (P1 : powerRZ t 1 = t) by (change (powerRZ t 1) with (t * 1); ring). assert (P2 : powerRZ t 2 = t * t) by (change (powerRZ t 2) with (t * (t * 1)); ring).
  assert (MS : msusy (rescale t i) = t * msusy i) by (unfold msusy, rescale; cbn [i_m1 i_m2 i_mg]; field).
  assert (PM : 0 < msusy i) by (unfold msusy; lra).
  assert (LS : lmass (rescale t i) (msusy (rescale t i)) = lmass i (msusy i)) by (rewrite MS; apply lmass_rescale; assumption).
  assert (L : forall x y, 0 < x -> 0 < y -> ln ((t * x) ^ 2 / (t * y) ^ 2) = ln (x ^ 2 / y ^ 2)).
  { intros x y Hx Hy. f_equal. field. lra. }
  intros v. do 7 (try (destruct v as [v|v|])); unfold dim; rewrite ?P0, ?P1, ?P2; unfold rho_of, member; rewrite ?LS, ?MS; unfold rescale;
    cbn [i_al i_beta i_scale i_mf i_m1 i_m2 i_msq i_mg i_mu i_s2 i_At i_Dq2]; fold (rescale t i);
    rewrite ?L by assumption; rewrite ?lmass_rescale by assumption; try (cbn [pow]; ring).
Qed.

Theorem hier_dim_S h g : hnumber h -> In g [FS1; FS2; FS12] -> forall i d mdr f1 f2 f3 t, inp_ok i -> 0 < t ->
  exists s : R, hout g (hier_lib h d (arg_list h i) mdr f1 f2 f3) = (Some s : PR)
    /\ hout g (hier_lib h d (arg_list h (rescale t i)) mdr f1 f2 f3) = (Some (t ^ 4 * s) : PR).
Proof.
  intros Hh Hg i d mdr f1 f2 f3 t Hi Ht. assert (K := chk_S_ok h g Hh Hg). unfold chk_S in K.
  destruct (hnf read_raw h f0 lg0 (hexpr h g)) as [l|] eqn:E0; [|discriminate].
  rewrite !andb_true_iff in K. destruct K as ((_ & K) & _).
  destruct (hout_f0 ndec read_raw h g l i d mdr f1 f2 f3 lit_raw Hh Hi E0) as (A0 & W).
  destruct (hout_f0 ndec read_raw h g l (rescale t i) d mdr f1 f2 f3 lit_raw Hh (inp_ok_rescale t i Ht Hi) E0) as (A1 & _).
  exists (lev (rho_of (member i d mdr f1 f2 f3) 1) l). split; [exact A0|]. unfold hier_lib. rewrite A1. f_equal.
  unfold lev. rewrite (pev_weight dim t _ _ ltac:(lra) (rho_rescale i d mdr f1 f2 f3 t Hi Ht) (rho_ninv i d mdr f1 f2 f3 1 Hi Rlt_0_1) _ 4 W K).
  change (powerRZ t 4) with (t ^ 4). field. apply Zpos_neq0.
Qed.
Theorem hier_dim_C h g : hnumber h -> In g [FC0; FC1; FC2; FC3] -> forall i d mdr f1 f2 f3 t, inp_ok i -> 0 < t ->
  exists s : R, hout g (hier_lib h d (arg_list h i) mdr f1 f2 f3) = (Some s : PR)
    /\ hout g (hier_lib h d (arg_list h (rescale t i)) mdr f1 f2 f3) = (Some s : PR).
Proof.
  intros Hh Hg i d mdr f1 f2 f3 t Hi Ht. assert (K := chk_C_ok h g Hh Hg). unfold chk_C in K.
  destruct (hnf read_raw h f0 lg0 (hexpr h g)) as [l|] eqn:E0; [|discriminate].
  rewrite !andb_true_iff in K. destruct K as (_ & K).
  destruct (hout_f0 ndec read_raw h g l i d mdr f1 f2 f3 lit_raw Hh Hi E0) as (A0 & W).
  destruct (hout_f0 ndec read_raw h g l (rescale t i) d mdr f1 f2 f3 lit_raw Hh (inp_ok_rescale t i Ht Hi) E0) as (A1 & _).
  exists (lev (rho_of (member i d mdr f1 f2 f3) 1) l). split; [exact A0|]. unfold hier_lib. rewrite A1. f_equal.
  unfold lev. rewrite (pev_weight dim t _ _ ltac:(lra) (rho_rescale i d mdr f1 f2 f3 t Hi Ht) (rho_ninv i d mdr f1 f2 f3 1 Hi Rlt_0_1) _ 0 W K).
  change (powerRZ t 0) with 1. field. apply Zpos_neq0.
Qed.

(** ** truncation flags *)
Definition small_size (fl : depth_flag) (i : Inp) : R :=
  match fl with
  | DDmglst1 => Rmax (Rabs (i_mg i - i_m1 i)) (Rabs (i_m1 i * i_m1 i - i_m2 i * i_m2 i))
  | DDmglst2 => Rabs (i_mg i - i_m2 i)
  | DDmsqst1 => Rabs (i_msq i * i_msq i - i_m1 i * i_m1 i)
  | DDmsqst2 => Rabs (i_Dq2 i)
  | DAt => Rabs (i_At i)
  | _ => 0
  end.
Lemma flag_cases_ok h fl n : hnumber h -> In (fl, n) (flag_cases h) -> In fl [DDmglst1; DDmglst2; DDmsqst1; DDmsqst2; DAt].
Proof. revert h. apply (hnumber_cases (fun h => In (fl, n) (flag_cases h) -> In fl [DDmglst1; DDmglst2; DDmsqst1; DDmsqst2; DAt])); cbn; intros H; repeat (destruct H as [H|H]; [inversion H; tauto|]); destruct H. Qed.
Lemma rho_flag fl i d z mdr f1 f2 f3 v : flag_vars fl v = false -> In fl [DDmglst1; DDmglst2; DDmsqst1; DDmsqst2; DAt] ->
  rho_of (member i (depth_put d fl z) mdr f1 f2 f3) 1 v = rho_of (member i d mdr f1 f2 f3) 1 v.
Proof.
  intros H Hf. destruct d as [q0 q1 q2 q3 q4 q5 q6 q7 q8 q9 q10 q11].
  repeat (destruct Hf as [<-|Hf]; [byvar v|]). destruct Hf.
Qed.
Lemma box_bounded B fl i d mdr f1 f2 f3 : 1 <= B -> In fl [DDmglst1; DDmglst2; DDmsqst1; DDmsqst2; DAt] -> in_box B i -> flags_in B d mdr f1 f2 f3 ->
  bounded (small_vars fl) (bigM B) (small_size fl i) (rho_of (member i d mdr f1 f2 f3) 1).
Proof.
  intros HB Hfl Hi Hf. set (rho := rho_of _ _).
  assert (RB : forall w, Rabs (rho w) <= bigM B) by (intros w; apply rho_box; assumption).
  split; [|split; [exact RB|split]].
  - split.
    + repeat (destruct Hfl as [<-|Hfl]; [cbn [small_size]; first [apply Rabs_pos | eapply Rle_trans; [apply Rabs_pos|apply Rmax_l]]|]). destruct Hfl.
    + destruct Hfl as [<-|[<-|[<-|[<-|[<-|[]]]]]]; cbn [small_size];
        [apply Rmax_lub; [exact (RB 11%positive)|exact (RB 15%positive)]|exact (RB 12%positive)|exact (RB 13%positive)|exact (RB 14%positive)|exact (RB 16%positive)].
  - intros w Hw. split; [apply rho_ninv; [apply (in_box_ok B); assumption|lra|exact Hw]|apply rho_box_inv; assumption].
  - intros v Hv. destruct Hfl as [<-|[<-|[<-|[<-|[<-|[]]]]]]; cbn [small_vars] in Hv; try (apply orb_true_iff in Hv; destruct Hv as [Hv|Hv]);
      apply Pos.eqb_eq in Hv; subst v; cbn [small_size]; first [apply Rmax_l | apply Rmax_r | apply Rle_refl].
Qed.

Theorem flag_order h fl n g : hnumber h -> In (fl, n) (flag_cases h) -> In g sfuns -> forall B, 1 <= B ->
  exists C, forall i d mdr f1 f2 f3, in_box B i -> flags_in B d mdr f1 f2 f3 ->
    exists x y : R, hout g (hier_lib h (depth_put d fl 1) (arg_list h i) mdr f1 f2 f3) = (Some x : PR)
      /\ hout g (hier_lib h (depth_put d fl 0) (arg_list h i) mdr f1 f2 f3) = (Some y : PR)
      /\ Rabs (x - y) <= C * small_size fl i ^ n.
Proof.
  intros Hh Hfl Hg B HB. assert (K := chk_S_ok h g Hh Hg). unfold chk_S in K.
  destruct (hnf read_raw h f0 lg0 (hexpr h g)) as [l|] eqn:E0; [|discriminate].
  apply andb_true_iff in K. destruct K as (_ & K).
  assert (K2 := proj1 (forallb_forall _ _) K _ Hfl). cbv beta iota in K2. clear K.
  assert (Hf := flag_cases_ok h fl n Hh Hfl).
  destruct (hout_f0 ndec read_raw h g l inp1 depth_ones 0 0 0 0 lit_raw Hh inp1_ok E0) as (_ & W).
  destruct (flag_bound (small_vars fl) (flag_vars fl) (bigM B) (bigM_1 B HB) (fst l) n K2 W) as (C & PC' & BC).
  exists C. intros i d mdr f1 f2 f3 Hi Hfi.
  assert (Hok := in_box_ok B i HB Hi).
  destruct (hout_f0 ndec read_raw h g l i (depth_put d fl 1) mdr f1 f2 f3 lit_raw Hh Hok E0) as (A0 & _).
  destruct (hout_f0 ndec read_raw h g l i (depth_put d fl 0) mdr f1 f2 f3 lit_raw Hh Hok E0) as (A1 & _).
  eexists; eexists. split; [exact A0|split; [exact A1|]].
  assert (Fl : forall z, Rabs (IZR z) <= B -> flags_in B (depth_put d fl z) mdr f1 f2 f3).
  { intros z Hz. destruct Hfi as (F0 & F1). split; [|exact F1].
    intros f. specialize (F0 f). destruct d as [q0 q1 q2 q3 q4 q5 q6 q7 q8 q9 q10 q11].
    destruct Hf as [<-|[<-|[<-|[<-|[<-|[]]]]]]; destruct f; first [exact Hz | exact F0]. }
  assert (F1' := Fl 1%Z ltac:(rewrite Rabs_R1; exact HB)). assert (F0' := Fl 0%Z ltac:(rewrite Rabs_R0; lra)).
  assert (T := BC _ _ _ (box_bounded B fl i _ mdr f1 f2 f3 HB Hf Hi F1') (box_bounded B fl i _ mdr f1 f2 f3 HB Hf Hi F0')).
  assert (T2 : Rabs (pev (rho_of (member i (depth_put d fl 1) mdr f1 f2 f3) 1) (fst l) - pev (rho_of (member i (depth_put d fl 0) mdr f1 f2 f3) 1) (fst l)) <= C * small_size fl i ^ n).
  { apply T. intros v Hv. rewrite !rho_flag by assumption. reflexivity. }
  unfold lev. rewrite <- Rdiv_minus_distr. unfold Rdiv. rewrite Rabs_mult.
  assert (1 <= IZR (Zpos (snd l))) by (apply IZR_le; lia).
  rewrite (Rabs_pos_eq (/ _)) by (left; apply Rinv_0_lt_compat; lra).
  assert (/ IZR (Zpos (snd l)) <= 1) by (rewrite <- Rinv_1; apply Rinv_le_contravar; lra).
  match goal with |- ?X * _ <= _ => apply Rle_trans with (X * 1); [apply Rmult_le_compat_l; [apply Rabs_pos|assumption]|lra] end.
Qed.
