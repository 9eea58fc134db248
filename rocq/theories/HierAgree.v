(** * Agreement of the hierarchies of one family at their common point (proofs)
    Families: the expansions differ only in whether the gluino (squark) mass counts as smaller or
    larger than the stop mass it is close to; where the two masses are equal they must coincide. *)
From Coq Require Import ZArith List Reals Lra Lia Bool.
From Verif Require Import Num NumFacts HierCalc HierExpr HierPoly HierLib HierInp HierNF HierRead HierLit HierOrder HierMono HierCheck.
Import ListNotations.

Inductive merge := G1 | G2 | Q1 | Q2.   (* gluino/squark mass = first/second stop mass *)
Definition f_merge (k : merge) (v : hvar) : lp :=
  match k, v with
  | G1, vMgl => pv 5 | G1, vDmglst1 => lc 0 | G1, vlmMgl => pv 18
  | G2, vMgl => pv 6 | G2, vDmglst2 => lc 0 | G2, vlmMgl => pv 19
  | Q1, vMsq => pv 5 | Q1, vDmsqst1 => lc 0 | Q1, vlmMsq => pv 18
  | Q2, vMsq => pv 6 | Q2, vDmsqst2 => lc 0 | Q2, vlmMsq => pv 19
  | _, _ => f0 v
  end.
Definition lg_merge (k : merge) (a b : hvar) : option lp :=
  match k, a, b with
  | G1, vMst1, vMgl => Some (lc 0) | G2, vMst1, vMgl => Some (pv 64)
  | Q1, vMst1, vMsq => Some (lc 0) | Q2, vMst1, vMsq => Some (pv 64)
  | _, _, _ => lg0 a b
  end.
Definition chk_agree rd (k : merge) (h h' : Z) (g : hfun) : bool :=
  match hnf rd h (f_merge k) (lg_merge k) (hexpr h g), hnf rd h' (f_merge k) (lg_merge k) (hexpr h' g) with
  | Some l, Some a => lzero (Some (lt_nf (LSub (LA l) (LA a))))
  | _, _ => false
  end.


Definition exact_pairs : list (merge * Z * Z) := [(G1, 0, 2); (Q1, 2, 1); (Q1, 12, 13)]%Z.
Definition read_pairs : list (merge * Z * Z) := [(G2, 6, 11); (G2, 7, 8); (Q2, 7, 9); (Q2, 8, 10); (G2, 9, 10)]%Z.
Lemma chk_exact : forallb (fun '(k, h, h') => forallb (chk_agree read_raw k h h') (sfuns ++ cfuns)) exact_pairs = true.
Proof. vm_compute. reflexivity. Qed.
Lemma chk_read : forallb (fun '(k, h, h') => forallb (chk_agree read_lit k h h') sfuns) ((G1, 4%Z, 5%Z) :: read_pairs) = true.
Proof. vm_compute. reflexivity. Qed.
Lemma chk_coefs : forallb (fun '(k, h, h') => forallb (chk_agree read_raw k h h') cfuns) read_pairs = true.
Proof. vm_compute. reflexivity. Qed.

Local Open Scope R_scope.
Definition merged (k : merge) (i : Inp) : Prop :=
  match k with G1 => i_mg i = i_m1 i | G2 => i_mg i = i_m2 i | Q1 => i_msq i = i_m1 i | Q2 => i_msq i = i_m2 i /\ i_Dq2 i = 0 end.

Lemma ln_same (x : R) : 0 < x -> ln (x ^ 2 / x ^ 2) = 0.
Proof. intros H. replace (x ^ 2 / x ^ 2) with 1 by (field; lra). apply ln_1. Qed.

Lemma valid_merge k i d mdr f1 f2 f3 : inp_ok i -> merged k i ->
  valid (rho_of (member i d mdr f1 f2 f3) 1) i d mdr f1 f2 f3 (f_merge k) (lg_merge k).
Proof.
  intros Hi Hm. set (rho := rho_of _ _). split; [exact Hi|].
  assert (F0 := f0_ok i d mdr f1 f2 f3 1 Hi).
  destruct Hi as (A & B & C & D & E & F & G). split.
  - intros v.
    assert (Z : forall x, x = 0 -> x = lev rho (lc 0) /\ lwf ninv (lc 0)) by (intros x ->; rewrite lev_lc; split; [reflexivity|exact I]).
    assert (W : forall x y, x = rho y -> x = lev rho (pv y) /\ lwf ninv (pv y)) by (intros x y ->; rewrite lev_pv; split; [reflexivity|apply lwf_pv]).
    destruct k; destruct v; unfold f_merge; try (match goal with |- context [f0 ?w] => exact (F0 w) end);
      cbn [merged] in Hm; first [apply Z | apply W]; cbn [member];
      match goal with |- context [rho ?p] => let q := eval cbn in (rho p) in change (rho p) with q | _ => idtac end;
      match type of Hm with _ /\ _ => destruct Hm as (Hm & Hm') | _ => idtac end; try exact Hm'; try rewrite Hm; try reflexivity; try ring.
  - intros x y l Q.
    assert (L0 := lg0_ok i d mdr f1 f2 f3 1 x y l).
    destruct k; destruct x; try discriminate Q; destruct y; try discriminate Q; cbn [lg_merge] in Q;
      try exact (L0 Q);
      apply (f_equal (fun o => match o with Some w => w | None => l end)) in Q; cbv beta iota in Q; rewrite <- Q; cbn [merged] in Hm; split; try reflexivity; split; try reflexivity;
      (split; [|first [exact I | apply lwf_pv]]); first [rewrite lev_pv | rewrite lev_lc]; cbn [member];
      match type of Hm with _ /\ _ => destruct Hm as (Hm & _) | _ => idtac end; rewrite Hm; first [apply ln_same; assumption | reflexivity].
Qed.

Lemma agree_of_chk lit rd k h h' g : lit_ok lit rd -> hnumber h -> hnumber h' -> chk_agree rd k h h' g = true ->
  forall i d mdr f1 f2 f3, inp_ok i -> merged k i ->
  exists x : R, hout g (hier_lib_lit lit h d (arg_list h i) mdr f1 f2 f3) = (Some x : PR)
    /\ hout g (hier_lib_lit lit h' d (arg_list h' i) mdr f1 f2 f3) = (Some x : PR).
Proof.
  intros HL Hh Hh' H i d mdr f1 f2 f3 Hi Hm. unfold chk_agree in H.
  destruct (hnf rd h (f_merge k) (lg_merge k) (hexpr h g)) as [l|] eqn:E0; [|discriminate].
  destruct (hnf rd h' (f_merge k) (lg_merge k) (hexpr h' g)) as [a|] eqn:E1; [|discriminate].
  set (rho := rho_of (member i d mdr f1 f2 f3) 1).
  assert (HE : env_ok rho) by (apply env_ok_rho; [exact Hi|lra]).
  assert (HV := valid_merge k i d mdr f1 f2 f3 Hi Hm).
  destruct (hout_nf _ _ rho h _ _ i d mdr f1 f2 f3 g l HL Hh HE HV E0) as (A0 & W0).
  destruct (hout_nf _ _ rho h' _ _ i d mdr f1 f2 f3 g a HL Hh' HE HV E1) as (A1 & W1).
  exists (lev rho l). split; [exact A0|]. rewrite A1. f_equal.
  apply (lt_zero rho _ (proj1 HE)) in H; [|cbn; tauto]. cbn [lt_ev] in H. lra.
Qed.

Lemma hnum (h : Z) : (0 <=? h)%Z && (h <=? 13)%Z = true -> hnumber h.
Proof. intros H. apply andb_true_iff in H. destruct H as (A & B). apply Z.leb_le in A, B. split; assumption. Qed.

Theorem agree_exact k h h' g : In (k, h, h') exact_pairs -> In g (sfuns ++ cfuns) ->
  forall i d mdr f1 f2 f3, inp_ok i -> merged k i ->
  exists x : R, hout g (hier_lib h d (arg_list h i) mdr f1 f2 f3) = (Some x : PR)
    /\ hout g (hier_lib h' d (arg_list h' i) mdr f1 f2 f3) = (Some x : PR).
Proof.
  intros H Hg. apply (agree_of_chk ndec read_raw k h h' g lit_raw).
  - apply hnum. destruct H as [E|[E|[E|[]]]]; inversion E; reflexivity.
  - apply hnum. destruct H as [E|[E|[E|[]]]]; inversion E; reflexivity.
  - assert (C := proj1 (forallb_forall _ _) chk_exact _ H). cbv beta iota in C. exact (proj1 (forallb_forall _ _) C _ Hg).
Qed.
Theorem agree_read k h h' g : In (k, h, h') ((G1, 4%Z, 5%Z) :: read_pairs) -> In g sfuns ->
  forall i d mdr f1 f2 f3, inp_ok i -> merged k i ->
  exists x : R, hout g (hier_lib_lit reading_P h d (arg_list h i) mdr f1 f2 f3) = (Some x : PR)
    /\ hout g (hier_lib_lit reading_P h' d (arg_list h' i) mdr f1 f2 f3) = (Some x : PR).
Proof.
  intros H Hg. apply (agree_of_chk reading_P read_lit k h h' g lit_reading).
  - apply hnum. repeat (destruct H as [E|H]; [inversion E; reflexivity|]). destruct H.
  - apply hnum. repeat (destruct H as [E|H]; [inversion E; reflexivity|]). destruct H.
  - assert (C := proj1 (forallb_forall _ _) chk_read _ H). cbv beta iota in C. exact (proj1 (forallb_forall _ _) C _ Hg).
Qed.
Theorem agree_coefs k h h' g : In (k, h, h') read_pairs -> In g cfuns ->
  forall i d mdr f1 f2 f3, inp_ok i -> merged k i ->
  exists x : R, hout g (hier_lib h d (arg_list h i) mdr f1 f2 f3) = (Some x : PR)
    /\ hout g (hier_lib h' d (arg_list h' i) mdr f1 f2 f3) = (Some x : PR).
Proof.
  intros H Hg. apply (agree_of_chk ndec read_raw k h h' g lit_raw).
  - apply hnum. repeat (destruct H as [E|H]; [inversion E; reflexivity|]). destruct H.
  - apply hnum. repeat (destruct H as [E|H]; [inversion E; reflexivity|]). destruct H.
  - assert (C := proj1 (forallb_forall _ _) chk_coefs _ H). cbv beta iota in C. exact (proj1 (forallb_forall _ _) C _ Hg).
Qed.
