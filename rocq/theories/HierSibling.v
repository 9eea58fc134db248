(** * Sibling expansions agree to the order to which they are expanded (proofs) *)
From Coq Require Import ZArith List Reals Lra Lia Bool.
From Verif Require Import Num NumFacts HierCalc HierExpr HierPoly HierLib HierInp HierNF HierRead HierLit HierOrder HierMono HierCheck HierAgree.
Import ListNotations.

Definition f_ones (v : hvar) : lp :=
  match v with
  | vx | vxDmglst1 | vxDmglst2 | vxDmst12 | vxDmsqst1 | vxDmsqst2 | vxMsq | vxMst | vxMgl | vxAt | vxlmMsusy | vxMsusy => lc 1
  | _ => f0 v
  end.
(** the mass that is expanded around the other one: its variable, exponent, the sum, the variable of the difference *)
Definition sub_of (k : merge) : positive * nat * pol * positive * Z :=
  match k with
  | G1 => (8, 1%nat, PX 5 1 (PC 1) (PX 11 1 (PC 1) (PC 0)), 11, 4%Z)
  | G2 => (8, 1%nat, PX 6 1 (PC 1) (PX 12 1 (PC 1) (PC 0)), 12, 4%Z)
  | Q1 => (7, 2%nat, PX 5 2 (PC 1) (PX 13 1 (PC 1) (PC 0)), 13, 8%Z)
  | Q2 => (7, 2%nat, PX 6 2 (PC 1) (PX 14 1 (PC 1) (PC 0)), 14, 8%Z)
  end%positive.
Definition chk_sib rd (k : merge) (h h' : Z) (n : nat) (g : hfun) : bool :=
  let '(v, e, q, dvar, sh) := sub_of k in
  match hnf rd h f_ones lg0 (hexpr h g), hnf rd h' f_ones lg0 (hexpr h' g) with
  | Some a, Some b =>
      let p := pshift v sh (fst (ladd a (lneg b))) in
      subok v (Z.of_nat e) p && degok (Pos.eqb dvar) n (psub v q (Z.of_nat e) p)
  | _, _ => false
  end.
Definition sib_pairs : list (merge * Z * Z * nat) :=
  [(G1, 0%Z, 2%Z, 4%nat); (Q1, 2%Z, 1%Z, 3%nat); (Q1, 12%Z, 13%Z, 3%nat); (G1, 4%Z, 5%Z, 3%nat); (G2, 6%Z, 11%Z, 3%nat);
   (G2, 7%Z, 8%Z, 3%nat); (Q2, 7%Z, 9%Z, 3%nat); (Q2, 8%Z, 10%Z, 3%nat); (G2, 9%Z, 10%Z, 3%nat)].
Lemma chk_sib_all : forallb (fun '(k, h, h', n) => forallb (chk_sib read_lit k h h' n) sfuns) sib_pairs = true.
Proof. vm_compute. reflexivity. Qed.

Local Open Scope R_scope.
(** the small quantity *)
Definition gap (k : merge) (i : Inp) : R :=
  match k with
  | G1 => i_mg i - i_m1 i | G2 => i_mg i - i_m2 i
  | Q1 => i_msq i * i_msq i - i_m1 i * i_m1 i | Q2 => i_msq i * i_msq i - i_m2 i * i_m2 i
  end.

Lemma valid_ones i mdr f1 f2 f3 t : inp_ok i ->
  valid (rho_of (member i depth_ones mdr f1 f2 f3) t) i depth_ones mdr f1 f2 f3 f_ones lg0.
Proof.
  intros Hi. split; [exact Hi|]. split; [|apply lg0_ok].
  intros v. assert (F0 := f0_ok i depth_ones mdr f1 f2 f3 t Hi).
  destruct v; unfold f_ones; try (match goal with |- context [f0 ?w] => exact (F0 w) end); rewrite lev_lc; (split; [reflexivity|apply lwf_lc]).
Qed.

Theorem siblings k h h' n g : In (k, h, h', n) sib_pairs -> In g sfuns -> forall B, 1 <= B ->
  exists C, forall i mdr f1 f2 f3, in_box B i -> flags_in B depth_ones mdr f1 f2 f3 ->
    (k = Q2 -> i_Dq2 i = i_msq i * i_msq i - i_m2 i * i_m2 i) ->
    exists x y : R, hout g (hier_lib_lit reading_P h depth_ones (arg_list h i) mdr f1 f2 f3) = (Some x : PR)
      /\ hout g (hier_lib_lit reading_P h' depth_ones (arg_list h' i) mdr f1 f2 f3) = (Some y : PR)
      /\ Rabs (x - y) <= C * Rabs (gap k i) ^ n.
Proof.
  intros H Hg B HB.
  assert (Hh : hnumber h) by (apply hnum; repeat (destruct H as [E|H]; [inversion E; reflexivity|]); destruct H).
  assert (Hh' : hnumber h') by (apply hnum; repeat (destruct H as [E|H]; [inversion E; reflexivity|]); destruct H).
  assert (K : chk_sib read_lit k h h' n g = true).
  { assert (C := proj1 (forallb_forall _ _) chk_sib_all _ H). cbv beta iota in C. exact (proj1 (forallb_forall _ _) C _ Hg). }
  clear H Hg. unfold chk_sib in K.
  destruct (sub_of k) as [[[[v e] q] dvar] sh] eqn:Sk.
  destruct (hnf read_lit h f_ones lg0 (hexpr h g)) as [a|] eqn:E0; [|discriminate].
  destruct (hnf read_lit h' f_ones lg0 (hexpr h' g)) as [b|] eqn:E1; [|discriminate].
  apply andb_true_iff in K. destruct K as (K1 & K2).
  set (D := ladd a (lneg b)) in *.
  assert (Vk : (v <= ninv)%positive) by (destruct k; cbn in Sk; inversion Sk; unfold ninv; lia).
  assert (Ke : (0 < e)%nat) by (destruct k; cbn in Sk; inversion Sk; lia).
  assert (Wq : wf ninv q). { destruct k; cbn in Sk; inversion Sk; cbn; repeat split; try (right; lia). }
  assert (Psh : (0 <= sh)%Z) by (destruct k; cbn in Sk; inversion Sk; lia).
  (* well-formedness of a and b does not depend on the point *)
  set (i1 := mkInp 1 (PI / 4) 1 1 1 1 1 1 1 1 1 0).
  assert (I1 : inp_ok i1) by (unfold inp_ok, i1; cbn; pose proof PI_RGT_0; repeat split; lra).
  set (rho1 := rho_of (member i1 depth_ones 0 0 0 0) 1).
  assert (HE1 : env_ok rho1) by (apply env_ok_rho; [exact I1|lra]).
  destruct (hout_nf _ _ rho1 h _ _ i1 depth_ones 0 0 0 0 g a lit_reading Hh HE1 (valid_ones i1 0 0 0 0 1 I1) E0) as (_ & Wa).
  destruct (hout_nf _ _ rho1 h' _ _ i1 depth_ones 0 0 0 0 g b lit_reading Hh' HE1 (valid_ones i1 0 0 0 0 1 I1) E1) as (_ & Wb).
  destruct (lneg_ok rho1 ninv b Wb) as (_ & Wnb).
  destruct (ladd_ok rho1 ninv a _ Wa Wnb) as (_ & WD). fold D in WD.
  destruct (pshift_ok rho1 ninv (proj1 HE1) v sh (fst D) (or_introl Vk) WD) as (_ & Wsh).
  (* and neither does that of the substituted polynomial *)
  assert (Wps : wf ninv (psub v q (Z.of_nat e) (pshift v sh (fst D)))).
  { apply (psub_ok rho1 (proj1 HE1) v q e Ke); try assumption.
    destruct k; cbn in Sk; inversion Sk; subst v e q;
      cbn [pev]; unfold xp; change (powerRZ (rho1 5%positive) 1) with (1 * 1); change (powerRZ (rho1 6%positive) 1) with (1 * 1);
      change (powerRZ (rho1 5%positive) 2) with (1 * (1 * 1)); change (powerRZ (rho1 6%positive) 2) with (1 * (1 * 1));
      try change (powerRZ (rho1 11%positive) 1) with ((1 - 1) * 1); try change (powerRZ (rho1 12%positive) 1) with ((1 - 1) * 1);
      try change (powerRZ (rho1 13%positive) 1) with ((1 * 1 - 1 * 1) * 1);
      try change (powerRZ (rho1 14%positive) 1) with (0 * 1);
      try change (rho1 8%positive) with 1; try change (rho1 7%positive) with 1; cbn [pow]; try ring. }
  set (M := bigM B). assert (HM : 1 <= M) by (apply bigM_1; exact HB).
  destruct (deg_bound (Pos.eqb dvar) M HM _ n K2 Wps) as (C & PC' & BC).
  exists (C * M ^ Z.to_nat sh). intros i mdr f1 f2 f3 Hi Hf HQ.
  assert (Hok := in_box_ok B i HB Hi).
  set (rho := rho_of (member i depth_ones mdr f1 f2 f3) 1).
  assert (HE : env_ok rho) by (apply env_ok_rho; [exact Hok|lra]).
  destruct (hout_nf _ _ rho h _ _ i depth_ones mdr f1 f2 f3 g a lit_reading Hh HE (valid_ones i mdr f1 f2 f3 1 Hok) E0) as (A0 & _).
  destruct (hout_nf _ _ rho h' _ _ i depth_ones mdr f1 f2 f3 g b lit_reading Hh' HE (valid_ones i mdr f1 f2 f3 1 Hok) E1) as (A1 & _).
  exists (lev rho a), (lev rho b). split; [exact A0|split; [exact A1|]].
  assert (ED : lev rho D = lev rho a - lev rho b).
  { destruct (lneg_ok rho ninv b Wb) as (N1 & N2). destruct (ladd_ok rho ninv a _ Wa N2) as (N3 & _).
    unfold D. rewrite N3, N1. ring. }
  rewrite <- ED.
  assert (Hq : pev rho q = rho v ^ e).
  { destruct k; cbn in Sk; inversion Sk; subst v e q; cbn [pev]; unfold xp;
      try change (powerRZ (rho 5%positive) 1) with (i_m1 i * 1); try change (powerRZ (rho 6%positive) 1) with (i_m2 i * 1);
      try change (powerRZ (rho 5%positive) 2) with (i_m1 i * (i_m1 i * 1)); try change (powerRZ (rho 6%positive) 2) with (i_m2 i * (i_m2 i * 1));
      try change (powerRZ (rho 11%positive) 1) with ((i_mg i - i_m1 i) * 1); try change (powerRZ (rho 12%positive) 1) with ((i_mg i - i_m2 i) * 1);
      try change (powerRZ (rho 13%positive) 1) with ((i_msq i * i_msq i - i_m1 i * i_m1 i) * 1);
      try change (powerRZ (rho 14%positive) 1) with (i_Dq2 i * 1);
      try change (rho 8%positive) with (i_mg i); try change (rho 7%positive) with (i_msq i); cbn [pow]; try rewrite (HQ eq_refl); ring. }
  destruct (psub_ok rho (proj1 HE) v q e Ke Hq Wq _ K1 Wsh) as (P1 & _).
  destruct (pshift_ok rho ninv (proj1 HE) v sh (fst D) (or_introl Vk) WD) as (P2 & _).
  assert (Hgap : rho dvar = gap k i).
  { destruct k; cbn in Sk; inversion Sk; subst dvar; try reflexivity. cbn. apply HQ. reflexivity. }
  assert (HBd : bounded (Pos.eqb dvar) M (Rabs (gap k i)) rho).
  { split; [|split; [|split]].
    - split; [apply Rabs_pos|]. rewrite <- Hgap. apply rho_box; assumption.
    - intros w. apply rho_box; assumption.
    - intros w Hw. split; [apply (proj1 HE); exact Hw|apply rho_box_inv; assumption].
    - intros w Hw. apply Pos.eqb_eq in Hw. subst w. rewrite Hgap. lra. }
  specialize (BC _ _ HBd). rewrite P1, P2 in BC.
  assert (NZ : rho v <> 0) by (apply (proj1 HE); exact Vk).
  assert (X : xp rho v sh = rho v ^ Z.to_nat sh).
  { unfold xp. rewrite <- (Z2Nat.id sh) at 1 by exact Psh. symmetry. apply pow_powerRZ. }
  rewrite X in BC. set (m := Z.to_nat sh) in *.
  assert (Iv : Rabs (/ rho v) ^ m <= M ^ m) by (apply pow_incr; split; [apply Rabs_pos|apply rho_box_inv; assumption]).
  assert (T : Rabs (pev rho (fst D)) <= C * M ^ m * Rabs (gap k i) ^ n).
  { replace (pev rho (fst D)) with ((/ rho v) ^ m * (rho v ^ m * pev rho (fst D))).
    2: { rewrite <- Rmult_assoc, <- Rpow_mult_distr, Rinv_l by exact NZ. rewrite pow1. ring. }
    rewrite Rabs_mult, <- RPow_abs.
    replace (C * M ^ m * Rabs (gap k i) ^ n) with (M ^ m * (C * Rabs (gap k i) ^ n)) by ring.
    apply Rmult_le_compat; [apply pow_le; apply Rabs_pos|apply Rabs_pos|exact Iv|exact BC]. }
  unfold lev, Rdiv. rewrite Rabs_mult.
  assert (1 <= IZR (Zpos (snd D))) by (apply IZR_le; lia).
  rewrite (Rabs_pos_eq (/ _)) by (left; apply Rinv_0_lt_compat; lra).
  assert (/ IZR (Zpos (snd D)) <= 1) by (rewrite <- Rinv_1; apply Rinv_le_contravar; lra).
  apply Rle_trans with (Rabs (pev rho (fst D)) * 1); [apply Rmult_le_compat_l; [apply Rabs_pos|assumption]|lra].
Qed.
