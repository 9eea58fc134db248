(** * Inputs of the hierarchy classes
    Specification: the quantities a hierarchy class works with, as real functions of the parameter
    point and of the (possibly shifted) stop masses.  Nothing here is code; [members_ok] and
    [hier_args_inp] connect it to the model of calculateHierarchy and of the constructors. *)
From Coq Require Import ZArith List Reals Lra Lia Bool.
From Verif Require Import Num NumFacts Except HObj Params HierFormulas HierCalc HierExpr HierLib.
Import ListNotations.
Local Open Scope R_scope.

(** alpha_s/(4 pi), beta, renormalisation scale, quark mass, the two squark masses, average squark
    mass, gluino mass, mu, sin(2 theta), trilinear coupling, and the number handed over as Dmsqst2
    (calculateHierarchy: average squark mass minus heavier stop mass, see [hier_args_inp]) *)
Record Inp := mkInp { i_al : R; i_beta : R; i_scale : R; i_mf : R; i_m1 : R; i_m2 : R; i_msq : R; i_mg : R;
  i_mu : R; i_s2 : R; i_At : R; i_Dq2 : R }.

Definition inp_ok (i : Inp) : Prop :=
  0 < i_scale i /\ 0 < i_mf i /\ 0 < i_m1 i /\ 0 < i_m2 i /\ 0 < i_msq i /\ 0 < i_mg i /\ 0 < i_beta i < PI / 2.

(** log(Q^2/m^2) *)
Definition lmass (i : Inp) (m : R) : R := ln ((i_scale i / m) * (i_scale i / m)).
Definition msusy (i : Inp) : R := (i_m1 i + i_m2 i + i_mg i) / 3.

(** the constructor arguments of class number h *)
Definition arg_list (h : Z) (i : Inp) : list PR :=
  let al := i_al i in let beta := i_beta i in let mf := i_mf i in let m1 := i_m1 i in let m2 := i_m2 i in
  let msq := i_msq i in let mg := i_mg i in let mu := i_mu i in let s2 := i_s2 i in
  let Dg1 := mg - m1 in let Dg2 := mg - m2 in let Dq1 := msq * msq - m1 * m1 in let Dq2 := i_Dq2 i in
  let D12 := m1 * m1 - m2 * m2 in let lm := lmass i in
  map (Some (A := R))
  (match h with
   | 0%Z  => [al; beta; Dg1; D12; Dq1; lm mf; lm m1; mg; mf; m1; m2; msq; mu; s2]
   | 1%Z  => [al; beta; Dg1; D12; Dq1; lm mf; lm m1; mf; m1; m2; mu; s2]
   | 2%Z  => [al; beta; Dg1; D12; Dq1; lm mf; lm m1; mf; m1; m2; msq; mu; s2]
   | 3%Z  => [al; i_At i; beta; lm mf; lm msq; lm (msusy i); mf; msusy i; msq]
   | 4%Z  => [al; beta; Dg1; lm mf; lm m1; lm m2; lm msq; mf; m1; m2; msq; mu; s2]
   | 5%Z  => [al; beta; Dg1; lm mf; lm m1; lm m2; lm msq; mg; mf; m1; m2; msq; mu; s2]
   | 6%Z  => [al; beta; Dg2; lm mf; lm m1; lm m2; lm msq; mf; m1; m2; msq; mu; s2]
   | 7%Z  => [al; beta; Dg2; Dq2; lm mf; lm m1; lm m2; mf; m1; m2; mu; s2]
   | 8%Z  => [al; beta; Dg2; Dq2; lm mf; lm m1; lm m2; mg; mf; m1; m2; mu; s2]
   | 9%Z  => [al; beta; Dg2; Dq2; lm mf; lm m1; lm m2; mf; m1; m2; msq; mu; s2]
   | 10%Z => [al; beta; Dg2; Dq2; lm mf; lm m1; lm m2; mg; mf; m1; m2; msq; mu; s2]
   | 11%Z => [al; beta; Dg2; lm mf; lm m1; lm m2; lm msq; mg; mf; m1; m2; msq; mu; s2]
   | 12%Z => [al; beta; D12; Dq1; lm mf; lm mg; lm m1; mg; mf; m1; m2; mu; s2]
   | 13%Z => [al; beta; D12; Dq1; lm mf; lm mg; lm m1; mg; mf; m1; m2; msq; mu; s2]
   | _ => []
   end).

(** what each data member stands for (hierarchies/H*.hpp), except that xDmst12 is the depth of
    Dmglst1, as in the code *)
Definition member (i : Inp) (d : Depth) (mdr f1 f2 f3 : Z) (v : hvar) : R :=
  match v with
  | vDmglst1 => i_mg i - i_m1 i
  | vDmglst2 => i_mg i - i_m2 i
  | vDmst12 => i_m1 i * i_m1 i - i_m2 i * i_m2 i
  | vDmsqst1 => i_msq i * i_msq i - i_m1 i * i_m1 i
  | vDmsqst2 => i_Dq2 i
  | vlmMt => lmass i (i_mf i)
  | vlmMst1 => lmass i (i_m1 i)
  | vlmMst2 => lmass i (i_m2 i)
  | vlmMsq => lmass i (i_msq i)
  | vlmMgl => lmass i (i_mg i)
  | vlmMsusy => lmass i (msusy i)
  | vMgl => i_mg i
  | vMt => i_mf i
  | vMst1 => i_m1 i
  | vMst2 => i_m2 i
  | vMsq => i_msq i
  | vMsusy => msusy i
  | vMuSUSY => i_mu i
  | vAt => i_At i
  | vs2t => i_s2 i
  | vTbeta => tan (i_beta i)
  | vSbeta => sin (i_beta i)
  | vCbeta => cos (i_beta i)
  | vAl4p => i_al i
  | vshiftst1 | vshiftst2 | vshiftst3 | vxDR2DRMOD => IZR mdr
  | vx => IZR (x_threeLoop d)
  | vxDmglst1 => IZR (x_Dmglst1 d)
  | vxDmglst2 => IZR (x_Dmglst2 d)
  | vxDmst12 => IZR (x_Dmglst1 d)
  | vxDmsqst1 => IZR (x_Dmsqst1 d)
  | vxDmsqst2 => IZR (x_Dmsqst2 d)
  | vxMsq => IZR (x_Msq d)
  | vxMst => IZR (x_Mst d)
  | vxMgl => IZR (x_Mgl d)
  | vxAt => IZR (x_At d)
  | vxlmMsusy => IZR (x_lmMsusy d)
  | vxMsusy => IZR (x_Msusy d)
  | voneLoopFlag => IZR f1
  | vtwoLoopFlag => IZR f2
  | vthreeLoopFlag => IZR f3
  end.

Lemma cos_beta_pos i : inp_ok i -> 0 < cos (i_beta i).
Proof. intros (_ & _ & _ & _ & _ & _ & A & B). apply cos_gt_0; lra. Qed.
Lemma sin_beta_pos i : inp_ok i -> 0 < sin (i_beta i).
Proof. intros (_ & _ & _ & _ & _ & _ & A & B). apply sin_gt_0; lra. Qed.

Definition hnumber (h : Z) : Prop := (0 <= h <= 13)%Z.
Lemma hnumber_cases (P : Z -> Prop) :
  P 0%Z -> P 1%Z -> P 2%Z -> P 3%Z -> P 4%Z -> P 5%Z -> P 6%Z -> P 7%Z -> P 8%Z -> P 9%Z -> P 10%Z -> P 11%Z -> P 12%Z -> P 13%Z ->
  forall h, hnumber h -> P h.
Proof.
  intros. assert (h = 0 \/ h = 1 \/ h = 2 \/ h = 3 \/ h = 4 \/ h = 5 \/ h = 6 \/ h = 7 \/ h = 8 \/ h = 9 \/ h = 10 \/ h = 11 \/ h = 12 \/ h = 13)%Z
    by (unfold hnumber in *; lia).
  repeat match goal with H : _ \/ _ |- _ => destruct H as [->|H]; [assumption|] end. subst; assumption.
Qed.

(** every data member that the constructor of class h assigns gets the quantity it stands for *)
Theorem members_ok h d i mdr f1 f2 f3 v : hnumber h -> inp_ok i ->
  hier_members h d (arg_list h i) mdr f1 f2 f3 v
  = Some (if hier_sets h v then member i d mdr f1 f2 f3 v else 0).
Proof.
  intros Hh Hi. assert (C := cos_beta_pos i Hi).
  assert (Tn : @ntan PR NumP (Some (i_beta i)) = Some (tan (i_beta i))).
  { change (pguard (fun x => negb (Reqb (cos x) 0)) tan (Some (i_beta i)) = Some (tan (i_beta i))).
    unfold pguard. rewrite Reqb_false by lra. reflexivity. }
  revert h Hh. apply hnumber_cases; destruct v; first [reflexivity | exact Tn].
Qed.

(** the argument list is the one of calculateHierarchy *)
Theorem hier_args_inp (p : Params PR) ab h i :
  hnumber h -> inp_ok i ->
  fMass p ab = Some (i_mf i) -> sfS2 p ab = Some (i_s2 i) -> calcMeanMsq p = Some (i_msq i) ->
  scale p = Some (i_scale i) -> calcAsOver4Pi p = Some (i_al i) -> calcBeta p = Some (i_beta i) ->
  MG p = Some (i_mg i) -> mu p = Some (i_mu i) ->
  (if ab then a22 (Ad p) else a22 (Au p)) = Some (i_At i) ->
  i_Dq2 i = i_msq i - i_m2 i ->
  hier_args p ab h (Some (i_m1 i)) (Some (i_m2 i)) = Some (arg_list h i).
Proof.
  intros Hh Hi E1 E2 E3 E4 E5 E6 E7 E8 E9 E10.
  unfold hier_args. cbv zeta. rewrite E1, E2, E3, E4, E5, E6, E7, E8, E9.
  destruct Hi as (P1 & P2 & P3 & P4 & P5 & P6 & P7).
  assert (L : forall m, 0 < m -> @nlog PR NumP (@pow2 PR NumP (@ndiv PR NumP (Some (i_scale i)) (Some m))) = Some (lmass i m)).
  { intros m Hm. change (@ndiv PR NumP (Some (i_scale i)) (Some m)) with (pdiv (Some (i_scale i)) (Some m)).
    rewrite pdiv_some by lra.
    change (pguard (fun x => Rltb 0 x) ln (Some (i_scale i / m * (i_scale i / m))) = Some (lmass i m)).
    rewrite plog_some; [reflexivity|]. apply Rmult_lt_0_compat; apply Rdiv_lt_0_compat; assumption. }
  assert (S3 : @ndiv PR NumP (@nadd PR NumP (@nadd PR NumP (Some (i_m1 i)) (Some (i_m2 i))) (Some (i_mg i))) (@nint PR NumP 3) = Some (msusy i)).
  { change (pdiv (Some (i_m1 i + i_m2 i + i_mg i)) (Some 3) = Some (msusy i)). rewrite pdiv_some by lra. reflexivity. }
  assert (P8 : 0 < msusy i) by (unfold msusy; lra).
  rewrite S3. rewrite !L by assumption.
  revert h Hh. unfold arg_list. rewrite E10. apply hnumber_cases; reflexivity.
Qed.
