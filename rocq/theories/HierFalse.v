(** * Values of the hierarchy classes at special points (proofs of the negative results)
    all masses equal to m, average squark mass k m, Q = m, beta = pi/4, A_t = 1, alpha_s/(4 pi) = 1 *)
From Coq Require Import ZArith List Reals Lra Lia Bool.
From Verif Require Import Num NumFacts HierCalc HierExpr HierPoly HierLib HierInp HierNF HierRead HierLit HierOrder HierMono HierCheck HierAgree HierProj.
Import ListNotations.
Local Open Scope R_scope.

Definition pt (m k mu s2 dq : Z) : Inp :=
  mkInp 1 (PI / 4) (IZR m) (IZR m) (IZR m) (IZR m) (IZR (k * m)) (IZR m) (IZR mu) (IZR s2) 1 (IZR dq).
Definition f_pt (m k mu s2 dq f1 f2 f3 : Z) (v : hvar) : lp :=
  match v with
  | vMt | vMst1 | vMst2 | vMgl | vMsusy => lc m
  | vMsq => lc (k * m)
  | vDmglst1 | vDmglst2 | vDmst12 => lc 0
  | vDmsqst1 => lc (k * m * (k * m) - m * m)
  | vDmsqst2 => lc dq
  | vlmMt | vlmMst1 | vlmMst2 | vlmMgl | vlmMsusy => lc 0
  | vlmMsq => if (k =? 1)%Z then lc 0 else pv 65
  | vMuSUSY => lc mu | vAt => lc 1 | vs2t => lc s2 | vTbeta => lc 1 | vSbeta | vCbeta => pv 2 | vAl4p => lc 1
  | vshiftst1 | vshiftst2 | vshiftst3 | vxDR2DRMOD => lc 0
  | voneLoopFlag => lc f1 | vtwoLoopFlag => lc f2 | vthreeLoopFlag => lc f3
  | _ => lc 1
  end.
Definition lg_pt (k : Z) (a b : hvar) : option lp :=
  match lg0 a b with
  | Some l => match a, b with vMsq, _ | _, vMsq => if (k =? 1)%Z then Some (lc 0) else Some l | _, _ => Some (lc 0) end
  | None => None
  end.
Lemma pt_ok m k mu s2 dq : (0 < m)%Z -> (0 < k)%Z -> inp_ok (pt m k mu s2 dq).
Proof.
  intros Hm Hk. assert (0 < IZR m) by (apply IZR_lt; exact Hm). assert (0 < IZR (k * m)) by (apply IZR_lt; apply Z.mul_pos_pos; assumption).
  pose proof PI_RGT_0. unfold inp_ok, pt; cbn [i_scale i_mf i_m1 i_m2 i_msq i_mg i_beta]. repeat split; try assumption; lra.
Qed.
Lemma lmass_self i m : 0 < m -> i_scale i = m -> lmass i m = 0.
Proof. intros H E. unfold lmass. rewrite E. replace (m / m * (m / m)) with 1 by (field; lra). apply ln_1. Qed.
Lemma valid_pt m k mu s2 dq f1 f2 f3 : (0 < m)%Z -> (0 < k)%Z ->
  valid (rho_of (member (pt m k mu s2 dq) depth_ones 0 f1 f2 f3) 1) (pt m k mu s2 dq) depth_ones 0 f1 f2 f3 (f_pt m k mu s2 dq f1 f2 f3) (lg_pt k).
Proof.
  intros Hm Hk. assert (Hi := pt_ok m k mu s2 dq Hm Hk). split; [exact Hi|].
  assert (Pm : 0 < IZR m) by (apply IZR_lt; exact Hm). assert (Pk : 0 < IZR (k * m)) by (apply IZR_lt; apply Z.mul_pos_pos; assumption).
  set (i := pt m k mu s2 dq) in *. set (rho := rho_of _ _).
  assert (MS : msusy i = IZR m) by (unfold msusy, i, pt; cbn [i_m1 i_m2 i_mg]; field).
  assert (L0 : lmass i (IZR m) = 0) by (apply lmass_self; [exact Pm|reflexivity]).
  assert (K1 : k = 1%Z -> IZR (k * m) = IZR m) by (intros ->; f_equal; lia).
  assert (LC : forall x z, x = IZR z -> x = lev rho (lc z) /\ lwf ninv (lc z)) by (intros x z ->; rewrite lev_lc; split; [reflexivity|exact I]).
  split.
  - intros v.
    destruct v; unfold f_pt;
      try (apply LC; first [reflexivity | exact L0 | exact MS | change (IZR m - IZR m = 0); ring | change (IZR m * IZR m - IZR m * IZR m = 0); ring
        | cbn [member]; rewrite MS; exact L0
        | cbn [member i_msq i_m1 i pt]; rewrite minus_IZR, !mult_IZR; reflexivity]);
      try (rewrite lev_pv; split; [|apply lwf_pv]; first [reflexivity | change (cos (PI / 4) = sin (PI / 4)); rewrite sin_PI4, cos_PI4; reflexivity]).
    + destruct (k =? 1)%Z eqn:E.
      * apply Z.eqb_eq in E. apply LC. change (lmass i (IZR (k * m)) = 0). rewrite (K1 E). exact L0.
      * rewrite lev_pv. split; [|apply lwf_pv]. change (ln (IZR m / IZR (k * m) * (IZR m / IZR (k * m))) = ln (IZR m ^ 2 / IZR (k * m) ^ 2)). f_equal. field. lra.
    + apply LC. change (tan (PI / 4) = 1). exact tan_PI4.
  - intros a b l H. unfold lg_pt in H. destruct (lg0 a b) as [l'|] eqn:E; [|discriminate].
    destruct (lg0_ok i depth_ones 0 f1 f2 f3 1 a b l' E) as (A & B & C & D). split; [exact A|]. split; [exact B|].
    assert (LZ : forall x y : R, x = y -> 0 < y -> lc 0 = l -> ln (x ^ 2 / y ^ 2) = lev rho l /\ lwf ninv l).
    { intros x y -> Hy <-. rewrite lev_lc. split; [apply ln_same; exact Hy|exact I]. }
    destruct a; try discriminate; destruct b; try discriminate; cbn [lg_pt] in H;
      first [ destruct (k =? 1)%Z eqn:Ek; [apply Z.eqb_eq in Ek; injection H as H; apply (LZ _ _); [cbn [member]; rewrite ?MS; cbn [i pt i_m1 i_msq]; rewrite (K1 Ek); reflexivity|cbn [member]; rewrite ?MS; first [exact Pm|exact Pk]|exact H] | injection H as H; rewrite <- H; split; [exact C|exact D]]
            | injection H as H; apply (LZ _ _); [reflexivity|exact Pm|exact H] ].
Qed.

Lemma pt_value m k mu s2 dq f1 f2 f3 h g l : (0 < m)%Z -> (0 < k)%Z -> hnumber h ->
  hnf read_raw h (f_pt m k mu s2 dq f1 f2 f3) (lg_pt k) (hexpr h g) = Some l ->
  hout g (hier_lib h depth_ones (arg_list h (pt m k mu s2 dq)) 0 f1 f2 f3)
  = (Some (lev (rho_of (member (pt m k mu s2 dq) depth_ones 0 f1 f2 f3) 1) l) : PR).
Proof.
  intros Hm Hk Hh E. assert (Hi := pt_ok m k mu s2 dq Hm Hk).
  assert (HE : env_ok (rho_of (member (pt m k mu s2 dq) depth_ones 0 f1 f2 f3) 1)) by (apply env_ok_rho; [exact Hi|lra]).
  exact (proj1 (hout_nf _ _ _ h _ _ _ depth_ones 0 f1 f2 f3 g l lit_raw Hh HE (valid_pt m k mu s2 dq f1 f2 f3 Hm Hk) E)).
Qed.
Lemma sin4 : sin (PI / 4) ^ 2 = / 2.
Proof. rewrite sin_PI4. pose proof (sqrt_sqrt 2 ltac:(lra)) as H. assert (0 < sqrt 2) by (apply sqrt_lt_R0; lra). replace ((1 / sqrt 2) ^ 2) with (1 / (sqrt 2 * sqrt 2)) by (field; lra). rewrite H. lra. Qed.
Lemma sin4' : / (sin (PI / 4) * (sin (PI / 4) * 1)) = 2.
Proof. replace (sin (PI / 4) * (sin (PI / 4) * 1)) with (sin (PI / 4) ^ 2) by ring. rewrite sin4. field. Qed.

Ltac ptv h g m k mu s2 dq f1 f2 f3 :=
  let l := eval vm_compute in (hnf read_raw h (f_pt m k mu s2 dq f1 f2 f3) (lg_pt k) (hexpr h g)) in
  match l with
  | Some ?l =>
    rewrite (pt_value m k mu s2 dq f1 f2 f3 h g l); [|lia|lia|apply hnum; reflexivity|vm_compute; reflexivity]
  end.
Ltac ptn := f_equal; unfold lev; cbn [fst snd pev]; repeat match goal with
  | |- context [xp (rho_of ?a ?t) 2 (-2)] => change (xp (rho_of a t) 2 (-2)) with (/ (sin (PI / 4) * (sin (PI / 4) * 1)))
  end; rewrite ?sin4'; try lra; try field.

(** mu *)
Theorem h5_mu h : In h [4; 5]%Z ->
  map (fun g => hout g (hier_lib h depth_ones (arg_list h (pt 1 1 0 1 0)) 0 1 0 0)) [FS1; FS2; FS12] = map (Some (A := R)) [0; 0; 0] /\
  map (fun g => hout g (hier_lib h depth_ones (arg_list h (pt 1 1 1 1 0)) 0 1 0 0)) [FS1; FS2; FS12] = map (Some (A := R)) [1 / 4; 1 / 4; - (1 / 8)].
Proof.
  intros [<-|[<-|[]]]; cbn [map].
  - ptv 4%Z FS1 1%Z 1%Z 0%Z 1%Z 0%Z 1%Z 0%Z 0%Z. ptv 4%Z FS2 1%Z 1%Z 0%Z 1%Z 0%Z 1%Z 0%Z 0%Z. ptv 4%Z FS12 1%Z 1%Z 0%Z 1%Z 0%Z 1%Z 0%Z 0%Z.
    ptv 4%Z FS1 1%Z 1%Z 1%Z 1%Z 0%Z 1%Z 0%Z 0%Z. ptv 4%Z FS2 1%Z 1%Z 1%Z 1%Z 0%Z 1%Z 0%Z 0%Z. ptv 4%Z FS12 1%Z 1%Z 1%Z 1%Z 0%Z 1%Z 0%Z 0%Z.
    split; (f_equal; [ptn|f_equal; [ptn|f_equal; ptn]]).
  - ptv 5%Z FS1 1%Z 1%Z 0%Z 1%Z 0%Z 1%Z 0%Z 0%Z. ptv 5%Z FS2 1%Z 1%Z 0%Z 1%Z 0%Z 1%Z 0%Z 0%Z. ptv 5%Z FS12 1%Z 1%Z 0%Z 1%Z 0%Z 1%Z 0%Z 0%Z.
    ptv 5%Z FS1 1%Z 1%Z 1%Z 1%Z 0%Z 1%Z 0%Z 0%Z. ptv 5%Z FS2 1%Z 1%Z 1%Z 1%Z 0%Z 1%Z 0%Z 0%Z. ptv 5%Z FS12 1%Z 1%Z 1%Z 1%Z 0%Z 1%Z 0%Z 0%Z.
    split; (f_equal; [ptn|f_equal; [ptn|f_equal; ptn]]).
Qed.
(** second Delta lambda coefficient of H5 and H5g1 where they should agree *)
Theorem h5_coef2 :
  hout FC2 (hier_lib 4 depth_ones (arg_list 4 (pt 1 1 1 0 0)) 0 0 0 1) = (Some (58000 / 45) : PR) /\
  hout FC2 (hier_lib 5 depth_ones (arg_list 5 (pt 1 1 1 0 0)) 0 0 0 1) = (Some (45520 / 45) : PR).
Proof.
  ptv 4%Z FC2 1%Z 1%Z 1%Z 0%Z 0%Z 0%Z 0%Z 1%Z. ptv 5%Z FC2 1%Z 1%Z 1%Z 0%Z 0%Z 0%Z 0%Z 1%Z. split; ptn.
Qed.
(** the same point in two units, with Dmsqst2 as calculateHierarchy passes it *)
Theorem unit_values h : In h [7; 8; 9; 10]%Z ->
  exists x y, x <> y /\ hout FC2 (hier_lib h depth_ones (arg_list h (pt 1 2 0 1 1)) 0 0 0 1) = (Some x : PR)
    /\ hout FC2 (hier_lib h depth_ones (arg_list h (pt 2 2 0 1 2)) 0 0 0 1) = (Some y : PR).
Proof.
  intros [<-|[<-|[<-|[<-|[]]]]].
  - exists (8560 / 45), (7660 / 45). split; [lra|]. ptv 7%Z FC2 1%Z 2%Z 0%Z 1%Z 1%Z 0%Z 0%Z 1%Z. ptv 7%Z FC2 2%Z 2%Z 0%Z 1%Z 2%Z 0%Z 0%Z 1%Z. split; ptn.
  - exists (8560 / 45), (7660 / 45). split; [lra|]. ptv 8%Z FC2 1%Z 2%Z 0%Z 1%Z 1%Z 0%Z 0%Z 1%Z. ptv 8%Z FC2 2%Z 2%Z 0%Z 1%Z 2%Z 0%Z 0%Z 1%Z. split; ptn.
  - exists (111760 / 720), (94660 / 720). split; [lra|]. ptv 9%Z FC2 1%Z 2%Z 0%Z 1%Z 1%Z 0%Z 0%Z 1%Z. ptv 9%Z FC2 2%Z 2%Z 0%Z 1%Z 2%Z 0%Z 0%Z 1%Z. split; ptn.
  - exists (111760 / 720), (94660 / 720). split; [lra|]. ptv 10%Z FC2 1%Z 2%Z 0%Z 1%Z 1%Z 0%Z 0%Z 1%Z. ptv 10%Z FC2 2%Z 2%Z 0%Z 1%Z 2%Z 0%Z 0%Z 1%Z. split; ptn.
Qed.
