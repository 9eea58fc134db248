(** * The light-Higgs projection of the hierarchy self energies (proofs)
    c^2 S11 + s^2 S22 + 2 s c S12, its relation to the coefficients of Delta lambda and its
    dependence on mu and beta. *)
From Coq Require Import ZArith List Reals Lra Lia Bool.
From Verif Require Import Num NumFacts HierCalc HierExpr HierPoly HierLib HierInp HierNF HierRead HierLit HierOrder HierMono HierCheck HierAgree.
Import ListNotations.

(** ** cos^2 = 1 - sin^2 (variable 1 is cos beta, variable 2 is sin beta) *)
Definition one_minus_s2 : pol := PX 2 2 (PC (-1)) (PC 1).
Fixpoint omp (k : nat) (h : pol) : pol := match k with O => h | S k => pmul one_minus_s2 (omp k h) end.
Fixpoint predc (p : pol) : pol :=
  match p with
  | PX xH (Zpos e) h t =>
      let q := omp (Z.to_nat (Z.div2 (Zpos e))) h in
      padd (if Z.odd (Zpos e) then pshift 1 1 q else q) (predc t)
  | PX xH e h t => PX xH e h (predc t)
  | _ => p
  end.
Definition lpredc (a : lp) : lp := (predc (fst a), snd a).

Section Red.
  Variable rho : positive -> R.
  Hypothesis HK : forall v, (v <= ninv)%positive -> rho v <> 0%R.
  Hypothesis Hcs : (rho 1%positive * rho 1%positive + rho 2%positive * rho 2%positive = 1)%R.
  Lemma wf_om : wf ninv one_minus_s2.
  Proof. cbn. split; [right; lia|tauto]. Qed.
  Lemma ev_om : pev rho one_minus_s2 = (rho 1%positive * rho 1%positive)%R.
  Proof. unfold one_minus_s2. cbn [pev]. change (xp rho 2 2) with (rho 2%positive * (rho 2%positive * 1))%R. lra. Qed.
  Lemma omp_ok k h : wf ninv h -> pev rho (omp k h) = ((rho 1%positive * rho 1%positive) ^ k * pev rho h)%R /\ wf ninv (omp k h).
  Proof.
    intros W. induction k as [|k (I1 & I2)]; cbn [omp pow]; [split; [ring|exact W]|].
    destruct (pmul_ok rho ninv HK _ _ wf_om I2) as (A & B). rewrite A, I1, ev_om. split; [ring|exact B].
  Qed.
  Lemma pow_even_odd (x : R) (e : positive) :
    powerRZ x (Zpos e) = ((if Z.odd (Zpos e) then x else 1) * (x * x) ^ Z.to_nat (Z.div2 (Zpos e)))%R.
  Proof.
    change (powerRZ x (Zpos e)) with (x ^ Pos.to_nat e)%R.
    assert (E2 : forall n, (x ^ (2 * n) = (x * x) ^ n)%R) by (intros n; rewrite pow_mult; f_equal; ring).
    destruct e as [e|e|].
    - rewrite Pos2Nat.inj_xI. change (Z.odd (Zpos e~1)) with true. change (Z.to_nat (Z.div2 (Zpos e~1))) with (Pos.to_nat e).
      cbv iota. rewrite <- E2. reflexivity.
    - rewrite Pos2Nat.inj_xO. change (Z.odd (Zpos e~0)) with false. change (Z.to_nat (Z.div2 (Zpos e~0))) with (Pos.to_nat e).
      cbv iota. rewrite <- E2. ring.
    - change (Z.odd 1) with true. change (Z.to_nat (Z.div2 1)) with 0%nat. change (Pos.to_nat 1) with 1%nat. cbv iota. simpl pow. ring.
  Qed.
  Lemma predc_ok p : wf ninv p -> pev rho (predc p) = pev rho p /\ wf ninv (predc p).
  Proof.
    induction p as [z|v e h IHh t IHt]; intros W; [split; [reflexivity|exact W]|].
    destruct W as (W1 & W2 & W3). destruct (IHt W3) as (J1 & J2).
    destruct v as [v|v|]; cbn [predc]; try (split; [reflexivity|cbn [wf]; tauto]).
    destruct e as [|e|e]; try (cbn [pev wf]; rewrite J1; split; [reflexivity|tauto]).
    destruct (omp_ok (Z.to_nat (Z.div2 (Zpos e))) h W2) as (A & B).
    cbn [pev]. unfold xp. rewrite pow_even_odd.
    destruct (Z.odd (Zpos e)) eqn:O.
    - destruct (pshift_ok rho ninv HK 1 1 _ (or_introl (Pos.le_1_l ninv)) B) as (S1 & S2).
      rewrite pev_padd, S1, A, J1. change (xp rho 1 1) with (rho 1%positive * 1)%R. split; [ring|apply wf_padd; assumption].
    - rewrite pev_padd, A, J1. split; [ring|apply wf_padd; assumption].
  Qed.
  Lemma lpredc_ok l : lwf ninv l -> lev rho (lpredc l) = lev rho l /\ lwf ninv (lpredc l).
  Proof. intros W. destruct (predc_ok (fst l) W) as (A & B). unfold lev, lwf, lpredc; cbn [fst snd]. rewrite A. split; [reflexivity|exact B]. Qed.
End Red.

(** ** Delta lambda *)
(** three-loop terms at Mt = Q, no shifts, full depth; logs of ratios *)
Definition f_lam (h : Z) (v : hvar) : lp :=
  match v with
  | vlmMt | vshiftst1 | vshiftst2 | vshiftst3 | vxDR2DRMOD | voneLoopFlag | vtwoLoopFlag => lc 0
  | vthreeLoopFlag | vx | vxDmglst1 | vxDmglst2 | vxDmst12 | vxDmsqst1 | vxDmsqst2 | vxMsq | vxMst | vxMgl | vxAt | vxlmMsusy | vxMsusy => lc 1
  | vlmMst2 => ladd (pv 18) (pv 64)
  | vlmMsq => if (h =? 3)%Z then ladd (pv 22) (lneg (pv 67)) else ladd (pv 18) (pv 65)
  | vlmMgl => ladd (pv 18) (pv 66)
  | _ => f0 v
  end.
Definition proj (s1 s2 s12 : lp) : lt :=
  LAdd (LAdd (LMul (LMul (LV 1) (LV 1)) (LA s1)) (LMul (LMul (LV 2) (LV 2)) (LA s2))) (LMul (LMul (LZ 2) (LMul (LV 1) (LV 2))) (LA s12)).
Definition chk_lam rd (h : Z) : bool :=
  let n g := hnf rd h (f_lam h) lg0 (hexpr h g) in
  let L := LV (if (h =? 3)%Z then 22 else 18) in
  match n FS1, n FS2, n FS12, n FC0, n FC1, n FC2, n FC3 with
  | Some s1, Some s2, Some s12, Some c0, Some c1, Some c2, Some c3 =>
      lzero (Some (lpredc (lt_nf (LSub (LMul (LZ 12) (proj s1 s2 s12))
        (LMul (LMul (LMul (LV 4) (LMul (LV 4) (LMul (LV 4) (LV 4)))) (LMul (LMul (LV 2) (LV 2)) (LMul (LV 24) (LV 24))))
           (LAdd (LA c0) (LMul L (LAdd (LA c1) (LMul L (LAdd (LA c2) (LMul L (LA c3))))))))))))
  | _, _, _, _, _, _, _ => false
  end.
Definition lam_hiers : list Z := [0; 1; 2; 3; 5; 6; 7; 8; 11; 12; 13]%Z.
Lemma chk_lam_all : forallb (chk_lam read_lit) lam_hiers = true.
Proof. vm_compute. reflexivity. Qed.
(** h6bq22g, h6bq2g2: up to the fourth power of Dmsqst2 (variable 14) *)
Definition lam_id (h : Z) (s1 s2 s12 c0 c1 c2 c3 : lp) : lt :=
  let L := LV (if (h =? 3)%Z then 22 else 18) in
  LSub (LMul (LZ 12) (proj s1 s2 s12))
    (LMul (LMul (LMul (LV 4) (LMul (LV 4) (LMul (LV 4) (LV 4)))) (LMul (LMul (LV 2) (LV 2)) (LMul (LV 24) (LV 24))))
      (LAdd (LA c0) (LMul L (LAdd (LA c1) (LMul L (LAdd (LA c2) (LMul L (LA c3)))))))).
Definition chk_lam4 rd (h : Z) : bool :=
  let n g := hnf rd h (f_lam h) lg0 (hexpr h g) in
  match n FS1, n FS2, n FS12, n FC0, n FC1, n FC2, n FC3 with
  | Some s1, Some s2, Some s12, Some c0, Some c1, Some c2, Some c3 =>
      degok (Pos.eqb 14) 4 (fst (lpredc (lt_nf (lam_id h s1 s2 s12 c0 c1 c2 c3))))
  | _, _, _, _, _, _, _ => false
  end.
Lemma chk_lam4_all : forallb (chk_lam4 read_lit) [9; 10]%Z = true.
Proof. vm_compute. reflexivity. Qed.

Local Open Scope R_scope.
Definition logmass (h : Z) (i : Inp) : R := lmass i (if (h =? 3)%Z then msusy i else i_m1 i).
Lemma ln_sq_ratio s a b : 0 < s -> 0 < a -> 0 < b -> ln (s / b * (s / b)) = ln (s / a * (s / a)) + ln (a ^ 2 / b ^ 2).
Proof.
  intros Hs Ha Hb.
  assert (P : 0 < s / a) by (apply Rdiv_lt_0_compat; assumption).
  assert (Q : 0 < a / b) by (apply Rdiv_lt_0_compat; assumption).
  replace (a ^ 2 / b ^ 2) with (a / b * (a / b)) by (field; lra).
  rewrite <- ln_mult by (apply Rmult_lt_0_compat; assumption). f_equal. field. lra.
Qed.
Lemma valid_lam h i : inp_ok i -> i_scale i = i_mf i ->
  valid (rho_of (member i depth_ones 0 0 0 1) 1) i depth_ones 0 0 0 1 (f_lam h) lg0.
Proof.
  intros Hi Hs. set (rho := rho_of _ _). split; [exact Hi|]. split; [|apply lg0_ok].
  assert (F0 := f0_ok i depth_ones 0 0 0 1 1 Hi).
  assert (LAD : forall x y, lev rho (ladd (pv x) (pv y)) = rho x + rho y /\ lwf ninv (ladd (pv x) (pv y))).
  { intros x y. destruct (ladd_ok rho ninv (pv x) (pv y) (lwf_pv x) (lwf_pv y)) as (A & B). rewrite A, !lev_pv. split; [reflexivity|exact B]. }
  destruct Hi as (A & B & C & D & E & F & G).
  assert (Pm : 0 < msusy i) by (unfold msusy; lra).
  intros v. destruct v; unfold f_lam; try (match goal with |- context [f0 ?w] => exact (F0 w) end);
    try (rewrite lev_lc; split; [reflexivity|apply lwf_lc]).
  - rewrite lev_lc. split; [|apply lwf_lc]. cbn [member]. unfold lmass. rewrite Hs.
    replace (i_mf i / i_mf i * (i_mf i / i_mf i)) with 1 by (field; lra). apply ln_1.
  - destruct (LAD 18%positive 64%positive) as (X & Y). rewrite X. split; [|exact Y]. cbn. unfold lmass. apply ln_sq_ratio; assumption.
  - destruct (h =? 3)%Z.
    + destruct (lneg_ok rho ninv (pv 67) (lwf_pv _)) as (N1 & N2). destruct (ladd_ok rho ninv (pv 22) _ (lwf_pv _) N2) as (X & Y).
      rewrite X, N1, !lev_pv. split; [|exact Y].
      change (lmass i (i_msq i) = lmass i (msusy i) + - ln (i_msq i ^ 2 / msusy i ^ 2)).
      unfold lmass. rewrite (ln_sq_ratio (i_scale i) (i_msq i) (msusy i)) by assumption. ring.
    + destruct (LAD 18%positive 65%positive) as (X & Y). rewrite X. split; [|exact Y]. cbn. unfold lmass. apply ln_sq_ratio; assumption.
  - destruct (LAD 18%positive 66%positive) as (X & Y). rewrite X. split; [|exact Y]. cbn. unfold lmass. apply ln_sq_ratio; assumption.
Qed.

Definition hvals (lit : Z -> Z -> PR) h d i mdr f1 f2 f3 (g : hfun) : PR := hout g (hier_lib_lit lit h d (arg_list h i) mdr f1 f2 f3).

(** the projection on the light Higgs and the shift of the quartic coupling *)
Definition projection (i : Inp) (s1 s2 s12 : R) : R :=
  cos (i_beta i) ^ 2 * s1 + sin (i_beta i) ^ 2 * s2 + 2 * (sin (i_beta i) * cos (i_beta i)) * s12.
Definition delta_lambda (L c0 c1 c2 c3 : R) : R := c0 + L * c1 + L ^ 2 * c2 + L ^ 3 * c3.

Lemma lam_vals f h i : hnumber h -> inp_ok i -> valid (rho_of (member i depth_ones 0 0 0 1) 1) i depth_ones 0 0 0 1 f lg0 ->
  forall n1 n2 n12 m0 m1 m2 m3,
  let n g := hnf read_lit h f lg0 (hexpr h g) in
  n FS1 = Some n1 -> n FS2 = Some n2 -> n FS12 = Some n12 -> n FC0 = Some m0 -> n FC1 = Some m1 -> n FC2 = Some m2 -> n FC3 = Some m3 ->
  let rho := rho_of (member i depth_ones 0 0 0 1) 1 in
  lt_wf (lam_id h n1 n2 n12 m0 m1 m2 m3) /\
  lt_ev rho (lam_id h n1 n2 n12 m0 m1 m2 m3)
   = 12 * projection i (lev rho n1) (lev rho n2) (lev rho n12)
     - i_mf i ^ 4 * sin (i_beta i) ^ 2 * i_al i ^ 2 * delta_lambda (logmass h i) (lev rho m0) (lev rho m1) (lev rho m2) (lev rho m3)
  /\ (forall g l, n g = Some l -> hvals reading_P h depth_ones i 0 0 0 1 g = Some (lev rho l)).
Proof.
  intros Hh Hi Hs n1 n2 n12 m0 m1 m2 m3 n E1 E2 E12 F0 F1 F2 F3 rho.
  assert (HE : env_ok rho) by (apply env_ok_rho; [exact Hi|lra]).
  assert (HV : forall g l, n g = Some l -> hvals reading_P h depth_ones i 0 0 0 1 g = Some (lev rho l) /\ lwf ninv l).
  { intros g l E. exact (hout_nf _ _ rho h _ _ i depth_ones 0 0 0 1 g l lit_reading Hh HE Hs E). }
  pose proof (HV _ _ E1) as (_ & W1). pose proof (HV _ _ E2) as (_ & W2). pose proof (HV _ _ E12) as (_ & W12).
  pose proof (HV _ _ F0) as (_ & V0). pose proof (HV _ _ F1) as (_ & V1). pose proof (HV _ _ F2) as (_ & V2). pose proof (HV _ _ F3) as (_ & V3).
  split; [|split].
  - unfold lam_id, proj. cbn [lt_wf]. tauto.
  - unfold lam_id, proj. cbn [lt_ev].
    change (rho 1%positive) with (cos (i_beta i)). change (rho 2%positive) with (sin (i_beta i)). change (rho 4%positive) with (i_mf i). change (rho 24%positive) with (i_al i).
    assert (EL : rho (if (h =? 3)%Z then 22%positive else 18%positive) = logmass h i) by (unfold logmass; destruct (h =? 3)%Z; reflexivity).
    rewrite EL. unfold projection, delta_lambda. simpl pow. ring.
  - intros g l E. exact (proj1 (HV g l E)).
Qed.

Lemma cs1 i d mdr f1 f2 f3 : let rho := rho_of (member i d mdr f1 f2 f3) 1 in (rho 1%positive * rho 1%positive + rho 2%positive * rho 2%positive = 1).
Proof. cbn. pose proof (sin2_cos2 (i_beta i)) as H. unfold Rsqr in H. lra. Qed.

Theorem hier_lambda h i : In h lam_hiers -> inp_ok i -> i_scale i = i_mf i ->
  exists s1 s2 s12 c0 c1 c2 c3 : R,
    map (hvals reading_P h depth_ones i 0 0 0 1) [FS1; FS2; FS12; FC0; FC1; FC2; FC3] = map (Some (A := R)) [s1; s2; s12; c0; c1; c2; c3] /\
    12 * projection i s1 s2 s12 = i_mf i ^ 4 * sin (i_beta i) ^ 2 * i_al i ^ 2 * delta_lambda (logmass h i) c0 c1 c2 c3.
Proof.
  intros Hh Hi Hs. assert (K := proj1 (forallb_forall _ _) chk_lam_all _ Hh). unfold chk_lam in K.
  assert (Hn : hnumber h) by (apply hnum; repeat (destruct Hh as [<-|Hh]; [reflexivity|]); destruct Hh).
  destruct (hnf read_lit h (f_lam h) lg0 (hexpr h FS1)) as [n1|] eqn:E1; [|discriminate].
  destruct (hnf read_lit h (f_lam h) lg0 (hexpr h FS2)) as [n2|] eqn:E2; [|discriminate].
  destruct (hnf read_lit h (f_lam h) lg0 (hexpr h FS12)) as [n12|] eqn:E12; [|discriminate].
  destruct (hnf read_lit h (f_lam h) lg0 (hexpr h FC0)) as [m0|] eqn:F0; [|discriminate].
  destruct (hnf read_lit h (f_lam h) lg0 (hexpr h FC1)) as [m1|] eqn:F1; [|discriminate].
  destruct (hnf read_lit h (f_lam h) lg0 (hexpr h FC2)) as [m2|] eqn:F2; [|discriminate].
  destruct (hnf read_lit h (f_lam h) lg0 (hexpr h FC3)) as [m3|] eqn:F3; [|discriminate].
  change (lzero (Some (lpredc (lt_nf (lam_id h n1 n2 n12 m0 m1 m2 m3)))) = true) in K.
  destruct (lam_vals (f_lam h) h i Hn Hi (valid_lam h i Hi Hs) _ _ _ _ _ _ _ E1 E2 E12 F0 F1 F2 F3) as (W & V & HV).
  set (rho := rho_of (member i depth_ones 0 0 0 1) 1) in *.
  assert (HE : env_ok rho) by (apply env_ok_rho; [exact Hi|lra]).
  destruct (lt_ok rho _ (proj1 HE) W) as (A & A').
  destruct (lpredc_ok rho (proj1 HE) (cs1 i depth_ones 0 0 0 1) _ A') as (P & _).
  rewrite (lev_zero rho _ K), A, V in P.
  exists (lev rho n1), (lev rho n2), (lev rho n12), (lev rho m0), (lev rho m1), (lev rho m2), (lev rho m3). split; [|lra].
  cbn [map]. rewrite (HV _ _ E1), (HV _ _ E2), (HV _ _ E12), (HV _ _ F0), (HV _ _ F1), (HV _ _ F2), (HV _ _ F3). reflexivity.
Qed.

Theorem hier_lambda4 h : In h [9; 10]%Z -> forall B, 1 <= B -> exists C, forall i, in_box B i -> i_scale i = i_mf i ->
  exists s1 s2 s12 c0 c1 c2 c3 : R,
    map (hvals reading_P h depth_ones i 0 0 0 1) [FS1; FS2; FS12; FC0; FC1; FC2; FC3] = map (Some (A := R)) [s1; s2; s12; c0; c1; c2; c3] /\
    Rabs (12 * projection i s1 s2 s12 - i_mf i ^ 4 * sin (i_beta i) ^ 2 * i_al i ^ 2 * delta_lambda (logmass h i) c0 c1 c2 c3)
      <= C * Rabs (i_Dq2 i) ^ 4.
Proof.
  intros Hh B HB. assert (K := proj1 (forallb_forall _ _) chk_lam4_all _ Hh). unfold chk_lam4 in K.
  assert (Hn : hnumber h) by (apply hnum; repeat (destruct Hh as [<-|Hh]; [reflexivity|]); destruct Hh).
  destruct (hnf read_lit h (f_lam h) lg0 (hexpr h FS1)) as [n1|] eqn:E1; [|discriminate].
  destruct (hnf read_lit h (f_lam h) lg0 (hexpr h FS2)) as [n2|] eqn:E2; [|discriminate].
  destruct (hnf read_lit h (f_lam h) lg0 (hexpr h FS12)) as [n12|] eqn:E12; [|discriminate].
  destruct (hnf read_lit h (f_lam h) lg0 (hexpr h FC0)) as [m0|] eqn:F0; [|discriminate].
  destruct (hnf read_lit h (f_lam h) lg0 (hexpr h FC1)) as [m1|] eqn:F1; [|discriminate].
  destruct (hnf read_lit h (f_lam h) lg0 (hexpr h FC2)) as [m2|] eqn:F2; [|discriminate].
  destruct (hnf read_lit h (f_lam h) lg0 (hexpr h FC3)) as [m3|] eqn:F3; [|discriminate].
  destruct (lam_vals (f_lam h) h inp1 Hn inp1_ok (valid_lam h inp1 inp1_ok eq_refl) _ _ _ _ _ _ _ E1 E2 E12 F0 F1 F2 F3) as (W & _).
  set (rho1 := rho_of (member inp1 depth_ones 0 0 0 1) 1) in *.
  assert (HE1 : env_ok rho1) by (apply env_ok_rho; [exact inp1_ok|lra]).
  destruct (lt_ok rho1 _ (proj1 HE1) W) as (_ & WL).
  destruct (lpredc_ok rho1 (proj1 HE1) (cs1 inp1 depth_ones 0 0 0 1) _ WL) as (_ & WP).
  destruct (ldeg_bound (Pos.eqb 14) (bigM B) (bigM_1 B HB) _ 4 K WP) as (C & _ & BC).
  exists C. intros i Hb Hs. assert (Hi := in_box_ok B i HB Hb).
  destruct (lam_vals (f_lam h) h i Hn Hi (valid_lam h i Hi Hs) _ _ _ _ _ _ _ E1 E2 E12 F0 F1 F2 F3) as (_ & V & HV).
  set (rho := rho_of (member i depth_ones 0 0 0 1) 1) in *.
  assert (HE : env_ok rho) by (apply env_ok_rho; [exact Hi|lra]).
  exists (lev rho n1), (lev rho n2), (lev rho n12), (lev rho m0), (lev rho m1), (lev rho m2), (lev rho m3). split.
  { cbn [map]. rewrite (HV _ _ E1), (HV _ _ E2), (HV _ _ E12), (HV _ _ F0), (HV _ _ F1), (HV _ _ F2), (HV _ _ F3). reflexivity. }
  rewrite <- V. destruct (lt_ok rho _ (proj1 HE) W) as (A & A'). rewrite <- A.
  destruct (lpredc_ok rho (proj1 HE) (cs1 i depth_ones 0 0 0 1) _ A') as (P & _). rewrite <- P.
  assert (Fl : flags_in B depth_ones 0 0 0 1).
  { split; [intros f; destruct f; cbn; rewrite Rabs_R1; exact HB|]. repeat split; rewrite ?Rabs_R0, ?Rabs_R1; lra. }
  apply BC. split; [|split; [|split]].
  - split; [apply Rabs_pos|]. exact (rho_box B HB i depth_ones 0 0 0 1 Hb Fl 14%positive).
  - intros w. apply rho_box; assumption.
  - intros w Hw. split; [apply (proj1 HE); exact Hw|apply rho_box_inv; assumption].
  - intros w Hw. apply Pos.eqb_eq in Hw. subst w. apply Rle_refl.
Qed.

(** h5 without mu: up to the gluino-stop mass difference (variable 11) *)
Definition f_lam5 (v : hvar) : lp := match v with vMuSUSY => lc 0 | _ => f_lam 4 v end.
Definition chk_lam5b : bool :=
  let n g := hnf read_lit 4 f_lam5 lg0 (hexpr 4 g) in
  match n FS1, n FS2, n FS12, n FC0, n FC1, n FC2, n FC3 with
  | Some s1, Some s2, Some s12, Some c0, Some c1, Some c2, Some c3 =>
      degok (Pos.eqb 11) 1 (fst (lpredc (lt_nf (lam_id 4 s1 s2 s12 c0 c1 c2 c3))))
  | _, _, _, _, _, _, _ => false
  end.
Lemma chk_lam5 : chk_lam5b = true.
Proof. vm_compute. reflexivity. Qed.
Lemma valid_lam5 i : inp_ok i -> i_scale i = i_mf i -> i_mu i = 0 ->
  valid (rho_of (member i depth_ones 0 0 0 1) 1) i depth_ones 0 0 0 1 f_lam5 lg0.
Proof.
  intros Hi Hs Hm. destruct (valid_lam 4 i Hi Hs) as (A & B & C). split; [exact A|]. split; [|exact C].
  intros v. destruct v; try exact (B _). unfold f_lam5. rewrite lev_lc. split; [exact Hm|apply lwf_lc].
Qed.
Definition inp0 : Inp := mkInp 1 (PI / 4) 1 1 1 1 1 1 0 1 1 0.
Lemma inp0_ok : inp_ok inp0.
Proof. unfold inp_ok, inp0; cbn; pose proof PI_RGT_0; repeat split; lra. Qed.
Theorem hier_lambda5 : forall B, 1 <= B -> exists C, forall i, in_box B i -> i_scale i = i_mf i -> i_mu i = 0 ->
  exists s1 s2 s12 c0 c1 c2 c3 : R,
    map (hvals reading_P 4 depth_ones i 0 0 0 1) [FS1; FS2; FS12; FC0; FC1; FC2; FC3] = map (Some (A := R)) [s1; s2; s12; c0; c1; c2; c3] /\
    Rabs (12 * projection i s1 s2 s12 - i_mf i ^ 4 * sin (i_beta i) ^ 2 * i_al i ^ 2 * delta_lambda (logmass 4 i) c0 c1 c2 c3)
      <= C * Rabs (i_mg i - i_m1 i).
Proof.
  intros B HB. assert (K := chk_lam5). unfold chk_lam5b in K.
  assert (Hn : hnumber 4) by (apply hnum; reflexivity).
  destruct (hnf read_lit 4 f_lam5 lg0 (hexpr 4 FS1)) as [n1|] eqn:E1; [|discriminate].
  destruct (hnf read_lit 4 f_lam5 lg0 (hexpr 4 FS2)) as [n2|] eqn:E2; [|discriminate].
  destruct (hnf read_lit 4 f_lam5 lg0 (hexpr 4 FS12)) as [n12|] eqn:E12; [|discriminate].
  destruct (hnf read_lit 4 f_lam5 lg0 (hexpr 4 FC0)) as [m0|] eqn:F0; [|discriminate].
  destruct (hnf read_lit 4 f_lam5 lg0 (hexpr 4 FC1)) as [m1|] eqn:F1; [|discriminate].
  destruct (hnf read_lit 4 f_lam5 lg0 (hexpr 4 FC2)) as [m2|] eqn:F2; [|discriminate].
  destruct (hnf read_lit 4 f_lam5 lg0 (hexpr 4 FC3)) as [m3|] eqn:F3; [|discriminate].
  destruct (lam_vals f_lam5 4 inp0 Hn inp0_ok (valid_lam5 inp0 inp0_ok eq_refl eq_refl) _ _ _ _ _ _ _ E1 E2 E12 F0 F1 F2 F3) as (W & _).
  set (rho1 := rho_of (member inp0 depth_ones 0 0 0 1) 1) in *.
  assert (HE1 : env_ok rho1) by (apply env_ok_rho; [exact inp0_ok|lra]).
  destruct (lt_ok rho1 _ (proj1 HE1) W) as (_ & WL).
  destruct (lpredc_ok rho1 (proj1 HE1) (cs1 inp0 depth_ones 0 0 0 1) _ WL) as (_ & WP).
  destruct (ldeg_bound (Pos.eqb 11) (bigM B) (bigM_1 B HB) _ 1 K WP) as (C & _ & BC).
  exists C. intros i Hb Hs Hmu. assert (Hi := in_box_ok B i HB Hb).
  destruct (lam_vals f_lam5 4 i Hn Hi (valid_lam5 i Hi Hs Hmu) _ _ _ _ _ _ _ E1 E2 E12 F0 F1 F2 F3) as (_ & V & HV).
  set (rho := rho_of (member i depth_ones 0 0 0 1) 1) in *.
  assert (HE : env_ok rho) by (apply env_ok_rho; [exact Hi|lra]).
  exists (lev rho n1), (lev rho n2), (lev rho n12), (lev rho m0), (lev rho m1), (lev rho m2), (lev rho m3). split.
  { cbn [map]. rewrite (HV _ _ E1), (HV _ _ E2), (HV _ _ E12), (HV _ _ F0), (HV _ _ F1), (HV _ _ F2), (HV _ _ F3). reflexivity. }
  rewrite <- V. destruct (lt_ok rho _ (proj1 HE) W) as (A & A'). rewrite <- A.
  destruct (lpredc_ok rho (proj1 HE) (cs1 i depth_ones 0 0 0 1) _ A') as (P & _). rewrite <- P.
  assert (Fl : flags_in B depth_ones 0 0 0 1).
  { split; [intros f; destruct f; cbn; rewrite Rabs_R1; exact HB|]. repeat split; rewrite ?Rabs_R0, ?Rabs_R1; lra. }
  replace (Rabs (i_mg i - i_m1 i)) with (Rabs (i_mg i - i_m1 i) ^ 1) by ring. apply BC. split; [|split; [|split]].
  - split; [apply Rabs_pos|]. exact (rho_box B HB i depth_ones 0 0 0 1 Hb Fl 11%positive).
  - intros w. apply rho_box; assumption.
  - intros w Hw. split; [apply (proj1 HE); exact Hw|apply rho_box_inv; assumption].
  - intros w Hw. apply Pos.eqb_eq in Hw. subst w. apply Rle_refl.
Qed.

(** ** mu and beta *)
Definition f_proj (zm z2 z3 : bool) (v : hvar) : lp :=
  match v with
  | vxDmglst1 | vxDmst12 => lc 1
  | vshiftst1 | vshiftst2 | vshiftst3 | vxDR2DRMOD => if zm then lc 0 else f0 v
  | vtwoLoopFlag => if z2 then lc 0 else f0 v
  | vthreeLoopFlag => if z3 then lc 0 else f0 v
  | _ => f0 v
  end.
Definition mubeta (v : positive) : bool := Pos.eqb v 1 || Pos.eqb v 2 || Pos.eqb v 10 || Pos.eqb v 44.
Definition proj_red (s1 s2 s12 : lp) : lp := let l := lpredc (lt_nf (proj s1 s2 s12)) in (pshift 2 (-2) (fst l), snd l).
Definition chk_proj rd (c : Z * bool * bool * bool) : bool :=
  let '(h, zm, z2, z3) := c in
  let n g := hnf rd h (f_proj zm z2 z3) lg0 (hexpr h g) in
  match n FS1, n FS2, n FS12 with
  | Some s1, Some s2, Some s12 => nooc mubeta (fst (proj_red s1 s2 s12))
  | _, _, _ => false
  end.
Definition proj_exact : list (Z * bool * bool * bool) :=
  [(0%Z, false, false, false); (1%Z, false, false, false); (2%Z, false, false, false); (3%Z, false, false, false); (12%Z, false, false, false); (13%Z, false, false, false)].
(** class, variable that the remaining dependence on mu and beta is suppressed by, power *)
Definition proj_upto : list (Z * positive * nat) :=
  [(6%Z, 12%positive, 2%nat); (11%Z, 12%positive, 2%nat); (7%Z, 14%positive, 4%nat); (8%Z, 14%positive, 4%nat); (9%Z, 14%positive, 4%nat); (10%Z, 14%positive, 4%nat)].
Definition chk_upto rd (c : Z * positive * nat) : bool :=
  let '(h, dv, k) := c in
  let n g := hnf rd h (f_proj false false false) lg0 (hexpr h g) in
  match n FS1, n FS2, n FS12 with
  | Some s1, Some s2, Some s12 => flagdeg (Pos.eqb dv) mubeta k (fst (proj_red s1 s2 s12))
  | _, _, _ => false
  end.
Lemma chk_proj_exact : forallb (chk_proj read_raw) proj_exact = true.
Proof. vm_compute. reflexivity. Qed.
Lemma chk_proj_upto : forallb (chk_upto read_lit) proj_upto = true.
Proof. vm_compute. reflexivity. Qed.

Definition with_mb (i : Inp) (m b : R) : Inp :=
  mkInp (i_al i) b (i_scale i) (i_mf i) (i_m1 i) (i_m2 i) (i_msq i) (i_mg i) m (i_s2 i) (i_At i) (i_Dq2 i).
Lemma inp_ok_mb i m b : inp_ok i -> 0 < b < PI / 2 -> inp_ok (with_mb i m b).
Proof. intros (A & B & C & D & E & F & _) G. repeat split; cbn; try assumption; apply G. Qed.
Lemma valid_proj zm z2 z3 i d mdr f1 f2 f3 : inp_ok i -> x_Dmglst1 d = 1%Z -> (zm = true -> mdr = 0%Z) -> (z2 = true -> f2 = 0%Z) -> (z3 = true -> f3 = 0%Z) ->
  valid (rho_of (member i d mdr f1 f2 f3) 1) i d mdr f1 f2 f3 (f_proj zm z2 z3) lg0.
Proof.
  intros Hi Hd Hm H2 H3. split; [exact Hi|]. split; [|apply lg0_ok].
  assert (F0 := f0_ok i d mdr f1 f2 f3 1 Hi).
  intros v. destruct v; unfold f_proj; try (match goal with |- context [f0 ?w] => exact (F0 w) end);
    try (destruct zm; [|match goal with |- context [f0 ?w] => exact (F0 w) end]; rewrite lev_lc; (split; [cbn; rewrite (Hm eq_refl); reflexivity|apply lwf_lc]));
    try (destruct z2; [|match goal with |- context [f0 ?w] => exact (F0 w) end]; rewrite lev_lc; (split; [cbn; rewrite (H2 eq_refl); reflexivity|apply lwf_lc]));
    try (destruct z3; [|match goal with |- context [f0 ?w] => exact (F0 w) end]; rewrite lev_lc; (split; [cbn; rewrite (H3 eq_refl); reflexivity|apply lwf_lc]));
    rewrite lev_lc; (split; [cbn; rewrite Hd; reflexivity|apply lwf_lc]).
Qed.
Lemma proj_red_ok lit rd h zm z2 z3 n1 n2 n12 : lit_ok lit rd -> hnumber h ->
  let n g := hnf rd h (f_proj zm z2 z3) lg0 (hexpr h g) in
  n FS1 = Some n1 -> n FS2 = Some n2 -> n FS12 = Some n12 ->
  forall i d mdr f1 f2 f3, inp_ok i -> x_Dmglst1 d = 1%Z -> (zm = true -> mdr = 0%Z) -> (z2 = true -> f2 = 0%Z) -> (z3 = true -> f3 = 0%Z) ->
  let rho := rho_of (member i d mdr f1 f2 f3) 1 in
  map (hvals lit h d i mdr f1 f2 f3) [FS1; FS2; FS12] = map (Some (A := R)) [lev rho n1; lev rho n2; lev rho n12]
  /\ projection i (lev rho n1) (lev rho n2) (lev rho n12) = sin (i_beta i) ^ 2 * lev rho (proj_red n1 n2 n12)
  /\ lwf ninv (proj_red n1 n2 n12).
Proof.
  intros HL Hh n E1 E2 E12 j d mdr f1 f2 f3 Hj Hd Hm H2 H3 rho.
  assert (HE : env_ok rho) by (apply env_ok_rho; [exact Hj|lra]).
  assert (HV := valid_proj zm z2 z3 j d mdr f1 f2 f3 Hj Hd Hm H2 H3).
  destruct (hout_nf _ _ rho h _ _ j d mdr f1 f2 f3 FS1 n1 HL Hh HE HV E1) as (A1 & W1).
  destruct (hout_nf _ _ rho h _ _ j d mdr f1 f2 f3 FS2 n2 HL Hh HE HV E2) as (A2 & W2).
  destruct (hout_nf _ _ rho h _ _ j d mdr f1 f2 f3 FS12 n12 HL Hh HE HV E12) as (A12 & W12).
  assert (W : lt_wf (proj n1 n2 n12)) by (unfold proj; cbn [lt_wf]; tauto).
  destruct (lt_ok rho _ (proj1 HE) W) as (A & A').
  destruct (lpredc_ok rho (proj1 HE) (cs1 j d mdr f1 f2 f3) _ A') as (P & WP).
  assert (L2 : (2 <= ninv)%positive \/ (0 <= -2)%Z) by (left; unfold ninv; lia).
  destruct (pshift_ok rho ninv (proj1 HE) 2 (-2) _ L2 WP) as (X & WX).
  split; [unfold hvals; cbn [map]; rewrite A1, A2, A12; reflexivity|]. split; [|exact WX].
  assert (Q : lev rho (proj_red n1 n2 n12) = / (sin (i_beta j) * (sin (i_beta j) * 1)) * lev rho (lpredc (lt_nf (proj n1 n2 n12)))).
  { unfold proj_red. unfold lev. cbn [fst snd]. rewrite X. change (xp rho 2 (-2)) with (/ (sin (i_beta j) * (sin (i_beta j) * 1))). unfold Rdiv. ring. }
  rewrite Q, P, A. unfold projection, proj. cbn [lt_ev].
  change (rho 1%positive) with (cos (i_beta j)). change (rho 2%positive) with (sin (i_beta j)).
  pose proof (sin_beta_pos j Hj) as Sp. simpl pow. field. lra.
Qed.
Theorem proj_indep h i d mdr f1 f2 f3 : In h [0; 1; 2; 3; 12; 13]%Z -> inp_ok i -> x_Dmglst1 d = 1%Z ->
  exists q : R, forall m b, 0 < b < PI / 2 ->
    exists s1 s2 s12 : R,
      map (hvals ndec h d (with_mb i m b) mdr f1 f2 f3) [FS1; FS2; FS12] = map (Some (A := R)) [s1; s2; s12] /\
      projection (with_mb i m b) s1 s2 s12 = sin b ^ 2 * q.
Proof.
  intros Hh Hi Hd. assert (Hn : hnumber h) by (apply hnum; repeat (destruct Hh as [<-|Hh]; [reflexivity|]); destruct Hh).
  assert (K : chk_proj read_raw (h, false, false, false) = true).
  { apply (proj1 (forallb_forall _ _) chk_proj_exact). repeat (destruct Hh as [<-|Hh]; [cbn; tauto|]). destruct Hh. }
  unfold chk_proj in K.
  destruct (hnf read_raw h (f_proj false false false) lg0 (hexpr h FS1)) as [n1|] eqn:E1; [|discriminate].
  destruct (hnf read_raw h (f_proj false false false) lg0 (hexpr h FS2)) as [n2|] eqn:E2; [|discriminate].
  destruct (hnf read_raw h (f_proj false false false) lg0 (hexpr h FS12)) as [n12|] eqn:E12; [|discriminate].
  set (rho1 := rho_of (member i d mdr f1 f2 f3) 1).
  exists (lev rho1 (proj_red n1 n2 n12)). intros m b Hb.
  assert (Hj := inp_ok_mb i m b Hi Hb). set (j := with_mb i m b) in *.
  assert (N : forall (z : Z), false = true -> z = 0%Z) by discriminate.
  destruct (proj_red_ok ndec read_raw h false false false n1 n2 n12 lit_raw Hn E1 E2 E12 j d mdr f1 f2 f3 Hj Hd (N _) (N _) (N _)) as (A & B & _).
  eexists; eexists; eexists. split; [exact A|]. rewrite B. change (i_beta j) with b. f_equal.
  apply (lev_indep mubeta); [|exact K]. intros v Hv. unfold rho1, j. byvar v.
Qed.
(** the small quantity *)
Definition proj_gap (h : Z) (i : Inp) : R := match h with 6%Z | 11%Z => i_mg i - i_m2 i | _ => i_Dq2 i end.
Definition proj_order (h : Z) : nat := match h with 6%Z | 11%Z => 2%nat | _ => 4%nat end.
Theorem proj_small h : In h [6; 7; 8; 9; 10; 11]%Z -> forall B, 1 <= B -> exists C, forall i m b d mdr f1 f2 f3,
  in_box B i -> in_box B (with_mb i m b) -> flags_in B d mdr f1 f2 f3 -> x_Dmglst1 d = 1%Z ->
  exists s1 s2 s12 s1' s2' s12' : R,
    map (hvals reading_P h d i mdr f1 f2 f3) [FS1; FS2; FS12] = map (Some (A := R)) [s1; s2; s12] /\
    map (hvals reading_P h d (with_mb i m b) mdr f1 f2 f3) [FS1; FS2; FS12] = map (Some (A := R)) [s1'; s2'; s12'] /\
    Rabs (projection i s1 s2 s12 / sin (i_beta i) ^ 2 - projection (with_mb i m b) s1' s2' s12' / sin b ^ 2) <= C * Rabs (proj_gap h i) ^ proj_order h.
Proof.
  intros Hh B HB. assert (Hn : hnumber h) by (apply hnum; repeat (destruct Hh as [<-|Hh]; [reflexivity|]); destruct Hh).
  set (dv := match h with 6%Z | 11%Z => 12%positive | _ => 14%positive end).
  assert (K : chk_upto read_lit (h, dv, proj_order h) = true).
  { apply (proj1 (forallb_forall _ _) chk_proj_upto). unfold dv. repeat (destruct Hh as [<-|Hh]; [cbn; tauto|]). destruct Hh. }
  unfold chk_upto in K.
  destruct (hnf read_lit h (f_proj false false false) lg0 (hexpr h FS1)) as [n1|] eqn:E1; [|discriminate].
  destruct (hnf read_lit h (f_proj false false false) lg0 (hexpr h FS2)) as [n2|] eqn:E2; [|discriminate].
  destruct (hnf read_lit h (f_proj false false false) lg0 (hexpr h FS12)) as [n12|] eqn:E12; [|discriminate].
  assert (N : forall (z : Z), false = true -> z = 0%Z) by discriminate.
  assert (PR_ := proj_red_ok reading_P read_lit h false false false n1 n2 n12 lit_reading Hn E1 E2 E12).
  destruct (PR_ inp1 depth_ones 0%Z 0%Z 0%Z 0%Z inp1_ok eq_refl (N _) (N _) (N _)) as (_ & _ & W).
  destruct (flag_bound (Pos.eqb dv) mubeta (bigM B) (bigM_1 B HB) (fst (proj_red n1 n2 n12)) (proj_order h) K W) as (C & PC' & BC).
  exists C. intros i m b d mdr f1 f2 f3 Hb Hb' Fl Hd.
  assert (Hi := in_box_ok B i HB Hb). assert (Hj := in_box_ok B _ HB Hb').
  destruct (PR_ i d mdr f1 f2 f3 Hi Hd (N _) (N _) (N _)) as (A & A1 & _).
  destruct (PR_ (with_mb i m b) d mdr f1 f2 f3 Hj Hd (N _) (N _) (N _)) as (A' & A1' & _).
  do 6 eexists. split; [exact A|]. split; [exact A'|]. rewrite A1, A1'.
  pose proof (sin_beta_pos i Hi) as S1. pose proof (sin_beta_pos _ Hj) as S2. change (i_beta (with_mb i m b)) with b in *.
  set (rho := rho_of (member i d mdr f1 f2 f3) 1) in *. set (rho' := rho_of (member (with_mb i m b) d mdr f1 f2 f3) 1) in *.
  set (l := proj_red n1 n2 n12) in *.
  replace (sin (i_beta i) ^ 2 * lev rho l / sin (i_beta i) ^ 2 - sin b ^ 2 * lev rho' l / sin b ^ 2) with (lev rho l - lev rho' l) by (field; lra).
  assert (G : rho dv = proj_gap h i) by (unfold rho, dv, proj_gap; repeat (destruct Hh as [<-|Hh]; [reflexivity|]); destruct Hh).
  assert (G' : rho' dv = rho dv) by (unfold rho', rho, dv; repeat (destruct Hh as [<-|Hh]; [reflexivity|]); destruct Hh).
  assert (Bd : bounded (Pos.eqb dv) (bigM B) (Rabs (proj_gap h i)) rho).
  { split; [|split; [|split]].
    - split; [apply Rabs_pos|]. rewrite <- G. exact (rho_box B HB i d mdr f1 f2 f3 Hb Fl dv).
    - intros w. apply rho_box; assumption.
    - intros w Hw. split; [apply rho_ninv; [exact Hi|lra|exact Hw]|apply rho_box_inv; assumption].
    - intros w Hw. apply Pos.eqb_eq in Hw. subst w. rewrite G. apply Rle_refl. }
  assert (Bd' : bounded (Pos.eqb dv) (bigM B) (Rabs (proj_gap h i)) rho').
  { split; [|split; [|split]].
    - split; [apply Rabs_pos|]. rewrite <- G. exact (rho_box B HB i d mdr f1 f2 f3 Hb Fl dv).
    - intros w. apply rho_box; assumption.
    - intros w Hw. split; [apply rho_ninv; [exact Hj|lra|exact Hw]|apply rho_box_inv; assumption].
    - intros w Hw. apply Pos.eqb_eq in Hw. subst w. rewrite G', G. apply Rle_refl. }
  assert (T := BC _ _ _ Bd Bd').
  assert (T2 : Rabs (pev rho (fst l) - pev rho' (fst l)) <= C * Rabs (proj_gap h i) ^ proj_order h).
  { apply T. intros v Hv. unfold rho, rho'. byvar v. }
  unfold lev. rewrite <- Rdiv_minus_distr. unfold Rdiv. rewrite Rabs_mult.
  assert (1 <= IZR (Zpos (snd l))) by (apply IZR_le; lia).
  rewrite (Rabs_pos_eq (/ _)) by (left; apply Rinv_0_lt_compat; lra).
  assert (/ IZR (Zpos (snd l)) <= 1) by (rewrite <- Rinv_1; apply Rinv_le_contravar; lra).
  match goal with |- ?X * _ <= _ => apply Rle_trans with (X * 1); [apply Rmult_le_compat_l; [apply Rabs_pos|assumption]|lra] end.
Qed.
