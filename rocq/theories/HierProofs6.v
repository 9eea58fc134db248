From Coq Require Import String ZArith List Bool Lia Reals Lra.
From Verif Require Import Num NumFacts Except HObj Params HierFormulas HierCalc HierSpec HierProofs HierProofs2 HierProofs3 HierProofs5.
Import ListNotations.
Open Scope string_scope.

(** ** the finished object *)
Section Final.
  Context {T : Type} {N : Num T}.
  Variables (X : Env T) (p : Params T).

  Lemma final_sym ab d o d' : calculateDMh3L X p ab d = (Ok o, d') ->
    mat2_sym (e0 (dMhMap o)) /\ mat2_sym (e1 (dMhMap o)) /\ mat2_sym (e2 (dMhMap o)) /\ mat2_sym (e3 (dMhMap o)) /\
    mat2_sym (mdrShift o) /\ mat2_sym (h3mShift o).
  Proof.
    intros H. apply calc_inv in H as (ho & h & Hc & Hf & ->).
    apply compare_pick in Hc as (_ & Hh & err & pay & _ & Hr & _).
    apply finish_inv in Hf as (a & b & c & e & f & g & H1 & H2 & H3 & H4 & H5 & H6 & H7).
    apply matrices_inv in H1 as (cc & s & m1 & m2 & r & A1 & A2 & A3 & A4 & A5 & A6 & _).
    apply dl3_sel in H2. destruct H2 as ((K1 & K2 & K3) & _ & _ & _ & _ & B1 & _ & _ & B2 & _).
    apply lambda_inv in H3 as (_ & C1 & C2 & _).
    apply fo_inv in H4 as (x & y & -> & _). apply eft_inv in H5 as (z & ->).
    apply mdr_inv in H6 as (s' & s3 & m3 & o' & v & D1 & D2 & D3 & D4 & ->).
    apply dmh2_inv in H7. cbv zeta in H7. cbn [dMhMap h3mShift mdrShift with_mdrShift with_mdrMasses with_dMh2EFTMap with_dMh2FOAtMap with_dMh2FOMap] in H7.
    destruct (env_pert _ _ _ _ _) as [[[x0 x1] x2] x3]. subst o.
    cbn [dMhMap h3mShift mdrShift with_mdrShift with_mdrMasses with_dMh2EFTMap with_dMh2FOAtMap with_dMh2FOMap with_dMh2Map].
    rewrite C1, C2, B1, B2, A5, A6. cbn [e0 e1 e2 e3].
    apply sym_hier in A1. apply sym_shift in A2. apply sym_mt41 in A3. apply sym_mt42 in A4.
    apply sym_mdr in D1. apply sym_hier in D2. apply sym_shift in D3.
    assert (S0 : mat2_sym (e0 (dMhMap ho))).
    { unfold rest_same in Hr. destruct Hr as (_ & _ & _ & Hr & _). rewrite Hr. reflexivity. }
    repeat split; auto using sym_add, sym_sub, sym_neg.
  Qed.

  Lemma final_consistent ab d o d' : calculateDMh3L X p ab d = (Ok o, d') ->
    isAlphab o = ab /\ mdrFlag o = 0%Z /\ renormalizationScheme o = 1%Z /\
    e1 (expUncertainties o) = nint 0 /\ e0 (dMh2FOAtMap o) = nint 0 /\
    e3 (dMh2FOMap o) = e3 (dMh2Map o) /\ e3 (dMh2FOAtMap o) = e3 (dMh2Map o) /\
    e0 (dLambdaShiftMap o) = nint 0 /\ e1 (dLambdaShiftMap o) = nint 0 /\
    e3 (dLambdaMap o) = dLambdaEFT o /\
    e0 (dMhMap o) = treelvl p /\
    (exists s, shiftH3mToDRbarPrime p ab (hierarchy o) 0 = Ok s /\ h3mShift o = mat2_neg s) /\
    env_pert X (e0 (dMhMap o)) (e1 (dMhMap o)) (e2 (dMhMap o)) (e3 (dMhMap o)) =
      (e0 (dMh2Map o), e1 (dMh2Map o), e2 (dMh2Map o), e3 (dMh2Map o)) /\
    (ab = true -> dLambdaH3m o = nint 0 /\ dLambdaEFT o = nint 0 /\
       dLambdaNonLog o = nint 0 /\ dLambdaXtUncertainty o = nint 0 /\ e3 (dLambdaShiftMap o) = nint 0).
  Proof.
    intros H. apply calc_inv in H as (ho & h & Hc & Hf & ->).
    apply compare_pick in Hc as (_ & Hh & err & pay & _ & Hr & _).
    apply finish_inv in Hf as (a & b & c & e & f & g & H1 & H2 & H3 & H4 & H5 & H6 & H7).
    apply matrices_inv in H1 as (cc & s & m1 & m2 & r & A1 & A2 & A3 & A4 & A5 & A6 & (K1 & K2 & K3) & A7 & _ & _ & _ & _ & A8).
    apply dl3_sel in H2. destruct H2 as ((K1' & K2' & K3') & B0 & _ & _ & B3 & B1 & _ & _ & B2 & _).
    apply lambda_inv in H3 as ((L1 & L2 & L3) & C1 & C2 & C3 & _ & _ & C4 & C5 & C6 & C7 & C8).
    apply fo_inv in H4 as (x & y & -> & Hy). apply eft_inv in H5 as (z & ->).
    apply mdr_inv in H6 as (s' & s3 & m3 & o' & v & D1 & D2 & D3 & D4 & ->).
    apply dmh2_inv in H7. cbv zeta in H7.
    cbn [dMhMap h3mShift mdrShift with_mdrShift with_mdrMasses with_dMh2EFTMap with_dMh2FOAtMap with_dMh2FOMap] in H7.
    destruct (env_pert _ _ _ _ _) as [[[x0 x1] x2] x3] eqn:Ep. subst o.
    destruct Hr as (R1 & R2 & R3 & R4 & _).
    cbn in R1, R2, R3.
    assert (Hab : isAlphab b = ab) by congruence.
    cbn [isAlphab hierarchy mdrFlag renormalizationScheme expUncertainties dMhMap dMh2Map dMh2FOMap dMh2FOAtMap dLambdaMap dLambdaShiftMap dLambdaEFT dLambdaH3m dLambdaNonLog dLambdaXtUncertainty h3mShift mdrShift with_mdrShift with_mdrMasses with_dMh2EFTMap with_dMh2FOAtMap with_dMh2FOMap with_dMh2Map arr4_put e0 e1 e2 e3].
    repeat match goal with |- _ /\ _ => split end; try congruence; try reflexivity.
    - destruct ab; [destruct (C8 Hab) as (-> & _ & -> & _); reflexivity|apply (C7 Hab)].
    - rewrite C1, B1, A5. cbn. rewrite R4. reflexivity.
    - exists s. split; [|congruence]. rewrite <- A2. f_equal; congruence.
    - intros ->. destruct (C8 Hab) as (E1 & E2 & E3 & E4 & E5 & E6). repeat split; assumption.
  Qed.

  (** the two-loop shift to MS-bar, as computed *)
  Lemma final_shift2 d o d' : calculateDMh3L X p false d = (Ok o, d') ->
    exists y, env_threshold X (p_mass_ES p) 4 YT_AS 1 = Ok y /\
      e2 (dLambdaShiftMap o) = (let gt := ndiv (nmul (nconst Csqrt2) (Mt p)) (nsqrt (calcV2 p)) in
            ndiv (nmul (nmul (nconst CtwoLoop) (pow2 (nmul (nmul (Mt p) gt) (g3 p)))) (nmul (nmul (nint (-4)) (e1 (dLambdaMap o))) y)) (calcV2 p)).
  Proof.
    intros H. apply calc_inv in H as (ho & h & Hc & Hf & ->).
    apply compare_pick in Hc as (_ & Hh & err & pay & _ & Hr & _).
    apply finish_inv in Hf as (a & b & c & e & f & g & H1 & H2 & H3 & H4 & H5 & H6 & H7).
    apply matrices_inv in H1 as (cc & s & m1 & m2 & r & A1 & A2 & A3 & A4 & A5 & A6 & (K1 & K2 & K3) & A7 & _).
    apply dl3_sel in H2. destruct H2 as ((K1' & K2' & K3') & _).
    apply lambda_inv in H3 as (_ & _ & _ & _ & _ & _ & _ & _ & _ & C7 & _).
    apply fo_inv in H4 as (x & y & -> & Hy). apply eft_inv in H5 as (z & ->).
    apply mdr_inv in H6 as (s' & s3 & m3 & o' & v & D1 & D2 & D3 & D4 & ->).
    apply dmh2_inv in H7. cbv zeta in H7.
    destruct (env_pert _ _ _ _ _) as [[[x0 x1] x2] x3] eqn:Ep. subst o.
    destruct Hr as (R1 & _). cbn in R1.
    destruct C7 as (_ & _ & _ & _ & _ & _ & Y); [congruence|]. exact Y.
  Qed.
End Final.

(** ** expansion uncertainty *)
Section Unc.
  Context {T : Type} {N : Num T}.
  Variables (X : Env T) (p : Params T).

  Fixpoint sum_list (M : T) (l : list T) (u : T) : T :=
    match l with [] => u | x :: l => sum_list M l (nadd u (pow2 (nsub M x))) end.

  Lemma mass_with_recompute m l1 l2 l3 ho d : 
    match recomputeMh X p m l1 l2 l3 ho d with
    | (Ok (o, x), d') => d' = d /\ mass_with X p ho m l1 l2 l3 d = Ok x /\ same_key o ho
    | (Throw e, d') => d' = d /\ mass_with X p ho m l1 l2 l3 d = Throw e
    end.
  Proof.
    unfold recomputeMh, mass_with, bindC, get_depth, lift, ret.
    destruct (calculateHierarchy X p d ho l1 l2 l3) as [[o c]|] eqn:E; cbn [bind]; [|auto].
    apply calcH_key in E. auto.
  Qed.
  Lemma mass_with_same m l1 l2 l3 a b d : same_key a b -> mass_with X p a m l1 l2 l3 d = mass_with X p b m l1 l2 l3 d.
  Proof.
    intros K. unfold mass_with. pose proof (calcH_same X p d a b l1 l2 l3 K) as H.
    destruct (calculateHierarchy X p d a l1 l2 l3) as [[o c]|]; destruct (calculateHierarchy X p d b l1 l2 l3) as [[o' c']|];
      try contradiction; cbn [bind].
    - destruct H as [-> _]. reflexivity.
    - subst. reflexivity.
  Qed.
  Lemma sum_spec m l1 l2 l3 Mh fs : forall ho0 ho u d, same_key ho ho0 ->
    sum_truncations X p m l1 l2 l3 Mh fs ho u d =
    (do xs <- all_ok (fun f => mass_with X p ho0 m l1 l2 l3 (depth_put d f 0)) fs; Ok (sum_list Mh xs u), d).
  Proof.
    induction fs as [|f fs IH]; intros ho0 ho u d K; cbn [sum_truncations all_ok]; [reflexivity|].
    unfold bindC, temporarily_set.
    pose proof (mass_with_recompute m l1 l2 l3 ho (depth_put d f 0)) as H.
    destruct (recomputeMh X p m l1 l2 l3 ho (depth_put d f 0)) as [[[o x]|e] d'].
    - destruct H as (-> & H & K'). rewrite (mass_with_same m l1 l2 l3 ho ho0) in H by exact K. rewrite H. cbn [bind].
      rewrite depth_put_get. rewrite (IH ho0 o) by (eapply same_key_trans; eassumption).
      destruct (all_ok _ fs); reflexivity.
    - destruct H as (-> & H). rewrite (mass_with_same m l1 l2 l3 ho ho0) in H by exact K. rewrite H. cbn [bind].
      rewrite depth_put_get. reflexivity.
  Qed.
  Lemma trunc_vars h : is_hierarchy h -> exists mo, getMotherHierarchy h = Ok mo /\ truncations mo = expansion_variables h.
  Proof.
    intros H. unfold is_hierarchy in H.
    assert (D : (h = 0 \/ h = 1 \/ h = 2 \/ h = 3 \/ h = 4 \/ h = 5 \/ h = 6 \/ h = 7 \/ h = 8 \/ h = 9 \/ h = 10 \/ h = 11 \/ h = 12 \/ h = 13)%Z) by lia.
    repeat destruct D as [->|D]; try subst h; eexists; split; reflexivity.
  Qed.
  Lemma unc_spec ho m l1 l2 l3 d : is_hierarchy (hierarchy ho) ->
    getExpansionUncertainty X p ho m l1 l2 l3 d =
    (do M <- mass_with X p ho m l1 l2 l3 (full_depth d);
     do xs <- all_ok (fun f => mass_with X p ho m l1 l2 l3 (depth_put (full_depth d) f 0)) (expansion_variables (hierarchy ho));
     Ok (nsqrt (sum_list M xs (nint 0))), d).
  Proof.
    intros Hh. destruct (trunc_vars _ Hh) as (mo & Em & Et).
    pose proof (pres_unc X p ho m l1 l2 l3 d) as Hp.
    revert Hp. unfold getExpansionUncertainty, temporarily_set. fold (full_depth d).
    unfold bindC.
    pose proof (mass_with_recompute m l1 l2 l3 ho (full_depth d)) as H.
    destruct (recomputeMh X p m l1 l2 l3 ho (full_depth d)) as [[[o x]|e] d'].
    - destruct H as (-> & H & K'). rewrite H. cbn [bind]. unfold lift. rewrite Em, Et.
      rewrite (sum_spec m l1 l2 l3 x _ ho o) by exact K'. unfold ret.
      destruct (all_ok _ _); cbn [bind]; cbn; intros; f_equal; assumption.
    - destruct H as (-> & H). rewrite H. cbn. intros; f_equal; assumption.
  Qed.
  Lemma unc_throws ho m l1 l2 l3 d : ~ is_hierarchy (hierarchy ho) ->
    exists e, getExpansionUncertainty X p ho m l1 l2 l3 d = (Throw e, d).
  Proof.
    intros Hh. assert (Em : exists e, getMotherHierarchy (hierarchy ho) = Throw e).
    { unfold getMotherHierarchy, NUMBER_OF_HIERARCHIES. unfold is_hierarchy in Hh.
      destruct (Z.ltb_spec (hierarchy ho) 0), (Z.leb_spec 14 (hierarchy ho)); cbn [orb];
        try (destruct (_ =? _)%Z; eexists; reflexivity). lia. }
    destruct Em as [e Em]. rewrite (pres_eq _ d (pres_unc X p ho m l1 l2 l3)).
    unfold getExpansionUncertainty, temporarily_set. unfold bindC.
    destruct (recomputeMh _ _ _ _ _ _ _ _) as [[[o x]|e'] d'].
    - unfold lift. rewrite Em. cbn. eexists; reflexivity.
    - cbn. eexists; reflexivity.
  Qed.
End Unc.

Lemma sum_list_R M l : forall u, sum_list M l u = (u + Rsum_sq (map (fun x => M - x) l))%R.
Proof.
  induction l as [|x l IH]; intros u; cbn [sum_list map Rsum_sq]; [lra|]. rewrite IH. unfold pow2. unR. lra.
Qed.
Lemma Rsum_sq_nonneg l : (0 <= Rsum_sq l)%R.
Proof. induction l as [|x l IH]; cbn [Rsum_sq]; [lra|]. pose proof (Rle_0_sqr x). unfold Rsqr in *. lra. Qed.
Lemma Rsum_sq_zero l : Rsum_sq l = 0%R <-> forall x, In x l -> x = 0%R.
Proof.
  induction l as [|x l IH]; cbn [Rsum_sq].
  - split; [intros _ x []|reflexivity].
  - pose proof (Rsum_sq_nonneg l). pose proof (Rle_0_sqr x) as Hx. unfold Rsqr in Hx. split.
    + intros E y [<-|Hy]; [|apply IH; [lra|exact Hy]].
      assert (x * x = 0)%R by lra. apply Rmult_integral in H0. tauto.
    + intros Hz. rewrite (Hz x) by (left; reflexivity). rewrite (proj2 IH); [lra|]. intros y Hy. apply Hz. right. exact Hy.
Qed.
Lemma unc_R (X : Env R) p ho m l1 l2 l3 d u d' :
  getExpansionUncertainty X p ho m l1 l2 l3 d = (Ok u, d') ->
  is_hierarchy (hierarchy ho) /\
  exists M Ms, mass_with X p ho m l1 l2 l3 (full_depth d) = Ok M /\
    all_ok (fun f => mass_with X p ho m l1 l2 l3 (depth_put (full_depth d) f 0)) (expansion_variables (hierarchy ho)) = Ok Ms /\
    u = sqrt (Rsum_sq (map (fun x => M - x) Ms))%R /\ (0 <= u)%R /\ (u = 0%R <-> forall x, In x Ms -> x = M).
Proof.
  intros H.
  assert (Hh : is_hierarchy (hierarchy ho)).
  { destruct (Z_le_dec 0 (hierarchy ho)), (Z_le_dec (hierarchy ho) 13);
      try (split; assumption);
      (destruct (unc_throws X p ho m l1 l2 l3 d) as [e E]; [unfold is_hierarchy; lia|congruence]). }
  split; [exact Hh|]. rewrite unc_spec in H by exact Hh.
  destruct (mass_with _ _ _ _ _ _ _ (full_depth d)) as [M|]; cbn [bind] in H; [|discriminate].
  destruct (all_ok _ _) as [Ms|]; cbn [bind] in H; [|discriminate].
  injection H as <- _. exists M, Ms. split; [reflexivity|]. split; [reflexivity|].
  change (@nsqrt R NumR) with sqrt. rewrite sum_list_R. change (@nint R NumR 0) with 0%R. rewrite Rplus_0_l.
  split; [reflexivity|]. split; [apply sqrt_pos|].
  pose proof (Rsum_sq_nonneg (map (fun x => (M - x)%R) Ms)) as Hn. split.
  - intros E x Hx. apply sqrt_eq_0 in E; [|exact Hn]. rewrite Rsum_sq_zero in E.
    specialize (E (M - x)%R). cut (M - x = 0)%R; [lra|]. apply E. apply in_map_iff. exists x. auto.
  - intros Hx. assert (E : Rsum_sq (map (fun x => (M - x)%R) Ms) = 0%R).
    { apply Rsum_sq_zero. intros y Hy. apply in_map_iff in Hy as (x & <- & Hi). rewrite (Hx x Hi). lra. }
    rewrite E. apply sqrt_0.
Qed.

(** ** loop flags *)
Lemma hier_regs_of_mat (X : Env R) p d ab h mdr r : hier_mat X p d ab h mdr 0 0 1 = Ok r -> exists q, hier_regs X p d ab h mdr = Ok q.
Proof.
  unfold hier_mat, hier_regs, step_pure. cbn [bind Z.eqb Pos.eqb].
  unfold hier_order. destruct (calcMsfMDRFlag p ab h mdr 3) as [[a b]|]; cbn [bind]; [|discriminate].
  destruct (hier_args p ab h a b); cbn [bind]; [|discriminate]. intros _. eexists; reflexivity.
Qed.
Lemma order_matrix (X : Env R) p d ho order out lm :
  (order = 1 \/ order = 2 \/ order = 3)%Z -> hier_order X p d (isAlphab ho) (hierarchy ho) (mdrFlag ho) order = Ok (out, lm) ->
  exists o, calculateHierarchy X p d ho (if (order =? 1)%Z then 1%Z else 0%Z) (if (order =? 2)%Z then 1%Z else 0%Z) (if (order =? 3)%Z then 1%Z else 0%Z)
    = Ok (o, mat2_scale (calcHiggsMassMatrixPrefactor p) (mkM2 (getS1 out) (getS12 out) (getS12 out) (getS2 out))).
Proof.
  intros Ho E. rewrite calcH_eq. cbv zeta.
  assert (M : hier_mat X p d (isAlphab ho) (hierarchy ho) (mdrFlag ho) (if (order =? 1)%Z then 1%Z else 0%Z) (if (order =? 2)%Z then 1%Z else 0%Z) (if (order =? 3)%Z then 1%Z else 0%Z)
    = Ok (mat2_scale (calcHiggsMassMatrixPrefactor p) (mkM2 (getS1 out) (getS12 out) (getS12 out) (getS2 out)))).
  { unfold hier_mat, step_pure. destruct Ho as [->|[->| ->]]; cbn [Z.eqb Pos.eqb bind]; rewrite E; cbn [bind];
    unfold mat2_scale; cbn; f_equal; f_equal; ring. }
  rewrite M. cbn [bind]. destruct (only3 _ _ _) eqn:O3.
  - destruct Ho as [->|[->| ->]]; try discriminate O3. cbn [Z.eqb Pos.eqb] in M.
    destruct (hier_regs_of_mat _ _ _ _ _ _ _ M) as [q ->]. cbn [bind]. eexists; reflexivity.
  - eexists; reflexivity.
Qed.
Lemma additive (X : Env R) p d ho l1 l2 l3 o m :
  calculateHierarchy X p d ho l1 l2 l3 = Ok (o, m) ->
  exists a b c, contribution X p d ho 1 l1 a /\ contribution X p d ho 2 l2 b /\ contribution X p d ho 3 l3 c /\
    m = mat2_add (mat2_add a b) c /\ (only3 l1 l2 l3 = false -> o = ho).
Proof.
  rewrite calcH_eq. cbv zeta. unfold hier_mat, step_pure. cbn [bind].
  assert (Z0 : forall z, contribution X p d ho z 0 (mkM2 0%R 0%R 0%R 0%R)) by (intros; unfold contribution; destruct (Z.eq_dec 0 0); [reflexivity|congruence]).
  assert (NZ : forall order flag out lm, (order = 1 \/ order = 2 \/ order = 3)%Z -> flag <> 0%Z ->
     hier_order X p d (isAlphab ho) (hierarchy ho) (mdrFlag ho) order = Ok (out, lm) ->
     contribution X p d ho order flag (mat2_scale (calcHiggsMassMatrixPrefactor p) (mkM2 (getS1 out) (getS12 out) (getS12 out) (getS2 out)))).
  { intros order flag out lm Ho Hf E. unfold contribution. destruct (Z.eq_dec flag 0); [contradiction|]. eapply order_matrix; eassumption. }
  destruct (Z.eqb_spec l1 0) as [->|N1]; destruct (Z.eqb_spec l2 0) as [->|N2]; destruct (Z.eqb_spec l3 0) as [->|N3]; cbn [bind];
  repeat match goal with
        | |- context [hier_order X p d ?ab ?h ?m ?n] =>
            destruct (hier_order X p d ab h m n) as [[? ?]|?] eqn:?; cbn [bind]; [|intros; discriminate]
        end;
  intros H;
  (assert (Hm : m = mat2_scale (calcHiggsMassMatrixPrefactor p) (let '(mkM2 a b c d) := m in m) -> True) by auto);
  clear Hm;
  (eexists _, _, _; split; [first [apply Z0 | eapply NZ; [auto|eassumption|eassumption]]|]; split; [first [apply Z0 | eapply NZ; [auto|eassumption|eassumption]]|];
   split; [first [apply Z0 | eapply NZ; [auto|eassumption|eassumption]]|]);
  (destruct (only3 _ _ _) eqn:O3; [destruct (hier_regs _ _ _ _ _ _); cbn [bind] in H; [|discriminate H]|]; injection H as <- <-;
   (split; [unfold mat2_add, mat2_scale; cbn; f_equal; ring|]; first [discriminate|reflexivity])).
Qed.

(** ** no shift if the flags are off *)
Lemma no_shift (p : Params R) ab h : is_hierarchy h ->
  sfMass1 p ab <> 0%R -> sfMass2 p ab <> 0%R -> calcMeanMsq p <> 0%R ->
  shiftMst1ToMDR p ab h 0 0 = Ok (sfMass1 p ab) /\ shiftMst2ToMDR p ab h 0 0 = Ok (sfMass2 p ab).
Proof.
  intros Hh N1 N2 NQ. unfold shiftMst1ToMDR, shiftMst2ToMDR. cbv zeta.
  set (a := sfMass1 p ab) in *. set (b := sfMass2 p ab) in *. set (q := calcMeanMsq p) in *.
  assert (Hm : exists mo, getMotherHierarchy h = Ok mo /\ (mo = 0 \/ mo = 3 \/ mo = 4 \/ mo = 6 \/ mo = 7 \/ mo = 12)%Z).
  { unfold is_hierarchy in Hh.
    assert (D : (h = 0 \/ h = 1 \/ h = 2 \/ h = 3 \/ h = 4 \/ h = 5 \/ h = 6 \/ h = 7 \/ h = 8 \/ h = 9 \/ h = 10 \/ h = 11 \/ h = 12 \/ h = 13)%Z) by lia.
    repeat destruct D as [->|D]; try subst h; eexists; (split; [reflexivity|]); unfold hierarchyMap, h3, h4, h5, h6, h6b, h9; lia. }
  destruct Hm as (mo & -> & Hm). cbn [bind].
  assert (S : forall x (e : R), e = 1%R -> Ok (x * sqrt e)%R = Ok x) by (intros x e ->; rewrite sqrt_1, Rmult_1_r; reflexivity).
  assert (Q : (q * q <> 0)%R) by (intros Z; apply Rmult_integral in Z; tauto).
  destruct Hm as [->|[->|[->|[->|[->| ->]]]]]; cbn [Z.eqb Pos.eqb orb h3 h4 h5 h6 h6b h9]; unfold pow4, pow2; unR; (split; apply S); field; auto.
Qed.
Lemma no_shift_flag (p : Params R) ab h order : is_hierarchy h -> (order = 1 \/ order = 2 \/ order = 3)%Z ->
  sfMass1 p ab <> 0%R -> sfMass2 p ab <> 0%R -> calcMeanMsq p <> 0%R ->
  calcMsfMDRFlag p ab h 0 order = Ok (sfMass1 p ab, sfMass2 p ab).
Proof.
  intros Hh Ho N1 N2 NQ. destruct (no_shift p ab h Hh N1 N2 NQ) as [E1 E2].
  unfold calcMsfMDRFlag. destruct Ho as [->|[->| ->]]; cbn [Z.eqb Pos.eqb]; rewrite E1, E2; reflexivity.
Qed.

(** ** when the calculation returns *)
Section Total.
  Context {T : Type} {N : Num T}.
  Variables (X : Env T) (p : Params T).
  Hypothesis NT : no_throw X.
  Lemma mother_ok h : is_hierarchy h -> exists m, getMotherHierarchy h = Ok m.
  Proof.
    intros H. destruct (trunc_vars h H) as (m & E & _). eauto.
  Qed.
  Lemma shift1_ok ab h a b : is_hierarchy h -> exists v, shiftMst1ToMDR p ab h a b = Ok v.
  Proof. intros H. destruct (mother_ok h H) as [m E]. unfold shiftMst1ToMDR. cbv zeta. rewrite E. cbn [bind]. eauto. Qed.
  Lemma shift2_ok ab h a b : is_hierarchy h -> exists v, shiftMst2ToMDR p ab h a b = Ok v.
  Proof. intros H. destruct (mother_ok h H) as [m E]. unfold shiftMst2ToMDR. cbv zeta. rewrite E. cbn [bind]. eauto. Qed.
  Lemma flag_ok ab h mdr o : is_hierarchy h -> (o = 1 \/ o = 2 \/ o = 3)%Z -> exists v, calcMsfMDRFlag p ab h mdr o = Ok v.
  Proof.
    intros H Ho. unfold calcMsfMDRFlag. destruct Ho as [->|[->| ->]]; cbn [Z.eqb Pos.eqb];
    match goal with |- context [shiftMst1ToMDR p ab h ?a ?b] =>
      destruct (shift1_ok ab h a b H) as [v ->]; cbn [bind]; destruct (shift2_ok ab h a b H) as [w ->]; cbn [bind]; eauto end.
  Qed.
  Lemma order_ok d ab h mdr o : is_hierarchy h -> (o = 1 \/ o = 2 \/ o = 3)%Z -> exists v, hier_order X p d ab h mdr o = Ok v.
  Proof.
    intros H Ho. unfold hier_order. destruct (flag_ok ab h mdr o H Ho) as [[a b] ->]. cbn [bind].
    assert (A : exists l, hier_args p ab h a b = Some l).
    { unfold is_hierarchy in H.
      assert (D : (h = 0 \/ h = 1 \/ h = 2 \/ h = 3 \/ h = 4 \/ h = 5 \/ h = 6 \/ h = 7 \/ h = 8 \/ h = 9 \/ h = 10 \/ h = 11 \/ h = 12 \/ h = 13)%Z) by lia.
      repeat destruct D as [->|D]; try subst h; eexists; reflexivity. }
    destruct A as [l ->]. eauto.
  Qed.
  Lemma step_ok d ab h mdr st o f : is_hierarchy h -> (o = 1 \/ o = 2 \/ o = 3)%Z ->
    (exists v, st = Ok v) -> exists v, step_pure X p d ab h mdr st o f = Ok v.
  Proof.
    intros H Ho [[[a b] c] ->]. unfold step_pure. cbn [bind]. destruct (f =? 0)%Z; [eauto|].
    destruct (order_ok d ab h mdr o H Ho) as [[? ?] ->]. cbn [bind]. eauto.
  Qed.
  Lemma calcH_ok d ho l1 l2 l3 : is_hierarchy (hierarchy ho) -> exists v, calculateHierarchy X p d ho l1 l2 l3 = Ok v.
  Proof.
    intros H. rewrite calcH_eq. cbv zeta. unfold hier_mat.
    match goal with |- context [bind ?e _] =>
      assert (E : exists v, e = Ok v) end.
    { match goal with |- context [bind ?e _] => assert (E : exists v, e = Ok v) by (repeat (apply step_ok; [exact H|auto|]); eauto) end.
      destruct E as [[[a b] c] ->]. cbn [bind]. eauto. }
    destruct E as [m ->]. cbn [bind]. destruct (only3 l1 l2 l3); [|eauto].
    unfold hier_regs. destruct (order_ok d (isAlphab ho) (hierarchy ho) (mdrFlag ho) 3 H) as [[? ?] ->]; [auto|]. cbn [bind].
    destruct (flag_ok (isAlphab ho) (hierarchy ho) (mdrFlag ho) 3 H) as [[? ?] ->]; [auto|]. cbn [bind]. eauto.
  Qed.
  Lemma mass_ok ho m l1 l2 l3 d : is_hierarchy (hierarchy ho) -> exists v, mass_with X p ho m l1 l2 l3 d = Ok v.
  Proof. intros H. unfold mass_with. destruct (calcH_ok d ho l1 l2 l3 H) as [[? ?] ->]. cbn [bind]. eauto. Qed.
  Lemma unc_ok ho m l1 l2 l3 d : is_hierarchy (hierarchy ho) -> exists v, getExpansionUncertainty X p ho m l1 l2 l3 d = (Ok v, d).
  Proof.
    intros H. rewrite unc_spec by exact H. destruct (mass_ok ho m l1 l2 l3 (full_depth d) H) as [v ->]. cbn [bind].
    assert (A : forall fs, exists xs, all_ok (fun f => mass_with X p ho m l1 l2 l3 (depth_put (full_depth d) f 0)) fs = Ok xs).
    { induction fs as [|f fs [xs IH]]; cbn [all_ok]; [eauto|].
      destruct (mass_ok ho m l1 l2 l3 (depth_put (full_depth d) f 0) H) as [w ->]. cbn [bind]. rewrite IH. cbn [bind]. eauto. }
    destruct (A (expansion_variables (hierarchy ho))) as [xs ->]. cbn [bind]. eauto.
  Qed.
  Lemma mt41_ok ab h a b : is_hierarchy h -> exists v, getMt41L p ab h a b = Ok v.
  Proof.
    intros H. unfold getMt41L. cbv zeta. destruct (shift1_ok ab h a b H) as [v ->]. cbn [bind].
    destruct (shift2_ok ab h a b H) as [w ->]. cbn [bind]. eauto.
  Qed.
  Lemma mt42_ok ab h a b : is_hierarchy h -> exists v, getMt42L X p ab h a b = Ok v.
  Proof.
    intros H. unfold getMt42L. cbv zeta. destruct (shift1_ok ab h a b H) as [v ->]. cbn [bind].
    destruct (shift2_ok ab h a b H) as [w ->]. cbn [bind]. destruct (env_at_as _ _ _ _ _ _ _ _ _ _ _ _ _) as [[? ?] ?]. eauto.
  Qed.
  Lemma shiftH_ok ab h m : is_hierarchy h -> exists v, shiftH3mToDRbarPrime p ab h m = Ok v.
  Proof.
    intros H. unfold shiftH3mToDRbarPrime. cbv zeta. destruct (shift1_ok ab h m m H) as [v ->]. cbn [bind].
    destruct (shift2_ok ab h m m H) as [w ->]. cbn [bind]. eauto.
  Qed.
  Lemma mdrshift_ok ab h a b : is_hierarchy h -> exists v, calcDRbarToMDRbarShift X p ab h a b = Ok v.
  Proof.
    intros H. unfold calcDRbarToMDRbarShift.
    assert (E : exists s, (if a then do a0 <- getMt41L p ab h 1 1; do b0 <- getMt41L p ab h 0 0; Ok (mat2_add mat2_zero (mat2_sub a0 b0)) else Ok mat2_zero) = Ok s).
    { destruct a; [|eauto]. destruct (mt41_ok ab h 1 1 H) as [? ->]. destruct (mt41_ok ab h 0 0 H) as [? ->]. cbn [bind]. eauto. }
    destruct E as [s ->]. cbn [bind]. destruct b; [|eauto].
    destruct (mt42_ok ab h 1 1 H) as [? ->]. destruct (mt42_ok ab h 0 0 H) as [? ->]. cbn [bind]. eauto.
  Qed.
  Lemma dl3_ok ho om : exists v, calcDeltaLambda3L X p ho om = Ok v.
  Proof.
    destruct NT as (_ & _ & _ & E3 & Et & Em & Ex & _). unfold calcDeltaLambda3L. cbv zeta.
    destruct (E3 (p_mass_ES p) true 0%Z 1%Z 0%Z) as [? ->]. destruct (E3 (p_mass_ES p) true 0%Z 0%Z 0%Z) as [? ->]. cbn [bind].
    set (xt := if om then _ else _).
    destruct (Et (p_mass_ES p) xt LAMBDA_AT_AS2 1%Z) as [? ->]. destruct (Et (p_mass_ES p) xt LAMBDA_AT_AS2 0%Z) as [? ->].
    cbn [bind set].
    set (xo := if xt3_hierarchy _ then _ else _).
    destruct (Em (p_mass_ES p) xt xo 1%Z 0%Z) as [? ->]. cbn [bind put_checked loop03 Z.leb Z.compare Pos.compare Pos.compare_cont andb].
    destruct (Ex (p_mass_ES p) xt 4%Z 1%Z) as [? ->].
    destruct om; cbn [bind].
    - destruct (Em (p_mass_ES p) xt xo 1%Z 1%Z) as [? ->]. cbn [bind]. eauto.
    - eauto.
  Qed.
  Lemma candidate_ok ho d : is_hierarchy (hierarchy ho) -> exists v, candidate X p ho d = (Ok v, d).
  Proof.
    intros H. unfold candidate, bindC, lift, get_depth, ret.
    destruct (mt41_ok (isAlphab ho) (hierarchy ho) (mdrFlag ho) 0 H) as [one ->].
    destruct (mt42_ok (isAlphab ho) (hierarchy ho) (mdrFlag ho) 0 H) as [two ->].
    destruct (calcH_ok d ho 0 1 0 H) as [[o m] E]. rewrite E.
    assert (H' : is_hierarchy (hierarchy o)) by (apply calcH_key in E as (_ & -> & _); exact H).
    destruct (unc_ok o (mat2_add (treelvl p) one) 0 1 0 d H') as [u ->].
    destruct (unc_ok o (mat2_add (mat2_add (treelvl p) one) two) 0 0 1 d H') as [w ->].
    destruct (dl3_ok o true) as [v ->]. eauto.
  Qed.
  Lemma loop_ok hs : forall st d, (forall k, In k hs -> is_hierarchy k) -> exists st', compare_loop X p st hs d = (Ok st', d).
  Proof.
    induction hs as [|h hs IH]; intros [[ho e] s] d Hin; cbn [compare_loop]; [eexists; reflexivity|].
    assert (S : exists st', compare_step X p (ho, e, s) h d = (Ok st', d)).
    { unfold compare_step. unfold bindC at 1. unfold lift at 1. cbn [set].
      destruct (isHierarchySuitable _ _ _); [|eexists; reflexivity].
      unfold bindC at 1. destruct (candidate_ok (with_hierarchy ho h) d) as [[o [[[[a b] c] x] y]] ->]; [apply Hin; left; reflexivity|].
      destruct (_ || _); [|eexists; reflexivity].
      unfold bindC, lift, ret. cbn [set put_checked loop13 Z.ltb Z.leb Z.compare Pos.compare Pos.compare_cont andb bind]. eexists; reflexivity. }
    destruct S as [st' S]. unfold bindC. rewrite S. apply IH. intros; apply Hin; right; assumption.
  Qed.
  Lemma compare_ok ho d : exists v, compareHierarchies X p ho d = (Ok v, d).
  Proof.
    rewrite (pres_eq _ d (pres_compare X p ho)). unfold compareHierarchies, temporarily_set.
    unfold bindC at 1. unfold lift at 1. cbn [set put_checked loop03 Z.leb Z.compare Pos.compare Pos.compare_cont andb bind].
    unfold bindC at 1.
    match goal with |- context [compare_loop X p ?st all_hierarchies ?dd] =>
      destruct (loop_ok all_hierarchies st dd) as [[[o e] s] ->]; [intros k Hk; apply in_all; exact Hk|] end.
    unfold bindC, lift, ret. cbn [set fst]. eexists; reflexivity.
  Qed.
  Lemma matrices_ok ho d : is_hierarchy (hierarchy ho) -> exists v, finish_matrices X p ho d = (Ok v, d).
  Proof.
    intros H. unfold finish_matrices, bindC, lift, get_depth.
    destruct (calcH_ok d ho 0 0 1 H) as [[o m] E]. rewrite E.
    assert (K : same_key o ho) by (apply calcH_key in E; exact E). destruct K as (K1 & K2 & K3). rewrite ?K1, ?K2, ?K3.
    destruct (shiftH_ok (isAlphab ho) (hierarchy ho) (mdrFlag ho) H) as [s Es]. rewrite Es. cbn [bind].
    cbn [set put_checked loop03 Z.leb Z.compare Pos.compare Pos.compare_cont andb bind].
    cbn [isAlphab hierarchy with_dMhMap]. rewrite ?K1, ?K2.
    destruct (mt41_ok (isAlphab ho) (hierarchy ho) 0 0 H) as [one ->]. cbn [bind isAlphab hierarchy with_dMhMap]. rewrite ?K1, ?K2.
    destruct (mt42_ok (isAlphab ho) (hierarchy ho) 0 0 H) as [two ->].
    cbn [bind getDMh at_checked loop03 Z.leb Z.compare Pos.compare Pos.compare_cont andb arr4_at].
    match goal with |- context [getExpansionUncertainty X p ?u ?m 0 0 1 d] =>
      destruct (unc_ok u m 0 0 1 d) as [w ->]; [cbn; rewrite K2; exact H|] end.
    cbn [put_checked loop13 Z.ltb Z.leb Z.compare Pos.compare Pos.compare_cont andb bind].
    cbn [isAlphab hierarchy mdrFlag with_dMhMap with_expUncertainties]. rewrite ?K1, ?K2, ?K3, ?Es. cbn [bind]. eexists; reflexivity.
  Qed.
  Lemma finish_ok ho d : is_hierarchy (hierarchy ho) -> exists v, finishDMh3L X p ho d = (Ok v, d).
  Proof.
    intros H. unfold finishDMh3L, bindC, lift, get_depth.
    destruct (matrices_ok ho d H) as [a Ea]. rewrite Ea.
    apply matrices_inv in Ea as (_ & _ & _ & _ & _ & _ & _ & _ & _ & _ & _ & (K1 & K2 & K3) & _).
    destruct (dl3_ok a false) as [b Eb]. rewrite Eb. apply dl3_sel in Eb as ((L1 & L2 & L3) & _).
    assert (Ec : exists c, finish_lambda X p b = Ok c).
    { destruct NT as (E0 & _ & _ & _ & Et & _). unfold finish_lambda. cbv zeta.
      destruct (E0 (p_mass_ES p) true) as [? ->]. destruct (Et (p_mass_ES p) 4%Z LAMBDA_AT 1%Z) as [? ->].
      destruct (Et (p_mass_ES p) 4%Z LAMBDA_AT_AS 1%Z) as [? ->]. destruct (Et (p_mass_ES p) 4%Z YT_AS 1%Z) as [? ->].
      cbn [bind set put_checked getDLambda at_checked loop03 Z.leb Z.compare Pos.compare Pos.compare_cont andb arr4_at].
      destruct (isAlphab b); cbn [negb]; eexists; reflexivity. }
    destruct Ec as [c Ec]. rewrite Ec. apply lambda_inv in Ec as ((M1 & M2 & M3) & _).
    assert (Ee : exists e, finish_fo X p c = Ok e).
    { destruct NT as (_ & _ & _ & _ & _ & _ & _ & Ef). unfold finish_fo.
      destruct (Ef p false) as [[[? ?] ?] ->]. destruct (Ef p true) as [[[? ?] ?] ->].
      cbn [bind set put_checked loop03 Z.leb Z.compare Pos.compare Pos.compare_cont andb]. eexists; reflexivity. }
    destruct Ee as [e Ee]. rewrite Ee. apply fo_inv in Ee as (x & y & -> & _).
    match goal with |- context [finish_eft X p ?o] => set (o1 := o) end.
    assert (Ef : exists f, finish_eft X p o1 = Ok f).
    { destruct NT as (E0 & E1 & E2 & E3 & _). unfold finish_eft.
      destruct (E0 p false) as [? ->]. destruct (E1 p false 1%Z 1%Z) as [? ->]. destruct (E2 p false 1%Z 1%Z) as [? ->].
      destruct (E3 p false 1%Z 1%Z 0%Z) as [? ->]. cbn [bind set put_checked loop03 Z.leb Z.compare Pos.compare Pos.compare_cont andb].
      eexists; reflexivity. }
    destruct Ef as [f Ef]. rewrite Ef. apply eft_inv in Ef as (z & ->).
    match goal with |- context [finish_mdr X p d ?o] => set (o2 := o) end.
    assert (H2 : is_hierarchy (hierarchy o2)) by (unfold o2, o1; cbn; rewrite M2, L2, K2; exact H).
    assert (Eg : exists g, finish_mdr X p d o2 = Ok g).
    { clearbody o2. unfold finish_mdr. cbn [set negb Z.eqb Pos.eqb andb bind isAlphab hierarchy with_mdrFlag].
      destruct (mdrshift_ok (isAlphab o2) (hierarchy o2) true true H2) as [s ->]. cbn [bind].
      match goal with |- context [calculateHierarchy X p d ?o 0 0 1] => destruct (calcH_ok d o 0 0 1) as [[q m] E]; [exact H2|]; rewrite E end.
      cbn [bind]. apply calcH_key in E as (Q1 & Q2 & Q3). rewrite ?Q1, ?Q2, ?Q3. cbn [isAlphab hierarchy mdrFlag with_mdrShift with_mdrFlag].
      destruct (shiftH_ok (isAlphab o2) (hierarchy o2) 1 H2) as [s3 ->]. cbn [bind put_checked getDMh at_checked loop03 Z.leb Z.compare Pos.compare Pos.compare_cont andb arr4_at].
      eexists; reflexivity. }
    destruct Eg as [g ->].
    unfold finish_dmh2. cbn [bind getDMh at_checked loop03 Z.leb Z.compare Pos.compare Pos.compare_cont andb arr4_at].
    destruct (env_pert _ _ _ _ _) as [[[? ?] ?] ?]. cbn [bind set put_checked loop03 Z.leb Z.compare Pos.compare Pos.compare_cont andb].
    eexists; reflexivity.
  Qed.
  Lemma finish_none ho d : hierarchy ho = (-1)%Z -> finishDMh3L X p ho d = (Throw "No suitable hierarchy found!", d).
  Proof.
    intros H. unfold finishDMh3L, finish_matrices, bindC, lift, get_depth. rewrite calcH_eq. cbv zeta. rewrite H. reflexivity.
  Qed.
End Total.

(** without strong coupling the MDR masses are the DR masses, whatever the flags *)
Lemma no_shift_g3 (p : Params R) ab h f1 f2 : is_hierarchy h -> g3 p = 0%R ->
  sfMass1 p ab <> 0%R -> sfMass2 p ab <> 0%R -> calcMeanMsq p <> 0%R ->
  shiftMst1ToMDR p ab h f1 f2 = Ok (sfMass1 p ab) /\ shiftMst2ToMDR p ab h f1 f2 = Ok (sfMass2 p ab).
Proof.
  intros Hh G N1 N2 NQ. unfold shiftMst1ToMDR, shiftMst2ToMDR. cbv zeta.
  assert (A : calcAsOver4Pi p = 0%R) by (unfold calcAsOver4Pi, pow2; rewrite G; unR; ring).
  rewrite A.
  set (a := sfMass1 p ab) in *. set (b := sfMass2 p ab) in *. set (q := calcMeanMsq p) in *.
  assert (Hm : exists mo, getMotherHierarchy h = Ok mo /\ (mo = 0 \/ mo = 3 \/ mo = 4 \/ mo = 6 \/ mo = 7 \/ mo = 12)%Z).
  { unfold is_hierarchy in Hh.
    assert (D : (h = 0 \/ h = 1 \/ h = 2 \/ h = 3 \/ h = 4 \/ h = 5 \/ h = 6 \/ h = 7 \/ h = 8 \/ h = 9 \/ h = 10 \/ h = 11 \/ h = 12 \/ h = 13)%Z) by lia.
    repeat destruct D as [->|D]; try subst h; eexists; (split; [reflexivity|]); unfold hierarchyMap, h3, h4, h5, h6, h6b, h9; lia. }
  destruct Hm as (mo & -> & Hm). cbn [bind].
  assert (S : forall x (e : R), e = 1%R -> Ok (x * sqrt e)%R = Ok x) by (intros x e ->; rewrite sqrt_1, Rmult_1_r; reflexivity).
  assert (Q : (q * q <> 0)%R) by (intros Z; apply Rmult_integral in Z; tauto).
  destruct Hm as [->|[->|[->|[->|[->| ->]]]]]; cbn [Z.eqb Pos.eqb orb h3 h4 h5 h6 h6b h9]; unfold pow5, pow4, pow3, pow2; unR; (split; apply S); field; auto.
Qed.
Lemma no_mdr_difference (X : Env R) (p : Params R) ab h one two : is_hierarchy h -> g3 p = 0%R ->
  sfMass1 p ab <> 0%R -> sfMass2 p ab <> 0%R -> calcMeanMsq p <> 0%R ->
  calcDRbarToMDRbarShift X p ab h one two = Ok (mkM2 0 0 0 0)%R.
Proof.
  intros Hh G N1 N2 NQ. unfold calcDRbarToMDRbarShift.
  assert (A : forall f1 f2, getMt41L p ab h f1 f2 = getMt41L p ab h 0 0).
  { intros. unfold getMt41L. cbv zeta. destruct (no_shift_g3 p ab h f1 f2 Hh G N1 N2 NQ) as [-> ->].
    destruct (no_shift_g3 p ab h 0 0 Hh G N1 N2 NQ) as [-> ->]. reflexivity. }
  assert (B : forall f1 f2, getMt42L X p ab h f1 f2 = getMt42L X p ab h 0 0).
  { intros. unfold getMt42L. cbv zeta. destruct (no_shift_g3 p ab h f1 f2 Hh G N1 N2 NQ) as [-> ->].
    destruct (no_shift_g3 p ab h 0 0 Hh G N1 N2 NQ) as [-> ->]. reflexivity. }
  rewrite (A 1%Z 1%Z), (B 1%Z 1%Z).
  destruct (getMt41L p ab h 0 0) as [m|e] eqn:E1.
  2:{ exfalso. unfold getMt41L in E1. cbv zeta in E1. destruct (no_shift_g3 p ab h 0 0 Hh G N1 N2 NQ) as [K1 K2]. rewrite K1, K2 in E1. discriminate. }
  destruct (getMt42L X p ab h 0 0) as [n|e] eqn:E2.
  2:{ exfalso. unfold getMt42L in E2. cbv zeta in E2. destruct (no_shift_g3 p ab h 0 0 Hh G N1 N2 NQ) as [K1 K2]. rewrite K1, K2 in E2. cbn [bind] in E2.
      destruct (env_at_as _ _ _ _ _ _ _ _ _ _ _ _ _) as [[? ?] ?]. discriminate. }
  cbn [bind]. destruct one, two; cbn [bind]; f_equal; unfold mat2_zero, mat2_add, mat2_sub; unR; cbn; f_equal; ring.
Qed.
