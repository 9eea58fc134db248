(** * Mirror identities: the mixed sbottom-stau corrections *)
From Coq Require Import Reals ZArith List Bool String Lra Lia.
From Verif Require Import Num NumFacts Except Params HierFormulas Dilog LoopFun LoopSpec LoopProofs LoopProofs4 Thresh ThreshTwo Threshold HierExpr HierPoly FieldPoly FieldNF ThreshTree ThreshDeep MirrorSpec MirrorNF MirrorTab.
Import ListNotations.
Open Scope R_scope.

Lemma cos_pos (p : Params R) : 0 < vu p -> 0 < vd p -> 0 < calcCosBeta p /\ calcCosBeta p ^ 2 * (1 + calcTanBeta p ^ 2) = 1 /\ calcSinBeta p = calcCosBeta p * calcTanBeta p /\ 0 < calcTanBeta p.
Proof.
  intros Hu Hd. assert (V : 0 < vd p ^ 2 + vu p ^ 2) by nra.
  assert (E : calcV p ^ 2 = vd p ^ 2 + vu p ^ 2).
  { unfold calcV, calcV2, pow2. unR. replace (vu p * vu p + vd p * vd p) with (vd p ^ 2 + vu p ^ 2) by ring. apply pow2_sqrt. lra. }
  assert (PV : 0 < calcV p). { unfold calcV. apply sqrt_lt_R0. unfold calcV2, pow2. unR. nra. }
  unfold calcCosBeta, calcSinBeta, calcTanBeta. unR. repeat split.
  - apply Rdiv_lt_0_compat; assumption.
  - apply Rmult_eq_reg_r with (calcV p ^ 2); [|lra]. rewrite E at 2. field. split; lra.
  - field. split; lra.
  - apply Rdiv_lt_0_compat; assumption.
Qed.

Section Y.
  Variable p : Params R.
  Hypothesis P : phys_y p.
  Definition hiY (v : positive) : R :=
    match v with 150 => calcTanBeta p | 151 => mQ p | 152 => mD p | 155 => scale p | 159 => mL p | 160 => mE p | _ => 1%R end%positive.
  Definition baseY := mkbase (fun v => match v with 1%positive => calcXb p | 5%positive => calcXtau p | _ => 0 end) (fun _ => 0) hiY (calcCosBeta p).
  Lemma m_pos x : 0 < x -> 0 < sqrt x. Proof. apply sqrt_lt_R0. Qed.
  Lemma hiY_pos v : (150 <= v)%positive -> 0 < hiY v.
  Proof.
    intros _. assert (H : hiY v = calcTanBeta p \/ hiY v = mQ p \/ hiY v = mD p \/ hiY v = scale p \/ hiY v = mL p \/ hiY v = mE p \/ hiY v = 1).
    { unfold hiY. do 8 (destruct v as [v|v|]; try tauto). }
    destruct P. destruct (cos_pos p) as (_ & _ & _ & ?); try assumption.
    destruct H as [-> |[-> |[-> |[-> |[-> |[-> | ->]]]]]]; try assumption; try (apply m_pos; assumption); lra.
  Qed.
  Lemma Y_good a b : (forall D, In D (dsY a b) -> FieldPoly.pev baseY D <> 0) -> good_base (dsY a b) baseY [] [] fun3.
  Proof.
    destruct (cos_pos p (py_vu _ P) (py_vd _ P)) as (C1 & C2 & C3 & C4).
    intros HD. apply good_mk; [apply Rgt_not_eq, C1|exact C2|exact hiY_pos|apply Forall_forall; exact HD|constructor|constructor].
  Qed.
  Lemma leaf_Y msq2 v : In v yY -> FieldPoly.lev baseY (assoc lmY v) = leafR p msq2 1 v.
  Proof.
    destruct (cos_pos p (py_vu _ P) (py_vd _ P)) as (C1 & C2 & C3 & C4).
    assert (Lm : forall v e, FieldPoly.lev baseY (mon v e) = powerRZ (baseY v) e) by (intros; apply mon_ev).
    intros H. repeat (destruct H as [<- |H]; [unfold assoc; cbn [find fst snd lmY Pos.eqb]; rewrite ?Lm|]); [..|destruct H].
    - unfold FieldPoly.lev; cbn. lra.
    - exact (pow2_sqrt _ (Rlt_le _ _ (py_q _ P))).
    - exact (pow2_sqrt _ (Rlt_le _ _ (py_d _ P))).
    - exact (pow2_sqrt _ (Rlt_le _ _ (py_l _ P))).
    - exact (pow2_sqrt _ (Rlt_le _ _ (py_e _ P))).
    - exact (powerRZ_1 _).
    - exact (powerRZ_1 _).
    - exact (powerRZ_1 _).
    - exact (powerRZ_1 _).
    - cbn [leafR]. rewrite C3.
      assert (W : forall w e, (0 <= e)%Z -> FieldPoly.lwf 150 (mon w e)) by (intros w e L; cbn; tauto).
      rewrite (proj1 (lmul_ok baseY 150 (fun v L => Rgt_not_eq _ _ (eq_ind_r (fun z => z > 0) (hiY_pos v L) (base_hi _ _ _ _ v L))) _ _ (W 100%positive 1%Z Z.le_0_1) (W vt 1%Z Z.le_0_1))), !Lm, !powerRZ_1. reflexivity.
  Qed.
  Definition nrY (a b c : R) : bool := Rltb (Rabs (a - b)) (c * Rdec 1 2).
  Lemma nrY_close a b c : nrY a b c = true <-> close a b c.
  Proof.
    unfold nrY, close. replace (c * Rdec 1 2) with (1 / 100 * c) by (unfold Rdec; cbn; lra).
    destruct (Rltb_spec (Rabs (a - b)) (1 / 100 * c)); split; intros; try assumption; try reflexivity; try discriminate. lra.
  Qed.
  Lemma lep_id : (close (mE p) (mL p) (mQ p) <-> close (mE p) (mL p) (mL p)) -> (close (mD p) (mQ p) (mQ p) <-> close (mD p) (mQ p) (mL p)) ->
    getDeltaLambdaYtau4Yb2 p 1 = getDeltaLambdaYtau2Yb4 (lepton p) 1.
  Proof.
    intros A1 A2. set (msq2 := 0).
    rewrite (d_getDeltaLambdaYtau4Yb2_eq _ msq2), (d_getDeltaLambdaYtau2Yb4_eq _ msq2).
    set (a := nrY (mE p) (mL p) (mQ p)). set (b := nrY (mD p) (mQ p) (mQ p)).
    assert (A1' : nrY (mE p) (mL p) (mL p) = a).
    { subst a. destruct (nrY (mE p) (mL p) (mQ p)) eqn:E; [apply nrY_close, A1, nrY_close; exact E|].
      destruct (nrY (mE p) (mL p) (mL p)) eqn:E'; [|reflexivity]. rewrite <- E. symmetry. apply nrY_close, A1, nrY_close. exact E'. }
    assert (A2' : nrY (mD p) (mQ p) (mL p) = b).
    { subst b. destruct (nrY (mD p) (mQ p) (mQ p)) eqn:E; [apply nrY_close, A2, nrY_close; exact E|].
      destruct (nrY (mD p) (mQ p) (mL p)) eqn:E'; [|reflexivity]. rewrite <- E. symmetry. apply nrY_close, A2, nrY_close. exact E'. }
    assert (S1 : sevT (leafR p msq2 1) d_getDeltaLambdaYtau4Yb2 = rev (leafR p msq2 1) fun1 fun2 fun3 (pick (brY a b) d_getDeltaLambdaYtau4Yb2)).
    { assert (E : exists cs, conds (brY a b) d_getDeltaLambdaYtau4Yb2 = Some cs /\ holds fun3 (leafR p msq2 1) cs).
      { destruct a eqn:Ea, b eqn:Eb; cbn [brY]; eexists; (split; [vm_compute; reflexivity|]); repeat (apply Forall_cons; [cbn [fst snd cev rev leafR]; change (@nltb R NumR) with Rltb; fold (mQ p) (mD p) (mL p) (mE p)|]); try apply Forall_nil;
          repeat match goal with |- context [Rltb (Rabs (?x - ?y)) (?c * Rdec 1 2)] => change (Rltb (Rabs (x - y)) (c * Rdec 1 2)) with (nrY x y c) end;
          fold a; fold b; rewrite ?Ea, ?Eb; reflexivity. }
      destruct E as (cs & E1 & E2). exact (proj1 (pick_ok fun3 _ _ _ _ E1 E2)). }
    assert (S2 : sevT (leafR (lepton p) msq2 1) d_getDeltaLambdaYtau2Yb4 = rev (leafR (lepton p) msq2 1) fun1 fun2 fun3 (pick (brY b a) d_getDeltaLambdaYtau2Yb4)).
    { assert (E : exists cs, conds (brY b a) d_getDeltaLambdaYtau2Yb4 = Some cs /\ holds fun3 (leafR (lepton p) msq2 1) cs).
      { destruct a eqn:Ea, b eqn:Eb; cbn [brY]; eexists; (split; [vm_compute; reflexivity|]); repeat (apply Forall_cons; [cbn [fst snd cev rev leafR]; cbn [lepton mq2 md2 ml2 me2]; change (@nltb R NumR) with Rltb; fold (mQ p) (mD p) (mL p) (mE p)|]); try apply Forall_nil;
          repeat match goal with |- context [Rltb (Rabs (?x - ?y)) (?c * Rdec 1 2)] => change (Rltb (Rabs (x - y)) (c * Rdec 1 2)) with (nrY x y c) end;
          rewrite ?A1', ?A2', ?Ea, ?Eb; reflexivity. }
      destruct E as (cs & E1 & E2). exact (proj1 (pick_ok fun3 _ _ _ _ E1 E2)). }
    rewrite S1, S2.
    assert (HK : In (a, b) [(false, false); (false, true); (true, false); (true, true)]) by (destruct a, b; cbn; tauto).
    pose proof (proj1 (forallb_forall _ _) idY_check _ HK) as HC. cbn beta iota in HC. rewrite !andb_true_iff in HC. destruct HC as (((HC & HT) & V1) & V2).
    assert (HD : forall D, In D (dsY a b) -> FieldPoly.pev baseY D <> 0).
    { assert (Ne : forall x y c, 0 < c -> nrY x y c = false -> x <> y).
      { intros x y c Pc H E. subst y. apply not_true_iff_false in H. apply H, nrY_close. unfold close. replace (x - x) with 0 by ring. rewrite Rabs_R0. lra. }
      assert (Pq : 0 < mQ p) by (apply m_pos, (py_q _ P)). assert (Pd : 0 < mD p) by (apply m_pos, (py_d _ P)).
      assert (Pl : 0 < mL p) by (apply m_pos, (py_l _ P)). assert (Pe : 0 < mE p) by (apply m_pos, (py_e _ P)).
      intros D HDD. unfold dsY in HDD. apply in_app_or in HDD. destruct HDD as [HDD|HDD].
      - destruct a eqn:Ea; [destruct HDD|]. destruct HDD as [<- |[]]. unfold baseY. rewrite dsub_ev by (unfold vL, vE; lia). cbn [hiY vL vE].
        pose proof (Ne _ _ _ Pq Ea). nra.
      - destruct b eqn:Eb; [destruct HDD|]. destruct HDD as [<- |[]]. unfold baseY. rewrite dsub_ev by (unfold vq, vdd; lia). cbn [hiY vq vdd].
        pose proof (Ne _ _ _ Pq Eb). nra. }
    pose proof (envm_sound _ _ _ _ _ fun3 _ HT (Y_good a b HD) HC) as Z.
    unfold idY in Z. cbn [rev] in Z. rewrite xsub_ok in Z. cbn [rev] in Z.
    rewrite (vin_ev _ _ _ _ _ (leaf_Y msq2) V1) in Z.
    rewrite (vin_ev fun3 yY _ (leafR (lepton p) msq2 1) (pick (brY b a) d_getDeltaLambdaYtau2Yb4)) in Z; [lra| |exact V2].
    intros v H. rewrite (leaf_Y msq2) by (repeat (destruct H as [<- |H]; [cbn; tauto|]); destruct H).
    repeat (destruct H as [<- |H]; [reflexivity|]). destruct H.
  Qed.
End Y.
