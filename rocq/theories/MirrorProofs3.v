(** * Mirror identities of the Yukawa corrections with the three-mass function: proofs *)
From Coq Require Import Reals ZArith List Bool String Lra Lia.
From Verif Require Import Num NumFacts Except Params HierFormulas Dilog LoopFun LoopSpec LoopProofs LoopProofs4 Thresh ThreshTwo Threshold HierExpr HierPoly FieldPoly FieldNF ThreshTree ThreshDeep XtProofs MirrorSpec MirrorNF MirrorTab MirrorTab2 MirrorProofs MirrorProofs2.
Import ListNotations.
Open Scope R_scope.

Section M.
  Variable p : Params R.
  Hypothesis P : phys_m p.
  Variable phi : R -> R -> R -> R.
  Hypothesis Hphi : three_mass phi.
  Notation q := (mQ p). Notation d := (mD p). Notation w := (mU p). Notation m := (mu p). Notation A := (MA p).
  Definition G3p (_ : positive) := phi.
  Definition hiM (v : positive) : R :=
    match v with 150 => calcTanBeta p | 151 => mQ p | 152 => mD p | 153 => mU p | 155 => scale p | 156 => v0 (MSt p) | 157 => mu p | 158 => MA p | 161 => vd p | _ => 1%R end%positive.
  Definition atM (v : positive) : R :=
    match v with
    | 30 => dilog (1 - mu p ^ 2 / mD p ^ 2)%R | 31 => dilog (1 - mu p ^ 2 / mQ p ^ 2)%R | 32 => dilog (1 - mD p ^ 2 / mQ p ^ 2)%R
    | 33 => dilog (1 - mu p ^ 2 / mU p ^ 2)%R | 34 => dilog (1 - mU p ^ 2 / mQ p ^ 2)%R | 35 => dilog (1 - mD p ^ 2 / mU p ^ 2)%R
    | 50 => phi (MA p ^ 2)%R (mD p ^ 2)%R (mD p ^ 2)%R | 51 => phi (MA p ^ 2)%R (mQ p ^ 2)%R (mQ p ^ 2)%R
    | 52 => phi (MA p ^ 2)%R (mQ p ^ 2)%R (mD p ^ 2)%R | 53 => phi (MA p ^ 2)%R (mU p ^ 2)%R (mD p ^ 2)%R
    | 54 => phi (MA p ^ 2)%R (mQ p ^ 2)%R (mU p ^ 2)%R | _ => 0%R end%positive.
  Definition loM (v : positive) : R :=
    match v with 1 => calcXb p | 2 => calcXt p | 3 => calcYb p | 4 => calcYt p | _ => 0%R end%positive.
  Definition baseM := mkbase loM atM hiM (calcCosBeta p).
  Lemma hiM_pos v : (150 <= v)%positive -> 0 < hiM v.
  Proof.
    intros _. assert (H : hiM v = calcTanBeta p \/ hiM v = q \/ hiM v = d \/ hiM v = w \/ hiM v = scale p \/ hiM v = v0 (MSt p) \/ hiM v = m \/ hiM v = A \/ hiM v = vd p \/ hiM v = 1).
    { unfold hiM. do 8 (destruct v as [v|v|]; try tauto). }
    destruct P. destruct (cos_pos p) as (_ & _ & _ & ?); try assumption.
    destruct H as [-> |[-> |[-> |[-> |[-> |[-> |[-> |[-> |[-> | ->]]]]]]]]]; try assumption; try (apply sqrt_lt_R0; assumption); lra.
  Qed.
  Lemma hiM_nz v : (150 <= v)%positive -> baseM v <> 0.
  Proof. apply base_nz. exact hiM_pos. Qed.
  Lemma Lm v e : FieldPoly.lev baseM (mon v e) = powerRZ (baseM v) e. Proof. apply mon_ev. Qed.
  Lemma Lm1 v : FieldPoly.lev baseM (mon v 1) = baseM v. Proof. rewrite Lm. apply powerRZ_1. Qed.
  Lemma Lm2 v : (150 <= v)%positive -> FieldPoly.lev baseM (mon v 2) = hiM v ^ 2. Proof. intros L. rewrite Lm. unfold baseM. rewrite base_hi by exact L. reflexivity. Qed.
  Lemma landen_ok a b : 0 < a -> 0 < b -> generic a b -> dilog (1 - a ^ 2 / b ^ 2) = - dilog (1 - b ^ 2 / a ^ 2) - 2 * (ln a - ln b) ^ 2.
  Proof.
    intros Pa Pb (N1 & N2 & N3). assert (P2 : 0 < a ^ 2) by (apply pow_lt; exact Pa). assert (P2' : 0 < b ^ 2) by (apply pow_lt; exact Pb).
    assert (Hz : a ^ 2 / b ^ 2 * b ^ 2 = a ^ 2) by (field; lra).
    rewrite (dilog_landen (a ^ 2 / b ^ 2)).
    - replace (1 / (a ^ 2 / b ^ 2)) with (b ^ 2 / a ^ 2) by (field; lra).
      assert (L : ln (a ^ 2 / b ^ 2) = 2 * (ln a - ln b)).
      { unfold Rdiv. rewrite ln_mult by (try apply Rinv_0_lt_compat; assumption). rewrite ln_Rinv by assumption. cbn [pow]. rewrite !Rmult_1_r, !ln_mult by assumption. ring. }
      rewrite L. field.
    - apply Rdiv_lt_0_compat; assumption.
    - intros E. rewrite E in Hz. apply N1. nra.
    - intros E. rewrite E in Hz. apply N2. lra.
    - intros E. rewrite E in Hz. apply N3. lra.
  Qed.
  Lemma L3_ok n a b : (151 <= a <= 160)%positive -> (151 <= b <= 160)%positive -> generic (hiM b) (hiM a) -> baseM n = dilog (1 - hiM a ^ 2 / hiM b ^ 2) ->
    Forall (fun kv => dilog (FieldPoly.lev baseM (fst kv)) = FieldPoly.lev baseM (snd kv)) (L3 n a b).
  Proof.
    intros La Lb G E. unfold L3. repeat apply Forall_cons; [| |apply Forall_nil]; cbn [fst snd]; unfold baseM in *; rewrite (one_sub_ev _ _ _ _ hiM_pos) by lia.
    - rewrite mon_ev, powerRZ_1, E. reflexivity.
    - rewrite (landen_ev _ _ _ _ hiM_pos) by assumption. rewrite E. apply landen_ok; try exact G; apply hiM_pos; lia.
  Qed.
  Lemma sym3_ok n a b : (150 <= a)%positive -> (150 <= b)%positive -> baseM n = phi (A ^ 2) (hiM a ^ 2) (hiM b ^ 2) ->
    Forall (fun t => let '(x, y, z, v) := t in G3p 1%positive (FieldPoly.lev baseM x) (FieldPoly.lev baseM y) (FieldPoly.lev baseM z) = FieldPoly.lev baseM v) (sym3 n a b).
  Proof.
    intros La Lb E. pose proof (hiM_pos a La) as Pa. pose proof (hiM_pos b Lb) as Pb. pose proof (pm_A _ P) as PA.
    assert (P2 : forall x, 0 < x -> 0 < x ^ 2) by (intros; apply pow_lt; assumption).
    unfold sym3. repeat apply Forall_cons; [| |apply Forall_nil]; cbn beta iota; rewrite !Lm2 by (try assumption; unfold vA; lia); change (hiM vA) with A.
    - rewrite Lm1, E. reflexivity.
    - assert (Wm : forall v e, (150 <= v)%positive -> FieldPoly.lwf 150 (mon v e)) by (intros v e L; cbn; tauto).
      assert (Wn : FieldPoly.lwf 150 (mon n 1)) by (cbn; split; [right; lia|tauto]).
      destruct (lmul_ok baseM 150 hiM_nz _ _ (Wm a 2%Z La) (Wm b (-2)%Z Lb)) as (E1 & W1). rewrite (proj1 (lmul_ok baseM 150 hiM_nz _ _ Wn W1)), E1, Lm1, Lm2, Lm, E by assumption.
      unfold baseM. rewrite base_hi by exact Lb. change (powerRZ (hiM b) (-2)) with (/ hiM b ^ 2). unfold G3p.
      pose proof (Hphi _ _ _ (P2 _ PA) (P2 _ Pa) (P2 _ Pb)) as H.
      apply Rmult_eq_reg_r with (/ hiM a ^ 2); [|apply Rinv_neq_0_compat, pow_nonzero; lra]. unfold Rdiv in H. rewrite H. field. split; lra.
  Qed.
  Lemma diag_ok n a : (150 <= a)%positive -> baseM n = phi (A ^ 2) (hiM a ^ 2) (hiM a ^ 2) ->
    G3p 1%positive (FieldPoly.lev baseM (mon vA 2)) (FieldPoly.lev baseM (mon a 2)) (FieldPoly.lev baseM (mon a 2)) = FieldPoly.lev baseM (mon n 1).
  Proof. intros La E. rewrite !Lm2 by (try assumption; unfold vA; lia). rewrite Lm1, E. reflexivity. Qed.
  Lemma dsub_nz a b : (150 <= a)%positive -> (150 <= b)%positive -> hiM a <> hiM b -> FieldPoly.pev baseM (dsub a b) <> 0.
  Proof. intros La Lb N. unfold baseM. rewrite dsub_ev by assumption. pose proof (hiM_pos a La). pose proof (hiM_pos b Lb). nra. Qed.
  Lemma ddel_nz a b : (150 <= a)%positive -> (150 <= b)%positive -> delta3 (hiM a ^ 2) (hiM b ^ 2) (A ^ 2) <> 0 -> FieldPoly.pev baseM (ddel a b vA) <> 0.
  Proof. intros La Lb N. unfold baseM. rewrite (ddel_ev _ _ _ _ hiM_pos) by (try assumption; unfold vA; lia). exact N. Qed.
  Lemma generic_sym a b : generic a b -> generic b a. Proof. unfold generic. intros (H1 & H2 & H3). repeat split; auto. Qed.
  Lemma good7 : generic_b p -> good_base ds7 baseM li7 ph7 G3p.
  Proof.
    intros [Q1 Q2 Q3 Q4 Q5 Q6]. destruct (cos_pos p (pm_vu _ P) (pm_vd _ P)) as (C1 & C2 & C3 & C4).
    apply good_mk; [apply Rgt_not_eq, C1|exact C2|exact hiM_pos| | |].
    - repeat apply Forall_cons; try apply Forall_nil; first [apply dsub_nz|apply ddel_nz]; try (vm_compute; discriminate); cbn [hiM vq vdd vm vA];
        first [exact Q4|exact Q5|exact Q6|exact (proj1 Q1)|exact (proj1 Q2)|exact (proj1 Q3)].
    - unfold li7. apply Forall_app; split; [|apply Forall_app; split]; apply L3_ok; try (split; vm_compute; discriminate); cbn [hiM vq vdd vm vA];
        first [assumption|apply generic_sym; assumption|reflexivity].
    - unfold ph7. apply Forall_app. split; [|apply sym3_ok; try (vm_compute; discriminate); reflexivity].
      repeat apply Forall_cons; try apply Forall_nil; apply diag_ok; try (vm_compute; discriminate); reflexivity.
  Qed.
  Lemma good5 : generic_t p -> good_base ds5 baseM li5 ph5 G3p.
  Proof.
    intros [Q0 Q1 Q2 Q3 Q4 Q5]. destruct (good7 Q0) as [B1 B2 B3 B4 B5 B6 B7 B8]. constructor; try assumption.
    - unfold ds5. apply Forall_app. split; [exact B6|]. repeat apply Forall_cons; try apply Forall_nil; first [apply dsub_nz|apply ddel_nz]; try (vm_compute; discriminate); cbn [hiM vq vdd vuu vm vA];
        first [exact (proj1 Q1)|exact (proj1 Q2)|exact (proj1 Q3)|exact Q4|exact Q5].
    - unfold li5. apply Forall_app. split; [exact B7|]. apply Forall_app; split; [|apply Forall_app; split]; apply L3_ok; try (split; vm_compute; discriminate); cbn [hiM vq vdd vuu vm vA];
        first [assumption|apply generic_sym; assumption|reflexivity].
    - unfold ph5. apply Forall_app. split; [exact B8|]. apply Forall_app; split; apply sym3_ok; try (vm_compute; discriminate); reflexivity.
  Qed.

  Lemma Wc e1 e2 u1 u2 : (0 <= e1)%Z -> (0 <= e2)%Z -> FieldPoly.lev baseM (lmul (mon u1 e1) (mon u2 e2)) = powerRZ (baseM u1) e1 * powerRZ (baseM u2) e2.
  Proof.
    intros L1 L2. assert (W : forall v e, (0 <= e)%Z -> FieldPoly.lwf 150 (mon v e)) by (intros v e L; cbn; tauto).
    rewrite (proj1 (lmul_ok baseM 150 hiM_nz _ _ (W u1 e1 L1) (W u2 e2 L2))), !Lm. reflexivity.
  Qed.
  Lemma mu3 : leafR p 0 1 1%positive = m ^ 3.
  Proof.
    pose proof (pm_mu _ P) as Pm. change (Rpower (m * m) (Rdec 15 1) = m ^ 3). rewrite <- (Rpower_pow 3 m Pm). replace (m * m) with (Rpower m 2).
    - rewrite Rpower_mult. f_equal. unfold Rdec. cbn. lra.
    - replace 2 with (INR 2) by (cbn; ring). rewrite (Rpower_pow 2 m Pm). cbn. ring.
  Qed.
  Lemma bhi v : (150 <= v)%positive -> baseM v = hiM v. Proof. apply base_hi. Qed.
  Lemma leaf5 v : In v (34%positive :: lv5) -> FieldPoly.lev baseM (assoc lm5 v) = leafR p 0 1 v.
  Proof.
    destruct (cos_pos p (pm_vu _ P) (pm_vd _ P)) as (C1 & C2 & C3 & C4).
    intros H. destruct (Pos.eq_dec v 1) as [-> |N1]; [rewrite mu3; unfold assoc; cbn [find fst snd lm5 Pos.eqb]; rewrite Lm; unfold baseM; rewrite base_hi by (unfold vm; lia); reflexivity|].
    destruct (Pos.eq_dec v 2) as [-> |N2]; [unfold assoc, FieldPoly.lev; cbn; lra|].
    repeat (destruct H as [<- |H]; [try (exfalso; apply N1; reflexivity); try (exfalso; apply N2; reflexivity); unfold assoc; cbn [find fst snd lm5 Pos.eqb]; rewrite ?Wc by lia; rewrite ?Lm, ?powerRZ_1|]); [..|destruct H].
    all: try reflexivity.
    - change (vd p * calcTanBeta p = vu p). unfold calcTanBeta. unR. field. pose proof (pm_vd _ P). lra.
    - exact (pow2_sqrt _ (Rlt_le _ _ (pm_d _ P))).
    - symmetry. exact C3.
    - exact (pow2_sqrt _ (Rlt_le _ _ (pm_u _ P))).
    - exact (pow2_sqrt _ (Rlt_le _ _ (pm_q _ P))).
  Qed.
  Lemma leaf7 v : sleptons_as_sbottoms p -> In v lv7 -> FieldPoly.lev baseM (assoc lm7 v) = leafR p 0 1 v.
  Proof.
    intros (S1 & S2 & S3). destruct (cos_pos p (pm_vu _ P) (pm_vd _ P)) as (C1 & C2 & C3 & C4).
    pose proof (pow2_sqrt _ (Rlt_le _ _ (pm_q _ P))) as Eq. pose proof (pow2_sqrt _ (Rlt_le _ _ (pm_d _ P))) as Ed.
    intros H. destruct (Pos.eq_dec v 2) as [-> |N2]; [unfold assoc, FieldPoly.lev; cbn; lra|].
    repeat (destruct H as [<- |H]; [try (exfalso; apply N2; reflexivity); unfold assoc; cbn [find fst snd lm7 lm5 app Pos.eqb]; rewrite ?Wc by lia; rewrite ?Lm, ?powerRZ_1|]); [..|destruct H].
    all: try reflexivity; try exact Eq; try exact Ed; try (symmetry; exact C3).
    all: cbn [leafR]; unfold calcYtau, calcXtau; rewrite ?S1, ?S2, ?S3; first [exact Eq|exact Ed|reflexivity].
  Qed.
  Lemma Fw x : 1 / 10000 < x -> 2 / 100 < Rabs (x - 1) -> F1 x = F1c x /\ F2 x = F2c x /\ F5 x = F5c x /\ F6 x = F6c x.
  Proof.
    intros P0 H. pose proof (F6w x P0 H) as H6. destruct (outside1 x) as (H1 & H2 & _ & _ & H5 & _); [|lra|tauto].
    eapply Rlt_trans; [|exact P0]. apply Rmult_lt_reg_r with (2 ^ 52); [apply pow_lt; lra|]. rewrite Rinv_l by (apply pow_nonzero; lra). lra.
  Qed.
  Lemma ne2 a b : 0 < a -> 0 < b -> a <> b -> a ^ 2 <> b ^ 2. Proof. intros ? ? N E. apply N. nra. Qed.
  Notation lf := (leafR p 0 1).
  Lemma lf3 : rev lf fun1 fun2 G3p (XSqrt (XV 3)) = q. Proof. reflexivity. Qed.
  Lemma rest_ok d0 l cs : conds l d0 = Some cs -> holds fun3 lf cs -> no3 (pick l d0) = true -> sevT lf d0 = rev lf fun1 fun2 G3p (pick l d0).
  Proof. intros E H N. unfold sevT. rewrite (proj1 (pick_ok fun3 lf d0 l cs E H)). apply no3_ok. exact N. Qed.
  Lemma far x y c : 1 / 100 * c <= Rabs (x - y) -> Rltb (Rabs (x - y)) (c * Rdec 1 2) = false.
  Proof. intros H. apply Rltb_false. replace (c * Rdec 1 2) with (1 / 100 * c) by (unfold Rdec; cbn; lra). exact H. Qed.
  Lemma id7_sound : generic_b p -> sleptons_as_sbottoms p -> outside q d -> outside q m -> outside d m -> 1 / 10 * d <= Rabs (d - q) -> 1 / 100 * q <= Rabs (d - q) ->
    sevTG G3p lf d_getDeltaLambdaYb6 = 3 * (sevTG G3p lf d_getDeltaLambdaYtau6 + 4 / calcCosBeta p ^ 2 * (getDeltaYtauYtau p 1 * getDeltaLambdaYtau4 p 1))
      + 2 * calcTanBeta p * getDeltaLambdaYtau4Yb2 p 1 - 8 / 3 * (getDeltaVevYb2 p * getDeltaLambdaYb4 p 1).
  Proof.
    intros G S (O1 & O1') (O2 & O2') (O3 & O3') B1 B2. destruct id7_check as (HC & HT & HV & HF).
    destruct (cos_pos p (pm_vu _ P) (pm_vd _ P)) as (C1 & _).
    assert (Pq : 0 < q) by (apply sqrt_lt_R0, (pm_q _ P)). assert (Pd : 0 < d) by (apply sqrt_lt_R0, (pm_d _ P)). pose proof (pm_mu _ P) as Pm.
    destruct S as (S1 & S2 & S3). pose proof (conj S1 (conj S2 S3)) as S.
    assert (El : sqrt (a22 (ml2 p)) = q) by (rewrite S1; reflexivity). assert (Ee : sqrt (a22 (me2 p)) = d) by (rewrite S2; reflexivity).
    pose proof (envm_sound _ _ _ _ _ G3p _ HT (good7 G) HC) as Z. cbn [rev] in Z.
    rewrite <- (xg_ok G3p) in Z.
    2:{ refine (fsub_ok _ _ _ HF _). unfold fa7. cbv zeta.
        assert (E : forall v, In v lv7 -> FieldPoly.lev baseM (assoc lm7 v) = lf v) by (intros v Hv; apply leaf7; assumption).
        destruct G as [Q1 Q2 Q3 _ _ _]. pose proof (ne2 q d Pq Pd (proj1 Q1)) as N1. pose proof (ne2 q m Pq Pm (proj1 Q2)) as N2. pose proof (ne2 d m Pd Pm (proj1 Q3)) as N3.
        destruct (Fw _ O1 O1') as (K1 & K2 & K5 & _). destruct (Fw _ O2 O2') as (_ & _ & _ & K6). destruct (Fw _ O3 O3') as (_ & _ & _ & K6').
        repeat (apply Forall_cons; [cbn [fgood rev]; rewrite !E by (cbn; tauto); cbn [leafR]; rewrite ?El, ?Ee; fold q; fold d; repeat split; assumption|]). apply Forall_nil. }
    assert (Zi : rev (fun v => FieldPoly.lev baseM (assoc lm7 v)) fun1 fun2 G3p id7 = 0).
    { apply Rmult_integral in Z. destruct Z as [Z|Z]; [|exact Z]. exfalso. unfold c2 in Z. cbn [rev] in Z. rewrite !(leaf7 27%positive S) in Z by (cbn; tauto). cbn [leafR] in Z. nra. }
    rewrite (vin_ev G3p lv7 _ lf id7 (fun v Hv => leaf7 v S Hv) HV) in Zi. unfold id7, c2 in Zi. cbn [rev] in Zi. cbn [leafR] in Zi.
    pose proof no3_check as NC. cbn [forallb] in NC. rewrite !andb_true_iff in NC. destruct NC as (N1 & N2 & N3 & N4 & N5 & _ & _).
    pose proof (far d q q B2) as F1'.
    assert (F2' : Rltb (Rabs (d - q)) (Rdec 1 1 * d) = false) by (apply Rltb_false; replace (Rdec 1 1) with (1 / 10) by (unfold Rdec; cbn; lra); exact B1).
    assert (F3' : Rltb (Rabs (a22 (mq2 p) - a22 (md2 p))) (a22 (mq2 p) * Rdec 1 2) = false).
    { rewrite <- (pow2_sqrt (a22 (mq2 p))), <- (pow2_sqrt (a22 (md2 p))) by (apply Rlt_le, P). apply far. fold q; fold d.
      replace (q ^ 2 - d ^ 2) with ((q - d) * (q + d)) by ring. rewrite Rabs_mult, (Rabs_minus_sym q d), (Rabs_pos_eq (q + d)) by lra. nra. }
    assert (H1 : exists cs, conds [false] d_getDeltaLambdaYb6 = Some cs /\ holds G3p lf cs).
    { eexists. split; [vm_compute; reflexivity|]. apply Forall_cons; [|apply Forall_nil]. cbn [fst snd cev rev leafR]. change (@nltb R NumR) with Rltb. fold q. fold d. rewrite F1'. reflexivity. }
    assert (H2 : exists cs, conds [false] d_getDeltaLambdaYtau6 = Some cs /\ holds G3p lf cs).
    { eexists. split; [vm_compute; reflexivity|]. apply Forall_cons; [|apply Forall_nil]. cbn [fst snd cev rev leafR]. change (@nltb R NumR) with Rltb. rewrite El, Ee, F2'. reflexivity. }
    assert (H3 : exists cs, conds [false; false; false] d_getDeltaLambdaYtau4Yb2 = Some cs /\ holds fun3 lf cs).
    { eexists. split; [vm_compute; reflexivity|]. repeat (apply Forall_cons; [cbn [fst snd cev rev leafR]; change (@nltb R NumR) with Rltb; rewrite ?El, ?Ee; fold q; fold d; rewrite F1'; reflexivity|]). apply Forall_nil. }
    assert (H4 : exists cs, conds [false] d_getDeltaVevYb2 = Some cs /\ holds fun3 lf cs).
    { eexists. split; [vm_compute; reflexivity|]. apply Forall_cons; [|apply Forall_nil]. cbn [fst snd cev rev leafR]. change (@nltb R NumR) with Rltb. rewrite F3'. reflexivity. }
    destruct H1 as (c1 & H1 & H1'), H2 as (c2' & H2 & H2'), H3 as (c3 & H3 & H3'), H4 as (c4 & H4 & H4').
    rewrite (proj1 (pick_ok G3p lf _ _ _ H1 H1')), (proj1 (pick_ok G3p lf _ _ _ H2 H2')).
    rewrite (d_getDeltaYtauYtau_eq p 0), (d_getDeltaLambdaYtau4_eq p 0), (d_getDeltaLambdaYtau4Yb2_eq p 0), (d_getDeltaVevYb2_eq p 0 1), (d_getDeltaLambdaYb4_eq p 0).
    rewrite (rest_ok d_getDeltaYtauYtau [] [] eq_refl (Forall_nil _) N1), (rest_ok d_getDeltaLambdaYtau4 [] [] eq_refl (Forall_nil _) N2), (rest_ok _ _ _ H3 H3' N3), (rest_ok _ _ _ H4 H4' N4), (rest_ok d_getDeltaLambdaYb4 [] [] eq_refl (Forall_nil _) N5).
    replace (calcCosBeta p ^ 2) with (calcCosBeta p * calcCosBeta p) by ring. lra.
  Qed.

  Lemma mir_leaf v : In v lv5 -> leafR p 0 1 (sw5 v) = leafR (mirror p) 0 1 v.
  Proof.
    pose proof (pm_vu _ P) as Pu. pose proof (pm_vd _ P) as Pv.
    assert (EV : calcV (mirror p) = calcV p) by (unfold calcV, calcV2, pow2; cbn [mirror vu vd]; unR; f_equal; ring).
    intros H. repeat (destruct H as [<- |H]; [first [reflexivity|cbn [sw5 leafR]]|]); [..|destruct H].
    all: try (unfold calcYt, calcYb, calcXt, calcXb, calcTanBeta; cbn [mirror vu vd mu Au Ad]; unR; field; lra).
    all: unfold calcCosBeta, calcSinBeta; rewrite EV; reflexivity.
  Qed.
  Lemma id5_sound : generic_t p -> outside q d -> outside q m -> outside d m -> 1 / 10000 < Rabs (q / m - d / m) -> 1 / 100 * q <= Rabs (d - q) ->
    exists a, getDeltaLambdaAlphat p GENERAL 1 = Ok a /\
    sevTG G3p lf d_getDeltaLambdaYt4Yb2 - sevTG G3p (leafR (mirror p) 0 1) d_getDeltaLambdaYt2Yb4 = 2 - 4 / calcCosBeta p ^ 2 * bottom_shift p * a.
  Proof.
    intros G (O1 & O1') (O2 & O2') (O3 & O3') O4 B2. destruct id5_check as (HC & HT & HF & V1 & V2 & V3 & V4).
    destruct (cos_pos p (pm_vu _ P) (pm_vd _ P)) as (C1 & _).
    assert (Pq : 0 < q) by (apply sqrt_lt_R0, (pm_q _ P)). assert (Pd : 0 < d) by (apply sqrt_lt_R0, (pm_d _ P)). pose proof (pm_mu _ P) as Pm.
    assert (L5 : forall v, In v lv5 -> FieldPoly.lev baseM (assoc lm5 v) = lf v) by (intros v Hv; apply leaf5; right; exact Hv).
    pose proof (envm_sound _ _ _ _ _ G3p _ HT (good5 G) HC) as Z. cbn [rev] in Z.
    rewrite <- (xg_ok G3p) in Z.
    2:{ refine (fsub_ok _ _ _ HF _). unfold fa5. cbv zeta.
        destruct G as [[Q1 Q2 Q3 _ _ _] _ _ _ _ _]. pose proof (ne2 q d Pq Pd (proj1 Q1)) as N1. pose proof (ne2 q m Pq Pm (proj1 Q2)) as N2. pose proof (ne2 d m Pd Pm (proj1 Q3)) as N3.
        destruct (Fw _ O1 O1') as (_ & _ & K5 & _). destruct (Fw _ O3 O3') as (_ & _ & _ & K6). destruct (outside2 _ _ O2 O3 O2' O3' O4) as (_ & K9 & _).
        repeat (apply Forall_cons; [cbn [fgood rev]; rewrite !L5 by (cbn; tauto); cbn [leafR]; fold q; fold d; first [reflexivity|repeat split; assumption]|]). apply Forall_nil. }
    assert (Zi : rev (fun v => FieldPoly.lev baseM (assoc lm5 v)) fun1 fun2 G3p id5 = 0).
    { assert (Ec : rev (fun v => FieldPoly.lev baseM (assoc lm5 v)) fun1 fun2 G3p c2 <> 0).
      { unfold c2. cbn [rev]. rewrite !(L5 27%positive) by (cbn; tauto). cbn [leafR]. nra. }
      apply Rmult_integral in Z. destruct Z as [Z|Z]; [contradiction|]. apply Rmult_integral in Z. destruct Z as [Z|Z]; [contradiction|exact Z]. }
    unfold id5 in Zi. cbn [rev] in Zi. rewrite xsub_ok in Zi.
    rewrite (vin_ev G3p lv5 _ lf _ L5 V1) in Zi. rewrite (vin_ev G3p lv5 _ lf _ L5 V3) in Zi. rewrite (vin_ev G3p (34%positive :: lv5) _ lf _ leaf5 V4) in Zi.
    rewrite (vin_ev G3p lv5 _ (leafR (mirror p) 0 1) (pick [false] d_getDeltaLambdaYt2Yb4)) in Zi; [| |exact V2].
    2:{ intros v Hv. cbn [rev]. rewrite L5; [apply mir_leaf; exact Hv|]. clear - Hv. repeat (destruct Hv as [<- |Hv]; [cbn; tauto|]). destruct Hv. }
    unfold c2 in Zi. cbn [rev] in Zi. rewrite !(L5 27%positive) in Zi by (cbn; tauto). cbn [leafR] in Zi.
    pose proof no3_check as NC. cbn [forallb] in NC. rewrite !andb_true_iff in NC. destruct NC as (_ & _ & _ & _ & _ & N6 & _).
    exists (rev lf fun1 fun2 G3p (pick [] (d_getDeltaLambdaAlphat GENERAL))). split.
    { rewrite (d_getDeltaLambdaAlphat_eq p 0). refine (eq_trans (proj2 (pick_ok fun3 lf (d_getDeltaLambdaAlphat GENERAL) [] [] eq_refl (Forall_nil _))) _). exact (f_equal Ok (no3_ok lf fun3 G3p _ N6)). }
    pose proof (far d q q B2) as F1'.
    assert (H1 : exists cs, conds [false] d_getDeltaLambdaYt4Yb2 = Some cs /\ holds G3p lf cs).
    { eexists. split; [vm_compute; reflexivity|]. apply Forall_cons; [|apply Forall_nil]. cbn [fst snd cev rev leafR]. change (@nltb R NumR) with Rltb. fold q. fold d. rewrite F1', ?andb_false_r. reflexivity. }
    assert (H2 : exists cs, conds [false] d_getDeltaLambdaYt2Yb4 = Some cs /\ holds G3p (leafR (mirror p) 0 1) cs).
    { eexists. split; [vm_compute; reflexivity|]. apply Forall_cons; [|apply Forall_nil]. cbn [fst snd cev rev leafR mirror mq2 md2 mu2 mu]. change (@nltb R NumR) with Rltb. fold q. fold d. rewrite F1', ?andb_false_r. reflexivity. }
    destruct H1 as (c1 & H1 & H1'), H2 as (c2' & H2 & H2').
    rewrite (proj1 (pick_ok G3p lf _ _ _ H1 H1')), (proj1 (pick_ok G3p _ _ _ _ H2 H2')).
    assert (ED : rev lf fun1 fun2 G3p D5 = bottom_shift p).
    { unfold D5, lo5, xsq. cbn [rev leafR]. fold q. fold d. change (fun1 9) with (@F5 R NumR). change (fun1 10) with (@F6 R NumR). change (fun2 1) with (@F9 R NumR). unfold bottom_shift. cbv zeta.
      rewrite !Rmult_1_r || idtac. replace (mu p ^ 2) with (m * m) by ring. replace (scale p ^ 2) with (scale p * scale p) by ring. replace (MA p ^ 2) with (A * A) by ring.
      set (l1 := ln _). set (l2 := ln (A * A / _)). field. pose proof (pm_vu _ P). repeat split; lra. }
    rewrite ED in Zi. replace (calcCosBeta p ^ 2) with (calcCosBeta p * calcCosBeta p) by ring. lra.
  Qed.
End M.

(** the literature's function has the required symmetry *)
Lemma phi_lit_sym : three_mass phi_lit.
Proof.
  intros x y z Hx Hy Hz. unfold phi_lit. destruct (phi_sym x y z) as (S1 & _). rewrite <- S1.
  replace (delta3 x z y) with (delta3 x y z) by (unfold delta3; ring). unfold Rdiv. generalize (/ delta3 x y z). intros k. field. split; lra.
Qed.
