(** * Mirror identities: proofs
    Connects the computations of MirrorTab.v with the model functions. *)
From Coq Require Import Reals ZArith List Bool String Lra Lia.
From Verif Require Import Num NumFacts Except Params HierFormulas Dilog LoopFun LoopSpec LoopProofs LoopProofs4 Thresh ThreshTwo Threshold HierExpr HierPoly FieldPoly FieldNF ThreshTree ThreshDeep MirrorSpec MirrorNF MirrorTab.
Import ListNotations.
Open Scope R_scope.

Section G32.
  Variable p : Params R.
  Hypothesis P : phys_b p.
  Notation q := (mQ p). Notation d := (mD p). Notation X := (calcXb p).
  Definition hiG (v : positive) : R :=
    match v with 151 => mQ p | 152 => mD p | 154 => MG p | 155 => scale p | 156 => v0 (MSb p) | _ => 1%R end%positive.
  Definition atG (v : positive) : R :=
    match v with
    | 30 => dilog (1 - MG p ^ 2 / mQ p ^ 2)%R | 31 => dilog (1 - MG p ^ 2 / mD p ^ 2)%R | 32 => dilog (1 - mD p ^ 2 / mQ p ^ 2)%R
    | 33 => dilog (1 - mQ p ^ 2 / mD p ^ 2)%R | 34 => dilog (1 - mQ p ^ 2 / MG p ^ 2)%R | 35 => dilog (1 - mD p ^ 2 / MG p ^ 2)%R | _ => 0%R end%positive.
  Definition baseG := mkbase (fun v => match v with 1%positive => calcXb p | _ => 0 end) atG hiG (/ sqrt 2).
  Lemma q_pos : 0 < q. Proof. apply sqrt_lt_R0, (pb_q _ P). Qed.
  Lemma d_pos : 0 < d. Proof. apply sqrt_lt_R0, (pb_d _ P). Qed.
  Lemma hiG_pos v : (150 <= v)%positive -> 0 < hiG v.
  Proof.
    intros _. assert (H : hiG v = q \/ hiG v = d \/ hiG v = MG p \/ hiG v = scale p \/ hiG v = v0 (MSb p) \/ hiG v = 1).
    { unfold hiG. do 8 (destruct v as [v|v|]; try tauto). }
    pose proof q_pos. pose proof d_pos. destruct P. destruct H as [-> |[-> |[-> |[-> |[-> | ->]]]]]; try assumption; lra.
  Qed.
  Lemma sqr2 : (/ sqrt 2) ^ 2 * (1 + 1 ^ 2) = 1.
  Proof. rewrite pow_inv. replace (sqrt 2 ^ 2) with 2; [field|]. symmetry. apply pow2_sqrt. lra. Qed.
  Lemma G_good k : (forall D, In D (dsG k) -> FieldPoly.pev baseG D <> 0) -> good_base (dsG k) baseG liG [] fun3.
  Proof.
    intros HD. apply good_mk.
    - apply Rinv_neq_0_compat. apply Rgt_not_eq, sqrt_lt_R0. lra.
    - exact sqr2.
    - exact hiG_pos.
    - apply Forall_forall. exact HD.
    - unfold liG. repeat constructor; cbn [fst snd]; unfold baseG; rewrite (one_sub_ev _ _ _ _ hiG_pos) by (unfold vq, vdd, vg; lia); rewrite mon_ev; reflexivity || (rewrite powerRZ_1; reflexivity).
    - constructor.
  Qed.
  Lemma tan_m : calcTanBeta (mirror p) = vd p / vu p. Proof. reflexivity. Qed.
  Lemma Xt_m : calcXt (mirror p) = X.
  Proof. destruct P. unfold calcXt, calcXb, calcTanBeta. cbn [mirror Au Ad mu vu vd ndiv nsub nmul NumR]. field. lra. Qed.
  Lemma Xb_r : calcXb (reflect_b p) = - X.
  Proof. destruct P. unfold calcXt, calcXb, calcTanBeta. cbn [reflect_b m3neg Au Ad mu vu vd a22 ndiv nsub nmul NumR]. field. lra. Qed.
  Notation u0 := (fun v => FieldPoly.lev baseG (assoc lmG v)).
  Lemma lmon v e : FieldPoly.lev baseG (mon v e) = powerRZ (baseG v) e. Proof. apply mon_ev. Qed.
  Lemma leaf_t msq2 v : In v tG -> u0 v = leafR (mirror p) msq2 1 v.
  Proof.
    pose proof (pow2_sqrt (a22 (mq2 p)) (Rlt_le _ _ (pb_q _ P))) as Eq. pose proof (pow2_sqrt (a22 (md2 p)) (Rlt_le _ _ (pb_d _ P))) as Ed.
    intros H. repeat (destruct H as [<- |H]; [unfold assoc; cbn [find fst snd lmG Pos.eqb]; rewrite ?lmon|]); [..|destruct H].
    - unfold FieldPoly.lev; cbn. lra.
    - exact Eq.
    - exact Ed.
    - exact (powerRZ_1 _).
    - rewrite powerRZ_1. symmetry. exact Xt_m.
    - exact (powerRZ_1 _).
    - exact (powerRZ_1 _).
  Qed.
  Lemma leaf_b msq2 v : In v bG -> u0 v = leafR (reflect_b p) msq2 1 v.
  Proof.
    pose proof (pow2_sqrt (a22 (mq2 p)) (Rlt_le _ _ (pb_q _ P))) as Eq. pose proof (pow2_sqrt (a22 (md2 p)) (Rlt_le _ _ (pb_d _ P))) as Ed.
    intros H. repeat (destruct H as [<- |H]; [unfold assoc; cbn [find fst snd lmG Pos.eqb]; rewrite ?lmon|]); [..|destruct H].
    - unfold FieldPoly.lev; cbn. lra.
    - exact Eq.
    - exact Ed.
    - exact (powerRZ_1 _).
    - rewrite (proj1 (lneg_ok baseG 100 (mon 1 1) (conj (or_intror Z.le_0_1) (conj I I)))), lmon, powerRZ_1. symmetry. exact Xb_r.
    - exact (powerRZ_1 _).
  Qed.
  Lemma m3_sqrt : sqrt (MG p * MG p) = MG p. Proof. apply sqrt_square, Rlt_le, (pb_g _ P). Qed.
  Definition nr (a b : R) : bool := Rltb (Rabs (a - b)) (Rdec 1 2 * mQ p).
  Lemma near_lt a b : close a b q -> nr a b = true /\ nr b a = true.
  Proof.
    unfold close, nr. intros H. rewrite (Rabs_minus_sym b a). replace (Rdec 1 2) with (1 / 100) by (unfold Rdec; cbn; lra).
    rewrite Rltb_true by exact H. tauto.
  Qed.
  Lemma near_ge a b : apart a b q -> nr a b = false /\ nr b a = false.
  Proof.
    unfold apart, nr. intros H. rewrite (Rabs_minus_sym b a). replace (Rdec 1 2) with (1 / 100) by (unfold Rdec; cbn; lra).
    rewrite Rltb_false by exact H. tauto.
  Qed.
  Lemma apart_ne a b : apart a b q -> a <> b.
  Proof. unfold apart. intros H E. subst b. replace (a - a) with 0 in H by ring. rewrite Rabs_R0 in H. pose proof q_pos. lra. Qed.
  Lemma lim_case limit : b_limit p limit -> exists k, In k [0; 1; 2; 3; 4]%nat /\ limit = limG k /\ (forall D, In D (dsG k) -> FieldPoly.pev baseG D <> 0) /\
    exists cs, conds (brG k) d_getDeltaLambdaYb4G32 = Some cs /\ forall msq2, holds fun3 (leafR (reflect_b p) msq2 1) cs.
  Proof.
    pose proof q_pos as Pq. pose proof d_pos as Pd. pose proof (pb_g _ P) as Pg.
    assert (HD : forall a b, (150 <= a)%positive -> (150 <= b)%positive -> hiG a <> hiG b -> FieldPoly.pev baseG (dsub a b) <> 0).
    { intros a b La Lb N. unfold baseG. rewrite dsub_ev by assumption. intros E. apply N.
      pose proof (hiG_pos a La). pose proof (hiG_pos b Lb). nra. }
    assert (L1 : (150 <= vq)%positive) by (unfold vq; lia). assert (L2 : (150 <= vdd)%positive) by (unfold vdd; lia). assert (L3 : (150 <= vg)%positive) by (unfold vg; lia).
    intros [(-> & A & B & C)|[(-> & A & B & C)|[(-> & A & B)|[(-> & A & B & C)|(-> & A & B & C)]]]].
    all: repeat match goal with H : apart ?a ?b _ |- _ => let x := fresh in let y := fresh in pose proof (near_ge _ _ H) as (x & y); apply apart_ne in H | H : close _ _ _ |- _ => apply near_lt in H; destruct H end.
    all: match goal with |- exists k, In k _ /\ ?l = _ /\ _ =>
      let k := match l with GENERAL => constr:(0%nat) | MQ3_EQ_MU3 => constr:(1%nat) | MQ3_EQ_M3 => constr:(2%nat) | MU3_EQ_M3 => constr:(3%nat) | _ => constr:(4%nat) end in exists k end.
    all: split; [cbn; tauto|]; split; [reflexivity|]; split;
      [intros D HDD; cbn [dsG In] in HDD; repeat (destruct HDD as [<- |HDD]; [apply HD; assumption|]); destruct HDD
      |eexists; split; [vm_compute; reflexivity|]; intros msq2].
    all: repeat (apply Forall_cons; [cbn [fst snd]|]); try apply Forall_nil.
    all: cbn [cev rev leafR fun1 fun2]; cbn [mq2 md2 MG reflect_b]; change (@nltb R NumR) with Rltb; rewrite ?m3_sqrt;
         fold (mQ p); fold (mD p);
         repeat match goal with |- context [Rltb (Rabs (?a - ?b)) (Rdec 1 2 * _)] => change (Rltb (Rabs (a - b)) (Rdec 1 2 * mQ p)) with (nr a b) end;
         repeat match goal with H : nr _ _ = _ |- _ => rewrite H; clear H end; rewrite ?andb_false_r; try reflexivity.
  Qed.
  Lemma G32_id limit : b_limit p limit -> exists y a, getDeltaYtAlphas (mirror p) limit 1 = Ok y /\ getDeltaLambdaAlphat (mirror p) limit 1 = Ok a /\
    getDeltaLambdaAlphatAlphas (mirror p) limit 1 = Ok (getDeltaLambdaYb4G32 (reflect_b p) 1 + 4 * y * a).
  Proof.
    set (msq2 := 0). intros HL. destruct (lim_case limit HL) as (k & Hk & -> & HD & cs & Hcs & Hh).
    pose proof (proj1 (forallb_forall _ _) idG_check k Hk) as HC. apply andb_true_iff in HC. destruct HC as (HC & HT).
    pose proof (proj1 (forallb_forall _ _) vinG k Hk) as HV. rewrite !andb_true_iff in HV. destruct HV as (((V1 & V2) & V3) & V4).
    pose proof (envm_sound _ _ _ _ _ fun3 _ HT (G_good k HD) HC) as Z.
    unfold idG in Z. cbn [rev] in Z.
    rewrite (vin_ev _ _ _ _ _ (leaf_t msq2) V1), (vin_ev _ _ _ _ _ (leaf_t msq2) V2), (vin_ev _ _ _ _ _ (leaf_t msq2) V3), (vin_ev _ _ _ _ _ (leaf_b msq2) V4) in Z.
    assert (K : forall f, conds [] (f (limG k)) = Some [] -> sev (leafR (mirror p) msq2 1) (f (limG k)) = Ok (rev (leafR (mirror p) msq2 1) fun1 fun2 fun3 (pick [] (f (limG k))))).
    { intros f E. refine (proj2 (pick_ok fun3 _ (f (limG k)) [] [] E (Forall_nil _))). }
    eexists; eexists. rewrite (d_getDeltaYtAlphas_eq _ msq2), (d_getDeltaLambdaAlphat_eq _ msq2), (d_getDeltaLambdaAlphatAlphas_eq _ msq2), (d_getDeltaLambdaYb4G32_eq _ msq2).
    split; [apply K; clear - Hk; cbn in Hk; repeat (destruct Hk as [<- |Hk]; [reflexivity|]); destruct Hk|].
    split; [apply K; clear - Hk; cbn in Hk; repeat (destruct Hk as [<- |Hk]; [reflexivity|]); destruct Hk|].
    rewrite K by (clear - Hk; cbn in Hk; repeat (destruct Hk as [<- |Hk]; [reflexivity|]); destruct Hk).
    f_equal. unfold sevT. rewrite (proj1 (pick_ok fun3 (leafR (reflect_b p) msq2 1) d_getDeltaLambdaYb4G32 (brG k) cs Hcs (Hh msq2))). lra.
  Qed.

  (** the windows of F6 and F9 *)
  Definition loop_windows (x y : R) : Prop :=
    1 / 10000 < x /\ 1 / 10000 < y /\ 2 / 100 < Rabs (x - 1) /\ 2 / 100 < Rabs (y - 1) /\ 1 / 10000 < Rabs (x - y).
  Lemma F6w x : 1 / 10000 < x -> 2 / 100 < Rabs (x - 1) -> F6 x = F6c x.
  Proof.
    intros P0 H. destruct (outside1 x) as (_ & _ & _ & _ & _ & K); [|lra|].
    - eapply Rlt_trans; [|exact P0]. apply Rmult_lt_reg_r with (2 ^ 52); [apply pow_lt; lra|]. rewrite Rinv_l by (apply pow_nonzero; lra). lra.
    - apply K. replace (x ^ 2 - 1) with ((x - 1) * (x + 1)) by ring. rewrite Rabs_mult, (Rabs_pos_eq (x + 1)) by lra. nra.
  Qed.
  Notation uA := (fun v => FieldPoly.lev baseG (assoc lmA v)).
  Lemma leaf_A msq2 v : In v bA -> uA v = leafR p msq2 1 v.
  Proof.
    pose proof (pow2_sqrt (a22 (mq2 p)) (Rlt_le _ _ (pb_q _ P))) as Eq. pose proof (pow2_sqrt (a22 (md2 p)) (Rlt_le _ _ (pb_d _ P))) as Ed.
    intros H. repeat (destruct H as [<- |H]; [unfold assoc; cbn [find fst snd lmA lmG Pos.eqb]; rewrite ?lmon|]); [..|destruct H].
    - exact (powerRZ_1 _).
    - exact Eq.
    - exact Ed.
    - unfold FieldPoly.lev; cbn. lra.
    - exact (powerRZ_1 _).
    - exact (powerRZ_1 _).
  Qed.
  Lemma leaf_tA msq2 v : In v tG -> uA v = leafR (mirror p) msq2 1 v.
  Proof. intros H. rewrite <- (leaf_t msq2 v H). repeat (destruct H as [<- |H]; [reflexivity|]). destruct H. Qed.
  Lemma YbAs_id : loop_windows (q / MG p) (d / MG p) -> getDeltaYtAlphas (mirror p) GENERAL 1 = Ok (- getDeltaYbAs p 1).
  Proof.
    intros (W1 & W2 & W3 & W4 & W5). pose proof q_pos as Pq. pose proof d_pos as Pd. pose proof (pb_g _ P) as Pg. set (msq2 := 0).
    assert (Nqg : q <> MG p). { intros E. rewrite E in W3. unfold Rdiv in W3. rewrite Rinv_r in W3 by lra. replace (1 - 1) with 0 in W3 by ring. rewrite Rabs_R0 in W3. lra. }
    assert (Ndg : d <> MG p). { intros E. rewrite E in W4. unfold Rdiv in W4. rewrite Rinv_r in W4 by lra. replace (1 - 1) with 0 in W4 by ring. rewrite Rabs_R0 in W4. lra. }
    assert (Nqd : q <> d). { intros E. rewrite E in W5. replace (d / MG p - d / MG p) with 0 in W5 by ring. rewrite Rabs_R0 in W5. lra. }
    assert (NS : forall a b : R, 0 < a -> 0 < b -> a <> b -> a ^ 2 <> b ^ 2) by (intros a b ? ? N E; apply N; nra).
    destruct idA_check as (HC & HT & V1 & V2).
    assert (HD : forall D, In D (dsG 0) -> FieldPoly.pev baseG D <> 0).
    { intros D [<- |[<- |[<- |[]]]]; unfold baseG; rewrite dsub_ev by (unfold vq, vdd, vg; lia);
        [pose proof (NS q d Pq Pd Nqd) as N|pose proof (NS q (MG p) Pq Pg Nqg) as N|pose proof (NS d (MG p) Pd Pg Ndg) as N]; intros E; apply N; cbn [hiG vq vdd vg] in E; lra. }
    pose proof (envm_sound _ _ _ _ _ fun3 _ HT (G_good 0 HD) HC) as Z.
    assert (E3 : sqrt (uA 3%positive) = q) by (rewrite (leaf_A msq2 3%positive) by (cbn; tauto); reflexivity).
    assert (E4 : sqrt (uA 4%positive) = d) by (rewrite (leaf_A msq2 4%positive) by (cbn; tauto); reflexivity).
    assert (E30 : uA 30%positive = MG p) by (rewrite (leaf_A msq2 30%positive) by (cbn; tauto); reflexivity).
    assert (L1 : fargs idA = [(10%positive, XSqrt (XV 4), XV 30, XV 30); (10%positive, XSqrt (XV 3), XV 30, XV 30); (1%positive, XSqrt (XV 3), XSqrt (XV 4), XV 30); (2%positive, XV 30, XV 30, XV 30)]) by (vm_compute; reflexivity).
    rewrite <- (xg_ok fun3 uA idA) in Z.
    - unfold idA in Z. cbn [rev] in Z. rewrite (vin_ev _ _ _ _ _ (leaf_A msq2) V1), (vin_ev _ _ _ _ _ (leaf_tA msq2) V2) in Z.
      rewrite (d_getDeltaYtAlphas_eq _ msq2), (d_getDeltaYbAs_eq _ msq2).
      refine (eq_trans (proj2 (pick_ok fun3 _ (d_getDeltaYtAlphas GENERAL) [] [] eq_refl (Forall_nil _))) _). f_equal.
      unfold sevT. rewrite (proj1 (pick_ok fun3 (leafR p msq2 1) d_getDeltaYbAs [] [] eq_refl (Forall_nil _))). lra.
    - rewrite L1. repeat (apply Forall_cons; [cbn [fgood rev]|]); try apply Forall_nil; rewrite ?E3, ?E4, ?E30.
      + repeat split; try assumption; [apply NS; assumption|apply F6w; assumption].
      + repeat split; try assumption; [apply NS; assumption|apply F6w; assumption].
      + destruct (outside2 (q / MG p) (d / MG p) W1 W2 W3 W4 W5) as (_ & F & _).
        repeat split; try assumption; apply NS; assumption.
      + reflexivity.
  Qed.
End G32.
