(** * Mass unit of the threshold corrections: proofs *)
From Coq Require Import Reals ZArith Bool String Lra Lia.
From Verif Require Import Num NumFacts Except Params HierFormulas Dilog LoopFun LoopProofs4 Thresh ThreshTwo Threshold FieldNF ThreshTree ThreshDeep Grading UnitSpec.
Open Scope R_scope.

(** ** leaves *)
Lemma pz1 s : powerRZ s 1 = s. Proof. change (powerRZ s 1) with (s * 1). ring. Qed.
Lemma pz2 s : powerRZ s 2 = s ^ 2. Proof. reflexivity. Qed.
Lemma pz0 s : powerRZ s 0 = 1. Proof. reflexivity. Qed.
Section Leaf.
  Variables (s : R) (p : Params R).
  Hypothesis Hs : 0 < s.
  Lemma calcTan_s : calcTanBeta (rescale s p) = calcTanBeta p.
  Proof. unfold calcTanBeta; cbn. unfold Rdiv. rewrite Rinv_mult. replace (s * vu p * (/ s * / vd p)) with ((s * / s) * (vu p * / vd p)) by ring. rewrite Rinv_r by lra. ring. Qed.
  Lemma calcV_s : calcV (rescale s p) = s * calcV p.
  Proof.
    unfold calcV, calcV2. cbn. unfold pow2. cbn. transitivity (R_sqrt.sqrt (s * s * (vu p * vu p + vd p * vd p))); [f_equal; ring|].
    rewrite sqrt_mult_alt by nra. rewrite sqrt_square by lra. reflexivity.
  Qed.
  Lemma ratio_s a b : (s * a) / (s * b) = a / b.
  Proof. unfold Rdiv. rewrite Rinv_mult. replace (s * a * (/ s * / b)) with ((s * / s) * (a * / b)) by ring. rewrite Rinv_r by lra. ring. Qed.
  Lemma calcSin_s : calcSinBeta (rescale s p) = calcSinBeta p.
  Proof. unfold calcSinBeta. rewrite calcV_s. apply ratio_s. Qed.
  Lemma calcCos_s : calcCosBeta (rescale s p) = calcCosBeta p.
  Proof. unfold calcCosBeta. rewrite calcV_s. apply ratio_s. Qed.
  Lemma leaf_s msq2 o v : (v <> 1)%positive -> leafR (rescale s p) (s ^ 2 * msq2) o v = powerRZ s (leafD v) * leafR p msq2 o v.
  Proof.
    intros Hv. unfold leafR, leafD.
    repeat (destruct v as [v|v|]; try (rewrite ?pz0, ?pz1, ?pz2; ring)); try (exfalso; apply Hv; reflexivity); rewrite ?pz0, ?pz1, ?pz2, ?Rmult_1_l;
      try reflexivity; unfold calcXt, calcXb, calcXtau, calcYt, calcYb, calcYtau, calcBeta; rewrite ?calcTan_s, ?calcSin_s, ?calcCos_s; try reflexivity; cbn; unfold Rdiv; ring.
  Qed.
  Lemma leaf_mu3 msq2 o : mu p <> 0 -> leafR (rescale s p) (s ^ 2 * msq2) o 1 = powerRZ s (leafD 1) * leafR p msq2 o 1.
  Proof.
    intros Hm. change (Rpower ((s * mu p) * (s * mu p)) (Rdec 15 1) = s ^ 3 * Rpower (mu p * mu p) (Rdec 15 1)). assert (0 < mu p * mu p) by nra.
    assert (0 < s * s) by nra.
    replace (s * mu p * (s * mu p)) with ((s * s) * (mu p * mu p)) by ring.
    rewrite <- Rpower_mult_distr by assumption. f_equal.
    rewrite <- (Rpower_pow 3 s Hs). replace (s * s) with (Rpower s 2).
    - rewrite Rpower_mult. f_equal. unfold Rdec. cbn. lra.
    - replace 2 with (INR 2) by (cbn; ring). rewrite (Rpower_pow 2 s Hs). cbn. ring.
  Qed.
End Leaf.

(** ** trees that do not use |mu|^3 (leaf 1) *)
Fixpoint no1 (e : rx) : bool :=
  match e with
  | XV v => negb (Pos.eqb v 1)
  | XAdd a b | XSub a b | XMul a b | XDiv a b | XSel _ a b | XF2 _ a b => no1 a && no1 b
  | XNeg a | XLog a | XSqrt a | XAbs a | XF1 _ a => no1 a
  | XF3 _ a b c => no1 a && no1 b && no1 c
  | _ => true
  end.
Fixpoint no1c (c : cx) : bool :=
  match c with CLt a b => no1 a && no1 b | CRel a b c => no1 a && no1 b && no1 c | CB _ => true | CAnd a b | COr a b => no1c a && no1c b end.
Fixpoint no1s (x : rs) : bool :=
  match x with SRet e => no1 e | SIf c a b => no1c c && no1s a && no1s b | SThrow _ => true end.
Section No1.
  Variables (G3 : positive -> R -> R -> R -> R) (u u' : positive -> R).
  Hypothesis Hu : forall v, (v <> 1)%positive -> u v = u' v.
  Lemma no1_ev e : no1 e = true -> rev u fun1 fun2 G3 e = rev u' fun1 fun2 G3 e.
  Proof.
    induction e; cbn [no1 rev]; rewrite ?andb_true_iff; intros H; try reflexivity; try (rewrite IHe by tauto; reflexivity);
      try (rewrite IHe1, IHe2 by tauto; reflexivity); try (rewrite IHe1, IHe2, IHe3 by tauto; reflexivity).
    apply Hu. apply negb_true_iff in H. apply Pos.eqb_neq in H. exact H.
  Qed.
  Lemma no1_cev c : no1c c = true -> cev G3 u c = cev G3 u' c.
  Proof. induction c; cbn [no1c cev]; rewrite ?andb_true_iff; intros H; rewrite ?no1_ev by tauto; try reflexivity; rewrite IHc1, IHc2 by tauto; reflexivity. Qed.
  Lemma no1_sev x : no1s x = true -> sevG G3 u x = sevG G3 u' x /\ sevTG G3 u x = sevTG G3 u' x.
  Proof.
    induction x as [e|c a IHa b IHb|m]; cbn [no1s sevG sevTG]; rewrite ?andb_true_iff; intros H.
    - rewrite no1_ev by exact H. tauto.
    - rewrite no1_cev by tauto. destruct IHa as (-> & ->); [tauto|]. destruct IHb as (-> & ->); [tauto|]. tauto.
    - tauto.
  Qed.
End No1.

(** ** mass dimension *)
Definition wsqrt (k : Z) : option Z := if Z.even k then Some (k / 2)%Z else None.
Definition wf1 (f : positive) (k : Z) : option Z := if Z.eqb k 0 then Some 0%Z else None.
Definition wf2 (f : positive) (k l : Z) : option Z := if Z.eqb k 0 && Z.eqb l 0 then Some 0%Z else None.
(** [t]: the dimension of the three-mass function *)
Definition wf3 (t : Z) (f : positive) (k l m : Z) : option Z := if Pos.eqb f 1 && Z.eqb k 2 && Z.eqb l 2 && Z.eqb m 2 then Some t else None.
Definition dimless (t : Z) (x : rs) : bool := gsk leafD (fun k => k) wsqrt (fun k => Some k) (fun _ => true) wf1 wf2 (wf3 t) x 0.

Section Unit.
  Variables (s : R) (t : Z) (G3 : positive -> R -> R -> R -> R).
  Hypothesis Hs : 0 < s.
  Hypothesis H3 : forall x y z, G3 1%positive (powerRZ s 2 * x) (powerRZ s 2 * y) (powerRZ s 2 * z) = powerRZ s t * G3 1%positive x y z.
  Lemma pos_pz k : 0 < powerRZ s k. Proof. apply powerRZ_lt. exact Hs. Qed.
  Lemma wsqrt_ok k l : wsqrt k = Some l -> forall x, R_sqrt.sqrt (powerRZ s k * x) = powerRZ s l * R_sqrt.sqrt x.
  Proof.
    unfold wsqrt. destruct (Z.even k) eqn:Ev; [|discriminate]. intros H x. assert (l = (k / 2)%Z) by congruence. subst l.
    assert (E2 : k = (k / 2 + k / 2)%Z). { apply Z.even_spec in Ev. destruct Ev as (j & ->). rewrite Z.mul_comm, Z.div_mul by lia. lia. }
    rewrite E2 at 1. rewrite powerRZ_add by lra. pose proof (pos_pz (k / 2)). rewrite sqrt_mult_alt by nra. rewrite sqrt_square by lra. reflexivity.
  Qed.
  Lemma dimless_ok u u' x : (forall v, u' v = powerRZ s (leafD v) * u v) -> dimless t x = true ->
    sevG G3 u' x = sevG G3 u x /\ sevTG G3 u' x = sevTG G3 u x.
  Proof.
    intros Hu H. unfold dimless in H.
    assert (HA : forall k l, Some k = Some l -> forall x, Rabs (powerRZ s k * x) = powerRZ s l * Rabs x).
    { intros k l E y. assert (k = l) by congruence. subst l. rewrite Rabs_mult. f_equal. apply Rabs_pos_eq. left; apply pos_pz. }
    assert (HF : forall f k l, wf1 f k = Some l -> forall y, fun1 f (powerRZ s k * y) = powerRZ s l * fun1 f y).
    { intros f k l E y. unfold wf1 in E. destruct (Z.eqb_spec k 0) as [-> |]; [|discriminate]. assert (l = 0%Z) by congruence. subst l. cbn [powerRZ]. rewrite !Rmult_1_l. reflexivity. }
    assert (HF2 : forall f k k' l, wf2 f k k' = Some l -> forall y z, fun2 f (powerRZ s k * y) (powerRZ s k' * z) = powerRZ s l * fun2 f y z).
    { intros f k k' l E y z. unfold wf2 in E. destruct (Z.eqb_spec k 0) as [-> |]; [|discriminate]. destruct (Z.eqb_spec k' 0) as [-> |]; [|discriminate].
      assert (l = 0%Z) by (cbn in E; congruence). subst l. cbn [powerRZ]. rewrite !Rmult_1_l. reflexivity. }
    assert (HF3 : forall f k k' k'' l, wf3 t f k k' k'' = Some l -> forall x y z,
      G3 f (powerRZ s k * x) (powerRZ s k' * y) (powerRZ s k'' * z) = powerRZ s l * G3 f x y z).
    { intros f k k' k'' l E y z w. unfold wf3 in E. destruct (Pos.eqb_spec f 1) as [-> |]; [|discriminate].
      destruct (Z.eqb_spec k 2) as [-> |]; [|discriminate]. destruct (Z.eqb_spec k' 2) as [-> |]; [|discriminate]. destruct (Z.eqb_spec k'' 2) as [-> |]; [|discriminate].
      assert (l = t) by (cbn in E; congruence). subst l. apply H3. }
    assert (Hs0 : s <> 0) by lra.
    split.
    - exact (gsk_0 leafD (fun k => k) wsqrt (fun k => Some k) (fun _ => true) wf1 wf2 (wf3 t) s G3 u u' Hs0 Hu (fun _ => eq_refl) wsqrt_ok HA (fun k _ => pos_pz k) HF HF2 HF3 x H).
    - rewrite (gsk_T leafD (fun k => k) wsqrt (fun k => Some k) (fun _ => true) wf1 wf2 (wf3 t) s G3 u u' Hs0 Hu (fun _ => eq_refl) wsqrt_ok HA (fun k _ => pos_pz k) HF HF2 HF3 x 0 H).
      cbn [powerRZ]. ring.
  Qed.
  Theorem unit_G p msq2 o x : (mu p <> 0 \/ no1s x = true) -> dimless t x = true ->
    sevG G3 (leafR (rescale s p) (s ^ 2 * msq2) o) x = sevG G3 (leafR p msq2 o) x /\
    sevTG G3 (leafR (rescale s p) (s ^ 2 * msq2) o) x = sevTG G3 (leafR p msq2 o) x.
  Proof.
    intros [Hm|H1] H.
    - apply dimless_ok; [|exact H]. intros v. destruct (Pos.eq_dec v 1) as [-> |N]; [apply leaf_mu3; assumption|apply leaf_s; assumption].
    - set (u' := fun v => powerRZ s (leafD v) * leafR p msq2 o v).
      destruct (no1_sev G3 (leafR (rescale s p) (s ^ 2 * msq2) o) u' (fun v N => leaf_s s p Hs msq2 o v N) x H1) as (-> & ->).
      apply dimless_ok; [|exact H]. intros v. reflexivity.
  Qed.
End Unit.

(** ** the code's three-mass function has mass dimension 2 *)
Lemma Rltb_s k a b : 0 < k -> Rltb (k * a) (k * b) = Rltb a b.
Proof. intros H. exact (Rltb_scale k a b H). Qed.
Lemma phi_dim s (x y z : R) : 0 < s -> phi_xyz (powerRZ s 2 * x) (powerRZ s 2 * y) (powerRZ s 2 * z) = powerRZ s 2 * phi_xyz x y z.
Proof.
  intros Hs. pose proof (powerRZ_lt s 2 Hs) as Hk. set (k := powerRZ s 2) in *.
  assert (SS : forall a b c : R, sort3 (k * a) (k * b) (k * c) = let '(a, b, c) := sort3 a b c in (k * a, k * b, k * c)).
  { intros a b c. unfold sort3. cbn. rewrite !Rltb_s by exact Hk. destruct (Rltb b a); rewrite ?Rltb_s by exact Hk.
    - destruct (Rltb c a); rewrite ?Rltb_s by exact Hk; [destruct (Rltb c b)|destruct (Rltb a b)]; reflexivity.
    - destruct (Rltb c b); rewrite ?Rltb_s by exact Hk; [destruct (Rltb c a)|destruct (Rltb b a)]; reflexivity. }
  unfold phi_xyz. rewrite SS. destruct (sort3 x y z) as [[a b] c]. cbn [ndiv nmul NumR].
  assert (Q : forall a b, k * a / (k * b) = a / b). { intros a' b'. unfold Rdiv. rewrite Rinv_mult. replace (k * a' * (/ k * / b')) with ((k * / k) * (a' * / b')) by ring. rewrite Rinv_r by lra. ring. }
  rewrite !Q. unfold Rdiv. ring.
Qed.
