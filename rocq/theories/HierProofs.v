From Coq Require Import String ZArith List Bool Lia Reals Lra.
From Verif Require Import Num NumFacts Except HObj Params HierFormulas HierCalc HierSpec.
Import ListNotations.
Open Scope string_scope.

(** ** The monad *)
Lemma depth_put_get d f v : depth_put (depth_put d f v) f (depth_get d f) = d.
Proof. destruct d, f; reflexivity. Qed.

Definition pres {A} (m : Calc A) : Prop := forall d, snd (m d) = d.
Lemma pres_ret {A} (a : A) : pres (ret a). Proof. intro; reflexivity. Qed.
Lemma pres_lift {A} (a : res A) : pres (lift a). Proof. intro; reflexivity. Qed.
Lemma pres_get : pres get_depth. Proof. intro; reflexivity. Qed.
Lemma pres_bind {A B} (m : Calc A) (k : A -> Calc B) :
  pres m -> (forall a, pres (k a)) -> pres (bindC m k).
Proof.
  intros Hm Hk d. unfold bindC. specialize (Hm d). destruct (m d) as [[a|e] d'] eqn:E; cbn in *; subst.
  - apply Hk.
  - reflexivity.
Qed.
Lemma pres_temp {A} f v (m : Calc A) : pres m -> pres (temporarily_set f v m).
Proof.
  intros Hm d. unfold temporarily_set. specialize (Hm (depth_put d f v)).
  destruct (m (depth_put d f v)) as [r d']. cbn in *. subst. apply depth_put_get.
Qed.
Lemma pres_eq {A} (m : Calc A) d : pres m -> m d = (fst (m d), d).
Proof. intros H. specialize (H d). destruct (m d); cbn in *; subst; reflexivity. Qed.

Section P.
  Context {T : Type} {N : Num T}.
  Variables (X : Env T) (p : Params T).
  Local Notation calculateHierarchy := (calculateHierarchy X p).

  Lemma pres_recompute m l1 l2 l3 ho : pres (recomputeMh X p m l1 l2 l3 ho).
  Proof.
    unfold recomputeMh. apply pres_bind; [apply pres_get|]. intros d.
    apply pres_bind; [apply pres_lift|]. intros [o x]. apply pres_ret.
  Qed.
  Lemma pres_sum m l1 l2 l3 Mh fs : forall ho u, pres (sum_truncations X p m l1 l2 l3 Mh fs ho u).
  Proof.
    induction fs as [|f fs IH]; intros; cbn; [apply pres_ret|].
    apply pres_bind; [apply pres_temp, pres_recompute|]. intros [o x]. apply IH.
  Qed.
  Lemma pres_unc ho m l1 l2 l3 : pres (getExpansionUncertainty X p ho m l1 l2 l3).
  Proof.
    unfold getExpansionUncertainty. apply pres_temp, pres_temp.
    apply pres_bind; [apply pres_recompute|]. intros [o Mh].
    apply pres_bind; [apply pres_lift|]. intros mother.
    apply pres_bind; [apply pres_sum|]. intros; apply pres_ret.
  Qed.
  Lemma pres_candidate ho : pres (candidate X p ho).
  Proof.
    unfold candidate.
    apply pres_bind; [apply pres_lift|intro].
    apply pres_bind; [apply pres_lift|intro].
    apply pres_bind; [apply pres_get|intro].
    apply pres_bind; [apply pres_lift|intros [? ?]].
    apply pres_bind; [apply pres_unc|intro].
    apply pres_bind; [apply pres_unc|intro].
    apply pres_bind; [apply pres_lift|intro]. apply pres_ret.
  Qed.
  Lemma pres_step st h : pres (compare_step X p st h).
  Proof.
    destruct st as [[ho e] s]. unfold compare_step. apply pres_bind; [apply pres_lift|intro o].
    destruct (isHierarchySuitable _ _ _); [|apply pres_ret].
    apply pres_bind; [apply pres_candidate|]. intros [o' [[[[a b] c] x] y]].
    destruct (_ || _); [|apply pres_ret].
    apply pres_bind; [apply pres_lift|intro]. apply pres_ret.
  Qed.
  Lemma pres_loop hs : forall st, pres (compare_loop X p st hs).
  Proof.
    induction hs; intros; cbn; [apply pres_ret|]. apply pres_bind; [apply pres_step|]. apply IHhs.
  Qed.
  Lemma pres_compare ho : pres (compareHierarchies X p ho).
  Proof.
    unfold compareHierarchies. apply pres_temp, pres_temp.
    apply pres_bind; [apply pres_lift|intro]. apply pres_bind; [apply pres_loop|intros [[? ?] ?]].
    apply pres_bind; [apply pres_lift|intro]. apply pres_ret.
  Qed.
  Lemma pres_finish ho : pres (finishDMh3L X p ho).
  Proof.
    unfold finishDMh3L, finish_matrices.
    repeat first [apply pres_lift | apply pres_unc | apply pres_get
                 | apply pres_bind; [| let a := fresh "a" in intro a; try (destruct a as [[? ?] ?] || destruct a as [? ?])]
                 | apply pres_ret].
  Qed.
  Lemma pres_calc ab : pres (calculateDMh3L X p ab).
  Proof.
    unfold calculateDMh3L. apply pres_bind; [apply pres_lift|intro].
    apply pres_bind; [apply pres_compare|intros [? ?]]. apply pres_finish.
  Qed.
  Lemma pres_call c : pres (exec_call X p c).
  Proof.
    destruct c; cbn [exec_call].
    - apply pres_bind; [apply pres_calc|intro; apply pres_ret].
    - apply pres_bind; [apply pres_compare|intros [? ?]; apply pres_ret].
    - apply pres_bind; [apply pres_unc|intro; apply pres_ret].
    - apply pres_bind; [apply pres_get|intro]. apply pres_bind; [apply pres_lift|intros [? ?]]. apply pres_ret.
  Qed.

  (** ** calculateHierarchy depends on the object only through three registers *)
  Definition only3 (l1 l2 l3 : Z) : bool := (l1 =? 0)%Z && (l2 =? 0)%Z && (l3 =? 1)%Z.
  Definition order_se (d : Depth) ab h mdr order flag : res (T * T * T) :=
    if (flag =? 0)%Z then Ok (nint 0, nint 0, nint 0)
    else do (out, _) <- hier_order X p d ab h mdr order; Ok (getS1 out, getS2 out, getS12 out).

  Definition step_pure (d : Depth) ab h mdr (st : res (T * T * T)) order flag : res (T * T * T) :=
    do (a, b, c) <- st;
    if (flag =? 0)%Z then Ok (a, b, c)
    else do (out, _) <- hier_order X p d ab h mdr order;
         Ok (nadd a (getS1 out), nadd b (getS2 out), nadd c (getS12 out)).
  Definition hier_mat (d : Depth) ab h mdr l1 l2 l3 : res (mat2 T) :=
    do (a, b, c) <- step_pure d ab h mdr
                      (step_pure d ab h mdr (step_pure d ab h mdr (Ok (nint 0, nint 0, nint 0)) 1 l1) 2 l2) 3 l3;
    Ok (mat2_scale (calcHiggsMassMatrixPrefactor p) (mkM2 a c c b)).
  (** the three registers written when only the three-loop flag is set *)
  Definition hier_regs (d : Depth) ab h mdr : res (T * T * vec2 T) :=
    do (out, lm) <- hier_order X p d ab h mdr 3;
    do (a, b) <- calcMsfMDRFlag p ab h mdr 3;
    Ok (nadd (nadd (nadd (coef0 out) (nmul lm (coef1 out))) (nmul (pow2 lm) (coef2 out))) (nmul (pow3 lm) (coef3 out)),
        coef0 out, mkV2 a b).
  Definition put_regs (ho : HO T) (r : T * T * vec2 T) : HO T :=
    let '(a, b, v) := r in
    with_mdrMasses (with_dLambdaNonLog (with_dLambdaH3m ho a) b) (sortVector v).

  Lemma calcH_eq d ho l1 l2 l3 :
    calculateHierarchy d ho l1 l2 l3 =
    let ab := isAlphab ho in let h := hierarchy ho in let mdr := mdrFlag ho in
    do m <- hier_mat d ab h mdr l1 l2 l3;
    if only3 l1 l2 l3 then do r <- hier_regs d ab h mdr; Ok (put_regs ho r, m) else Ok (ho, m).
  Proof.
    unfold HierCalc.calculateHierarchy, hier_mat, step_pure, hier_regs. cbv zeta.
    fold (only3 l1 l2 l3).
    destruct (only3 l1 l2 l3) eqn:E.
    - unfold only3 in E. apply andb_prop in E as [E E3]. apply andb_prop in E as [E1 E2].
      apply Z.eqb_eq in E1, E2, E3. subst. cbn [bind Z.eqb].
      destruct (hier_order X p d (isAlphab ho) (hierarchy ho) (mdrFlag ho) 3) as [[out lm]|e]; [|reflexivity].
      cbn [bind set]. cbn [with_dLambdaNonLog with_dLambdaH3m mdrFlag isAlphab hierarchy].
      destruct (calcMsfMDRFlag p (isAlphab ho) (hierarchy ho) (mdrFlag ho) 3) as [[a b]|e]; reflexivity.
    - destruct (l1 =? 0)%Z, (l2 =? 0)%Z, (l3 =? 0)%Z; cbn [bind]; try reflexivity;
        repeat match goal with
        | |- context [hier_order X p d ?ab ?h ?m ?n] =>
            destruct (hier_order X p d ab h m n) as [[? ?]|?]; cbn [bind]; try reflexivity
        end.
  Qed.

  Definition same_key (a b : HO T) : Prop :=
    isAlphab a = isAlphab b /\ hierarchy a = hierarchy b /\ mdrFlag a = mdrFlag b.
  Lemma put_regs_key ho r : same_key (put_regs ho r) ho.
  Proof. destruct r as [[a b] v]. repeat split. Qed.
  Lemma same_key_trans a b c : same_key a b -> same_key b c -> same_key a c.
  Proof. unfold same_key. intuition congruence. Qed.
  Lemma same_key_sym a b : same_key a b -> same_key b a.
  Proof. unfold same_key. intuition congruence. Qed.
  Lemma same_key_refl a : same_key a a.
  Proof. repeat split. Qed.

  Lemma calcH_key d ho l1 l2 l3 o m :
    calculateHierarchy d ho l1 l2 l3 = Ok (o, m) -> same_key o ho.
  Proof.
    rewrite calcH_eq. cbv zeta. destruct (hier_mat _ _ _ _ _ _ _); cbn [bind]; [|discriminate].
    destruct (only3 l1 l2 l3).
    - destruct (hier_regs _ _ _ _) as [r|]; cbn [bind]; [|discriminate]. intros [= <- <-]. apply put_regs_key.
    - intros [= <- <-]. apply same_key_refl.
  Qed.

  (** outcome relation of two objects with the same key *)
  Lemma calcH_same d a b l1 l2 l3 : same_key a b ->
    match calculateHierarchy d a l1 l2 l3, calculateHierarchy d b l1 l2 l3 with
    | Ok (a', m), Ok (b', m') => m = m' /\ same_key a' b'
    | Throw e, Throw e' => e = e'
    | _, _ => False
    end.
  Proof.
    intros (K1 & K2 & K3). rewrite !calcH_eq. cbv zeta. rewrite K1, K2, K3.
    destruct (hier_mat _ _ _ _ _ _ _); cbn [bind]; [|reflexivity].
    destruct (only3 l1 l2 l3).
    - destruct (hier_regs _ _ _ _) as [r|]; cbn [bind]; [|reflexivity]. split; [reflexivity|].
      eapply same_key_trans; [apply put_regs_key|]. eapply same_key_trans; [|apply same_key_sym, put_regs_key].
      repeat split; assumption.
    - split; [reflexivity|]. repeat split; assumption.
  Qed.

  Lemma recompute_same d a b m l1 l2 l3 : same_key a b ->
    match recomputeMh X p m l1 l2 l3 a d, recomputeMh X p m l1 l2 l3 b d with
    | (Ok (a', x), d1), (Ok (b', x'), d2) => x = x' /\ same_key a' b' /\ d1 = d2
    | (Throw e, d1), (Throw e', d2) => e = e' /\ d1 = d2
    | _, _ => False
    end.
  Proof.
    intros K. unfold recomputeMh, bindC, get_depth, lift, ret. pose proof (calcH_same d a b l1 l2 l3 K) as H.
    destruct (calculateHierarchy d a l1 l2 l3) as [[a' m1]|e1];
      destruct (calculateHierarchy d b l1 l2 l3) as [[b' m2]|e2]; try contradiction.
    - destruct H as [<- H]. auto.
    - auto.
  Qed.

  Lemma sum_same m l1 l2 l3 Mh fs : forall d a b u, same_key a b ->
    sum_truncations X p m l1 l2 l3 Mh fs a u d = sum_truncations X p m l1 l2 l3 Mh fs b u d.
  Proof.
    induction fs as [|f fs IH]; intros d a b u K; cbn; [reflexivity|].
    unfold bindC, temporarily_set.
    pose proof (recompute_same (depth_put d f 0) a b m l1 l2 l3 K) as H.
    destruct (recomputeMh X p m l1 l2 l3 a (depth_put d f 0)) as [[[a' x]|e] d1];
      destruct (recomputeMh X p m l1 l2 l3 b (depth_put d f 0)) as [[[b' x']|e'] d2]; try contradiction.
    - destruct H as (<- & K' & <-). apply IH. exact K'.
    - destruct H as (<- & <-). reflexivity.
  Qed.

  Lemma unc_same d a b m l1 l2 l3 : same_key a b ->
    getExpansionUncertainty X p a m l1 l2 l3 d = getExpansionUncertainty X p b m l1 l2 l3 d.
  Proof.
    intros K. unfold getExpansionUncertainty, temporarily_set, bindC.
    set (d0 := depth_put _ _ _).
    pose proof (recompute_same d0 a b m l1 l2 l3 K) as H.
    destruct (recomputeMh X p m l1 l2 l3 a d0) as [[[a' x]|e] d1];
      destruct (recomputeMh X p m l1 l2 l3 b d0) as [[[b' x']|e'] d2]; try contradiction.
    - destruct H as (<- & K' & <-). destruct K as (_ & -> & _).
      unfold lift. destruct (getMotherHierarchy (hierarchy b)); [|reflexivity].
      rewrite (sum_same m l1 l2 l3 x _ d1 a' b' _ K'). reflexivity.
    - destruct H as (<- & <-). reflexivity.
  Qed.

  Lemma estimate_same d a b h : isAlphab a = isAlphab b -> mdrFlag a = mdrFlag b ->
    estimate X p d a h = estimate X p d b h.
  Proof.
    intros K1 K2. unfold estimate.
    assert (K : same_key (with_hierarchy a h) (with_hierarchy b h)) by (repeat split; assumption).
    cbn [isAlphab mdrFlag with_hierarchy]. rewrite K1, K2.
    destruct (getMt41L _ _ _ _ _) as [one|]; [|reflexivity]. cbn [bind].
    destruct (getMt42L _ _ _ _ _ _) as [two|]; [|reflexivity]. cbn [bind].
    pose proof (calcH_same d _ _ 0 1 0 K) as H.
    destruct (calculateHierarchy d (with_hierarchy a h) 0 1 0) as [[a' m1]|e1];
      destruct (calculateHierarchy d (with_hierarchy b h) 0 1 0) as [[b' m2]|e2]; try contradiction;
      [|subst; reflexivity].
    destruct H as [<- _]. cbn [bind]. rewrite !(unc_same d _ _ _ _ _ _ K). reflexivity.
  Qed.

  (** ** calcDeltaLambda3L only writes the five lambda registers *)
  Definition same_sel (a b : HO T) : Prop :=
    same_key a b /\ renormalizationScheme a = renormalizationScheme b /\ absDiff2L a = absDiff2L b /\
    relDiff2L a = relDiff2L b /\ expUncertainties a = expUncertainties b /\ dMhMap a = dMhMap b /\
    dMh2Map a = dMh2Map b /\ mdrShift a = mdrShift b /\ h3mShift a = h3mShift b /\
    dLambdaMap a = dLambdaMap b /\ dMh2EFTMap a = dMh2EFTMap b /\ dMh2FOMap a = dMh2FOMap b /\
    dMh2FOAtMap a = dMh2FOAtMap b /\
    (exists x, dLambdaShiftMap a = arr4_put (dLambdaShiftMap b) 3 x).

  Lemma dl3_sel ho b o : calcDeltaLambda3L X p ho b = Ok o -> same_sel o ho.
  Proof.
    unfold calcDeltaLambda3L. cbv zeta.
    repeat match goal with
    | |- context [bind ?e _] =>
        lazymatch e with
        | bind _ _ => fail
        | set _ _ => cbn [set put_checked loop03 Z.leb Z.compare Pos.compare Pos.compare_cont andb bind]
        | if ?c then _ else _ => destruct c
        | Ok _ => cbn [bind]
        | _ => destruct e; cbn [bind]; [|discriminate]
        end
    end.
    all: cbn [set]; intros [= <-].
    all: unfold same_sel, same_key; cbn; repeat split; eexists; reflexivity.
  Qed.
End P.
