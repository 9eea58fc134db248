From Coq Require Import String ZArith List Bool Lia Reals Lra.
From Verif Require Import Num NumFacts Except HObj Params HierFormulas HierCalc HierSpec HierProofs.
Import ListNotations.
Open Scope string_scope.

Ltac split_all :=
  repeat match goal with H : _ /\ _ |- _ => destruct H end; repeat split; try congruence.
#[local] Arguments treelvl : simpl never.
#[local] Arguments calculateHierarchy : simpl never.
#[local] Arguments isHierarchySuitable : simpl never.
#[local] Arguments getMt41L : simpl never.
#[local] Arguments candidate : simpl never.

Section P.
  Context {T : Type} {N : Num T}.
  Variables (X : Env T) (p : Params T).

  Definition rest_same (a b : HO T) : Prop :=
    isAlphab a = isAlphab b /\ mdrFlag a = mdrFlag b /\
    renormalizationScheme a = renormalizationScheme b /\ dMhMap a = dMhMap b /\
    dMh2Map a = dMh2Map b /\ mdrShift a = mdrShift b /\ h3mShift a = h3mShift b /\
    dLambdaMap a = dLambdaMap b /\ dMh2EFTMap a = dMh2EFTMap b /\ dMh2FOMap a = dMh2FOMap b /\
    dMh2FOAtMap a = dMh2FOAtMap b /\
    e0 (dLambdaShiftMap a) = e0 (dLambdaShiftMap b) /\
    e1 (dLambdaShiftMap a) = e1 (dLambdaShiftMap b) /\
    e2 (dLambdaShiftMap a) = e2 (dLambdaShiftMap b) /\
    e0 (expUncertainties a) = e0 (expUncertainties b) /\
    e1 (expUncertainties a) = e1 (expUncertainties b).
  Definition pay_regs (ho0 ho : HO T) (pay : option (estimate_t T)) : Prop :=
    match pay with
    | None => absDiff2L ho = absDiff2L ho0 /\ relDiff2L ho = relDiff2L ho0 /\
              expUncertainties ho = expUncertainties ho0
    | Some e => absDiff2L ho = est_abs e /\ relDiff2L ho = est_rel e /\
                e2 (expUncertainties ho) = est_exp2 e /\ e3 (expUncertainties ho) = est_exp3 e
    end.

  Lemma candidate_spec ho d o a b c x y d' :
    candidate X p ho d = (Ok (o, (a, b, c, x, y)), d') ->
    d' = d /\ estimate X p d ho (hierarchy ho) = Ok (mkEst a b c x y) /\ same_sel o ho.
  Proof.
    intros H. split.
    { pose proof (pres_candidate X p ho d) as Hp. rewrite H in Hp. exact Hp. }
    revert H. unfold candidate, estimate. cbv zeta. unfold bindC at 1. unfold lift at 1.
    assert (K : same_key (with_hierarchy ho (hierarchy ho)) ho) by (repeat split).
    cbn [isAlphab mdrFlag with_hierarchy].
    destruct (getMt41L _ _ _ _ _) as [one|]; [|discriminate]. cbn [bind].
    unfold bindC at 1. unfold lift at 1.
    destruct (getMt42L _ _ _ _ _ _) as [two|]; [|discriminate]. cbn [bind].
    unfold bindC at 1. unfold get_depth at 1. unfold bindC at 1. unfold lift at 1.
    pose proof (calcH_same X p d _ _ 0 1 0 K) as Hs.
    destruct (calculateHierarchy X p d (with_hierarchy ho (hierarchy ho)) 0 1 0) as [[o1 m1]|];
    destruct (calculateHierarchy X p d ho 0 1 0) as [[o2 m2]|] eqn:EC; try contradiction; [|discriminate].
    destruct Hs as [<- Hk]. cbn [bind].
    rewrite !(unc_same X p d _ _ _ _ _ _ K).
    assert (o2 = ho) as ->.
    { revert EC. rewrite calcH_eq. cbv zeta. destruct (hier_mat _ _ _ _ _ _ _ _ _); cbn; [|discriminate].
      intros [= <- _]. reflexivity. }
    unfold bindC at 1. rewrite (pres_eq _ d (pres_unc X p ho (mat2_add (treelvl p) one) 0 1 0)).
    destruct (fst (getExpansionUncertainty X p ho (mat2_add (treelvl p) one) 0 1 0 d)) as [u2|]; [|discriminate].
    unfold bindC at 1. rewrite (pres_eq _ d (pres_unc X p ho _ 0 0 1)).
    destruct (fst (getExpansionUncertainty X p ho (mat2_add (mat2_add (treelvl p) one) two) 0 0 1 d)) as [u3|]; [|discriminate].
    unfold bindC, lift, ret. destruct (calcDeltaLambda3L X p ho true) as [o'|] eqn:ED; [|discriminate].
    intros [= <- <- <- <- <- <- _]. split; [reflexivity|]. eapply dl3_sel. exact ED.
  Qed.

  Fixpoint pick (d : Depth) (ho0 : HO T) (st : T * Z * option (estimate_t T)) (hs : list Z)
    : res (T * Z * option (estimate_t T)) :=
    match hs with
    | [] => Ok st
    | h :: hs =>
        let '(err, s, pay) := st in
        if isHierarchySuitable p (isAlphab ho0) h then
          do e <- estimate X p d ho0 h;
          pick d ho0 (if nltb err (nint 0) || nltb (est_error e) err then (est_error e, h, Some e)
                      else (err, s, pay)) hs
        else pick d ho0 (err, s, pay) hs
    end.

  Lemma loop_pick d ho0 hs : forall ho err s pay ho' err' s' d',
    rest_same ho ho0 -> pay_regs ho0 ho pay ->
    compare_loop X p (ho, err, s) hs d = (Ok (ho', err', s'), d') ->
    exists pay', pick d ho0 (err, s, pay) hs = Ok (err', s', pay') /\
      rest_same ho' ho0 /\ pay_regs ho0 ho' pay'.
  Proof.
    induction hs as [|h hs IH]; intros ho err s pay ho' err' s' d' Hr Hp H.
    - cbn in H. injection H as <- <- <- _. exists pay. auto.
    - cbn [compare_loop] in H. unfold bindC at 1 in H.
      rewrite (pres_eq _ d (pres_step X p (ho, err, s) h)) in H.
      destruct (fst (compare_step X p (ho, err, s) h d)) as [[[o1 er1] s1]|] eqn:E; [|discriminate].
      assert (ES : compare_step X p (ho, err, s) h d = (Ok (o1, er1, s1), d)).
      { rewrite (pres_eq _ d (pres_step X p (ho, err, s) h)), E. reflexivity. }
      clear E. cbn [compare_step] in ES. unfold bindC at 1 in ES. cbn [lift set] in ES. unfold lift in ES.
      cbn [isAlphab with_hierarchy] in ES. cbn [pick].
      assert (Hab : isAlphab ho = isAlphab ho0) by apply Hr. rewrite Hab in ES.
      destruct (isHierarchySuitable p (isAlphab ho0) h) eqn:Suit.
      + unfold bindC at 1 in ES. rewrite (pres_eq _ d (pres_candidate X p _)) in ES.
        destruct (fst (candidate X p (with_hierarchy ho h) d)) as [[o2 [[[[a b] c] x] y]]|] eqn:EC; [|discriminate].
        assert (EC' : candidate X p (with_hierarchy ho h) d = (Ok (o2, (a, b, c, x, y)), d)).
        { rewrite (pres_eq _ d (pres_candidate X p _)), EC. reflexivity. }
        apply candidate_spec in EC' as (_ & Hest & Hsel). cbn [hierarchy with_hierarchy] in Hest.
        rewrite (estimate_same X p d _ ho0 h) in Hest by (cbn; apply Hr).
        rewrite Hest. cbn [bind est_error].
        destruct Hsel as ((K1 & K2 & K3) & S1 & S2 & S3 & S4 & S5 & S6 & S7 & S8 & S9 & S10 & S11 & S12 & S13).
        cbn in K1, K2, K3, S1, S2, S3, S4, S5, S6, S7, S8, S9, S10, S11, S12, S13.
        destruct S13 as [z S13].
        destruct (nltb err (nint 0) || nltb a err).
        * unfold bindC at 1 in ES. unfold lift, ret in ES. cbn in ES. injection ES as <- <- <-.
          eapply IH; [| |exact H].
          -- unfold rest_same in *. cbn. rewrite ?K1, ?K3, ?S1, ?S5, ?S6, ?S7, ?S8, ?S9, ?S10, ?S11, ?S12, ?S13, ?S4.
             cbn. split_all.
          -- cbn. auto.
        * unfold ret in ES. injection ES as <- <- <-.
          eapply IH; [| |exact H].
          -- unfold rest_same in *. rewrite ?K1, ?K3, ?S1, ?S5, ?S6, ?S7, ?S8, ?S9, ?S10, ?S11, ?S12, ?S13, ?S4.
             cbn. split_all.
          -- unfold pay_regs in *. destruct pay; rewrite ?S2, ?S3, ?S4; auto.
      + unfold ret in ES. injection ES as <- <- <-. eapply IH; [| |exact H].
        * unfold rest_same in *. cbn. split_all.
        * unfold pay_regs in *. destruct pay; cbn; auto.
  Qed.

  Definition init_tree (ho : HO T) : HO T := with_dMhMap ho (arr4_put (dMhMap ho) 0 (treelvl p)).

  Lemma selection_depth_eq d : selection_depth d = depth_put (depth_put d DthreeLoop 0) DMst 0.
  Proof. reflexivity. Qed.

  Lemma compare_pick d ho ho' h d' :
    compareHierarchies X p ho d = (Ok (ho', h), d') ->
    d' = d /\ hierarchy ho' = h /\
    exists err pay,
      pick (selection_depth d) ho (nneg (nint 1), (-1)%Z, None) all_hierarchies = Ok (err, h, pay) /\
      rest_same ho' (init_tree ho) /\ pay_regs ho ho' pay.
  Proof.
    intros H. split.
    { pose proof (pres_compare X p ho d) as Hp. rewrite H in Hp. exact Hp. }
    revert H. unfold compareHierarchies, temporarily_set.
    fold (selection_depth d). set (sd := selection_depth d).
    unfold bindC at 1. unfold lift at 1. cbn [set put_checked loop03 Z.leb Z.compare Pos.compare Pos.compare_cont andb bind].
    unfold bindC at 1. fold (init_tree ho).
    destruct (compare_loop X p (init_tree ho, nneg (nint 1), (-1)%Z) all_hierarchies sd)
      as [[[[o err] s]|] d1] eqn:E; [|intros; discriminate].
    unfold bindC, lift, ret. cbn [set]. intros [= <- <- _].
    split; [reflexivity|].
    destruct (loop_pick sd (init_tree ho) all_hierarchies _ _ _ None _ _ _ _
                ltac:(repeat split) ltac:(repeat split) E) as (pay & Hp & Hr & Hg).
    exists err, pay. split; [|split].
    - rewrite <- Hp. clear. unfold init_tree.
      generalize (nneg (nint 1) : T, (-1)%Z, None : option (estimate_t T)).
      generalize all_hierarchies. induction l as [|h l IH]; intros [[a b] c]; [reflexivity|].
      cbn [pick isAlphab with_dMhMap].
      rewrite (estimate_same X p sd ho (with_dMhMap ho (arr4_put (dMhMap ho) 0 (treelvl p))) h) by reflexivity.
      destruct (isHierarchySuitable _ _ _); [|apply IH].
      destruct (estimate _ _ _ _ _); cbn; [|reflexivity]. apply IH.
    - unfold rest_same in *. cbn. exact Hr.
    - destruct pay; cbn in *; exact Hg.
  Qed.

  (** every suitable hierarchy's estimate is defined if the selection returns *)
  Lemma pick_ok d ho hs : forall st r,
    pick d ho st hs = Ok r ->
    exists est : Z -> estimate_t T, forall k, In k hs -> isHierarchySuitable p (isAlphab ho) k = true ->
      estimate X p d ho k = Ok (est k).
  Proof.
    intros st r H.
    assert (Hall : forall k, In k hs -> isHierarchySuitable p (isAlphab ho) k = true ->
                   exists e, estimate X p d ho k = Ok e).
    { revert st H. induction hs as [|h hs IH]; intros [[a b] c] H k Hin Hs; [destruct Hin|].
      cbn [pick] in H. destruct (isHierarchySuitable p (isAlphab ho) h) eqn:E.
      - destruct (estimate X p d ho h) eqn:Ee; cbn in H; [|discriminate].
        destruct Hin as [->|Hin]; [eauto|]. eapply IH; eauto.
      - destruct Hin as [->|Hin]; [congruence|]. eapply IH; eauto. }
    exists (fun k => match estimate X p d ho k with Ok e => e | Throw _ => mkEst (nint 0) (nint 0) (nint 0) (nint 0) (nint 0) end).
    intros k Hin Hs. destruct (Hall k Hin Hs) as [e ->]. reflexivity.
  Qed.
End P.
