(** Selection: minimality of the chosen hierarchy, over the reals and in binary64. *)
From Coq Require Import String ZArith List Bool Lia Reals Lra.
From Coq Require Import Floats.SpecFloat.
From Verif Require Import Num NumFacts Except HObj Params HierFormulas HierCalc HierSpec HierProofs HierProofs2 HObjProofs.
Import ListNotations.
Open Scope string_scope.
#[local] Arguments isHierarchySuitable : simpl never.

Lemma in_all k : In k all_hierarchies <-> is_hierarchy k.
Proof.
  unfold is_hierarchy, all_hierarchies. cbn. split; [lia|].
  intros H. assert (k=0\/k=1\/k=2\/k=3\/k=4\/k=5\/k=6\/k=7\/k=8\/k=9\/k=10\/k=11\/k=12\/k=13)%Z by lia.
  intuition.
Qed.

Section Generic.
  Context {T : Type} {N : Num T}.
  Variables (X : Env T) (p : Params T) (d : Depth) (ho : HO T).
  Variable good : T -> Prop.
  Hypothesis good_neg : forall x, good x -> nltb x (nint 0) = false.
  Hypothesis lt_trans : forall x y z, good x -> good y -> good z -> nltb x y = true -> nltb y z = true -> nltb x z = true.
  Hypothesis lt_weak : forall x y z, good x -> good y -> good z -> nltb x y = true -> nltb z y = false -> nltb x z = true.
  Hypothesis lt_irrefl : forall x, good x -> nltb x x = false.
  Let suit k := isHierarchySuitable p (isAlphab ho) k = true.

  (** state after the hierarchies in [done], when their errors are good *)
  Definition inv (done : list Z) (st : T * Z * option (estimate_t T)) : Prop :=
    let '(err, s, pay) := st in
    (s = (-1)%Z /\ err = nneg (nint 1) /\ pay = None /\ forall k, In k done -> ~ suit k) \/
    (exists e, In s done /\ suit s /\ estimate X p d ho s = Ok e /\ err = est_error e /\ pay = Some e /\
       forall k ek, In k done -> suit k -> estimate X p d ho k = Ok ek ->
         nltb (est_error ek) (est_error e) = false /\
         ((k < s)%Z -> nltb (est_error e) (est_error ek) = true)).

  Lemma pick_inv (m1neg : nltb (nneg (nint 1)) (nint 0) = true) hs : forall done st r,
    (forall a b, In a done -> In b hs -> (a < b)%Z) ->
    (forall k ek, In k (done ++ hs)%list -> suit k -> estimate X p d ho k = Ok ek -> good (est_error ek)) ->
    (forall l1 a l2 b l3, hs = (l1 ++ a :: l2 ++ b :: l3)%list -> (a < b)%Z) ->
    inv done st -> pick X p d ho st hs = Ok r -> inv (done ++ hs) r.
  Proof.
    induction hs as [|h hs IH]; intros done [[err s] pay] r Hd Hg Hs Hi H.
    - cbn in H. injection H as <-. rewrite app_nil_r. exact Hi.
    - assert (HI : forall st', inv (done ++ [h]) st' -> pick X p d ho st' hs = Ok r -> inv (done ++ h :: hs) r).
      { intros st' Hi' Hp. replace (done ++ h :: hs)%list with ((done ++ [h]) ++ hs)%list by (rewrite <- app_assoc; reflexivity).
        eapply IH; [| | |exact Hi'|exact Hp].
        - intros a b Ha Hb. apply in_app_or in Ha as [Ha|[<-|[]]]; [apply Hd; [exact Ha|right; exact Hb]|].
          apply in_split in Hb as (l1 & l2 & ->). apply (Hs [] h l1 b l2). reflexivity.
        - intros k ek Hk. apply Hg. rewrite <- app_assoc in Hk. exact Hk.
        - intros l1 a l2 b l3 ->. apply (Hs (h :: l1) a l2 b l3). reflexivity. }
      cbn [pick] in H. destruct (isHierarchySuitable p (isAlphab ho) h) eqn:Su.
      + destruct (estimate X p d ho h) as [e|] eqn:Ee; cbn [bind] in H; [|discriminate].
        assert (Ge : good (est_error e)) by (apply (Hg h e); [apply in_or_app; right; left; reflexivity|exact Su|exact Ee]).
        apply HI in H; [exact H|]. destruct Hi as [(-> & -> & -> & Hn)|(e0 & Hin & Hsu & He0 & -> & -> & Hm)].
        * rewrite m1neg. cbn [orb]. right. exists e.
          split; [apply in_or_app; right; left; reflexivity|]. split; [exact Su|]. split; [exact Ee|].
          split; [reflexivity|]. split; [reflexivity|].
          intros k ek Hk Hks Hke. apply in_app_or in Hk as [Hk|[<-|[]]]; [elim (Hn _ Hk Hks)|].
          rewrite Ee in Hke; injection Hke as <-. split; [apply lt_irrefl; exact Ge|lia].
        * assert (G0 : good (est_error e0)) by (apply (Hg s e0); [apply in_or_app; left; exact Hin|exact Hsu|exact He0]).
          rewrite (good_neg _ G0). cbn [orb].
          destruct (nltb (est_error e) (est_error e0)) eqn:L; right.
          -- exists e. split; [apply in_or_app; right; left; reflexivity|]. split; [exact Su|]. split; [exact Ee|].
             split; [reflexivity|]. split; [reflexivity|].
             intros k ek Hk Hks Hke. apply in_app_or in Hk as [Hk|[<-|[]]].
             ++ destruct (Hm k ek Hk Hks Hke) as [M1 M2].
                assert (Gk : good (est_error ek)) by (apply (Hg k ek); [apply in_or_app; left; exact Hk|exact Hks|exact Hke]).
                split.
                ** destruct (nltb (est_error ek) (est_error e)) eqn:L2; [|reflexivity].
                   rewrite (lt_trans _ _ _ Gk Ge G0 L2 L) in M1. discriminate.
                ** intros _. eapply lt_weak; [exact Ge|exact G0|exact Gk|exact L|exact M1].
             ++ rewrite Ee in Hke; injection Hke as <-. split; [apply lt_irrefl; exact Ge|lia].
          -- exists e0. split; [apply in_or_app; left; exact Hin|]. split; [exact Hsu|]. split; [exact He0|].
             split; [reflexivity|]. split; [reflexivity|].
             intros k ek Hk Hks Hke. apply in_app_or in Hk as [Hk|[<-|[]]]; [apply Hm; assumption|].
             rewrite Ee in Hke; injection Hke as <-. split; [exact L|].
             intros Hlt. assert (s < h)%Z by (apply Hd; [exact Hin|left; reflexivity]). lia.
      + apply HI in H; [exact H|]. destruct Hi as [(-> & -> & -> & Hn)|(e0 & Hin & Hsu & He0 & -> & -> & Hm)].
        * left. repeat split. intros k Hk. apply in_app_or in Hk as [Hk|[<-|[]]]; [apply Hn; exact Hk|].
          unfold suit. rewrite Su. discriminate.
        * right. exists e0. split; [apply in_or_app; left; exact Hin|]. split; [exact Hsu|]. split; [exact He0|].
          split; [reflexivity|]. split; [reflexivity|].
          intros k ek Hk Hks Hke. apply in_app_or in Hk as [Hk|[<-|[]]]; [apply Hm; assumption|].
          unfold suit in Hks. rewrite Su in Hks. discriminate.
  Qed.
End Generic.

Lemma all_sorted l1 a l2 b l3 : all_hierarchies = (l1 ++ a :: l2 ++ b :: l3)%list -> (a < b)%Z.
Proof.
  intros H.
  assert (S : forall l, (forall i, (i + 1 < List.length l)%nat -> (nth i l 0 < nth (i+1) l 0)%Z) ->
    forall i j, (i < j < List.length l)%nat -> (nth i l 0 < nth j l 0)%Z).
  { intros l Hl i j [Hij Hj]. induction j; [lia|].
    specialize (Hl j). rewrite Nat.add_1_r in Hl. specialize (Hl Hj).
    destruct (Nat.eq_dec i j); [subst; exact Hl|]. assert (nth i l 0 < nth j l 0)%Z by (apply IHj; lia). lia. }
  specialize (S all_hierarchies).
  assert (Hadj : forall i, (i + 1 < List.length all_hierarchies)%nat -> (nth i all_hierarchies 0 < nth (i+1) all_hierarchies 0)%Z).
  { intros i Hi. cbn in Hi. do 13 (destruct i; [cbn; lia|]). lia. }
  specialize (S Hadj (List.length l1) (List.length l1 + 1 + List.length l2)%nat).
  rewrite H in S. rewrite !app_length in S. cbn [List.length] in S. rewrite app_length in S. cbn [List.length] in S.
  specialize (S ltac:(lia)).
  rewrite app_nth2 in S by lia. rewrite Nat.sub_diag in S. cbn [nth] in S.
  rewrite app_nth2 in S by lia.
  replace (List.length l1 + 1 + List.length l2 - List.length l1)%nat with (Datatypes.S (List.length l2)) in S by lia.
  cbn [nth] in S. rewrite app_nth2 in S by lia. rewrite Nat.sub_diag in S. exact S.
Qed.

(** ** over the reals *)
Lemma estimate_nonneg X (p : Params R) d ho k e : estimate X p d ho k = Ok e -> (0 <= est_error e)%R.
Proof.
  unfold estimate. cbv zeta. destruct (getMt41L _ _ _ _ _); cbn [bind]; [|discriminate].
  destruct (getMt42L _ _ _ _ _ _); cbn [bind]; [|discriminate].
  destruct (calculateHierarchy _ _ _ _ _ _ _) as [[? ?]|]; cbn [bind]; [|discriminate].
  destruct (fst _); cbn [bind]; [|discriminate]. destruct (fst _); cbn [bind]; [|discriminate].
  intros [= <-]. cbn [est_error]. apply sqrt_pos.
Qed.

Lemma best_R (X : Env R) (p : Params R) d ho ho' h d' :
  compareHierarchies X p ho d = (Ok (ho', h), d') ->
  d' = d /\ hierarchy ho' = h /\
  ((h = (-1)%Z /\ forall k, is_hierarchy k -> isHierarchySuitable p (isAlphab ho) k = false) \/
   (exists est, (forall k, is_hierarchy k -> isHierarchySuitable p (isAlphab ho) k = true ->
                   estimate X p (selection_depth d) ho k = Ok (est k)) /\
      best (fun k => isHierarchySuitable p (isAlphab ho) k = true) (fun k => est_error (est k)) h /\
      absDiff2L ho' = est_abs (est h) /\ relDiff2L ho' = est_rel (est h) /\
      e2 (expUncertainties ho') = est_exp2 (est h) /\ e3 (expUncertainties ho') = est_exp3 (est h))).
Proof.
  intros H. apply compare_pick in H as (-> & Hh & err & pay & Hp & _ & Hpay). split; [reflexivity|]. split; [exact Hh|].
  destruct (pick_ok _ _ _ _ _ _ _ Hp) as [est Hest].
  assert (Hi := @pick_inv R NumR X p (selection_depth d) ho (fun x : R => (0 <= x)%R)
    ltac:(intros x Hx; apply Rltb_false; exact Hx)
    ltac:(intros x y z _ _ _; unR; destruct (Rltb_spec x y), (Rltb_spec y z); try discriminate; intros; apply Rltb_true; lra)
    ltac:(intros x y z _ _ _; unR; destruct (Rltb_spec x y), (Rltb_spec z y); try discriminate; intros; apply Rltb_true; lra)
    ltac:(intros x _; apply Rltb_false; lra)
    ltac:(apply Rltb_true; unR; lra)
    all_hierarchies [] (nneg (nint 1), (-1)%Z, None) (err, h, pay)
    ltac:(intros a b Ha; destruct Ha)
    ltac:(intros k ek _ _ Hk; eapply estimate_nonneg; exact Hk)
    all_sorted
    ltac:(left; repeat split; intros k Hk; destruct Hk) Hp).
  cbn [app] in Hi. destruct Hi as [(-> & _ & _ & Hn)|(e & Hin & Hsu & He & _ & -> & Hm)].
  - left. split; [reflexivity|]. intros k Hk. apply in_all in Hk. specialize (Hn k Hk).
    destruct (isHierarchySuitable p (isAlphab ho) k); [elim Hn; reflexivity|reflexivity].
  - right. exists est.
    assert (Eh : est h = e). { pose proof (Hest h Hin Hsu). congruence. }
    repeat split; try (apply Hpay || (rewrite Eh; apply Hpay)).
    + intros k Hk Hks. apply Hest; [apply in_all; exact Hk|exact Hks].
    + apply in_all in Hin. apply Hin.
    + apply in_all in Hin. apply Hin.
    + exact Hsu.
    + apply in_all in H. destruct (Hm k (est k) H H0 (Hest k H H0)) as [M _].
      rewrite Eh. unR. destruct (Rltb_spec (est_error (est k)) (est_error e)); [discriminate|assumption].
    + intros Hlt. apply in_all in H. destruct (Hm k (est k) H H0 (Hest k H H0)) as [_ M]. specialize (M Hlt).
      rewrite Eh. unR. destruct (Rltb_spec (est_error e) (est_error (est k))); [assumption|discriminate].
Qed.

(** none suitable: the selection returns -1 *)
Lemma compare_none {T} {N : Num T} (X : Env T) (p : Params T) ho d :
  (forall k, is_hierarchy k -> isHierarchySuitable p (isAlphab ho) k = false) ->
  exists ho', compareHierarchies X p ho d = (Ok (ho', (-1)%Z), d).
Proof.
  intros Hn.
  assert (L : forall hs st d, (forall k, In k hs -> is_hierarchy k) -> isAlphab (fst (fst st)) = isAlphab ho ->
    exists o, compare_loop X p st hs d = (Ok (o, snd (fst st), snd st), d) /\ isAlphab o = isAlphab ho).
  { induction hs as [|h hs IH]; intros [[o e] s] d0 Hin Hab; cbn [fst snd] in *.
    - exists o. split; [reflexivity|exact Hab].
    - cbn [compare_loop]. unfold bindC at 1. cbn [compare_step]. unfold bindC at 1. unfold lift. cbn [set].
      cbn [isAlphab with_hierarchy]. rewrite Hab, (Hn h) by (apply Hin; left; reflexivity). unfold ret.
      destruct (IH (with_hierarchy o h, e, s) d0) as (o' & E & Ho'); [intros; apply Hin; right; assumption|exact Hab|].
      cbn [fst snd] in E. exists o'. split; assumption. }
  unfold compareHierarchies, temporarily_set.
  unfold bindC at 1. unfold lift at 1. cbn [set put_checked loop03 Z.leb Z.compare Pos.compare Pos.compare_cont andb bind].
  match goal with |- context [compare_loop X p ?st all_hierarchies] => set (S0 := st) end.
  unfold bindC at 1.
  match goal with |- context [compare_loop X p S0 all_hierarchies ?dd] =>
    destruct (L all_hierarchies S0 dd) as (o & E & _); [intros k Hk; apply in_all; exact Hk|reflexivity|rewrite E] end.
  unfold bindC, lift, ret. cbn [set S0 fst snd]. eexists.
  f_equal. destruct d; reflexivity.
Qed.

(** ** binary64 *)
Definition notnan (x : F64) : Prop := F64isnan x = false.
Lemma SFltb_irrefl x : SFltb x x = false.
Proof.
  destruct x as [[]|[]| |[] m e]; try reflexivity; cbn; unfold SFltb; cbn; rewrite Z.compare_refl;
  rewrite ?Pcompare_refl; rewrite ?Pos.compare_cont_refl; reflexivity.
Qed.
Ltac sf_solve :=
  repeat match goal with
  | |- context [Z.compare ?a ?b] => destruct (Z.compare_spec a b); subst
  | |- context [Pos.compare_cont Eq ?a ?b] => change (Pos.compare_cont Eq a b) with (Pos.compare a b)
  | |- context [Pos.compare ?a ?b] => destruct (Pos.compare_spec a b); subst
  | H : context [Z.compare ?a ?b] |- _ => destruct (Z.compare_spec a b); subst
  | H : context [Pos.compare_cont Eq ?a ?b] |- _ => change (Pos.compare_cont Eq a b) with (Pos.compare a b) in H
  | H : context [Pos.compare ?a ?b] |- _ => destruct (Pos.compare_spec a b); subst
  end; cbn in *; try reflexivity; try discriminate; try lia.
Lemma SFltb_trans x y z : SFltb x y = true -> SFltb y z = true -> SFltb x z = true.
Proof.
  destruct x as [[]|[]| |[] mx ex]; destruct y as [[]|[]| |[] my ey]; destruct z as [[]|[]| |[] mz ez];
    unfold SFltb; cbn; try reflexivity; try discriminate; try congruence; intros A B; sf_solve.
Qed.
Lemma SFltb_weak x y z : notnan z -> SFltb x y = true -> SFltb z y = false -> SFltb x z = true.
Proof.
  unfold notnan.
  destruct x as [[]|[]| |[] mx ex]; destruct y as [[]|[]| |[] my ey]; destruct z as [[]|[]| |[] mz ez];
    unfold SFltb; cbn; try reflexivity; try discriminate; try congruence; intros Hn A B; sf_solve.
Qed.

Lemma round_sign mx ex lx :
  match binary_round_aux f64_prec f64_emax false mx ex lx with
  | S754_finite s _ _ => s = false | S754_zero s => s = false | S754_infinity s => s = false | S754_nan => True end.
Proof.
  unfold binary_round_aux. destruct (shr_fexp _ _ _ _ _) as [m e]. destruct (shr_fexp _ _ _ _ _) as [m' e'].
  destruct (shr_m m'); try reflexivity; try exact I. destruct (_ <=? _)%Z; reflexivity.
Qed.
Lemma SFsqrt_not_neg x : SFltb (SFsqrt f64_prec f64_emax x) (S754_zero false) = false.
Proof.
  destruct x as [[]|[]| |[] m e]; try reflexivity.
  unfold SFsqrt. destruct (SFsqrt_core_binary _ _ _ _) as [[q e'] l].
  pose proof (round_sign q e' l) as H.
  destruct (binary_round_aux f64_prec f64_emax false q e' l) as [|[]| |[]]; reflexivity || discriminate.
Qed.
Lemma estimate_notneg_F lm X (p : Params F64) d ho k e : @estimate _ (NumF lm) X p d ho k = Ok e ->
  SFltb (est_error e) (S754_zero false) = false.
Proof.
  unfold estimate. cbv zeta. destruct (getMt41L _ _ _ _ _); cbn [bind]; [|discriminate].
  destruct (getMt42L _ _ _ _ _ _); cbn [bind]; [|discriminate].
  destruct (calculateHierarchy _ _ _ _ _ _ _) as [[? ?]|]; cbn [bind]; [|discriminate].
  destruct (fst _); cbn [bind]; [|discriminate]. destruct (fst _); cbn [bind]; [|discriminate].
  intros [= <-]. cbn [est_error]. apply SFsqrt_not_neg.
Qed.

Lemma best_F lm (X : Env F64) (p : Params F64) d ho ho' h d' :
  @compareHierarchies _ (NumF lm) X p ho d = (Ok (ho', h), d') ->
  (forall k e, is_hierarchy k -> @isHierarchySuitable _ (NumF lm) p (isAlphab ho) k = true ->
     @estimate _ (NumF lm) X p (selection_depth d) ho k = Ok e -> F64isnan (est_error e) = false) ->
  (h = (-1)%Z /\ forall k, is_hierarchy k -> @isHierarchySuitable _ (NumF lm) p (isAlphab ho) k = false) \/
  (is_hierarchy h /\ @isHierarchySuitable _ (NumF lm) p (isAlphab ho) h = true /\
   exists e, @estimate _ (NumF lm) X p (selection_depth d) ho h = Ok e /\
     absDiff2L ho' = est_abs e /\ relDiff2L ho' = est_rel e /\
     e2 (expUncertainties ho') = est_exp2 e /\ e3 (expUncertainties ho') = est_exp3 e /\
     forall k ek, is_hierarchy k -> @isHierarchySuitable _ (NumF lm) p (isAlphab ho) k = true ->
       @estimate _ (NumF lm) X p (selection_depth d) ho k = Ok ek ->
       SFleb (est_error e) (est_error ek) = true /\
       ((k < h)%Z -> SFltb (est_error e) (est_error ek) = true)).
Proof.
  intros H HN. apply (@compare_pick _ (NumF lm)) in H as (-> & Hh & err & pay & Hp & _ & Hpay).
  assert (Hi := @pick_inv _ (NumF lm) X p (selection_depth d) ho
    (fun x => notnan x /\ SFltb x (S754_zero false) = false)
    ltac:(intros x [_ Hx]; exact Hx)
    ltac:(intros x y z _ _ _; apply SFltb_trans)
    ltac:(intros x y z _ _ Hz; apply SFltb_weak, Hz)
    ltac:(intros x _; apply SFltb_irrefl)
    ltac:(reflexivity)
    all_hierarchies [] (@nneg _ (NumF lm) (@nint _ (NumF lm) 1), (-1)%Z, None) (err, h, pay)
    ltac:(intros a b Ha; destruct Ha)
    ltac:(intros k ek Hk Hks He; split; [eapply HN; [apply in_all; exact Hk|exact Hks|exact He]|eapply estimate_notneg_F; exact He])
    all_sorted
    ltac:(left; repeat split; intros k Hk; destruct Hk) Hp).
  cbn [app] in Hi. destruct Hi as [(-> & _ & _ & Hn)|(e & Hin & Hsu & He & _ & -> & Hm)].
  - left. split; [reflexivity|]. intros k Hk. apply in_all in Hk. specialize (Hn k Hk).
    destruct (isHierarchySuitable p (isAlphab ho) k); [elim Hn; reflexivity|reflexivity].
  - right. assert (Hin' := Hin). apply in_all in Hin'. split; [exact Hin'|]. split; [exact Hsu|].
    exists e. split; [exact He|]. split; [apply Hpay|]. split; [apply Hpay|]. split; [apply Hpay|]. split; [apply Hpay|].
    intros k ek Hk Hks Hek. assert (Hk' := Hk). apply in_all in Hk'. destruct (Hm k ek Hk' Hks Hek) as [M1 M2].
    split; [|exact M2].
    exact (SF_notlt_le _ _ (HN _ _ Hin' Hsu He) (HN _ _ Hk Hks Hek) M1).
Qed.

