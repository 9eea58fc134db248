(** Selection in the presence of NaN errors. *)
From Coq Require Import String ZArith List Bool Lia Reals Lra.
From Coq Require Import Floats.SpecFloat.
From Verif Require Import Num NumFacts Except HObj Params HierFormulas HierCalc HierSpec HierProofs HierProofs2 HierProofs3 HObjProofs.
Import ListNotations.
Open Scope string_scope.
#[local] Arguments isHierarchySuitable : simpl never.

Section NaN.
  Variable lm : Libm.
  Local Notation NF := (NumF lm).
  Local Hint Extern 0 (Num F64) => exact (NumF lm) : typeclass_instances.
  Variables (X : Env F64) (p : Params F64) (d : Depth) (ho : HO F64).
  Let suit k := isHierarchySuitable p (isAlphab ho) k = true.

  Lemma ltb_nan_l x : SFltb S754_nan x = false. Proof. reflexivity. Qed.
  Lemma ltb_nan_r x : SFltb x S754_nan = false. Proof. destruct x as [[]|[]| |[] ? ?]; reflexivity. Qed.
  Lemma isnan_eq x : F64isnan x = true -> x = S754_nan.
  Proof. destruct x; try discriminate. reflexivity. Qed.

  Lemma pick_skip l1 k0 l2 : forall r,
    (forall k, In k l1 -> isHierarchySuitable p (isAlphab ho) k = false) -> suit k0 ->
    pick X p d ho (nneg (nint 1), (-1)%Z, None) (l1 ++ k0 :: l2) = Ok r ->
    exists e, estimate X p d ho k0 = Ok e /\ pick X p d ho (est_error e, k0, Some e) l2 = Ok r.
  Proof.
    induction l1 as [|k l1 IH]; intros r Hl Hs H.
    - cbn [app pick] in H. unfold suit in Hs. rewrite Hs in H.
      destruct (estimate X p d ho k0) as [e|]; cbn [bind] in H; [|discriminate].
      exists e. split; [reflexivity|]. exact H.
    - cbn [app pick] in H. rewrite (Hl k) in H by (left; reflexivity).
      apply IH; [intros; apply Hl; right; assumption|exact Hs|exact H].
  Qed.

  Lemma pick_nan l : forall s e r, F64isnan (est_error e) = true ->
    pick X p d ho (est_error e, s, Some e) l = Ok r -> r = (est_error e, s, Some e).
  Proof.
    induction l as [|k l IH]; intros s e r Hn H; [cbn in H; congruence|].
    cbn [pick] in H. destruct (isHierarchySuitable p (isAlphab ho) k); [|eapply IH; eassumption].
    destruct (estimate X p d ho k) as [ek|]; cbn [bind] in H; [|discriminate].
    apply isnan_eq in Hn. change (@nltb _ NF) with SFltb in H. rewrite Hn, ltb_nan_l, ltb_nan_r in H. cbn [orb] in H.
    rewrite <- Hn in H. eapply IH; [rewrite Hn; reflexivity|exact H].
  Qed.

  Lemma pick_good l : forall done s e err' s' pay',
    (forall a b, In a done -> In b l -> (a < b)%Z) ->
    (forall l1 a l2 b l3, l = (l1 ++ a :: l2 ++ b :: l3)%list -> (a < b)%Z) ->
    In s done -> suit s -> estimate X p d ho s = Ok e -> F64isnan (est_error e) = false ->
    (forall k ek, In k done -> suit k -> estimate X p d ho k = Ok ek -> F64isnan (est_error ek) = false ->
         SFltb (est_error ek) (est_error e) = false /\ ((k < s)%Z -> SFltb (est_error e) (est_error ek) = true)) ->
    pick X p d ho (est_error e, s, Some e) l = Ok (err', s', pay') ->
    exists e', In s' (done ++ l) /\ suit s' /\ estimate X p d ho s' = Ok e' /\ F64isnan (est_error e') = false /\
      pay' = Some e' /\
      (forall k ek, In k (done ++ l) -> suit k -> estimate X p d ho k = Ok ek -> F64isnan (est_error ek) = false ->
         SFltb (est_error ek) (est_error e') = false /\ ((k < s')%Z -> SFltb (est_error e') (est_error ek) = true)).
  Proof.
    induction l as [|h l IH]; intros done s e err' s' pay' Hd Hsrt Hin Hs He Hn Hm H.
    - cbn in H. injection H as <- <- <-. rewrite app_nil_r. exists e. auto 10.
    - replace (done ++ h :: l)%list with ((done ++ [h]) ++ l)%list by (rewrite <- app_assoc; reflexivity).
      assert (Hd' : forall a b, In a (done ++ [h])%list -> In b l -> (a < b)%Z).
      { intros a b Ha Hb. apply in_app_or in Ha as [Ha|[<-|[]]]; [apply Hd; [exact Ha|right; exact Hb]|].
        apply in_split in Hb as (l1 & l2 & ->). apply (Hsrt [] h l1 b l2). reflexivity. }
      assert (Hsrt' : forall l1 a l2 b l3, l = (l1 ++ a :: l2 ++ b :: l3)%list -> (a < b)%Z).
      { intros l1 a l2 b l3 ->. apply (Hsrt (h :: l1) a l2 b l3). reflexivity. }
      assert (Hsh : (s < h)%Z) by (apply Hd; [exact Hin|left; reflexivity]).
      cbn [pick] in H. destruct (isHierarchySuitable p (isAlphab ho) h) eqn:Su.
      + destruct (estimate X p d ho h) as [eh|] eqn:Eh; cbn [bind] in H; [|discriminate].
        change (@nltb _ NF) with SFltb in H.
        assert (N0 : SFltb (est_error e) (@nint _ NF 0) = false) by (eapply (estimate_notneg_F lm); exact He).
        rewrite N0 in H. cbn [orb] in H.
        destruct (SFltb (est_error eh) (est_error e)) eqn:L.
        * assert (Nh : F64isnan (est_error eh) = false) by (destruct (est_error eh); try reflexivity; discriminate).
          eapply IH with (s := h) (e := eh); [exact Hd'|exact Hsrt'| |exact Su|exact Eh|exact Nh| |exact H].
          -- apply in_or_app; right; left; reflexivity.
          -- intros k ek Hk Hks Hke Hkn. apply in_app_or in Hk as [Hk|[<-|[]]].
             ++ destruct (Hm k ek Hk Hks Hke Hkn) as [M1 M2]. split.
                ** destruct (SFltb (est_error ek) (est_error eh)) eqn:L2; [|reflexivity].
                   rewrite (SFltb_trans _ _ _ L2 L) in M1. discriminate.
                ** intros _. eapply SFltb_weak; [exact Hkn|exact L|exact M1].
             ++ rewrite Eh in Hke; injection Hke as <-. split; [apply SFltb_irrefl|lia].
        * eapply IH with (s := s) (e := e); [exact Hd'|exact Hsrt'| |exact Hs|exact He|exact Hn| |exact H].
          -- apply in_or_app; left; exact Hin.
          -- intros k ek Hk Hks Hke Hkn. apply in_app_or in Hk as [Hk|[<-|[]]]; [apply Hm; assumption|].
             rewrite Eh in Hke; injection Hke as <-. split; [exact L|lia].
      + eapply IH with (s := s) (e := e); [exact Hd'|exact Hsrt'| |exact Hs|exact He|exact Hn| |exact H].
        * apply in_or_app; left; exact Hin.
        * intros k ek Hk Hks Hke Hkn. apply in_app_or in Hk as [Hk|[<-|[]]]; [apply Hm; assumption|].
          unfold suit in Hks. rewrite Su in Hks. discriminate.
  Qed.
End NaN.

Lemma all_split h : is_hierarchy h -> exists l1 l2, all_hierarchies = (l1 ++ h :: l2)%list /\
   (forall k, In k l1 -> is_hierarchy k /\ (k < h)%Z).
Proof.
  intros H. apply in_all in H. apply in_split in H as (l1 & l2 & E). exists l1, l2. split; [exact E|].
  intros k Hk. split.
  - apply in_all. rewrite E. apply in_or_app. left. exact Hk.
  - apply in_split in Hk as (a & b & ->). apply (all_sorted a k b h l2). rewrite E, <- app_assoc. reflexivity.
Qed.

Lemma nan_sticks lm (X : Env F64) (p : Params F64) d ho ho' h d' k0 e0 :
  @compareHierarchies _ (NumF lm) X p ho d = (Ok (ho', h), d') ->
  lowest_suitable lm p (isAlphab ho) k0 ->
  @estimate _ (NumF lm) X p (selection_depth d) ho k0 = Ok e0 -> F64isnan (est_error e0) = true ->
  h = k0.
Proof.
  intros H (K0 & K1 & K2) He Hn. apply (@compare_pick _ (NumF lm)) in H as (-> & Hh & err & pay & Hp & _ & Hpay).
  destruct (all_split k0 K0) as (l1 & l2 & E & Hl1). rewrite E in Hp.
  apply (pick_skip lm) in Hp as (e & Ee & Hp); [|intros k Hk; apply K2; apply Hl1; exact Hk|exact K1].
  rewrite He in Ee. injection Ee as <-. apply (pick_nan lm) in Hp; [congruence|exact Hn].
Qed.

Lemma nan_later lm (X : Env F64) (p : Params F64) d ho ho' h d' k0 e0 :
  @compareHierarchies _ (NumF lm) X p ho d = (Ok (ho', h), d') ->
  lowest_suitable lm p (isAlphab ho) k0 ->
  @estimate _ (NumF lm) X p (selection_depth d) ho k0 = Ok e0 -> F64isnan (est_error e0) = false ->
  is_hierarchy h /\ @isHierarchySuitable _ (NumF lm) p (isAlphab ho) h = true /\
  exists e, @estimate _ (NumF lm) X p (selection_depth d) ho h = Ok e /\ F64isnan (est_error e) = false /\
    forall k ek, is_hierarchy k -> @isHierarchySuitable _ (NumF lm) p (isAlphab ho) k = true ->
       @estimate _ (NumF lm) X p (selection_depth d) ho k = Ok ek -> F64isnan (est_error ek) = false ->
       SFleb (est_error e) (est_error ek) = true /\
       ((k < h)%Z -> SFltb (est_error e) (est_error ek) = true).
Proof.
  intros H (K0 & K1 & K2) He Hn. apply (@compare_pick _ (NumF lm)) in H as (-> & Hh & err & pay & Hp & _ & Hpay).
  destruct (all_split k0 K0) as (l1 & l2 & E & Hl1). rewrite E in Hp.
  apply (pick_skip lm) in Hp as (e & Ee & Hp); [|intros k Hk; apply K2; apply Hl1; exact Hk|exact K1].
  rewrite He in Ee. injection Ee as <-.
  assert (Hall : forall k, is_hierarchy k -> @isHierarchySuitable _ (NumF lm) p (isAlphab ho) k = true -> In k ([k0] ++ l2)%list).
  { intros k Hk Hks. apply in_all in Hk. rewrite E in Hk. apply in_app_or in Hk as [Hk|Hk]; [|exact Hk].
    rewrite (K2 k) in Hks; [discriminate|apply Hl1; exact Hk|apply Hl1; exact Hk]. }
  apply (pick_good lm X p (selection_depth d) ho l2 [k0]) in Hp.
  - destruct Hp as (e' & Hin & Hs & He' & Hn' & _ & Hm).
    split. { apply in_all. rewrite E. apply in_or_app. right. exact Hin. }
    split; [exact Hs|]. exists e'. split; [exact He'|]. split; [exact Hn'|].
    intros k ek Hk Hks Hke Hkn. destruct (Hm k ek (Hall k Hk Hks) Hks Hke Hkn) as [M1 M2].
    split; [|exact M2]. exact (SF_notlt_le _ _ Hn' Hkn M1).
  - intros a b [<-|[]] Hb. apply in_split in Hb as (a1 & a2 & ->). apply (all_sorted l1 k0 a1 b a2). exact E.
  - intros a1 a a2 b a3 ->. apply (all_sorted (l1 ++ k0 :: a1) a a2 b a3). rewrite E, <- app_assoc. reflexivity.
  - left. reflexivity.
  - exact K1.
  - exact He.
  - exact Hn.
  - intros k ek [<-|[]] _ Hke _. rewrite He in Hke. injection Hke as <-. split; [apply SFltb_irrefl|lia].
Qed.

(** ** which spectra have a suitable hierarchy (C14), and what suitability says (C15) *)
Section Real.
  Open Scope R_scope.
  Variables (p : Params R) (ab : bool) (m1 m2 mg mq : R).
  Hypothesis S : spectrum p ab m1 m2 mg mq.
  Lemma Rdec_13 : Rdec 13 1 = 13/10. Proof. unfold Rdec. cbn. lra. Qed.
  Lemma Rdec_01 : Rdec 1 1 = 1/10. Proof. unfold Rdec. cbn. lra. Qed.
  Lemma sp_q : calcMeanMsq p = mq.
  Proof. destruct S. unfold calcMeanMsq, calculateMsq2. unR. rewrite Rdec_01. assumption. Qed.

  Definition suitableP (h : Z) : Prop :=
    m2 <= 13/10 * mq /\ mg <= 13/10 * mq /\
    let gap := 1/10 * m1 < m2 - m1 in
    let near1 := mg - m1 < Rabs (mg - m2) in
    let near2 := m2 - mg < Rabs (mg - m1) in
    match h with
    | 0%Z => m2 < mg
    | 1%Z => mq <= m2 /\ mg < m2
    | 2%Z => m2 < mq /\ mg < m2
    | 3%Z => m1 < mq /\ mg <= m1
    | 4%Z => ((gap /\ near1) /\ m2 < mq) /\ mg <= m1
    | 5%Z => ((gap /\ near1) /\ m2 < mq) /\ m1 < mg
    | 6%Z => ((gap /\ near2) /\ m2 * (13/10) < mq) /\ mg <= m2
    | 11%Z => ((gap /\ near2) /\ m2 * (13/10) < mq) /\ m2 < mg
    | 7%Z => ((gap /\ near2) /\ mq <= m2) /\ mg <= m2
    | 8%Z => ((gap /\ near2) /\ mq <= m2) /\ m2 < mg
    | 9%Z => ((gap /\ near2) /\ m2 < mq) /\ mg <= m2
    | 10%Z => ((gap /\ near2) /\ m2 < mq) /\ m2 < mg
    | 12%Z => mq <= m2 /\ m2 - m1 < m1 - mg
    | 13%Z => m2 < mq /\ m1 - m1 < m1 - mg
    | _ => False
    end.
  Lemma Rltb_iff a b : Rltb a b = true <-> a < b.
  Proof. destruct (Rltb_spec a b); split; auto; try discriminate; lra. Qed.
  Lemma Rleb_iff a b : Rleb a b = true <-> a <= b.
  Proof. destruct (Rleb_spec a b); split; auto; try discriminate; lra. Qed.
  Lemma suit_iff h : isHierarchySuitable p ab h = true <-> suitableP h.
  Proof.
    unfold isHierarchySuitable, suitableP. rewrite sp_q. cbv zeta. unfold sfMass1, sfMass2.
    rewrite (sp_m1 _ _ _ _ _ _ S), (sp_m2 _ _ _ _ _ _ S), (sp_mg _ _ _ _ _ _ S). unR. rewrite Rdec_13, Rdec_01.
    destruct (Rltb_spec (13/10*mq) m2); [split; [discriminate|lra]|].
    destruct (Rltb_spec (13/10*mq) mg); [split; [discriminate|lra]|].
    assert (A : forall b P, (b = true <-> P) -> (b = true <-> m2 <= 13/10*mq /\ mg <= 13/10*mq /\ P)) by tauto.
    apply A. clear A.
    assert (D : (h = 0 \/ h = 1 \/ h = 2 \/ h = 3 \/ h = 4 \/ h = 5 \/ h = 6 \/ h = 7 \/ h = 8 \/ h = 9 \/ h = 10 \/ h = 11 \/ h = 12 \/ h = 13 \/ ~ is_hierarchy h)%Z)
      by (unfold is_hierarchy; lia).
    repeat destruct D as [->|D]; rewrite ?andb_true_iff, ?Rltb_iff, ?Rleb_iff; try tauto.
    assert (E : match h with 0%Z|1%Z|2%Z|3%Z|4%Z|5%Z|6%Z|7%Z|8%Z|9%Z|10%Z|11%Z|12%Z|13%Z => True | _ => False end -> False).
    { intros HH. apply D. unfold is_hierarchy. destruct h as [|[[[[| |]|[| |]|]|[[| |]|[| |]|]|]|[[[| |]|[| |]|]|[[| |]|[| |]|]|]|]|]; try destruct HH; lia. }
    clear - E. destruct h as [|[[[[| |]|[| |]|]|[[| |]|[| |]|]|]|[[[| |]|[| |]|]|[[| |]|[| |]|]|]|]|];
      (elim E; exact I) || (split; [discriminate|tauto]).
  Qed.

  Lemma coverage : 0 < m1 <= m2 ->
    ((exists h, is_hierarchy h /\ isHierarchySuitable p ab h = true) <->
     m2 <= 13/10 * mq /\ mg <= 13/10 * mq /\ (mg <> m2 \/ 1/10 * m1 < m2 - m1 \/ m1 = m2 /\ m1 < mq)).
  Proof.
    intros Hm. split.
    - intros (h & Hh & Hs). apply suit_iff in Hs. unfold suitableP in Hs. cbv zeta in Hs.
      destruct Hs as (A & B & C). split; [exact A|]. split; [exact B|].
      destruct (Req_EM_T mg m2) as [->|]; [|left; assumption]. right.
      unfold is_hierarchy in Hh.
      assert (D : (h = 0 \/ h = 1 \/ h = 2 \/ h = 3 \/ h = 4 \/ h = 5 \/ h = 6 \/ h = 7 \/ h = 8 \/ h = 9 \/ h = 10 \/ h = 11 \/ h = 12 \/ h = 13)%Z) by lia.
      repeat destruct D as [->|D]; try subst h; try lra.
      all: try (left; tauto).
    - intros (A & B & C).
      assert (R : forall h, is_hierarchy h -> suitableP h -> exists h, is_hierarchy h /\ isHierarchySuitable p ab h = true).
      { intros h Hh Hs. exists h. split; [exact Hh|]. apply suit_iff. exact Hs. }
      destruct (Rtotal_order mg m2) as [L|[E|G]].
      + destruct (Rlt_dec m2 mq).
        * apply (R 2%Z); [unfold is_hierarchy; lia|]. unfold suitableP. cbv zeta. lra.
        * apply (R 1%Z); [unfold is_hierarchy; lia|]. unfold suitableP. cbv zeta. lra.
      + destruct C as [C|[C|C]]; [lra| |].
        * destruct (Rlt_dec m2 mq).
          -- apply (R 9%Z); [unfold is_hierarchy; lia|]. unfold suitableP. cbv zeta. rewrite E.
             rewrite (Rabs_pos_eq (m2 - m1)) by lra. lra.
          -- apply (R 7%Z); [unfold is_hierarchy; lia|]. unfold suitableP. cbv zeta. rewrite E.
             rewrite (Rabs_pos_eq (m2 - m1)) by lra. lra.
        * apply (R 3%Z); [unfold is_hierarchy; lia|]. unfold suitableP. cbv zeta. lra.
      + apply (R 0%Z); [unfold is_hierarchy; lia|]. unfold suitableP. cbv zeta. lra.
  Qed.

  Lemma meaning_of h : 0 < m1 <= m2 -> h <> 13%Z -> isHierarchySuitable p ab h = true -> meaning h m1 m2 mg mq.
  Proof.
    intros Hpos Hne Hs. apply suit_iff in Hs. unfold suitableP in Hs. cbv zeta in Hs. destruct Hs as (A & B & C).
    destruct h as [|[[[[| |]|[| |]|]|[[| |]|[| |]|]|]|[[[| |]|[| |]|]|[[| |]|[| |]|]|]|]|]; try contradiction; try congruence;
      cbn [meaning]; try lra.
    all: unfold Rabs in *; repeat destruct (Rcase_abs _); try lra.
  Qed.
End Real.
