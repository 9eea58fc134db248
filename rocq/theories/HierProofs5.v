(** The final object of calculateDMh3L. *)
From Coq Require Import String ZArith List Bool Lia Reals Lra.
From Verif Require Import Num NumFacts Except HObj Params HierFormulas HierCalc HierSpec HierProofs HierProofs2.
Import ListNotations.
Open Scope string_scope.
#[local] Arguments treelvl : simpl never.
#[local] Arguments getMt41L : simpl never.
#[local] Arguments getMt42L : simpl never.
#[local] Arguments shiftH3mToDRbarPrime : simpl never.
#[local] Arguments shiftH3mToDRbarPrimeMh2 : simpl never.
#[local] Arguments getExpansionUncertainty : simpl never.
#[local] Arguments calcDRbarToMDRbarShift : simpl never.
#[local] Arguments hier_mat : simpl never.
#[local] Arguments hier_regs : simpl never.
#[local] Arguments p_mass_ES : simpl never.
#[local] Arguments calcV2 : simpl never.
#[local] Arguments nadd : simpl never.
#[local] Arguments nmul : simpl never.
#[local] Arguments nsub : simpl never.
#[local] Arguments ndiv : simpl never.
#[local] Arguments nint : simpl never.
#[local] Arguments nneg : simpl never.

Section P.
  Context {T : Type} {N : Num T}.
  Variables (X : Env T) (p : Params T).

  (** the object a fresh calculation would hand to the second half, if told the outcome *)
  Definition equal_but_stale (a b : HO T) : Prop :=
    hierarchy a = hierarchy b /\ rest_same a b /\ absDiff2L a = absDiff2L b /\ relDiff2L a = relDiff2L b /\
    e2 (expUncertainties a) = e2 (expUncertainties b).

  Ltac known :=
    cbv beta iota delta [bind bindC lift ret get_depth set put_checked loop03 loop13 Z.leb Z.ltb Z.compare Pos.compare Pos.compare_cont andb
         isAlphab hierarchy mdrFlag renormalizationScheme absDiff2L relDiff2L expUncertainties dMhMap dMh2Map mdrShift
         mdrMasses dLambdaH3m dLambdaEFT dLambdaNonLog dLambdaXtUncertainty h3mShift dLambdaMap dLambdaShiftMap
         dMh2EFTMap dMh2FOMap dMh2FOAtMap
         with_hierarchy with_mdrFlag with_absDiff2L with_relDiff2L with_expUncertainties with_dMhMap with_dMh2Map with_mdrShift
         with_mdrMasses with_dLambdaH3m with_dLambdaEFT with_dLambdaNonLog with_dLambdaXtUncertainty with_h3mShift
         with_dLambdaMap with_dLambdaShiftMap with_dMh2EFTMap with_dMh2FOMap with_dMh2FOAtMap
         arr4_put arr4_at e0 e1 e2 e3 Z.eqb Pos.eqb negb only3 put_regs sortVector
         getDMh getDLambda at_checked].
  Ltac known_in H :=
    cbv beta iota delta [bind bindC lift ret get_depth set put_checked loop03 loop13 Z.leb Z.ltb Z.compare Pos.compare Pos.compare_cont andb
         isAlphab hierarchy mdrFlag renormalizationScheme absDiff2L relDiff2L expUncertainties dMhMap dMh2Map mdrShift
         mdrMasses dLambdaH3m dLambdaEFT dLambdaNonLog dLambdaXtUncertainty h3mShift dLambdaMap dLambdaShiftMap
         dMh2EFTMap dMh2FOMap dMh2FOAtMap
         with_hierarchy with_mdrFlag with_absDiff2L with_relDiff2L with_expUncertainties with_dMhMap with_dMh2Map with_mdrShift
         with_mdrMasses with_dLambdaH3m with_dLambdaEFT with_dLambdaNonLog with_dLambdaXtUncertainty with_h3mShift
         with_dLambdaMap with_dLambdaShiftMap with_dMh2EFTMap with_dMh2FOMap with_dMh2FOAtMap
         arr4_put arr4_at e0 e1 e2 e3 Z.eqb Pos.eqb negb only3 put_regs sortVector
         getDMh getDLambda at_checked] in H.

  Lemma matrices_stale a b d : equal_but_stale a b ->
    match finish_matrices X p a d, finish_matrices X p b d with
    | (Ok a', d1), (Ok b', d2) => d1 = d2 /\
        exists l m s, a' = with_dLambdaEFT (with_dLambdaXtUncertainty (with_dLambdaShiftMap b' (arr4_put (dLambdaShiftMap b') 3 s)) m) l
    | (Throw e, d1), (Throw e', d2) => e = e' /\ d1 = d2
    | _, _ => False
    end.
  Proof.
    intros (Hh & Hr & Ha & Hrel & He).
    destruct a as [ab h md rs abs rel [x0 x1 x2 x3] dmh dmh2 ms mm l1 l2 l3 l4 hs dl [s0 s1 s2 s3] eft fo foat].
    destruct b as [ab' h' md' rs' abs' rel' [x0' x1' x2' x3'] dmh' dmh2' ms' mm' l1' l2' l3' l4' hs' dl' [s0' s1' s2' s3'] eft' fo' foat'].
    unfold rest_same in Hr. cbn in *.
    repeat match goal with H : _ /\ _ |- _ => destruct H end. subst.
    unfold finish_matrices. cbv zeta. unfold bindC, lift, get_depth.
    rewrite !calcH_eq. known. cbv zeta. known.
    destruct (hier_mat _ _ _ _ _ _ _ _ _) as [m3|]; [|split; reflexivity]. known.
    destruct (hier_regs _ _ _ _ _ _) as [[[r1 r2] [r3 r4]]|]; [|split; reflexivity]. known.
    destruct (shiftH3mToDRbarPrime p ab' h' md') as [sh|] eqn:Esh; [|split; reflexivity]. known.
    destruct (getMt41L p ab' h' 0 0) as [o1|]; [|split; reflexivity]. known.
    destruct (getMt42L X p ab' h' 0 0) as [o2|]; [|split; reflexivity]. known.
    match goal with |- context [getExpansionUncertainty X p ?u ?m 0 0 1 d] =>
      match goal with |- context [getExpansionUncertainty X p ?v m 0 0 1 d] =>
        tryif constr_eq u v then fail else rewrite (unc_same X p d u v m 0 0 1) by (repeat split) end end.
    destruct (getExpansionUncertainty _ _ _ _ _ _ _ _) as [[u3|] d1]; [|split; reflexivity]. known.
    rewrite ?Esh. known. split; [reflexivity|]. exists l2, l4, s3. reflexivity.
  Qed.

  Lemma dl3_stale b l m s om :
    calcDeltaLambda3L X p (with_dLambdaEFT (with_dLambdaXtUncertainty (with_dLambdaShiftMap b (arr4_put (dLambdaShiftMap b) 3 s)) m) l) om
    = calcDeltaLambda3L X p b om.
  Proof.
    destruct b as [ab' h' md' rs' abs' rel' [x0' x1' x2' x3'] dmh' dmh2' ms' mm' l1' l2' l3' l4' hs' dl' [s0' s1' s2' s3'] eft' fo' foat'].
    unfold calcDeltaLambda3L. cbv zeta. destruct om; known;
    repeat match goal with
    | |- (match ?e with Ok _ => _ | Throw _ => _ end) = _ =>
        lazymatch e with match ?e' with Ok _ => _ | Throw _ => _ end => destruct e' | _ => destruct e end; [|reflexivity]
    end; reflexivity.
  Qed.

  Lemma finish_stale a b d : equal_but_stale a b -> finishDMh3L X p a d = finishDMh3L X p b d.
  Proof.
    intros H. apply (matrices_stale a b d) in H. unfold finishDMh3L. unfold bindC, lift, get_depth.
    destruct (finish_matrices X p a d) as [[a'|e] d1]; destruct (finish_matrices X p b d) as [[b'|e'] d2]; try contradiction.
    - destruct H as (<- & l & m & s & ->). rewrite dl3_stale. reflexivity.
    - destruct H as (-> & ->). reflexivity.
  Qed.

  (** ** from the selection to the finished object *)
  Lemma calc_inv ab d o d' : calculateDMh3L X p ab d = (Ok o, d') ->
    exists ho h, compareHierarchies X p (with_mdrFlag (newHO ab) 0) d = (Ok (ho, h), d) /\ finishDMh3L X p ho d = (Ok o, d') /\ d' = d.
  Proof.
    intros H. assert (d' = d). { pose proof (pres_calc X p ab d) as P. rewrite H in P. exact P. } subst d'.
    revert H. unfold calculateDMh3L. unfold bindC at 1. unfold lift. cbn [set negb Z.eqb andb].
    unfold bindC at 1. rewrite (pres_eq _ d (pres_compare X p _)).
    destruct (fst (compareHierarchies X p (with_mdrFlag (newHO ab) 0) d)) as [[ho h]|] eqn:E; [|discriminate].
    intros H. exists ho, h. split; [|split; [exact H|reflexivity]]. reflexivity.
  Qed.

  Lemma no_leak ab d o d' : calculateDMh3L X p ab d = (Ok o, d') ->
    exists ho h, compareHierarchies X p (newHO ab) d = (Ok (ho, h), d) /\
      finishDMh3L X p (told p ab h (absDiff2L ho, relDiff2L ho, e2 (expUncertainties ho))) d = (Ok o, d') /\ d' = d.
  Proof.
    intros H. apply calc_inv in H as (ho & h & Hc & Hf & ->). exists ho, h.
    change (with_mdrFlag (newHO ab) 0) with (newHO ab) in Hc.
    split; [exact Hc|]. split; [|reflexivity]. rewrite <- Hf. apply finish_stale.
    apply compare_pick in Hc as (_ & Hh & err & pay & _ & Hr & _).
    unfold equal_but_stale, told. unfold rest_same in *. cbn in *. split_all.
  Qed.

  (** ** symmetric matrices *)
  Lemma sym_add (a b : mat2 T) : mat2_sym a -> mat2_sym b -> mat2_sym (mat2_add a b).
  Proof. unfold mat2_sym. cbn. intros -> ->. reflexivity. Qed.
  Lemma sym_sub (a b : mat2 T) : mat2_sym a -> mat2_sym b -> mat2_sym (mat2_sub a b).
  Proof. unfold mat2_sym. cbn. intros -> ->. reflexivity. Qed.
  Lemma sym_neg (a : mat2 T) : mat2_sym a -> mat2_sym (mat2_neg a).
  Proof. unfold mat2_sym. cbn. intros ->. reflexivity. Qed.
  Lemma sym_mt41 ab h a b m : getMt41L p ab h a b = Ok m -> mat2_sym m.
  Proof.
    unfold getMt41L. cbv zeta. destruct (shiftMst1ToMDR _ _ _ _ _); cbn [bind]; [|discriminate].
    destruct (shiftMst2ToMDR _ _ _ _ _); cbn [bind]; [|discriminate]. intros [= <-]. reflexivity.
  Qed.
  Lemma sym_mt42 ab h a b m : getMt42L X p ab h a b = Ok m -> mat2_sym m.
  Proof.
    unfold getMt42L. cbv zeta. destruct (shiftMst1ToMDR _ _ _ _ _); cbn [bind]; [|discriminate].
    destruct (shiftMst2ToMDR _ _ _ _ _); cbn [bind]; [|discriminate].
    destruct (env_at_as _ _ _ _ _ _ _ _ _ _ _ _ _) as [[? ?] ?]. intros [= <-]. reflexivity.
  Qed.
  Lemma sym_shift ab h m r : shiftH3mToDRbarPrime p ab h m = Ok r -> mat2_sym r.
  Proof.
    unfold shiftH3mToDRbarPrime. cbv zeta. destruct (shiftMst1ToMDR _ _ _ _ _); cbn [bind]; [|discriminate].
    destruct (shiftMst2ToMDR _ _ _ _ _); cbn [bind]; [|discriminate]. intros [= <-].
    destruct (nltb _ _); [destruct (_ || _)|]; reflexivity.
  Qed.
  Lemma sym_mdr ab h a b m : calcDRbarToMDRbarShift X p ab h a b = Ok m -> mat2_sym m.
  Proof.
    unfold calcDRbarToMDRbarShift. destruct a.
    - destruct (getMt41L p ab h 1 1) eqn:E1; cbn [bind]; [|discriminate].
      destruct (getMt41L p ab h 0 0) eqn:E2; cbn [bind]; [|discriminate].
      apply sym_mt41 in E1, E2.
      assert (S : mat2_sym (mat2_add mat2_zero (mat2_sub a a0))) by (apply sym_add; [reflexivity|apply sym_sub; assumption]).
      destruct b; [|intros [= <-]; exact S].
      destruct (getMt42L X p ab h 1 1) eqn:E3; cbn [bind]; [|discriminate].
      destruct (getMt42L X p ab h 0 0) eqn:E4; cbn [bind]; [|discriminate].
      apply sym_mt42 in E3, E4. intros [= <-]. apply sym_add; [exact S|]. apply sym_sub; assumption.
    - cbn [bind]. destruct b; [|intros [= <-]; reflexivity].
      destruct (getMt42L X p ab h 1 1) eqn:E3; cbn [bind]; [|discriminate].
      destruct (getMt42L X p ab h 0 0) eqn:E4; cbn [bind]; [|discriminate].
      apply sym_mt42 in E3, E4. intros [= <-]. apply sym_add; [reflexivity|]. apply sym_sub; assumption.
  Qed.
  Lemma sym_hier d ho l1 l2 l3 o m : calculateHierarchy X p d ho l1 l2 l3 = Ok (o, m) -> mat2_sym m.
  Proof.
    rewrite calcH_eq. cbv zeta. unfold hier_mat. destruct (step_pure _ _ _ _ _ _ _ _ _) as [[[a b] c]|]; cbn [bind]; [|discriminate].
    destruct (only3 _ _ _); [destruct (hier_regs _ _ _ _ _ _); cbn [bind]; [|discriminate]|]; intros [= _ <-]; reflexivity.
  Qed.

  (** what each piece of the second half does, as far as the theorems need it *)
  Lemma matrices_inv ho d o d' : finish_matrices X p ho d = (Ok o, d') ->
    exists c s m1 m2 r, calculateHierarchy X p d ho 0 0 1 = Ok (put_regs ho r, c) /\
      shiftH3mToDRbarPrime p (isAlphab ho) (hierarchy ho) (mdrFlag ho) = Ok s /\
      getMt41L p (isAlphab ho) (hierarchy ho) 0 0 = Ok m1 /\ getMt42L X p (isAlphab ho) (hierarchy ho) 0 0 = Ok m2 /\
      dMhMap o = mkArr4 (e0 (dMhMap ho)) m1 m2 (mat2_add c s) /\ h3mShift o = mat2_neg s /\
      same_key o ho /\ e1 (expUncertainties o) = nint 0 /\ e2 (expUncertainties o) = e2 (expUncertainties ho) /\
      absDiff2L o = absDiff2L ho /\ relDiff2L o = relDiff2L ho /\
      getExpansionUncertainty X p ho (mat2_add (mat2_add (e0 (dMhMap ho)) m1) m2) 0 0 1 d = (Ok (e3 (expUncertainties o)), d) /\
      renormalizationScheme o = renormalizationScheme ho.
  Proof.
    intros K. rewrite calcH_eq. revert K.
    unfold finish_matrices. unfold bindC, lift, get_depth. rewrite calcH_eq. cbv zeta.
    destruct (hier_mat _ _ _ _ _ _ _ _ _) as [c|]; [|discriminate].
    destruct (hier_regs _ _ _ _ _ _) as [r|] eqn:Er; [|discriminate].
    destruct ho as [ab h md rs abs rel [x0 x1 x2 x3] [d0 d1 d2 d3] dmh2 ms mm l1 l2 l3 l4 hs dl [s0 s1 s2 s3] eft fo foat].
    destruct r as [[r1 r2] [r3 r4]]. intros K. known_in K. revert K. cbn [isAlphab hierarchy mdrFlag dMhMap h3mShift expUncertainties e0 e1 e2 e3 absDiff2L relDiff2L renormalizationScheme bind only3 Z.eqb Pos.eqb andb].
    destruct (shiftH3mToDRbarPrime p ab h md) as [sh|] eqn:Esh; [|discriminate].
    destruct (getMt41L p ab h 0 0) as [o1|]; [|discriminate].
    destruct (getMt42L X p ab h 0 0) as [o2|]; [|discriminate].
    match goal with |- context [getExpansionUncertainty X p ?u ?m 0 0 1 d] =>
      rewrite (unc_same X p d u (mkHO ab h md rs abs rel (mkArr4 x0 x1 x2 x3) (mkArr4 d0 d1 d2 d3) dmh2 ms mm l1 l2 l3 l4 hs dl (mkArr4 s0 s1 s2 s3) eft fo foat) m 0 0 1) by (repeat split);
      pose proof (pres_unc X p (mkHO ab h md rs abs rel (mkArr4 x0 x1 x2 x3) (mkArr4 d0 d1 d2 d3) dmh2 ms mm l1 l2 l3 l4 hs dl (mkArr4 s0 s1 s2 s3) eft fo foat) m 0 0 1 d) as Hp
    end.
    destruct (getExpansionUncertainty _ _ _ _ _ _ _ _) as [[u3|] dd] eqn:Eu; [|discriminate]. cbn in Hp. subst dd.
    rewrite Esh. intros [= <- _]. exists c, sh, o1, o2, (r1, r2, mkV2 r3 r4). cbn [isAlphab hierarchy mdrFlag dMhMap h3mShift expUncertainties e0 e1 e2 e3 absDiff2L relDiff2L renormalizationScheme].
    repeat split; try exact Eu.
  Qed.

  Lemma lambda_inv ho o : finish_lambda X p ho = Ok o ->
    same_key o ho /\ dMhMap o = dMhMap ho /\ h3mShift o = h3mShift ho /\ expUncertainties o = expUncertainties ho /\
    absDiff2L o = absDiff2L ho /\ relDiff2L o = relDiff2L ho /\ renormalizationScheme o = renormalizationScheme ho /\
    e0 (dLambdaShiftMap o) = nint 0 /\ e1 (dLambdaShiftMap o) = nint 0 /\
    (isAlphab ho = false -> e3 (dLambdaMap o) = dLambdaEFT o /\ dLambdaH3m o = dLambdaH3m ho /\ dLambdaEFT o = dLambdaEFT ho /\
       dLambdaNonLog o = dLambdaNonLog ho /\ dLambdaXtUncertainty o = dLambdaXtUncertainty ho /\
       e3 (dLambdaShiftMap o) = e3 (dLambdaShiftMap ho) /\
       exists y, env_threshold X (p_mass_ES p) 4 YT_AS 1 = Ok y /\
         e2 (dLambdaShiftMap o) = (let gt := ndiv (nmul (nconst Csqrt2) (Mt p)) (nsqrt (calcV2 p)) in
            ndiv (nmul (nmul (nconst CtwoLoop) (pow2 (nmul (nmul (Mt p) gt) (g3 p)))) (nmul (nmul (nint (-4)) (e1 (dLambdaMap o))) y)) (calcV2 p))) /\
    (isAlphab ho = true -> e3 (dLambdaMap o) = nint 0 /\ dLambdaH3m o = nint 0 /\ dLambdaEFT o = nint 0 /\
       dLambdaNonLog o = nint 0 /\ dLambdaXtUncertainty o = nint 0 /\ e3 (dLambdaShiftMap o) = nint 0).
  Proof.
    unfold finish_lambda. cbv zeta.
    destruct ho as [ab h md rs abs rel [x0 x1 x2 x3] [d0 d1 d2 d3] dmh2 ms mm l1 l2 l3 l4 hs dl [s0 s1 s2 s3] eft fo foat].
    intros K. known_in K. revert K.
    destruct (env_eft0 _ _ _); [|discriminate]. destruct (env_threshold _ _ _ LAMBDA_AT _); [|discriminate].
    destruct (env_threshold _ _ _ LAMBDA_AT_AS _); [|discriminate].
    destruct ab.
    - intros [= <-]. cbn. repeat split; try discriminate.
    - destruct (env_threshold _ _ _ YT_AS _) as [y|]; [|discriminate]. intros [= <-]. cbn.
      repeat split; try discriminate. exists y. split; reflexivity.
  Qed.

  Lemma fo_inv ho o : finish_fo X p ho = Ok o -> exists a b, o = with_dMh2FOAtMap (with_dMh2FOMap ho a) b /\ e0 b = nint 0.
  Proof.
    unfold finish_fo. destruct ho as [ab h md rs abs rel [x0 x1 x2 x3] [d0 d1 d2 d3] dmh2 ms mm l1 l2 l3 l4 hs dl [s0 s1 s2 s3] eft fo foat].
    intros K. known_in K. revert K. destruct (env_fo X p false) as [[[f0 f1] f2]|]; [|discriminate].
    destruct (env_fo X p true) as [[[g0 g1] g2]|]; [|discriminate]. intros [= <-].
    eexists _, _. split; [reflexivity|reflexivity].
  Qed.
  Lemma eft_inv ho o : finish_eft X p ho = Ok o -> exists a, o = with_dMh2EFTMap ho a.
  Proof.
    unfold finish_eft. destruct ho as [ab h md rs abs rel [x0 x1 x2 x3] [d0 d1 d2 d3] dmh2 ms mm l1 l2 l3 l4 hs dl [s0 s1 s2 s3] eft fo foat].
    intros K. known_in K. revert K. destruct (env_eft0 _ _ _); [|discriminate]. destruct (env_eft1 _ _ _ _ _); [|discriminate].
    destruct (env_eft2 _ _ _ _ _); [|discriminate]. destruct (env_eft3 _ _ _ _ _ _); [|discriminate].
    intros [= <-]. eexists; reflexivity.
  Qed.
  Lemma mdr_inv d ho o : finish_mdr X p d ho = Ok o ->
    exists s s3 m3 o' v, calcDRbarToMDRbarShift X p (isAlphab ho) (hierarchy ho) true true = Ok s /\
      calculateHierarchy X p d (with_mdrFlag ho 1) 0 0 1 = Ok (o', m3) /\
      shiftH3mToDRbarPrime p (isAlphab ho) (hierarchy ho) 1 = Ok s3 /\
      calcMsfMDRFlag p (isAlphab ho) (hierarchy ho) 1 3 = Ok v /\
      o = with_mdrShift (with_mdrMasses ho (sortVector (sortVector (mkV2 (fst v) (snd v))))) (mat2_sub (mat2_add s (mat2_add m3 s3)) (e3 (dMhMap ho))).
  Proof.
    intros K. rewrite calcH_eq. cbv zeta. cbn [isAlphab hierarchy with_mdrFlag mdrFlag only3 Z.eqb Pos.eqb andb].
    unfold finish_mdr in K. cbn [set negb Z.eqb Pos.eqb andb bind isAlphab hierarchy with_mdrFlag mdrFlag] in K.
    destruct (calcDRbarToMDRbarShift X p (isAlphab ho) (hierarchy ho) true true) as [s|]; [|discriminate K]. cbn [bind] in K.
    rewrite calcH_eq in K. cbv zeta in K. cbn [only3 Z.eqb Pos.eqb andb bind isAlphab hierarchy with_mdrShift with_mdrFlag mdrFlag] in K.
    destruct (hier_mat X p d (isAlphab ho) (hierarchy ho) 1 0 0 1) as [m3|]; [|discriminate K]. cbn [bind] in K.
    destruct (hier_regs X p d (isAlphab ho) (hierarchy ho) 1) as [r|] eqn:Er; [|discriminate K]. cbn [bind] in K.
    unfold hier_regs in Er. destruct (hier_order _ _ _ _ _ _ _) as [[out lm]|]; cbn [bind] in Er; [|discriminate Er].
    destruct (calcMsfMDRFlag p (isAlphab ho) (hierarchy ho) 1 3) as [[a b]|]; cbn [bind] in Er; [|discriminate Er]. injection Er as <-.
    cbn [put_regs isAlphab hierarchy with_mdrMasses with_dLambdaNonLog with_dLambdaH3m with_mdrShift with_mdrFlag mdrFlag] in K.
    destruct (shiftH3mToDRbarPrime p (isAlphab ho) (hierarchy ho) 1) as [s4|]; [|discriminate K]. cbn [bind] in K.
    destruct ho as [ab h md rs abs rel [x0 x1 x2 x3] [d0 d1 d2 d3] dmh2 ms mm l1 l2 l3 l4 hs dl [s0 s1 s2 s3] eft fo foat].
    cbn [bind put_regs]. exists s, s4, m3. eexists. exists (a, b).
    split; [reflexivity|]. split; [reflexivity|]. split; [reflexivity|]. split; [reflexivity|].
    known_in K. injection K as <-. reflexivity.
  Qed.
  Lemma dmh2_inv ho o : finish_dmh2 X ho = Ok o ->
    let m := dMhMap ho in
    let '(x0, x1, x2, x3) := env_pert X (e0 m) (e1 m) (e2 m) (e3 m) in
    o = with_dMh2FOAtMap (with_dMh2FOMap (with_dMh2Map ho (mkArr4 x0 x1 x2 x3)) (arr4_put (dMh2FOMap ho) 3 x3)) (arr4_put (dMh2FOAtMap ho) 3 x3).
  Proof.
    unfold finish_dmh2. destruct ho as [ab h md rs abs rel [x0 x1 x2 x3] [d0 d1 d2 d3] dmh2 ms mm l1 l2 l3 l4 hs dl [s0 s1 s2 s3] eft [f0 f1 f2 f3] [g0 g1 g2 g3]].
    cbv zeta. cbn [dMhMap e0 e1 e2 e3]. intros K. known_in K. revert K. destruct (env_pert X d0 d1 d2 d3) as [[[y0 y1] y2] y3]. intros [= <-]. reflexivity.
  Qed.

  Lemma finish_inv ho d o d' : finishDMh3L X p ho d = (Ok o, d') ->
    exists a b c e f g, finish_matrices X p ho d = (Ok a, d) /\ calcDeltaLambda3L X p a false = Ok b /\
      finish_lambda X p b = Ok c /\ finish_fo X p c = Ok e /\ finish_eft X p e = Ok f /\
      finish_mdr X p d f = Ok g /\ finish_dmh2 X g = Ok o.
  Proof.
    unfold finishDMh3L, bindC, lift, get_depth.
    assert (Hp : pres (finish_matrices X p ho)).
    { unfold finish_matrices.
      repeat first [apply pres_lift | apply pres_unc | apply pres_get
                 | apply pres_bind; [| let a := fresh "a" in intro a; try (destruct a as [[? ?] ?] || destruct a as [? ?])]
                 | apply pres_ret]. }
    specialize (Hp d). destruct (finish_matrices X p ho d) as [[a|] d1]; cbn in Hp; subst; [|discriminate].
    destruct (calcDeltaLambda3L X p a false) as [b|] eqn:Eb; [|discriminate].
    destruct (finish_lambda X p b) as [c|] eqn:Ec; [|discriminate].
    destruct (finish_fo X p c) as [e|] eqn:Ee; [|discriminate].
    destruct (finish_eft X p e) as [f|] eqn:Ef; [|discriminate].
    destruct (finish_mdr X p d f) as [g|] eqn:Eg; [|discriminate].
    intros [= H _]. exists a, b, c, e, f, g. auto 10.
  Qed.
End P.
