(** * Property theorem C64: where the strong threshold corrections are defined *)
From Coq Require Import Reals Lra Lia List ZArith Bool String.
From Verif Require Import Num NumFacts Except Params ParamsExamples HierFormulas Dilog LoopFun Thresh ThreshTwo Threshold ThreshSpec ThreshProofs ThreshLimit PropThresh Defined Agree DefCases.
Import ListNotations.
Open Scope R_scope.

(** ** Specification *)
(** Squared masses that the formulas of a mass limit must be able to tell apart. *)
Definition regular (c : TC R) (l : Z) : Prop :=
  let p := tc_p c in let mQ := a22 (mq2 p) in let mU := a22 (mu2 p) in let mG := MG p * MG p in let mS := tc_msq2 c in
  (l = GENERAL /\ mQ <> mU /\ mG <> mQ /\ mG <> mU) \/
  (l = MQ3_EQ_MU3 /\ mG <> mQ) \/
  (l = MQ3_EQ_M3 /\ mQ <> mU /\ mS <> mQ) \/
  (l = MU3_EQ_M3 /\ mQ <> mU /\ mS <> mU) \/
  (l = MQ3_EQ_MU3_EQ_M3 /\ mS <> mQ) \/
  l = DEGENERATE.
(** the corrections that involve the strong coupling and the top Yukawa coupling only *)
Definition strong : list tco := [G3_AS; YT_AS; YT_AS2; LAMBDA_AT; LAMBDA_AT_AS; LAMBDA_AT_AS2; VEV_YT2].
(** [liftTC c] is the calculator [c] with arithmetic in which x/0, ln x for x <= 0 and sqrt x for x < 0 are undefined (NaN),
    and remain undefined in every sum, product and function. *)

(** ** Proofs *)
Definition lk (p : Params R) := PtR (sqrt (a22 (mq2 p))) (sqrt (a22 (mu2 p))) (MG p) (v0 (MSt p)) (scale p) (vu p) (vd p) (mu p) (a22 (Au p))
  (g1 p) (g2 p) (g3 p) (M1 p) (M2 p) (MW p) (MZ p) (Mt p) (Mb p) (Mtau p) (MA p) (s2t p) (s2b p) (s2tau p) (theta_t p) (theta_b p) (theta_tau p)
  (md2 p) (ml2 p) (me2 p) (Ad p) (Ae p) (Yu p) (Yd p) (Ye p)
  (a00 (mq2 p)) (a01 (mq2 p)) (a02 (mq2 p)) (a10 (mq2 p)) (a11 (mq2 p)) (a12 (mq2 p)) (a20 (mq2 p)) (a21 (mq2 p))
  (a00 (mu2 p)) (a01 (mu2 p)) (a02 (mu2 p)) (a10 (mu2 p)) (a11 (mu2 p)) (a12 (mu2 p)) (a20 (mu2 p)) (a21 (mu2 p))
  (a00 (Au p)) (a01 (Au p)) (a02 (Au p)) (a10 (Au p)) (a11 (Au p)) (a12 (Au p)) (a20 (Au p)) (a21 (Au p)) (v1 (MSt p)) (MSb p) (MStau p) (massLimit3LThreshold p).
Lemma lk_eq p : 0 < a22 (mq2 p) -> 0 < a22 (mu2 p) -> lk p = p.
Proof.
  intros Hq Hu. unfold lk, PtR. rewrite !sqrt_sqrt by lra. destruct p; cbn.
  repeat match goal with m : mat3 R |- _ => destruct m | v : vec2 R |- _ => destruct v end. reflexivity.
Qed.
Lemma ne_sqrt a b : 0 < a -> 0 < b -> a <> b -> sqrt a <> sqrt b.
Proof. intros A B N E. apply N. apply sqrt_inj; lra. Qed.
Lemma ne_sqrt_l a b : 0 < a -> 0 < b -> b * b <> a -> b <> sqrt a.
Proof. intros A B N E. apply N. rewrite E, sqrt_sqrt by lra. reflexivity. Qed.

Ltac ud H := lazymatch goal with ms : R |- _ => first [unshelve (eapply H with (s := sqrt ms); assumption)|unshelve (eapply H; assumption); exact 1] end; try exact 1.
(** the building blocks *)
Definition blocks (p : Params PR) (p' : Params R) (ms : PR) (ms' : R) (l : Z) : Prop := forall o,
  agree (Ok (getDeltaG3Alphas p ms o)) (Ok (getDeltaG3Alphas p' ms' o)) /\ agree (getDeltaYtAlphas p l o) (getDeltaYtAlphas p' l o) /\
  agree (getDeltaYtAlphas2 p ms l o) (getDeltaYtAlphas2 p' ms' l o) /\ agree (getDeltaLambdaAlphat p l o) (getDeltaLambdaAlphat p' l o) /\
  agree (getDeltaLambdaAlphatAlphas p l o) (getDeltaLambdaAlphatAlphas p' l o) /\
  (forall xo, agree (getDeltaLambdaAlphatAlphas2 p ms xo l o) (getDeltaLambdaAlphatAlphas2 p' ms' xo l o)) /\
  (forall xo, agree (getDRbarPrimeToMSbarXtTerms p ms l xo o) (getDRbarPrimeToMSbarXtTerms p' ms' l xo o)) /\
  agree (Ok (getDeltaVevYt2 p l)) (Ok (getDeltaVevYt2 p' l)).
Lemma blocks_hold c l : phys_tc c -> regular c l -> blocks (liftP (tc_p c)) (tc_p c) (Some (tc_msq2 c)) (tc_msq2 c) l.
Proof.
  destruct c as [p ms xt]. cbn [tc_p tc_msq2]. intros [(HM & HQ & _ & _ & _ & _ & HG & HS & Hu & Hd) Hs] HR. cbn [tc_p tc_msq2] in *.
  assert (Pq : 0 < a22 (mq2 p)) by (apply (HM (mq2 p)); cbn; tauto). assert (Pu : 0 < a22 (mu2 p)) by (apply (HM (mu2 p)); cbn; tauto). clear HM.
  pose proof (sqrt_lt_R0 _ Pq) as Rq. pose proof (sqrt_lt_R0 _ Pu) as Ru. pose proof (sqrt_lt_R0 _ Hs) as Rs.
  unfold regular in HR. cbn [tc_p tc_msq2] in HR.
  rewrite <- (lk_eq p Pq Pu). replace ms with (sqrt ms * sqrt ms) by (apply sqrt_sqrt; lra).
  destruct HR as [(-> & H1 & H2 & H3)|[(-> & H1)|[(-> & H1 & H2)|[(-> & H1 & H2)|[(-> & H1)| ->]]]]]; intros o; unfold lk.
  - apply (ne_sqrt _ _ Pq Pu) in H1. apply (ne_sqrt_l _ _ Pq HG) in H2. apply (ne_sqrt_l _ _ Pu HG) in H3.
    repeat match goal with |- _ /\ _ => split end; [ud def_g3|ud def_yta_G|ud def_yta2_G|ud def_lat_G|ud def_lata_G|intros xo; ud def_lata2_G|intros xo; ud def_xtt_G|ud def_vev_G].
  - apply (ne_sqrt_l _ _ Pq HG) in H1.
    repeat match goal with |- _ /\ _ => split end; [ud def_g3|ud def_yta_QU|ud def_yta2_QU|ud def_lat_QU|ud def_lata_QU|intros xo; ud def_lata2_QU|intros xo; ud def_xtt_QU|ud def_vev_QU].
  - apply (ne_sqrt _ _ Pq Pu) in H1. apply (ne_sqrt _ _ Hs Pq) in H2.
    repeat match goal with |- _ /\ _ => split end; [ud def_g3|ud def_yta_QM|ud def_yta2_QM|ud def_lat_QM|ud def_lata_QM|intros xo; ud def_lata2_QM|intros xo; ud def_xtt_QM|ud def_vev_QM].
  - apply (ne_sqrt _ _ Pq Pu) in H1. apply (ne_sqrt _ _ Hs Pu) in H2.
    repeat match goal with |- _ /\ _ => split end; [ud def_g3|ud def_yta_UM|ud def_yta2_UM|ud def_lat_UM|ud def_lata_UM|intros xo; ud def_lata2_UM|intros xo; ud def_xtt_UM|ud def_vev_UM].
  - apply (ne_sqrt _ _ Hs Pq) in H1.
    repeat match goal with |- _ /\ _ => split end; [ud def_g3|ud def_yta_QUM|ud def_yta2_QUM|ud def_lat_QUM|ud def_lata_QUM|intros xo; ud def_lata2_QUM|intros xo; ud def_xtt_QUM|ud def_vev_QUM].
  - repeat match goal with |- _ /\ _ => split end; [ud def_g3|ud def_yta_D|ud def_yta2_D|ud def_lat_D|ud def_lata_D|intros xo; ud def_lata2_D|intros xo; ud def_xtt_D|ud def_vev_D].
Qed.
Ltac ag H := let v := fresh "v" in let E := fresh "E" in let F := fresh "F" in destruct H as (v & E & F).
Lemma ok_inj {T} (a b : T) : Ok a = Ok b -> a = b. Proof. intros E. injection E as E. exact E. Qed.

(** ** C64 *)
(** In the six mass limits, for all masses that the limit must be able to tell apart, every strong correction is a defined number, in every
    scheme and with and without logarithms, and it is the number that the model over the real numbers computes (so no theorem about these
    corrections over the reals rests on a convention for x/0). *)
Theorem C64 (c : TC R) (o : tco) (s : scheme) (omitLogs : Z) : phys_tc c -> regular c (getLimit c) -> In o strong ->
  exists v, getThresholdCorrection (liftTC c) o s omitLogs = Ok (Some v) /\ getThresholdCorrection c o s omitLogs = Ok v.
Proof.
  intros HP HR HI. pose proof (blocks_hold c (getLimit c) HP HR omitLogs) as (B1 & B2 & B3 & B4 & B5 & B6 & B7 & B8).
  specialize (B6 (tc_xt c)). clear B7. ag B1. ag B2. ag B3. ag B4. ag B5. ag B6. ag B8. apply ok_inj in E, F, E5, F5.
  unfold getThresholdCorrection, strong in *. unfold liftTC. cbn [tc_p tc_msq2 tc_xt].
  change (massLimit3LThreshold (liftP (tc_p c))) with (getLimit c). change (massLimit3LThreshold (tc_p c)) with (getLimit c).
  repeat (destruct HI as [<-|HI]); [..|destruct HI];
    rewrite ?E, ?F, ?E0, ?F0, ?E1, ?F1, ?E2, ?F2, ?E3, ?F3, ?E4, ?F4, ?E5, ?F5; cbn [bind]; destruct s; eexists; split; reflexivity.
Qed.
Theorem C64_shift (c : TC R) (x omitLogs omitXtLogs : Z) : phys_tc c -> regular c (getLimit c) ->
  exists v, getDRbarPrimeToMSbarShift (liftTC c) x omitLogs omitXtLogs = Ok (Some v) /\ getDRbarPrimeToMSbarShift c x omitLogs omitXtLogs = Ok v.
Proof.
  intros HP HR. pose proof (blocks_hold c (getLimit c) HP HR omitLogs) as (B1 & B2 & B3 & B4 & B5 & _).
  pose proof (blocks_hold c (getLimit c) HP HR omitXtLogs) as (_ & _ & _ & _ & _ & _ & B7 & _).
  pose proof (B7 4%Z) as G4. pose proof (B7 5%Z) as G5. pose proof (B7 6%Z) as G6. clear B7.
  ag B1. ag B2. ag B3. ag B4. ag B5. ag G4. ag G5. ag G6. apply ok_inj in E, F.
  unfold getDRbarPrimeToMSbarShift, liftTC. cbn [tc_p tc_msq2 tc_xt].
  change (massLimit3LThreshold (liftP (tc_p c))) with (getLimit c). change (massLimit3LThreshold (tc_p c)) with (getLimit c).
  rewrite ?E, ?F, ?E0, ?F0, ?E1, ?F1, ?E2, ?F2, ?E3, ?F3, ?E4, ?F4, ?E5, ?F5, ?E6, ?F6. destruct (x <=? 3)%Z; cbn [bind]; eexists; split; reflexivity.
Qed.

(** The condition is sharp: at every other point the two-loop correction of the top Yukawa coupling is NaN, in both schemes. *)
Lemma yta2_irregular c l o : phys_tc c -> known_limit l -> ~ regular c l -> getDeltaYtAlphas2 (liftP (tc_p c)) (Some (tc_msq2 c)) l o = Ok None.
Proof.
  destruct c as [p ms xt]. cbn [tc_p tc_msq2]. intros [(HM & HQ & _ & _ & _ & _ & HG & HS & Hu & Hd) Hs] HK HR. cbn [tc_p tc_msq2] in *.
  assert (Pq : 0 < a22 (mq2 p)) by (apply (HM (mq2 p)); cbn; tauto). assert (Pu : 0 < a22 (mu2 p)) by (apply (HM (mu2 p)); cbn; tauto). clear HM.
  pose proof (sqrt_lt_R0 _ Pq) as Rq. pose proof (sqrt_lt_R0 _ Pu) as Ru. pose proof (sqrt_lt_R0 _ Hs) as Rs.
  assert (SG : forall a, a = MG p * MG p -> MG p = sqrt a) by (intros a ->; rewrite sqrt_square; lra).
  unfold regular in HR. cbn [tc_p tc_msq2] in HR.
  rewrite <- (lk_eq p Pq Pu). replace ms with (sqrt ms * sqrt ms) by (apply sqrt_sqrt; lra).
  destruct (known_cases _ HK) as [->|[->|[->|[->|[->| ->]]]]]; unfold lk.
  - destruct (Req_dec (a22 (mq2 p)) (a22 (mu2 p))) as [H1|H1]; [apply und_G_qu; try assumption; rewrite H1; reflexivity|].
    destruct (Req_dec (MG p * MG p) (a22 (mq2 p))) as [H2|H2]; [apply und_G_q; try assumption; apply SG; symmetry; exact H2|].
    destruct (Req_dec (MG p * MG p) (a22 (mu2 p))) as [H3|H3]; [apply und_G_u; try assumption; apply SG; symmetry; exact H3|].
    exfalso. apply HR. left. repeat split; assumption.
  - destruct (Req_dec (MG p * MG p) (a22 (mq2 p))) as [H2|H2]; [apply und_QU_m; try assumption; apply SG; symmetry; exact H2|].
    exfalso. apply HR. right; left. repeat split; assumption.
  - destruct (Req_dec (a22 (mq2 p)) (a22 (mu2 p))) as [H1|H1]; [apply und_QM_u; try assumption; rewrite H1; reflexivity|].
    destruct (Req_dec ms (a22 (mq2 p))) as [H2|H2]; [apply und_QM_s; try assumption; rewrite H2; reflexivity|].
    exfalso. apply HR. right; right; left. repeat split; assumption.
  - destruct (Req_dec (a22 (mq2 p)) (a22 (mu2 p))) as [H1|H1]; [apply und_UM_q; try assumption; rewrite H1; reflexivity|].
    destruct (Req_dec ms (a22 (mu2 p))) as [H2|H2]; [apply und_UM_s; try assumption; rewrite H2; reflexivity|].
    exfalso. apply HR. right; right; right; left. repeat split; assumption.
  - destruct (Req_dec ms (a22 (mq2 p))) as [H2|H2]; [apply und_QUM_s; try assumption; rewrite H2; reflexivity|].
    exfalso. apply HR. right; right; right; right; left. repeat split; assumption.
  - exfalso. apply HR. do 5 right. reflexivity.
Qed.
Lemma sub_none (a : PR) : @nsub PR NumP a None = None. Proof. destruct a; reflexivity. Qed.
Theorem C64_sharp (c : TC R) (s : scheme) (omitLogs : Z) : phys_tc c -> known_limit (getLimit c) ->
  ((exists v, getThresholdCorrection (liftTC c) YT_AS2 s omitLogs = Ok (Some v)) <-> regular c (getLimit c)).
Proof.
  intros HP HK. split.
  - intros [v H]. destruct (Classical_Prop.classic (regular c (getLimit c))) as [G|G]; [exact G|exfalso].
    pose proof (yta2_irregular c (getLimit c) omitLogs HP HK G) as E. revert H. unfold getThresholdCorrection, liftTC. cbn [tc_p tc_msq2 tc_xt].
    change (massLimit3LThreshold (liftP (tc_p c))) with (getLimit c). rewrite E. cbn [bind].
    destruct s; try discriminate. destruct (getDeltaYtAlphas (liftP (tc_p c)) (getLimit c) omitLogs); cbn [bind]; [|discriminate]. rewrite sub_none. discriminate.
  - intros HR. destruct (C64 c YT_AS2 s omitLogs HP HR) as (v & H & _); [unfold strong; cbn; tauto|]. exists v. exact H.
Qed.

(** ** The limit chosen by the constructor *)
Definition close (a b r : R) : Prop := Rabs (a - b) < r / 100.
(** The mass of the light-flavour squarks coincides with the mass that the chosen limit keeps, and the constructor has not noticed. *)
Definition coincidence (c : TC R) : Prop :=
  let mQ := sqrt (a22 (mq2 (tc_p c))) in let mU := sqrt (a22 (mu2 (tc_p c))) in let m3 := MG (tc_p c) in let mS := sqrt (tc_msq2 c) in
  (close mQ mU mQ /\ close mU m3 mQ /\ ~ close m3 mS mQ /\ mS = mQ) \/
  (~ close mQ mU mQ /\ close mQ m3 mQ /\ mS = mQ) \/
  (~ close mQ mU mQ /\ ~ close mQ m3 mQ /\ close mU m3 mU /\ mS = mU).

Lemma yta2_defined c l o : phys_tc c -> known_limit l ->
  (regular c l /\ exists v, getDeltaYtAlphas2 (liftP (tc_p c)) (Some (tc_msq2 c)) l o = Ok (Some v)) \/
  (~ regular c l /\ getDeltaYtAlphas2 (liftP (tc_p c)) (Some (tc_msq2 c)) l o = Ok None).
Proof.
  intros HP HK. destruct (Classical_Prop.classic (regular c l)) as [G|G]; [left|right]; split; try exact G.
  - destruct (blocks_hold c l HP G o) as (_ & _ & (v & E & _) & _). exists v. exact E.
  - apply yta2_irregular; assumption.
Qed.
Lemma general_total (q : Params PR) m o : exists x, getDeltaYtAlphas2 q m GENERAL o = Ok x.
Proof. eexists. unfold getDeltaYtAlphas2. reflexivity. Qed.
Lemma mul_none (a : PR) : @nmul PR NumP a None = None. Proof. destruct a; reflexivity. Qed.
(** the branch of limit [l] returns [l], or GENERAL if both formulas are defined *)
Lemma branch_result c l ms' pref a b : phys_tc c -> getLimit c = GENERAL -> known_limit l -> exists r,
  choose_branch (liftP (tc_p c)) (Some (tc_msq2 c)) ms' pref a b l = Ok r /\ (r = l \/ (r = GENERAL /\ regular c GENERAL /\ regular c l)).
Proof.
  intros HP HL HK. unfold choose_branch. destruct (general_total (with_mU32_m3 (liftP (tc_p c)) a b) ms' 1) as [x Hx]. rewrite Hx.
  change (massLimit3LThreshold (liftP (tc_p c))) with (getLimit c). rewrite HL.
  destruct (yta2_defined c l 1 HP HK) as [[G [v E]]|[G E]]; rewrite E; clear E;
  destruct (yta2_defined c GENERAL 1 HP) as [[G' [v' E]]|[G' E]]; try (unfold known_limit, GENERAL; lia); rewrite E; clear E; cbn [bind];
    match goal with |- context [isGeneralStable ?e ?s ?t] => destruct (isGeneralStable e s t) eqn:ES0 end; eexists; (split; [reflexivity|]); auto; exfalso; revert ES0;
    unfold isGeneralStable; rewrite ?mul_none, ?sub_none; cbn [nisfin NumP negb orb]; try discriminate.
  repeat match goal with |- context [if ?b then _ else _] => destruct b end; try discriminate.
  all: destruct (nabs (nsub (nmul pref x) None)) eqn:K; try (rewrite sub_none in K); try discriminate.
Qed.
Lemma abs_test a b r t : 0 < a -> @nltb PR NumP (@nabs PR NumP (@nsub PR NumP (Some a) (Some b))) (@nmul PR NumP (Some r) (@ndec PR NumP 1 2)) = t -> if t then close a b r else ~ close a b r.
Proof.
  intros _ <-. cbn [nltb nabs nsub nmul ndec NumP p1 p2 pcmp option_map]. assert (E : Rdec 1 2 = / 100) by (unfold Rdec; simpl; lra). rewrite E. unfold close.
  destruct (Rltb_spec (Rabs (a - b)) (r * / 100)) as [H|H]; unfold Rdiv; lra.
Qed.
Ltac ntest N := apply abs_test in N; [cbv beta iota in N|assumption].
Lemma branch_finish c l ms' pref a b : phys_tc c -> getLimit c = GENERAL -> known_limit l -> near (masses (tc_p c) (tc_msq2 c)) l -> (regular c l <-> ~ coincidence c) -> exists r,
  choose_branch (liftP (tc_p c)) (Some (tc_msq2 c)) ms' pref a b l = Ok r /\ known_limit r /\ (r = GENERAL \/ near (masses (tc_p c) (tc_msq2 c)) r) /\ (regular c r <-> ~ coincidence c).
Proof.
  intros HP HL HK HN HE. destruct (branch_result c l ms' pref a b HP HL HK) as (r & E & D). exists r. split; [exact E|].
  destruct D as [->|(-> & D1 & D2)]; [tauto|]. split; [unfold known_limit, GENERAL; lia|]. tauto.
Qed.
Ltac nearp := intros i j HI; cbn in HI; repeat (destruct HI as [HI|HI]; [injection HI as <- <-; assumption|]); destruct HI.
(** The constructor, started with the default limit, chooses a limit whose formulas are defined for the given masses, unless the coincidence above occurs. *)
Theorem C64_chosen (c : TC R) : phys_tc c -> getLimit c = GENERAL -> exists l,
  choose_limit (liftP (tc_p c)) (Some (tc_msq2 c)) = Ok l /\ known_limit l /\ (l = GENERAL \/ near (masses (tc_p c) (tc_msq2 c)) l) /\ (regular c l <-> ~ coincidence c).
Proof.
  intros HP HL. pose proof HP as [(HM & _ & _ & _ & _ & _ & HG & _) Hs].
  assert (Pq : 0 < a22 (mq2 (tc_p c))) by (apply (HM (mq2 (tc_p c))); cbn; tauto). assert (Pu : 0 < a22 (mu2 (tc_p c))) by (apply (HM (mu2 (tc_p c))); cbn; tauto). clear HM.
  pose proof (sqrt_lt_R0 _ Pq) as Rq. pose proof (sqrt_lt_R0 _ Pu) as Ru. pose proof (sqrt_lt_R0 _ Hs) as Rs.
  assert (Ex := sqrt_sqrt _ (Rlt_le _ _ Pq)). assert (Ey := sqrt_sqrt _ (Rlt_le _ _ Pu)). assert (Ez := sqrt_sqrt _ (Rlt_le _ _ Hs)).
  unfold choose_limit. cbv zeta.
  change (a22 (mq2 (liftP (tc_p c)))) with (Some (a22 (mq2 (tc_p c))) : PR). change (a22 (mu2 (liftP (tc_p c)))) with (Some (a22 (mu2 (tc_p c))) : PR).
  change (MG (liftP (tc_p c))) with (Some (MG (tc_p c)) : PR). rewrite !(V_sqrt _ Pq), !(V_sqrt _ Pu), !(V_sqrt _ Hs).
  match goal with |- context [nltb ?a ?b && nltb ?a' ?b' && nltb ?a'' ?b''] => destruct (nltb a b) eqn:N1; [destruct (nltb a' b') eqn:N2; [destruct (nltb a'' b'') eqn:N3|]|] end; cbn [andb].
  - ntest N1. ntest N2. ntest N3. apply branch_finish; try assumption; [unfold known_limit, DEGENERATE; lia|nearp|]. unfold regular, coincidence. cbv zeta. split; [tauto|intros _; do 5 right; reflexivity].
  - ntest N1. ntest N2. ntest N3. apply branch_finish; try assumption; [unfold known_limit, MQ3_EQ_MU3_EQ_M3; lia|nearp|]. unfold regular, coincidence. cbv zeta. split.
    + intros R C. assert (E : sqrt (tc_msq2 c) = sqrt (a22 (mq2 (tc_p c)))) by tauto. assert (tc_msq2 c = a22 (mq2 (tc_p c))) by (rewrite <- Ez, E, Ex; reflexivity).
      repeat (destruct R as [R|R]; [decompose [and] R; try discriminate; contradiction|]). discriminate.
    + intros C. right; right; right; right; left. split; [reflexivity|]. intros E. apply C. left. split; [|split; [|split; [|rewrite E; reflexivity]]]; assumption.
  - ntest N1. ntest N2. apply branch_finish; try assumption; [unfold known_limit, MQ3_EQ_MU3; lia|nearp|]. unfold regular, coincidence. cbv zeta. split; [tauto|intros _]. right; left. split; [reflexivity|].
    intros E. apply N2. assert (F : MG (tc_p c) = sqrt (a22 (mq2 (tc_p c)))) by (rewrite <- E, sqrt_square; lra). rewrite F. unfold close in *. rewrite Rabs_minus_sym. exact N1.
  - match goal with |- context [nltb ?a ?b] => destruct (nltb a b) eqn:N4 end.
    + ntest N1. ntest N4. apply branch_finish; try assumption; [unfold known_limit, MQ3_EQ_M3; lia|nearp|]. unfold regular, coincidence. cbv zeta. split.
      * intros R C. assert (E : sqrt (tc_msq2 c) = sqrt (a22 (mq2 (tc_p c)))) by tauto. assert (tc_msq2 c = a22 (mq2 (tc_p c))) by (rewrite <- Ez, E, Ex; reflexivity).
        repeat (destruct R as [R|R]; [decompose [and] R; try discriminate; contradiction|]). discriminate.
      * intros C. right; right; left. split; [reflexivity|]. split; intros E; [apply N1|apply C; right; left; split; [|split; [|rewrite E; reflexivity]]; assumption]. unfold close. rewrite E, Rminus_eq_0, Rabs_R0. lra.
    + match goal with |- context [nltb ?a ?b] => destruct (nltb a b) eqn:N5 end.
      * ntest N1. ntest N4. ntest N5. apply branch_finish; try assumption; [unfold known_limit, MU3_EQ_M3; lia|nearp|]. unfold regular, coincidence. cbv zeta. split.
        -- intros R C. assert (E : sqrt (tc_msq2 c) = sqrt (a22 (mu2 (tc_p c)))) by tauto. assert (tc_msq2 c = a22 (mu2 (tc_p c))) by (rewrite <- Ez, E, Ey; reflexivity).
           repeat (destruct R as [R|R]; [decompose [and] R; try discriminate; contradiction|]). discriminate.
        -- intros C. right; right; right; left. split; [reflexivity|]. split; intros E; [apply N1|apply C; right; right; split; [|split; [|split; [|rewrite E; reflexivity]]]; assumption]. unfold close. rewrite E, Rminus_eq_0, Rabs_R0. lra.
      * exists GENERAL. change (massLimit3LThreshold (liftP (tc_p c))) with (getLimit c). rewrite HL. split; [reflexivity|]. split; [unfold known_limit, GENERAL; lia|]. split; [left; reflexivity|].
        ntest N1. ntest N4. ntest N5. unfold regular, coincidence. cbv zeta. split; [tauto|intros _]. left. split; [reflexivity|].
        assert (F : forall a, MG (tc_p c) * MG (tc_p c) = a -> MG (tc_p c) = sqrt a) by (intros a <-; rewrite sqrt_square; lra).
        repeat split; intros E; [apply N1; rewrite E|apply N4; rewrite (F _ E)|apply N5; rewrite (F _ E)]; unfold close; rewrite Rminus_eq_0, Rabs_R0; lra.
Qed.

(** ** Refutation of: the constructor always chooses a limit whose formulas are defined *)
(** At a point with mQ3 = msq, a gluino heavier by half a percent, and a far right-handed stop (finding 28), the general formula is defined, but the
    constructor chooses the limit MQ3_EQ_M3 and the two-loop correction is NaN. *)
Definition light : R := 1000000 ^ 3 / ((1000000 + 9 - (1/2 - (1 - (80/91)^2) / 3) * 91^2 * ((20^2 - 200^2) / (200^2 + 20^2))) * (1000000 + 9 - (1 - (80/91)^2) / 3 * 91^2 * ((20^2 - 200^2) / (200^2 + 20^2)))).
Definition c_nan : TC R := mkTC (mkParams 1500 500 (1/2) (2/3) 1 20 200 (diag3 1000000) (diag3 1000000) (mkM3 light 0 0 0 1000000 0 0 0 4000000) (diag3 1000000) (diag3 1000000)
    (diag3 1500) (diag3 0) (diag3 0) (diag3 0) (diag3 0) (diag3 0) 400 800 1005 80 91 150 3 2 1000
    (mkV2 900 2100) (mkV2 1000 1500) (mkV2 1000 1000) (1/10) 0 0 0 0 0 GENERAL) 1000000 6.
Lemma light_pos : 0 < light. Proof. unfold light. apply Rdiv_lt_0_compat; [apply pow_lt; lra|apply Rmult_lt_0_compat; lra]. Qed.
Lemma c_nan_phys : phys_tc c_nan.
Proof.
  unfold phys_tc, phys, c_nan, diag3. cbn [tc_p tc_msq2 scale mu mq2 md2 mu2 ml2 me2 MA M1 M2 MG MSt vu vd v0 a22 In].
  repeat match goal with |- (_ /\ _) => split end; try lra. pose proof light_pos. intros m [<-|[<-|[<-|[<-|[<-|[]]]]]]; cbn [a00 a11 a22]; lra.
Qed.
Lemma sqrt_1e6 : sqrt 1000000 = 1000. Proof. replace 1000000 with (1000 * 1000) by lra. apply sqrt_square. lra. Qed.
Lemma sqrt_4e6 : sqrt 4000000 = 2000. Proof. replace 4000000 with (2000 * 2000) by lra. apply sqrt_square. lra. Qed.
(** [msq2] is the tenth root of the product of the squared soft masses, as the constructor computes it *)
Lemma c_nan_msq2 : calculateMsq2 (tc_p c_nan) = tc_msq2 c_nan.
Proof.
  assert (E : msq2_factors (tc_p c_nan) = 1000000 ^ 10).
  { unfold msq2_factors, calc_cos2beta, calc_v2, calc_sw2, calc_cw2, half, c_nan, diag3, light. cbn [tc_p mq2 mu2 md2 vu vd MW MZ Mb a00 a11 a22 nisfin NumR]. unR. unfold pow2, Rdec. unR. simpl. field. }
  unfold calculateMsq2. rewrite E. unR. cbn [tc_msq2 c_nan]. replace (Rdec 1 1) with (/ INR 10) by (unfold Rdec; simpl; lra).
  rewrite <- (Rpower_pow 10) by lra. rewrite Rpower_mult, Rinv_r by (simpl; lra). apply Rpower_1. lra.
Qed.
Theorem C64_refuted : phys_tc c_nan /\ calculateMsq2 (tc_p c_nan) = tc_msq2 c_nan /\ regular c_nan GENERAL /\
  forall s omitLogs, choose_limit (liftP (tc_p c_nan)) (Some (tc_msq2 c_nan)) = Ok MQ3_EQ_M3 /\
  getThresholdCorrection (liftTC (setLimit c_nan MQ3_EQ_M3)) YT_AS2 s omitLogs = Ok None.
Proof.
  split; [exact c_nan_phys|]. split; [exact c_nan_msq2|].
  assert (RG : regular c_nan GENERAL).
  { left. split; [reflexivity|]. unfold c_nan, diag3. cbn [tc_p mq2 mu2 MG a22]. repeat split; lra. }
  split; [exact RG|]. intros s o. 
  assert (NR : ~ regular c_nan MQ3_EQ_M3).
  { unfold regular. cbv zeta. intros R. repeat (destruct R as [R|R]; [decompose [and] R; try discriminate; unfold c_nan, diag3 in *; cbn [tc_p tc_msq2 mq2 a22] in *; lra|]). discriminate. }
  split.
  - destruct (C64_chosen c_nan c_nan_phys eq_refl) as (l & E & HK & HN & HR). rewrite E. f_equal.
    assert (C : coincidence c_nan).
    { right; left. unfold close, c_nan, diag3. cbn [tc_p tc_msq2 mq2 mu2 MG a22]. rewrite sqrt_1e6, sqrt_4e6. split; [|split; [|reflexivity]]; [rewrite Rabs_left by lra; lra|rewrite Rabs_left by lra; lra]. }
    destruct (known_cases l HK) as [->|[->|[->|[->|[->| ->]]]]]; try reflexivity; exfalso; apply (proj1 HR); try exact C; unfold regular; cbv zeta; unfold c_nan, diag3; cbn [tc_p tc_msq2 mq2 mu2 MG a22].
    + exact RG.
    + right; left. split; [reflexivity|lra].
    + do 3 right; left. split; [reflexivity|]. split; lra.
    + destruct HN as [HN|HN]; [discriminate|]. specialize (HN 0%nat 1%nat (or_introl eq_refl)). change (Rabs (sqrt 1000000 - sqrt 4000000) < sqrt 1000000 / 100) in HN. rewrite sqrt_1e6, sqrt_4e6 in HN. rewrite Rabs_left in HN by lra. exfalso; lra.
    + do 5 right. reflexivity.
  - pose proof (yta2_irregular c_nan MQ3_EQ_M3 o c_nan_phys ltac:(unfold known_limit, MQ3_EQ_M3; lia) NR) as E.
    unfold getThresholdCorrection, liftTC. cbn [tc_p tc_msq2 tc_xt setLimit].
    change (getDeltaYtAlphas2 (liftP (with_limit (tc_p c_nan) MQ3_EQ_M3))) with (getDeltaYtAlphas2 (liftP (tc_p c_nan))). 
    change (massLimit3LThreshold (liftP (with_limit (tc_p c_nan) MQ3_EQ_M3))) with MQ3_EQ_M3. rewrite E. cbn [bind].
    destruct s; try reflexivity. destruct (getDeltaYtAlphas _ _ o) eqn:F; cbn [bind]; [rewrite sub_none; reflexivity|].
    exfalso. revert F. unfold getDeltaYtAlphas. cbn [Z.eqb Pos.eqb MQ3_EQ_M3 GENERAL]. discriminate.
Qed.
Example C64_nonvacuous : phys_tc c_thr /\ regular c_thr (getLimit c_thr) /\ getLimit c_thr = GENERAL /\ ~ coincidence c_thr.
Proof.
  split; [exact (proj1 C50_nonvacuous)|]. assert (R : regular c_thr (getLimit c_thr)).
  { left. split; [reflexivity|]. unfold c_thr, p_thr, diag3. cbn [tc_p mq2 mu2 MG a22]. repeat split; lra. }
  split; [exact R|]. split; [reflexivity|].
  unfold coincidence. cbv zeta. intros C. unfold c_thr, p_thr, diag3 in C. cbn [tc_p tc_msq2 mq2 mu2 MG a22] in C.
  assert (E1 : sqrt 2250000 = 1500) by (replace 2250000 with (1500 * 1500) by lra; apply sqrt_square; lra). rewrite E1, sqrt_1e6, sqrt_4e6 in C.
  lra.
Qed.
