(** * C73-C76: exchange symmetries of the threshold corrections *)
From Coq Require Import Reals ZArith List Bool String Lra Lia.
From Verif Require Import Num NumFacts Except Params HierFormulas Dilog LoopFun LoopSpec LoopProofs LoopProofs4 Thresh ThreshTwo Threshold HierPoly FieldNF ThreshTree ThreshDeep MirrorSpec MirrorProofs MirrorProofs2 MirrorProofs3.
Open Scope R_scope.

(** ** C73: bottom and top at order g3^2 *)
(** The correction of order at^2 as of the mirror point is the correction of order ab^2 as, evaluated with the opposite sign of Xb, plus the
    product of the one-loop correction and the correction of the Yukawa coupling (the two are given in terms of different couplings), in each of
    the five mass limits that the bottom correction distinguishes. *)
Theorem C73_bottom_is_mirrored_top_partial : forall (p : Params R) (limit : Z), phys_b p -> b_limit p limit ->
  exists y a, getDeltaYtAlphas (mirror p) limit 1 = Ok y /\ getDeltaLambdaAlphat (mirror p) limit 1 = Ok a /\
    getDeltaLambdaAlphatAlphas (mirror p) limit 1 = Ok (getDeltaLambdaYb4G32 (reflect_b p) 1 + 4 * y * a).
Proof. intros p limit H. exact (G32_id p H limit). Qed.
(** The correction of the bottom Yukawa coupling is the negative of the mirrored correction of the top Yukawa coupling, with the same sign of Xb. *)
Theorem C73_bottom_yukawa_is_mirrored_top : forall p : Params R, phys_b p -> loop_windows (mQ p / MG p) (mD p / MG p) ->
  getDeltaYtAlphas (mirror p) GENERAL 1 = Ok (- getDeltaYbAs p 1).
Proof. intros p H. exact (YbAs_id p H). Qed.

Definition dg3 (x : R) : mat3 R := mkM3 1 0 0 0 1 0 0 0 x.
Definition mpt (q2 d2 u2 l2 e2 X m g a : R) : Params R :=
  mkParams 1 m 1 1 1 4 3 (dg3 q2) (dg3 d2) (dg3 u2) (dg3 l2) (dg3 e2) (dg3 0) (dg3 X) (dg3 X) (dg3 1) (dg3 1) (dg3 1)
    1 1 g 1 1 1 1 1 a (mkV2 1 4) (mkV2 1 3) (mkV2 1 3) 0 0 0 0 0 0 0%Z.
Lemma s1 : sqrt 1 = 1. Proof. exact sqrt_1. Qed.
Lemma s9 : sqrt 9 = 3. Proof. replace 9 with (3 * 3) by lra. apply sqrt_square. lra. Qed.
Lemma s16 : sqrt 16 = 4. Proof. replace 16 with (4 * 4) by lra. apply sqrt_square. lra. Qed.
Lemma s25 : sqrt 25 = 5. Proof. replace 25 with (5 * 5) by lra. apply sqrt_square. lra. Qed.
Lemma s49 : sqrt 49 = 7. Proof. replace 49 with (7 * 7) by lra. apply sqrt_square. lra. Qed.
Ltac ab := unfold Rabs; destruct Rcase_abs; lra.
Definition pm1 := mpt 1 9 49 1 9 1 5 4 11.
Example C73_nonvacuous : phys_b pm1 /\ b_limit pm1 GENERAL /\ loop_windows (mQ pm1 / MG pm1) (mD pm1 / MG pm1) /\ calcXb pm1 <> 0.
Proof.
  split; [constructor; cbn; lra|]. unfold b_limit, loop_windows, apart, close, mQ, mD. cbn [pm1 mpt mq2 md2 dg3 a22 MG]. rewrite s1, s9. cbv zeta.
  split; [left; repeat split; ab|]. split; [repeat split; try lra; ab|]. unfold calcXb, calcTanBeta. cbn. lra.
Qed.
Example C73_nonvacuous_degenerate : phys_b (mpt 1 1 1 1 1 1 0 1 1) /\ b_limit (mpt 1 1 1 1 1 1 0 1 1) MQ3_EQ_MU3_EQ_M3 /\
  b_limit (mpt 1 1 1 1 1 1 0 4 1) MQ3_EQ_MU3 /\ b_limit (mpt 1 9 1 1 1 1 0 1 1) MQ3_EQ_M3 /\ b_limit (mpt 1 9 1 1 1 1 0 3 1) MU3_EQ_M3.
Proof.
  split; [constructor; cbn; lra|]. unfold b_limit, apart, close, mQ, mD. cbn [mpt mq2 md2 dg3 a22 MG]. rewrite ?s1, ?s9. cbv zeta.
  split; [do 4 right; repeat split; ab|]. split; [right; left; repeat split; ab|]. split; [do 2 right; left; repeat split; ab|].
  do 3 right. left. repeat split; ab.
Qed.
(** Without the change of sign the claim fails: the two-loop correction has the opposite sign of m3 Xb. *)
Lemma yb4_1 (p : Params R) (X : R) : scale p = 1 -> a22 (mq2 p) = 1 -> a22 (md2 p) = 1 -> MG p = 1 -> calcXb p = X ->
  getDeltaLambdaYb4G32 p 1 = - 8 / 3 * (X * (- 12 * X + 4 * X ^ 2 - 24 + X ^ 3)).
Proof.
  intros Hr Hq Hd Hm Hx. unfold getDeltaLambdaYb4G32. rewrite Hr, Hq, Hd, Hm, Hx. unfold pow4, pow3, pow2. cbn [nsqrt nmul nsub nadd ndiv nneg nabs nltb nint ndec nlog NumR].
  rewrite !Rmult_1_r, !sqrt_1, ln_1. rewrite (Rminus_diag_eq 1 1) by reflexivity. rewrite Rabs_R0.
  rewrite Rltb_true by (unfold Rdec; cbn; lra). cbn [andb]. rewrite ?ln_1. field.
Qed.
Theorem C73_sign_refuted : exists p : Params R, phys_b p /\ b_limit p MQ3_EQ_MU3_EQ_M3 /\
  forall y a z, getDeltaYtAlphas (mirror p) MQ3_EQ_MU3_EQ_M3 1 = Ok y -> getDeltaLambdaAlphat (mirror p) MQ3_EQ_MU3_EQ_M3 1 = Ok a ->
    getDeltaLambdaAlphatAlphas (mirror p) MQ3_EQ_MU3_EQ_M3 1 = Ok z -> z <> getDeltaLambdaYb4G32 p 1 + 4 * y * a.
Proof.
  exists (mpt 1 1 1 1 1 1 0 1 1). destruct C73_nonvacuous_degenerate as (H1 & H2 & _). split; [exact H1|]. split; [exact H2|].
  intros y a z Ey Ea Ez E. destruct (G32_id _ H1 _ H2) as (y' & a' & Ey' & Ea' & Ez'). rewrite Ey in Ey'. rewrite Ea in Ea'. rewrite Ez in Ez'.
  injection Ey' as <-. injection Ea' as <-. injection Ez' as ->.
  rewrite (yb4_1 (reflect_b _) (-1)), (yb4_1 (mpt _ _ _ _ _ _ _ _ _) 1) in E; try reflexivity.
  - lra.
  - unfold calcXb, calcTanBeta. cbn. lra.
  - unfold calcXb, calcTanBeta. cbn. lra.
Qed.

(** ** C74: sbottoms and staus *)
(** Exchanging the sbottoms with the staus exchanges the corrections of order atau^2 ab and atau ab^2; both take the comparison of the masses from
    1% of mQ3, which the exchange turns into mL3, so the two comparisons have to agree. *)
Theorem C74_sbottom_stau_exchange : forall p : Params R, phys_y p ->
  (close (mE p) (mL p) (mQ p) <-> close (mE p) (mL p) (mL p)) -> (close (mD p) (mQ p) (mQ p) <-> close (mD p) (mQ p) (mL p)) ->
  getDeltaLambdaYtau4Yb2 p 1 = getDeltaLambdaYtau2Yb4 (lepton p) 1.
Proof. intros p H. exact (lep_id p H). Qed.
Definition pm2 := mpt 1 9 49 25 16 1 5 4 11.
Example C74_nonvacuous : phys_y pm2 /\ (close (mE pm2) (mL pm2) (mQ pm2) <-> close (mE pm2) (mL pm2) (mL pm2)) /\ (close (mD pm2) (mQ pm2) (mQ pm2) <-> close (mD pm2) (mQ pm2) (mL pm2)).
Proof.
  split; [constructor; cbn; lra|]. unfold close, mQ, mD, mL, mE. cbn [pm2 mpt mq2 md2 ml2 me2 dg3 a22]. rewrite s1, s9, s16, s25.
  split; split; unfold Rabs; destruct Rcase_abs; lra.
Qed.

(** ** C75, C76: the corrections of order (Yukawa)^6 *)
(** with the three-mass function replaced by phi *)
Definition Yb6_with (phi : R -> R -> R -> R) (p : Params R) : R := sevTG (fun _ => phi) (leafR p 0 1) d_getDeltaLambdaYb6.
Definition Ytau6_with (phi : R -> R -> R -> R) (p : Params R) : R := sevTG (fun _ => phi) (leafR p 0 1) d_getDeltaLambdaYtau6.
Definition Yt4Yb2_with (phi : R -> R -> R -> R) (p : Params R) : R := sevTG (fun _ => phi) (leafR p 0 1) d_getDeltaLambdaYt4Yb2.
Definition Yt2Yb4_with (phi : R -> R -> R -> R) (p : Params R) : R := sevTG (fun _ => phi) (leafR p 0 1) d_getDeltaLambdaYt2Yb4.
(** with the implemented function these are the functions of the library *)
Theorem C75_implemented : forall p : Params R, Yb6_with phi_xyz p = getDeltaLambdaYb6 p 1 /\ Ytau6_with phi_xyz p = getDeltaLambdaYtau6 p 1.
Proof. intros p. split; reflexivity. Qed.
Theorem C76_implemented : forall p : Params R, Yt4Yb2_with phi_xyz p = getDeltaLambdaYt4Yb2 p 1 /\ Yt2Yb4_with phi_xyz p = getDeltaLambdaYt2Yb4 p 1.
Proof. intros p. split; reflexivity. Qed.

(** With sleptons like sbottoms, the correction of order ab^3 is three times that of order atau^3 plus the mixed term, up to the products of
    one-loop terms that come from the definition of the Yukawa coupling and of the vacuum expectation value. *)
Theorem C75_sbottom_from_stau_partial : forall (phi : R -> R -> R -> R) (p : Params R), three_mass phi -> phys_m p -> generic_b p -> sleptons_as_sbottoms p ->
  outside (mQ p) (mD p) -> outside (mQ p) (mu p) -> outside (mD p) (mu p) -> apart (mD p) (mQ p) (mQ p) -> 1 / 10 * mD p <= Rabs (mD p - mQ p) ->
  Yb6_with phi p = 3 * (Ytau6_with phi p + 4 / calcCosBeta p ^ 2 * (getDeltaYtauYtau p 1 * getDeltaLambdaYtau4 p 1))
    + 2 * calcTanBeta p * getDeltaLambdaYtau4Yb2 p 1 - 8 / 3 * (getDeltaVevYb2 p * getDeltaLambdaYb4 p 1).
Proof. intros phi p Hphi Hp Hg Hs H1 H2 H3 H4 H5. exact (id7_sound p Hp phi Hphi Hg Hs H1 H2 H3 H5 H4). Qed.

(** The two mixed top-bottom corrections are mirror images of each other, up to a constant and the product of the one-loop correction and the
    change of the Yukawa coupling. *)
Theorem C76_mixed_mirror_partial : forall (phi : R -> R -> R -> R) (p : Params R), three_mass phi -> phys_m p -> generic_t p ->
  outside (mQ p) (mD p) -> outside (mQ p) (mu p) -> outside (mD p) (mu p) -> 1 / 10000 < Rabs (mQ p / mu p - mD p / mu p) -> apart (mD p) (mQ p) (mQ p) ->
  exists a, getDeltaLambdaAlphat p GENERAL 1 = Ok a /\
    Yt4Yb2_with phi p - Yt2Yb4_with phi (mirror p) = 2 - 4 / calcCosBeta p ^ 2 * bottom_shift p * a.
Proof. intros phi p Hphi Hp Hg H1 H2 H3 H4 H5. exact (id5_sound p Hp phi Hphi Hg H1 H2 H3 H4 H5). Qed.

(** the function of the literature qualifies *)
Theorem C75_literature_phi : three_mass phi_lit.
Proof. exact phi_lit_sym. Qed.
Lemma dis a b : 0 < b -> (1 / 10000) * b < a -> a < (98 / 100) * b -> outside a b.
Proof.
  intros Hb H1 H2. assert (E : a / b * b = a) by (field; lra). unfold outside. split.
  - apply Rmult_lt_reg_r with b; [exact Hb|]. rewrite E. exact H1.
  - assert (a / b < 98 / 100) by (apply Rmult_lt_reg_r with b; [exact Hb|]; rewrite E; exact H2). unfold Rabs. destruct Rcase_abs; lra.
Qed.
Example C75_nonvacuous : phys_m pm1 /\ generic_t pm1 /\ sleptons_as_sbottoms pm1 /\ outside (mQ pm1) (mD pm1) /\ outside (mQ pm1) (mu pm1) /\ outside (mD pm1) (mu pm1) /\
  apart (mD pm1) (mQ pm1) (mQ pm1) /\ 1 / 10 * mD pm1 <= Rabs (mD pm1 - mQ pm1) /\ 1 / 10000 < Rabs (mQ pm1 / mu pm1 - mD pm1 / mu pm1).
Proof.
  split; [constructor; cbn; lra|].
  assert (Eq : mQ pm1 = 1) by exact s1. assert (Ed : mD pm1 = 3) by exact s9. assert (Eu : mU pm1 = 7) by exact s49. assert (Em : mu pm1 = 5) by reflexivity. assert (EA : MA pm1 = 11) by reflexivity.
  split; [constructor; [constructor|..]; unfold generic, delta3; rewrite ?Eq, ?Ed, ?Eu, ?Em, ?EA; repeat split; lra|].
  split; [repeat split; reflexivity|]. rewrite Eq, Ed, Em. unfold apart. repeat split; first [apply dis; lra|lra|ab].
Qed.
