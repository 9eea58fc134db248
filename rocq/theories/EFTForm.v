(** * The form of the EFT corrections
    GENERATED by tools/gen_eft.py: for each coupling order the sub-expression it contributes, with all flags of
    Mh2EFTCalculator.cpp removed, and a proof that the function of the code is the sum of the enabled ones. *)
From Coq Require Import ZArith Bool String List Lia.
From Verif Require Import Num Except Params HierFormulas PV Thresh ThreshTwo Threshold ThreshProofs Mh2EFT.

Section Form.
  Context {T : Type} {N : Num T}.
  Open Scope num_scope.
  Definition thr (tc : TC T) (m : Z) (o : tco) : T :=
    match getThresholdCorrection tc o S_DRBARPRIME m with Ok v => v | Throw _ => #0 end.
  Lemma gTC_ok (tc : TC T) (m : Z) : known_limit (getLimit tc) -> forall o, getThresholdCorrection tc o S_DRBARPRIME m = Ok (thr tc m o).
  Proof.
    intros H o. unfold thr, getLimit in *.
    assert (A1 : exists v, getDeltaYtAlphas (tc_p tc) (massLimit3LThreshold (tc_p tc)) m = Ok v).
    { destruct (known_cases _ H) as [E|[E|[E|[E|[E|E]]]]]; rewrite E; eexists; reflexivity. }
    assert (A2 : exists v, getDeltaYtAlphas2 (tc_p tc) (tc_msq2 tc) (massLimit3LThreshold (tc_p tc)) m = Ok v).
    { destruct (known_cases _ H) as [E|[E|[E|[E|[E|E]]]]]; rewrite E; eexists; reflexivity. }
    assert (A3 : exists v, getDeltaLambdaAlphat (tc_p tc) (massLimit3LThreshold (tc_p tc)) m = Ok v).
    { destruct (known_cases _ H) as [E|[E|[E|[E|[E|E]]]]]; rewrite E; eexists; reflexivity. }
    assert (A4 : exists v, getDeltaLambdaAlphatAlphas (tc_p tc) (massLimit3LThreshold (tc_p tc)) m = Ok v).
    { destruct (known_cases _ H) as [E|[E|[E|[E|[E|E]]]]]; rewrite E; eexists; reflexivity. }
    assert (A5 : exists v, getDeltaLambdaAlphatAlphas2 (tc_p tc) (tc_msq2 tc) (tc_xt tc) (massLimit3LThreshold (tc_p tc)) m = Ok v).
    { destruct (known_cases _ H) as [E|[E|[E|[E|[E|E]]]]]; rewrite E; eexists; reflexivity. }
    destruct A1 as [x1 A1], A2 as [x2 A2], A3 as [x3 A3], A4 as [x4 A4], A5 as [x5 A5].
    unfold getThresholdCorrection. destruct o; rewrite ?A1, ?A2, ?A3, ?A4, ?A5; reflexivity.
  Qed.
  Lemma bind_ifb {A B} (b : bool) (x y : A) (k : A -> res B) : bind (if b then Ok x else Ok y) k = k (if b then x else y).
  Proof. destruct b; reflexivity. Qed.
  Ltac leaf t z :=
    match goal with |- context [if negb (z =? 0)%Z then discardNaN ?A else #0] =>
      replace (if negb (z =? 0)%Z then discardNaN A else #0) with (if negb (z =? 0)%Z then t else #0)
        by (destruct (negb (z =? 0)%Z); [rewrite ?orb_true_r, ?orb_true_l; reflexivity | reflexivity]) end.

  Definition dmh2g12g22 (p : Params T) (tc : TC T) (omitSMLogs omitMSSMLogs : Z) : T :=
    let lmMt := #omitSMLogs * nlog (pow2 (scale p / Mt p)) in
    let v2 := calcV2 p in
    let gt := nconst Csqrt2 * Mt p / calcV p in
    let pref_at := nconst ConeLoop * pow2 (Mt p * gt) in
    let q2 := pow2 (Mt p) in
    let beta := calcBeta p in
    let cbeta := calcCosBeta p in
    let c2beta := ncos (#2 * beta) in
    let sbeta := calcSinBeta p in
    let mhtree2 := pow2 (c2beta * MZ p) in
    let yt := nconst Csqrt2 * Mt p / vu p in
    let yb := nconst Csqrt2 * Mb p / vd p in
    let ytau := nconst Csqrt2 * Mtau p / vd p in
    let Xi := #1 in
    let dlambdayb2g12 := thr tc omitMSSMLogs LAMBDA_YB2_G12 in
    let dlambdag14 := thr tc omitMSSMLogs LAMBDA_G14 in
    let dlambdaregg14 := thr tc omitMSSMLogs LAMBDA_REG_G14 in
    let dlambdachig14 := thr tc omitMSSMLogs LAMBDA_CHI_G14 in
    let dg1g1 := thr tc omitMSSMLogs G1_G1 in
    let dlambdachig24 := thr tc omitMSSMLogs LAMBDA_CHI_G24 in
    let dlambdag24 := thr tc omitMSSMLogs LAMBDA_G24 in
    let dg2g2 := thr tc omitMSSMLogs G2_G2 in
    let dlambdaregg24 := thr tc omitMSSMLogs LAMBDA_REG_G24 in
    let dlambdag12g22 := thr tc omitMSSMLogs LAMBDA_G12_G22 in
    let dlambdaregg12g22 := thr tc omitMSSMLogs LAMBDA_REG_G12_G22 in
    let dlambdachig12g22 := thr tc omitMSSMLogs LAMBDA_CHI_G12_G22 in
    let dlambdayb2g22 := thr tc omitMSSMLogs LAMBDA_YB2_G22 in
    let dlambdayb4 := thr tc omitMSSMLogs LAMBDA_YB4 in
    let dlambdayt2g12 := thr tc omitMSSMLogs LAMBDA_YT2_G12 in
    let dlambdayt2g22 := thr tc omitMSSMLogs LAMBDA_YT2_G22 in
    let dlambdaytau2g12 := thr tc omitMSSMLogs LAMBDA_YTAU2_G12 in
    let dlambdaytau2g22 := thr tc omitMSSMLogs LAMBDA_YTAU2_G22 in
    let dlambdaytau4 := thr tc omitMSSMLogs LAMBDA_YTAU4 in
    let dvg12 := #0 in
    let dvg22 := #0 in
    let dvyt2 := thr tc omitMSSMLogs VEV_YT2 in
    let dvyb2 := thr tc omitMSSMLogs VEV_YB2 in
    let dvytau2 := thr tc omitMSSMLogs VEV_YTAU2 in
    let bbhDR := fB mhtree2 mhtree2 q2 in
    let bbwDR := fB mhtree2 (pow2 (MW p)) q2 in
    let bbzDR := fB mhtree2 (pow2 (MZ p)) q2 in
    let B00DR := fB mhtree2 #0 q2 in
    discardNaN (v2 * (#24 + #40 * dlambdachig12g22 + #40 * dlambdag12g22 + #40 * dlambdaregg12g22 - #36 * lmMt + #40
      * dvg12 * pow2 c2beta + #24 * dvg22 * pow2 c2beta + #36 * lmMt * pow2 c2beta - #12 * lmMt * Xi *
      pow2 c2beta - #6 * bbwDR * (#(-2) + pow2 c2beta) * pow2 c2beta - #6 * pow4 c2beta - #27 * bbhDR *
      pow4 c2beta - #36 * lmMt * pow4 c2beta - #3 * bbzDR * (#12 - #4 * pow2 c2beta + pow4 c2beta)) / #80).

  Definition dmh2g14 (p : Params T) (tc : TC T) (omitSMLogs omitMSSMLogs : Z) : T :=
    let lmMt := #omitSMLogs * nlog (pow2 (scale p / Mt p)) in
    let v2 := calcV2 p in
    let gt := nconst Csqrt2 * Mt p / calcV p in
    let pref_at := nconst ConeLoop * pow2 (Mt p * gt) in
    let q2 := pow2 (Mt p) in
    let beta := calcBeta p in
    let cbeta := calcCosBeta p in
    let c2beta := ncos (#2 * beta) in
    let sbeta := calcSinBeta p in
    let mhtree2 := pow2 (c2beta * MZ p) in
    let yt := nconst Csqrt2 * Mt p / vu p in
    let yb := nconst Csqrt2 * Mb p / vd p in
    let ytau := nconst Csqrt2 * Mtau p / vd p in
    let Xi := #1 in
    let dlambdayb2g12 := thr tc omitMSSMLogs LAMBDA_YB2_G12 in
    let dlambdag14 := thr tc omitMSSMLogs LAMBDA_G14 in
    let dlambdaregg14 := thr tc omitMSSMLogs LAMBDA_REG_G14 in
    let dlambdachig14 := thr tc omitMSSMLogs LAMBDA_CHI_G14 in
    let dg1g1 := thr tc omitMSSMLogs G1_G1 in
    let dlambdachig24 := thr tc omitMSSMLogs LAMBDA_CHI_G24 in
    let dlambdag24 := thr tc omitMSSMLogs LAMBDA_G24 in
    let dg2g2 := thr tc omitMSSMLogs G2_G2 in
    let dlambdaregg24 := thr tc omitMSSMLogs LAMBDA_REG_G24 in
    let dlambdag12g22 := thr tc omitMSSMLogs LAMBDA_G12_G22 in
    let dlambdaregg12g22 := thr tc omitMSSMLogs LAMBDA_REG_G12_G22 in
    let dlambdachig12g22 := thr tc omitMSSMLogs LAMBDA_CHI_G12_G22 in
    let dlambdayb2g22 := thr tc omitMSSMLogs LAMBDA_YB2_G22 in
    let dlambdayb4 := thr tc omitMSSMLogs LAMBDA_YB4 in
    let dlambdayt2g12 := thr tc omitMSSMLogs LAMBDA_YT2_G12 in
    let dlambdayt2g22 := thr tc omitMSSMLogs LAMBDA_YT2_G22 in
    let dlambdaytau2g12 := thr tc omitMSSMLogs LAMBDA_YTAU2_G12 in
    let dlambdaytau2g22 := thr tc omitMSSMLogs LAMBDA_YTAU2_G22 in
    let dlambdaytau4 := thr tc omitMSSMLogs LAMBDA_YTAU4 in
    let dvg12 := #0 in
    let dvg22 := #0 in
    let dvyt2 := thr tc omitMSSMLogs VEV_YT2 in
    let dvyb2 := thr tc omitMSSMLogs VEV_YB2 in
    let dvytau2 := thr tc omitMSSMLogs VEV_YTAU2 in
    let bbhDR := fB mhtree2 mhtree2 q2 in
    let bbwDR := fB mhtree2 (pow2 (MW p)) q2 in
    let bbzDR := fB mhtree2 (pow2 (MZ p)) q2 in
    let B00DR := fB mhtree2 #0 q2 in
    discardNaN (- (v2 * (#(-4) * (#18 + #100 * dlambdachig14 + #100 * dlambdag14 + #100 * dlambdaregg14 - #27 *
      lmMt) + #6 * (#40 * dg1g1 - #40 * dvg12 + #3 * lmMt * (#(-3) + Xi)) * pow2 c2beta + #9 * (#9 * bbhDR
      + #2 * (#1 + bbwDR + #6 * lmMt)) * pow4 c2beta + #9 * bbzDR * (#12 - #4 * pow2 c2beta + pow4
      c2beta))) / #800).

  Definition dmh2g24 (p : Params T) (tc : TC T) (omitSMLogs omitMSSMLogs : Z) : T :=
    let lmMt := #omitSMLogs * nlog (pow2 (scale p / Mt p)) in
    let v2 := calcV2 p in
    let gt := nconst Csqrt2 * Mt p / calcV p in
    let pref_at := nconst ConeLoop * pow2 (Mt p * gt) in
    let q2 := pow2 (Mt p) in
    let beta := calcBeta p in
    let cbeta := calcCosBeta p in
    let c2beta := ncos (#2 * beta) in
    let sbeta := calcSinBeta p in
    let mhtree2 := pow2 (c2beta * MZ p) in
    let yt := nconst Csqrt2 * Mt p / vu p in
    let yb := nconst Csqrt2 * Mb p / vd p in
    let ytau := nconst Csqrt2 * Mtau p / vd p in
    let Xi := #1 in
    let dlambdayb2g12 := thr tc omitMSSMLogs LAMBDA_YB2_G12 in
    let dlambdag14 := thr tc omitMSSMLogs LAMBDA_G14 in
    let dlambdaregg14 := thr tc omitMSSMLogs LAMBDA_REG_G14 in
    let dlambdachig14 := thr tc omitMSSMLogs LAMBDA_CHI_G14 in
    let dg1g1 := thr tc omitMSSMLogs G1_G1 in
    let dlambdachig24 := thr tc omitMSSMLogs LAMBDA_CHI_G24 in
    let dlambdag24 := thr tc omitMSSMLogs LAMBDA_G24 in
    let dg2g2 := thr tc omitMSSMLogs G2_G2 in
    let dlambdaregg24 := thr tc omitMSSMLogs LAMBDA_REG_G24 in
    let dlambdag12g22 := thr tc omitMSSMLogs LAMBDA_G12_G22 in
    let dlambdaregg12g22 := thr tc omitMSSMLogs LAMBDA_REG_G12_G22 in
    let dlambdachig12g22 := thr tc omitMSSMLogs LAMBDA_CHI_G12_G22 in
    let dlambdayb2g22 := thr tc omitMSSMLogs LAMBDA_YB2_G22 in
    let dlambdayb4 := thr tc omitMSSMLogs LAMBDA_YB4 in
    let dlambdayt2g12 := thr tc omitMSSMLogs LAMBDA_YT2_G12 in
    let dlambdayt2g22 := thr tc omitMSSMLogs LAMBDA_YT2_G22 in
    let dlambdaytau2g12 := thr tc omitMSSMLogs LAMBDA_YTAU2_G12 in
    let dlambdaytau2g22 := thr tc omitMSSMLogs LAMBDA_YTAU2_G22 in
    let dlambdaytau4 := thr tc omitMSSMLogs LAMBDA_YTAU4 in
    let dvg12 := #0 in
    let dvg22 := #0 in
    let dvyt2 := thr tc omitMSSMLogs VEV_YT2 in
    let dvyb2 := thr tc omitMSSMLogs VEV_YB2 in
    let dvytau2 := thr tc omitMSSMLogs VEV_YTAU2 in
    let bbhDR := fB mhtree2 mhtree2 q2 in
    let bbwDR := fB mhtree2 (pow2 (MW p)) q2 in
    let bbzDR := fB mhtree2 (pow2 (MZ p)) q2 in
    let B00DR := fB mhtree2 #0 q2 in
    discardNaN (- (v2 * (#(-24) - #16 * dlambdachig24 - #16 * dlambdag24 - #16 * dlambdaregg24 + #36 * lmMt + #16 *
      dg2g2 * pow2 c2beta - #16 * dvg22 * pow2 c2beta - #18 * lmMt * pow2 c2beta + #6 * lmMt * Xi * pow2
      c2beta + #2 * pow4 c2beta + #9 * bbhDR * pow4 c2beta + #12 * lmMt * pow4 c2beta + #2 * bbwDR * (#12
      - #4 * pow2 c2beta + pow4 c2beta) + bbzDR * (#12 - #4 * pow2 c2beta + pow4 c2beta))) / #32).

  Definition dmh2g12yb2 (p : Params T) (tc : TC T) (omitSMLogs omitMSSMLogs : Z) : T :=
    let lmMt := #omitSMLogs * nlog (pow2 (scale p / Mt p)) in
    let v2 := calcV2 p in
    let gt := nconst Csqrt2 * Mt p / calcV p in
    let pref_at := nconst ConeLoop * pow2 (Mt p * gt) in
    let q2 := pow2 (Mt p) in
    let beta := calcBeta p in
    let cbeta := calcCosBeta p in
    let c2beta := ncos (#2 * beta) in
    let sbeta := calcSinBeta p in
    let mhtree2 := pow2 (c2beta * MZ p) in
    let yt := nconst Csqrt2 * Mt p / vu p in
    let yb := nconst Csqrt2 * Mb p / vd p in
    let ytau := nconst Csqrt2 * Mtau p / vd p in
    let Xi := #1 in
    let dlambdayb2g12 := thr tc omitMSSMLogs LAMBDA_YB2_G12 in
    let dlambdag14 := thr tc omitMSSMLogs LAMBDA_G14 in
    let dlambdaregg14 := thr tc omitMSSMLogs LAMBDA_REG_G14 in
    let dlambdachig14 := thr tc omitMSSMLogs LAMBDA_CHI_G14 in
    let dg1g1 := thr tc omitMSSMLogs G1_G1 in
    let dlambdachig24 := thr tc omitMSSMLogs LAMBDA_CHI_G24 in
    let dlambdag24 := thr tc omitMSSMLogs LAMBDA_G24 in
    let dg2g2 := thr tc omitMSSMLogs G2_G2 in
    let dlambdaregg24 := thr tc omitMSSMLogs LAMBDA_REG_G24 in
    let dlambdag12g22 := thr tc omitMSSMLogs LAMBDA_G12_G22 in
    let dlambdaregg12g22 := thr tc omitMSSMLogs LAMBDA_REG_G12_G22 in
    let dlambdachig12g22 := thr tc omitMSSMLogs LAMBDA_CHI_G12_G22 in
    let dlambdayb2g22 := thr tc omitMSSMLogs LAMBDA_YB2_G22 in
    let dlambdayb4 := thr tc omitMSSMLogs LAMBDA_YB4 in
    let dlambdayt2g12 := thr tc omitMSSMLogs LAMBDA_YT2_G12 in
    let dlambdayt2g22 := thr tc omitMSSMLogs LAMBDA_YT2_G22 in
    let dlambdaytau2g12 := thr tc omitMSSMLogs LAMBDA_YTAU2_G12 in
    let dlambdaytau2g22 := thr tc omitMSSMLogs LAMBDA_YTAU2_G22 in
    let dlambdaytau4 := thr tc omitMSSMLogs LAMBDA_YTAU4 in
    let dvg12 := #0 in
    let dvg22 := #0 in
    let dvyt2 := thr tc omitMSSMLogs VEV_YT2 in
    let dvyb2 := thr tc omitMSSMLogs VEV_YB2 in
    let dvytau2 := thr tc omitMSSMLogs VEV_YTAU2 in
    let bbhDR := fB mhtree2 mhtree2 q2 in
    let bbwDR := fB mhtree2 (pow2 (MW p)) q2 in
    let bbzDR := fB mhtree2 (pow2 (MZ p)) q2 in
    let B00DR := fB mhtree2 #0 q2 in
    discardNaN ((#10 * dlambdayb2g12 - #3 * (#3 * B00DR - #2 * dvyb2 + #3 * lmMt) * pow2 c2beta) * pow2 cbeta * v2 /
      #20).

  Definition dmh2g22yb2 (p : Params T) (tc : TC T) (omitSMLogs omitMSSMLogs : Z) : T :=
    let lmMt := #omitSMLogs * nlog (pow2 (scale p / Mt p)) in
    let v2 := calcV2 p in
    let gt := nconst Csqrt2 * Mt p / calcV p in
    let pref_at := nconst ConeLoop * pow2 (Mt p * gt) in
    let q2 := pow2 (Mt p) in
    let beta := calcBeta p in
    let cbeta := calcCosBeta p in
    let c2beta := ncos (#2 * beta) in
    let sbeta := calcSinBeta p in
    let mhtree2 := pow2 (c2beta * MZ p) in
    let yt := nconst Csqrt2 * Mt p / vu p in
    let yb := nconst Csqrt2 * Mb p / vd p in
    let ytau := nconst Csqrt2 * Mtau p / vd p in
    let Xi := #1 in
    let dlambdayb2g12 := thr tc omitMSSMLogs LAMBDA_YB2_G12 in
    let dlambdag14 := thr tc omitMSSMLogs LAMBDA_G14 in
    let dlambdaregg14 := thr tc omitMSSMLogs LAMBDA_REG_G14 in
    let dlambdachig14 := thr tc omitMSSMLogs LAMBDA_CHI_G14 in
    let dg1g1 := thr tc omitMSSMLogs G1_G1 in
    let dlambdachig24 := thr tc omitMSSMLogs LAMBDA_CHI_G24 in
    let dlambdag24 := thr tc omitMSSMLogs LAMBDA_G24 in
    let dg2g2 := thr tc omitMSSMLogs G2_G2 in
    let dlambdaregg24 := thr tc omitMSSMLogs LAMBDA_REG_G24 in
    let dlambdag12g22 := thr tc omitMSSMLogs LAMBDA_G12_G22 in
    let dlambdaregg12g22 := thr tc omitMSSMLogs LAMBDA_REG_G12_G22 in
    let dlambdachig12g22 := thr tc omitMSSMLogs LAMBDA_CHI_G12_G22 in
    let dlambdayb2g22 := thr tc omitMSSMLogs LAMBDA_YB2_G22 in
    let dlambdayb4 := thr tc omitMSSMLogs LAMBDA_YB4 in
    let dlambdayt2g12 := thr tc omitMSSMLogs LAMBDA_YT2_G12 in
    let dlambdayt2g22 := thr tc omitMSSMLogs LAMBDA_YT2_G22 in
    let dlambdaytau2g12 := thr tc omitMSSMLogs LAMBDA_YTAU2_G12 in
    let dlambdaytau2g22 := thr tc omitMSSMLogs LAMBDA_YTAU2_G22 in
    let dlambdaytau4 := thr tc omitMSSMLogs LAMBDA_YTAU4 in
    let dvg12 := #0 in
    let dvg22 := #0 in
    let dvyt2 := thr tc omitMSSMLogs VEV_YT2 in
    let dvyb2 := thr tc omitMSSMLogs VEV_YB2 in
    let dvytau2 := thr tc omitMSSMLogs VEV_YTAU2 in
    let bbhDR := fB mhtree2 mhtree2 q2 in
    let bbwDR := fB mhtree2 (pow2 (MW p)) q2 in
    let bbzDR := fB mhtree2 (pow2 (MZ p)) q2 in
    let B00DR := fB mhtree2 #0 q2 in
    discardNaN ((#2 * dlambdayb2g22 + (#(-3) * B00DR + #2 * dvyb2 - #3 * lmMt) * pow2 c2beta) * pow2 cbeta * v2 / #4).

  Definition dmh2yb4 (p : Params T) (tc : TC T) (omitSMLogs omitMSSMLogs : Z) : T :=
    let lmMt := #omitSMLogs * nlog (pow2 (scale p / Mt p)) in
    let v2 := calcV2 p in
    let gt := nconst Csqrt2 * Mt p / calcV p in
    let pref_at := nconst ConeLoop * pow2 (Mt p * gt) in
    let q2 := pow2 (Mt p) in
    let beta := calcBeta p in
    let cbeta := calcCosBeta p in
    let c2beta := ncos (#2 * beta) in
    let sbeta := calcSinBeta p in
    let mhtree2 := pow2 (c2beta * MZ p) in
    let yt := nconst Csqrt2 * Mt p / vu p in
    let yb := nconst Csqrt2 * Mb p / vd p in
    let ytau := nconst Csqrt2 * Mtau p / vd p in
    let Xi := #1 in
    let dlambdayb2g12 := thr tc omitMSSMLogs LAMBDA_YB2_G12 in
    let dlambdag14 := thr tc omitMSSMLogs LAMBDA_G14 in
    let dlambdaregg14 := thr tc omitMSSMLogs LAMBDA_REG_G14 in
    let dlambdachig14 := thr tc omitMSSMLogs LAMBDA_CHI_G14 in
    let dg1g1 := thr tc omitMSSMLogs G1_G1 in
    let dlambdachig24 := thr tc omitMSSMLogs LAMBDA_CHI_G24 in
    let dlambdag24 := thr tc omitMSSMLogs LAMBDA_G24 in
    let dg2g2 := thr tc omitMSSMLogs G2_G2 in
    let dlambdaregg24 := thr tc omitMSSMLogs LAMBDA_REG_G24 in
    let dlambdag12g22 := thr tc omitMSSMLogs LAMBDA_G12_G22 in
    let dlambdaregg12g22 := thr tc omitMSSMLogs LAMBDA_REG_G12_G22 in
    let dlambdachig12g22 := thr tc omitMSSMLogs LAMBDA_CHI_G12_G22 in
    let dlambdayb2g22 := thr tc omitMSSMLogs LAMBDA_YB2_G22 in
    let dlambdayb4 := thr tc omitMSSMLogs LAMBDA_YB4 in
    let dlambdayt2g12 := thr tc omitMSSMLogs LAMBDA_YT2_G12 in
    let dlambdayt2g22 := thr tc omitMSSMLogs LAMBDA_YT2_G22 in
    let dlambdaytau2g12 := thr tc omitMSSMLogs LAMBDA_YTAU2_G12 in
    let dlambdaytau2g22 := thr tc omitMSSMLogs LAMBDA_YTAU2_G22 in
    let dlambdaytau4 := thr tc omitMSSMLogs LAMBDA_YTAU4 in
    let dvg12 := #0 in
    let dvg22 := #0 in
    let dvyt2 := thr tc omitMSSMLogs VEV_YT2 in
    let dvyb2 := thr tc omitMSSMLogs VEV_YB2 in
    let dvytau2 := thr tc omitMSSMLogs VEV_YTAU2 in
    let bbhDR := fB mhtree2 mhtree2 q2 in
    let bbwDR := fB mhtree2 (pow2 (MW p)) q2 in
    let bbzDR := fB mhtree2 (pow2 (MZ p)) q2 in
    let B00DR := fB mhtree2 #0 q2 in
    discardNaN ((#12 * B00DR + dlambdayb4 + #12 * lmMt) * v2 * pow4 cbeta / #2).

  Definition dmh2g12yt2 (p : Params T) (tc : TC T) (omitSMLogs omitMSSMLogs : Z) : T :=
    let lmMt := #omitSMLogs * nlog (pow2 (scale p / Mt p)) in
    let v2 := calcV2 p in
    let gt := nconst Csqrt2 * Mt p / calcV p in
    let pref_at := nconst ConeLoop * pow2 (Mt p * gt) in
    let q2 := pow2 (Mt p) in
    let beta := calcBeta p in
    let cbeta := calcCosBeta p in
    let c2beta := ncos (#2 * beta) in
    let sbeta := calcSinBeta p in
    let mhtree2 := pow2 (c2beta * MZ p) in
    let yt := nconst Csqrt2 * Mt p / vu p in
    let yb := nconst Csqrt2 * Mb p / vd p in
    let ytau := nconst Csqrt2 * Mtau p / vd p in
    let Xi := #1 in
    let dlambdayb2g12 := thr tc omitMSSMLogs LAMBDA_YB2_G12 in
    let dlambdag14 := thr tc omitMSSMLogs LAMBDA_G14 in
    let dlambdaregg14 := thr tc omitMSSMLogs LAMBDA_REG_G14 in
    let dlambdachig14 := thr tc omitMSSMLogs LAMBDA_CHI_G14 in
    let dg1g1 := thr tc omitMSSMLogs G1_G1 in
    let dlambdachig24 := thr tc omitMSSMLogs LAMBDA_CHI_G24 in
    let dlambdag24 := thr tc omitMSSMLogs LAMBDA_G24 in
    let dg2g2 := thr tc omitMSSMLogs G2_G2 in
    let dlambdaregg24 := thr tc omitMSSMLogs LAMBDA_REG_G24 in
    let dlambdag12g22 := thr tc omitMSSMLogs LAMBDA_G12_G22 in
    let dlambdaregg12g22 := thr tc omitMSSMLogs LAMBDA_REG_G12_G22 in
    let dlambdachig12g22 := thr tc omitMSSMLogs LAMBDA_CHI_G12_G22 in
    let dlambdayb2g22 := thr tc omitMSSMLogs LAMBDA_YB2_G22 in
    let dlambdayb4 := thr tc omitMSSMLogs LAMBDA_YB4 in
    let dlambdayt2g12 := thr tc omitMSSMLogs LAMBDA_YT2_G12 in
    let dlambdayt2g22 := thr tc omitMSSMLogs LAMBDA_YT2_G22 in
    let dlambdaytau2g12 := thr tc omitMSSMLogs LAMBDA_YTAU2_G12 in
    let dlambdaytau2g22 := thr tc omitMSSMLogs LAMBDA_YTAU2_G22 in
    let dlambdaytau4 := thr tc omitMSSMLogs LAMBDA_YTAU4 in
    let dvg12 := #0 in
    let dvg22 := #0 in
    let dvyt2 := thr tc omitMSSMLogs VEV_YT2 in
    let dvyb2 := thr tc omitMSSMLogs VEV_YB2 in
    let dvytau2 := thr tc omitMSSMLogs VEV_YTAU2 in
    let bbhDR := fB mhtree2 mhtree2 q2 in
    let bbwDR := fB mhtree2 (pow2 (MW p)) q2 in
    let bbzDR := fB mhtree2 (pow2 (MZ p)) q2 in
    let B00DR := fB mhtree2 #0 q2 in
    discardNaN ((#10 * dlambdayt2g12 + (#6 + #6 * dvyt2 - #9 * lmMt) * pow2 c2beta) * pow2 sbeta * v2 / #20).

  Definition dmh2g22yt2 (p : Params T) (tc : TC T) (omitSMLogs omitMSSMLogs : Z) : T :=
    let lmMt := #omitSMLogs * nlog (pow2 (scale p / Mt p)) in
    let v2 := calcV2 p in
    let gt := nconst Csqrt2 * Mt p / calcV p in
    let pref_at := nconst ConeLoop * pow2 (Mt p * gt) in
    let q2 := pow2 (Mt p) in
    let beta := calcBeta p in
    let cbeta := calcCosBeta p in
    let c2beta := ncos (#2 * beta) in
    let sbeta := calcSinBeta p in
    let mhtree2 := pow2 (c2beta * MZ p) in
    let yt := nconst Csqrt2 * Mt p / vu p in
    let yb := nconst Csqrt2 * Mb p / vd p in
    let ytau := nconst Csqrt2 * Mtau p / vd p in
    let Xi := #1 in
    let dlambdayb2g12 := thr tc omitMSSMLogs LAMBDA_YB2_G12 in
    let dlambdag14 := thr tc omitMSSMLogs LAMBDA_G14 in
    let dlambdaregg14 := thr tc omitMSSMLogs LAMBDA_REG_G14 in
    let dlambdachig14 := thr tc omitMSSMLogs LAMBDA_CHI_G14 in
    let dg1g1 := thr tc omitMSSMLogs G1_G1 in
    let dlambdachig24 := thr tc omitMSSMLogs LAMBDA_CHI_G24 in
    let dlambdag24 := thr tc omitMSSMLogs LAMBDA_G24 in
    let dg2g2 := thr tc omitMSSMLogs G2_G2 in
    let dlambdaregg24 := thr tc omitMSSMLogs LAMBDA_REG_G24 in
    let dlambdag12g22 := thr tc omitMSSMLogs LAMBDA_G12_G22 in
    let dlambdaregg12g22 := thr tc omitMSSMLogs LAMBDA_REG_G12_G22 in
    let dlambdachig12g22 := thr tc omitMSSMLogs LAMBDA_CHI_G12_G22 in
    let dlambdayb2g22 := thr tc omitMSSMLogs LAMBDA_YB2_G22 in
    let dlambdayb4 := thr tc omitMSSMLogs LAMBDA_YB4 in
    let dlambdayt2g12 := thr tc omitMSSMLogs LAMBDA_YT2_G12 in
    let dlambdayt2g22 := thr tc omitMSSMLogs LAMBDA_YT2_G22 in
    let dlambdaytau2g12 := thr tc omitMSSMLogs LAMBDA_YTAU2_G12 in
    let dlambdaytau2g22 := thr tc omitMSSMLogs LAMBDA_YTAU2_G22 in
    let dlambdaytau4 := thr tc omitMSSMLogs LAMBDA_YTAU4 in
    let dvg12 := #0 in
    let dvg22 := #0 in
    let dvyt2 := thr tc omitMSSMLogs VEV_YT2 in
    let dvyb2 := thr tc omitMSSMLogs VEV_YB2 in
    let dvytau2 := thr tc omitMSSMLogs VEV_YTAU2 in
    let bbhDR := fB mhtree2 mhtree2 q2 in
    let bbwDR := fB mhtree2 (pow2 (MW p)) q2 in
    let bbzDR := fB mhtree2 (pow2 (MZ p)) q2 in
    let B00DR := fB mhtree2 #0 q2 in
    discardNaN ((#2 * dlambdayt2g22 + (#2 + #2 * dvyt2 - #3 * lmMt) * pow2 c2beta) * pow2 sbeta * v2 / #4).

  Definition dmh2yt4 (p : Params T) (tc : TC T) (omitSMLogs omitMSSMLogs : Z) : T :=
    let lmMt := #omitSMLogs * nlog (pow2 (scale p / Mt p)) in
    let v2 := calcV2 p in
    let gt := nconst Csqrt2 * Mt p / calcV p in
    let pref_at := nconst ConeLoop * pow2 (Mt p * gt) in
    let q2 := pow2 (Mt p) in
    let beta := calcBeta p in
    let cbeta := calcCosBeta p in
    let c2beta := ncos (#2 * beta) in
    let sbeta := calcSinBeta p in
    let mhtree2 := pow2 (c2beta * MZ p) in
    let yt := nconst Csqrt2 * Mt p / vu p in
    let yb := nconst Csqrt2 * Mb p / vd p in
    let ytau := nconst Csqrt2 * Mtau p / vd p in
    let Xi := #1 in
    let dlambdayb2g12 := thr tc omitMSSMLogs LAMBDA_YB2_G12 in
    let dlambdag14 := thr tc omitMSSMLogs LAMBDA_G14 in
    let dlambdaregg14 := thr tc omitMSSMLogs LAMBDA_REG_G14 in
    let dlambdachig14 := thr tc omitMSSMLogs LAMBDA_CHI_G14 in
    let dg1g1 := thr tc omitMSSMLogs G1_G1 in
    let dlambdachig24 := thr tc omitMSSMLogs LAMBDA_CHI_G24 in
    let dlambdag24 := thr tc omitMSSMLogs LAMBDA_G24 in
    let dg2g2 := thr tc omitMSSMLogs G2_G2 in
    let dlambdaregg24 := thr tc omitMSSMLogs LAMBDA_REG_G24 in
    let dlambdag12g22 := thr tc omitMSSMLogs LAMBDA_G12_G22 in
    let dlambdaregg12g22 := thr tc omitMSSMLogs LAMBDA_REG_G12_G22 in
    let dlambdachig12g22 := thr tc omitMSSMLogs LAMBDA_CHI_G12_G22 in
    let dlambdayb2g22 := thr tc omitMSSMLogs LAMBDA_YB2_G22 in
    let dlambdayb4 := thr tc omitMSSMLogs LAMBDA_YB4 in
    let dlambdayt2g12 := thr tc omitMSSMLogs LAMBDA_YT2_G12 in
    let dlambdayt2g22 := thr tc omitMSSMLogs LAMBDA_YT2_G22 in
    let dlambdaytau2g12 := thr tc omitMSSMLogs LAMBDA_YTAU2_G12 in
    let dlambdaytau2g22 := thr tc omitMSSMLogs LAMBDA_YTAU2_G22 in
    let dlambdaytau4 := thr tc omitMSSMLogs LAMBDA_YTAU4 in
    let dvg12 := #0 in
    let dvg22 := #0 in
    let dvyt2 := thr tc omitMSSMLogs VEV_YT2 in
    let dvyb2 := thr tc omitMSSMLogs VEV_YB2 in
    let dvytau2 := thr tc omitMSSMLogs VEV_YTAU2 in
    let bbhDR := fB mhtree2 mhtree2 q2 in
    let bbwDR := fB mhtree2 (pow2 (MW p)) q2 in
    let bbzDR := fB mhtree2 (pow2 (MZ p)) q2 in
    let B00DR := fB mhtree2 #0 q2 in
    discardNaN (pref_at * (#12 * lmMt + thr tc omitMSSMLogs LAMBDA_AT)).

  Definition dmh2g12ytau2 (p : Params T) (tc : TC T) (omitSMLogs omitMSSMLogs : Z) : T :=
    let lmMt := #omitSMLogs * nlog (pow2 (scale p / Mt p)) in
    let v2 := calcV2 p in
    let gt := nconst Csqrt2 * Mt p / calcV p in
    let pref_at := nconst ConeLoop * pow2 (Mt p * gt) in
    let q2 := pow2 (Mt p) in
    let beta := calcBeta p in
    let cbeta := calcCosBeta p in
    let c2beta := ncos (#2 * beta) in
    let sbeta := calcSinBeta p in
    let mhtree2 := pow2 (c2beta * MZ p) in
    let yt := nconst Csqrt2 * Mt p / vu p in
    let yb := nconst Csqrt2 * Mb p / vd p in
    let ytau := nconst Csqrt2 * Mtau p / vd p in
    let Xi := #1 in
    let dlambdayb2g12 := thr tc omitMSSMLogs LAMBDA_YB2_G12 in
    let dlambdag14 := thr tc omitMSSMLogs LAMBDA_G14 in
    let dlambdaregg14 := thr tc omitMSSMLogs LAMBDA_REG_G14 in
    let dlambdachig14 := thr tc omitMSSMLogs LAMBDA_CHI_G14 in
    let dg1g1 := thr tc omitMSSMLogs G1_G1 in
    let dlambdachig24 := thr tc omitMSSMLogs LAMBDA_CHI_G24 in
    let dlambdag24 := thr tc omitMSSMLogs LAMBDA_G24 in
    let dg2g2 := thr tc omitMSSMLogs G2_G2 in
    let dlambdaregg24 := thr tc omitMSSMLogs LAMBDA_REG_G24 in
    let dlambdag12g22 := thr tc omitMSSMLogs LAMBDA_G12_G22 in
    let dlambdaregg12g22 := thr tc omitMSSMLogs LAMBDA_REG_G12_G22 in
    let dlambdachig12g22 := thr tc omitMSSMLogs LAMBDA_CHI_G12_G22 in
    let dlambdayb2g22 := thr tc omitMSSMLogs LAMBDA_YB2_G22 in
    let dlambdayb4 := thr tc omitMSSMLogs LAMBDA_YB4 in
    let dlambdayt2g12 := thr tc omitMSSMLogs LAMBDA_YT2_G12 in
    let dlambdayt2g22 := thr tc omitMSSMLogs LAMBDA_YT2_G22 in
    let dlambdaytau2g12 := thr tc omitMSSMLogs LAMBDA_YTAU2_G12 in
    let dlambdaytau2g22 := thr tc omitMSSMLogs LAMBDA_YTAU2_G22 in
    let dlambdaytau4 := thr tc omitMSSMLogs LAMBDA_YTAU4 in
    let dvg12 := #0 in
    let dvg22 := #0 in
    let dvyt2 := thr tc omitMSSMLogs VEV_YT2 in
    let dvyb2 := thr tc omitMSSMLogs VEV_YB2 in
    let dvytau2 := thr tc omitMSSMLogs VEV_YTAU2 in
    let bbhDR := fB mhtree2 mhtree2 q2 in
    let bbwDR := fB mhtree2 (pow2 (MW p)) q2 in
    let bbzDR := fB mhtree2 (pow2 (MZ p)) q2 in
    let B00DR := fB mhtree2 #0 q2 in
    discardNaN (- ((#(-10) * dlambdaytau2g12 + #3 * B00DR * pow2 c2beta + #3 * (#(-2) * dvytau2 + lmMt) * pow2
      c2beta) * pow2 cbeta * v2) / #20).

  Definition dmh2g22ytau2 (p : Params T) (tc : TC T) (omitSMLogs omitMSSMLogs : Z) : T :=
    let lmMt := #omitSMLogs * nlog (pow2 (scale p / Mt p)) in
    let v2 := calcV2 p in
    let gt := nconst Csqrt2 * Mt p / calcV p in
    let pref_at := nconst ConeLoop * pow2 (Mt p * gt) in
    let q2 := pow2 (Mt p) in
    let beta := calcBeta p in
    let cbeta := calcCosBeta p in
    let c2beta := ncos (#2 * beta) in
    let sbeta := calcSinBeta p in
    let mhtree2 := pow2 (c2beta * MZ p) in
    let yt := nconst Csqrt2 * Mt p / vu p in
    let yb := nconst Csqrt2 * Mb p / vd p in
    let ytau := nconst Csqrt2 * Mtau p / vd p in
    let Xi := #1 in
    let dlambdayb2g12 := thr tc omitMSSMLogs LAMBDA_YB2_G12 in
    let dlambdag14 := thr tc omitMSSMLogs LAMBDA_G14 in
    let dlambdaregg14 := thr tc omitMSSMLogs LAMBDA_REG_G14 in
    let dlambdachig14 := thr tc omitMSSMLogs LAMBDA_CHI_G14 in
    let dg1g1 := thr tc omitMSSMLogs G1_G1 in
    let dlambdachig24 := thr tc omitMSSMLogs LAMBDA_CHI_G24 in
    let dlambdag24 := thr tc omitMSSMLogs LAMBDA_G24 in
    let dg2g2 := thr tc omitMSSMLogs G2_G2 in
    let dlambdaregg24 := thr tc omitMSSMLogs LAMBDA_REG_G24 in
    let dlambdag12g22 := thr tc omitMSSMLogs LAMBDA_G12_G22 in
    let dlambdaregg12g22 := thr tc omitMSSMLogs LAMBDA_REG_G12_G22 in
    let dlambdachig12g22 := thr tc omitMSSMLogs LAMBDA_CHI_G12_G22 in
    let dlambdayb2g22 := thr tc omitMSSMLogs LAMBDA_YB2_G22 in
    let dlambdayb4 := thr tc omitMSSMLogs LAMBDA_YB4 in
    let dlambdayt2g12 := thr tc omitMSSMLogs LAMBDA_YT2_G12 in
    let dlambdayt2g22 := thr tc omitMSSMLogs LAMBDA_YT2_G22 in
    let dlambdaytau2g12 := thr tc omitMSSMLogs LAMBDA_YTAU2_G12 in
    let dlambdaytau2g22 := thr tc omitMSSMLogs LAMBDA_YTAU2_G22 in
    let dlambdaytau4 := thr tc omitMSSMLogs LAMBDA_YTAU4 in
    let dvg12 := #0 in
    let dvg22 := #0 in
    let dvyt2 := thr tc omitMSSMLogs VEV_YT2 in
    let dvyb2 := thr tc omitMSSMLogs VEV_YB2 in
    let dvytau2 := thr tc omitMSSMLogs VEV_YTAU2 in
    let bbhDR := fB mhtree2 mhtree2 q2 in
    let bbwDR := fB mhtree2 (pow2 (MW p)) q2 in
    let bbzDR := fB mhtree2 (pow2 (MZ p)) q2 in
    let B00DR := fB mhtree2 #0 q2 in
    discardNaN (- ((#(-2) * dlambdaytau2g22 + B00DR * pow2 c2beta + (#(-2) * dvytau2 + lmMt) * pow2 c2beta) * pow2
      cbeta * v2) / #4).

  Definition dmh2ytau4 (p : Params T) (tc : TC T) (omitSMLogs omitMSSMLogs : Z) : T :=
    let lmMt := #omitSMLogs * nlog (pow2 (scale p / Mt p)) in
    let v2 := calcV2 p in
    let gt := nconst Csqrt2 * Mt p / calcV p in
    let pref_at := nconst ConeLoop * pow2 (Mt p * gt) in
    let q2 := pow2 (Mt p) in
    let beta := calcBeta p in
    let cbeta := calcCosBeta p in
    let c2beta := ncos (#2 * beta) in
    let sbeta := calcSinBeta p in
    let mhtree2 := pow2 (c2beta * MZ p) in
    let yt := nconst Csqrt2 * Mt p / vu p in
    let yb := nconst Csqrt2 * Mb p / vd p in
    let ytau := nconst Csqrt2 * Mtau p / vd p in
    let Xi := #1 in
    let dlambdayb2g12 := thr tc omitMSSMLogs LAMBDA_YB2_G12 in
    let dlambdag14 := thr tc omitMSSMLogs LAMBDA_G14 in
    let dlambdaregg14 := thr tc omitMSSMLogs LAMBDA_REG_G14 in
    let dlambdachig14 := thr tc omitMSSMLogs LAMBDA_CHI_G14 in
    let dg1g1 := thr tc omitMSSMLogs G1_G1 in
    let dlambdachig24 := thr tc omitMSSMLogs LAMBDA_CHI_G24 in
    let dlambdag24 := thr tc omitMSSMLogs LAMBDA_G24 in
    let dg2g2 := thr tc omitMSSMLogs G2_G2 in
    let dlambdaregg24 := thr tc omitMSSMLogs LAMBDA_REG_G24 in
    let dlambdag12g22 := thr tc omitMSSMLogs LAMBDA_G12_G22 in
    let dlambdaregg12g22 := thr tc omitMSSMLogs LAMBDA_REG_G12_G22 in
    let dlambdachig12g22 := thr tc omitMSSMLogs LAMBDA_CHI_G12_G22 in
    let dlambdayb2g22 := thr tc omitMSSMLogs LAMBDA_YB2_G22 in
    let dlambdayb4 := thr tc omitMSSMLogs LAMBDA_YB4 in
    let dlambdayt2g12 := thr tc omitMSSMLogs LAMBDA_YT2_G12 in
    let dlambdayt2g22 := thr tc omitMSSMLogs LAMBDA_YT2_G22 in
    let dlambdaytau2g12 := thr tc omitMSSMLogs LAMBDA_YTAU2_G12 in
    let dlambdaytau2g22 := thr tc omitMSSMLogs LAMBDA_YTAU2_G22 in
    let dlambdaytau4 := thr tc omitMSSMLogs LAMBDA_YTAU4 in
    let dvg12 := #0 in
    let dvg22 := #0 in
    let dvyt2 := thr tc omitMSSMLogs VEV_YT2 in
    let dvyb2 := thr tc omitMSSMLogs VEV_YB2 in
    let dvytau2 := thr tc omitMSSMLogs VEV_YTAU2 in
    let bbhDR := fB mhtree2 mhtree2 q2 in
    let bbwDR := fB mhtree2 (pow2 (MW p)) q2 in
    let bbzDR := fB mhtree2 (pow2 (MZ p)) q2 in
    let B00DR := fB mhtree2 #0 q2 in
    discardNaN ((#4 * B00DR + dlambdaytau4 + #4 * lmMt) * v2 * pow4 cbeta / #2).

  Definition one_form (w : cord -> T -> T) (p : Params T) (tc : TC T) (omitSMLogs omitMSSMLogs : Z) : T :=
    let lmMt := #omitSMLogs * nlog (pow2 (scale p / Mt p)) in
    let v2 := calcV2 p in
    let gt := nconst Csqrt2 * Mt p / calcV p in
    let pref_at := nconst ConeLoop * pow2 (Mt p * gt) in
    let q2 := pow2 (Mt p) in
    let beta := calcBeta p in
    let cbeta := calcCosBeta p in
    let c2beta := ncos (#2 * beta) in
    let sbeta := calcSinBeta p in
    let mhtree2 := pow2 (c2beta * MZ p) in
    let yt := nconst Csqrt2 * Mt p / vu p in
    let yb := nconst Csqrt2 * Mb p / vd p in
    let ytau := nconst Csqrt2 * Mtau p / vd p in
    let Xi := #1 in
    let dlambdayb2g12 := thr tc omitMSSMLogs LAMBDA_YB2_G12 in
    let dlambdag14 := thr tc omitMSSMLogs LAMBDA_G14 in
    let dlambdaregg14 := thr tc omitMSSMLogs LAMBDA_REG_G14 in
    let dlambdachig14 := thr tc omitMSSMLogs LAMBDA_CHI_G14 in
    let dg1g1 := thr tc omitMSSMLogs G1_G1 in
    let dlambdachig24 := thr tc omitMSSMLogs LAMBDA_CHI_G24 in
    let dlambdag24 := thr tc omitMSSMLogs LAMBDA_G24 in
    let dg2g2 := thr tc omitMSSMLogs G2_G2 in
    let dlambdaregg24 := thr tc omitMSSMLogs LAMBDA_REG_G24 in
    let dlambdag12g22 := thr tc omitMSSMLogs LAMBDA_G12_G22 in
    let dlambdaregg12g22 := thr tc omitMSSMLogs LAMBDA_REG_G12_G22 in
    let dlambdachig12g22 := thr tc omitMSSMLogs LAMBDA_CHI_G12_G22 in
    let dlambdayb2g22 := thr tc omitMSSMLogs LAMBDA_YB2_G22 in
    let dlambdayb4 := thr tc omitMSSMLogs LAMBDA_YB4 in
    let dlambdayt2g12 := thr tc omitMSSMLogs LAMBDA_YT2_G12 in
    let dlambdayt2g22 := thr tc omitMSSMLogs LAMBDA_YT2_G22 in
    let dlambdaytau2g12 := thr tc omitMSSMLogs LAMBDA_YTAU2_G12 in
    let dlambdaytau2g22 := thr tc omitMSSMLogs LAMBDA_YTAU2_G22 in
    let dlambdaytau4 := thr tc omitMSSMLogs LAMBDA_YTAU4 in
    let dvg12 := #0 in
    let dvg22 := #0 in
    let dvyt2 := thr tc omitMSSMLogs VEV_YT2 in
    let dvyb2 := thr tc omitMSSMLogs VEV_YB2 in
    let dvytau2 := thr tc omitMSSMLogs VEV_YTAU2 in
    let bbhDR := fB mhtree2 mhtree2 q2 in
    let bbwDR := fB mhtree2 (pow2 (MW p)) q2 in
    let bbzDR := fB mhtree2 (pow2 (MZ p)) q2 in
    let B00DR := fB mhtree2 #0 q2 in
    (w YT4 (dmh2yt4 p tc omitSMLogs omitMSSMLogs)) + nconst ConeLoop * (pow2 (g1 p * g2 p) * (w G12G22
      (dmh2g12g22 p tc omitSMLogs omitMSSMLogs)) + pow4 (g1 p) * (w G14 (dmh2g14 p tc omitSMLogs
      omitMSSMLogs)) + pow4 (g2 p) * (w G24 (dmh2g24 p tc omitSMLogs omitMSSMLogs)) + pow2 (g1 p * yb) *
      (w G12YB2 (dmh2g12yb2 p tc omitSMLogs omitMSSMLogs)) + pow2 (g2 p * yb) * (w G22YB2 (dmh2g22yb2 p tc
      omitSMLogs omitMSSMLogs)) + pow4 yb * (w YB4 (dmh2yb4 p tc omitSMLogs omitMSSMLogs)) + pow2 (g1 p *
      ytau) * (w G12YTAU2 (dmh2g12ytau2 p tc omitSMLogs omitMSSMLogs)) + pow2 (g2 p * ytau) * (w G22YTAU2
      (dmh2g22ytau2 p tc omitSMLogs omitMSSMLogs)) + pow4 ytau * (w YTAU4 (dmh2ytau4 p tc omitSMLogs
      omitMSSMLogs)) + pow2 (g1 p * yt) * (w G12YT2 (dmh2g12yt2 p tc omitSMLogs omitMSSMLogs)) + pow2 (g2
      p * yt) * (w G22YT2 (dmh2g22yt2 p tc omitSMLogs omitMSSMLogs))).

  (** the calculation is this sum, with the factor of a disabled order replaced by 0 *)
  Lemma one_form_eq E p o s m tc : newTC E p false = Ok tc -> known_limit (getLimit tc) ->
    getDeltaMh2EFT1Loop E (mkEFT p o) s m = Ok (one_form (fun k x => if negb (o k =? 0)%Z then x else #0) p tc s m).
  Proof.
    intros H HL. unfold getDeltaMh2EFT1Loop. cbn [eft_p]. rewrite H. cbn [bind]. cbv zeta. unfold enabled. cbn [eft_orders].
    rewrite !(gTC_ok tc m HL). repeat (first [rewrite bind_ifb | cbn [bind]]; cbv beta).
    unfold one_form. cbv zeta.
    leaf (dmh2g12g22 p tc s m) (o G12G22).
    leaf (dmh2g14 p tc s m) (o G14).
    leaf (dmh2g24 p tc s m) (o G24).
    leaf (dmh2g12yb2 p tc s m) (o G12YB2).
    leaf (dmh2g22yb2 p tc s m) (o G22YB2).
    leaf (dmh2yb4 p tc s m) (o YB4).
    leaf (dmh2g12yt2 p tc s m) (o G12YT2).
    leaf (dmh2g22yt2 p tc s m) (o G22YT2).
    leaf (dmh2yt4 p tc s m) (o YT4).
    leaf (dmh2g12ytau2 p tc s m) (o G12YTAU2).
    leaf (dmh2g22ytau2 p tc s m) (o G22YTAU2).
    leaf (dmh2ytau4 p tc s m) (o YTAU4).
    reflexivity.
  Qed.

  Definition dmh2yt4g32 (p : Params T) (tc : TC T) (omitSMLogs omitMSSMLogs : Z) : T :=
    let lmMt := #omitSMLogs * nlog (pow2 (scale p / Mt p)) in
    let v2 := calcV2 p in
    let gt := nconst Csqrt2 * Mt p / calcV p in
    let g32 := pow2 (g3 p) in
    let yt2 := #2 * pow2 (Mt p / vu p) in
    let yb2 := #2 * pow2 (Mb p / vd p) in
    let ytau2 := #2 * pow2 (Mtau p / vd p) in
    let yt4 := pow2 yt2 in
    let yb4 := pow2 yb2 in
    let yt6 := pow3 yt2 in
    let yb6 := pow3 yb2 in
    let ytau4 := pow2 ytau2 in
    let ytau6 := pow3 ytau2 in
    let cbeta := calcCosBeta p in
    let sbeta := calcSinBeta p in
    let lmbMt := nlog (pow2 (Mb p / Mt p)) in
    let pref := nconst CtwoLoop * pow2 (Mt p * gt * g3 p) in
    let B00DR := #0 in
    let dytas := thr tc omitMSSMLogs YT_AS in
    let dlambdayb4g32 := thr tc omitMSSMLogs LAMBDA_YB4_G32 in
    let dlambdayb4 := thr tc omitMSSMLogs LAMBDA_YB4 in
    let dlambdayb6 := thr tc omitMSSMLogs LAMBDA_YB6 in
    let dlambdayt4 := thr tc omitMSSMLogs LAMBDA_AT in
    let dytyt := thr tc omitMSSMLogs YT_YT in
    let dlambdayt6 := thr tc omitMSSMLogs LAMBDA_YT6 in
    let dvyt2 := thr tc omitMSSMLogs VEV_YT2 in
    let dytauytau := thr tc omitMSSMLogs YTAU_YTAU in
    let dlambdaytau4 := thr tc omitMSSMLogs LAMBDA_YTAU4 in
    let dlambdaytau6 := thr tc omitMSSMLogs LAMBDA_YTAU6 in
    let dlambdayt2yb4 := thr tc omitMSSMLogs LAMBDA_YT2_YB4 in
    let dlambdayt4yb2 := thr tc omitMSSMLogs LAMBDA_YT4_YB2 in
    let dytyb := thr tc omitMSSMLogs YT_YB in
    let dvytau2 := thr tc omitMSSMLogs VEV_YTAU2 in
    let dvyb2 := thr tc omitMSSMLogs VEV_YB2 in
    let dytauyb := thr tc omitMSSMLogs YTAU_YB in
    let dlambdayb4ytau2 := thr tc omitMSSMLogs LAMBDA_YTAU2_YB4 in
    let dlambdayb2ytau4 := thr tc omitMSSMLogs LAMBDA_YTAU4_YB2 in
    let dybyt := thr tc omitMSSMLogs YB_YT in
    let dybas := thr tc omitMSSMLogs YB_AS in
    let dybyb := thr tc omitMSSMLogs YB_YB in
    discardNaN (pref * (#96 * pow2 lmMt + (#(-32) + #48 * dytas) * lmMt - #24 * dytas + thr tc omitMSSMLogs
      LAMBDA_AT_AS)).

  Definition dmh2yb4g32 (p : Params T) (tc : TC T) (omitSMLogs omitMSSMLogs : Z) : T :=
    let lmMt := #omitSMLogs * nlog (pow2 (scale p / Mt p)) in
    let v2 := calcV2 p in
    let gt := nconst Csqrt2 * Mt p / calcV p in
    let g32 := pow2 (g3 p) in
    let yt2 := #2 * pow2 (Mt p / vu p) in
    let yb2 := #2 * pow2 (Mb p / vd p) in
    let ytau2 := #2 * pow2 (Mtau p / vd p) in
    let yt4 := pow2 yt2 in
    let yb4 := pow2 yb2 in
    let yt6 := pow3 yt2 in
    let yb6 := pow3 yb2 in
    let ytau4 := pow2 ytau2 in
    let ytau6 := pow3 ytau2 in
    let cbeta := calcCosBeta p in
    let sbeta := calcSinBeta p in
    let lmbMt := nlog (pow2 (Mb p / Mt p)) in
    let pref := nconst CtwoLoop * pow2 (Mt p * gt * g3 p) in
    let B00DR := #0 in
    let dytas := thr tc omitMSSMLogs YT_AS in
    let dlambdayb4g32 := thr tc omitMSSMLogs LAMBDA_YB4_G32 in
    let dlambdayb4 := thr tc omitMSSMLogs LAMBDA_YB4 in
    let dlambdayb6 := thr tc omitMSSMLogs LAMBDA_YB6 in
    let dlambdayt4 := thr tc omitMSSMLogs LAMBDA_AT in
    let dytyt := thr tc omitMSSMLogs YT_YT in
    let dlambdayt6 := thr tc omitMSSMLogs LAMBDA_YT6 in
    let dvyt2 := thr tc omitMSSMLogs VEV_YT2 in
    let dytauytau := thr tc omitMSSMLogs YTAU_YTAU in
    let dlambdaytau4 := thr tc omitMSSMLogs LAMBDA_YTAU4 in
    let dlambdaytau6 := thr tc omitMSSMLogs LAMBDA_YTAU6 in
    let dlambdayt2yb4 := thr tc omitMSSMLogs LAMBDA_YT2_YB4 in
    let dlambdayt4yb2 := thr tc omitMSSMLogs LAMBDA_YT4_YB2 in
    let dytyb := thr tc omitMSSMLogs YT_YB in
    let dvytau2 := thr tc omitMSSMLogs VEV_YTAU2 in
    let dvyb2 := thr tc omitMSSMLogs VEV_YB2 in
    let dytauyb := thr tc omitMSSMLogs YTAU_YB in
    let dlambdayb4ytau2 := thr tc omitMSSMLogs LAMBDA_YTAU2_YB4 in
    let dlambdayb2ytau4 := thr tc omitMSSMLogs LAMBDA_YTAU4_YB2 in
    let dybyt := thr tc omitMSSMLogs YB_YT in
    let dybas := thr tc omitMSSMLogs YB_AS in
    let dybyb := thr tc omitMSSMLogs YB_YB in
    discardNaN ((dlambdayb4g32 + #16 * (#3 * B00DR * (dybas + #16 * lmMt) + lmMt * (#(-2) + #3 * dybas + #24 *
      lmMt))) * v2 * pow4 cbeta / #2).

  Definition dmh2yb6 (p : Params T) (tc : TC T) (omitSMLogs omitMSSMLogs : Z) : T :=
    let lmMt := #omitSMLogs * nlog (pow2 (scale p / Mt p)) in
    let v2 := calcV2 p in
    let gt := nconst Csqrt2 * Mt p / calcV p in
    let g32 := pow2 (g3 p) in
    let yt2 := #2 * pow2 (Mt p / vu p) in
    let yb2 := #2 * pow2 (Mb p / vd p) in
    let ytau2 := #2 * pow2 (Mtau p / vd p) in
    let yt4 := pow2 yt2 in
    let yb4 := pow2 yb2 in
    let yt6 := pow3 yt2 in
    let yb6 := pow3 yb2 in
    let ytau4 := pow2 ytau2 in
    let ytau6 := pow3 ytau2 in
    let cbeta := calcCosBeta p in
    let sbeta := calcSinBeta p in
    let lmbMt := nlog (pow2 (Mb p / Mt p)) in
    let pref := nconst CtwoLoop * pow2 (Mt p * gt * g3 p) in
    let B00DR := #0 in
    let dytas := thr tc omitMSSMLogs YT_AS in
    let dlambdayb4g32 := thr tc omitMSSMLogs LAMBDA_YB4_G32 in
    let dlambdayb4 := thr tc omitMSSMLogs LAMBDA_YB4 in
    let dlambdayb6 := thr tc omitMSSMLogs LAMBDA_YB6 in
    let dlambdayt4 := thr tc omitMSSMLogs LAMBDA_AT in
    let dytyt := thr tc omitMSSMLogs YT_YT in
    let dlambdayt6 := thr tc omitMSSMLogs LAMBDA_YT6 in
    let dvyt2 := thr tc omitMSSMLogs VEV_YT2 in
    let dytauytau := thr tc omitMSSMLogs YTAU_YTAU in
    let dlambdaytau4 := thr tc omitMSSMLogs LAMBDA_YTAU4 in
    let dlambdaytau6 := thr tc omitMSSMLogs LAMBDA_YTAU6 in
    let dlambdayt2yb4 := thr tc omitMSSMLogs LAMBDA_YT2_YB4 in
    let dlambdayt4yb2 := thr tc omitMSSMLogs LAMBDA_YT4_YB2 in
    let dytyb := thr tc omitMSSMLogs YT_YB in
    let dvytau2 := thr tc omitMSSMLogs VEV_YTAU2 in
    let dvyb2 := thr tc omitMSSMLogs VEV_YB2 in
    let dytauyb := thr tc omitMSSMLogs YTAU_YB in
    let dlambdayb4ytau2 := thr tc omitMSSMLogs LAMBDA_YTAU2_YB4 in
    let dlambdayb2ytau4 := thr tc omitMSSMLogs LAMBDA_YTAU4_YB2 in
    let dybyt := thr tc omitMSSMLogs YB_YT in
    let dybas := thr tc omitMSSMLogs YB_AS in
    let dybyb := thr tc omitMSSMLogs YB_YB in
    discardNaN (- ((#(-144) * dybyb * (B00DR + lmMt) + pow2 cbeta * (#(-49) - #3 * dlambdayb6 + #72 * dvyb2 - #72 *
      B00DR * dvyb2 - #60 * lmbMt + #234 * lmMt + #1296 * B00DR * lmMt - #72 * dvyb2 * lmMt + dlambdayb4 *
      (#(-9) + #9 * B00DR - #6 * dvyb2 + #9 * lmMt) + #36 * pow2 lmbMt + #648 * pow2 lmMt - #6 * pow2
      (nconst CPi))) * v2 * pow4 cbeta) / #6).

  Definition dmh2yt6 (p : Params T) (tc : TC T) (omitSMLogs omitMSSMLogs : Z) : T :=
    let lmMt := #omitSMLogs * nlog (pow2 (scale p / Mt p)) in
    let v2 := calcV2 p in
    let gt := nconst Csqrt2 * Mt p / calcV p in
    let g32 := pow2 (g3 p) in
    let yt2 := #2 * pow2 (Mt p / vu p) in
    let yb2 := #2 * pow2 (Mb p / vd p) in
    let ytau2 := #2 * pow2 (Mtau p / vd p) in
    let yt4 := pow2 yt2 in
    let yb4 := pow2 yb2 in
    let yt6 := pow3 yt2 in
    let yb6 := pow3 yb2 in
    let ytau4 := pow2 ytau2 in
    let ytau6 := pow3 ytau2 in
    let cbeta := calcCosBeta p in
    let sbeta := calcSinBeta p in
    let lmbMt := nlog (pow2 (Mb p / Mt p)) in
    let pref := nconst CtwoLoop * pow2 (Mt p * gt * g3 p) in
    let B00DR := #0 in
    let dytas := thr tc omitMSSMLogs YT_AS in
    let dlambdayb4g32 := thr tc omitMSSMLogs LAMBDA_YB4_G32 in
    let dlambdayb4 := thr tc omitMSSMLogs LAMBDA_YB4 in
    let dlambdayb6 := thr tc omitMSSMLogs LAMBDA_YB6 in
    let dlambdayt4 := thr tc omitMSSMLogs LAMBDA_AT in
    let dytyt := thr tc omitMSSMLogs YT_YT in
    let dlambdayt6 := thr tc omitMSSMLogs LAMBDA_YT6 in
    let dvyt2 := thr tc omitMSSMLogs VEV_YT2 in
    let dytauytau := thr tc omitMSSMLogs YTAU_YTAU in
    let dlambdaytau4 := thr tc omitMSSMLogs LAMBDA_YTAU4 in
    let dlambdaytau6 := thr tc omitMSSMLogs LAMBDA_YTAU6 in
    let dlambdayt2yb4 := thr tc omitMSSMLogs LAMBDA_YT2_YB4 in
    let dlambdayt4yb2 := thr tc omitMSSMLogs LAMBDA_YT4_YB2 in
    let dytyb := thr tc omitMSSMLogs YT_YB in
    let dvytau2 := thr tc omitMSSMLogs VEV_YTAU2 in
    let dvyb2 := thr tc omitMSSMLogs VEV_YB2 in
    let dytauyb := thr tc omitMSSMLogs YTAU_YB in
    let dlambdayb4ytau2 := thr tc omitMSSMLogs LAMBDA_YTAU2_YB4 in
    let dlambdayb2ytau4 := thr tc omitMSSMLogs LAMBDA_YTAU4_YB2 in
    let dybyt := thr tc omitMSSMLogs YB_YT in
    let dybas := thr tc omitMSSMLogs YB_AS in
    let dybyb := thr tc omitMSSMLogs YB_YB in
    discardNaN (v2 * (#4 * dytyt * (#(-6) + dlambdayt4 + #12 * lmMt) + (#(-12) + dlambdayt6 + dlambdayt4 * (#2 + #2
      * dvyt2 - #3 * lmMt) + #24 * dvyt2 * (#(-1) + lmMt) - #18 * lmMt * (#1 + #3 * lmMt) - #2 * pow2
      (nconst CPi)) * pow2 sbeta) * pow4 sbeta / #2).

  Definition dmh2yb4ytau2 (p : Params T) (tc : TC T) (omitSMLogs omitMSSMLogs : Z) : T :=
    let lmMt := #omitSMLogs * nlog (pow2 (scale p / Mt p)) in
    let v2 := calcV2 p in
    let gt := nconst Csqrt2 * Mt p / calcV p in
    let g32 := pow2 (g3 p) in
    let yt2 := #2 * pow2 (Mt p / vu p) in
    let yb2 := #2 * pow2 (Mb p / vd p) in
    let ytau2 := #2 * pow2 (Mtau p / vd p) in
    let yt4 := pow2 yt2 in
    let yb4 := pow2 yb2 in
    let yt6 := pow3 yt2 in
    let yb6 := pow3 yb2 in
    let ytau4 := pow2 ytau2 in
    let ytau6 := pow3 ytau2 in
    let cbeta := calcCosBeta p in
    let sbeta := calcSinBeta p in
    let lmbMt := nlog (pow2 (Mb p / Mt p)) in
    let pref := nconst CtwoLoop * pow2 (Mt p * gt * g3 p) in
    let B00DR := #0 in
    let dytas := thr tc omitMSSMLogs YT_AS in
    let dlambdayb4g32 := thr tc omitMSSMLogs LAMBDA_YB4_G32 in
    let dlambdayb4 := thr tc omitMSSMLogs LAMBDA_YB4 in
    let dlambdayb6 := thr tc omitMSSMLogs LAMBDA_YB6 in
    let dlambdayt4 := thr tc omitMSSMLogs LAMBDA_AT in
    let dytyt := thr tc omitMSSMLogs YT_YT in
    let dlambdayt6 := thr tc omitMSSMLogs LAMBDA_YT6 in
    let dvyt2 := thr tc omitMSSMLogs VEV_YT2 in
    let dytauytau := thr tc omitMSSMLogs YTAU_YTAU in
    let dlambdaytau4 := thr tc omitMSSMLogs LAMBDA_YTAU4 in
    let dlambdaytau6 := thr tc omitMSSMLogs LAMBDA_YTAU6 in
    let dlambdayt2yb4 := thr tc omitMSSMLogs LAMBDA_YT2_YB4 in
    let dlambdayt4yb2 := thr tc omitMSSMLogs LAMBDA_YT4_YB2 in
    let dytyb := thr tc omitMSSMLogs YT_YB in
    let dvytau2 := thr tc omitMSSMLogs VEV_YTAU2 in
    let dvyb2 := thr tc omitMSSMLogs VEV_YB2 in
    let dytauyb := thr tc omitMSSMLogs YTAU_YB in
    let dlambdayb4ytau2 := thr tc omitMSSMLogs LAMBDA_YTAU2_YB4 in
    let dlambdayb2ytau4 := thr tc omitMSSMLogs LAMBDA_YTAU4_YB2 in
    let dybyt := thr tc omitMSSMLogs YB_YT in
    let dybas := thr tc omitMSSMLogs YB_AS in
    let dybyb := thr tc omitMSSMLogs YB_YB in
    discardNaN ((dlambdayb4ytau2 - #96 * B00DR * lmMt - dlambdayb4 * (#(-1) + B00DR + lmMt) + #2 * dvytau2 * (#(-12)
      + #12 * B00DR + dlambdayb4 + #12 * lmMt) - #48 * pow2 lmMt) * v2 * pow6 cbeta / #2).

  Definition dmh2yb2ytau4 (p : Params T) (tc : TC T) (omitSMLogs omitMSSMLogs : Z) : T :=
    let lmMt := #omitSMLogs * nlog (pow2 (scale p / Mt p)) in
    let v2 := calcV2 p in
    let gt := nconst Csqrt2 * Mt p / calcV p in
    let g32 := pow2 (g3 p) in
    let yt2 := #2 * pow2 (Mt p / vu p) in
    let yb2 := #2 * pow2 (Mb p / vd p) in
    let ytau2 := #2 * pow2 (Mtau p / vd p) in
    let yt4 := pow2 yt2 in
    let yb4 := pow2 yb2 in
    let yt6 := pow3 yt2 in
    let yb6 := pow3 yb2 in
    let ytau4 := pow2 ytau2 in
    let ytau6 := pow3 ytau2 in
    let cbeta := calcCosBeta p in
    let sbeta := calcSinBeta p in
    let lmbMt := nlog (pow2 (Mb p / Mt p)) in
    let pref := nconst CtwoLoop * pow2 (Mt p * gt * g3 p) in
    let B00DR := #0 in
    let dytas := thr tc omitMSSMLogs YT_AS in
    let dlambdayb4g32 := thr tc omitMSSMLogs LAMBDA_YB4_G32 in
    let dlambdayb4 := thr tc omitMSSMLogs LAMBDA_YB4 in
    let dlambdayb6 := thr tc omitMSSMLogs LAMBDA_YB6 in
    let dlambdayt4 := thr tc omitMSSMLogs LAMBDA_AT in
    let dytyt := thr tc omitMSSMLogs YT_YT in
    let dlambdayt6 := thr tc omitMSSMLogs LAMBDA_YT6 in
    let dvyt2 := thr tc omitMSSMLogs VEV_YT2 in
    let dytauytau := thr tc omitMSSMLogs YTAU_YTAU in
    let dlambdaytau4 := thr tc omitMSSMLogs LAMBDA_YTAU4 in
    let dlambdaytau6 := thr tc omitMSSMLogs LAMBDA_YTAU6 in
    let dlambdayt2yb4 := thr tc omitMSSMLogs LAMBDA_YT2_YB4 in
    let dlambdayt4yb2 := thr tc omitMSSMLogs LAMBDA_YT4_YB2 in
    let dytyb := thr tc omitMSSMLogs YT_YB in
    let dvytau2 := thr tc omitMSSMLogs VEV_YTAU2 in
    let dvyb2 := thr tc omitMSSMLogs VEV_YB2 in
    let dytauyb := thr tc omitMSSMLogs YTAU_YB in
    let dlambdayb4ytau2 := thr tc omitMSSMLogs LAMBDA_YTAU2_YB4 in
    let dlambdayb2ytau4 := thr tc omitMSSMLogs LAMBDA_YTAU4_YB2 in
    let dybyt := thr tc omitMSSMLogs YB_YT in
    let dybas := thr tc omitMSSMLogs YB_AS in
    let dybyb := thr tc omitMSSMLogs YB_YB in
    discardNaN ((#4 * dytauyb * (#4 * B00DR + dlambdaytau4 + #4 * lmMt) + pow2 cbeta * (dlambdayb2ytau4 - #8 * dvyb2
      + #8 * B00DR * dvyb2 + dlambdaytau4 * (#3 - #3 * B00DR + #2 * dvyb2 - #3 * lmMt) - #6 * lmMt - #24 *
      B00DR * lmMt + #8 * dvyb2 * lmMt - #12 * pow2 lmMt)) * v2 * pow4 cbeta / #2).

  Definition dmh2ytau6 (p : Params T) (tc : TC T) (omitSMLogs omitMSSMLogs : Z) : T :=
    let lmMt := #omitSMLogs * nlog (pow2 (scale p / Mt p)) in
    let v2 := calcV2 p in
    let gt := nconst Csqrt2 * Mt p / calcV p in
    let g32 := pow2 (g3 p) in
    let yt2 := #2 * pow2 (Mt p / vu p) in
    let yb2 := #2 * pow2 (Mb p / vd p) in
    let ytau2 := #2 * pow2 (Mtau p / vd p) in
    let yt4 := pow2 yt2 in
    let yb4 := pow2 yb2 in
    let yt6 := pow3 yt2 in
    let yb6 := pow3 yb2 in
    let ytau4 := pow2 ytau2 in
    let ytau6 := pow3 ytau2 in
    let cbeta := calcCosBeta p in
    let sbeta := calcSinBeta p in
    let lmbMt := nlog (pow2 (Mb p / Mt p)) in
    let pref := nconst CtwoLoop * pow2 (Mt p * gt * g3 p) in
    let B00DR := #0 in
    let dytas := thr tc omitMSSMLogs YT_AS in
    let dlambdayb4g32 := thr tc omitMSSMLogs LAMBDA_YB4_G32 in
    let dlambdayb4 := thr tc omitMSSMLogs LAMBDA_YB4 in
    let dlambdayb6 := thr tc omitMSSMLogs LAMBDA_YB6 in
    let dlambdayt4 := thr tc omitMSSMLogs LAMBDA_AT in
    let dytyt := thr tc omitMSSMLogs YT_YT in
    let dlambdayt6 := thr tc omitMSSMLogs LAMBDA_YT6 in
    let dvyt2 := thr tc omitMSSMLogs VEV_YT2 in
    let dytauytau := thr tc omitMSSMLogs YTAU_YTAU in
    let dlambdaytau4 := thr tc omitMSSMLogs LAMBDA_YTAU4 in
    let dlambdaytau6 := thr tc omitMSSMLogs LAMBDA_YTAU6 in
    let dlambdayt2yb4 := thr tc omitMSSMLogs LAMBDA_YT2_YB4 in
    let dlambdayt4yb2 := thr tc omitMSSMLogs LAMBDA_YT4_YB2 in
    let dytyb := thr tc omitMSSMLogs YT_YB in
    let dvytau2 := thr tc omitMSSMLogs VEV_YTAU2 in
    let dvyb2 := thr tc omitMSSMLogs VEV_YB2 in
    let dytauyb := thr tc omitMSSMLogs YTAU_YB in
    let dlambdayb4ytau2 := thr tc omitMSSMLogs LAMBDA_YTAU2_YB4 in
    let dlambdayb2ytau4 := thr tc omitMSSMLogs LAMBDA_YTAU4_YB2 in
    let dybyt := thr tc omitMSSMLogs YB_YT in
    let dybas := thr tc omitMSSMLogs YB_AS in
    let dybyb := thr tc omitMSSMLogs YB_YB in
    discardNaN (- ((#(-12) * dytauytau * (#4 * B00DR + dlambdaytau4 + #4 * lmMt) + pow2 cbeta * (#(-3) *
      dlambdaytau6 + #3 * dlambdaytau4 * (#(-1) + B00DR - #2 * dvytau2 + lmMt) + #2 * (#6 + #30 * (#1 +
      B00DR) * lmMt - #12 * dvytau2 * (#(-1) + B00DR + lmMt) + #15 * pow2 lmMt + pow2 (nconst CPi)))) * v2
      * pow4 cbeta) / #6).

  Definition dmh2yt2yb4 (p : Params T) (tc : TC T) (omitSMLogs omitMSSMLogs : Z) : T :=
    let lmMt := #omitSMLogs * nlog (pow2 (scale p / Mt p)) in
    let v2 := calcV2 p in
    let gt := nconst Csqrt2 * Mt p / calcV p in
    let g32 := pow2 (g3 p) in
    let yt2 := #2 * pow2 (Mt p / vu p) in
    let yb2 := #2 * pow2 (Mb p / vd p) in
    let ytau2 := #2 * pow2 (Mtau p / vd p) in
    let yt4 := pow2 yt2 in
    let yb4 := pow2 yb2 in
    let yt6 := pow3 yt2 in
    let yb6 := pow3 yb2 in
    let ytau4 := pow2 ytau2 in
    let ytau6 := pow3 ytau2 in
    let cbeta := calcCosBeta p in
    let sbeta := calcSinBeta p in
    let lmbMt := nlog (pow2 (Mb p / Mt p)) in
    let pref := nconst CtwoLoop * pow2 (Mt p * gt * g3 p) in
    let B00DR := #0 in
    let dytas := thr tc omitMSSMLogs YT_AS in
    let dlambdayb4g32 := thr tc omitMSSMLogs LAMBDA_YB4_G32 in
    let dlambdayb4 := thr tc omitMSSMLogs LAMBDA_YB4 in
    let dlambdayb6 := thr tc omitMSSMLogs LAMBDA_YB6 in
    let dlambdayt4 := thr tc omitMSSMLogs LAMBDA_AT in
    let dytyt := thr tc omitMSSMLogs YT_YT in
    let dlambdayt6 := thr tc omitMSSMLogs LAMBDA_YT6 in
    let dvyt2 := thr tc omitMSSMLogs VEV_YT2 in
    let dytauytau := thr tc omitMSSMLogs YTAU_YTAU in
    let dlambdaytau4 := thr tc omitMSSMLogs LAMBDA_YTAU4 in
    let dlambdaytau6 := thr tc omitMSSMLogs LAMBDA_YTAU6 in
    let dlambdayt2yb4 := thr tc omitMSSMLogs LAMBDA_YT2_YB4 in
    let dlambdayt4yb2 := thr tc omitMSSMLogs LAMBDA_YT4_YB2 in
    let dytyb := thr tc omitMSSMLogs YT_YB in
    let dvytau2 := thr tc omitMSSMLogs VEV_YTAU2 in
    let dvyb2 := thr tc omitMSSMLogs VEV_YB2 in
    let dytauyb := thr tc omitMSSMLogs YTAU_YB in
    let dlambdayb4ytau2 := thr tc omitMSSMLogs LAMBDA_YTAU2_YB4 in
    let dlambdayb2ytau4 := thr tc omitMSSMLogs LAMBDA_YTAU4_YB2 in
    let dybyt := thr tc omitMSSMLogs YB_YT in
    let dybas := thr tc omitMSSMLogs YB_AS in
    let dybyb := thr tc omitMSSMLogs YB_YB in
    discardNaN ((#48 * dybyt * lmMt + (dlambdayt2yb4 + dlambdayb4 * (#2 + #2 * dvyt2 - #3 * lmMt) + #3 * (#(-15) +
      #8 * lmbMt + #8 * dvyt2 * (#(-1) + lmMt) + #18 * lmMt - #24 * pow2 lmMt - #2 * pow2 (nconst CPi))) *
      pow2 sbeta + #12 * B00DR * (#4 * dybyt + (#2 * dvyt2 - #9 * lmMt) * pow2 sbeta)) * v2 * pow4 cbeta /
      #2).

  Definition dmh2yt4yb2 (p : Params T) (tc : TC T) (omitSMLogs omitMSSMLogs : Z) : T :=
    let lmMt := #omitSMLogs * nlog (pow2 (scale p / Mt p)) in
    let v2 := calcV2 p in
    let gt := nconst Csqrt2 * Mt p / calcV p in
    let g32 := pow2 (g3 p) in
    let yt2 := #2 * pow2 (Mt p / vu p) in
    let yb2 := #2 * pow2 (Mb p / vd p) in
    let ytau2 := #2 * pow2 (Mtau p / vd p) in
    let yt4 := pow2 yt2 in
    let yb4 := pow2 yb2 in
    let yt6 := pow3 yt2 in
    let yb6 := pow3 yb2 in
    let ytau4 := pow2 ytau2 in
    let ytau6 := pow3 ytau2 in
    let cbeta := calcCosBeta p in
    let sbeta := calcSinBeta p in
    let lmbMt := nlog (pow2 (Mb p / Mt p)) in
    let pref := nconst CtwoLoop * pow2 (Mt p * gt * g3 p) in
    let B00DR := #0 in
    let dytas := thr tc omitMSSMLogs YT_AS in
    let dlambdayb4g32 := thr tc omitMSSMLogs LAMBDA_YB4_G32 in
    let dlambdayb4 := thr tc omitMSSMLogs LAMBDA_YB4 in
    let dlambdayb6 := thr tc omitMSSMLogs LAMBDA_YB6 in
    let dlambdayt4 := thr tc omitMSSMLogs LAMBDA_AT in
    let dytyt := thr tc omitMSSMLogs YT_YT in
    let dlambdayt6 := thr tc omitMSSMLogs LAMBDA_YT6 in
    let dvyt2 := thr tc omitMSSMLogs VEV_YT2 in
    let dytauytau := thr tc omitMSSMLogs YTAU_YTAU in
    let dlambdaytau4 := thr tc omitMSSMLogs LAMBDA_YTAU4 in
    let dlambdaytau6 := thr tc omitMSSMLogs LAMBDA_YTAU6 in
    let dlambdayt2yb4 := thr tc omitMSSMLogs LAMBDA_YT2_YB4 in
    let dlambdayt4yb2 := thr tc omitMSSMLogs LAMBDA_YT4_YB2 in
    let dytyb := thr tc omitMSSMLogs YT_YB in
    let dvytau2 := thr tc omitMSSMLogs VEV_YTAU2 in
    let dvyb2 := thr tc omitMSSMLogs VEV_YB2 in
    let dytauyb := thr tc omitMSSMLogs YTAU_YB in
    let dlambdayb4ytau2 := thr tc omitMSSMLogs LAMBDA_YTAU2_YB4 in
    let dlambdayb2ytau4 := thr tc omitMSSMLogs LAMBDA_YTAU4_YB2 in
    let dybyt := thr tc omitMSSMLogs YB_YT in
    let dybas := thr tc omitMSSMLogs YB_AS in
    let dybyb := thr tc omitMSSMLogs YB_YB in
    discardNaN ((#4 * dytyb * (#(-6) + dlambdayt4 + #12 * lmMt) + pow2 cbeta * (dlambdayt4yb2 + dlambdayt4 * (#3 -
      #3 * B00DR + #2 * dvyb2 - #3 * lmMt) - #6 * (#4 * dvyb2 + lmMt + #6 * B00DR * lmMt - #4 * dvyb2 *
      lmMt + #3 * pow2 lmMt - pow2 (nconst CPi)))) * v2 * pow4 sbeta / #2).

  Definition two_form (w : cord -> T -> T) (p : Params T) (tc : TC T) (omitSMLogs omitMSSMLogs : Z) : T :=
    let lmMt := #omitSMLogs * nlog (pow2 (scale p / Mt p)) in
    let v2 := calcV2 p in
    let gt := nconst Csqrt2 * Mt p / calcV p in
    let g32 := pow2 (g3 p) in
    let yt2 := #2 * pow2 (Mt p / vu p) in
    let yb2 := #2 * pow2 (Mb p / vd p) in
    let ytau2 := #2 * pow2 (Mtau p / vd p) in
    let yt4 := pow2 yt2 in
    let yb4 := pow2 yb2 in
    let yt6 := pow3 yt2 in
    let yb6 := pow3 yb2 in
    let ytau4 := pow2 ytau2 in
    let ytau6 := pow3 ytau2 in
    let cbeta := calcCosBeta p in
    let sbeta := calcSinBeta p in
    let lmbMt := nlog (pow2 (Mb p / Mt p)) in
    let pref := nconst CtwoLoop * pow2 (Mt p * gt * g3 p) in
    let B00DR := #0 in
    let dytas := thr tc omitMSSMLogs YT_AS in
    let dlambdayb4g32 := thr tc omitMSSMLogs LAMBDA_YB4_G32 in
    let dlambdayb4 := thr tc omitMSSMLogs LAMBDA_YB4 in
    let dlambdayb6 := thr tc omitMSSMLogs LAMBDA_YB6 in
    let dlambdayt4 := thr tc omitMSSMLogs LAMBDA_AT in
    let dytyt := thr tc omitMSSMLogs YT_YT in
    let dlambdayt6 := thr tc omitMSSMLogs LAMBDA_YT6 in
    let dvyt2 := thr tc omitMSSMLogs VEV_YT2 in
    let dytauytau := thr tc omitMSSMLogs YTAU_YTAU in
    let dlambdaytau4 := thr tc omitMSSMLogs LAMBDA_YTAU4 in
    let dlambdaytau6 := thr tc omitMSSMLogs LAMBDA_YTAU6 in
    let dlambdayt2yb4 := thr tc omitMSSMLogs LAMBDA_YT2_YB4 in
    let dlambdayt4yb2 := thr tc omitMSSMLogs LAMBDA_YT4_YB2 in
    let dytyb := thr tc omitMSSMLogs YT_YB in
    let dvytau2 := thr tc omitMSSMLogs VEV_YTAU2 in
    let dvyb2 := thr tc omitMSSMLogs VEV_YB2 in
    let dytauyb := thr tc omitMSSMLogs YTAU_YB in
    let dlambdayb4ytau2 := thr tc omitMSSMLogs LAMBDA_YTAU2_YB4 in
    let dlambdayb2ytau4 := thr tc omitMSSMLogs LAMBDA_YTAU4_YB2 in
    let dybyt := thr tc omitMSSMLogs YB_YT in
    let dybas := thr tc omitMSSMLogs YB_AS in
    let dybyb := thr tc omitMSSMLogs YB_YB in
    nconst CtwoLoop * (g32 * yb4 * (w G32YB4 (dmh2yb4g32 p tc omitSMLogs omitMSSMLogs)) + yb6 * (w YB6
      (dmh2yb6 p tc omitSMLogs omitMSSMLogs)) + yt6 * (w YT6 (dmh2yt6 p tc omitSMLogs omitMSSMLogs)) + yb4
      * ytau2 * (w YTAU2YB4 (dmh2yb4ytau2 p tc omitSMLogs omitMSSMLogs)) + yb2 * ytau4 * (w YTAU4YB2
      (dmh2yb2ytau4 p tc omitSMLogs omitMSSMLogs)) + ytau6 * (w YTAU6 (dmh2ytau6 p tc omitSMLogs
      omitMSSMLogs)) + yt2 * yb4 * (w YT2YB4 (dmh2yt2yb4 p tc omitSMLogs omitMSSMLogs)) + yt4 * yb2 * (w
      YB2YT4 (dmh2yt4yb2 p tc omitSMLogs omitMSSMLogs))) + (w G32YT4 (dmh2yt4g32 p tc omitSMLogs
      omitMSSMLogs)).

  (** the calculation is this sum, with the factor of a disabled order replaced by 0 *)
  Lemma two_form_eq E p o s m tc : newTC E p false = Ok tc -> known_limit (getLimit tc) ->
    getDeltaMh2EFT2Loop E (mkEFT p o) s m = Ok (two_form (fun k x => if negb (o k =? 0)%Z then x else #0) p tc s m).
  Proof.
    intros H HL. unfold getDeltaMh2EFT2Loop. cbn [eft_p]. rewrite H. cbn [bind]. cbv zeta. unfold enabled. cbn [eft_orders].
    rewrite !(gTC_ok tc m HL). repeat (first [rewrite bind_ifb | cbn [bind]]; cbv beta).
    unfold two_form. cbv zeta.
    leaf (dmh2yt4g32 p tc s m) (o G32YT4).
    leaf (dmh2yb4g32 p tc s m) (o G32YB4).
    leaf (dmh2yb6 p tc s m) (o YB6).
    leaf (dmh2yt6 p tc s m) (o YT6).
    leaf (dmh2yb4ytau2 p tc s m) (o YTAU2YB4).
    leaf (dmh2yb2ytau4 p tc s m) (o YTAU4YB2).
    leaf (dmh2ytau6 p tc s m) (o YTAU6).
    leaf (dmh2yt2yb4 p tc s m) (o YT2YB4).
    leaf (dmh2yt4yb2 p tc s m) (o YB2YT4).
    reflexivity.
  Qed.

End Form.
