(** * Threshold corrections, one loop
    GENERATED by tools/gen_thresh.py from source/himalaya/mh2_eft/ThresholdCalculator.cpp, statement by statement.
    [omitLogs], [limit] are C++ int / enum values (any integer, as the enum is cast from a user-supplied int); omitLogs is
    converted to double exactly.  A [switch (limit)] is an if-chain over the integer value.
    getDeltaVevG12, getDeltaVevG22 (:889-900) return NaN and are represented in Threshold.v. *)
From Coq Require Import ZArith Bool String.
From Verif Require Import Num Except Params HierFormulas Dilog LoopFun.

(** source/himalaya/mh2_eft/EFTFlags.hpp: enum class Limits *)

Definition GENERAL := 0%Z.
Definition MQ3_EQ_MU3 := 1%Z.
Definition MQ3_EQ_M3 := 2%Z.
Definition MU3_EQ_M3 := 3%Z.
Definition MQ3_EQ_MU3_EQ_M3 := 4%Z.
Definition DEGENERATE := 5%Z.

Section Thresh.
  Context {T : Type} {N : Num T}.
  Open Scope num_scope.

  (** calcBeta, calcTanBeta, calcV, calcV2, calcSinBeta, calcCosBeta (:5958-5986) have the same text as in
      HierarchyCalculator.cpp and are taken from HierFormulas.v. *)

  (** source/himalaya/mh2_eft/ThresholdCalculator.cpp:5988-5991 *)
  Definition calcXt (p : Params T) : T :=
    a22 (Au p) - mu p / calcTanBeta p.

  (** source/himalaya/mh2_eft/ThresholdCalculator.cpp:5993-5996 *)
  Definition calcXb (p : Params T) : T :=
    a22 (Ad p) - mu p * calcTanBeta p.

  (** source/himalaya/mh2_eft/ThresholdCalculator.cpp:5998-6001 *)
  Definition calcXtau (p : Params T) : T :=
    a22 (Ae p) - mu p * calcTanBeta p.

  (** source/himalaya/mh2_eft/ThresholdCalculator.cpp:6003-6006 *)
  Definition calcYt (p : Params T) : T :=
    a22 (Au p) + mu p * calcTanBeta p.

  (** source/himalaya/mh2_eft/ThresholdCalculator.cpp:6008-6011 *)
  Definition calcYb (p : Params T) : T :=
    a22 (Ad p) + mu p / calcTanBeta p.

  (** source/himalaya/mh2_eft/ThresholdCalculator.cpp:6013-6016 *)
  Definition calcYtau (p : Params T) : T :=
    a22 (Ae p) + mu p / calcTanBeta p.

  (** source/himalaya/mh2_eft/ThresholdCalculator.cpp:92-101 *)
  Definition isGeneralStable (exact shifted limit : T) : bool :=
    if ((negb (nisfin exact)) || (negb (nisfin shifted))) || ((nabs exact >? #1) && (nabs shifted >? #1)) then
      false
    else
    nabs (shifted - limit) <? nabs (exact - limit).

  (** source/himalaya/mh2_eft/ThresholdCalculator.cpp:418-432 *)
  Definition getDeltaLambdaYb2G12 (p : Params T) (omitLogs : Z) : T :=
    let MR2 := pow2 (scale p) in
    let mQ32 := a22 (mq2 p) in
    let mD32 := a22 (md2 p) in
    let mQ3 := nsqrt mQ32 in
    let mD3 := nsqrt mD32 in
    let Xb2 := pow2 (calcXb p) in
    let c2beta := ncos (#2 * calcBeta p) in
    let lmD3MR := #omitLogs * nlog (mD32 / MR2) in
    let lmQ3MR := #omitLogs * nlog (mQ32 / MR2) in
    #(-3) * c2beta * (Xb2 * (#3 * (F3 (mQ3 / mD3) + F4 (mQ3 / mD3)) + #2 * c2beta * F5 (mQ3 / mD3)) + #4
      * mD3 * mQ3 * (#2 * lmD3MR + lmQ3MR)) / (#20 * mD3 * mQ3).

  (** source/himalaya/mh2_eft/ThresholdCalculator.cpp:434-463 *)
  Definition getDeltaLambdaG14 (p : Params T) (omitLogs : Z) : T :=
    let MR2 := pow2 (scale p) in
    let beta := calcBeta p in
    let c2beta := ncos (#2 * beta) in
    let c4beta := ncos (#4 * beta) in
    let c8beta := ncos (#8 * beta) in
    let s4beta2 := pow2 (nsin (#4 * beta)) in
    let lmAMR := #omitLogs * nlog (pow2 (MA p) / MR2) in
    let lmD1MR := #omitLogs * nlog (a00 (md2 p) / MR2) in
    let lmD2MR := #omitLogs * nlog (a11 (md2 p) / MR2) in
    let lmD3MR := #omitLogs * nlog (a22 (md2 p) / MR2) in
    let lmE1MR := #omitLogs * nlog (a00 (me2 p) / MR2) in
    let lmE2MR := #omitLogs * nlog (a11 (me2 p) / MR2) in
    let lmE3MR := #omitLogs * nlog (a22 (me2 p) / MR2) in
    let lmL1MR := #omitLogs * nlog (a00 (ml2 p) / MR2) in
    let lmL2MR := #omitLogs * nlog (a11 (ml2 p) / MR2) in
    let lmL3MR := #omitLogs * nlog (a22 (ml2 p) / MR2) in
    let lmQ1MR := #omitLogs * nlog (a00 (mq2 p) / MR2) in
    let lmQ2MR := #omitLogs * nlog (a11 (mq2 p) / MR2) in
    let lmQ3MR := #omitLogs * nlog (a22 (mq2 p) / MR2) in
    let lmU1MR := #omitLogs * nlog (a00 (mu2 p) / MR2) in
    let lmU2MR := #omitLogs * nlog (a11 (mu2 p) / MR2) in
    let lmU3MR := #omitLogs * nlog (a22 (mu2 p) / MR2) in
    (#(-108) * s4beta2 - #3 * (#(-29) + #4 * c4beta + #9 * c8beta) * lmAMR + #16 * pow2 c2beta * (#2 *
      (lmD1MR + lmD2MR + lmD3MR + #3 * (lmE1MR + lmE2MR + lmE3MR)) + #3 * (lmL1MR + lmL2MR + lmL3MR) +
      lmQ1MR + lmQ2MR + lmQ3MR + #8 * (lmU1MR + lmU2MR + lmU3MR))) / #800.

  (** source/himalaya/mh2_eft/ThresholdCalculator.cpp:465-468 *)
  Definition getDeltaLambdaRegG14 (p : Params T) : T :=
    #(-9) / #50.

  (** source/himalaya/mh2_eft/ThresholdCalculator.cpp:470-482 *)
  Definition getDeltaLambdaChiG14 (p : Params T) (omitLogs : Z) : T :=
    let MR2 := pow2 (scale p) in
    let beta := calcBeta p in
    let c4be := ncos (#4 * beta) in
    let s2be := nsin (#2 * beta) in
    let s6be := nsin (#6 * beta) in
    let lmUMR := #omitLogs * nlog (pow2 (mu p) / MR2) in
    #(-3) * (#22 * lmUMR - #2 * c4be * lmUMR + #7 * (#3 + c4be) * f1 (M1 p / mu p) - #9 * (#(-1) + c4be)
      * f3 (M1 p / mu p) + #31 * s2be * F5 (M1 p / mu p) - #2 * F7 (M1 p / mu p) - #2 * c4be * F7 (M1 p /
      mu p) - F5 (M1 p / mu p) * s6be) / #200.

  (** source/himalaya/mh2_eft/ThresholdCalculator.cpp:484-498 *)
  Definition getDeltaLambdaChiG24 (p : Params T) (omitLogs : Z) : T :=
    let MR2 := pow2 (scale p) in
    let beta := calcBeta p in
    let c4beta := ncos (#4 * beta) in
    let s2beta := nsin (#2 * beta) in
    let s6beta := nsin (#6 * beta) in
    let lm2MR := #omitLogs * nlog (pow2 (M2 p) / MR2) in
    let lmUMR := #omitLogs * nlog (pow2 (mu p) / MR2) in
    (#(-82) * lmUMR - #10 * c4beta * lmUMR - #27 * (#3 + c4beta) * f2 (M2 p / mu p) - #93 * s2beta * F5
      (M2 p / mu p) + #6 * F7 (M2 p / mu p) + #6 * c4beta * F7 (M2 p / mu p) - #8 * lm2MR - #8 * c4beta *
      lm2MR - #42 * f4 (M2 p / mu p) * pow2 s2beta + #3 * F5 (M2 p / mu p) * s6beta) / #24.

  (** source/himalaya/mh2_eft/ThresholdCalculator.cpp:500-518 *)
  Definition getDeltaLambdaG24 (p : Params T) (omitLogs : Z) : T :=
    let MR2 := pow2 (scale p) in
    let beta := calcBeta p in
    let c2beta := ncos (#2 * beta) in
    let c4beta := ncos (#4 * beta) in
    let c8beta := ncos (#8 * beta) in
    let s4beta := nsin (#4 * beta) in
    let lmAMR := #omitLogs * nlog (pow2 (MA p) / MR2) in
    let lmL1MR := #omitLogs * nlog (a00 (ml2 p) / MR2) in
    let lmL2MR := #omitLogs * nlog (a11 (ml2 p) / MR2) in
    let lmL3MR := #omitLogs * nlog (a22 (ml2 p) / MR2) in
    let lmQ1MR := #omitLogs * nlog (a00 (mq2 p) / MR2) in
    let lmQ2MR := #omitLogs * nlog (a11 (mq2 p) / MR2) in
    let lmQ3MR := #omitLogs * nlog (a22 (mq2 p) / MR2) in
    (#(-36) * pow2 s4beta + (#53 - #28 * c4beta - #9 * c8beta) * lmAMR + #16 * pow2 c2beta * (lmL1MR +
      lmL2MR + lmL3MR + #3 * (lmQ1MR + lmQ2MR + lmQ3MR))) / #96.

  (** source/himalaya/mh2_eft/ThresholdCalculator.cpp:520-526 *)
  Definition getDeltaLambdaRegG24 (p : Params T) : T :=
    let beta := calcBeta p in
    let c2beta := ncos (#2 * beta) in
    (#(-9) + #2 * pow2 c2beta) / #6.

  (** source/himalaya/mh2_eft/ThresholdCalculator.cpp:528-538 *)
  Definition getDeltaLambdaG12G22 (p : Params T) (omitLogs : Z) : T :=
    let MR2 := pow2 (scale p) in
    let beta := calcBeta p in
    let c4beta := ncos (#4 * beta) in
    let c8beta := ncos (#8 * beta) in
    let s4beta := nsin (#4 * beta) in
    let lmAMR := #omitLogs * nlog (pow2 (MA p) / MR2) in
    #(-3) * (#12 * pow2 s4beta + (#(-7) + #4 * c4beta + #3 * c8beta) * lmAMR) / #80.

  (** source/himalaya/mh2_eft/ThresholdCalculator.cpp:540-543 *)
  Definition getDeltaLambdaRegG12G22 (p : Params T) : T :=
    #(-3) / #5.

  (** source/himalaya/mh2_eft/ThresholdCalculator.cpp:545-562 *)
  Definition getDeltaLambdaChiG12G22 (p : Params T) (omitLogs : Z) : T :=
    let MR2 := pow2 (scale p) in
    let beta := calcBeta p in
    let c2beta := ncos (#2 * beta) in
    let c4beta := ncos (#4 * beta) in
    let s2beta := nsin (#2 * beta) in
    let s6beta := nsin (#6 * beta) in
    let m1mu := M1 p / mu p in
    let m2mu := M2 p / mu p in
    let lmUMR := #omitLogs * nlog (pow2 (mu p) / MR2) in
    (#(-24) * lmUMR + #24 * c4beta * lmUMR + #3 * s2beta * F5 m2mu - #42 * f6 m1mu m2mu - #14 * c4beta *
      f6 m1mu m2mu + #6 * F7 m2mu + #6 * c4beta * F7 m2mu - #64 * s2beta * f8 m1mu m2mu + #4 * F7 m1mu *
      pow2 c2beta - #32 * f5 m1mu m2mu * pow2 s2beta - #4 * f7 m1mu m2mu * pow2 s2beta + #3 * F5 m2mu *
      s6beta + F5 m1mu * (s2beta + s6beta)) / #40.

  (** source/himalaya/mh2_eft/ThresholdCalculator.cpp:564-578 *)
  Definition getDeltaLambdaYb2G22 (p : Params T) (omitLogs : Z) : T :=
    let MR2 := pow2 (scale p) in
    let Xb2 := pow2 (calcXb p) in
    let mQ32 := a22 (mq2 p) in
    let mD32 := a22 (md2 p) in
    let mQ3 := nsqrt mQ32 in
    let mD3 := nsqrt mD32 in
    let beta := calcBeta p in
    let c2beta := ncos (#2 * beta) in
    let lmQ3MR := #omitLogs * nlog (mQ32 / MR2) in
    - (c2beta * Xb2 * (#3 * F4 (mQ3 / mD3) + c2beta * F5 (mQ3 / mD3))) / (#2 * mD3 * mQ3) - #3 * c2beta
      * lmQ3MR.

  (** source/himalaya/mh2_eft/ThresholdCalculator.cpp:580-593 *)
  Definition getDeltaLambdaYb4 (p : Params T) (omitLogs : Z) : T :=
    let MR2 := pow2 (scale p) in
    let Xb2 := pow2 (calcXb p) in
    let mQ32 := a22 (mq2 p) in
    let mD32 := a22 (md2 p) in
    let mQ3 := nsqrt mQ32 in
    let mD3 := nsqrt mD32 in
    let lmQ3MR := #omitLogs * nlog (mQ32 / MR2) in
    let lmD3MR := #omitLogs * nlog (mD32 / MR2) in
    (#12 * mD3 * mQ3 * Xb2 * F1 (mQ3 / mD3) - pow2 Xb2 * F2 (mQ3 / mD3)) / (mD32 * mQ32) + #6 * (lmD3MR
      + lmQ3MR).

  (** source/himalaya/mh2_eft/ThresholdCalculator.cpp:595-610 *)
  Definition getDeltaLambdaYt2G12 (p : Params T) (omitLogs : Z) : T :=
    let MR2 := pow2 (scale p) in
    let Xt2 := pow2 (calcXt p) in
    let mQ32 := a22 (mq2 p) in
    let mU32 := a22 (mu2 p) in
    let mQ3 := nsqrt mQ32 in
    let mU3 := nsqrt mU32 in
    let beta := calcBeta p in
    let c2beta := ncos (#2 * beta) in
    let lmQ3MR := #omitLogs * nlog (mQ32 / MR2) in
    let lmU3MR := #omitLogs * nlog (mU32 / MR2) in
    #(-3) * c2beta * (#(-3) * Xt2 * F3 (mQ3 / mU3) + c2beta * Xt2 * F5 (mQ3 / mU3) + #2 * mQ3 * mU3 *
      (lmQ3MR - #4 * lmU3MR)) / (#10 * mQ3 * mU3).

  (** source/himalaya/mh2_eft/ThresholdCalculator.cpp:612-626 *)
  Definition getDeltaLambdaYt2G22 (p : Params T) (omitLogs : Z) : T :=
    let MR2 := pow2 (scale p) in
    let Xt2 := pow2 (calcXt p) in
    let mQ32 := a22 (mq2 p) in
    let mU32 := a22 (mu2 p) in
    let mQ3 := nsqrt mQ32 in
    let mU3 := nsqrt mU32 in
    let beta := calcBeta p in
    let c2beta := ncos (#2 * beta) in
    let lmQ3MR := #omitLogs * nlog (mQ32 / MR2) in
    - c2beta * Xt2 * (#(-3) * F4 (mQ3 / mU3) + c2beta * F5 (mQ3 / mU3)) / (#2 * mQ3 * mU3) + #3 * c2beta
      * lmQ3MR.

  (** source/himalaya/mh2_eft/ThresholdCalculator.cpp:628-643 *)
  Definition getDeltaLambdaYtau2G12 (p : Params T) (omitLogs : Z) : T :=
    let MR2 := pow2 (scale p) in
    let Xtau2 := pow2 (calcXtau p) in
    let mL32 := a22 (ml2 p) in
    let mE32 := a22 (me2 p) in
    let mL3 := nsqrt mL32 in
    let mE3 := nsqrt mE32 in
    let beta := calcBeta p in
    let c2beta := ncos (#2 * beta) in
    let lmE3MR := #omitLogs * nlog (mE32 / MR2) in
    let lmL3MR := #omitLogs * nlog (mL32 / MR2) in
    c2beta * (Xtau2 * (#(-9) * F3 (mL3 / mE3) + #3 * F4 (mL3 / mE3) - #2 * c2beta * F5 (mL3 / mE3)) /
      (mE3 * mL3) + #12 * (#(-2) * lmE3MR + lmL3MR)) / #20.

  (** source/himalaya/mh2_eft/ThresholdCalculator.cpp:645-659 *)
  Definition getDeltaLambdaYtau2G22 (p : Params T) (omitLogs : Z) : T :=
    let MR2 := pow2 (scale p) in
    let Xtau2 := pow2 (calcXtau p) in
    let mL32 := a22 (ml2 p) in
    let mE32 := a22 (me2 p) in
    let mL3 := nsqrt mL32 in
    let mE3 := nsqrt mE32 in
    let beta := calcBeta p in
    let c2beta := ncos (#2 * beta) in
    let lmL3MR := #omitLogs * nlog (mL32 / MR2) in
    - c2beta * Xtau2 * (#3 * F4 (mL3 / mE3) + c2beta * F5 (mL3 / mE3)) / (#6 * mE3 * mL3) - c2beta *
      lmL3MR.

  (** source/himalaya/mh2_eft/ThresholdCalculator.cpp:661-674 *)
  Definition getDeltaLambdaYtau4 (p : Params T) (omitLogs : Z) : T :=
    let MR2 := pow2 (scale p) in
    let Xtau2 := pow2 (calcXtau p) in
    let mL32 := a22 (ml2 p) in
    let mE32 := a22 (me2 p) in
    let mL3 := nsqrt mL32 in
    let mE3 := nsqrt mE32 in
    let lmE3MR := #omitLogs * nlog (mE32 / MR2) in
    let lmL3MR := #omitLogs * nlog (mL32 / MR2) in
    (#12 * mE3 * mL3 * Xtau2 * F1 (mL3 / mE3) - pow2 Xtau2 * F2 (mL3 / mE3)) / (#3 * mE32 * mL32) + #2 *
      (lmE3MR + lmL3MR).

  (** source/himalaya/mh2_eft/ThresholdCalculator.cpp:676-700 *)
  Definition getDeltaG1G1 (p : Params T) (omitLogs : Z) : T :=
    let MR2 := pow2 (scale p) in
    let lmAMR := #omitLogs * nlog (pow2 (MA p) / MR2) in
    let lmUMR := #omitLogs * nlog (pow2 (mu p) / MR2) in
    let lmD1MR := #omitLogs * nlog (a00 (md2 p) / MR2) in
    let lmD2MR := #omitLogs * nlog (a11 (md2 p) / MR2) in
    let lmD3MR := #omitLogs * nlog (a22 (md2 p) / MR2) in
    let lmE1MR := #omitLogs * nlog (a00 (me2 p) / MR2) in
    let lmE2MR := #omitLogs * nlog (a11 (me2 p) / MR2) in
    let lmE3MR := #omitLogs * nlog (a22 (me2 p) / MR2) in
    let lmL1MR := #omitLogs * nlog (a00 (ml2 p) / MR2) in
    let lmL2MR := #omitLogs * nlog (a11 (ml2 p) / MR2) in
    let lmL3MR := #omitLogs * nlog (a22 (ml2 p) / MR2) in
    let lmQ1MR := #omitLogs * nlog (a00 (mq2 p) / MR2) in
    let lmQ2MR := #omitLogs * nlog (a11 (mq2 p) / MR2) in
    let lmQ3MR := #omitLogs * nlog (a22 (mq2 p) / MR2) in
    let lmU1MR := #omitLogs * nlog (a00 (mu2 p) / MR2) in
    let lmU2MR := #omitLogs * nlog (a11 (mu2 p) / MR2) in
    let lmU3MR := #omitLogs * nlog (a22 (mu2 p) / MR2) in
    (#(-3) * lmAMR - #2 * (lmD1MR + lmD2MR + lmD3MR + #3 * (lmE1MR + lmE2MR + lmE3MR)) - #3 * (lmL1MR +
      lmL2MR + lmL3MR) - lmQ1MR - lmQ2MR - lmQ3MR - #12 * lmUMR - #8 * (lmU1MR + lmU2MR + lmU3MR)) / #60.

  (** source/himalaya/mh2_eft/ThresholdCalculator.cpp:702-717 *)
  Definition getDeltaG2G2 (p : Params T) (omitLogs : Z) : T :=
    let MR2 := pow2 (scale p) in
    let lm2MR := #omitLogs * nlog (pow2 (M2 p) / MR2) in
    let lmAMR := #omitLogs * nlog (pow2 (MA p) / MR2) in
    let lmUMR := #omitLogs * nlog (pow2 (mu p) / MR2) in
    let lmL1MR := #omitLogs * nlog (a00 (ml2 p) / MR2) in
    let lmL2MR := #omitLogs * nlog (a11 (ml2 p) / MR2) in
    let lmL3MR := #omitLogs * nlog (a22 (ml2 p) / MR2) in
    let lmQ1MR := #omitLogs * nlog (a00 (mq2 p) / MR2) in
    let lmQ2MR := #omitLogs * nlog (a11 (mq2 p) / MR2) in
    let lmQ3MR := #omitLogs * nlog (a22 (mq2 p) / MR2) in
    (#4 - #8 * lm2MR - lmAMR - lmL1MR - lmL2MR - lmL3MR - #3 * (lmQ1MR + lmQ2MR + lmQ3MR) - #4 * lmUMR)
      / #12.

  (** source/himalaya/mh2_eft/ThresholdCalculator.cpp:719-732 *)
  Definition getDeltaYtYt (p : Params T) (omitLogs : Z) : T :=
    let MR2 := pow2 (scale p) in
    let cbeta := calcCosBeta p in
    let sbeta := calcSinBeta p in
    let Xt2 := pow2 (calcXt p) in
    let mQ3 := nsqrt (a22 (mq2 p)) in
    let mU3 := nsqrt (a22 (mu2 p)) in
    let lmAMR := #omitLogs * nlog (pow2 (MA p) / MR2) in
    let lmUMR := #omitLogs * nlog (pow2 (mu p) / MR2) in
    (#(-2) * pow2 sbeta * Xt2 * F5 (mQ3 / mU3) / (mQ3 * mU3) + #8 * F6 (mQ3 / mu p) + #4 * F6 (mU3 / mu
      p) + pow2 cbeta * (#(-3) + #6 * lmAMR) + #6 * lmUMR) / #8.

  (** source/himalaya/mh2_eft/ThresholdCalculator.cpp:734-747 *)
  Definition getDeltaYtauYtau (p : Params T) (omitLogs : Z) : T :=
    let MR2 := pow2 (scale p) in
    let cbeta := calcCosBeta p in
    let sbeta := calcSinBeta p in
    let Xtau2 := pow2 (calcXtau p) in
    let mL3 := nsqrt (a22 (ml2 p)) in
    let mE3 := nsqrt (a22 (me2 p)) in
    let lmAMR := #omitLogs * nlog (pow2 (MA p) / MR2) in
    let lmUMR := #omitLogs * nlog (pow2 (mu p) / MR2) in
    - pow2 cbeta * Xtau2 * F5 (mL3 / mE3) / (#12 * mE3 * mL3) + (#4 * F6 (mE3 / mu p) + #8 * F6 (mL3 /
      mu p) + pow2 sbeta * (#(-3) + #6 * lmAMR) + #6 * lmUMR) / #8.

  (** source/himalaya/mh2_eft/ThresholdCalculator.cpp:749-762 *)
  Definition getDeltaYbYb (p : Params T) (omitLogs : Z) : T :=
    let cbeta := calcCosBeta p in
    let sbeta := calcSinBeta p in
    let mA2 := pow2 (MA p) in
    let MR2 := pow2 (scale p) in
    let mQ3 := nsqrt (a22 (mq2 p)) in
    let mD3 := nsqrt (a22 (md2 p)) in
    let Xb2 := pow2 (calcXb p) in
    let lmUMR := #omitLogs * nlog (pow2 (mu p) / MR2) in
    (#6 * lmUMR + #4 * F6 (mD3 / mu p) + #8 * F6 (mQ3 / mu p) - #2 * Xb2 * F5 (mQ3 / mD3) * pow2 cbeta /
      (mD3 * mQ3 * pow2 sbeta) + #3 * (#(-1) + #2 * #omitLogs * nlog (mA2 / MR2)) * pow2 sbeta) / #8.

  (** source/himalaya/mh2_eft/ThresholdCalculator.cpp:764-786 *)
  Definition getDeltaYbYt (p : Params T) (omitLogs : Z) : T :=
    let tbe := calcTanBeta p in
    let cbeta := calcCosBeta p in
    let sbeta := calcSinBeta p in
    let mA2 := pow2 (MA p) in
    let MR2 := pow2 (scale p) in
    let mU3 := nsqrt (a22 (mu2 p)) in
    let mQ3 := nsqrt (a22 (mq2 p)) in
    let mD3 := nsqrt (a22 (md2 p)) in
    let Xb2 := pow2 (calcXb p) in
    let Xt := calcXt p in
    let lmUMR := #omitLogs * nlog (pow2 (mu p) / MR2) in
    let lmAMR := #omitLogs * nlog (mA2 / MR2) in
    (#2 * lmUMR + #4 * F6 (mU3 / mu p) + #4 * tbe * Xt * F9 (mQ3 / mu p) (mU3 / mu p) / mu p + (#(-1) +
      #2 * lmAMR) * pow2 cbeta - #2 * Xb2 * F5 (mQ3 / mD3) * pow2 cbeta / (mD3 * mQ3 * pow2 sbeta) - #4 *
      pow2 Xt * F5 (mQ3 / mU3) * pow2 sbeta / (mQ3 * mU3) + #8 * (#(-1) + lmAMR) * pow2 sbeta) / #8.

  (** source/himalaya/mh2_eft/ThresholdCalculator.cpp:788-798 *)
  Definition getDeltaYbAs (p : Params T) (omitLogs : Z) : T :=
    let MR2 := pow2 (scale p) in
    let mD3 := nsqrt (a22 (md2 p)) in
    let mQ3 := nsqrt (a22 (mq2 p)) in
    let Xb := calcXb p in
    let m3 := MG p in
    #4 * (#1 + F6 (mD3 / m3) + F6 (mQ3 / m3) - Xb * F9 (mQ3 / m3) (mD3 / m3) / m3 + #omitLogs * nlog
      (pow2 m3 / MR2)) / #3.

  (** source/himalaya/mh2_eft/ThresholdCalculator.cpp:800-818 *)
  Definition getDeltaYtYb (p : Params T) (omitLogs : Z) : T :=
    let MR2 := pow2 (scale p) in
    let cbeta := calcCosBeta p in
    let sbeta := calcSinBeta p in
    let mD3 := nsqrt (a22 (md2 p)) in
    let mQ3 := nsqrt (a22 (mq2 p)) in
    let mU3 := nsqrt (a22 (mu2 p)) in
    let Xb := calcXb p in
    let Xt := calcXt p in
    let lmAMR := #omitLogs * nlog (pow2 (MA p) / MR2) in
    let lmUMR := #omitLogs * nlog (pow2 (mu p) / MR2) in
    (#(-2) * mu p * mU3 * pow2 Xb * F5 (mQ3 / mD3) * pow2 cbeta * (#1 + pow2 sbeta) + mD3 * pow2 sbeta *
      (#(-2) * mu p * pow2 Xt * F5 (mQ3 / mU3) * pow2 sbeta + mQ3 * mU3 * (#4 * mu p * F6 (mD3 / mu p) +
      #4 * vd p / vu p * Xb * F9 (mQ3 / mu p) (mD3 / mu p) + mu p * (#2 * lmUMR - #8 * pow2 cbeta - pow2
      sbeta + #2 * lmAMR * (#4 * pow2 cbeta + pow2 sbeta))))) / (#8 * mD3 * mQ3 * mu p * mU3 * pow2 sbeta).

  (** source/himalaya/mh2_eft/ThresholdCalculator.cpp:820-835 *)
  Definition getDeltaVevYt2 (p : Params T) (limit : Z) : T :=
    let Xt2 := pow2 (calcXt p) in
    let mQ32 := a22 (mq2 p) in
    let mU32 := a22 (mu2 p) in
    let limit :=
      if (limit =? MQ3_EQ_M3)%Z || (limit =? MU3_EQ_M3)%Z then
        let limit := GENERAL in
        limit
      else
        limit in
    if (limit =? GENERAL)%Z then
      #3 * Xt2 * (#(-2) * mQ32 * mU32 * nlog (mQ32 / mU32) + pow2 mQ32 - pow2 mU32) / (#4 * pow3 (mQ32 -
      mU32))
    else
    Xt2 / (#4 * mQ32).

  (** source/himalaya/mh2_eft/ThresholdCalculator.cpp:837-860 *)
  Definition getDeltaVevYb2 (p : Params T) : T :=
    let Xb2 := pow2 (calcXb p) in
    let mQ32 := a22 (mq2 p) in
    let mD32 := a22 (md2 p) in
    let eps := mQ32 * ndec 1 2 in
    let exact := #3 * Xb2 * (#2 * mD32 * mQ32 * nlog (mQ32 / mD32) + pow2 mD32 - pow2 mQ32) / (#4 * pow3 (mD32 -
      mQ32)) in
    if nabs (mQ32 - mD32) <? eps then
      Xb2 / (#4 * mQ32)
    else
    exact.

  (** source/himalaya/mh2_eft/ThresholdCalculator.cpp:862-884 *)
  Definition getDeltaVevYtau2 (p : Params T) : T :=
    let Xtau2 := pow2 (calcXtau p) in
    let mL32 := a22 (ml2 p) in
    let mE32 := a22 (me2 p) in
    let eps := mL32 * ndec 1 2 in
    let exact := Xtau2 * (#2 * nlog (mL32 / mE32) * mE32 * mL32 + pow2 mE32 - pow2 mL32) / (#4 * pow3 (mE32 - mL32)) in
    if nabs (mL32 - mE32) <? eps then
      Xtau2 / (#12 * mL32)
    else
    exact.

  (** source/himalaya/mh2_eft/ThresholdCalculator.cpp:902-910 *)
  Definition getDeltaYtauYb (p : Params T) : T :=
    let Xt2 := pow2 (calcXt p) in
    let mQ3 := nsqrt (a22 (mq2 p)) in
    let mU3 := nsqrt (a22 (mu2 p)) in
    let sbeta := calcSinBeta p in
    - (pow2 sbeta * Xt2 * F5 (mQ3 / mU3)) / (#4 * mQ3 * mU3).

  (** source/himalaya/mh2_eft/ThresholdCalculator.cpp:3103-3116 *)
  Definition getDeltaG3Alphas (p : Params T) (msq2 : T) (omitLogs : Z) : T :=
    let Mst12 := pow2 (v0 (MSt p)) in
    let m32 := pow2 (MG p) in
    let MR2 := pow2 (scale p) in
    let mU32 := a22 (mu2 p) in
    let mQ32 := a22 (mq2 p) in
    let lmsqMR := #omitLogs * nlog (Mst12 / MR2) + nlog (msq2 / Mst12) in
    let lm3MR := #omitLogs * nlog (Mst12 / MR2) + nlog (m32 / Mst12) in
    let lmU3MR := #omitLogs * nlog (Mst12 / MR2) + nlog (mU32 / Mst12) in
    let lmQ3MR := #omitLogs * nlog (Mst12 / MR2) + nlog (mQ32 / Mst12) in
    #1 / #2 - lm3MR - (lmQ3MR + #10 * lmsqMR + lmU3MR) / #12.

  (** source/himalaya/mh2_eft/ThresholdCalculator.cpp:3124-3173 *)
  Definition getDeltaYtAlphas (p : Params T) (limit : Z) (omitLogs : Z) : res T :=
    let Mst12 := pow2 (v0 (MSt p)) in
    let m32 := pow2 (MG p) in
    let MR2 := pow2 (scale p) in
    let mU32 := a22 (mu2 p) in
    let mQ32 := a22 (mq2 p) in
    let m3 := nsqrt m32 in
    let mU3 := nsqrt mU32 in
    let mQ3 := nsqrt mQ32 in
    let Xt := calcXt p in
    let lmQ3MR := #omitLogs * nlog (Mst12 / MR2) + nlog (mQ32 / Mst12) in
    let limit :=
      if (limit =? DEGENERATE)%Z then
        let limit := MQ3_EQ_MU3_EQ_M3 in
        limit
      else
        limit in
    if (limit =? GENERAL)%Z then
      Ok (#2 * (#(-2) * lmQ3MR + mQ32 * mU32 / ((- m32 + mQ32) * (m32 - mU32)) + pow4 m3 / ((m32 - mQ32) *
      (m32 - mU32)) - mU32 * nlog (mU32 / pow2 mQ3) * (#2 * m32 * (mQ32 - mU32) - mQ32 * mU32 - #4 * m3 *
      mU32 * Xt + #4 * Xt * pow3 m3 + pow4 mU3) / ((- mQ32 + mU32) * pow2 (m32 - mU32)) - nlog (m32 / pow2
      mQ3) * pow3 m3 * (#(-4) * mQ32 * mU32 * Xt + #4 * m32 * (mQ32 + mU32) * Xt - #2 * (mQ32 + mU32) *
      pow3 m3 - #4 * Xt * pow4 m3 + m3 * (pow4 mQ3 + pow4 mU3) + #2 * pow5 m3) / (pow2 (m32 - mQ32) * pow2
      (m32 - mU32))) / #3)
    else
    if (limit =? MQ3_EQ_MU3)%Z then
      Ok (#(-2) * ((m32 - mQ32) * ((#(-1) + #2 * lmQ3MR) * m32 - (#1 + #2 * lmQ3MR) * mQ32 + #4 * m3 * Xt) +
      #2 * (m3 - #2 * Xt) * nlog (m32 / pow2 mQ3) * pow3 m3) / (#3 * pow2 (m32 - mQ32)))
    else
    if (limit =? MQ3_EQ_M3)%Z then
      Ok ((#(-4) * lmQ3MR - ((mQ32 - mU32) * (mQ32 - #3 * mU32 - #8 * mQ3 * Xt) + #2 * mU32 * (#(-2) * mQ32 +
      mU32 - #4 * mQ3 * Xt) * nlog (mU32 / pow2 mQ3)) / pow2 (mQ32 - mU32)) / #3)
    else
    if (limit =? MU3_EQ_M3)%Z then
      Ok (#2 * (#(-2) * lmQ3MR + (#(-3) * mQ32 + mU3 * (mU3 - #8 * Xt)) / (#2 * (mQ32 - mU32)) - nlog (mU32 /
      pow2 mQ3) * (#(-2) * mQ32 * mU3 * (mU3 - #2 * Xt) + pow4 mQ3 + #2 * pow4 mU3) / pow2 (mQ32 - mU32))
      / #3)
    else
    if (limit =? MQ3_EQ_MU3_EQ_M3)%Z then
      Ok (#(-4) * (mQ3 + lmQ3MR * mQ3 - Xt) / (#3 * mQ3))
    else
    Throw "Mass limit not included!"%string.

  (** source/himalaya/mh2_eft/ThresholdCalculator.cpp:3637-3666 *)
  Definition getDeltaLambdaAlphat (p : Params T) (limit : Z) (omitLogs : Z) : res T :=
    let Mst12 := pow2 (v0 (MSt p)) in
    let MR2 := pow2 (scale p) in
    let mQ32 := a22 (mq2 p) in
    let Xt := calcXt p in
    let lmQ3MR := #omitLogs * nlog (Mst12 / MR2) + nlog (mQ32 / Mst12) in
    let limit :=
      if (limit =? DEGENERATE)%Z then
        let limit := MQ3_EQ_MU3_EQ_M3 in
        limit
      else
        limit in
    let limit :=
      if (limit =? MQ3_EQ_M3)%Z || (limit =? MU3_EQ_M3)%Z then
        let limit := GENERAL in
        limit
      else
        limit in
    let limit :=
      if (limit =? MQ3_EQ_MU3_EQ_M3)%Z then
        let limit := MQ3_EQ_MU3 in
        limit
      else
        limit in
    if (limit =? GENERAL)%Z then
      let mU32 := a22 (mu2 p) in
      Ok (#12 * pow4 Xt / pow2 (mQ32 - mU32) + #12 * lmQ3MR + (#6 - #12 * pow2 Xt / (mQ32 - mU32) + #6 * (mQ32
      + mU32) / pow3 (mQ32 - mU32) * pow4 Xt) * nlog (mU32 / mQ32))
    else
    if (limit =? MQ3_EQ_MU3)%Z then
      Ok (#12 * lmQ3MR + #12 * pow2 Xt / mQ32 - pow4 Xt / pow2 mQ32)
    else
    Throw "Mass limit not included!"%string.

End Thresh.
