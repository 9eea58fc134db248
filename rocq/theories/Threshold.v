(** * ThresholdCalculator: construction, choice of the mass limit, scheme conversion *)
From Coq Require Import ZArith Bool String.
From Verif Require Import Num Except Params HierFormulas Thresh ThreshTwo.

(** source/himalaya/mh2_eft/EFTFlags.hpp:37-84, enum class ThresholdCouplingOrders (same order, so the
    underlying integer of a constructor is its position) *)
Inductive tco :=
  | G3_AS | YT_AS | YT_AS2 | LAMBDA_AT | LAMBDA_AT_AS | LAMBDA_AT_AS2
  | LAMBDA_YB2_G12 | LAMBDA_G14 | LAMBDA_REG_G14 | LAMBDA_CHI_G14 | LAMBDA_CHI_G24 | LAMBDA_G24
  | LAMBDA_REG_G24 | LAMBDA_G12_G22 | LAMBDA_REG_G12_G22 | LAMBDA_CHI_G12_G22 | LAMBDA_YB2_G22
  | LAMBDA_YB4 | LAMBDA_YT2_G12 | LAMBDA_YT2_G22 | LAMBDA_YTAU2_G12 | LAMBDA_YTAU2_G22 | LAMBDA_YTAU4
  | G1_G1 | G2_G2 | VEV_YT2 | YT_YB | YT_YT | YTAU_YTAU | LAMBDA_YB4_G32 | LAMBDA_YB6 | LAMBDA_YT6
  | LAMBDA_YTAU6 | LAMBDA_YT2_YB4 | LAMBDA_YT4_YB2 | VEV_YB2 | VEV_YTAU2 | VEV_G12 | VEV_G22 | YTAU_YB
  | LAMBDA_YTAU4_YB2 | LAMBDA_YTAU2_YB4 | YB_YT | YB_AS | YB_YB
  | tco_other (z : Z).   (* any other integer cast to the enum, e.g. NUMBER_OF_THRESHOLD_VARIALES *)

(** source/himalaya/mh2_eft/EFTFlags.hpp:22-31, enum class RenSchemes *)
Inductive scheme := S_H3m | S_DRBARPRIME | S_H3mMDRBAR | S_MDRBARPRIME | S_TEST | S_other (z : Z).

Section Threshold.
  Context {T : Type} {N : Num T}.
  Open Scope num_scope.

  (** data members of ThresholdCalculator (ThresholdCalculator.hpp:369-371): p, msq2, xtOrderLambdaAtAs2 = 6 *)
  Record TC := mkTC { tc_p : Params T; tc_msq2 : T; tc_xt : Z }.

  (** p.massLimit3LThreshold = l *)
  Definition with_limit (p : Params T) (l : Z) : Params T :=
    mkParams (scale p) (mu p) (g1 p) (g2 p) (g3 p) (vd p) (vu p) (mq2 p) (md2 p) (mu2 p) (ml2 p) (me2 p)
      (Au p) (Ad p) (Ae p) (Yu p) (Yd p) (Ye p) (M1 p) (M2 p) (MG p) (MW p) (MZ p) (Mt p) (Mb p) (Mtau p) (MA p)
      (MSt p) (MSb p) (MStau p) (s2t p) (s2b p) (s2tau p) (theta_t p) (theta_b p) (theta_tau p) l.
  (** Temporarily_set of p.mu2(2,2) and p.MG in the constructor (:163-164 etc.): the values seen by the calls
      in the scope of the guards *)
  Definition with_mU32_m3 (p : Params T) (mU32 m3 : T) : Params T :=
    let m := mu2 p in
    mkParams (scale p) (mu p) (g1 p) (g2 p) (g3 p) (vd p) (vu p) (mq2 p) (md2 p)
      (mkM3 (a00 m) (a01 m) (a02 m) (a10 m) (a11 m) (a12 m) (a20 m) (a21 m) mU32) (ml2 p) (me2 p)
      (Au p) (Ad p) (Ae p) (Yu p) (Yd p) (Ye p) (M1 p) (M2 p) m3 (MW p) (MZ p) (Mt p) (Mb p) (Mtau p) (MA p)
      (MSt p) (MSb p) (MStau p) (s2t p) (s2b p) (s2tau p) (theta_t p) (theta_b p) (theta_tau p)
      (massLimit3LThreshold p).

  (** The decision part of the constructor (:140-198), for the already validated parameters.
      The result is the new value of p.massLimit3LThreshold, or the exception of a call.
      In each branch the Temporarily_set guards are declared after [exact] is computed, so they are visible in
      [exactShifted] only, and restored at the end of the branch. *)
  Definition choose_branch (p : Params T) (msq2 msq2_shifted pref shifted_mU32 shifted_m3 : T) (lim_id : Z) : res Z :=
    do l <- getDeltaYtAlphas2 p msq2 lim_id 1;
    let lim := pref * l in
    do e <- getDeltaYtAlphas2 p msq2 GENERAL 1;
    let exact := pref * e in
    let q := with_mU32_m3 p shifted_mU32 shifted_m3 in
    do s <- getDeltaYtAlphas2 q msq2_shifted GENERAL 1;
    let exactShifted := pref * s in
    Ok (if isGeneralStable exact exactShifted lim then massLimit3LThreshold p else lim_id).

  Definition choose_limit (p : Params T) (msq2 : T) : res Z :=
    let mQ3 := nsqrt (a22 (mq2 p)) in
    let mU3 := nsqrt (a22 (mu2 p)) in
    let m3 := MG p in
    let eps := mQ3 * ndec 1 2 in
    let eps2 := mU3 * ndec 1 2 in
    let v := calcV p in
    let pref := nconst CtwoLoop * nconst Csqrt2 * Mt p * pow4 (g3 p) / v in
    let shifted_mU32 := pow2 (mQ3 + nabs (mU3 - mQ3) / #2) in
    let shifted_msq2 := pow2 (mQ3 + nabs (nsqrt msq2 - mQ3) / #2) in
    let shifted_m3 := mQ3 + nabs (m3 - mQ3) / #2 in
    if (nabs (mQ3 - mU3) <? eps) && (nabs (mU3 - m3) <? eps) && (nabs (m3 - nsqrt msq2) <? eps) then
      choose_branch p msq2 shifted_msq2 pref shifted_mU32 shifted_m3 DEGENERATE
    else if (nabs (mQ3 - mU3) <? eps) && (nabs (mU3 - m3) <? eps) then
      choose_branch p msq2 msq2 pref shifted_mU32 shifted_m3 MQ3_EQ_MU3_EQ_M3
    else if nabs (mQ3 - mU3) <? eps then
      choose_branch p msq2 msq2 pref shifted_mU32 shifted_m3 MQ3_EQ_MU3
    else if nabs (mQ3 - m3) <? eps then
      choose_branch p msq2 msq2 pref shifted_mU32 shifted_m3 MQ3_EQ_M3
    else if nabs (mU3 - m3) <? eps2 then
      choose_branch p msq2 msq2 pref shifted_mU32 shifted_m3 MU3_EQ_M3
    else Ok (massLimit3LThreshold p).

  (** source/himalaya/mh2_eft/ThresholdCalculator.cpp:135-199.  msq2 is initialised from the parameters as passed,
      before they are validated.  [verbose] only controls log output and is left out.  xtOrderLambdaAtAs2 is 6 by
      default (ThresholdCalculator.hpp:371). *)
  Definition newTC (E : EigenLib T) (p : Params T) (check : bool) : res TC :=
    let msq2 := calculateMsq2 p in
    do p <- validate E p;
    if check then Ok (mkTC p msq2 6)
    else do l <- choose_limit p msq2; Ok (mkTC (with_limit p l) msq2 6).

  (** :889-900: std::numeric_limits<double>::quiet_NaN() *)
  Definition qnan : T := #0 / #0.
  Definition getDeltaVevG12 : T := qnan.
  Definition getDeltaVevG22 : T := qnan.

  (** source/himalaya/mh2_eft/ThresholdCalculator.cpp:208-416 (the INFO_MSG is left out) *)
  Definition getThresholdCorrection (c : TC) (o : tco) (s : scheme) (omitLogs : Z) : res T :=
    let p := tc_p c in
    let msq2 := tc_msq2 c in
    let limit := massLimit3LThreshold p in
    match o with
    | G3_AS =>
        let x := getDeltaG3Alphas p msq2 omitLogs in
        match s with S_DRBARPRIME => Ok (- x) | _ => Ok x end
    | YT_AS =>
        do x <- getDeltaYtAlphas p limit omitLogs;
        match s with S_DRBARPRIME => Ok (- x) | _ => Ok x end
    | YT_AS2 =>
        do x <- getDeltaYtAlphas2 p msq2 limit omitLogs;
        match s with
        | S_DRBARPRIME =>
            do dytas <- getDeltaYtAlphas p limit omitLogs;
            Ok (#2 * getDeltaG3Alphas p msq2 omitLogs * dytas + pow2 dytas - x)
        | _ => Ok x
        end
    | LAMBDA_AT => getDeltaLambdaAlphat p limit omitLogs
    | LAMBDA_AT_AS =>
        do x <- getDeltaLambdaAlphatAlphas p limit omitLogs;
        match s with
        | S_DRBARPRIME =>
            do a <- getDeltaLambdaAlphat p limit omitLogs;
            do y <- getDeltaYtAlphas p limit omitLogs;
            Ok (x - #4 * a * y)
        | _ => Ok x
        end
    | LAMBDA_AT_AS2 =>
        do x <- getDeltaLambdaAlphatAlphas2 p msq2 (tc_xt c) limit omitLogs;
        match s with
        | S_DRBARPRIME =>
            let dg3as := getDeltaG3Alphas p msq2 omitLogs in
            do dytas <- getDeltaYtAlphas p limit omitLogs;
            do aa <- getDeltaLambdaAlphatAlphas p limit omitLogs;
            do a <- getDeltaLambdaAlphat p limit omitLogs;
            do y2 <- getDeltaYtAlphas2 p msq2 limit omitLogs;
            Ok (x + (aa * (#(-2) * dg3as - #4 * dytas)
                     + a * (#8 * dg3as * dytas + #10 * pow2 dytas - #4 * y2)))
        | _ => Ok x
        end
    | LAMBDA_YB2_G12 => Ok (getDeltaLambdaYb2G12 p omitLogs)
    | LAMBDA_G14 => Ok (getDeltaLambdaG14 p omitLogs)
    | LAMBDA_REG_G14 => Ok (getDeltaLambdaRegG14 p)
    | LAMBDA_CHI_G14 => Ok (getDeltaLambdaChiG14 p omitLogs)
    | LAMBDA_CHI_G24 => Ok (getDeltaLambdaChiG24 p omitLogs)
    | LAMBDA_G24 => Ok (getDeltaLambdaG24 p omitLogs)
    | LAMBDA_REG_G24 => Ok (getDeltaLambdaRegG24 p)
    | LAMBDA_G12_G22 => Ok (getDeltaLambdaG12G22 p omitLogs)
    | LAMBDA_REG_G12_G22 => Ok (getDeltaLambdaRegG12G22 p)
    | LAMBDA_CHI_G12_G22 => Ok (getDeltaLambdaChiG12G22 p omitLogs)
    | LAMBDA_YB2_G22 => Ok (getDeltaLambdaYb2G22 p omitLogs)
    | LAMBDA_YB4 => Ok (getDeltaLambdaYb4 p omitLogs)
    | LAMBDA_YT2_G12 => Ok (getDeltaLambdaYt2G12 p omitLogs)
    | LAMBDA_YT2_G22 => Ok (getDeltaLambdaYt2G22 p omitLogs)
    | LAMBDA_YTAU2_G12 => Ok (getDeltaLambdaYtau2G12 p omitLogs)
    | LAMBDA_YTAU2_G22 => Ok (getDeltaLambdaYtau2G22 p omitLogs)
    | LAMBDA_YTAU4 => Ok (getDeltaLambdaYtau4 p omitLogs)
    | G1_G1 => Ok (getDeltaG1G1 p omitLogs)
    | G2_G2 => Ok (getDeltaG2G2 p omitLogs)
    | VEV_YT2 => Ok (getDeltaVevYt2 p limit)
    | YT_YB => Ok (getDeltaYtYb p omitLogs)
    | YT_YT => Ok (getDeltaYtYt p omitLogs)
    | YTAU_YTAU => Ok (getDeltaYtauYtau p omitLogs)
    | YB_YB => Ok (getDeltaYbYb p omitLogs)
    | YB_YT => Ok (getDeltaYbYt p omitLogs)
    | YB_AS => Ok (getDeltaYbAs p omitLogs)
    | LAMBDA_YB4_G32 => Ok (getDeltaLambdaYb4G32 p omitLogs)
    | LAMBDA_YB6 => Ok (getDeltaLambdaYb6 p omitLogs)
    | LAMBDA_YT6 => Ok (getDeltaLambdaYt6 p omitLogs)
    | LAMBDA_YTAU6 => Ok (getDeltaLambdaYtau6 p omitLogs)
    | LAMBDA_YT2_YB4 => Ok (getDeltaLambdaYt2Yb4 p omitLogs)
    | LAMBDA_YT4_YB2 => Ok (getDeltaLambdaYt4Yb2 p omitLogs)
    | LAMBDA_YTAU4_YB2 => Ok (getDeltaLambdaYtau4Yb2 p omitLogs)
    | LAMBDA_YTAU2_YB4 => Ok (getDeltaLambdaYtau2Yb4 p omitLogs)
    | VEV_G12 => Ok getDeltaVevG12
    | VEV_G22 => Ok getDeltaVevG22
    | VEV_YB2 => Ok (getDeltaVevYb2 p)
    | VEV_YTAU2 => Ok (getDeltaVevYtau2 p)
    | YTAU_YB => Ok (getDeltaYtauYb p)
    | tco_other _ => Ok #0
    end.

  (** source/himalaya/mh2_eft/ThresholdCalculator.cpp:4328-4352 *)
  Definition getDRbarPrimeToMSbarShift (c : TC) (xtOrder omitLogs omitXtLogs : Z) : res T :=
    let p := tc_p c in
    let msq2 := tc_msq2 c in
    let limit := massLimit3LThreshold p in
    do xtTerms <-
      (if (xtOrder <=? 3)%Z then
         do x4 <- getDRbarPrimeToMSbarXtTerms p msq2 limit 4 omitXtLogs;
         do x5 <- getDRbarPrimeToMSbarXtTerms p msq2 limit 5 omitXtLogs;
         do x6 <- getDRbarPrimeToMSbarXtTerms p msq2 limit 6 omitXtLogs;
         Ok (x4 + x5 + x6)
       else
         do x5 <- getDRbarPrimeToMSbarXtTerms p msq2 limit 5 omitXtLogs;
         do x6 <- getDRbarPrimeToMSbarXtTerms p msq2 limit 6 omitXtLogs;
         Ok (x5 + x6));
    let g3as := getDeltaG3Alphas p msq2 omitLogs in
    do ytas <- getDeltaYtAlphas p limit omitLogs;
    do ytas2 <- getDeltaYtAlphas2 p msq2 limit omitLogs;
    do lambdaat <- getDeltaLambdaAlphat p limit omitLogs;
    do lambdaatas <- getDeltaLambdaAlphatAlphas p limit omitLogs;
    Ok (- (#(-2) * (lambdaat * (#3 * pow2 ytas + #2 * ytas2)
                    + (lambdaatas - #4 * ytas * lambdaat) * (g3as + #2 * ytas)) - xtTerms)).

  (** source/himalaya/mh2_eft/ThresholdCalculator.cpp:5939-5956 *)
  Definition setLimit (c : TC) (l : Z) : TC := mkTC (with_limit (tc_p c) l) (tc_msq2 c) (tc_xt c).
  Definition getLimit (c : TC) : Z := massLimit3LThreshold (tc_p c).
  Definition setXtOrderOfDeltaLambdaAtAs2 (c : TC) (x : Z) : TC := mkTC (tc_p c) (tc_msq2 c) x.
End Threshold.
Arguments TC : clear implicits.
Arguments mkTC {T}. Arguments tc_p {T}. Arguments tc_msq2 {T}. Arguments tc_xt {T}.
