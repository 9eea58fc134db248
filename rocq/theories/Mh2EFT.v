(** * Mh2EFTCalculator: Higgs mass in the EFT
    GENERATED by tools/gen_eft.py from source/himalaya/mh2_eft/Mh2EFTCalculator.cpp, statement by statement.
    CALC_IF(c,e) is [if c then e else Ok #0]: e is not evaluated when the flag is 0.  The int flags multiply doubles and are
    converted exactly ([#z]).  calcBeta .. calcCosBeta (:764-792) have the same text as in HierarchyCalculator.cpp and are taken
    from HierFormulas.v.  The log output (discardNaN, setCorrectionFlag) and the stream operator (:803-822) are left out. *)
From Coq Require Import ZArith Bool String List.
From Verif Require Import Num Except Params HierFormulas PV Thresh ThreshTwo Threshold.

(** source/himalaya/misc/CouplingOrders.hpp:19-45; [ord_other] stands for any other integer used as index *)
Inductive cord :=
  | G12G22 | G14 | G24 | G12YB2 | G22YB2 | YB4 | G12YTAU2 | G22YTAU2 | YTAU4 | G12YT2 | G22YT2 | YT4 | G32YB4 | YB6 | YT6 | YTAU2YB4 | YTAU2YT4 | YTAU6 | YT2YB4 | G32YT4 | YB2YT4 | YTAU4YB2 | ONLY_AT_AS
  | ord_other (z : Z).
Definition cord_index (o : cord) : Z :=
  (match o with
   | G12G22 => 0 | G14 => 1 | G24 => 2 | G12YB2 => 3 | G22YB2 => 4 | YB4 => 5 | G12YTAU2 => 6 | G22YTAU2 => 7 | YTAU4 => 8 | G12YT2 => 9 | G22YT2 => 10 | YT4 => 11 | G32YB4 => 12 | YB6 => 13 | YT6 => 14 | YTAU2YB4 => 15 | YTAU2YT4 => 16 | YTAU6 => 17 | YT2YB4 => 18 | G32YT4 => 19 | YB2YT4 => 20 | YTAU4YB2 => 21 | ONLY_AT_AS => 22
   | ord_other z => z end)%Z.
Definition cord_eqb (a b : cord) : bool := (cord_index a =? cord_index b)%Z.

Section Mh2EFT.
  Context {T : Type} {N : Num T}.
  Open Scope num_scope.

  (** data members (Mh2EFTCalculator.hpp): p and std::array<int,23> orders, here the function from index to flag *)
  Record EFT := mkEFT { eft_p : Params T; eft_orders : cord -> Z }.
  (** CALC_IF(orders.at(o), ..): an int condition is true if it is not 0.  The code only uses literal indices below 23, for
      which array::at does not throw. *)
  Definition enabled (c : EFT) (o : cord) : bool := negb (eft_orders c o =? 0)%Z.

  (** source/himalaya/mh2_eft/Mh2EFTCalculator.cpp:31-39 *)
  Definition discardNaN (var : T) : T := if nisnan var then #0 else var.

  (** source/himalaya/mh2_eft/Mh2EFTCalculator.cpp:42-45 *)
  Definition fB (s x q2 : T) : T := b0xx s x q2.

  (** source/himalaya/mh2_eft/Mh2EFTCalculator.cpp:138-144.  The range check of flag only writes a log message.  array::at throws std::out_of_range for an index outside
      0..22. *)
  Definition setCorrectionFlag (c : EFT) (order : cord) (flag : Z) : res EFT :=
    if (0 <=? cord_index order)%Z && (cord_index order <? 23)%Z
    then Ok (mkEFT (eft_p c) (fun o => if cord_eqb o order then flag else eft_orders c o))
    else Throw "array::at"%string.
  (** a sequence of setCorrectionFlag calls on literal indices, which cannot throw *)
  Definition setFlags (l : list (cord * Z)) (o : cord -> Z) : cord -> Z :=
    fold_left (fun o '(k, f) => fun x => if cord_eqb x k then f else o x) l o.

  (** source/himalaya/mh2_eft/Mh2EFTCalculator.cpp:54-136 *)
  Import ListNotations.
  Definition newEFT (E : EigenLib T) (p_ : Params T) : res EFT :=
    do p <- validate E p_;
    let o := fun _ : cord => 1%Z in
    let eps := ndec 1 10 in
    let o := if nabs (g1 p) <? eps then setFlags
        [(G12G22, 0); (G12YB2, 0); (G14, 0); (G12YB2, 0); (G12YTAU2, 0); (G12YT2, 0)]%Z o else o in
    let o := if nabs (g2 p) <? eps then setFlags
        [(G24, 0); (G22YB2, 0); (G22YTAU2, 0); (G22YT2, 0)]%Z o else o in
    let o := if nabs (Mt p) <? eps then setFlags
        [(G12YT2, 0); (G22YT2, 0); (YT4, 0); (G32YT4, 0); (YT6, 0); (YTAU2YT4, 0); (YT2YB4, 0); (YB2YT4, 0)]%Z o else o in
    let o := if nabs (Mb p) <? eps then setFlags
        [(G12YB2, 0); (G22YB2, 0); (YB4, 0); (G32YB4, 0); (YB6, 0); (YTAU2YB4, 0); (YT2YB4, 0); (YB2YT4, 0);
        (YTAU4YB2, 0); (YT6, 0)]%Z o else o in
    let o := if nabs (Mtau p) <? eps then setFlags
        [(G12YTAU2, 1); (G22YTAU2, 1); (YTAU4, 0); (YTAU2YB4, 0); (YTAU2YT4, 0); (YTAU6, 0); (YTAU4YB2, 0)]%Z o else o in
    let o := setFlags
        [(G14, 0); (G24, 0); (G12G22, 0); (G12YT2, 0); (G22YT2, 0); (G12YB2, 0); (G22YB2, 0); (G12YTAU2, 0);
        (G22YTAU2, 0); (YB4, 0); (YTAU4, 0); (G32YB4, 0); (YB6, 0); (YTAU2YB4, 0); (YT2YB4, 0); (YB2YT4, 0);
        (YTAU4YB2, 0); (YTAU6, 0)]%Z o in
    Ok (mkEFT p o).

  (** source/himalaya/mh2_eft/Mh2EFTCalculator.cpp:149-152 *)
  Definition getDeltaMh2EFT0Loop (c : EFT) : T :=
    let p := eft_p c in
    pow2 (MZ p * ncos (#2 * calcBeta p)).

  (** source/himalaya/mh2_eft/Mh2EFTCalculator.cpp:161-433 *)
  Definition getDeltaMh2EFT1Loop (E : EigenLib T) (c : EFT) (omitSMLogs : Z) (omitMSSMLogs : Z) : res T :=
    let p := eft_p c in
    do tc <- newTC E p false;
    let lmMt := #omitSMLogs * nlog (pow2 (scale p / Mt p)) in
    let v2 := calcV2 p in
    let gt := nconst Csqrt2 * Mt p / calcV p in
    let pref_at := nconst ConeLoop * pow2 (Mt p * gt) in
    let q2 := pow2 (Mt p) in
    let beta := calcBeta p in
    let cbeta := calcCosBeta p in
    let c2beta := ncos (#2 * beta) in
    let sbeta := calcSinBeta p in
    let mhtree2 := pow2 (c2beta * MZ p) in
    let yt := nconst Csqrt2 * Mt p / vu p in
    let yb := nconst Csqrt2 * Mb p / vd p in
    let ytau := nconst Csqrt2 * Mtau p / vd p in
    let Xi := #1 in
    do dlambdayb2g12 <- (if enabled c G12YB2 then getThresholdCorrection tc LAMBDA_YB2_G12 S_DRBARPRIME omitMSSMLogs else Ok #0);
    do dlambdag14 <- (if enabled c G14 then getThresholdCorrection tc LAMBDA_G14 S_DRBARPRIME omitMSSMLogs else Ok #0);
    do dlambdaregg14 <- (if enabled c G14 then getThresholdCorrection tc LAMBDA_REG_G14 S_DRBARPRIME omitMSSMLogs else Ok #0);
    do dlambdachig14 <- (if enabled c G14 then getThresholdCorrection tc LAMBDA_CHI_G14 S_DRBARPRIME omitMSSMLogs else Ok #0);
    do dg1g1 <- (if enabled c G14 then getThresholdCorrection tc G1_G1 S_DRBARPRIME omitMSSMLogs else Ok #0);
    do dlambdachig24 <- (if enabled c G24 then getThresholdCorrection tc LAMBDA_CHI_G24 S_DRBARPRIME omitMSSMLogs else Ok #0);
    do dlambdag24 <- (if enabled c G24 then getThresholdCorrection tc LAMBDA_G24 S_DRBARPRIME omitMSSMLogs else Ok #0);
    do dg2g2 <- (if enabled c G24 then getThresholdCorrection tc G2_G2 S_DRBARPRIME omitMSSMLogs else Ok #0);
    do dlambdaregg24 <- (if enabled c G24 then getThresholdCorrection tc LAMBDA_REG_G24 S_DRBARPRIME omitMSSMLogs else Ok #0);
    do dlambdag12g22 <- (if enabled c G12G22 then getThresholdCorrection tc LAMBDA_G12_G22 S_DRBARPRIME omitMSSMLogs else Ok #0);
    do dlambdaregg12g22 <- (if enabled c G12G22 then getThresholdCorrection tc LAMBDA_REG_G12_G22 S_DRBARPRIME omitMSSMLogs else Ok #0);
    do dlambdachig12g22 <- (if enabled c G12G22 then getThresholdCorrection tc LAMBDA_CHI_G12_G22 S_DRBARPRIME omitMSSMLogs else Ok #0);
    do dlambdayb2g22 <- (if enabled c G22YB2 then getThresholdCorrection tc LAMBDA_YB2_G22 S_DRBARPRIME omitMSSMLogs else Ok #0);
    do dlambdayb4 <- (if enabled c YB4 then getThresholdCorrection tc LAMBDA_YB4 S_DRBARPRIME omitMSSMLogs else Ok #0);
    do dlambdayt2g12 <- (if enabled c G12YT2 then getThresholdCorrection tc LAMBDA_YT2_G12 S_DRBARPRIME omitMSSMLogs else Ok #0);
    do dlambdayt2g22 <- (if enabled c G22YT2 then getThresholdCorrection tc LAMBDA_YT2_G22 S_DRBARPRIME omitMSSMLogs else Ok #0);
    do dlambdaytau2g12 <- (if enabled c G12YTAU2 then getThresholdCorrection tc LAMBDA_YTAU2_G12 S_DRBARPRIME omitMSSMLogs else Ok #0);
    do dlambdaytau2g22 <- (if enabled c G22YTAU2 then getThresholdCorrection tc LAMBDA_YTAU2_G22 S_DRBARPRIME omitMSSMLogs else Ok #0);
    do dlambdaytau4 <- (if enabled c YTAU4 then getThresholdCorrection tc LAMBDA_YTAU4 S_DRBARPRIME omitMSSMLogs else Ok #0);
    let dvg12 := #0 in
    let dvg22 := #0 in
    do dvyt2 <- (if enabled c G12YT2 || enabled c G22YT2 then getThresholdCorrection tc VEV_YT2 S_DRBARPRIME omitMSSMLogs else Ok #0);
    do dvyb2 <- (if enabled c G12YB2 || enabled c G22YB2 then getThresholdCorrection tc VEV_YB2 S_DRBARPRIME omitMSSMLogs else Ok #0);
    do dvytau2 <- (if enabled c G12YTAU2 || enabled c G22YTAU2 then getThresholdCorrection tc VEV_YTAU2 S_DRBARPRIME omitMSSMLogs else Ok #0);
    let bbhDR := fB mhtree2 mhtree2 q2 in
    let bbwDR := fB mhtree2 (pow2 (MW p)) q2 in
    let bbzDR := fB mhtree2 (pow2 (MZ p)) q2 in
    let B00DR := fB mhtree2 #0 q2 in
    do dmh2g12g22 <- (if enabled c G12G22 then
        Ok (discardNaN (v2 * (#24 + #40 * dlambdachig12g22 + #40 * dlambdag12g22 + #40 * dlambdaregg12g22 - #36 * lmMt + #40
          * dvg12 * pow2 c2beta + #24 * dvg22 * pow2 c2beta + #36 * lmMt * pow2 c2beta - #12 * lmMt * Xi *
          pow2 c2beta - #6 * bbwDR * (#(-2) + pow2 c2beta) * pow2 c2beta - #6 * pow4 c2beta - #27 * bbhDR *
          pow4 c2beta - #36 * lmMt * pow4 c2beta - #3 * bbzDR * (#12 - #4 * pow2 c2beta + pow4 c2beta)) / #80))
      else Ok #0);
    do dmh2g14 <- (if enabled c G14 then
        Ok (discardNaN (- (v2 * (#(-4) * (#18 + #100 * dlambdachig14 + #100 * dlambdag14 + #100 * dlambdaregg14 - #27 *
          lmMt) + #6 * (#40 * dg1g1 - #40 * dvg12 + #3 * lmMt * (#(-3) + Xi)) * pow2 c2beta + #9 * (#9 * bbhDR
          + #2 * (#1 + bbwDR + #6 * lmMt)) * pow4 c2beta + #9 * bbzDR * (#12 - #4 * pow2 c2beta + pow4
          c2beta))) / #800))
      else Ok #0);
    do dmh2g24 <- (if enabled c G24 then
        Ok (discardNaN (- (v2 * (#(-24) - #16 * dlambdachig24 - #16 * dlambdag24 - #16 * dlambdaregg24 + #36 * lmMt + #16 *
          dg2g2 * pow2 c2beta - #16 * dvg22 * pow2 c2beta - #18 * lmMt * pow2 c2beta + #6 * lmMt * Xi * pow2
          c2beta + #2 * pow4 c2beta + #9 * bbhDR * pow4 c2beta + #12 * lmMt * pow4 c2beta + #2 * bbwDR * (#12
          - #4 * pow2 c2beta + pow4 c2beta) + bbzDR * (#12 - #4 * pow2 c2beta + pow4 c2beta))) / #32))
      else Ok #0);
    do dmh2g12yb2 <- (if enabled c G12YB2 then
        Ok (discardNaN ((#10 * dlambdayb2g12 - #3 * (#3 * B00DR - #2 * dvyb2 + #3 * lmMt) * pow2 c2beta) * pow2 cbeta * v2 /
          #20))
      else Ok #0);
    do dmh2g22yb2 <- (if enabled c G22YB2 then
        Ok (discardNaN ((#2 * dlambdayb2g22 + (#(-3) * B00DR + #2 * dvyb2 - #3 * lmMt) * pow2 c2beta) * pow2 cbeta * v2 / #4))
      else Ok #0);
    do dmh2yb4 <- (if enabled c YB4 then
        Ok (discardNaN ((#12 * B00DR + dlambdayb4 + #12 * lmMt) * v2 * pow4 cbeta / #2))
      else Ok #0);
    do dmh2g12yt2 <- (if enabled c G12YT2 then
        Ok (discardNaN ((#10 * dlambdayt2g12 + (#6 + #6 * dvyt2 - #9 * lmMt) * pow2 c2beta) * pow2 sbeta * v2 / #20))
      else Ok #0);
    do dmh2g22yt2 <- (if enabled c G22YT2 then
        Ok (discardNaN ((#2 * dlambdayt2g22 + (#2 + #2 * dvyt2 - #3 * lmMt) * pow2 c2beta) * pow2 sbeta * v2 / #4))
      else Ok #0);
    do dmh2yt4 <- (if enabled c YT4 then
        do thr1 <- getThresholdCorrection tc LAMBDA_AT S_DRBARPRIME omitMSSMLogs;
        Ok (discardNaN (pref_at * (#12 * lmMt + thr1)))
      else Ok #0);
    do dmh2g12ytau2 <- (if enabled c G12YTAU2 then
        Ok (discardNaN (- ((#(-10) * dlambdaytau2g12 + #3 * B00DR * pow2 c2beta + #3 * (#(-2) * dvytau2 + lmMt) * pow2
          c2beta) * pow2 cbeta * v2) / #20))
      else Ok #0);
    do dmh2g22ytau2 <- (if enabled c G22YTAU2 then
        Ok (discardNaN (- ((#(-2) * dlambdaytau2g22 + B00DR * pow2 c2beta + (#(-2) * dvytau2 + lmMt) * pow2 c2beta) * pow2
          cbeta * v2) / #4))
      else Ok #0);
    do dmh2ytau4 <- (if enabled c YTAU4 then
        Ok (discardNaN ((#4 * B00DR + dlambdaytau4 + #4 * lmMt) * v2 * pow4 cbeta / #2))
      else Ok #0);
    Ok (dmh2yt4 + nconst ConeLoop * (pow2 (g1 p * g2 p) * dmh2g12g22 + pow4 (g1 p) * dmh2g14 + pow4 (g2 p) *
      dmh2g24 + pow2 (g1 p * yb) * dmh2g12yb2 + pow2 (g2 p * yb) * dmh2g22yb2 + pow4 yb * dmh2yb4 + pow2
      (g1 p * ytau) * dmh2g12ytau2 + pow2 (g2 p * ytau) * dmh2g22ytau2 + pow4 ytau * dmh2ytau4 + pow2 (g1
      p * yt) * dmh2g12yt2 + pow2 (g2 p * yt) * dmh2g22yt2)).

  (** source/himalaya/mh2_eft/Mh2EFTCalculator.cpp:441-690 *)
  Definition getDeltaMh2EFT2Loop (E : EigenLib T) (c : EFT) (omitSMLogs : Z) (omitMSSMLogs : Z) : res T :=
    let p := eft_p c in
    do tc <- newTC E p false;
    let lmMt := #omitSMLogs * nlog (pow2 (scale p / Mt p)) in
    let v2 := calcV2 p in
    let gt := nconst Csqrt2 * Mt p / calcV p in
    let g32 := pow2 (g3 p) in
    let yt2 := #2 * pow2 (Mt p / vu p) in
    let yb2 := #2 * pow2 (Mb p / vd p) in
    let ytau2 := #2 * pow2 (Mtau p / vd p) in
    let yt4 := pow2 yt2 in
    let yb4 := pow2 yb2 in
    let yt6 := pow3 yt2 in
    let yb6 := pow3 yb2 in
    let ytau4 := pow2 ytau2 in
    let ytau6 := pow3 ytau2 in
    let cbeta := calcCosBeta p in
    let sbeta := calcSinBeta p in
    let lmbMt := nlog (pow2 (Mb p / Mt p)) in
    let pref := nconst CtwoLoop * pow2 (Mt p * gt * g3 p) in
    let B00DR := #0 in
    do dytas <- (if enabled c G32YT4 then getThresholdCorrection tc YT_AS S_DRBARPRIME omitMSSMLogs else Ok #0);
    do dlambdayb4g32 <- (if enabled c G32YB4 then getThresholdCorrection tc LAMBDA_YB4_G32 S_DRBARPRIME omitMSSMLogs else Ok #0);
    do dlambdayb4 <- (if enabled c YB6 || enabled c YTAU2YB4 || enabled c YT2YB4 || enabled c G32YB4 then getThresholdCorrection tc LAMBDA_YB4 S_DRBARPRIME omitMSSMLogs else Ok #0);
    do dlambdayb6 <- (if enabled c YB6 then getThresholdCorrection tc LAMBDA_YB6 S_DRBARPRIME omitMSSMLogs else Ok #0);
    do dlambdayt4 <- (if enabled c YT6 || enabled c YB2YT4 then getThresholdCorrection tc LAMBDA_AT S_DRBARPRIME omitMSSMLogs else Ok #0);
    do dytyt <- (if enabled c YT6 then getThresholdCorrection tc YT_YT S_DRBARPRIME omitMSSMLogs else Ok #0);
    do dlambdayt6 <- (if enabled c YT6 then getThresholdCorrection tc LAMBDA_YT6 S_DRBARPRIME omitMSSMLogs else Ok #0);
    do dvyt2 <- (if enabled c YT6 || enabled c YT2YB4 then getThresholdCorrection tc VEV_YT2 S_DRBARPRIME omitMSSMLogs else Ok #0);
    do dytauytau <- (if enabled c YTAU6 then getThresholdCorrection tc YTAU_YTAU S_DRBARPRIME omitMSSMLogs else Ok #0);
    do dlambdaytau4 <- (if enabled c YTAU4YB2 || enabled c YTAU6 then getThresholdCorrection tc LAMBDA_YTAU4 S_DRBARPRIME omitMSSMLogs else Ok #0);
    do dlambdaytau6 <- (if enabled c YTAU6 then getThresholdCorrection tc LAMBDA_YTAU6 S_DRBARPRIME omitMSSMLogs else Ok #0);
    do dlambdayt2yb4 <- (if enabled c YT2YB4 then getThresholdCorrection tc LAMBDA_YT2_YB4 S_DRBARPRIME omitMSSMLogs else Ok #0);
    do dlambdayt4yb2 <- (if enabled c YB2YT4 then getThresholdCorrection tc LAMBDA_YT4_YB2 S_DRBARPRIME omitMSSMLogs else Ok #0);
    do dytyb <- (if enabled c YB2YT4 then getThresholdCorrection tc YT_YB S_DRBARPRIME omitMSSMLogs else Ok #0);
    do dvytau2 <- (if enabled c YTAU2YB4 || enabled c YTAU6 then getThresholdCorrection tc VEV_YTAU2 S_DRBARPRIME omitMSSMLogs else Ok #0);
    do dvyb2 <- (if enabled c YB6 || enabled c YTAU4YB2 || enabled c YB2YT4 then getThresholdCorrection tc VEV_YB2 S_DRBARPRIME omitMSSMLogs else Ok #0);
    do dytauyb <- (if enabled c YTAU4YB2 then getThresholdCorrection tc YTAU_YB S_DRBARPRIME omitMSSMLogs else Ok #0);
    do dlambdayb4ytau2 <- (if enabled c YTAU2YB4 then getThresholdCorrection tc LAMBDA_YTAU2_YB4 S_DRBARPRIME omitMSSMLogs else Ok #0);
    do dlambdayb2ytau4 <- (if enabled c YTAU4YB2 then getThresholdCorrection tc LAMBDA_YTAU4_YB2 S_DRBARPRIME omitMSSMLogs else Ok #0);
    do dybyt <- (if enabled c YT2YB4 then getThresholdCorrection tc YB_YT S_DRBARPRIME omitMSSMLogs else Ok #0);
    do dybas <- (if enabled c G32YB4 then getThresholdCorrection tc YB_AS S_DRBARPRIME omitMSSMLogs else Ok #0);
    do dybyb <- (if enabled c YB6 then getThresholdCorrection tc YB_YB S_DRBARPRIME omitMSSMLogs else Ok #0);
    do dmh2yt4g32 <- (if enabled c G32YT4 then
        do thr1 <- getThresholdCorrection tc LAMBDA_AT_AS S_DRBARPRIME omitMSSMLogs;
        Ok (discardNaN (pref * (#96 * pow2 lmMt + (#(-32) + #48 * dytas) * lmMt - #24 * dytas + thr1)))
      else Ok #0);
    do dmh2yb4g32 <- (if enabled c G32YB4 then
        Ok (discardNaN ((dlambdayb4g32 + #16 * (#3 * B00DR * (dybas + #16 * lmMt) + lmMt * (#(-2) + #3 * dybas + #24 *
          lmMt))) * v2 * pow4 cbeta / #2))
      else Ok #0);
    do dmh2yb6 <- (if enabled c YB6 then
        Ok (discardNaN (- ((#(-144) * dybyb * (B00DR + lmMt) + pow2 cbeta * (#(-49) - #3 * dlambdayb6 + #72 * dvyb2 - #72 *
          B00DR * dvyb2 - #60 * lmbMt + #234 * lmMt + #1296 * B00DR * lmMt - #72 * dvyb2 * lmMt + dlambdayb4 *
          (#(-9) + #9 * B00DR - #6 * dvyb2 + #9 * lmMt) + #36 * pow2 lmbMt + #648 * pow2 lmMt - #6 * pow2
          (nconst CPi))) * v2 * pow4 cbeta) / #6))
      else Ok #0);
    do dmh2yt6 <- (if enabled c YT6 then
        Ok (discardNaN (v2 * (#4 * dytyt * (#(-6) + dlambdayt4 + #12 * lmMt) + (#(-12) + dlambdayt6 + dlambdayt4 * (#2 + #2
          * dvyt2 - #3 * lmMt) + #24 * dvyt2 * (#(-1) + lmMt) - #18 * lmMt * (#1 + #3 * lmMt) - #2 * pow2
          (nconst CPi)) * pow2 sbeta) * pow4 sbeta / #2))
      else Ok #0);
    do dmh2yb4ytau2 <- (if enabled c YTAU2YB4 then
        Ok (discardNaN ((dlambdayb4ytau2 - #96 * B00DR * lmMt - dlambdayb4 * (#(-1) + B00DR + lmMt) + #2 * dvytau2 * (#(-12)
          + #12 * B00DR + dlambdayb4 + #12 * lmMt) - #48 * pow2 lmMt) * v2 * pow6 cbeta / #2))
      else Ok #0);
    do dmh2yb2ytau4 <- (if enabled c YTAU4YB2 then
        Ok (discardNaN ((#4 * dytauyb * (#4 * B00DR + dlambdaytau4 + #4 * lmMt) + pow2 cbeta * (dlambdayb2ytau4 - #8 * dvyb2
          + #8 * B00DR * dvyb2 + dlambdaytau4 * (#3 - #3 * B00DR + #2 * dvyb2 - #3 * lmMt) - #6 * lmMt - #24 *
          B00DR * lmMt + #8 * dvyb2 * lmMt - #12 * pow2 lmMt)) * v2 * pow4 cbeta / #2))
      else Ok #0);
    do dmh2ytau6 <- (if enabled c YTAU6 then
        Ok (discardNaN (- ((#(-12) * dytauytau * (#4 * B00DR + dlambdaytau4 + #4 * lmMt) + pow2 cbeta * (#(-3) *
          dlambdaytau6 + #3 * dlambdaytau4 * (#(-1) + B00DR - #2 * dvytau2 + lmMt) + #2 * (#6 + #30 * (#1 +
          B00DR) * lmMt - #12 * dvytau2 * (#(-1) + B00DR + lmMt) + #15 * pow2 lmMt + pow2 (nconst CPi)))) * v2
          * pow4 cbeta) / #6))
      else Ok #0);
    do dmh2yt2yb4 <- (if enabled c YT2YB4 then
        Ok (discardNaN ((#48 * dybyt * lmMt + (dlambdayt2yb4 + dlambdayb4 * (#2 + #2 * dvyt2 - #3 * lmMt) + #3 * (#(-15) +
          #8 * lmbMt + #8 * dvyt2 * (#(-1) + lmMt) + #18 * lmMt - #24 * pow2 lmMt - #2 * pow2 (nconst CPi))) *
          pow2 sbeta + #12 * B00DR * (#4 * dybyt + (#2 * dvyt2 - #9 * lmMt) * pow2 sbeta)) * v2 * pow4 cbeta /
          #2))
      else Ok #0);
    do dmh2yt4yb2 <- (if enabled c YB2YT4 then
        Ok (discardNaN ((#4 * dytyb * (#(-6) + dlambdayt4 + #12 * lmMt) + pow2 cbeta * (dlambdayt4yb2 + dlambdayt4 * (#3 -
          #3 * B00DR + #2 * dvyb2 - #3 * lmMt) - #6 * (#4 * dvyb2 + lmMt + #6 * B00DR * lmMt - #4 * dvyb2 *
          lmMt + #3 * pow2 lmMt - pow2 (nconst CPi)))) * v2 * pow4 sbeta / #2))
      else Ok #0);
    Ok (nconst CtwoLoop * (g32 * yb4 * dmh2yb4g32 + yb6 * dmh2yb6 + yt6 * dmh2yt6 + yb4 * ytau2 *
      dmh2yb4ytau2 + yb2 * ytau4 * dmh2yb2ytau4 + ytau6 * dmh2ytau6 + yt2 * yb4 * dmh2yt2yb4 + yt4 * yb2 *
      dmh2yt4yb2) + dmh2yt4g32).

  (** source/himalaya/mh2_eft/Mh2EFTCalculator.cpp:700-729 *)
  Definition getDeltaMh2EFT3Loop (E : EigenLib T) (c : EFT) (omitSMLogs : Z) (omitMSSMLogs : Z) (omitDeltaLambda3L : Z) : res T :=
    let p := eft_p c in
    do tc <- newTC E p false;
    let catas2 := ndec 2481215180432007 13 in
    let lmMt := #omitSMLogs * nlog (pow2 (scale p / Mt p)) in
    do dytas <- getThresholdCorrection tc YT_AS S_DRBARPRIME omitMSSMLogs;
    do dytas2 <- getThresholdCorrection tc YT_AS2 S_DRBARPRIME omitMSSMLogs;
    do dg3as <- getThresholdCorrection tc G3_AS S_DRBARPRIME omitMSSMLogs;
    let gt := nconst Csqrt2 * Mt p / nsqrt (calcV2 p) in
    let pref := nconst CthreeLoop * pow2 (Mt p * gt * pow2 (g3 p)) in
    do thr1 <- getThresholdCorrection tc LAMBDA_AT_AS2 S_DRBARPRIME omitMSSMLogs;
    Ok (pref * (#736 * pow3 lmMt + (#160 + #192 * dg3as + #384 * dytas) * pow2 lmMt + (#(-128) * nconst Cz3
      - #2056 / #3 + #(-64) * dg3as - #512 * dytas + #72 * pow2 dytas + #48 * dytas2) * lmMt + #64 * dytas
      - #84 * pow2 dytas - #24 * dytas2 + catas2 + #omitDeltaLambda3L * thr1)).

  (** source/himalaya/mh2_eft/Mh2EFTCalculator.cpp:741-765 *)
  Definition getDeltaLambdaDegenerate (c : EFT) (scale : T) (mst1 : T) (Xt : T) (omitlogs : Z) : T :=
    let p := eft_p c in
    let LS := #omitlogs * nlog (pow2 (scale / v0 (MSt p))) + nlog (pow2 (v0 (MSt p) / mst1)) in
    let v2 := calcV2 p in
    let gt := nconst Csqrt2 * Mt p / calcV p in
    let pref := nconst CthreeLoop * pow2 (Mt p * gt * pow2 (g3 p)) in
    let xt := Xt / mst1 in
    let catas2 := ndec 2481215180432007 13 in
    let deltaLambda3L := #2 / #27 * pref * (#6082 - #27832 * LS + #14856 * pow2 LS - #4032 * pow3 LS - #15408 * nconst Cz3 +
      #1728 * nconst Cz3 * LS - #27 * catas2 / #2 + xt * (#7616 * LS - #11712 * pow2 LS + #32 * (#(-940) +
      #477 * nconst Cz3)) + pow2 xt * (#28848 - #2640 * LS + #1008 * pow2 LS - #11880 * nconst Cz3) + pow3
      xt * (#160 * LS + #864 * pow2 LS + #8 * (#2722 - #2259 * nconst Cz3))) / v2 in
    deltaLambda3L.

End Mh2EFT.
Arguments EFT : clear implicits.
Arguments mkEFT {T}. Arguments eft_p {T}. Arguments eft_orders {T}.
