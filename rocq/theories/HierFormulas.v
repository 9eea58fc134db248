(** * Closed formulas of class HierarchyCalculator
    GENERATED by tools/gen_hierformulas.py from source/himalaya/HierarchyCalculator.cpp (expressions are
    transcribed operator by operator).  [ab] is ho.getIsAlphab(), [h] is ho.getSuitableHierarchy().
    Flags are C++ unsigned/int and are converted to double exactly (the code only passes 0 and 1). *)
From Coq Require Import String ZArith List Bool.
From Verif Require Import Num Except HObj Params.
Open Scope string_scope.

(** Hierarchy numbers, hierarchies/HierarchyFlags.hpp:17-34 *)
Definition h3 := 0%Z. Definition h32q2g := 1%Z. Definition h3q22g := 2%Z. Definition h4 := 3%Z.
Definition h5 := 4%Z. Definition h5g1 := 5%Z. Definition h6 := 6%Z. Definition h6b := 7%Z.
Definition h6b2qg2 := 8%Z. Definition h6bq22g := 9%Z. Definition h6bq2g2 := 10%Z. Definition h6g2 := 11%Z.
Definition h9 := 12%Z. Definition h9q2 := 13%Z. Definition NUMBER_OF_HIERARCHIES := 14%Z.

(** HierarchyCalculator.cpp:90-124: table hierarchyMap, and the range check before it *)
Definition hierarchyMap (h : Z) : Z :=
  match h with
  | 0 => h3 | 1 => h3 | 2 => h3
  | 3 => h4 | 4 => h5 | 5 => h5 | 6 => h6 | 11 => h6
  | 7 => h6b | 8 => h6b | 9 => h6b | 10 => h6b
  | 12 => h9 | 13 => h9
  | _ => h
  end%Z.
Definition getMotherHierarchy (h : Z) : res Z :=
  if (h <? 0)%Z || (NUMBER_OF_HIERARCHIES <=? h)%Z then
    if (h =? -1)%Z then Throw "No suitable hierarchy found!"
    else Throw ("Hierarchy " ++ to_string h ++ " not included!")
  else Ok (hierarchyMap h).

Section Formulas.
  Context {T : Type} {N : Num T}.
  Open Scope num_scope.

  (** HierarchyCalculator.cpp:1271-1330 *)
  Definition calcV2 (p : Params T) : T := pow2 (vu p) + pow2 (vd p).
  Definition calcV (p : Params T) : T := nsqrt (calcV2 p).
  Definition calcTanBeta (p : Params T) : T := vu p / vd p.
  Definition calcBeta (p : Params T) : T := natan (calcTanBeta p).
  Definition calcSinBeta (p : Params T) : T := vu p / calcV p.
  Definition calcCosBeta (p : Params T) : T := vd p / calcV p.
  Definition calcHiggsMassMatrixPrefactor (p : Params T) : T := #3 / (#2 * pow2 (nconst CPi * vu p)).
  Definition calcAsOver4Pi (p : Params T) : T := nconst ConeLoop * pow2 (g3 p).
  Definition calcMeanMsq (p : Params T) : T := nsqrt (nabs (calculateMsq2 p)).

  (** ho.getIsAlphab() ? p.MSb(i) : p.MSt(i), ho.getIsAlphab() ? p.Mb : p.Mt, etc. *)
  Definition sfMass1 (p : Params T) (ab : bool) : T := if ab then v0 (MSb p) else v0 (MSt p).
  Definition sfMass2 (p : Params T) (ab : bool) : T := if ab then v1 (MSb p) else v1 (MSt p).
  Definition fMass (p : Params T) (ab : bool) : T := if ab then Mb p else Mt p.
  Definition sfS2 (p : Params T) (ab : bool) : T := if ab then s2b p else s2t p.
  Definition sfTheta (p : Params T) (ab : bool) : T := if ab then theta_b p else theta_t p.

  (** HierarchyCalculator.cpp:824-871 *)
  Definition shiftMst1ToMDR (p : Params T) (ab : bool) (h oneLoopFlag twoLoopFlag : Z) : res T :=
    let Mst1 := sfMass1 p ab in
    let Mst2 := sfMass2 p ab in
    let Al4p := calcAsOver4Pi p in
    let Msq := calcMeanMsq p in
    let Mgl := MG p in
    let lmMst2 := nlog (pow2 (scale p) / pow2 Mst2) in
    let lmMgl := nlog (pow2 (scale p / MG p)) in
    let lmMsq := nlog (pow2 (scale p / calcMeanMsq p)) in
    let Dmglst2 := Mgl - Mst2 in
    let mdr2mst1ka := - #8 * #twoLoopFlag * pow2 Al4p * (#10 * pow2 Msq * (#(-1) + #2 * lmMsq + #2 * nconst Cz2) + pow2
      Mst2 * (#(-1) + #2 * lmMst2 + #2 * nconst Cz2)) / (#3 * pow2 Mst1) in
    do mother <- getMotherHierarchy h;
    let mod_ :=
      if (mother =? h3)%Z || (mother =? h4)%Z || (mother =? h5)%Z then
        #1 + mdr2mst1ka
      else if (mother =? h6)%Z then
        (#144 * #oneLoopFlag * Al4p * (#1 + lmMgl) * pow2 Mgl * pow4 Msq + #27 * (#1 + mdr2mst1ka) * pow4
      Msq * pow2 Mst1 + #twoLoopFlag * pow2 Al4p * Mgl * (#(-5) * (#67 + #84 * lmMgl - #84 * lmMsq) * pow5
      Mgl - #40 * (#43 + #30 * lmMgl - #30 * lmMsq) * pow3 Mgl * pow2 Msq + #288 * Dmglst2 * pow4 Msq *
      (#1 - #2 * nconst Cz2) + #12 * Mgl * pow4 Msq * (#79 + #144 * pow2 lmMgl - #150 * lmMsq + #90 * pow2
      lmMsq - #90 * lmMgl * (#(-3) + #2 * lmMsq) + #208 * nconst Cz2))) / (#27 * pow4 Msq * pow2 Mst1)
      else if (mother =? h6b)%Z then
        (#48 * #oneLoopFlag * Al4p * (#1 + lmMgl) * pow2 Mgl + #9 * (#1 + mdr2mst1ka) * pow2 Mst1 + #8 *
      #twoLoopFlag * pow2 Al4p * (#(-135) * pow2 Msq + #12 * Dmglst2 * Mgl * (#1 - #22 * nconst Cz2) +
      pow2 Mgl * (#77 + #135 * lmMgl + #72 * pow2 lmMgl - #75 * lmMsq - #90 * lmMgl * lmMsq + #45 * pow2
      lmMsq + #104 * nconst Cz2))) / (#9 * pow2 Mst1)
      else if (mother =? h9)%Z then
        #1 + mdr2mst1ka
      else #0 in
    Ok (Mst1 * nsqrt mod_).

  (** HierarchyCalculator.cpp:880-924 *)
  Definition shiftMst2ToMDR (p : Params T) (ab : bool) (h oneLoopFlag twoLoopFlag : Z) : res T :=
    let Mst2 := sfMass2 p ab in
    let Al4p := calcAsOver4Pi p in
    let Mgl := MG p in
    let Msq := calcMeanMsq p in
    let lmMgl := nlog (pow2 (scale p / MG p)) in
    let lmMsq := nlog (pow2 (scale p / calcMeanMsq p)) in
    let Dmglst2 := Mgl - Mst2 in
    let mdr2mst2ka := - #80 * #twoLoopFlag * pow2 Al4p * pow2 Msq * (#(-1) + #2 * lmMsq + #2 * nconst Cz2) / (#3 * pow2
      Mst2) in
    do mother <- getMotherHierarchy h;
    let mod_ :=
      if (mother =? h3)%Z || (mother =? h4)%Z || (mother =? h5)%Z then
        #1 + mdr2mst2ka
      else if (mother =? h6)%Z then
        (#144 * #oneLoopFlag * Al4p * (#1 + lmMgl) * pow2 Mgl * pow4 Msq + #27 * (#1 + mdr2mst2ka) * pow4
      Msq * pow2 Mst2 + #twoLoopFlag * pow2 Al4p * Mgl * (#(-5) * (#67 + #84 * lmMgl - #84 * lmMsq) * pow5
      Mgl - #40 * (#43 + #30 * lmMgl - #30 * lmMsq) * pow3 Mgl * pow2 Msq + #288 * Dmglst2 * pow4 Msq *
      (#1 - #2 * nconst Cz2) + #12 * Mgl * pow4 Msq * (#79 + #144 * pow2 lmMgl - #150 * lmMsq + #90 * pow2
      lmMsq - #90 * lmMgl * (#(-3) + #2 * lmMsq) + #208 * nconst Cz2))) / (#27 * pow4 Msq * pow2 Mst2)
      else if (mother =? h6b)%Z then
        (#48 * #oneLoopFlag * Al4p * (#1 + lmMgl) * pow2 Mgl + #9 * (#1 + mdr2mst2ka) * pow2 Mst2 + #8 *
      #twoLoopFlag * pow2 Al4p * (#(-135) * pow2 Msq + #12 * Dmglst2 * Mgl * (#1 - #22 * nconst Cz2) +
      pow2 Mgl * (#77 + #135 * lmMgl + #72 * pow2 lmMgl - #75 * lmMsq - #90 * lmMgl * lmMsq + #45 * pow2
      lmMsq + #104 * nconst Cz2))) / (#9 * pow2 Mst2)
      else if (mother =? h9)%Z then
        #1 + mdr2mst2ka
      else #0 in
    Ok (Mst2 * nsqrt mod_).

  (** HierarchyCalculator.cpp:938-944, 1056-1062: truncation at O(Xt^2) *)
  Definition xt3_hierarchy (h : Z) : bool :=
    (h =? h3)%Z || (h =? h32q2g)%Z || (h =? h3q22g)%Z || (h =? h9)%Z || (h =? h9q2)%Z.
  Definition truncateXt_of (h : Z) : Z := if xt3_hierarchy h then 0%Z else 1%Z.

  (** HierarchyCalculator.cpp:932-1041 *)
  Definition shiftH3mToDRbarPrime (p : Params T) (ab : bool) (h mdr : Z) : res (mat2 T) :=
    let truncateXt := truncateXt_of h in
    let tb := calcTanBeta p in
    do Mst1 <- shiftMst1ToMDR p ab h mdr mdr;
    do Mst2 <- shiftMst2ToMDR p ab h mdr mdr;
    let Xt := if (h =? h4)%Z then #0 else a22 (Au p) - mu p / tb in
    let eps := Mst1 * ndec 1 2 in
    let Mst12 := pow2 Mst1 in
    let Mgl := MG p in
    let Mgl2 := pow2 (MG p) in
    let Msq2 := pow2 (calcMeanMsq p) in
    let scale2 := pow2 (scale p) in
    let Xt2 := pow2 Xt in
    let Mst22 := pow2 Mst2 in
    let Dmst12 := Mst12 - Mst22 in
    let lmMst1 := nlog (scale2 / Mst12) in
    let lmMst2 := nlog (scale2 / Mst22) in
    let lmMsq := nlog (scale2 / Msq2) in
    let lmMgl := nlog (scale2 / Mgl2) in
    let isDegenerate :=
      if nabs (Mst1 - Mst2) <? eps then
    let Mst2shift := Mst1 + ndec 5 1 * nsqrt (nabs Dmst12) in
    let lmMst2shift := nlog (scale2 / pow2 Mst2shift) in
    let lim := #32 * Xt2 * (#(-3) * (#1 + lmMgl) * pow2 Mgl + #5 * (#1 + lmMsq) * Msq2 + (#1 + lmMst1) * pow2 Mst1)
      * pow2 (mu p) / (#3 * pow6 Mst1) in
    let exact := #16 * Xt2 * (#(-6) * (#1 + lmMgl) * pow2 Mgl + #10 * (#1 + lmMsq) * Msq2 + (#1 + lmMst1) * pow2 Mst1
      + (#1 + lmMst2) * pow2 Mst2) * pow2 (mu p) * (#(-4) * nlog (Mst1 / Mst2) * pow2 Mst1 * pow2 Mst2 +
      pow4 Mst1 - pow4 Mst2) / (pow2 Mst1 * pow2 Mst2 * pow3 (pow2 Mst1 - pow2 Mst2)) in
    let exactShifted := #16 * Xt2 * (#(-6) * (#1 + lmMgl) * pow2 Mgl + #10 * (#1 + lmMsq) * Msq2 + (#1 + lmMst1) * pow2 Mst1
      + (#1 + lmMst2shift) * pow2 Mst2shift) * pow2 (mu p) * (#(-4) * nlog (Mst1 / Mst2shift) * pow2 Mst1
      * pow2 Mst2shift + pow4 Mst1 - pow4 Mst2shift) / (pow2 Mst1 * pow2 Mst2shift * pow3 (pow2 Mst1 -
      pow2 Mst2shift)) in
        ((nabs (exactShifted - lim) >=? nabs (exact - lim)) || (negb (nisfin exact))) || (negb (nisfin
      exactShifted))
      else false in
    let shift :=
      if isDegenerate then
        let s00 := #32 * Xt2 * (#(-3) * (#1 + lmMgl) * pow2 Mgl + #5 * (#1 + lmMsq) * Msq2 + (#1 + lmMst1) * pow2 Mst1)
      * pow2 (mu p) / (#3 * pow6 Mst1) in
        let s10 := #(-32) * mu p * (#(-3) * (#1 + lmMgl) * pow2 Mgl + #5 * (#1 + lmMsq) * Msq2 + (#1 + lmMst1) * pow2
      Mst1) * (mu p * Xt2 - #3 * tb * Xt * pow2 Mst1 + tb * pow3 Xt) / (#3 * tb * pow6 Mst1) in
        let s11 := #32 * (#(-3) * (#1 + lmMgl) * pow2 Mgl + #5 * (#1 + lmMsq) * Msq2 + (#1 + lmMst1) * pow2 Mst1) *
      (#(-6) * tb * (mu p * Xt + tb * Xt2) * pow2 Mst1 + Xt2 * pow2 (mu p) + #truncateXt * pow2 tb * pow2
      Xt2 + #2 * mu p * tb * pow3 Xt + #6 * pow2 tb * pow4 Mst1) / (#3 * pow2 tb * pow6 Mst1) in
        mkM2 s00 s10 s10 s11
      else
        let s00 := #16 * Xt2 * (#(-6) * (#1 + lmMgl) * pow2 Mgl + #10 * (#1 + lmMsq) * Msq2 + (#1 + lmMst1) * pow2 Mst1
      + (#1 + lmMst2) * pow2 Mst2) * pow2 (mu p) * (#(-4) * nlog (Mst1 / Mst2) * pow2 Mst1 * pow2 Mst2 +
      pow4 Mst1 - pow4 Mst2) / (pow2 Mst1 * pow2 Mst2 * pow3 (pow2 Mst1 - pow2 Mst2)) in
        let s10 := #16 * mu p * (#(-6) * (#1 + lmMgl) * pow2 Mgl + #10 * (#1 + lmMsq) * Msq2 + (#1 + lmMst1) * pow2
      Mst1 + (#1 + lmMst2) * pow2 Mst2) * (#4 * nlog (Mst1 / Mst2) * pow2 Mst1 * pow2 Mst2 * (mu p * Xt2 +
      tb * pow3 Xt) + mu p * Xt2 * (- pow4 Mst1 + pow4 Mst2) + tb * Xt * (pow3 (pow2 Mst1 - pow2 Mst2) +
      pow2 Xt * (- pow4 Mst1 + pow4 Mst2))) / (tb * pow2 Mst1 * pow2 Mst2 * pow3 (pow2 Mst1 - pow2 Mst2)) in
        let s11 := #16 * (#(-6) * (#1 + lmMgl) * pow2 Mgl + #10 * (#1 + lmMsq) * Msq2 + (#1 + lmMst1) * pow2 Mst1 + (#1
      + lmMst2) * pow2 Mst2) * (#(-4) * nlog (Mst1 / Mst2) * pow2 Mst1 * pow2 Mst2 * (Xt2 * pow2 (mu p) +
      #truncateXt * pow2 tb * pow2 Xt2 + #2 * mu p * tb * pow3 Xt) + Xt2 * (#(-2) * pow2 tb * pow3 (pow2
      Mst1 - pow2 Mst2) + pow2 (mu p) * (pow4 Mst1 - pow4 Mst2)) + tb * (#(-2) * mu p * Xt * pow3 (pow2
      Mst1 - pow2 Mst2) + tb * (pow2 Mst1 + pow2 Mst2) * pow3 (pow2 Mst1 - pow2 Mst2) + #2 * mu p * pow3
      Xt * (pow4 Mst1 - pow4 Mst2)) + #truncateXt * pow2 tb * pow2 Xt2 * (pow4 Mst1 - pow4 Mst2)) / (pow2
      Mst1 * pow2 Mst2 * pow2 tb * pow3 (pow2 Mst1 - pow2 Mst2)) in
        mkM2 s00 s10 s10 s11 in
    let yt := nconst Csqrt2 * Mt p / vu p in
    let prefac := nconst CthreeLoop * pow2 (pow2 (g3 p) * Mt p * yt) in
    Ok (mat2_scale prefac shift).

  (** HierarchyCalculator.cpp:1050-1137 (always the stop masses, also for ab = true) *)
  Definition shiftH3mToDRbarPrimeMh2 (p : Params T) (h omitLogs : Z) : T :=
    let truncateXt := truncateXt_of h in
    let Mst1 := v0 (MSt p) in
    let Mst2 := v1 (MSt p) in
    let Xt := if (h =? h4)%Z then #0 else a22 (Au p) - mu p / calcTanBeta p in
    let eps := Mst1 * ndec 1 2 in
    let Mst12 := pow2 Mst1 in
    let Mgl := MG p in
    let Mgl2 := pow2 (MG p) in
    let Msq2 := pow2 (calcMeanMsq p) in
    let scale2 := pow2 (scale p) in
    let Xt2 := pow2 Xt in
    let Mst22 := pow2 Mst2 in
    let Dmst12 := Mst12 - Mst22 in
    let lmMst1 := #omitLogs * nlog (scale2 / Mst12) in
    let lmMst2 := #omitLogs * nlog (scale2 / Mst12) - nlog (Mst22 / Mst12) in
    let lmMsq := #omitLogs * nlog (scale2 / Mst12) - nlog (Msq2 / Mst12) in
    let lmMgl := #omitLogs * nlog (scale2 / Mst12) - nlog (Mgl2 / Mst12) in
    let isDegenerate :=
      if nabs (Mst1 - Mst2) <? eps then
    let Mst2shift := Mst1 + ndec 5 1 * nsqrt (nabs Dmst12) in
    let lmMst2shift := nlog (scale2 / pow2 Mst2shift) in
    let lim := #32 * (#(-3) * (#1 + lmMgl) * pow2 Mgl + #5 * (#1 + lmMsq) * Msq2 + (#1 + lmMst1) * pow2 Mst1) *
      (#(-6) * Xt2 * pow2 Mst1 + #truncateXt * pow2 Xt2 + #6 * pow4 Mst1) / (#3 * pow6 Mst1) in
    let exact := #16 * (#(-6) * (#1 + lmMgl) * pow2 Mgl + #10 * (#1 + lmMsq) * Msq2 + (#1 + lmMst1) * pow2 Mst1 + (#1
      + lmMst2) * pow2 Mst2) * (#4 * #truncateXt * nlog (Mst2 / Mst1) * pow2 Mst1 * pow2 Mst2 * pow2 Xt2 -
      #2 * Xt2 * pow3 (pow2 Mst1 - pow2 Mst2) + (pow2 Mst1 + pow2 Mst2) * pow3 (pow2 Mst1 - pow2 Mst2) +
      #truncateXt * pow2 Xt2 * (pow4 Mst1 - pow4 Mst2)) / (pow2 Mst1 * pow2 Mst2 * pow3 (pow2 Mst1 - pow2
      Mst2)) in
    let exactShifted := #16 * (#(-6) * (#1 + lmMgl) * pow2 Mgl + #10 * (#1 + lmMsq) * Msq2 + (#1 + lmMst1) * pow2 Mst1 + (#1
      + lmMst2shift) * pow2 Mst2shift) * (#4 * #truncateXt * nlog (Mst2shift / Mst1) * pow2 Mst1 * pow2
      Mst2shift * pow2 Xt2 - #2 * Xt2 * pow3 (pow2 Mst1 - pow2 Mst2shift) + (pow2 Mst1 + pow2 Mst2shift) *
      pow3 (pow2 Mst1 - pow2 Mst2shift) + #truncateXt * pow2 Xt2 * (pow4 Mst1 - pow4 Mst2shift)) / (pow2
      Mst1 * pow2 Mst2shift * pow3 (pow2 Mst1 - pow2 Mst2shift)) in
        ((nabs (exactShifted - lim) >=? nabs (exact - lim)) || (negb (nisfin exact))) || (negb (nisfin
      exactShifted))
      else false in
    if isDegenerate then
      #32 * (#(-3) * (#1 + lmMgl) * pow2 Mgl + #5 * (#1 + lmMsq) * Msq2 + (#1 + lmMst1) * pow2 Mst1) *
      (#(-6) * Xt2 * pow2 Mst1 + #truncateXt * pow2 Xt2 + #6 * pow4 Mst1) / (#3 * pow6 Mst1)
    else
      #16 * (#(-6) * (#1 + lmMgl) * pow2 Mgl + #10 * (#1 + lmMsq) * Msq2 + (#1 + lmMst1) * pow2 Mst1 + (#1
      + lmMst2) * pow2 Mst2) * (#4 * #truncateXt * nlog (Mst2 / Mst1) * pow2 Mst1 * pow2 Mst2 * pow2 Xt2 -
      #2 * Xt2 * pow3 (pow2 Mst1 - pow2 Mst2) + (pow2 Mst1 + pow2 Mst2) * pow3 (pow2 Mst1 - pow2 Mst2) +
      #truncateXt * pow2 Xt2 * (pow4 Mst1 - pow4 Mst2)) / (pow2 Mst1 * pow2 Mst2 * pow3 (pow2 Mst1 - pow2
      Mst2)).

  (** HierarchyCalculator.cpp:1147-1209 *)
  Definition getMt41L (p : Params T) (ab : bool) (h shiftOneLoop shiftTwoLoop : Z) : res (mat2 T) :=
    let beta := calcBeta p in
    do Mst1 <- shiftMst1ToMDR p ab h shiftOneLoop shiftTwoLoop;
    do Mst2 <- shiftMst2ToMDR p ab h shiftOneLoop shiftTwoLoop;
    let sbeta := calcSinBeta p in
    let cbeta := calcCosBeta p in
    let Mt_ := fMass p ab in
    let s2t_ := sfS2 p ab in
    let s00 := - pow2 Mt_ * pow2 (mu p) * (- pow2 Mst1 + pow2 Mst2 + pow2 Mst1 * nlog Mst1 + pow2 Mst2 * nlog Mst1
      - pow2 Mst1 * nlog Mst2 - pow2 Mst2 * nlog Mst2) * pow2 s2t_ / (#4 * (pow2 Mst1 - pow2 Mst2)) in
    let s01 := - (pow3 Mt_ * mu p * (nlog Mst1 - nlog Mst2) * s2t_) / #2 + pow2 Mt_ * pow2 (mu p) * #1 / ntan beta
      * (- pow2 Mst1 + pow2 Mst2 + pow2 Mst1 * nlog Mst1 + pow2 Mst2 * nlog Mst1 - pow2 Mst1 * nlog Mst2 -
      pow2 Mst2 * nlog Mst2) * pow2 s2t_ / (#4 * (pow2 Mst1 - pow2 Mst2)) + Mt_ * mu p * (- pow2 Mst1 +
      pow2 Mst2 + pow2 Mst1 * nlog Mst1 + pow2 Mst2 * nlog Mst1 - pow2 Mst1 * nlog Mst2 - pow2 Mst2 * nlog
      Mst2) * pow3 s2t_ / #8 in
    let s11 := pow4 Mt_ * (nlog Mst1 + nlog Mst2 - #2 * nlog Mt_) + pow3 Mt_ * mu p * #1 / ntan beta * (nlog Mst1 -
      nlog Mst2) * s2t_ + pow2 Mt_ * pow2 (#1 / sbeta) * (pow2 Mst1 * pow2 (mu p) * pow2 cbeta - pow2 Mst2
      * pow2 (mu p) * pow2 cbeta - pow2 Mst1 * pow2 (mu p) * pow2 cbeta * nlog Mst1 - pow2 Mst2 * pow2 (mu
      p) * pow2 cbeta * nlog Mst1 + pow2 Mst1 * pow2 (mu p) * pow2 cbeta * nlog Mst2 + pow2 Mst2 * pow2
      (mu p) * pow2 cbeta * nlog Mst2 + #2 * pow4 Mst1 * nlog Mst1 * pow2 sbeta - #4 * pow2 Mst1 * pow2
      Mst2 * nlog Mst1 * pow2 sbeta + #2 * pow4 Mst2 * nlog Mst1 * pow2 sbeta - #2 * pow4 Mst1 * nlog Mst2
      * pow2 sbeta + #4 * pow2 Mst1 * pow2 Mst2 * nlog Mst2 * pow2 sbeta - #2 * pow4 Mst2 * nlog Mst2 *
      pow2 sbeta) * pow2 s2t_ / (#4 * (pow2 Mst1 - pow2 Mst2)) - Mt_ * mu p * #1 / ntan beta * (- pow2
      Mst1 + pow2 Mst2 + pow2 Mst1 * nlog Mst1 + pow2 Mst2 * nlog Mst1 - pow2 Mst1 * nlog Mst2 - pow2 Mst2
      * nlog Mst2) * pow3 s2t_ / #4 - (pow2 Mst1 - pow2 Mst2) * (- pow2 Mst1 + pow2 Mst2 + pow2 Mst1 *
      nlog Mst1 + pow2 Mst2 * nlog Mst1 - pow2 Mst1 * nlog Mst2 - pow2 Mst2 * nlog Mst2) * pow4 s2t_ / #16 in
    Ok (mat2_scale (calcHiggsMassMatrixPrefactor p) (mkM2 s00 s01 s01 s11)).
End Formulas.
