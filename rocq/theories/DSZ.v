(** * C++ wrappers of the two-loop FORTRAN routines
    GENERATED by tools/gen_fo.py from source/himalaya/mh2l/DSZHiggs.cpp, statement by statement.  The FORTRAN routines (DSZHiggs.f, Li2.f90) are
    external: fields of [Fort], implemented in Fortran.v.  The mutex is the subject of Lock.v; here the calls are sequential. *)
From Coq Require Import ZArith Bool.
From Verif Require Import Num Except.

(** argument lists as in DSZHiggs.h.  Arguments are passed by address.  The result triples are what the routine stores through its three
    output addresses, in the order of the argument list.  [ft_ddshiggs] also changes seven of its input arguments: first component, the
    values of T1, B1, B2, st, ct, sb, cb on return (ddsodd does the same, but its caller does not use them afterwards). *)
Record Fort (T : Type) := mkFort {
  ft_dszhiggs : T -> T -> T -> T -> T -> T -> T -> T -> T -> T -> T -> Z -> T * T * T;
  ft_dszodd : T -> T -> T -> T -> T -> T -> T -> T -> T -> T -> T -> T;
  ft_ddshiggs : T -> T -> T -> T -> T -> T -> T -> T -> T -> T -> T -> T -> T -> T -> T -> Z ->
    (T * T * T * T * T * T * T) * (T * T * T);
  ft_ddsodd : T -> T -> T -> T -> T -> T -> T -> T -> T -> T -> T -> T -> T -> T -> T -> Z -> T;
  ft_tausqhiggs : T -> T -> T -> T -> T -> T -> T -> T -> T -> T -> T -> Z -> T * T * T;
  ft_tausqodd : T -> T -> T -> T -> T -> T -> T -> T -> T -> T -> T -> T;
  ft_taubot : T -> T -> T -> T -> T -> T -> T -> T -> T -> T -> T -> T -> T -> T -> T * T * T;
  ft_taubotodd : T -> T -> T -> T -> T -> T -> T -> T -> T -> T -> T -> T -> T -> T -> T;
  ft_li2 : T -> T   (* real part of li2c_, Li2f.cpp:28-32 *) }.
Arguments mkFort {T}.
Arguments ft_dszhiggs {T}. Arguments ft_dszodd {T}. Arguments ft_ddshiggs {T}. Arguments ft_ddsodd {T}. Arguments ft_tausqhiggs {T}.
Arguments ft_tausqodd {T}. Arguments ft_taubot {T}. Arguments ft_taubotodd {T}. Arguments ft_li2 {T}.

Section DSZ.
  Context {T : Type} {N : Num T} (ft : Fort T).
  Open Scope num_scope.

  (** source/himalaya/mh2l/DSZHiggs.cpp:33 *)
  Definition sqrtabs (a : T) : T := nsqrt (nabs a).
  (** source/himalaya/mh2l/DSZHiggs.cpp:34 *)
  Definition logabs (x : T) : T := nlog (nabs x).
  (** M_PI of <cmath>, rounded to nearest binary64 *)
  Definition M_PI : T := ndec 31415926535897932384626433832795028841971693993751 49.

  (** source/himalaya/mh2l/DSZHiggs.cpp:36-107 *)
  Definition delta_mh2_2loop_at_as_st_0_mst1_eq_mst2 (mt2 : T) (mg : T) (mst12 : T) (unused3 : T) (unused4 : T) (unused5 : T) (scale2 : T) (mu : T) (tanb : T) (vev2 : T) (g3 : T) (unused11 : Z) : mat2 T :=
    let Pi2 := M_PI * M_PI in
    let Pi4 := M_PI * M_PI * M_PI * M_PI in
    let g := pow2 mg in
    let g2 := pow2 g in
    let q := scale2 in
    let t := mt2 in
    let tsq := pow2 t in
    let TT := mst12 in
    let Tsq := pow2 mst12 in
    let del := g2 + tsq + Tsq - #2 * (g * t + g * TT + t * TT) in
    let rdel := sqrtabs del in
    let sb := nsin (natan tanb) in
    let ht2 := #2 / vev2 * mt2 / pow2 sb in
    let r00 := #0 in
    let r01 := pow2 g3 * ht2 * mg * mt2 * mu * (#(-1) + logabs (t / q) - TT * (#2 * del * (- (logabs (t / g) / TT)
      - #2 * (g + t - TT + g * sqrtabs (del / g2)) * logabs ((g + t - TT - g * sqrtabs (del / g2)) / (#2 *
      g)) / (g * sqrtabs (del / g2) * (t - TT + g * (#(-1) + sqrtabs (del / g2)))) + #2 * logabs ((g - t +
      TT - g * sqrtabs (del / g2)) / (#2 * g)) / (g * sqrtabs (del / g2)) - #2 * ((g + t - TT + g *
      sqrtabs (del / g2)) * logabs ((g + t - TT + g * sqrtabs (del / g2)) / (#2 * g)) + (g - t + TT - g *
      sqrtabs (del / g2)) * logabs ((g - t + TT + g * sqrtabs (del / g2)) / (#2 * g))) / (g * sqrtabs (del
      / g2) * (t - TT + g * (#(-1) + sqrtabs (del / g2))))) / g2 + #2 * (g + t - TT) * (Pi2 - #3 * logabs
      (t / g) * logabs (TT / g) + #6 * logabs ((g + t - TT - g * sqrtabs (del / g2)) / (#2 * g)) * logabs
      ((g - t + TT - g * sqrtabs (del / g2)) / (#2 * g)) - #6 * ft_li2 ft ((g + t - TT - g * sqrtabs (del
      / g2)) / (#2 * g)) - #6 * ft_li2 ft ((g - t + TT - g * sqrtabs (del / g2)) / (#2 * g))) / (#3 * g2))
      / (#2 * npow (nabs del / g2) (ndec 15 1))) / (#8 * Pi4 * TT) in
    let r10 := r01 in
    let r11 := pow2 g3 * ht2 * mt2 * (#(-2) - #8 * (g + t) * (#(-1) + logabs (g / q)) / TT + #8 * logabs (t / g) +
      #6 * (#(-1) + logabs (t / q)) + #8 * pow2 (logabs (t / q)) - #4 * logabs (TT / g) + #4 * ((g2 * TT -
      pow2 (t - TT) * (#2 * t + TT) + #2 * g * t * (t + #5 * TT)) * logabs (t / g) + #4 * g2 * TT * logabs
      (TT / g)) / (del * TT) + #2 * logabs (TT / q) - #8 * pow2 (logabs (TT / q)) + #5 * logabs (Tsq /
      tsq) + pow2 (logabs (Tsq / tsq)) + #4 * g2 * (g + t - TT) * (Pi2 - #6 * ft_li2 ft ((g + t - TT - g *
      sqrtabs (del / g2)) / (#2 * g)) - #6 * ft_li2 ft ((g - t + TT - g * sqrtabs (del / g2)) / (#2 * g))
      - #3 * logabs (t / g) * logabs (TT / g) + #6 * logabs ((- rdel + g + t - TT) / (#2 * g)) * logabs
      ((- rdel + g - t + TT) / (#2 * g))) / (#3 * npow (nabs del) (ndec 15 1)) + #4 * g * (g + t - TT) *
      (Pi2 - #6 * ft_li2 ft ((g + t - TT - g * sqrtabs (del / g2)) / (#2 * g)) - #6 * ft_li2 ft ((g - t +
      TT - g * sqrtabs (del / g2)) / (#2 * g)) - #3 * logabs (t / g) * logabs (TT / g) + #6 * logabs ((g +
      t - TT - g * sqrtabs (del / g2)) / (#2 * g)) * logabs ((g - t + TT - g * sqrtabs (del / g2)) / (#2 *
      g))) / (#3 * del * sqrtabs (del / g2)) + #8 * mg * mu * (#1 / TT - logabs (t / q) / TT + g * (g + t
      - TT) * (Pi2 - #6 * ft_li2 ft ((g + t - TT - g * sqrtabs (del / g2)) / (#2 * g)) - #6 * ft_li2 ft
      ((g - t + TT - g * sqrtabs (del / g2)) / (#2 * g)) - #3 * logabs (t / g) * logabs (TT / g) + #6 *
      logabs ((- rdel + g + t - TT) / (#2 * g)) * logabs ((- rdel + g - t + TT) / (#2 * g))) / (#3 * npow
      (nabs del) (ndec 15 1)) + g * (- (logabs (t / g) / TT) - #2 * (- (g * logabs #4) + (rdel + g + t -
      TT) * logabs ((- rdel + g + t - TT) / g) + (- rdel + g - t + TT) * logabs ((- rdel + g - t + TT) /
      g)) / (rdel * (rdel - g + t - TT)) - #2 * ((rdel + g + t - TT) * logabs ((g + t - TT + g * sqrtabs
      (del / g2)) / (#2 * g)) / (rdel * (t - TT + g * (#(-1) + sqrtabs (del / g2)))) - (rdel - g - t + TT)
      * logabs ((g - t + TT + g * sqrtabs (del / g2)) / (#2 * g)) / (rdel * (- t + TT + g * (#(-1) +
      sqrtabs (del / g2)))))) / rdel) / tanb) / (#32 * Pi4) in
    mkM2 r00 r01 r10 r11.

  (** source/himalaya/mh2l/DSZHiggs.cpp:126-140 *)
  Definition rotate_by (dm2 : T) (tanb : T) : mat2 T :=
    let tanb2 := pow2 tanb in
    let sinb := tanb / sqrtabs (#1 + tanb2) in
    let cosb := #1 / sqrtabs (#1 + tanb2) in
    let r00 := dm2 * pow2 sinb in
    let r01 := - dm2 * sinb * cosb in
    let r10 := r01 in
    let r11 := dm2 * pow2 cosb in
    mkM2 r00 r01 r10 r11.

  (** source/himalaya/mh2l/DSZHiggs.cpp:142-150 *)
  Definition calc_At (mt2 : T) (mst12 : T) (mst22 : T) (sxt : T) (cxt : T) (mu : T) (tanb : T) : T :=
    let s2t := #2 * cxt * sxt in
    let Xt := (mst12 - mst22) * s2t / #2 / sqrtabs mt2 in
    let At := Xt - mu / tanb in
    At.

  (** source/himalaya/mh2l/DSZHiggs.cpp:152-161 *)
  Definition phi (x : T) (y : T) (z : T) : T :=
    let u := x / z in
    let v := y / z in
    let lambda := sqrtabs (pow2 (#1 - u - v) - #4 * u * v) in
    let xp := ndec 5 1 * (#1 + (u - v) - lambda) in
    let xm := ndec 5 1 * (#1 - (u - v) - lambda) in
    #1 / lambda * (#2 * logabs xp * logabs xm - logabs u * logabs v - #2 * (ft_li2 ft xp + ft_li2 ft xm)
      + M_PI * M_PI / #3).

  (** source/himalaya/mh2l/DSZHiggs.cpp:164-184 *)
  Definition dphi_010 (t : T) (TT : T) (g : T) : T :=
    let Pi2 := M_PI * M_PI in
    let g2 := pow2 g in
    let abbr := #(-4) * t * TT / g2 + pow2 (#1 - t / g - TT / g) in
    let rabbr := sqrtabs abbr in
    ((g + t - TT) * (Pi2 - #6 * ft_li2 ft ((g - rabbr * g + t - TT) / (#2 * g)) - #6 * ft_li2 ft ((g -
      rabbr * g - t + TT) / (#2 * g)) - #3 * logabs (t / g) * logabs (TT / g) + #6 * logabs ((g - rabbr *
      g + t - TT) / (#2 * g)) * logabs ((g - rabbr * g - t + TT) / (#2 * g))) + #3 * rabbr * g * (rabbr *
      g * ((#(-1) + rabbr) * g + t - TT) * logabs (t / g) + #2 * TT * (#(-2) * g * logabs #4 + (g + rabbr
      * g + t - TT) * logabs ((g - rabbr * g + t - TT) / g) + (g + rabbr * g + t - TT) * logabs ((g +
      rabbr * g + t - TT) / g) + g * logabs ((g - rabbr * g - t + TT) / g) - rabbr * g * logabs ((g -
      rabbr * g - t + TT) / g) - t * logabs ((g - rabbr * g - t + TT) / g) + TT * logabs ((g - rabbr * g -
      t + TT) / g) + g * logabs ((g + rabbr * g - t + TT) / g) - rabbr * g * logabs ((g + rabbr * g - t +
      TT) / g) - t * logabs ((g + rabbr * g - t + TT) / g) + TT * logabs ((g + rabbr * g - t + TT) / g)))
      / (TT * (g - rabbr * g - t + TT))) / (#3 * npow (nabs abbr) (ndec 15 1) * g2).

  (** source/himalaya/mh2l/DSZHiggs.cpp:188-215 *)
  Definition delta_ma2_2loop_at_as_mst1_eq_mst2 (mt2 : T) (mg : T) (mst12 : T) (mst22 : T) (sxt : T) (cxt : T) (scale2 : T) (mu : T) (tanb : T) (vev2 : T) (g3 : T) : T :=
    let Pi2 := M_PI * M_PI in
    let g := pow2 mg in
    let g2 := pow2 g in
    let q := scale2 in
    let q2 := pow2 scale2 in
    let t := mt2 in
    let TT := mst12 in
    let sb := nsin (natan tanb) in
    let ht2 := #2 / vev2 * mt2 / pow2 sb in
    let At := calc_At mt2 mst12 mst22 sxt cxt mu tanb in
    let result := #(-2) * (g * (#2 * At * g + #2 * At * t - At * TT + mg * TT + mg * (g - t) * logabs (g / t) - At *
      TT * logabs (g / q) * logabs (t / q) - mg * TT * logabs (g / q) * logabs (t / q) - #4 * mg * TT *
      logabs (TT / q) - #2 * At * TT * pow2 (logabs (TT / q)) + logabs (g * t / q2) * (- (At * (g + t -
      TT)) + mg * TT + (At + mg) * TT * logabs (TT / q))) - #2 * (At + mg) * (g + t - TT) * TT * phi t TT
      g + TT * (At * (g2 + pow2 (t - TT) - #2 * g * TT) + mg * (g2 + pow2 (t - TT) - #2 * g * (t + TT))) *
      dphi_010 t TT g) / (g * TT) in
    let pref := #4 * pow2 g3 / pow2 (#16 * Pi2) * ht2 * mu * (#1 / tanb + tanb) in
    pref * result.

  (** the output addresses are &result(0,0), &result(1,1), &result(0,1); then result(1,0) = result(0,1) *)
  Definition sym_result (r : T * T * T) : mat2 T :=
    let '(o1, o2, o3) := r in mkM2 o1 o3 o3 o2.
  (** the output addresses are &result(0,0), &result(0,1), &result(1,1); then result(1,0) = result(0,1) *)
  Definition sym_result' (r : T * T * T) : mat2 T :=
    let '(o1, o2, o3) := r in mkM2 o1 o2 o2 o3.

  (** source/himalaya/mh2l/DSZHiggs.cpp:110-124 *)
  Definition delta_mh2_2loop_at_as_general (mt2 mg mst12 mst22 sxt cxt scale2 mu tanb vev2 g3 : T) (scheme : Z) : mat2 T :=
    sym_result (ft_dszhiggs ft mt2 mg mst12 mst22 sxt cxt scale2 mu tanb vev2 g3 scheme).

  (** source/himalaya/mh2l/DSZHiggs.cpp:217-228 *)
  Definition delta_ma2_2loop_at_as_general (mt2 mg mst12 mst22 sxt cxt scale2 mu tanb vev2 g3 : T) : T :=
    ft_dszodd ft mt2 mg mst12 mst22 sxt cxt scale2 mu tanb vev2 g3.

  (** source/himalaya/mh2l/DSZHiggs.cpp:231-249 *)
  Definition delta_ma2_2loop_at_as (mt2 mg mst12 mst22 sxt cxt scale2 mu tanb vev2 g3 : T) : T :=
    if nabs ((mst12 - mst22) / mst12) <? ndec 1 8 then
      let At := calc_At mt2 mst12 mst22 sxt cxt mu tanb in
      if nabs At <? eps_default then #0
      else delta_ma2_2loop_at_as_mst1_eq_mst2 mt2 mg mst12 mst22 sxt cxt scale2 mu tanb vev2 g3
    else delta_ma2_2loop_at_as_general mt2 mg mst12 mst22 sxt cxt scale2 mu tanb vev2 g3.

  (** source/himalaya/mh2l/DSZHiggs.cpp:251-267, without the lock *)
  Definition delta_ma2_2loop_at_at (mt2 mb2 mA2 mst12 mst22 msb12 msb22 sxt cxt sxb cxb scale2 mu tanb vev2 : T) (atat : Z) : T :=
    ft_ddsodd ft mt2 mb2 mA2 mst12 mst22 msb12 msb22 sxt cxt sxb cxb scale2 mu tanb vev2 atat.

  (** source/himalaya/mh2l/DSZHiggs.cpp:269-291 *)
  Definition delta_mh2_2loop_at_as (mt2 mg mst12 mst22 sxt cxt scale2 mu tanb vev2 g3 : T) (include_heavy_higgs : Z) : mat2 T :=
    let result :=
      if nabs ((mst12 - mst22) / mst12) <? ndec 1 8
      then delta_mh2_2loop_at_as_st_0_mst1_eq_mst2 mt2 mg mst12 mst22 sxt cxt scale2 mu tanb vev2 g3 0
      else delta_mh2_2loop_at_as_general mt2 mg mst12 mst22 sxt cxt scale2 mu tanb vev2 g3 0 in
    let dMA := if negb (include_heavy_higgs =? 0)%Z
               then delta_ma2_2loop_at_as mt2 mg mst12 mst22 sxt cxt scale2 mu tanb vev2 g3 else #0 in
    mat2_add result (rotate_by dMA tanb).

  (** source/himalaya/mh2l/DSZHiggs.cpp:293-319, without the lock *)
  Definition delta_mh2_2loop_at_at (mt2 mb2 mA2 mst12 mst22 msb12 msb22 sxt cxt sxb cxb scale2 mu tanb vev2 : T)
      (include_heavy_higgs atat : Z) : mat2 T :=
    let '((mst12, msb12, msb22, sxt, cxt, sxb, cxb), out) :=
      ft_ddshiggs ft mt2 mb2 mA2 mst12 mst22 msb12 msb22 sxt cxt sxb cxb scale2 mu tanb vev2 atat in
    let result := sym_result' out in
    let dMA := if negb (include_heavy_higgs =? 0)%Z
               then delta_ma2_2loop_at_at mt2 mb2 mA2 mst12 mst22 msb12 msb22 sxt cxt sxb cxb scale2 mu tanb vev2 atat else #0 in
    mat2_add result (rotate_by dMA tanb).

  (** source/himalaya/mh2l/DSZHiggs.cpp:321-334 *)
  Definition delta_mh2_2loop_ab_as (mb2 mg msb12 msb22 sxb cxb scale2 mu cotb vev2 g3 : T) (include_heavy_higgs : Z) : mat2 T :=
    let result := delta_mh2_2loop_at_as mb2 mg msb12 msb22 sxb cxb scale2 mu cotb vev2 g3 include_heavy_higgs in
    mkM2 (m11 result) (m01 result) (m10 result) (m00 result).

  (** source/himalaya/mh2l/DSZHiggs.cpp:336-347 *)
  Definition delta_ma2_2loop_atau_atau (mtau2 mA2 msv2 mstau12 mstau22 sintau costau scale2 mu tanb vev2 : T) : T :=
    ft_tausqodd ft mtau2 mA2 msv2 mstau12 mstau22 sintau costau scale2 mu tanb vev2.

  (** source/himalaya/mh2l/DSZHiggs.cpp:349-371 *)
  Definition delta_mh2_2loop_atau_atau (mtau2 mA2 msv2 mstau12 mstau22 sintau costau scale2 mu tanb vev2 : T)
      (include_heavy_higgs : Z) : mat2 T :=
    let result := sym_result (ft_tausqhiggs ft mtau2 mA2 msv2 mstau12 mstau22 sintau costau scale2 mu tanb vev2 0) in
    let dMA := if negb (include_heavy_higgs =? 0)%Z
               then delta_ma2_2loop_atau_atau mtau2 mA2 msv2 mstau12 mstau22 sintau costau scale2 mu tanb vev2 else #0 in
    mat2_add result (rotate_by dMA tanb).

  (** source/himalaya/mh2l/DSZHiggs.cpp:373-387 *)
  Definition delta_ma2_2loop_ab_atau (mtau2 mb2 mstau12 mstau22 msb12 msb22 sintau costau sxb cxb scale2 mu tanb vev2 : T) : T :=
    ft_taubotodd ft mtau2 mb2 mstau12 mstau22 msb12 msb22 sintau costau sxb cxb scale2 mu tanb vev2.

  (** source/himalaya/mh2l/DSZHiggs.cpp:389-413 *)
  Definition delta_mh2_2loop_ab_atau (mtau2 mb2 mstau12 mstau22 msb12 msb22 sintau costau sxb cxb scale2 mu tanb vev2 : T)
      (include_heavy_higgs : Z) : mat2 T :=
    let result := sym_result (ft_taubot ft mtau2 mb2 mstau12 mstau22 msb12 msb22 sintau costau sxb cxb scale2 mu tanb vev2) in
    let dMA := if negb (include_heavy_higgs =? 0)%Z
               then delta_ma2_2loop_ab_atau mtau2 mb2 mstau12 mstau22 msb12 msb22 sintau costau sxb cxb scale2 mu tanb vev2 else #0 in
    mat2_add result (rotate_by dMA tanb).
End DSZ.
