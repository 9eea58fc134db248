(** * Threshold loop functions
    GENERATED by tools/gen_loopfun.py from source/himalaya/mh2_eft/ThresholdLoopFunctions.cpp, statement by statement.
    sqr, cube, quad, pow5 (lines 39-43) are pow2, pow3, pow4, pow5 of Num.v (same association). *)
From Coq Require Import ZArith Bool.
From Verif Require Import Num Dilog.

Section LoopFun.
  Context {T : Type} {N : Num T}.
  Open Scope num_scope.

  (** source/himalaya/mh2_eft/ThresholdLoopFunctions.cpp:47-54 *)
  Definition logx (x : T) : T :=
    if is_zero x (#10 * eps_default) then
      #0
    else
    nlog x.

  (** source/himalaya/mh2_eft/ThresholdLoopFunctions.cpp:56-63 *)
  Definition xlogx (x : T) : T :=
    if is_zero x (ndec 1 14) then
      #0
    else
    x * nlog x.

  (** source/himalaya/mh2_eft/ThresholdLoopFunctions.cpp:74-91 *)
  Definition F1 (x : T) : T :=
    let eps := eps_default in
    if is_zero x eps then
      #0
    else
    if is_equal x #1 (ndec 1 2) then
      let d := x - #1 in
      let d2 := pow2 d in
      #1 + d2 * (#(-1) / #6 + d * (#1 / #6 - #2 / #15 * d))
    else
    let x2 := pow2 x in
    x * nlog x2 / (x2 - #1).

  (** source/himalaya/mh2_eft/ThresholdLoopFunctions.cpp:93-110 *)
  Definition F2 (x : T) : T :=
    let eps := eps_default in
    if is_zero x eps then
      #0
    else
    if is_equal x #1 (ndec 1 2) then
      let d := (x - #1) * (x + #1) in
      let d2 := pow2 d in
      #1 + d2 * (- ndec 1 1 + d * (ndec 1 1 - #3 / #35 * d))
    else
    let x2 := pow2 x in
    #6 * x2 * (#2 - #2 * x2 + (#1 + x2) * nlog x2) / pow3 (x2 - #1).

  (** source/himalaya/mh2_eft/ThresholdLoopFunctions.cpp:112-128 *)
  Definition F3 (x : T) : T :=
    let eps := eps_default in
    if is_zero x eps then
      #0
    else
    if is_equal x #1 (ndec 1 2) then
      let d := x - #1 in
      #1 + d * (#5 / #9 + d * (#(-4) / #9 + d * (#2 / #9 - #7 / #90 * d)))
    else
    let x2 := pow2 x in
    #2 * x * (#5 * (#1 - x2) + (#1 + #4 * x2) * nlog x2) / (#3 * pow2 (x2 - #1)).

  (** source/himalaya/mh2_eft/ThresholdLoopFunctions.cpp:130-147 *)
  Definition F4 (x : T) : T :=
    let eps := eps_default in
    if is_zero x eps then
      #0
    else
    if is_equal x #1 (ndec 1 2) then
      let d := x - #1 in
      let d2 := pow2 d in
      #1 + d * (#(-1) / #3 + d2 * (#2 / #15 - d / #6))
    else
    let x2 := pow2 x in
    #2 * x * (x2 - #1 - nlog x2) / pow2 (x2 - #1).

  (** source/himalaya/mh2_eft/ThresholdLoopFunctions.cpp:149-173 *)
  Definition F5 (x : T) : T :=
    let eps := eps_default in
    if is_zero x eps then
      #0
    else
    if is_equal x #1 (ndec 1 2) then
      let d := x - #1 in
      let d2 := pow2 d in
      #1 + d2 * (- ndec 3 1 + d * (ndec 3 1 - #3 / #14 * d))
    else
    if is_equal x (- #1) (ndec 1 2) then
      let d := x + #1 in
      let d2 := pow2 d in
      #(-1) + d2 * (ndec 3 1 + d * (ndec 3 1 + #3 / #14 * d))
    else
    let x2 := pow2 x in
    let x4 := pow2 x2 in
    #3 * x * (#1 - x4 + #2 * x2 * nlog x2) / pow3 (#1 - x2).

  (** source/himalaya/mh2_eft/ThresholdLoopFunctions.cpp:175-191 *)
  Definition F6 (x : T) : T :=
    let eps := eps_default in
    if is_zero x eps then
      - ndec 75 2
    else
    let x2 := pow2 x in
    if is_equal x2 #1 (ndec 1 2) then
      let d := (x - #1) * (x + #1) in
      d * (#1 / #3 + d * (#(-1) / #8 + d * (#1 / #15 + d / #24)))
    else
    (x2 - #3) / (#4 * (#1 - x2)) + x2 * (x2 - #2) / (#2 * pow2 (#1 - x2)) * nlog x2.

  (** source/himalaya/mh2_eft/ThresholdLoopFunctions.cpp:193-212 *)
  Definition F7 (x : T) : T :=
    let eps := eps_default in
    if is_zero x eps then
      - ndec 15 1
    else
    let x2 := pow2 x in
    if is_equal x2 #1 (ndec 1 2) then
      let d := (x - #1) * (x + #1) in
      #1 + d * (#3 / #2 + d * (#(-9) / #20 + d * (ndec 2 1 - #3 / #28 * d)))
    else
    let x4 := pow2 x2 in
    #(-3) * (x4 - #6 * x2 + #1) / (#2 * pow2 (x2 - #1)) + #3 * x4 * (x2 - #3) / pow3 (x2 - #1) * nlog x2.

  (** source/himalaya/mh2_eft/ThresholdLoopFunctions.cpp:215-229 *)
  Definition F8_1_1 (x1 x2 : T) : T :=
    let d1 := (x1 - #1) * (x1 + #1) in
    let d2 := (x2 - #1) * (x2 + #1) in
    let d12 := pow2 d1 in
    let d22 := pow2 d2 in
    let d13 := d1 * d12 in
    let d23 := d2 * d22 in
    let d14 := pow2 d12 in
    let d24 := pow2 d22 in
    #1 + #2 / #3 * (d1 + d2) + #1 / #6 * (- d12 - d1 * d2 - d22) + (d13 + d12 * d2 + d1 * d22 + d23) /
      #15 + (- d14 - d13 * d2 - d12 * d22 - d1 * d23 - d24) / #30.

  (** source/himalaya/mh2_eft/ThresholdLoopFunctions.cpp:232-258 *)
  Definition F8_1_x2 (x1 x2 : T) : T :=
    let x22 := pow2 x2 in
    let d := (x1 - #1) * (x1 + #1) in
    if is_zero x2 (ndec 1 2) then
      #2 * x22 + d * (#1 - x22 + d * (#(-1) / #3 + #2 / #3 * x22))
    else
    let d2 := pow2 d in
    let d3 := d * d2 in
    let d4 := pow2 d2 in
    let y := (x2 - #1) * (x2 + #1) in
    let y2 := pow2 y in
    let y3 := y * y2 in
    let y4 := pow2 y2 in
    let y5 := y2 * y3 in
    let y6 := pow2 y3 in
    let lx22 := nlog x22 in
    #(-2) + #2 * (#1 + x22 * (#(-1) + lx22 * x22)) / y2 + d * (#(-1) + x22 * (#4 + x22 * (#(-3) + #2 *
      lx22))) / y3 + d2 * (#(-1) + x22 * (#6 + x22 * (#(-3) + #6 * lx22 + #(-2) * x22))) / (#3 * y4) + d3
      * (#(-1) + x22 * (#8 + x22 * (#12 * lx22 + x22 * (#(-8) + x22)))) / (#6 * y5) + d4 * (#(-3) + x22 *
      (#30 + x22 * (#20 + #60 * lx22 + x22 * (#(-60) + x22 * (#15 - #2 * x22))))) / (#30 * y6).

  (** source/himalaya/mh2_eft/ThresholdLoopFunctions.cpp:261-268 *)
  Definition F8_0_x2 (x1 x2 : T) : T :=
    let x12 := pow2 x1 in
    let x22 := pow2 x2 in
    let lx22 := nlog x22 in
    #2 * (#1 - x22 + (x12 + x22) * lx22) / (#(-1) + x22).

  (** source/himalaya/mh2_eft/ThresholdLoopFunctions.cpp:271-289 *)
  Definition F8_x1_x2 (x1 x2 : T) : T :=
    let x22 := pow2 x2 in
    let d := (x1 - x2) * (x1 + x2) in
    let d2 := pow2 d in
    let d3 := d * d2 in
    let y := (x2 - #1) * (x2 + #1) in
    let y2 := pow2 y in
    let y3 := y * y2 in
    let y4 := pow2 y2 in
    let y5 := y2 * y3 in
    let lx22 := nlog x22 in
    #2 * ((#(-2) + x22) * x22 * lx22 + y) / y2 + d * (#3 + x22 * (#(-4) + x22) + #2 * lx22) / y3 + d2 *
      (#(-2) + x22 * (#(-3) - #6 * lx22 + x22 * (#6 - x22))) / (#3 * x22 * y4) + d3 * (#(-1) + x22 * (#8 +
      x22 * (#12 * lx22 + x22 * (#(-8) + x22)))) / (#6 * x22 * x22 * y5).

  (** source/himalaya/mh2_eft/ThresholdLoopFunctions.cpp:291-334 *)
  Definition F8 (x1 x2 : T) : T :=
    let eps := #10 * eps_default in
    if (is_zero x1 eps) && (is_zero x2 eps) then
      - #2
    else
    let ax1 := nabs x1 in
    let ax2 := nabs x2 in
    if (is_equal ax1 #1 (ndec 1 2)) && (is_equal ax2 #1 (ndec 1 2)) then
      F8_1_1 x1 x2
    else
    if is_equal ax1 #1 (ndec 1 2) then
      F8_1_x2 x1 x2
    else
    if is_equal ax2 #1 (ndec 1 2) then
      F8_1_x2 x2 x1
    else
    if is_zero x1 (ndec 1 5) then
      F8_0_x2 x1 x2
    else
    if is_zero x2 (ndec 1 5) then
      F8_0_x2 x2 x1
    else
    if is_equal ax1 ax2 (ndec 1 5) then
      F8_x1_x2 x1 x2
    else
    let x12 := pow2 x1 in
    let x22 := pow2 x2 in
    let x14 := pow2 x12 in
    let x24 := pow2 x22 in
    - #2 + #2 / (x12 - x22) * (x14 / (x12 - #1) * nlog x12 - x24 / (x22 - #1) * nlog x22).

  (** source/himalaya/mh2_eft/ThresholdLoopFunctions.cpp:337-353 *)
  Definition F9_1_1 (x1 x2 : T) : T :=
    let d1 := (x1 - #1) * (x1 + #1) in
    let d2 := (x2 - #1) * (x2 + #1) in
    let d12 := pow2 d1 in
    let d22 := pow2 d2 in
    let d13 := d1 * d12 in
    let d23 := d2 * d22 in
    let d14 := pow2 d12 in
    let d24 := pow2 d22 in
    #1 + #1 / #3 * (- d2 - d1) + #1 / #6 * (d12 + d1 * d2 + d22) + #1 / #10 * (- d13 - d12 * d2 - d1 *
      d22 - d23) + #1 / #15 * (d14 + d13 * d2 + d12 * d22 + d1 * d23 + d24).

  (** source/himalaya/mh2_eft/ThresholdLoopFunctions.cpp:356-381 *)
  Definition F9_1_x2 (x1 x2 : T) : T :=
    let x22 := pow2 x2 in
    let d := (x1 - #1) * (x1 + #1) in
    let d2 := pow2 d in
    let d3 := d * d2 in
    let d4 := pow2 d2 in
    let y := (x2 - #1) * (x2 + #1) in
    let y2 := pow2 y in
    let y3 := y * y2 in
    let y4 := pow2 y2 in
    let y5 := y2 * y3 in
    let y6 := pow2 y3 in
    let lx22 := nlog x22 in
    if is_zero x2 (ndec 1 2) then
      #2 + d
    else
    #2 * (#1 + x22 * (#(-1) + lx22)) / y2 + d * (#1 + x22 * (#2 * lx22 - x22)) / y3 + d2 * (#2 + x22 *
      (#3 + #6 * lx22 + x22 * (#(-6) + x22))) / (#3 * y4) + d3 * (#3 + x22 * (#10 + #12 * lx22 + x22 *
      (#(-18) + x22 * (#6 - x22)))) / (#6 * y5) + d4 * (#12 + x22 * (#65 + #60 * lx22 + x22 * (#(-120) +
      x22 * (#60 + x22 * (#(-20) + #3 * x22))))) / (#30 * y6).

  (** source/himalaya/mh2_eft/ThresholdLoopFunctions.cpp:384-389 *)
  Definition F9_0_x2 (unused0 x2 : T) : T :=
    let x22 := pow2 x2 in
    #2 * nlog x22 / (#(-1) + x22).

  (** source/himalaya/mh2_eft/ThresholdLoopFunctions.cpp:392-410 *)
  Definition F9_x1_x2 (x1 x2 : T) : T :=
    let x22 := pow2 x2 in
    let d := (x1 - x2) * (x1 + x2) in
    let d2 := pow2 d in
    let d3 := d * d2 in
    let y := (x2 - #1) * (x2 + #1) in
    let y2 := pow2 y in
    let y3 := y * y2 in
    let y4 := pow2 y2 in
    let y5 := y2 * y3 in
    let lx22 := nlog x22 in
    #2 * (y - lx22) / y2 + d * (#1 + x22 * (#2 * lx22 - x22)) / (x22 * y3) + d2 * (#1 + x22 * (#(-6) +
      x22 * (#3 - #6 * lx22 + #2 * x22))) / (#3 * x22 * x22 * y4) + d3 * (#1 + x22 * (#(-6) + x22 * (#18 +
      x22 * (#(-10) + #12 * lx22 - #3 * x22)))) / (#6 * x22 * x22 * x22 * y5).

  (** source/himalaya/mh2_eft/ThresholdLoopFunctions.cpp:412-447 *)
  Definition F9 (x1 x2 : T) : T :=
    let ax1 := nabs x1 in
    let ax2 := nabs x2 in
    if (is_equal ax1 #1 (ndec 1 2)) && (is_equal ax2 #1 (ndec 1 2)) then
      F9_1_1 x1 x2
    else
    if is_equal ax1 #1 (ndec 1 2) then
      F9_1_x2 x1 x2
    else
    if is_equal ax2 #1 (ndec 1 2) then
      F9_1_x2 x2 x1
    else
    if is_zero x1 (ndec 1 4) then
      F9_0_x2 x1 x2
    else
    if is_zero x2 (ndec 1 4) then
      F9_0_x2 x2 x1
    else
    if is_equal ax1 ax2 (ndec 1 5) then
      F9_x1_x2 x1 x2
    else
    let x12 := pow2 x1 in
    let x22 := pow2 x2 in
    #2 / (x12 - x22) * (x12 / (x12 - #1) * nlog x12 - x22 / (x22 - #1) * nlog x22).

  (** source/himalaya/mh2_eft/ThresholdLoopFunctions.cpp:449-452 *)
  Definition f (r : T) : T :=
    F5 r.

  (** source/himalaya/mh2_eft/ThresholdLoopFunctions.cpp:454-457 *)
  Definition g (r : T) : T :=
    F7 r.

  (** source/himalaya/mh2_eft/ThresholdLoopFunctions.cpp:459-481 *)
  Definition f1 (r : T) : T :=
    if r =? #0 then
      #0
    else
    let r2 := pow2 r in
    if nabs r <? ndec 1 2 then
      r2 * (#18 / #7 + #6 / #7 * r2 * (#7 + #5 * nlog r2))
    else
    let d := r2 - #1 in
    if is_equal (nabs r) #1 (ndec 1 2) then
      #1 + d * (#4 / #7 + d * (#(-13) / #70 + d * (#3 / #35 - #23 / #490 * d)))
    else
    let d2 := pow2 d in
    let d3 := d * d2 in
    #6 * (r2 + #3) * r2 / (#7 * d2) + #6 * (r2 - #5) * pow2 r2 * nlog r2 / (#7 * d3).

  (** source/himalaya/mh2_eft/ThresholdLoopFunctions.cpp:483-505 *)
  Definition f2 (r : T) : T :=
    if r =? #0 then
      #0
    else
    let r2 := pow2 r in
    if nabs r <? ndec 1 2 then
      r2 * (#22 / #9 + #2 / #9 * r2 * (#23 + #17 * nlog r2))
    else
    let d := r2 - #1 in
    if is_equal (nabs r) #1 (ndec 1 2) then
      #1 + d * (#16 / #27 + d * (#(-49) / #270 + d * (#11 / #135 - #83 / #1890 * d)))
    else
    let d2 := pow2 d in
    let d3 := d * d2 in
    #2 * (r2 + #11) * r2 / (#9 * d2) + #2 * (#5 * r2 - #17) * pow2 r2 * nlog r2 / (#9 * d3).

  (** source/himalaya/mh2_eft/ThresholdLoopFunctions.cpp:507-530 *)
  Definition f3 (r : T) : T :=
    if r =? #0 then
      #4 / #3
    else
    let r2 := pow2 r in
    if is_zero r (ndec 1 6) then
      #4 / #3 + #2 / #3 * r2 * (#13 + #6 * nlog r2)
    else
    let d := r2 - #1 in
    if is_equal (nabs r) #1 (ndec 1 2) then
      #1 + d * (#2 / #9 + d * (#1 / #90 + d * (#(-2) / #45 + #29 / #630 * d)))
    else
    let r4 := pow2 r2 in
    let d2 := pow2 d in
    let d3 := d * d2 in
    #2 * (r4 + #9 * r2 + #2) / (#3 * d2) + #2 * (r4 - #7 * r2 - #6) * r2 * nlog r2 / (#3 * d3).

  (** source/himalaya/mh2_eft/ThresholdLoopFunctions.cpp:532-555 *)
  Definition f4 (r : T) : T :=
    if r =? #0 then
      #12 / #7
    else
    let r2 := pow2 r in
    if is_zero r (ndec 1 6) then
      #12 / #7 + #2 / #7 * r2 * (#37 + #18 * nlog r2)
    else
    let d := r2 - #1 in
    if is_equal (nabs r) #1 (ndec 1 2) then
      #1 + d * (#2 / #21 + d * (#13 / #210 + d * (#(-8) / #105 + #101 / #1470 * d)))
    else
    let r4 := pow2 r2 in
    let d2 := pow2 d in
    let d3 := d * d2 in
    #2 * (#5 * r4 + #25 * r2 + #6) / (#7 * d2) + #2 * (r4 - #19 * r2 - #18) * r2 * nlog r2 / (#7 * d3).

  (** source/himalaya/mh2_eft/ThresholdLoopFunctions.cpp:558-583 *)
  Definition f5_0_0 (r1 r2 : T) : T :=
    if (is_zero r1 (ndec 1 6)) && (is_zero r2 (ndec 1 6)) then
      ndec 75 2
    else
    let '(r1, r2) := if nabs r1 >? nabs r2 then (r2, r1) else (r1, r2) in
    let r12 := pow2 r1 in
    let r22 := pow2 r2 in
    let r2lr2 := xlogx r2 in
    let lr2 := logx r2 in
    ndec 75 2 * (#1 + #2 * r1 * (r2 + r2lr2) + #2 * r22 + #2 * r2 * r2lr2 + r12 * (#2 + #2 * lr2 + r2 *
      (#2 * r2 + #6 * r2lr2)) + r1 * r22 * (#6 * r2lr2 + #2 * r2)).

  (** source/himalaya/mh2_eft/ThresholdLoopFunctions.cpp:586-602 *)
  Definition f5_1_1 (r1 r2 : T) : T :=
    let d1 := r1 - #1 in
    let d2 := r2 - #1 in
    let d12 := pow2 d1 in
    let d22 := pow2 d2 in
    let d13 := d1 * d12 in
    let d23 := d2 * d22 in
    let d14 := pow2 d12 in
    let d24 := pow2 d22 in
    #1 + #3 / #8 * (d1 + d2) + #1 / #40 * (d12 + d1 * d2 + d22) + #1 / #20 * (- d13 - d12 * d2 - d1 *
      d22 - d23) + #1 / #280 * (#9 * (d14 + d13 * d2 + d12 * d22 + d1 * d23 + d24)).

  (** source/himalaya/mh2_eft/ThresholdLoopFunctions.cpp:605-634 *)
  Definition f5_1_r2 (r1 r2 : T) : T :=
    if is_zero r2 (ndec 1 2) then
      let d := r1 - #1 in
      ndec 75 2 * (#1 + d * (#1 / #3 + d / #6 + r2 / #3))
    else
    let d1 := r1 - #1 in
    let d2 := r2 - #1 in
    let d12 := pow2 d1 in
    let d13 := d12 * d1 in
    let d14 := d13 * d1 in
    let d22 := pow2 d2 in
    let d23 := d22 * d2 in
    let d24 := d23 * d2 in
    let d25 := d24 * d2 in
    let d26 := d25 * d2 in
    let d27 := d26 * d2 in
    let y := #1 + r2 in
    let y2 := pow2 y in
    let r22 := pow2 r2 in
    let lr22 := nlog r22 in
    (#(-3) + r2 * (#3 + r2 * (#6 + r2 * (#3 * lr22 + r2 * (#(-3) + (#(-3) + #3 * lr22) * r2))))) / (#4 *
      d23 * y2) + d1 * (#1 + r2 * (#(-1) + r2 * (#(-2) + r2 * (#8 + #3 * lr22 + r2 * (#1 + (#(-7) + #3 *
      lr22) * r2))))) / (#4 * d24 * y2) + d12 * (#(-1) + r2 * (#4 + r2 * (#(-1) + r2 * (#4 + #6 * lr22 +
      r2 * (#5 + (#(-8) + #6 * lr22 - #3 * r2) * r2))))) / (#8 * d25 * y2) + d13 * (#(-4) + r2 * (#17 + r2
      * (#(-4) + r2 * (#25 + #30 * lr22 + r2 * (#20 + r2 * (#(-41) + #30 * lr22 + (#(-12) - r2) * r2))))))
      / (#40 * d26 * y2) + d14 * (#(-2) + r2 * (#9 + r2 * (#4 + r2 * (#33 + #30 * lr22 + r22 * (#(-33) +
      #30 * lr22 + r2 * (#(-4) + r2 * (#(-9) + #2 * r2))))))) / (#40 * d27 * y2).

  (** source/himalaya/mh2_eft/ThresholdLoopFunctions.cpp:637-649 *)
  Definition f5_0_r2 (r1 r2 : T) : T :=
    let r22 := pow2 r2 in
    let lr22 := nlog r22 in
    let res := (#1 + r22 * (lr22 + (#(-1) + lr22) * r22) + r1 * (r1 * (#2 + lr22 + (#(-2) + lr22) * r22) + r2 * (#2
      + lr22 + (#(-2) + lr22) * r22))) / pow2 (#(-1) + r22) in
    ndec 75 2 * res.

  (** source/himalaya/mh2_eft/ThresholdLoopFunctions.cpp:652-671 *)
  Definition f5_r1_r2 (r1 r2 : T) : T :=
    let d := r1 - r2 in
    let d2 := pow2 d in
    let d3 := d2 * d in
    let r22 := pow2 r2 in
    let y := r22 - #1 in
    let y3 := pow2 y * y in
    let y4 := y3 * y in
    let y5 := y4 * y in
    let y6 := y5 * y in
    let lr22 := nlog r22 in
    ndec 75 2 * ((#(-1) + r22 * (#(-5) - #3 * lr22 + r22 * (#5 - #6 * lr22 + (#1 + lr22) * r22))) / y3 +
      d * r2 * (#11 + #3 * lr22 + r22 * (#3 + #18 * lr22 + r22 * (#(-15) + #3 * lr22 + r22))) / y4 + d2 *
      (#(-17) - #3 * lr22 + r22 * (#(-116) - #75 * lr22 + r22 * (#90 - #105 * lr22 + r22 * (#44 - #9 *
      lr22 - r22)))) / (#3 * y5) + d3 * (#3 + r22 * (#273 + #90 * lr22 + r22 * (#314 + #510 * lr22 + r22 *
      (#(-498) + #342 * lr22 + r22 * (#(-93) + #18 * lr22 + r22))))) / (#6 * r2 * y6)).

  (** source/himalaya/mh2_eft/ThresholdLoopFunctions.cpp:673-719 *)
  Definition f5 (r1 r2 : T) : T :=
    let eps_zero := ndec 1 4 in
    let eps_one := ndec 1 2 in
    if (is_zero r1 eps_zero) && (is_zero r2 eps_zero) then
      f5_0_0 r1 r2
    else
    if (is_equal r1 #1 eps_one) && (is_equal r2 #1 eps_one) then
      f5_1_1 r1 r2
    else
    if (is_equal r1 (- #1) eps_one) && (is_equal r2 (- #1) eps_one) then
      f5_1_1 (- r1) (- r2)
    else
    if is_equal r1 #1 eps_one then
      f5_1_r2 r1 r2
    else
    if is_equal r2 #1 (ndec 1 2) then
      f5_1_r2 r2 r1
    else
    if is_zero r1 eps_zero then
      f5_0_r2 r1 r2
    else
    if is_zero r2 eps_zero then
      f5_0_r2 r2 r1
    else
    if is_equal r1 r2 (ndec 1 4) then
      f5_r1_r2 r2 r1
    else
    let r12 := pow2 r1 in
    let r22 := pow2 r2 in
    let result := (#1 + pow2 (r1 + r2) - r12 * r22) / ((r12 - #1) * (r22 - #1)) + pow3 r1 * (r12 + #1) * nlog r12 /
      (pow2 (r12 - #1) * (r1 - r2)) - pow3 r2 * (r22 + #1) * nlog r22 / ((r1 - r2) * pow2 (r22 - #1)) in
    ndec 75 2 * result.

  (** source/himalaya/mh2_eft/ThresholdLoopFunctions.cpp:722-739 *)
  Definition f6_0_0 (r1 r2 : T) : T :=
    if (is_zero r1 (ndec 1 10)) && (is_zero r2 (ndec 1 10)) then
      #0
    else
    let r22 := pow2 r2 in
    let lr22 := nlog r22 in
    let res := r22 * (#1 + (#1 + lr22) * r22) + r1 * (r2 * (#1 + (#1 + lr22) * r22) + r1 * (#1 + r22 * (#1 + lr22 +
      (#1 + #2 * lr22) * r22) + r1 * (r2 * (#1 + lr22 + (#1 + #2 * lr22) * r22) + r1 * (#1 + lr22 + r22 *
      (#1 + #2 * lr22 + (#1 + #3 * lr22) * r22))))) in
    #6 / #7 * res.

  (** source/himalaya/mh2_eft/ThresholdLoopFunctions.cpp:742-753 *)
  Definition f6_1_1 (r1 r2 : T) : T :=
    let d1 := r1 - #1 in
    let d2 := r2 - #1 in
    #1 + d2 * (#4 / #7 + d2 * (- #2 / #35 + (- #1 / #70 + #9 * d2 / #490) * d2)) + d1 * (#4 / #7 + d2 *
      (- #2 / #35 + d2 * (- #1 / #70 + (#9 / #490 - #3 * d2 / #245) * d2)) + d1 * (- #2 / #35 + d2 * (- #1
      / #70 + d2 * (#9 / #490 + (- #3 / #245 + d2 / #147) * d2)) + d1 * (- #1 / #70 + d2 * (#9 / #490 + d2
      * (- #3 / #245 + (#1 / #147 - d2 / #294) * d2)) + d1 * (#9 / #490 + d2 * (- #3 / #245 + d2 * (#1 /
      #147 + (- #1 / #294 + #5 * d2 / #3234) * d2)))))).

  (** source/himalaya/mh2_eft/ThresholdLoopFunctions.cpp:756-767 *)
  Definition f6_0_1 (r1 r2 : T) : T :=
    let d2 := r2 - #1 in
    let d22 := pow2 d2 in
    #3 / #7 + d2 * (#4 / #7 + (- #2 / #35 + #3 * d2 / #70) * d22) + r1 * (#3 / #7 + d2 * (#1 / #7 + d2 *
      (- #1 / #7 + (#3 / #35 - #3 * d2 / #70) * d2)) + r1 * (#3 / #7 + d2 * (- #2 / #7 + d2 * (#1 / #7 +
      (- #2 / #35 + d2 / #70) * d2)) + r1 * (- #3 / #7 + d2 * (#1 / #7 + (- #2 / #35 + d2 / #14) * d22) +
      r1 * (- #3 / #7 + d2 * (#4 / #7 + d2 * (- #4 / #7 + (#18 / #35 - #31 * d2 / #70) * d2)))))).

  (** source/himalaya/mh2_eft/ThresholdLoopFunctions.cpp:770-798 *)
  Definition f6_1_r2 (r1 r2 : T) : T :=
    if is_zero r2 (ndec 1 4) then
      f6_0_1 r2 r1
    else
    let r22 := pow2 r2 in
    let lr22 := nlog r22 in
    let y := #1 + r2 in
    let y2 := pow2 y in
    let z := r2 - #1 in
    let z2 := pow2 z in
    let z3 := z2 * z in
    let z4 := z3 * z in
    let z5 := z4 * z in
    let z6 := z5 * z in
    let z7 := z6 * z in
    let d := r1 - #1 in
    let d2 := pow2 d in
    let d3 := d2 * d in
    let d4 := d3 * d in
    (#(-3) + r22 * (#6 + r2 * (#6 + r2 * (#(-3) + r2 * (#(-6) + #6 * lr22))))) / (#7 * z3 * y2) + d *
      (#4 + r2 * (#(-7) + r2 * (#(-8) + r2 * (#20 + r2 * (#4 + r2 * (#(-13) + #6 * lr22)))))) / (#7 * z4 *
      y2) + d2 * r2 * (#1 + r2 * (#(-4) + r2 * (#4 + r2 * (#8 + r2 * (#(-5) - #4 * r2 + #6 * lr22))))) /
      (#7 * z5 * y2) + d3 * (#(-2) + r2 * (#11 + r2 * (#(-22) + r2 * (#10 + r2 * (#50 + r2 * (#(-23) + r2
      * (#(-26) + #2 * r2) + #30 * lr22)))))) / (#35 * z6 * y2) + d4 * (#(-3) + r2 * (#18 + r2 * (#(-40) +
      r2 * (#24 + r2 * (#90 + r2 * (#(-42) + r2 * (#(-48) + r22) + #60 * lr22)))))) / (#70 * z7 * y2).

  (** source/himalaya/mh2_eft/ThresholdLoopFunctions.cpp:801-811 *)
  Definition f6_0_r2 (r1 r2 : T) : T :=
    let r22 := pow2 r2 in
    let lr22 := nlog r22 in
    #6 / #7 * (r22 * (#1 + (#(-1) + lr22) * r22) + r1 * (r2 * (#1 + (#(-1) + lr22) * r22) + r1 * (#1 +
      (#(-1) + lr22) * r22 + r1 * (r1 * (#1 + lr22 - r22) + r2 * (#1 + lr22 - r22))))) / pow2 (#(-1) +
      r22).

  (** source/himalaya/mh2_eft/ThresholdLoopFunctions.cpp:814-838 *)
  Definition f6_r1_r2 (r1 r2 : T) : T :=
    let d := r1 - r2 in
    let d2 := pow2 d in
    let d3 := d2 * d in
    let d4 := d3 * d in
    let r22 := pow2 r2 in
    let y := r22 - #1 in
    let y2 := pow2 y in
    let y3 := y2 * y in
    let y4 := y3 * y in
    let y5 := y4 * y in
    let y6 := y5 * y in
    let y7 := y6 * y in
    let lr22 := nlog r22 in
    #6 / #7 * (r22 * (#(-3) + r22 * (#2 - #5 * lr22 + (#1 + lr22) * r22)) / y3 + d * r2 * (#3 + r22 *
      (#7 + #10 * lr22 + r22 * (#(-11) + #2 * lr22 + r22))) / y4 + d2 * (#(-3) + r22 * (#(-62) - #30 *
      lr22 + r22 * (#36 - #60 * lr22 + r22 * (#30 - #6 * lr22 - r22)))) / (#3 * y5) + d3 * r2 * (#107 +
      #30 * lr22 + r22 * (#206 + #240 * lr22 + r22 * (#(-252) + #198 * lr22 + r22 * (#(-62) + #12 * lr22 +
      r22)))) / (#6 * y6) + d4 * (#(-167) - #30 * lr22 + r22 * (#(-2215) - #1050 * lr22 + r22 * (#(-510) -
      #3150 * lr22 + r22 * (#2570 - #1470 * lr22 + r22 * (#325 - #60 * lr22 - #3 * r22))))) / (#30 * y7)).

  (** source/himalaya/mh2_eft/ThresholdLoopFunctions.cpp:840-885 *)
  Definition f6 (r1 r2 : T) : T :=
    let eps_zero := ndec 1 4 in
    if (is_zero r1 eps_zero) && (is_zero r2 eps_zero) then
      f6_0_0 r1 r2
    else
    if (is_equal r1 #1 (ndec 2 2)) && (is_equal r2 #1 (ndec 2 2)) then
      f6_1_1 r1 r2
    else
    if (is_equal r1 (- #1) (ndec 2 2)) && (is_equal r2 (- #1) (ndec 2 2)) then
      f6_1_1 (- r1) (- r2)
    else
    if is_equal r1 #1 (ndec 1 3) then
      f6_1_r2 r1 r2
    else
    if is_equal r2 #1 (ndec 1 3) then
      f6_1_r2 r2 r1
    else
    if is_zero r1 eps_zero then
      f6_0_r2 r1 r2
    else
    if is_zero r2 eps_zero then
      f6_0_r2 r2 r1
    else
    if is_equal r1 r2 (ndec 1 4) then
      f6_r1_r2 r2 r1
    else
    let r12 := pow2 r1 in
    let r22 := pow2 r2 in
    let result := (r12 + r22 + r1 * r2 - r12 * r22) / ((r12 - #1) * (r22 - #1)) + pow5 r1 * nlog r12 / (pow2 (r12 -
      #1) * (r1 - r2)) - pow5 r2 * nlog r22 / ((r1 - r2) * pow2 (r22 - #1)) in
    #6 / #7 * result.

  (** source/himalaya/mh2_eft/ThresholdLoopFunctions.cpp:888-906 *)
  Definition f7_0_0 (r1 r2 : T) : T :=
    if (is_zero r1 (ndec 1 6)) && (is_zero r2 (ndec 1 6)) then
      #6
    else
    let '(r1, r2) := if nabs r1 >? nabs r2 then (r2, r1) else (r1, r2) in
    let r22 := pow2 r2 in
    let lr22 := nlog r22 in
    let res := #1 + (#1 + lr22) * r22 + r1 * ((#1 + lr22) * r2 + r1 * (#1 + lr22 + (#1 + #2 * lr22) * r22)) in
    #6 * res.

  (** source/himalaya/mh2_eft/ThresholdLoopFunctions.cpp:909-920 *)
  Definition f7_1_1 (r1 r2 : T) : T :=
    let d1 := r1 - #1 in
    let d2 := r2 - #1 in
    #1 + d2 * (#(-1) + d2 * (#3 / #5 + (- #3 / #10 + #9 * d2 / #70) * d2)) + d1 * (#(-1) + d2 * (#3 / #5
      + d2 * (- #3 / #10 + (#9 / #70 - #3 * d2 / #70) * d2)) + d1 * (#3 / #5 + d2 * (- #3 / #10 + d2 * (#9
      / #70 + (- #3 / #70 + d2 / #210) * d2)) + d1 * (- #3 / #10 + d2 * (#9 / #70 + d2 * (- #3 / #70 + (#1
      / #210 + d2 / #105) * d2)) + d1 * (#9 / #70 + d2 * (- #3 / #70 + d2 * (#1 / #210 + (#1 / #105 - d2 /
      #77) * d2)))))).

  (** source/himalaya/mh2_eft/ThresholdLoopFunctions.cpp:923-933 *)
  Definition f7_0_1 (r1 r2 : T) : T :=
    let d := r2 - #1 in
    let r12 := pow2 r1 in
    #3 + r1 * (#(-4) - #3 * r1 + r2) + d * (#(-2) + #4 * r12 + d * (#1 - #4 * r12 + d * (- ndec 4 1 + r1
      * (- ndec 4 1 + #18 * r1 / #5) + d * (ndec 1 1 + (ndec 5 1 - #31 * r1 / #10) * r1)))).

  (** source/himalaya/mh2_eft/ThresholdLoopFunctions.cpp:936-964 *)
  Definition f7_1_r2 (r1 r2 : T) : T :=
    if is_zero r2 (ndec 1 4) then
      f7_0_1 r2 r1
    else
    let d := r1 - #1 in
    let d2 := pow2 d in
    let d3 := d2 * d in
    let d4 := d3 * d in
    let y := r2 - #1 in
    let y2 := pow2 y in
    let y3 := y2 * y in
    let y4 := y3 * y in
    let y5 := y4 * y in
    let y6 := y5 * y in
    let y7 := y6 * y in
    let z := #1 + r2 in
    let z2 := pow2 z in
    let r22 := pow2 r2 in
    let lr22 := nlog r22 in
    (#(-3) + r2 * (#6 + r2 * (#6 + (#(-6) + #6 * lr22 - #3 * r2) * r2))) / (y3 * z2) + d * (#(-2) + r2 *
      (#5 + r2 * (#4 + r2 * (#(-4) + #6 * lr22 + (#(-2) - r2) * r2)))) / (y4 * z2) + d2 * (#(-1) + r2 *
      (#3 + r2 * (#3 + r2 * (#6 * lr22 + r2 * (#(-3) + (#(-3) + r2) * r2))))) / (y5 * z2) + d3 * (#(-2) +
      r2 * (#6 + r2 * (#18 + r2 * (#15 + #30 * lr22 + r2 * (#(-30) + r2 * (#(-18) + (#14 - #3 * r2) *
      r2)))))) / (#5 * y6 * z2) + d4 * (#(-1) + r22 * (#48 + r2 * (#42 + #60 * lr22 + r2 * (#(-90) + r2 *
      (#(-24) + r2 * (#40 + r2 * (#(-18) + #3 * r2))))))) / (#10 * y7 * z2).

  (** source/himalaya/mh2_eft/ThresholdLoopFunctions.cpp:967-981 *)
  Definition f7_0_r2 (r1 r2 : T) : T :=
    let r12 := pow2 r1 in
    let r22 := pow2 r2 in
    let lr22 := nlog r22 in
    let r12lr12 := xlogx r12 in
    #6 * (r22 * (#1 + (#(-1) + lr22) * r22) + r1 * (r2 * (- r12lr12 + r22 * (#1 + lr22 + #2 * r12lr12 +
      (#(-1) - r12lr12) * r22)) + r1 * (- r12lr12 + r22 * (#1 + lr22 + #2 * r12lr12 + (#(-1) - r12lr12) *
      r22) + r1 * (r1 * (lr22 + r22 * (#1 - r22)) + r2 * (lr22 + r22 * (#1 - r22)))))) / (r22 * pow2
      (#(-1) + r22)).

  (** source/himalaya/mh2_eft/ThresholdLoopFunctions.cpp:984-1008 *)
  Definition f7_r1_r2 (r1 r2 : T) : T :=
    let d := r1 - r2 in
    let d2 := pow2 d in
    let d3 := d2 * d in
    let d4 := d3 * d in
    let r22 := pow2 r2 in
    let y := r22 - #1 in
    let y2 := pow2 y in
    let y3 := y2 * y in
    let y4 := y3 * y in
    let y5 := y4 * y in
    let y6 := y5 * y in
    let y7 := y6 * y in
    let lr22 := nlog r22 in
    let res := (#(-1) + r22 * (#(-2) - #3 * lr22 + (#3 - lr22) * r22)) / y3 + d * r2 * (#8 + #3 * lr22 + r22 *
      (#(-4) + #8 * lr22 + (#(-4) + lr22) * r22)) / y4 + d2 * (#(-14) - #3 * lr22 + r22 * (#(-54) - #45 *
      lr22 + r22 * (#54 - #45 * lr22 + (#14 - #3 * lr22) * r22))) / (#3 * y5) + d3 * (#3 + r22 * (#166 +
      #60 * lr22 + r22 * (#108 + #270 * lr22 + r22 * (#(-246) + #144 * lr22 + (#(-31) + #6 * lr22) *
      r22)))) / (#6 * r2 * y6) + d4 * (#3 + r22 * (#(-325) - #60 * lr22 + r22 * (#(-2570) - #1470 * lr22 +
      r22 * (#510 - #3150 * lr22 + r22 * (#2215 - #1050 * lr22 + (#167 - #30 * lr22) * r22))))) / (#30 *
      r22 * y7) in
    #6 * res.

  (** source/himalaya/mh2_eft/ThresholdLoopFunctions.cpp:1010-1056 *)
  Definition f7 (r1 r2 : T) : T :=
    let eps_zero := ndec 1 4 in
    let eps_one := ndec 2 2 in
    if (is_zero r1 eps_zero) && (is_zero r2 eps_zero) then
      f7_0_0 r1 r2
    else
    if (is_equal r1 #1 eps_one) && (is_equal r2 #1 eps_one) then
      f7_1_1 r1 r2
    else
    if (is_equal r1 (- #1) eps_one) && (is_equal r2 (- #1) eps_one) then
      f7_1_1 (- r1) (- r2)
    else
    if is_equal r1 #1 eps_one then
      f7_1_r2 r1 r2
    else
    if is_equal r2 #1 eps_one then
      f7_1_r2 r2 r1
    else
    if is_zero r1 eps_zero then
      f7_0_r2 r1 r2
    else
    if is_zero r2 eps_zero then
      f7_0_r2 r2 r1
    else
    if is_equal r1 r2 (ndec 1 4) then
      f7_r1_r2 r2 r1
    else
    let r12 := pow2 r1 in
    let r22 := pow2 r2 in
    let result := (#1 + r1 * r2) / ((r12 - #1) * (r22 - #1)) + pow3 r1 * nlog r12 / (pow2 (r12 - #1) * (r1 - r2)) -
      pow3 r2 * nlog r22 / ((r1 - r2) * pow2 (r22 - #1)) in
    #6 * result.

  (** source/himalaya/mh2_eft/ThresholdLoopFunctions.cpp:1059-1086 *)
  Definition f8_0_0 (r1 r2 : T) : T :=
    if (is_zero r1 (ndec 1 10)) && (is_zero r2 (ndec 1 10)) then
      #0
    else
    let '(r1, r2) := if nabs r1 >? nabs r2 then (r2, r1) else (r1, r2) in
    let r22 := pow2 r2 in
    let lr22 := logx r22 in
    let r2lr22 := r2 * lr22 in
    let r22lr22 := r2 * r2lr22 in
    if (is_zero r1 (ndec 1 8)) && (is_zero r2 (ndec 1 8)) then
      #3 * r2 / #2 + r1 * (ndec 15 1 + #3 * r22 / #2 + #3 * r22lr22 / #2 + r1 * (#3 * r2 / #2 + #3 *
      r2lr22 / #2))
    else
    r2 * (ndec 15 1 + #3 * r22 / #2 + #3 * r22lr22 / #2) + r1 * (ndec 15 1 + #3 * r22 / #2 + #3 *
      r22lr22 / #2 + r1 * (r2 * (ndec 15 1 + #3 * r22 / #2 + #3 * r22lr22) + r1 * (ndec 15 1 + #3 * lr22 /
      #2 + #3 * r22 / #2 + #3 * r22lr22) + #3 * r2lr22 / #2)).

  (** source/himalaya/mh2_eft/ThresholdLoopFunctions.cpp:1089-1101 *)
  Definition f8_1_1 (r1 r2 : T) : T :=
    let d1 := r1 - #1 in
    let d2 := r2 - #1 in
    let d22 := pow2 d2 in
    #1 + d22 * (- #1 / #10 + (#3 / #40 - #3 * d2 / #70) * d2) + d1 * (d2 * (- #1 / #10 + d2 * (#3 / #40
      + (- #3 / #70 + #3 * d2 / #140) * d2)) + d1 * (- #1 / #10 + d2 * (#3 / #40 + d2 * (- #3 / #70 + (#3
      / #140 - d2 / #105) * d2)) + d1 * (#3 / #40 + d2 * (- #3 / #70 + d2 * (#3 / #140 + (- #1 / #105 + d2
      / #280) * d2)) + d1 * (- #3 / #70 + d2 * (#3 / #140 + d2 * (- #1 / #105 + (#1 / #280 - d2 / #1155) *
      d2)))))).

  (** source/himalaya/mh2_eft/ThresholdLoopFunctions.cpp:1104-1113 *)
  Definition f8_0_1 (r1 r2 : T) : T :=
    let r12 := pow2 r1 in
    let d2 := r2 - #1 in
    ndec 75 2 + r1 * (ndec 75 2 + r1 * (- ndec 75 2 + r1 * (- ndec 175 2 + r2))) + d2 * (ndec 25 2 + (-
      ndec 5 1 + r1 / #4) * r1 + d2 * (- ndec 25 2 + r1 * (ndec 25 2 - r12) + d2 * (ndec 15 2 + r1 * (-
      ndec 1 1 + (- ndec 1 1 + #9 * r1 / #10) * r1)))).

  (** source/himalaya/mh2_eft/ThresholdLoopFunctions.cpp:1116-1144 *)
  Definition f8_1_r2 (r1 r2 : T) : T :=
    if is_zero r2 (ndec 1 4) then
      f8_0_1 r2 r1
    else
    let d1 := r1 - #1 in
    let d12 := pow2 d1 in
    let d13 := d12 * d1 in
    let d14 := d13 * d1 in
    let y := #1 + r2 in
    let y2 := pow2 y in
    let d2 := r2 - #1 in
    let d22 := pow2 d2 in
    let d23 := d22 * d2 in
    let d24 := d23 * d2 in
    let d25 := d24 * d2 in
    let d26 := d25 * d2 in
    let d27 := d26 * d2 in
    let r22 := pow2 r2 in
    let lr22 := nlog r22 in
    (#(-3) + r22 * (#12 + (#(-9) + #6 * lr22) * r22)) / (#4 * d23 * y2) + d1 * (#1 + r2 * (#(-4) + r2 *
      (#4 + r2 * (#8 + (#(-5) + #6 * lr22 - #4 * r2) * r2)))) / (#4 * d24 * y2) + d12 * (#1 + r2 * (#(-4)
      + r2 * (#4 + r2 * (#8 + (#(-5) + #6 * lr22 - #4 * r2) * r2)))) / (#4 * d25 * y2) + d13 * (#3 + r2 *
      (#(-14) + r2 * (#18 + r2 * (#30 + r2 * (#(-15) + #30 * lr22 + r2 * (#(-18) + r2 * (#(-6) + #2 *
      r2))))))) / (#20 * d26 * y2) + d14 * (#3 + r2 * (#(-16) + r2 * (#24 + r2 * (#48 + r2 * (#60 * lr22 +
      r2 * (#(-48) + r2 * (#(-24) + (#16 - #3 * r2) * r2))))))) / (#40 * d27 * y2).

  (** source/himalaya/mh2_eft/ThresholdLoopFunctions.cpp:1147-1159 *)
  Definition f8_0_r2 (r1 r2 : T) : T :=
    let r12 := pow2 r1 in
    let r22 := pow2 r2 in
    let lr22 := nlog r22 in
    let r12lr12 := xlogx r12 in
    (r22 * (#3 + (#(-3) + #3 * lr22) * r22) + r1 * (r2 * (#3 + (#(-3) + #3 * lr22) * r22) + r1 * (#(-3)
      * r12lr12 + r22 * (#3 + #3 * lr22 + #6 * r12lr12 + (#(-3) - #3 * r12lr12) * r22) + r1 * (r2 * (#3 +
      #3 * lr22 - #3 * r22) + r1 * (#3 * lr22 + r22 * (#3 - #3 * r22)))))) / (#2 * r2 * pow2 (#(-1) +
      r22)).

  (** source/himalaya/mh2_eft/ThresholdLoopFunctions.cpp:1162-1184 *)
  Definition f8_r1_r2 (r1 r2 : T) : T :=
    let d := r1 - r2 in
    let d2 := pow2 d in
    let d3 := d2 * d in
    let d4 := d3 * d in
    let r22 := pow2 r2 in
    let y := r22 - #1 in
    let y2 := pow2 y in
    let y3 := y2 * y in
    let y4 := y3 * y in
    let y5 := y4 * y in
    let y6 := y5 * y in
    let y7 := y6 * y in
    let lr22 := nlog r22 in
    r2 * (#(-3) + r22 * (#(-6) * lr22 + #3 * r22)) / y3 + d * (#3 + r22 * (#27 + #18 * lr22 + r22 *
      (#(-27) + #18 * lr22 - #3 * r22))) / (#2 * y4) + d2 * r2 * (#(-19) - #6 * lr22 + r22 * (#(-9) - #30
      * lr22 + r22 * (#27 - #12 * lr22 + r22))) / y5 + d3 * (#31 + #6 * lr22 + r22 * (#246 + #144 * lr22 +
      r22 * (#(-108) + #270 * lr22 + r22 * (#(-166) + #60 * lr22 - #3 * r22)))) / (#4 * y6) + d4 * (#(-3)
      + r22 * (#(-285) - #90 * lr22 + r22 * (#(-570) - #630 * lr22 + r22 * (#570 - #630 * lr22 + r22 *
      (#285 - #90 * lr22 + #3 * r22))))) / (#5 * r2 * y7).

  (** source/himalaya/mh2_eft/ThresholdLoopFunctions.cpp:1186-1232 *)
  Definition f8 (r1 r2 : T) : T :=
    let eps_zero := ndec 5 5 in
    let eps_one := ndec 1 2 in
    if (is_zero r1 eps_zero) && (is_zero r2 eps_zero) then
      f8_0_0 r1 r2
    else
    if (is_equal r1 #1 eps_one) && (is_equal r2 #1 eps_one) then
      f8_1_1 r1 r2
    else
    if (is_equal r1 (- #1) eps_one) && (is_equal r2 (- #1) eps_one) then
      - #1
    else
    if is_equal r1 #1 eps_one then
      f8_1_r2 r1 r2
    else
    if is_equal r2 #1 eps_one then
      f8_1_r2 r2 r1
    else
    if is_zero r1 eps_zero then
      f8_0_r2 r1 r2
    else
    if is_zero r2 eps_zero then
      f8_0_r2 r2 r1
    else
    if is_equal r1 r2 (ndec 1 4) then
      f8_r1_r2 r2 r1
    else
    let r12 := pow2 r1 in
    let r22 := pow2 r2 in
    let result := (r1 + r2) / ((r12 - #1) * (r22 - #1)) + pow4 r1 * nlog r12 / (pow2 (r12 - #1) * (r1 - r2)) - pow4 r2
      * nlog r22 / ((r1 - r2) * pow2 (r22 - #1)) in
    ndec 15 1 * result.

  (** source/himalaya/mh2_eft/ThresholdLoopFunctions.cpp:1235-1238 *)
  Definition delta_xyz (x y z : T) : T :=
    pow2 x + pow2 y + pow2 z - #2 * (x * y + x * z + y * z).

  (** source/himalaya/mh2_eft/ThresholdLoopFunctions.cpp:1241-1242: namespace constants eps and qdrt_eps *)
  Definition phi_eps : T := ndec 10 0 * eps_default.
  Definition qdrt_eps : T := npow phi_eps (ndec 25 2).

  (** source/himalaya/mh2_eft/ThresholdLoopFunctions.cpp:65-70 (the three reference arguments become a triple) *)
  Definition sort3 (x y z : T) : T * T * T :=
    let '(x, y) := if x >? y then (y, x) else (x, y) in
    let '(y, z) := if y >? z then (z, y) else (y, z) in
    let '(x, y) := if x >? y then (y, x) else (x, y) in
    (x, y, z).

  (** source/himalaya/mh2_eft/ThresholdLoopFunctions.cpp:1243-1248 *)
  Definition lambda_2 (u v : T) : T :=
    pow2 (#1 - u - v) - #4 * u * v.

  (** source/himalaya/mh2_eft/ThresholdLoopFunctions.cpp:1249-1254 *)
  Definition l00 (u v : T) : T :=
    v * (#1 + u * (#1 + u * (#1 + u)) + v * (u * (#1 + u * (#3 + #6 * u)) + u * (#1 + u * (#6 + #20 *
      u)) * v)).

  (** source/himalaya/mh2_eft/ThresholdLoopFunctions.cpp:1255-1263 *)
  Definition l0v (u v : T) : T :=
    let a := #1 - v in
    let a2 := a * a in
    let a3 := a2 * a in
    u * (ndec 5 1 * (#1 + (#1 + v) / a) + u * (v + u * v * (#1 + v) / a2) / a3).

  (** source/himalaya/mh2_eft/ThresholdLoopFunctions.cpp:1264-1272 *)
  Definition lv0 (u v : T) : T :=
    let a := #1 - v in
    let a2 := a * a in
    let a3 := a2 * a in
    v + u * (ndec 5 1 * (#(-1) + (#1 + v) / a) + u * (v + u * v * (#1 + v) / a2) / a3).

  (** source/himalaya/mh2_eft/ThresholdLoopFunctions.cpp:1273-1284 *)
  Definition luv (lambda u v : T) : T * T :=
    if v <? qdrt_eps then
      (l00 u v, l00 v u)
    else
    if u <? qdrt_eps then
      (l0v u v, lv0 u v)
    else
    (ndec 5 1 * (#1 - lambda + u - v), ndec 5 1 * (#1 - lambda - u + v)).

  (** source/himalaya/mh2_eft/ThresholdLoopFunctions.cpp:1285-1308 *)
  Definition phi_pos (u v : T) : T :=
    if (is_equal u #1 phi_eps) && (is_equal v #1 phi_eps) then
      ndec 2343907238689459 15
    else
    let pi23 := ndec 32898681336964529 16 in
    let lambda := nsqrt (lambda_2 u v) in
    if is_equal u v phi_eps then
      let x := if u <? qdrt_eps then u * (#1 + u * (#1 + u * (#2 + #5 * u))) else ndec 5 1 * (#1 - lambda) in
      (- pow2 (nlog u) + #2 * pow2 (nlog x) - #4 * dilog x + pi23) / lambda
    else
    let x := #0 in
    let y := #0 in
    let '(x, y) := luv lambda u v in
    (- nlog u * nlog v + #2 * nlog x * nlog y - #2 * dilog x - #2 * dilog y + pi23) / lambda.

  (** source/himalaya/mh2_eft/ThresholdLoopFunctions.cpp:1309-1314 *)
  Definition cl2acos (x : T) : T :=
    clausen_2 (#2 * nacos x).

  (** source/himalaya/mh2_eft/ThresholdLoopFunctions.cpp:1315-1320 *)
  Definition phi_neg_1v (v : T) : T :=
    #2 * (cl2acos (#1 - ndec 5 1 * v) + #2 * cl2acos (ndec 5 1 * nsqrt v)).

  (** source/himalaya/mh2_eft/ThresholdLoopFunctions.cpp:1321-1350 *)
  Definition phi_neg (u v : T) : T :=
    if (is_equal u #1 phi_eps) && (is_equal v #1 phi_eps) then
      ndec 2343907238689459 15
    else
    let lambda := nsqrt (- lambda_2 u v) in
    if is_equal u v phi_eps then
      #4 * clausen_2 (#2 * nasin (nsqrt (ndec 25 2 / u))) / lambda
    else
    if is_equal u #1 phi_eps then
      phi_neg_1v v / lambda
    else
    if is_equal v #1 phi_eps then
      phi_neg_1v u / lambda
    else
    let sqrtu := nsqrt u in
    let sqrtv := nsqrt v in
    #2 * (cl2acos (ndec 5 1 * (#1 + u - v) / sqrtu) + cl2acos (ndec 5 1 * (#1 - u + v) / sqrtv) +
      cl2acos (ndec 5 1 * (#(-1) + u + v) / (sqrtu * sqrtv))) / lambda.

  (** source/himalaya/mh2_eft/ThresholdLoopFunctions.cpp:1351-1383 *)
  Definition phi_uv (u v : T) : T :=
    let lambda := lambda_2 u v in
    if is_zero lambda phi_eps then
      #0
    else
    if lambda >? #0 then
      if (u <=? #1) && (v <=? #1) then
        phi_pos u v
      else
      let vou := v / u in
      if (u >=? #1) && (vou <=? #1) then
        let oou := #1 / u in
        phi_pos oou vou * oou
      else
      let oov := #1 / v in
      phi_pos oov (#1 / vou) * oov
    else
    phi_neg u v.

  (** source/himalaya/mh2_eft/ThresholdLoopFunctions.cpp:1399-1404 *)
  Definition phi_xyz (x y z : T) : T :=
    let '(x, y, z) := sort3 x y z in
    let u := x / z in
    let v := y / z in
    phi_uv u v * z * lambda_2 u v / #2.

End LoopFun.
