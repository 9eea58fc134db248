(** * Class H5
    GENERATED by tools/gen_hier.py from source/himalaya/hierarchies/H5.cpp (expressions are transcribed operator by operator;
    no subexpression is an integer division, and integer subexpressions stay below 2^31 when the flags are 0 or 1). *)
From Coq Require Import ZArith List.
From Verif Require Import Num HierExpr HierCalc.
Local Open Scope hx_scope.

(** H5.cpp:74-291 *)
Definition H5_getS1 : expr :=
  EPow P2 (EVar vMt) * EPow P2 (EVar vMuSUSY) * (#243 * EVar voneLoopFlag * EPow P2 (EVar vs2t) * (#2 - EVar vlmMst1 +
   EVar vlmMst2 - #2 * (EVar vlmMst1 - EVar vlmMst2) * EPow P2 (EVar vMst1) * (EPow P2 (EVar vMst1) + EPow P2 (EVar
   vMst2)) / EPow P4 (EVar vMst2)) + EVar vAl4p * (#324 * EVar vs2t * EVar vtwoLoopFlag * (#8 * EVar vDmglst1 * EVar
   vMt * (EVar vMst1 * (#12 - #2 * EVar vlmMst1 + #6 * EVar vlmMst2 - EPow P2 (EVar vlmMst1) + EPow P2 (EVar vlmMst2))
   * EPow P2 (EVar vMst2) + (#10 + #12 * EVar vlmMst2 + #4 * EVar vlmMst1 * (- #2 + #3 * EVar vlmMst2) - #9 * EPow P2
   (EVar vlmMst1) - #3 * EPow P2 (EVar vlmMst2)) * EPow P3 (EVar vMst1)) + #8 * EVar vMst1 * EVar vMt * (EVar vMst1 *
   (#8 - #2 * EVar vlmMst1 + #6 * EVar vlmMst2 - EPow P2 (EVar vlmMst1) + EPow P2 (EVar vlmMst2)) * EPow P2 (EVar
   vMst2) + (#6 + #4 * EVar vlmMst1 * (- #3 + EVar vlmMst2) + #16 * EVar vlmMst2 - #5 * EPow P2 (EVar vlmMst1) + EPow
   P2 (EVar vlmMst2)) * EPow P3 (EVar vMst1)) - #8 * EVar vDmglst1 * EVar vs2t * ((- (EVar vlmMst2 * (#1 + EVar
   vlmMst2)) + EPow P2 (EVar vlmMst1)) * EPow P2 (EVar vMst1) * EPow P2 (EVar vMst2) + (#2 + #3 * EVar vlmMst1 - #3 *
   EVar vlmMst2 + EPow P2 (EVar vlmMst1) - EPow P2 (EVar vlmMst2)) * EPow P4 (EVar vMst1) - (- #1 + EVar vlmMst1) *
   EPow P4 (EVar vMst2)) + EVar vMst1 * EVar vs2t * (#4 * (#2 + #11 * EVar vlmMst2 - #2 * EVar vlmMst1 * (#5 + #4 *
   EVar vlmMst2) + EPow P2 (EVar vlmMst1) + #7 * EPow P2 (EVar vlmMst2)) * EPow P2 (EVar vMst1) * EPow P2 (EVar vMst2)
   + (#1 + #46 * EVar vlmMst2 - #2 * EVar vlmMst1 * (#23 + #32 * EVar vlmMst2) + #20 * EPow P2 (EVar vlmMst1) + #44 *
   EPow P2 (EVar vlmMst2)) * EPow P4 (EVar vMst1) + #4 * (#7 + #7 * EVar vlmMst2 - #2 * EVar vlmMst1 * (#1 + EVar
   vlmMst2) + #2 * EPow P2 (EVar vlmMst2)) * EPow P4 (EVar vMst2))) / EVar vMst1 + #108 * EConst Cz2 * (#12 * EVar
   vs2t * EVar vtwoLoopFlag * (#4 * EVar vMst1 * EVar vMt * EPow P2 (EVar vMst2) + #4 * EVar vMt * EPow P3 (EVar
   vMst1) + #4 * EVar vDmglst1 * (- #3 * EVar vMt * EPow P2 (EVar vMst1) + EVar vMt * EPow P2 (EVar vMst2) + EVar
   vMst1 * EVar vs2t * EPow P2 (EVar vMst2) + EVar vs2t * EPow P3 (EVar vMst1)) - EVar vs2t * EPow P4 (EVar vMst2)) +
   EVar vxDmglst1 * EPow P2 (EVar vDmglst1) * (#24 * EVar vs2t * EVar vtwoLoopFlag * (- #12 * EVar vMst1 * EVar vMt +
   EVar vs2t * EPow P2 (EVar vMst1) + EVar vs2t * EPow P2 (EVar vMst2)) + EVar vAl4p * EVar vthreeLoopFlag * (#32 *
   (#55 + #16 * EVar vlmMst2) * EPow P2 (EVar vMt) + EPow P2 (EVar vs2t) * (- ((#2043 + #360 * EVar vlmMsq + #1196 *
   EVar vlmMst1 - #1900 * EVar vlmMst2) * EPow P2 (EVar vMst1)) + #4 * (#390 - #90 * EVar vlmMsq - #139 * EVar vlmMst1
   + #315 * EVar vlmMst2) * EPow P2 (EVar vMst2) + #198 * EPow P4 (EVar vMst2) / EPow P2 (EVar vMst1)) + EVar vs2t *
   (#16 * (- #1187 + #360 * EVar vlmMsq + #171 * EVar vlmMst1 - #747 * EVar vlmMst2) * EVar vMst1 * EVar vMt + #150 *
   EPow P2 (EVar vMst1) * EPow P2 (EVar vMst2) * (- #8 * EVar vMst1 * EVar vMt + EVar vs2t * EPow P2 (EVar vMst2)) /
   EPow P4 (EVar vMsq) + #60 * (- #16 * EVar vMst1 * EVar vMt * EPow P2 (EVar vMst2) - #18 * EVar vs2t * EPow P2 (EVar
   vMst1) * EPow P2 (EVar vMst2) + #112 * EVar vMt * EPow P3 (EVar vMst1) + EVar vs2t * EPow P4 (EVar vMst2)) / EPow
   P2 (EVar vMsq))))) + #3 * EVar vxDmglst1 * EPow P2 (EVar vDmglst1) * (- #432 * EVar vs2t * EVar vtwoLoopFlag * EPow
   P4 (EVar vMsq) * (- #8 * EVar vMst1 * EVar vMt * EPow P2 (EVar vMst2) - EVar vs2t * (#4 + EVar vlmMst2 - EPow P2
   (EVar vlmMst1) + EPow P2 (EVar vlmMst2)) * EPow P2 (EVar vMst1) * EPow P2 (EVar vMst2) + #4 * EVar vMt * (#4 + #7 *
   EVar vlmMst2 - EVar vlmMst1 * (#7 + #6 * EVar vlmMst2) + #3 * (EPow P2 (EVar vlmMst1) + EPow P2 (EVar vlmMst2))) *
   EPow P3 (EVar vMst1) + EVar vs2t * (- #4 + #9 * EVar vlmMst1 - #9 * EVar vlmMst2 + EPow P2 (EVar vlmMst1) - EPow P2
   (EVar vlmMst2)) * EPow P4 (EVar vMst1) - (- #2 + EVar vlmMst1) * EVar vs2t * EPow P4 (EVar vMst2)) + EVar vAl4p *
   EVar vthreeLoopFlag * (#64 * EPow P2 (EVar vMst1) * EPow P2 (EVar vMt) * (#5483 - #18 * EConst CB4 - #9 * EConst
   CDN + #418 * EVar vlmMst1 + #102 * EPow P2 (EVar vlmMst1) + #2 * EVar vlmMst2 * (#739 - #42 * EVar vlmMst1 + #9 *
   EPow P2 (EVar vlmMst1)) + #54 * (#5 + EVar vlmMst1) * EPow P2 (EVar vlmMst2) + #24 * EVar vlmMt * (#17 + #17 * EVar
   vlmMst2 - EVar vlmMst1 * (#17 + #6 * EVar vlmMst2) + #3 * EPow P2 (EVar vlmMst1) + #3 * EPow P2 (EVar vlmMst2)) -
   #78 * EPow P3 (EVar vlmMst1) + #6 * EPow P3 (EVar vlmMst2)) * EPow P4 (EVar vMsq) - #48 * EVar vMst1 * EVar vMt *
   EVar vs2t * (((#5875 + #1020 * EVar vlmMsq - #478 * EVar vlmMst1 - #610 * EVar vlmMst2 - #576 * EPow P2 (EVar
   vlmMst1)) * EPow P2 (EVar vMst2) + #2 * EPow P2 (EVar vMst1) * (#6129 + #684 * EConst CB4 - #18 * EConst CDN -
   #3630 * EVar vlmMsq + #6 * (- #251 + #600 * EVar vlmMsq) * EVar vlmMst1 + EVar vlmMst2 * (#6914 - #1122 * EVar
   vlmMst1 + #720 * EVar vlmMsq * (- #5 + #3 * EVar vlmMst1) - #1179 * EPow P2 (EVar vlmMst1)) - #3 * (#997 + #360 *
   EVar vlmMsq) * EPow P2 (EVar vlmMst1) - #9 * (- #393 + #120 * EVar vlmMsq + #125 * EVar vlmMst1) * EPow P2 (EVar
   vlmMst2) + #1353 * EPow P3 (EVar vlmMst1) + #951 * EPow P3 (EVar vlmMst2))) * EPow P4 (EVar vMsq) + #5 * (#983 -
   #159 * EVar vlmMst1 + #180 * EVar vlmMsq * (- #2 + EVar vlmMst1 - EVar vlmMst2) + #519 * EVar vlmMst2 - #90 * EPow
   P2 (EVar vlmMst1) + #90 * EPow P2 (EVar vlmMst2)) * EPow P2 (EVar vMst2) * EPow P4 (EVar vMst1) + #20 * EPow P2
   (EVar vMsq) * ((#311 - #66 * EVar vlmMst1 + #36 * EVar vlmMsq * (- #2 + EVar vlmMst1 - EVar vlmMst2) + #138 * EVar
   vlmMst2 - #18 * EPow P2 (EVar vlmMst1) + #18 * EPow P2 (EVar vlmMst2)) * EPow P2 (EVar vMst1) * EPow P2 (EVar
   vMst2) + (#29 - #6 * EVar vlmMst1 + #36 * EVar vlmMsq * (- #2 + #3 * EVar vlmMst1 - #3 * EVar vlmMst2) + #78 * EVar
   vlmMst2 + #360 * EVar vlmMst1 * EVar vlmMst2 - #234 * EPow P2 (EVar vlmMst1) - #126 * EPow P2 (EVar vlmMst2)) *
   EPow P4 (EVar vMst1)) - #90 * EPow P2 (EVar vMst1) * EPow P4 (EVar vMst2)) + #3 * EPow P2 (EVar vs2t) * ((#40 *
   (#160 - #213 * EVar vlmMst1 + #18 * EVar vlmMsq * (#8 + EVar vlmMst1 - EVar vlmMst2) + #69 * EVar vlmMst2 - #9 *
   EPow P2 (EVar vlmMst1) + #9 * EPow P2 (EVar vlmMst2)) * EPow P2 (EVar vMsq) * EPow P2 (EVar vMst1) + #2 * (#6415 +
   #60 * EVar vlmMsq * (#37 - #18 * EVar vlmMst1) - #1314 * EVar vlmMst2 + #10 * EVar vlmMst1 * (- #97 + #66 * EVar
   vlmMst2) + #540 * EPow P2 (EVar vlmMsq) - #234 * EPow P2 (EVar vlmMst1) + #54 * EPow P2 (EVar vlmMst2)) * EPow P4
   (EVar vMsq)) * EPow P4 (EVar vMst2) + EPow P4 (EVar vMst1) * (#216 * (EDec 12929128086419752 14 - #52 * EConst CB4
   / #9 - #22 * EConst CDN / #9 - #380 * EVar vlmMsq / #3 - EVar vlmMst1 * (EDec 15047685185185185 14 - #160 * EVar
   vlmMsq + #10 * EPow P2 (EVar vlmMsq)) + #5 * (- #57 + #8 * EVar vlmMsq) * EPow P2 (EVar vlmMst1) / #4 + EVar
   vlmMst2 * (EDec 3246990740740741 13 - #160 * EVar vlmMsq - #3383 * EVar vlmMst1 / #18 + #10 * EPow P2 (EVar vlmMsq)
   + #833 * EPow P2 (EVar vlmMst1) / #9) - (- #8947 + #360 * EVar vlmMsq + #4868 * EVar vlmMst1) * EPow P2 (EVar
   vlmMst2) / #36 - #721 * EPow P3 (EVar vlmMst1) / #27 + #1873 * EPow P3 (EVar vlmMst2) / #27) * EPow P4 (EVar vMsq)
   + (#10585 - #8070 * EVar vlmMst1 + #5370 * EVar vlmMst2 - #900 * EPow P2 (EVar vlmMst1) + #900 * (EVar vlmMsq * (#3
   + #2 * EVar vlmMst1 - #2 * EVar vlmMst2) + EPow P2 (EVar vlmMst2))) * EPow P4 (EVar vMst2)) + EPow P2 (EVar vMst1)
   * (#8 * EPow P2 (EVar vMsq) * EPow P2 (EVar vMst2) * (- #90 * (#25 - #11 * EVar vlmMst1 + #2 * EVar vlmMsq * (- #5
   + #9 * EVar vlmMst1 - #9 * EVar vlmMst2) + #21 * EVar vlmMst2 - #9 * EPow P2 (EVar vlmMst1) + #9 * EPow P2 (EVar
   vlmMst2)) * EPow P2 (EVar vMst1) + EPow P2 (EVar vMsq) * (#265 + #36 * EConst CB4 + #30 * EConst CDN - #1935 * EVar
   vlmMsq + EVar vlmMst1 * (#2178 + #270 * EVar vlmMsq - #270 * EPow P2 (EVar vlmMsq)) + #135 * EPow P2 (EVar vlmMsq)
   + #3 * EVar vlmMst2 * (#353 - #180 * EVar vlmMsq + #86 * EVar vlmMst1 + #90 * EPow P2 (EVar vlmMsq) - #79 * EPow P2
   (EVar vlmMst1)) + #30 * (- #13 + #9 * EVar vlmMsq) * EPow P2 (EVar vlmMst1) - #3 * (- #372 + #90 * EVar vlmMsq +
   #49 * EVar vlmMst1) * EPow P2 (EVar vlmMst2) - #65 * EPow P3 (EVar vlmMst1) + #449 * EPow P3 (EVar vlmMst2))) - #90
   * EPow P6 (EVar vMst2))))) / (EPow P2 (EVar vMst1) * EPow P4 (EVar vMsq))) / EPow P4 (EVar vMst2) + #2 * EVar
   vthreeLoopFlag * EPow P2 (EVar vAl4p) * (#972 * EPow P2 (EVar vs2t) * (EDec 8361265432098766 14 + #4 * EConst CB4 -
   #4 * EConst CDN / #9 - #185 * EVar vlmMsq / #9 + #25 * EPow P2 (EVar vlmMsq) / #3 - EVar vlmMst1 * (#3781 - #300 *
   EVar vlmMsq + #180 * EPow P2 (EVar vlmMsq)) / #108 + EVar vlmMst2 * (#14065 - #3498 * EVar vlmMst1 + #60 * EVar
   vlmMsq * (- #35 + #12 * EVar vlmMst1) + #180 * EPow P2 (EVar vlmMsq) - #18 * EPow P2 (EVar vlmMst1)) / #108 + (EDec
   6361111111111111 15 - #5 * EVar vlmMsq / #3) * EPow P2 (EVar vlmMst1) - (- #2193 + #180 * EVar vlmMsq + #442 * EVar
   vlmMst1) * EPow P2 (EVar vlmMst2) / #36 + EVar vDmglst1 * ((#7 - #2 * EVar vlmMst1 - #60 * EVar vlmMsq * (- #5 + #6
   * EVar vlmMst1) - #226 * EVar vlmMst2 + #220 * EVar vlmMst1 * EVar vlmMst2 + #180 * EPow P2 (EVar vlmMsq) + #178 *
   EPow P2 (EVar vlmMst1) + #18 * EPow P2 (EVar vlmMst2)) / (#18 * EVar vMst1) + #10 * EVar vMst1 * (#82 - #93 * EVar
   vlmMst1 + #6 * EVar vlmMsq * (#4 + #3 * EVar vlmMst1 - #3 * EVar vlmMst2) + #69 * EVar vlmMst2 - #9 * EPow P2 (EVar
   vlmMst1) + #9 * EPow P2 (EVar vlmMst2)) / (#27 * EPow P2 (EVar vMsq))) + (#1 - #2 * EVar vlmMst2) * EPow P2 (EVar
   vMst2) / (#3 * EPow P2 (EVar vMst1)) + #11 * EPow P3 (EVar vlmMst1) / #18 + #71 * EPow P3 (EVar vlmMst2) / #6 +
   EVar vMst1 * (- (EVar vMst1 * (EDec 26575942386831276 15 - #76 * EConst CB4 / #9 + #2 * EConst CDN / #9 + #35 *
   EVar vlmMsq / #3 - #5 * EPow P2 (EVar vlmMsq) + EVar vlmMst1 * (EDec 2242274074074074 13 - #380 * EVar vlmMsq / #9
   + #40 * EPow P2 (EVar vlmMsq) / #3) - #149 * EPow P2 (EVar vlmMst1) / #90 - EVar vlmMst2 * (#372457 - #242670 *
   EVar vlmMst1 + #1500 * EVar vlmMsq * (- #47 + #24 * EVar vlmMst1) + #18000 * EPow P2 (EVar vlmMsq) + #17700 * EPow
   P2 (EVar vlmMst1)) / #1350 + (- #17709 + #2400 * EVar vlmMsq + #6940 * EVar vlmMst1) * EPow P2 (EVar vlmMst2) / #90
   + #8 * EPow P3 (EVar vlmMst1) / #27 - #1736 * EPow P3 (EVar vlmMst2) / #27)) + #2 * EVar vDmglst1 * (#586 + #36 *
   EConst CB4 + #30 * EConst CDN - #495 * EVar vlmMsq + #135 * EPow P2 (EVar vlmMsq) - #6 * EVar vlmMst1 * (- #73 -
   #45 * EVar vlmMsq + #45 * EPow P2 (EVar vlmMsq)) + #3 * EVar vlmMst2 * (#229 - #180 * EVar vlmMsq + #86 * EVar
   vlmMst1 + #90 * EPow P2 (EVar vlmMsq) - #79 * EPow P2 (EVar vlmMst1)) + #18 * (- #43 + #15 * EVar vlmMsq) * EPow P2
   (EVar vlmMst1) - #3 * (- #372 + #90 * EVar vlmMsq + #49 * EVar vlmMst1) * EPow P2 (EVar vlmMst2) - #65 * EPow P3
   (EVar vlmMst1) + #449 * EPow P3 (EVar vlmMst2)) / #27) / EPow P2 (EVar vMst2) - (EVar vMst1 * (EDec
   2656519022158834 13 - #76 * EConst CB4 / #9 + #2 * EConst CDN / #9 - #25 * EVar vlmMsq / #2 + EVar vlmMst1 * (EDec
   42637458616780043 14 - #605 * EVar vlmMsq / #9 + #40 * EPow P2 (EVar vlmMsq) / #3) - (EDec 6624060846560846 14 -
   #40 * EVar vlmMsq / #3) * EPow P2 (EVar vlmMst1) - EVar vlmMst2 * (EDec 4117079195011338 13 - #1386139 * EVar
   vlmMst1 / #3780 + #5 * EVar vlmMsq * (- #121 + #96 * EVar vlmMst1) / #9 + #40 * EPow P2 (EVar vlmMsq) / #3 + #298 *
   EPow P2 (EVar vlmMst1) / #3) - (EDec 2986850529100529 13 - #40 * EVar vlmMsq - #2174 * EVar vlmMst1 / #9) * EPow P2
   (EVar vlmMst2) + #80 * EPow P3 (EVar vlmMst1) / #27 - #3920 * EPow P3 (EVar vlmMst2) / #27) + EVar vDmglst1 * (EDec
   11249099794238683 14 - #8 * EConst CB4 / #3 - #20 * EConst CDN / #9 + EVar vlmMst1 * (EDec 25424382716049382 14 -
   #120 * EVar vlmMsq + #20 * EPow P2 (EVar vlmMsq)) + (EDec 12957407407407408 14 - #20 * EVar vlmMsq) * EPow P2 (EVar
   vlmMst1) - EVar vlmMst2 * (EDec 21157716049382717 14 - #120 * EVar vlmMsq - #1439 * EVar vlmMst1 / #27 + #20 * EPow
   P2 (EVar vlmMsq) + #338 * EPow P2 (EVar vlmMst1) / #9) + (- #9491 + #1080 * EVar vlmMsq + #6636 * EVar vlmMst1) *
   EPow P2 (EVar vlmMst2) / #54 + #38 * EPow P3 (EVar vlmMst1) / #9 - #806 * EPow P3 (EVar vlmMst2) / #9)) * EPow P3
   (EVar vMst1) / EPow P4 (EVar vMst2) - (- ((#836 - #353 * EVar vlmMst2 + #30 * EVar vlmMsq * (#7 - #4 * EVar vlmMst1
   + #4 * EVar vlmMst2) + EVar vlmMst1 * (#143 + #750 * EVar vlmMst2) - #315 * EPow P2 (EVar vlmMst1) - #435 * EPow P2
   (EVar vlmMst2)) * EPow P2 (EVar vMst1) * EPow P2 (EVar vMst2)) + #100 * EVar vDmglst1 * (#55 + EVar vlmMst1 + #6 *
   EVar vlmMsq * (- #5 + #7 * EVar vlmMst1 - #7 * EVar vlmMst2) + #29 * EVar vlmMst2 - #21 * EPow P2 (EVar vlmMst1) +
   #21 * EPow P2 (EVar vlmMst2)) * EPow P3 (EVar vMst1) + (#1525 + #30 * EVar vlmMsq * (- #25 + #44 * EVar vlmMst1 -
   #44 * EVar vlmMst2) + #1928 * EVar vlmMst2 - #2 * EVar vlmMst1 * (#589 + #900 * EVar vlmMst2) + #240 * EPow P2
   (EVar vlmMst1) + #1560 * EPow P2 (EVar vlmMst2)) * EPow P4 (EVar vMst1) + (#939 + #30 * EVar vlmMsq * (- #12 + #5 *
   EVar vlmMst1 - #5 * EVar vlmMst2) + #760 * EVar vlmMst2 - #50 * EVar vlmMst1 * (#8 + #3 * EVar vlmMst2) + #150 *
   EPow P2 (EVar vlmMst2)) * EPow P4 (EVar vMst2)) / (#135 * EPow P2 (EVar vMsq) * EPow P2 (EVar vMst2)) + (- #2 *
   (#9723887 + #420 * EVar vlmMsq * (- #13109 + #11760 * EVar vlmMst1 - #10920 * EVar vlmMst2) + #13243860 * EVar
   vlmMst2 - #164640 * EVar vlmMst1 * (#47 + #30 * EVar vlmMst2) - #176400 * EPow P2 (EVar vlmMsq) + #4762800 * EPow
   P2 (EVar vlmMst2)) * EPow P2 (EVar vMst1) * EPow P2 (EVar vMst2) + #514500 * EVar vDmglst1 * (- #18 * EVar vMst1 *
   EPow P2 (EVar vMst2) + (#485 - #346 * EVar vlmMst1 + #12 * EVar vlmMsq * (#1 + #10 * EVar vlmMst1 - #10 * EVar
   vlmMst2) + #334 * EVar vlmMst2 - #60 * EPow P2 (EVar vlmMst1) + #60 * EPow P2 (EVar vlmMst2)) * EPow P3 (EVar
   vMst1)) + (#41220947 - #420 * EVar vlmMsq * (#12479 + #4830 * EVar vlmMst1 - #5670 * EVar vlmMst2) - #1081710 *
   EVar vlmMst2 + #210 * EVar vlmMst1 * (#30109 + #123480 * EVar vlmMst2) - #176400 * EPow P2 (EVar vlmMsq) -
   #11951100 * EPow P2 (EVar vlmMst1) - #14156100 * EPow P2 (EVar vlmMst2)) * EPow P4 (EVar vMst1) - (#7399303 + #420
   * EVar vlmMsq * (- #9571 + #2940 * EVar vlmMst1 - #3780 * EVar vlmMst2) + #6571740 * EVar vlmMst2 - #82320 * EVar
   vlmMst1 * (#31 + #15 * EVar vlmMst2) + #176400 * EPow P2 (EVar vlmMsq) + #1411200 * EPow P2 (EVar vlmMst2)) * EPow
   P4 (EVar vMst2)) / (#11113200 * EPow P4 (EVar vMsq)) + (#8 * EConst COepS2 * (#204 * EPow P2 (EVar vMst1) * EPow P2
   (EVar vMst2) + #370 * EPow P4 (EVar vMst1) + #27 * EPow P4 (EVar vMst2)) - #12 * EConst CT1ep * (#204 * EPow P2
   (EVar vMst1) * EPow P2 (EVar vMst2) + #370 * EPow P4 (EVar vMst1) + #27 * EPow P4 (EVar vMst2)) - #27 * EConst CS2
   * (#36 * (#49 + #34 * EVar vlmMst1 - #34 * EVar vlmMst2) * EPow P2 (EVar vMst1) * EPow P2 (EVar vMst2) + (#4138 +
   #2220 * EVar vlmMst1 - #2220 * EVar vlmMst2) * EPow P4 (EVar vMst1) + #81 * (- #11 + #2 * EVar vlmMst1 - #2 * EVar
   vlmMst2) * EPow P4 (EVar vMst2)) + #2430 * EVar vxMsq * (#1 - #2 * (EVar vlmMsq + EConst Cz2)) * EPow P2 (EVar
   vMsq) * (EPow P2 (EVar vMst1) * EPow P2 (EVar vMst2) + #2 * EVar vlmMst1 * (- #1 + EVar vshiftst1) * EPow P2 (EVar
   vMst1) * EPow P2 (EVar vMst2) - #2 * EVar vlmMst2 * (- #1 + EVar vshiftst1) * EPow P2 (EVar vMst1) * EPow P2 (EVar
   vMst2) + EVar vshiftst2 * EPow P2 (EVar vMst1) * (#2 * EPow P2 (EVar vMst1) + EPow P2 (EVar vMst2)) - #2 * EVar
   vlmMst1 * (#1 - #2 * EVar vshiftst1 + EVar vshiftst2) * EPow P4 (EVar vMst1) + #2 * EVar vlmMst2 * (#1 - #2 * EVar
   vshiftst1 + EVar vshiftst2) * EPow P4 (EVar vMst1) + EPow P4 (EVar vMst2) - EVar vshiftst1 * (#2 * EPow P2 (EVar
   vMst1) * EPow P2 (EVar vMst2) + #2 * EPow P4 (EVar vMst1) + EPow P4 (EVar vMst2))) / EPow P2 (EVar vMst1) + #243 *
   (- #1 + #2 * EVar vlmMst2) * EVar vshiftst3 * (#2 * (#1 - #2 * EVar vlmMst1 + #2 * EVar vlmMst2) * EPow P2 (EVar
   vMst2) * EPow P4 (EVar vMst1) + #2 * (#1 - EVar vlmMst1 + EVar vlmMst2) * EPow P2 (EVar vMst1) * EPow P4 (EVar
   vMst2) + (#2 - #6 * EVar vlmMst1 + #6 * EVar vlmMst2) * EPow P6 (EVar vMst1) + EPow P6 (EVar vMst2)) / EPow P2
   (EVar vMst1)) / (#729 * EPow P4 (EVar vMst2))) + (#288 * EVar vMst1 * EPow P2 (EVar vMt) * (#2 * EVar vDmglst1 *
   (#735 - #6 * EConst CB4 - #3 * EConst CDN - #78 * EVar vlmMst1 + #6 * EPow P2 (EVar vlmMst1) + #6 * EVar vlmMst2 *
   (#85 - #6 * EVar vlmMst1 + EPow P2 (EVar vlmMst1)) + #18 * (#7 + EVar vlmMst1) * EPow P2 (EVar vlmMst2) + #24 *
   EVar vlmMt * (#2 + #3 * EVar vlmMst2 - EVar vlmMst1 * (#3 + #2 * EVar vlmMst2) + EPow P2 (EVar vlmMst1) + EPow P2
   (EVar vlmMst2)) - #26 * EPow P3 (EVar vlmMst1) + #2 * EPow P3 (EVar vlmMst2)) + EVar vMst1 * (#417 - #6 * EConst
   CB4 - #3 * EConst CDN - #162 * EVar vlmMst1 + #6 * EVar vlmMst2 * (#87 - #8 * EVar vlmMst1 + EPow P2 (EVar
   vlmMst1)) + #18 * (#8 + EVar vlmMst1) * EPow P2 (EVar vlmMst2) + #24 * EVar vlmMt * EPow P2 (#1 - EVar vlmMst1 +
   EVar vlmMst2) - #26 * EPow P3 (EVar vlmMst1) + #2 * EPow P3 (EVar vlmMst2))) - #8 * EConst Cz4 * (- #3 * EPow P2
   (EVar vMst1) * (#540 * EPow P2 (EVar vMt) + #13 * EPow P2 (EVar vMst2) * EPow P2 (EVar vs2t)) - #54 * EVar vDmglst1
   * (EVar vMt * EVar vs2t * (#507 * EPow P2 (EVar vMst1) - #241 * EPow P2 (EVar vMst2)) + #60 * EVar vMst1 * EPow P2
   (EVar vMt) - #265 * EVar vMst1 * (EPow P2 (EVar vMst1) + EPow P2 (EVar vMst2)) * EPow P2 (EVar vs2t)) - #135 * EVar
   vxDmglst1 * EPow P2 (EVar vDmglst1) * (#492 * EVar vMst1 * EVar vMt * EVar vs2t + #12 * EPow P2 (EVar vMt) - (#5 *
   EPow P2 (EVar vMst1) + #53 * EPow P2 (EVar vMst2)) * EPow P2 (EVar vs2t)) + #54 * EVar vMt * EVar vs2t * (#241 *
   EVar vMst1 * EPow P2 (EVar vMst2) + #313 * EPow P3 (EVar vMst1)) + EPow P2 (EVar vs2t) * (#127 * EPow P4 (EVar
   vMst1) - #3267 * EPow P4 (EVar vMst2))) - #2 * EConst Cz3 * (#4 * EPow P2 (EVar vMst1) * (#108 * EVar vMst1 * EVar
   vMt * EVar vs2t * (#23 * (#25 + #9 * EVar vlmMst1 - #9 * EVar vlmMst2) * EPow P2 (EVar vMst1) + (#133 - #9 * EVar
   vlmMst1 + #9 * EVar vlmMst2) * EPow P2 (EVar vMst2)) - EPow P2 (EVar vMst1) * (#216 * (#23 - #3 * EVar vlmMst1 + #3
   * EVar vlmMst2) * EPow P2 (EVar vMt) + #3 * (#8783 + #1134 * EVar vlmMst1 - #1134 * EVar vlmMst2) * EPow P2 (EVar
   vMst2) * EPow P2 (EVar vs2t)) + EPow P2 (EVar vs2t) * (- #14 * (#4829 + #243 * EVar vlmMst1 - #243 * EVar vlmMst2)
   * EPow P4 (EVar vMst1) - #4428 * EPow P4 (EVar vMst2))) - #27 * EVar vxDmglst1 * EPow P2 (EVar vDmglst1) * (#216 *
   EVar vMst1 * EVar vMt * EVar vs2t * ((#51 - #52 * EVar vlmMst1 + #52 * EVar vlmMst2) * EPow P2 (EVar vMst1) + #25 *
   EPow P2 (EVar vMst2)) - #8 * EPow P2 (EVar vMst1) * (#4 * (#181 + #3 * EVar vlmMst1 - #3 * EVar vlmMst2) * EPow P2
   (EVar vMt) - #3 * (#14 + #23 * EVar vlmMst1 - #23 * EVar vlmMst2) * EPow P2 (EVar vMst2) * EPow P2 (EVar vs2t)) +
   EPow P2 (EVar vs2t) * (#12 * (#1145 + #14 * EVar vlmMst1 - #14 * EVar vlmMst2) * EPow P4 (EVar vMst1) - #1143 *
   EPow P4 (EVar vMst2))) + #54 * EVar vDmglst1 * EVar vMst1 * (#12 * EPow P2 (EVar vMst1) * ((#52 + #8 * EVar vlmMst1
   - #8 * EVar vlmMst2) * EPow P2 (EVar vMt) + (- #35 - #46 * EVar vlmMst1 + #46 * EVar vlmMst2) * EPow P2 (EVar
   vMst2) * EPow P2 (EVar vs2t)) + EVar vMt * EVar vs2t * (#8 * (#58 - #9 * EVar vlmMst1 + #9 * EVar vlmMst2) * EVar
   vMst1 * EPow P2 (EVar vMst2) + #24 * (#154 + #225 * EVar vlmMst1 - #225 * EVar vlmMst2) * EPow P3 (EVar vMst1)) +
   EPow P2 (EVar vs2t) * (- #8 * (#764 + #69 * EVar vlmMst1 - #69 * EVar vlmMst2) * EPow P4 (EVar vMst1) + #195 * EPow
   P4 (EVar vMst2)))) / EPow P2 (EVar vMst1) + EConst Cz2 * (#144 * EVar vMt * (EVar vMst1 * (#3 * EVar vDmglst1 * (#8
   * (#55 + #16 * EVar vlmMst2) * EVar vMt + (- #687 + #540 * EVar vlmMsq + #92 * EVar vlmMst1 - #860 * EVar vlmMst2)
   * EVar vMst1 * EVar vs2t) + EVar vMst1 * (#12 * (#55 + #16 * EVar vlmMst2) * EVar vMt + (#2407 + #180 * EVar vlmMsq
   - #408 * EVar vlmMst1 + #408 * EVar vlmMst2) * EVar vMst1 * EVar vs2t)) + #3 * EVar vs2t * (EVar vMst1 * EPow P2
   (EVar vMst2) * (- #40 * EPow P2 (EVar vMsq) * EPow P2 (EVar vMst1) + (#627 - #60 * EVar vlmMsq - #64 * EVar vlmMst1
   + #192 * EVar vlmMst2) * EPow P4 (EVar vMsq) - #15 * EPow P4 (EVar vMst1)) + EVar vDmglst1 * (EPow P2 (EVar vMst2)
   * ((#627 - #60 * EVar vlmMsq - #64 * EVar vlmMst1 + #192 * EVar vlmMst2) * EPow P4 (EVar vMsq) - #75 * EPow P4
   (EVar vMst1)) + #120 * EPow P2 (EVar vMsq) * (- (EPow P2 (EVar vMst1) * EPow P2 (EVar vMst2)) + #2 * EPow P4 (EVar
   vMst1)))) / EPow P4 (EVar vMsq)) + EPow P2 (EVar vs2t) * (#36 * EVar vDmglst1 * (#150 * EPow P4 (EVar vMst2) * EPow
   P5 (EVar vMst1) + EPow P4 (EVar vMsq) * (#12 * (#390 - #90 * EVar vlmMsq - #139 * EVar vlmMst1 + #315 * EVar
   vlmMst2) * EPow P2 (EVar vMst2) * EPow P3 (EVar vMst1) + #594 * EVar vMst1 * EPow P4 (EVar vMst2) + (#1613 - #1080
   * EVar vlmMsq - #3684 * EVar vlmMst1 + #5796 * EVar vlmMst2) * EPow P5 (EVar vMst1)) - #60 * EPow P2 (EVar vMsq) *
   (- #3 * EPow P3 (EVar vMst1) * EPow P4 (EVar vMst2) + #14 * EPow P2 (EVar vMst2) * EPow P5 (EVar vMst1))) + #1350 *
   EPow P4 (EVar vMst2) * EPow P6 (EVar vMst1) - #1080 * EPow P2 (EVar vMsq) * (- #3 * EPow P4 (EVar vMst1) * EPow P4
   (EVar vMst2) + #4 * EPow P2 (EVar vMst2) * EPow P6 (EVar vMst1)) - EPow P4 (EVar vMsq) * (#12 * (#311 + #1080 *
   EVar vlmMsq - #3348 * EVar vlmMst2 - #108 * (#1 + #2 * EVar vlmMst2) * EVar vshiftst3 + #36 * EVar vlmMst1 * (#61 +
   #6 * EVar vshiftst3)) * EPow P2 (EVar vMst2) * EPow P4 (EVar vMst1) + #108 * (#339 - #30 * EVar vlmMsq + #149 *
   EVar vlmMst2 - #12 * (#1 + EVar vlmMst2) * EVar vshiftst3 + EVar vlmMst1 * (- #37 + #12 * EVar vshiftst3)) * EPow
   P2 (EVar vMst1) * EPow P4 (EVar vMst2) + (#69349 + #12960 * EVar vlmMsq - #107568 * EVar vlmMst2 - #1296 * (#1 + #3
   * EVar vlmMst2) * EVar vshiftst3 + #432 * EVar vlmMst1 * (#217 + #9 * EVar vshiftst3)) * EPow P6 (EVar vMst1) -
   #648 * (- #1 + EVar vshiftst3) * EPow P6 (EVar vMst2))) / (EPow P2 (EVar vMst1) * EPow P4 (EVar vMsq))) + EVar vs2t
   * (#12 * EPow P2 (EConst Cz2) * (#72 * EVar vxDmglst1 * EPow P2 (EVar vDmglst1) * (#120 * EVar vMst1 * EVar vMt -
   EVar vs2t * (EPow P2 (EVar vMst1) + EPow P2 (EVar vMst2))) + #576 * EVar vMt * (#2 * EVar vMst1 * EPow P2 (EVar
   vMst2) + #11 * EPow P3 (EVar vMst1)) - #144 * EVar vDmglst1 * (- #84 * EVar vMt * EPow P2 (EVar vMst1) - #8 * EVar
   vMt * EPow P2 (EVar vMst2) + EVar vMst1 * EVar vs2t * EPow P2 (EVar vMst2) + EVar vs2t * EPow P3 (EVar vMst1)) -
   EVar vs2t * (#852 * EPow P2 (EVar vMst1) * EPow P2 (EVar vMst2) + #1018 * EPow P4 (EVar vMst1) + #315 * EPow P4
   (EVar vMst2))) + #2 * EVar vMt * (#3 * EVar vDmglst1 * (#2 * (EPow P2 (EVar vMst1) * (#13969 - #11880 * EConst CB4
   + #108 * EConst CDN - #4320 * EVar vlmMsq + (- #16728 - #3240 * EVar vlmMsq * (#1 + EVar vlmMsq)) * EVar vlmMst1 +
   #2160 * EPow P2 (EVar vlmMsq) + #54 * (- #407 + #300 * EVar vlmMsq) * EPow P2 (EVar vlmMst1) + #12 * EVar vlmMst2 *
   (#4094 + #2205 * EVar vlmMst1 - #90 * EVar vlmMsq * (#1 + #24 * EVar vlmMst1) + #270 * EPow P2 (EVar vlmMsq) + #804
   * EPow P2 (EVar vlmMst1)) + #18 * (#583 + #540 * EVar vlmMsq + #680 * EVar vlmMst1) * EPow P2 (EVar vlmMst2) -
   #16848 * EPow P3 (EVar vlmMst1) - #5040 * EPow P3 (EVar vlmMst2)) + #3 * EPow P2 (EVar vMst2) * (#11337 - #408 *
   EConst CB4 - #12 * EConst CDN - #6480 * EVar vlmMsq + #720 * EPow P2 (EVar vlmMsq) - #30 * EVar vlmMst1 * (- #73 -
   #36 * EVar vlmMsq + #12 * EPow P2 (EVar vlmMsq)) + #6 * EVar vlmMst2 * (#2331 - #420 * EVar vlmMsq - #118 * EVar
   vlmMst1 + #60 * EPow P2 (EVar vlmMsq) - #60 * EPow P2 (EVar vlmMst1)) + #18 * (- #13 + #20 * EVar vlmMsq) * EPow P2
   (EVar vlmMst1) - #6 * (- #797 + #60 * EVar vlmMsq + #4 * EVar vlmMst1) * EPow P2 (EVar vlmMst2) - #200 * EPow P3
   (EVar vlmMst1) + #584 * EPow P3 (EVar vlmMst2))) * EPow P4 (EVar vMsq) - #720 * EPow P2 (EVar vMsq) * (#2 * (#41 -
   #10 * EVar vlmMst1 + #6 * EVar vlmMsq * (- #2 + EVar vlmMst1 - EVar vlmMst2) + #22 * EVar vlmMst2 - #3 * EPow P2
   (EVar vlmMst1) + #3 * EPow P2 (EVar vlmMst2)) * EPow P2 (EVar vMst1) * EPow P2 (EVar vMst2) + #2 * (#29 + #48 *
   EVar vlmMst2 - #24 * EPow P2 (EVar vlmMst1) - #6 * (EVar vlmMst1 * (#6 - #5 * EVar vlmMst2) + EVar vlmMsq * (#2 -
   #3 * EVar vlmMst1 + #3 * EVar vlmMst2) + EPow P2 (EVar vlmMst2))) * EPow P4 (EVar vMst1) - EPow P4 (EVar vMst2)) -
   #5 * EPow P2 (EVar vMst2) * ((- #251 + #12 * EVar vlmMsq - #12 * EVar vlmMst2) * EPow P2 (EVar vMst1) * EPow P2
   (EVar vMst2) + #6 * (#818 - #117 * EVar vlmMst1 + #180 * EVar vlmMsq * (- #2 + EVar vlmMst1 - EVar vlmMst2) + #477
   * EVar vlmMst2 - #90 * EPow P2 (EVar vlmMst1) + #90 * EPow P2 (EVar vlmMst2)) * EPow P4 (EVar vMst1) + (#11 - #12 *
   EVar vlmMsq + #12 * EVar vlmMst2) * EPow P4 (EVar vMst2))) + EVar vMst1 * (#2 * (#9 * EPow P2 (EVar vMst2) *
   (#13317 - #408 * EConst CB4 - #12 * EConst CDN - #4320 * EVar vlmMsq + #720 * EPow P2 (EVar vlmMsq) - #6 * EVar
   vlmMst1 * (#79 - #180 * EVar vlmMsq + #60 * EPow P2 (EVar vlmMsq)) + #6 * EVar vlmMst2 * (#2135 - #420 * EVar
   vlmMsq - #118 * EVar vlmMst1 + #60 * EPow P2 (EVar vlmMsq) - #60 * EPow P2 (EVar vlmMst1)) + #6 * (- #167 + #60 *
   EVar vlmMsq) * EPow P2 (EVar vlmMst1) - #6 * (- #797 + #60 * EVar vlmMsq + #4 * EVar vlmMst1) * EPow P2 (EVar
   vlmMst2) - #200 * EPow P3 (EVar vlmMst1) + #584 * EPow P3 (EVar vlmMst2)) + EPow P2 (EVar vMst1) * (#107299 -
   #19224 * EConst CB4 - #108 * EConst CDN - #32400 * EVar vlmMsq + #6480 * EPow P2 (EVar vlmMsq) - #24 * EVar vlmMst1
   * (#6103 - #1755 * EVar vlmMsq + #405 * EPow P2 (EVar vlmMsq)) + #18 * (- #4379 + #1260 * EVar vlmMsq) * EPow P2
   (EVar vlmMst1) + #12 * EVar vlmMst2 * (#20882 + #699 * EVar vlmMst1 - #270 * EVar vlmMsq * (#17 + #8 * EVar
   vlmMst1) + #810 * EPow P2 (EVar vlmMsq) + #54 * EPow P2 (EVar vlmMst1)) + #18 * (#5641 + #180 * EVar vlmMsq + #540
   * EVar vlmMst1) * EPow P2 (EVar vlmMst2) - #18072 * EPow P3 (EVar vlmMst1) + #7704 * EPow P3 (EVar vlmMst2))) *
   EPow P4 (EVar vMsq) - #720 * EPow P2 (EVar vMsq) * (#2 * (#34 - #8 * EVar vlmMst1 + #6 * EVar vlmMsq * (- #2 + EVar
   vlmMst1 - EVar vlmMst2) + #20 * EVar vlmMst2 - #3 * EPow P2 (EVar vlmMst1) + #3 * EPow P2 (EVar vlmMst2)) * EPow P2
   (EVar vMst1) * EPow P2 (EVar vMst2) + #4 * (#14 - #21 * EVar vlmMst1 + EVar vlmMsq * (- #6 + #9 * EVar vlmMst1 - #9
   * EVar vlmMst2) + #27 * EVar vlmMst2 + #9 * EVar vlmMst1 * EVar vlmMst2 - #9 * EPow P2 (EVar vlmMst1)) * EPow P4
   (EVar vMst1) - #3 * EPow P4 (EVar vMst2)) - #15 * (#6 * (#134 - #9 * EVar vlmMst1 + #36 * EVar vlmMsq * (- #2 +
   EVar vlmMst1 - EVar vlmMst2) + #81 * EVar vlmMst2 - #18 * EPow P2 (EVar vlmMst1) + #18 * EPow P2 (EVar vlmMst2)) *
   EPow P2 (EVar vMst2) * EPow P4 (EVar vMst1) + (- #107 + #12 * EVar vlmMsq - #12 * EVar vlmMst2) * EPow P2 (EVar
   vMst1) * EPow P4 (EVar vMst2) + (#11 - #12 * EVar vlmMsq + #12 * EVar vlmMst2) * EPow P6 (EVar vMst2)))) / EPow P4
   (EVar vMsq))) / EPow P4 (EVar vMst2))) / #1944.

(** H5.cpp:296-1686 *)
Definition H5_getS2 : expr :=
  - (EVar voneLoopFlag * (#4 * EVar vMt * EVar vMuSUSY * EVar vs2t * (#4 * (EVar vlmMst1 - EVar vlmMst2) * EPow P2 (EVar
   vMt) + ((- #2 - EVar vlmMst1 + EVar vlmMst2) * EPow P2 (EVar vMst1) + (#2 - EVar vlmMst1 + EVar vlmMst2) * EPow P2
   (EVar vMst2)) * EPow P2 (EVar vs2t)) / EVar vTbeta + EPow P2 (EVar vMt) * EPow P2 (EVar vs2t) * (#8 * (EVar vlmMst1
   - EVar vlmMst2) * (EPow P2 (EVar vMst1) - EPow P2 (EVar vMst2)) + #4 * EPow P2 (EVar vMuSUSY) * (#2 - EVar vlmMst1
   + EVar vlmMst2 - #2 * (EVar vlmMst1 - EVar vlmMst2) * EPow P2 (EVar vMst1) * (EPow P2 (EVar vMst1) + EPow P2 (EVar
   vMst2)) / EPow P4 (EVar vMst2)) - #4 * EPow P2 (EVar vMuSUSY) * (#2 - EVar vlmMst1 + EVar vlmMst2 - #2 * (EVar
   vlmMst1 - EVar vlmMst2) * EPow P2 (EVar vMst1) * (EPow P2 (EVar vMst1) + EPow P2 (EVar vMst2)) / EPow P4 (EVar
   vMst2)) / EPow P2 (EVar vSbeta)) + #16 * (EVar vlmMst1 + EVar vlmMst2 - #2 * EVar vlmMt) * EPow P4 (EVar vMt) - (-
   #4 * EPow P2 (EVar vMst1) * EPow P2 (EVar vMst2) + (#2 + EVar vlmMst1 - EVar vlmMst2) * EPow P4 (EVar vMst1) + (#2
   - EVar vlmMst1 + EVar vlmMst2) * EPow P4 (EVar vMst2)) * EPow P4 (EVar vs2t))) / #32 - EVar vAl4p * (EVar
   vtwoLoopFlag * (- #36 * EVar vs2t * EVar vTbeta * EPow P2 (EVar vMt) * (- #8 * EPow P2 (EVar vMst1) * EPow P2 (EVar
   vMst2) * (- (EVar vDmglst1 * (#1 + #2 * (EVar vlmMst1 + EVar vlmMst2)) * EVar vs2t * EPow P2 (EVar vMst2)) + EVar
   vMt * (#8 - #2 * EVar vlmMst1 + #6 * EVar vlmMst2 - EPow P2 (EVar vlmMst1) + EPow P2 (EVar vlmMst2)) * EPow P2
   (EVar vMuSUSY)) * EPow P2 (EVar vSbeta) + EPow P2 (EVar vMuSUSY) * (#8 * EVar vDmglst1 * EVar vMt * (EVar vMst1 *
   (#12 - #2 * EVar vlmMst1 + #6 * EVar vlmMst2 - EPow P2 (EVar vlmMst1) + EPow P2 (EVar vlmMst2)) * EPow P2 (EVar
   vMst2) + (#10 + #12 * EVar vlmMst2 + #4 * EVar vlmMst1 * (- #2 + #3 * EVar vlmMst2) - #9 * EPow P2 (EVar vlmMst1) -
   #3 * EPow P2 (EVar vlmMst2)) * EPow P3 (EVar vMst1)) + #8 * EVar vMst1 * EVar vMt * (EVar vMst1 * (#8 - #2 * EVar
   vlmMst1 + #6 * EVar vlmMst2 - EPow P2 (EVar vlmMst1) + EPow P2 (EVar vlmMst2)) * EPow P2 (EVar vMst2) + (#6 + #4 *
   EVar vlmMst1 * (- #3 + EVar vlmMst2) + #16 * EVar vlmMst2 - #5 * EPow P2 (EVar vlmMst1) + EPow P2 (EVar vlmMst2)) *
   EPow P3 (EVar vMst1)) - #8 * EVar vDmglst1 * EVar vs2t * ((- (EVar vlmMst2 * (#1 + EVar vlmMst2)) + EPow P2 (EVar
   vlmMst1)) * EPow P2 (EVar vMst1) * EPow P2 (EVar vMst2) + (#2 + #3 * EVar vlmMst1 - #3 * EVar vlmMst2 + EPow P2
   (EVar vlmMst1) - EPow P2 (EVar vlmMst2)) * EPow P4 (EVar vMst1) - (- #1 + EVar vlmMst1) * EPow P4 (EVar vMst2)) +
   EVar vMst1 * EVar vs2t * (#4 * (#2 + #11 * EVar vlmMst2 - #2 * EVar vlmMst1 * (#5 + #4 * EVar vlmMst2) + EPow P2
   (EVar vlmMst1) + #7 * EPow P2 (EVar vlmMst2)) * EPow P2 (EVar vMst1) * EPow P2 (EVar vMst2) + (#1 + #46 * EVar
   vlmMst2 - #2 * EVar vlmMst1 * (#23 + #32 * EVar vlmMst2) + #20 * EPow P2 (EVar vlmMst1) + #44 * EPow P2 (EVar
   vlmMst2)) * EPow P4 (EVar vMst1) + #4 * (#7 + #7 * EVar vlmMst2 - #2 * EVar vlmMst1 * (#1 + EVar vlmMst2) + #2 *
   EPow P2 (EVar vlmMst2)) * EPow P4 (EVar vMst2)))) - #9 * EVar vTbeta * EPow P2 (EVar vSbeta) * EPow P4 (EVar vMst2)
   * EPow P4 (EVar vs2t) * (#4 * (- #2 * EVar vlmMst1 * (#3 + #2 * EVar vlmMst2) + EPow P2 (EVar vlmMst1) + #3 * (- #4
   - EVar vlmMst2 + EPow P2 (EVar vlmMst2))) * EPow P2 (EVar vMst2) * EPow P3 (EVar vMst1) + #4 * EVar vMst1 * (#7 +
   #7 * EVar vlmMst2 - #2 * EVar vlmMst1 * (#1 + EVar vlmMst2) + #2 * EPow P2 (EVar vlmMst2)) * EPow P4 (EVar vMst2) +
   #8 * EVar vDmglst1 * ((#2 - #2 * EVar vlmMst1 + EVar vlmMst2 - EPow P2 (EVar vlmMst1) + EPow P2 (EVar vlmMst2)) *
   EPow P2 (EVar vMst1) * EPow P2 (EVar vMst2) + (- #3 - #2 * EVar vlmMst1 + EVar vlmMst2 + EPow P2 (EVar vlmMst1) -
   EPow P2 (EVar vlmMst2)) * EPow P4 (EVar vMst1) + (- #1 + EVar vlmMst1) * EPow P4 (EVar vMst2)) + (#13 + EVar
   vlmMst1 * (#26 - #8 * EVar vlmMst2) - #14 * EVar vlmMst2 + #12 * EPow P2 (EVar vlmMst1) - #4 * EPow P2 (EVar
   vlmMst2)) * EPow P5 (EVar vMst1)) + #4 * EVar vTbeta * EPow P2 (EVar vMt) * EPow P2 (EVar vSbeta) * (#8 * EPow P2
   (EVar vMt) * (- #36 * EVar vDmglst1 * (#1 + EVar vlmMt) * EPow P2 (EVar vMst1) * EPow P2 (EVar vMst2) - #18 * (#1 +
   EVar vlmMt) * EPow P2 (EVar vMst2) * EPow P3 (EVar vMst1) + #36 * EVar vDmglst1 * (#1 + EVar vlmMst2 * (#5 - #2 *
   EVar vlmMt) - #2 * EVar vlmMst1 * (#1 + EVar vlmMst2 - EVar vlmMt) - #3 * EVar vlmMt + #2 * EPow P2 (EVar vlmMst2))
   * EPow P4 (EVar vMst1) - #2 * EVar vDmglst1 * (#1 + #12 * EVar vlmMst1 + #6 * EVar vlmMt) * EPow P4 (EVar vMst2) +
   #9 * EVar vMst1 * (#3 + EVar vlmMst1 - EVar vlmMt + #2 * EVar vlmMst1 * EVar vlmMt + #2 * EVar vlmMst2 * (#1 + EVar
   vlmMt) + EPow P2 (EVar vlmMst1) - #6 * EPow P2 (EVar vlmMt)) * EPow P4 (EVar vMst2) + #9 * EVar vMst1 * EPow P2
   (EVar vlmMst2) * (#2 * EPow P4 (EVar vMst1) + EPow P4 (EVar vMst2)) - #18 * (EVar vlmMst1 * (#1 + EVar vlmMst2 -
   EVar vlmMt) + EVar vlmMst2 * (- #2 + EVar vlmMt) + EVar vlmMt) * EPow P5 (EVar vMst1)) + #72 * EVar vMst1 * EVar
   vMt * EVar vs2t * ((#2 * (EVar vlmMst1 - EVar vlmMst2 + #2 * EVar vlmMst1 * EVar vlmMst2 - #2 * EVar vlmMst1 * EVar
   vlmMt + #2 * EVar vlmMst2 * EVar vlmMt) * EPow P2 (EVar vMst2) + (#6 + #4 * EVar vlmMst1 * (- #3 + EVar vlmMst2) +
   #16 * EVar vlmMst2 - #5 * EPow P2 (EVar vlmMst1)) * EPow P2 (EVar vMuSUSY) + EPow P2 (EVar vlmMst2) * (- #4 * EPow
   P2 (EVar vMst2) + EPow P2 (EVar vMuSUSY))) * EPow P3 (EVar vMst1) + EVar vDmglst1 * ((#12 - #2 * EVar vlmMst1 + #6
   * EVar vlmMst2 - EPow P2 (EVar vlmMst1) + EPow P2 (EVar vlmMst2)) * EPow P2 (EVar vMst2) * EPow P2 (EVar vMuSUSY) +
   EPow P2 (EVar vMst1) * (#2 * (- #2 + #3 * EVar vlmMst1 - #3 * EVar vlmMst2) * (#1 + #2 * EVar vlmMst2 - #2 * EVar
   vlmMt) * EPow P2 (EVar vMst2) + (#10 - #8 * EVar vlmMst1 + #12 * (#1 + EVar vlmMst1) * EVar vlmMst2 - #9 * EPow P2
   (EVar vlmMst1) - #3 * EPow P2 (EVar vlmMst2)) * EPow P2 (EVar vMuSUSY)) + (#20 + #10 * EVar vlmMst1 * (#5 + #2 *
   EVar vlmMst2 - #2 * EVar vlmMt) + #8 * EVar vlmMt + EVar vlmMst2 * (- #58 + #20 * EVar vlmMt) - #20 * EPow P2 (EVar
   vlmMst2)) * EPow P4 (EVar vMst1) + #2 * (#8 - #5 * EVar vlmMst1 + EVar vlmMst2 + (#4 - #2 * EVar vlmMst1 + #2 *
   EVar vlmMst2) * EVar vlmMt) * EPow P4 (EVar vMst2)) + #2 * ((#3 + EVar vlmMst2 + #2 * (#1 + EVar vlmMst2) * EVar
   vlmMt - EVar vlmMst1 * (#3 + #2 * EVar vlmMt)) * EVar vMst1 * EPow P4 (EVar vMst2) + (#4 + EVar vlmMst1 * (#5 + #2
   * EVar vlmMst2 - #2 * EVar vlmMt) + EVar vlmMst2 * (- #5 + #2 * EVar vlmMt) - #2 * EPow P2 (EVar vlmMst2)) * EPow
   P5 (EVar vMst1))) - #9 * EPow P2 (EVar vs2t) * (#4 * (EVar vMst1 * (- #4 * EVar vlmMst2 * EPow P2 (EVar vMst2) +
   EPow P2 (EVar vlmMst1) * EPow P2 (EVar vMst2) - #3 * EPow P2 (EVar vlmMst2) * EPow P2 (EVar vMst2) - #7 * EPow P2
   (EVar vMuSUSY) - #7 * EVar vlmMst2 * EPow P2 (EVar vMuSUSY) - #2 * EPow P2 (EVar vlmMst2) * EPow P2 (EVar vMuSUSY)
   + #2 * EVar vlmMst1 * (#1 + EVar vlmMst2) * (EPow P2 (EVar vMst2) + EPow P2 (EVar vMuSUSY))) * EPow P4 (EVar vMst2)
   + EPow P3 (EVar vMst1) * (- ((#2 + #11 * EVar vlmMst2 - #2 * EVar vlmMst1 * (#5 + #4 * EVar vlmMst2) + EPow P2
   (EVar vlmMst1) + #7 * EPow P2 (EVar vlmMst2)) * EPow P2 (EVar vMst2) * EPow P2 (EVar vMuSUSY)) + (#2 + #2 * EVar
   vlmMst1 * (- #1 + EVar vlmMst2) + #6 * EVar vlmMst2 - #3 * EPow P2 (EVar vlmMst1) + EPow P2 (EVar vlmMst2)) * EPow
   P4 (EVar vMst2))) - (#8 * (#1 + EVar vlmMst1) * EPow P2 (EVar vMst2) + (#1 + #46 * EVar vlmMst2 - #2 * EVar vlmMst1
   * (#23 + #32 * EVar vlmMst2) + #20 * EPow P2 (EVar vlmMst1) + #44 * EPow P2 (EVar vlmMst2)) * EPow P2 (EVar
   vMuSUSY)) * EPow P5 (EVar vMst1) + #8 * EVar vDmglst1 * (EVar vlmMst2 * (#2 * EPow P2 (EVar vMst2) - #3 * EPow P2
   (EVar vMuSUSY)) * EPow P4 (EVar vMst1) + EPow P2 (EVar vMuSUSY) * ((- (EVar vlmMst2 * (#1 + EVar vlmMst2)) + EPow
   P2 (EVar vlmMst1)) * EPow P2 (EVar vMst1) * EPow P2 (EVar vMst2) + (#2 + EPow P2 (EVar vlmMst1) - EPow P2 (EVar
   vlmMst2)) * EPow P4 (EVar vMst1) + EPow P4 (EVar vMst2)) - EVar vlmMst1 * ((#4 * EPow P2 (EVar vMst2) - #3 * EPow
   P2 (EVar vMuSUSY)) * EPow P4 (EVar vMst1) + (#2 * EPow P2 (EVar vMst2) + EPow P2 (EVar vMuSUSY)) * EPow P4 (EVar
   vMst2)) + EPow P6 (EVar vMst2)))) + #36 * EVar vMt * EPow P2 (EVar vSbeta) * (- #2 * EVar vMst1 * EVar vTbeta *
   EPow P2 (EVar vMst2) * EPow P3 (EVar vs2t) * (- #2 * (#10 + #8 * EVar vlmMst1 - #4 * (#1 + EVar vlmMst1) * EVar
   vlmMst2 + #3 * EPow P2 (EVar vlmMst1) + EPow P2 (EVar vlmMst2)) * EPow P2 (EVar vMst2) * EPow P3 (EVar vMst1) + #2
   * EVar vMst1 * (#8 - #2 * EVar vlmMst1 + #6 * EVar vlmMst2 - EPow P2 (EVar vlmMst1) + EPow P2 (EVar vlmMst2)) *
   EPow P4 (EVar vMst2) + EVar vDmglst1 * (- #2 * (#14 + EVar vlmMst1 * (#4 - #12 * EVar vlmMst2) + #7 * EPow P2 (EVar
   vlmMst1) + #5 * EPow P2 (EVar vlmMst2)) * EPow P2 (EVar vMst1) * EPow P2 (EVar vMst2) + (#19 + #18 * EVar vlmMst1 -
   #18 * EVar vlmMst2) * EPow P4 (EVar vMst1) + #2 * (#12 - #2 * EVar vlmMst1 + #6 * EVar vlmMst2 - EPow P2 (EVar
   vlmMst1) + EPow P2 (EVar vlmMst2)) * EPow P4 (EVar vMst2)) + (#3 + #2 * EVar vlmMst1 - #2 * EVar vlmMst2) * EPow P5
   (EVar vMst1)) + EVar vMuSUSY * (- (EVar vMst1 * (#4 * EVar vMst1 * EVar vMt * EPow P2 (EVar vMst2) * (#8 * (#2 +
   EVar vlmMst2 + EVar vlmMt + EVar vlmMst2 * EVar vlmMt - EVar vlmMst1 * (#2 + EVar vlmMt)) * EPow P2 (EVar vMt) + #3
   * (- #8 + #2 * EVar vlmMst1 - #6 * EVar vlmMst2 + EPow P2 (EVar vlmMst1) - EPow P2 (EVar vlmMst2)) * EPow P2 (EVar
   vMst2) * EPow P2 (EVar vs2t)) + #8 * EVar vMt * (#4 * (#2 + EVar vlmMst2 + EVar vlmMst1 * (- #2 + EVar vlmMst2 - #2
   * EVar vlmMt) + EVar vlmMt + #2 * EVar vlmMst2 * EVar vlmMt - EPow P2 (EVar vlmMst2)) * EPow P2 (EVar vMt) + #3 *
   (#1 + EVar vlmMst1 * (#5 - #2 * EVar vlmMst2) - #5 * EVar vlmMst2 + #2 * EPow P2 (EVar vlmMst1)) * EPow P2 (EVar
   vMst2) * EPow P2 (EVar vs2t)) * EPow P3 (EVar vMst1) + EVar vs2t * (EVar vlmMst1 * (#16 - #32 * EVar vlmMst2) *
   EPow P2 (EVar vMt) + (#7 + EVar vlmMst1 * (#6 + #32 * EVar vlmMst2)) * EPow P2 (EVar vMst2) * EPow P2 (EVar vs2t) +
   #16 * (EPow P2 (EVar vlmMst1) + EPow P2 (EVar vlmMst2)) * (EPow P2 (EVar vMt) - EPow P2 (EVar vMst2) * EPow P2
   (EVar vs2t)) - #2 * EVar vlmMst2 * (#8 * EPow P2 (EVar vMt) + EPow P2 (EVar vMst2) * EPow P2 (EVar vs2t))) * EPow
   P4 (EVar vMst1) - #4 * EVar vs2t * ((- #8 * EVar vlmMst2 * EPow P2 (EVar vMt) + #2 * EPow P2 (EVar vlmMst1) * EPow
   P2 (EVar vMt) - #6 * EPow P2 (EVar vlmMst2) * EPow P2 (EVar vMt) + #7 * EPow P2 (EVar vMst2) * EPow P2 (EVar vs2t)
   + #7 * EVar vlmMst2 * EPow P2 (EVar vMst2) * EPow P2 (EVar vs2t) + #2 * EPow P2 (EVar vlmMst2) * EPow P2 (EVar
   vMst2) * EPow P2 (EVar vs2t) + #2 * EVar vlmMst1 * (#1 + EVar vlmMst2) * (#2 * EPow P2 (EVar vMt) - EPow P2 (EVar
   vMst2) * EPow P2 (EVar vs2t))) * EPow P4 (EVar vMst2) + EPow P2 (EVar vMst1) * (- #4 * (- #1 - EVar vlmMst2 - #2 *
   EVar vlmMst1 * EVar vlmMst2 + EPow P2 (EVar vlmMst1) + EPow P2 (EVar vlmMst2)) * EPow P2 (EVar vMst2) * EPow P2
   (EVar vMt) + (- #5 - #8 * EVar vlmMst1 + #4 * EVar vlmMst2 - #6 * EVar vlmMst1 * EVar vlmMst2 + EPow P2 (EVar
   vlmMst1) + #5 * EPow P2 (EVar vlmMst2)) * EPow P2 (EVar vs2t) * EPow P4 (EVar vMst2))) + #6 * EVar vMt * (#1 + EVar
   vlmMst1 * (#18 - #8 * EVar vlmMst2) - #18 * EVar vlmMst2 + #8 * EPow P2 (EVar vlmMst1)) * EPow P2 (EVar vs2t) *
   EPow P5 (EVar vMst1))) + #2 * EVar vDmglst1 * (#4 * EVar vs2t * EPow P2 (EVar vMst1) * EPow P2 (EVar vMst2) * (#4 *
   (#1 + EVar vlmMst2) * EPow P2 (EVar vMt) + (#1 - EVar vlmMst1 + EVar vlmMst2 - EPow P2 (EVar vlmMst1) + EPow P2
   (EVar vlmMst2)) * EPow P2 (EVar vMst2) * EPow P2 (EVar vs2t)) - #4 * EVar vMt * (- #4 * (- #5 + EVar vlmMst2 - #4 *
   EVar vlmMt - #4 * EVar vlmMst2 * EVar vlmMt + EVar vlmMst1 * (#3 - #3 * EVar vlmMst2 + #4 * EVar vlmMt) + #3 * EPow
   P2 (EVar vlmMst2)) * EPow P2 (EVar vMt) + #3 * (#1 + EVar vlmMst1 * (#3 - #6 * EVar vlmMst2) - #3 * EVar vlmMst2 +
   #4 * EPow P2 (EVar vlmMst1) + #2 * EPow P2 (EVar vlmMst2)) * EPow P2 (EVar vMst2) * EPow P2 (EVar vs2t)) * EPow P3
   (EVar vMst1) - #16 * (#5 + EVar vlmMst2 + (#2 + EVar vlmMst2) * EVar vlmMt - EVar vlmMst1 * (#3 + EVar vlmMt)) *
   EVar vMst1 * EPow P2 (EVar vMst2) * EPow P3 (EVar vMt) + #4 * EVar vs2t * ((#4 - #8 * EVar vlmMst1 + #8 * EVar
   vlmMst2) * EPow P2 (EVar vMt) + (- #2 - #3 * EVar vlmMst1 + #2 * EVar vlmMst2) * EPow P2 (EVar vMst2) * EPow P2
   (EVar vs2t)) * EPow P4 (EVar vMst1) + #8 * (#1 - #2 * EVar vlmMst1) * EVar vs2t * EPow P2 (EVar vMt) * EPow P4
   (EVar vMst2) + #6 * EVar vMst1 * EVar vMt * (#12 - #2 * EVar vlmMst1 + #6 * EVar vlmMst2 - EPow P2 (EVar vlmMst1) +
   EPow P2 (EVar vlmMst2)) * EPow P2 (EVar vs2t) * EPow P4 (EVar vMst2) + #3 * EVar vMt * (#15 - #6 * EVar vlmMst2 +
   #6 * EVar vlmMst1 * (#1 + #4 * EVar vlmMst2) - #16 * EPow P2 (EVar vlmMst1) - #8 * EPow P2 (EVar vlmMst2)) * EPow
   P2 (EVar vs2t) * EPow P5 (EVar vMst1) + #4 * (- #1 + EVar vlmMst1) * EPow P3 (EVar vs2t) * EPow P6 (EVar vMst2)))))
   / (#216 * EVar vMst1 * EVar vTbeta * EPow P2 (EVar vSbeta) * EPow P4 (EVar vMst2)) + EConst Cz2 * (EVar
   vtwoLoopFlag * (EVar vMt * (#8 * (#5 * EVar vDmglst1 * EPow P2 (EVar vMst1) - (EVar vDmglst1 + EVar vMst1) * EPow
   P2 (EVar vMst2) + EPow P3 (EVar vMst1)) * EPow P3 (EVar vs2t) + #4 * EVar vMuSUSY * ((#4 * EVar vDmglst1 * EVar
   vMst1 + EPow P2 (EVar vMst1) - EPow P2 (EVar vMst2)) * EPow P3 (EVar vs2t) + #6 * EVar vMt * EPow P2 (EVar vs2t) *
   (EVar vDmglst1 + EVar vMst1 - #4 * EVar vDmglst1 * EPow P2 (EVar vMst1) * (EPow P2 (EVar vMst1) + EPow P2 (EVar
   vMst2)) / EPow P4 (EVar vMst2)) + #16 * (#3 * EVar vDmglst1 + EVar vMst1) * EPow P2 (EVar vMst1) * EPow P3 (EVar
   vMt) / EPow P4 (EVar vMst2)) / EVar vTbeta) + #4 * EPow P2 (EVar vMt) * EPow P2 (EVar vMuSUSY) * EPow P2 (EVar
   vs2t) * (#4 * EVar vDmglst1 * EVar vMst1 * (EPow P2 (EVar vMst1) + EPow P2 (EVar vMst2)) - EPow P4 (EVar vMst2)) /
   EPow P4 (EVar vMst2) + EPow P2 (EVar vMt) * (EVar vMt * (#32 * (#2 * EVar vDmglst1 * (#2 * EVar vMt - #5 * EVar
   vMst1 * EVar vs2t) + EVar vMst1 * (EVar vMt - #2 * EVar vMst1 * EVar vs2t)) * EPow P3 (EVar vMst1) + #16 * EVar
   vs2t * ((EVar vDmglst1 + EVar vMst1) * EPow P2 (EVar vMst2) * EPow P2 (EVar vMuSUSY) - #3 * EVar vDmglst1 * EPow P2
   (EVar vMst1) * (#4 * EPow P2 (EVar vMst2) + EPow P2 (EVar vMuSUSY)) + (- #4 * EPow P2 (EVar vMst2) + EPow P2 (EVar
   vMuSUSY)) * EPow P3 (EVar vMst1))) - #4 * EVar vs2t * EPow P2 (EVar vMuSUSY) * (#4 * EVar vMst1 * EVar vMt * EPow
   P2 (EVar vMst2) + #4 * EVar vMt * EPow P3 (EVar vMst1) + #4 * EVar vDmglst1 * (- #3 * EVar vMt * EPow P2 (EVar
   vMst1) + EVar vMt * EPow P2 (EVar vMst2) + EVar vMst1 * EVar vs2t * EPow P2 (EVar vMst2) + EVar vs2t * EPow P3
   (EVar vMst1)) - EVar vs2t * EPow P4 (EVar vMst2)) / EPow P2 (EVar vSbeta)) / EPow P4 (EVar vMst2) + (EPow P2 (EVar
   vMst1) - EPow P2 (EVar vMst2)) * (#4 * EVar vDmglst1 * EVar vMst1 + EPow P2 (EVar vMst1) - EPow P2 (EVar vMst2)) *
   EPow P4 (EVar vs2t)) / #6 - EVar vxDmglst1 * EPow P2 (EVar vDmglst1) * (EVar vtwoLoopFlag * (#8 * EVar vs2t * (#9 *
   EVar vMuSUSY * EVar vs2t + #40 * EVar vMt * EVar vTbeta) * EPow P2 (EVar vMt) * EPow P2 (EVar vSbeta) * EPow P3
   (EVar vMst1) + EPow P2 (EVar vMst2) * EPow P2 (EVar vs2t) * (- #4 * EVar vTbeta * EPow P2 (EVar vMt) * EPow P2
   (EVar vMuSUSY) * (- #1 + EPow P2 (EVar vSbeta)) - #4 * EVar vMt * EVar vMuSUSY * EVar vs2t * EPow P2 (EVar vMst2) *
   EPow P2 (EVar vSbeta) + EVar vTbeta * EPow P2 (EVar vs2t) * EPow P2 (EVar vSbeta) * EPow P4 (EVar vMst2)) - #24 *
   EVar vMst1 * EVar vMt * (- #3 * EVar vMt * EVar vMuSUSY * EPow P2 (EVar vMst2) * EPow P2 (EVar vs2t) * EPow P2
   (EVar vSbeta) - #2 * EVar vs2t * EVar vTbeta * EPow P2 (EVar vMt) * (EPow P2 (EVar vMuSUSY) * (- #1 + EPow P2 (EVar
   vSbeta)) + #2 * EPow P2 (EVar vMst2) * EPow P2 (EVar vSbeta)) + #4 * EVar vMuSUSY * EPow P2 (EVar vSbeta) * EPow P3
   (EVar vMt) + EVar vTbeta * EPow P2 (EVar vSbeta) * EPow P3 (EVar vs2t) * EPow P4 (EVar vMst2)) - EVar vTbeta * EPow
   P2 (EVar vMst1) * (#4 * EPow P2 (EVar vMt) * EPow P2 (EVar vMuSUSY) * EPow P2 (EVar vs2t) * (- #1 + EPow P2 (EVar
   vSbeta)) + #96 * EPow P2 (EVar vSbeta) * EPow P4 (EVar vMt) + EPow P2 (EVar vSbeta) * EPow P4 (EVar vMst2) * EPow
   P4 (EVar vs2t))) / (#3 * EVar vTbeta * EPow P2 (EVar vSbeta) * EPow P4 (EVar vMst2)) + EVar vAl4p * EVar
   vthreeLoopFlag * (- (EVar vMt * EPow P3 (EVar vs2t) * ((EDec 5275555555555555 13 - #160 * EVar vlmMsq - #76 * EVar
   vlmMst1 + #332 * EVar vlmMst2) * EVar vMst1 - #240 * EPow P3 (EVar vMst1) / EPow P2 (EVar vMsq) + (EDec
   22962962962962963 16 - #312 * EVar vlmMst1 + #312 * EVar vlmMst2) * EPow P3 (EVar vMst1) / EPow P2 (EVar vMst2) +
   #20 * EPow P2 (EVar vMst2) * (#4 * EVar vMst1 * EPow P2 (EVar vMsq) + #5 * EPow P3 (EVar vMst1)) / (#3 * EPow P4
   (EVar vMsq)))) + EPow P2 (EVar vMt) * EPow P2 (EVar vs2t) * (EDec 2277037037037037 13 + #80 * EVar vlmMst1 / #9 +
   #304 * EVar vlmMst2 / #9 + #4 * (- #1861 + #906 * EVar vlmMst1 - #1866 * EVar vlmMst2) * EPow P2 (EVar vMst1) / (#9
   * EPow P2 (EVar vMst2)) - #22 * EPow P2 (EVar vMst2) / EPow P2 (EVar vMst1) - EPow P2 (EVar vMuSUSY) * (#10 / (#3 *
   EPow P2 (EVar vMsq)) + #11 / EPow P2 (EVar vMst1) + (EDec 8666666666666667 14 - #20 * EVar vlmMsq - #278 * EVar
   vlmMst1 / #9 + #70 * EVar vlmMst2 - #60 * EPow P2 (EVar vMst1) / EPow P2 (EVar vMsq)) / EPow P2 (EVar vMst2) + EPow
   P2 (EVar vMst1) * (#25 / (#3 * EPow P4 (EVar vMsq)) - (EDec 1135 1 + #20 * EVar vlmMsq + #598 * EVar vlmMst1 / #9 -
   #950 * EVar vlmMst2 / #9) / EPow P4 (EVar vMst2)))) - EVar vMt * EVar vMuSUSY * (EPow P3 (EVar vs2t) * (EDec
   7566666666666667 14 - #20 * EVar vlmMsq - #278 * EVar vlmMst1 / #9 + #70 * EVar vlmMst2 - EPow P2 (EVar vMst1) *
   (#190 / (#3 * EPow P2 (EVar vMsq)) + (#3603 + #640 * EVar vlmMst1 - #640 * EVar vlmMst2) / (#18 * EPow P2 (EVar
   vMst2))) + EPow P2 (EVar vMst2) * (#10 / (#3 * EPow P2 (EVar vMsq)) + #11 / EPow P2 (EVar vMst1) + #25 * EPow P2
   (EVar vMst1) / (#3 * EPow P4 (EVar vMsq)))) - EVar vMt * EPow P2 (EVar vs2t) * (#80 * EVar vMst1 / EPow P2 (EVar
   vMsq) + EVar vMst1 * (EDec 15826666666666667 13 - #480 * EVar vlmMsq - #228 * EVar vlmMst1 + #996 * EVar vlmMst2 -
   #640 * EPow P2 (EVar vMst1) / EPow P2 (EVar vMsq)) / EPow P2 (EVar vMst2) + EPow P3 (EVar vMst1) * (#100 / EPow P4
   (EVar vMsq) - #2 * (- #7153 + #2160 * EVar vlmMsq + #5238 * EVar vlmMst1 - #8694 * EVar vlmMst2) / (#9 * EPow P4
   (EVar vMst2)))) + #4 * EPow P2 (EVar vMt) * (EVar vs2t * ((#2777 + #120 * EVar vlmMst1 + #456 * EVar vlmMst2) *
   EPow P2 (EVar vMst1) * EPow P2 (EVar vMst2) + (- #8389 + #5556 * EVar vlmMst1 - #10740 * EVar vlmMst2) * EPow P4
   (EVar vMst1) - #297 * EPow P4 (EVar vMst2)) + #12 * EVar vMt * EPow P3 (EVar vMst1) * (- #600 * EPow P2 (EVar vMsq)
   * EPow P2 (EVar vMst1) + (#1391 - #360 * EVar vlmMsq - #66 * EVar vlmMst1 + #813 * EVar vlmMst2 + #21 * EVar vlmMt)
   * EPow P4 (EVar vMsq) + #30 * EPow P4 (EVar vMst2)) / EPow P4 (EVar vMsq)) / (#27 * EPow P2 (EVar vMst1) * EPow P4
   (EVar vMst2))) / EVar vTbeta + #4 * (#360 / EPow P2 (EVar vMsq) + #297 / EPow P2 (EVar vMst1) + (#604 + #432 * EVar
   vlmMst2 - #432 * EVar vlmMt) / EPow P2 (EVar vMst2) + #90 * (#11 * EPow P2 (EVar vMst1) + EPow P2 (EVar vMst2)) /
   EPow P4 (EVar vMsq) + #12 * (- #1584 + #450 * EVar vlmMsq + #211 * EVar vlmMst1 - #736 * EVar vlmMst2 - #3 * EVar
   vlmMt) * EPow P2 (EVar vMst1) / EPow P4 (EVar vMst2) - #12 * (#55 + #16 * EVar vlmMst2) * EPow P2 (EVar vMuSUSY) /
   EPow P4 (EVar vMst2)) * EPow P4 (EVar vMt) / #27 + (#4 * EPow P2 (EVar vMst2) * (#291 - #90 * EVar vlmMsq - #139 *
   EVar vlmMst1 + #315 * EVar vlmMst2 + #15 * EPow P2 (EVar vMst2) / EPow P2 (EVar vMsq)) + #198 * EPow P4 (EVar
   vMst2) / EPow P2 (EVar vMst1) + EPow P2 (EVar vMst1) * (- #4965 + #360 * EVar vlmMsq - #84 * EVar vlmMst1 - #620 *
   EVar vlmMst2 - #1200 * EPow P2 (EVar vMst2) / EPow P2 (EVar vMsq) + #150 * EPow P4 (EVar vMst2) / EPow P4 (EVar
   vMsq))) * EPow P4 (EVar vs2t) / #72 + EPow P2 (EVar vMt) * (#3 * EPow P2 (EVar vMuSUSY) * (#150 * EVar vs2t * EPow
   P2 (EVar vMst2) * (- #8 * EVar vMst1 * EVar vMt + EVar vs2t * EPow P2 (EVar vMst2)) * EPow P4 (EVar vMst1) + #60 *
   EVar vs2t * EPow P2 (EVar vMsq) * EPow P2 (EVar vMst1) * (- #16 * EVar vMst1 * EVar vMt * EPow P2 (EVar vMst2) -
   #18 * EVar vs2t * EPow P2 (EVar vMst1) * EPow P2 (EVar vMst2) + #112 * EVar vMt * EPow P3 (EVar vMst1) + EVar vs2t
   * EPow P4 (EVar vMst2)) + EPow P4 (EVar vMsq) * (#4 * EPow P2 (EVar vMst1) * (#8 * (#55 + #16 * EVar vlmMst2) *
   EPow P2 (EVar vMt) + (#390 - #90 * EVar vlmMsq - #139 * EVar vlmMst1 + #315 * EVar vlmMst2) * EPow P2 (EVar vMst2)
   * EPow P2 (EVar vs2t)) + #16 * (- #1187 + #360 * EVar vlmMsq + #171 * EVar vlmMst1 - #747 * EVar vlmMst2) * EVar
   vMt * EVar vs2t * EPow P3 (EVar vMst1) - (#2043 + #360 * EVar vlmMsq + #1196 * EVar vlmMst1 - #1900 * EVar vlmMst2)
   * EPow P2 (EVar vs2t) * EPow P4 (EVar vMst1) + #198 * EPow P2 (EVar vs2t) * EPow P4 (EVar vMst2))) / EPow P2 (EVar
   vSbeta) + #16 * EVar vMt * EVar vs2t * EPow P3 (EVar vMst1) * (#180 * EPow P2 (EVar vMsq) * (EPow P2 (EVar vMst2) *
   EPow P2 (EVar vMuSUSY) - EPow P2 (EVar vMst1) * (#20 * EPow P2 (EVar vMst2) + #7 * EPow P2 (EVar vMuSUSY))) +
   ((#42755 - #10800 * EVar vlmMsq - #1500 * EVar vlmMst1 + #20334 * EVar vlmMst2 + #366 * EVar vlmMt) * EPow P2 (EVar
   vMst1) + #3 * (#2761 - #720 * EVar vlmMsq - #132 * EVar vlmMst1 + #1626 * EVar vlmMst2 + #42 * EVar vlmMt) * EPow
   P2 (EVar vMst2) + #3 * (#1187 - #360 * EVar vlmMsq - #171 * EVar vlmMst1 + #747 * EVar vlmMst2) * EPow P2 (EVar
   vMuSUSY)) * EPow P4 (EVar vMsq) + #45 * (EPow P2 (EVar vMst1) * (#5 * EPow P2 (EVar vMst2) * EPow P2 (EVar vMuSUSY)
   - #4 * EPow P4 (EVar vMst2)) + #4 * EPow P6 (EVar vMst2)))) / (#54 * EPow P2 (EVar vMst1) * EPow P4 (EVar vMsq) *
   EPow P4 (EVar vMst2))))) + EVar vxDmglst1 * EPow P2 (EVar vDmglst1) * (EVar vtwoLoopFlag * (- #72 * EVar vMst1 *
   EVar vMt * EPow P3 (EVar vs2t) * (- ((#8 + #7 * EVar vlmMst2 - EVar vlmMst1 * (#7 + #6 * EVar vlmMst2) + #3 * (EPow
   P2 (EVar vlmMst1) + EPow P2 (EVar vlmMst2))) * EPow P2 (EVar vMst1) * EPow P2 (EVar vMst2)) + #6 * (#1 + #2 * EVar
   vlmMst1 - #2 * EVar vlmMst2) * EPow P4 (EVar vMst1) + #2 * EPow P4 (EVar vMst2)) / EPow P2 (EVar vMst2) + #9 * (-
   ((#8 - #2 * EVar vlmMst1 + EVar vlmMst2 - EPow P2 (EVar vlmMst1) + EPow P2 (EVar vlmMst2)) * EPow P2 (EVar vMst1) *
   EPow P2 (EVar vMst2)) + (#6 + #8 * EVar vlmMst1 - #7 * EVar vlmMst2 - EPow P2 (EVar vlmMst1) + EPow P2 (EVar
   vlmMst2)) * EPow P4 (EVar vMst1) - (- #2 + EVar vlmMst1) * EPow P4 (EVar vMst2)) * EPow P4 (EVar vs2t) + #4 * EVar
   vMt * (#12 * EPow P3 (EVar vMt) * (- #3 * (#1 + EVar vlmMt) * EPow P2 (EVar vMst1) * EPow P2 (EVar vMst2) + #3 *
   (#7 + EVar vlmMst2 * (#19 - #6 * EVar vlmMt) - #6 * EVar vlmMst1 * (#1 + EVar vlmMst2 - EVar vlmMt) - #13 * EVar
   vlmMt + #6 * EPow P2 (EVar vlmMst2)) * EPow P4 (EVar vMst1) + (#4 - #3 * EVar vlmMst1) * EPow P4 (EVar vMst2)) +
   EVar vMt * EVar vs2t * (- #2 * EVar vMst1 * EVar vMt * (- #36 * EPow P2 (EVar vMst2) * EPow P2 (EVar vMuSUSY) + #18
   * EPow P2 (EVar vMst1) * ((#5 + EVar vlmMst2 * (#68 - #20 * EVar vlmMt) - #10 * EVar vlmMst1 * (#5 + #2 * EVar
   vlmMst2 - #2 * EVar vlmMt) - #18 * EVar vlmMt + #20 * EPow P2 (EVar vlmMst2)) * EPow P2 (EVar vMst1) + (#5 - #3 *
   EVar vlmMst1 + #3 * EVar vlmMst2) * (#1 + #2 * EVar vlmMst2 - #2 * EVar vlmMt) * EPow P2 (EVar vMst2) + (#4 + #7 *
   EVar vlmMst2 - EVar vlmMst1 * (#7 + #6 * EVar vlmMst2) + #3 * (EPow P2 (EVar vlmMst1) + EPow P2 (EVar vlmMst2))) *
   EPow P2 (EVar vMuSUSY)) + (- #107 + #30 * EVar vlmMst1 - #30 * EVar vlmMt) * EPow P4 (EVar vMst2)) - #9 * EPow P2
   (EVar vMuSUSY) * (#8 * EVar vMst1 * EVar vMt * EPow P2 (EVar vMst2) + EVar vs2t * (#4 + EVar vlmMst2 - EPow P2
   (EVar vlmMst1) + EPow P2 (EVar vlmMst2)) * EPow P2 (EVar vMst1) * EPow P2 (EVar vMst2) - #4 * EVar vMt * (#4 + #7 *
   EVar vlmMst2 - EVar vlmMst1 * (#7 + #6 * EVar vlmMst2) + #3 * EPow P2 (EVar vlmMst1) + #3 * EPow P2 (EVar vlmMst2))
   * EPow P3 (EVar vMst1) + EVar vs2t * (#4 - #9 * EVar vlmMst1 + #9 * EVar vlmMst2 - EPow P2 (EVar vlmMst1) + EPow P2
   (EVar vlmMst2)) * EPow P4 (EVar vMst1) + (- #2 + EVar vlmMst1) * EVar vs2t * EPow P4 (EVar vMst2)) / EPow P2 (EVar
   vSbeta)) - #3 * EVar vMt * EPow P2 (EVar vs2t) * (#3 * (#2 * (#6 - #6 * EVar vlmMst1 + #5 * EVar vlmMst2) * EPow P2
   (EVar vMst2) + (- #4 + #9 * EVar vlmMst1 - #9 * EVar vlmMst2 + EPow P2 (EVar vlmMst1) - EPow P2 (EVar vlmMst2)) *
   EPow P2 (EVar vMuSUSY)) * EPow P4 (EVar vMst1) - #3 * (- #2 + EVar vlmMst1) * EPow P2 (EVar vMuSUSY) * EPow P4
   (EVar vMst2) - EPow P2 (EVar vMst1) * (#3 * (#4 + EVar vlmMst2 - EPow P2 (EVar vlmMst1) + EPow P2 (EVar vlmMst2)) *
   EPow P2 (EVar vMst2) * EPow P2 (EVar vMuSUSY) + (#5 - #6 * (EVar vlmMst1 + EVar vlmMst2)) * EPow P4 (EVar vMst2)) +
   (#11 - #6 * EVar vlmMst1) * EPow P6 (EVar vMst2)) + EVar vMuSUSY * (- #2 * EPow P3 (EVar vMst1) * (#27 * EVar vMt *
   (#6 + #7 * EVar vlmMst2 - EVar vlmMst1 * (#7 + #6 * EVar vlmMst2) + #3 * EPow P2 (EVar vlmMst1) + #3 * EPow P2
   (EVar vlmMst2)) * EPow P2 (EVar vMst2) * EPow P2 (EVar vs2t) + #2 * (#61 - #90 * EVar vlmMst2 + #3 * EVar vlmMst1 *
   (- #5 + #18 * EVar vlmMst2 - #18 * EVar vlmMt) + #105 * EVar vlmMt + #54 * EVar vlmMst2 * EVar vlmMt - #54 * EPow
   P2 (EVar vlmMst2)) * EPow P3 (EVar vMt)) - #9 * (#4 * (- #7 + #6 * EVar vlmMst1 - #6 * EVar vlmMst2) * EVar vs2t *
   EPow P2 (EVar vMt) + (#9 * EVar vlmMst1 - #8 * EVar vlmMst2) * EPow P2 (EVar vMst2) * EPow P3 (EVar vs2t)) * EPow
   P4 (EVar vMst1) + #6 * (#11 - #6 * EVar vlmMst1) * EVar vs2t * EPow P2 (EVar vMt) * EPow P4 (EVar vMst2) + #4 *
   EVar vMst1 * ((- #61 + #15 * EVar vlmMst1 - #15 * EVar vlmMt) * EPow P2 (EVar vMst2) * EPow P3 (EVar vMt) + #27 *
   EVar vMt * EPow P2 (EVar vs2t) * EPow P4 (EVar vMst2)) + #9 * EPow P2 (EVar vMst1) * (#4 * (#1 + EVar vlmMst2) *
   EVar vs2t * EPow P2 (EVar vMst2) * EPow P2 (EVar vMt) + (#6 - EVar vlmMst1 + EVar vlmMst2 - EPow P2 (EVar vlmMst1)
   + EPow P2 (EVar vlmMst2)) * EPow P3 (EVar vs2t) * EPow P4 (EVar vMst2)) - #54 * EVar vMt * (EVar vlmMst2 * (#19 +
   #3 * EVar vlmMst2) - EVar vlmMst1 * (#19 + #6 * EVar vlmMst2) + #3 * EPow P2 (EVar vlmMst1)) * EPow P2 (EVar vs2t)
   * EPow P5 (EVar vMst1) + #9 * (- #2 + EVar vlmMst1) * EPow P3 (EVar vs2t) * EPow P6 (EVar vMst2)) / EVar vTbeta) /
   EPow P4 (EVar vMst2)) / (#54 * EPow P2 (EVar vMst1)) + EVar vAl4p * EVar vthreeLoopFlag * (#800 * EPow P2 (EVar
   vMt) * (- (EPow P2 (EVar vs2t) * (#972470 - #1728 * EConst CB4 - #864 * EConst CDN + #9720 * EVar vlmMsq + #60 *
   (#1225 - #324 * EVar vlmMsq) * EVar vlmMst1 + #19440 * EPow P2 (EVar vlmMsq) + #13320 * EPow P2 (EVar vlmMst1) +
   #12 * EVar vlmMst2 * (#18367 - #1620 * EVar vlmMsq + #660 * EVar vlmMst1 + #432 * EPow P2 (EVar vlmMst1)) + #72 *
   (#809 + #168 * EVar vlmMst1) * EPow P2 (EVar vlmMst2) + #3456 * EVar vlmMt * (#17 * (#1 + EVar vlmMst2) - EVar
   vlmMst1 * (#17 + #6 * EVar vlmMst2) + #3 * (EPow P2 (EVar vlmMst1) + EPow P2 (EVar vlmMst2))) - #36 * (#30 * (#5 +
   #60 * EVar vlmMsq - #66 * EVar vlmMst1 + #6 * EVar vlmMst2) / EPow P2 (EVar vMsq) + (#4717 - #540 * EVar vlmMsq *
   (- #2 + EVar vlmMst1) - #252 * EVar vlmMst2 + #2 * EVar vlmMst1 * (- #661 + #69 * EVar vlmMst2) + #270 * EPow P2
   (EVar vlmMsq) + #75 * EPow P2 (EVar vlmMst1) + #27 * EPow P2 (EVar vlmMst2)) / EPow P2 (EVar vMst1)) * EPow P2
   (EVar vMst2) - #14400 * EPow P3 (EVar vlmMst1) - #2880 * EPow P3 (EVar vlmMst2) - #6 * EPow P2 (EVar vMst1) * (#540
   * (#35 - #40 * EVar vlmMsq + #22 * EVar vlmMst1 + #18 * EVar vlmMst2) / EPow P2 (EVar vMsq) + (#2897 - #5178 * EVar
   vlmMst2 + #540 * EVar vlmMsq * (#85 - #60 * EVar vlmMst1 + #54 * EVar vlmMst2) + #1620 * EPow P2 (EVar vlmMsq) -
   #432 * (- #283 + #12 * EVar vlmMst2 + #48 * EVar vlmMt) * EPow P2 (EVar vlmMst1) + #6 * EVar vlmMst1 * (#2345 +
   #9696 * EVar vlmMt + #144 * EVar vlmMst2 * (- #305 + #48 * EVar vlmMt) - #9504 * EPow P2 (EVar vlmMst2)) + #149616
   * EPow P2 (EVar vlmMst2) - #576 * EVar vlmMt * (#54 + #101 * EVar vlmMst2 + #36 * EPow P2 (EVar vlmMst2)) + #24768
   * EPow P3 (EVar vlmMst1) + #37440 * EPow P3 (EVar vlmMst2)) / EPow P2 (EVar vMst2)) - #9 * EPow P2 (EVar vMuSUSY) *
   ((#6415 + #60 * EVar vlmMsq * (#37 - #18 * EVar vlmMst1) - #1314 * EVar vlmMst2 + #10 * EVar vlmMst1 * (- #97 + #66
   * EVar vlmMst2) + #540 * EPow P2 (EVar vlmMsq) - #234 * EPow P2 (EVar vlmMst1) + #54 * EPow P2 (EVar vlmMst2)) /
   EPow P2 (EVar vMst1) + (#20 * (#160 - #213 * EVar vlmMst1 + #18 * EVar vlmMsq * (#8 + EVar vlmMst1 - EVar vlmMst2)
   + #69 * EVar vlmMst2 - #9 * EPow P2 (EVar vlmMst1) + #9 * EPow P2 (EVar vlmMst2)) + #4 * (- #90 * (#25 - #11 * EVar
   vlmMst1 + #2 * EVar vlmMsq * (- #5 + #9 * EVar vlmMst1 - #9 * EVar vlmMst2) + #21 * EVar vlmMst2 - #9 * EPow P2
   (EVar vlmMst1) + #9 * EPow P2 (EVar vlmMst2)) * EPow P2 (EVar vMst1) + EPow P2 (EVar vMsq) * (#265 + #36 * EConst
   CB4 + #30 * EConst CDN - #1935 * EVar vlmMsq + EVar vlmMst1 * (#2178 + #270 * EVar vlmMsq - #270 * EPow P2 (EVar
   vlmMsq)) + #135 * EPow P2 (EVar vlmMsq) + #3 * EVar vlmMst2 * (#353 - #180 * EVar vlmMsq + #86 * EVar vlmMst1 + #90
   * EPow P2 (EVar vlmMsq) - #79 * EPow P2 (EVar vlmMst1)) + #30 * (- #13 + #9 * EVar vlmMsq) * EPow P2 (EVar vlmMst1)
   - #3 * (- #372 + #90 * EVar vlmMsq + #49 * EVar vlmMst1) * EPow P2 (EVar vlmMst2) - #65 * EPow P3 (EVar vlmMst1) +
   #449 * EPow P3 (EVar vlmMst2))) / EPow P2 (EVar vMst2)) / EPow P2 (EVar vMsq) - #45 * EPow P2 (EVar vMst2) / EPow
   P4 (EVar vMsq) + #108 * EPow P2 (EVar vMst1) * ((#10585 - #8070 * EVar vlmMst1 + #5370 * EVar vlmMst2 - #900 * EPow
   P2 (EVar vlmMst1) + #900 * (EVar vlmMsq * (#3 + #2 * EVar vlmMst1 - #2 * EVar vlmMst2) + EPow P2 (EVar vlmMst2))) /
   (#216 * EPow P4 (EVar vMsq)) + (EDec 12929128086419752 14 - #52 * EConst CB4 / #9 - #22 * EConst CDN / #9 - #380 *
   EVar vlmMsq / #3 - EVar vlmMst1 * (EDec 15047685185185185 14 - #160 * EVar vlmMsq + #10 * EPow P2 (EVar vlmMsq)) +
   #5 * (- #57 + #8 * EVar vlmMsq) * EPow P2 (EVar vlmMst1) / #4 + EVar vlmMst2 * (EDec 3246990740740741 13 - #160 *
   EVar vlmMsq - #3383 * EVar vlmMst1 / #18 + #10 * EPow P2 (EVar vlmMsq) + #833 * EPow P2 (EVar vlmMst1) / #9) - (-
   #8947 + #360 * EVar vlmMsq + #4868 * EVar vlmMst1) * EPow P2 (EVar vlmMst2) / #36 - #721 * EPow P3 (EVar vlmMst1) /
   #27 + #1873 * EPow P3 (EVar vlmMst2) / #27) / EPow P4 (EVar vMst2))) - #135 * (#3 * (#59 + #148 * EVar vlmMsq -
   #184 * EVar vlmMst1 + #36 * EVar vlmMst2) * EPow P2 (EVar vMst1) * EPow P2 (EVar vMst2) + (#13 - #12 * EVar vlmMsq
   + #12 * EVar vlmMst2) * EPow P4 (EVar vMst2)) / EPow P4 (EVar vMsq))) - #3 * EPow P2 (EVar vMuSUSY) * (#3 * EPow P2
   (EVar vs2t) * ((#6415 - #60 * EVar vlmMsq * (- #37 + #18 * EVar vlmMst1) - #1314 * EVar vlmMst2 + #10 * EVar
   vlmMst1 * (- #97 + #66 * EVar vlmMst2) + #540 * EPow P2 (EVar vlmMsq) - #234 * EPow P2 (EVar vlmMst1) + #54 * EPow
   P2 (EVar vlmMst2)) / EPow P2 (EVar vMst1) + (#20 * (#160 - #213 * EVar vlmMst1 + #18 * EVar vlmMsq * (#8 + EVar
   vlmMst1 - EVar vlmMst2) + #69 * EVar vlmMst2 - #9 * EPow P2 (EVar vlmMst1) + #9 * EPow P2 (EVar vlmMst2)) + #4 * (-
   #90 * (#25 - #11 * EVar vlmMst1 + #2 * EVar vlmMsq * (- #5 + #9 * EVar vlmMst1 - #9 * EVar vlmMst2) + #21 * EVar
   vlmMst2 - #9 * EPow P2 (EVar vlmMst1) + #9 * EPow P2 (EVar vlmMst2)) * EPow P2 (EVar vMst1) + EPow P2 (EVar vMsq) *
   (#265 + #36 * EConst CB4 + #30 * EConst CDN - #1935 * EVar vlmMsq + EVar vlmMst1 * (#2178 + #270 * EVar vlmMsq -
   #270 * EPow P2 (EVar vlmMsq)) + #135 * EPow P2 (EVar vlmMsq) + #3 * EVar vlmMst2 * (#353 - #180 * EVar vlmMsq + #86
   * EVar vlmMst1 + #90 * EPow P2 (EVar vlmMsq) - #79 * EPow P2 (EVar vlmMst1)) + #30 * (- #13 + #9 * EVar vlmMsq) *
   EPow P2 (EVar vlmMst1) - #3 * (- #372 + #90 * EVar vlmMsq + #49 * EVar vlmMst1) * EPow P2 (EVar vlmMst2) - #65 *
   EPow P3 (EVar vlmMst1) + #449 * EPow P3 (EVar vlmMst2))) / EPow P2 (EVar vMst2)) / EPow P2 (EVar vMsq) + #108 *
   EPow P2 (EVar vMst1) * (#5 * (#2117 - #1614 * EVar vlmMst1 + #1074 * EVar vlmMst2 - #180 * EPow P2 (EVar vlmMst1) +
   #180 * (EVar vlmMsq * (#3 + #2 * EVar vlmMst1 - #2 * EVar vlmMst2) + EPow P2 (EVar vlmMst2))) / (#216 * EPow P4
   (EVar vMsq)) + (EDec 12929128086419752 14 - #52 * EConst CB4 / #9 - #22 * EConst CDN / #9 - #380 * EVar vlmMsq / #3
   - EVar vlmMst1 * (EDec 15047685185185185 14 - #160 * EVar vlmMsq + #10 * EPow P2 (EVar vlmMsq)) + #5 * (- #57 + #8
   * EVar vlmMsq) * EPow P2 (EVar vlmMst1) / #4 + EVar vlmMst2 * (EDec 3246990740740741 13 - #160 * EVar vlmMsq -
   #3383 * EVar vlmMst1 / #18 + #10 * EPow P2 (EVar vlmMsq) + #833 * EPow P2 (EVar vlmMst1) / #9) - (- #8947 + #360 *
   EVar vlmMsq + #4868 * EVar vlmMst1) * EPow P2 (EVar vlmMst2) / #36 - #721 * EPow P3 (EVar vlmMst1) / #27 + #1873 *
   EPow P3 (EVar vlmMst2) / #27) / EPow P4 (EVar vMst2))) + #8 * EVar vMt * (#4 * EVar vMt * (#5483 - #18 * EConst CB4
   - #9 * EConst CDN + #418 * EVar vlmMst1 + #102 * EPow P2 (EVar vlmMst1) + #2 * EVar vlmMst2 * (#739 - #42 * EVar
   vlmMst1 + #9 * EPow P2 (EVar vlmMst1)) + #54 * (#5 + EVar vlmMst1) * EPow P2 (EVar vlmMst2) + #24 * EVar vlmMt *
   (#17 + #17 * EVar vlmMst2 - EVar vlmMst1 * (#17 + #6 * EVar vlmMst2) + #3 * EPow P2 (EVar vlmMst1) + #3 * EPow P2
   (EVar vlmMst2)) - #78 * EPow P3 (EVar vlmMst1) + #6 * EPow P3 (EVar vlmMst2)) - #3 * EVar vs2t * (((#5875 + #1020 *
   EVar vlmMsq - #478 * EVar vlmMst1 - #610 * EVar vlmMst2 - #576 * EPow P2 (EVar vlmMst1)) * EPow P2 (EVar vMst2) +
   #2 * EPow P2 (EVar vMst1) * (#6129 + #684 * EConst CB4 - #18 * EConst CDN - #3630 * EVar vlmMsq + #6 * (- #251 +
   #600 * EVar vlmMsq) * EVar vlmMst1 + EVar vlmMst2 * (#6914 - #1122 * EVar vlmMst1 + #720 * EVar vlmMsq * (- #5 + #3
   * EVar vlmMst1) - #1179 * EPow P2 (EVar vlmMst1)) - #3 * (#997 + #360 * EVar vlmMsq) * EPow P2 (EVar vlmMst1) - #9
   * (- #393 + #120 * EVar vlmMsq + #125 * EVar vlmMst1) * EPow P2 (EVar vlmMst2) + #1353 * EPow P3 (EVar vlmMst1) +
   #951 * EPow P3 (EVar vlmMst2))) * EPow P4 (EVar vMsq) + #5 * (#983 - #159 * EVar vlmMst1 + #180 * EVar vlmMsq * (-
   #2 + EVar vlmMst1 - EVar vlmMst2) + #519 * EVar vlmMst2 - #90 * EPow P2 (EVar vlmMst1) + #90 * EPow P2 (EVar
   vlmMst2)) * EPow P2 (EVar vMst2) * EPow P4 (EVar vMst1) + #20 * EPow P2 (EVar vMsq) * ((#311 - #66 * EVar vlmMst1 +
   #36 * EVar vlmMsq * (- #2 + EVar vlmMst1 - EVar vlmMst2) + #138 * EVar vlmMst2 - #18 * EPow P2 (EVar vlmMst1) + #18
   * EPow P2 (EVar vlmMst2)) * EPow P2 (EVar vMst1) * EPow P2 (EVar vMst2) + (#29 - #6 * EVar vlmMst1 + #36 * EVar
   vlmMsq * (- #2 + #3 * EVar vlmMst1 - #3 * EVar vlmMst2) + #78 * EVar vlmMst2 + #360 * EVar vlmMst1 * EVar vlmMst2 -
   #234 * EPow P2 (EVar vlmMst1) - #126 * EPow P2 (EVar vlmMst2)) * EPow P4 (EVar vMst1)) - #90 * EPow P2 (EVar vMst1)
   * EPow P4 (EVar vMst2)) / (EVar vMst1 * EPow P4 (EVar vMsq))) / EPow P4 (EVar vMst2)) / EPow P2 (EVar vSbeta)) + (-
   #75 * EPow P4 (EVar vMst2) * (#60 * (#2153 - #1614 * EVar vlmMst1 + #1074 * EVar vlmMst2 - #180 * EPow P2 (EVar
   vlmMst1) + #180 * (EVar vlmMsq * (#3 + #2 * EVar vlmMst1 - #2 * EVar vlmMst2) + EPow P2 (EVar vlmMst2))) * EPow P4
   (EVar vMst1) * EPow P4 (EVar vMst2) + EPow P4 (EVar vMsq) * (- #48 * EPow P2 (EVar vMst1) * EPow P2 (EVar vMst2) *
   (#5885 - #72 * EConst CB4 - #60 * EConst CDN + #6090 * EVar vlmMsq + #270 * EPow P2 (EVar vlmMsq) + #2 * EVar
   vlmMst1 * (- #2663 - #810 * EVar vlmMsq + #270 * EPow P2 (EVar vlmMsq)) - #6 * EVar vlmMst2 * (#572 - #180 * EVar
   vlmMsq - #24 * EVar vlmMst1 + #90 * EPow P2 (EVar vlmMsq) - #79 * EPow P2 (EVar vlmMst1)) - #6 * (- #91 + #90 *
   EVar vlmMsq) * EPow P2 (EVar vlmMst1) + #6 * (- #363 + #90 * EVar vlmMsq + #49 * EVar vlmMst1) * EPow P2 (EVar
   vlmMst2) + #130 * EPow P3 (EVar vlmMst1) - #898 * EPow P3 (EVar vlmMst2)) + (#438203 - #21888 * EConst CB4 - #12096
   * EConst CDN + #96480 * EVar vlmMsq - #12960 * EPow P2 (EVar vlmMsq) + #108 * EVar vlmMst1 * (- #7699 + #3120 *
   EVar vlmMsq + #240 * EPow P2 (EVar vlmMsq)) - #12 * EVar vlmMst2 * (- #50563 + #25920 * EVar vlmMsq + #43404 * EVar
   vlmMst1 + #2160 * EPow P2 (EVar vlmMsq) - #23784 * EPow P2 (EVar vlmMst1)) - #72 * (#1603 + #360 * EVar vlmMsq) *
   EPow P2 (EVar vlmMst1) + #72 * (#5989 + #360 * EVar vlmMsq - #4476 * EVar vlmMst1) * EPow P2 (EVar vlmMst2) -
   #56736 * EPow P3 (EVar vlmMst1) + #93600 * EPow P3 (EVar vlmMst2)) * EPow P4 (EVar vMst1) + #24 * (#6415 + #60 *
   EVar vlmMsq * (#37 - #18 * EVar vlmMst1) - #970 * EVar vlmMst1 + #6 * (- #219 + #110 * EVar vlmMst1) * EVar vlmMst2
   + #540 * EPow P2 (EVar vlmMsq) - #234 * EPow P2 (EVar vlmMst1) + #54 * EPow P2 (EVar vlmMst2)) * EPow P4 (EVar
   vMst2)) - #480 * EPow P2 (EVar vMsq) * (#2 * (#385 - #312 * EVar vlmMst1 + #18 * EVar vlmMsq * (#3 + #10 * EVar
   vlmMst1 - #10 * EVar vlmMst2) + #258 * EVar vlmMst2 - #90 * EPow P2 (EVar vlmMst1) + #90 * EPow P2 (EVar vlmMst2))
   * EPow P2 (EVar vMst2) * EPow P4 (EVar vMst1) - (#160 - #213 * EVar vlmMst1 + #18 * EVar vlmMsq * (#8 + EVar
   vlmMst1 - EVar vlmMst2) + #69 * EVar vlmMst2 - #9 * EPow P2 (EVar vlmMst1) + #9 * EPow P2 (EVar vlmMst2)) * EPow P2
   (EVar vMst1) * EPow P4 (EVar vMst2))) * EPow P4 (EVar vs2t) + #400 * EVar vMst1 * EVar vMt * EPow P2 (EVar vMst2) *
   EPow P3 (EVar vs2t) * (EPow P4 (EVar vMsq) * (#144 * EPow P2 (EVar vMst1) * EPow P2 (EVar vMst2) * (#254 + #684 *
   EConst CB4 - #18 * EConst CDN - #4650 * EVar vlmMsq + #4 * (- #257 + #900 * EVar vlmMsq) * EVar vlmMst1 + #3 * EVar
   vlmMst2 * (#2508 - #374 * EVar vlmMst1 + #240 * EVar vlmMsq * (- #5 + #3 * EVar vlmMst1) - #393 * EPow P2 (EVar
   vlmMst1)) - #15 * (#161 + #72 * EVar vlmMsq) * EPow P2 (EVar vlmMst1) - #9 * (- #393 + #120 * EVar vlmMsq + #125 *
   EVar vlmMst1) * EPow P2 (EVar vlmMst2) + #1353 * EPow P3 (EVar vlmMst1) + #951 * EPow P3 (EVar vlmMst2)) +
   (#3124381 + #25920 * EVar vlmMsq * (#4 + #39 * EVar vlmMst1 - #39 * EVar vlmMst2) - #1047828 * EVar vlmMst2 + #72 *
   (- #8423 + #2196 * EVar vlmMst2) * EPow P2 (EVar vlmMst1) + #762120 * EPow P2 (EVar vlmMst2) - #12 * EVar vlmMst1 *
   (- #59671 + #9516 * EVar vlmMst2 + #13176 * EPow P2 (EVar vlmMst2)) - #52704 * EPow P3 (EVar vlmMst1) + #52704 *
   EPow P3 (EVar vlmMst2)) * EPow P4 (EVar vMst1) + #72 * (#5875 + #1020 * EVar vlmMsq - #478 * EVar vlmMst1 - #610 *
   EVar vlmMst2 - #576 * EPow P2 (EVar vlmMst1)) * EPow P4 (EVar vMst2)) - #1440 * EPow P2 (EVar vMsq) * ((#593 - #36
   * EVar vlmMsq * (#2 + EVar vlmMst1 - EVar vlmMst2) - #18 * EVar vlmMst1 * (#7 + #20 * EVar vlmMst2) + #198 * (EVar
   vlmMst2 + EPow P2 (EVar vlmMst1)) + #162 * EPow P2 (EVar vlmMst2)) * EPow P2 (EVar vMst2) * EPow P4 (EVar vMst1) -
   (#311 - #66 * EVar vlmMst1 + #36 * EVar vlmMsq * (- #2 + EVar vlmMst1 - EVar vlmMst2) + #138 * EVar vlmMst2 - #18 *
   EPow P2 (EVar vlmMst1) + #18 * EPow P2 (EVar vlmMst2)) * EPow P2 (EVar vMst1) * EPow P4 (EVar vMst2)) + #360 *
   ((#1019 - #159 * EVar vlmMst1 + #180 * EVar vlmMsq * (- #2 + EVar vlmMst1 - EVar vlmMst2) + #519 * EVar vlmMst2 -
   #90 * EPow P2 (EVar vlmMst1) + #90 * EPow P2 (EVar vlmMst2)) * EPow P4 (EVar vMst1) * EPow P4 (EVar vMst2) - #18 *
   EPow P2 (EVar vMst1) * EPow P6 (EVar vMst2))) + #64 * EPow P3 (EVar vMt) * (- #100 * EVar vMst1 * EVar vs2t * (EPow
   P2 (EVar vMst1) * (#180 * EPow P2 (EVar vMsq) * ((#311 - #66 * EVar vlmMst1 + #36 * EVar vlmMsq * (- #2 + EVar
   vlmMst1 - EVar vlmMst2) + #138 * EVar vlmMst2 - #18 * EPow P2 (EVar vlmMst1) + #18 * EPow P2 (EVar vlmMst2)) * EPow
   P2 (EVar vMst2) * EPow P2 (EVar vMuSUSY) + EPow P2 (EVar vMst1) * (#6 * (- #37 + #30 * EVar vlmMst1 - #30 * EVar
   vlmMst2) * (#1 + #2 * EVar vlmMst2 - #2 * EVar vlmMt) * EPow P2 (EVar vMst2) + (#29 - #6 * EVar vlmMst1 + #36 *
   EVar vlmMsq * (- #2 + #3 * EVar vlmMst1 - #3 * EVar vlmMst2) + #78 * EVar vlmMst2 + #360 * EVar vlmMst1 * EVar
   vlmMst2 - #234 * EPow P2 (EVar vlmMst1) - #126 * EPow P2 (EVar vlmMst2)) * EPow P2 (EVar vMuSUSY)) + #2 * (#203 +
   #12 * EVar vlmMst1 * (- #11 + #3 * EVar vlmMsq - #3 * EVar vlmMt) + #84 * EVar vlmMt + EVar vlmMst2 * (#48 - #36 *
   EVar vlmMsq + #36 * EVar vlmMt)) * EPow P4 (EVar vMst2)) - #45 * EPow P2 (EVar vMst2) * (#18 * EPow P2 (EVar vMst2)
   * EPow P2 (EVar vMuSUSY) - EPow P2 (EVar vMst1) * (#2 * (#742 + #105 * EVar vlmMst2 + #3 * (#89 + #60 * EVar
   vlmMst2) * EVar vlmMt - #72 * EVar vlmMst1 * (#5 + #3 * EVar vlmMt) + #12 * EVar vlmMsq * (- #1 + #18 * EVar
   vlmMst1 - #15 * EVar vlmMst2 + #3 * EVar vlmMt) - #36 * EPow P2 (EVar vlmMsq)) * EPow P2 (EVar vMst2) + (#983 -
   #159 * EVar vlmMst1 + #180 * EVar vlmMsq * (- #2 + EVar vlmMst1 - EVar vlmMst2) + #519 * EVar vlmMst2 - #90 * EPow
   P2 (EVar vlmMst1) + #90 * EPow P2 (EVar vlmMst2)) * EPow P2 (EVar vMuSUSY)) + (#224 - #24 * EVar vlmMsq + EVar
   vlmMst2 * (#102 - #72 * EVar vlmMt) - #78 * EVar vlmMt + #72 * EVar vlmMsq * (EVar vlmMst2 + EVar vlmMt) - #72 *
   EPow P2 (EVar vlmMsq)) * EPow P4 (EVar vMst2))) + EPow P4 (EVar vMsq) * (#9 * (#5875 + #1020 * EVar vlmMsq - #478 *
   EVar vlmMst1 - #610 * EVar vlmMst2 - #576 * EPow P2 (EVar vlmMst1)) * EPow P2 (EVar vMst2) * EPow P2 (EVar vMuSUSY)
   + #2 * (#348947 + #544227 * EVar vlmMst2 - #9 * (#27947 + #7566 * EVar vlmMst2 - #10518 * EVar vlmMt) * EPow P2
   (EVar vlmMst1) + #392355 * EPow P2 (EVar vlmMst2) - #1620 * EVar vlmMsq * (#65 + EVar vlmMst2 * (#224 - #60 * EVar
   vlmMt) - #30 * EVar vlmMst1 * (#5 + #2 * EVar vlmMst2 - #2 * EVar vlmMt) - #74 * EVar vlmMt + #60 * EPow P2 (EVar
   vlmMst2)) - #18 * EVar vlmMt * (#8710 + #7595 * EVar vlmMst2 + #1461 * EPow P2 (EVar vlmMst2)) - #2592 * (#9 + #10
   * EVar vlmMst2) * EPow P2 (EVar vlmMt) - #3 * EVar vlmMst1 * (#70397 + #6 * (#373 + #3798 * EVar vlmMst2) * EVar
   vlmMt - #5292 * EPow P2 (EVar vlmMst2) - #8640 * (EVar vlmMst2 + EPow P2 (EVar vlmMt))) - #8856 * EPow P3 (EVar
   vlmMst1) + #61074 * EPow P3 (EVar vlmMst2)) * EPow P4 (EVar vMst1) + #6 * (EPow P2 (EVar vMst1) * (#3 * EPow P2
   (EVar vMuSUSY) * (#6129 + #684 * EConst CB4 - #18 * EConst CDN - #3630 * EVar vlmMsq + #6 * (- #251 + #600 * EVar
   vlmMsq) * EVar vlmMst1 + EVar vlmMst2 * (#6914 - #1122 * EVar vlmMst1 + #720 * EVar vlmMsq * (- #5 + #3 * EVar
   vlmMst1) - #1179 * EPow P2 (EVar vlmMst1)) - #3 * (#997 + #360 * EVar vlmMsq) * EPow P2 (EVar vlmMst1) - #9 * (-
   #393 + #120 * EVar vlmMsq + #125 * EVar vlmMst1) * EPow P2 (EVar vlmMst2) + #1353 * EPow P3 (EVar vlmMst1) + #951 *
   EPow P3 (EVar vlmMst2)) + EPow P2 (EVar vMst2) * (#10810 + #28427 * EVar vlmMst2 + #540 * EVar vlmMsq * (- #13 + #6
   * EVar vlmMst1 - #6 * EVar vlmMst2) * (#1 + #2 * EVar vlmMst2 - #2 * EVar vlmMt) - #3 * (#239 + #1134 * EVar
   vlmMst2 - #2502 * EVar vlmMt) * EPow P2 (EVar vlmMst1) + #19413 * EPow P2 (EVar vlmMst2) - #6 * EVar vlmMt * (#2272
   + #907 * EVar vlmMst2 + #189 * EPow P2 (EVar vlmMst2)) - #864 * (#5 + #3 * EVar vlmMst2) * EPow P2 (EVar vlmMt) +
   EVar vlmMst1 * (#4789 + EVar vlmMst2 * (#5208 - #6372 * EVar vlmMt) - #12414 * EVar vlmMt - #324 * EPow P2 (EVar
   vlmMst2) + #2592 * EPow P2 (EVar vlmMt)) - #1368 * EPow P3 (EVar vlmMst1) + #5094 * EPow P3 (EVar vlmMst2))) +
   (#29825 - #777 * EVar vlmMst2 + EVar vlmMst1 * (- #9275 + #54 * EVar vlmMst2 - #1578 * EVar vlmMt) - #6 * (- #262 +
   #9 * EVar vlmMst2) * EVar vlmMt + #360 * EVar vlmMsq * (#14 - #3 * EVar vlmMst1 + #3 * EVar vlmMt) + #570 * EPow P2
   (EVar vlmMst1) - #720 * EPow P2 (EVar vlmMt)) * EPow P4 (EVar vMst2)))) + EVar vMt * (#2 * EPow P4 (EVar vMsq) *
   (#4 * EPow P2 (EVar vMst1) * (EPow P2 (EVar vMst2) * (#2829116 - #165375 * EVar vlmMst2 + #30375 * EVar vlmMsq *
   (#3 + #2 * EVar vlmMt) - #15 * EVar vlmMst1 * (#8071 + #4395 * EVar vlmMt + #45 * EVar vlmMst2 * (#49 + #4 * EVar
   vlmMt)) - #30375 * EPow P2 (EVar vlmMsq) + #1350 * (- #70 + EVar vlmMst2 - #31 * EVar vlmMt) * EPow P2 (EVar
   vlmMst1) - #79425 * EPow P2 (EVar vlmMst2) + #45 * EVar vlmMt * (#15327 + #4745 * EVar vlmMst2 + #990 * EPow P2
   (EVar vlmMst2)) - #32400 * EPow P2 (EVar vlmMt) + #13500 * EPow P3 (EVar vlmMst1) - #14850 * EPow P3 (EVar
   vlmMst2)) + #150 * EPow P2 (EVar vMuSUSY) * (#5483 - #18 * EConst CB4 - #9 * EConst CDN + #418 * EVar vlmMst1 +
   #102 * EPow P2 (EVar vlmMst1) + #2 * EVar vlmMst2 * (#739 - #42 * EVar vlmMst1 + #9 * EPow P2 (EVar vlmMst1)) + #54
   * (#5 + EVar vlmMst1) * EPow P2 (EVar vlmMst2) + #24 * EVar vlmMt * (#17 + #17 * EVar vlmMst2 - EVar vlmMst1 * (#17
   + #6 * EVar vlmMst2) + #3 * EPow P2 (EVar vlmMst1) + #3 * EPow P2 (EVar vlmMst2)) - #78 * EPow P3 (EVar vlmMst1) +
   #6 * EPow P3 (EVar vlmMst2))) + (#22616341 + #6969450 * EVar vlmMst2 + #900 * (#383 - #1500 * EVar vlmMst2 + #750 *
   EVar vlmMt) * EPow P2 (EVar vlmMst1) + #4066200 * EPow P2 (EVar vlmMst2) - #81000 * EVar vlmMsq * (#47 + EVar
   vlmMst2 * (#107 - #30 * EVar vlmMt) - #30 * EVar vlmMst1 * (#1 + EVar vlmMst2 - EVar vlmMt) - #77 * EVar vlmMt +
   #30 * EPow P2 (EVar vlmMst2)) - #180 * EVar vlmMt * (- #15793 - #21005 * EVar vlmMst2 + #1530 * EPow P2 (EVar
   vlmMst2)) - #129600 * (#13 + #6 * EVar vlmMst2) * EPow P2 (EVar vlmMt) + #90 * EVar vlmMst1 * (#3669 + EVar vlmMst2
   * (#27470 - #4440 * EVar vlmMt) - #96890 * EVar vlmMt + #1380 * EPow P2 (EVar vlmMst2) + #8640 * EPow P2 (EVar
   vlmMt)) + #225000 * EPow P3 (EVar vlmMst1) + #1000800 * EPow P3 (EVar vlmMst2)) * EPow P4 (EVar vMst1) - #6 *
   (#176669 + #3168 * EVar vlmMst2 - #30 * EVar vlmMst1 * (#3644 + #144 * EVar vlmMst2 - #975 * EVar vlmMt) + #30 * (-
   #203 + #9 * EVar vlmMst2) * EVar vlmMt + #180 * EVar vlmMsq * (#376 - #240 * EVar vlmMst1 + #15 * EVar vlmMt) +
   #20250 * EPow P2 (EVar vlmMsq) + #6975 * EPow P2 (EVar vlmMst1) + #2025 * EPow P2 (EVar vlmMst2) - #16200 * EPow P2
   (EVar vlmMt)) * EPow P4 (EVar vMst2)) + #360 * EPow P2 (EVar vMsq) * (#750 * (#11 - #6 * EVar vlmMsq + #6 * EVar
   vlmMt) * EPow P2 (EVar vMst2) * EPow P4 (EVar vMst1) + (#2648 + #3480 * EVar vlmMst1 + #75 * EVar vlmMst2 + (#345 -
   #450 * (EVar vlmMst1 + EVar vlmMst2)) * EVar vlmMt + #150 * EVar vlmMsq * (- #26 + #3 * EVar vlmMst1 + #3 * EVar
   vlmMst2 + #6 * EVar vlmMt) - #900 * EPow P2 (EVar vlmMsq)) * EPow P2 (EVar vMst1) * EPow P4 (EVar vMst2)) + #45 *
   ((#36871 + #8250 * EVar vlmMst2 + #360 * EVar vlmMst1 * (#91 - #30 * EVar vlmMt) + (#7890 - #9000 * EVar vlmMst2) *
   EVar vlmMt + #300 * EVar vlmMsq * (- #163 + #36 * EVar vlmMst1 + #30 * EVar vlmMst2 + #66 * EVar vlmMt) - #19800 *
   EPow P2 (EVar vlmMsq)) * EPow P4 (EVar vMst1) * EPow P4 (EVar vMst2) + #50 * (#115 - #48 * EVar vlmMsq + EVar
   vlmMst2 * (#69 - #36 * EVar vlmMt) - #21 * EVar vlmMt + #36 * EVar vlmMsq * (EVar vlmMst2 + EVar vlmMt) - #36 *
   EPow P2 (EVar vlmMsq)) * EPow P2 (EVar vMst1) * EPow P6 (EVar vMst2))))) / (EPow P2 (EVar vMst1) * EPow P4 (EVar
   vMsq) * EPow P4 (EVar vMst2)) + #7200 * EVar vMt * EVar vMuSUSY * (#45 * EVar vMt * EVar vMuSUSY * EVar vTbeta *
   EPow P2 (EVar vMst2) * EPow P2 (EVar vs2t) / (EPow P2 (EVar vSbeta) * EPow P4 (EVar vMsq)) - #40 * EVar vMst1 *
   (#185 + #66 * EVar vlmMst2 - #6 * (#13 + #12 * EVar vlmMst2) * EVar vlmMt + #12 * EVar vlmMsq * (#1 + #6 * (EVar
   vlmMst2 + EVar vlmMt)) - #72 * EPow P2 (EVar vlmMsq)) * EPow P3 (EVar vMt) / EPow P4 (EVar vMsq) - #108 * EVar vMt
   * EPow P2 (EVar vs2t) * ((#5875 + #1020 * EVar vlmMsq - #478 * EVar vlmMst1 - #610 * EVar vlmMst2 - #576 * EPow P2
   (EVar vlmMst1)) / (#9 * EVar vMst1) + EVar vMst1 * (#20 * (#311 - #66 * EVar vlmMst1 + #36 * EVar vlmMsq * (- #2 +
   EVar vlmMst1 - EVar vlmMst2) + #138 * EVar vlmMst2 - #18 * EPow P2 (EVar vlmMst1) + #18 * EPow P2 (EVar vlmMst2)) /
   (#9 * EPow P2 (EVar vMsq)) + (EDec 7092222222222222 13 + #152 * EConst CB4 - #4 * EConst CDN - #920 * EVar vlmMsq +
   (- EDec 28155555555555554 14 + #800 * EVar vlmMsq) * EVar vlmMst1 + #2 * EVar vlmMst2 * (#7219 - #1122 * EVar
   vlmMst1 + #720 * EVar vlmMsq * (- #5 + #3 * EVar vlmMst1) - #1179 * EPow P2 (EVar vlmMst1)) / #9 - #2 * (#901 +
   #360 * EVar vlmMsq) * EPow P2 (EVar vlmMst1) / #3 + (#786 - #240 * EVar vlmMsq - #250 * EVar vlmMst1) * EPow P2
   (EVar vlmMst2) - #40 * (#47 + #2 * (#5 + #6 * EVar vlmMsq) * EVar vlmMst2 - #2 * EVar vlmMst1 * (#5 + #6 * EVar
   vlmMsq + #30 * EVar vlmMst2) + #36 * EPow P2 (EVar vlmMst1) + #24 * EPow P2 (EVar vlmMst2)) * EPow P2 (EVar vMst1)
   / (#3 * EPow P2 (EVar vMsq)) + #902 * EPow P3 (EVar vlmMst1) / #3 + #634 * EPow P3 (EVar vlmMst2) / #3) / EPow P2
   (EVar vMst2) - #10 * EPow P2 (EVar vMst2) / EPow P4 (EVar vMsq)) + EPow P3 (EVar vMst1) * (#5 * (#1001 - #159 *
   EVar vlmMst1 + #180 * EVar vlmMsq * (- #2 + EVar vlmMst1 - EVar vlmMst2) + #519 * EVar vlmMst2 - #90 * EPow P2
   (EVar vlmMst1) + #90 * EPow P2 (EVar vlmMst2)) / (#9 * EPow P4 (EVar vMsq)) + (EDec 5530797839506173 12 + #152 *
   EConst CB4 - #4 * EConst CDN - #760 * EVar vlmMsq + (EDec 8234629629629629 13 + #2360 * EVar vlmMsq) * EVar vlmMst1
   - (EDec 15365555555555557 13 + #240 * EVar vlmMsq) * EPow P2 (EVar vlmMst1) - EVar vlmMst2 * (EDec
   12796296296296296 15 + #40 * EVar vlmMsq * (#59 - #12 * EVar vlmMst1) + #3830 * EVar vlmMst1 / #9 + #18 * EPow P2
   (EVar vlmMst1)) + (EDec 1962111111111111 12 - #240 * EVar vlmMsq - #494 * EVar vlmMst1) * EPow P2 (EVar vlmMst2) +
   #658 * EPow P3 (EVar vlmMst1) / #3 + #878 * EPow P3 (EVar vlmMst2) / #3) / EPow P4 (EVar vMst2))) + (#3 * EPow P2
   (EVar vMst2) * EPow P3 (EVar vs2t) * (EPow P4 (EVar vMsq) * (- #24 * EPow P2 (EVar vMst1) * EPow P2 (EVar vMst2) *
   (#5355 - #144 * EConst CB4 - #120 * EConst CDN + #9960 * EVar vlmMsq + #2 * EVar vlmMst1 * (- #4841 - #1080 * EVar
   vlmMsq + #540 * EPow P2 (EVar vlmMsq)) - #6 * EVar vlmMst2 * (#925 - #360 * EVar vlmMsq + #62 * EVar vlmMst1 + #180
   * EPow P2 (EVar vlmMsq) - #158 * EPow P2 (EVar vlmMst1)) - #6 * (- #221 + #180 * EVar vlmMsq) * EPow P2 (EVar
   vlmMst1) + #6 * (- #735 + #180 * EVar vlmMsq + #98 * EVar vlmMst1) * EPow P2 (EVar vlmMst2) + #260 * EPow P3 (EVar
   vlmMst1) - #1796 * EPow P3 (EVar vlmMst2)) + (#309683 - #18432 * EConst CB4 - #9216 * EConst CDN - #142560 * EVar
   vlmMsq + #12 * (- #49927 + #32400 * EVar vlmMsq) * EVar vlmMst1 - #12960 * EPow P2 (EVar vlmMsq) - #12 * EVar
   vlmMst2 * (- #61663 + #30240 * EVar vlmMsq + #42660 * EVar vlmMst1 - #21888 * EPow P2 (EVar vlmMst1)) - #147240 *
   EPow P2 (EVar vlmMst1) - #72 * (- #7459 + #4672 * EVar vlmMst1) * EPow P2 (EVar vlmMst2) - #62976 * EPow P3 (EVar
   vlmMst1) + #136704 * EPow P3 (EVar vlmMst2)) * EPow P4 (EVar vMst1) + #24 * (#6415 + #60 * EVar vlmMsq * (#37 - #18
   * EVar vlmMst1) - #970 * EVar vlmMst1 + #6 * (- #219 + #110 * EVar vlmMst1) * EVar vlmMst2 + #540 * EPow P2 (EVar
   vlmMsq) - #234 * EPow P2 (EVar vlmMst1) + #54 * EPow P2 (EVar vlmMst2)) * EPow P4 (EVar vMst2)) - #480 * EPow P2
   (EVar vMsq) * ((#610 - #411 * EVar vlmMst1 + #18 * EVar vlmMsq * (- #2 + #19 * EVar vlmMst1 - #19 * EVar vlmMst2) +
   #447 * EVar vlmMst2 - #171 * EPow P2 (EVar vlmMst1) + #171 * EPow P2 (EVar vlmMst2)) * EPow P2 (EVar vMst2) * EPow
   P4 (EVar vMst1) - (#160 - #213 * EVar vlmMst1 + #18 * EVar vlmMsq * (#8 + EVar vlmMst1 - EVar vlmMst2) + #69 * EVar
   vlmMst2 - #9 * EPow P2 (EVar vlmMst1) + #9 * EPow P2 (EVar vlmMst2)) * EPow P2 (EVar vMst1) * EPow P4 (EVar vMst2))
   + #60 * ((#2135 - #1614 * EVar vlmMst1 + #1074 * EVar vlmMst2 - #180 * EPow P2 (EVar vlmMst1) + #180 * (EVar vlmMsq
   * (#3 + #2 * EVar vlmMst1 - #2 * EVar vlmMst2) + EPow P2 (EVar vlmMst2))) * EPow P4 (EVar vMst1) * EPow P4 (EVar
   vMst2) - #18 * EPow P2 (EVar vMst1) * EPow P6 (EVar vMst2))) + #16 * EPow P2 (EVar vMt) * (#24 * EVar vMst1 * EVar
   vMt * (((#30251 - #804 * EVar vlmMst2 + #2 * EVar vlmMst1 * (- #5032 + #27 * EVar vlmMst2 - #789 * EVar vlmMt) +
   (#852 - #54 * EVar vlmMst2) * EVar vlmMt + #180 * EVar vlmMsq * (#31 - #6 * EVar vlmMst1 + #6 * EVar vlmMt) + #570
   * EPow P2 (EVar vlmMst1) - #720 * EPow P2 (EVar vlmMt)) * EPow P2 (EVar vMst2) + EPow P2 (EVar vMst1) * (#32085 +
   #23606 * EVar vlmMst2 + (#3606 - #3402 * EVar vlmMst2 + #7506 * EVar vlmMt) * EPow P2 (EVar vlmMst1) + #180 * EVar
   vlmMsq * (#31 + #6 * EVar vlmMst1 * (- #1 + #6 * EVar vlmMst2 - #6 * EVar vlmMt) + #84 * EVar vlmMt + #6 * EVar
   vlmMst2 * (- #13 + #6 * EVar vlmMt) - #36 * EPow P2 (EVar vlmMst2)) + #18846 * EPow P2 (EVar vlmMst2) - #6 * EVar
   vlmMt * (#2850 + #1348 * EVar vlmMst2 + #189 * EPow P2 (EVar vlmMst2)) - #2 * EVar vlmMst1 * (#5093 + #5700 * EVar
   vlmMt + #6 * EVar vlmMst2 * (- #173 + #531 * EVar vlmMt) + #162 * EPow P2 (EVar vlmMst2) - #1296 * EPow P2 (EVar
   vlmMt)) - #144 * (#35 + #18 * EVar vlmMst2) * EPow P2 (EVar vlmMt) - #1368 * EPow P3 (EVar vlmMst1) + #5094 * EPow
   P3 (EVar vlmMst2))) * EPow P4 (EVar vMsq) + #135 * (#87 + #4 * EVar vlmMst1 * (- #13 + #6 * EVar vlmMsq - #6 * EVar
   vlmMt) + #34 * EVar vlmMt + #6 * EVar vlmMst2 * (#3 - #4 * EVar vlmMsq + #4 * EVar vlmMt)) * EPow P2 (EVar vMst2) *
   EPow P4 (EVar vMst1) + #60 * EPow P2 (EVar vMsq) * ((#245 + #6 * EVar vlmMst1 * (- #25 + #6 * EVar vlmMsq - #6 *
   EVar vlmMt) + #84 * EVar vlmMt + EVar vlmMst2 * (#66 - #36 * EVar vlmMsq + #36 * EVar vlmMt)) * EPow P2 (EVar
   vMst1) * EPow P2 (EVar vMst2) + (#245 + #6 * EVar vlmMst1 * (- #25 + #6 * EVar vlmMsq + #30 * EVar vlmMst2 - #36 *
   EVar vlmMt) - #12 * EVar vlmMst2 * (#13 + #3 * EVar vlmMsq - #18 * EVar vlmMt) + #306 * EVar vlmMt - #180 * EPow P2
   (EVar vlmMst2)) * EPow P4 (EVar vMst1))) + EVar vs2t * (#2 * EPow P4 (EVar vMsq) * (EPow P2 (EVar vMst1) * EPow P2
   (EVar vMst2) * (#416017 - #864 * EConst CB4 - #432 * EConst CDN - #14580 * EVar vlmMsq + #45858 * EVar vlmMst1 +
   #4860 * EPow P2 (EVar vlmMsq) - #6 * EVar vlmMst2 * (- #21571 + #1620 * EVar vlmMsq + #618 * EVar vlmMst1 - #432 *
   EPow P2 (EVar vlmMst1)) + #7902 * EPow P2 (EVar vlmMst1) + #18 * (#1735 + #336 * EVar vlmMst1) * EPow P2 (EVar
   vlmMst2) + #1728 * EVar vlmMt * (#17 + #17 * EVar vlmMst2 - EVar vlmMst1 * (#17 + #6 * EVar vlmMst2) + #3 * EPow P2
   (EVar vlmMst1) + #3 * EPow P2 (EVar vlmMst2)) - #7200 * EPow P3 (EVar vlmMst1) - #1440 * EPow P3 (EVar vlmMst2)) +
   #2 * (#226991 - #432 * EConst CB4 - #216 * EConst CDN - #76140 * EVar vlmMsq + #24 * (- #1742 + #2025 * EVar
   vlmMsq) * EVar vlmMst1 - #163881 * EPow P2 (EVar vlmMst1) + #6 * EVar vlmMst2 * (#19352 - #8100 * EVar vlmMsq +
   #60387 * EVar vlmMst1 + #1512 * EPow P2 (EVar vlmMst1)) + #9 * (- #21473 + #9840 * EVar vlmMst1) * EPow P2 (EVar
   vlmMst2) + #864 * EVar vlmMt * (#71 + #118 * EVar vlmMst2 - #2 * EVar vlmMst1 * (#59 + #39 * EVar vlmMst2) + #39 *
   EPow P2 (EVar vlmMst1) + #39 * EPow P2 (EVar vlmMst2)) - #40752 * EPow P3 (EVar vlmMst1) - #56880 * EPow P3 (EVar
   vlmMst2)) * EPow P4 (EVar vMst1) - #18 * (#4717 - #540 * EVar vlmMsq * (- #2 + EVar vlmMst1) - #252 * EVar vlmMst2
   + #2 * EVar vlmMst1 * (- #661 + #69 * EVar vlmMst2) + #270 * EPow P2 (EVar vlmMsq) + #75 * EPow P2 (EVar vlmMst1) +
   #27 * EPow P2 (EVar vlmMst2)) * EPow P4 (EVar vMst2)) - #1080 * EPow P2 (EVar vMsq) * (#10 * (#11 - #6 * EVar
   vlmMsq + #6 * EVar vlmMst2) * EPow P2 (EVar vMst2) * EPow P4 (EVar vMst1) + (#5 + #60 * EVar vlmMsq - #66 * EVar
   vlmMst1 + #6 * EVar vlmMst2) * EPow P2 (EVar vMst1) * EPow P4 (EVar vMst2)) - #135 * (#2 * (#95 + #216 * EVar
   vlmMsq - #276 * EVar vlmMst1 + #60 * EVar vlmMst2) * EPow P4 (EVar vMst1) * EPow P4 (EVar vMst2) + (#13 - #12 *
   EVar vlmMsq + #12 * EVar vlmMst2) * EPow P2 (EVar vMst1) * EPow P6 (EVar vMst2))))) / (#72 * EPow P2 (EVar vMst1) *
   EPow P4 (EVar vMsq) * EPow P4 (EVar vMst2))) / EVar vTbeta) / #777600)) + EVar vthreeLoopFlag * EPow P2 (EVar
   vAl4p) * ((#10501 - #4920 * EVar vlmMsq + #18 * EVar vlmMst2 * (#149 + #50 * EVar vlmMsq - #19 * EVar vlmMst1 * (-
   #2 + EVar vlmMst2) + EVar vlmMst2 - #30 * EPow P2 (EVar vlmMsq)) + #1980 * EPow P2 (EVar vlmMsq) - #4 * EVar
   vlmMst1 * (#196 + #270 * EVar vlmMsq + #135 * EPow P2 (EVar vlmMsq)) + #1914 * EPow P2 (EVar vlmMst1) - #6 * EVar
   vlmMt * (#77 + #2 * EVar vlmMst1 * (#221 - #57 * EVar vlmMst2) + #594 * EVar vlmMst2 + #90 * EVar vlmMsq * (#7 - #2
   * (EVar vlmMst1 + EVar vlmMst2)) - #129 * EPow P2 (EVar vlmMst1) + #87 * EPow P2 (EVar vlmMst2)) - #108 * (- #28 +
   #10 * EVar vlmMsq + #29 * EVar vlmMst1 + #17 * EVar vlmMst2) * EPow P2 (EVar vlmMt) + #2 * EVar vDmglst1 * (- #2215
   - #254 * EVar vlmMst2 + #2322 * EVar vlmMt - #264 * EVar vlmMst2 * EVar vlmMt - #60 * EVar vlmMsq * (#5 + #42 *
   EVar vlmMst1 + #12 * EVar vlmMt) - #4 * EVar vlmMst1 * (#206 + #15 * EVar vlmMst2 + #246 * EVar vlmMt) + #1620 *
   EPow P2 (EVar vlmMsq) + #3018 * EPow P2 (EVar vlmMst1) + #162 * EPow P2 (EVar vlmMst2) + #1872 * EPow P2 (EVar
   vlmMt)) / EVar vMst1 + #360 * EVar vDmglst1 * EVar vMst1 * (- #27 - EVar vlmMst2 + #3 * EVar vlmMt + #6 * EVar
   vlmMst2 * EVar vlmMt - #6 * EVar vlmMsq * (- #2 + EVar vlmMst1 + EVar vlmMst2 + #2 * EVar vlmMt) + #2 * EVar
   vlmMst1 * (- #7 + #3 * EVar vlmMt) + #12 * EPow P2 (EVar vlmMsq)) / EPow P2 (EVar vMsq) + #108 * (#1 - #2 * EVar
   vlmMst2) * EPow P2 (EVar vMst2) / EPow P2 (EVar vMst1) + #360 * EPow P3 (EVar vlmMsq) - #750 * EPow P3 (EVar
   vlmMst1) - #4 * EVar vMst1 * (EVar vMst1 * (#2459588 - #813345 * EVar vlmMst2 + #151875 * EVar vlmMsq * (#3 + #2 *
   EVar vlmMt) - #151875 * EPow P2 (EVar vlmMsq) + #225 * (#1339 + #30 * EVar vlmMst2 - #900 * EVar vlmMt) * EPow P2
   (EVar vlmMst1) - #370350 * EPow P2 (EVar vlmMst2) + #3375 * EVar vlmMt * (#66 + #303 * EVar vlmMst2 + #68 * EPow P2
   (EVar vlmMst2)) + #15 * EVar vlmMst1 * (#17548 - #71775 * EVar vlmMt - #15 * EVar vlmMst2 * (#773 + #120 * EVar
   vlmMt) + #450 * EPow P2 (EVar vlmMst2)) - #162000 * EPow P2 (EVar vlmMt) + #65250 * EPow P3 (EVar vlmMst1) - #78750
   * EPow P3 (EVar vlmMst2)) + #125 * EVar vDmglst1 * (#64093 - #12414 * EVar vlmMst2 + #2430 * EVar vlmMsq * (#3 + #2
   * EVar vlmMt) - #6 * EVar vlmMst1 * (#988 + #2367 * EVar vlmMt + EVar vlmMst2 * (#393 + #36 * EVar vlmMt)) - #2430
   * EPow P2 (EVar vlmMsq) + #36 * (#38 + #3 * EVar vlmMst2 - #93 * EVar vlmMt) * EPow P2 (EVar vlmMst1) - #6354 *
   EPow P2 (EVar vlmMst2) + #18 * EVar vlmMt * (#1190 + #933 * EVar vlmMst2 + #198 * EPow P2 (EVar vlmMst2)) - #2592 *
   EPow P2 (EVar vlmMt) + #1080 * EPow P3 (EVar vlmMst1) - #1188 * EPow P3 (EVar vlmMst2))) / (#375 * EPow P2 (EVar
   vMst2)) - #204 * EPow P3 (EVar vlmMst2) + #4968 * EPow P3 (EVar vlmMt) + #15 * EVar vMst1 * (#2 * EVar vDmglst1 +
   EVar vMst1) * (- #115 + #21 * EVar vlmMt - #12 * EVar vlmMsq * (- #4 + #3 * EVar vlmMst2 + #3 * EVar vlmMt) + EVar
   vlmMst2 * (- #69 + #36 * EVar vlmMt) + #36 * EPow P2 (EVar vlmMsq)) * EPow P2 (EVar vMst2) / EPow P4 (EVar vMsq) +
   EPow P3 (EVar vMst1) * (#15 * (#171500 * EVar vDmglst1 * (- #2095 - #330 * EVar vlmMst2 - #114 * EVar vlmMt + #360
   * EVar vlmMst2 * EVar vlmMt + #48 * EVar vlmMst1 * (- #25 + #12 * EVar vlmMt) - #12 * EVar vlmMsq * (- #137 + #48 *
   EVar vlmMst1 + #30 * EVar vlmMst2 + #78 * EVar vlmMt) + #936 * EPow P2 (EVar vlmMsq)) + EVar vMst1 * (- #160842737
   - #14148750 * EVar vlmMst2 + #10547250 * EVar vlmMt + #15435000 * EVar vlmMst2 * EVar vlmMt + #840 * EVar vlmMst1 *
   (- #106067 + #51450 * EVar vlmMt) - #420 * EVar vlmMsq * (- #220709 + #82740 * EVar vlmMst1 + #36750 * EVar vlmMst2
   + #139650 * EVar vlmMt) + #54419400 * EPow P2 (EVar vlmMsq) - #4233600 * EPow P2 (EVar vlmMst1))) / EPow P4 (EVar
   vMsq) - #4 * (#257250 * EVar vDmglst1 * (#99985 + #34432 * EVar vlmMst2 + (#3156 - #5832 * EVar vlmMst2 + #1296 *
   EVar vlmMt) * EPow P2 (EVar vlmMst1) + #17388 * EPow P2 (EVar vlmMst2) + #24 * EVar vlmMt * (- #191 + #871 * EVar
   vlmMst2 + #6 * EPow P2 (EVar vlmMst2)) - #1080 * EVar vlmMsq * (#9 + EVar vlmMst2 * (#29 - #10 * EVar vlmMt) - #10
   * EVar vlmMst1 * (#1 + EVar vlmMst2 - EVar vlmMt) - #19 * EVar vlmMt + #10 * EPow P2 (EVar vlmMst2)) - #1728 * (#3
   + #2 * EVar vlmMst2) * EPow P2 (EVar vlmMt) + #8 * EVar vlmMst1 * (#517 + EVar vlmMst2 * (#168 - #180 * EVar vlmMt)
   - #4557 * EVar vlmMt + #27 * EPow P2 (EVar vlmMst2) + #432 * EPow P2 (EVar vlmMt)) + #1512 * EPow P3 (EVar vlmMst1)
   + #4104 * EPow P3 (EVar vlmMst2)) + EVar vMst1 * (#6336529126 + #2073605310 * EVar vlmMst2 - #44100 * (- #8128 +
   #8295 * EVar vlmMst2 + #1680 * EVar vlmMt) * EPow P2 (EVar vlmMst1) + #976616550 * EPow P2 (EVar vlmMst2) -
   #138915000 * EVar vlmMsq * (#2 + EVar vlmMst2 * (#12 - #5 * EVar vlmMt) - #5 * EVar vlmMst1 * (#1 + EVar vlmMst2 -
   EVar vlmMt) - #7 * EVar vlmMt + #5 * EPow P2 (EVar vlmMst2)) + #1157625 * EVar vlmMt * (- #899 + #1578 * EVar
   vlmMst2 + #128 * EPow P2 (EVar vlmMst2)) - #222264000 * (#1 + EVar vlmMst2) * EPow P2 (EVar vlmMt) + #315 * EVar
   vlmMst1 * (#1895351 - #7915950 * EVar vlmMt - #70 * EVar vlmMst2 * (#16867 + #3360 * EVar vlmMt) - #14700 * EPow P2
   (EVar vlmMst2) + #705600 * EPow P2 (EVar vlmMt)) + #146632500 * EPow P3 (EVar vlmMst1) + #223807500 * EPow P3 (EVar
   vlmMst2))) / EPow P4 (EVar vMst2)) / #514500 - #24 * EVar vMst1 * EPow P2 (EVar vMuSUSY) * (#2 * EVar vDmglst1 *
   (#735 - #6 * EConst CB4 - #3 * EConst CDN - #78 * EVar vlmMst1 + #6 * EPow P2 (EVar vlmMst1) + #6 * EVar vlmMst2 *
   (#85 - #6 * EVar vlmMst1 + EPow P2 (EVar vlmMst1)) + #18 * (#7 + EVar vlmMst1) * EPow P2 (EVar vlmMst2) + #24 *
   EVar vlmMt * (#2 + #3 * EVar vlmMst2 - EVar vlmMst1 * (#3 + #2 * EVar vlmMst2) + EPow P2 (EVar vlmMst1) + EPow P2
   (EVar vlmMst2)) - #26 * EPow P3 (EVar vlmMst1) + #2 * EPow P3 (EVar vlmMst2)) + EVar vMst1 * (#417 - #6 * EConst
   CB4 - #3 * EConst CDN - #162 * EVar vlmMst1 + #6 * EVar vlmMst2 * (#87 - #8 * EVar vlmMst1 + EPow P2 (EVar
   vlmMst1)) + #18 * (#8 + EVar vlmMst1) * EPow P2 (EVar vlmMst2) + #24 * EVar vlmMt * EPow P2 (#1 - EVar vlmMst1 +
   EVar vlmMst2) - #26 * EPow P3 (EVar vlmMst1) + #2 * EPow P3 (EVar vlmMst2))) / EPow P4 (EVar vMst2) - #3 *
   (#13597579 + #210 * EVar vlmMst2 * (#43831 - #14700 * EVar vlmMt) - #2315250 * EVar vlmMt + #420 * EVar vlmMsq * (-
   #16403 + #630 * EVar vlmMst2 + #7350 * EVar vlmMt) - #1675800 * EPow P2 (EVar vlmMsq) + #1411200 * EPow P2 (EVar
   vlmMst2)) * EPow P4 (EVar vMst2) / (#34300 * EPow P4 (EVar vMsq)) + #4 * (#3 * (- #12339 - #4910 * EVar vlmMst1 -
   #375 * EVar vlmMst2 + #4125 * EVar vlmMt + #3750 * EVar vlmMst1 * EVar vlmMt + #2250 * EVar vlmMst2 * EVar vlmMt -
   #10 * EVar vlmMsq * (- #116 + #285 * EVar vlmMst1 + #225 * EVar vlmMst2 + #600 * EVar vlmMt) + #5550 * EPow P2
   (EVar vlmMsq) - #450 * EPow P2 (EVar vlmMst1)) * EPow P2 (EVar vMst1) * EPow P2 (EVar vMst2) + #7500 * EVar
   vDmglst1 * (- #11 + #6 * EVar vlmMsq - #6 * EVar vlmMt) * EPow P3 (EVar vMst1) + #1875 * (- #11 + #6 * EVar vlmMsq
   - #6 * EVar vlmMt) * EPow P4 (EVar vMst1) + (- #13517 - #7230 * EVar vlmMst2 + #6000 * EVar vlmMt + #4500 * EVar
   vlmMst2 * EVar vlmMt - #30 * EVar vlmMsq * (- #41 + #60 * EVar vlmMst2 + #150 * EVar vlmMt) + #3150 * EPow P2 (EVar
   vlmMsq) - #1350 * EPow P2 (EVar vlmMst2)) * EPow P4 (EVar vMst2)) / (#25 * EPow P2 (EVar vMsq) * EPow P2 (EVar
   vMst2))) * EPow P4 (EVar vMt) / #81 - EPow P4 (EVar vs2t) * (- (EVar vMst1 * EPow P2 (EVar vMst2) * (- #5876588 *
   EVar vMst1 / #225 + #60 * EConst CB4 * EVar vMst1 + #90 * EConst CDN * EVar vMst1 + #3975 * EVar vlmMsq * EVar
   vMst1 - #1575 * EVar vMst1 * EPow P2 (EVar vlmMsq) - #3 * EVar vlmMst1 * EVar vMst1 * (#34697 - #8250 * EVar vlmMsq
   + #2250 * EPow P2 (EVar vlmMsq)) / #5 + #18 * (- #83 + #25 * EVar vlmMsq) * EVar vMst1 * EPow P2 (EVar vlmMst1) +
   #3 * EVar vlmMst2 * EVar vMst1 * (#3322 + #3000 * EVar vlmMsq * (- #1 + EVar vlmMst1) - #25870 * EVar vlmMst1 +
   #2250 * EPow P2 (EVar vlmMsq) + #3025 * EPow P2 (EVar vlmMst1)) / #5 - #3 * (- #3372 + #750 * EVar vlmMsq + #2365 *
   EVar vlmMst1) * EVar vMst1 * EPow P2 (EVar vlmMst2) + #2 * (EVar vMst1 * (- #2068 + #646 * EVar vlmMst1 - #991 *
   EVar vlmMst2 + #225 * EVar vlmMst1 * EVar vlmMst2 + EVar vlmMsq * (#345 - #615 * EVar vlmMst1 + #615 * EVar
   vlmMst2) + #195 * EPow P2 (EVar vlmMst1) - #420 * EPow P2 (EVar vlmMst2)) + #50 * EVar vDmglst1 * (- #137 + #92 *
   EVar vlmMst1 - #98 * EVar vlmMst2 + EVar vlmMsq * (#6 - #60 * EVar vlmMst1 + #60 * EVar vlmMst2) + #30 * EPow P2
   (EVar vlmMst1) - #30 * EPow P2 (EVar vlmMst2))) * EPow P2 (EVar vMst1) / EPow P2 (EVar vMsq) - #205 * EVar vMst1 *
   EPow P3 (EVar vlmMst1) + #5485 * EVar vMst1 * EPow P3 (EVar vlmMst2) + #5 * EVar vDmglst1 * (#1151 + #72 * EConst
   CB4 + #60 * EConst CDN - #1890 * EVar vlmMsq - #270 * EPow P2 (EVar vlmMsq) - #18 * EVar vlmMst1 * (- #49 - #90 *
   EVar vlmMsq + #30 * EPow P2 (EVar vlmMsq)) + #6 * EVar vlmMst2 * (#342 - #180 * EVar vlmMsq - #24 * EVar vlmMst1 +
   #90 * EPow P2 (EVar vlmMsq) - #79 * EPow P2 (EVar vlmMst1)) + #6 * (- #347 + #90 * EVar vlmMsq) * EPow P2 (EVar
   vlmMst1) - #6 * (- #363 + #90 * EVar vlmMsq + #49 * EVar vlmMst1) * EPow P2 (EVar vlmMst2) - #130 * EPow P3 (EVar
   vlmMst1) + #898 * EPow P3 (EVar vlmMst2)))) / #540 + EVar vDmglst1 * (EDec 4972923096707819 14 + #2 * EConst CB4 /
   #3 + #5 * EConst CDN / #9 - #45 * EVar vlmMsq / #2 + EVar vlmMst1 * (EDec 7981095679012346 14 - #15 * EVar vlmMsq -
   #5 * EPow P2 (EVar vlmMsq)) + #5 * EPow P2 (EVar vlmMsq) / #2 + EVar vlmMst2 * (#10 * EVar vlmMsq + #5 * EPow P2
   (EVar vlmMsq) + (- #31507 + #25692 * EVar vlmMst1 - #23544 * EPow P2 (EVar vlmMst1)) / #1296) + (EDec
   12546296296296295 16 + #5 * EVar vlmMsq) * EPow P2 (EVar vlmMst1) - (EDec 28564814814814814 16 + #5 * EVar vlmMsq -
   #455 * EVar vlmMst1 / #18) * EPow P2 (EVar vlmMst2) - #73 * EPow P3 (EVar vlmMst1) / #54 - #311 * EPow P3 (EVar
   vlmMst2) / #54) * EPow P3 (EVar vMst1) + (EDec 32221840780308305 15 + #10 * EConst CB4 / #9 + EConst CDN / #18 -
   #275 * EVar vlmMsq / #72 + EVar vlmMst1 * (EDec 32322576530612244 16 + #65 * EVar vlmMsq / #18 - #35 * EPow P2
   (EVar vlmMsq) / #12) + #5 * EPow P2 (EVar vlmMsq) / #12 + EVar vlmMst2 * (- #5 * EVar vlmMsq * (#8 + #3 * EVar
   vlmMst1) / #9 + #35 * EPow P2 (EVar vlmMsq) / #12 + (#5211957 + #20946380 * EVar vlmMst1 - #38602200 * EPow P2
   (EVar vlmMst1)) / #2116800) - (EDec 17322652116402118 15 - #15 * EVar vlmMsq / #4) * EPow P2 (EVar vlmMst1) + (EDec
   848290343915344 14 - #25 * EVar vlmMsq / #12 + #1793 * EVar vlmMst1 / #72) * EPow P2 (EVar vlmMst2) + #95 * EPow P3
   (EVar vlmMst1) / #216 - #1535 * EPow P3 (EVar vlmMst2) / #216) * EPow P4 (EVar vMst1) + #2 * EConst COepS2 * (-
   #150 * EPow P2 (EVar vMst1) * EPow P2 (EVar vMst2) + #11 * EPow P4 (EVar vMst1) - #27 * EPow P4 (EVar vMst2)) /
   #729 - EConst CS2 * (- #18 * (#197 + #50 * EVar vlmMst1 - #50 * EVar vlmMst2) * EPow P2 (EVar vMst1) * EPow P2
   (EVar vMst2) + (#281 + #66 * EVar vlmMst1 - #66 * EVar vlmMst2) * EPow P4 (EVar vMst1) + #81 * (#11 - #2 * EVar
   vlmMst1 + #2 * EVar vlmMst2) * EPow P4 (EVar vMst2)) / #108 - EPow P4 (EVar vMst2) * (#41160 * (#2714 + #30 * EVar
   vlmMsq * (- #17 + #6 * EVar vlmMst1 - #6 * EVar vlmMst2) + #1167 * EVar vlmMst2 + #9 * EVar vlmMst1 * (- #73 + #50
   * EVar vlmMst2) - #315 * EPow P2 (EVar vlmMst1) - #135 * EPow P2 (EVar vlmMst2)) * EPow P2 (EVar vMsq) * EPow P3
   (EVar vMst1) + #8575 * EVar vMst1 * (#53749 + #2592 * EConst CB4 - #288 * EConst CDN - #13320 * EVar vlmMsq + #5400
   * EPow P2 (EVar vlmMsq) - #6 * EVar vlmMst1 * (#3781 - #300 * EVar vlmMsq + #180 * EPow P2 (EVar vlmMsq)) + #6 *
   EVar vlmMst2 * (#14209 - #3498 * EVar vlmMst1 + #60 * EVar vlmMsq * (- #35 + #12 * EVar vlmMst1) + #180 * EPow P2
   (EVar vlmMsq) - #18 * EPow P2 (EVar vlmMst1)) - #18 * (- #229 + #60 * EVar vlmMsq) * EPow P2 (EVar vlmMst1) - #18 *
   (- #2193 + #180 * EVar vlmMsq + #442 * EVar vlmMst1) * EPow P2 (EVar vlmMst2) + #396 * EPow P3 (EVar vlmMst1) +
   #7668 * EPow P3 (EVar vlmMst2)) * EPow P4 (EVar vMsq) + #51450 * EVar vDmglst1 * (#40 * (#82 - #93 * EVar vlmMst1 +
   #6 * EVar vlmMsq * (#4 + #3 * EVar vlmMst1 - #3 * EVar vlmMst2) + #69 * EVar vlmMst2 - #9 * EPow P2 (EVar vlmMst1)
   + #9 * EPow P2 (EVar vlmMst2)) * EPow P2 (EVar vMsq) * EPow P2 (EVar vMst1) + #6 * (#7 + #60 * EVar vlmMsq * (#5 -
   #6 * EVar vlmMst1) - #2 * EVar vlmMst1 + (- #226 + #220 * EVar vlmMst1) * EVar vlmMst2 + #180 * EPow P2 (EVar
   vlmMsq) + #178 * EPow P2 (EVar vlmMst1) + #18 * EPow P2 (EVar vlmMst2)) * EPow P4 (EVar vMsq) + #5 * (#521 - #346 *
   EVar vlmMst1 + #12 * EVar vlmMsq * (#1 + #10 * EVar vlmMst1 - #10 * EVar vlmMst2) + #334 * EVar vlmMst2 - #60 *
   EPow P2 (EVar vlmMst1) + #60 * EPow P2 (EVar vlmMst2)) * EPow P4 (EVar vMst1)) + #3 * (#12119532 + #420 * EVar
   vlmMsq * (- #9224 + #6545 * EVar vlmMst1 - #5705 * EVar vlmMst2) + #7553665 * EVar vlmMst2 + #35 * EVar vlmMst1 *
   (- #105131 + #35280 * EVar vlmMst2) - #176400 * EPow P2 (EVar vlmMsq) - #1991850 * EPow P2 (EVar vlmMst1) + #580650
   * EPow P2 (EVar vlmMst2)) * EPow P5 (EVar vMst1)) / (#22226400 * EVar vMst1 * EPow P4 (EVar vMsq))) + EVar vMt *
   EVar vs2t * (- (EPow P2 (EVar vMst2) * EPow P2 (EVar vs2t) * (#180 * EPow P2 (EVar vMst1) * (EVar vDmglst1 * (#1807
   - #234 * EVar vlmMst1 + #12 * EVar vlmMsq * (- #61 + #30 * EVar vlmMst1 - #30 * EVar vlmMst2) + #966 * EVar vlmMst2
   - #180 * EPow P2 (EVar vlmMst1) + #180 * EPow P2 (EVar vlmMst2)) * EPow P2 (EVar vMst1) + EVar vDmglst1 * (- #91 +
   #12 * EVar vlmMsq - #12 * EVar vlmMst2) * EPow P2 (EVar vMst2) + (- #43 + #12 * EVar vlmMsq - #12 * EVar vlmMst2) *
   EVar vMst1 * EPow P2 (EVar vMst2) + (#343 - #18 * EVar vlmMst1 + #12 * EVar vlmMsq * (- #13 + #6 * EVar vlmMst1 -
   #6 * EVar vlmMst2) + #174 * EVar vlmMst2 - #36 * EPow P2 (EVar vlmMst1) + #36 * EPow P2 (EVar vlmMst2)) * EPow P3
   (EVar vMst1)) * EPow P4 (EVar vMst2) + #2880 * EPow P2 (EVar vMsq) * EPow P2 (EVar vMst2) * (#2 * (#37 - #8 * EVar
   vlmMst1 + #6 * EVar vlmMsq * (- #2 + EVar vlmMst1 - EVar vlmMst2) + #20 * EVar vlmMst2 - #3 * EPow P2 (EVar
   vlmMst1) + #3 * EPow P2 (EVar vlmMst2)) * EPow P2 (EVar vMst2) * EPow P3 (EVar vMst1) - #3 * EVar vMst1 * EPow P4
   (EVar vMst2) - #3 * EVar vDmglst1 * (- #2 * (#42 - #10 * EVar vlmMst1 + #6 * EVar vlmMsq * (- #2 + EVar vlmMst1 -
   EVar vlmMst2) + #22 * EVar vlmMst2 - #3 * EPow P2 (EVar vlmMst1) + #3 * EPow P2 (EVar vlmMst2)) * EPow P2 (EVar
   vMst1) * EPow P2 (EVar vMst2) + (#107 + #32 * EVar vlmMst1 - #12 * EVar vlmMsq * (#2 + EVar vlmMst1 - EVar vlmMst2)
   - #8 * EVar vlmMst2 - #60 * EVar vlmMst1 * EVar vlmMst2 + #36 * EPow P2 (EVar vlmMst1) + #24 * EPow P2 (EVar
   vlmMst2)) * EPow P4 (EVar vMst1) + EPow P4 (EVar vMst2)) - (#83 + #52 * EVar vlmMst1 - #12 * EVar vlmMsq * (#2 +
   EVar vlmMst1 - EVar vlmMst2) - #4 * (#7 + #9 * EVar vlmMst1) * EVar vlmMst2 + #24 * EPow P2 (EVar vlmMst1) + #12 *
   EPow P2 (EVar vlmMst2)) * EPow P5 (EVar vMst1)) + EPow P4 (EVar vMsq) * (#24 * EVar vDmglst1 * EPow P2 (EVar vMst1)
   * EPow P2 (EVar vMst2) * (#54053 + #9432 * EConst CB4 - #180 * EConst CDN - #34560 * EVar vlmMsq + #2160 * EPow P2
   (EVar vlmMsq) + #12 * EVar vlmMst1 * (#2489 + #810 * EVar vlmMsq + #90 * EPow P2 (EVar vlmMsq)) - #54 * (- #381 +
   #260 * EVar vlmMsq) * EPow P2 (EVar vlmMst1) - #12 * EVar vlmMst2 * (- #2899 + #2559 * EVar vlmMst1 - #90 * EVar
   vlmMsq * (- #13 + #24 * EVar vlmMst1) + #90 * EPow P2 (EVar vlmMsq) + #984 * EPow P2 (EVar vlmMst1)) - #18 * (-
   #1011 + #660 * EVar vlmMsq + #688 * EVar vlmMst1) * EPow P2 (EVar vlmMst2) + #15648 * EPow P3 (EVar vlmMst1) +
   #8544 * EPow P3 (EVar vlmMst2)) + #8 * EPow P2 (EVar vMst2) * (#132407 + #11880 * EConst CB4 - #108 * EConst CDN -
   #45360 * EVar vlmMsq + #6480 * EPow P2 (EVar vlmMsq) + #60 * EVar vlmMst1 * (#2299 - #378 * EVar vlmMsq + #54 *
   EPow P2 (EVar vlmMsq)) - #18 * (- #3377 + #900 * EVar vlmMsq) * EPow P2 (EVar vlmMst1) - #12 * EVar vlmMst2 *
   (#1667 + #1761 * EVar vlmMst1 - #270 * EVar vlmMsq * (#3 + #8 * EVar vlmMst1) + #270 * EPow P2 (EVar vlmMsq) + #594
   * EPow P2 (EVar vlmMst1)) - #18 * (#859 + #540 * EVar vlmMsq + #564 * EVar vlmMst1) * EPow P2 (EVar vlmMst2) +
   #14472 * EPow P3 (EVar vlmMst1) + #2808 * EPow P3 (EVar vlmMst2)) * EPow P3 (EVar vMst1) + EVar vDmglst1 *
   (#3058187 + #12960 * EVar vlmMsq * (#43 + #66 * EVar vlmMst1 - #66 * EVar vlmMst2) - #960732 * EVar vlmMst2 + #72 *
   (- #9407 + #6948 * EVar vlmMst2) * EPow P2 (EVar vlmMst1) + #36 * EVar vlmMst1 * (#4415 + #9980 * EVar vlmMst2 -
   #10824 * EPow P2 (EVar vlmMst2)) + #400968 * EPow P2 (EVar vlmMst2) - #203616 * EPow P3 (EVar vlmMst1) + #93024 *
   EPow P3 (EVar vlmMst2)) * EPow P4 (EVar vMst1) - #72 * EVar vDmglst1 * (#11337 - #408 * EConst CB4 - #12 * EConst
   CDN - #6480 * EVar vlmMsq + #720 * EPow P2 (EVar vlmMsq) - #30 * EVar vlmMst1 * (- #73 - #36 * EVar vlmMsq + #12 *
   EPow P2 (EVar vlmMsq)) + #6 * EVar vlmMst2 * (#2331 - #420 * EVar vlmMsq - #118 * EVar vlmMst1 + #60 * EPow P2
   (EVar vlmMsq) - #60 * EPow P2 (EVar vlmMst1)) + #18 * (- #13 + #20 * EVar vlmMsq) * EPow P2 (EVar vlmMst1) - #6 *
   (- #797 + #60 * EVar vlmMsq + #4 * EVar vlmMst1) * EPow P2 (EVar vlmMst2) - #200 * EPow P3 (EVar vlmMst1) + #584 *
   EPow P3 (EVar vlmMst2)) * EPow P4 (EVar vMst2) - #72 * EVar vMst1 * (#13317 - #408 * EConst CB4 - #12 * EConst CDN
   - #4320 * EVar vlmMsq + #720 * EPow P2 (EVar vlmMsq) - #6 * EVar vlmMst1 * (#79 - #180 * EVar vlmMsq + #60 * EPow
   P2 (EVar vlmMsq)) + #6 * EVar vlmMst2 * (#2135 - #420 * EVar vlmMsq - #118 * EVar vlmMst1 + #60 * EPow P2 (EVar
   vlmMsq) - #60 * EPow P2 (EVar vlmMst1)) + #6 * (- #167 + #60 * EVar vlmMsq) * EPow P2 (EVar vlmMst1) - #6 * (- #797
   + #60 * EVar vlmMsq + #4 * EVar vlmMst1) * EPow P2 (EVar vlmMst2) - #200 * EPow P3 (EVar vlmMst1) + #584 * EPow P3
   (EVar vlmMst2)) * EPow P4 (EVar vMst2) + (#622151 + #12960 * EVar vlmMsq * (#11 + #10 * EVar vlmMst1 - #10 * EVar
   vlmMst2) - #135756 * EVar vlmMst2 + #72 * (- #4499 + #3060 * EVar vlmMst2) * EPow P2 (EVar vlmMst1) - #185688 *
   EPow P2 (EVar vlmMst2) - #36 * EVar vlmMst1 * (#69 - #14924 * EVar vlmMst2 + #3048 * EPow P2 (EVar vlmMst2)) -
   #110304 * EPow P3 (EVar vlmMst1) - #288 * EPow P3 (EVar vlmMst2)) * EPow P5 (EVar vMst1)))) - #8 * EPow P2 (EVar
   vMt) * (EVar vMst1 * (#2 * EPow P4 (EVar vMsq) * (#9 * EPow P2 (EVar vMst2) * EPow P2 (EVar vMuSUSY) * (#13317 -
   #408 * EConst CB4 - #12 * EConst CDN - #4320 * EVar vlmMsq + #720 * EPow P2 (EVar vlmMsq) - #6 * EVar vlmMst1 *
   (#79 - #180 * EVar vlmMsq + #60 * EPow P2 (EVar vlmMsq)) + #6 * EVar vlmMst2 * (#2135 - #420 * EVar vlmMsq - #118 *
   EVar vlmMst1 + #60 * EPow P2 (EVar vlmMsq) - #60 * EPow P2 (EVar vlmMst1)) + #6 * (- #167 + #60 * EVar vlmMsq) *
   EPow P2 (EVar vlmMst1) - #6 * (- #797 + #60 * EVar vlmMsq + #4 * EVar vlmMst1) * EPow P2 (EVar vlmMst2) - #200 *
   EPow P3 (EVar vlmMst1) + #584 * EPow P3 (EVar vlmMst2)) + EPow P2 (EVar vMst1) * (- #12 * EPow P2 (EVar vMst2) *
   (#83 + #540 * EVar vlmMsq * (- #1 + #2 * EVar vlmMst1 - #2 * EVar vlmMst2) * (#1 + #2 * EVar vlmMst2 - #2 * EVar
   vlmMt) - #18 * (#163 + #49 * EVar vlmMst2 - #116 * EVar vlmMt) * EPow P2 (EVar vlmMst1) + #6282 * EPow P2 (EVar
   vlmMst2) - #36 * EVar vlmMt * (#31 + #160 * EVar vlmMst2 + #22 * EPow P2 (EVar vlmMst2)) + EVar vlmMst2 * (#6591 -
   #864 * EPow P2 (EVar vlmMt)) - #3 * EVar vlmMst1 * (#1249 - #1536 * EVar vlmMt + #108 * EVar vlmMst2 * (#5 + #4 *
   EVar vlmMt) + #66 * EPow P2 (EVar vlmMst2) - #288 * EPow P2 (EVar vlmMt)) - #594 * EPow P3 (EVar vlmMst1) + #1674 *
   EPow P3 (EVar vlmMst2)) + EPow P2 (EVar vMuSUSY) * (#107299 - #19224 * EConst CB4 - #108 * EConst CDN - #32400 *
   EVar vlmMsq + #6480 * EPow P2 (EVar vlmMsq) - #24 * EVar vlmMst1 * (#6103 - #1755 * EVar vlmMsq + #405 * EPow P2
   (EVar vlmMsq)) + #18 * (- #4379 + #1260 * EVar vlmMsq) * EPow P2 (EVar vlmMst1) + #12 * EVar vlmMst2 * (#20882 +
   #699 * EVar vlmMst1 - #270 * EVar vlmMsq * (#17 + #8 * EVar vlmMst1) + #810 * EPow P2 (EVar vlmMsq) + #54 * EPow P2
   (EVar vlmMst1)) + #18 * (#5641 + #180 * EVar vlmMsq + #540 * EVar vlmMst1) * EPow P2 (EVar vlmMst2) - #18072 * EPow
   P3 (EVar vlmMst1) + #7704 * EPow P3 (EVar vlmMst2))) + #4 * (#20293 + #9 * (#3199 + #504 * EVar vlmMst2 - #852 *
   EVar vlmMt) * EPow P2 (EVar vlmMst1) - #1620 * EVar vlmMsq * (#7 + #3 * EVar vlmMst1 * (#5 + #2 * EVar vlmMst2 - #2
   * EVar vlmMt) + #2 * EVar vlmMt + EVar vlmMst2 * (- #17 + #6 * EVar vlmMt) - #6 * EPow P2 (EVar vlmMst2)) - #41841
   * EPow P2 (EVar vlmMst2) + #54 * EVar vlmMt * (#83 + #412 * EVar vlmMst2 + #82 * EPow P2 (EVar vlmMst2)) + #18 *
   EVar vlmMst1 * (#4094 + #533 * EVar vlmMst2 - #1044 * EVar vlmMt + #180 * EVar vlmMst2 * EVar vlmMt + #42 * EPow P2
   (EVar vlmMst2) - #144 * EPow P2 (EVar vlmMt)) + #18 * EVar vlmMst2 * (- #2903 + #144 * EPow P2 (EVar vlmMt)) +
   #1620 * EPow P3 (EVar vlmMst1) - #6912 * EPow P3 (EVar vlmMst2)) * EPow P4 (EVar vMst1) - #36 * (#371 + #156 * EVar
   vlmMst2 + #90 * EVar vlmMsq * (#11 + #6 * EVar vlmMt + #4 * EVar vlmMst2 * (#1 + EVar vlmMt) - #2 * EVar vlmMst1 *
   (#5 + #2 * EVar vlmMt)) + #180 * (EVar vlmMst1 - EVar vlmMst2) * EPow P2 (EVar vlmMsq) + #12 * (#60 + #5 * EVar
   vlmMst2 + #14 * EVar vlmMt) * EPow P2 (EVar vlmMst1) - #96 * EPow P2 (EVar vlmMst2) - #6 * EVar vlmMt * (#217 +
   #154 * EVar vlmMst2 + #36 * EPow P2 (EVar vlmMst2)) - #288 * (#1 + EVar vlmMst2) * EPow P2 (EVar vlmMt) + #6 * EVar
   vlmMst1 * (- #145 + #26 * EVar vlmMt + #8 * EVar vlmMst2 * (#5 + EVar vlmMt) + #2 * EPow P2 (EVar vlmMst2) + #48 *
   EPow P2 (EVar vlmMt)) - #44 * EPow P3 (EVar vlmMst1) - #28 * EPow P3 (EVar vlmMst2)) * EPow P4 (EVar vMst2)) + #15
   * EPow P2 (EVar vMst2) * (EPow P2 (EVar vMst1) * EPow P2 (EVar vMst2) * (#8 * (#112 - #12 * EVar vlmMsq + #51 *
   EVar vlmMst2 - #3 * (#13 + #12 * EVar vlmMst2) * EVar vlmMt + #36 * EVar vlmMsq * (EVar vlmMst2 + EVar vlmMt) - #36
   * EPow P2 (EVar vlmMsq)) * EPow P2 (EVar vMst2) + (#107 - #12 * EVar vlmMsq + #12 * EVar vlmMst2) * EPow P2 (EVar
   vMuSUSY)) - #6 * ((#400 + #42 * EVar vlmMst2 + #6 * EVar vlmMt - #144 * EVar vlmMst1 * EVar vlmMt + #72 * EVar
   vlmMst2 * EVar vlmMt + #24 * EVar vlmMsq * (- #2 + #6 * EVar vlmMst1 - #3 * EVar vlmMst2 + #3 * EVar vlmMt) - #72 *
   EPow P2 (EVar vlmMsq)) * EPow P2 (EVar vMst2) + (#134 - #9 * EVar vlmMst1 + #36 * EVar vlmMsq * (- #2 + EVar
   vlmMst1 - EVar vlmMst2) + #81 * EVar vlmMst2 - #18 * EPow P2 (EVar vlmMst1) + #18 * EPow P2 (EVar vlmMst2)) * EPow
   P2 (EVar vMuSUSY)) * EPow P4 (EVar vMst1) + (- #11 + #12 * EVar vlmMsq - #12 * EVar vlmMst2) * EPow P2 (EVar
   vMuSUSY) * EPow P4 (EVar vMst2) + #4 * (#169 - #48 * EVar vlmMsq + EVar vlmMst2 * (#87 - #36 * EVar vlmMt) - #39 *
   EVar vlmMt + #36 * EVar vlmMsq * (EVar vlmMst2 + EVar vlmMt) - #36 * EPow P2 (EVar vlmMsq)) * EPow P6 (EVar vMst2))
   + #240 * EPow P2 (EVar vMsq) * (#2 * EPow P2 (EVar vMst1) * EPow P2 (EVar vMst2) * ((#27 * EVar vlmMst1 * (#3 + #2
   * EVar vlmMt) - #3 * EVar vlmMsq * (#7 + #18 * EVar vlmMst1 - #12 * EVar vlmMst2 + #6 * EVar vlmMt) - #2 * (#55 +
   #6 * EVar vlmMt + #6 * EVar vlmMst2 * (#4 + #3 * EVar vlmMt)) + #18 * EPow P2 (EVar vlmMsq)) * EPow P2 (EVar vMst2)
   - #3 * (#34 - #8 * EVar vlmMst1 + #6 * EVar vlmMsq * (- #2 + EVar vlmMst1 - EVar vlmMst2) + #20 * EVar vlmMst2 - #3
   * EPow P2 (EVar vlmMst1) + #3 * EPow P2 (EVar vlmMst2)) * EPow P2 (EVar vMuSUSY)) + #6 * (#3 * (#1 - #3 * EVar
   vlmMst1 + #3 * EVar vlmMst2) * (#1 + #2 * EVar vlmMst2 - #2 * EVar vlmMt) * EPow P2 (EVar vMst2) + #2 * (- #14 +
   EVar vlmMst1 * (#21 - #9 * EVar vlmMst2) - #27 * EVar vlmMst2 + EVar vlmMsq * (#6 - #9 * EVar vlmMst1 + #9 * EVar
   vlmMst2) + #9 * EPow P2 (EVar vlmMst1)) * EPow P2 (EVar vMuSUSY)) * EPow P4 (EVar vMst1) + #9 * EPow P2 (EVar
   vMuSUSY) * EPow P4 (EVar vMst2) + (#67 + EVar vlmMst2 * (#24 - #36 * EVar vlmMt) - #66 * EVar vlmMt + #6 * EVar
   vlmMsq * (#7 + #6 * EVar vlmMst2 + #6 * EVar vlmMt) - #36 * EPow P2 (EVar vlmMsq)) * EPow P6 (EVar vMst2))) + EVar
   vDmglst1 * (- #2 * EPow P4 (EVar vMsq) * (- #9 * EPow P2 (EVar vMst2) * EPow P2 (EVar vMuSUSY) * (#11337 - #408 *
   EConst CB4 - #12 * EConst CDN - #6480 * EVar vlmMsq + #720 * EPow P2 (EVar vlmMsq) - #30 * EVar vlmMst1 * (- #73 -
   #36 * EVar vlmMsq + #12 * EPow P2 (EVar vlmMsq)) + #6 * EVar vlmMst2 * (#2331 - #420 * EVar vlmMsq - #118 * EVar
   vlmMst1 + #60 * EPow P2 (EVar vlmMsq) - #60 * EPow P2 (EVar vlmMst1)) + #18 * (- #13 + #20 * EVar vlmMsq) * EPow P2
   (EVar vlmMst1) - #6 * (- #797 + #60 * EVar vlmMsq + #4 * EVar vlmMst1) * EPow P2 (EVar vlmMst2) - #200 * EPow P3
   (EVar vlmMst1) + #584 * EPow P3 (EVar vlmMst2)) + EPow P2 (EVar vMst1) * (- #3 * EPow P2 (EVar vMuSUSY) * (#13969 -
   #11880 * EConst CB4 + #108 * EConst CDN - #4320 * EVar vlmMsq + (- #16728 - #3240 * EVar vlmMsq * (#1 + EVar
   vlmMsq)) * EVar vlmMst1 + #2160 * EPow P2 (EVar vlmMsq) + #54 * (- #407 + #300 * EVar vlmMsq) * EPow P2 (EVar
   vlmMst1) + #12 * EVar vlmMst2 * (#4094 + #2205 * EVar vlmMst1 - #90 * EVar vlmMsq * (#1 + #24 * EVar vlmMst1) +
   #270 * EPow P2 (EVar vlmMsq) + #804 * EPow P2 (EVar vlmMst1)) + #18 * (#583 + #540 * EVar vlmMsq + #680 * EVar
   vlmMst1) * EPow P2 (EVar vlmMst2) - #16848 * EPow P3 (EVar vlmMst1) - #5040 * EPow P3 (EVar vlmMst2)) + #4 * EPow
   P2 (EVar vMst2) * (#24721 + #76707 * EVar vlmMst2 + #1620 * EVar vlmMsq * (- #7 + #6 * EVar vlmMst1 - #6 * EVar
   vlmMst2) * (#1 + #2 * EVar vlmMst2 - #2 * EVar vlmMt) - #18 * (#838 + #525 * EVar vlmMst2 - #1182 * EVar vlmMt) *
   EPow P2 (EVar vlmMst1) + #58824 * EPow P2 (EVar vlmMst2) - #36 * EVar vlmMt * (#939 + #1045 * EVar vlmMst2 + #129 *
   EPow P2 (EVar vlmMst2)) - #9 * EVar vlmMst1 * (#1119 - #1108 * EVar vlmMt + #12 * EVar vlmMst2 * (#53 + #154 * EVar
   vlmMt) + #138 * EPow P2 (EVar vlmMst2) - #864 * EPow P2 (EVar vlmMt)) - #2592 * (#2 + #3 * EVar vlmMst2) * EPow P2
   (EVar vlmMt) - #4518 * EPow P3 (EVar vlmMst1) + #15210 * EPow P3 (EVar vlmMst2))) + #4 * (#54037 + #273408 * EVar
   vlmMst2 - #9 * (#14497 + #3276 * EVar vlmMst2 - #4920 * EVar vlmMt) * EPow P2 (EVar vlmMst1) + #1620 * EVar vlmMsq
   * (#5 + #15 * EVar vlmMst1 * (#5 + #2 * EVar vlmMst2 - #2 * EVar vlmMt) + #22 * EVar vlmMt + EVar vlmMst2 * (- #97
   + #30 * EVar vlmMt) - #30 * EPow P2 (EVar vlmMst2)) + #207819 * EPow P2 (EVar vlmMst2) - #18 * EVar vlmMt * (#3201
   + #5066 * EVar vlmMst2 + #900 * EPow P2 (EVar vlmMst2)) - #2592 * (#2 + #5 * EVar vlmMst2) * EPow P2 (EVar vlmMt) +
   #6 * EVar vlmMst1 * (- #41437 + #8286 * EVar vlmMt - #15 * EVar vlmMst2 * (#341 + #312 * EVar vlmMt) + #342 * EPow
   P2 (EVar vlmMst2) + #2160 * EPow P2 (EVar vlmMt)) - #5508 * EPow P3 (EVar vlmMst1) + #32940 * EPow P3 (EVar
   vlmMst2)) * EPow P4 (EVar vMst1) + #12 * (#7007 - #290 * EVar vlmMst2 + #30 * EVar vlmMsq * (#251 + #102 * EVar
   vlmMt + #36 * EVar vlmMst2 * (#1 + EVar vlmMt) - #6 * EVar vlmMst1 * (#23 + #6 * EVar vlmMt)) + #540 * (EVar
   vlmMst1 - EVar vlmMst2) * EPow P2 (EVar vlmMsq) + #12 * (#331 + #15 * EVar vlmMst2 + #42 * EVar vlmMt) * EPow P2
   (EVar vlmMst1) - #288 * EPow P2 (EVar vlmMst2) - #6 * EVar vlmMt * (#817 + #464 * EVar vlmMst2 + #108 * EPow P2
   (EVar vlmMst2)) - #864 * (#2 + EVar vlmMst2) * EPow P2 (EVar vlmMt) + #4 * EVar vlmMst1 * (- #2438 - #408 * EVar
   vlmMt + #3 * EVar vlmMst2 * (#61 + #12 * EVar vlmMt) + #9 * EPow P2 (EVar vlmMst2) + #216 * EPow P2 (EVar vlmMt)) -
   #132 * EPow P3 (EVar vlmMst1) - #84 * EPow P3 (EVar vlmMst2)) * EPow P4 (EVar vMst2)) + #15 * EPow P2 (EVar vMst2)
   * (EPow P2 (EVar vMst1) * EPow P2 (EVar vMst2) * (#24 * (#112 - #12 * EVar vlmMsq + #51 * EVar vlmMst2 - #3 * (#13
   + #12 * EVar vlmMst2) * EVar vlmMt + #36 * EVar vlmMsq * (EVar vlmMst2 + EVar vlmMt) - #36 * EPow P2 (EVar vlmMsq))
   * EPow P2 (EVar vMst2) + (#251 - #12 * EVar vlmMsq + #12 * EVar vlmMst2) * EPow P2 (EVar vMuSUSY)) - #6 * (#2 *
   (#736 + #105 * EVar vlmMst2 + #3 * (#53 + #60 * EVar vlmMst2) * EVar vlmMt + #4 * EVar vlmMsq * (- #10 + #66 * EVar
   vlmMst1 - #45 * EVar vlmMst2 + #21 * EVar vlmMt) - #8 * EVar vlmMst1 * (#28 + #33 * EVar vlmMt) - #84 * EPow P2
   (EVar vlmMsq)) * EPow P2 (EVar vMst2) + (#818 - #117 * EVar vlmMst1 + #180 * EVar vlmMsq * (- #2 + EVar vlmMst1 -
   EVar vlmMst2) + #477 * EVar vlmMst2 - #90 * EPow P2 (EVar vlmMst1) + #90 * EPow P2 (EVar vlmMst2)) * EPow P2 (EVar
   vMuSUSY)) * EPow P4 (EVar vMst1) + (- #11 + #12 * EVar vlmMsq - #12 * EVar vlmMst2) * EPow P2 (EVar vMuSUSY) * EPow
   P4 (EVar vMst2) + #4 * (#169 - #48 * EVar vlmMsq + EVar vlmMst2 * (#87 - #36 * EVar vlmMt) - #39 * EVar vlmMt + #36
   * EVar vlmMsq * (EVar vlmMst2 + EVar vlmMt) - #36 * EPow P2 (EVar vlmMsq)) * EPow P6 (EVar vMst2)) + #240 * EPow P2
   (EVar vMsq) * (#6 * EPow P2 (EVar vMst1) * EPow P2 (EVar vMst2) * ((- (EVar vlmMsq * (#7 + #42 * EVar vlmMst1 - #36
   * EVar vlmMst2 + #6 * EVar vlmMt)) + EVar vlmMst1 * (#103 + #42 * EVar vlmMt) - #4 * (#32 + #9 * EVar vlmMst2 *
   EVar vlmMt + #12 * (EVar vlmMst2 + EVar vlmMt)) + #6 * EPow P2 (EVar vlmMsq)) * EPow P2 (EVar vMst2) - #3 * (#41 -
   #10 * EVar vlmMst1 + #6 * EVar vlmMsq * (- #2 + EVar vlmMst1 - EVar vlmMst2) + #22 * EVar vlmMst2 - #3 * EPow P2
   (EVar vlmMst1) + #3 * EPow P2 (EVar vlmMst2)) * EPow P2 (EVar vMuSUSY)) + #18 * ((#11 - #15 * EVar vlmMst1 + #15 *
   EVar vlmMst2) * (#1 + #2 * EVar vlmMst2 - #2 * EVar vlmMt) * EPow P2 (EVar vMst2) - (#29 + #48 * EVar vlmMst2 - #24
   * EPow P2 (EVar vlmMst1) - #6 * (EVar vlmMst1 * (#6 - #5 * EVar vlmMst2) + EVar vlmMsq * (#2 - #3 * EVar vlmMst1 +
   #3 * EVar vlmMst2) + EPow P2 (EVar vlmMst2))) * EPow P2 (EVar vMuSUSY)) * EPow P4 (EVar vMst1) + #9 * EPow P2 (EVar
   vMuSUSY) * EPow P4 (EVar vMst2) + (#67 + EVar vlmMst2 * (#24 - #36 * EVar vlmMt) - #66 * EVar vlmMt + #6 * EVar
   vlmMsq * (#7 + #6 * EVar vlmMst2 + #6 * EVar vlmMt) - #36 * EPow P2 (EVar vlmMsq)) * EPow P6 (EVar vMst2))))) /
   (#3888 * EPow P4 (EVar vMsq) * EPow P4 (EVar vMst2)) + EPow P2 (EVar vMt) * (EPow P2 (EVar vs2t) * (EVar vDmglst1 *
   EVar vMst1 * (#156781 - #864 * EConst CB4 - #432 * EConst CDN - #10260 * EVar vlmMsq - #30 * (#95 + #324 * EVar
   vlmMsq) * EVar vlmMst1 + #9720 * EPow P2 (EVar vlmMsq) + #7524 * EPow P2 (EVar vlmMst1) + #6 * EVar vlmMst2 *
   (#21991 - #1620 * EVar vlmMsq + #372 * EVar vlmMst1 + #432 * EPow P2 (EVar vlmMst1)) + #36 * (#1025 + #168 * EVar
   vlmMst1) * EPow P2 (EVar vlmMst2) + #5184 * EVar vlmMt * (#2 + #3 * EVar vlmMst2 - EVar vlmMst1 * (#3 + #2 * EVar
   vlmMst2) + EPow P2 (EVar vlmMst1) + EPow P2 (EVar vlmMst2)) - #7200 * EPow P3 (EVar vlmMst1) - #1440 * EPow P3
   (EVar vlmMst2)) / #243 + EPow P2 (EVar vMst1) * (EDec 2684533251028807 13 - #8 * EConst CDN / #9 - #100 * EVar
   vlmMsq / #3 + #20 * EPow P2 (EVar vlmMsq) - #2 * EVar vlmMst1 * (#4703 + #500 * EVar vlmMsq + #375 * EPow P2 (EVar
   vlmMsq)) / #225 + #2 * EVar vlmMst2 * (#33703 + #1745 * EVar vlmMst1 - #250 * EVar vlmMsq * (#16 + #3 * EVar
   vlmMst1) + #375 * EPow P2 (EVar vlmMsq) - #1025 * EPow P2 (EVar vlmMst1)) / #225 + (- #273 + #100 * EVar vlmMsq) *
   EPow P2 (EVar vlmMst1) / #15 + (#4601 + #1770 * EVar vlmMst1) * EPow P2 (EVar vlmMst2) / #45 + #32 * EVar vlmMt *
   EPow P2 (#1 - EVar vlmMst1 + EVar vlmMst2) / #3 - #64 * EPow P3 (EVar vlmMst1) / #3 - #80 * EPow P3 (EVar vlmMst2)
   / #9) + (- #2 * (#750 * EVar vDmglst1 * (#131 - #120 * EVar vlmMsq + #78 * EVar vlmMst1 + #42 * EVar vlmMst2) +
   EVar vMst1 * (#22642 + #15 * EVar vlmMsq * (- #1282 + #195 * EVar vlmMst1 - #75 * EVar vlmMst2) + #7500 * EVar
   vlmMst2 + #15 * EVar vlmMst1 * (#782 + #75 * EVar vlmMst2) - #900 * EPow P2 (EVar vlmMsq) - #2025 * EPow P2 (EVar
   vlmMst1))) / (#2025 * EPow P2 (EVar vMsq)) - (EVar vMst1 * (EDec 23825271580142933 14 - #50 * EVar vlmMsq / #3 +
   (EDec 5431291609977325 13 - #100 * EVar vlmMsq / #3) * EVar vlmMst1 + #10 * EPow P2 (EVar vlmMsq) + #266299 * EPow
   P2 (EVar vlmMst1) / #945 + EVar vlmMst2 * (- #14193447 + #441000 * EVar vlmMsq - #9820930 * EVar vlmMst1 + #455700
   * EPow P2 (EVar vlmMst1)) / #33075 + (EDec 4890899470899471 14 - #700 * EVar vlmMst1 / #9) * EPow P2 (EVar vlmMst2)
   - #64 * EVar vlmMt * (- EVar vlmMst1 + EVar vlmMst2 - #2 * EVar vlmMst1 * EVar vlmMst2 + EPow P2 (EVar vlmMst1) +
   EPow P2 (EVar vlmMst2)) / #3 + #836 * EPow P3 (EVar vlmMst1) / #27 + #892 * EPow P3 (EVar vlmMst2) / #27) + EVar
   vDmglst1 * (#63295 - #222366 * EVar vlmMst2 + #1620 * EVar vlmMsq * (#9 - #20 * EVar vlmMst1 + #14 * EVar vlmMst2)
   + #4860 * EPow P2 (EVar vlmMsq) - #144 * (- #1355 + #39 * EVar vlmMst2 + #144 * EVar vlmMt) * EPow P2 (EVar
   vlmMst1) + #6 * EVar vlmMst1 * (#42083 + #6048 * EVar vlmMt + #48 * EVar vlmMst2 * (- #953 + #144 * EVar vlmMt) -
   #9432 * EPow P2 (EVar vlmMst2)) + #97488 * EPow P2 (EVar vlmMst2) - #5184 * EVar vlmMt * (#2 + #7 * EVar vlmMst2 +
   #4 * EPow P2 (EVar vlmMst2)) + #29520 * EPow P3 (EVar vlmMst1) + #32688 * EPow P3 (EVar vlmMst2)) / #243) / EPow P2
   (EVar vMst2)) * EPow P3 (EVar vMst1) + (#2 * (#5108 + #15 * EVar vlmMsq * (- #218 + #75 * EVar vlmMst1 - #195 *
   EVar vlmMst2) + #6270 * EVar vlmMst2 - #375 * EVar vlmMst1 * (#8 + #3 * EVar vlmMst2) + #900 * EPow P2 (EVar
   vlmMsq) + #2025 * EPow P2 (EVar vlmMst2)) / (#2025 * EPow P2 (EVar vMsq)) + #2 * (- #1 + #2 * EVar vlmMst2) / (#3 *
   EPow P2 (EVar vMst1)) - EVar vMst1 * (#5 * EVar vDmglst1 * (#13 - #12 * EVar vlmMsq + #12 * EVar vlmMst2) / #18 +
   EVar vMst1 * (- (EVar vlmMsq * (EDec 2247165532879819 15 + EVar vlmMst1 - #11 * EVar vlmMst2 / #21)) + EVar vlmMst1
   * (EDec 14 1 + EVar vlmMst2) + #5 * EPow P2 (EVar vlmMsq) / #21 + #2 * (#54751 + #19614 * EVar vlmMst2 - #17640 *
   EPow P2 (EVar vlmMst2)) / #46305)) / EPow P4 (EVar vMsq)) * EPow P4 (EVar vMst2) + (#2 * ((#8 * EConst COepS2 - #27
   * (#37 + #6 * EVar vlmMst1 - #6 * EVar vlmMst2) * EConst CS2) * EPow P2 (EVar vMst2) + (- #1480 * EConst COepS2 +
   #27 * (#2069 + #1110 * EVar vlmMst1 - #1110 * EVar vlmMst2) * EConst CS2) * EPow P2 (EVar vMuSUSY)) * EPow P4 (EVar
   vMst1) - #27 * ((#8 * EConst COepS2 - #81 * (#1 + #2 * EVar vlmMst1 - #2 * EVar vlmMst2) * EConst CS2) * EPow P2
   (EVar vMst2) + (#8 * EConst COepS2 + #81 * (#11 - #2 * EVar vlmMst1 + #2 * EVar vlmMst2) * EConst CS2) * EPow P2
   (EVar vMuSUSY)) * EPow P4 (EVar vMst2) - #3 * EPow P2 (EVar vMst1) * (#4 * (#136 * EConst COepS2 - #81 * (#49 + #34
   * EVar vlmMst1 - #34 * EVar vlmMst2) * EConst CS2) * EPow P2 (EVar vMst2) * EPow P2 (EVar vMuSUSY) + (#40 * EConst
   COepS2 - #81 * (#61 + #10 * EVar vlmMst1 - #10 * EVar vlmMst2) * EConst CS2) * EPow P4 (EVar vMst2))) / (#729 *
   EPow P4 (EVar vMst2)) - EPow P2 (EVar vMuSUSY) * (EDec 8361265432098766 14 + #4 * EConst CB4 - #4 * EConst CDN / #9
   - #185 * EVar vlmMsq / #9 + #25 * EPow P2 (EVar vlmMsq) / #3 - EVar vlmMst1 * (#3781 - #300 * EVar vlmMsq + #180 *
   EPow P2 (EVar vlmMsq)) / #108 + EVar vlmMst2 * (#14065 - #3498 * EVar vlmMst1 + #60 * EVar vlmMsq * (- #35 + #12 *
   EVar vlmMst1) + #180 * EPow P2 (EVar vlmMsq) - #18 * EPow P2 (EVar vlmMst1)) / #108 + (EDec 6361111111111111 15 -
   #5 * EVar vlmMsq / #3) * EPow P2 (EVar vlmMst1) - (- #2193 + #180 * EVar vlmMsq + #442 * EVar vlmMst1) * EPow P2
   (EVar vlmMst2) / #36 + EVar vDmglst1 * ((#7 - #2 * EVar vlmMst1 - #60 * EVar vlmMsq * (- #5 + #6 * EVar vlmMst1) -
   #226 * EVar vlmMst2 + #220 * EVar vlmMst1 * EVar vlmMst2 + #180 * EPow P2 (EVar vlmMsq) + #178 * EPow P2 (EVar
   vlmMst1) + #18 * EPow P2 (EVar vlmMst2)) / (#18 * EVar vMst1) + #10 * EVar vMst1 * (#82 - #93 * EVar vlmMst1 + #6 *
   EVar vlmMsq * (#4 + #3 * EVar vlmMst1 - #3 * EVar vlmMst2) + #69 * EVar vlmMst2 - #9 * EPow P2 (EVar vlmMst1) + #9
   * EPow P2 (EVar vlmMst2)) / (#27 * EPow P2 (EVar vMsq))) + #11 * EPow P3 (EVar vlmMst1) / #18 + #71 * EPow P3 (EVar
   vlmMst2) / #6 + EVar vMst1 * (- (EVar vMst1 * (EDec 26575942386831276 15 - #76 * EConst CB4 / #9 + #2 * EConst CDN
   / #9 + #35 * EVar vlmMsq / #3 - #5 * EPow P2 (EVar vlmMsq) + EVar vlmMst1 * (EDec 2242274074074074 13 - #380 * EVar
   vlmMsq / #9 + #40 * EPow P2 (EVar vlmMsq) / #3) - #149 * EPow P2 (EVar vlmMst1) / #90 - EVar vlmMst2 * (#372457 -
   #242670 * EVar vlmMst1 + #1500 * EVar vlmMsq * (- #47 + #24 * EVar vlmMst1) + #18000 * EPow P2 (EVar vlmMsq) +
   #17700 * EPow P2 (EVar vlmMst1)) / #1350 + (- #17709 + #2400 * EVar vlmMsq + #6940 * EVar vlmMst1) * EPow P2 (EVar
   vlmMst2) / #90 + #8 * EPow P3 (EVar vlmMst1) / #27 - #1736 * EPow P3 (EVar vlmMst2) / #27)) + #2 * EVar vDmglst1 *
   (#586 + #36 * EConst CB4 + #30 * EConst CDN - #495 * EVar vlmMsq + #135 * EPow P2 (EVar vlmMsq) - #6 * EVar vlmMst1
   * (- #73 - #45 * EVar vlmMsq + #45 * EPow P2 (EVar vlmMsq)) + #3 * EVar vlmMst2 * (#229 - #180 * EVar vlmMsq + #86
   * EVar vlmMst1 + #90 * EPow P2 (EVar vlmMsq) - #79 * EPow P2 (EVar vlmMst1)) + #18 * (- #43 + #15 * EVar vlmMsq) *
   EPow P2 (EVar vlmMst1) - #3 * (- #372 + #90 * EVar vlmMsq + #49 * EVar vlmMst1) * EPow P2 (EVar vlmMst2) - #65 *
   EPow P3 (EVar vlmMst1) + #449 * EPow P3 (EVar vlmMst2)) / #27) / EPow P2 (EVar vMst2) + EPow P2 (EVar vMst2) * ((#1
   - #2 * EVar vlmMst2) / (#3 * EPow P2 (EVar vMst1)) - (#5 * EVar vDmglst1 * EVar vMst1 / #6 + (EDec
   17499706655148832 16 + EVar vlmMsq * (- EDec 990854119425548 15 + #8 * EVar vlmMst1 / #9 - #52 * EVar vlmMst2 /
   #63) + #10511 * EVar vlmMst2 / #4410 - #4 * EVar vlmMst1 * (#47 + #30 * EVar vlmMst2) / #135 - #2 * EPow P2 (EVar
   vlmMsq) / #63 + #6 * EPow P2 (EVar vlmMst2) / #7) * EPow P2 (EVar vMst1) + (EDec 6658120973257028 16 + EVar vlmMsq
   * (- EDec 36171579743008314 17 + EVar vlmMst1 / #9 - EVar vlmMst2 / #7) + #15647 * EVar vlmMst2 / #26460 - EVar
   vlmMst1 * (#31 + #15 * EVar vlmMst2) / #135 + EPow P2 (EVar vlmMsq) / #63 + #8 * EPow P2 (EVar vlmMst2) / #63) *
   EPow P2 (EVar vMst2)) / EPow P4 (EVar vMsq)) + EPow P3 (EVar vMst1) * ((#514500 * EVar vDmglst1 * (#485 - #346 *
   EVar vlmMst1 + #12 * EVar vlmMsq * (#1 + #10 * EVar vlmMst1 - #10 * EVar vlmMst2) + #334 * EVar vlmMst2 - #60 *
   EPow P2 (EVar vlmMst1) + #60 * EPow P2 (EVar vlmMst2)) - EVar vMst1 * (- #41220947 + #420 * EVar vlmMsq * (#12479 +
   #4830 * EVar vlmMst1 - #5670 * EVar vlmMst2) + #1081710 * EVar vlmMst2 - #210 * EVar vlmMst1 * (#30109 + #123480 *
   EVar vlmMst2) + #176400 * EPow P2 (EVar vlmMsq) + #11951100 * EPow P2 (EVar vlmMst1) + #14156100 * EPow P2 (EVar
   vlmMst2))) / (#11113200 * EPow P4 (EVar vMsq)) - (EVar vMst1 * (EDec 2656519022158834 13 - #76 * EConst CB4 / #9 +
   #2 * EConst CDN / #9 - #25 * EVar vlmMsq / #2 + EVar vlmMst1 * (EDec 42637458616780043 14 - #605 * EVar vlmMsq / #9
   + #40 * EPow P2 (EVar vlmMsq) / #3) - (EDec 6624060846560846 14 - #40 * EVar vlmMsq / #3) * EPow P2 (EVar vlmMst1)
   - EVar vlmMst2 * (EDec 4117079195011338 13 - #1386139 * EVar vlmMst1 / #3780 + #5 * EVar vlmMsq * (- #121 + #96 *
   EVar vlmMst1) / #9 + #40 * EPow P2 (EVar vlmMsq) / #3 + #298 * EPow P2 (EVar vlmMst1) / #3) - (EDec
   2986850529100529 13 - #40 * EVar vlmMsq - #2174 * EVar vlmMst1 / #9) * EPow P2 (EVar vlmMst2) + #80 * EPow P3 (EVar
   vlmMst1) / #27 - #3920 * EPow P3 (EVar vlmMst2) / #27) + EVar vDmglst1 * (EDec 11249099794238683 14 - #8 * EConst
   CB4 / #3 - #20 * EConst CDN / #9 + EVar vlmMst1 * (EDec 25424382716049382 14 - #120 * EVar vlmMsq + #20 * EPow P2
   (EVar vlmMsq)) + (EDec 12957407407407408 14 - #20 * EVar vlmMsq) * EPow P2 (EVar vlmMst1) - EVar vlmMst2 * (EDec
   21157716049382717 14 - #120 * EVar vlmMsq - #1439 * EVar vlmMst1 / #27 + #20 * EPow P2 (EVar vlmMsq) + #338 * EPow
   P2 (EVar vlmMst1) / #9) + (- #9491 + #1080 * EVar vlmMsq + #6636 * EVar vlmMst1) * EPow P2 (EVar vlmMst2) / #54 +
   #38 * EPow P3 (EVar vlmMst1) / #9 - #806 * EPow P3 (EVar vlmMst2) / #9)) / EPow P4 (EVar vMst2)) + ((#836 - #353 *
   EVar vlmMst2 + #30 * EVar vlmMsq * (#7 - #4 * EVar vlmMst1 + #4 * EVar vlmMst2) + EVar vlmMst1 * (#143 + #750 *
   EVar vlmMst2) - #315 * EPow P2 (EVar vlmMst1) - #435 * EPow P2 (EVar vlmMst2)) * EPow P2 (EVar vMst1) - (#100 *
   EVar vDmglst1 * (#55 + EVar vlmMst1 + #6 * EVar vlmMsq * (- #5 + #7 * EVar vlmMst1 - #7 * EVar vlmMst2) + #29 *
   EVar vlmMst2 - #21 * EPow P2 (EVar vlmMst1) + #21 * EPow P2 (EVar vlmMst2)) * EPow P3 (EVar vMst1) + (#1525 + #30 *
   EVar vlmMsq * (- #25 + #44 * EVar vlmMst1 - #44 * EVar vlmMst2) + #1928 * EVar vlmMst2 - #2 * EVar vlmMst1 * (#589
   + #900 * EVar vlmMst2) + #240 * EPow P2 (EVar vlmMst1) + #1560 * EPow P2 (EVar vlmMst2)) * EPow P4 (EVar vMst1) +
   (#939 + #30 * EVar vlmMsq * (- #12 + #5 * EVar vlmMst1 - #5 * EVar vlmMst2) + #760 * EVar vlmMst2 - #50 * EVar
   vlmMst1 * (#8 + #3 * EVar vlmMst2) + #150 * EPow P2 (EVar vlmMst2)) * EPow P4 (EVar vMst2)) / EPow P2 (EVar vMst2))
   / (#135 * EPow P2 (EVar vMsq))) - EPow P2 (EVar vMst2) * (#2744 * (#3091 + #10020 * EVar vlmMst2 + #30 * EVar
   vlmMst1 * (- #491 + #150 * EVar vlmMst2) + #30 * EVar vlmMsq * (#157 - #60 * (EVar vlmMst1 + EVar vlmMst2)) + #1800
   * EPow P2 (EVar vlmMsq) - #1350 * (EPow P2 (EVar vlmMst1) + EPow P2 (EVar vlmMst2))) * EPow P2 (EVar vMsq) * EPow
   P3 (EVar vMst1) + #8575 * EVar vMst1 * (#4501 - #288 * EConst CDN - #10896 * EVar vlmMst1 + #1080 * (#3 - EVar
   vlmMst1 + EVar vlmMst2) * EPow P2 (EVar vlmMsq) + #2952 * EPow P2 (EVar vlmMst1) - #24 * EVar vlmMst2 * (- #733 +
   #336 * EVar vlmMst1 + #36 * EPow P2 (EVar vlmMst1)) - #72 * (- #191 + #44 * EVar vlmMst1) * EPow P2 (EVar vlmMst2)
   - #360 * EVar vlmMsq * (#3 + EVar vlmMst1 * (#4 - #6 * EVar vlmMst2) + #14 * EVar vlmMst2 + #6 * EPow P2 (EVar
   vlmMst2)) - #696 * EPow P3 (EVar vlmMst1) + #4728 * EPow P3 (EVar vlmMst2)) * EPow P4 (EVar vMsq) - #51450 * EVar
   vDmglst1 * (#120 * (#7 - #20 * EVar vlmMsq + #26 * EVar vlmMst1 - #6 * EVar vlmMst2) * EPow P2 (EVar vMsq) * EPow
   P2 (EVar vMst1) + #4 * (#158 + #60 * EVar vlmMsq * (- #4 + #9 * EVar vlmMst1) + EVar vlmMst1 * (#70 - #138 * EVar
   vlmMst2) + #96 * EVar vlmMst2 - #270 * EPow P2 (EVar vlmMsq) - #459 * EPow P2 (EVar vlmMst1) - #27 * EPow P2 (EVar
   vlmMst2)) * EPow P4 (EVar vMsq) + #5 * (#17 - #324 * EVar vlmMsq + #408 * EVar vlmMst1 - #84 * EVar vlmMst2) * EPow
   P4 (EVar vMst1)) - #60 * (#130598 + EVar vlmMst1 * (#423822 - #46305 * EVar vlmMst2) - #105 * EVar vlmMsq * (#2929
   + #231 * EVar vlmMst1 - #441 * EVar vlmMst2) - #116277 * EVar vlmMst2 - #11025 * EPow P2 (EVar vlmMsq) + #35280 *
   EPow P2 (EVar vlmMst1)) * EPow P5 (EVar vMst1)) / (#2778300 * EVar vMst1 * EPow P4 (EVar vMsq))) + EPow P2 (EVar
   vMuSUSY) * (EPow P2 (EVar vs2t) * (EDec 8361265432098766 14 + #4 * EConst CB4 - #4 * EConst CDN / #9 - #185 * EVar
   vlmMsq / #9 + #25 * EPow P2 (EVar vlmMsq) / #3 - EVar vlmMst1 * (#3781 - #300 * EVar vlmMsq + #180 * EPow P2 (EVar
   vlmMsq)) / #108 + EVar vlmMst2 * (#14065 - #3498 * EVar vlmMst1 + #60 * EVar vlmMsq * (- #35 + #12 * EVar vlmMst1)
   + #180 * EPow P2 (EVar vlmMsq) - #18 * EPow P2 (EVar vlmMst1)) / #108 + (#229 - #60 * EVar vlmMsq) * EPow P2 (EVar
   vlmMst1) / #36 - (- #2193 + #180 * EVar vlmMsq + #442 * EVar vlmMst1) * EPow P2 (EVar vlmMst2) / #36 + EVar
   vDmglst1 * ((#7 - #2 * EVar vlmMst1 - #60 * EVar vlmMsq * (- #5 + #6 * EVar vlmMst1) - #226 * EVar vlmMst2 + #220 *
   EVar vlmMst1 * EVar vlmMst2 + #180 * EPow P2 (EVar vlmMsq) + #178 * EPow P2 (EVar vlmMst1) + #18 * EPow P2 (EVar
   vlmMst2)) / (#18 * EVar vMst1) + #10 * EVar vMst1 * (#82 - #93 * EVar vlmMst1 + #6 * EVar vlmMsq * (#4 + #3 * EVar
   vlmMst1 - #3 * EVar vlmMst2) + #69 * EVar vlmMst2 - #9 * EPow P2 (EVar vlmMst1) + #9 * EPow P2 (EVar vlmMst2)) /
   (#27 * EPow P2 (EVar vMsq))) + #11 * EPow P3 (EVar vlmMst1) / #18 + #71 * EPow P3 (EVar vlmMst2) / #6 + EVar vMst1
   * (- (EVar vMst1 * (EDec 26575942386831276 15 - #76 * EConst CB4 / #9 + #2 * EConst CDN / #9 + #35 * EVar vlmMsq /
   #3 - #5 * EPow P2 (EVar vlmMsq) + EVar vlmMst1 * (EDec 2242274074074074 13 - #380 * EVar vlmMsq / #9 + #40 * EPow
   P2 (EVar vlmMsq) / #3) - #149 * EPow P2 (EVar vlmMst1) / #90 - EVar vlmMst2 * (#372457 - #242670 * EVar vlmMst1 +
   #1500 * EVar vlmMsq * (- #47 + #24 * EVar vlmMst1) + #18000 * EPow P2 (EVar vlmMsq) + #17700 * EPow P2 (EVar
   vlmMst1)) / #1350 + (- #17709 + #2400 * EVar vlmMsq + #6940 * EVar vlmMst1) * EPow P2 (EVar vlmMst2) / #90 + #8 *
   EPow P3 (EVar vlmMst1) / #27 - #1736 * EPow P3 (EVar vlmMst2) / #27)) + #2 * EVar vDmglst1 * (#586 + #36 * EConst
   CB4 + #30 * EConst CDN - #495 * EVar vlmMsq + #135 * EPow P2 (EVar vlmMsq) - #6 * EVar vlmMst1 * (- #73 - #45 *
   EVar vlmMsq + #45 * EPow P2 (EVar vlmMsq)) + #3 * EVar vlmMst2 * (#229 - #180 * EVar vlmMsq + #86 * EVar vlmMst1 +
   #90 * EPow P2 (EVar vlmMsq) - #79 * EPow P2 (EVar vlmMst1)) + #18 * (- #43 + #15 * EVar vlmMsq) * EPow P2 (EVar
   vlmMst1) - #3 * (- #372 + #90 * EVar vlmMsq + #49 * EVar vlmMst1) * EPow P2 (EVar vlmMst2) - #65 * EPow P3 (EVar
   vlmMst1) + #449 * EPow P3 (EVar vlmMst2)) / #27) / EPow P2 (EVar vMst2) + EPow P2 (EVar vMst2) * ((#1 - #2 * EVar
   vlmMst2) / (#3 * EPow P2 (EVar vMst1)) - (#5 * EVar vDmglst1 * EVar vMst1 / #6 + (EDec 17499706655148832 16 + EVar
   vlmMsq * (- EDec 990854119425548 15 + #8 * EVar vlmMst1 / #9 - #52 * EVar vlmMst2 / #63) + #10511 * EVar vlmMst2 /
   #4410 - #4 * EVar vlmMst1 * (#47 + #30 * EVar vlmMst2) / #135 - #2 * EPow P2 (EVar vlmMsq) / #63 + #6 * EPow P2
   (EVar vlmMst2) / #7) * EPow P2 (EVar vMst1) + (EDec 6658120973257028 16 + EVar vlmMsq * (- EDec 36171579743008314
   17 + EVar vlmMst1 / #9 - EVar vlmMst2 / #7) + #15647 * EVar vlmMst2 / #26460 - EVar vlmMst1 * (#31 + #15 * EVar
   vlmMst2) / #135 + EPow P2 (EVar vlmMsq) / #63 + #8 * EPow P2 (EVar vlmMst2) / #63) * EPow P2 (EVar vMst2)) / EPow
   P4 (EVar vMsq)) + EPow P3 (EVar vMst1) * ((#514500 * EVar vDmglst1 * (#485 - #346 * EVar vlmMst1 + #12 * EVar
   vlmMsq * (#1 + #10 * EVar vlmMst1 - #10 * EVar vlmMst2) + #334 * EVar vlmMst2 - #60 * EPow P2 (EVar vlmMst1) + #60
   * EPow P2 (EVar vlmMst2)) - EVar vMst1 * (- #41220947 + #420 * EVar vlmMsq * (#12479 + #4830 * EVar vlmMst1 - #5670
   * EVar vlmMst2) + #1081710 * EVar vlmMst2 - #210 * EVar vlmMst1 * (#30109 + #123480 * EVar vlmMst2) + #176400 *
   EPow P2 (EVar vlmMsq) + #11951100 * EPow P2 (EVar vlmMst1) + #14156100 * EPow P2 (EVar vlmMst2))) / (#11113200 *
   EPow P4 (EVar vMsq)) - (EVar vMst1 * (EDec 2656519022158834 13 - #76 * EConst CB4 / #9 + #2 * EConst CDN / #9 - #25
   * EVar vlmMsq / #2 + EVar vlmMst1 * (EDec 42637458616780043 14 - #605 * EVar vlmMsq / #9 + #40 * EPow P2 (EVar
   vlmMsq) / #3) - (EDec 6624060846560846 14 - #40 * EVar vlmMsq / #3) * EPow P2 (EVar vlmMst1) - EVar vlmMst2 * (EDec
   4117079195011338 13 - #1386139 * EVar vlmMst1 / #3780 + #5 * EVar vlmMsq * (- #121 + #96 * EVar vlmMst1) / #9 + #40
   * EPow P2 (EVar vlmMsq) / #3 + #298 * EPow P2 (EVar vlmMst1) / #3) - (EDec 2986850529100529 13 - #40 * EVar vlmMsq
   - #2174 * EVar vlmMst1 / #9) * EPow P2 (EVar vlmMst2) + #80 * EPow P3 (EVar vlmMst1) / #27 - #3920 * EPow P3 (EVar
   vlmMst2) / #27) + EVar vDmglst1 * (EDec 11249099794238683 14 - #8 * EConst CB4 / #3 - #20 * EConst CDN / #9 + EVar
   vlmMst1 * (EDec 25424382716049382 14 - #120 * EVar vlmMsq + #20 * EPow P2 (EVar vlmMsq)) + (EDec 12957407407407408
   14 - #20 * EVar vlmMsq) * EPow P2 (EVar vlmMst1) - EVar vlmMst2 * (EDec 21157716049382717 14 - #120 * EVar vlmMsq -
   #1439 * EVar vlmMst1 / #27 + #20 * EPow P2 (EVar vlmMsq) + #338 * EPow P2 (EVar vlmMst1) / #9) + (- #9491 + #1080 *
   EVar vlmMsq + #6636 * EVar vlmMst1) * EPow P2 (EVar vlmMst2) / #54 + #38 * EPow P3 (EVar vlmMst1) / #9 - #806 *
   EPow P3 (EVar vlmMst2) / #9)) / EPow P4 (EVar vMst2)) + EConst CS2 * (#81 * (#11 - #2 * EVar vlmMst1 + #2 * EVar
   vlmMst2) - #36 * (#49 + #34 * EVar vlmMst1 - #34 * EVar vlmMst2) * EPow P2 (EVar vMst1) / EPow P2 (EVar vMst2) - #2
   * (#2069 + #1110 * EVar vlmMst1 - #1110 * EVar vlmMst2) * EPow P4 (EVar vMst1) / EPow P4 (EVar vMst2)) / #27 + #8 *
   EConst COepS2 * (#204 * EPow P2 (EVar vMst1) * EPow P2 (EVar vMst2) + #370 * EPow P4 (EVar vMst1) + #27 * EPow P4
   (EVar vMst2)) / (#729 * EPow P4 (EVar vMst2)) + ((#836 - #353 * EVar vlmMst2 + #30 * EVar vlmMsq * (#7 - #4 * EVar
   vlmMst1 + #4 * EVar vlmMst2) + EVar vlmMst1 * (#143 + #750 * EVar vlmMst2) - #315 * EPow P2 (EVar vlmMst1) - #435 *
   EPow P2 (EVar vlmMst2)) * EPow P2 (EVar vMst1) - (#100 * EVar vDmglst1 * (#55 + EVar vlmMst1 + #6 * EVar vlmMsq *
   (- #5 + #7 * EVar vlmMst1 - #7 * EVar vlmMst2) + #29 * EVar vlmMst2 - #21 * EPow P2 (EVar vlmMst1) + #21 * EPow P2
   (EVar vlmMst2)) * EPow P3 (EVar vMst1) + (#1525 + #30 * EVar vlmMsq * (- #25 + #44 * EVar vlmMst1 - #44 * EVar
   vlmMst2) + #1928 * EVar vlmMst2 - #2 * EVar vlmMst1 * (#589 + #900 * EVar vlmMst2) + #240 * EPow P2 (EVar vlmMst1)
   + #1560 * EPow P2 (EVar vlmMst2)) * EPow P4 (EVar vMst1) + (#939 + #30 * EVar vlmMsq * (- #12 + #5 * EVar vlmMst1 -
   #5 * EVar vlmMst2) + #760 * EVar vlmMst2 - #50 * EVar vlmMst1 * (#8 + #3 * EVar vlmMst2) + #150 * EPow P2 (EVar
   vlmMst2)) * EPow P4 (EVar vMst2)) / EPow P2 (EVar vMst2)) / (#135 * EPow P2 (EVar vMsq))) + EVar vMt * (#144 * EVar
   vMst1 * EVar vMt * (#2 * EVar vDmglst1 * (#735 - #6 * EConst CB4 - #3 * EConst CDN - #78 * EVar vlmMst1 + #6 * EPow
   P2 (EVar vlmMst1) + #6 * EVar vlmMst2 * (#85 - #6 * EVar vlmMst1 + EPow P2 (EVar vlmMst1)) + #18 * (#7 + EVar
   vlmMst1) * EPow P2 (EVar vlmMst2) + #24 * EVar vlmMt * (#2 + #3 * EVar vlmMst2 - EVar vlmMst1 * (#3 + #2 * EVar
   vlmMst2) + EPow P2 (EVar vlmMst1) + EPow P2 (EVar vlmMst2)) - #26 * EPow P3 (EVar vlmMst1) + #2 * EPow P3 (EVar
   vlmMst2)) + EVar vMst1 * (#417 - #6 * EConst CB4 - #3 * EConst CDN - #162 * EVar vlmMst1 + #6 * EVar vlmMst2 * (#87
   - #8 * EVar vlmMst1 + EPow P2 (EVar vlmMst1)) + #18 * (#8 + EVar vlmMst1) * EPow P2 (EVar vlmMst2) + #24 * EVar
   vlmMt * EPow P2 (#1 - EVar vlmMst1 + EVar vlmMst2) - #26 * EPow P3 (EVar vlmMst1) + #2 * EPow P3 (EVar vlmMst2))) +
   EVar vs2t * (#3 * EVar vDmglst1 * (#2 * (EPow P2 (EVar vMst1) * (#13969 - #11880 * EConst CB4 + #108 * EConst CDN -
   #4320 * EVar vlmMsq + (- #16728 - #3240 * EVar vlmMsq * (#1 + EVar vlmMsq)) * EVar vlmMst1 + #2160 * EPow P2 (EVar
   vlmMsq) + #54 * (- #407 + #300 * EVar vlmMsq) * EPow P2 (EVar vlmMst1) + #12 * EVar vlmMst2 * (#4094 + #2205 * EVar
   vlmMst1 - #90 * EVar vlmMsq * (#1 + #24 * EVar vlmMst1) + #270 * EPow P2 (EVar vlmMsq) + #804 * EPow P2 (EVar
   vlmMst1)) + #18 * (#583 + #540 * EVar vlmMsq + #680 * EVar vlmMst1) * EPow P2 (EVar vlmMst2) - #16848 * EPow P3
   (EVar vlmMst1) - #5040 * EPow P3 (EVar vlmMst2)) + #3 * EPow P2 (EVar vMst2) * (#11337 - #408 * EConst CB4 - #12 *
   EConst CDN - #6480 * EVar vlmMsq + #720 * EPow P2 (EVar vlmMsq) - #30 * EVar vlmMst1 * (- #73 - #36 * EVar vlmMsq +
   #12 * EPow P2 (EVar vlmMsq)) + #6 * EVar vlmMst2 * (#2331 - #420 * EVar vlmMsq - #118 * EVar vlmMst1 + #60 * EPow
   P2 (EVar vlmMsq) - #60 * EPow P2 (EVar vlmMst1)) + #18 * (- #13 + #20 * EVar vlmMsq) * EPow P2 (EVar vlmMst1) - #6
   * (- #797 + #60 * EVar vlmMsq + #4 * EVar vlmMst1) * EPow P2 (EVar vlmMst2) - #200 * EPow P3 (EVar vlmMst1) + #584
   * EPow P3 (EVar vlmMst2))) * EPow P4 (EVar vMsq) - #720 * EPow P2 (EVar vMsq) * (#2 * (#41 - #10 * EVar vlmMst1 +
   #6 * EVar vlmMsq * (- #2 + EVar vlmMst1 - EVar vlmMst2) + #22 * EVar vlmMst2 - #3 * EPow P2 (EVar vlmMst1) + #3 *
   EPow P2 (EVar vlmMst2)) * EPow P2 (EVar vMst1) * EPow P2 (EVar vMst2) + #2 * (#29 + #48 * EVar vlmMst2 - #24 * EPow
   P2 (EVar vlmMst1) - #6 * (EVar vlmMst1 * (#6 - #5 * EVar vlmMst2) + EVar vlmMsq * (#2 - #3 * EVar vlmMst1 + #3 *
   EVar vlmMst2) + EPow P2 (EVar vlmMst2))) * EPow P4 (EVar vMst1) - EPow P4 (EVar vMst2)) - #5 * EPow P2 (EVar vMst2)
   * ((- #251 + #12 * EVar vlmMsq - #12 * EVar vlmMst2) * EPow P2 (EVar vMst1) * EPow P2 (EVar vMst2) + #6 * (#818 -
   #117 * EVar vlmMst1 + #180 * EVar vlmMsq * (- #2 + EVar vlmMst1 - EVar vlmMst2) + #477 * EVar vlmMst2 - #90 * EPow
   P2 (EVar vlmMst1) + #90 * EPow P2 (EVar vlmMst2)) * EPow P4 (EVar vMst1) + (#11 - #12 * EVar vlmMsq + #12 * EVar
   vlmMst2) * EPow P4 (EVar vMst2))) + EVar vMst1 * (#2 * (#9 * EPow P2 (EVar vMst2) * (#13317 - #408 * EConst CB4 -
   #12 * EConst CDN - #4320 * EVar vlmMsq + #720 * EPow P2 (EVar vlmMsq) - #6 * EVar vlmMst1 * (#79 - #180 * EVar
   vlmMsq + #60 * EPow P2 (EVar vlmMsq)) + #6 * EVar vlmMst2 * (#2135 - #420 * EVar vlmMsq - #118 * EVar vlmMst1 + #60
   * EPow P2 (EVar vlmMsq) - #60 * EPow P2 (EVar vlmMst1)) + #6 * (- #167 + #60 * EVar vlmMsq) * EPow P2 (EVar
   vlmMst1) - #6 * (- #797 + #60 * EVar vlmMsq + #4 * EVar vlmMst1) * EPow P2 (EVar vlmMst2) - #200 * EPow P3 (EVar
   vlmMst1) + #584 * EPow P3 (EVar vlmMst2)) + EPow P2 (EVar vMst1) * (#107299 - #19224 * EConst CB4 - #108 * EConst
   CDN - #32400 * EVar vlmMsq + #6480 * EPow P2 (EVar vlmMsq) - #24 * EVar vlmMst1 * (#6103 - #1755 * EVar vlmMsq +
   #405 * EPow P2 (EVar vlmMsq)) + #18 * (- #4379 + #1260 * EVar vlmMsq) * EPow P2 (EVar vlmMst1) + #12 * EVar vlmMst2
   * (#20882 + #699 * EVar vlmMst1 - #270 * EVar vlmMsq * (#17 + #8 * EVar vlmMst1) + #810 * EPow P2 (EVar vlmMsq) +
   #54 * EPow P2 (EVar vlmMst1)) + #18 * (#5641 + #180 * EVar vlmMsq + #540 * EVar vlmMst1) * EPow P2 (EVar vlmMst2) -
   #18072 * EPow P3 (EVar vlmMst1) + #7704 * EPow P3 (EVar vlmMst2))) * EPow P4 (EVar vMsq) - #720 * EPow P2 (EVar
   vMsq) * (#2 * (#34 - #8 * EVar vlmMst1 + #6 * EVar vlmMsq * (- #2 + EVar vlmMst1 - EVar vlmMst2) + #20 * EVar
   vlmMst2 - #3 * EPow P2 (EVar vlmMst1) + #3 * EPow P2 (EVar vlmMst2)) * EPow P2 (EVar vMst1) * EPow P2 (EVar vMst2)
   + #4 * (#14 - #21 * EVar vlmMst1 + EVar vlmMsq * (- #6 + #9 * EVar vlmMst1 - #9 * EVar vlmMst2) + #27 * EVar
   vlmMst2 + #9 * EVar vlmMst1 * EVar vlmMst2 - #9 * EPow P2 (EVar vlmMst1)) * EPow P4 (EVar vMst1) - #3 * EPow P4
   (EVar vMst2)) - #15 * (#6 * (#134 - #9 * EVar vlmMst1 + #36 * EVar vlmMsq * (- #2 + EVar vlmMst1 - EVar vlmMst2) +
   #81 * EVar vlmMst2 - #18 * EPow P2 (EVar vlmMst1) + #18 * EPow P2 (EVar vlmMst2)) * EPow P2 (EVar vMst2) * EPow P4
   (EVar vMst1) + (- #107 + #12 * EVar vlmMsq - #12 * EVar vlmMst2) * EPow P2 (EVar vMst1) * EPow P4 (EVar vMst2) +
   (#11 - #12 * EVar vlmMsq + #12 * EVar vlmMst2) * EPow P6 (EVar vMst2)))) / EPow P4 (EVar vMsq)) / (#486 * EPow P4
   (EVar vMst2))) / EPow P2 (EVar vSbeta)) + EConst Cz2 * (- #36 * EVar vMt * EPow P3 (EVar vs2t) * (#6 * EVar
   vDmglst1 * (#1941 - #660 * EVar vlmMsq - #220 * EVar vlmMst1 + #1244 * EVar vlmMst2) * EPow P2 (EVar vMst1) + #2 *
   (#1355 - #540 * EVar vlmMsq + #24 * EVar vlmMst1 + #744 * EVar vlmMst2) * EPow P3 (EVar vMst1) + (- #480 * (#6 *
   EVar vDmglst1 + EVar vMst1) / EPow P2 (EVar vMsq) - (EVar vDmglst1 * (#1397 + #5124 * EVar vlmMst1 - #5124 * EVar
   vlmMst2) + (#737 + #852 * EVar vlmMst1 - #852 * EVar vlmMst2) * EVar vMst1) / EPow P2 (EVar vMst2)) * EPow P4 (EVar
   vMst1) - #6 * EPow P2 (EVar vMst2) * ((#627 - #60 * EVar vlmMsq - #64 * EVar vlmMst1 + #192 * EVar vlmMst2) * (EVar
   vDmglst1 + EVar vMst1) - #40 * (#3 * EVar vDmglst1 + EVar vMst1) * EPow P2 (EVar vMst1) / EPow P2 (EVar vMsq) - #15
   * (#5 * EVar vDmglst1 + EVar vMst1) * EPow P4 (EVar vMst1) / EPow P4 (EVar vMsq))) - (EPow P2 (EVar vMt) * EPow P2
   (EVar vMuSUSY) * (#270 * EVar vs2t * EPow P2 (EVar vMst2) * (EPow P2 (EVar vMst1) * (#24 * EVar vMst1 * EVar vMt -
   #5 * EVar vs2t * EPow P2 (EVar vMst2)) + #4 * EPow P2 (EVar vMsq) * (#16 * EVar vMst1 * EVar vMt + #4 * EVar vs2t *
   EPow P2 (EVar vMst1) - #3 * EVar vs2t * EPow P2 (EVar vMst2))) * EPow P4 (EVar vMst1) + #36 * EVar vDmglst1 * (EVar
   vMst1 * EPow P4 (EVar vMsq) * (#12 * EVar vMst1 * EVar vMt * EVar vs2t * ((#687 - #540 * EVar vlmMsq - #92 * EVar
   vlmMst1 + #860 * EVar vlmMst2) * EPow P2 (EVar vMst1) + (- #627 + #60 * EVar vlmMsq + #64 * EVar vlmMst1 - #192 *
   EVar vlmMst2) * EPow P2 (EVar vMst2)) - #12 * EPow P2 (EVar vMst1) * (#8 * (#55 + #16 * EVar vlmMst2) * EPow P2
   (EVar vMt) + (#390 - #90 * EVar vlmMsq - #139 * EVar vlmMst1 + #315 * EVar vlmMst2) * EPow P2 (EVar vMst2) * EPow
   P2 (EVar vs2t)) + EPow P2 (EVar vs2t) * ((- #1613 + #1080 * EVar vlmMsq + #3684 * EVar vlmMst1 - #5796 * EVar
   vlmMst2) * EPow P4 (EVar vMst1) - #594 * EPow P4 (EVar vMst2))) + EVar vs2t * (- #60 * EPow P2 (EVar vMsq) * EPow
   P3 (EVar vMst1) * (- #24 * EVar vMst1 * EVar vMt * EPow P2 (EVar vMst2) - #14 * EVar vs2t * EPow P2 (EVar vMst1) *
   EPow P2 (EVar vMst2) + #48 * EVar vMt * EPow P3 (EVar vMst1) + #3 * EVar vs2t * EPow P4 (EVar vMst2)) + #150 * EPow
   P2 (EVar vMst2) * (#6 * EVar vMst1 * EVar vMt - EVar vs2t * EPow P2 (EVar vMst2)) * EPow P5 (EVar vMst1))) - EPow
   P4 (EVar vMsq) * (#144 * EVar vMt * EVar vs2t * ((#2407 + #180 * EVar vlmMsq - #408 * EVar vlmMst1 + #408 * EVar
   vlmMst2) * EPow P2 (EVar vMst1) + #3 * (#627 - #60 * EVar vlmMsq - #64 * EVar vlmMst1 + #192 * EVar vlmMst2) * EPow
   P2 (EVar vMst2)) * EPow P3 (EVar vMst1) + #12 * (#144 * (#55 + #16 * EVar vlmMst2) * EPow P2 (EVar vMt) - (#311 +
   #1080 * EVar vlmMsq + #2196 * EVar vlmMst1 - #3348 * EVar vlmMst2) * EPow P2 (EVar vMst2) * EPow P2 (EVar vs2t)) *
   EPow P4 (EVar vMst1) + EPow P2 (EVar vs2t) * (#108 * (- #339 + #30 * EVar vlmMsq + #37 * EVar vlmMst1 - #149 * EVar
   vlmMst2) * EPow P2 (EVar vMst1) * EPow P4 (EVar vMst2) - (#69349 + #12960 * EVar vlmMsq + #93744 * EVar vlmMst1 -
   #107568 * EVar vlmMst2) * EPow P6 (EVar vMst1) - #648 * EPow P6 (EVar vMst2)))) - #162 * EVar vshiftst3 * EPow P4
   (EVar vMsq) * (- #4 * EPow P2 (EVar vMst1) * EPow P2 (EVar vs2t) * EPow P4 (EVar vMst2) * (#2 * (- #1 + EVar
   vlmMst1 - EVar vlmMst2) * EPow P2 (EVar vMt) * (- (EPow P2 (EVar vMuSUSY) * (- #1 + EPow P2 (EVar vSbeta))) + EPow
   P2 (EVar vMst2) * EPow P2 (EVar vSbeta)) + EPow P2 (EVar vs2t) * EPow P2 (EVar vSbeta) * EPow P4 (EVar vMst2)) +
   EPow P2 (EVar vMt) * (#8 * (- #1 + #3 * EVar vlmMst1 - #3 * EVar vlmMst2) * EPow P2 (EVar vMuSUSY) * EPow P2 (EVar
   vs2t) * (- #1 + EPow P2 (EVar vSbeta)) * EPow P6 (EVar vMst1) + #4 * (- (EPow P2 (EVar vMuSUSY) * EPow P2 (EVar
   vs2t) * (- #1 + EPow P2 (EVar vSbeta))) + #2 * (#2 * EPow P2 (EVar vMt) - EPow P2 (EVar vMst2) * EPow P2 (EVar
   vs2t)) * EPow P2 (EVar vSbeta)) * EPow P6 (EVar vMst2)) + EPow P4 (EVar vMst1) * (#8 * (- #1 + #2 * EVar vlmMst1 -
   #2 * EVar vlmMst2) * EPow P2 (EVar vMst2) * EPow P2 (EVar vMt) * EPow P2 (EVar vMuSUSY) * EPow P2 (EVar vs2t) * (-
   #1 + EPow P2 (EVar vSbeta)) + (#3 + #2 * EVar vlmMst1 - #2 * EVar vlmMst2) * EPow P2 (EVar vSbeta) * EPow P4 (EVar
   vs2t) * EPow P6 (EVar vMst2))) + EPow P2 (EVar vMt) * EPow P2 (EVar vSbeta) * (EPow P2 (EVar vs2t) * (#36 * EVar
   vDmglst1 * (EVar vMst1 * EPow P4 (EVar vMsq) * (- #4 * EPow P2 (EVar vMst1) * EPow P2 (EVar vMst2) * (#2 * (#1537 +
   #60 * EVar vlmMst1 + #228 * EVar vlmMst2) * EPow P2 (EVar vMst2) + #3 * (- #390 + #90 * EVar vlmMsq + #139 * EVar
   vlmMst1 - #315 * EVar vlmMst2) * EPow P2 (EVar vMuSUSY)) + (#8 * (#923 - #894 * EVar vlmMst1 + #1470 * EVar
   vlmMst2) * EPow P2 (EVar vMst2) + (#1613 - #1080 * EVar vlmMsq - #3684 * EVar vlmMst1 + #5796 * EVar vlmMst2) *
   EPow P2 (EVar vMuSUSY)) * EPow P4 (EVar vMst1) + #594 * (#2 * EPow P2 (EVar vMst2) + EPow P2 (EVar vMuSUSY)) * EPow
   P4 (EVar vMst2)) + #30 * EPow P2 (EVar vMuSUSY) * (#5 * EPow P4 (EVar vMst2) * EPow P5 (EVar vMst1) + EPow P2 (EVar
   vMsq) * (#6 * EPow P3 (EVar vMst1) * EPow P4 (EVar vMst2) - #28 * EPow P2 (EVar vMst2) * EPow P5 (EVar vMst1)))) +
   #270 * EPow P2 (EVar vMuSUSY) * (#5 * EPow P4 (EVar vMst2) * EPow P6 (EVar vMst1) - #4 * EPow P2 (EVar vMsq) * (-
   #3 * EPow P4 (EVar vMst1) * EPow P4 (EVar vMst2) + #4 * EPow P2 (EVar vMst2) * EPow P6 (EVar vMst1))) - EPow P4
   (EVar vMsq) * (#6 * EPow P4 (EVar vMst1) * (#2 * (#311 + #1080 * EVar vlmMsq + #2196 * EVar vlmMst1 - #3348 * EVar
   vlmMst2) * EPow P2 (EVar vMst2) * EPow P2 (EVar vMuSUSY) + (#40285 + #4032 * EVar vlmMst1 + #2880 * EVar vlmMst2) *
   EPow P4 (EVar vMst2)) + (#20 * (#59 + #3564 * EVar vlmMst1 - #3564 * EVar vlmMst2) * EPow P2 (EVar vMst2) + (#69349
   + #12960 * EVar vlmMsq + #93744 * EVar vlmMst1 - #107568 * EVar vlmMst2) * EPow P2 (EVar vMuSUSY)) * EPow P6 (EVar
   vMst1) + #648 * (#2 * EPow P2 (EVar vMst2) + EPow P2 (EVar vMuSUSY)) * EPow P6 (EVar vMst2) + #54 * EPow P2 (EVar
   vMst1) * (#2 * (#339 - #30 * EVar vlmMsq - #37 * EVar vlmMst1 + #149 * EVar vlmMst2) * EPow P2 (EVar vMuSUSY) *
   EPow P4 (EVar vMst2) + (- #611 + #24 * EVar vlmMst1 - #24 * EVar vlmMst2) * EPow P6 (EVar vMst2)))) - #144 * EVar
   vMt * (EVar vs2t * EPow P2 (EVar vMst1) * (EVar vMst1 * EPow P4 (EVar vMsq) * (#3 * (- #627 + #60 * EVar vlmMsq +
   #64 * EVar vlmMst1 - #192 * EVar vlmMst2) * EPow P2 (EVar vMst2) * EPow P2 (EVar vMuSUSY) - EPow P2 (EVar vMst1) *
   (#12 * (- #463 + #120 * EVar vlmMsq + #27 * EVar vlmMst1 - #283 * EVar vlmMst2) * EPow P2 (EVar vMst2) + (#2407 +
   #180 * EVar vlmMsq - #408 * EVar vlmMst1 + #408 * EVar vlmMst2) * EPow P2 (EVar vMuSUSY)) + (#9178 - #2160 * EVar
   vlmMsq - #552 * EVar vlmMst1 + #4392 * EVar vlmMst2) * EPow P4 (EVar vMst1) + #4 * (#13 + #96 * EVar vlmMst1 - #54
   * EVar vlmMst2 - #42 * EVar vlmMt) * EPow P4 (EVar vMst2)) + EVar vDmglst1 * EPow P4 (EVar vMsq) * (#3 * (- #627 +
   #60 * EVar vlmMsq + #64 * EVar vlmMst1 - #192 * EVar vlmMst2) * EPow P2 (EVar vMst2) * EPow P2 (EVar vMuSUSY) +
   EPow P2 (EVar vMst1) * ((#16600 - #4320 * EVar vlmMsq - #852 * EVar vlmMst1 + #9900 * EVar vlmMst2 + #168 * EVar
   vlmMt) * EPow P2 (EVar vMst2) + #3 * (#687 - #540 * EVar vlmMsq - #92 * EVar vlmMst1 + #860 * EVar vlmMst2) * EPow
   P2 (EVar vMuSUSY)) + #6 * (#7373 - #1800 * EVar vlmMsq - #372 * EVar vlmMst1 + #3544 * EVar vlmMst2 + #28 * EVar
   vlmMt) * EPow P4 (EVar vMst1) + #4 * (#13 + #96 * EVar vlmMst1 - #54 * EVar vlmMst2 - #42 * EVar vlmMt) * EPow P4
   (EVar vMst2)) + #120 * EVar vDmglst1 * EPow P2 (EVar vMsq) * (- #6 * (#5 * EPow P2 (EVar vMst2) + EPow P2 (EVar
   vMuSUSY)) * EPow P4 (EVar vMst1) + EPow P2 (EVar vMst1) * (#3 * EPow P2 (EVar vMst2) * EPow P2 (EVar vMuSUSY) - #2
   * EPow P4 (EVar vMst2)) + #2 * EPow P6 (EVar vMst2)) + #15 * EVar vMst1 * EPow P2 (EVar vMst2) * (#3 * (- #4 * EPow
   P2 (EVar vMst2) + EPow P2 (EVar vMuSUSY)) * EPow P4 (EVar vMst1) - #8 * EPow P2 (EVar vMsq) * (EPow P2 (EVar vMst1)
   * (#2 * EPow P2 (EVar vMst2) - EPow P2 (EVar vMuSUSY)) + #6 * EPow P4 (EVar vMst1) - #2 * EPow P4 (EVar vMst2)) +
   #8 * EPow P2 (EVar vMst1) * EPow P4 (EVar vMst2) + #4 * EPow P6 (EVar vMst2)) + #15 * EVar vDmglst1 * EPow P2 (EVar
   vMst2) * ((- #28 * EPow P2 (EVar vMst2) + #15 * EPow P2 (EVar vMuSUSY)) * EPow P4 (EVar vMst1) + #24 * EPow P2
   (EVar vMst1) * EPow P4 (EVar vMst2) + #4 * EPow P6 (EVar vMst2))) + EVar vMt * (#15 * EPow P2 (EVar vMst1) * EPow
   P4 (EVar vMst2) * (#6 * EPow P2 (EVar vMst1) * EPow P2 (EVar vMst2) + #8 * EPow P2 (EVar vMsq) * (#4 * EPow P2
   (EVar vMst1) + EPow P2 (EVar vMst2)) + #19 * EPow P4 (EVar vMst1) + #3 * EPow P4 (EVar vMst2)) - EPow P4 (EVar
   vMsq) * (#2 * ((- #289 + #6 * EVar vlmMst1 - #228 * EVar vlmMst2 + #222 * EVar vlmMt) * EPow P2 (EVar vMst2) + #6 *
   (#55 + #16 * EVar vlmMst2) * EPow P2 (EVar vMuSUSY)) * EPow P4 (EVar vMst1) + (- #392 - #360 * EVar vlmMsq + #111 *
   EVar vlmMst1 + #249 * EVar vlmMt) * EPow P2 (EVar vMst1) * EPow P4 (EVar vMst2) + (#2383 - #900 * EVar vlmMsq -
   #474 * EVar vlmMst1 + #1230 * EVar vlmMst2 + #300 * EVar vlmMt) * EPow P6 (EVar vMst1) + #18 * EPow P6 (EVar
   vMst2)) + #2 * EVar vDmglst1 * (#360 * EPow P2 (EVar vMsq) * EPow P3 (EVar vMst1) * EPow P4 (EVar vMst2) + #390 *
   EPow P4 (EVar vMst2) * EPow P5 (EVar vMst1) + EPow P4 (EVar vMsq) * (#4 * ((#151 + #108 * EVar vlmMst2 - #108 *
   EVar vlmMt) * EPow P2 (EVar vMst2) - #3 * (#55 + #16 * EVar vlmMst2) * EPow P2 (EVar vMuSUSY)) * EPow P3 (EVar
   vMst1) + #297 * EVar vMst1 * EPow P4 (EVar vMst2) + #6 * (- #933 + #300 * EVar vlmMsq + #150 * EVar vlmMst1 - #462
   * EVar vlmMst2 - #40 * EVar vlmMt) * EPow P5 (EVar vMst1)) + #90 * EPow P3 (EVar vMst1) * EPow P6 (EVar vMst2))))))
   / (EPow P2 (EVar vMst1) * EPow P2 (EVar vSbeta) * EPow P4 (EVar vMsq) * EPow P4 (EVar vMst2)) - #972 * (EPow P4
   (EVar vs2t) * (EVar vDmglst1 * (EDec 6623148148148148 14 - #10 * EVar vlmMsq + #29 * EVar vlmMst1 / #9 + #49 * EVar
   vlmMst2 / #3) * EPow P3 (EVar vMst1) - EPow P2 (EVar vMst2) * (EVar vDmglst1 * (EDec 32333333333333336 15 - #10 *
   EVar vlmMsq - #139 * EVar vlmMst1 / #9 + #35 * EVar vlmMst2) * EVar vMst1 + (EDec 1770679012345679 14 - #5 * EVar
   vlmMsq - #53 * EVar vlmMst1 / #6 + #335 * EVar vlmMst2 / #18) * EPow P2 (EVar vMst1) - #25 * (#4 * EVar vDmglst1 +
   EVar vMst1) * EPow P3 (EVar vMst1) / (#9 * EPow P2 (EVar vMsq))) + (EDec 25333590534979425 15 - #25 * EVar vlmMsq /
   #6 + #343 * EVar vlmMst1 / #36 - #103 * EVar vlmMst2 / #36) * EPow P4 (EVar vMst1) - EPow P4 (EVar vMst2) * (#60 *
   EPow P2 (EVar vMsq) * EPow P3 (EVar vMst1) + (- #654 + #60 * EVar vlmMsq + #74 * EVar vlmMst1 - #298 * EVar
   vlmMst2) * EVar vMst1 * EPow P4 (EVar vMsq) + #4 * EVar vDmglst1 * (#30 * EPow P2 (EVar vMsq) * EPow P2 (EVar
   vMst1) + #99 * EPow P4 (EVar vMsq) + #25 * EPow P4 (EVar vMst1)) + #25 * EPow P5 (EVar vMst1)) / (#72 * EVar vMst1
   * EPow P4 (EVar vMsq))) + EVar vMuSUSY * (EPow P2 (EVar vMt) * EPow P2 (EVar vs2t) * (#6 * (#627 - #60 * EVar
   vlmMsq - #64 * EVar vlmMst1 + #192 * EVar vlmMst2) * (EVar vDmglst1 + EVar vMst1) + EPow P2 (EVar vMst1) * (- #240
   * (#3 * EVar vDmglst1 + EVar vMst1) + #4 * (#3 * EVar vDmglst1 * (- #657 + #300 * EVar vlmMsq + #78 * EVar vlmMst1
   - #526 * EVar vlmMst2) * EPow P2 (EVar vMsq) + (#263 + #180 * EVar vlmMsq - #108 * EVar vlmMst1 - #84 * EVar
   vlmMst2) * EVar vMst1 * EPow P2 (EVar vMsq) + #540 * EVar vDmglst1 * EPow P2 (EVar vMst1) + #60 * EPow P3 (EVar
   vMst1)) / EPow P2 (EVar vMst2)) / EPow P2 (EVar vMsq) + EPow P4 (EVar vMst1) * (- #90 * (#5 * EVar vDmglst1 + EVar
   vMst1) / EPow P4 (EVar vMsq) + (EVar vDmglst1 * (- #6487 + #3600 * EVar vlmMsq + #6060 * EVar vlmMst1 - #11436 *
   EVar vlmMst2) + (#1789 + #720 * EVar vlmMsq + #420 * EVar vlmMst1 - #1188 * EVar vlmMst2) * EVar vMst1) / EPow P4
   (EVar vMst2))) / #9 - #2 * (#4 * EVar vs2t * EVar vshiftst3 * EPow P2 (EVar vMst2) * EPow P3 (EVar vMt) + EVar vMt
   * EPow P3 (EVar vs2t) * EPow P4 (EVar vMst2)) / (#3 * EPow P2 (EVar vMst1)) + EVar vMt * EPow P3 (EVar vs2t) *
   (EVar vDmglst1 * (EDec 15133333333333334 14 - #40 * EVar vlmMsq - #556 * EVar vlmMst1 / #9 + #140 * EVar vlmMst2) *
   EVar vMst1 + (#2740 - #1350 * EVar vlmMsq - #2529 * EVar vlmMst1 + #4689 * EVar vlmMst2) * EPow P2 (EVar vMst1) /
   #81 + #2 * EVar vshiftst3 * EPow P2 (EVar vMst2) * ((- #1 - EVar vlmMst1 + EVar vlmMst2) * EPow P2 (EVar vMst1) +
   EPow P2 (EVar vMst2)) / (#3 * EPow P2 (EVar vMst1)) + (- #10 * (#34 * EVar vDmglst1 + #7 * EVar vMst1) / (#9 * EPow
   P2 (EVar vMsq)) - (#36 * EVar vDmglst1 * (#3067 + #2016 * EVar vlmMst1 - #2016 * EVar vlmMst2) + (#65617 + #67392 *
   EVar vlmMst1 - #67392 * EVar vlmMst2) * EVar vMst1) / (#972 * EPow P2 (EVar vMst2))) * EPow P3 (EVar vMst1) + EPow
   P2 (EVar vMst2) * (#60 * EPow P2 (EVar vMsq) * EPow P3 (EVar vMst1) + (- #666 + #60 * EVar vlmMsq + #74 * EVar
   vlmMst1 - #298 * EVar vlmMst2) * EVar vMst1 * EPow P4 (EVar vMsq) + #4 * EVar vDmglst1 * (#30 * EPow P2 (EVar vMsq)
   * EPow P2 (EVar vMst1) + #99 * EPow P4 (EVar vMsq) + #25 * EPow P4 (EVar vMst1)) + #25 * EPow P5 (EVar vMst1)) /
   (#18 * EVar vMst1 * EPow P4 (EVar vMsq))) + EPow P3 (EVar vMt) * (EVar vs2t * (#6 * (#17501 + #2124 * EVar vlmMst1
   + #1332 * EVar vlmMst2) * EPow P2 (EVar vMst2) * EPow P4 (EVar vMst1) + #27 * (- #587 + #24 * EVar vlmMst1 - #24 *
   EVar vlmMst2) * EPow P2 (EVar vMst1) * EPow P4 (EVar vMst2) + #72 * EVar vDmglst1 * ((#2777 + #120 * EVar vlmMst1 +
   #456 * EVar vlmMst2) * EPow P2 (EVar vMst2) * EPow P3 (EVar vMst1) - #297 * EVar vMst1 * EPow P4 (EVar vMst2) +
   (#931 + #1908 * EVar vlmMst1 - #2484 * EVar vlmMst2) * EPow P5 (EVar vMst1)) + #4 * (#26399 + #12096 * EVar vlmMst1
   - #6912 * EVar vlmMst2) * EPow P6 (EVar vMst1) + #648 * EPow P6 (EVar vMst2)) / EPow P2 (EVar vMst1) + #144 * EVar
   vMt * (EVar vMst1 * (((#1381 - #360 * EVar vlmMsq + #15 * EVar vlmMst1 + #795 * EVar vlmMst2 - #42 * EVar vlmMt) *
   EPow P2 (EVar vMst1) - #2 * (#4 - #48 * EVar vlmMst1 + #27 * EVar vlmMst2 + #21 * EVar vlmMt) * EPow P2 (EVar
   vMst2)) * EPow P4 (EVar vMsq) - #60 * EPow P2 (EVar vMsq) * (#3 * EPow P4 (EVar vMst1) - EPow P4 (EVar vMst2)) +
   #15 * (#3 * EPow P2 (EVar vMst1) * EPow P4 (EVar vMst2) + EPow P6 (EVar vMst2))) + EVar vDmglst1 * (- (((- #4163 +
   #1080 * EVar vlmMsq + #117 * EVar vlmMst1 - #2421 * EVar vlmMst2) * EPow P2 (EVar vMst1) + #2 * (#4 - #48 * EVar
   vlmMst1 + #27 * EVar vlmMst2 + #21 * EVar vlmMt) * EPow P2 (EVar vMst2)) * EPow P4 (EVar vMsq)) + #60 * EPow P2
   (EVar vMsq) * (- #15 * EPow P4 (EVar vMst1) + EPow P4 (EVar vMst2)) + #15 * (#7 * EPow P2 (EVar vMst1) * EPow P4
   (EVar vMst2) + EPow P6 (EVar vMst2)))) / EPow P4 (EVar vMsq)) / (#243 * EPow P4 (EVar vMst2))) / EVar vTbeta)) /
   #972 + (EVar vMuSUSY * ((#3 * EVar vMst1 * (#4 * (EPow P2 (EVar vMst1) * (#1747 - #1929 * EVar vlmMst2 - #540 *
   (EVar vlmMst1 - EVar vlmMst2) * EPow P2 (EVar vlmMsq) + #18 * (- #29 + #39 * EVar vlmMst2 - #144 * EVar vlmMt) *
   EPow P2 (EVar vlmMst1) - #540 * EVar vlmMsq * (#7 + EVar vlmMst2 + #4 * EVar vlmMst1 * EVar vlmMst2 + #5 * EVar
   vlmMt + #6 * EVar vlmMst2 * EVar vlmMt - #6 * EVar vlmMst1 * (#1 + EVar vlmMt) - #4 * EPow P2 (EVar vlmMst2)) -
   #5274 * EPow P2 (EVar vlmMst2) + #18 * EVar vlmMt * (#327 + #570 * EVar vlmMst2 + #80 * EPow P2 (EVar vlmMst2)) +
   #3 * EVar vlmMst1 * (#985 - #2268 * EVar vlmMt + #12 * EVar vlmMst2 * (#41 + #32 * EVar vlmMt) + #54 * EPow P2
   (EVar vlmMst2) - #576 * EPow P2 (EVar vlmMt)) + #864 * (#1 + #2 * EVar vlmMst2) * EPow P2 (EVar vlmMt) + #726 *
   EPow P3 (EVar vlmMst1) - #1590 * EPow P3 (EVar vlmMst2)) + #6 * EPow P2 (EVar vMst2) * (#212 + #225 * EVar vlmMst2
   - #90 * EVar vlmMsq * (#7 + #2 * EVar vlmMst2 * EVar vlmMt - #2 * EVar vlmMst1 * (#3 + EVar vlmMt) + #3 * (EVar
   vlmMst2 + EVar vlmMt)) - #90 * (EVar vlmMst1 - EVar vlmMst2) * EPow P2 (EVar vlmMsq) - #6 * (#67 + #5 * EVar
   vlmMst2 + #14 * EVar vlmMt) * EPow P2 (EVar vlmMst1) + #102 * EPow P2 (EVar vlmMst2) + #3 * EVar vlmMt * (#265 +
   #202 * EVar vlmMst2 + #36 * EPow P2 (EVar vlmMst2)) + #144 * (#1 + EVar vlmMst2) * EPow P2 (EVar vlmMt) - #6 * EVar
   vlmMst1 * (- #54 + #37 * EVar vlmMt + EVar vlmMst2 * (#22 + #4 * EVar vlmMt) + EPow P2 (EVar vlmMst2) + #24 * EPow
   P2 (EVar vlmMt)) + #22 * EPow P3 (EVar vlmMst1) + #14 * EPow P3 (EVar vlmMst2))) * EPow P4 (EVar vMsq) + #5 * EPow
   P2 (EVar vMst2) * (#3 * (#223 - #12 * EVar vlmMsq + #18 * EVar vlmMst2 * (#5 - #4 * EVar vlmMt) - #78 * EVar vlmMt
   + #72 * EVar vlmMsq * (EVar vlmMst2 + EVar vlmMt) - #72 * EPow P2 (EVar vlmMsq)) * EPow P2 (EVar vMst1) * EPow P2
   (EVar vMst2) + #36 * (- #15 + EVar vlmMst2 + #12 * EVar vlmMsq * EVar vlmMst2 - #7 * EVar vlmMt - #12 * EVar
   vlmMst2 * EVar vlmMt + EVar vlmMst1 * (#6 - #12 * EVar vlmMsq + #12 * EVar vlmMt)) * EPow P4 (EVar vMst1) + (#299 -
   #60 * EVar vlmMsq + #6 * EVar vlmMst2 * (#23 - #12 * EVar vlmMt) - #78 * EVar vlmMt + #72 * EVar vlmMsq * (EVar
   vlmMst2 + EVar vlmMt) - #72 * EPow P2 (EVar vlmMsq)) * EPow P4 (EVar vMst2)) - #80 * EPow P2 (EVar vMsq) * (#9 *
   (#11 + #6 * EVar vlmMst1 * (- #2 + EVar vlmMsq - EVar vlmMt) + #5 * EVar vlmMt + EVar vlmMst2 * (#7 - #6 * EVar
   vlmMsq + #6 * EVar vlmMt)) * EPow P2 (EVar vMst1) * EPow P2 (EVar vMst2) + #9 * (#11 + #6 * EVar vlmMst1 * (- #2 +
   EVar vlmMsq + EVar vlmMst2 - #2 * EVar vlmMt) + #7 * EVar vlmMt + EVar vlmMst2 * (#5 - #6 * EVar vlmMsq + #12 *
   EVar vlmMt) - #6 * EPow P2 (EVar vlmMst2)) * EPow P4 (EVar vMst1) + (- #17 + #33 * EVar vlmMt - #6 * EVar vlmMsq *
   (#5 + #3 * EVar vlmMst2 + #3 * EVar vlmMt) + #3 * EVar vlmMst2 * (- #1 + #6 * EVar vlmMt) + #18 * EPow P2 (EVar
   vlmMsq)) * EPow P4 (EVar vMst2))) - EVar vDmglst1 * (#4 * (#6 * EPow P2 (EVar vMst2) * (#1846 - #1057 * EVar
   vlmMst2 + #30 * EVar vlmMsq * (#151 + #51 * EVar vlmMt + #9 * EVar vlmMst2 * (#3 + #2 * EVar vlmMt) - #6 * EVar
   vlmMst1 * (#13 + #3 * EVar vlmMt)) + #270 * (EVar vlmMst1 - EVar vlmMst2) * EPow P2 (EVar vlmMsq) + #6 * (#352 +
   #15 * EVar vlmMst2 + #42 * EVar vlmMt) * EPow P2 (EVar vlmMst1) - #306 * EPow P2 (EVar vlmMst2) - #3 * EVar vlmMt *
   (#1105 + #608 * EVar vlmMst2 + #108 * EPow P2 (EVar vlmMst2)) - #432 * (#2 + EVar vlmMst2) * EPow P2 (EVar vlmMt) +
   #2 * EVar vlmMst1 * (- #2534 - #192 * EVar vlmMt + #3 * EVar vlmMst2 * (#67 + #12 * EVar vlmMt) + #9 * EPow P2
   (EVar vlmMst2) + #216 * EPow P2 (EVar vlmMt)) - #66 * EPow P3 (EVar vlmMst1) - #42 * EPow P3 (EVar vlmMst2)) + EPow
   P2 (EVar vMst1) * (#16303 + #47667 * EVar vlmMst2 + #1620 * (EVar vlmMst1 - EVar vlmMst2) * EPow P2 (EVar vlmMsq) +
   (#8226 - #8910 * EVar vlmMst2 + #22788 * EVar vlmMt) * EPow P2 (EVar vlmMst1) + #180 * EVar vlmMsq * (#151 - #99 *
   EVar vlmMst2 + #6 * EVar vlmMst1 * (- #13 + #18 * EVar vlmMst2 - #21 * EVar vlmMt) + #3 * (#59 + #42 * EVar
   vlmMst2) * EVar vlmMt - #108 * EPow P2 (EVar vlmMst2)) + #54666 * EPow P2 (EVar vlmMst2) - #18 * EVar vlmMt *
   (#3271 + #3130 * EVar vlmMst2 + #366 * EPow P2 (EVar vlmMst2)) - #3 * EVar vlmMst1 * (#10535 - #5148 * EVar vlmMt +
   #12 * EVar vlmMst2 * (#323 + #450 * EVar vlmMt) + #378 * EPow P2 (EVar vlmMst2) - #3456 * EPow P2 (EVar vlmMt)) -
   #10368 * (#1 + EVar vlmMst2) * EPow P2 (EVar vlmMt) - #4914 * EPow P3 (EVar vlmMst1) + #14958 * EPow P3 (EVar
   vlmMst2))) * EPow P4 (EVar vMsq) + #240 * EPow P2 (EVar vMsq) * ((#439 + #6 * EVar vlmMst1 * (- #62 + #21 * EVar
   vlmMsq - #21 * EVar vlmMt) + #177 * EVar vlmMt + #3 * EVar vlmMst2 * (#65 - #42 * EVar vlmMsq + #42 * EVar vlmMt))
   * EPow P2 (EVar vMst1) * EPow P2 (EVar vMst2) + (#439 - #3 * EVar vlmMst2 * (#1 + #42 * EVar vlmMsq - #132 * EVar
   vlmMt) + #6 * EVar vlmMst1 * (- #62 + #21 * EVar vlmMsq + #45 * EVar vlmMst2 - #66 * EVar vlmMt) + #375 * EVar
   vlmMt - #270 * EPow P2 (EVar vlmMst2)) * EPow P4 (EVar vMst1) - (#17 + #3 * EVar vlmMst2 * (#1 - #6 * EVar vlmMt) -
   #33 * EVar vlmMt + #6 * EVar vlmMsq * (#5 + #3 * (EVar vlmMst2 + EVar vlmMt)) - #18 * EPow P2 (EVar vlmMsq)) * EPow
   P4 (EVar vMst2)) + #15 * EPow P2 (EVar vMst2) * (- ((#1409 + #6 * EVar vlmMst2 * (#89 - #84 * EVar vlmMt) - #546 *
   EVar vlmMt + #12 * EVar vlmMsq * (#1 + #42 * (EVar vlmMst2 + EVar vlmMt)) - #504 * EPow P2 (EVar vlmMsq)) * EPow P2
   (EVar vMst1) * EPow P2 (EVar vMst2)) + #4 * (#871 + #6 * EVar vlmMst1 * (- #89 + #66 * EVar vlmMsq - #66 * EVar
   vlmMt) + #375 * EVar vlmMt + EVar vlmMst2 * (#159 - #396 * EVar vlmMsq + #396 * EVar vlmMt)) * EPow P4 (EVar vMst1)
   + (- #299 + #78 * EVar vlmMt - #12 * EVar vlmMsq * (- #5 + #6 * EVar vlmMst2 + #6 * EVar vlmMt) + #6 * EVar vlmMst2
   * (- #23 + #12 * EVar vlmMt) + #72 * EPow P2 (EVar vlmMsq)) * EPow P4 (EVar vMst2)))) * EPow P4 (EVar vMt) / (#243
   * EPow P4 (EVar vMsq) * EPow P4 (EVar vMst2)) - EVar vMt * EPow P3 (EVar vs2t) * (- (EPow P2 (EVar vMst1) * (EDec
   11018859670781893 14 - #40 * EConst CB4 / #9 - #2 * EConst CDN / #9 - #80 * EVar vlmMsq / #9 + #10 * EPow P2 (EVar
   vlmMsq) / #3 + EVar vlmMst1 * (EDec 18921814814814815 14 - #355 * EVar vlmMsq / #9 + #35 * EPow P2 (EVar vlmMsq) /
   #3) + (EDec 4705555555555556 15 - #5 * EVar vlmMsq / #3) * EPow P2 (EVar vlmMst1) - EVar vlmMst2 * (#393289 -
   #397890 * EVar vlmMst1 + #1500 * EVar vlmMsq * (- #59 + #36 * EVar vlmMst1) + #31500 * EPow P2 (EVar vlmMsq) +
   #35850 * EPow P2 (EVar vlmMst1)) / #2700 + (- #8151 + #1300 * EVar vlmMsq + #3890 * EVar vlmMst1) * EPow P2 (EVar
   vlmMst2) / #60 + #49 * EPow P3 (EVar vlmMst1) / #54 - #2833 * EPow P3 (EVar vlmMst2) / #54)) + EVar vDmglst1 * EVar
   vMst1 * (#2323 + #144 * EConst CB4 + #120 * EConst CDN - #2880 * EVar vlmMsq + #54 * EVar vlmMst1 * (EDec
   3255555555555556 14 + #40 * EVar vlmMsq - #20 * EPow P2 (EVar vlmMsq)) + #6 * EVar vlmMst2 * (#571 - #360 * EVar
   vlmMsq + #62 * EVar vlmMst1 + #180 * EPow P2 (EVar vlmMsq) - #158 * EPow P2 (EVar vlmMst1)) + #30 * (- #121 + #36 *
   EVar vlmMsq) * EPow P2 (EVar vlmMst1) - #6 * (- #735 + #180 * EVar vlmMsq + #98 * EVar vlmMst1) * EPow P2 (EVar
   vlmMst2) - #260 * EPow P3 (EVar vlmMst1) + #1796 * EPow P3 (EVar vlmMst2)) / #54 + (- (#50 * EVar vDmglst1 * (#192
   - #91 * EVar vlmMst1 + #6 * EVar vlmMsq * (- #6 + #17 * EVar vlmMst1 - #17 * EVar vlmMst2) + #127 * EVar vlmMst2 -
   #51 * EPow P2 (EVar vlmMst1) + #51 * EPow P2 (EVar vlmMst2)) + #3 * EVar vMst1 * (#787 + #20 * EVar vlmMsq * (- #9
   + #20 * EVar vlmMst1 - #20 * EVar vlmMst2) + #525 * EVar vlmMst2 - #5 * EVar vlmMst1 * (#69 + #70 * EVar vlmMst2) -
   #25 * EPow P2 (EVar vlmMst1) + #375 * EPow P2 (EVar vlmMst2))) / (#135 * EPow P2 (EVar vMsq)) - (EVar vDmglst1 *
   (#606133 - #12960 * EVar vlmMsq * (#11 + #30 * EVar vlmMst1 - #24 * EVar vlmMst2) - #624756 * EVar vlmMst2 + #38880
   * EPow P2 (EVar vlmMsq) + #72 * (#3901 - #2976 * EVar vlmMst2) * EPow P2 (EVar vlmMst1) - #361944 * EPow P2 (EVar
   vlmMst2) + #12 * EVar vlmMst1 * (#92887 + #23460 * EVar vlmMst2 + #36288 * EPow P2 (EVar vlmMst2)) - #2304 * EPow
   P3 (EVar vlmMst1) - #218880 * EPow P3 (EVar vlmMst2)) / #3888 + EVar vMst1 * (EDec 23907595982905215 14 - #71872687
   * EVar vlmMst2 / #529200 + #5 * EPow P2 (EVar vlmMsq) + (- EDec 6458505291005291 14 - #776 * EVar vlmMst2 / #9) *
   EPow P2 (EVar vlmMst1) - #770503 * EPow P2 (EVar vlmMst2) / #7560 + #5 * EVar vlmMsq * (- #29 + #18 * EVar vlmMst2
   - #2 * EVar vlmMst1 * (#15 + #16 * EVar vlmMst2) + #16 * EPow P2 (EVar vlmMst1) + #16 * EPow P2 (EVar vlmMst2)) /
   #6 + #37 * EVar vlmMst1 * (#2891251 + #2673860 * EVar vlmMst2 + #2352000 * EPow P2 (EVar vlmMst2)) / #529200 + #8 *
   EPow P3 (EVar vlmMst1) / #3 - #728 * EPow P3 (EVar vlmMst2) / #9)) / EPow P2 (EVar vMst2)) * EPow P3 (EVar vMst1) -
   ((#939 + #30 * EVar vlmMsq * (- #12 + #5 * EVar vlmMst1 - #5 * EVar vlmMst2) + #760 * EVar vlmMst2 - #50 * EVar
   vlmMst1 * (#8 + #3 * EVar vlmMst2) + #150 * EPow P2 (EVar vlmMst2)) / (#135 * EPow P2 (EVar vMsq)) + (- #1 + #2 *
   EVar vlmMst2) / (#3 * EPow P2 (EVar vMst1)) + (#5 * EVar vDmglst1 * EVar vMst1 / #6 + (EDec 10841585681891803 16 -
   #157 * EVar vlmMst1 / #135 + EVar vlmMsq * (- EDec 6291383219954648 16 + #7 * EVar vlmMst1 / #9 - #43 * EVar
   vlmMst2 / #63) + #47419 * EVar vlmMst2 / #26460 - #7 * EVar vlmMst1 * EVar vlmMst2 / #9 - EPow P2 (EVar vlmMsq) /
   #21 + #46 * EPow P2 (EVar vlmMst2) / #63) * EPow P2 (EVar vMst1)) / EPow P4 (EVar vMsq)) * EPow P4 (EVar vMst2) +
   (#177 * (#8 * EConst COepS2 - #81 * (#5 + #2 * EVar vlmMst1 - #2 * EVar vlmMst2) * EConst CS2) * EPow P2 (EVar
   vMst1) * EPow P2 (EVar vMst2) + #2 * (#664 * EConst COepS2 - #27 * (#1187 + #498 * EVar vlmMst1 - #498 * EVar
   vlmMst2) * EConst CS2) * EPow P4 (EVar vMst1) + #27 * (#8 * EConst COepS2 + #81 * (#11 - #2 * EVar vlmMst1 + #2 *
   EVar vlmMst2) * EConst CS2) * EPow P4 (EVar vMst2)) / (#729 * EPow P2 (EVar vMst2)) + EPow P2 (EVar vMst2) *
   (#82320 * (#1775 + #30 * EVar vlmMsq * (- #5 + EVar vlmMst1 - EVar vlmMst2) + #407 * EVar vlmMst2 + EVar vlmMst1 *
   (- #257 + #600 * EVar vlmMst2) - #315 * EPow P2 (EVar vlmMst1) - #285 * EPow P2 (EVar vlmMst2)) * EPow P2 (EVar
   vMsq) * EPow P3 (EVar vMst1) + #17150 * EVar vMst1 * (#53965 + #2592 * EConst CB4 - #288 * EConst CDN - #13320 *
   EVar vlmMsq + #5400 * EPow P2 (EVar vlmMsq) - #6 * EVar vlmMst1 * (#3781 - #300 * EVar vlmMsq + #180 * EPow P2
   (EVar vlmMsq)) + #6 * EVar vlmMst2 * (#14137 - #3498 * EVar vlmMst1 + #60 * EVar vlmMsq * (- #35 + #12 * EVar
   vlmMst1) + #180 * EPow P2 (EVar vlmMsq) - #18 * EPow P2 (EVar vlmMst1)) - #18 * (- #229 + #60 * EVar vlmMsq) * EPow
   P2 (EVar vlmMst1) - #18 * (- #2193 + #180 * EVar vlmMsq + #442 * EVar vlmMst1) * EPow P2 (EVar vlmMst2) + #396 *
   EPow P3 (EVar vlmMst1) + #7668 * EPow P3 (EVar vlmMst2)) * EPow P4 (EVar vMsq) + #102900 * EVar vDmglst1 * (#40 *
   (#82 - #93 * EVar vlmMst1 + #6 * EVar vlmMsq * (#4 + #3 * EVar vlmMst1 - #3 * EVar vlmMst2) + #69 * EVar vlmMst2 -
   #9 * EPow P2 (EVar vlmMst1) + #9 * EPow P2 (EVar vlmMst2)) * EPow P2 (EVar vMsq) * EPow P2 (EVar vMst1) + #6 * (#7
   + #60 * EVar vlmMsq * (#5 - #6 * EVar vlmMst1) - #2 * EVar vlmMst1 + (- #226 + #220 * EVar vlmMst1) * EVar vlmMst2
   + #180 * EPow P2 (EVar vlmMsq) + #178 * EPow P2 (EVar vlmMst1) + #18 * EPow P2 (EVar vlmMst2)) * EPow P4 (EVar
   vMsq) + #5 * (#503 - #346 * EVar vlmMst1 + #12 * EVar vlmMsq * (#1 + #10 * EVar vlmMst1 - #10 * EVar vlmMst2) +
   #334 * EVar vlmMst2 - #60 * EPow P2 (EVar vlmMst1) + #60 * EPow P2 (EVar vlmMst2)) * EPow P4 (EVar vMst1)) + #9 *
   (#6740969 + #140 * EVar vlmMsq * (- #12899 + #6230 * EVar vlmMst1 - #5390 * EVar vlmMst2) + #2822890 * EVar vlmMst2
   + #70 * EVar vlmMst1 * (- #14529 + #25480 * EVar vlmMst2) - #58800 * EPow P2 (EVar vlmMsq) - #1327900 * EPow P2
   (EVar vlmMst1) - #514500 * EPow P2 (EVar vlmMst2)) * EPow P5 (EVar vMst1)) / (#11113200 * EVar vMst1 * EPow P4
   (EVar vMsq))) - EPow P2 (EVar vMt) * EPow P2 (EVar vs2t) * (- #20 * (EVar vMst1 * (#71 - #16 * EVar vlmMst1 + #12 *
   EVar vlmMsq * (- #2 + EVar vlmMst1 - EVar vlmMst2) + #40 * EVar vlmMst2 - #6 * EPow P2 (EVar vlmMst1) + #6 * EPow
   P2 (EVar vlmMst2)) + #3 * EVar vDmglst1 * (#83 - #20 * EVar vlmMst1 + #12 * EVar vlmMsq * (- #2 + EVar vlmMst1 -
   EVar vlmMst2) + #44 * EVar vlmMst2 - #6 * EPow P2 (EVar vlmMst1) + #6 * EPow P2 (EVar vlmMst2))) * EPow P2 (EVar
   vMst1) / (#9 * EPow P2 (EVar vMsq)) + EVar vDmglst1 * (EDec 6298333333333334 13 - #68 * EConst CB4 / #3 - #2 *
   EConst CDN / #3 - #360 * EVar vlmMsq + EVar vlmMst1 * (EDec 12166666666666667 14 + #60 * EVar vlmMsq - #20 * EPow
   P2 (EVar vlmMsq)) + #40 * EPow P2 (EVar vlmMsq) + EVar vlmMst2 * (#777 - #140 * EVar vlmMsq - #118 * EVar vlmMst1 /
   #3 + #20 * EPow P2 (EVar vlmMsq) - #20 * EPow P2 (EVar vlmMst1)) + (- #13 + #20 * EVar vlmMsq) * EPow P2 (EVar
   vlmMst1) - (- #797 + #60 * EVar vlmMsq + #4 * EVar vlmMst1) * EPow P2 (EVar vlmMst2) / #3 - #100 * EPow P3 (EVar
   vlmMst1) / #9 + #292 * EPow P3 (EVar vlmMst2) / #9) + EVar vMst1 * (#13317 - #408 * EConst CB4 - #12 * EConst CDN -
   #4320 * EVar vlmMsq + #720 * EPow P2 (EVar vlmMsq) - #6 * EVar vlmMst1 * (#79 - #180 * EVar vlmMsq + #60 * EPow P2
   (EVar vlmMsq)) + #6 * (- #167 + #60 * EVar vlmMsq) * EPow P2 (EVar vlmMst1) - #6 * EVar vlmMst2 * (- #2135 - #797 *
   EVar vlmMst2 + #60 * EVar vlmMsq * (#7 + EVar vlmMst2) + #2 * EVar vlmMst1 * (#59 + #2 * EVar vlmMst2) - #60 * EPow
   P2 (EVar vlmMsq) + #60 * EPow P2 (EVar vlmMst1)) - #200 * EPow P3 (EVar vlmMst1) + #584 * EPow P3 (EVar vlmMst2)) /
   #18 - EPow P2 (EVar vMst1) * (EVar vMst1 * (#6277 + #7776 * EConst CB4 + #71103 * EVar vlmMst1 + #3240 * (EVar
   vlmMst1 - EVar vlmMst2) * EPow P2 (EVar vlmMsq) + #34902 * EPow P2 (EVar vlmMst1) - #3 * EVar vlmMst2 * (#22549 +
   #2460 * EVar vlmMst1 + #648 * EPow P2 (EVar vlmMst1)) - #18 * (#1625 + #276 * EVar vlmMst1) * EPow P2 (EVar
   vlmMst2) - #3240 * EVar vlmMsq * (#1 + EVar vlmMst1 * (#5 - #4 * EVar vlmMst2) - #5 * EVar vlmMst2 + #3 * EPow P2
   (EVar vlmMst1) + EPow P2 (EVar vlmMst2)) + #8136 * EPow P3 (EVar vlmMst1) - #1224 * EPow P3 (EVar vlmMst2)) / #81 +
   EVar vDmglst1 * (EDec 37114814814814815 14 + #592 * EConst CB4 / #3 - #8 * EConst CDN / #3 - #280 * EVar vlmMsq +
   EVar vlmMst1 * (EDec 43144444444444446 14 + #120 * EVar vlmMsq + #40 * EPow P2 (EVar vlmMsq)) + (#394 - #280 * EVar
   vlmMsq) * EPow P2 (EVar vlmMst1) - EVar vlmMst2 * (#120 * EVar vlmMsq * (#1 - #4 * EVar vlmMst1) + #40 * EPow P2
   (EVar vlmMsq) + (#1195 + #4764 * EVar vlmMst1 + #1788 * EPow P2 (EVar vlmMst1)) / #9) + (EDec 7133333333333333 14 -
   #200 * EVar vlmMsq - #228 * EVar vlmMst1) * EPow P2 (EVar vlmMst2) + #2708 * EPow P3 (EVar vlmMst1) / #9 + #1132 *
   EPow P3 (EVar vlmMst2) / #9)) / EPow P2 (EVar vMst2) + #5 * EPow P2 (EVar vMst2) * (#2 * EVar vDmglst1 * (#131 -
   #12 * EVar vlmMsq + #12 * EVar vlmMst2) * EPow P2 (EVar vMst1) + (- #11 + #12 * EVar vlmMsq - #12 * EVar vlmMst2) *
   (EVar vDmglst1 + EVar vMst1) * EPow P2 (EVar vMst2) + #2 * (#59 - #12 * EVar vlmMsq + #12 * EVar vlmMst2) * EPow P3
   (EVar vMst1)) / (#108 * EPow P4 (EVar vMsq)) + EPow P4 (EVar vMst1) * (- #5 * (EVar vMst1 * (#911 - #54 * EVar
   vlmMst1 + #12 * EVar vlmMsq * (- #37 + #18 * EVar vlmMst1 - #18 * EVar vlmMst2) + #498 * EVar vlmMst2 - #108 * EPow
   P2 (EVar vlmMst1) + #108 * EPow P2 (EVar vlmMst2)) + EVar vDmglst1 * (#5159 - #702 * EVar vlmMst1 + #12 * EVar
   vlmMsq * (- #181 + #90 * EVar vlmMst1 - #90 * EVar vlmMst2) + #2874 * EVar vlmMst2 - #540 * EPow P2 (EVar vlmMst1)
   + #540 * EPow P2 (EVar vlmMst2))) / (#108 * EPow P4 (EVar vMsq)) - (EVar vMst1 * (#96 * EConst CB4 + #40 * (EVar
   vlmMst1 - EVar vlmMst2) * EPow P2 (EVar vlmMsq) + #10 * EVar vlmMsq * (#7 + #10 * EVar vlmMst2 + #2 * EVar vlmMst1
   * (- #5 + #8 * EVar vlmMst2) - #12 * EPow P2 (EVar vlmMst1) - #4 * EPow P2 (EVar vlmMst2)) + (#240861 - #406036 *
   EVar vlmMst2 + #24 * (#3257 + #2628 * EVar vlmMst2) * EPow P2 (EVar vlmMst1) + #4 * EVar vlmMst1 * (#94597 + #34932
   * EVar vlmMst2 - #15768 * EPow P2 (EVar vlmMst2)) - #217896 * EPow P2 (EVar vlmMst2) + #6624 * EPow P3 (EVar
   vlmMst1) - #6624 * EPow P3 (EVar vlmMst2)) / #432) + EVar vDmglst1 * (EDec 27308603395061727 13 + #592 * EConst CB4
   / #3 - #8 * EConst CDN / #3 + #150 * EVar vlmMsq + EVar vlmMst1 * (EDec 5540833333333334 13 + #780 * EVar vlmMsq +
   #40 * EPow P2 (EVar vlmMsq)) - EVar vlmMst2 * (#60 * EVar vlmMsq * (#13 - #8 * EVar vlmMst1) + #40 * EPow P2 (EVar
   vlmMsq) + (#31467 + #9076 * EVar vlmMst1 - #6744 * EPow P2 (EVar vlmMst1)) / #36) - #5 * (#463 + #1008 * EVar
   vlmMsq) * EPow P2 (EVar vlmMst1) / #18 - (- #6853 + #3600 * EVar vlmMsq + #9516 * EVar vlmMst1) * EPow P2 (EVar
   vlmMst2) / #18 + #1294 * EPow P3 (EVar vlmMst1) / #9 + #1778 * EPow P3 (EVar vlmMst2) / #9)) / EPow P4 (EVar
   vMst2)) + #20 * (#3 * EVar vMst1 * EPow P4 (EVar vMst2) + #3 * EVar vDmglst1 * (#2 * (#12 - #26 * EVar vlmMst2 +
   #12 * EVar vlmMsq * EVar vlmMst2 - #2 * EVar vlmMst1 * (- #13 + #6 * EVar vlmMsq + #15 * EVar vlmMst2) + #21 * EPow
   P2 (EVar vlmMst1) + #9 * EPow P2 (EVar vlmMst2)) * EPow P4 (EVar vMst1) + EPow P4 (EVar vMst2)) + #2 * (#6 - #34 *
   EVar vlmMst2 + #12 * EVar vlmMsq * EVar vlmMst2 - #2 * EVar vlmMst1 * (- #17 + #6 * EVar vlmMsq + #9 * EVar
   vlmMst2) + #15 * EPow P2 (EVar vlmMst1) + #3 * EPow P2 (EVar vlmMst2)) * EPow P5 (EVar vMst1)) / (#9 * EPow P2
   (EVar vMsq) * EPow P2 (EVar vMst2))) + EVar vMt * EVar vs2t * (- ((- #1 + #2 * EVar vlmMst2) * EVar vshiftst3 *
   EPow P2 (EVar vMst2) * (- #4 * EPow P2 (EVar vMt) + ((- #1 - EVar vlmMst1 + EVar vlmMst2) * EPow P2 (EVar vMst1) +
   EPow P2 (EVar vMst2)) * EPow P2 (EVar vs2t))) / (#3 * EPow P2 (EVar vMst1)) + EPow P2 (EVar vMt) * (EDec
   29117283950617285 15 - #16 * EConst CDN / #9 - #20 * EVar vlmMsq / #3 + #20 * EPow P2 (EVar vlmMsq) - #4 * EVar
   vlmMst1 * (#454 + #60 * EVar vlmMsq + #45 * EPow P2 (EVar vlmMsq)) / #27 + #4 * EVar vlmMst2 * (#715 - #336 * EVar
   vlmMst1 + #30 * EVar vlmMsq * (- #7 + #3 * EVar vlmMst1) + #45 * EPow P2 (EVar vlmMsq) - #36 * EPow P2 (EVar
   vlmMst1)) / #27 + #164 * EPow P2 (EVar vlmMst1) / #9 - #4 * (- #191 + #30 * EVar vlmMsq + #44 * EVar vlmMst1) *
   EPow P2 (EVar vlmMst2) / #9 - #4 * (#2017 + #15 * EVar vlmMst1 * (#782 - #375 * EVar vlmMst2) + #15 * EVar vlmMsq *
   (- #532 + #195 * EVar vlmMst1 - #75 * EVar vlmMst2) - #3750 * EVar vlmMst2 - #900 * EPow P2 (EVar vlmMsq) + #1350 *
   EPow P2 (EVar vlmMst1) + #3375 * EPow P2 (EVar vlmMst2)) * EPow P2 (EVar vMst1) / (#2025 * EPow P2 (EVar vMsq)) -
   #4 * EVar vDmglst1 * (#158 + #70 * EVar vlmMst1 + #60 * EVar vlmMsq * (- #4 + #9 * EVar vlmMst1) + (#96 - #138 *
   EVar vlmMst1) * EVar vlmMst2 - #270 * EPow P2 (EVar vlmMsq) - #459 * EPow P2 (EVar vlmMst1) - #27 * EPow P2 (EVar
   vlmMst2) + #30 * (#7 - #20 * EVar vlmMsq + #26 * EVar vlmMst1 - #6 * EVar vlmMst2) * EPow P2 (EVar vMst1) / EPow P2
   (EVar vMsq)) / (#27 * EVar vMst1) - #116 * EPow P3 (EVar vlmMst1) / #27 - #2 * EVar vMst1 * (EVar vMst1 * (#7874051
   + #7815060 * EVar vlmMst2 + #303750 * EPow P2 (EVar vlmMsq) - #675 * (#989 + #290 * EVar vlmMst2 - #480 * EVar
   vlmMt) * EPow P2 (EVar vlmMst1) - #90 * EVar vlmMst1 * (#6359 - #10035 * EVar vlmMst2 + #7200 * (#1 + EVar vlmMst2)
   * EVar vlmMt - #16575 * EPow P2 (EVar vlmMst2)) + #1978425 * EPow P2 (EVar vlmMst2) + #101250 * EVar vlmMsq * (- #9
   - #6 * EVar vlmMst2 - #4 * EVar vlmMst1 * EVar vlmMst2 + #2 * EPow P2 (EVar vlmMst1) + #2 * EPow P2 (EVar vlmMst2))
   + #324000 * EVar vlmMt * EPow P2 (#1 + EVar vlmMst2) - #582750 * EPow P3 (EVar vlmMst1) - #713250 * EPow P3 (EVar
   vlmMst2)) + #125 * EVar vDmglst1 * (#164809 - #864 * EConst CB4 - #432 * EConst CDN - #14580 * EVar vlmMsq - #9366
   * EVar vlmMst1 + #4860 * EPow P2 (EVar vlmMsq) - #6 * EVar vlmMst2 * (- #23575 + #1620 * EVar vlmMsq + #906 * EVar
   vlmMst1 - #432 * EPow P2 (EVar vlmMst1)) + #1854 * EPow P2 (EVar vlmMst1) + #18 * (#2167 + #336 * EVar vlmMst1) *
   EPow P2 (EVar vlmMst2) + #5184 * EVar vlmMt * (#2 + #3 * EVar vlmMst2 - EVar vlmMst1 * (#3 + #2 * EVar vlmMst2) +
   EPow P2 (EVar vlmMst1) + EPow P2 (EVar vlmMst2)) - #7200 * EPow P3 (EVar vlmMst1) - #1440 * EPow P3 (EVar
   vlmMst2))) / (#30375 * EPow P2 (EVar vMst2)) + #788 * EPow P3 (EVar vlmMst2) / #27 + EPow P2 (EVar vMst2) * ((#4 -
   #8 * EVar vlmMst2) / (#3 * EPow P2 (EVar vMst1)) + (#51450 * EVar vDmglst1 * (#13 - #12 * EVar vlmMsq + #12 * EVar
   vlmMst2) * EVar vMst1 + #1715 * (#195 - #60 * EVar vlmMsq * (#3 + #2 * EVar vlmMst1 - #2 * EVar vlmMst2) + #4 *
   EVar vlmMst2 + #8 * EVar vlmMst1 * (#22 + #15 * EVar vlmMst2) - #120 * EPow P2 (EVar vlmMst2)) * EPow P2 (EVar
   vMst1) - (#103583 + #420 * EVar vlmMsq * (- #256 + #49 * EVar vlmMst1 - #259 * EVar vlmMst2) + #150052 * EVar
   vlmMst2 - #1372 * EVar vlmMst1 * (#31 + #15 * EVar vlmMst2) + #44100 * EPow P2 (EVar vlmMsq) + #64680 * EPow P2
   (EVar vlmMst2)) * EPow P2 (EVar vMst2)) / (#92610 * EPow P4 (EVar vMsq))) + (#34300 * EVar vDmglst1 * (#11 + #144 *
   EVar vlmMsq - #204 * EVar vlmMst1 + #60 * EVar vlmMst2) - EVar vMst1 * (#187967 + #28 * EVar vlmMst1 * (#49766 -
   #13965 * EVar vlmMst2) + #420 * EVar vlmMsq * (- #2194 + #259 * EVar vlmMst1 - #49 * EVar vlmMst2) - #471968 * EVar
   vlmMst2 - #44100 * EPow P2 (EVar vlmMsq) + #141120 * EPow P2 (EVar vlmMst1) + #205800 * EPow P2 (EVar vlmMst2))) *
   EPow P3 (EVar vMst1) / (#92610 * EPow P4 (EVar vMsq)) + EConst CS2 * (- #6 * (#1 + #2 * EVar vlmMst1 - #2 * EVar
   vlmMst2) - #28 * (#5 + #2 * EVar vlmMst1 - #2 * EVar vlmMst2) * EPow P2 (EVar vMst1) / (#3 * EPow P2 (EVar vMst2))
   - #8 * (#139 + #60 * EVar vlmMst1 - #60 * EVar vlmMst2) * EPow P4 (EVar vMst1) / (#27 * EPow P4 (EVar vMst2))) -
   (EVar vMst1 * (#1311202751 + #43575800310 * EVar vlmMst2 - #132300 * (#138494 + #9555 * EVar vlmMst2 - #15120 *
   EVar vlmMt) * EPow P2 (EVar vlmMst1) - #1890 * EVar vlmMst1 * (#18939979 + #1411200 * EVar vlmMt + #280 * EVar
   vlmMst2 * (- #36067 + #7560 * EVar vlmMt) - #4196850 * EPow P2 (EVar vlmMst2)) + #1681003800 * EPow P2 (EVar
   vlmMst2) + #416745000 * EVar vlmMsq * (- #2 + EVar vlmMst1 * (#5 - #2 * EVar vlmMst2) - #5 * EVar vlmMst2 + EPow P2
   (EVar vlmMst1) + EPow P2 (EVar vlmMst2)) + #666792000 * EVar vlmMt * (#1 + #4 * EVar vlmMst2 + #3 * EPow P2 (EVar
   vlmMst2)) - #3134848500 * EPow P3 (EVar vlmMst1) - #3533071500 * EPow P3 (EVar vlmMst2)) + #1543500 * EVar vDmglst1
   * (#17783 - #144 * EConst CB4 - #72 * EConst CDN - #4860 * EVar vlmMsq + #12 * (- #3889 + #450 * EVar vlmMsq) *
   EVar vlmMst1 - #30483 * EPow P2 (EVar vlmMst1) + #6 * EVar vlmMst2 * (#10610 - #900 * EVar vlmMsq + #6897 * EVar
   vlmMst1 + #228 * EPow P2 (EVar vlmMst1)) + #9 * (- #891 + #1160 * EVar vlmMst1) * EPow P2 (EVar vlmMst2) + #864 *
   EVar vlmMt * (#4 + #10 * EVar vlmMst2 - #10 * EVar vlmMst1 * (#1 + EVar vlmMst2) + #5 * EPow P2 (EVar vlmMst1) + #5
   * EPow P2 (EVar vlmMst2)) - #6120 * EPow P3 (EVar vlmMst1) - #5688 * EPow P3 (EVar vlmMst2))) * EPow P3 (EVar
   vMst1) / (#31255875 * EPow P4 (EVar vMst2)) + #16 * EConst COepS2 * (#42 * EPow P2 (EVar vMst1) * EPow P2 (EVar
   vMst2) + #40 * EPow P4 (EVar vMst1) + #27 * EPow P4 (EVar vMst2)) / (#729 * EPow P4 (EVar vMst2)) + #4 * (#7500 *
   EVar vDmglst1 * (#11 - #6 * EVar vlmMsq + #6 * EVar vlmMst2) * EPow P3 (EVar vMst1) + #375 * (#55 - #30 * EVar
   vlmMsq + #30 * EVar vlmMst2 + #18 * EVar vlmMst1 * EVar vlmMst2 - #9 * EPow P2 (EVar vlmMst1) - #9 * EPow P2 (EVar
   vlmMst2)) * EPow P4 (EVar vMst1) - (#5108 + #15 * EVar vlmMsq * (- #218 + #75 * EVar vlmMst1 - #195 * EVar vlmMst2)
   + #6270 * EVar vlmMst2 - #375 * EVar vlmMst1 * (#8 + #3 * EVar vlmMst2) + #900 * EPow P2 (EVar vlmMsq) + #2025 *
   EPow P2 (EVar vlmMst2)) * EPow P4 (EVar vMst2)) / (#2025 * EPow P2 (EVar vMsq) * EPow P2 (EVar vMst2))) - #4 *
   EConst CT1ep * (#2 * (#40 * EPow P2 (EVar vMt) - #83 * EPow P2 (EVar vMst2) * EPow P2 (EVar vs2t)) * EPow P4 (EVar
   vMst1) + #54 * EPow P2 (EVar vMt) * EPow P4 (EVar vMst2) + EPow P2 (EVar vMst1) * (#84 * EPow P2 (EVar vMst2) *
   EPow P2 (EVar vMt) - #177 * EPow P2 (EVar vs2t) * EPow P4 (EVar vMst2)) - #27 * EPow P2 (EVar vs2t) * EPow P6 (EVar
   vMst2)) / (#243 * EPow P4 (EVar vMst2)))) - (#3240 * EVar vxMsq * EConst Cz2 * EPow P2 (EVar vMsq) * (- (EPow P2
   (EVar vs2t) * EPow P4 (EVar vMst1) * (#8 * (- EVar vshiftst1 + EVar vlmMst1 * (- #1 + #2 * EVar vshiftst1 - EVar
   vshiftst2) + EVar vshiftst2 + EVar vlmMst2 * (#1 - #2 * EVar vshiftst1 + EVar vshiftst2)) * EVar vTbeta * EPow P2
   (EVar vMt) * EPow P2 (EVar vMuSUSY) * (- #1 + EPow P2 (EVar vSbeta)) - #4 * EVar vMt * (- #1 + EVar vshiftst2) * (-
   (EVar vMuSUSY * EVar vs2t) + #2 * EVar vMt * EVar vTbeta) * EPow P2 (EVar vMst2) * EPow P2 (EVar vSbeta) + (#1 + #2
   * (EVar vlmMst1 - EVar vlmMst2) * (- #1 + EVar vshiftst1) + #3 * EVar vshiftst1 - #4 * EVar vshiftst2) * EVar
   vTbeta * EPow P2 (EVar vs2t) * EPow P2 (EVar vSbeta) * EPow P4 (EVar vMst2))) + (#1 - EVar vshiftst1) * EPow P4
   (EVar vMst2) * (- #4 * EVar vTbeta * EPow P2 (EVar vMt) * EPow P2 (EVar vs2t) * (EPow P2 (EVar vMuSUSY) * (- #1 +
   EPow P2 (EVar vSbeta)) + #2 * EPow P2 (EVar vMst2) * EPow P2 (EVar vSbeta)) + EPow P2 (EVar vSbeta) * (#16 * EVar
   vMuSUSY * EVar vs2t * EPow P3 (EVar vMt) - #4 * EVar vMt * EVar vMuSUSY * EPow P2 (EVar vMst2) * EPow P3 (EVar
   vs2t) + #16 * EVar vTbeta * EPow P4 (EVar vMt) + EVar vTbeta * EPow P4 (EVar vMst2) * EPow P4 (EVar vs2t))) + EPow
   P2 (EVar vMst1) * EPow P2 (EVar vMst2) * (#4 * EVar vTbeta * EPow P2 (EVar vMt) * EPow P2 (EVar vs2t) * ((#1 + #2 *
   (EVar vlmMst1 - EVar vlmMst2) * (- #1 + EVar vshiftst1) - #2 * EVar vshiftst1 + EVar vshiftst2) * EPow P2 (EVar
   vMuSUSY) * (#1 - EPow P2 (EVar vSbeta)) + #2 * (#2 + (- #1 + EVar vlmMst1 - EVar vlmMst2) * EVar vshiftst1 + (- #1
   - EVar vlmMst1 + EVar vlmMst2) * EVar vshiftst2) * EPow P2 (EVar vMst2) * EPow P2 (EVar vSbeta)) - (- #1 + EVar
   vshiftst2) * EVar vTbeta * EPow P2 (EVar vSbeta) * EPow P4 (EVar vMst1) * EPow P4 (EVar vs2t) - EPow P2 (EVar
   vSbeta) * (- #16 * EVar vMuSUSY * EVar vs2t * (- #1 + EVar vshiftst2) * EPow P3 (EVar vMt) + #4 * EVar vMt * EVar
   vMuSUSY * (EVar vshiftst1 - EVar vshiftst2 + (EVar vlmMst1 - EVar vlmMst2) * (- #2 + EVar vshiftst1 + EVar
   vshiftst2)) * EPow P2 (EVar vMst2) * EPow P3 (EVar vs2t) + #16 * (- #1 + EVar vshiftst2) * EVar vTbeta * EPow P4
   (EVar vMt) + (#1 - #4 * EVar vshiftst1 - #2 * (EVar vlmMst1 - EVar vlmMst2) * (- #1 + EVar vshiftst2) + #3 * EVar
   vshiftst2) * EVar vTbeta * EPow P4 (EVar vMst2) * EPow P4 (EVar vs2t)))) + EConst Cz3 * (EVar vMst1 * EVar vTbeta *
   EPow P2 (EVar vSbeta) * (- #864 * EVar vs2t * EPow P2 (EVar vMst1) * EPow P2 (EVar vMst2) * EPow P2 (EVar vMt) *
   (EVar vDmglst1 * (- #373 - #24 * EVar vlmMst1 + #24 * EVar vlmMst2) * EVar vs2t * EPow P2 (EVar vMst2) + #2 * (#133
   - #9 * EVar vlmMst1 + #9 * EVar vlmMst2) * EVar vMt * EPow P2 (EVar vMuSUSY)) - #432 * EPow P4 (EVar vMt) * (#8 *
   EPow P2 (EVar vMst1) * (#386 * EVar vDmglst1 * EPow P2 (EVar vMst2) + #72 * EVar vMst1 * EPow P2 (EVar vMst2) + #3
   * EVar vDmglst1 * (#13 + #2 * EVar vlmMst1 - #2 * EVar vlmMst2) * EPow P2 (EVar vMuSUSY) + (- #23 + #3 * EVar
   vlmMst1 - #3 * EVar vlmMst2) * EVar vMst1 * EPow P2 (EVar vMuSUSY)) + #5264 * EVar vDmglst1 * EPow P4 (EVar vMst1)
   + (- #107 * EVar vDmglst1 - #4 * (#163 - #6 * (EVar vlmMst1 + EVar vlmMst2) + #12 * EVar vlmMt) * EVar vMst1) *
   EPow P4 (EVar vMst2) + #1268 * EPow P5 (EVar vMst1)) - #6 * EPow P4 (EVar vMst2) * EPow P4 (EVar vs2t) * (#2 * (#27
   * EVar vDmglst1 * (#135 + #92 * EVar vlmMst1 - #92 * EVar vlmMst2) + #7 * (#833 + #162 * EVar vlmMst1 - #162 * EVar
   vlmMst2) * EVar vMst1) * EPow P2 (EVar vMst1) * EPow P2 (EVar vMst2) + #9 * EVar vDmglst1 * (#5077 - #552 * EVar
   vlmMst1 + #552 * EVar vlmMst2) * EPow P4 (EVar vMst1) - #9 * (#195 * EVar vDmglst1 - #328 * EVar vMst1) * EPow P4
   (EVar vMst2) + #324 * (EDec 3978600823045267 14 - #7 * EVar vlmMst1 + #7 * EVar vlmMst2) * EPow P5 (EVar vMst1)) +
   #432 * EVar vMst1 * EVar vMt * EVar vs2t * (- (EPow P2 (EVar vMst2) * EPow P2 (EVar vs2t) * (- #6 * (#103 + #75 *
   EVar vlmMst1 - #75 * EVar vlmMst2) * EPow P2 (EVar vMst2) * EPow P3 (EVar vMst1) + #2991 * EVar vDmglst1 * EPow P4
   (EVar vMst1) + #2 * (- #133 + #9 * EVar vlmMst1 - #9 * EVar vlmMst2) * EVar vMst1 * EPow P4 (EVar vMst2) - #2 *
   EVar vDmglst1 * ((#346 + #693 * EVar vlmMst1 - #693 * EVar vlmMst2) * EPow P2 (EVar vMst1) * EPow P2 (EVar vMst2) +
   (#58 - #9 * EVar vlmMst1 + #9 * EVar vlmMst2) * EPow P4 (EVar vMst2)) + #519 * EPow P5 (EVar vMst1))) + #4 * EPow
   P2 (EVar vMt) * ((#366 * EPow P2 (EVar vMst2) - #23 * (#25 + #9 * EVar vlmMst1 - #9 * EVar vlmMst2) * EPow P2 (EVar
   vMuSUSY)) * EPow P3 (EVar vMst1) + #12 * (- #9 + #2 * EVar vlmMst1 - #2 * EVar vlmMst2) * EVar vMst1 * EPow P4
   (EVar vMst2) + EVar vDmglst1 * ((- #58 + #9 * EVar vlmMst1 - #9 * EVar vlmMst2) * EPow P2 (EVar vMst2) * EPow P2
   (EVar vMuSUSY) + #3 * EPow P2 (EVar vMst1) * (#338 * EPow P2 (EVar vMst2) + (- #154 - #225 * EVar vlmMst1 + #225 *
   EVar vlmMst2) * EPow P2 (EVar vMuSUSY)) + #4392 * EPow P4 (EVar vMst1) + (- #74 + #24 * EVar vlmMst1 - #24 * EVar
   vlmMst2) * EPow P4 (EVar vMst2)) + #896 * EPow P5 (EVar vMst1))) + #8 * EPow P2 (EVar vMt) * EPow P2 (EVar vs2t) *
   (#6 * EPow P2 (EVar vMst2) * (#323 * EPow P2 (EVar vMst2) + (#8783 + #1134 * EVar vlmMst1 - #1134 * EVar vlmMst2) *
   EPow P2 (EVar vMuSUSY)) * EPow P3 (EVar vMst1) - #27 * EVar vDmglst1 * (- #12 * (#35 + #46 * EVar vlmMst1 - #46 *
   EVar vlmMst2) * EPow P2 (EVar vMst1) * EPow P2 (EVar vMst2) * EPow P2 (EVar vMuSUSY) + #8 * (#199 * EPow P2 (EVar
   vMst2) + (- #764 - #69 * EVar vlmMst1 + #69 * EVar vlmMst2) * EPow P2 (EVar vMuSUSY)) * EPow P4 (EVar vMst1) + #5 *
   (#44 * EPow P2 (EVar vMst2) + #39 * EPow P2 (EVar vMuSUSY)) * EPow P4 (EVar vMst2)) + #2 * (- #662 * EPow P2 (EVar
   vMst2) + #14 * (#4829 + #243 * EVar vlmMst1 - #243 * EVar vlmMst2) * EPow P2 (EVar vMuSUSY)) * EPow P5 (EVar vMst1)
   + #54 * EVar vMst1 * (#164 * EPow P2 (EVar vMuSUSY) * EPow P4 (EVar vMst2) + #43 * EPow P6 (EVar vMst2)))) + #8 *
   EVar vMst1 * EVar vMt * EVar vMuSUSY * (EVar vMt * EVar vMuSUSY * EVar vTbeta * (#2 * EVar vMst1 * (#108 * EVar
   vMst1 * EVar vMt * EVar vs2t * (#23 * (#25 + #9 * EVar vlmMst1 - #9 * EVar vlmMst2) * EPow P2 (EVar vMst1) + (#133
   - #9 * EVar vlmMst1 + #9 * EVar vlmMst2) * EPow P2 (EVar vMst2)) - EPow P2 (EVar vMst1) * (#216 * (#23 - #3 * EVar
   vlmMst1 + #3 * EVar vlmMst2) * EPow P2 (EVar vMt) + #3 * (#8783 + #1134 * EVar vlmMst1 - #1134 * EVar vlmMst2) *
   EPow P2 (EVar vMst2) * EPow P2 (EVar vs2t)) + EPow P2 (EVar vs2t) * (- #14 * (#4829 + #243 * EVar vlmMst1 - #243 *
   EVar vlmMst2) * EPow P4 (EVar vMst1) - #4428 * EPow P4 (EVar vMst2))) + #27 * EVar vDmglst1 * (#12 * EPow P2 (EVar
   vMst1) * ((#52 + #8 * EVar vlmMst1 - #8 * EVar vlmMst2) * EPow P2 (EVar vMt) + (- #35 - #46 * EVar vlmMst1 + #46 *
   EVar vlmMst2) * EPow P2 (EVar vMst2) * EPow P2 (EVar vs2t)) + EVar vMt * EVar vs2t * (#8 * (#58 - #9 * EVar vlmMst1
   + #9 * EVar vlmMst2) * EVar vMst1 * EPow P2 (EVar vMst2) + #24 * (#154 + #225 * EVar vlmMst1 - #225 * EVar vlmMst2)
   * EPow P3 (EVar vMst1)) + EPow P2 (EVar vs2t) * (- #8 * (#764 + #69 * EVar vlmMst1 - #69 * EVar vlmMst2) * EPow P4
   (EVar vMst1) + #195 * EPow P4 (EVar vMst2)))) + EPow P2 (EVar vSbeta) * (- #2 * EVar vMst1 * ((#2936 * EVar vs2t *
   EPow P2 (EVar vMt) - #41257 * EPow P2 (EVar vMst2) * EPow P3 (EVar vs2t)) * EPow P4 (EVar vMst1) + #81 * EVar vMst1
   * EVar vMt * (#4 * EPow P2 (EVar vMst1) * ((#86 + #8 * EVar vlmMst1 - #8 * EVar vlmMst2) * EPow P2 (EVar vMt) +
   (#221 + #108 * EVar vlmMst1 - #108 * EVar vlmMst2) * EPow P2 (EVar vMst2) * EPow P2 (EVar vs2t)) + #2 * EPow P2
   (EVar vMst2) * (#8 * (- #9 + #2 * EVar vlmMst1 - #2 * EVar vlmMst2) * EPow P2 (EVar vMt) + (#133 - #9 * EVar
   vlmMst1 + #9 * EVar vlmMst2) * EPow P2 (EVar vMst2) * EPow P2 (EVar vs2t)) + (#365 + #432 * EVar vlmMst1 - #432 *
   EVar vlmMst2) * EPow P2 (EVar vs2t) * EPow P4 (EVar vMst1)) + #54 * EVar vs2t * (#43 * EPow P2 (EVar vMt) - #82 *
   EPow P2 (EVar vMst2) * EPow P2 (EVar vs2t)) * EPow P4 (EVar vMst2) + EPow P2 (EVar vMst1) * (#4260 * EVar vs2t *
   EPow P2 (EVar vMst2) * EPow P2 (EVar vMt) - #3 * (#7307 + #1134 * EVar vlmMst1 - #1134 * EVar vlmMst2) * EPow P3
   (EVar vs2t) * EPow P4 (EVar vMst2))) + #27 * EVar vDmglst1 * (- #16 * EPow P3 (EVar vMst1) * (#3 * (#101 + #171 *
   EVar vlmMst1 - #171 * EVar vlmMst2) * EVar vMt * EPow P2 (EVar vMst2) * EPow P2 (EVar vs2t) + #2 * (#235 + #6 *
   EVar vlmMst1 - #6 * EVar vlmMst2) * EPow P3 (EVar vMt)) + (- #64 * (- #10 + #3 * EVar vlmMst1 - #3 * EVar vlmMst2)
   * EVar vs2t * EPow P2 (EVar vMt) + #5692 * EPow P2 (EVar vMst2) * EPow P3 (EVar vs2t)) * EPow P4 (EVar vMst1) +
   #440 * EVar vs2t * EPow P2 (EVar vMt) * EPow P4 (EVar vMst2) + #4 * EVar vMst1 * (#4 * (#37 - #12 * EVar vlmMst1 +
   #12 * EVar vlmMst2) * EPow P2 (EVar vMst2) * EPow P3 (EVar vMt) + #3 * (- #58 + #9 * EVar vlmMst1 - #9 * EVar
   vlmMst2) * EVar vMt * EPow P2 (EVar vs2t) * EPow P4 (EVar vMst2)) + #3 * EPow P2 (EVar vMst1) * (- #16 * (#53 + #4
   * EVar vlmMst1 - #4 * EVar vlmMst2) * EVar vs2t * EPow P2 (EVar vMst2) * EPow P2 (EVar vMt) + (#205 + #184 * EVar
   vlmMst1 - #184 * EVar vlmMst2) * EPow P3 (EVar vs2t) * EPow P4 (EVar vMst2)) + #6 * (#2183 - #1368 * EVar vlmMst1 +
   #1368 * EVar vlmMst2) * EVar vMt * EPow P2 (EVar vs2t) * EPow P5 (EVar vMst1) - #195 * EPow P3 (EVar vs2t) * EPow
   P6 (EVar vMst2)))) + #27 * EVar vxDmglst1 * EPow P2 (EVar vDmglst1) * (EPow P4 (EVar vMst2) * (- #12 * EVar vTbeta
   * EPow P2 (EVar vMt) * EPow P2 (EVar vs2t) * (#381 * EPow P2 (EVar vMuSUSY) * (- #1 + EPow P2 (EVar vSbeta)) +
   #1013 * EPow P2 (EVar vMst2) * EPow P2 (EVar vSbeta)) + EPow P2 (EVar vSbeta) * (#24312 * EVar vMuSUSY * EVar vs2t
   * EPow P3 (EVar vMt) - #4572 * EVar vMt * EVar vMuSUSY * EPow P2 (EVar vMst2) * EPow P3 (EVar vs2t) + #14440 * EVar
   vTbeta * EPow P4 (EVar vMt) + #1143 * EVar vTbeta * EPow P4 (EVar vMst2) * EPow P4 (EVar vs2t))) + EPow P4 (EVar
   vMst1) * (- #48 * EVar vTbeta * EPow P2 (EVar vMt) * EPow P2 (EVar vs2t) * (- ((#1145 + #14 * EVar vlmMst1 - #14 *
   EVar vlmMst2) * EPow P2 (EVar vMuSUSY) * (- #1 + EPow P2 (EVar vSbeta))) + #1194 * EPow P2 (EVar vMst2) * EPow P2
   (EVar vSbeta)) + EPow P2 (EVar vSbeta) * (#256 * (#134 - #3 * EVar vlmMst1 + #3 * EVar vlmMst2) * EVar vMuSUSY *
   EVar vs2t * EPow P3 (EVar vMt) + #48 * (#1117 - #32 * EVar vlmMst1 + #32 * EVar vlmMst2) * EVar vMt * EVar vMuSUSY
   * EPow P2 (EVar vMst2) * EPow P3 (EVar vs2t) - #129664 * EVar vTbeta * EPow P4 (EVar vMt) + #9 * (- #1325 + #104 *
   EVar vlmMst1 - #104 * EVar vlmMst2) * EVar vTbeta * EPow P4 (EVar vMst2) * EPow P4 (EVar vs2t))) + EVar vMt * (-
   #16 * (EVar vMst1 * EPow P2 (EVar vMst2) * (- #2 * EVar vs2t * EVar vTbeta * EPow P2 (EVar vMt) * (#675 * EPow P2
   (EVar vMuSUSY) * (- #1 + EPow P2 (EVar vSbeta)) + #1843 * EPow P2 (EVar vMst2) * EPow P2 (EVar vSbeta)) + EVar
   vMuSUSY * EPow P2 (EVar vSbeta) * (- #2025 * EVar vMt * EPow P2 (EVar vMst2) * EPow P2 (EVar vs2t) + #3686 * EPow
   P3 (EVar vMt)) + #675 * EVar vTbeta * EPow P2 (EVar vSbeta) * EPow P3 (EVar vs2t) * EPow P4 (EVar vMst2)) + EPow P3
   (EVar vMst1) * (EVar vMuSUSY * EPow P2 (EVar vSbeta) * (#2106 * (- #1 + #2 * EVar vlmMst1 - #2 * EVar vlmMst2) *
   EVar vMt * EPow P2 (EVar vMst2) * EPow P2 (EVar vs2t) + #7190 * EPow P3 (EVar vMt)) + EVar vTbeta * (- #6 * EVar
   vs2t * EPow P2 (EVar vMt) * (- #9 * (- #51 + #52 * EVar vlmMst1 - #52 * EVar vlmMst2) * EPow P2 (EVar vMuSUSY) * (-
   #1 + EPow P2 (EVar vSbeta)) + #584 * EPow P2 (EVar vMst2) * EPow P2 (EVar vSbeta)) + #27 * (#1 - #52 * EVar vlmMst1
   + #52 * EVar vlmMst2) * EPow P2 (EVar vSbeta) * EPow P3 (EVar vs2t) * EPow P4 (EVar vMst2)))) + #32 * EVar vs2t *
   (#3 * (#3635 - #702 * EVar vlmMst1 + #702 * EVar vlmMst2) * EVar vMt * EVar vMuSUSY * EVar vs2t + #4 * EVar vTbeta
   * (#4222 * EPow P2 (EVar vMt) - #821 * EPow P2 (EVar vMst2) * EPow P2 (EVar vs2t))) * EPow P2 (EVar vSbeta) * EPow
   P5 (EVar vMst1)) - #2 * EPow P2 (EVar vMst1) * (#16 * EPow P2 (EVar vMst2) * EPow P2 (EVar vMt) * (- #3 * (#14 +
   #23 * EVar vlmMst1 - #23 * EVar vlmMst2) * EVar vTbeta * EPow P2 (EVar vMuSUSY) * EPow P2 (EVar vs2t) * (- #1 +
   EPow P2 (EVar vSbeta)) + #2 * EVar vMt * ((#1255 + #12 * EVar vlmMst1 - #12 * EVar vlmMst2) * EVar vMuSUSY * EVar
   vs2t + #1554 * EVar vMt * EVar vTbeta) * EPow P2 (EVar vSbeta)) - #2 * EVar vMt * (#3 * (#493 + #184 * EVar vlmMst1
   - #184 * EVar vlmMst2) * EVar vMuSUSY * EVar vs2t + (#13079 + #96 * EVar vlmMst1 - #96 * EVar vlmMst2) * EVar vMt *
   EVar vTbeta) * EPow P2 (EVar vs2t) * EPow P2 (EVar vSbeta) * EPow P4 (EVar vMst2) + EVar vTbeta * (#64 * (#181 + #3
   * EVar vlmMst1 - #3 * EVar vlmMst2) * EPow P2 (EVar vMuSUSY) * (- #1 + EPow P2 (EVar vSbeta)) * EPow P4 (EVar vMt)
   + #69 * (#19 + #4 * EVar vlmMst1 - #4 * EVar vlmMst2) * EPow P2 (EVar vSbeta) * EPow P4 (EVar vs2t) * EPow P6 (EVar
   vMst2))))) + EPow P2 (EVar vMst1) * (#24 * EPow P2 (EConst Cz2) * (EVar vMt * EVar vMuSUSY * EPow P2 (EVar vSbeta)
   * (#576 * (EVar vDmglst1 + EVar vMst1) * (EPow P2 (EVar vMst1) + EPow P2 (EVar vMst2)) * EPow P3 (EVar vMt) + #2 *
   EVar vs2t * EPow P2 (EVar vMt) * (#42 * EPow P2 (EVar vMst1) * EPow P2 (EVar vMst2) + #40 * EPow P4 (EVar vMst1) -
   #45 * EPow P4 (EVar vMst2)) - EPow P2 (EVar vMst2) * EPow P3 (EVar vs2t) * (#3 * EVar vMst1 * (#48 * EVar vDmglst1
   + #179 * EVar vMst1) * EPow P2 (EVar vMst2) + #166 * EPow P4 (EVar vMst1) + #315 * EPow P4 (EVar vMst2)) + #864 *
   EVar vMt * EPow P2 (EVar vs2t) * (#19 * EVar vDmglst1 * EPow P2 (EVar vMst1) * (EPow P2 (EVar vMst1) + EPow P2
   (EVar vMst2)) + #9 * (EPow P2 (EVar vMst1) + EPow P2 (EVar vMst2)) * EPow P3 (EVar vMst1) + #2 * EVar vDmglst1 *
   EPow P4 (EVar vMst2) + #2 * EVar vMst1 * EPow P4 (EVar vMst2))) - #18 * EVar vs2t * EVar vxDmglst1 * EPow P2 (EVar
   vDmglst1) * (- #4 * EVar vMuSUSY * EPow P2 (EVar vMt) * (EVar vMuSUSY * EVar vTbeta * (#120 * EVar vMst1 * EVar vMt
   - EVar vs2t * (EPow P2 (EVar vMst1) + EPow P2 (EVar vMst2))) * EPow P2 (EVar vSbeta) + EVar vs2t * (EVar vMuSUSY *
   EVar vTbeta * EPow P2 (EVar vMst2) + #180 * EVar vMst1 * (EPow P2 (EVar vMst1) + EPow P2 (EVar vMst2)) * EPow P2
   (EVar vSbeta))) + EVar vTbeta * (#240 * EVar vMst1 * EVar vMt + EVar vs2t * EPow P2 (EVar vMst1) - EVar vs2t * EPow
   P2 (EVar vMst2)) * EPow P2 (EVar vs2t) * EPow P2 (EVar vSbeta) * EPow P4 (EVar vMst2) + #4 * EVar vMt * EVar
   vMuSUSY * (EVar vMst1 * EVar vMt * EVar vMuSUSY * (#120 * EVar vMt - EVar vMst1 * EVar vs2t) * EVar vTbeta + EPow
   P2 (EVar vs2t) * EPow P2 (EVar vSbeta) * EPow P4 (EVar vMst2))) + EVar vTbeta * (EVar vs2t * EPow P2 (EVar vMt) *
   (- #9 * EVar vMt * EPow P2 (EVar vSbeta) * (- #64 * EPow P2 (EVar vMuSUSY) * (#21 * EVar vDmglst1 * EPow P2 (EVar
   vMst1) + #2 * (EVar vDmglst1 + EVar vMst1) * EPow P2 (EVar vMst2) + #11 * EPow P3 (EVar vMst1)) + #64 * (EVar
   vDmglst1 + EVar vMst1) * EPow P4 (EVar vMst2)) - EPow P2 (EVar vMuSUSY) * (#576 * EVar vMt * (#2 * EVar vMst1 *
   EPow P2 (EVar vMst2) + #11 * EPow P3 (EVar vMst1)) - #144 * EVar vDmglst1 * (- #84 * EVar vMt * EPow P2 (EVar
   vMst1) - #8 * EVar vMt * EPow P2 (EVar vMst2) + EVar vMst1 * EVar vs2t * EPow P2 (EVar vMst2) + EVar vs2t * EPow P3
   (EVar vMst1)) - EVar vs2t * (#852 * EPow P2 (EVar vMst1) * EPow P2 (EVar vMst2) + #1018 * EPow P4 (EVar vMst1) +
   #315 * EPow P4 (EVar vMst2)))) + EPow P2 (EVar vSbeta) * (EPow P4 (EVar vMst2) * (- #288 * EVar vMt * (#17 * EVar
   vDmglst1 * EPow P2 (EVar vMst1) + #2 * (EVar vDmglst1 + EVar vMst1) * EPow P2 (EVar vMst2) + #7 * EPow P3 (EVar
   vMst1)) * EPow P3 (EVar vs2t) - (- #222 * EPow P2 (EVar vMst1) * EPow P2 (EVar vMst2) + #144 * EVar vDmglst1 * (-
   (EVar vMst1 * EPow P2 (EVar vMst2)) + EPow P3 (EVar vMst1)) + #371 * EPow P4 (EVar vMst1) - #315 * EPow P4 (EVar
   vMst2)) * EPow P4 (EVar vs2t) / #4) + EPow P2 (EVar vMt) * EPow P2 (EVar vs2t) * (#2 * EPow P2 (EVar vMst2) * EPow
   P4 (EVar vMst1) - #87 * EPow P2 (EVar vMst1) * EPow P4 (EVar vMst2) - EPow P2 (EVar vMuSUSY) * (#852 * EPow P2
   (EVar vMst1) * EPow P2 (EVar vMst2) + #144 * EVar vDmglst1 * EVar vMst1 * (EPow P2 (EVar vMst1) + EPow P2 (EVar
   vMst2)) + #1018 * EPow P4 (EVar vMst1) + #315 * EPow P4 (EVar vMst2)) + #45 * EPow P6 (EVar vMst2))))) - #4 *
   EConst Cz4 * (#2 * EVar vMt * EVar vMuSUSY * EPow P2 (EVar vSbeta) * (#864 * (EVar vDmglst1 + EVar vMst1) * (EPow
   P2 (EVar vMst1) + EPow P2 (EVar vMst2)) * EPow P3 (EVar vMt) + #2 * EPow P2 (EVar vMst2) * EPow P3 (EVar vs2t) *
   (#6 * EVar vMst1 * (#2385 * EVar vDmglst1 + #538 * EVar vMst1) * EPow P2 (EVar vMst2) + #166 * EPow P4 (EVar vMst1)
   - #3267 * EPow P4 (EVar vMst2)) - #4 * EVar vs2t * EPow P2 (EVar vMt) * (#42 * EPow P2 (EVar vMst1) * EPow P2 (EVar
   vMst2) + #3240 * EVar vDmglst1 * EVar vMst1 * (EPow P2 (EVar vMst1) + EPow P2 (EVar vMst2)) + #40 * EPow P4 (EVar
   vMst1) - #243 * EPow P4 (EVar vMst2)) - #162 * EVar vMt * EPow P2 (EVar vs2t) * (#4 * (#187 * EVar vDmglst1 - #18 *
   EVar vMst1) * EPow P2 (EVar vMst1) * EPow P2 (EVar vMst2) + #748 * EVar vDmglst1 * EPow P4 (EVar vMst1) - #241 *
   (EVar vDmglst1 + EVar vMst1) * EPow P4 (EVar vMst2) - #72 * EPow P5 (EVar vMst1))) - #135 * EVar vxDmglst1 * EPow
   P2 (EVar vDmglst1) * (#4 * EVar vMuSUSY * EVar vs2t * EPow P2 (EVar vMst2) * EPow P2 (EVar vMt) * (- #53 * EVar
   vMuSUSY * EVar vs2t * EVar vTbeta * (- #1 + EPow P2 (EVar vSbeta)) + #24 * EVar vMt * EPow P2 (EVar vSbeta)) + #984
   * EVar vMst1 * EVar vMt * EVar vs2t * (#2 * EVar vTbeta * EPow P2 (EVar vMt) * EPow P2 (EVar vMuSUSY) * (- #1 +
   EPow P2 (EVar vSbeta)) + EVar vs2t * EPow P2 (EVar vMst2) * (#3 * EVar vMt * EVar vMuSUSY - EVar vs2t * EVar vTbeta
   * EPow P2 (EVar vMst2)) * EPow P2 (EVar vSbeta)) - #4 * EVar vMt * (#53 * EVar vMuSUSY * EVar vs2t + #12 * EVar vMt
   * EVar vTbeta) * EPow P2 (EVar vs2t) * EPow P2 (EVar vSbeta) * EPow P4 (EVar vMst2) + EVar vs2t * EPow P2 (EVar
   vMst1) * (- #20 * EVar vs2t * EVar vTbeta * EPow P2 (EVar vMt) * EPow P2 (EVar vMuSUSY) * (- #1 + EPow P2 (EVar
   vSbeta)) + #96 * EVar vMuSUSY * EPow P2 (EVar vSbeta) * (#2 * EVar vMt * EPow P2 (EVar vMst2) * EPow P2 (EVar vs2t)
   + EPow P3 (EVar vMt)) - #101 * EVar vTbeta * EPow P2 (EVar vSbeta) * EPow P3 (EVar vs2t) * EPow P4 (EVar vMst2)) +
   #48 * EVar vTbeta * EPow P2 (EVar vMuSUSY) * (- #1 + EPow P2 (EVar vSbeta)) * EPow P4 (EVar vMt) + EPow P2 (EVar
   vSbeta) * (#2952 * EVar vMuSUSY * EPow P2 (EVar vMt) * EPow P2 (EVar vs2t) * EPow P3 (EVar vMst1) + #53 * EVar
   vTbeta * EPow P4 (EVar vs2t) * EPow P6 (EVar vMst2))) + EVar vTbeta * (#4 * EPow P2 (EVar vMt) * EPow P2 (EVar
   vMuSUSY) * (#3 * EPow P2 (EVar vMst1) * (#540 * EPow P2 (EVar vMt) + #13 * EPow P2 (EVar vMst2) * EPow P2 (EVar
   vs2t)) + #54 * EVar vDmglst1 * (EVar vMt * EVar vs2t * (#507 * EPow P2 (EVar vMst1) - #241 * EPow P2 (EVar vMst2))
   + #60 * EVar vMst1 * EPow P2 (EVar vMt) - #265 * EVar vMst1 * (EPow P2 (EVar vMst1) + EPow P2 (EVar vMst2)) * EPow
   P2 (EVar vs2t)) - #1620 * EVar vMst1 * (#2 * EVar vDmglst1 + EVar vMst1) * EPow P2 (EVar vMt) * EPow P2 (EVar
   vSbeta) - #54 * EVar vMt * EVar vs2t * (#241 * EVar vMst1 * EPow P2 (EVar vMst2) + #313 * EPow P3 (EVar vMst1)) -
   EPow P2 (EVar vs2t) * (#127 * EPow P4 (EVar vMst1) - #3267 * EPow P4 (EVar vMst2))) + EVar vs2t * EPow P2 (EVar
   vSbeta) * (- #216 * EPow P3 (EVar vMt) * (EPow P2 (EVar vMuSUSY) * (#507 * EVar vDmglst1 * EPow P2 (EVar vMst1) -
   #241 * (EVar vDmglst1 + EVar vMst1) * EPow P2 (EVar vMst2) - #313 * EPow P3 (EVar vMst1)) + #8 * (EVar vDmglst1 +
   EVar vMst1) * EPow P4 (EVar vMst2)) + EPow P2 (EVar vs2t) * EPow P4 (EVar vMst2) * (#108 * EVar vMt * (#989 * EVar
   vDmglst1 * EPow P2 (EVar vMst1) - #241 * (EVar vDmglst1 + EVar vMst1) * EPow P2 (EVar vMst2) + #169 * EPow P3 (EVar
   vMst1)) + EVar vs2t * (- #6495 * EPow P2 (EVar vMst1) * EPow P2 (EVar vMst2) + #14310 * EVar vDmglst1 * (- (EVar
   vMst1 * EPow P2 (EVar vMst2)) + EPow P3 (EVar vMst1)) + #3062 * EPow P4 (EVar vMst1) + #3267 * EPow P4 (EVar
   vMst2))) - #4 * EVar vs2t * EPow P2 (EVar vMt) * (#2 * EPow P2 (EVar vMst2) * EPow P4 (EVar vMst1) - EPow P2 (EVar
   vMuSUSY) * (- #39 * EPow P2 (EVar vMst1) * EPow P2 (EVar vMst2) + #14310 * EVar vDmglst1 * EVar vMst1 * (EPow P2
   (EVar vMst1) + EPow P2 (EVar vMst2)) + #127 * EPow P4 (EVar vMst1) - #3267 * EPow P4 (EVar vMst2)) - #15 * EVar
   vMst1 * (#216 * EVar vDmglst1 + #19 * EVar vMst1) * EPow P4 (EVar vMst2) + #243 * EPow P6 (EVar vMst2))))))) /
   (#1944 * EPow P2 (EVar vMst1) * EPow P2 (EVar vSbeta) * EPow P4 (EVar vMst2))) / EVar vTbeta + EPow P2 (EVar vs2t)
   * ((- #2 * EPow P2 (EVar vMt) * (EPow P2 (EVar vMuSUSY) * (#81 * (- #1 + #3 * EVar vlmMst1 - #3 * EVar vlmMst2) *
   (- #1 + #2 * EVar vlmMst2) * EVar vshiftst3 - #740 * EConst CT1ep * (- #1 + EPow P2 (EVar vSbeta))) + #4 * EConst
   CT1ep * EPow P2 (EVar vMst2) * EPow P2 (EVar vSbeta)) + #11 * EConst CT1ep * EPow P2 (EVar vs2t) * EPow P2 (EVar
   vSbeta) * EPow P4 (EVar vMst2)) * EPow P6 (EVar vMst1) + #81 * (- #1 + #2 * EVar vlmMst2) * EVar vshiftst3 * EPow
   P2 (EVar vMt) * EPow P2 (EVar vMuSUSY) * EPow P6 (EVar vMst2) - #6 * EPow P4 (EVar vMst1) * (EPow P2 (EVar vMst2) *
   EPow P2 (EVar vMt) * (EPow P2 (EVar vMuSUSY) * (#27 * EVar vshiftst3 * (#1 - #2 * EVar vlmMst1 + #4 * EVar vlmMst1
   * EVar vlmMst2 - #4 * EPow P2 (EVar vlmMst2)) - #136 * EConst CT1ep * (- #1 + EPow P2 (EVar vSbeta))) - #10 *
   EConst CT1ep * EPow P2 (EVar vMst2) * EPow P2 (EVar vSbeta)) + #25 * EConst CT1ep * EPow P2 (EVar vs2t) * EPow P2
   (EVar vSbeta) * EPow P6 (EVar vMst2)) - #27 * EPow P2 (EVar vMst1) * (#2 * EPow P2 (EVar vMt) * (EPow P2 (EVar
   vMuSUSY) * (#3 * (- #1 + EVar vlmMst1 - EVar vlmMst2) * (- #1 + #2 * EVar vlmMst2) * EVar vshiftst3 - #2 * EConst
   CT1ep * (- #1 + EPow P2 (EVar vSbeta))) - #2 * EConst CT1ep * EPow P2 (EVar vMst2) * EPow P2 (EVar vSbeta)) * EPow
   P4 (EVar vMst2) + EConst CT1ep * EPow P2 (EVar vs2t) * EPow P2 (EVar vSbeta) * EPow P8 (EVar vMst2))) / (#243 *
   EPow P2 (EVar vMst1) * EPow P2 (EVar vSbeta) * EPow P4 (EVar vMst2)) + ((#1 - #2 * EVar vlmMst2) * EVar vshiftst3 *
   EVar vTbeta * EPow P2 (EVar vSbeta) * (- ((#8 * (#1 - EVar vlmMst1 + EVar vlmMst2) * EPow P2 (EVar vMst1) * EPow P2
   (EVar vMt) * EPow P2 (EVar vs2t) + #16 * EPow P4 (EVar vMt) + EPow P2 (EVar vMst1) * ((#3 + #2 * EVar vlmMst1 - #2
   * EVar vlmMst2) * EPow P2 (EVar vMst1) - #4 * EPow P2 (EVar vMst2)) * EPow P4 (EVar vs2t)) * EPow P6 (EVar vMst2))
   + #4 * EPow P2 (EVar vMt) * EPow P2 (EVar vs2t) * (EPow P2 (EVar vMuSUSY) * EPow P6 (EVar vMst2) + #2 * (EPow P2
   (EVar vMuSUSY) * ((#1 - #2 * EVar vlmMst1 + #2 * EVar vlmMst2) * EPow P2 (EVar vMst2) * EPow P4 (EVar vMst1) + (#1
   - EVar vlmMst1 + EVar vlmMst2) * EPow P2 (EVar vMst1) * EPow P4 (EVar vMst2) + (#1 - #3 * EVar vlmMst1 + #3 * EVar
   vlmMst2) * EPow P6 (EVar vMst1)) + EPow P8 (EVar vMst2)))) + #10 * (#1 - #2 * EVar vlmMsq) * EVar vxMsq * EPow P2
   (EVar vMsq) * (#4 * EVar vMt * EVar vMuSUSY * EVar vs2t * (EVar vMt * EVar vMuSUSY * EVar vs2t * EVar vTbeta * EPow
   P2 (EVar vMst1) * (EPow P2 (EVar vMst2) - #2 * (EVar vlmMst1 - EVar vlmMst2) * (EPow P2 (EVar vMst1) + EPow P2
   (EVar vMst2))) + EPow P2 (EVar vMst2) * EPow P2 (EVar vSbeta) * ((- #1 + EVar vshiftst1) * EPow P2 (EVar vMst2) *
   (- #4 * EPow P2 (EVar vMt) + EPow P2 (EVar vMst2) * EPow P2 (EVar vs2t)) - EPow P2 (EVar vMst1) * (- #4 * (- #1 +
   EVar vshiftst2) * EPow P2 (EVar vMt) + (EVar vshiftst1 - EVar vshiftst2 + (EVar vlmMst1 - EVar vlmMst2) * (- #2 +
   EVar vshiftst1 + EVar vshiftst2)) * EPow P2 (EVar vMst2) * EPow P2 (EVar vs2t)) - (- #1 + EVar vshiftst2) * EPow P2
   (EVar vs2t) * EPow P4 (EVar vMst1))) + EVar vTbeta * (- #8 * EPow P2 (EVar vMst1) * EPow P2 (EVar vMst2) * EPow P2
   (EVar vMt) * ((#1 - EVar vlmMst1 + EVar vlmMst2) * EVar vshiftst1 * EPow P2 (EVar vMuSUSY) * EPow P2 (EVar vs2t) +
   #2 * EVar vshiftst2 * EPow P2 (EVar vMt) * EPow P2 (EVar vSbeta)) + EPow P2 (EVar vSbeta) * (- #4 * EPow P2 (EVar
   vMt) * EPow P2 (EVar vs2t) * (#2 * (EPow P2 (EVar vMst2) + (- EVar vlmMst1 + EVar vlmMst2) * EPow P2 (EVar
   vMuSUSY)) * EPow P4 (EVar vMst1) + EPow P2 (EVar vMst1) * ((#1 - #2 * EVar vlmMst1 + #2 * EVar vlmMst2) * EPow P2
   (EVar vMst2) * EPow P2 (EVar vMuSUSY) - #4 * EPow P4 (EVar vMst2)) + (#2 * EPow P2 (EVar vMst2) + EPow P2 (EVar
   vMuSUSY)) * EPow P4 (EVar vMst2)) + EPow P2 (EVar vMst2) * (#16 * (EPow P2 (EVar vMst1) + EPow P2 (EVar vMst2)) *
   EPow P4 (EVar vMt) + EPow P2 (EVar vMst1) * ((- #1 + #2 * EVar vlmMst1 - #2 * EVar vlmMst2) * EPow P2 (EVar vMst1)
   * EPow P2 (EVar vMst2) + EPow P4 (EVar vMst1) + (- #1 - #2 * EVar vlmMst1 + #2 * EVar vlmMst2) * EPow P4 (EVar
   vMst2)) * EPow P4 (EVar vs2t))) - EVar vshiftst1 * (#4 * EPow P2 (EVar vMst1) * EPow P2 (EVar vMst2) * EPow P2
   (EVar vs2t) * EPow P2 (EVar vSbeta) * (#2 * (#1 - EVar vlmMst1 + EVar vlmMst2) * EPow P2 (EVar vMt) * (EPow P2
   (EVar vMst2) - EPow P2 (EVar vMuSUSY)) - EPow P2 (EVar vs2t) * EPow P4 (EVar vMst2)) + EPow P4 (EVar vMst1) * (#8 *
   (- #1 + #2 * EVar vlmMst1 - #2 * EVar vlmMst2) * EPow P2 (EVar vMt) * EPow P2 (EVar vMuSUSY) * EPow P2 (EVar vs2t)
   * (- #1 + EPow P2 (EVar vSbeta)) + (#3 + #2 * EVar vlmMst1 - #2 * EVar vlmMst2) * EPow P2 (EVar vSbeta) * EPow P4
   (EVar vMst2) * EPow P4 (EVar vs2t)) + EPow P4 (EVar vMst2) * (- #4 * EPow P2 (EVar vMt) * EPow P2 (EVar vs2t) *
   (EPow P2 (EVar vMuSUSY) * (- #1 + EPow P2 (EVar vSbeta)) + #2 * EPow P2 (EVar vMst2) * EPow P2 (EVar vSbeta)) +
   EPow P2 (EVar vSbeta) * (#16 * EPow P4 (EVar vMt) + EPow P4 (EVar vMst2) * EPow P4 (EVar vs2t)))) + EPow P2 (EVar
   vs2t) * (#4 * EPow P2 (EVar vMt) * EPow P2 (EVar vMuSUSY) * EPow P4 (EVar vMst2) - EVar vshiftst2 * EPow P2 (EVar
   vMst1) * (#4 * EPow P2 (EVar vMst2) * EPow P2 (EVar vMt) * (EPow P2 (EVar vMuSUSY) * (- #1 + EPow P2 (EVar vSbeta))
   + #2 * (#1 + EVar vlmMst1 - EVar vlmMst2) * EPow P2 (EVar vMst2) * EPow P2 (EVar vSbeta)) - #4 * EPow P2 (EVar
   vMst1) * (#2 * EPow P2 (EVar vMt) * ((- #1 + EVar vlmMst1 - EVar vlmMst2) * EPow P2 (EVar vMuSUSY) * (- #1 + EPow
   P2 (EVar vSbeta)) + EPow P2 (EVar vMst2) * EPow P2 (EVar vSbeta)) + EPow P2 (EVar vs2t) * EPow P2 (EVar vSbeta) *
   EPow P4 (EVar vMst2)) + EPow P2 (EVar vs2t) * EPow P2 (EVar vSbeta) * (EPow P2 (EVar vMst2) * EPow P4 (EVar vMst1)
   + (#3 - #2 * EVar vlmMst1 + #2 * EVar vlmMst2) * EPow P6 (EVar vMst2))) + EPow P2 (EVar vs2t) * EPow P2 (EVar
   vSbeta) * EPow P8 (EVar vMst2))))) / (#12 * EVar vTbeta * EPow P2 (EVar vMst1) * EPow P2 (EVar vSbeta) * EPow P4
   (EVar vMst2))).

(** H5.cpp:1691-1955 *)
Definition H5_getS12 : expr :=
  - (EVar vMuSUSY * (#12 * EVar vthreeLoopFlag * EPow P2 (EVar vAl4p) * (- #324 * EVar vMt * EPow P2 (EVar vs2t) * (EVar
   vDmglst1 * EVar vMst1 * EVar vs2t * (#2323 + #144 * EConst CB4 + #120 * EConst CDN - #2880 * EVar vlmMsq - #6 *
   EVar vlmMst1 * (- #293 - #360 * EVar vlmMsq + #180 * EPow P2 (EVar vlmMsq)) + #6 * EVar vlmMst2 * (#571 - #360 *
   EVar vlmMsq + #62 * EVar vlmMst1 + #180 * EPow P2 (EVar vlmMsq) - #158 * EPow P2 (EVar vlmMst1)) + #30 * (- #121 +
   #36 * EVar vlmMsq) * EPow P2 (EVar vlmMst1) - #6 * (- #735 + #180 * EVar vlmMsq + #98 * EVar vlmMst1) * EPow P2
   (EVar vlmMst2) - #260 * EPow P3 (EVar vlmMst1) + #1796 * EPow P3 (EVar vlmMst2)) / #108 + EVar vMt * (#10 * (EVar
   vDmglst1 + EVar vMst1) * EPow P2 (EVar vMst2) / (#3 * EPow P2 (EVar vMsq)) + EVar vDmglst1 * (EDec 3149166666666667
   13 - #34 * EConst CB4 / #3 - EConst CDN / #3 - #180 * EVar vlmMsq + EVar vlmMst1 * (EDec 60833333333333336 15 + #30
   * EVar vlmMsq - #10 * EPow P2 (EVar vlmMsq)) + #20 * EPow P2 (EVar vlmMsq) + EVar vlmMst2 * (EDec 3885 1 - #70 *
   EVar vlmMsq - #59 * EVar vlmMst1 / #3 + #10 * EPow P2 (EVar vlmMsq) - #10 * EPow P2 (EVar vlmMst1)) + (- #13 + #20
   * EVar vlmMsq) * EPow P2 (EVar vlmMst1) / #2 - (- #797 + #60 * EVar vlmMsq + #4 * EVar vlmMst1) * EPow P2 (EVar
   vlmMst2) / #6 - #50 * EPow P3 (EVar vlmMst1) / #9 + #146 * EPow P3 (EVar vlmMst2) / #9) + EVar vMst1 * (#13317 -
   #408 * EConst CB4 - #12 * EConst CDN - #4320 * EVar vlmMsq + #720 * EPow P2 (EVar vlmMsq) - #6 * EVar vlmMst1 *
   (#79 - #180 * EVar vlmMsq + #60 * EPow P2 (EVar vlmMsq)) + #6 * EVar vlmMst2 * (#2135 - #420 * EVar vlmMsq - #118 *
   EVar vlmMst1 + #60 * EPow P2 (EVar vlmMsq) - #60 * EPow P2 (EVar vlmMst1)) + #6 * (- #167 + #60 * EVar vlmMsq) *
   EPow P2 (EVar vlmMst1) - #6 * (- #797 + #60 * EVar vlmMsq + #4 * EVar vlmMst1) * EPow P2 (EVar vlmMst2) - #200 *
   EPow P3 (EVar vlmMst1) + #584 * EPow P3 (EVar vlmMst2)) / #36)) - #72 * EConst CT1ep * (#2 * EVar vs2t * EPow P3
   (EVar vMt) - EVar vMt * EPow P2 (EVar vMst2) * EPow P3 (EVar vs2t)) + EVar vs2t * (- (EVar vMt * EPow P2 (EVar
   vMst2) * (#216 * (#1 - #2 * EVar vlmMst2) * EVar vshiftst3 * (#4 * EPow P2 (EVar vMt) + (#1 + EVar vlmMst1 - EVar
   vlmMst2) * EPow P2 (EVar vMst1) * EPow P2 (EVar vs2t)) + EVar vMst1 * EPow P2 (EVar vs2t) * (EVar vDmglst1 * (#36 *
   (#7 - #2 * EVar vlmMst1 - #60 * EVar vlmMsq * (- #5 + #6 * EVar vlmMst1) - #226 * EVar vlmMst2 + #220 * EVar
   vlmMst1 * EVar vlmMst2 + #180 * EPow P2 (EVar vlmMsq) + #178 * EPow P2 (EVar vlmMst1) + #18 * EPow P2 (EVar
   vlmMst2)) * EPow P2 (EVar vMsq) + #240 * (#82 - #93 * EVar vlmMst1 + #6 * EVar vlmMsq * (#4 + #3 * EVar vlmMst1 -
   #3 * EVar vlmMst2) + #69 * EVar vlmMst2 - #9 * EPow P2 (EVar vlmMst1) + #9 * EPow P2 (EVar vlmMst2)) * EPow P2
   (EVar vMst1)) + EVar vMst1 * EPow P2 (EVar vMsq) * (#53965 + #2592 * EConst CB4 - #288 * EConst CDN - #13320 * EVar
   vlmMsq + #192 * EConst COepS2 - #1944 * (- #11 + #2 * EVar vlmMst1 - #2 * EVar vlmMst2) * EConst CS2 + #5400 * EPow
   P2 (EVar vlmMsq) - #6 * EVar vlmMst1 * (#3781 - #300 * EVar vlmMsq + #180 * EPow P2 (EVar vlmMsq)) + #6 * EVar
   vlmMst2 * (#14137 - #3498 * EVar vlmMst1 + #60 * EVar vlmMsq * (- #35 + #12 * EVar vlmMst1) + #180 * EPow P2 (EVar
   vlmMsq) - #18 * EPow P2 (EVar vlmMst1)) - #18 * (- #229 + #60 * EVar vlmMsq) * EPow P2 (EVar vlmMst1) - #18 * (-
   #2193 + #180 * EVar vlmMsq + #442 * EVar vlmMst1) * EPow P2 (EVar vlmMst2) + #396 * EPow P3 (EVar vlmMst1) + #7668
   * EPow P3 (EVar vlmMst2))) / EPow P2 (EVar vMsq))) / (#4 * EPow P2 (EVar vMst1)) + #324 * EPow P3 (EVar vMt) *
   (EDec 14558641975308642 15 - #8 * EConst CDN / #9 - #10 * EVar vlmMsq / #3 + #8 * EConst COepS2 / #27 - #3 * (#1 +
   #2 * EVar vlmMst1 - #2 * EVar vlmMst2) * EConst CS2 + #10 * EPow P2 (EVar vlmMsq) - #2 * EVar vlmMst1 * (#454 + #60
   * EVar vlmMsq + #45 * EPow P2 (EVar vlmMsq)) / #27 + #2 * EVar vlmMst2 * (#715 - #336 * EVar vlmMst1 + #30 * EVar
   vlmMsq * (- #7 + #3 * EVar vlmMst1) + #45 * EPow P2 (EVar vlmMsq) - #36 * EPow P2 (EVar vlmMst1)) / #27 + #82 *
   EPow P2 (EVar vlmMst1) / #9 - #2 * (- #191 + #30 * EVar vlmMsq + #44 * EVar vlmMst1) * EPow P2 (EVar vlmMst2) / #9
   - #58 * EPow P3 (EVar vlmMst1) / #27 - EVar vDmglst1 * (#2 * (#158 + #60 * EVar vlmMsq * (- #4 + #9 * EVar vlmMst1)
   + EVar vlmMst1 * (#70 - #138 * EVar vlmMst2) + #96 * EVar vlmMst2 - #270 * EPow P2 (EVar vlmMsq) - #459 * EPow P2
   (EVar vlmMst1) - #27 * EPow P2 (EVar vlmMst2)) / (#27 * EVar vMst1) + EVar vMst1 * (#20 * (#7 - #20 * EVar vlmMsq +
   #26 * EVar vlmMst1 - #6 * EVar vlmMst2) / (#9 * EPow P2 (EVar vMsq)) + (#164809 - #864 * EConst CB4 - #432 * EConst
   CDN - #14580 * EVar vlmMsq - #9366 * EVar vlmMst1 + #4860 * EPow P2 (EVar vlmMsq) + #1854 * EPow P2 (EVar vlmMst1)
   + #6 * EVar vlmMst2 * (#23575 - #1620 * EVar vlmMsq - #906 * EVar vlmMst1 + #432 * EPow P2 (EVar vlmMst1)) + #18 *
   (#2167 + #336 * EVar vlmMst1) * EPow P2 (EVar vlmMst2) + #5184 * EVar vlmMt * (#2 + #3 * EVar vlmMst2 - EVar
   vlmMst1 * (#3 + #2 * EVar vlmMst2) + EPow P2 (EVar vlmMst1) + EPow P2 (EVar vlmMst2)) - #7200 * EPow P3 (EVar
   vlmMst1) - #1440 * EPow P3 (EVar vlmMst2)) / (#243 * EPow P2 (EVar vMst2)))) + #394 * EPow P3 (EVar vlmMst2) / #27
   - EPow P2 (EVar vMst2) * (#4 * (#5108 + #15 * EVar vlmMsq * (- #218 + #75 * EVar vlmMst1 - #195 * EVar vlmMst2) +
   #6270 * EVar vlmMst2 - #375 * EVar vlmMst1 * (#8 + #3 * EVar vlmMst2) + #900 * EPow P2 (EVar vlmMsq) + #2025 * EPow
   P2 (EVar vlmMst2)) / EPow P2 (EVar vMsq) + #2700 * (- #1 + #2 * EVar vlmMst2) / EPow P2 (EVar vMst1) + #1125 * EVar
   vDmglst1 * (- #13 + #12 * EVar vlmMsq - #12 * EVar vlmMst2) * EVar vMst1 / EPow P4 (EVar vMsq)) / #4050)) + #9 *
   EVar vMt * (#60 * EVar vs2t * EVar vxMsq * (#1 - #2 * (EVar vlmMsq + EConst Cz2)) * EPow P2 (EVar vMsq) * EPow P2
   (EVar vMst2) * ((- #1 + EVar vshiftst1) * EPow P2 (EVar vMst2) * (- #2 * EVar vMt * EVar vMuSUSY * EVar vs2t - #4 *
   EVar vTbeta * EPow P2 (EVar vMt) + EVar vTbeta * EPow P2 (EVar vMst2) * EPow P2 (EVar vs2t)) + EPow P2 (EVar vMst1)
   * (#2 * EVar vMt * EVar vMuSUSY * EVar vs2t * (#1 + #2 * (EVar vlmMst1 - EVar vlmMst2) * (- #1 + EVar vshiftst1) -
   #2 * EVar vshiftst1 + EVar vshiftst2) + EVar vTbeta * (#4 * (- #1 + EVar vshiftst2) * EPow P2 (EVar vMt) - (EVar
   vshiftst1 - EVar vshiftst2 + (EVar vlmMst1 - EVar vlmMst2) * (- #2 + EVar vshiftst1 + EVar vshiftst2)) * EPow P2
   (EVar vMst2) * EPow P2 (EVar vs2t)))) + #2 * EPow P2 (EVar vMst1) * (- #2 * EVar vMst1 * EVar vMt * EPow P2 (EVar
   vMst2) * (#4 * EVar vMt * EVar vMuSUSY * EVar vs2t * (#241 * EConst Cz4 - #32 * EPow P2 (EConst Cz2)) + #16 * EVar
   vTbeta * EPow P2 (EVar vMt) * (- EConst Cz4 + #2 * EPow P2 (EConst Cz2)) + #3 * EVar vTbeta * EPow P2 (EVar vMst2)
   * EPow P2 (EVar vs2t) * (- #241 * EConst Cz4 + #32 * EPow P2 (EConst Cz2))) + EVar vs2t * (EVar vMt * EVar vMuSUSY
   * EVar vs2t * (#484 * EConst Cz4 - #70 * EPow P2 (EConst Cz2)) + #2 * EVar vTbeta * EPow P2 (EVar vMt) * (#18 *
   EConst Cz4 + #5 * EPow P2 (EConst Cz2)) + EVar vTbeta * EPow P2 (EVar vMst2) * EPow P2 (EVar vs2t) * (- #242 *
   EConst Cz4 + #35 * EPow P2 (EConst Cz2))) * EPow P4 (EVar vMst2) + #2 * EVar vDmglst1 * (- #4 * EVar vMt * EPow P2
   (EVar vMst2) * (EVar vMst1 * EVar vMuSUSY * EPow P2 (EVar vs2t) * (#265 * EConst Cz4 + #4 * EPow P2 (EConst Cz2)) +
   EVar vTbeta * EPow P2 (EVar vMt) * (- #4 * EConst Cz4 + #8 * EPow P2 (EConst Cz2)) + EVar vMt * EVar vs2t * (#241 *
   EVar vMuSUSY * EConst Cz4 + #60 * EVar vMst1 * EVar vTbeta * EConst Cz4 - #32 * EVar vMuSUSY * EPow P2 (EConst
   Cz2))) + #240 * EVar vMst1 * EVar vMuSUSY * EConst Cz4 * EPow P3 (EVar vMt) + EVar vTbeta * EPow P2 (EVar vs2t) *
   (#723 * EVar vMt * EConst Cz4 + #530 * EVar vMst1 * EVar vs2t * EConst Cz4 - #96 * EVar vMt * EPow P2 (EConst Cz2)
   + #8 * EVar vMst1 * EVar vs2t * EPow P2 (EConst Cz2)) * EPow P4 (EVar vMst2)) + #2 * EVar vxDmglst1 * EPow P2 (EVar
   vDmglst1) * (#30 * EVar vMst1 * EVar vMt * EVar vs2t * (#4 * EVar vMt * EVar vMuSUSY - #3 * EVar vs2t * EVar vTbeta
   * EPow P2 (EVar vMst2)) * (#41 * EConst Cz4 + #8 * EPow P2 (EConst Cz2)) - #2 * EVar vMt * EVar vs2t * EPow P2
   (EVar vMst2) * (#265 * EVar vMuSUSY * EVar vs2t * EConst Cz4 + #60 * EVar vMt * EVar vTbeta * EConst Cz4 + #4 *
   EVar vMuSUSY * EVar vs2t * EPow P2 (EConst Cz2)) + #120 * EVar vMuSUSY * EConst Cz4 * EPow P3 (EVar vMt) + EVar
   vTbeta * (#265 * EConst Cz4 + #4 * EPow P2 (EConst Cz2)) * EPow P3 (EVar vs2t) * EPow P4 (EVar vMst2))) + EConst
   Cz3 * (#8 * EPow P2 (EVar vMst1) * EPow P2 (EVar vMst2) * (EVar vs2t * EPow P2 (EVar vMst2) * (#164 * EVar vMt *
   EVar vMuSUSY * EVar vs2t + #43 * EVar vTbeta * EPow P2 (EVar vMt) - #82 * EVar vTbeta * EPow P2 (EVar vMst2) * EPow
   P2 (EVar vs2t)) + EVar vMst1 * EVar vMt * (#4 * (- #133 + #9 * EVar vlmMst1 - #9 * EVar vlmMst2) * EVar vMt * EVar
   vMuSUSY * EVar vs2t + #24 * (- #9 + #2 * EVar vlmMst1 - #2 * EVar vlmMst2) * EVar vTbeta * EPow P2 (EVar vMt) + #3
   * (#133 - #9 * EVar vlmMst1 + #9 * EVar vlmMst2) * EVar vTbeta * EPow P2 (EVar vMst2) * EPow P2 (EVar vs2t))) - #2
   * EVar vDmglst1 * EVar vMst1 * (#4 * EVar vMst1 * EVar vMt * EPow P2 (EVar vMst2) * (#4 * (#58 - #9 * EVar vlmMst1
   + #9 * EVar vlmMst2) * EVar vMt * EVar vMuSUSY * EVar vs2t + #4 * (#37 - #12 * EVar vlmMst1 + #12 * EVar vlmMst2) *
   EVar vTbeta * EPow P2 (EVar vMt) + #3 * (- #58 + #9 * EVar vlmMst1 - #9 * EVar vlmMst2) * EVar vTbeta * EPow P2
   (EVar vMst2) * EPow P2 (EVar vs2t)) + #5 * EVar vs2t * (#78 * EVar vMt * EVar vMuSUSY * EVar vs2t + #88 * EVar
   vTbeta * EPow P2 (EVar vMt) - #39 * EVar vTbeta * EPow P2 (EVar vMst2) * EPow P2 (EVar vs2t)) * EPow P4 (EVar
   vMst2) + #3 * EPow P2 (EVar vMst1) * (- #16 * (#53 + #4 * EVar vlmMst1 - #4 * EVar vlmMst2) * EVar vs2t * EVar
   vTbeta * EPow P2 (EVar vMst2) * EPow P2 (EVar vMt) - #8 * (#35 + #46 * EVar vlmMst1 - #46 * EVar vlmMst2) * EVar
   vMt * EVar vMuSUSY * EPow P2 (EVar vMst2) * EPow P2 (EVar vs2t) + #32 * (#13 + #2 * EVar vlmMst1 - #2 * EVar
   vlmMst2) * EVar vMuSUSY * EPow P3 (EVar vMt) + (#205 + #184 * EVar vlmMst1 - #184 * EVar vlmMst2) * EVar vTbeta *
   EPow P3 (EVar vs2t) * EPow P4 (EVar vMst2))) - EVar vxDmglst1 * EPow P2 (EVar vDmglst1) * (EVar vMt * (#4 * EVar
   vMst1 * EPow P2 (EVar vMst2) * (- #2700 * EVar vMt * EVar vMuSUSY * EVar vs2t - #3686 * EVar vTbeta * EPow P2 (EVar
   vMt) + #2025 * EVar vTbeta * EPow P2 (EVar vMst2) * EPow P2 (EVar vs2t)) - #8 * (#54 * (#51 - #52 * EVar vlmMst1 +
   #52 * EVar vlmMst2) * EVar vMt * EVar vMuSUSY * EVar vs2t + #3595 * EVar vTbeta * EPow P2 (EVar vMt) + #1053 * (-
   #1 + #2 * EVar vlmMst1 - #2 * EVar vlmMst2) * EVar vTbeta * EPow P2 (EVar vMst2) * EPow P2 (EVar vs2t)) * EPow P3
   (EVar vMst1)) + #3 * EVar vs2t * (#762 * EVar vMt * EVar vMuSUSY * EVar vs2t + #2026 * EVar vTbeta * EPow P2 (EVar
   vMt) - #381 * EVar vTbeta * EPow P2 (EVar vMst2) * EPow P2 (EVar vs2t)) * EPow P4 (EVar vMst2) + EPow P2 (EVar
   vMst1) * (- #16 * (#1255 + #12 * EVar vlmMst1 - #12 * EVar vlmMst2) * EVar vs2t * EVar vTbeta * EPow P2 (EVar
   vMst2) * EPow P2 (EVar vMt) - #48 * (#14 + #23 * EVar vlmMst1 - #23 * EVar vlmMst2) * EVar vMt * EVar vMuSUSY *
   EPow P2 (EVar vMst2) * EPow P2 (EVar vs2t) + #64 * (#181 + #3 * EVar vlmMst1 - #3 * EVar vlmMst2) * EVar vMuSUSY *
   EPow P3 (EVar vMt) + #3 * (#493 + #184 * EVar vlmMst1 - #184 * EVar vlmMst2) * EVar vTbeta * EPow P3 (EVar vs2t) *
   EPow P4 (EVar vMst2))))) / (EVar vTbeta * EPow P2 (EVar vMst1) * EPow P4 (EVar vMst2)) + #2 * (EVar vMuSUSY * EPow
   P2 (EVar vMt) * (EPow P2 (EVar vs2t) * (#270905 + #12960 * EConst CB4 - #66600 * EVar vlmMsq + #960 * EConst COepS2
   + #3240 * (#33 - #6 * EVar vlmMst1 + #6 * EVar vlmMst2) * EConst CS2 - #1440 * (EConst CDN + EConst CT1ep) + #27000
   * EPow P2 (EVar vlmMsq) - #30 * EVar vlmMst1 * (#3781 - #300 * EVar vlmMsq + #180 * EPow P2 (EVar vlmMsq)) + #30 *
   EVar vlmMst2 * (#14065 - #3498 * EVar vlmMst1 + #60 * EVar vlmMsq * (- #35 + #12 * EVar vlmMst1) + #180 * EPow P2
   (EVar vlmMsq) - #18 * EPow P2 (EVar vlmMst1)) + #90 * (#229 - #60 * EVar vlmMsq) * EPow P2 (EVar vlmMst1) - #90 *
   (- #2193 + #180 * EVar vlmMsq + #442 * EVar vlmMst1) * EPow P2 (EVar vlmMst2) + #1080 * (- #1 + #2 * EVar vlmMst2)
   * EVar vshiftst3 * ((#2 - #2 * EVar vlmMst1 + #2 * EVar vlmMst2) * EPow P2 (EVar vMst1) + EPow P2 (EVar vMst2)) /
   EPow P2 (EVar vMst1) + #1980 * EPow P3 (EVar vlmMst1) + #38340 * EPow P3 (EVar vlmMst2) + #60 * EVar vDmglst1 * (#3
   * (#7 - #60 * EVar vlmMsq * (- #5 + #6 * EVar vlmMst1) - #226 * EVar vlmMst2 + EVar vlmMst1 * (- #2 + #220 * EVar
   vlmMst2) + #180 * EPow P2 (EVar vlmMsq) + #178 * EPow P2 (EVar vlmMst1) + #18 * EPow P2 (EVar vlmMst2)) + EPow P2
   (EVar vMst1) * (#20 * (#82 - #93 * EVar vlmMst1 + #6 * EVar vlmMsq * (#4 + #3 * EVar vlmMst1 - #3 * EVar vlmMst2) +
   #69 * EVar vlmMst2 - #9 * EPow P2 (EVar vlmMst1) + #9 * EPow P2 (EVar vlmMst2)) / EPow P2 (EVar vMsq) + #4 * (#586
   + #36 * EConst CB4 + #30 * EConst CDN - #495 * EVar vlmMsq + #135 * EPow P2 (EVar vlmMsq) - #6 * EVar vlmMst1 * (-
   #73 - #45 * EVar vlmMsq + #45 * EPow P2 (EVar vlmMsq)) + #3 * EVar vlmMst2 * (#229 - #180 * EVar vlmMsq + #86 *
   EVar vlmMst1 + #90 * EPow P2 (EVar vlmMsq) - #79 * EPow P2 (EVar vlmMst1)) + #18 * (- #43 + #15 * EVar vlmMsq) *
   EPow P2 (EVar vlmMst1) - #3 * (- #372 + #90 * EVar vlmMsq + #49 * EVar vlmMst1) * EPow P2 (EVar vlmMst2) - #65 *
   EPow P3 (EVar vlmMst1) + #449 * EPow P3 (EVar vlmMst2)) / EPow P2 (EVar vMst2))) / EVar vMst1 - #12 * EPow P2 (EVar
   vMst2) * (#2 * (#939 + #30 * EVar vlmMsq * (- #12 + #5 * EVar vlmMst1 - #5 * EVar vlmMst2) + #760 * EVar vlmMst2 -
   #50 * EVar vlmMst1 * (#8 + #3 * EVar vlmMst2) + #150 * EPow P2 (EVar vlmMst2)) / EPow P2 (EVar vMsq) + #90 * (- #1
   + #2 * EVar vlmMst2) / EPow P2 (EVar vMst1) + #225 * EVar vDmglst1 * EVar vMst1 / EPow P4 (EVar vMsq))) / #20 +
   EVar vMt * (#720 * EVar vDmglst1 * EVar vs2t / EPow P2 (EVar vMsq) + #720 * EVar vMst1 * EVar vs2t / EPow P2 (EVar
   vMsq) + #6 * EVar vs2t * (EVar vDmglst1 * (#11337 - #408 * EConst CB4 - #12 * EConst CDN - #6480 * EVar vlmMsq +
   #720 * EPow P2 (EVar vlmMsq) - #30 * EVar vlmMst1 * (- #73 - #36 * EVar vlmMsq + #12 * EPow P2 (EVar vlmMsq)) + #6
   * EVar vlmMst2 * (#2331 - #420 * EVar vlmMsq - #118 * EVar vlmMst1 + #60 * EPow P2 (EVar vlmMsq) - #60 * EPow P2
   (EVar vlmMst1)) + #18 * (- #13 + #20 * EVar vlmMsq) * EPow P2 (EVar vlmMst1) - #6 * (- #797 + #60 * EVar vlmMsq +
   #4 * EVar vlmMst1) * EPow P2 (EVar vlmMst2) - #200 * EPow P3 (EVar vlmMst1) + #584 * EPow P3 (EVar vlmMst2)) + EVar
   vMst1 * (#13317 - #408 * EConst CB4 - #12 * EConst CDN - #4320 * EVar vlmMsq + #720 * EPow P2 (EVar vlmMsq) - #6 *
   EVar vlmMst1 * (#79 - #180 * EVar vlmMsq + #60 * EPow P2 (EVar vlmMsq)) + #6 * EVar vlmMst2 * (#2135 - #420 * EVar
   vlmMsq - #118 * EVar vlmMst1 + #60 * EPow P2 (EVar vlmMsq) - #60 * EPow P2 (EVar vlmMst1)) + #6 * (- #167 + #60 *
   EVar vlmMsq) * EPow P2 (EVar vlmMst1) - #6 * (- #797 + #60 * EVar vlmMsq + #4 * EVar vlmMst1) * EPow P2 (EVar
   vlmMst2) - #200 * EPow P3 (EVar vlmMst1) + #584 * EPow P3 (EVar vlmMst2))) / EPow P2 (EVar vMst2) + #5 * (- #11 +
   #12 * EVar vlmMsq - #12 * EVar vlmMst2) * (EVar vDmglst1 + EVar vMst1) * EVar vs2t * EPow P2 (EVar vMst2) / EPow P4
   (EVar vMsq) + #96 * EVar vDmglst1 * EVar vMst1 * EVar vMt * (#735 - #6 * EConst CB4 - #3 * EConst CDN - #78 * EVar
   vlmMst1 + #6 * EPow P2 (EVar vlmMst1) + #6 * EVar vlmMst2 * (#85 - #6 * EVar vlmMst1 + EPow P2 (EVar vlmMst1)) +
   #18 * (#7 + EVar vlmMst1) * EPow P2 (EVar vlmMst2) + #24 * EVar vlmMt * (#2 + #3 * EVar vlmMst2 - EVar vlmMst1 *
   (#3 + #2 * EVar vlmMst2) + EPow P2 (EVar vlmMst1) + EPow P2 (EVar vlmMst2)) - #26 * EPow P3 (EVar vlmMst1) + #2 *
   EPow P3 (EVar vlmMst2)) / EPow P4 (EVar vMst2))) / EVar vTbeta + (#80 * EVar vDmglst1 * (#17 + #3 * EVar vlmMst2 *
   (#1 - #6 * EVar vlmMt) - #33 * EVar vlmMt + #6 * EVar vlmMsq * (#5 + #3 * (EVar vlmMst2 + EVar vlmMt)) - #18 * EPow
   P2 (EVar vlmMsq)) * EPow P2 (EVar vMsq) * EPow P2 (EVar vMst2) + #80 * EVar vMst1 * (#17 + #3 * EVar vlmMst2 * (#1
   - #6 * EVar vlmMt) - #33 * EVar vlmMt + #6 * EVar vlmMsq * (#5 + #3 * (EVar vlmMst2 + EVar vlmMt)) - #18 * EPow P2
   (EVar vlmMsq)) * EPow P2 (EVar vMsq) * EPow P2 (EVar vMst2) - #8 * EVar vDmglst1 * (#1846 - #1057 * EVar vlmMst2 +
   #30 * EVar vlmMsq * (#151 + #51 * EVar vlmMt + #9 * EVar vlmMst2 * (#3 + #2 * EVar vlmMt) - #6 * EVar vlmMst1 *
   (#13 + #3 * EVar vlmMt)) + #270 * (EVar vlmMst1 - EVar vlmMst2) * EPow P2 (EVar vlmMsq) + #6 * (#352 + #15 * EVar
   vlmMst2 + #42 * EVar vlmMt) * EPow P2 (EVar vlmMst1) - #306 * EPow P2 (EVar vlmMst2) - #3 * EVar vlmMt * (#1105 +
   #608 * EVar vlmMst2 + #108 * EPow P2 (EVar vlmMst2)) - #432 * (#2 + EVar vlmMst2) * EPow P2 (EVar vlmMt) + #2 *
   EVar vlmMst1 * (- #2534 - #192 * EVar vlmMt + #3 * EVar vlmMst2 * (#67 + #12 * EVar vlmMt) + #9 * EPow P2 (EVar
   vlmMst2) + #216 * EPow P2 (EVar vlmMt)) - #66 * EPow P3 (EVar vlmMst1) - #42 * EPow P3 (EVar vlmMst2)) * EPow P4
   (EVar vMsq) + #24 * EVar vMst1 * (#212 + #225 * EVar vlmMst2 - #90 * EVar vlmMsq * (#7 + #3 * EVar vlmMt + EVar
   vlmMst2 * (#3 - EVar vlmMsq + #2 * EVar vlmMt) + EVar vlmMst1 * (EVar vlmMsq - #2 * (#3 + EVar vlmMt))) - #6 * (#67
   + #5 * EVar vlmMst2 + #14 * EVar vlmMt) * EPow P2 (EVar vlmMst1) + #102 * EPow P2 (EVar vlmMst2) + #3 * EVar vlmMt
   * (#265 + #202 * EVar vlmMst2 + #36 * EPow P2 (EVar vlmMst2)) + #144 * (#1 + EVar vlmMst2) * EPow P2 (EVar vlmMt) -
   #6 * EVar vlmMst1 * (- #54 + #37 * EVar vlmMt + EVar vlmMst2 * (#22 + #4 * EVar vlmMt) + EPow P2 (EVar vlmMst2) +
   #24 * EPow P2 (EVar vlmMt)) + #22 * EPow P3 (EVar vlmMst1) + #14 * EPow P3 (EVar vlmMst2)) * EPow P4 (EVar vMsq) +
   #5 * EVar vDmglst1 * (#299 - #60 * EVar vlmMsq + #6 * EVar vlmMst2 * (#23 - #12 * EVar vlmMt) - #78 * EVar vlmMt +
   #72 * EVar vlmMsq * (EVar vlmMst2 + EVar vlmMt) - #72 * EPow P2 (EVar vlmMsq)) * EPow P4 (EVar vMst2) + #5 * EVar
   vMst1 * (#299 - #60 * EVar vlmMsq + #6 * EVar vlmMst2 * (#23 - #12 * EVar vlmMt) - #78 * EVar vlmMt + #72 * EVar
   vlmMsq * (EVar vlmMst2 + EVar vlmMt) - #72 * EPow P2 (EVar vlmMsq)) * EPow P4 (EVar vMst2)) * EPow P4 (EVar vMt) /
   (EPow P2 (EVar vMst2) * EPow P4 (EVar vMsq))) + #324 * EConst Cz2 * (EVar vs2t * (EVar vMt * EPow P2 (EVar vMst2) *
   (#24 * EVar vshiftst3 * EPow P2 (EVar vMt) / EPow P2 (EVar vMst1) + (#333 - #30 * EVar vlmMsq - #37 * EVar vlmMst1
   + #149 * EVar vlmMst2 - #198 * EVar vDmglst1 / EVar vMst1 + #6 * EVar vshiftst3 + #6 * EVar vlmMst1 * EVar
   vshiftst3 - #6 * EVar vlmMst2 * EVar vshiftst3 - #60 * EVar vDmglst1 * EVar vMst1 / EPow P2 (EVar vMsq)) * EPow P2
   (EVar vs2t)) / #18 + (EDec 32611111111111114 15 + #4 * EVar vlmMst2 / #3 + #44 * EVar vDmglst1 / EVar vMst1 - #4 *
   EVar vDmglst1 * (#2777 + #120 * EVar vlmMst1 + #456 * EVar vlmMst2) * EVar vMst1 / (#27 * EPow P2 (EVar vMst2)) -
   #4 * (EVar vlmMst1 + EPow P2 (EVar vMst2) / EPow P2 (EVar vMst1)) / #3) * EPow P3 (EVar vMt)) + EVar vDmglst1 * (-
   #681 + #180 * EVar vlmMsq + #278 * EVar vlmMst1 - #630 * EVar vlmMst2) * EVar vMst1 * EVar vMt * EPow P3 (EVar
   vs2t) / #9 + EVar vMuSUSY * EPow P2 (EVar vMt) * (- ((#339 - #30 * EVar vlmMsq - #37 * EVar vlmMst1 + #149 * EVar
   vlmMst2 - #198 * EVar vDmglst1 / EVar vMst1 + #12 * EVar vlmMst1 * EVar vshiftst3 - #12 * (#1 + EVar vlmMst2) *
   EVar vshiftst3 + EVar vDmglst1 * EVar vMst1 * (- #60 / EPow P2 (EVar vMsq) + #4 * (- #390 + #90 * EVar vlmMsq +
   #139 * EVar vlmMst1 - #315 * EVar vlmMst2) / EPow P2 (EVar vMst2)) + #6 * EPow P2 (EVar vMst2) / EPow P2 (EVar
   vMst1) - #6 * EVar vshiftst3 * EPow P2 (EVar vMst2) / EPow P2 (EVar vMst1)) * EPow P2 (EVar vs2t)) + #4 * EVar vMt
   * (#8 * EVar vDmglst1 * (#55 + #16 * EVar vlmMst2) * EVar vMst1 * EVar vMt + EVar vDmglst1 * (#627 - #60 * EVar
   vlmMsq - #64 * EVar vlmMst1 + #192 * EVar vlmMst2) * EVar vs2t * EPow P2 (EVar vMst2) + (#627 - #60 * EVar vlmMsq -
   #64 * EVar vlmMst1 + #192 * EVar vlmMst2) * EVar vMst1 * EVar vs2t * EPow P2 (EVar vMst2)) / EPow P4 (EVar vMst2))
   / (#9 * EVar vTbeta) + (EVar vDmglst1 + EVar vMst1) * ((- #627 + #60 * EVar vlmMsq + #64 * EVar vlmMst1 - #192 *
   EVar vlmMst2) * EPow P2 (EVar vMt) * EPow P2 (EVar vs2t) / #3 + #8 * (- #60 * EPow P2 (EVar vMsq) * EPow P2 (EVar
   vMst2) + (#8 - #96 * EVar vlmMst1 + #54 * EVar vlmMst2 + #42 * EVar vlmMt) * EPow P4 (EVar vMsq) - #15 * EPow P4
   (EVar vMst2)) * EPow P4 (EVar vMt) / (#27 * EPow P2 (EVar vMst2) * EPow P4 (EVar vMsq))))) + EVar vMt * (#243 *
   EVar voneLoopFlag * EVar vs2t * (#2 * (#2 - EVar vlmMst1 + EVar vlmMst2) * EVar vMt * EVar vMuSUSY * EVar vs2t + #4
   * (- EVar vlmMst1 + EVar vlmMst2) * EVar vTbeta * EPow P2 (EVar vMt) + (- #2 + EVar vlmMst1 - EVar vlmMst2) * EVar
   vTbeta * EPow P2 (EVar vMst2) * EPow P2 (EVar vs2t)) / EVar vTbeta + EVar vAl4p * (#1296 * EVar vtwoLoopFlag * (-
   #2 * EVar vs2t * (#2 * EVar vlmMst1 * (#1 + EVar vlmMst2) - EVar vlmMst2 * (#4 + #3 * EVar vlmMst2) + EVar vDmglst1
   * (#2 - #4 * EVar vlmMst1) / EVar vMst1 + EPow P2 (EVar vlmMst1) + #4 * EVar vDmglst1 * (#1 + EVar vlmMst2) * EVar
   vMst1 / EPow P2 (EVar vMst2)) * EPow P2 (EVar vMt) + (#3 * EVar vDmglst1 * EVar vMt * (- #12 + #2 * EVar vlmMst1 -
   #6 * EVar vlmMst2 + EPow P2 (EVar vlmMst1) - EPow P2 (EVar vlmMst2)) + #3 * EVar vMst1 * EVar vMt * (- #8 + #2 *
   EVar vlmMst1 - #6 * EVar vlmMst2 + EPow P2 (EVar vlmMst1) - EPow P2 (EVar vlmMst2)) + #2 * EVar vDmglst1 * EVar
   vMst1 * EVar vs2t * (- #1 + EVar vlmMst1 - EVar vlmMst2 + EPow P2 (EVar vlmMst1) - EPow P2 (EVar vlmMst2))) * EPow
   P2 (EVar vs2t) + (#2 * EVar vMt * EVar vMuSUSY * EVar vs2t * (#2 * EVar vDmglst1 * EVar vMst1 * EVar vMt * (#12 -
   #2 * EVar vlmMst1 + #6 * EVar vlmMst2 - EPow P2 (EVar vlmMst1) + EPow P2 (EVar vlmMst2)) + #2 * EVar vMt * (#8 - #2
   * EVar vlmMst1 + #6 * EVar vlmMst2 - EPow P2 (EVar vlmMst1) + EPow P2 (EVar vlmMst2)) * EPow P2 (EVar vMst1) + EVar
   vMst1 * EVar vs2t * ((#7 - #2 * EVar vlmMst1) * (#1 + EVar vlmMst2) + #2 * EPow P2 (EVar vlmMst2)) * EPow P2 (EVar
   vMst2) - #2 * EVar vDmglst1 * EVar vs2t * ((- (EVar vlmMst2 * (#1 + EVar vlmMst2)) + EPow P2 (EVar vlmMst1)) * EPow
   P2 (EVar vMst1) - (- #1 + EVar vlmMst1) * EPow P2 (EVar vMst2))) / (EVar vMst1 * EVar vTbeta) + #8 * (EVar vDmglst1
   * (#5 + EVar vlmMst2 + (#2 + EVar vlmMst2) * EVar vlmMt - EVar vlmMst1 * (#3 + EVar vlmMt)) + (#2 + EVar vlmMst2 +
   EVar vlmMt + EVar vlmMst2 * EVar vlmMt - EVar vlmMst1 * (#2 + EVar vlmMt)) * EVar vMst1) * EPow P3 (EVar vMt)) /
   EPow P2 (EVar vMst2) + (- #2 * EVar vDmglst1 * (- #1 + EVar vlmMst1) - EVar vMst1 * ((#7 - #2 * EVar vlmMst1) * (#1
   + EVar vlmMst2) + #2 * EPow P2 (EVar vlmMst2))) * EPow P2 (EVar vMst2) * EPow P3 (EVar vs2t) / EVar vMst1) - #72 *
   EConst Cz2 * (#18 * EVar vs2t * EVar vtwoLoopFlag * (#6 * (EVar vDmglst1 + EVar vMst1) * EVar vMt * EVar vs2t + #2
   * EVar vMt * EVar vMuSUSY * EVar vs2t / EVar vTbeta - #8 * EVar vMt * EVar vMuSUSY * (EVar vMst1 * EVar vMt + EVar
   vDmglst1 * (EVar vMt + EVar vMst1 * EVar vs2t)) / (EVar vTbeta * EPow P2 (EVar vMst2)) + (#4 * EVar vDmglst1 * EVar
   vMst1 - EPow P2 (EVar vMst2)) * EPow P2 (EVar vs2t)) + EVar vxDmglst1 * EPow P2 (EVar vDmglst1) * (#36 * EVar
   vtwoLoopFlag * (EPow P2 (EVar vMst2) * (- #2 * EVar vMt * EVar vMuSUSY + EVar vs2t * EVar vTbeta * EPow P2 (EVar
   vMst2)) * EPow P2 (EVar vs2t) + #6 * EVar vMst1 * EVar vMt * (#4 * EVar vMt * EVar vMuSUSY * EVar vs2t + #4 * EVar
   vTbeta * EPow P2 (EVar vMt) - #3 * EVar vTbeta * EPow P2 (EVar vMst2) * EPow P2 (EVar vs2t))) / (EVar vTbeta * EPow
   P4 (EVar vMst2)) + EVar vAl4p * EVar vthreeLoopFlag * (#1440 * EVar vMst1 * EPow P3 (EVar vMt) / EPow P4 (EVar
   vMsq) + (#6 * EVar vMt * EPow P2 (EVar vMst2) * (#2 * (- #390 + #90 * EVar vlmMsq + #139 * EVar vlmMst1 - #315 *
   EVar vlmMst2) * EVar vMuSUSY + #6 * (- #1187 + #360 * EVar vlmMsq + #171 * EVar vlmMst1 - #747 * EVar vlmMst2) *
   EVar vMst1 * EVar vTbeta - #30 * (EVar vMuSUSY + #12 * EVar vMst1 * EVar vTbeta) * EPow P2 (EVar vMst2) / EPow P2
   (EVar vMsq) - #99 * EVar vMuSUSY * EPow P2 (EVar vMst2) / EPow P2 (EVar vMst1)) * EPow P2 (EVar vs2t) - #48 * (#2 *
   (#55 + #16 * EVar vlmMst2) * EVar vMuSUSY + (- #1391 + #360 * EVar vlmMsq + #66 * EVar vlmMst1 - #813 * EVar
   vlmMst2 - #21 * EVar vlmMt) * EVar vMst1 * EVar vTbeta) * EPow P3 (EVar vMt) + #3 * EVar vTbeta * (#681 - #180 *
   EVar vlmMsq - #278 * EVar vlmMst1 + #630 * EVar vlmMst2 + #30 * EPow P2 (EVar vMst2) / EPow P2 (EVar vMsq) + #99 *
   EPow P2 (EVar vMst2) / EPow P2 (EVar vMst1)) * EPow P3 (EVar vs2t) * EPow P4 (EVar vMst2) + #4 * EVar vs2t * EPow
   P2 (EVar vMt) * ((#2777 + #120 * EVar vlmMst1 + #456 * EVar vlmMst2) * EVar vTbeta * EPow P2 (EVar vMst1) * EPow P2
   (EVar vMst2) + #12 * EVar vMuSUSY * (#1187 - #360 * EVar vlmMsq - #171 * EVar vlmMst1 + #747 * EVar vlmMst2 + #60 *
   EPow P2 (EVar vMst2) / EPow P2 (EVar vMsq)) * EPow P3 (EVar vMst1) - #297 * EVar vTbeta * EPow P4 (EVar vMst2)) /
   EPow P2 (EVar vMst1)) / (EVar vTbeta * EPow P4 (EVar vMst2))))) + #2 * EVar vxDmglst1 * EPow P2 (EVar vDmglst1) *
   (EVar vAl4p * EVar vthreeLoopFlag * (#9 * (#5355 - #144 * EConst CB4 - #120 * EConst CDN + #9960 * EVar vlmMsq + #2
   * EVar vlmMst1 * (- #4841 - #1080 * EVar vlmMsq + #540 * EPow P2 (EVar vlmMsq)) - #6 * EVar vlmMst2 * (#925 - #360
   * EVar vlmMsq + #62 * EVar vlmMst1 + #180 * EPow P2 (EVar vlmMsq) - #158 * EPow P2 (EVar vlmMst1)) - #6 * (- #221 +
   #180 * EVar vlmMsq) * EPow P2 (EVar vlmMst1) + #6 * (- #735 + #180 * EVar vlmMsq + #98 * EVar vlmMst1) * EPow P2
   (EVar vlmMst2) + (- #20 * (#160 - #213 * EVar vlmMst1 + #18 * EVar vlmMsq * (#8 + EVar vlmMst1 - EVar vlmMst2) +
   #69 * EVar vlmMst2 - #9 * EPow P2 (EVar vlmMst1) + #9 * EPow P2 (EVar vlmMst2)) / EPow P2 (EVar vMsq) + (- #6415 +
   #970 * EVar vlmMst1 + #60 * EVar vlmMsq * (- #37 + #18 * EVar vlmMst1) + #1314 * EVar vlmMst2 - #660 * EVar vlmMst1
   * EVar vlmMst2 - #540 * EPow P2 (EVar vlmMsq) + #234 * EPow P2 (EVar vlmMst1) - #54 * EPow P2 (EVar vlmMst2)) /
   EPow P2 (EVar vMst1)) * EPow P2 (EVar vMst2) + #260 * EPow P3 (EVar vlmMst1) - #1796 * EPow P3 (EVar vlmMst2)) *
   EPow P3 (EVar vs2t) + EPow P2 (EVar vMt) * (- #720 * (#4 * (#245 + #6 * EVar vlmMst1 * (- #25 + #6 * EVar vlmMsq -
   #6 * EVar vlmMt) + #84 * EVar vlmMt + EVar vlmMst2 * (#66 - #36 * EVar vlmMsq + #36 * EVar vlmMt)) * EVar vMst1 *
   EVar vMt - #3 * (#5 + #60 * EVar vlmMsq - #66 * EVar vlmMst1 + #6 * EVar vlmMst2) * EVar vs2t * EPow P2 (EVar
   vMst2)) / (EPow P2 (EVar vMsq) * EPow P2 (EVar vMst2)) + #2 * EVar vs2t * (#36 * (#4717 - #540 * EVar vlmMsq * (-
   #2 + EVar vlmMst1) - #252 * EVar vlmMst2 + #2 * EVar vlmMst1 * (- #661 + #69 * EVar vlmMst2) + #270 * EPow P2 (EVar
   vlmMsq) + #75 * EPow P2 (EVar vlmMst1) + #27 * EPow P2 (EVar vlmMst2)) / EPow P2 (EVar vMst1) - #2 * (#416017 -
   #864 * EConst CB4 - #432 * EConst CDN - #14580 * EVar vlmMsq + #45858 * EVar vlmMst1 + #4860 * EPow P2 (EVar
   vlmMsq) + #7902 * EPow P2 (EVar vlmMst1) + #6 * EVar vlmMst2 * (#21571 - #1620 * EVar vlmMsq - #618 * EVar vlmMst1
   + #432 * EPow P2 (EVar vlmMst1)) + #18 * (#1735 + #336 * EVar vlmMst1) * EPow P2 (EVar vlmMst2) + #1728 * EVar
   vlmMt * (#17 * (#1 + EVar vlmMst2) - EVar vlmMst1 * (#17 + #6 * EVar vlmMst2) + #3 * (EPow P2 (EVar vlmMst1) + EPow
   P2 (EVar vlmMst2))) - #7200 * EPow P3 (EVar vlmMst1) - #1440 * EPow P3 (EVar vlmMst2)) / EPow P2 (EVar vMst2) +
   #135 * (#13 - #12 * EVar vlmMsq + #12 * EVar vlmMst2) * EPow P2 (EVar vMst2) / EPow P4 (EVar vMsq))) + EVar vMt *
   (#1944 * EPow P2 (EVar vs2t) * ((#5875 + #1020 * EVar vlmMsq - #478 * EVar vlmMst1 - #610 * EVar vlmMst2 - #576 *
   EPow P2 (EVar vlmMst1)) / (#18 * EVar vMst1) + EVar vMst1 * (#10 * (#311 - #66 * EVar vlmMst1 + #36 * EVar vlmMsq *
   (- #2 + EVar vlmMst1 - EVar vlmMst2) + #138 * EVar vlmMst2 - #18 * EPow P2 (EVar vlmMst1) + #18 * EPow P2 (EVar
   vlmMst2)) / (#9 * EPow P2 (EVar vMsq)) + (EDec 3546111111111111 13 + #76 * EConst CB4 - #2 * EConst CDN - #460 *
   EVar vlmMsq + (- EDec 14077777777777777 14 + #400 * EVar vlmMsq) * EVar vlmMst1 + EVar vlmMst2 * (EDec
   8021111111111111 13 - #374 * EVar vlmMst1 / #3 + #80 * EVar vlmMsq * (- #5 + #3 * EVar vlmMst1) - #131 * EPow P2
   (EVar vlmMst1)) - (#901 + #360 * EVar vlmMsq) * EPow P2 (EVar vlmMst1) / #3 + (#393 - #120 * EVar vlmMsq - #125 *
   EVar vlmMst1) * EPow P2 (EVar vlmMst2) + #451 * EPow P3 (EVar vlmMst1) / #3 + #317 * EPow P3 (EVar vlmMst2) / #3) /
   EPow P2 (EVar vMst2) - #5 * EPow P2 (EVar vMst2) / EPow P4 (EVar vMsq))) + #6 * EVar vMuSUSY * (#3 * EPow P2 (EVar
   vs2t) * ((#6415 - #60 * EVar vlmMsq * (- #37 + #18 * EVar vlmMst1) - #1314 * EVar vlmMst2 + #10 * EVar vlmMst1 * (-
   #97 + #66 * EVar vlmMst2) + #540 * EPow P2 (EVar vlmMsq) - #234 * EPow P2 (EVar vlmMst1) + #54 * EPow P2 (EVar
   vlmMst2)) / EPow P2 (EVar vMst1) + #4 * (#265 + #36 * EConst CB4 + #30 * EConst CDN - #1935 * EVar vlmMsq + #18 *
   EVar vlmMst1 * (#121 + #15 * EVar vlmMsq - #15 * EPow P2 (EVar vlmMsq)) + #135 * EPow P2 (EVar vlmMsq) + #3 * EVar
   vlmMst2 * (#353 - #180 * EVar vlmMsq + #86 * EVar vlmMst1 + #90 * EPow P2 (EVar vlmMsq) - #79 * EPow P2 (EVar
   vlmMst1)) + #30 * (- #13 + #9 * EVar vlmMsq) * EPow P2 (EVar vlmMst1) - #3 * (- #372 + #90 * EVar vlmMsq + #49 *
   EVar vlmMst1) * EPow P2 (EVar vlmMst2) - #65 * EPow P3 (EVar vlmMst1) + #449 * EPow P3 (EVar vlmMst2)) / EPow P2
   (EVar vMst2) - #45 * EPow P2 (EVar vMst2) / EPow P4 (EVar vMsq)) + #12 * EVar vs2t * (#5 * EVar vs2t * (#160 - #213
   * EVar vlmMst1 + #18 * EVar vlmMsq * (#8 + EVar vlmMst1 - EVar vlmMst2) + #69 * EVar vlmMst2 - #9 * EPow P2 (EVar
   vlmMst1) + #9 * EPow P2 (EVar vlmMst2)) / EPow P2 (EVar vMsq) - #2 * EVar vMt * (#5875 + #1020 * EVar vlmMsq - #478
   * EVar vlmMst1 - #610 * EVar vlmMst2 - #576 * EPow P2 (EVar vlmMst1)) / (EVar vMst1 * EPow P2 (EVar vMst2)) - #40 *
   EVar vMst1 * EVar vMt * (#311 - #66 * EVar vlmMst1 + #36 * EVar vlmMsq * (- #2 + EVar vlmMst1 - EVar vlmMst2) +
   #138 * EVar vlmMst2 - #18 * EPow P2 (EVar vlmMst1) + #18 * EPow P2 (EVar vlmMst2)) / (EPow P2 (EVar vMsq) * EPow P2
   (EVar vMst2)) + #2 * EVar vMst1 * EVar vMt * (#90 / EPow P4 (EVar vMsq) - #2 * (#6129 + #684 * EConst CB4 - #18 *
   EConst CDN - #3630 * EVar vlmMsq + #6 * (- #251 + #600 * EVar vlmMsq) * EVar vlmMst1 + EVar vlmMst2 * (#6914 -
   #1122 * EVar vlmMst1 + #720 * EVar vlmMsq * (- #5 + #3 * EVar vlmMst1) - #1179 * EPow P2 (EVar vlmMst1)) - #3 *
   (#997 + #360 * EVar vlmMsq) * EPow P2 (EVar vlmMst1) - #9 * (- #393 + #120 * EVar vlmMsq + #125 * EVar vlmMst1) *
   EPow P2 (EVar vlmMst2) + #1353 * EPow P3 (EVar vlmMst1) + #951 * EPow P3 (EVar vlmMst2)) / EPow P4 (EVar vMst2))) +
   #32 * EPow P2 (EVar vMt) * (#5483 - #18 * EConst CB4 - #9 * EConst CDN + #418 * EVar vlmMst1 + #102 * EPow P2 (EVar
   vlmMst1) + #2 * EVar vlmMst2 * (#739 - #42 * EVar vlmMst1 + #9 * EPow P2 (EVar vlmMst1)) + #54 * (#5 + EVar
   vlmMst1) * EPow P2 (EVar vlmMst2) + #24 * EVar vlmMt * (#17 + #17 * EVar vlmMst2 - EVar vlmMst1 * (#17 + #6 * EVar
   vlmMst2) + #3 * EPow P2 (EVar vlmMst1) + #3 * EPow P2 (EVar vlmMst2)) - #78 * EPow P3 (EVar vlmMst1) + #6 * EPow P3
   (EVar vlmMst2)) / EPow P4 (EVar vMst2)) / EVar vTbeta) + #24 * EPow P3 (EVar vMt) * (#15 * (#185 + EVar vlmMst2 *
   (#66 - #72 * EVar vlmMt) - #78 * EVar vlmMt + #12 * EVar vlmMsq * (#1 + #6 * (EVar vlmMst2 + EVar vlmMt)) - #72 *
   EPow P2 (EVar vlmMsq)) * EPow P2 (EVar vMst1) / EPow P4 (EVar vMsq) - #2 * ((#30251 - #804 * EVar vlmMst2 + #2 *
   EVar vlmMst1 * (- #5032 + #27 * EVar vlmMst2 - #789 * EVar vlmMt) + (#852 - #54 * EVar vlmMst2) * EVar vlmMt + #180
   * EVar vlmMsq * (#31 - #6 * EVar vlmMst1 + #6 * EVar vlmMt) + #570 * EPow P2 (EVar vlmMst1) - #720 * EPow P2 (EVar
   vlmMt)) * EPow P2 (EVar vMst2) + EPow P2 (EVar vMst1) * (#32085 + #23606 * EVar vlmMst2 + (#3606 - #3402 * EVar
   vlmMst2 + #7506 * EVar vlmMt) * EPow P2 (EVar vlmMst1) + #180 * EVar vlmMsq * (#31 + #6 * EVar vlmMst1 * (- #1 + #6
   * EVar vlmMst2 - #6 * EVar vlmMt) + #84 * EVar vlmMt + #6 * EVar vlmMst2 * (- #13 + #6 * EVar vlmMt) - #36 * EPow
   P2 (EVar vlmMst2)) + #18846 * EPow P2 (EVar vlmMst2) - #6 * EVar vlmMt * (#2850 + #1348 * EVar vlmMst2 + #189 *
   EPow P2 (EVar vlmMst2)) - #2 * EVar vlmMst1 * (#5093 + #5700 * EVar vlmMt + #6 * EVar vlmMst2 * (- #173 + #531 *
   EVar vlmMt) + #162 * EPow P2 (EVar vlmMst2) - #1296 * EPow P2 (EVar vlmMt)) - #144 * (#35 + #18 * EVar vlmMst2) *
   EPow P2 (EVar vlmMt) - #1368 * EPow P3 (EVar vlmMst1) + #5094 * EPow P3 (EVar vlmMst2))) / EPow P4 (EVar vMst2)) /
   EVar vMst1) + #72 * EVar vtwoLoopFlag * (#2 * EPow P3 (EVar vMst1) * (#27 * EVar vMt * (#6 + #7 * EVar vlmMst2 -
   EVar vlmMst1 * (#7 + #6 * EVar vlmMst2) + #3 * (EPow P2 (EVar vlmMst1) + EPow P2 (EVar vlmMst2))) * EPow P2 (EVar
   vMst2) * EPow P2 (EVar vs2t) + #2 * (#61 + #3 * EVar vlmMst1 * (- #5 + #18 * EVar vlmMst2 - #18 * EVar vlmMt) +
   #105 * EVar vlmMt + #18 * EVar vlmMst2 * (- #5 + #3 * EVar vlmMt) - #54 * EPow P2 (EVar vlmMst2)) * EPow P3 (EVar
   vMt)) + #6 * (- #11 + #6 * EVar vlmMst1) * EVar vs2t * EPow P2 (EVar vMt) * EPow P4 (EVar vMst2) - #18 * EVar vMt *
   EVar vMuSUSY * EVar vs2t * (- #8 * EVar vMst1 * EVar vMt * EPow P2 (EVar vMst2) - EVar vs2t * (#4 + EVar vlmMst2 -
   EPow P2 (EVar vlmMst1) + EPow P2 (EVar vlmMst2)) * EPow P2 (EVar vMst1) * EPow P2 (EVar vMst2) + #4 * EVar vMt *
   (#4 + #7 * EVar vlmMst2 - EVar vlmMst1 * (#7 + #6 * EVar vlmMst2) + #3 * (EPow P2 (EVar vlmMst1) + EPow P2 (EVar
   vlmMst2))) * EPow P3 (EVar vMst1) - (- #2 + EVar vlmMst1) * EVar vs2t * EPow P4 (EVar vMst2)) / EVar vTbeta + #4 *
   EVar vMst1 * ((#61 - #15 * EVar vlmMst1 + #15 * EVar vlmMt) * EPow P2 (EVar vMst2) * EPow P3 (EVar vMt) - #27 *
   EVar vMt * EPow P2 (EVar vs2t) * EPow P4 (EVar vMst2)) - #9 * EPow P2 (EVar vMst1) * (#4 * (#1 + EVar vlmMst2) *
   EVar vs2t * EPow P2 (EVar vMst2) * EPow P2 (EVar vMt) + (#6 - EVar vlmMst1 + EVar vlmMst2 - EPow P2 (EVar vlmMst1)
   + EPow P2 (EVar vlmMst2)) * EPow P3 (EVar vs2t) * EPow P4 (EVar vMst2)) - #9 * (- #2 + EVar vlmMst1) * EPow P3
   (EVar vs2t) * EPow P6 (EVar vMst2)) / (EPow P2 (EVar vMst1) * EPow P4 (EVar vMst2))))))) / #3888.

(** H5.cpp:1960-2660 *)
Definition H5_coef0 : expr :=
  EDec 15557037037037037 13 - #17720 * EVar vDmglst1 / (#27 * EVar vMst1) + #112112 * EVar vDmglst1 * EVar vs2t / (#27 *
   EVar vMt) + #5936 * EVar vMst1 * EVar vs2t / (#9 * EVar vMt) + #6272 * EConst Cz2 / #9 + #1056 * EVar vDmglst1 *
   EConst Cz2 / EVar vMst1 + #832 * EVar vDmglst1 * EVar vs2t * EConst Cz2 / (#9 * EVar vMt) + #832 * EVar vMst1 *
   EVar vs2t * EConst Cz2 / (#9 * EVar vMt) - #5216 * EConst Cz3 / #3 - #856 * EVar vDmglst1 * EConst Cz3 / (#3 * EVar
   vMst1) + #2368 * EVar vDmglst1 * EVar vs2t * EConst Cz3 / (#3 * EVar vMt) + #1152 * EVar vMst1 * EVar vs2t * EConst
   Cz3 / EVar vMt - #128 * EVar vDmglst1 * EVar vs2t * EConst Cz4 / (#3 * EVar vMt) - #128 * EVar vMst1 * EVar vs2t *
   EConst Cz4 / (#3 * EVar vMt) + #477200 * EVar vs2t * EPow P2 (EVar vDmglst1) / (#27 * EVar vMst1 * EVar vMt) -
   #29488 * EVar vs2t * EConst Cz3 * EPow P2 (EVar vDmglst1) / (#3 * EVar vMst1 * EVar vMt) - #1440 * EVar vDmglst1 *
   EVar vMst1 / EPow P2 (EVar vMsq) + #1280 * EVar vDmglst1 * EVar vMst1 * EConst Cz2 / EPow P2 (EVar vMsq) - #42368 *
   EPow P2 (EVar vDmglst1) / (#45 * EPow P2 (EVar vMsq)) + #64960 * EVar vMst1 * EVar vs2t * EPow P2 (EVar vDmglst1) /
   (#9 * EVar vMt * EPow P2 (EVar vMsq)) + #640 * EConst Cz2 * EPow P2 (EVar vDmglst1) / EPow P2 (EVar vMsq) +
   #1413352 * EPow P2 (EVar vDmglst1) / (#675 * EPow P2 (EVar vMst1)) + #528 * EConst Cz2 * EPow P2 (EVar vDmglst1) /
   EPow P2 (EVar vMst1) - #7220 * EConst Cz3 * EPow P2 (EVar vDmglst1) / (#3 * EPow P2 (EVar vMst1)) + #160 * EPow P2
   (EVar vMsq) / EPow P2 (EVar vMst1) - #320 * EConst Cz2 * EPow P2 (EVar vMsq) / EPow P2 (EVar vMst1) - #21936 * EPow
   P2 (EVar vMst1) / (#25 * EPow P2 (EVar vMsq)) + #40960 * EVar vDmglst1 * EVar vs2t * EPow P2 (EVar vMst1) / (#9 *
   EVar vMt * EPow P2 (EVar vMsq)) + #2560 * EConst Cz2 * EPow P2 (EVar vMst1) / (#3 * EPow P2 (EVar vMsq)) - #1280 *
   EVar vDmglst1 * EVar vs2t * EConst Cz2 * EPow P2 (EVar vMst1) / (#3 * EVar vMt * EPow P2 (EVar vMsq)) - #1025488 *
   EVar vDmglst1 * EVar vMst1 / (#81 * EPow P2 (EVar vMst2)) + #19328 * EVar vDmglst1 * EVar vMst1 * EConst Cz2 / (#9
   * EPow P2 (EVar vMst2)) + #24704 * EVar vDmglst1 * EVar vMst1 * EConst Cz3 / (#3 * EPow P2 (EVar vMst2)) -
   #45265856 * EPow P2 (EVar vDmglst1) / (#2025 * EPow P2 (EVar vMst2)) + #172960 * EVar vMst1 * EVar vs2t * EPow P2
   (EVar vDmglst1) / (#27 * EVar vMt * EPow P2 (EVar vMst2)) + #9664 * EConst Cz2 * EPow P2 (EVar vDmglst1) / (#9 *
   EPow P2 (EVar vMst2)) + #88352 * EVar vMst1 * EVar vs2t * EConst Cz2 * EPow P2 (EVar vDmglst1) / (#3 * EVar vMt *
   EPow P2 (EVar vMst2)) + #16576 * EConst Cz3 * EPow P2 (EVar vDmglst1) / EPow P2 (EVar vMst2) - #9344 * EVar vMst1 *
   EVar vs2t * EConst Cz3 * EPow P2 (EVar vDmglst1) / (EVar vMt * EPow P2 (EVar vMst2)) + #160 * EPow P2 (EVar vMsq) /
   EPow P2 (EVar vMst2) - #320 * EConst Cz2 * EPow P2 (EVar vMsq) / EPow P2 (EVar vMst2) - #39353408 * EPow P2 (EVar
   vMst1) / (#10125 * EPow P2 (EVar vMst2)) + #395536 * EVar vDmglst1 * EVar vs2t * EPow P2 (EVar vMst1) / (#81 * EVar
   vMt * EPow P2 (EVar vMst2)) + #9248 * EConst Cz2 * EPow P2 (EVar vMst1) / (#9 * EPow P2 (EVar vMst2)) + #265600 *
   EVar vDmglst1 * EVar vs2t * EConst Cz2 * EPow P2 (EVar vMst1) / (#9 * EVar vMt * EPow P2 (EVar vMst2)) + #1536 *
   EConst Cz3 * EPow P2 (EVar vMst1) / EPow P2 (EVar vMst2) - #10816 * EVar vDmglst1 * EVar vs2t * EConst Cz3 * EPow
   P2 (EVar vMst1) / (EVar vMt * EPow P2 (EVar vMst2)) - #8800 * EPow P2 (EVar vDmglst1) * EPow P2 (EVar vMst1) / (#3
   * EPow P2 (EVar vMsq) * EPow P2 (EVar vMst2)) - #216272 * EPow P2 (EVar vMst2) / (#675 * EPow P2 (EVar vMsq)) -
   #10720 * EVar vDmglst1 * EVar vs2t * EPow P2 (EVar vMst2) / (#27 * EVar vMt * EPow P2 (EVar vMsq)) - #10720 * EVar
   vMst1 * EVar vs2t * EPow P2 (EVar vMst2) / (#27 * EVar vMt * EPow P2 (EVar vMsq)) + #640 * EConst Cz2 * EPow P2
   (EVar vMst2) / (#3 * EPow P2 (EVar vMsq)) + #1280 * EVar vDmglst1 * EVar vs2t * EConst Cz2 * EPow P2 (EVar vMst2) /
   (#3 * EVar vMt * EPow P2 (EVar vMsq)) + #1280 * EVar vMst1 * EVar vs2t * EConst Cz2 * EPow P2 (EVar vMst2) / (#3 *
   EVar vMt * EPow P2 (EVar vMsq)) + #16 * EPow P2 (EVar vMst2) / EPow P2 (EVar vMst1) - #32 * EConst Cz2 * EPow P2
   (EVar vMst2) / EPow P2 (EVar vMst1) + #627124 * EVar vDmglst1 * EVar vMst1 * EPow P2 (EVar vs2t) / (#81 * EPow P2
   (EVar vMt)) - #128 * EConst CB4 * EVar vDmglst1 * EVar vMst1 * EPow P2 (EVar vs2t) / (#3 * EPow P2 (EVar vMt)) -
   #64 * EVar vDmglst1 * EConst CDN * EVar vMst1 * EPow P2 (EVar vs2t) / (#3 * EPow P2 (EVar vMt)) + #49184 * EVar
   vDmglst1 * EVar vMst1 * EConst Cz2 * EPow P2 (EVar vs2t) / (#9 * EPow P2 (EVar vMt)) - #5968 * EVar vDmglst1 * EVar
   vMst1 * EConst Cz3 * EPow P2 (EVar vs2t) / (#3 * EPow P2 (EVar vMt)) + #320 * EVar vDmglst1 * EVar vMst1 * EConst
   Cz4 * EPow P2 (EVar vs2t) / EPow P2 (EVar vMt) + #972470 * EPow P2 (EVar vDmglst1) * EPow P2 (EVar vs2t) / (#81 *
   EPow P2 (EVar vMt)) - #64 * EConst CB4 * EPow P2 (EVar vDmglst1) * EPow P2 (EVar vs2t) / (#3 * EPow P2 (EVar vMt))
   - #32 * EConst CDN * EPow P2 (EVar vDmglst1) * EPow P2 (EVar vs2t) / (#3 * EPow P2 (EVar vMt)) + #24592 * EConst
   Cz2 * EPow P2 (EVar vDmglst1) * EPow P2 (EVar vs2t) / (#9 * EPow P2 (EVar vMt)) - #26158 * EConst Cz3 * EPow P2
   (EVar vDmglst1) * EPow P2 (EVar vs2t) / (#3 * EPow P2 (EVar vMt)) + #160 * EConst Cz4 * EPow P2 (EVar vDmglst1) *
   EPow P2 (EVar vs2t) / EPow P2 (EVar vMt) + #160 * EPow P2 (EVar vMsq) * EPow P2 (EVar vs2t) / EPow P2 (EVar vMt) -
   #320 * EConst Cz2 * EPow P2 (EVar vMsq) * EPow P2 (EVar vs2t) / EPow P2 (EVar vMt) + #32617079 * EPow P2 (EVar
   vMst1) * EPow P2 (EVar vs2t) / (#10125 * EPow P2 (EVar vMt)) - #32 * EConst CDN * EPow P2 (EVar vMst1) * EPow P2
   (EVar vs2t) / (#3 * EPow P2 (EVar vMt)) - #160 * EConst COepS2 * EPow P2 (EVar vMst1) * EPow P2 (EVar vs2t) / (#81
   * EPow P2 (EVar vMt)) + #244 * EConst CS2 * EPow P2 (EVar vMst1) * EPow P2 (EVar vs2t) / EPow P2 (EVar vMt) + #80 *
   EConst CT1ep * EPow P2 (EVar vMst1) * EPow P2 (EVar vs2t) / (#27 * EPow P2 (EVar vMt)) + #80570 * EConst Cz2 * EPow
   P2 (EVar vMst1) * EPow P2 (EVar vs2t) / (#27 * EPow P2 (EVar vMt)) - #2584 * EConst Cz3 * EPow P2 (EVar vMst1) *
   EPow P2 (EVar vs2t) / (#27 * EPow P2 (EVar vMt)) + #760 * EConst Cz4 * EPow P2 (EVar vMst1) * EPow P2 (EVar vs2t) /
   (#27 * EPow P2 (EVar vMt)) - #1400 * EPow P2 (EVar vDmglst1) * EPow P2 (EVar vMst1) * EPow P2 (EVar vs2t) / (EPow
   P2 (EVar vMsq) * EPow P2 (EVar vMt)) - #5794 * EPow P2 (EVar vDmglst1) * EPow P2 (EVar vMst1) * EPow P2 (EVar vs2t)
   / (#27 * EPow P2 (EVar vMst2) * EPow P2 (EVar vMt)) - #29776 * EConst Cz2 * EPow P2 (EVar vDmglst1) * EPow P2 (EVar
   vMst1) * EPow P2 (EVar vs2t) / (#3 * EPow P2 (EVar vMst2) * EPow P2 (EVar vMt)) + #9552 * EConst Cz3 * EPow P2
   (EVar vDmglst1) * EPow P2 (EVar vMst1) * EPow P2 (EVar vs2t) / (EPow P2 (EVar vMst2) * EPow P2 (EVar vMt)) - #80 *
   EPow P2 (EVar vMsq) * EPow P2 (EVar vMst1) * EPow P2 (EVar vs2t) / (EPow P2 (EVar vMst2) * EPow P2 (EVar vMt)) +
   #160 * EConst Cz2 * EPow P2 (EVar vMsq) * EPow P2 (EVar vMst1) * EPow P2 (EVar vs2t) / (EPow P2 (EVar vMst2) * EPow
   P2 (EVar vMt)) - #4501 * EPow P2 (EVar vMst2) * EPow P2 (EVar vs2t) / (#27 * EPow P2 (EVar vMt)) + #32 * EConst CDN
   * EPow P2 (EVar vMst2) * EPow P2 (EVar vs2t) / (#3 * EPow P2 (EVar vMt)) + #1264 * EVar vDmglst1 * EPow P2 (EVar
   vMst2) * EPow P2 (EVar vs2t) / (#9 * EVar vMst1 * EPow P2 (EVar vMt)) - #32 * EConst COepS2 * EPow P2 (EVar vMst2)
   * EPow P2 (EVar vs2t) / (#9 * EPow P2 (EVar vMt)) + #36 * EConst CS2 * EPow P2 (EVar vMst2) * EPow P2 (EVar vs2t) /
   EPow P2 (EVar vMt) + #16 * EConst CT1ep * EPow P2 (EVar vMst2) * EPow P2 (EVar vs2t) / (#3 * EPow P2 (EVar vMt)) -
   #1222 * EConst Cz2 * EPow P2 (EVar vMst2) * EPow P2 (EVar vs2t) / (#3 * EPow P2 (EVar vMt)) - #528 * EVar vDmglst1
   * EConst Cz2 * EPow P2 (EVar vMst2) * EPow P2 (EVar vs2t) / (EVar vMst1 * EPow P2 (EVar vMt)) - #344 * EConst Cz3 *
   EPow P2 (EVar vMst2) * EPow P2 (EVar vs2t) / (#3 * EPow P2 (EVar vMt)) + #880 * EVar vDmglst1 * EConst Cz3 * EPow
   P2 (EVar vMst2) * EPow P2 (EVar vs2t) / (#3 * EVar vMst1 * EPow P2 (EVar vMt)) - #24 * EConst Cz4 * EPow P2 (EVar
   vMst2) * EPow P2 (EVar vs2t) / EPow P2 (EVar vMt) + #560 * EVar vDmglst1 * EVar vMst1 * EPow P2 (EVar vMst2) * EPow
   P2 (EVar vs2t) / (#3 * EPow P2 (EVar vMsq) * EPow P2 (EVar vMt)) - #200 * EPow P2 (EVar vDmglst1) * EPow P2 (EVar
   vMst2) * EPow P2 (EVar vs2t) / (#3 * EPow P2 (EVar vMsq) * EPow P2 (EVar vMt)) - #18868 * EPow P2 (EVar vDmglst1) *
   EPow P2 (EVar vMst2) * EPow P2 (EVar vs2t) / (#9 * EPow P2 (EVar vMst1) * EPow P2 (EVar vMt)) - #264 * EConst Cz2 *
   EPow P2 (EVar vDmglst1) * EPow P2 (EVar vMst2) * EPow P2 (EVar vs2t) / (EPow P2 (EVar vMst1) * EPow P2 (EVar vMt))
   + #2026 * EConst Cz3 * EPow P2 (EVar vDmglst1) * EPow P2 (EVar vMst2) * EPow P2 (EVar vs2t) / (EPow P2 (EVar vMst1)
   * EPow P2 (EVar vMt)) - #80 * EPow P2 (EVar vMsq) * EPow P2 (EVar vMst2) * EPow P2 (EVar vs2t) / (EPow P2 (EVar
   vMst1) * EPow P2 (EVar vMt)) + #160 * EConst Cz2 * EPow P2 (EVar vMsq) * EPow P2 (EVar vMst2) * EPow P2 (EVar vs2t)
   / (EPow P2 (EVar vMst1) * EPow P2 (EVar vMt)) - #24728 * EPow P2 (EVar vMst1) * EPow P2 (EVar vMst2) * EPow P2
   (EVar vs2t) / (#675 * EPow P2 (EVar vMsq) * EPow P2 (EVar vMt)) + #256 * EVar vDmglst1 * EVar vs2t * EPow P2
   (EConst Cz2) / (#3 * EVar vMt) + #256 * EVar vMst1 * EVar vs2t * EPow P2 (EConst Cz2) / (#3 * EVar vMt) + #116 *
   EPow P2 (EVar vMst1) * EPow P2 (EVar vs2t) * EPow P2 (EConst Cz2) / (#9 * EPow P2 (EVar vMt)) - #20 * EPow P2 (EVar
   vMst2) * EPow P2 (EVar vs2t) * EPow P2 (EConst Cz2) / (#3 * EPow P2 (EVar vMt)) + #35200 * EVar vs2t * EPow P3
   (EVar vMst1) / (#27 * EVar vMt * EPow P2 (EVar vMsq)) - #1280 * EVar vs2t * EConst Cz2 * EPow P3 (EVar vMst1) / (#3
   * EVar vMt * EPow P2 (EVar vMsq)) + #1328 * EVar vs2t * EPow P3 (EVar vMst1) / (#27 * EVar vMt * EPow P2 (EVar
   vMst2)) + #29632 * EVar vs2t * EConst Cz2 * EPow P3 (EVar vMst1) / (#3 * EVar vMt * EPow P2 (EVar vMst2)) - #3904 *
   EVar vs2t * EConst Cz3 * EPow P3 (EVar vMst1) / (EVar vMt * EPow P2 (EVar vMst2)) - #17600 * EVar vDmglst1 * EPow
   P3 (EVar vMst1) / (#9 * EPow P2 (EVar vMsq) * EPow P2 (EVar vMst2)) - #11840 * EVar vs2t * EPow P2 (EVar vDmglst1)
   * EPow P3 (EVar vMst1) / (#3 * EVar vMt * EPow P2 (EVar vMsq) * EPow P2 (EVar vMst2)) - #12800 * EVar vs2t * EConst
   Cz2 * EPow P2 (EVar vDmglst1) * EPow P3 (EVar vMst1) / (EVar vMt * EPow P2 (EVar vMsq) * EPow P2 (EVar vMst2)) -
   #10480 * EVar vDmglst1 * EPow P2 (EVar vs2t) * EPow P3 (EVar vMst1) / (#9 * EPow P2 (EVar vMsq) * EPow P2 (EVar
   vMt)) - #253180 * EVar vDmglst1 * EPow P2 (EVar vs2t) * EPow P3 (EVar vMst1) / (#81 * EPow P2 (EVar vMst2) * EPow
   P2 (EVar vMt)) - #29536 * EVar vDmglst1 * EConst Cz2 * EPow P2 (EVar vs2t) * EPow P3 (EVar vMst1) / (#9 * EPow P2
   (EVar vMst2) * EPow P2 (EVar vMt)) + #6368 * EVar vDmglst1 * EConst Cz3 * EPow P2 (EVar vs2t) * EPow P3 (EVar
   vMst1) / (#3 * EPow P2 (EVar vMst2) * EPow P2 (EVar vMt)) - #2032 * EVar vMst1 * EPow P2 (EVar vDmglst1) * EPow P3
   (EVar vs2t) / (#9 * EPow P3 (EVar vMt)) - #608 * EConst CB4 * EVar vMst1 * EPow P2 (EVar vDmglst1) * EPow P3 (EVar
   vs2t) / EPow P3 (EVar vMt) + #16 * EConst CDN * EVar vMst1 * EPow P2 (EVar vDmglst1) * EPow P3 (EVar vs2t) / EPow
   P3 (EVar vMt) - #18992 * EVar vMst1 * EConst Cz2 * EPow P2 (EVar vDmglst1) * EPow P3 (EVar vs2t) / (#3 * EPow P3
   (EVar vMt)) + #72 * EVar vMst1 * EConst Cz3 * EPow P2 (EVar vDmglst1) * EPow P3 (EVar vs2t) / EPow P3 (EVar vMt) +
   #3280 * EVar vMst1 * EConst Cz4 * EPow P2 (EVar vDmglst1) * EPow P3 (EVar vs2t) / EPow P3 (EVar vMt) - #108106 *
   EVar vDmglst1 * EPow P2 (EVar vMst1) * EPow P3 (EVar vs2t) / (#27 * EPow P3 (EVar vMt)) - #2096 * EConst CB4 * EVar
   vDmglst1 * EPow P2 (EVar vMst1) * EPow P3 (EVar vs2t) / (#3 * EPow P3 (EVar vMt)) + #40 * EVar vDmglst1 * EConst
   CDN * EPow P2 (EVar vMst1) * EPow P3 (EVar vs2t) / (#3 * EPow P3 (EVar vMt)) - #5176 * EVar vDmglst1 * EConst Cz2 *
   EPow P2 (EVar vMst1) * EPow P3 (EVar vs2t) / EPow P3 (EVar vMt) - #5536 * EVar vDmglst1 * EConst Cz3 * EPow P2
   (EVar vMst1) * EPow P3 (EVar vs2t) / (#3 * EPow P3 (EVar vMt)) + #7912 * EVar vDmglst1 * EConst Cz4 * EPow P2 (EVar
   vMst1) * EPow P3 (EVar vs2t) / (#3 * EPow P3 (EVar vMt)) + #7558 * EVar vDmglst1 * EPow P2 (EVar vMst2) * EPow P3
   (EVar vs2t) / (#3 * EPow P3 (EVar vMt)) - #272 * EConst CB4 * EVar vDmglst1 * EPow P2 (EVar vMst2) * EPow P3 (EVar
   vs2t) / (#3 * EPow P3 (EVar vMt)) - #8 * EVar vDmglst1 * EConst CDN * EPow P2 (EVar vMst2) * EPow P3 (EVar vs2t) /
   (#3 * EPow P3 (EVar vMt)) + #8878 * EVar vMst1 * EPow P2 (EVar vMst2) * EPow P3 (EVar vs2t) / (#3 * EPow P3 (EVar
   vMt)) - #272 * EConst CB4 * EVar vMst1 * EPow P2 (EVar vMst2) * EPow P3 (EVar vs2t) / (#3 * EPow P3 (EVar vMt)) -
   #8 * EConst CDN * EVar vMst1 * EPow P2 (EVar vMst2) * EPow P3 (EVar vs2t) / (#3 * EPow P3 (EVar vMt)) + #1672 *
   EVar vDmglst1 * EConst Cz2 * EPow P2 (EVar vMst2) * EPow P3 (EVar vs2t) / EPow P3 (EVar vMt) + #1672 * EVar vMst1 *
   EConst Cz2 * EPow P2 (EVar vMst2) * EPow P3 (EVar vs2t) / EPow P3 (EVar vMt) - #928 * EVar vDmglst1 * EConst Cz3 *
   EPow P2 (EVar vMst2) * EPow P3 (EVar vs2t) / (#3 * EPow P3 (EVar vMt)) - #2128 * EVar vMst1 * EConst Cz3 * EPow P2
   (EVar vMst2) * EPow P3 (EVar vs2t) / (#3 * EPow P3 (EVar vMt)) - #1928 * EVar vDmglst1 * EConst Cz4 * EPow P2 (EVar
   vMst2) * EPow P3 (EVar vs2t) / (#3 * EPow P3 (EVar vMt)) - #1928 * EVar vMst1 * EConst Cz4 * EPow P2 (EVar vMst2) *
   EPow P3 (EVar vs2t) / (#3 * EPow P3 (EVar vMt)) - #23500 * EPow P2 (EVar vDmglst1) * EPow P2 (EVar vMst2) * EPow P3
   (EVar vs2t) / (#9 * EVar vMst1 * EPow P3 (EVar vMt)) + #1800 * EConst Cz3 * EPow P2 (EVar vDmglst1) * EPow P2 (EVar
   vMst2) * EPow P3 (EVar vs2t) / (EVar vMst1 * EPow P3 (EVar vMt)) - #24880 * EVar vMst1 * EPow P2 (EVar vDmglst1) *
   EPow P2 (EVar vMst2) * EPow P3 (EVar vs2t) / (#9 * EPow P2 (EVar vMsq) * EPow P3 (EVar vMt)) - #320 * EVar vMst1 *
   EConst Cz2 * EPow P2 (EVar vDmglst1) * EPow P2 (EVar vMst2) * EPow P3 (EVar vs2t) / (EPow P2 (EVar vMsq) * EPow P3
   (EVar vMt)) - #2240 * EVar vDmglst1 * EPow P2 (EVar vMst1) * EPow P2 (EVar vMst2) * EPow P3 (EVar vs2t) / (EPow P2
   (EVar vMsq) * EPow P3 (EVar vMt)) - #320 * EVar vDmglst1 * EConst Cz2 * EPow P2 (EVar vMst1) * EPow P2 (EVar vMst2)
   * EPow P3 (EVar vs2t) / (EPow P2 (EVar vMsq) * EPow P3 (EVar vMt)) + #640 * EVar vMst1 * EPow P2 (EVar vDmglst1) *
   EPow P2 (EConst Cz2) * EPow P3 (EVar vs2t) / EPow P3 (EVar vMt) + #2176 * EVar vDmglst1 * EPow P2 (EVar vMst1) *
   EPow P2 (EConst Cz2) * EPow P3 (EVar vs2t) / (#3 * EPow P3 (EVar vMt)) + #256 * EVar vDmglst1 * EPow P2 (EVar
   vMst2) * EPow P2 (EConst Cz2) * EPow P3 (EVar vs2t) / (#3 * EPow P3 (EVar vMt)) + #256 * EVar vMst1 * EPow P2 (EVar
   vMst2) * EPow P2 (EConst Cz2) * EPow P3 (EVar vs2t) / (#3 * EPow P3 (EVar vMt)) - #264814 * EPow P3 (EVar vMst1) *
   EPow P3 (EVar vs2t) / (#81 * EPow P3 (EVar vMt)) - #880 * EConst CB4 * EPow P3 (EVar vMst1) * EPow P3 (EVar vs2t) /
   (#3 * EPow P3 (EVar vMt)) + #8 * EConst CDN * EPow P3 (EVar vMst1) * EPow P3 (EVar vs2t) / (#3 * EPow P3 (EVar
   vMt)) - #10840 * EConst Cz2 * EPow P3 (EVar vMst1) * EPow P3 (EVar vs2t) / (#9 * EPow P3 (EVar vMt)) - #1648 *
   EConst Cz3 * EPow P3 (EVar vMst1) * EPow P3 (EVar vs2t) / EPow P3 (EVar vMt) + #1352 * EConst Cz4 * EPow P3 (EVar
   vMst1) * EPow P3 (EVar vs2t) / (#3 * EPow P3 (EVar vMt)) + #47440 * EPow P2 (EVar vDmglst1) * EPow P3 (EVar vMst1)
   * EPow P3 (EVar vs2t) / (#9 * EPow P2 (EVar vMsq) * EPow P3 (EVar vMt)) + #2880 * EConst Cz2 * EPow P2 (EVar
   vDmglst1) * EPow P3 (EVar vMst1) * EPow P3 (EVar vs2t) / (EPow P2 (EVar vMsq) * EPow P3 (EVar vMt)) - #3124381 *
   EPow P2 (EVar vDmglst1) * EPow P3 (EVar vMst1) * EPow P3 (EVar vs2t) / (#162 * EPow P2 (EVar vMst2) * EPow P3 (EVar
   vMt)) - #248 * EConst Cz2 * EPow P2 (EVar vDmglst1) * EPow P3 (EVar vMst1) * EPow P3 (EVar vs2t) / (#9 * EPow P2
   (EVar vMst2) * EPow P3 (EVar vMt)) + #52544 * EConst Cz3 * EPow P2 (EVar vDmglst1) * EPow P3 (EVar vMst1) * EPow P3
   (EVar vs2t) / (#3 * EPow P2 (EVar vMst2) * EPow P3 (EVar vMt)) - #5920 * EPow P2 (EVar vMst2) * EPow P3 (EVar
   vMst1) * EPow P3 (EVar vs2t) / (#9 * EPow P2 (EVar vMsq) * EPow P3 (EVar vMt)) - #320 * EConst Cz2 * EPow P2 (EVar
   vMst2) * EPow P3 (EVar vMst1) * EPow P3 (EVar vs2t) / (#3 * EPow P2 (EVar vMsq) * EPow P3 (EVar vMt)) + #896 * EPow
   P2 (EConst Cz2) * EPow P3 (EVar vMst1) * EPow P3 (EVar vs2t) / (#3 * EPow P3 (EVar vMt)) + #160 * EPow P3 (ELog
   (EPow P2 (EVar vMst1) / EPow P2 (EVar vMsq))) / #3 - #73742 * EPow P2 (EVar vDmglst1) * EPow P2 (EVar vMst1) / (#45
   * EPow P4 (EVar vMsq)) + #1760 * EConst Cz2 * EPow P2 (EVar vDmglst1) * EPow P2 (EVar vMst1) / EPow P4 (EVar vMsq)
   - #4600 * EVar vDmglst1 * EVar vMst1 * EPow P2 (EVar vMst2) / (#9 * EPow P4 (EVar vMsq)) + #320 * EVar vDmglst1 *
   EVar vMst1 * EConst Cz2 * EPow P2 (EVar vMst2) / EPow P4 (EVar vMsq) - #2300 * EPow P2 (EVar vDmglst1) * EPow P2
   (EVar vMst2) / (#9 * EPow P4 (EVar vMsq)) - #8960 * EVar vMst1 * EVar vs2t * EPow P2 (EVar vDmglst1) * EPow P2
   (EVar vMst2) / (#9 * EVar vMt * EPow P4 (EVar vMsq)) + #160 * EConst Cz2 * EPow P2 (EVar vDmglst1) * EPow P2 (EVar
   vMst2) / EPow P4 (EVar vMsq) + #640 * EVar vMst1 * EVar vs2t * EConst Cz2 * EPow P2 (EVar vDmglst1) * EPow P2 (EVar
   vMst2) / (EVar vMt * EPow P4 (EVar vMsq)) - #2300 * EPow P2 (EVar vMst1) * EPow P2 (EVar vMst2) / (#9 * EPow P4
   (EVar vMsq)) - #8960 * EVar vDmglst1 * EVar vs2t * EPow P2 (EVar vMst1) * EPow P2 (EVar vMst2) / (#9 * EVar vMt *
   EPow P4 (EVar vMsq)) + #160 * EConst Cz2 * EPow P2 (EVar vMst1) * EPow P2 (EVar vMst2) / EPow P4 (EVar vMsq) + #640
   * EVar vDmglst1 * EVar vs2t * EConst Cz2 * EPow P2 (EVar vMst1) * EPow P2 (EVar vMst2) / (EVar vMt * EPow P4 (EVar
   vMsq)) - #295 * EPow P2 (EVar vDmglst1) * EPow P2 (EVar vMst1) * EPow P2 (EVar vMst2) * EPow P2 (EVar vs2t) / (EPow
   P2 (EVar vMt) * EPow P4 (EVar vMsq)) - #41900 * EVar vDmglst1 * EPow P3 (EVar vMst1) / (#27 * EPow P4 (EVar vMsq))
   + #4160 * EVar vDmglst1 * EConst Cz2 * EPow P3 (EVar vMst1) / (#3 * EPow P4 (EVar vMsq)) + #59360 * EVar vs2t *
   EPow P2 (EVar vDmglst1) * EPow P3 (EVar vMst1) / (#9 * EVar vMt * EPow P4 (EVar vMsq)) - #640 * EVar vs2t * EConst
   Cz2 * EPow P2 (EVar vDmglst1) * EPow P3 (EVar vMst1) / (EVar vMt * EPow P4 (EVar vMsq)) - #8960 * EVar vs2t * EPow
   P2 (EVar vMst2) * EPow P3 (EVar vMst1) / (#27 * EVar vMt * EPow P4 (EVar vMsq)) + #640 * EVar vs2t * EConst Cz2 *
   EPow P2 (EVar vMst2) * EPow P3 (EVar vMst1) / (#3 * EVar vMt * EPow P4 (EVar vMsq)) + #170 * EVar vDmglst1 * EPow
   P2 (EVar vMst2) * EPow P2 (EVar vs2t) * EPow P3 (EVar vMst1) / (#9 * EPow P2 (EVar vMt) * EPow P4 (EVar vMsq)) -
   #20380 * EPow P2 (EVar vDmglst1) * EPow P2 (EVar vMst2) * EPow P3 (EVar vMst1) * EPow P3 (EVar vs2t) / (#9 * EPow
   P3 (EVar vMt) * EPow P4 (EVar vMsq)) - #400 * EConst Cz2 * EPow P2 (EVar vDmglst1) * EPow P2 (EVar vMst2) * EPow P3
   (EVar vMst1) * EPow P3 (EVar vs2t) / (EPow P3 (EVar vMt) * EPow P4 (EVar vMsq)) - #4400 * EPow P4 (EVar vMst1) /
   (#9 * EPow P2 (EVar vMsq) * EPow P2 (EVar vMst2)) - #3520 * EVar vDmglst1 * EVar vs2t * EPow P4 (EVar vMst1) / (#3
   * EVar vMt * EPow P2 (EVar vMsq) * EPow P2 (EVar vMst2)) - #6400 * EVar vDmglst1 * EVar vs2t * EConst Cz2 * EPow P4
   (EVar vMst1) / (EVar vMt * EPow P2 (EVar vMsq) * EPow P2 (EVar vMst2)) - #181136 * EPow P2 (EVar vs2t) * EPow P4
   (EVar vMst1) / (#675 * EPow P2 (EVar vMsq) * EPow P2 (EVar vMt)) - #29787188414 * EPow P2 (EVar vs2t) * EPow P4
   (EVar vMst1) / (#10418625 * EPow P2 (EVar vMst2) * EPow P2 (EVar vMt)) + #64 * EConst COepS2 * EPow P2 (EVar vs2t)
   * EPow P4 (EVar vMst1) / (#243 * EPow P2 (EVar vMst2) * EPow P2 (EVar vMt)) - #296 * EConst CS2 * EPow P2 (EVar
   vs2t) * EPow P4 (EVar vMst1) / (#9 * EPow P2 (EVar vMst2) * EPow P2 (EVar vMt)) - #32 * EConst CT1ep * EPow P2
   (EVar vs2t) * EPow P4 (EVar vMst1) / (#81 * EPow P2 (EVar vMst2) * EPow P2 (EVar vMt)) + #1180 * EConst Cz2 * EPow
   P2 (EVar vs2t) * EPow P4 (EVar vMst1) / (#81 * EPow P2 (EVar vMst2) * EPow P2 (EVar vMt)) + #5296 * EConst Cz3 *
   EPow P2 (EVar vs2t) * EPow P4 (EVar vMst1) / (#81 * EPow P2 (EVar vMst2) * EPow P2 (EVar vMt)) - #16 * EConst Cz4 *
   EPow P2 (EVar vs2t) * EPow P4 (EVar vMst1) / (#81 * EPow P2 (EVar vMst2) * EPow P2 (EVar vMt)) - #8 * EPow P2 (EVar
   vs2t) * EPow P2 (EConst Cz2) * EPow P4 (EVar vMst1) / (#27 * EPow P2 (EVar vMst2) * EPow P2 (EVar vMt)) + #8560 *
   EVar vDmglst1 * EPow P3 (EVar vs2t) * EPow P4 (EVar vMst1) / (#3 * EPow P2 (EVar vMsq) * EPow P3 (EVar vMt)) +
   #1280 * EVar vDmglst1 * EConst Cz2 * EPow P3 (EVar vs2t) * EPow P4 (EVar vMst1) / (EPow P2 (EVar vMsq) * EPow P3
   (EVar vMt)) - #3058187 * EVar vDmglst1 * EPow P3 (EVar vs2t) * EPow P4 (EVar vMst1) / (#324 * EPow P2 (EVar vMst2)
   * EPow P3 (EVar vMt)) + #5588 * EVar vDmglst1 * EConst Cz2 * EPow P3 (EVar vs2t) * EPow P4 (EVar vMst1) / (#9 *
   EPow P2 (EVar vMst2) * EPow P3 (EVar vMt)) + #7976 * EVar vDmglst1 * EConst Cz3 * EPow P3 (EVar vs2t) * EPow P4
   (EVar vMst1) / (EPow P2 (EVar vMst2) * EPow P3 (EVar vMt)) + #1930 * EVar vCbeta * EVar vMuSUSY * EPow P2 (EVar
   vDmglst1) * EPow P3 (EVar vs2t) * EPow P4 (EVar vMst1) / (#3 * EVar vSbeta * EPow P2 (EVar vMsq) * EPow P2 (EVar
   vMst2) * EPow P3 (EVar vMt)) - #160842737 * EPow P4 (EVar vMst1) / (#231525 * EPow P4 (EVar vMsq)) + #29440 * EVar
   vDmglst1 * EVar vs2t * EPow P4 (EVar vMst1) / (#9 * EVar vMt * EPow P4 (EVar vMsq)) + #1520 * EConst Cz2 * EPow P4
   (EVar vMst1) / (#3 * EPow P4 (EVar vMsq)) - #2240 * EVar vDmglst1 * EVar vs2t * EConst Cz2 * EPow P4 (EVar vMst1) /
   (#3 * EVar vMt * EPow P4 (EVar vMsq)) - #4550 * EVar vCbeta * EVar vMuSUSY * EVar vs2t * EPow P2 (EVar vDmglst1) *
   EPow P4 (EVar vMst1) / (#3 * EVar vMt * EVar vSbeta * EPow P2 (EVar vMst2) * EPow P4 (EVar vMsq)) + #522392 * EPow
   P2 (EVar vMst2) * EPow P2 (EVar vs2t) * EPow P4 (EVar vMst1) / (#15435 * EPow P2 (EVar vMt) * EPow P4 (EVar vMsq))
   - #2735 * EPow P2 (EVar vDmglst1) * EPow P2 (EVar vMuSUSY) * EPow P2 (EVar vs2t) * EPow P4 (EVar vMst1) / (#3 *
   EPow P2 (EVar vMst2) * EPow P2 (EVar vMt) * EPow P4 (EVar vMsq)) - #1000 * EConst Cz2 * EPow P2 (EVar vDmglst1) *
   EPow P2 (EVar vMuSUSY) * EPow P2 (EVar vs2t) * EPow P4 (EVar vMst1) / (EPow P2 (EVar vMst2) * EPow P2 (EVar vMt) *
   EPow P4 (EVar vMsq)) + #2735 * EPow P2 (EVar vDmglst1) * EPow P2 (EVar vMuSUSY) * EPow P2 (EVar vs2t) * EPow P4
   (EVar vMst1) / (#3 * EPow P2 (EVar vMst2) * EPow P2 (EVar vMt) * EPow P2 (EVar vSbeta) * EPow P4 (EVar vMsq)) +
   #1000 * EConst Cz2 * EPow P2 (EVar vDmglst1) * EPow P2 (EVar vMuSUSY) * EPow P2 (EVar vs2t) * EPow P4 (EVar vMst1)
   / (EPow P2 (EVar vMst2) * EPow P2 (EVar vMt) * EPow P2 (EVar vSbeta) * EPow P4 (EVar vMsq)) - #9395 * EVar vCbeta *
   EVar vMuSUSY * EPow P2 (EVar vDmglst1) * EPow P3 (EVar vs2t) * EPow P4 (EVar vMst1) / (#9 * EVar vSbeta * EPow P3
   (EVar vMt) * EPow P4 (EVar vMsq)) - #600 * EVar vCbeta * EVar vMuSUSY * EConst Cz2 * EPow P2 (EVar vDmglst1) * EPow
   P3 (EVar vs2t) * EPow P4 (EVar vMst1) / (EVar vSbeta * EPow P3 (EVar vMt) * EPow P4 (EVar vMsq)) - #9035 * EVar
   vDmglst1 * EPow P2 (EVar vMst2) * EPow P3 (EVar vs2t) * EPow P4 (EVar vMst1) / (#9 * EPow P3 (EVar vMt) * EPow P4
   (EVar vMsq)) - #200 * EVar vDmglst1 * EConst Cz2 * EPow P2 (EVar vMst2) * EPow P3 (EVar vs2t) * EPow P4 (EVar
   vMst1) / (EPow P3 (EVar vMt) * EPow P4 (EVar vMsq)) - #90465364 * EPow P2 (EVar vDmglst1) * EPow P2 (EVar vMst1) /
   (#2025 * EPow P4 (EVar vMst2)) - #33792 * EConst Cz2 * EPow P2 (EVar vDmglst1) * EPow P2 (EVar vMst1) / EPow P4
   (EVar vMst2) + #64832 * EConst Cz3 * EPow P2 (EVar vDmglst1) * EPow P2 (EVar vMst1) / (#3 * EPow P4 (EVar vMst2)) -
   #799880 * EVar vDmglst1 * EPow P3 (EVar vMst1) / (#27 * EPow P4 (EVar vMst2)) - #19904 * EVar vDmglst1 * EConst Cz2
   * EPow P3 (EVar vMst1) / EPow P4 (EVar vMst2) + #42112 * EVar vDmglst1 * EConst Cz3 * EPow P3 (EVar vMst1) / (#3 *
   EPow P4 (EVar vMst2)) + #5583152 * EVar vs2t * EPow P2 (EVar vDmglst1) * EPow P3 (EVar vMst1) / (#81 * EVar vMt *
   EPow P4 (EVar vMst2)) + #1368160 * EVar vs2t * EConst Cz2 * EPow P2 (EVar vDmglst1) * EPow P3 (EVar vMst1) / (#9 *
   EVar vMt * EPow P4 (EVar vMst2)) - #270208 * EVar vs2t * EConst Cz3 * EPow P2 (EVar vDmglst1) * EPow P3 (EVar
   vMst1) / (#3 * EVar vMt * EPow P4 (EVar vMst2)) - #25346116504 * EPow P4 (EVar vMst1) / (#3472875 * EPow P4 (EVar
   vMst2)) + #864592 * EVar vDmglst1 * EVar vs2t * EPow P4 (EVar vMst1) / (#81 * EVar vMt * EPow P4 (EVar vMst2)) -
   #38128 * EConst Cz2 * EPow P4 (EVar vMst1) / (#9 * EPow P4 (EVar vMst2)) + #235936 * EVar vDmglst1 * EVar vs2t *
   EConst Cz2 * EPow P4 (EVar vMst1) / (#3 * EVar vMt * EPow P4 (EVar vMst2)) + #10144 * EConst Cz3 * EPow P4 (EVar
   vMst1) / (#3 * EPow P4 (EVar vMst2)) - #46848 * EVar vDmglst1 * EVar vs2t * EConst Cz3 * EPow P4 (EVar vMst1) /
   (EVar vMt * EPow P4 (EVar vMst2)) - #17120 * EVar vCbeta * EVar vMuSUSY * EVar vs2t * EPow P2 (EVar vDmglst1) *
   EPow P4 (EVar vMst1) / (#3 * EVar vMt * EVar vSbeta * EPow P2 (EVar vMsq) * EPow P4 (EVar vMst2)) + #194 * EPow P2
   (EVar vDmglst1) * EPow P2 (EVar vs2t) * EPow P4 (EVar vMst1) / (#3 * EPow P2 (EVar vMt) * EPow P4 (EVar vMst2)) -
   #16 * EConst CB4 * EPow P2 (EVar vDmglst1) * EPow P2 (EVar vs2t) * EPow P4 (EVar vMst1) / (EPow P2 (EVar vMt) *
   EPow P4 (EVar vMst2)) - #8 * EConst CDN * EPow P2 (EVar vDmglst1) * EPow P2 (EVar vs2t) * EPow P4 (EVar vMst1) /
   (EPow P2 (EVar vMt) * EPow P4 (EVar vMst2)) - #1400 * EConst Cz2 * EPow P2 (EVar vDmglst1) * EPow P2 (EVar vs2t) *
   EPow P4 (EVar vMst1) / (#3 * EPow P2 (EVar vMt) * EPow P4 (EVar vMst2)) + #1048 * EConst Cz3 * EPow P2 (EVar
   vDmglst1) * EPow P2 (EVar vs2t) * EPow P4 (EVar vMst1) / (EPow P2 (EVar vMt) * EPow P4 (EVar vMst2)) + #120 *
   EConst Cz4 * EPow P2 (EVar vDmglst1) * EPow P2 (EVar vs2t) * EPow P4 (EVar vMst1) / (EPow P2 (EVar vMt) * EPow P4
   (EVar vMst2)) - #2140 * EPow P2 (EVar vDmglst1) * EPow P2 (EVar vMuSUSY) * EPow P2 (EVar vs2t) * EPow P4 (EVar
   vMst1) / (#3 * EPow P2 (EVar vMsq) * EPow P2 (EVar vMt) * EPow P4 (EVar vMst2)) - #1440 * EConst Cz2 * EPow P2
   (EVar vDmglst1) * EPow P2 (EVar vMuSUSY) * EPow P2 (EVar vs2t) * EPow P4 (EVar vMst1) / (EPow P2 (EVar vMsq) * EPow
   P2 (EVar vMt) * EPow P4 (EVar vMst2)) + #2140 * EPow P2 (EVar vDmglst1) * EPow P2 (EVar vMuSUSY) * EPow P2 (EVar
   vs2t) * EPow P4 (EVar vMst1) / (#3 * EPow P2 (EVar vMsq) * EPow P2 (EVar vMt) * EPow P2 (EVar vSbeta) * EPow P4
   (EVar vMst2)) + #1440 * EConst Cz2 * EPow P2 (EVar vDmglst1) * EPow P2 (EVar vMuSUSY) * EPow P2 (EVar vs2t) * EPow
   P4 (EVar vMst1) / (EPow P2 (EVar vMsq) * EPow P2 (EVar vMt) * EPow P2 (EVar vSbeta) * EPow P4 (EVar vMst2)) - #388
   * EPow P2 (EVar vDmglst1) * EPow P2 (EVar vs2t) * EPow P2 (EVar vSbeta) * EPow P4 (EVar vMst1) / (#3 * EPow P2
   (EVar vMt) * EPow P4 (EVar vMst2)) + #32 * EConst CB4 * EPow P2 (EVar vDmglst1) * EPow P2 (EVar vs2t) * EPow P2
   (EVar vSbeta) * EPow P4 (EVar vMst1) / (EPow P2 (EVar vMt) * EPow P4 (EVar vMst2)) + #16 * EConst CDN * EPow P2
   (EVar vDmglst1) * EPow P2 (EVar vs2t) * EPow P2 (EVar vSbeta) * EPow P4 (EVar vMst1) / (EPow P2 (EVar vMt) * EPow
   P4 (EVar vMst2)) + #2800 * EConst Cz2 * EPow P2 (EVar vDmglst1) * EPow P2 (EVar vs2t) * EPow P2 (EVar vSbeta) *
   EPow P4 (EVar vMst1) / (#3 * EPow P2 (EVar vMt) * EPow P4 (EVar vMst2)) - #2096 * EConst Cz3 * EPow P2 (EVar
   vDmglst1) * EPow P2 (EVar vs2t) * EPow P2 (EVar vSbeta) * EPow P4 (EVar vMst1) / (EPow P2 (EVar vMt) * EPow P4
   (EVar vMst2)) - #240 * EConst Cz4 * EPow P2 (EVar vDmglst1) * EPow P2 (EVar vs2t) * EPow P2 (EVar vSbeta) * EPow P4
   (EVar vMst1) / (EPow P2 (EVar vMt) * EPow P4 (EVar vMst2)) + #291380477 * EVar vCbeta * EVar vMuSUSY * EPow P2
   (EVar vDmglst1) * EPow P3 (EVar vs2t) * EPow P4 (EVar vMst1) / (#16200 * EVar vSbeta * EPow P3 (EVar vMt) * EPow P4
   (EVar vMst2)) - #256 * EConst CB4 * EVar vCbeta * EVar vMuSUSY * EPow P2 (EVar vDmglst1) * EPow P3 (EVar vs2t) *
   EPow P4 (EVar vMst1) / (#3 * EVar vSbeta * EPow P3 (EVar vMt) * EPow P4 (EVar vMst2)) - #128 * EVar vCbeta * EConst
   CDN * EVar vMuSUSY * EPow P2 (EVar vDmglst1) * EPow P3 (EVar vs2t) * EPow P4 (EVar vMst1) / (#3 * EVar vSbeta *
   EPow P3 (EVar vMt) * EPow P4 (EVar vMst2)) + #119038 * EVar vCbeta * EVar vMuSUSY * EConst Cz2 * EPow P2 (EVar
   vDmglst1) * EPow P3 (EVar vs2t) * EPow P4 (EVar vMst1) / (#9 * EVar vSbeta * EPow P3 (EVar vMt) * EPow P4 (EVar
   vMst2)) - #31808 * EVar vCbeta * EVar vMuSUSY * EConst Cz3 * EPow P2 (EVar vDmglst1) * EPow P3 (EVar vs2t) * EPow
   P4 (EVar vMst1) / (#3 * EVar vSbeta * EPow P3 (EVar vMt) * EPow P4 (EVar vMst2)) + #640 * EVar vCbeta * EVar
   vMuSUSY * EConst Cz4 * EPow P2 (EVar vDmglst1) * EPow P3 (EVar vs2t) * EPow P4 (EVar vMst1) / (EVar vSbeta * EPow
   P3 (EVar vMt) * EPow P4 (EVar vMst2)) + #40864 * EPow P2 (EVar vs2t) * EPow P4 (EVar vMst2) / (#675 * EPow P2 (EVar
   vMsq) * EPow P2 (EVar vMt)) - #8 * EPow P2 (EVar vs2t) * EPow P4 (EVar vMst2) / (EPow P2 (EVar vMst1) * EPow P2
   (EVar vMt)) + #16 * EConst Cz2 * EPow P2 (EVar vs2t) * EPow P4 (EVar vMst2) / (EPow P2 (EVar vMst1) * EPow P2 (EVar
   vMt)) + #80 * EVar vDmglst1 * EPow P3 (EVar vs2t) * EPow P4 (EVar vMst2) / (#3 * EPow P2 (EVar vMsq) * EPow P3
   (EVar vMt)) + #80 * EVar vMst1 * EPow P3 (EVar vs2t) * EPow P4 (EVar vMst2) / (#3 * EPow P2 (EVar vMsq) * EPow P3
   (EVar vMt)) - #13597579 * EPow P4 (EVar vMst2) / (#77175 * EPow P4 (EVar vMsq)) - #6760 * EVar vDmglst1 * EVar vs2t
   * EPow P4 (EVar vMst2) / (#27 * EVar vMt * EPow P4 (EVar vMsq)) - #6760 * EVar vMst1 * EVar vs2t * EPow P4 (EVar
   vMst2) / (#27 * EVar vMt * EPow P4 (EVar vMsq)) + #80 * EConst Cz2 * EPow P4 (EVar vMst2) / EPow P4 (EVar vMsq) +
   #320 * EVar vDmglst1 * EVar vs2t * EConst Cz2 * EPow P4 (EVar vMst2) / (#3 * EVar vMt * EPow P4 (EVar vMsq)) + #320
   * EVar vMst1 * EVar vs2t * EConst Cz2 * EPow P4 (EVar vMst2) / (#3 * EVar vMt * EPow P4 (EVar vMsq)) - #130 * EVar
   vDmglst1 * EVar vMst1 * EPow P2 (EVar vs2t) * EPow P4 (EVar vMst2) / (#3 * EPow P2 (EVar vMt) * EPow P4 (EVar
   vMsq)) - #65 * EPow P2 (EVar vDmglst1) * EPow P2 (EVar vs2t) * EPow P4 (EVar vMst2) / (#3 * EPow P2 (EVar vMt) *
   EPow P4 (EVar vMsq)) - #438008 * EPow P2 (EVar vMst1) * EPow P2 (EVar vs2t) * EPow P4 (EVar vMst2) / (#15435 * EPow
   P2 (EVar vMt) * EPow P4 (EVar vMsq)) + #40 * EVar vMst1 * EPow P2 (EVar vDmglst1) * EPow P3 (EVar vs2t) * EPow P4
   (EVar vMst2) / (EPow P3 (EVar vMt) * EPow P4 (EVar vMsq)) + #455 * EVar vDmglst1 * EPow P2 (EVar vMst1) * EPow P3
   (EVar vs2t) * EPow P4 (EVar vMst2) / (#9 * EPow P3 (EVar vMt) * EPow P4 (EVar vMsq)) + #215 * EPow P3 (EVar vMst1)
   * EPow P3 (EVar vs2t) * EPow P4 (EVar vMst2) / (#9 * EPow P3 (EVar vMt) * EPow P4 (EVar vMsq)) + #438203 * EPow P2
   (EVar vDmglst1) * EPow P2 (EVar vMst1) * EPow P4 (EVar vs2t) / (#864 * EPow P4 (EVar vMt)) - #76 * EConst CB4 *
   EPow P2 (EVar vDmglst1) * EPow P2 (EVar vMst1) * EPow P4 (EVar vs2t) / (#3 * EPow P4 (EVar vMt)) - #14 * EConst CDN
   * EPow P2 (EVar vDmglst1) * EPow P2 (EVar vMst1) * EPow P4 (EVar vs2t) / EPow P4 (EVar vMt) - #1655 * EConst Cz2 *
   EPow P2 (EVar vDmglst1) * EPow P2 (EVar vMst1) * EPow P4 (EVar vs2t) / (#2 * EPow P4 (EVar vMt)) + #3975 * EConst
   Cz3 * EPow P2 (EVar vDmglst1) * EPow P2 (EVar vMst1) * EPow P4 (EVar vs2t) / (#2 * EPow P4 (EVar vMt)) + #1010 *
   EConst Cz4 * EPow P2 (EVar vDmglst1) * EPow P2 (EVar vMst1) * EPow P4 (EVar vs2t) / (#3 * EPow P4 (EVar vMt)) - #10
   * EPow P2 (EVar vMsq) * EPow P2 (EVar vMst1) * EPow P4 (EVar vs2t) / EPow P4 (EVar vMt) + #20 * EConst Cz2 * EPow
   P2 (EVar vMsq) * EPow P2 (EVar vMst1) * EPow P4 (EVar vs2t) / EPow P4 (EVar vMt) + #1151 * EVar vDmglst1 * EVar
   vMst1 * EPow P2 (EVar vMst2) * EPow P4 (EVar vs2t) / (#9 * EPow P4 (EVar vMt)) + #8 * EConst CB4 * EVar vDmglst1 *
   EVar vMst1 * EPow P2 (EVar vMst2) * EPow P4 (EVar vs2t) / EPow P4 (EVar vMt) + #20 * EVar vDmglst1 * EConst CDN *
   EVar vMst1 * EPow P2 (EVar vMst2) * EPow P4 (EVar vs2t) / (#3 * EPow P4 (EVar vMt)) + #388 * EVar vDmglst1 * EVar
   vMst1 * EConst Cz2 * EPow P2 (EVar vMst2) * EPow P4 (EVar vs2t) / EPow P4 (EVar vMt) + #270 * EVar vDmglst1 * EVar
   vMst1 * EConst Cz3 * EPow P2 (EVar vMst2) * EPow P4 (EVar vs2t) / EPow P4 (EVar vMt) - #1060 * EVar vDmglst1 * EVar
   vMst1 * EConst Cz4 * EPow P2 (EVar vMst2) * EPow P4 (EVar vs2t) / (#3 * EPow P4 (EVar vMt)) - #5885 * EPow P2 (EVar
   vDmglst1) * EPow P2 (EVar vMst2) * EPow P4 (EVar vs2t) / (#18 * EPow P4 (EVar vMt)) + #4 * EConst CB4 * EPow P2
   (EVar vDmglst1) * EPow P2 (EVar vMst2) * EPow P4 (EVar vs2t) / EPow P4 (EVar vMt) + #10 * EConst CDN * EPow P2
   (EVar vDmglst1) * EPow P2 (EVar vMst2) * EPow P4 (EVar vs2t) / (#3 * EPow P4 (EVar vMt)) + #194 * EConst Cz2 * EPow
   P2 (EVar vDmglst1) * EPow P2 (EVar vMst2) * EPow P4 (EVar vs2t) / EPow P4 (EVar vMt) + #437 * EConst Cz3 * EPow P2
   (EVar vDmglst1) * EPow P2 (EVar vMst2) * EPow P4 (EVar vs2t) / EPow P4 (EVar vMt) - #530 * EConst Cz4 * EPow P2
   (EVar vDmglst1) * EPow P2 (EVar vMst2) * EPow P4 (EVar vs2t) / (#3 * EPow P4 (EVar vMt)) - #10 * EPow P2 (EVar
   vMsq) * EPow P2 (EVar vMst2) * EPow P4 (EVar vs2t) / EPow P4 (EVar vMt) + #20 * EConst Cz2 * EPow P2 (EVar vMsq) *
   EPow P2 (EVar vMst2) * EPow P4 (EVar vs2t) / EPow P4 (EVar vMt) - #5876588 * EPow P2 (EVar vMst1) * EPow P2 (EVar
   vMst2) * EPow P4 (EVar vs2t) / (#10125 * EPow P4 (EVar vMt)) + #4 * EConst CB4 * EPow P2 (EVar vMst1) * EPow P2
   (EVar vMst2) * EPow P4 (EVar vs2t) / (#3 * EPow P4 (EVar vMt)) + #2 * EConst CDN * EPow P2 (EVar vMst1) * EPow P2
   (EVar vMst2) * EPow P4 (EVar vs2t) / EPow P4 (EVar vMt) + #400 * EConst COepS2 * EPow P2 (EVar vMst1) * EPow P2
   (EVar vMst2) * EPow P4 (EVar vs2t) / (#81 * EPow P4 (EVar vMt)) - #394 * EConst CS2 * EPow P2 (EVar vMst1) * EPow
   P2 (EVar vMst2) * EPow P4 (EVar vs2t) / EPow P4 (EVar vMt) - #200 * EConst CT1ep * EPow P2 (EVar vMst1) * EPow P2
   (EVar vMst2) * EPow P4 (EVar vs2t) / (#27 * EPow P4 (EVar vMt)) + #5737 * EConst Cz2 * EPow P2 (EVar vMst1) * EPow
   P2 (EVar vMst2) * EPow P4 (EVar vs2t) / (#27 * EPow P4 (EVar vMt)) + #11662 * EConst Cz3 * EPow P2 (EVar vMst1) *
   EPow P2 (EVar vMst2) * EPow P4 (EVar vs2t) / (#27 * EPow P4 (EVar vMt)) - #4330 * EConst Cz4 * EPow P2 (EVar vMst1)
   * EPow P2 (EVar vMst2) * EPow P4 (EVar vs2t) / (#27 * EPow P4 (EVar vMt)) - #3850 * EPow P2 (EVar vDmglst1) * EPow
   P2 (EVar vMst1) * EPow P2 (EVar vMst2) * EPow P4 (EVar vs2t) / (#9 * EPow P2 (EVar vMsq) * EPow P4 (EVar vMt)) -
   #200 * EConst Cz2 * EPow P2 (EVar vDmglst1) * EPow P2 (EVar vMst1) * EPow P2 (EVar vMst2) * EPow P4 (EVar vs2t) /
   (EPow P2 (EVar vMsq) * EPow P4 (EVar vMt)) + #8 * EPow P2 (EVar vDmglst1) * EPow P2 (EVar vMst1) * EPow P2 (EConst
   Cz2) * EPow P4 (EVar vs2t) / (#3 * EPow P4 (EVar vMt)) - #16 * EVar vDmglst1 * EVar vMst1 * EPow P2 (EVar vMst2) *
   EPow P2 (EConst Cz2) * EPow P4 (EVar vs2t) / (#3 * EPow P4 (EVar vMt)) - #8 * EPow P2 (EVar vDmglst1) * EPow P2
   (EVar vMst2) * EPow P2 (EConst Cz2) * EPow P4 (EVar vs2t) / (#3 * EPow P4 (EVar vMt)) - #74 * EPow P2 (EVar vMst1)
   * EPow P2 (EVar vMst2) * EPow P2 (EConst Cz2) * EPow P4 (EVar vs2t) / (#9 * EPow P4 (EVar vMt)) - #773389 * EVar
   vDmglst1 * EPow P3 (EVar vMst1) * EPow P4 (EVar vs2t) / (#1296 * EPow P4 (EVar vMt)) - #8 * EConst CB4 * EVar
   vDmglst1 * EPow P3 (EVar vMst1) * EPow P4 (EVar vs2t) / EPow P4 (EVar vMt) - #20 * EVar vDmglst1 * EConst CDN *
   EPow P3 (EVar vMst1) * EPow P4 (EVar vs2t) / (#3 * EPow P4 (EVar vMt)) - #7153 * EVar vDmglst1 * EConst Cz2 * EPow
   P3 (EVar vMst1) * EPow P4 (EVar vs2t) / (#9 * EPow P4 (EVar vMt)) + #5077 * EVar vDmglst1 * EConst Cz3 * EPow P3
   (EVar vMst1) * EPow P4 (EVar vs2t) / (#3 * EPow P4 (EVar vMt)) + #1060 * EVar vDmglst1 * EConst Cz4 * EPow P3 (EVar
   vMst1) * EPow P4 (EVar vs2t) / (#3 * EPow P4 (EVar vMt)) - #2740 * EVar vDmglst1 * EPow P2 (EVar vMst2) * EPow P3
   (EVar vMst1) * EPow P4 (EVar vs2t) / (#9 * EPow P2 (EVar vMsq) * EPow P4 (EVar vMt)) - #400 * EVar vDmglst1 *
   EConst Cz2 * EPow P2 (EVar vMst2) * EPow P3 (EVar vMst1) * EPow P4 (EVar vs2t) / (#3 * EPow P2 (EVar vMsq) * EPow
   P4 (EVar vMt)) + #16 * EVar vDmglst1 * EPow P2 (EConst Cz2) * EPow P3 (EVar vMst1) * EPow P4 (EVar vs2t) / (#3 *
   EPow P4 (EVar vMt)) - #257823187891 * EPow P4 (EVar vMst1) * EPow P4 (EVar vs2t) / (#666792000 * EPow P4 (EVar
   vMt)) - #40 * EConst CB4 * EPow P4 (EVar vMst1) * EPow P4 (EVar vs2t) / (#3 * EPow P4 (EVar vMt)) - #2 * EConst CDN
   * EPow P4 (EVar vMst1) * EPow P4 (EVar vs2t) / (#3 * EPow P4 (EVar vMt)) - #88 * EConst COepS2 * EPow P4 (EVar
   vMst1) * EPow P4 (EVar vs2t) / (#243 * EPow P4 (EVar vMt)) + #281 * EConst CS2 * EPow P4 (EVar vMst1) * EPow P4
   (EVar vs2t) / (#9 * EPow P4 (EVar vMt)) + #44 * EConst CT1ep * EPow P4 (EVar vMst1) * EPow P4 (EVar vs2t) / (#81 *
   EPow P4 (EVar vMt)) - #98497 * EConst Cz2 * EPow P4 (EVar vMst1) * EPow P4 (EVar vs2t) / (#324 * EPow P4 (EVar
   vMt)) + #38672 * EConst Cz3 * EPow P4 (EVar vMst1) * EPow P4 (EVar vs2t) / (#81 * EPow P4 (EVar vMt)) + #6124 *
   EConst Cz4 * EPow P4 (EVar vMst1) * EPow P4 (EVar vs2t) / (#81 * EPow P4 (EVar vMt)) + #10 * EPow P2 (EVar vMsq) *
   EPow P4 (EVar vMst1) * EPow P4 (EVar vs2t) / (EPow P2 (EVar vMst2) * EPow P4 (EVar vMt)) - #20 * EConst Cz2 * EPow
   P2 (EVar vMsq) * EPow P4 (EVar vMst1) * EPow P4 (EVar vs2t) / (EPow P2 (EVar vMst2) * EPow P4 (EVar vMt)) - #4136 *
   EPow P2 (EVar vMst2) * EPow P4 (EVar vMst1) * EPow P4 (EVar vs2t) / (#45 * EPow P2 (EVar vMsq) * EPow P4 (EVar
   vMt)) - #100 * EConst Cz2 * EPow P2 (EVar vMst2) * EPow P4 (EVar vMst1) * EPow P4 (EVar vs2t) / (#3 * EPow P2 (EVar
   vMsq) * EPow P4 (EVar vMt)) + #371 * EPow P2 (EConst Cz2) * EPow P4 (EVar vMst1) * EPow P4 (EVar vs2t) / (#27 *
   EPow P4 (EVar vMt)) + #53749 * EPow P4 (EVar vMst2) * EPow P4 (EVar vs2t) / (#216 * EPow P4 (EVar vMt)) + #12 *
   EConst CB4 * EPow P4 (EVar vMst2) * EPow P4 (EVar vs2t) / EPow P4 (EVar vMt) - #4 * EConst CDN * EPow P4 (EVar
   vMst2) * EPow P4 (EVar vs2t) / (#3 * EPow P4 (EVar vMt)) + #7 * EVar vDmglst1 * EPow P4 (EVar vMst2) * EPow P4
   (EVar vs2t) / (#6 * EVar vMst1 * EPow P4 (EVar vMt)) + #8 * EConst COepS2 * EPow P4 (EVar vMst2) * EPow P4 (EVar
   vs2t) / (#9 * EPow P4 (EVar vMt)) + #99 * EConst CS2 * EPow P4 (EVar vMst2) * EPow P4 (EVar vs2t) / EPow P4 (EVar
   vMt) - #4 * EConst CT1ep * EPow P4 (EVar vMst2) * EPow P4 (EVar vs2t) / (#3 * EPow P4 (EVar vMt)) - #109 * EConst
   Cz2 * EPow P4 (EVar vMst2) * EPow P4 (EVar vs2t) / EPow P4 (EVar vMt) + #66 * EVar vDmglst1 * EConst Cz2 * EPow P4
   (EVar vMst2) * EPow P4 (EVar vs2t) / (EVar vMst1 * EPow P4 (EVar vMt)) + #328 * EConst Cz3 * EPow P4 (EVar vMst2) *
   EPow P4 (EVar vs2t) / (#3 * EPow P4 (EVar vMt)) - #65 * EVar vDmglst1 * EConst Cz3 * EPow P4 (EVar vMst2) * EPow P4
   (EVar vs2t) / (EVar vMst1 * EPow P4 (EVar vMt)) + #242 * EConst Cz4 * EPow P4 (EVar vMst2) * EPow P4 (EVar vs2t) /
   (#3 * EPow P4 (EVar vMt)) + #820 * EVar vDmglst1 * EVar vMst1 * EPow P4 (EVar vMst2) * EPow P4 (EVar vs2t) / (#9 *
   EPow P2 (EVar vMsq) * EPow P4 (EVar vMt)) + #20 * EVar vDmglst1 * EVar vMst1 * EConst Cz2 * EPow P4 (EVar vMst2) *
   EPow P4 (EVar vs2t) / (EPow P2 (EVar vMsq) * EPow P4 (EVar vMt)) + #800 * EPow P2 (EVar vDmglst1) * EPow P4 (EVar
   vMst2) * EPow P4 (EVar vs2t) / (#9 * EPow P2 (EVar vMsq) * EPow P4 (EVar vMt)) + #10 * EConst Cz2 * EPow P2 (EVar
   vDmglst1) * EPow P4 (EVar vMst2) * EPow P4 (EVar vs2t) / (EPow P2 (EVar vMsq) * EPow P4 (EVar vMt)) + #6415 * EPow
   P2 (EVar vDmglst1) * EPow P4 (EVar vMst2) * EPow P4 (EVar vs2t) / (#36 * EPow P2 (EVar vMst1) * EPow P4 (EVar vMt))
   + #33 * EConst Cz2 * EPow P2 (EVar vDmglst1) * EPow P4 (EVar vMst2) * EPow P4 (EVar vs2t) / (EPow P2 (EVar vMst1) *
   EPow P4 (EVar vMt)) - #381 * EConst Cz3 * EPow P2 (EVar vDmglst1) * EPow P4 (EVar vMst2) * EPow P4 (EVar vs2t) /
   (#2 * EPow P2 (EVar vMst1) * EPow P4 (EVar vMt)) + #10 * EPow P2 (EVar vMsq) * EPow P4 (EVar vMst2) * EPow P4 (EVar
   vs2t) / (EPow P2 (EVar vMst1) * EPow P4 (EVar vMt)) - #20 * EConst Cz2 * EPow P2 (EVar vMsq) * EPow P4 (EVar vMst2)
   * EPow P4 (EVar vs2t) / (EPow P2 (EVar vMst1) * EPow P4 (EVar vMt)) + #2714 * EPow P2 (EVar vMst1) * EPow P4 (EVar
   vMst2) * EPow P4 (EVar vs2t) / (#45 * EPow P2 (EVar vMsq) * EPow P4 (EVar vMt)) + #10 * EConst Cz2 * EPow P2 (EVar
   vMst1) * EPow P4 (EVar vMst2) * EPow P4 (EVar vs2t) / (EPow P2 (EVar vMsq) * EPow P4 (EVar vMt)) - #35 * EPow P2
   (EConst Cz2) * EPow P4 (EVar vMst2) * EPow P4 (EVar vs2t) / (#3 * EPow P4 (EVar vMt)) + #10765 * EPow P2 (EVar
   vDmglst1) * EPow P2 (EVar vMst1) * EPow P4 (EVar vMst2) * EPow P4 (EVar vs2t) / (#72 * EPow P4 (EVar vMsq) * EPow
   P4 (EVar vMt)) + #25 * EConst Cz2 * EPow P2 (EVar vDmglst1) * EPow P2 (EVar vMst1) * EPow P4 (EVar vMst2) * EPow P4
   (EVar vs2t) / (EPow P4 (EVar vMsq) * EPow P4 (EVar vMt)) + #2605 * EVar vDmglst1 * EPow P3 (EVar vMst1) * EPow P4
   (EVar vMst2) * EPow P4 (EVar vs2t) / (#36 * EPow P4 (EVar vMsq) * EPow P4 (EVar vMt)) + #50 * EVar vDmglst1 *
   EConst Cz2 * EPow P3 (EVar vMst1) * EPow P4 (EVar vMst2) * EPow P4 (EVar vs2t) / (#3 * EPow P4 (EVar vMsq) * EPow
   P4 (EVar vMt)) + #1009961 * EPow P4 (EVar vMst1) * EPow P4 (EVar vMst2) * EPow P4 (EVar vs2t) / (#51450 * EPow P4
   (EVar vMsq) * EPow P4 (EVar vMt)) + #25 * EConst Cz2 * EPow P4 (EVar vMst1) * EPow P4 (EVar vMst2) * EPow P4 (EVar
   vs2t) / (#6 * EPow P4 (EVar vMsq) * EPow P4 (EVar vMt)) + #194 * EPow P2 (EVar vDmglst1) * EPow P2 (EVar vs2t) *
   EPow P4 (EVar vMst1) * EPow P4 (EVar vSbeta) / (#3 * EPow P2 (EVar vMt) * EPow P4 (EVar vMst2)) - #16 * EConst CB4
   * EPow P2 (EVar vDmglst1) * EPow P2 (EVar vs2t) * EPow P4 (EVar vMst1) * EPow P4 (EVar vSbeta) / (EPow P2 (EVar
   vMt) * EPow P4 (EVar vMst2)) - #8 * EConst CDN * EPow P2 (EVar vDmglst1) * EPow P2 (EVar vs2t) * EPow P4 (EVar
   vMst1) * EPow P4 (EVar vSbeta) / (EPow P2 (EVar vMt) * EPow P4 (EVar vMst2)) - #1400 * EConst Cz2 * EPow P2 (EVar
   vDmglst1) * EPow P2 (EVar vs2t) * EPow P4 (EVar vMst1) * EPow P4 (EVar vSbeta) / (#3 * EPow P2 (EVar vMt) * EPow P4
   (EVar vMst2)) + #1048 * EConst Cz3 * EPow P2 (EVar vDmglst1) * EPow P2 (EVar vs2t) * EPow P4 (EVar vMst1) * EPow P4
   (EVar vSbeta) / (EPow P2 (EVar vMt) * EPow P4 (EVar vMst2)) + #120 * EConst Cz4 * EPow P2 (EVar vDmglst1) * EPow P2
   (EVar vs2t) * EPow P4 (EVar vMst1) * EPow P4 (EVar vSbeta) / (EPow P2 (EVar vMt) * EPow P4 (EVar vMst2)) - #320 *
   EVar vs2t * EPow P5 (EVar vMst1) / (#3 * EVar vMt * EPow P2 (EVar vMsq) * EPow P2 (EVar vMst2)) - #1280 * EVar vs2t
   * EConst Cz2 * EPow P5 (EVar vMst1) / (EVar vMt * EPow P2 (EVar vMsq) * EPow P2 (EVar vMst2)) + #6640 * EPow P3
   (EVar vs2t) * EPow P5 (EVar vMst1) / (#9 * EPow P2 (EVar vMsq) * EPow P3 (EVar vMt)) + #640 * EConst Cz2 * EPow P3
   (EVar vs2t) * EPow P5 (EVar vMst1) / (#3 * EPow P2 (EVar vMsq) * EPow P3 (EVar vMt)) - #622151 * EPow P3 (EVar
   vs2t) * EPow P5 (EVar vMst1) / (#324 * EPow P2 (EVar vMst2) * EPow P3 (EVar vMt)) + #2948 * EConst Cz2 * EPow P3
   (EVar vs2t) * EPow P5 (EVar vMst1) / (#9 * EPow P2 (EVar vMst2) * EPow P3 (EVar vMt)) + #1384 * EConst Cz3 * EPow
   P3 (EVar vs2t) * EPow P5 (EVar vMst1) / (EPow P2 (EVar vMst2) * EPow P3 (EVar vMt)) + #6140 * EVar vCbeta * EVar
   vDmglst1 * EVar vMuSUSY * EPow P3 (EVar vs2t) * EPow P5 (EVar vMst1) / (#9 * EVar vSbeta * EPow P2 (EVar vMsq) *
   EPow P2 (EVar vMst2) * EPow P3 (EVar vMt)) + #8000 * EVar vs2t * EPow P5 (EVar vMst1) / (#9 * EVar vMt * EPow P4
   (EVar vMsq)) - #320 * EVar vs2t * EConst Cz2 * EPow P5 (EVar vMst1) / (EVar vMt * EPow P4 (EVar vMsq)) - #1820 *
   EVar vCbeta * EVar vDmglst1 * EVar vMuSUSY * EVar vs2t * EPow P5 (EVar vMst1) / (#3 * EVar vMt * EVar vSbeta * EPow
   P2 (EVar vMst2) * EPow P4 (EVar vMsq)) + #3560 * EVar vCbeta * EVar vMuSUSY * EPow P2 (EVar vDmglst1) * EPow P2
   (EVar vs2t) * EPow P5 (EVar vMst1) / (EVar vSbeta * EPow P2 (EVar vMst2) * EPow P2 (EVar vMt) * EPow P4 (EVar
   vMsq)) + #4320 * EVar vCbeta * EVar vMuSUSY * EConst Cz2 * EPow P2 (EVar vDmglst1) * EPow P2 (EVar vs2t) * EPow P5
   (EVar vMst1) / (EVar vSbeta * EPow P2 (EVar vMst2) * EPow P2 (EVar vMt) * EPow P4 (EVar vMsq)) - #1030 * EVar
   vDmglst1 * EPow P2 (EVar vMuSUSY) * EPow P2 (EVar vs2t) * EPow P5 (EVar vMst1) / (#3 * EPow P2 (EVar vMst2) * EPow
   P2 (EVar vMt) * EPow P4 (EVar vMsq)) - #880 * EVar vDmglst1 * EConst Cz2 * EPow P2 (EVar vMuSUSY) * EPow P2 (EVar
   vs2t) * EPow P5 (EVar vMst1) / (#3 * EPow P2 (EVar vMst2) * EPow P2 (EVar vMt) * EPow P4 (EVar vMsq)) + #1030 *
   EVar vDmglst1 * EPow P2 (EVar vMuSUSY) * EPow P2 (EVar vs2t) * EPow P5 (EVar vMst1) / (#3 * EPow P2 (EVar vMst2) *
   EPow P2 (EVar vMt) * EPow P2 (EVar vSbeta) * EPow P4 (EVar vMsq)) + #880 * EVar vDmglst1 * EConst Cz2 * EPow P2
   (EVar vMuSUSY) * EPow P2 (EVar vs2t) * EPow P5 (EVar vMst1) / (#3 * EPow P2 (EVar vMst2) * EPow P2 (EVar vMt) *
   EPow P2 (EVar vSbeta) * EPow P4 (EVar vMsq)) - #3970 * EVar vCbeta * EVar vDmglst1 * EVar vMuSUSY * EPow P3 (EVar
   vs2t) * EPow P5 (EVar vMst1) / (#9 * EVar vSbeta * EPow P3 (EVar vMt) * EPow P4 (EVar vMsq)) - #640 * EVar vCbeta *
   EVar vDmglst1 * EVar vMuSUSY * EConst Cz2 * EPow P3 (EVar vs2t) * EPow P5 (EVar vMst1) / (#3 * EVar vSbeta * EPow
   P3 (EVar vMt) * EPow P4 (EVar vMsq)) - #1715 * EPow P2 (EVar vMst2) * EPow P3 (EVar vs2t) * EPow P5 (EVar vMst1) /
   (#9 * EPow P3 (EVar vMt) * EPow P4 (EVar vMsq)) - #40 * EConst Cz2 * EPow P2 (EVar vMst2) * EPow P3 (EVar vs2t) *
   EPow P5 (EVar vMst1) / (EPow P3 (EVar vMt) * EPow P4 (EVar vMsq)) - #324688 * EVar vs2t * EPow P5 (EVar vMst1) /
   (#81 * EVar vMt * EPow P4 (EVar vMst2)) + #146848 * EVar vs2t * EConst Cz2 * EPow P5 (EVar vMst1) / (#9 * EVar vMt
   * EPow P4 (EVar vMst2)) - #28672 * EVar vs2t * EConst Cz3 * EPow P5 (EVar vMst1) / (#3 * EVar vMt * EPow P4 (EVar
   vMst2)) - #4160 * EVar vCbeta * EVar vDmglst1 * EVar vMuSUSY * EVar vs2t * EPow P5 (EVar vMst1) / (#3 * EVar vMt *
   EVar vSbeta * EPow P2 (EVar vMsq) * EPow P4 (EVar vMst2)) + #11116 * EVar vDmglst1 * EPow P2 (EVar vs2t) * EPow P5
   (EVar vMst1) / (#81 * EPow P2 (EVar vMt) * EPow P4 (EVar vMst2)) - #32 * EConst CB4 * EVar vDmglst1 * EPow P2 (EVar
   vs2t) * EPow P5 (EVar vMst1) / (EPow P2 (EVar vMt) * EPow P4 (EVar vMst2)) - #16 * EVar vDmglst1 * EConst CDN *
   EPow P2 (EVar vs2t) * EPow P5 (EVar vMst1) / (EPow P2 (EVar vMt) * EPow P4 (EVar vMst2)) - #3536 * EVar vDmglst1 *
   EConst Cz2 * EPow P2 (EVar vs2t) * EPow P5 (EVar vMst1) / (#9 * EPow P2 (EVar vMt) * EPow P4 (EVar vMst2)) + #416 *
   EVar vDmglst1 * EConst Cz3 * EPow P2 (EVar vs2t) * EPow P5 (EVar vMst1) / (EPow P2 (EVar vMt) * EPow P4 (EVar
   vMst2)) + #240 * EVar vDmglst1 * EConst Cz4 * EPow P2 (EVar vs2t) * EPow P5 (EVar vMst1) / (EPow P2 (EVar vMt) *
   EPow P4 (EVar vMst2)) + #400 * EVar vCbeta * EVar vMuSUSY * EPow P2 (EVar vDmglst1) * EPow P2 (EVar vs2t) * EPow P5
   (EVar vMst1) / (EVar vSbeta * EPow P2 (EVar vMsq) * EPow P2 (EVar vMt) * EPow P4 (EVar vMst2)) + #7680 * EVar
   vCbeta * EVar vMuSUSY * EConst Cz2 * EPow P2 (EVar vDmglst1) * EPow P2 (EVar vs2t) * EPow P5 (EVar vMst1) / (EVar
   vSbeta * EPow P2 (EVar vMsq) * EPow P2 (EVar vMt) * EPow P4 (EVar vMst2)) + #1160 * EVar vDmglst1 * EPow P2 (EVar
   vMuSUSY) * EPow P2 (EVar vs2t) * EPow P5 (EVar vMst1) / (#3 * EPow P2 (EVar vMsq) * EPow P2 (EVar vMt) * EPow P4
   (EVar vMst2)) - #2240 * EVar vDmglst1 * EConst Cz2 * EPow P2 (EVar vMuSUSY) * EPow P2 (EVar vs2t) * EPow P5 (EVar
   vMst1) / (#3 * EPow P2 (EVar vMsq) * EPow P2 (EVar vMt) * EPow P4 (EVar vMst2)) - #1160 * EVar vDmglst1 * EPow P2
   (EVar vMuSUSY) * EPow P2 (EVar vs2t) * EPow P5 (EVar vMst1) / (#3 * EPow P2 (EVar vMsq) * EPow P2 (EVar vMt) * EPow
   P2 (EVar vSbeta) * EPow P4 (EVar vMst2)) + #2240 * EVar vDmglst1 * EConst Cz2 * EPow P2 (EVar vMuSUSY) * EPow P2
   (EVar vs2t) * EPow P5 (EVar vMst1) / (#3 * EPow P2 (EVar vMsq) * EPow P2 (EVar vMt) * EPow P2 (EVar vSbeta) * EPow
   P4 (EVar vMst2)) - #22232 * EVar vDmglst1 * EPow P2 (EVar vs2t) * EPow P2 (EVar vSbeta) * EPow P5 (EVar vMst1) /
   (#81 * EPow P2 (EVar vMt) * EPow P4 (EVar vMst2)) + #64 * EConst CB4 * EVar vDmglst1 * EPow P2 (EVar vs2t) * EPow
   P2 (EVar vSbeta) * EPow P5 (EVar vMst1) / (EPow P2 (EVar vMt) * EPow P4 (EVar vMst2)) + #32 * EVar vDmglst1 *
   EConst CDN * EPow P2 (EVar vs2t) * EPow P2 (EVar vSbeta) * EPow P5 (EVar vMst1) / (EPow P2 (EVar vMt) * EPow P4
   (EVar vMst2)) + #7072 * EVar vDmglst1 * EConst Cz2 * EPow P2 (EVar vs2t) * EPow P2 (EVar vSbeta) * EPow P5 (EVar
   vMst1) / (#9 * EPow P2 (EVar vMt) * EPow P4 (EVar vMst2)) - #832 * EVar vDmglst1 * EConst Cz3 * EPow P2 (EVar vs2t)
   * EPow P2 (EVar vSbeta) * EPow P5 (EVar vMst1) / (EPow P2 (EVar vMt) * EPow P4 (EVar vMst2)) - #480 * EVar vDmglst1
   * EConst Cz4 * EPow P2 (EVar vs2t) * EPow P2 (EVar vSbeta) * EPow P5 (EVar vMst1) / (EPow P2 (EVar vMt) * EPow P4
   (EVar vMst2)) + #302282291 * EVar vCbeta * EVar vDmglst1 * EVar vMuSUSY * EPow P3 (EVar vs2t) * EPow P5 (EVar
   vMst1) / (#40500 * EVar vSbeta * EPow P3 (EVar vMt) * EPow P4 (EVar vMst2)) + #63364 * EVar vCbeta * EVar vDmglst1
   * EVar vMuSUSY * EConst Cz2 * EPow P3 (EVar vs2t) * EPow P5 (EVar vMst1) / (#45 * EVar vSbeta * EPow P3 (EVar vMt)
   * EPow P4 (EVar vMst2)) - #1408 * EVar vCbeta * EVar vDmglst1 * EVar vMuSUSY * EConst Cz3 * EPow P3 (EVar vs2t) *
   EPow P5 (EVar vMst1) / (#3 * EVar vSbeta * EPow P3 (EVar vMt) * EPow P4 (EVar vMst2)) + #6960 * EVar vCbeta * EVar
   vMuSUSY * EPow P2 (EVar vDmglst1) * EPow P5 (EVar vMst1) / (EVar vSbeta * EPow P4 (EVar vMsq) * EPow P4 (EVar
   vMst2)) - #8960 * EVar vCbeta * EVar vMuSUSY * EConst Cz2 * EPow P2 (EVar vDmglst1) * EPow P5 (EVar vMst1) / (EVar
   vSbeta * EPow P4 (EVar vMsq) * EPow P4 (EVar vMst2)) - #35920 * EVar vs2t * EPow P2 (EVar vDmglst1) * EPow P2 (EVar
   vMuSUSY) * EPow P5 (EVar vMst1) / (#9 * EVar vMt * EPow P4 (EVar vMsq) * EPow P4 (EVar vMst2)) + #4160 * EVar vs2t
   * EConst Cz2 * EPow P2 (EVar vDmglst1) * EPow P2 (EVar vMuSUSY) * EPow P5 (EVar vMst1) / (EVar vMt * EPow P4 (EVar
   vMsq) * EPow P4 (EVar vMst2)) + #35920 * EVar vs2t * EPow P2 (EVar vDmglst1) * EPow P2 (EVar vMuSUSY) * EPow P5
   (EVar vMst1) / (#9 * EVar vMt * EPow P2 (EVar vSbeta) * EPow P4 (EVar vMsq) * EPow P4 (EVar vMst2)) - #4160 * EVar
   vs2t * EConst Cz2 * EPow P2 (EVar vDmglst1) * EPow P2 (EVar vMuSUSY) * EPow P5 (EVar vMst1) / (EVar vMt * EPow P2
   (EVar vSbeta) * EPow P4 (EVar vMsq) * EPow P4 (EVar vMst2)) + #11116 * EVar vDmglst1 * EPow P2 (EVar vs2t) * EPow
   P4 (EVar vSbeta) * EPow P5 (EVar vMst1) / (#81 * EPow P2 (EVar vMt) * EPow P4 (EVar vMst2)) - #32 * EConst CB4 *
   EVar vDmglst1 * EPow P2 (EVar vs2t) * EPow P4 (EVar vSbeta) * EPow P5 (EVar vMst1) / (EPow P2 (EVar vMt) * EPow P4
   (EVar vMst2)) - #16 * EVar vDmglst1 * EConst CDN * EPow P2 (EVar vs2t) * EPow P4 (EVar vSbeta) * EPow P5 (EVar
   vMst1) / (EPow P2 (EVar vMt) * EPow P4 (EVar vMst2)) - #3536 * EVar vDmglst1 * EConst Cz2 * EPow P2 (EVar vs2t) *
   EPow P4 (EVar vSbeta) * EPow P5 (EVar vMst1) / (#9 * EPow P2 (EVar vMt) * EPow P4 (EVar vMst2)) + #416 * EVar
   vDmglst1 * EConst Cz3 * EPow P2 (EVar vs2t) * EPow P4 (EVar vSbeta) * EPow P5 (EVar vMst1) / (EPow P2 (EVar vMt) *
   EPow P4 (EVar vMst2)) + #240 * EVar vDmglst1 * EConst Cz4 * EPow P2 (EVar vs2t) * EPow P4 (EVar vSbeta) * EPow P5
   (EVar vMst1) / (EPow P2 (EVar vMt) * EPow P4 (EVar vMst2)) - #7399303 * EVar vCbeta * EVar vMuSUSY * EPow P3 (EVar
   vs2t) * EPow P6 (EVar vMst2) / (#926100 * EVar vSbeta * EPow P3 (EVar vMt) * EPow P4 (EVar vMsq)) - EPow P2 (ELog
   (EPow P2 (EVar vMst1) / EPow P2 (EVar vMsq))) * (#105 * EVar vSbeta * ELog (EPow P2 (EVar vMst1) / EPow P2 (EVar
   vMst2)) * EPow P2 (EVar vMst1) * EPow P2 (EVar vMst2) * EPow P4 (EVar vMsq) * (#8 * (- EPow P2 (EVar vMst1) + EPow
   P2 (EVar vMst2)) * EPow P2 (EVar vMt) * EPow P2 (EVar vs2t) + #64 * (EVar vDmglst1 + EVar vMst1) * EVar vs2t * EPow
   P3 (EVar vMt) - #16 * (EVar vDmglst1 + EVar vMst1) * EVar vMt * (EPow P2 (EVar vMst1) + EPow P2 (EVar vMst2)) *
   EPow P3 (EVar vs2t) + #16 * EPow P4 (EVar vMt) + (EPow P2 (EVar vMst1) - EPow P2 (EVar vMst2)) * (#12 * EVar
   vDmglst1 * EVar vMst1 + #6 * EPow P2 (EVar vDmglst1) + #7 * EPow P2 (EVar vMst1) + EPow P2 (EVar vMst2)) * EPow P4
   (EVar vs2t)) + EVar vSbeta * (#105 * EPow P2 (EVar vDmglst1) * (#16 * EPow P2 (EVar vMst1) * EPow P2 (EVar vMst2) *
   (- #11 * EVar vMt * EPow P2 (EVar vMst1) - EVar vMt * EPow P2 (EVar vMst2) - #4 * EVar vMst1 * EVar vs2t * EPow P2
   (EVar vMst2) + #4 * EVar vs2t * EPow P3 (EVar vMst1)) * EPow P3 (EVar vMt) - #64 * EPow P2 (EVar vMsq) * EPow P2
   (EVar vMst1) * EPow P2 (EVar vMst2) * EPow P4 (EVar vMt) + #3 * EPow P4 (EVar vMsq) * (- EPow P2 (- #4 * EVar vMst2
   * EPow P2 (EVar vMt) + EPow P2 (EVar vs2t) * EPow P3 (EVar vMst2)) + EPow P4 (EVar vMst1) * (#8 * EPow P2 (EVar
   vMt) * EPow P2 (EVar vs2t) + EPow P2 (EVar vMst2) * EPow P4 (EVar vs2t)) + EPow P2 (EVar vMst1) * (- #16 * EPow P2
   (EVar vMst2) * EPow P2 (EVar vMt) * EPow P2 (EVar vs2t) - #16 * EPow P4 (EVar vMt) + EPow P4 (EVar vMst2) * EPow P4
   (EVar vs2t)))) + #70 * EVar vDmglst1 * EVar vMst1 * (#64 * EVar vMst1 * EPow P2 (EVar vMsq) * EPow P2 (EVar vMst2)
   * (- #3 * EVar vMst1 * EVar vMt + EVar vs2t * EPow P2 (EVar vMst1) - EVar vs2t * EPow P2 (EVar vMst2)) * EPow P3
   (EVar vMt) + #16 * EVar vMst1 * EPow P2 (EVar vMst2) * EPow P3 (EVar vMt) * (- #3 * EVar vMst1 * EVar vMt * EPow P2
   (EVar vMst2) - #6 * EVar vs2t * EPow P2 (EVar vMst1) * EPow P2 (EVar vMst2) - #13 * EVar vMt * EPow P3 (EVar vMst1)
   + #7 * EVar vs2t * EPow P4 (EVar vMst1) - EVar vs2t * EPow P4 (EVar vMst2)) + #3 * EPow P4 (EVar vMsq) * (- #3 *
   EPow P2 (- #4 * EVar vMst2 * EPow P2 (EVar vMt) + EPow P2 (EVar vs2t) * EPow P3 (EVar vMst2)) + #16 * EVar vMt *
   EPow P2 (EVar vMst2) * EPow P3 (EVar vMst1) * EPow P3 (EVar vs2t) - #16 * EVar vMst1 * EVar vMt * EPow P3 (EVar
   vs2t) * EPow P4 (EVar vMst2) + #3 * EPow P4 (EVar vMst1) * (#8 * EPow P2 (EVar vMt) * EPow P2 (EVar vs2t) + EPow P2
   (EVar vMst2) * EPow P4 (EVar vs2t)) + EPow P2 (EVar vMst1) * (- #48 * EPow P2 (EVar vMst2) * EPow P2 (EVar vMt) *
   EPow P2 (EVar vs2t) - #48 * EPow P4 (EVar vMt) + #3 * EPow P4 (EVar vMst2) * EPow P4 (EVar vs2t)))) + EPow P2 (EVar
   vMst1) * (- #224 * EPow P2 (EVar vMsq) * EPow P2 (EVar vMst2) * EPow P2 (EVar vMt) * (#20 * EVar vMst1 * EVar vMt *
   EVar vs2t * EPow P2 (EVar vMst2) + #7 * EPow P2 (EVar vMst2) * EPow P2 (EVar vMt) + EPow P2 (EVar vMst1) * (#37 *
   EPow P2 (EVar vMt) - #2 * EPow P2 (EVar vMst2) * EPow P2 (EVar vs2t)) - #20 * EVar vMt * EVar vs2t * EPow P3 (EVar
   vMst1) + EPow P2 (EVar vs2t) * EPow P4 (EVar vMst1) + EPow P2 (EVar vs2t) * EPow P4 (EVar vMst2)) + #2 * EPow P2
   (EVar vMst2) * (- #1120 * EVar vs2t * EPow P2 (EVar vMst2) * EPow P3 (EVar vMst1) * EPow P3 (EVar vMt) - #560 *
   EVar vMst1 * EVar vs2t * EPow P3 (EVar vMt) * EPow P4 (EVar vMst2) - #228 * EPow P4 (EVar vMst2) * EPow P4 (EVar
   vMt) + #30 * EPow P2 (EVar vMst1) * (EPow P2 (EVar vMt) * EPow P2 (EVar vs2t) * EPow P4 (EVar vMst2) - #28 * EPow
   P2 (EVar vMst2) * EPow P4 (EVar vMt)) + EPow P4 (EVar vMst1) * (#30 * EPow P2 (EVar vMst2) * EPow P2 (EVar vMt) *
   EPow P2 (EVar vs2t) - #2468 * EPow P4 (EVar vMt) + #3 * EPow P4 (EVar vMst2) * EPow P4 (EVar vs2t)) + #1680 * EVar
   vs2t * EPow P3 (EVar vMt) * EPow P5 (EVar vMst1)) + #35 * EPow P4 (EVar vMsq) * (#96 * EVar vMt * EPow P2 (EVar
   vMst2) * EPow P3 (EVar vMst1) * EPow P3 (EVar vs2t) + #72 * EPow P2 (EVar vMt) * EPow P2 (EVar vs2t) * EPow P4
   (EVar vMst2) - #96 * EVar vMst1 * EVar vMt * EPow P3 (EVar vs2t) * EPow P4 (EVar vMst2) - #176 * EPow P2 (EVar
   vMst2) * EPow P4 (EVar vMt) + #3 * EPow P4 (EVar vMst1) * (#24 * EPow P2 (EVar vMt) * EPow P2 (EVar vs2t) + EPow P2
   (EVar vMst2) * EPow P4 (EVar vs2t)) - #3 * EPow P2 (EVar vMst1) * (#48 * EPow P2 (EVar vMst2) * EPow P2 (EVar vMt)
   * EPow P2 (EVar vs2t) + #48 * EPow P4 (EVar vMt) - #7 * EPow P4 (EVar vMst2) * EPow P4 (EVar vs2t)) - #15 * EPow P4
   (EVar vs2t) * EPow P6 (EVar vMst2)))) + #4 * EVar vCbeta * EVar vMt * EVar vMuSUSY * EPow P2 (EVar vMst1) * EPow P3
   (EVar vs2t) * EPow P8 (EVar vMst2)) / (#21 * EVar vSbeta * EPow P2 (EVar vMst1) * EPow P2 (EVar vMst2) * EPow P4
   (EVar vMsq) * EPow P4 (EVar vMt)) + EPow P3 (ELog (EPow P2 (EVar vMst1) / EPow P2 (EVar vMst2))) * (#128 * EVar
   vCbeta * EVar vDmglst1 * (#849 * EVar vDmglst1 + #431 * EVar vMst1) * EVar vMt * EVar vMuSUSY * EPow P3 (EVar vs2t)
   * EPow P4 (EVar vMst1) + EVar vSbeta * (- #96 * EPow P3 (EVar vMst1) * (- #186 * EVar vs2t * EPow P2 (EVar vMst2) *
   EPow P3 (EVar vMt) + #13 * EVar vMt * EPow P3 (EVar vs2t) * EPow P4 (EVar vMst2)) - #544 * EPow P4 (EVar vMst2) *
   EPow P4 (EVar vMt) + EPow P4 (EVar vMst1) * (- #7136 * EPow P2 (EVar vMst2) * EPow P2 (EVar vMt) * EPow P2 (EVar
   vs2t) - #4640 * EPow P4 (EVar vMt) + #1535 * EPow P4 (EVar vMst2) * EPow P4 (EVar vs2t)) + #16 * (#1536 * EVar vs2t
   * EPow P3 (EVar vMt) + EVar vMt * EPow P2 (EVar vMst2) * EPow P3 (EVar vs2t)) * EPow P5 (EVar vMst1) - #3152 * EPow
   P2 (EVar vMt) * EPow P2 (EVar vs2t) * EPow P6 (EVar vMst2) + #32 * EVar vMst1 * (- #28 * EVar vs2t * EPow P3 (EVar
   vMt) * EPow P4 (EVar vMst2) + #73 * EVar vMt * EPow P3 (EVar vs2t) * EPow P6 (EVar vMst2)) + #2 * EPow P2 (EVar
   vDmglst1) * (#48 * EPow P3 (EVar vMst1) * (#2262 * EVar vs2t * EPow P3 (EVar vMt) - #61 * EVar vMt * EPow P2 (EVar
   vMst2) * EPow P3 (EVar vs2t)) + #456 * EPow P2 (EVar vMt) * EPow P2 (EVar vs2t) * EPow P2 (- #1 + EPow P2 (EVar
   vSbeta)) * EPow P4 (EVar vMst1) - #320 * EPow P2 (EVar vMt) * EPow P2 (EVar vs2t) * EPow P4 (EVar vMst2) + EVar
   vMst1 * (#27168 * EVar vs2t * EPow P2 (EVar vMst2) * EPow P3 (EVar vMt) - #7608 * EVar vMt * EPow P3 (EVar vs2t) *
   EPow P4 (EVar vMst2)) + #1056 * EPow P2 (EVar vMst2) * EPow P4 (EVar vMt) + EPow P2 (EVar vMst1) * (- #24960 * EPow
   P2 (EVar vMst2) * EPow P2 (EVar vMt) * EPow P2 (EVar vs2t) - #17792 * EPow P4 (EVar vMt) + #975 * EPow P4 (EVar
   vMst2) * EPow P4 (EVar vs2t)) + #449 * EPow P4 (EVar vs2t) * EPow P6 (EVar vMst2)) + #2 * EPow P2 (EVar vMst1) * (-
   #960 * EPow P2 (EVar vMt) * EPow P2 (EVar vs2t) * EPow P4 (EVar vMst2) + #1120 * EPow P2 (EVar vMst2) * EPow P4
   (EVar vMt) + #1097 * EPow P4 (EVar vs2t) * EPow P6 (EVar vMst2)) + #4 * EVar vDmglst1 * (#4 * (#7320 * EVar vs2t *
   EPow P3 (EVar vMt) - #323 * EVar vMt * EPow P2 (EVar vMst2) * EPow P3 (EVar vs2t)) * EPow P4 (EVar vMst1) + #8 *
   EVar vMt * EVar vs2t * (- #28 * EPow P2 (EVar vMt) + #73 * EPow P2 (EVar vMst2) * EPow P2 (EVar vs2t)) * EPow P4
   (EVar vMst2) - #16 * EPow P2 (EVar vMst1) * (- #845 * EVar vs2t * EPow P2 (EVar vMst2) * EPow P3 (EVar vMt) + #178
   * EVar vMt * EPow P3 (EVar vs2t) * EPow P4 (EVar vMst2)) + EPow P3 (EVar vMst1) * (- #7264 * EPow P2 (EVar vMst2) *
   EPow P2 (EVar vMt) * EPow P2 (EVar vs2t) - #5472 * EPow P4 (EVar vMt) + #311 * EPow P4 (EVar vMst2) * EPow P4 (EVar
   vs2t)) + #104 * EPow P2 (EVar vMt) * EPow P2 (EVar vs2t) * EPow P2 (- #1 + EPow P2 (EVar vSbeta)) * EPow P5 (EVar
   vMst1) + EVar vMst1 * (- #320 * EPow P2 (EVar vMt) * EPow P2 (EVar vs2t) * EPow P4 (EVar vMst2) + #1056 * EPow P2
   (EVar vMst2) * EPow P4 (EVar vMt) + #449 * EPow P4 (EVar vs2t) * EPow P6 (EVar vMst2))) + #639 * EPow P4 (EVar
   vs2t) * EPow P8 (EVar vMst2))) / (#18 * EVar vSbeta * EPow P4 (EVar vMst2) * EPow P4 (EVar vMt)) - EPow P2 (ELog
   (EPow P2 (EVar vMst1) / EPow P2 (EVar vMst2))) * (#140 * EVar vDmglst1 * (#30 * EPow P2 (EVar vMst2) * EPow P2
   (EVar vs2t) * EPow P5 (EVar vMst1) * (#8 * EVar vMt * EVar vMuSUSY * EPow P2 (EVar vMst1) * (#8 * EVar vCbeta *
   EVar vs2t * EVar vSbeta * EPow P2 (EVar vMst2) + #11 * EVar vMt * EVar vMuSUSY * (- #1 + EPow P2 (EVar vSbeta))) +
   #60 * EVar vMst1 * EVar vMt * EVar vs2t * EPow P2 (EVar vSbeta) * EPow P4 (EVar vMst2) - #5 * EPow P2 (EVar vs2t) *
   EPow P2 (EVar vSbeta) * EPow P6 (EVar vMst2)) - EVar vMst1 * EVar vSbeta * EPow P4 (EVar vMsq) * (#93180 * EVar
   vCbeta * EVar vMt * EVar vMuSUSY * EPow P3 (EVar vs2t) * EPow P6 (EVar vMst1) + EVar vSbeta * (#54 * EPow P2 (- #4
   * EPow P2 (EVar vMt) + EPow P2 (EVar vMst2) * EPow P2 (EVar vs2t)) * EPow P4 (EVar vMst2) - #8 * EPow P3 (EVar
   vMst1) * (- #26144 * EVar vs2t * EPow P2 (EVar vMst2) * EPow P3 (EVar vMt) + #3033 * EVar vMt * EPow P3 (EVar vs2t)
   * EPow P4 (EVar vMst2)) + EPow P4 (EVar vMst1) * (- #86656 * EPow P2 (EVar vMst2) * EPow P2 (EVar vMt) * EPow P2
   (EVar vs2t) - #92736 * EPow P4 (EVar vMt) + #617 * EPow P4 (EVar vMst2) * EPow P4 (EVar vs2t)) + #4 * (#184728 *
   EVar vs2t * EPow P3 (EVar vMt) - #5569 * EVar vMt * EPow P2 (EVar vMst2) * EPow P3 (EVar vs2t)) * EPow P5 (EVar
   vMst1) - #800 * EPow P2 (EVar vMt) * EPow P2 (EVar vs2t) * EPow P2 (- #1 + EPow P2 (EVar vSbeta)) * EPow P6 (EVar
   vMst1) + #24 * EVar vMst1 * (- #128 * EVar vs2t * EPow P3 (EVar vMt) * EPow P4 (EVar vMst2) + #797 * EVar vMt *
   EPow P3 (EVar vs2t) * EPow P6 (EVar vMst2)) + #4 * EPow P2 (EVar vMst1) * (#8200 * EPow P2 (EVar vMt) * EPow P2
   (EVar vs2t) * EPow P4 (EVar vMst2) + #5648 * EPow P2 (EVar vMst2) * EPow P4 (EVar vMt) + #1089 * EPow P4 (EVar
   vs2t) * EPow P6 (EVar vMst2)))) + #60 * EVar vs2t * EPow P2 (EVar vMsq) * EPow P3 (EVar vMst1) * (- #192 * EVar vMt
   * EPow P2 (EVar vMst2) * (- #5 * EPow P2 (EVar vMt) + EPow P2 (EVar vMst2) * EPow P2 (EVar vs2t)) * EPow P2 (EVar
   vSbeta) * EPow P3 (EVar vMst1) + #112 * EVar vs2t * EPow P2 (EVar vMt) * EPow P2 (EVar vMuSUSY) * (- #1 + EPow P2
   (EVar vSbeta)) * EPow P4 (EVar vMst1) + #48 * EVar vMst1 * EVar vMt * EPow P2 (EVar vs2t) * EPow P2 (EVar vSbeta) *
   EPow P6 (EVar vMst2) + #20 * EPow P2 (EVar vMst1) * EPow P2 (EVar vSbeta) * EPow P3 (EVar vs2t) * EPow P6 (EVar
   vMst2) - #3 * EPow P2 (EVar vSbeta) * EPow P3 (EVar vs2t) * EPow P8 (EVar vMst2))) + #70 * EPow P2 (EVar vDmglst1)
   * (- #54 * EPow P2 (EVar vSbeta) * EPow P2 (- #4 * EPow P2 (EVar vMt) + EPow P2 (EVar vMst2) * EPow P2 (EVar vs2t))
   * EPow P4 (EVar vMsq) * EPow P4 (EVar vMst2) + #288 * EVar vMt * EVar vs2t * EPow P2 (EVar vMsq) * EPow P2 (EVar
   vMst2) * EPow P2 (EVar vSbeta) * EPow P3 (EVar vMst1) * (EPow P2 (EVar vMsq) * (- #1438 * EPow P2 (EVar vMt) + #393
   * EPow P2 (EVar vMst2) * EPow P2 (EVar vs2t)) + #20 * EPow P2 (EVar vs2t) * EPow P4 (EVar vMst2)) - #4 * EVar vMt *
   EPow P2 (EVar vs2t) * (- #900 * EVar vMuSUSY * EPow P2 (EVar vMst2) * (#3 * EVar vCbeta * EVar vs2t * EVar vSbeta *
   EPow P2 (EVar vMst2) + #5 * EVar vMt * EVar vMuSUSY * (- #1 + EPow P2 (EVar vSbeta))) - #6480 * EVar vMt * EPow P2
   (EVar vMsq) * EPow P2 (EVar vMuSUSY) * (- #1 + EPow P2 (EVar vSbeta)) + EVar vSbeta * (#159493 * EVar vCbeta * EVar
   vMuSUSY * EVar vs2t + #552 * EVar vMt * EVar vSbeta * EPow P2 (- #1 + EPow P2 (EVar vSbeta))) * EPow P4 (EVar
   vMsq)) * EPow P6 (EVar vMst1) - #80 * EVar vMt * EVar vs2t * EPow P2 (EVar vSbeta) * EPow P5 (EVar vMst1) *
   ((#34876 * EPow P2 (EVar vMt) - #2117 * EPow P2 (EVar vMst2) * EPow P2 (EVar vs2t)) * EPow P4 (EVar vMsq) + #72 *
   EPow P2 (EVar vMsq) * (- #40 * EPow P2 (EVar vMst2) * EPow P2 (EVar vMt) + #9 * EPow P2 (EVar vs2t) * EPow P4 (EVar
   vMst2)) - #90 * EPow P2 (EVar vs2t) * EPow P6 (EVar vMst2)) - #4 * EPow P2 (EVar vMsq) * EPow P2 (EVar vMst1) *
   EPow P2 (EVar vMst2) * EPow P2 (EVar vSbeta) * (EPow P2 (EVar vMsq) * (#6472 * EPow P2 (EVar vMst2) * EPow P2 (EVar
   vMt) * EPow P2 (EVar vs2t) + #5648 * EPow P4 (EVar vMt) + #1089 * EPow P4 (EVar vMst2) * EPow P4 (EVar vs2t)) + #45
   * EPow P4 (EVar vs2t) * EPow P6 (EVar vMst2)) + #2880 * EVar vMuSUSY * EPow P2 (EVar vMt) * (#56 * EVar vCbeta *
   EVar vSbeta * EPow P2 (EVar vMt) - #3 * EVar vCbeta * EVar vSbeta * (#16 * EPow P2 (EVar vMsq) + #9 * EPow P2 (EVar
   vMst2)) * EPow P2 (EVar vs2t) - #26 * EVar vMt * EVar vMuSUSY * EVar vs2t * (- #1 + EPow P2 (EVar vSbeta))) * EPow
   P7 (EVar vMst1) + #3 * EPow P2 (EVar vSbeta) * EPow P4 (EVar vMst1) * (EPow P4 (EVar vMsq) * (#132992 * EPow P2
   (EVar vMst2) * EPow P2 (EVar vMt) * EPow P2 (EVar vs2t) + #96384 * EPow P4 (EVar vMt) - #5989 * EPow P4 (EVar
   vMst2) * EPow P4 (EVar vs2t)) + #1200 * EPow P2 (EVar vMsq) * EPow P4 (EVar vs2t) * EPow P6 (EVar vMst2) - #150 *
   EPow P4 (EVar vs2t) * EPow P8 (EVar vMst2))) + EVar vSbeta * EPow P2 (EVar vMst1) * (- (EVar vSbeta * (#840 * EPow
   P2 (EVar vMsq) * (- #1920 * EVar vs2t * EPow P2 (EVar vMst2) * EPow P3 (EVar vMt) * EPow P5 (EVar vMst1) + #320 *
   EVar vMt * EPow P3 (EVar vs2t) * EPow P4 (EVar vMst2) * EPow P5 (EVar vMst1) - #8 * (- #6 * EPow P2 (EVar vMst1) *
   EPow P2 (EVar vMt) * EPow P2 (EVar vs2t) + #20 * EVar vMt * EPow P3 (EVar vMst1) * EPow P3 (EVar vs2t) + #12 * EPow
   P4 (EVar vMt) + #7 * EPow P4 (EVar vMst1) * EPow P4 (EVar vs2t)) * EPow P6 (EVar vMst2) + #9 * (#8 * EPow P2 (EVar
   vMt) * EPow P2 (EVar vs2t) - EPow P2 (EVar vMst1) * EPow P4 (EVar vs2t)) * EPow P8 (EVar vMst2)) - #30 * (#1680 *
   EVar vMt * EPow P3 (EVar vs2t) * EPow P5 (EVar vMst1) * EPow P6 (EVar vMst2) + (- #768 * EPow P2 (EVar vMst1) *
   EPow P2 (EVar vMt) * EPow P2 (EVar vs2t) + #1536 * EPow P4 (EVar vMt) - #79 * EPow P4 (EVar vMst1) * EPow P4 (EVar
   vs2t)) * EPow P8 (EVar vMst2)) + EPow P4 (EVar vMsq) * (#1120 * EPow P3 (EVar vMst1) * (#8376 * EVar vs2t * EPow P2
   (EVar vMst2) * EPow P3 (EVar vMt) + #859 * EVar vMt * EPow P3 (EVar vs2t) * EPow P4 (EVar vMst2)) - EPow P4 (EVar
   vMst1) * (#1479008 * EPow P2 (EVar vMst2) * EPow P2 (EVar vMt) * EPow P2 (EVar vs2t) + #2834624 * EPow P4 (EVar
   vMt) + #256523 * EPow P4 (EVar vMst2) * EPow P4 (EVar vs2t)) + #560 * (#37192 * EVar vs2t * EPow P3 (EVar vMt) +
   #2579 * EVar vMt * EPow P2 (EVar vMst2) * EPow P3 (EVar vs2t)) * EPow P5 (EVar vMst1) + #3360 * EVar vMst1 * (-
   #128 * EVar vs2t * EPow P3 (EVar vMt) * EPow P4 (EVar vMst2) + #797 * EVar vMt * EPow P3 (EVar vs2t) * EPow P6
   (EVar vMst2)) + #224 * EPow P2 (EVar vMst1) * (#13803 * EPow P2 (EVar vMt) * EPow P2 (EVar vs2t) * EPow P4 (EVar
   vMst2) + #6584 * EPow P2 (EVar vMst2) * EPow P4 (EVar vMt) + #2529 * EPow P4 (EVar vs2t) * EPow P6 (EVar vMst2)) +
   #210 * (#32 * EPow P4 (EVar vMst2) * EPow P4 (EVar vMt) - #6112 * EPow P2 (EVar vMt) * EPow P2 (EVar vs2t) * EPow
   P6 (EVar vMst2) + #2193 * EPow P4 (EVar vs2t) * EPow P8 (EVar vMst2))))) + #3840 * EVar vCbeta * EVar vMt * EVar
   vMuSUSY * EPow P3 (EVar vs2t) * EPow P10 (EVar vMst2))) / (#2520 * EPow P2 (EVar vMst1) * EPow P2 (EVar vSbeta) *
   EPow P4 (EVar vMsq) * EPow P4 (EVar vMst2) * EPow P4 (EVar vMt)) - ELog (EPow P2 (EVar vMst1) / EPow P2 (EVar
   vMst2)) * (- #196 * EVar vDmglst1 * EVar vMst1 * (- #3000 * EVar vMst1 * EPow P2 (EVar vMsq) * (#96 * EVar vMt *
   EVar vs2t * EPow P2 (EVar vMst2) * (#37 * EPow P2 (EVar vMt) + #2 * EPow P2 (EVar vMst2) * EPow P2 (EVar vs2t)) *
   EPow P2 (EVar vSbeta) * EPow P4 (EVar vMst1) + #96 * EVar vMt * EVar vs2t * EPow P2 (EVar vMst1) * (- #16 * EPow P2
   (EVar vMt) + #11 * EPow P2 (EVar vMst2) * EPow P2 (EVar vs2t)) * EPow P2 (EVar vSbeta) * EPow P4 (EVar vMst2) + #28
   * EPow P2 (EVar vs2t) * (#12 * EPow P2 (EVar vMt) + #7 * EPow P2 (EVar vMst2) * EPow P2 (EVar vs2t)) * EPow P2
   (EVar vSbeta) * EPow P3 (EVar vMst1) * EPow P4 (EVar vMst2) + #3 * EVar vMst1 * EPow P2 (EVar vSbeta) * EPow P4
   (EVar vMst2) * (#48 * EPow P2 (EVar vMst2) * EPow P2 (EVar vMt) * EPow P2 (EVar vs2t) + #16 * EPow P4 (EVar vMt) -
   #23 * EPow P4 (EVar vMst2) * EPow P4 (EVar vs2t)) + #4 * EVar vMt * EVar vMuSUSY * EVar vs2t * (#504 * EVar vCbeta
   * EVar vSbeta * EPow P2 (EVar vMt) + #129 * EVar vCbeta * EVar vSbeta * EPow P2 (EVar vMst2) * EPow P2 (EVar vs2t)
   + #374 * EVar vMt * EVar vMuSUSY * EVar vs2t * (- #1 + EPow P2 (EVar vSbeta))) * EPow P5 (EVar vMst1) + #128 * EVar
   vs2t * EPow P2 (EVar vSbeta) * EPow P3 (EVar vMt) * EPow P6 (EVar vMst2)) - #750 * EVar vMst1 * EPow P2 (EVar
   vMst2) * (#84 * EVar vMt * EVar vs2t * EPow P2 (EVar vMst2) * (- #20 * EPow P2 (EVar vMt) + #23 * EPow P2 (EVar
   vMst2) * EPow P2 (EVar vs2t)) * EPow P2 (EVar vSbeta) * EPow P4 (EVar vMst1) - #24 * EVar vMt * EVar vs2t * EPow P2
   (EVar vMst1) * (- #68 * EPow P2 (EVar vMt) + EPow P2 (EVar vMst2) * EPow P2 (EVar vs2t)) * EPow P2 (EVar vSbeta) *
   EPow P4 (EVar vMst2) + #48 * EVar vMst1 * EPow P2 (EVar vMt) * (#23 * EPow P2 (EVar vMt) + #3 * EPow P2 (EVar
   vMst2) * EPow P2 (EVar vs2t)) * EPow P2 (EVar vSbeta) * EPow P4 (EVar vMst2) + EPow P2 (EVar vMst2) * EPow P2 (EVar
   vSbeta) * EPow P3 (EVar vMst1) * (#336 * EPow P2 (EVar vMst2) * EPow P2 (EVar vMt) * EPow P2 (EVar vs2t) + #880 *
   EPow P4 (EVar vMt) - #167 * EPow P4 (EVar vMst2) * EPow P4 (EVar vs2t)) + #8 * EVar vMt * EVar vMuSUSY * EVar vs2t
   * (#252 * EVar vCbeta * EVar vSbeta * EPow P2 (EVar vMt) + #41 * EVar vCbeta * EVar vSbeta * EPow P2 (EVar vMst2) *
   EPow P2 (EVar vs2t) - #85 * EVar vMt * EVar vMuSUSY * EVar vs2t * (- #1 + EPow P2 (EVar vSbeta))) * EPow P5 (EVar
   vMst1) + #464 * EVar vs2t * EPow P2 (EVar vSbeta) * EPow P3 (EVar vMt) * EPow P6 (EVar vMst2)) + EVar vSbeta * EPow
   P4 (EVar vMsq) * (#4 * EVar vCbeta * EVar vMt * EVar vMuSUSY * (- #4795361 + #10152000 * EConst Cz2) * EPow P3
   (EVar vs2t) * EPow P6 (EVar vMst1) + #25 * EVar vSbeta * (- #96 * EPow P3 (EVar vMst1) * (- #18 * EVar vs2t * (#947
   + #1100 * EConst Cz2) * EPow P2 (EVar vMst2) * EPow P3 (EVar vMt) + EVar vMt * (#2899 + #3732 * EConst Cz2 - #4158
   * EConst Cz3) * EPow P3 (EVar vs2t) * EPow P4 (EVar vMst2)) - #8128 * EPow P4 (EVar vMst2) * EPow P4 (EVar vMt) +
   EPow P4 (EVar vMst1) * (- #32 * (- #37061 + #17640 * EConst Cz2) * EPow P2 (EVar vMst2) * EPow P2 (EVar vMt) * EPow
   P2 (EVar vs2t) - #512 * (#2152 + #2079 * EConst Cz2) * EPow P4 (EVar vMt) + (#31507 - #21168 * EConst Cz2 + #19872
   * EConst Cz3) * EPow P4 (EVar vMst2) * EPow P4 (EVar vs2t)) + #4 * (#256 * EVar vs2t * (#5696 + #3987 * EConst Cz2)
   * EPow P3 (EVar vMt) + #3 * EVar vMt * (#26687 - #20496 * EConst Cz2) * EPow P2 (EVar vMst2) * EPow P3 (EVar vs2t))
   * EPow P5 (EVar vMst1) + #128 * (#79 + #45 * EConst Cz2 + #81 * EConst Cz3) * EPow P2 (EVar vMt) * EPow P2 (EVar
   vs2t) * EPow P2 (- #1 + EPow P2 (EVar vSbeta)) * EPow P6 (EVar vMst1) + #9216 * EPow P2 (EVar vMt) * EPow P2 (EVar
   vs2t) * EPow P6 (EVar vMst2) + #16 * EVar vMst1 * (- #8 * EVar vs2t * (#145 + #324 * EConst Cz2 - #216 * EConst
   Cz3) * EPow P3 (EVar vMt) * EPow P4 (EVar vMst2) + #27 * EVar vMt * (#777 + #128 * EConst Cz2 - #12 * EConst Cz3) *
   EPow P3 (EVar vs2t) * EPow P6 (EVar vMst2)) + #16 * EPow P2 (EVar vMst1) * (#2 * (#21991 + #2736 * EConst Cz2 +
   #432 * EConst Cz3) * EPow P2 (EVar vMt) * EPow P2 (EVar vs2t) * EPow P4 (EVar vMst2) + #8 * (#2069 + #1296 * EConst
   Cz2) * EPow P2 (EVar vMst2) * EPow P4 (EVar vMt) + #27 * (#57 + #105 * EConst Cz2 - #46 * EConst Cz3) * EPow P4
   (EVar vs2t) * EPow P6 (EVar vMst2)) - #4068 * EPow P4 (EVar vs2t) * EPow P8 (EVar vMst2)))) + #98 * EPow P2 (EVar
   vDmglst1) * (- #4800 * EVar vMst1 * EVar vMt * EVar vs2t * (- #518 * EPow P2 (EVar vMt) + #305 * EPow P2 (EVar
   vMst2) * EPow P2 (EVar vs2t)) * EPow P2 (EVar vSbeta) * EPow P4 (EVar vMsq) * EPow P4 (EVar vMst2) + #3200 * EVar
   vMt * EVar vs2t * EPow P2 (EVar vMst2) * EPow P2 (EVar vSbeta) * EPow P3 (EVar vMst1) * ((- ((#28427 + #29268 *
   EConst Cz2) * EPow P2 (EVar vMt)) + #27 * (#418 + #249 * EConst Cz2 - #234 * EConst Cz3) * EPow P2 (EVar vMst2) *
   EPow P2 (EVar vs2t)) * EPow P4 (EVar vMsq) + #765 * EPow P2 (EVar vMt) * EPow P4 (EVar vMst2) + #90 * EPow P2 (EVar
   vMsq) * (- #32 * EPow P2 (EVar vMst2) * EPow P2 (EVar vMt) + #23 * EPow P2 (EVar vs2t) * EPow P4 (EVar vMst2))) +
   #36 * EPow P2 (EVar vSbeta) * EPow P4 (EVar vMsq) * EPow P4 (EVar vMst2) * (- #16800 * EPow P2 (EVar vMst2) * EPow
   P2 (EVar vMt) * EPow P2 (EVar vs2t) - #5632 * EPow P4 (EVar vMt) + #5475 * EPow P4 (EVar vMst2) * EPow P4 (EVar
   vs2t)) - #400 * EVar vMt * EVar vs2t * EPow P2 (EVar vSbeta) * ((#8 * (#181409 + #122004 * EConst Cz2) * EPow P2
   (EVar vMt) + (#87319 - #50544 * EConst Cz2) * EPow P2 (EVar vMst2) * EPow P2 (EVar vs2t)) * EPow P4 (EVar vMsq) +
   #90 * (#140 * EPow P2 (EVar vMt) - #173 * EPow P2 (EVar vMst2) * EPow P2 (EVar vs2t)) * EPow P4 (EVar vMst2) + #720
   * EPow P2 (EVar vMsq) * (- #208 * EPow P2 (EVar vMst2) * EPow P2 (EVar vMt) + #33 * EPow P2 (EVar vs2t) * EPow P4
   (EVar vMst2))) * EPow P5 (EVar vMst1) + #60 * EVar vMt * EVar vs2t * (#300 * EVar vMuSUSY * EPow P2 (EVar vMst2) *
   (#420 * EVar vCbeta * EVar vSbeta * EPow P2 (EVar vMt) + #90 * EVar vCbeta * EVar vSbeta * EPow P2 (EVar vMst2) *
   EPow P2 (EVar vs2t) + EVar vMt * EVar vMuSUSY * EVar vs2t * (- #1 + EPow P2 (EVar vSbeta))) + #1800 * EVar vMuSUSY
   * EPow P2 (EVar vMsq) * (#280 * EVar vCbeta * EVar vSbeta * EPow P2 (EVar vMt) + #85 * EVar vCbeta * EVar vSbeta *
   EPow P2 (EVar vMst2) * EPow P2 (EVar vs2t) + #254 * EVar vMt * EVar vMuSUSY * EVar vs2t * (- #1 + EPow P2 (EVar
   vSbeta))) - EVar vs2t * EVar vSbeta * (EVar vCbeta * EVar vMuSUSY * EVar vs2t * (- #1127077 + #2913600 * EConst Cz2
   + #23040 * EConst Cz3) + #480 * EVar vMt * EVar vSbeta * (#55 + #33 * EConst Cz2 + #9 * EConst Cz3) * EPow P2 (- #1
   + EPow P2 (EVar vSbeta))) * EPow P4 (EVar vMsq)) * EPow P6 (EVar vMst1) - #200 * EPow P2 (EVar vMst1) * EPow P2
   (EVar vMst2) * EPow P2 (EVar vSbeta) * (#2 * EPow P4 (EVar vMsq) * (#2 * (#18367 + #2736 * EConst Cz2 + #432 *
   EConst Cz3) * EPow P2 (EVar vMst2) * EPow P2 (EVar vMt) * EPow P2 (EVar vs2t) + #72 * (#245 + #144 * EConst Cz2) *
   EPow P4 (EVar vMt) + #9 * (#286 + #315 * EConst Cz2 - #138 * EConst Cz3) * EPow P4 (EVar vMst2) * EPow P4 (EVar
   vs2t)) - #180 * (#23 * EPow P4 (EVar vMst2) * EPow P4 (EVar vMt) + #3 * EPow P2 (EVar vMt) * EPow P2 (EVar vs2t) *
   EPow P6 (EVar vMst2)) + #45 * EPow P2 (EVar vMsq) * (- #48 * EPow P2 (EVar vMt) * EPow P2 (EVar vs2t) * EPow P4
   (EVar vMst2) - #16 * EPow P2 (EVar vMst2) * EPow P4 (EVar vMt) + #23 * EPow P4 (EVar vs2t) * EPow P6 (EVar vMst2)))
   + #72000 * EVar vMuSUSY * EPow P2 (EVar vMt) * (#184 * EVar vCbeta * EVar vSbeta * EPow P2 (EVar vMt) + #3 * EVar
   vCbeta * EVar vSbeta * (- #424 * EPow P2 (EVar vMsq) + #57 * EPow P2 (EVar vMst2)) * EPow P2 (EVar vs2t) + #574 *
   EVar vMt * EVar vMuSUSY * EVar vs2t * (- #1 + EPow P2 (EVar vSbeta))) * EPow P7 (EVar vMst1) + #25 * EPow P2 (EVar
   vSbeta) * EPow P4 (EVar vMst1) * (EPow P4 (EVar vMsq) * (#96 * (- #863 + #22392 * EConst Cz2) * EPow P2 (EVar
   vMst2) * EPow P2 (EVar vMt) * EPow P2 (EVar vs2t) + #64 * (#46463 + #52992 * EConst Cz2) * EPow P4 (EVar vMt) + #3
   * (- #50563 + #7440 * EConst Cz2 - #11232 * EConst Cz3) * EPow P4 (EVar vMst2) * EPow P4 (EVar vs2t)) + #1440 *
   EPow P2 (EVar vMsq) * (#108 * EPow P2 (EVar vMt) * EPow P2 (EVar vs2t) * EPow P4 (EVar vMst2) + #43 * EPow P4 (EVar
   vs2t) * EPow P6 (EVar vMst2)) - #90 * (- #880 * EPow P4 (EVar vMst2) * EPow P4 (EVar vMt) - #432 * EPow P2 (EVar
   vMt) * EPow P2 (EVar vs2t) * EPow P6 (EVar vMst2) + #179 * EPow P4 (EVar vs2t) * EPow P8 (EVar vMst2)))) + EVar
   vSbeta * (EVar vSbeta * (#30 * EPow P2 (EVar vMst1) * EPow P4 (EVar vMst2) * (#2273600 * EVar vMst1 * EVar vs2t *
   EPow P3 (EVar vMt) * EPow P4 (EVar vMst2) - #39200 * EPow P3 (EVar vMst1) * (- #68 * EVar vs2t * EPow P2 (EVar
   vMst2) * EPow P3 (EVar vMt) + #3 * EVar vMt * EPow P3 (EVar vs2t) * EPow P4 (EVar vMst2)) + #2103888 * EPow P4
   (EVar vMst2) * EPow P4 (EVar vMt) + #96 * EPow P2 (EVar vMst1) * (#1868 * EPow P2 (EVar vMt) * EPow P2 (EVar vs2t)
   * EPow P4 (EVar vMst2) + #28175 * EPow P2 (EVar vMst2) * EPow P4 (EVar vMt)) + EPow P4 (EVar vMst1) * (#531552 *
   EPow P2 (EVar vMst2) * EPow P2 (EVar vMt) * EPow P2 (EVar vs2t) + #1078000 * EPow P4 (EVar vMt) - #215819 * EPow P4
   (EVar vMst2) * EPow P4 (EVar vs2t)) - #58800 * (#28 * EVar vs2t * EPow P3 (EVar vMt) - #29 * EVar vMt * EPow P2
   (EVar vMst2) * EPow P3 (EVar vs2t)) * EPow P5 (EVar vMst1)) - #10584000 * (- #1 + #2 * EConst Cz2) * EPow P2 (EVar
   vMst1) * (EPow P2 (EVar vMst1) - EPow P2 (EVar vMst2)) * EPow P4 (EVar vMst2) * EPow P4 (EVar vs2t) * EPow P6 (EVar
   vMsq) + #11760 * EPow P2 (EVar vMsq) * EPow P2 (EVar vMst1) * EPow P2 (EVar vMst2) * (#6400 * EVar vMst1 * EVar
   vs2t * EPow P3 (EVar vMt) * EPow P4 (EVar vMst2) + #3200 * EPow P3 (EVar vMst1) * (- #8 * EVar vs2t * EPow P2 (EVar
   vMst2) * EPow P3 (EVar vMt) + #5 * EVar vMt * EPow P3 (EVar vs2t) * EPow P4 (EVar vMst2)) + #7712 * EPow P4 (EVar
   vMst2) * EPow P4 (EVar vMt) + #2 * EPow P4 (EVar vMst1) * (#2000 * EPow P2 (EVar vMst2) * EPow P2 (EVar vMt) * EPow
   P2 (EVar vs2t) + #991 * EPow P4 (EVar vMst2) * EPow P4 (EVar vs2t)) + #1600 * (#15 * EVar vs2t * EPow P3 (EVar vMt)
   + #7 * EVar vMt * EPow P2 (EVar vMst2) * EPow P3 (EVar vs2t)) * EPow P5 (EVar vMst1) - #3344 * EPow P2 (EVar vMt) *
   EPow P2 (EVar vs2t) * EPow P6 (EVar vMst2) + EPow P2 (EVar vMst1) * (#5344 * EPow P2 (EVar vMt) * EPow P2 (EVar
   vs2t) * EPow P4 (EVar vMst2) + #1200 * EPow P2 (EVar vMst2) * EPow P4 (EVar vMt) - #1167 * EPow P4 (EVar vs2t) *
   EPow P6 (EVar vMst2))) - EPow P4 (EVar vMsq) * (- #156800 * (- #6 * EVar vs2t * (#2197 + #3396 * EConst Cz2) * EPow
   P2 (EVar vMst2) * EPow P3 (EVar vMt) + EVar vMt * (- #1667 + #2232 * EConst Cz2 - #4050 * EConst Cz3) * EPow P3
   (EVar vs2t) * EPow P4 (EVar vMst2)) * EPow P5 (EVar vMst1) - #3 * (- #192 * (#4731149 + #4900 * EConst CS2 -
   #808500 * EConst Cz2) * EPow P2 (EVar vMst2) * EPow P2 (EVar vMt) * EPow P2 (EVar vs2t) + #128 * (#3291437 +
   #3013500 * EConst Cz2) * EPow P4 (EVar vMt) + #3 * (#1737319 + #431200 * EConst CS2 - #2018800 * EConst Cz2 -
   #4939200 * EConst Cz3) * EPow P4 (EVar vMst2) * EPow P4 (EVar vs2t)) * EPow P6 (EVar vMst1) + #705600 * EPow P3
   (EVar vMst1) * (#16 * EVar vs2t * (#13 - #18 * EConst Cz2 + #12 * EConst Cz3) * EPow P3 (EVar vMt) * EPow P4 (EVar
   vMst2) + EVar vMt * (#2135 + #384 * EConst Cz2 - #36 * EConst Cz3) * EPow P3 (EVar vs2t) * EPow P6 (EVar vMst2)) +
   #1568 * EPow P4 (EVar vMst1) * (- #36 * (- #33703 + #375 * EConst CS2 - #2000 * EConst Cz2) * EPow P2 (EVar vMt) *
   EPow P2 (EVar vs2t) * EPow P4 (EVar vMst2) + #8 * (#54223 + #34200 * EConst Cz2) * EPow P2 (EVar vMst2) * EPow P4
   (EVar vMt) + #9 * (#1661 + #3750 * EConst CS2 + #8375 * EConst Cz2 - #3150 * EConst Cz3) * EPow P4 (EVar vs2t) *
   EPow P6 (EVar vMst2)) + #58800 * (#32 * EVar vs2t * (#2903 + #2196 * EConst Cz2) * EPow P3 (EVar vMt) + #3 * EVar
   vMt * (#1257 - #1136 * EConst Cz2) * EPow P2 (EVar vMst2) * EPow P3 (EVar vs2t)) * EPow P7 (EVar vMst1) + #8467200
   * (- #2 * EPow P4 (EVar vMt) * EPow P6 (EVar vMst2) + EPow P2 (EVar vMt) * EPow P2 (EVar vs2t) * EPow P8 (EVar
   vMst2)) + #14700 * EPow P2 (EVar vMst1) * (#96 * (#149 + #24 * EConst Cz3) * EPow P4 (EVar vMst2) * EPow P4 (EVar
   vMt) - #32 * (#733 + #81 * EConst CS2 + #18 * EConst Cz2) * EPow P2 (EVar vMt) * EPow P2 (EVar vs2t) * EPow P6
   (EVar vMst2) + (#14209 + #648 * EConst CS2 - #1788 * EConst Cz2) * EPow P4 (EVar vs2t) * EPow P8 (EVar vMst2)))) +
   #3755280 * EVar vCbeta * EVar vMt * EVar vMuSUSY * EPow P2 (EVar vMst1) * EPow P3 (EVar vs2t) * EPow P10 (EVar
   vMst2))) / (#529200 * EPow P2 (EVar vMst1) * EPow P2 (EVar vSbeta) * EPow P4 (EVar vMsq) * EPow P4 (EVar vMst2) *
   EPow P4 (EVar vMt)) - ELog (EPow P2 (EVar vMst1) / EPow P2 (EVar vMsq)) * (#22050 * EPow P2 (EVar vMst1) * EPow P2
   (EVar vSbeta) * EPow P2 (ELog (EPow P2 (EVar vMst1) / EPow P2 (EVar vMst2))) * EPow P4 (EVar vMsq) * (EPow P3 (EVar
   vMst1) * (#256 * EVar vs2t * EPow P2 (EVar vMst2) * EPow P3 (EVar vMt) - #48 * EVar vMt * EPow P3 (EVar vs2t) *
   EPow P4 (EVar vMst2)) - #5 * EPow P4 (EVar vMst1) * (#32 * EPow P4 (EVar vMt) + EPow P4 (EVar vMst2) * EPow P4
   (EVar vs2t)) + #384 * EVar vs2t * EPow P3 (EVar vMt) * EPow P5 (EVar vMst1) - #16 * EPow P2 (EVar vMt) * EPow P2
   (EVar vs2t) * EPow P6 (EVar vMst2) + #16 * EVar vMst1 * EVar vMt * EPow P3 (EVar vs2t) * EPow P6 (EVar vMst2) + #10
   * EPow P2 (EVar vMst1) * EPow P4 (EVar vs2t) * EPow P6 (EVar vMst2) + #6 * EPow P2 (EVar vDmglst1) * (#640 * EVar
   vs2t * EPow P3 (EVar vMst1) * EPow P3 (EVar vMt) - #32 * EVar vMst1 * (- #4 * EVar vs2t * EPow P2 (EVar vMst2) *
   EPow P3 (EVar vMt) + EVar vMt * EPow P3 (EVar vs2t) * EPow P4 (EVar vMst2)) - EPow P2 (EVar vMst1) * (#160 * EPow
   P4 (EVar vMt) + EPow P4 (EVar vMst2) * EPow P4 (EVar vs2t)) + EPow P4 (EVar vs2t) * EPow P6 (EVar vMst2)) + #4 *
   EVar vDmglst1 * (#480 * EVar vs2t * EPow P3 (EVar vMt) * EPow P4 (EVar vMst1) + EPow P2 (EVar vMst1) * (#192 * EVar
   vs2t * EPow P2 (EVar vMst2) * EPow P3 (EVar vMt) - #44 * EVar vMt * EPow P3 (EVar vs2t) * EPow P4 (EVar vMst2)) -
   EPow P3 (EVar vMst1) * (#160 * EPow P4 (EVar vMt) + #3 * EPow P4 (EVar vMst2) * EPow P4 (EVar vs2t)) + #4 * EVar
   vMt * EPow P3 (EVar vs2t) * EPow P6 (EVar vMst2) + #3 * EVar vMst1 * EPow P4 (EVar vs2t) * EPow P6 (EVar vMst2)) +
   #3 * EPow P4 (EVar vs2t) * EPow P8 (EVar vMst2)) - #2450 * EVar vDmglst1 * EVar vMst1 * (#32 * EVar vMst1 * EVar
   vMt * EVar vs2t * EPow P2 (EVar vSbeta) * EPow P4 (EVar vMst2) * (- #14 * EPow P2 (EVar vMsq) * EPow P2 (EVar
   vMst2) * EPow P2 (EVar vMt) + (#251 * EPow P2 (EVar vMt) - #9 * (#9 + EConst Cz2) * EPow P2 (EVar vMst2) * EPow P2
   (EVar vs2t)) * EPow P4 (EVar vMsq) + #4 * EPow P2 (EVar vMt) * EPow P4 (EVar vMst2)) + #2 * EPow P2 (EVar vSbeta) *
   EPow P4 (EVar vMsq) * EPow P4 (EVar vMst2) * (- #192 * EPow P2 (EVar vMst2) * EPow P2 (EVar vMt) * EPow P2 (EVar
   vs2t) - #80 * EPow P4 (EVar vMt) + #45 * EPow P4 (EVar vMst2) * EPow P4 (EVar vs2t)) + #24 * EVar vMt * EVar
   vMuSUSY * EVar vs2t * (EPow P2 (EVar vMst2) * (#42 * EVar vCbeta * EVar vSbeta * EPow P2 (EVar vMt) - #20 * EVar
   vCbeta * EVar vSbeta * EPow P2 (EVar vMsq) * EPow P2 (EVar vs2t) + #21 * EVar vMt * EVar vMuSUSY * EVar vs2t * (-
   #1 + EPow P2 (EVar vSbeta))) + #9 * EVar vCbeta * EVar vSbeta * EPow P2 (EVar vs2t) * EPow P4 (EVar vMsq) + #10 *
   EVar vCbeta * EVar vSbeta * EPow P2 (EVar vs2t) * EPow P4 (EVar vMst2)) * EPow P6 (EVar vMst1) - #4 * EVar vMt *
   EVar vs2t * EPow P2 (EVar vSbeta) * EPow P5 (EVar vMst1) * (#18 * (#40 * (- #1 + #12 * EConst Cz2) * EPow P2 (EVar
   vMt) + #43 * EPow P2 (EVar vMst2) * EPow P2 (EVar vs2t)) * EPow P4 (EVar vMsq) + #80 * EPow P2 (EVar vMt) * EPow P4
   (EVar vMst2) + #288 * EPow P2 (EVar vMsq) * EPow P2 (EVar vs2t) * EPow P4 (EVar vMst2) - #183 * EPow P2 (EVar vs2t)
   * EPow P6 (EVar vMst2)) + #4 * EVar vMt * EVar vs2t * EPow P2 (EVar vMst2) * EPow P2 (EVar vSbeta) * EPow P3 (EVar
   vMst1) * (- #72 * (#2 * (#7 + #24 * EConst Cz2) * EPow P2 (EVar vMt) - (#16 + #11 * EConst Cz2) * EPow P2 (EVar
   vMst2) * EPow P2 (EVar vs2t)) * EPow P4 (EVar vMsq) + #48 * EPow P2 (EVar vMt) * EPow P4 (EVar vMst2) + #16 * EPow
   P2 (EVar vMsq) * (#7 * EPow P2 (EVar vMst2) * EPow P2 (EVar vMt) + #18 * EPow P2 (EVar vs2t) * EPow P4 (EVar
   vMst2)) - #3 * EPow P2 (EVar vs2t) * EPow P6 (EVar vMst2)) + #6 * EPow P2 (EVar vMst1) * EPow P2 (EVar vMst2) *
   EPow P2 (EVar vSbeta) * (#64 * EPow P4 (EVar vMst2) * EPow P4 (EVar vMt) - EPow P4 (EVar vMsq) * (#152 * EPow P2
   (EVar vMst2) * EPow P2 (EVar vMt) * EPow P2 (EVar vs2t) + #432 * EPow P4 (EVar vMt) + #9 * (#7 + #4 * EConst Cz2) *
   EPow P4 (EVar vMst2) * EPow P4 (EVar vs2t)) + #12 * EPow P2 (EVar vMt) * EPow P2 (EVar vs2t) * EPow P6 (EVar vMst2)
   + #8 * EPow P2 (EVar vMsq) * (- #20 * EPow P2 (EVar vMt) * EPow P2 (EVar vs2t) * EPow P4 (EVar vMst2) + #24 * EPow
   P2 (EVar vMst2) * EPow P4 (EVar vMt) + EPow P4 (EVar vs2t) * EPow P6 (EVar vMst2))) + EPow P2 (EVar vSbeta) * EPow
   P4 (EVar vMst1) * (#2192 * EPow P4 (EVar vMst2) * EPow P4 (EVar vMt) + #18 * EPow P4 (EVar vMsq) * (- #72 * EPow P2
   (EVar vMst2) * EPow P2 (EVar vMt) * EPow P2 (EVar vs2t) + #32 * (#9 + #20 * EConst Cz2) * EPow P4 (EVar vMt) + #3 *
   (#9 + #4 * EConst Cz2) * EPow P4 (EVar vMst2) * EPow P4 (EVar vs2t)) - #648 * EPow P2 (EVar vMt) * EPow P2 (EVar
   vs2t) * EPow P6 (EVar vMst2) + #24 * EPow P2 (EVar vMsq) * (#80 * EPow P2 (EVar vMt) * EPow P2 (EVar vs2t) * EPow
   P4 (EVar vMst2) + #80 * EPow P2 (EVar vMst2) * EPow P4 (EVar vMt) + EPow P4 (EVar vs2t) * EPow P6 (EVar vMst2)) +
   #3 * EPow P4 (EVar vs2t) * EPow P8 (EVar vMst2))) - #147 * EPow P2 (EVar vDmglst1) * (- #800 * EVar vMst1 * EVar
   vMt * EVar vs2t * (- #112 * EPow P2 (EVar vMt) + #17 * EPow P2 (EVar vMst2) * EPow P2 (EVar vs2t)) * EPow P2 (EVar
   vSbeta) * EPow P4 (EVar vMsq) * EPow P4 (EVar vMst2) + #800 * EVar vMt * EVar vs2t * EPow P2 (EVar vMst2) * EPow P2
   (EVar vSbeta) * EPow P3 (EVar vMst1) * ((- #12 * (#13 + #24 * EConst Cz2) * EPow P2 (EVar vMt) + (#155 + #72 *
   EConst Cz2) * EPow P2 (EVar vMst2) * EPow P2 (EVar vs2t)) * EPow P4 (EVar vMsq) + #4 * EPow P2 (EVar vMt) * EPow P4
   (EVar vMst2) + #24 * EPow P2 (EVar vMsq) * EPow P2 (EVar vs2t) * EPow P4 (EVar vMst2)) + #2 * EPow P2 (EVar vSbeta)
   * EPow P4 (EVar vMsq) * EPow P4 (EVar vMst2) * (- #7200 * EPow P2 (EVar vMst2) * EPow P2 (EVar vMt) * EPow P2 (EVar
   vs2t) + #12032 * EPow P4 (EVar vMt) + #925 * EPow P4 (EVar vMst2) * EPow P4 (EVar vs2t)) + #600 * EVar vMt * EVar
   vMuSUSY * EVar vs2t * (#5 * EPow P2 (EVar vMst2) * (#14 * EVar vCbeta * EVar vSbeta * EPow P2 (EVar vMt) - #4 *
   EVar vCbeta * EVar vSbeta * EPow P2 (EVar vMsq) * EPow P2 (EVar vs2t) + #7 * EVar vMt * EVar vMuSUSY * EVar vs2t *
   (- #1 + EPow P2 (EVar vSbeta))) - #29 * EVar vCbeta * EVar vSbeta * EPow P2 (EVar vs2t) * EPow P4 (EVar vMsq) + #10
   * EVar vCbeta * EVar vSbeta * EPow P2 (EVar vs2t) * EPow P4 (EVar vMst2)) * EPow P6 (EVar vMst1) - #1600 * EVar vMt
   * EVar vs2t * EPow P2 (EVar vSbeta) * EPow P5 (EVar vMst1) * (#6 * (#5 * (#13 + #24 * EConst Cz2) * EPow P2 (EVar
   vMt) + #2 * EPow P2 (EVar vMst2) * EPow P2 (EVar vs2t)) * EPow P4 (EVar vMsq) + #2 * EPow P2 (EVar vMt) * EPow P4
   (EVar vMst2) + #12 * EPow P2 (EVar vMsq) * EPow P2 (EVar vs2t) * EPow P4 (EVar vMst2) - #15 * EPow P2 (EVar vs2t) *
   EPow P6 (EVar vMst2)) + #50 * EPow P2 (EVar vMst1) * EPow P2 (EVar vMst2) * EPow P2 (EVar vSbeta) * (#64 * EPow P4
   (EVar vMst2) * EPow P4 (EVar vMt) - EPow P4 (EVar vMsq) * (- #72 * EPow P2 (EVar vMst2) * EPow P2 (EVar vMt) * EPow
   P2 (EVar vs2t) + #432 * EPow P4 (EVar vMt) + (#203 + #36 * EConst Cz2) * EPow P4 (EVar vMst2) * EPow P4 (EVar
   vs2t)) + #12 * EPow P2 (EVar vMt) * EPow P2 (EVar vs2t) * EPow P6 (EVar vMst2) + #16 * EPow P2 (EVar vMsq) * (- #30
   * EPow P2 (EVar vMt) * EPow P2 (EVar vs2t) * EPow P4 (EVar vMst2) + #52 * EPow P2 (EVar vMst2) * EPow P4 (EVar vMt)
   + #3 * EPow P4 (EVar vs2t) * EPow P6 (EVar vMst2))) + #96000 * EVar vs2t * EPow P2 (EVar vMuSUSY) * (- #1 + EPow P2
   (EVar vSbeta)) * EPow P3 (EVar vMt) * EPow P7 (EVar vMst1) + #25 * EPow P2 (EVar vSbeta) * EPow P4 (EVar vMst1) *
   (#2608 * EPow P4 (EVar vMst2) * EPow P4 (EVar vMt) + #2 * EPow P4 (EVar vMsq) * (- #2040 * EPow P2 (EVar vMst2) *
   EPow P2 (EVar vMt) * EPow P2 (EVar vs2t) + #96 * (#47 + #60 * EConst Cz2) * EPow P4 (EVar vMt) + (#67 + #36 *
   EConst Cz2) * EPow P4 (EVar vMst2) * EPow P4 (EVar vs2t)) - #888 * EPow P2 (EVar vMt) * EPow P2 (EVar vs2t) * EPow
   P6 (EVar vMst2) - #24 * EPow P2 (EVar vMsq) * (- #80 * EPow P2 (EVar vMt) * EPow P2 (EVar vs2t) * EPow P4 (EVar
   vMst2) - #80 * EPow P2 (EVar vMst2) * EPow P4 (EVar vMt) + #3 * EPow P4 (EVar vs2t) * EPow P6 (EVar vMst2)) + #45 *
   EPow P4 (EVar vs2t) * EPow P8 (EVar vMst2))) - EVar vSbeta * (EVar vSbeta * (#8 * EPow P2 (EVar vMst1) * EPow P4
   (EVar vMst2) * (#39200 * EVar vMst1 * EVar vs2t * EPow P3 (EVar vMt) * EPow P4 (EVar vMst2) - #1225 * EPow P3 (EVar
   vMst1) * (- #16 * EVar vs2t * EPow P2 (EVar vMst2) * EPow P3 (EVar vMt) + #3 * EVar vMt * EPow P3 (EVar vs2t) *
   EPow P4 (EVar vMst2)) + #49209 * EPow P4 (EVar vMst2) * EPow P4 (EVar vMt) + #15 * EPow P2 (EVar vMst1) * (#991 *
   EPow P2 (EVar vMt) * EPow P2 (EVar vs2t) * EPow P4 (EVar vMst2) + #3920 * EPow P2 (EVar vMst2) * EPow P4 (EVar
   vMt)) + EPow P4 (EVar vMst1) * (- #43935 * EPow P2 (EVar vMst2) * EPow P2 (EVar vMt) * EPow P2 (EVar vs2t) +
   #220709 * EPow P4 (EVar vMt) - #3459 * EPow P4 (EVar vMst2) * EPow P4 (EVar vs2t)) - #3675 * (#16 * EVar vs2t *
   EPow P3 (EVar vMt) - #13 * EVar vMt * EPow P2 (EVar vMst2) * EPow P3 (EVar vs2t)) * EPow P5 (EVar vMst1)) - #88200
   * EPow P2 (EVar vMst2) * EPow P6 (EVar vMsq) * (EPow P2 (- #4 * EVar vMst2 * EPow P2 (EVar vMt) + EPow P2 (EVar
   vs2t) * EPow P3 (EVar vMst2)) - EPow P4 (EVar vMst1) * (#8 * EPow P2 (EVar vMt) * EPow P2 (EVar vs2t) + EPow P2
   (EVar vMst2) * EPow P4 (EVar vs2t)) + EPow P2 (EVar vMst1) * (#16 * EPow P2 (EVar vMst2) * EPow P2 (EVar vMt) *
   EPow P2 (EVar vs2t) + #16 * EPow P4 (EVar vMt) - EPow P4 (EVar vMst2) * EPow P4 (EVar vs2t)) + EPow P4 (EVar vs2t)
   * EPow P6 (EVar vMst1)) - #196 * EPow P2 (EVar vMsq) * EPow P2 (EVar vMst1) * EPow P2 (EVar vMst2) * (#5600 * EVar
   vMst1 * EVar vs2t * EPow P3 (EVar vMt) * EPow P4 (EVar vMst2) - #800 * EPow P3 (EVar vMst1) * (#7 * EVar vs2t *
   EPow P2 (EVar vMst2) * EPow P3 (EVar vMt) + #6 * EVar vMt * EPow P3 (EVar vs2t) * EPow P4 (EVar vMst2)) - #656 *
   EPow P4 (EVar vMst2) * EPow P4 (EVar vMt) - EPow P4 (EVar vMst1) * (#5128 * EPow P2 (EVar vMst2) * EPow P2 (EVar
   vMt) * EPow P2 (EVar vs2t) + #6000 * EPow P4 (EVar vMt) + #345 * EPow P4 (EVar vMst2) * EPow P4 (EVar vs2t)) +
   #4800 * EVar vMt * EPow P2 (EVar vMst2) * EPow P3 (EVar vs2t) * EPow P5 (EVar vMst1) + #872 * EPow P2 (EVar vMt) *
   EPow P2 (EVar vs2t) * EPow P6 (EVar vMst2) + EPow P2 (EVar vMst1) * (#1256 * EPow P2 (EVar vMt) * EPow P2 (EVar
   vs2t) * EPow P4 (EVar vMst2) - #1856 * EPow P2 (EVar vMst2) * EPow P4 (EVar vMt) + #255 * EPow P4 (EVar vs2t) *
   EPow P6 (EVar vMst2))) - #1225 * EPow P2 (EVar vMst1) * EPow P4 (EVar vMsq) * (- #576 * EVar vMt * EVar vs2t * EPow
   P2 (EVar vMst2) * (- #2 * (#1 + #8 * EConst Cz2) * EPow P2 (EVar vMt) + (#7 + #3 * EConst Cz2) * EPow P2 (EVar
   vMst2) * EPow P2 (EVar vs2t)) * EPow P3 (EVar vMst1) + #576 * EVar vMst1 * EVar vMt * EVar vs2t * (- #11 * EPow P2
   (EVar vMt) + (#6 + EConst Cz2) * EPow P2 (EVar vMst2) * EPow P2 (EVar vs2t)) * EPow P4 (EVar vMst2) - #2 * EPow P4
   (EVar vMst2) * (#72 * EPow P2 (EVar vMst2) * EPow P2 (EVar vMt) * EPow P2 (EVar vs2t) + #32 * (- #41 + #36 * EConst
   Cz2) * EPow P4 (EVar vMt) + #3 * (- #37 + #6 * EConst Cz2) * EPow P4 (EVar vMst2) * EPow P4 (EVar vs2t)) - #3 *
   EPow P4 (EVar vMst1) * (#240 * EPow P2 (EVar vMst2) * EPow P2 (EVar vMt) * EPow P2 (EVar vs2t) + #384 * (#1 + #5 *
   EConst Cz2) * EPow P4 (EVar vMt) + #5 * (#11 + #12 * EConst Cz2) * EPow P4 (EVar vMst2) * EPow P4 (EVar vs2t)) +
   #144 * EVar vMt * EVar vs2t * (#8 * (- #7 + #12 * EConst Cz2) * EPow P2 (EVar vMt) + #11 * EPow P2 (EVar vMst2) *
   EPow P2 (EVar vs2t)) * EPow P5 (EVar vMst1) + #6 * EPow P2 (EVar vMst1) * (#240 * EPow P2 (EVar vMt) * EPow P2
   (EVar vs2t) * EPow P4 (EVar vMst2) + #432 * EPow P2 (EVar vMst2) * EPow P4 (EVar vMt) + (- #53 + #36 * EConst Cz2)
   * EPow P4 (EVar vs2t) * EPow P6 (EVar vMst2)))) + #19142 * EVar vCbeta * EVar vMt * EVar vMuSUSY * EPow P2 (EVar
   vMst1) * EPow P3 (EVar vs2t) * EPow P10 (EVar vMst2)) + #105 * ELog (EPow P2 (EVar vMst1) / EPow P2 (EVar vMst2)) *
   EPow P2 (EVar vMst1) * (#140 * EVar vDmglst1 * (- #60 * EVar vMt * EVar vs2t * (- #4 * EPow P2 (EVar vMt) + EPow P2
   (EVar vMst2) * EPow P2 (EVar vs2t)) * EPow P2 (EVar vSbeta) * EPow P4 (EVar vMst1) * EPow P4 (EVar vMst2) + #5 *
   EPow P2 (EVar vSbeta) * EPow P3 (EVar vMst1) * EPow P4 (EVar vMst2) * (#16 * EPow P4 (EVar vMt) + EPow P4 (EVar
   vMst2) * EPow P4 (EVar vs2t)) - #8 * EVar vMt * EVar vMuSUSY * EPow P2 (EVar vMst2) * EPow P2 (EVar vs2t) * (#8 *
   EVar vCbeta * EVar vs2t * EVar vSbeta * EPow P2 (EVar vMst2) + #11 * EVar vMt * EVar vMuSUSY * (- #1 + EPow P2
   (EVar vSbeta))) * EPow P5 (EVar vMst1) + #96 * EVar vs2t * EPow P2 (EVar vMst1) * EPow P2 (EVar vSbeta) * EPow P3
   (EVar vMt) * EPow P6 (EVar vMst2) + #48 * EVar vMst1 * EPow P2 (EVar vSbeta) * EPow P4 (EVar vMt) * EPow P6 (EVar
   vMst2) + EPow P2 (EVar vMsq) * (- #96 * EVar vMt * EVar vs2t * EPow P2 (EVar vMst1) * (- #4 * EPow P2 (EVar vMt) +
   EPow P2 (EVar vMst2) * EPow P2 (EVar vs2t)) * EPow P2 (EVar vSbeta) * EPow P4 (EVar vMst2) - #96 * EVar vMt * EPow
   P2 (EVar vSbeta) * EPow P3 (EVar vs2t) * EPow P4 (EVar vMst1) * EPow P4 (EVar vMst2) + #6 * EVar vMst1 * EPow P2
   (EVar vSbeta) * EPow P4 (EVar vMst2) * (#16 * EPow P4 (EVar vMt) + EPow P4 (EVar vMst2) * EPow P4 (EVar vs2t)) -
   #224 * EPow P2 (EVar vMt) * EPow P2 (EVar vMuSUSY) * EPow P2 (EVar vs2t) * (- #1 + EPow P2 (EVar vSbeta)) * EPow P5
   (EVar vMst1) + #64 * EVar vs2t * EPow P2 (EVar vSbeta) * EPow P3 (EVar vMt) * EPow P6 (EVar vMst2) - #40 * EPow P2
   (EVar vSbeta) * EPow P3 (EVar vMst1) * EPow P4 (EVar vs2t) * EPow P6 (EVar vMst2)) + #12 * EVar vSbeta * EPow P4
   (EVar vMsq) * (#18 * EVar vCbeta * EVar vMt * EVar vMuSUSY * EPow P3 (EVar vs2t) * EPow P5 (EVar vMst1) + EVar
   vSbeta * ((#776 * EVar vs2t * EPow P3 (EVar vMt) - #66 * EVar vMt * EPow P2 (EVar vMst2) * EPow P3 (EVar vs2t)) *
   EPow P4 (EVar vMst1) + #2 * EVar vMt * EVar vs2t * (- #8 * EPow P2 (EVar vMt) + #7 * EPow P2 (EVar vMst2) * EPow P2
   (EVar vs2t)) * EPow P4 (EVar vMst2) + EPow P2 (EVar vMst1) * (#160 * EVar vs2t * EPow P2 (EVar vMst2) * EPow P3
   (EVar vMt) - #26 * EVar vMt * EPow P3 (EVar vs2t) * EPow P4 (EVar vMst2)) + EPow P3 (EVar vMst1) * (#28 * EPow P2
   (EVar vMst2) * EPow P2 (EVar vMt) * EPow P2 (EVar vs2t) - #232 * EPow P4 (EVar vMt) + #3 * EPow P4 (EVar vMst2) *
   EPow P4 (EVar vs2t)) + #3 * EVar vMst1 * (#4 * EPow P2 (EVar vMt) * EPow P2 (EVar vs2t) * EPow P4 (EVar vMst2) +
   EPow P4 (EVar vs2t) * EPow P6 (EVar vMst2)))) + #16 * EVar vs2t * EPow P2 (EVar vSbeta) * EPow P3 (EVar vMt) * EPow
   P8 (EVar vMst2)) + #210 * EPow P2 (EVar vDmglst1) * (#8 * EVar vMt * EVar vMuSUSY * EPow P2 (EVar vs2t) * (- #5 *
   EPow P2 (EVar vMst2) * (#3 * EVar vCbeta * EVar vs2t * EVar vSbeta * EPow P2 (EVar vMst2) + #5 * EVar vMt * EVar
   vMuSUSY * (- #1 + EPow P2 (EVar vSbeta))) - #36 * EVar vMt * EVar vMuSUSY * EPow P2 (EVar vMsq) * (- #1 + EPow P2
   (EVar vSbeta)) + #55 * EVar vCbeta * EVar vs2t * EVar vSbeta * EPow P4 (EVar vMsq)) * EPow P4 (EVar vMst1) + #64 *
   EVar vMst1 * EVar vMt * EVar vs2t * EPow P2 (EVar vMst2) * EPow P2 (EVar vSbeta) * (#2 * (#16 * EPow P2 (EVar vMt)
   - #5 * EPow P2 (EVar vMst2) * EPow P2 (EVar vs2t)) * EPow P4 (EVar vMsq) + EPow P2 (EVar vMt) * EPow P4 (EVar
   vMst2) + EPow P2 (EVar vMsq) * (#4 * EPow P2 (EVar vMst2) * EPow P2 (EVar vMt) - EPow P2 (EVar vs2t) * EPow P4
   (EVar vMst2))) + #2 * EPow P2 (EVar vSbeta) * EPow P4 (EVar vMst2) * (#8 * EPow P2 (EVar vMst2) * EPow P4 (EVar
   vMt) + #6 * EPow P4 (EVar vMsq) * (#4 * EPow P2 (EVar vMt) * EPow P2 (EVar vs2t) + EPow P2 (EVar vMst2) * EPow P4
   (EVar vs2t)) + EPow P2 (EVar vMsq) * (#16 * EPow P4 (EVar vMt) + EPow P4 (EVar vMst2) * EPow P4 (EVar vs2t))) + #96
   * EVar vMuSUSY * EPow P2 (EVar vMt) * (#4 * EVar vCbeta * EVar vSbeta * EPow P2 (EVar vMt) - EVar vCbeta * EVar
   vSbeta * (#4 * EPow P2 (EVar vMsq) + #5 * EPow P2 (EVar vMst2)) * EPow P2 (EVar vs2t) - #10 * EVar vMt * EVar
   vMuSUSY * EVar vs2t * (- #1 + EPow P2 (EVar vSbeta))) * EPow P5 (EVar vMst1) + #16 * EVar vMt * EVar vs2t * EPow P2
   (EVar vSbeta) * EPow P3 (EVar vMst1) * ((#896 * EPow P2 (EVar vMt) - #78 * EPow P2 (EVar vMst2) * EPow P2 (EVar
   vs2t)) * EPow P4 (EVar vMsq) + #20 * EPow P2 (EVar vMt) * EPow P4 (EVar vMst2) - #4 * EPow P2 (EVar vMsq) * EPow P2
   (EVar vs2t) * EPow P4 (EVar vMst2) - #5 * EPow P2 (EVar vs2t) * EPow P6 (EVar vMst2)) + EPow P2 (EVar vMst1) * EPow
   P2 (EVar vSbeta) * (#80 * EPow P4 (EVar vMst2) * EPow P4 (EVar vMt) - #8 * EPow P4 (EVar vMsq) * (- #54 * EPow P2
   (EVar vMst2) * EPow P2 (EVar vMt) * EPow P2 (EVar vs2t) + #428 * EPow P4 (EVar vMt) - #9 * EPow P4 (EVar vMst2) *
   EPow P4 (EVar vs2t)) - #40 * EPow P2 (EVar vMsq) * EPow P4 (EVar vs2t) * EPow P6 (EVar vMst2) + #5 * EPow P4 (EVar
   vs2t) * EPow P8 (EVar vMst2))) + EVar vSbeta * (EVar vSbeta * (#28 * EPow P2 (EVar vMsq) * EPow P4 (EVar vMst2) *
   (#320 * EVar vMst1 * EVar vs2t * EPow P2 (EVar vMst2) * EPow P3 (EVar vMt) + #160 * EPow P3 (EVar vMst1) * (#4 *
   EVar vs2t * EPow P3 (EVar vMt) - EVar vMt * EPow P2 (EVar vMst2) * EPow P3 (EVar vs2t)) + #52 * EPow P2 (EVar vMt)
   * EPow P2 (EVar vs2t) * EPow P4 (EVar vMst2) + #64 * EPow P2 (EVar vMst2) * EPow P4 (EVar vMt) - EPow P4 (EVar
   vMst1) * (#20 * EPow P2 (EVar vMt) * EPow P2 (EVar vs2t) + #41 * EPow P2 (EVar vMst2) * EPow P4 (EVar vs2t)) + EPow
   P2 (EVar vMst1) * (- #32 * EPow P2 (EVar vMst2) * EPow P2 (EVar vMt) * EPow P2 (EVar vs2t) + #240 * EPow P4 (EVar
   vMt) + #6 * EPow P4 (EVar vMst2) * EPow P4 (EVar vs2t)) - #160 * EVar vMt * EPow P3 (EVar vs2t) * EPow P5 (EVar
   vMst1)) + EPow P4 (EVar vMst2) * (#4480 * EVar vs2t * EPow P2 (EVar vMst2) * EPow P3 (EVar vMst1) * EPow P3 (EVar
   vMt) + #2240 * EVar vMst1 * EVar vs2t * EPow P3 (EVar vMt) * EPow P4 (EVar vMst2) + #144 * EPow P4 (EVar vMst2) *
   EPow P4 (EVar vMt) + #24 * EPow P2 (EVar vMst1) * (#11 * EPow P2 (EVar vMt) * EPow P2 (EVar vs2t) * EPow P4 (EVar
   vMst2) + #140 * EPow P2 (EVar vMst2) * EPow P4 (EVar vMt)) + EPow P4 (EVar vMst1) * (- #504 * EPow P2 (EVar vMst2)
   * EPow P2 (EVar vMt) * EPow P2 (EVar vs2t) + #2800 * EPow P4 (EVar vMt) + #163 * EPow P4 (EVar vMst2) * EPow P4
   (EVar vs2t)) + #1680 * (#4 * EVar vs2t * EPow P3 (EVar vMt) - EVar vMt * EPow P2 (EVar vMst2) * EPow P3 (EVar
   vs2t)) * EPow P5 (EVar vMst1)) + #1680 * (- EPow P2 (EVar vMst1) + EPow P2 (EVar vMst2)) * EPow P4 (EVar vMst2) *
   EPow P4 (EVar vs2t) * EPow P6 (EVar vMsq) + #70 * EPow P4 (EVar vMsq) * (#48 * EPow P3 (EVar vMst1) * (#16 * EVar
   vs2t * EPow P2 (EVar vMst2) * EPow P3 (EVar vMt) + #3 * EVar vMt * EPow P3 (EVar vs2t) * EPow P4 (EVar vMst2)) -
   #80 * EPow P4 (EVar vMst2) * EPow P4 (EVar vMt) - #32 * EPow P4 (EVar vMst1) * (- #3 * EPow P2 (EVar vMst2) * EPow
   P2 (EVar vMt) * EPow P2 (EVar vs2t) + #36 * EPow P4 (EVar vMt) + EPow P4 (EVar vMst2) * EPow P4 (EVar vs2t)) + #48
   * (#68 * EVar vs2t * EPow P3 (EVar vMt) - #5 * EVar vMt * EPow P2 (EVar vMst2) * EPow P3 (EVar vs2t)) * EPow P5
   (EVar vMst1) - #112 * EPow P2 (EVar vMt) * EPow P2 (EVar vs2t) * EPow P6 (EVar vMst2) + #48 * EVar vMst1 * (- #8 *
   EVar vs2t * EPow P3 (EVar vMt) * EPow P4 (EVar vMst2) + #7 * EVar vMt * EPow P3 (EVar vs2t) * EPow P6 (EVar vMst2))
   + #8 * EPow P2 (EVar vMst1) * (#32 * EPow P2 (EVar vMt) * EPow P2 (EVar vs2t) * EPow P4 (EVar vMst2) + #3 * EPow P4
   (EVar vs2t) * EPow P6 (EVar vMst2)) + #35 * EPow P4 (EVar vs2t) * EPow P8 (EVar vMst2))) - #72 * EVar vCbeta * EVar
   vMt * EVar vMuSUSY * EPow P3 (EVar vs2t) * EPow P10 (EVar vMst2)))) / (#4410 * EPow P2 (EVar vMst1) * EPow P2 (EVar
   vSbeta) * EPow P4 (EVar vMsq) * EPow P4 (EVar vMst2) * EPow P4 (EVar vMt)).

(** H5.cpp:2665-2834 *)
Definition H5_coef1 : expr :=
  - EDec 4477037037037037 13 - #11024 * EVar vDmglst1 / (#27 * EVar vMst1) - #40192 * EVar vDmglst1 * EVar vs2t / (#27 *
   EVar vMt) + #1472 * EVar vMst1 * EVar vs2t / (#3 * EVar vMt) + #1328 * EConst Cz2 / #3 + #896 * EVar vDmglst1 *
   EVar vs2t * EConst Cz2 / (#3 * EVar vMt) + #896 * EVar vMst1 * EVar vs2t * EConst Cz2 / (#3 * EVar vMt) + #128 *
   EConst Cz3 - #80192 * EVar vs2t * EPow P2 (EVar vDmglst1) / (#27 * EVar vMst1 * EVar vMt) - #160 * EVar vDmglst1 *
   EVar vMst1 / EPow P2 (EVar vMsq) + #368 * EPow P2 (EVar vDmglst1) / (#3 * EPow P2 (EVar vMsq)) - #8960 * EVar vMst1
   * EVar vs2t * EPow P2 (EVar vDmglst1) / (#3 * EVar vMt * EPow P2 (EVar vMsq)) - #102592 * EPow P2 (EVar vDmglst1) /
   (#225 * EPow P2 (EVar vMst1)) - #320 * EPow P2 (EVar vMsq) / EPow P2 (EVar vMst1) - #880 * EPow P2 (EVar vMst1) /
   (#3 * EPow P2 (EVar vMsq)) - #5120 * EVar vDmglst1 * EVar vs2t * EPow P2 (EVar vMst1) / (#3 * EVar vMt * EPow P2
   (EVar vMsq)) + #19648 * EVar vDmglst1 * EVar vMst1 / (#9 * EPow P2 (EVar vMst2)) + #1536 * EVar vDmglst1 * EVar
   vMst1 * EConst Cz2 / EPow P2 (EVar vMst2) + #208336 * EPow P2 (EVar vDmglst1) / (#135 * EPow P2 (EVar vMst2)) +
   #139712 * EVar vMst1 * EVar vs2t * EPow P2 (EVar vDmglst1) / (#9 * EVar vMt * EPow P2 (EVar vMst2)) + #768 * EConst
   Cz2 * EPow P2 (EVar vDmglst1) / EPow P2 (EVar vMst2) + #8256 * EVar vMst1 * EVar vs2t * EConst Cz2 * EPow P2 (EVar
   vDmglst1) / (EVar vMt * EPow P2 (EVar vMst2)) - #320 * EPow P2 (EVar vMsq) / EPow P2 (EVar vMst2) + #448 * EPow P2
   (EVar vMst1) / (#3 * EPow P2 (EVar vMst2)) + #32768 * EVar vDmglst1 * EVar vs2t * EPow P2 (EVar vMst1) / (#3 * EVar
   vMt * EPow P2 (EVar vMst2)) + #2368 * EConst Cz2 * EPow P2 (EVar vMst1) / (#3 * EPow P2 (EVar vMst2)) + #25216 *
   EVar vDmglst1 * EVar vs2t * EConst Cz2 * EPow P2 (EVar vMst1) / (#3 * EVar vMt * EPow P2 (EVar vMst2)) + #1600 *
   EPow P2 (EVar vDmglst1) * EPow P2 (EVar vMst1) / (EPow P2 (EVar vMsq) * EPow P2 (EVar vMst2)) - #1280 * EPow P2
   (EVar vMst2) / (#9 * EPow P2 (EVar vMsq)) - #3520 * EVar vDmglst1 * EVar vs2t * EPow P2 (EVar vMst2) / (#9 * EVar
   vMt * EPow P2 (EVar vMsq)) - #3520 * EVar vMst1 * EVar vs2t * EPow P2 (EVar vMst2) / (#9 * EVar vMt * EPow P2 (EVar
   vMsq)) - #32 * EPow P2 (EVar vMst2) / EPow P2 (EVar vMst1) + #52816 * EVar vDmglst1 * EVar vMst1 * EPow P2 (EVar
   vs2t) / (#9 * EPow P2 (EVar vMt)) + #1024 * EVar vDmglst1 * EVar vMst1 * EConst Cz2 * EPow P2 (EVar vs2t) / EPow P2
   (EVar vMt) + #33736 * EPow P2 (EVar vDmglst1) * EPow P2 (EVar vs2t) / (#9 * EPow P2 (EVar vMt)) + #512 * EConst Cz2
   * EPow P2 (EVar vDmglst1) * EPow P2 (EVar vs2t) / EPow P2 (EVar vMt) - #320 * EPow P2 (EVar vMsq) * EPow P2 (EVar
   vs2t) / EPow P2 (EVar vMt) + #8080 * EPow P2 (EVar vMst1) * EPow P2 (EVar vs2t) / (#3 * EPow P2 (EVar vMt)) + #512
   * EConst Cz2 * EPow P2 (EVar vMst1) * EPow P2 (EVar vs2t) / EPow P2 (EVar vMt) - #12176 * EPow P2 (EVar vDmglst1) *
   EPow P2 (EVar vMst1) * EPow P2 (EVar vs2t) / (#3 * EPow P2 (EVar vMst2) * EPow P2 (EVar vMt)) - #5120 * EConst Cz2
   * EPow P2 (EVar vDmglst1) * EPow P2 (EVar vMst1) * EPow P2 (EVar vs2t) / (EPow P2 (EVar vMst2) * EPow P2 (EVar
   vMt)) + #160 * EPow P2 (EVar vMsq) * EPow P2 (EVar vMst1) * EPow P2 (EVar vs2t) / (EPow P2 (EVar vMst2) * EPow P2
   (EVar vMt)) - #208 * EPow P2 (EVar vMst2) * EPow P2 (EVar vs2t) / EPow P2 (EVar vMt) - #592 * EVar vDmglst1 * EPow
   P2 (EVar vMst2) * EPow P2 (EVar vs2t) / (#9 * EVar vMst1 * EPow P2 (EVar vMt)) + #1976 * EPow P2 (EVar vDmglst1) *
   EPow P2 (EVar vMst2) * EPow P2 (EVar vs2t) / (#9 * EPow P2 (EVar vMst1) * EPow P2 (EVar vMt)) + #160 * EPow P2
   (EVar vMsq) * EPow P2 (EVar vMst2) * EPow P2 (EVar vs2t) / (EPow P2 (EVar vMst1) * EPow P2 (EVar vMt)) - #1280 *
   EVar vs2t * EPow P3 (EVar vMst1) / (#9 * EVar vMt * EPow P2 (EVar vMsq)) + #4096 * EVar vs2t * EPow P3 (EVar vMst1)
   / (#3 * EVar vMt * EPow P2 (EVar vMst2)) + #8704 * EVar vs2t * EConst Cz2 * EPow P3 (EVar vMst1) / (#3 * EVar vMt *
   EPow P2 (EVar vMst2)) + #3200 * EVar vDmglst1 * EPow P3 (EVar vMst1) / (#3 * EPow P2 (EVar vMsq) * EPow P2 (EVar
   vMst2)) - #23680 * EVar vs2t * EPow P2 (EVar vDmglst1) * EPow P3 (EVar vMst1) / (#3 * EVar vMt * EPow P2 (EVar
   vMsq) * EPow P2 (EVar vMst2)) - #2208 * EVar vDmglst1 * EPow P2 (EVar vs2t) * EPow P3 (EVar vMst1) / (EPow P2 (EVar
   vMst2) * EPow P2 (EVar vMt)) - #2048 * EVar vDmglst1 * EConst Cz2 * EPow P2 (EVar vs2t) * EPow P3 (EVar vMst1) /
   (EPow P2 (EVar vMst2) * EPow P2 (EVar vMt)) - #14768 * EVar vMst1 * EPow P2 (EVar vDmglst1) * EPow P3 (EVar vs2t) /
   (#9 * EPow P3 (EVar vMt)) - #1152 * EVar vMst1 * EConst Cz2 * EPow P2 (EVar vDmglst1) * EPow P3 (EVar vs2t) / EPow
   P3 (EVar vMt) - #6688 * EVar vDmglst1 * EPow P2 (EVar vMst1) * EPow P3 (EVar vs2t) / (#3 * EPow P3 (EVar vMt)) -
   #2912 * EVar vDmglst1 * EConst Cz2 * EPow P2 (EVar vMst1) * EPow P3 (EVar vs2t) / (#3 * EPow P3 (EVar vMt)) + #6464
   * EVar vDmglst1 * EPow P2 (EVar vMst2) * EPow P3 (EVar vs2t) / (#3 * EPow P3 (EVar vMt)) + #5344 * EVar vMst1 *
   EPow P2 (EVar vMst2) * EPow P3 (EVar vs2t) / (#3 * EPow P3 (EVar vMt)) + #544 * EVar vDmglst1 * EConst Cz2 * EPow
   P2 (EVar vMst2) * EPow P3 (EVar vs2t) / (#3 * EPow P3 (EVar vMt)) + #544 * EVar vMst1 * EConst Cz2 * EPow P2 (EVar
   vMst2) * EPow P3 (EVar vs2t) / (#3 * EPow P3 (EVar vMt)) + #272 * EPow P2 (EVar vDmglst1) * EPow P2 (EVar vMst2) *
   EPow P3 (EVar vs2t) / (#9 * EVar vMst1 * EPow P3 (EVar vMt)) - #1792 * EPow P3 (EVar vMst1) * EPow P3 (EVar vs2t) /
   EPow P3 (EVar vMt) - #608 * EConst Cz2 * EPow P3 (EVar vMst1) * EPow P3 (EVar vs2t) / (#3 * EPow P3 (EVar vMt)) +
   #1408 * EPow P2 (EVar vDmglst1) * EPow P3 (EVar vMst1) * EPow P3 (EVar vs2t) / (EPow P2 (EVar vMst2) * EPow P3
   (EVar vMt)) + #1052 * EPow P2 (EVar vDmglst1) * EPow P2 (EVar vMst1) / (#3 * EPow P4 (EVar vMsq)) - #280 * EVar
   vDmglst1 * EVar vMst1 * EPow P2 (EVar vMst2) / (#3 * EPow P4 (EVar vMsq)) - #140 * EPow P2 (EVar vDmglst1) * EPow
   P2 (EVar vMst2) / (#3 * EPow P4 (EVar vMsq)) - #1040 * EVar vMst1 * EVar vs2t * EPow P2 (EVar vDmglst1) * EPow P2
   (EVar vMst2) / (#3 * EVar vMt * EPow P4 (EVar vMsq)) - #140 * EPow P2 (EVar vMst1) * EPow P2 (EVar vMst2) / (#3 *
   EPow P4 (EVar vMsq)) - #1040 * EVar vDmglst1 * EVar vs2t * EPow P2 (EVar vMst1) * EPow P2 (EVar vMst2) / (#3 * EVar
   vMt * EPow P4 (EVar vMsq)) + #760 * EVar vDmglst1 * EPow P3 (EVar vMst1) / (#9 * EPow P4 (EVar vMsq)) - #7120 *
   EVar vs2t * EPow P2 (EVar vDmglst1) * EPow P3 (EVar vMst1) / (#3 * EVar vMt * EPow P4 (EVar vMsq)) - #1040 * EVar
   vs2t * EPow P2 (EVar vMst2) * EPow P3 (EVar vMst1) / (#9 * EVar vMt * EPow P4 (EVar vMsq)) + #800 * EPow P4 (EVar
   vMst1) / (#3 * EPow P2 (EVar vMsq) * EPow P2 (EVar vMst2)) - #7040 * EVar vDmglst1 * EVar vs2t * EPow P4 (EVar
   vMst1) / (#3 * EVar vMt * EPow P2 (EVar vMsq) * EPow P2 (EVar vMst2)) - #1168 * EPow P2 (EVar vs2t) * EPow P4 (EVar
   vMst1) / (EPow P2 (EVar vMst2) * EPow P2 (EVar vMt)) + #2264 * EVar vDmglst1 * EPow P3 (EVar vs2t) * EPow P4 (EVar
   vMst1) / (#3 * EPow P2 (EVar vMst2) * EPow P3 (EVar vMt)) - #410 * EPow P4 (EVar vMst1) / (#9 * EPow P4 (EVar
   vMsq)) - #2120 * EVar vDmglst1 * EVar vs2t * EPow P4 (EVar vMst1) / (#3 * EVar vMt * EPow P4 (EVar vMsq)) - #931376
   * EPow P2 (EVar vDmglst1) * EPow P2 (EVar vMst1) / (#135 * EPow P4 (EVar vMst2)) - #1600 * EConst Cz2 * EPow P2
   (EVar vDmglst1) * EPow P2 (EVar vMst1) / EPow P4 (EVar vMst2) - #76928 * EVar vDmglst1 * EPow P3 (EVar vMst1) / (#9
   * EPow P4 (EVar vMst2)) - #256 * EVar vDmglst1 * EConst Cz2 * EPow P3 (EVar vMst1) / EPow P4 (EVar vMst2) + #404864
   * EVar vs2t * EPow P2 (EVar vDmglst1) * EPow P3 (EVar vMst1) / (#9 * EVar vMt * EPow P4 (EVar vMst2)) + #85696 *
   EVar vs2t * EConst Cz2 * EPow P2 (EVar vDmglst1) * EPow P3 (EVar vMst1) / (#3 * EVar vMt * EPow P4 (EVar vMst2)) -
   #2756 * EPow P4 (EVar vMst1) / EPow P4 (EVar vMst2) + #6496 * EVar vDmglst1 * EVar vs2t * EPow P4 (EVar vMst1) /
   (EVar vMt * EPow P4 (EVar vMst2)) + #256 * EConst Cz2 * EPow P4 (EVar vMst1) / EPow P4 (EVar vMst2) + #43904 * EVar
   vDmglst1 * EVar vs2t * EConst Cz2 * EPow P4 (EVar vMst1) / (#3 * EVar vMt * EPow P4 (EVar vMst2)) - #172 * EVar
   vCbeta * EVar vMuSUSY * EPow P2 (EVar vDmglst1) * EPow P3 (EVar vs2t) * EPow P4 (EVar vMst1) / (#3 * EVar vSbeta *
   EPow P3 (EVar vMt) * EPow P4 (EVar vMst2)) + #16 * EPow P2 (EVar vs2t) * EPow P4 (EVar vMst2) / (EPow P2 (EVar
   vMst1) * EPow P2 (EVar vMt)) - #30 * EPow P4 (EVar vMst2) / EPow P4 (EVar vMsq) - #520 * EVar vDmglst1 * EVar vs2t
   * EPow P4 (EVar vMst2) / (#9 * EVar vMt * EPow P4 (EVar vMsq)) - #520 * EVar vMst1 * EVar vs2t * EPow P4 (EVar
   vMst2) / (#9 * EVar vMt * EPow P4 (EVar vMsq)) - #1336 * EPow P2 (EVar vDmglst1) * EPow P2 (EVar vMst1) * EPow P4
   (EVar vs2t) / (#9 * EPow P4 (EVar vMt)) - #172 * EConst Cz2 * EPow P2 (EVar vDmglst1) * EPow P2 (EVar vMst1) * EPow
   P4 (EVar vs2t) / (#3 * EPow P4 (EVar vMt)) + #20 * EPow P2 (EVar vMsq) * EPow P2 (EVar vMst1) * EPow P4 (EVar vs2t)
   / EPow P4 (EVar vMt) + #116 * EVar vDmglst1 * EVar vMst1 * EPow P2 (EVar vMst2) * EPow P4 (EVar vs2t) / EPow P4
   (EVar vMt) + #344 * EVar vDmglst1 * EVar vMst1 * EConst Cz2 * EPow P2 (EVar vMst2) * EPow P4 (EVar vs2t) / (#3 *
   EPow P4 (EVar vMt)) + #1334 * EPow P2 (EVar vDmglst1) * EPow P2 (EVar vMst2) * EPow P4 (EVar vs2t) / (#9 * EPow P4
   (EVar vMt)) + #172 * EConst Cz2 * EPow P2 (EVar vDmglst1) * EPow P2 (EVar vMst2) * EPow P4 (EVar vs2t) / (#3 * EPow
   P4 (EVar vMt)) + #20 * EPow P2 (EVar vMsq) * EPow P2 (EVar vMst2) * EPow P4 (EVar vs2t) / EPow P4 (EVar vMt) - #330
   * EPow P2 (EVar vMst1) * EPow P2 (EVar vMst2) * EPow P4 (EVar vs2t) / EPow P4 (EVar vMt) + #172 * EConst Cz2 * EPow
   P2 (EVar vMst1) * EPow P2 (EVar vMst2) * EPow P4 (EVar vs2t) / (#3 * EPow P4 (EVar vMt)) - #396 * EVar vDmglst1 *
   EPow P3 (EVar vMst1) * EPow P4 (EVar vs2t) / EPow P4 (EVar vMt) - #344 * EVar vDmglst1 * EConst Cz2 * EPow P3 (EVar
   vMst1) * EPow P4 (EVar vs2t) / (#3 * EPow P4 (EVar vMt)) - #45 * EPow P4 (EVar vMst1) * EPow P4 (EVar vs2t) / (#2 *
   EPow P4 (EVar vMt)) - #30 * EConst Cz2 * EPow P4 (EVar vMst1) * EPow P4 (EVar vs2t) / EPow P4 (EVar vMt) - #20 *
   EPow P2 (EVar vMsq) * EPow P4 (EVar vMst1) * EPow P4 (EVar vs2t) / (EPow P2 (EVar vMst2) * EPow P4 (EVar vMt)) +
   #228 * EPow P4 (EVar vMst2) * EPow P4 (EVar vs2t) / EPow P4 (EVar vMt) + #12 * EVar vDmglst1 * EPow P4 (EVar vMst2)
   * EPow P4 (EVar vs2t) / (EVar vMst1 * EPow P4 (EVar vMt)) - #82 * EConst Cz2 * EPow P4 (EVar vMst2) * EPow P4 (EVar
   vs2t) / (#3 * EPow P4 (EVar vMt)) - #16 * EPow P2 (EVar vDmglst1) * EPow P4 (EVar vMst2) * EPow P4 (EVar vs2t) /
   (#9 * EPow P2 (EVar vMst1) * EPow P4 (EVar vMt)) - #20 * EPow P2 (EVar vMsq) * EPow P4 (EVar vMst2) * EPow P4 (EVar
   vs2t) / (EPow P2 (EVar vMst1) * EPow P4 (EVar vMt)) - #640 * EVar vs2t * EPow P5 (EVar vMst1) / (#3 * EVar vMt *
   EPow P2 (EVar vMsq) * EPow P2 (EVar vMst2)) - #40 * EPow P3 (EVar vs2t) * EPow P5 (EVar vMst1) / (#3 * EPow P2
   (EVar vMst2) * EPow P3 (EVar vMt)) - #40 * EVar vs2t * EPow P5 (EVar vMst1) / (#3 * EVar vMt * EPow P4 (EVar vMsq))
   - #5984 * EVar vs2t * EPow P5 (EVar vMst1) / (#3 * EVar vMt * EPow P4 (EVar vMst2)) + #8960 * EVar vs2t * EConst
   Cz2 * EPow P5 (EVar vMst1) / (#3 * EVar vMt * EPow P4 (EVar vMst2)) - #88 * EVar vCbeta * EVar vDmglst1 * EVar
   vMuSUSY * EPow P3 (EVar vs2t) * EPow P5 (EVar vMst1) / (#3 * EVar vSbeta * EPow P3 (EVar vMt) * EPow P4 (EVar
   vMst2)) - #19840 * EVar vCbeta * EVar vMuSUSY * EPow P2 (EVar vDmglst1) * EPow P5 (EVar vMst1) / (#3 * EVar vSbeta
   * EPow P4 (EVar vMsq) * EPow P4 (EVar vMst2)) - #8 * ELog (EPow P2 (EVar vMst1) / EPow P2 (EVar vMsq)) * (#60 *
   ELog (EPow P2 (EVar vMst1) / EPow P2 (EVar vMst2)) * EPow P2 (EVar vMst1) * EPow P4 (EVar vMsq) * (#6 * EVar vMst1
   * EPow P2 (EVar vDmglst1) * (- #5 * EVar vMst1 * EVar vMt + #20 * EVar vs2t * EPow P2 (EVar vMst1) + #4 * EVar vs2t
   * EPow P2 (EVar vMst2)) + #8 * EVar vs2t * EPow P2 (EVar vMst2) * EPow P3 (EVar vMst1) - #5 * EVar vMt * EPow P4
   (EVar vMst1) + EVar vMt * EPow P4 (EVar vMst2) + #4 * EVar vMst1 * EVar vs2t * EPow P4 (EVar vMst2) + #4 * EVar
   vDmglst1 * (#6 * EVar vs2t * EPow P2 (EVar vMst1) * EPow P2 (EVar vMst2) - #5 * EVar vMt * EPow P3 (EVar vMst1) +
   #15 * EVar vs2t * EPow P4 (EVar vMst1) + EVar vs2t * EPow P4 (EVar vMst2)) + #12 * EVar vs2t * EPow P5 (EVar
   vMst1)) + #5 * EPow P2 (EVar vMst1) * (- #8 * EPow P2 (EVar vMsq) * (#4 * EVar vMt * EPow P2 (EVar vMst1) + EVar
   vMt * EPow P2 (EVar vMst2) + #2 * EVar vMst1 * EVar vs2t * EPow P2 (EVar vMst2) - #2 * EVar vs2t * EPow P3 (EVar
   vMst1)) * EPow P4 (EVar vMst2) - EPow P4 (EVar vMst2) * (#6 * EVar vMt * EPow P2 (EVar vMst1) * EPow P2 (EVar
   vMst2) + #8 * EVar vs2t * EPow P2 (EVar vMst2) * EPow P3 (EVar vMst1) + #19 * EVar vMt * EPow P4 (EVar vMst1) + #3
   * EVar vMt * EPow P4 (EVar vMst2) + #4 * EVar vMst1 * EVar vs2t * EPow P4 (EVar vMst2) - #12 * EVar vs2t * EPow P5
   (EVar vMst1)) + #6 * EPow P4 (EVar vMsq) * (- #6 * EVar vMt * EPow P2 (EVar vMst1) * EPow P2 (EVar vMst2) + #8 *
   EVar vs2t * EPow P2 (EVar vMst2) * EPow P3 (EVar vMst1) - #14 * EVar vMt * EPow P4 (EVar vMst1) - #7 * EVar vMt *
   EPow P4 (EVar vMst2) + #12 * EVar vMst1 * EVar vs2t * EPow P4 (EVar vMst2) + #8 * EVar vs2t * EPow P5 (EVar
   vMst1))) + #20 * EVar vDmglst1 * EVar vMst1 * (#4 * EVar vMst1 * EPow P2 (EVar vMsq) * (- #3 * EVar vMst1 * EVar
   vMt + EVar vs2t * EPow P2 (EVar vMst1) - EVar vs2t * EPow P2 (EVar vMst2)) * EPow P4 (EVar vMst2) + EVar vMst1 *
   EPow P4 (EVar vMst2) * (- #3 * EVar vMst1 * EVar vMt * EPow P2 (EVar vMst2) - #6 * EVar vs2t * EPow P2 (EVar vMst1)
   * EPow P2 (EVar vMst2) - #13 * EVar vMt * EPow P3 (EVar vMst1) + #7 * EVar vs2t * EPow P4 (EVar vMst1) - EVar vs2t
   * EPow P4 (EVar vMst2)) + #2 * EPow P4 (EVar vMsq) * (- #9 * EVar vMt * EPow P2 (EVar vMst1) * EPow P2 (EVar vMst2)
   + #42 * EVar vs2t * EPow P2 (EVar vMst2) * EPow P3 (EVar vMst1) - #57 * EVar vMt * EPow P4 (EVar vMst1) - #2 * EVar
   vMt * EPow P4 (EVar vMst2) + #17 * EVar vMst1 * EVar vs2t * EPow P4 (EVar vMst2) + #66 * EVar vs2t * EPow P5 (EVar
   vMst1))) + #6 * EPow P2 (EVar vDmglst1) * (- #20 * EVar vMt * EPow P2 (EVar vMsq) * EPow P2 (EVar vMst1) * EPow P4
   (EVar vMst2) + #5 * EPow P2 (EVar vMst1) * (- #11 * EVar vMt * EPow P2 (EVar vMst1) - EVar vMt * EPow P2 (EVar
   vMst2) - #4 * EVar vMst1 * EVar vs2t * EPow P2 (EVar vMst2) + #4 * EVar vs2t * EPow P3 (EVar vMst1)) * EPow P4
   (EVar vMst2) + #2 * EPow P4 (EVar vMsq) * (- #15 * EVar vMt * EPow P2 (EVar vMst1) * EPow P2 (EVar vMst2) + #260 *
   EVar vs2t * EPow P2 (EVar vMst2) * EPow P3 (EVar vMst1) - #385 * EVar vMt * EPow P4 (EVar vMst1) + EVar vMt * EPow
   P4 (EVar vMst2) + #20 * EVar vMst1 * EVar vs2t * EPow P4 (EVar vMst2) + #740 * EVar vs2t * EPow P5 (EVar vMst1))))
   / (#3 * EVar vMt * EPow P2 (EVar vMst1) * EPow P4 (EVar vMsq) * EPow P4 (EVar vMst2)) + #2 * EPow P2 (ELog (EPow P2
   (EVar vMst1) / EPow P2 (EVar vMst2))) * (#512 * EVar vCbeta * EVar vDmglst1 * (EVar vDmglst1 + #2 * EVar vMst1) *
   EVar vMt * EVar vMuSUSY * EPow P3 (EVar vs2t) * EPow P4 (EVar vMst1) + EVar vSbeta * (#8 * EPow P3 (EVar vMst1) *
   (#296 * EVar vs2t * EPow P2 (EVar vMst2) * EPow P3 (EVar vMt) + #53 * EVar vMt * EPow P3 (EVar vs2t) * EPow P4
   (EVar vMst2)) - #212 * EPow P4 (EVar vMst2) * EPow P4 (EVar vMt) + #3 * EPow P4 (EVar vMst1) * (- #128 * EPow P2
   (EVar vMst2) * EPow P2 (EVar vMt) * EPow P2 (EVar vs2t) + #16 * EPow P4 (EVar vMt) - #9 * EPow P4 (EVar vMst2) *
   EPow P4 (EVar vs2t)) + #32 * (#95 * EVar vs2t * EPow P3 (EVar vMt) + #16 * EVar vMt * EPow P2 (EVar vMst2) * EPow
   P3 (EVar vs2t)) * EPow P5 (EVar vMst1) - #492 * EPow P2 (EVar vMt) * EPow P2 (EVar vs2t) * EPow P6 (EVar vMst2) +
   #24 * EVar vMst1 * (- #8 * EVar vs2t * EPow P3 (EVar vMt) * EPow P4 (EVar vMst2) + #19 * EVar vMt * EPow P3 (EVar
   vs2t) * EPow P6 (EVar vMst2)) + EPow P2 (EVar vDmglst1) * (#30192 * EVar vs2t * EPow P3 (EVar vMst1) * EPow P3
   (EVar vMt) + #64 * EPow P2 (EVar vMt) * EPow P2 (EVar vs2t) * EPow P4 (EVar vMst2) + EVar vMst1 * (#7536 * EVar
   vs2t * EPow P2 (EVar vMst2) * EPow P3 (EVar vMt) - #864 * EVar vMt * EPow P3 (EVar vs2t) * EPow P4 (EVar vMst2)) +
   #528 * EPow P2 (EVar vMst2) * EPow P4 (EVar vMt) - #3 * EPow P2 (EVar vMst1) * (#2048 * EPow P2 (EVar vMst2) * EPow
   P2 (EVar vMt) * EPow P2 (EVar vs2t) + #688 * EPow P4 (EVar vMt) + #9 * EPow P4 (EVar vMst2) * EPow P4 (EVar vs2t))
   + #155 * EPow P4 (EVar vs2t) * EPow P6 (EVar vMst2)) + EPow P2 (EVar vMst1) * (#228 * EPow P2 (EVar vMt) * EPow P2
   (EVar vs2t) * EPow P4 (EVar vMst2) + #544 * EPow P2 (EVar vMst2) * EPow P4 (EVar vMt) + #237 * EPow P4 (EVar vs2t)
   * EPow P6 (EVar vMst2)) + #2 * EVar vDmglst1 * (#64 * (#121 * EVar vs2t * EPow P3 (EVar vMt) + #4 * EVar vMt * EPow
   P2 (EVar vMst2) * EPow P3 (EVar vs2t)) * EPow P4 (EVar vMst1) - #96 * EVar vs2t * EPow P3 (EVar vMt) * EPow P4
   (EVar vMst2) + EPow P2 (EVar vMst1) * (#3696 * EVar vs2t * EPow P2 (EVar vMst2) * EPow P3 (EVar vMt) - #76 * EVar
   vMt * EPow P3 (EVar vs2t) * EPow P4 (EVar vMst2)) - #3 * EPow P3 (EVar vMst1) * (#512 * EPow P2 (EVar vMst2) * EPow
   P2 (EVar vMt) * EPow P2 (EVar vs2t) + #128 * EPow P4 (EVar vMt) + #9 * EPow P4 (EVar vMst2) * EPow P4 (EVar vs2t))
   + #228 * EVar vMt * EPow P3 (EVar vs2t) * EPow P6 (EVar vMst2) + EVar vMst1 * (#64 * EPow P2 (EVar vMt) * EPow P2
   (EVar vs2t) * EPow P4 (EVar vMst2) + #528 * EPow P2 (EVar vMst2) * EPow P4 (EVar vMt) + #155 * EPow P4 (EVar vs2t)
   * EPow P6 (EVar vMst2))) + #82 * EPow P4 (EVar vs2t) * EPow P8 (EVar vMst2))) / (#3 * EVar vSbeta * EPow P4 (EVar
   vMst2) * EPow P4 (EVar vMt)) - ELog (EPow P2 (EVar vMst1) / EPow P2 (EVar vMst2)) * (#120 * EVar vCbeta * EVar
   vDmglst1 * EVar vMt * EVar vMuSUSY * (- #98 * EVar vMst1 * EPow P3 (EVar vs2t) * EPow P4 (EVar vMsq) + #5 * EVar
   vDmglst1 * (#480 * EVar vMst1 * EPow P3 (EVar vMt) - #67 * EPow P3 (EVar vs2t) * EPow P4 (EVar vMsq))) * EPow P6
   (EVar vMst1) + EVar vSbeta * (- #15 * EPow P2 (EVar vMst1) * (- #160 * EPow P2 (EVar vMsq) * EPow P2 (EVar vMst2) *
   EPow P3 (EVar vMt) * (#3 * EVar vMt * EPow P2 (EVar vMst1) * EPow P2 (EVar vMst2) + #8 * EVar vs2t * EPow P2 (EVar
   vMst2) * EPow P3 (EVar vMst1) + #2 * EVar vMt * EPow P4 (EVar vMst2) + #4 * EVar vMst1 * EVar vs2t * EPow P4 (EVar
   vMst2) + #12 * EVar vs2t * EPow P5 (EVar vMst1)) - #40 * EPow P3 (EVar vMt) * EPow P4 (EVar vMst2) * (#6 * EVar vMt
   * EPow P2 (EVar vMst1) * EPow P2 (EVar vMst2) + #8 * EVar vs2t * EPow P2 (EVar vMst2) * EPow P3 (EVar vMst1) + #5 *
   EVar vMt * EPow P4 (EVar vMst1) + #3 * EVar vMt * EPow P4 (EVar vMst2) + #4 * EVar vMst1 * EVar vs2t * EPow P4
   (EVar vMst2) + #12 * EVar vs2t * EPow P5 (EVar vMst1)) + #120 * (EPow P2 (EVar vMst1) - EPow P2 (EVar vMst2)) *
   EPow P4 (EVar vMst2) * EPow P4 (EVar vs2t) * EPow P6 (EVar vMsq) + EPow P4 (EVar vMsq) * (#64 * EPow P3 (EVar
   vMst1) * (#244 * EVar vs2t * EPow P2 (EVar vMst2) * EPow P3 (EVar vMt) + #49 * EVar vMt * EPow P3 (EVar vs2t) *
   EPow P4 (EVar vMst2)) + EPow P4 (EVar vMst1) * (#6688 * EPow P2 (EVar vMst2) * EPow P2 (EVar vMt) * EPow P2 (EVar
   vs2t) + #296 * EPow P4 (EVar vMt) - #807 * EPow P4 (EVar vMst2) * EPow P4 (EVar vs2t)) + #10 * EPow P4 (EVar vMst2)
   * (- #160 * EPow P2 (EVar vMst2) * EPow P2 (EVar vMt) * EPow P2 (EVar vs2t) + #72 * EPow P4 (EVar vMt) + #63 * EPow
   P4 (EVar vMst2) * EPow P4 (EVar vs2t)) + #16 * (#1724 * EVar vs2t * EPow P3 (EVar vMt) - #21 * EVar vMt * EPow P2
   (EVar vMst2) * EPow P3 (EVar vs2t)) * EPow P5 (EVar vMst1) + #128 * EVar vMst1 * (#17 * EVar vs2t * EPow P3 (EVar
   vMt) * EPow P4 (EVar vMst2) + #33 * EVar vMt * EPow P3 (EVar vs2t) * EPow P6 (EVar vMst2)) + #2 * EPow P2 (EVar
   vMst1) * (#3320 * EPow P2 (EVar vMt) * EPow P2 (EVar vs2t) * EPow P4 (EVar vMst2) + #2168 * EPow P2 (EVar vMst2) *
   EPow P4 (EVar vMt) + #97 * EPow P4 (EVar vs2t) * EPow P6 (EVar vMst2)))) - #20 * EVar vDmglst1 * EVar vMst1 * (-
   #120 * EVar vMst1 * EPow P3 (EVar vMt) * EPow P4 (EVar vMst2) * (#3 * EVar vMst1 * EVar vMt * EPow P2 (EVar vMst2)
   + #6 * EVar vs2t * EPow P2 (EVar vMst1) * EPow P2 (EVar vMst2) + #5 * EVar vMt * EPow P3 (EVar vMst1) + #15 * EVar
   vs2t * EPow P4 (EVar vMst1) + EVar vs2t * EPow P4 (EVar vMst2)) - #240 * EVar vMst1 * EPow P2 (EVar vMsq) * EPow P2
   (EVar vMst2) * EPow P3 (EVar vMt) * (#3 * EVar vMst1 * EVar vMt * EPow P2 (EVar vMst2) + #12 * EVar vs2t * EPow P2
   (EVar vMst1) * EPow P2 (EVar vMst2) + #30 * EVar vs2t * EPow P4 (EVar vMst1) + #2 * EVar vs2t * EPow P4 (EVar
   vMst2)) + EPow P4 (EVar vMsq) * (#16 * EPow P3 (EVar vMst1) * (#2209 * EVar vs2t * EPow P2 (EVar vMst2) * EPow P3
   (EVar vMt) + #87 * EVar vMt * EPow P3 (EVar vs2t) * EPow P4 (EVar vMst2)) + EPow P4 (EVar vMst1) * (#6312 * EPow P2
   (EVar vMst2) * EPow P2 (EVar vMt) * EPow P2 (EVar vs2t) - #3200 * EPow P4 (EVar vMt) - #651 * EPow P4 (EVar vMst2)
   * EPow P4 (EVar vs2t)) + #16 * EPow P4 (EVar vMst2) * (- #24 * EPow P2 (EVar vMst2) * EPow P2 (EVar vMt) * EPow P2
   (EVar vs2t) + #11 * EPow P4 (EVar vMt) + #6 * EPow P4 (EVar vMst2) * EPow P4 (EVar vs2t)) + #4 * (#25312 * EVar
   vs2t * EPow P3 (EVar vMt) - #531 * EVar vMt * EPow P2 (EVar vMst2) * EPow P3 (EVar vs2t)) * EPow P5 (EVar vMst1) +
   #16 * EVar vMst1 * (#103 * EVar vs2t * EPow P3 (EVar vMt) * EPow P4 (EVar vMst2) + #198 * EVar vMt * EPow P3 (EVar
   vs2t) * EPow P6 (EVar vMst2)) + EPow P2 (EVar vMst1) * (#7368 * EPow P2 (EVar vMt) * EPow P2 (EVar vs2t) * EPow P4
   (EVar vMst2) + #6696 * EPow P2 (EVar vMst2) * EPow P4 (EVar vMt) + #783 * EPow P4 (EVar vs2t) * EPow P6 (EVar
   vMst2)))) - #2 * EPow P2 (EVar vDmglst1) * (- #3600 * EPow P2 (EVar vMsq) * EPow P2 (EVar vMst1) * EPow P2 (EVar
   vMst2) * ((EVar vMt + #8 * EVar vMst1 * EVar vs2t) * EPow P2 (EVar vMst2) + #40 * EVar vs2t * EPow P3 (EVar vMst1))
   * EPow P3 (EVar vMt) - #1800 * (EVar vMt + #4 * EVar vMst1 * EVar vs2t) * EPow P2 (EVar vMst1) * (#5 * EPow P2
   (EVar vMst1) + EPow P2 (EVar vMst2)) * EPow P3 (EVar vMt) * EPow P4 (EVar vMst2) + EPow P4 (EVar vMsq) * (#720 *
   EVar vMst1 * EVar vs2t * EPow P3 (EVar vMt) * EPow P4 (EVar vMst2) - #3920 * EPow P3 (EVar vMst1) * (- #91 * EVar
   vs2t * EPow P2 (EVar vMst2) * EPow P3 (EVar vMt) + #12 * EVar vMt * EPow P3 (EVar vs2t) * EPow P4 (EVar vMst2)) -
   #5 * EPow P4 (EVar vMst1) * (#21624 * EPow P2 (EVar vMst2) * EPow P2 (EVar vMt) * EPow P2 (EVar vs2t) + #17224 *
   EPow P4 (EVar vMt) - #159 * EPow P4 (EVar vMst2) * EPow P4 (EVar vs2t)) + #80 * (#24875 * EVar vs2t * EPow P3 (EVar
   vMt) - #693 * EVar vMt * EPow P2 (EVar vMst2) * EPow P3 (EVar vs2t)) * EPow P5 (EVar vMst1) + #5 * EPow P2 (EVar
   vMst1) * (#5832 * EPow P2 (EVar vMt) * EPow P2 (EVar vs2t) * EPow P4 (EVar vMst2) + #6824 * EPow P2 (EVar vMst2) *
   EPow P4 (EVar vMt) + #783 * EPow P4 (EVar vs2t) * EPow P6 (EVar vMst2)) + #24 * (- #3 * EPow P4 (EVar vMst2) * EPow
   P4 (EVar vMt) - #80 * EPow P2 (EVar vMt) * EPow P2 (EVar vs2t) * EPow P6 (EVar vMst2) + #20 * EPow P4 (EVar vs2t) *
   EPow P8 (EVar vMst2)))))) / (#45 * EVar vSbeta * EPow P2 (EVar vMst1) * EPow P4 (EVar vMsq) * EPow P4 (EVar vMst2)
   * EPow P4 (EVar vMt)).

(** H5.cpp:2839-2898 *)
Definition H5_coef2 : expr :=
  (#263040 * EVar vs2t * EVar vSbeta * EPow P2 (EVar vDmglst1) * EPow P2 (EVar vMst2) * EPow P3 (EVar vMst1) * EPow P3
   (EVar vMt) - #22440 * EVar vSbeta * EPow P2 (EVar vDmglst1) * EPow P2 (EVar vMst2) * EPow P2 (EVar vMt) * EPow P2
   (EVar vs2t) * EPow P4 (EVar vMst1) + #136320 * EVar vDmglst1 * EVar vs2t * EVar vSbeta * EPow P2 (EVar vMst2) *
   EPow P3 (EVar vMt) * EPow P4 (EVar vMst1) + #33360 * EVar vSbeta * EPow P2 (EVar vDmglst1) * EPow P2 (EVar vMst1) *
   EPow P2 (EVar vMt) * EPow P2 (EVar vs2t) * EPow P4 (EVar vMst2) + #82080 * EVar vDmglst1 * EVar vSbeta * EPow P2
   (EVar vMt) * EPow P2 (EVar vs2t) * EPow P3 (EVar vMst1) * EPow P4 (EVar vMst2) - #12160 * EVar vMst1 * EVar vs2t *
   EVar vSbeta * EPow P2 (EVar vDmglst1) * EPow P3 (EVar vMt) * EPow P4 (EVar vMst2) + #36160 * EVar vDmglst1 * EVar
   vs2t * EVar vSbeta * EPow P2 (EVar vMst1) * EPow P3 (EVar vMt) * EPow P4 (EVar vMst2) + #25920 * EVar vs2t * EVar
   vSbeta * EPow P3 (EVar vMst1) * EPow P3 (EVar vMt) * EPow P4 (EVar vMst2) + #42960 * EVar vSbeta * EPow P2 (EVar
   vMt) * EPow P2 (EVar vs2t) * EPow P4 (EVar vMst1) * EPow P4 (EVar vMst2) - #19680 * EVar vDmglst1 * EVar vMt * EVar
   vSbeta * EPow P3 (EVar vs2t) * EPow P4 (EVar vMst1) * EPow P4 (EVar vMst2) + #84400 * EVar vSbeta * EPow P2 (EVar
   vDmglst1) * EPow P2 (EVar vMst1) * EPow P2 (EVar vMst2) * EPow P4 (EVar vMt) + #86880 * EVar vDmglst1 * EVar vSbeta
   * EPow P2 (EVar vMst2) * EPow P3 (EVar vMst1) * EPow P4 (EVar vMt) - #57440 * EVar vSbeta * EPow P2 (EVar vDmglst1)
   * EPow P4 (EVar vMst1) * EPow P4 (EVar vMt) + #28080 * EVar vSbeta * EPow P2 (EVar vMst2) * EPow P4 (EVar vMst1) *
   EPow P4 (EVar vMt) + #29600 * EVar vDmglst1 * EVar vMst1 * EVar vSbeta * EPow P4 (EVar vMst2) * EPow P4 (EVar vMt)
   - #9744 * EVar vSbeta * EPow P2 (EVar vDmglst1) * EPow P4 (EVar vMst2) * EPow P4 (EVar vMt) + #29440 * EVar vSbeta
   * EPow P2 (EVar vMst1) * EPow P4 (EVar vMst2) * EPow P4 (EVar vMt) - #7200 * EVar vSbeta * ELog (EPow P2 (EVar
   vMst1) / EPow P2 (EVar vMsq)) * EPow P2 (EVar vMst1) * EPow P4 (EVar vMst2) * EPow P4 (EVar vMt) - #10005 * EVar
   vSbeta * EPow P2 (EVar vDmglst1) * EPow P4 (EVar vMst1) * EPow P4 (EVar vMst2) * EPow P4 (EVar vs2t) - #29520 *
   EVar vDmglst1 * EVar vSbeta * EPow P2 (EVar vMst2) * EPow P2 (EVar vMt) * EPow P2 (EVar vs2t) * EPow P5 (EVar
   vMst1) + #416640 * EVar vs2t * EVar vSbeta * EPow P2 (EVar vDmglst1) * EPow P3 (EVar vMt) * EPow P5 (EVar vMst1) +
   #17280 * EVar vs2t * EVar vSbeta * EPow P2 (EVar vMst2) * EPow P3 (EVar vMt) * EPow P5 (EVar vMst1) - #11520 * EVar
   vMt * EVar vSbeta * EPow P2 (EVar vDmglst1) * EPow P2 (EVar vMst2) * EPow P3 (EVar vs2t) * EPow P5 (EVar vMst1) -
   #19680 * EVar vMt * EVar vSbeta * EPow P3 (EVar vs2t) * EPow P4 (EVar vMst2) * EPow P5 (EVar vMst1) - #18240 * EVar
   vDmglst1 * EVar vSbeta * EPow P4 (EVar vMt) * EPow P5 (EVar vMst1) - #8490 * EVar vDmglst1 * EVar vSbeta * EPow P4
   (EVar vMst2) * EPow P4 (EVar vs2t) * EPow P5 (EVar vMst1) - #12840 * EVar vSbeta * EPow P2 (EVar vMst2) * EPow P2
   (EVar vMt) * EPow P2 (EVar vs2t) * EPow P6 (EVar vMst1) + #97920 * EVar vDmglst1 * EVar vs2t * EVar vSbeta * EPow
   P3 (EVar vMt) * EPow P6 (EVar vMst1) + #5760 * EVar vCbeta * EVar vMt * EVar vMuSUSY * EPow P2 (EVar vDmglst1) *
   EPow P3 (EVar vs2t) * EPow P6 (EVar vMst1) - #11520 * EVar vDmglst1 * EVar vMt * EVar vSbeta * EPow P2 (EVar vMst2)
   * EPow P3 (EVar vs2t) * EPow P6 (EVar vMst1) + #480 * EVar vSbeta * EPow P4 (EVar vMt) * EPow P6 (EVar vMst1) -
   #345 * EVar vSbeta * EPow P4 (EVar vMst2) * EPow P4 (EVar vs2t) * EPow P6 (EVar vMst1) - #14160 * EVar vDmglst1 *
   EVar vMst1 * EVar vSbeta * EPow P2 (EVar vMt) * EPow P2 (EVar vs2t) * EPow P6 (EVar vMst2) + #600 * EVar vSbeta *
   EPow P2 (EVar vDmglst1) * EPow P2 (EVar vMt) * EPow P2 (EVar vs2t) * EPow P6 (EVar vMst2) - #9000 * EVar vSbeta *
   EPow P2 (EVar vMst1) * EPow P2 (EVar vMt) * EPow P2 (EVar vs2t) * EPow P6 (EVar vMst2) + #11520 * EVar vMst1 * EVar
   vMt * EVar vSbeta * EPow P2 (EVar vDmglst1) * EPow P3 (EVar vs2t) * EPow P6 (EVar vMst2) + #31200 * EVar vDmglst1 *
   EVar vMt * EVar vSbeta * EPow P2 (EVar vMst1) * EPow P3 (EVar vs2t) * EPow P6 (EVar vMst2) + #23520 * EVar vMt *
   EVar vSbeta * EPow P3 (EVar vMst1) * EPow P3 (EVar vs2t) * EPow P6 (EVar vMst2) + #4395 * EVar vSbeta * EPow P2
   (EVar vDmglst1) * EPow P2 (EVar vMst1) * EPow P4 (EVar vs2t) * EPow P6 (EVar vMst2) + #1110 * EVar vDmglst1 * EVar
   vSbeta * EPow P3 (EVar vMst1) * EPow P4 (EVar vs2t) * EPow P6 (EVar vMst2) - #5325 * EVar vSbeta * EPow P4 (EVar
   vMst1) * EPow P4 (EVar vs2t) * EPow P6 (EVar vMst2) + #1920 * EVar vs2t * EVar vSbeta * EPow P3 (EVar vMt) * EPow
   P7 (EVar vMst1) + #3840 * EVar vCbeta * EVar vDmglst1 * EVar vMt * EVar vMuSUSY * EPow P3 (EVar vs2t) * EPow P7
   (EVar vMst1) - #3840 * EVar vMt * EVar vSbeta * EPow P2 (EVar vMst2) * EPow P3 (EVar vs2t) * EPow P7 (EVar vMst1) +
   #1770 * EVar vDmglst1 * EVar vMst1 * EVar vSbeta * EPow P4 (EVar vs2t) * EPow P8 (EVar vMst2) - #75 * EVar vSbeta *
   EPow P2 (EVar vDmglst1) * EPow P4 (EVar vs2t) * EPow P8 (EVar vMst2) + #3585 * EVar vSbeta * EPow P2 (EVar vMst1) *
   EPow P4 (EVar vs2t) * EPow P8 (EVar vMst2) + #30 * EVar vSbeta * ELog (EPow P2 (EVar vMst1) / EPow P2 (EVar vMst2))
   * EPow P2 (EVar vMst1) * (#8 * EPow P3 (EVar vMst1) * (#176 * EVar vs2t * EPow P2 (EVar vMst2) * EPow P3 (EVar vMt)
   + #73 * EVar vMt * EPow P3 (EVar vs2t) * EPow P4 (EVar vMst2)) - #408 * EPow P4 (EVar vMst2) * EPow P4 (EVar vMt) +
   #4 * EPow P4 (EVar vMst1) * (#192 * EPow P2 (EVar vMst2) * EPow P2 (EVar vMt) * EPow P2 (EVar vs2t) + #172 * EPow
   P4 (EVar vMt) - #33 * EPow P4 (EVar vMst2) * EPow P4 (EVar vs2t)) + #1472 * EVar vs2t * EPow P3 (EVar vMt) * EPow
   P5 (EVar vMst1) - #328 * EPow P2 (EVar vMt) * EPow P2 (EVar vs2t) * EPow P6 (EVar vMst2) + #8 * EVar vMst1 * (- #60
   * EVar vs2t * EPow P3 (EVar vMt) * EPow P4 (EVar vMst2) + #41 * EVar vMt * EPow P3 (EVar vs2t) * EPow P6 (EVar
   vMst2)) + EPow P2 (EVar vMst1) * (#712 * EPow P2 (EVar vMt) * EPow P2 (EVar vs2t) * EPow P4 (EVar vMst2) + #512 *
   EPow P2 (EVar vMst2) * EPow P4 (EVar vMt) + #91 * EPow P4 (EVar vs2t) * EPow P6 (EVar vMst2)) + EPow P2 (EVar
   vDmglst1) * (#14720 * EVar vs2t * EPow P3 (EVar vMst1) * EPow P3 (EVar vMt) + #384 * EPow P2 (EVar vMt) * EPow P2
   (EVar vs2t) * EPow P4 (EVar vMst2) + #384 * EVar vMst1 * (#11 * EVar vs2t * EPow P2 (EVar vMst2) * EPow P3 (EVar
   vMt) + #2 * EVar vMt * EPow P3 (EVar vs2t) * EPow P4 (EVar vMst2)) + #512 * EPow P2 (EVar vMst2) * EPow P4 (EVar
   vMt) + EPow P2 (EVar vMst1) * (#768 * EPow P2 (EVar vMst2) * EPow P2 (EVar vMt) * EPow P2 (EVar vs2t) + #1568 *
   EPow P4 (EVar vMt) - #91 * EPow P4 (EVar vMst2) * EPow P4 (EVar vs2t)) + #91 * EPow P4 (EVar vs2t) * EPow P6 (EVar
   vMst2)) + #2 * EVar vDmglst1 * (#3680 * EVar vs2t * EPow P3 (EVar vMt) * EPow P4 (EVar vMst1) + #4 * EVar vMt *
   EVar vs2t * (- #60 * EPow P2 (EVar vMt) + #41 * EPow P2 (EVar vMst2) * EPow P2 (EVar vs2t)) * EPow P4 (EVar vMst2)
   + #4 * EPow P2 (EVar vMst1) * (#528 * EVar vs2t * EPow P2 (EVar vMst2) * EPow P3 (EVar vMt) + #137 * EVar vMt *
   EPow P3 (EVar vs2t) * EPow P4 (EVar vMst2)) + EPow P3 (EVar vMst1) * (#768 * EPow P2 (EVar vMst2) * EPow P2 (EVar
   vMt) * EPow P2 (EVar vs2t) + #864 * EPow P4 (EVar vMt) - #91 * EPow P4 (EVar vMst2) * EPow P4 (EVar vs2t)) + EVar
   vMst1 * (#384 * EPow P2 (EVar vMt) * EPow P2 (EVar vs2t) * EPow P4 (EVar vMst2) + #512 * EPow P2 (EVar vMst2) *
   EPow P4 (EVar vMt) + #91 * EPow P4 (EVar vs2t) * EPow P6 (EVar vMst2))) + #41 * EPow P4 (EVar vs2t) * EPow P8 (EVar
   vMst2))) / (#45 * EVar vSbeta * EPow P2 (EVar vMst1) * EPow P4 (EVar vMst2) * EPow P4 (EVar vMt)).

(** H5.cpp:2903-2909 *)
Definition H5_coef3 : expr :=
  - EDec 2986666666666667 13.

(** the constructor, H5.cpp:38-69: value of each data member (members it does not assign are zero, H5.hpp) *)
Definition H5_ctor {T : Type} {N : Num T} (d : Depth) (a_Al4p a_beta a_Dmglst1 a_lmMt a_lmMst1 a_lmMst2 a_lmMsq a_Mt
   a_Mst1 a_Mst2 a_Msq a_MuSUSY a_s2t : T) (mdr f1 f2 f3 : Z) (v : hvar) : T :=
  match v with
  | vTbeta => ntan a_beta
  | vCbeta => ncos a_beta
  | vSbeta => nsin a_beta
  | vDmglst1 => a_Dmglst1
  | vlmMt => a_lmMt
  | vlmMst1 => a_lmMst1
  | vlmMst2 => a_lmMst2
  | vlmMsq => a_lmMsq
  | vMt => a_Mt
  | vMst1 => a_Mst1
  | vMst2 => a_Mst2
  | vMsq => a_Msq
  | vMuSUSY => a_MuSUSY
  | vs2t => a_s2t
  | voneLoopFlag => nint f1
  | vtwoLoopFlag => nint f2
  | vthreeLoopFlag => nint f3
  | vAl4p => a_Al4p
  | vshiftst1 => nint mdr
  | vshiftst2 => nint mdr
  | vshiftst3 => nint mdr
  | vxDmglst1 => nint (x_Dmglst1 d)
  | vxMsq => nint (x_Msq d)
  | _ => nint 0
  end.
