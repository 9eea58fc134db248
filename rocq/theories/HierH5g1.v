(** * Class H5g1
    GENERATED by tools/gen_hier.py from source/himalaya/hierarchies/H5g1.cpp (expressions are transcribed operator by operator;
    no subexpression is an integer division, and integer subexpressions stay below 2^31 when the flags are 0 or 1). *)
From Coq Require Import ZArith List.
From Verif Require Import Num HierExpr HierCalc.
Local Open Scope hx_scope.

(** H5g1.cpp:76-302 *)
Definition H5g1_getS1 : expr :=
  EPow P2 (EVar vMt) * EPow P2 (EVar vMuSUSY) * (#972 * EVar voneLoopFlag * EPow P2 (EVar vs2t) * (#2 - EVar vlmMst1 +
   EVar vlmMst2 - #2 * (EVar vlmMst1 - EVar vlmMst2) * EPow P2 (EVar vMst1) * (EPow P2 (EVar vMst1) + EPow P2 (EVar
   vMst2)) / EPow P4 (EVar vMst2)) + #16 * EVar vthreeLoopFlag * EPow P2 (EVar vAl4p) * (#486 * EPow P2 (EVar vs2t) *
   (EDec 8361265432098766 14 + #4 * EConst CB4 - #4 * EConst CDN / #9 - #185 * EVar vlmMsq / #9 + #25 * EPow P2 (EVar
   vlmMsq) / #3 - EVar vlmMst1 * (#3781 - #300 * EVar vlmMsq + #180 * EPow P2 (EVar vlmMsq)) / #108 + EVar vlmMst2 *
   (#14065 - #3498 * EVar vlmMst1 + #60 * EVar vlmMsq * (- #35 + #12 * EVar vlmMst1) + #180 * EPow P2 (EVar vlmMsq) -
   #18 * EPow P2 (EVar vlmMst1)) / #108 + (EDec 6361111111111111 15 - #5 * EVar vlmMsq / #3) * EPow P2 (EVar vlmMst1)
   - (- #2193 + #180 * EVar vlmMsq + #442 * EVar vlmMst1) * EPow P2 (EVar vlmMst2) / #36 + EVar vDmglst1 * (#7 - #60 *
   EVar vlmMsq * (- #5 + #6 * EVar vlmMst1) - #226 * EVar vlmMst2 + EVar vlmMst1 * (- #2 + #220 * EVar vlmMst2) + #180
   * EPow P2 (EVar vlmMsq) + #178 * EPow P2 (EVar vlmMst1) + #18 * EPow P2 (EVar vlmMst2)) / (#18 * EVar vMgl) + (#1 -
   #2 * EVar vlmMst2) * EPow P2 (EVar vMst2) / (#3 * EPow P2 (EVar vMst1)) + #11 * EPow P3 (EVar vlmMst1) / #18 + #71
   * EPow P3 (EVar vlmMst2) / #6 + EPow P2 (EVar vMst1) * ((EVar vMgl * (#836 + #143 * EVar vlmMst1 + (- #353 + #750 *
   EVar vlmMst1) * EVar vlmMst2 + #30 * EVar vlmMsq * (#7 - #4 * EVar vlmMst1 + #4 * EVar vlmMst2) - #315 * EPow P2
   (EVar vlmMst1) - #435 * EPow P2 (EVar vlmMst2)) + #50 * EVar vDmglst1 * (#82 - #93 * EVar vlmMst1 + #6 * EVar
   vlmMsq * (#4 + #3 * EVar vlmMst1 - #3 * EVar vlmMst2) + #69 * EVar vlmMst2 - #9 * EPow P2 (EVar vlmMst1) + #9 *
   EPow P2 (EVar vlmMst2))) / (#135 * EVar vMgl * EPow P2 (EVar vMsq)) - (EDec 26575942386831276 15 - #76 * EConst CB4
   / #9 + #2 * EConst CDN / #9 + #35 * EVar vlmMsq / #3 - #5 * EPow P2 (EVar vlmMsq) + EVar vlmMst1 * (EDec
   2242274074074074 13 - #380 * EVar vlmMsq / #9 + #40 * EPow P2 (EVar vlmMsq) / #3) - #149 * EPow P2 (EVar vlmMst1) /
   #90 - EVar vlmMst2 * (#372457 - #242670 * EVar vlmMst1 + #1500 * EVar vlmMsq * (- #47 + #24 * EVar vlmMst1) +
   #18000 * EPow P2 (EVar vlmMsq) + #17700 * EPow P2 (EVar vlmMst1)) / #1350 + (- #17709 + #2400 * EVar vlmMsq + #6940
   * EVar vlmMst1) * EPow P2 (EVar vlmMst2) / #90 + #8 * EPow P3 (EVar vlmMst1) / #27 - #1736 * EPow P3 (EVar vlmMst2)
   / #27 - #2 * EVar vDmglst1 * (#586 + #36 * EConst CB4 + #30 * EConst CDN - #495 * EVar vlmMsq + #135 * EPow P2
   (EVar vlmMsq) - #6 * EVar vlmMst1 * (- #73 - #45 * EVar vlmMsq + #45 * EPow P2 (EVar vlmMsq)) + #3 * EVar vlmMst2 *
   (#229 - #180 * EVar vlmMsq + #86 * EVar vlmMst1 + #90 * EPow P2 (EVar vlmMsq) - #79 * EPow P2 (EVar vlmMst1)) + #18
   * (- #43 + #15 * EVar vlmMsq) * EPow P2 (EVar vlmMst1) - #3 * (- #372 + #90 * EVar vlmMsq + #49 * EVar vlmMst1) *
   EPow P2 (EVar vlmMst2) - #65 * EPow P3 (EVar vlmMst1) + #449 * EPow P3 (EVar vlmMst2)) / (#27 * EVar vMgl)) / EPow
   P2 (EVar vMst2)) + EPow P4 (EVar vMst1) * ((#514500 * EVar vDmglst1 * (#485 - #346 * EVar vlmMst1 + #12 * EVar
   vlmMsq * (#1 + #10 * EVar vlmMst1 - #10 * EVar vlmMst2) + #334 * EVar vlmMst2 - #60 * EPow P2 (EVar vlmMst1) + #60
   * EPow P2 (EVar vlmMst2)) - EVar vMgl * (- #41220947 + #420 * EVar vlmMsq * (#12479 + #4830 * EVar vlmMst1 - #5670
   * EVar vlmMst2) + #1081710 * EVar vlmMst2 - #210 * EVar vlmMst1 * (#30109 + #123480 * EVar vlmMst2) + #176400 *
   EPow P2 (EVar vlmMsq) + #11951100 * EPow P2 (EVar vlmMst1) + #14156100 * EPow P2 (EVar vlmMst2))) / (#11113200 *
   EVar vMgl * EPow P4 (EVar vMsq)) - (EDec 2656519022158834 13 - #76 * EConst CB4 / #9 + #2 * EConst CDN / #9 - #25 *
   EVar vlmMsq / #2 + EVar vlmMst1 * (EDec 42637458616780043 14 - #605 * EVar vlmMsq / #9 + #40 * EPow P2 (EVar
   vlmMsq) / #3) - (EDec 6624060846560846 14 - #40 * EVar vlmMsq / #3) * EPow P2 (EVar vlmMst1) - EVar vlmMst2 * (EDec
   4117079195011338 13 - #1386139 * EVar vlmMst1 / #3780 + #5 * EVar vlmMsq * (- #121 + #96 * EVar vlmMst1) / #9 + #40
   * EPow P2 (EVar vlmMsq) / #3 + #298 * EPow P2 (EVar vlmMst1) / #3) - (EDec 2986850529100529 13 - #40 * EVar vlmMsq
   - #2174 * EVar vlmMst1 / #9) * EPow P2 (EVar vlmMst2) + #80 * EPow P3 (EVar vlmMst1) / #27 + EVar vDmglst1 * (EDec
   11249099794238683 14 - #8 * EConst CB4 / #3 - #20 * EConst CDN / #9 + EVar vlmMst1 * (EDec 25424382716049382 14 -
   #120 * EVar vlmMsq + #20 * EPow P2 (EVar vlmMsq)) + (EDec 12957407407407408 14 - #20 * EVar vlmMsq) * EPow P2 (EVar
   vlmMst1) - EVar vlmMst2 * (EDec 21157716049382717 14 - #120 * EVar vlmMsq - #1439 * EVar vlmMst1 / #27 + #20 * EPow
   P2 (EVar vlmMsq) + #338 * EPow P2 (EVar vlmMst1) / #9) + (- #9491 + #1080 * EVar vlmMsq + #6636 * EVar vlmMst1) *
   EPow P2 (EVar vlmMst2) / #54 + #38 * EPow P3 (EVar vlmMst1) / #9 - #806 * EPow P3 (EVar vlmMst2) / #9) / EVar vMgl
   - #3920 * EPow P3 (EVar vlmMst2) / #27) / EPow P4 (EVar vMst2)) - ((EDec 17499706655148832 16 + EVar vlmMsq * (-
   EDec 990854119425548 15 + #8 * EVar vlmMst1 / #9 - #52 * EVar vlmMst2 / #63) + #10511 * EVar vlmMst2 / #4410 - #4 *
   EVar vlmMst1 * (#47 + #30 * EVar vlmMst2) / #135 + #5 * EVar vDmglst1 / (#6 * EVar vMgl) - #2 * EPow P2 (EVar
   vlmMsq) / #63 + #6 * EPow P2 (EVar vlmMst2) / #7) * EPow P2 (EVar vMst1) * EPow P2 (EVar vMst2) + (EDec
   6658120973257028 16 + EVar vlmMsq * (- EDec 36171579743008314 17 + EVar vlmMst1 / #9 - EVar vlmMst2 / #7) + #15647
   * EVar vlmMst2 / #26460 - EVar vlmMst1 * (#31 + #15 * EVar vlmMst2) / #135 + EPow P2 (EVar vlmMsq) / #63 + #8 *
   EPow P2 (EVar vlmMst2) / #63) * EPow P4 (EVar vMst2)) / EPow P4 (EVar vMsq) - (#100 * EVar vDmglst1 * (#55 + EVar
   vlmMst1 + #6 * EVar vlmMsq * (- #5 + #7 * EVar vlmMst1 - #7 * EVar vlmMst2) + #29 * EVar vlmMst2 - #21 * EPow P2
   (EVar vlmMst1) + #21 * EPow P2 (EVar vlmMst2)) * EPow P4 (EVar vMst1) + EVar vMgl * ((#1525 + #30 * EVar vlmMsq *
   (- #25 + #44 * EVar vlmMst1 - #44 * EVar vlmMst2) + #1928 * EVar vlmMst2 - #2 * EVar vlmMst1 * (#589 + #900 * EVar
   vlmMst2) + #240 * EPow P2 (EVar vlmMst1) + #1560 * EPow P2 (EVar vlmMst2)) * EPow P4 (EVar vMst1) + (#939 + #30 *
   EVar vlmMsq * (- #12 + #5 * EVar vlmMst1 - #5 * EVar vlmMst2) + #760 * EVar vlmMst2 - #50 * EVar vlmMst1 * (#8 + #3
   * EVar vlmMst2) + #150 * EPow P2 (EVar vlmMst2)) * EPow P4 (EVar vMst2))) / (#135 * EVar vMgl * EPow P2 (EVar vMsq)
   * EPow P2 (EVar vMst2)) + (#8 * EConst COepS2 * (#204 * EPow P2 (EVar vMst1) * EPow P2 (EVar vMst2) + #370 * EPow
   P4 (EVar vMst1) + #27 * EPow P4 (EVar vMst2)) - #12 * EConst CT1ep * (#204 * EPow P2 (EVar vMst1) * EPow P2 (EVar
   vMst2) + #370 * EPow P4 (EVar vMst1) + #27 * EPow P4 (EVar vMst2)) - #27 * EConst CS2 * (#36 * (#49 + #34 * EVar
   vlmMst1 - #34 * EVar vlmMst2) * EPow P2 (EVar vMst1) * EPow P2 (EVar vMst2) + (#4138 + #2220 * EVar vlmMst1 - #2220
   * EVar vlmMst2) * EPow P4 (EVar vMst1) + #81 * (- #11 + #2 * EVar vlmMst1 - #2 * EVar vlmMst2) * EPow P4 (EVar
   vMst2)) + #2430 * EVar vxMsq * (#1 - #2 * (EVar vlmMsq + EConst Cz2)) * EPow P2 (EVar vMsq) * (EPow P2 (EVar vMst1)
   * EPow P2 (EVar vMst2) + #2 * EVar vlmMst1 * (- #1 + EVar vshiftst1) * EPow P2 (EVar vMst1) * EPow P2 (EVar vMst2)
   - #2 * EVar vlmMst2 * (- #1 + EVar vshiftst1) * EPow P2 (EVar vMst1) * EPow P2 (EVar vMst2) + EVar vshiftst2 * EPow
   P2 (EVar vMst1) * (#2 * EPow P2 (EVar vMst1) + EPow P2 (EVar vMst2)) - #2 * EVar vlmMst1 * (#1 - #2 * EVar
   vshiftst1 + EVar vshiftst2) * EPow P4 (EVar vMst1) + #2 * EVar vlmMst2 * (#1 - #2 * EVar vshiftst1 + EVar
   vshiftst2) * EPow P4 (EVar vMst1) + EPow P4 (EVar vMst2) - EVar vshiftst1 * (#2 * EPow P2 (EVar vMst1) * EPow P2
   (EVar vMst2) + #2 * EPow P4 (EVar vMst1) + EPow P4 (EVar vMst2))) / EPow P2 (EVar vMst1) + #243 * (- #1 + #2 * EVar
   vlmMst2) * EVar vshiftst3 * (#2 * (#1 - #2 * EVar vlmMst1 + #2 * EVar vlmMst2) * EPow P2 (EVar vMst2) * EPow P4
   (EVar vMst1) + #2 * (#1 - EVar vlmMst1 + EVar vlmMst2) * EPow P2 (EVar vMst1) * EPow P4 (EVar vMst2) + (#2 - #6 *
   EVar vlmMst1 + #6 * EVar vlmMst2) * EPow P6 (EVar vMst1) + EPow P6 (EVar vMst2)) / EPow P2 (EVar vMst1)) / (#729 *
   EPow P4 (EVar vMst2))) + #18 * EConst Cz2 * (EVar vMt * (#4 * (#12 * (#55 + #16 * EVar vlmMst2) * (#2 * EVar
   vDmglst1 + EVar vMgl) * EVar vMt + (#3 * EVar vDmglst1 * (- #687 + #540 * EVar vlmMsq + #92 * EVar vlmMst1 - #860 *
   EVar vlmMst2) + (#2407 + #180 * EVar vlmMsq - #408 * EVar vlmMst1 + #408 * EVar vlmMst2) * EVar vMgl) * EVar vMst1
   * EVar vs2t) * EPow P2 (EVar vMst1) + #3 * EVar vs2t * (#960 * EVar vDmglst1 * EPow P2 (EVar vMsq) * EPow P5 (EVar
   vMst1) + EPow P2 (EVar vMst2) * (- #160 * (#3 * EVar vDmglst1 + EVar vMgl) * EPow P2 (EVar vMsq) * EPow P3 (EVar
   vMst1) + #4 * (#627 - #60 * EVar vlmMsq - #64 * EVar vlmMst1 + #192 * EVar vlmMst2) * (EVar vDmglst1 + EVar vMgl) *
   EVar vMst1 * EPow P4 (EVar vMsq) - #60 * (#5 * EVar vDmglst1 + EVar vMgl) * EPow P5 (EVar vMst1))) / EPow P4 (EVar
   vMsq)) / (EVar vMgl * EPow P4 (EVar vMst2)) - #3 * EPow P2 (EVar vs2t) * (#339 - #30 * EVar vlmMsq - #37 * EVar
   vlmMst1 + #149 * EVar vlmMst2 + (- #198 * EVar vDmglst1 + EPow P2 (EVar vMst1) * (- #30 * (#2 * EVar vDmglst1 +
   EVar vMgl) + #4 * EVar vDmglst1 * ((- #390 + #90 * EVar vlmMsq + #139 * EVar vlmMst1 - #315 * EVar vlmMst2) * EPow
   P2 (EVar vMsq) + #70 * EPow P2 (EVar vMst1)) / EPow P2 (EVar vMst2) + EVar vMgl * ((#311 + #1080 * EVar vlmMsq +
   #2196 * EVar vlmMst1 - #3348 * EVar vlmMst2) * EPow P2 (EVar vMsq) + #360 * EPow P2 (EVar vMst1)) / (#9 * EPow P2
   (EVar vMst2))) / EPow P2 (EVar vMsq)) / EVar vMgl - #25 * (#4 * EVar vDmglst1 + EVar vMgl) * EPow P4 (EVar vMst1) /
   (#2 * EVar vMgl * EPow P4 (EVar vMsq)) + #9 * (EDec 7134670781893004 14 + #40 * EVar vlmMsq / #3 + #868 * EVar
   vlmMst1 / #9 - #332 * EVar vlmMst2 / #3 + EVar vDmglst1 * (- #1613 + #1080 * EVar vlmMsq + #3684 * EVar vlmMst1 -
   #5796 * EVar vlmMst2) / (#27 * EVar vMgl)) * EPow P4 (EVar vMst1) / EPow P4 (EVar vMst2) + (#6 * EPow P2 (EVar
   vMst2) - #6 * EVar vshiftst3 * (#2 * (#1 - #2 * EVar vlmMst1 + #2 * EVar vlmMst2) * EPow P2 (EVar vMst2) * EPow P4
   (EVar vMst1) + #2 * (#1 - EVar vlmMst1 + EVar vlmMst2) * EPow P2 (EVar vMst1) * EPow P4 (EVar vMst2) + (#2 - #6 *
   EVar vlmMst1 + #6 * EVar vlmMst2) * EPow P6 (EVar vMst1) + EPow P6 (EVar vMst2)) / EPow P4 (EVar vMst2)) / EPow P2
   (EVar vMst1))) + (#432 * EVar vDmglst1 * EVar vMst1 * EVar vs2t * (- #2 * EVar vMgl * EVar vMst1 * EVar vs2t *
   (EPow P2 (EVar vMst1) + EPow P2 (EVar vMst2)) - #3 * EVar vDmglst1 * EVar vMst1 * EVar vs2t * EVar vxDmglst1 *
   (EPow P2 (EVar vMst1) + EPow P2 (EVar vMst2)) + #16 * EVar vDmglst1 * EVar vMt * EVar vxDmglst1 * (#18 * EPow P2
   (EVar vMst1) + EPow P2 (EVar vMst2)) + #8 * EVar vMgl * EVar vMt * (#21 * EPow P2 (EVar vMst1) + #2 * EPow P2 (EVar
   vMst2))) * EPow P2 (EConst Cz2) + #144 * EVar vMgl * EPow P2 (EVar vMst1) * EPow P2 (EVar vMt) * (#2 * EVar
   vDmglst1 * (#735 - #6 * EConst CB4 - #3 * EConst CDN - #78 * EVar vlmMst1 + #6 * EPow P2 (EVar vlmMst1) + #6 * EVar
   vlmMst2 * (#85 - #6 * EVar vlmMst1 + EPow P2 (EVar vlmMst1)) + #18 * (#7 + EVar vlmMst1) * EPow P2 (EVar vlmMst2) +
   #24 * EVar vlmMt * (#2 + #3 * EVar vlmMst2 - EVar vlmMst1 * (#3 + #2 * EVar vlmMst2) + EPow P2 (EVar vlmMst1) +
   EPow P2 (EVar vlmMst2)) - #26 * EPow P3 (EVar vlmMst1) + #2 * EPow P3 (EVar vlmMst2)) + EVar vMgl * (#417 - #6 *
   EConst CB4 - #3 * EConst CDN - #162 * EVar vlmMst1 + #6 * EVar vlmMst2 * (#87 - #8 * EVar vlmMst1 + EPow P2 (EVar
   vlmMst1)) + #18 * (#8 + EVar vlmMst1) * EPow P2 (EVar vlmMst2) + #24 * EVar vlmMt * EPow P2 (#1 - EVar vlmMst1 +
   EVar vlmMst2) - #26 * EPow P3 (EVar vlmMst1) + #2 * EPow P3 (EVar vlmMst2))) + #108 * EVar vDmglst1 * EVar vMst1 *
   EConst Cz4 * (#2 * EVar vMgl * (EVar vMt * EVar vs2t * (#507 * EPow P2 (EVar vMst1) - #241 * EPow P2 (EVar vMst2))
   + #60 * EVar vMst1 * EPow P2 (EVar vMt) - #265 * EVar vMst1 * (EPow P2 (EVar vMst1) + EPow P2 (EVar vMst2)) * EPow
   P2 (EVar vs2t)) + EVar vDmglst1 * EVar vxDmglst1 * (EVar vMt * EVar vs2t * (#3474 * EPow P2 (EVar vMst1) - #482 *
   EPow P2 (EVar vMst2)) + #180 * EVar vMst1 * EPow P2 (EVar vMt) - #15 * EPow P2 (EVar vs2t) * (#53 * EVar vMst1 *
   EPow P2 (EVar vMst2) + #37 * EPow P3 (EVar vMst1)))) - #4 * EConst Cz4 * EPow P2 (EVar vMgl) * (- #3 * EPow P2
   (EVar vMst1) * (#540 * EPow P2 (EVar vMt) + #13 * EPow P2 (EVar vMst2) * EPow P2 (EVar vs2t)) + #54 * EVar vMt *
   EVar vs2t * (#241 * EVar vMst1 * EPow P2 (EVar vMst2) + #313 * EPow P3 (EVar vMst1)) + EPow P2 (EVar vs2t) * (#127
   * EPow P4 (EVar vMst1) - #3267 * EPow P4 (EVar vMst2))) + #27 * EVar vxDmglst1 * EConst Cz3 * EPow P2 (EVar
   vDmglst1) * (- #8 * EPow P2 (EVar vMst1) * (#4 * (#220 + #9 * EVar vlmMst1 - #9 * EVar vlmMst2) * EPow P2 (EVar
   vMt) - #3 * (#49 + #69 * EVar vlmMst1 - #69 * EVar vlmMst2) * EPow P2 (EVar vMst2) * EPow P2 (EVar vs2t)) + EVar
   vMt * EVar vs2t * (#8 * (#559 + #18 * EVar vlmMst1 - #18 * EVar vlmMst2) * EVar vMst1 * EPow P2 (EVar vMst2) + #24
   * (#151 - #918 * EVar vlmMst1 + #918 * EVar vlmMst2) * EPow P3 (EVar vMst1)) + EPow P2 (EVar vs2t) * (#4 * (#6491 +
   #318 * EVar vlmMst1 - #318 * EVar vlmMst2) * EPow P4 (EVar vMst1) - #1533 * EPow P4 (EVar vMst2))) - #6 * EVar vs2t
   * EPow P2 (EVar vMgl) * EPow P2 (EConst Cz2) * (- #1152 * EVar vMst1 * EVar vMt * EPow P2 (EVar vMst2) + #852 *
   EVar vs2t * EPow P2 (EVar vMst1) * EPow P2 (EVar vMst2) - #6336 * EVar vMt * EPow P3 (EVar vMst1) + #1018 * EVar
   vs2t * EPow P4 (EVar vMst1) + #315 * EVar vs2t * EPow P4 (EVar vMst2)) + #2 * EVar vMgl * EConst Cz3 * (- #216 *
   EVar vMst1 * EVar vMt * (EVar vMst1 * (#6 * EVar vDmglst1 * (#13 + #2 * EVar vlmMst1 - #2 * EVar vlmMst2) * EVar
   vMt + (- #46 + #6 * EVar vlmMst1 - #6 * EVar vlmMst2) * EVar vMgl * EVar vMt + #3 * EVar vDmglst1 * (#154 + #225 *
   EVar vlmMst1 - #225 * EVar vlmMst2) * EVar vMst1 * EVar vs2t + #23 * (#25 + #9 * EVar vlmMst1 - #9 * EVar vlmMst2)
   * EVar vMgl * EVar vMst1 * EVar vs2t) + (EVar vDmglst1 * (#58 - #9 * EVar vlmMst1 + #9 * EVar vlmMst2) + (#133 - #9
   * EVar vlmMst1 + #9 * EVar vlmMst2) * EVar vMgl) * EVar vs2t * EPow P2 (EVar vMst2)) + EPow P2 (EVar vs2t) * (#6 *
   (#54 * EVar vDmglst1 * (#35 + #46 * EVar vlmMst1 - #46 * EVar vlmMst2) + (#8783 + #1134 * EVar vlmMst1 - #1134 *
   EVar vlmMst2) * EVar vMgl) * EPow P2 (EVar vMst1) * EPow P2 (EVar vMst2) + #4 * (#54 * EVar vDmglst1 * (#764 + #69
   * EVar vlmMst1 - #69 * EVar vlmMst2) + #7 * (#4829 + #243 * EVar vlmMst1 - #243 * EVar vlmMst2) * EVar vMgl) * EPow
   P4 (EVar vMst1) + (- #5265 * EVar vDmglst1 + #8856 * EVar vMgl) * EPow P4 (EVar vMst2))) + EVar vMgl * EVar vMst1 *
   EVar vMt * EVar vs2t * (#3 * EVar vDmglst1 * (#2 * (EPow P2 (EVar vMst1) * (#13969 - #11880 * EConst CB4 + #108 *
   EConst CDN - #4320 * EVar vlmMsq + (- #16728 - #3240 * EVar vlmMsq * (#1 + EVar vlmMsq)) * EVar vlmMst1 + #2160 *
   EPow P2 (EVar vlmMsq) + #54 * (- #407 + #300 * EVar vlmMsq) * EPow P2 (EVar vlmMst1) + #12 * EVar vlmMst2 * (#4094
   + #2205 * EVar vlmMst1 - #90 * EVar vlmMsq * (#1 + #24 * EVar vlmMst1) + #270 * EPow P2 (EVar vlmMsq) + #804 * EPow
   P2 (EVar vlmMst1)) + #18 * (#583 + #540 * EVar vlmMsq + #680 * EVar vlmMst1) * EPow P2 (EVar vlmMst2) - #16848 *
   EPow P3 (EVar vlmMst1) - #5040 * EPow P3 (EVar vlmMst2)) + #3 * EPow P2 (EVar vMst2) * (#11337 - #408 * EConst CB4
   - #12 * EConst CDN - #6480 * EVar vlmMsq + #720 * EPow P2 (EVar vlmMsq) - #30 * EVar vlmMst1 * (- #73 - #36 * EVar
   vlmMsq + #12 * EPow P2 (EVar vlmMsq)) + #6 * EVar vlmMst2 * (#2331 - #420 * EVar vlmMsq - #118 * EVar vlmMst1 + #60
   * EPow P2 (EVar vlmMsq) - #60 * EPow P2 (EVar vlmMst1)) + #18 * (- #13 + #20 * EVar vlmMsq) * EPow P2 (EVar
   vlmMst1) - #6 * (- #797 + #60 * EVar vlmMsq + #4 * EVar vlmMst1) * EPow P2 (EVar vlmMst2) - #200 * EPow P3 (EVar
   vlmMst1) + #584 * EPow P3 (EVar vlmMst2))) * EPow P4 (EVar vMsq) - #720 * EPow P2 (EVar vMsq) * (#2 * (#41 - #10 *
   EVar vlmMst1 + #6 * EVar vlmMsq * (- #2 + EVar vlmMst1 - EVar vlmMst2) + #22 * EVar vlmMst2 - #3 * EPow P2 (EVar
   vlmMst1) + #3 * EPow P2 (EVar vlmMst2)) * EPow P2 (EVar vMst1) * EPow P2 (EVar vMst2) + #2 * (#29 + #48 * EVar
   vlmMst2 - #24 * EPow P2 (EVar vlmMst1) - #6 * (EVar vlmMst1 * (#6 - #5 * EVar vlmMst2) + EVar vlmMsq * (#2 - #3 *
   EVar vlmMst1 + #3 * EVar vlmMst2) + EPow P2 (EVar vlmMst2))) * EPow P4 (EVar vMst1) - EPow P4 (EVar vMst2)) - #5 *
   EPow P2 (EVar vMst2) * ((- #251 + #12 * EVar vlmMsq - #12 * EVar vlmMst2) * EPow P2 (EVar vMst1) * EPow P2 (EVar
   vMst2) + #6 * (#818 - #117 * EVar vlmMst1 + #180 * EVar vlmMsq * (- #2 + EVar vlmMst1 - EVar vlmMst2) + #477 * EVar
   vlmMst2 - #90 * EPow P2 (EVar vlmMst1) + #90 * EPow P2 (EVar vlmMst2)) * EPow P4 (EVar vMst1) + (#11 - #12 * EVar
   vlmMsq + #12 * EVar vlmMst2) * EPow P4 (EVar vMst2))) + EVar vMgl * (#2 * (#9 * EPow P2 (EVar vMst2) * (#13317 -
   #408 * EConst CB4 - #12 * EConst CDN - #4320 * EVar vlmMsq + #720 * EPow P2 (EVar vlmMsq) - #6 * EVar vlmMst1 *
   (#79 - #180 * EVar vlmMsq + #60 * EPow P2 (EVar vlmMsq)) + #6 * EVar vlmMst2 * (#2135 - #420 * EVar vlmMsq - #118 *
   EVar vlmMst1 + #60 * EPow P2 (EVar vlmMsq) - #60 * EPow P2 (EVar vlmMst1)) + #6 * (- #167 + #60 * EVar vlmMsq) *
   EPow P2 (EVar vlmMst1) - #6 * (- #797 + #60 * EVar vlmMsq + #4 * EVar vlmMst1) * EPow P2 (EVar vlmMst2) - #200 *
   EPow P3 (EVar vlmMst1) + #584 * EPow P3 (EVar vlmMst2)) + EPow P2 (EVar vMst1) * (#107299 - #19224 * EConst CB4 -
   #108 * EConst CDN - #32400 * EVar vlmMsq + #6480 * EPow P2 (EVar vlmMsq) - #24 * EVar vlmMst1 * (#6103 - #1755 *
   EVar vlmMsq + #405 * EPow P2 (EVar vlmMsq)) + #18 * (- #4379 + #1260 * EVar vlmMsq) * EPow P2 (EVar vlmMst1) + #12
   * EVar vlmMst2 * (#20882 + #699 * EVar vlmMst1 - #270 * EVar vlmMsq * (#17 + #8 * EVar vlmMst1) + #810 * EPow P2
   (EVar vlmMsq) + #54 * EPow P2 (EVar vlmMst1)) + #18 * (#5641 + #180 * EVar vlmMsq + #540 * EVar vlmMst1) * EPow P2
   (EVar vlmMst2) - #18072 * EPow P3 (EVar vlmMst1) + #7704 * EPow P3 (EVar vlmMst2))) * EPow P4 (EVar vMsq) - #720 *
   EPow P2 (EVar vMsq) * (#2 * (#34 - #8 * EVar vlmMst1 + #6 * EVar vlmMsq * (- #2 + EVar vlmMst1 - EVar vlmMst2) +
   #20 * EVar vlmMst2 - #3 * EPow P2 (EVar vlmMst1) + #3 * EPow P2 (EVar vlmMst2)) * EPow P2 (EVar vMst1) * EPow P2
   (EVar vMst2) + #4 * (#14 - #21 * EVar vlmMst1 + EVar vlmMsq * (- #6 + #9 * EVar vlmMst1 - #9 * EVar vlmMst2) + #27
   * EVar vlmMst2 + #9 * EVar vlmMst1 * EVar vlmMst2 - #9 * EPow P2 (EVar vlmMst1)) * EPow P4 (EVar vMst1) - #3 * EPow
   P4 (EVar vMst2)) - #15 * (#6 * (#134 - #9 * EVar vlmMst1 + #36 * EVar vlmMsq * (- #2 + EVar vlmMst1 - EVar vlmMst2)
   + #81 * EVar vlmMst2 - #18 * EPow P2 (EVar vlmMst1) + #18 * EPow P2 (EVar vlmMst2)) * EPow P2 (EVar vMst2) * EPow
   P4 (EVar vMst1) + (- #107 + #12 * EVar vlmMsq - #12 * EVar vlmMst2) * EPow P2 (EVar vMst1) * EPow P4 (EVar vMst2) +
   (#11 - #12 * EVar vlmMsq + #12 * EVar vlmMst2) * EPow P6 (EVar vMst2)))) / EPow P4 (EVar vMsq)) / (EPow P2 (EVar
   vMgl) * EPow P4 (EVar vMst2))) + EVar vAl4p * (#1296 * EVar vMgl * EVar vs2t * EVar vtwoLoopFlag * (#8 * EVar
   vDmglst1 * EVar vMt * (EVar vMst1 * (#12 - #2 * EVar vlmMst1 + #6 * EVar vlmMst2 - EPow P2 (EVar vlmMst1) + EPow P2
   (EVar vlmMst2)) * EPow P2 (EVar vMst2) + (#10 + #12 * EVar vlmMst2 + #4 * EVar vlmMst1 * (- #2 + #3 * EVar vlmMst2)
   - #9 * EPow P2 (EVar vlmMst1) - #3 * EPow P2 (EVar vlmMst2)) * EPow P3 (EVar vMst1)) + #8 * EVar vMgl * EVar vMt *
   (EVar vMst1 * (#8 - #2 * EVar vlmMst1 + #6 * EVar vlmMst2 - EPow P2 (EVar vlmMst1) + EPow P2 (EVar vlmMst2)) * EPow
   P2 (EVar vMst2) + (#6 + #4 * EVar vlmMst1 * (- #3 + EVar vlmMst2) + #16 * EVar vlmMst2 - #5 * EPow P2 (EVar
   vlmMst1) + EPow P2 (EVar vlmMst2)) * EPow P3 (EVar vMst1)) - #8 * EVar vDmglst1 * EVar vs2t * ((- (EVar vlmMst2 *
   (#1 + EVar vlmMst2)) + EPow P2 (EVar vlmMst1)) * EPow P2 (EVar vMst1) * EPow P2 (EVar vMst2) + (#2 + #3 * EVar
   vlmMst1 - #3 * EVar vlmMst2 + EPow P2 (EVar vlmMst1) - EPow P2 (EVar vlmMst2)) * EPow P4 (EVar vMst1) - (- #1 +
   EVar vlmMst1) * EPow P4 (EVar vMst2)) + EVar vMgl * EVar vs2t * (#4 * (#2 + #11 * EVar vlmMst2 - #2 * EVar vlmMst1
   * (#5 + #4 * EVar vlmMst2) + EPow P2 (EVar vlmMst1) + #7 * EPow P2 (EVar vlmMst2)) * EPow P2 (EVar vMst1) * EPow P2
   (EVar vMst2) + (#1 + #46 * EVar vlmMst2 - #2 * EVar vlmMst1 * (#23 + #32 * EVar vlmMst2) + #20 * EPow P2 (EVar
   vlmMst1) + #44 * EPow P2 (EVar vlmMst2)) * EPow P4 (EVar vMst1) + #4 * (#7 + #7 * EVar vlmMst2 - #2 * EVar vlmMst1
   * (#1 + EVar vlmMst2) + #2 * EPow P2 (EVar vlmMst2)) * EPow P4 (EVar vMst2))) - #144 * EConst Cz2 * (#36 * EVar
   vMgl * EVar vs2t * EVar vtwoLoopFlag * EPow P4 (EVar vMsq) * (- #4 * (EVar vDmglst1 + EVar vMgl) * EVar vMst1 *
   EVar vMt * EPow P2 (EVar vMst2) - #4 * EVar vDmglst1 * EVar vs2t * EPow P2 (EVar vMst1) * (EPow P2 (EVar vMst1) +
   EPow P2 (EVar vMst2)) + #4 * (#3 * EVar vDmglst1 - EVar vMgl) * EVar vMt * EPow P3 (EVar vMst1) + EVar vMgl * EVar
   vs2t * EPow P4 (EVar vMst2)) + EVar vxDmglst1 * EPow P2 (EVar vDmglst1) * (- #72 * EVar vMst1 * EVar vs2t * EVar
   vtwoLoopFlag * (- #18 * EVar vMt * EPow P2 (EVar vMst1) + #2 * EVar vMt * EPow P2 (EVar vMst2) + #3 * EVar vMst1 *
   EVar vs2t * EPow P2 (EVar vMst2) + #3 * EVar vs2t * EPow P3 (EVar vMst1)) * EPow P4 (EVar vMsq) + EVar vAl4p * EVar
   vthreeLoopFlag * (EPow P4 (EVar vMsq) * (#24 * EVar vMst1 * EVar vMt * EVar vs2t * ((#3061 - #1260 * EVar vlmMsq -
   #434 * EVar vlmMst1 + #2354 * EVar vlmMst2) * EPow P2 (EVar vMst1) + (- #627 + #60 * EVar vlmMsq + #64 * EVar
   vlmMst1 - #192 * EVar vlmMst2) * EPow P2 (EVar vMst2)) - #36 * EPow P2 (EVar vMst1) * (#8 * (#55 + #16 * EVar
   vlmMst2) * EPow P2 (EVar vMt) + (#390 - #90 * EVar vlmMsq - #139 * EVar vlmMst1 + #315 * EVar vlmMst2) * EPow P2
   (EVar vMst2) * EPow P2 (EVar vs2t)) + EPow P2 (EVar vs2t) * ((#2903 + #3240 * EVar vlmMsq + #10956 * EVar vlmMst1 -
   #17292 * EVar vlmMst2) * EPow P4 (EVar vMst1) - #1782 * EPow P4 (EVar vMst2))) + EVar vs2t * (#150 * EPow P2 (EVar
   vMst2) * (#36 * EVar vMst1 * EVar vMt - #5 * EVar vs2t * EPow P2 (EVar vMst2)) * EPow P4 (EVar vMst1) - #60 * EPow
   P2 (EVar vMsq) * EPow P2 (EVar vMst1) * (- #96 * EVar vMst1 * EVar vMt * EPow P2 (EVar vMst2) - #82 * EVar vs2t *
   EPow P2 (EVar vMst1) * EPow P2 (EVar vMst2) + #432 * EVar vMt * EPow P3 (EVar vMst1) + #9 * EVar vs2t * EPow P4
   (EVar vMst2)))))) / EPow P4 (EVar vMsq) + EVar vxDmglst1 * EPow P2 (EVar vDmglst1) * (#5184 * EVar vs2t * EVar
   vtwoLoopFlag * (#2 * EVar vMt * (EVar vMst1 * (#16 - #2 * EVar vlmMst1 + #6 * EVar vlmMst2 - EPow P2 (EVar vlmMst1)
   + EPow P2 (EVar vlmMst2)) * EPow P2 (EVar vMst2) + (#2 - #2 * EVar vlmMst2 + #6 * EVar vlmMst1 * (#1 + #4 * EVar
   vlmMst2) - #15 * EPow P2 (EVar vlmMst1) - #9 * EPow P2 (EVar vlmMst2)) * EPow P3 (EVar vMst1)) + EVar vs2t * ((#4 +
   #3 * EVar vlmMst2 * (#1 + EVar vlmMst2) - #3 * EPow P2 (EVar vlmMst1)) * EPow P2 (EVar vMst1) * EPow P2 (EVar
   vMst2) - #3 * (#5 * EVar vlmMst1 - EVar vlmMst2 * (#5 + EVar vlmMst2) + EPow P2 (EVar vlmMst1)) * EPow P4 (EVar
   vMst1) + (- #4 + #3 * EVar vlmMst1) * EPow P4 (EVar vMst2))) + EVar vAl4p * EVar vthreeLoopFlag * (#768 * EPow P2
   (EVar vMst1) * EPow P2 (EVar vMt) * (#9893 - #54 * EConst CB4 - #27 * EConst CDN - #50 * EVar vlmMst1 + #138 * EPow
   P2 (EVar vlmMst1) + EVar vlmMst2 * (#4538 - #300 * EVar vlmMst1 + #54 * EPow P2 (EVar vlmMst1)) + #54 * (#19 + #3 *
   EVar vlmMst1) * EPow P2 (EVar vlmMst2) + #24 * EVar vlmMt * (#29 + #35 * EVar vlmMst2 - EVar vlmMst1 * (#35 + #18 *
   EVar vlmMst2) + #9 * EPow P2 (EVar vlmMst1) + #9 * EPow P2 (EVar vlmMst2)) - #234 * EPow P3 (EVar vlmMst1) + #18 *
   EPow P3 (EVar vlmMst2)) * EPow P4 (EVar vMsq) - #48 * EVar vMst1 * EVar vMt * EVar vs2t * (#2 * (#3 * EPow P2 (EVar
   vMst2) * (#413 + #408 * EConst CB4 + #12 * EConst CDN + #8520 * EVar vlmMsq - #720 * EPow P2 (EVar vlmMsq) + #2 *
   EVar vlmMst1 * (- #1573 - #540 * EVar vlmMsq + #180 * EPow P2 (EVar vlmMsq)) - #18 * (#51 + #20 * EVar vlmMsq) *
   EPow P2 (EVar vlmMst1) + EVar vlmMst2 * (- #15206 + #2520 * EVar vlmMsq + #708 * EVar vlmMst1 - #360 * EPow P2
   (EVar vlmMsq) + #360 * EPow P2 (EVar vlmMst1)) + #6 * (- #797 + #60 * EVar vlmMsq + #4 * EVar vlmMst1) * EPow P2
   (EVar vlmMst2) + #200 * EPow P3 (EVar vlmMst1) - #584 * EPow P3 (EVar vlmMst2)) + EPow P2 (EVar vMst1) * (#59579 +
   #20088 * EConst CB4 - #324 * EConst CDN - #39240 * EVar vlmMsq - #2160 * EPow P2 (EVar vlmMsq) + #24 * EVar vlmMst1
   * (- #56 + #1935 * EVar vlmMsq + #135 * EPow P2 (EVar vlmMsq)) - #18 * (#773 + #1620 * EVar vlmMsq) * EPow P2 (EVar
   vlmMst1) - #36 * EVar vlmMst2 * (- #940 + #1109 * EVar vlmMst1 - #90 * EVar vlmMsq * (- #13 + #16 * EVar vlmMst1) +
   #90 * EPow P2 (EVar vlmMsq) + #661 * EPow P2 (EVar vlmMst1)) - #90 * (- #355 + #252 * EVar vlmMsq + #286 * EVar
   vlmMst1) * EPow P2 (EVar vlmMst2) + #33084 * EPow P3 (EVar vlmMst1) + #16452 * EPow P3 (EVar vlmMst2))) * EPow P4
   (EVar vMsq) + #90 * (#928 - #145 * EVar vlmMst1 + #180 * EVar vlmMsq * (- #2 + EVar vlmMst1 - EVar vlmMst2) + #505
   * EVar vlmMst2 - #90 * EPow P2 (EVar vlmMst1) + #90 * EPow P2 (EVar vlmMst2)) * EPow P2 (EVar vMst2) * EPow P4
   (EVar vMst1) + #240 * EPow P2 (EVar vMsq) * ((#557 - #126 * EVar vlmMst1 + #72 * EVar vlmMsq * (- #2 + EVar vlmMst1
   - EVar vlmMst2) + #270 * EVar vlmMst2 - #36 * EPow P2 (EVar vlmMst1) + #36 * EPow P2 (EVar vlmMst2)) * EPow P2
   (EVar vMst1) * EPow P2 (EVar vMst2) + (#203 + #72 * EVar vlmMsq * (- #2 + #3 * EVar vlmMst1 - #3 * EVar vlmMst2) +
   #366 * EVar vlmMst2 + #6 * EVar vlmMst1 * (- #37 + #90 * EVar vlmMst2) - #378 * EPow P2 (EVar vlmMst1) - #162 *
   EPow P2 (EVar vlmMst2)) * EPow P4 (EVar vMst1) - #3 * EPow P4 (EVar vMst2)) + #5 * (- #467 + #12 * EVar vlmMsq -
   #12 * EVar vlmMst2) * EPow P2 (EVar vMst1) * EPow P4 (EVar vMst2) + #5 * (#11 - #12 * EVar vlmMsq + #12 * EVar
   vlmMst2) * EPow P6 (EVar vMst2)) + EPow P2 (EVar vs2t) * (EPow P4 (EVar vMsq) * (#864 * EPow P2 (EVar vMst1) * EPow
   P2 (EVar vMst2) * (#479 + #36 * EConst CB4 + #30 * EConst CDN - #975 * EVar vlmMsq + EVar vlmMst1 * (#1018 + #270 *
   EVar vlmMsq - #270 * EPow P2 (EVar vlmMsq)) + #135 * EPow P2 (EVar vlmMsq) + EVar vlmMst2 * (#811 - #540 * EVar
   vlmMsq + #258 * EVar vlmMst1 + #270 * EPow P2 (EVar vlmMsq) - #237 * EPow P2 (EVar vlmMst1)) + (- #646 + #270 *
   EVar vlmMsq) * EPow P2 (EVar vlmMst1) - #3 * (- #372 + #90 * EVar vlmMsq + #49 * EVar vlmMst1) * EPow P2 (EVar
   vlmMst2) - #65 * EPow P3 (EVar vlmMst1) + #449 * EPow P3 (EVar vlmMst2)) + (#130639 - #24192 * EConst CB4 - #1728 *
   EConst CDN - #984960 * EVar vlmMsq - #12 * EVar vlmMst1 * (#262259 - #181440 * EVar vlmMsq + #19440 * EPow P2 (EVar
   vlmMsq)) + #72 * (- #21689 + #3240 * EVar vlmMsq) * EPow P2 (EVar vlmMst1) + #12 * EVar vlmMst2 * (#347507 -
   #181440 * EVar vlmMsq - #156324 * EVar vlmMst1 + #19440 * EPow P2 (EVar vlmMsq) + #84312 * EPow P2 (EVar vlmMst1))
   - #72 * (- #45823 + #3240 * EVar vlmMsq + #27876 * EVar vlmMst1) * EPow P2 (EVar vlmMst2) - #240480 * EPow P3 (EVar
   vlmMst1) + #1235808 * EPow P3 (EVar vlmMst2)) * EPow P4 (EVar vMst1) + #72 * (#6457 + #60 * EVar vlmMsq * (#67 -
   #54 * EVar vlmMst1) - #982 * EVar vlmMst1 + #30 * (- #89 + #66 * EVar vlmMst1) * EVar vlmMst2 + #1620 * EPow P2
   (EVar vlmMsq) + #834 * EPow P2 (EVar vlmMst1) + #162 * EPow P2 (EVar vlmMst2)) * EPow P4 (EVar vMst2)) - #1440 *
   EPow P2 (EVar vMsq) * (#2 * (#335 - #97 * EVar vlmMst1 + #6 * EVar vlmMsq * (- #25 + #41 * EVar vlmMst1 - #41 *
   EVar vlmMst2) + #247 * EVar vlmMst2 - #123 * EPow P2 (EVar vlmMst1) + #123 * EPow P2 (EVar vlmMst2)) * EPow P2
   (EVar vMst2) * EPow P4 (EVar vMst1) - #3 * (#108 - #133 * EVar vlmMst1 + #2 * EVar vlmMsq * (#32 + #9 * EVar
   vlmMst1 - #9 * EVar vlmMst2) + #69 * EVar vlmMst2 - #9 * EPow P2 (EVar vlmMst1) + #9 * EPow P2 (EVar vlmMst2)) *
   EPow P2 (EVar vMst1) * EPow P4 (EVar vMst2)) + #180 * ((#3087 - #2306 * EVar vlmMst1 + #12 * EVar vlmMsq * (#47 +
   #50 * EVar vlmMst1 - #50 * EVar vlmMst2) + #1742 * EVar vlmMst2 - #300 * EPow P2 (EVar vlmMst1) + #300 * EPow P2
   (EVar vlmMst2)) * EPow P4 (EVar vMst1) * EPow P4 (EVar vMst2) - #54 * EPow P2 (EVar vMst1) * EPow P6 (EVar
   vMst2)))) / EPow P4 (EVar vMsq))) / (EPow P2 (EVar vMgl) * EPow P4 (EVar vMst2))) / #7776.

(** H5g1.cpp:307-1749 *)
Definition H5g1_getS2 : expr :=
  - (EVar voneLoopFlag * (#4 * EVar vMt * EVar vMuSUSY * EVar vs2t * (#4 * (EVar vlmMst1 - EVar vlmMst2) * EPow P2 (EVar
   vMt) + ((- #2 - EVar vlmMst1 + EVar vlmMst2) * EPow P2 (EVar vMst1) + (#2 - EVar vlmMst1 + EVar vlmMst2) * EPow P2
   (EVar vMst2)) * EPow P2 (EVar vs2t)) / EVar vTbeta + EPow P2 (EVar vMt) * EPow P2 (EVar vs2t) * (#8 * (EVar vlmMst1
   - EVar vlmMst2) * (EPow P2 (EVar vMst1) - EPow P2 (EVar vMst2)) + #4 * EPow P2 (EVar vMuSUSY) * (#2 - EVar vlmMst1
   + EVar vlmMst2 - #2 * (EVar vlmMst1 - EVar vlmMst2) * EPow P2 (EVar vMst1) * (EPow P2 (EVar vMst1) + EPow P2 (EVar
   vMst2)) / EPow P4 (EVar vMst2)) - #4 * EPow P2 (EVar vMuSUSY) * (#2 - EVar vlmMst1 + EVar vlmMst2 - #2 * (EVar
   vlmMst1 - EVar vlmMst2) * EPow P2 (EVar vMst1) * (EPow P2 (EVar vMst1) + EPow P2 (EVar vMst2)) / EPow P4 (EVar
   vMst2)) / EPow P2 (EVar vSbeta)) + #16 * (EVar vlmMst1 + EVar vlmMst2 - #2 * EVar vlmMt) * EPow P4 (EVar vMt) - (-
   #4 * EPow P2 (EVar vMst1) * EPow P2 (EVar vMst2) + (#2 + EVar vlmMst1 - EVar vlmMst2) * EPow P4 (EVar vMst1) + (#2
   - EVar vlmMst1 + EVar vlmMst2) * EPow P4 (EVar vMst2)) * EPow P4 (EVar vs2t))) / #32 + EVar vthreeLoopFlag * EPow
   P2 (EVar vAl4p) * (- ((EPow P2 (EVar vMst1) * EPow P2 (EVar vMst2) * (EDec 48366979423868315 15 - EConst CB4 / #9 -
   EConst CDN / #6 - #265 * EVar vlmMsq / #36 + #35 * EPow P2 (EVar vlmMsq) / #12 + EVar vlmMst1 * (EDec
   3855222222222222 14 - #55 * EVar vlmMsq / #6 + #5 * EPow P2 (EVar vlmMsq) / #2) + (EDec 27666666666666666 16 - #5 *
   EVar vlmMsq / #6) * EPow P2 (EVar vlmMst1) - EVar vlmMst2 * (#3322 + #3000 * EVar vlmMsq * (- #1 + EVar vlmMst1) -
   #25870 * EVar vlmMst1 + #2250 * EPow P2 (EVar vlmMsq) + #3025 * EPow P2 (EVar vlmMst1)) / #900 + (- #3372 + #750 *
   EVar vlmMsq + #2365 * EVar vlmMst1) * EPow P2 (EVar vlmMst2) / #180 + #41 * EPow P3 (EVar vlmMst1) / #108 - #1097 *
   EPow P3 (EVar vlmMst2) / #108 + (#2 * (#50 * EVar vDmglst1 * (#137 - #92 * EVar vlmMst1 + EVar vlmMsq * (- #6 + #60
   * EVar vlmMst1 - #60 * EVar vlmMst2) + #98 * EVar vlmMst2 - #30 * EPow P2 (EVar vlmMst1) + #30 * EPow P2 (EVar
   vlmMst2)) + EVar vMgl * (#2068 - #646 * EVar vlmMst1 + #15 * EVar vlmMsq * (- #23 + #41 * EVar vlmMst1 - #41 * EVar
   vlmMst2) + #991 * EVar vlmMst2 - #225 * EVar vlmMst1 * EVar vlmMst2 - #195 * EPow P2 (EVar vlmMst1) + #420 * EPow
   P2 (EVar vlmMst2))) * EPow P2 (EVar vMst1) / EPow P2 (EVar vMsq) - #5 * EVar vDmglst1 * (#1151 + #72 * EConst CB4 +
   #60 * EConst CDN - #1890 * EVar vlmMsq - #270 * EPow P2 (EVar vlmMsq) - #18 * EVar vlmMst1 * (- #49 - #90 * EVar
   vlmMsq + #30 * EPow P2 (EVar vlmMsq)) + #6 * EVar vlmMst2 * (#342 - #180 * EVar vlmMsq - #24 * EVar vlmMst1 + #90 *
   EPow P2 (EVar vlmMsq) - #79 * EPow P2 (EVar vlmMst1)) + #6 * (- #347 + #90 * EVar vlmMsq) * EPow P2 (EVar vlmMst1)
   - #6 * (- #363 + #90 * EVar vlmMsq + #49 * EVar vlmMst1) * EPow P2 (EVar vlmMst2) - #130 * EPow P3 (EVar vlmMst1) +
   #898 * EPow P3 (EVar vlmMst2))) / (#540 * EVar vMgl)) + (EDec 32221840780308305 15 + #10 * EConst CB4 / #9 + EConst
   CDN / #18 - #275 * EVar vlmMsq / #72 + EVar vlmMst1 * (EDec 32322576530612244 16 + #65 * EVar vlmMsq / #18 - #35 *
   EPow P2 (EVar vlmMsq) / #12) + #5 * EPow P2 (EVar vlmMsq) / #12 + EVar vlmMst2 * (- #5 * EVar vlmMsq * (#8 + #3 *
   EVar vlmMst1) / #9 + #35 * EPow P2 (EVar vlmMsq) / #12 + (#5211957 + #20946380 * EVar vlmMst1 - #38602200 * EPow P2
   (EVar vlmMst1)) / #2116800) - (EDec 17322652116402118 15 - #15 * EVar vlmMsq / #4) * EPow P2 (EVar vlmMst1) + (EDec
   848290343915344 14 - #25 * EVar vlmMsq / #12 + #1793 * EVar vlmMst1 / #72) * EPow P2 (EVar vlmMst2) + #95 * EPow P3
   (EVar vlmMst1) / #216 + EVar vDmglst1 * (EDec 4972923096707819 14 + #2 * EConst CB4 / #3 + #5 * EConst CDN / #9 -
   #45 * EVar vlmMsq / #2 + EVar vlmMst1 * (EDec 7981095679012346 14 - #15 * EVar vlmMsq - #5 * EPow P2 (EVar vlmMsq))
   + #5 * EPow P2 (EVar vlmMsq) / #2 + EVar vlmMst2 * (#10 * EVar vlmMsq + #5 * EPow P2 (EVar vlmMsq) + (- #31507 +
   #25692 * EVar vlmMst1 - #23544 * EPow P2 (EVar vlmMst1)) / #1296) + (EDec 12546296296296295 16 + #5 * EVar vlmMsq)
   * EPow P2 (EVar vlmMst1) - (EDec 28564814814814814 16 + #5 * EVar vlmMsq - #455 * EVar vlmMst1 / #18) * EPow P2
   (EVar vlmMst2) - #73 * EPow P3 (EVar vlmMst1) / #54 - #311 * EPow P3 (EVar vlmMst2) / #54) / EVar vMgl - #1535 *
   EPow P3 (EVar vlmMst2) / #216) * EPow P4 (EVar vMst1) + #2 * EConst COepS2 * (- #150 * EPow P2 (EVar vMst1) * EPow
   P2 (EVar vMst2) + #11 * EPow P4 (EVar vMst1) - #27 * EPow P4 (EVar vMst2)) / #729 - (#51450 * EVar vDmglst1 * (#40
   * (#82 - #93 * EVar vlmMst1 + #6 * EVar vlmMsq * (#4 + #3 * EVar vlmMst1 - #3 * EVar vlmMst2) + #69 * EVar vlmMst2
   - #9 * EPow P2 (EVar vlmMst1) + #9 * EPow P2 (EVar vlmMst2)) * EPow P2 (EVar vMsq) * EPow P2 (EVar vMst1) + #6 *
   (#7 + #60 * EVar vlmMsq * (#5 - #6 * EVar vlmMst1) - #2 * EVar vlmMst1 + (- #226 + #220 * EVar vlmMst1) * EVar
   vlmMst2 + #180 * EPow P2 (EVar vlmMsq) + #178 * EPow P2 (EVar vlmMst1) + #18 * EPow P2 (EVar vlmMst2)) * EPow P4
   (EVar vMsq) + #5 * (#521 - #346 * EVar vlmMst1 + #12 * EVar vlmMsq * (#1 + #10 * EVar vlmMst1 - #10 * EVar vlmMst2)
   + #334 * EVar vlmMst2 - #60 * EPow P2 (EVar vlmMst1) + #60 * EPow P2 (EVar vlmMst2)) * EPow P4 (EVar vMst1)) + EVar
   vMgl * (#41160 * (#2714 + #30 * EVar vlmMsq * (- #17 + #6 * EVar vlmMst1 - #6 * EVar vlmMst2) + #1167 * EVar
   vlmMst2 + #9 * EVar vlmMst1 * (- #73 + #50 * EVar vlmMst2) - #315 * EPow P2 (EVar vlmMst1) - #135 * EPow P2 (EVar
   vlmMst2)) * EPow P2 (EVar vMsq) * EPow P2 (EVar vMst1) + #8575 * (#53749 + #2592 * EConst CB4 - #288 * EConst CDN -
   #13320 * EVar vlmMsq + #5400 * EPow P2 (EVar vlmMsq) - #6 * EVar vlmMst1 * (#3781 - #300 * EVar vlmMsq + #180 *
   EPow P2 (EVar vlmMsq)) + #6 * EVar vlmMst2 * (#14209 - #3498 * EVar vlmMst1 + #60 * EVar vlmMsq * (- #35 + #12 *
   EVar vlmMst1) + #180 * EPow P2 (EVar vlmMsq) - #18 * EPow P2 (EVar vlmMst1)) - #18 * (- #229 + #60 * EVar vlmMsq) *
   EPow P2 (EVar vlmMst1) - #18 * (- #2193 + #180 * EVar vlmMsq + #442 * EVar vlmMst1) * EPow P2 (EVar vlmMst2) + #396
   * EPow P3 (EVar vlmMst1) + #7668 * EPow P3 (EVar vlmMst2)) * EPow P4 (EVar vMsq) + #3 * (#12119532 + #420 * EVar
   vlmMsq * (- #9224 + #6545 * EVar vlmMst1 - #5705 * EVar vlmMst2) + #7553665 * EVar vlmMst2 + #35 * EVar vlmMst1 *
   (- #105131 + #35280 * EVar vlmMst2) - #176400 * EPow P2 (EVar vlmMsq) - #1991850 * EPow P2 (EVar vlmMst1) + #580650
   * EPow P2 (EVar vlmMst2)) * EPow P4 (EVar vMst1))) * EPow P4 (EVar vMst2) / (#22226400 * EVar vMgl * EPow P4 (EVar
   vMsq)) - EConst CS2 * (- #18 * (#197 + #50 * EVar vlmMst1 - #50 * EVar vlmMst2) * EPow P2 (EVar vMst1) * EPow P2
   (EVar vMst2) + (#281 + #66 * EVar vlmMst1 - #66 * EVar vlmMst2) * EPow P4 (EVar vMst1) + #81 * (#11 - #2 * EVar
   vlmMst1 + #2 * EVar vlmMst2) * EPow P4 (EVar vMst2)) / #108) * EPow P4 (EVar vs2t)) + EPow P4 (EVar vMt) * (#10501
   - #4920 * EVar vlmMsq + #18 * EVar vlmMst2 * (#149 + #50 * EVar vlmMsq - #19 * EVar vlmMst1 * (- #2 + EVar vlmMst2)
   + EVar vlmMst2 - #30 * EPow P2 (EVar vlmMsq)) + #1980 * EPow P2 (EVar vlmMsq) - #4 * EVar vlmMst1 * (#196 + #270 *
   EVar vlmMsq + #135 * EPow P2 (EVar vlmMsq)) + #1914 * EPow P2 (EVar vlmMst1) - #6 * EVar vlmMt * (#77 + #2 * EVar
   vlmMst1 * (#221 - #57 * EVar vlmMst2) + #594 * EVar vlmMst2 + #90 * EVar vlmMsq * (#7 - #2 * (EVar vlmMst1 + EVar
   vlmMst2)) - #129 * EPow P2 (EVar vlmMst1) + #87 * EPow P2 (EVar vlmMst2)) + #108 * (- ((- #28 + #10 * EVar vlmMsq +
   #29 * EVar vlmMst1 + #17 * EVar vlmMst2) * EPow P2 (EVar vlmMt)) + (#1 - #2 * EVar vlmMst2) * EPow P2 (EVar vMst2)
   / EPow P2 (EVar vMst1)) + #360 * EPow P3 (EVar vlmMsq) - #750 * EPow P3 (EVar vlmMst1) - #204 * EPow P3 (EVar
   vlmMst2) + #4968 * EPow P3 (EVar vlmMt) - (#1029000 * EVar vDmglst1 * (#2215 + #254 * EVar vlmMst2 - #2322 * EVar
   vlmMt + #264 * EVar vlmMst2 * EVar vlmMt + #60 * EVar vlmMsq * (#5 + #42 * EVar vlmMst1 + #12 * EVar vlmMt) + EVar
   vlmMst1 * (#824 + #60 * EVar vlmMst2 + #984 * EVar vlmMt) - #1620 * EPow P2 (EVar vlmMsq) - #3018 * EPow P2 (EVar
   vlmMst1) - #162 * EPow P2 (EVar vlmMst2) - #1872 * EPow P2 (EVar vlmMt)) * EPow P4 (EVar vMsq) * EPow P4 (EVar
   vMst2) + #5488 * EPow P2 (EVar vMsq) * EPow P2 (EVar vMst1) * (EPow P2 (EVar vMsq) * EPow P2 (EVar vMst2) * (EVar
   vMgl * (#2459588 - #813345 * EVar vlmMst2 + #151875 * EVar vlmMsq * (#3 + #2 * EVar vlmMt) - #151875 * EPow P2
   (EVar vlmMsq) + #225 * (#1339 + #30 * EVar vlmMst2 - #900 * EVar vlmMt) * EPow P2 (EVar vlmMst1) - #370350 * EPow
   P2 (EVar vlmMst2) + #3375 * EVar vlmMt * (#66 + #303 * EVar vlmMst2 + #68 * EPow P2 (EVar vlmMst2)) + #15 * EVar
   vlmMst1 * (#17548 - #71775 * EVar vlmMt - #15 * EVar vlmMst2 * (#773 + #120 * EVar vlmMt) + #450 * EPow P2 (EVar
   vlmMst2)) - #162000 * EPow P2 (EVar vlmMt) + #65250 * EPow P3 (EVar vlmMst1) - #78750 * EPow P3 (EVar vlmMst2)) +
   #125 * EVar vDmglst1 * (#64093 - #12414 * EVar vlmMst2 + #2430 * EVar vlmMsq * (#3 + #2 * EVar vlmMt) - #6 * EVar
   vlmMst1 * (#988 + #2367 * EVar vlmMt + EVar vlmMst2 * (#393 + #36 * EVar vlmMt)) - #2430 * EPow P2 (EVar vlmMsq) +
   #36 * (#38 + #3 * EVar vlmMst2 - #93 * EVar vlmMt) * EPow P2 (EVar vlmMst1) - #6354 * EPow P2 (EVar vlmMst2) + #18
   * EVar vlmMt * (#1190 + #933 * EVar vlmMst2 + #198 * EPow P2 (EVar vlmMst2)) - #2592 * EPow P2 (EVar vlmMt) + #1080
   * EPow P3 (EVar vlmMst1) - #1188 * EPow P3 (EVar vlmMst2))) + #2250 * EPow P2 (EVar vMsq) * EPow P2 (EVar vMuSUSY)
   * (#2 * EVar vDmglst1 * (#735 - #6 * EConst CB4 - #3 * EConst CDN - #78 * EVar vlmMst1 + #6 * EPow P2 (EVar
   vlmMst1) + #6 * EVar vlmMst2 * (#85 - #6 * EVar vlmMst1 + EPow P2 (EVar vlmMst1)) + #18 * (#7 + EVar vlmMst1) *
   EPow P2 (EVar vlmMst2) + #24 * EVar vlmMt * (#2 + #3 * EVar vlmMst2 - EVar vlmMst1 * (#3 + #2 * EVar vlmMst2) +
   EPow P2 (EVar vlmMst1) + EPow P2 (EVar vlmMst2)) - #26 * EPow P3 (EVar vlmMst1) + #2 * EPow P3 (EVar vlmMst2)) +
   EVar vMgl * (#417 - #6 * EConst CB4 - #3 * EConst CDN - #162 * EVar vlmMst1 + #6 * EVar vlmMst2 * (#87 - #8 * EVar
   vlmMst1 + EPow P2 (EVar vlmMst1)) + #18 * (#8 + EVar vlmMst1) * EPow P2 (EVar vlmMst2) + #24 * EVar vlmMt * EPow P2
   (#1 - EVar vlmMst1 + EVar vlmMst2) - #26 * EPow P3 (EVar vlmMst1) + #2 * EPow P3 (EVar vlmMst2))) + #45 * (#750 *
   EVar vDmglst1 * (#27 + #14 * EVar vlmMst1 + EVar vlmMst2 + (- #3 - #6 * (EVar vlmMst1 + EVar vlmMst2)) * EVar vlmMt
   + #6 * EVar vlmMsq * (- #2 + EVar vlmMst1 + EVar vlmMst2 + #2 * EVar vlmMt) - #12 * EPow P2 (EVar vlmMsq)) + EVar
   vMgl * (#12339 + #4910 * EVar vlmMst1 + #375 * EVar vlmMst2 - #375 * (#11 + #10 * EVar vlmMst1 + #6 * EVar vlmMst2)
   * EVar vlmMt + #10 * EVar vlmMsq * (- #116 + #285 * EVar vlmMst1 + #225 * EVar vlmMst2 + #600 * EVar vlmMt) - #5550
   * EPow P2 (EVar vlmMsq) + #450 * EPow P2 (EVar vlmMst1))) * EPow P4 (EVar vMst2)) + #82320 * EPow P2 (EVar vMsq) *
   EPow P2 (EVar vMst2) * (- #1875 * (- #11 + #6 * EVar vlmMsq - #6 * EVar vlmMt) * (#4 * EVar vDmglst1 + EVar vMgl) *
   EPow P4 (EVar vMst1) + EVar vMgl * (#13517 + EVar vlmMst2 * (#7230 - #4500 * EVar vlmMt) - #6000 * EVar vlmMt + #30
   * EVar vlmMsq * (- #41 + #60 * EVar vlmMst2 + #150 * EVar vlmMt) - #3150 * EPow P2 (EVar vlmMsq) + #1350 * EPow P2
   (EVar vlmMst2)) * EPow P4 (EVar vMst2)) + EPow P4 (EVar vMst1) * (#514500 * EVar vDmglst1 * (#2 * (#99985 + #34432
   * EVar vlmMst2 + (#3156 - #5832 * EVar vlmMst2 + #1296 * EVar vlmMt) * EPow P2 (EVar vlmMst1) + #17388 * EPow P2
   (EVar vlmMst2) + #24 * EVar vlmMt * (- #191 + #871 * EVar vlmMst2 + #6 * EPow P2 (EVar vlmMst2)) - #1080 * EVar
   vlmMsq * (#9 + EVar vlmMst2 * (#29 - #10 * EVar vlmMt) - #10 * EVar vlmMst1 * (#1 + EVar vlmMst2 - EVar vlmMt) -
   #19 * EVar vlmMt + #10 * EPow P2 (EVar vlmMst2)) - #1728 * (#3 + #2 * EVar vlmMst2) * EPow P2 (EVar vlmMt) + #8 *
   EVar vlmMst1 * (#517 + EVar vlmMst2 * (#168 - #180 * EVar vlmMt) - #4557 * EVar vlmMt + #27 * EPow P2 (EVar
   vlmMst2) + #432 * EPow P2 (EVar vlmMt)) + #1512 * EPow P3 (EVar vlmMst1) + #4104 * EPow P3 (EVar vlmMst2)) * EPow
   P4 (EVar vMsq) + #5 * (#2095 + #330 * EVar vlmMst2 + #48 * EVar vlmMst1 * (#25 - #12 * EVar vlmMt) - #6 * (- #19 +
   #60 * EVar vlmMst2) * EVar vlmMt + #12 * EVar vlmMsq * (- #137 + #48 * EVar vlmMst1 + #30 * EVar vlmMst2 + #78 *
   EVar vlmMt) - #936 * EPow P2 (EVar vlmMsq)) * EPow P4 (EVar vMst2)) + EVar vMgl * (#4 * (#6336529126 + #2073605310
   * EVar vlmMst2 - #44100 * (- #8128 + #8295 * EVar vlmMst2 + #1680 * EVar vlmMt) * EPow P2 (EVar vlmMst1) +
   #976616550 * EPow P2 (EVar vlmMst2) - #138915000 * EVar vlmMsq * (#2 + EVar vlmMst2 * (#12 - #5 * EVar vlmMt) - #5
   * EVar vlmMst1 * (#1 + EVar vlmMst2 - EVar vlmMt) - #7 * EVar vlmMt + #5 * EPow P2 (EVar vlmMst2)) + #1157625 *
   EVar vlmMt * (- #899 + #1578 * EVar vlmMst2 + #128 * EPow P2 (EVar vlmMst2)) - #222264000 * (#1 + EVar vlmMst2) *
   EPow P2 (EVar vlmMt) + #315 * EVar vlmMst1 * (#1895351 - #7915950 * EVar vlmMt - #70 * EVar vlmMst2 * (#16867 +
   #3360 * EVar vlmMt) - #14700 * EPow P2 (EVar vlmMst2) + #705600 * EPow P2 (EVar vlmMt)) + #146632500 * EPow P3
   (EVar vlmMst1) + #223807500 * EPow P3 (EVar vlmMst2)) * EPow P4 (EVar vMsq) + #15 * (#160842737 + #14148750 * EVar
   vlmMst2 + #840 * EVar vlmMst1 * (#106067 - #51450 * EVar vlmMt) - #257250 * (#41 + #60 * EVar vlmMst2) * EVar vlmMt
   + #420 * EVar vlmMsq * (- #220709 + #82740 * EVar vlmMst1 + #36750 * EVar vlmMst2 + #139650 * EVar vlmMt) -
   #54419400 * EPow P2 (EVar vlmMsq) + #4233600 * EPow P2 (EVar vlmMst1)) * EPow P4 (EVar vMst2))) + #45 * (#343000 *
   EVar vDmglst1 * (#115 - #48 * EVar vlmMsq + EVar vlmMst2 * (#69 - #36 * EVar vlmMt) - #21 * EVar vlmMt + #36 * EVar
   vlmMsq * (EVar vlmMst2 + EVar vlmMt) - #36 * EPow P2 (EVar vlmMsq)) * EPow P2 (EVar vMst1) + EVar vMgl * (#171500 *
   (#115 - #48 * EVar vlmMsq + EVar vlmMst2 * (#69 - #36 * EVar vlmMt) - #21 * EVar vlmMt + #36 * EVar vlmMsq * (EVar
   vlmMst2 + EVar vlmMt) - #36 * EPow P2 (EVar vlmMsq)) * EPow P2 (EVar vMst1) + (#13597579 + #210 * EVar vlmMst2 *
   (#43831 - #14700 * EVar vlmMt) - #2315250 * EVar vlmMt + #420 * EVar vlmMsq * (- #16403 + #630 * EVar vlmMst2 +
   #7350 * EVar vlmMt) - #1675800 * EPow P2 (EVar vlmMsq) + #1411200 * EPow P2 (EVar vlmMst2)) * EPow P2 (EVar
   vMst2))) * EPow P6 (EVar vMst2)) / (#514500 * EVar vMgl * EPow P4 (EVar vMsq) * EPow P4 (EVar vMst2))) / #81 + EVar
   vMst1 * EVar vMt * EVar vs2t * (- (EPow P2 (EVar vs2t) * (#8 * EPow P2 (EVar vMst1) * (#132407 + #11880 * EConst
   CB4 - #108 * EConst CDN - #45360 * EVar vlmMsq + #6480 * EPow P2 (EVar vlmMsq) + #60 * EVar vlmMst1 * (#2299 - #378
   * EVar vlmMsq + #54 * EPow P2 (EVar vlmMsq)) + #18 * (#3377 - #900 * EVar vlmMsq) * EPow P2 (EVar vlmMst1) - #12 *
   EVar vlmMst2 * (#1667 + #1761 * EVar vlmMst1 - #270 * EVar vlmMsq * (#3 + #8 * EVar vlmMst1) + #270 * EPow P2 (EVar
   vlmMsq) + #594 * EPow P2 (EVar vlmMst1)) - #18 * (#859 + #540 * EVar vlmMsq + #564 * EVar vlmMst1) * EPow P2 (EVar
   vlmMst2) + #14472 * EPow P3 (EVar vlmMst1) + #2808 * EPow P3 (EVar vlmMst2) + #3 * EVar vDmglst1 * (#54053 + #9432
   * EConst CB4 - #180 * EConst CDN - #34560 * EVar vlmMsq + #2160 * EPow P2 (EVar vlmMsq) + #12 * (EVar vlmMst1 *
   (#2489 + #810 * EVar vlmMsq + #90 * EPow P2 (EVar vlmMsq)) + EVar vlmMst2 * (#2899 - #90 * EVar vlmMsq * (#13 +
   EVar vlmMsq - #24 * EVar vlmMst1) - #2559 * EVar vlmMst1 - #984 * EPow P2 (EVar vlmMst1))) + #54 * (#381 - #260 *
   EVar vlmMsq) * EPow P2 (EVar vlmMst1) - #18 * (- #1011 + #660 * EVar vlmMsq + #688 * EVar vlmMst1) * EPow P2 (EVar
   vlmMst2) + #15648 * EPow P3 (EVar vlmMst1) + #8544 * EPow P3 (EVar vlmMst2)) / EVar vMgl) + (EPow P2 (EVar vMsq) *
   (- #2880 * EVar vMgl * (#83 + EVar vlmMst1 * (#52 - #36 * EVar vlmMst2) - #12 * EVar vlmMsq * (#2 + EVar vlmMst1 -
   EVar vlmMst2) - #28 * EVar vlmMst2 + #24 * EPow P2 (EVar vlmMst1) + #12 * EPow P2 (EVar vlmMst2)) - #8640 * EVar
   vDmglst1 * (#107 + EVar vlmMst1 * (#32 - #60 * EVar vlmMst2) - #12 * EVar vlmMsq * (#2 + EVar vlmMst1 - EVar
   vlmMst2) - #8 * EVar vlmMst2 + #36 * EPow P2 (EVar vlmMst1) + #24 * EPow P2 (EVar vlmMst2)) + EPow P2 (EVar vMsq) *
   (EVar vMgl * (#622151 + #12960 * EVar vlmMsq * (#11 + #10 * EVar vlmMst1 - #10 * EVar vlmMst2) - #135756 * EVar
   vlmMst2 + #72 * (- #4499 + #3060 * EVar vlmMst2) * EPow P2 (EVar vlmMst1) - #185688 * EPow P2 (EVar vlmMst2) - #36
   * EVar vlmMst1 * (#69 - #14924 * EVar vlmMst2 + #3048 * EPow P2 (EVar vlmMst2)) - #110304 * EPow P3 (EVar vlmMst1)
   - #288 * EPow P3 (EVar vlmMst2)) + EVar vDmglst1 * (#3058187 + #12960 * EVar vlmMsq * (#43 + #66 * EVar vlmMst1 -
   #66 * EVar vlmMst2) - #960732 * EVar vlmMst2 + #72 * (- #9407 + #6948 * EVar vlmMst2) * EPow P2 (EVar vlmMst1) +
   #36 * EVar vlmMst1 * (#4415 + #9980 * EVar vlmMst2 - #10824 * EPow P2 (EVar vlmMst2)) + #400968 * EPow P2 (EVar
   vlmMst2) - #203616 * EPow P3 (EVar vlmMst1) + #93024 * EPow P3 (EVar vlmMst2))) / EPow P2 (EVar vMst2)) * EPow P4
   (EVar vMst1) - #36 * EPow P2 (EVar vMst2) * (EVar vMgl * (- #160 * (#37 - #8 * EVar vlmMst1 + #6 * EVar vlmMsq * (-
   #2 + EVar vlmMst1 - EVar vlmMst2) + #20 * EVar vlmMst2 - #3 * EPow P2 (EVar vlmMst1) + #3 * EPow P2 (EVar vlmMst2))
   * EPow P2 (EVar vMsq) * EPow P2 (EVar vMst1) + #2 * (#13317 - #408 * EConst CB4 - #12 * EConst CDN - #4320 * EVar
   vlmMsq + #720 * EPow P2 (EVar vlmMsq) - #6 * EVar vlmMst1 * (#79 - #180 * EVar vlmMsq + #60 * EPow P2 (EVar
   vlmMsq)) + #6 * EVar vlmMst2 * (#2135 - #420 * EVar vlmMsq - #118 * EVar vlmMst1 + #60 * EPow P2 (EVar vlmMsq) -
   #60 * EPow P2 (EVar vlmMst1)) + #6 * (- #167 + #60 * EVar vlmMsq) * EPow P2 (EVar vlmMst1) - #6 * (- #797 + #60 *
   EVar vlmMsq + #4 * EVar vlmMst1) * EPow P2 (EVar vlmMst2) - #200 * EPow P3 (EVar vlmMst1) + #584 * EPow P3 (EVar
   vlmMst2)) * EPow P4 (EVar vMsq) - #5 * (#343 - #18 * EVar vlmMst1 + #12 * EVar vlmMsq * (- #13 + #6 * EVar vlmMst1
   - #6 * EVar vlmMst2) + #174 * EVar vlmMst2 - #36 * EPow P2 (EVar vlmMst1) + #36 * EPow P2 (EVar vlmMst2)) * EPow P4
   (EVar vMst1)) + EVar vDmglst1 * (- #480 * (#42 - #10 * EVar vlmMst1 + #6 * EVar vlmMsq * (- #2 + EVar vlmMst1 -
   EVar vlmMst2) + #22 * EVar vlmMst2 - #3 * EPow P2 (EVar vlmMst1) + #3 * EPow P2 (EVar vlmMst2)) * EPow P2 (EVar
   vMsq) * EPow P2 (EVar vMst1) + #2 * (#11337 - #408 * EConst CB4 - #12 * EConst CDN - #6480 * EVar vlmMsq + #720 *
   EPow P2 (EVar vlmMsq) - #30 * EVar vlmMst1 * (- #73 - #36 * EVar vlmMsq + #12 * EPow P2 (EVar vlmMsq)) + #6 * EVar
   vlmMst2 * (#2331 - #420 * EVar vlmMsq - #118 * EVar vlmMst1 + #60 * EPow P2 (EVar vlmMsq) - #60 * EPow P2 (EVar
   vlmMst1)) + #18 * (- #13 + #20 * EVar vlmMsq) * EPow P2 (EVar vlmMst1) - #6 * (- #797 + #60 * EVar vlmMsq + #4 *
   EVar vlmMst1) * EPow P2 (EVar vlmMst2) - #200 * EPow P3 (EVar vlmMst1) + #584 * EPow P3 (EVar vlmMst2)) * EPow P4
   (EVar vMsq) - #5 * (#1807 - #234 * EVar vlmMst1 + #12 * EVar vlmMsq * (- #61 + #30 * EVar vlmMst1 - #30 * EVar
   vlmMst2) + #966 * EVar vlmMst2 - #180 * EPow P2 (EVar vlmMst1) + #180 * EPow P2 (EVar vlmMst2)) * EPow P4 (EVar
   vMst1))) - #180 * (#48 * (EVar vDmglst1 + EVar vMgl) * EPow P2 (EVar vMsq) + (EVar vDmglst1 * (#91 - #12 * EVar
   vlmMsq + #12 * EVar vlmMst2) + (#43 - #12 * EVar vlmMsq + #12 * EVar vlmMst2) * EVar vMgl) * EPow P2 (EVar vMst1))
   * EPow P4 (EVar vMst2)) / (EVar vMgl * EPow P4 (EVar vMsq)))) + #8 * EPow P2 (EVar vMt) * (#24 * (EVar vDmglst1 *
   (#7007 - #290 * EVar vlmMst2 + #30 * EVar vlmMsq * (#251 + #102 * EVar vlmMt + #36 * EVar vlmMst2 * (#1 + EVar
   vlmMt) - #6 * EVar vlmMst1 * (#23 + #6 * EVar vlmMt)) + #540 * (EVar vlmMst1 - EVar vlmMst2) * EPow P2 (EVar
   vlmMsq) + #12 * (#331 + #15 * EVar vlmMst2 + #42 * EVar vlmMt) * EPow P2 (EVar vlmMst1) - #288 * EPow P2 (EVar
   vlmMst2) - #6 * EVar vlmMt * (#817 + #464 * EVar vlmMst2 + #108 * EPow P2 (EVar vlmMst2)) - #864 * (#2 + EVar
   vlmMst2) * EPow P2 (EVar vlmMt) + #4 * EVar vlmMst1 * (- #2438 - #408 * EVar vlmMt + #3 * EVar vlmMst2 * (#61 + #12
   * EVar vlmMt) + #9 * EPow P2 (EVar vlmMst2) + #216 * EPow P2 (EVar vlmMt)) - #132 * EPow P3 (EVar vlmMst1) - #84 *
   EPow P3 (EVar vlmMst2)) + #3 * EVar vMgl * (#371 + #156 * EVar vlmMst2 + #90 * EVar vlmMsq * (#11 + #6 * EVar vlmMt
   + #4 * EVar vlmMst2 * (#1 + EVar vlmMt) - #2 * EVar vlmMst1 * (#5 + #2 * EVar vlmMt)) + #180 * (EVar vlmMst1 - EVar
   vlmMst2) * EPow P2 (EVar vlmMsq) + #12 * (#60 + #5 * EVar vlmMst2 + #14 * EVar vlmMt) * EPow P2 (EVar vlmMst1) -
   #96 * EPow P2 (EVar vlmMst2) - #6 * EVar vlmMt * (#217 + #154 * EVar vlmMst2 + #36 * EPow P2 (EVar vlmMst2)) - #288
   * (#1 + EVar vlmMst2) * EPow P2 (EVar vlmMt) + #6 * EVar vlmMst1 * (- #145 + #26 * EVar vlmMt + #8 * EVar vlmMst2 *
   (#5 + EVar vlmMt) + #2 * EPow P2 (EVar vlmMst2) + #48 * EPow P2 (EVar vlmMt)) - #44 * EPow P3 (EVar vlmMst1) - #28
   * EPow P3 (EVar vlmMst2))) + EPow P2 (EVar vMst1) * (- #480 * (#3 * EVar vDmglst1 * (- (EVar vlmMsq * (#7 + #42 *
   EVar vlmMst1 - #36 * EVar vlmMst2 + #6 * EVar vlmMt)) + EVar vlmMst1 * (#103 + #42 * EVar vlmMt) - #4 * (#32 + #9 *
   EVar vlmMst2 * EVar vlmMt + #12 * (EVar vlmMst2 + EVar vlmMt)) + #6 * EPow P2 (EVar vlmMsq)) + EVar vMgl * (#27 *
   EVar vlmMst1 * (#3 + #2 * EVar vlmMt) - #3 * EVar vlmMsq * (#7 + #18 * EVar vlmMst1 - #12 * EVar vlmMst2 + #6 *
   EVar vlmMt) - #2 * (#55 + #6 * EVar vlmMt + #6 * EVar vlmMst2 * (#4 + #3 * EVar vlmMt)) + #18 * EPow P2 (EVar
   vlmMsq))) / EPow P2 (EVar vMsq) + #8 * (#3 * EVar vMgl * (#83 + #540 * EVar vlmMsq * (- #1 + #2 * EVar vlmMst1 - #2
   * EVar vlmMst2) * (#1 + #2 * EVar vlmMst2 - #2 * EVar vlmMt) - #18 * (#163 + #49 * EVar vlmMst2 - #116 * EVar
   vlmMt) * EPow P2 (EVar vlmMst1) + #6282 * EPow P2 (EVar vlmMst2) - #36 * EVar vlmMt * (#31 + #160 * EVar vlmMst2 +
   #22 * EPow P2 (EVar vlmMst2)) + EVar vlmMst2 * (#6591 - #864 * EPow P2 (EVar vlmMt)) - #3 * EVar vlmMst1 * (#1249 -
   #1536 * EVar vlmMt + #108 * EVar vlmMst2 * (#5 + #4 * EVar vlmMt) + #66 * EPow P2 (EVar vlmMst2) - #288 * EPow P2
   (EVar vlmMt)) - #594 * EPow P3 (EVar vlmMst1) + #1674 * EPow P3 (EVar vlmMst2)) + EVar vDmglst1 * (#24721 + #76707
   * EVar vlmMst2 + #1620 * EVar vlmMsq * (- #7 + #6 * EVar vlmMst1 - #6 * EVar vlmMst2) * (#1 + #2 * EVar vlmMst2 -
   #2 * EVar vlmMt) - #18 * (#838 + #525 * EVar vlmMst2 - #1182 * EVar vlmMt) * EPow P2 (EVar vlmMst1) + #58824 * EPow
   P2 (EVar vlmMst2) - #36 * EVar vlmMt * (#939 + #1045 * EVar vlmMst2 + #129 * EPow P2 (EVar vlmMst2)) - #9 * EVar
   vlmMst1 * (#1119 - #1108 * EVar vlmMt + #12 * EVar vlmMst2 * (#53 + #154 * EVar vlmMt) + #138 * EPow P2 (EVar
   vlmMst2) - #864 * EPow P2 (EVar vlmMt)) - #2592 * (#2 + #3 * EVar vlmMst2) * EPow P2 (EVar vlmMt) - #4518 * EPow P3
   (EVar vlmMst1) + #15210 * EPow P3 (EVar vlmMst2))) / EPow P2 (EVar vMst2)) - #240 * (#18 * (#1 + #2 * EVar vlmMst2
   - #2 * EVar vlmMt) * (EVar vDmglst1 * (#11 - #15 * EVar vlmMst1 + #15 * EVar vlmMst2) + (#1 - #3 * EVar vlmMst1 +
   #3 * EVar vlmMst2) * EVar vMgl) * EPow P4 (EVar vMst1) + (EVar vDmglst1 + EVar vMgl) * (#67 + #12 * EVar vlmMst2 *
   (#2 - #3 * EVar vlmMt) - #66 * EVar vlmMt + #6 * EVar vlmMsq * (#7 + #6 * (EVar vlmMst2 + EVar vlmMt)) - #36 * EPow
   P2 (EVar vlmMsq)) * EPow P4 (EVar vMst2)) / (EPow P2 (EVar vMsq) * EPow P2 (EVar vMst2)) + (#4 * EPow P4 (EVar
   vMst1) * ((- #2 * EVar vMgl * (#20293 + #9 * (#3199 + #504 * EVar vlmMst2 - #852 * EVar vlmMt) * EPow P2 (EVar
   vlmMst1) - #1620 * EVar vlmMsq * (#7 + #3 * EVar vlmMst1 * (#5 + #2 * EVar vlmMst2 - #2 * EVar vlmMt) + #2 * EVar
   vlmMt + EVar vlmMst2 * (- #17 + #6 * EVar vlmMt) - #6 * EPow P2 (EVar vlmMst2)) - #41841 * EPow P2 (EVar vlmMst2) +
   #54 * EVar vlmMt * (#83 + #412 * EVar vlmMst2 + #82 * EPow P2 (EVar vlmMst2)) + #18 * EVar vlmMst1 * (#4094 + #533
   * EVar vlmMst2 - #1044 * EVar vlmMt + #180 * EVar vlmMst2 * EVar vlmMt + #42 * EPow P2 (EVar vlmMst2) - #144 * EPow
   P2 (EVar vlmMt)) + #18 * EVar vlmMst2 * (- #2903 + #144 * EPow P2 (EVar vlmMt)) + #1620 * EPow P3 (EVar vlmMst1) -
   #6912 * EPow P3 (EVar vlmMst2)) + #2 * EVar vDmglst1 * (#54037 + #273408 * EVar vlmMst2 - #9 * (#14497 + #3276 *
   EVar vlmMst2 - #4920 * EVar vlmMt) * EPow P2 (EVar vlmMst1) + #1620 * EVar vlmMsq * (#5 + #15 * EVar vlmMst1 * (#5
   + #2 * EVar vlmMst2 - #2 * EVar vlmMt) + #22 * EVar vlmMt + EVar vlmMst2 * (- #97 + #30 * EVar vlmMt) - #30 * EPow
   P2 (EVar vlmMst2)) + #207819 * EPow P2 (EVar vlmMst2) - #18 * EVar vlmMt * (#3201 + #5066 * EVar vlmMst2 + #900 *
   EPow P2 (EVar vlmMst2)) - #2592 * (#2 + #5 * EVar vlmMst2) * EPow P2 (EVar vlmMt) + #6 * EVar vlmMst1 * (- #41437 +
   #8286 * EVar vlmMt - #15 * EVar vlmMst2 * (#341 + #312 * EVar vlmMt) + #342 * EPow P2 (EVar vlmMst2) + #2160 * EPow
   P2 (EVar vlmMt)) - #5508 * EPow P3 (EVar vlmMst1) + #32940 * EPow P3 (EVar vlmMst2))) * EPow P4 (EVar vMsq) + #45 *
   (EVar vDmglst1 * (#736 + #105 * EVar vlmMst2 + #3 * (#53 + #60 * EVar vlmMst2) * EVar vlmMt + #4 * EVar vlmMsq * (-
   #10 + #66 * EVar vlmMst1 - #45 * EVar vlmMst2 + #21 * EVar vlmMt) - #8 * EVar vlmMst1 * (#28 + #33 * EVar vlmMt) -
   #84 * EPow P2 (EVar vlmMsq)) + EVar vMgl * (#200 + #3 * EVar vlmMt - #72 * EVar vlmMst1 * EVar vlmMt + #12 * EVar
   vlmMsq * (- #2 + #6 * EVar vlmMst1 - #3 * EVar vlmMst2 + #3 * EVar vlmMt) + #3 * EVar vlmMst2 * (#7 + #12 * EVar
   vlmMt) - #36 * EPow P2 (EVar vlmMsq))) * EPow P4 (EVar vMst2)) - #60 * (#2 * (#3 * EVar vDmglst1 + EVar vMgl) *
   (#112 - #12 * EVar vlmMsq + EVar vlmMst2 * (#51 - #36 * EVar vlmMt) - #39 * EVar vlmMt + #36 * EVar vlmMsq * (EVar
   vlmMst2 + EVar vlmMt) - #36 * EPow P2 (EVar vlmMsq)) * EPow P2 (EVar vMst1) + (EVar vDmglst1 + EVar vMgl) * (#169 -
   #48 * EVar vlmMsq + EVar vlmMst2 * (#87 - #36 * EVar vlmMt) - #39 * EVar vlmMt + #36 * EVar vlmMsq * (EVar vlmMst2
   + EVar vlmMt) - #36 * EPow P2 (EVar vlmMsq)) * EPow P2 (EVar vMst2)) * EPow P6 (EVar vMst2) - EPow P2 (EVar
   vMuSUSY) * (#3 * EVar vDmglst1 * (#2 * (EPow P2 (EVar vMst1) * (#13969 - #11880 * EConst CB4 + #108 * EConst CDN -
   #4320 * EVar vlmMsq + (- #16728 - #3240 * EVar vlmMsq * (#1 + EVar vlmMsq)) * EVar vlmMst1 + #2160 * EPow P2 (EVar
   vlmMsq) + #54 * (- #407 + #300 * EVar vlmMsq) * EPow P2 (EVar vlmMst1) + #12 * EVar vlmMst2 * (#4094 + #2205 * EVar
   vlmMst1 - #90 * EVar vlmMsq * (#1 + #24 * EVar vlmMst1) + #270 * EPow P2 (EVar vlmMsq) + #804 * EPow P2 (EVar
   vlmMst1)) + #18 * (#583 + #540 * EVar vlmMsq + #680 * EVar vlmMst1) * EPow P2 (EVar vlmMst2) - #16848 * EPow P3
   (EVar vlmMst1) - #5040 * EPow P3 (EVar vlmMst2)) + #3 * EPow P2 (EVar vMst2) * (#11337 - #408 * EConst CB4 - #12 *
   EConst CDN - #6480 * EVar vlmMsq + #720 * EPow P2 (EVar vlmMsq) - #30 * EVar vlmMst1 * (- #73 - #36 * EVar vlmMsq +
   #12 * EPow P2 (EVar vlmMsq)) + #6 * EVar vlmMst2 * (#2331 - #420 * EVar vlmMsq - #118 * EVar vlmMst1 + #60 * EPow
   P2 (EVar vlmMsq) - #60 * EPow P2 (EVar vlmMst1)) + #18 * (- #13 + #20 * EVar vlmMsq) * EPow P2 (EVar vlmMst1) - #6
   * (- #797 + #60 * EVar vlmMsq + #4 * EVar vlmMst1) * EPow P2 (EVar vlmMst2) - #200 * EPow P3 (EVar vlmMst1) + #584
   * EPow P3 (EVar vlmMst2))) * EPow P4 (EVar vMsq) - #720 * EPow P2 (EVar vMsq) * (#2 * (#41 - #10 * EVar vlmMst1 +
   #6 * EVar vlmMsq * (- #2 + EVar vlmMst1 - EVar vlmMst2) + #22 * EVar vlmMst2 - #3 * EPow P2 (EVar vlmMst1) + #3 *
   EPow P2 (EVar vlmMst2)) * EPow P2 (EVar vMst1) * EPow P2 (EVar vMst2) + #2 * (#29 + #48 * EVar vlmMst2 - #24 * EPow
   P2 (EVar vlmMst1) - #6 * (EVar vlmMst1 * (#6 - #5 * EVar vlmMst2) + EVar vlmMsq * (#2 - #3 * EVar vlmMst1 + #3 *
   EVar vlmMst2) + EPow P2 (EVar vlmMst2))) * EPow P4 (EVar vMst1) - EPow P4 (EVar vMst2)) - #5 * EPow P2 (EVar vMst2)
   * ((- #251 + #12 * EVar vlmMsq - #12 * EVar vlmMst2) * EPow P2 (EVar vMst1) * EPow P2 (EVar vMst2) + #6 * (#818 -
   #117 * EVar vlmMst1 + #180 * EVar vlmMsq * (- #2 + EVar vlmMst1 - EVar vlmMst2) + #477 * EVar vlmMst2 - #90 * EPow
   P2 (EVar vlmMst1) + #90 * EPow P2 (EVar vlmMst2)) * EPow P4 (EVar vMst1) + (#11 - #12 * EVar vlmMsq + #12 * EVar
   vlmMst2) * EPow P4 (EVar vMst2))) + EVar vMgl * (#2 * (#9 * EPow P2 (EVar vMst2) * (#13317 - #408 * EConst CB4 -
   #12 * EConst CDN - #4320 * EVar vlmMsq + #720 * EPow P2 (EVar vlmMsq) - #6 * EVar vlmMst1 * (#79 - #180 * EVar
   vlmMsq + #60 * EPow P2 (EVar vlmMsq)) + #6 * EVar vlmMst2 * (#2135 - #420 * EVar vlmMsq - #118 * EVar vlmMst1 + #60
   * EPow P2 (EVar vlmMsq) - #60 * EPow P2 (EVar vlmMst1)) + #6 * (- #167 + #60 * EVar vlmMsq) * EPow P2 (EVar
   vlmMst1) - #6 * (- #797 + #60 * EVar vlmMsq + #4 * EVar vlmMst1) * EPow P2 (EVar vlmMst2) - #200 * EPow P3 (EVar
   vlmMst1) + #584 * EPow P3 (EVar vlmMst2)) + EPow P2 (EVar vMst1) * (#107299 - #19224 * EConst CB4 - #108 * EConst
   CDN - #32400 * EVar vlmMsq + #6480 * EPow P2 (EVar vlmMsq) - #24 * EVar vlmMst1 * (#6103 - #1755 * EVar vlmMsq +
   #405 * EPow P2 (EVar vlmMsq)) + #18 * (- #4379 + #1260 * EVar vlmMsq) * EPow P2 (EVar vlmMst1) + #12 * EVar vlmMst2
   * (#20882 + #699 * EVar vlmMst1 - #270 * EVar vlmMsq * (#17 + #8 * EVar vlmMst1) + #810 * EPow P2 (EVar vlmMsq) +
   #54 * EPow P2 (EVar vlmMst1)) + #18 * (#5641 + #180 * EVar vlmMsq + #540 * EVar vlmMst1) * EPow P2 (EVar vlmMst2) -
   #18072 * EPow P3 (EVar vlmMst1) + #7704 * EPow P3 (EVar vlmMst2))) * EPow P4 (EVar vMsq) - #720 * EPow P2 (EVar
   vMsq) * (#2 * (#34 - #8 * EVar vlmMst1 + #6 * EVar vlmMsq * (- #2 + EVar vlmMst1 - EVar vlmMst2) + #20 * EVar
   vlmMst2 - #3 * EPow P2 (EVar vlmMst1) + #3 * EPow P2 (EVar vlmMst2)) * EPow P2 (EVar vMst1) * EPow P2 (EVar vMst2)
   + #4 * (#14 - #21 * EVar vlmMst1 + EVar vlmMsq * (- #6 + #9 * EVar vlmMst1 - #9 * EVar vlmMst2) + #27 * EVar
   vlmMst2 + #9 * EVar vlmMst1 * EVar vlmMst2 - #9 * EPow P2 (EVar vlmMst1)) * EPow P4 (EVar vMst1) - #3 * EPow P4
   (EVar vMst2)) - #15 * (#6 * (#134 - #9 * EVar vlmMst1 + #36 * EVar vlmMsq * (- #2 + EVar vlmMst1 - EVar vlmMst2) +
   #81 * EVar vlmMst2 - #18 * EPow P2 (EVar vlmMst1) + #18 * EPow P2 (EVar vlmMst2)) * EPow P2 (EVar vMst2) * EPow P4
   (EVar vMst1) + (- #107 + #12 * EVar vlmMsq - #12 * EVar vlmMst2) * EPow P2 (EVar vMst1) * EPow P4 (EVar vMst2) +
   (#11 - #12 * EVar vlmMsq + #12 * EVar vlmMst2) * EPow P6 (EVar vMst2))))) / (EPow P4 (EVar vMsq) * EPow P4 (EVar
   vMst2))) / EVar vMgl) / #3888 + EPow P2 (EVar vMt) * (EPow P2 (EVar vs2t) * (EPow P2 (EVar vMst1) * (EDec
   2684533251028807 13 - #8 * EConst CDN / #9 - #100 * EVar vlmMsq / #3 + #20 * EPow P2 (EVar vlmMsq) - #2 * EVar
   vlmMst1 * (#4703 + #500 * EVar vlmMsq + #375 * EPow P2 (EVar vlmMsq)) / #225 + #2 * EVar vlmMst2 * (#33703 + #1745
   * EVar vlmMst1 - #250 * EVar vlmMsq * (#16 + #3 * EVar vlmMst1) + #375 * EPow P2 (EVar vlmMsq) - #1025 * EPow P2
   (EVar vlmMst1)) / #225 + (- #273 + #100 * EVar vlmMsq) * EPow P2 (EVar vlmMst1) / #15 + (#4601 + #1770 * EVar
   vlmMst1) * EPow P2 (EVar vlmMst2) / #45 + #32 * EVar vlmMt * EPow P2 (#1 - EVar vlmMst1 + EVar vlmMst2) / #3 - #64
   * EPow P3 (EVar vlmMst1) / #3 + EVar vDmglst1 * (#156781 - #864 * EConst CB4 - #432 * EConst CDN - #10260 * EVar
   vlmMsq - #30 * (#95 + #324 * EVar vlmMsq) * EVar vlmMst1 + #9720 * EPow P2 (EVar vlmMsq) + #7524 * EPow P2 (EVar
   vlmMst1) + #6 * EVar vlmMst2 * (#21991 - #1620 * EVar vlmMsq + #372 * EVar vlmMst1 + #432 * EPow P2 (EVar vlmMst1))
   + #36 * (#1025 + #168 * EVar vlmMst1) * EPow P2 (EVar vlmMst2) + #5184 * EVar vlmMt * (#2 + #3 * EVar vlmMst2 -
   EVar vlmMst1 * (#3 + #2 * EVar vlmMst2) + EPow P2 (EVar vlmMst1) + EPow P2 (EVar vlmMst2)) - #7200 * EPow P3 (EVar
   vlmMst1) - #1440 * EPow P3 (EVar vlmMst2)) / (#243 * EVar vMgl) - #80 * EPow P3 (EVar vlmMst2) / #9) - (#2 * (#750
   * EVar vDmglst1 * (#131 - #120 * EVar vlmMsq + #78 * EVar vlmMst1 + #42 * EVar vlmMst2) + EVar vMgl * (#22642 + #15
   * EVar vlmMsq * (- #1282 + #195 * EVar vlmMst1 - #75 * EVar vlmMst2) + #7500 * EVar vlmMst2 + #15 * EVar vlmMst1 *
   (#782 + #75 * EVar vlmMst2) - #900 * EPow P2 (EVar vlmMsq) - #2025 * EPow P2 (EVar vlmMst1))) / (#2025 * EVar vMgl
   * EPow P2 (EVar vMsq)) + (EDec 23825271580142933 14 - #50 * EVar vlmMsq / #3 + (EDec 5431291609977325 13 - #100 *
   EVar vlmMsq / #3) * EVar vlmMst1 + #10 * EPow P2 (EVar vlmMsq) + #266299 * EPow P2 (EVar vlmMst1) / #945 + EVar
   vlmMst2 * (- #14193447 + #441000 * EVar vlmMsq - #9820930 * EVar vlmMst1 + #455700 * EPow P2 (EVar vlmMst1)) /
   #33075 + (EDec 4890899470899471 14 - #700 * EVar vlmMst1 / #9) * EPow P2 (EVar vlmMst2) - #64 * EVar vlmMt * (-
   EVar vlmMst1 + EVar vlmMst2 - #2 * EVar vlmMst1 * EVar vlmMst2 + EPow P2 (EVar vlmMst1) + EPow P2 (EVar vlmMst2)) /
   #3 + #836 * EPow P3 (EVar vlmMst1) / #27 + #892 * EPow P3 (EVar vlmMst2) / #27 + EVar vDmglst1 * (#63295 - #222366
   * EVar vlmMst2 + #1620 * EVar vlmMsq * (#9 - #20 * EVar vlmMst1 + #14 * EVar vlmMst2) + #4860 * EPow P2 (EVar
   vlmMsq) - #144 * (- #1355 + #39 * EVar vlmMst2 + #144 * EVar vlmMt) * EPow P2 (EVar vlmMst1) + #6 * EVar vlmMst1 *
   (#42083 + #6048 * EVar vlmMt + #48 * EVar vlmMst2 * (- #953 + #144 * EVar vlmMt) - #9432 * EPow P2 (EVar vlmMst2))
   + #97488 * EPow P2 (EVar vlmMst2) - #5184 * EVar vlmMt * (#2 + #7 * EVar vlmMst2 + #4 * EPow P2 (EVar vlmMst2)) +
   #29520 * EPow P3 (EVar vlmMst1) + #32688 * EPow P3 (EVar vlmMst2)) / (#243 * EVar vMgl)) / EPow P2 (EVar vMst2)) *
   EPow P4 (EVar vMst1) + EPow P2 (EVar vMst2) * (#51450 * EVar vDmglst1 * (#120 * (#7 - #20 * EVar vlmMsq + #26 *
   EVar vlmMst1 - #6 * EVar vlmMst2) * EPow P2 (EVar vMsq) * EPow P2 (EVar vMst1) + #4 * (#158 + #60 * EVar vlmMsq *
   (- #4 + #9 * EVar vlmMst1) + EVar vlmMst1 * (#70 - #138 * EVar vlmMst2) + #96 * EVar vlmMst2 - #270 * EPow P2 (EVar
   vlmMsq) - #459 * EPow P2 (EVar vlmMst1) - #27 * EPow P2 (EVar vlmMst2)) * EPow P4 (EVar vMsq) + #5 * (#17 - #324 *
   EVar vlmMsq + #408 * EVar vlmMst1 - #84 * EVar vlmMst2) * EPow P4 (EVar vMst1)) - EVar vMgl * (#2744 * (#3091 +
   #10020 * EVar vlmMst2 + #30 * EVar vlmMst1 * (- #491 + #150 * EVar vlmMst2) + #30 * EVar vlmMsq * (#157 - #60 *
   (EVar vlmMst1 + EVar vlmMst2)) + #1800 * EPow P2 (EVar vlmMsq) - #1350 * EPow P2 (EVar vlmMst1) - #1350 * EPow P2
   (EVar vlmMst2)) * EPow P2 (EVar vMsq) * EPow P2 (EVar vMst1) + #8575 * (#4501 - #288 * EConst CDN - #10896 * EVar
   vlmMst1 + #1080 * (#3 - EVar vlmMst1 + EVar vlmMst2) * EPow P2 (EVar vlmMsq) + #2952 * EPow P2 (EVar vlmMst1) - #24
   * EVar vlmMst2 * (- #733 + #336 * EVar vlmMst1 + #36 * EPow P2 (EVar vlmMst1)) - #72 * (- #191 + #44 * EVar
   vlmMst1) * EPow P2 (EVar vlmMst2) - #360 * EVar vlmMsq * (#3 + EVar vlmMst1 * (#4 - #6 * EVar vlmMst2) + #14 * EVar
   vlmMst2 + #6 * EPow P2 (EVar vlmMst2)) - #696 * EPow P3 (EVar vlmMst1) + #4728 * EPow P3 (EVar vlmMst2)) * EPow P4
   (EVar vMsq) - #60 * (#130598 + EVar vlmMst1 * (#423822 - #46305 * EVar vlmMst2) - #105 * EVar vlmMsq * (#2929 +
   #231 * EVar vlmMst1 - #441 * EVar vlmMst2) - #116277 * EVar vlmMst2 - #11025 * EPow P2 (EVar vlmMsq) + #35280 *
   EPow P2 (EVar vlmMst1)) * EPow P4 (EVar vMst1))) / (#2778300 * EVar vMgl * EPow P4 (EVar vMsq)) + (#2 * (#5108 +
   #15 * EVar vlmMsq * (- #218 + #75 * EVar vlmMst1 - #195 * EVar vlmMst2) + #6270 * EVar vlmMst2 - #375 * EVar
   vlmMst1 * (#8 + #3 * EVar vlmMst2) + #900 * EPow P2 (EVar vlmMsq) + #2025 * EPow P2 (EVar vlmMst2)) / (#2025 * EPow
   P2 (EVar vMsq)) + #2 * (- #1 + #2 * EVar vlmMst2) / (#3 * EPow P2 (EVar vMst1)) - (EDec 23647986178598424 16 - #991
   * EVar vlmMsq / #441 + (EDec 14 1 - EVar vlmMsq) * EVar vlmMst1 + (EDec 8471655328798186 16 + #11 * EVar vlmMsq /
   #21 + EVar vlmMst1) * EVar vlmMst2 + #5 * EVar vDmglst1 * (#13 - #12 * EVar vlmMsq + #12 * EVar vlmMst2) / (#18 *
   EVar vMgl) + #5 * EPow P2 (EVar vlmMsq) / #21 - #16 * EPow P2 (EVar vlmMst2) / #21) * EPow P2 (EVar vMst1) / EPow
   P4 (EVar vMsq)) * EPow P4 (EVar vMst2) + (#2 * ((#8 * EConst COepS2 - #27 * (#37 + #6 * EVar vlmMst1 - #6 * EVar
   vlmMst2) * EConst CS2) * EPow P2 (EVar vMst2) + (- #1480 * EConst COepS2 + #27 * (#2069 + #1110 * EVar vlmMst1 -
   #1110 * EVar vlmMst2) * EConst CS2) * EPow P2 (EVar vMuSUSY)) * EPow P4 (EVar vMst1) - #27 * ((#8 * EConst COepS2 -
   #81 * (#1 + #2 * EVar vlmMst1 - #2 * EVar vlmMst2) * EConst CS2) * EPow P2 (EVar vMst2) + (#8 * EConst COepS2 + #81
   * (#11 - #2 * EVar vlmMst1 + #2 * EVar vlmMst2) * EConst CS2) * EPow P2 (EVar vMuSUSY)) * EPow P4 (EVar vMst2) - #3
   * EPow P2 (EVar vMst1) * (#4 * (#136 * EConst COepS2 - #81 * (#49 + #34 * EVar vlmMst1 - #34 * EVar vlmMst2) *
   EConst CS2) * EPow P2 (EVar vMst2) * EPow P2 (EVar vMuSUSY) + (#40 * EConst COepS2 - #81 * (#61 + #10 * EVar
   vlmMst1 - #10 * EVar vlmMst2) * EConst CS2) * EPow P4 (EVar vMst2))) / (#729 * EPow P4 (EVar vMst2)) - EPow P2
   (EVar vMuSUSY) * (EDec 8361265432098766 14 + #4 * EConst CB4 - #4 * EConst CDN / #9 - #185 * EVar vlmMsq / #9 + #25
   * EPow P2 (EVar vlmMsq) / #3 - EVar vlmMst1 * (#3781 - #300 * EVar vlmMsq + #180 * EPow P2 (EVar vlmMsq)) / #108 +
   EVar vlmMst2 * (#14065 - #3498 * EVar vlmMst1 + #60 * EVar vlmMsq * (- #35 + #12 * EVar vlmMst1) + #180 * EPow P2
   (EVar vlmMsq) - #18 * EPow P2 (EVar vlmMst1)) / #108 + (EDec 6361111111111111 15 - #5 * EVar vlmMsq / #3) * EPow P2
   (EVar vlmMst1) - (- #2193 + #180 * EVar vlmMsq + #442 * EVar vlmMst1) * EPow P2 (EVar vlmMst2) / #36 + (EVar
   vDmglst1 * (#7 - #60 * EVar vlmMsq * (- #5 + #6 * EVar vlmMst1) - #226 * EVar vlmMst2 + EVar vlmMst1 * (- #2 + #220
   * EVar vlmMst2) + #180 * EPow P2 (EVar vlmMsq) + #178 * EPow P2 (EVar vlmMst1) + #18 * EPow P2 (EVar vlmMst2)) /
   #18 + (EVar vMgl * (#836 + #143 * EVar vlmMst1 + (- #353 + #750 * EVar vlmMst1) * EVar vlmMst2 + #30 * EVar vlmMsq
   * (#7 - #4 * EVar vlmMst1 + #4 * EVar vlmMst2) - #315 * EPow P2 (EVar vlmMst1) - #435 * EPow P2 (EVar vlmMst2)) +
   #50 * EVar vDmglst1 * (#82 - #93 * EVar vlmMst1 + #6 * EVar vlmMsq * (#4 + #3 * EVar vlmMst1 - #3 * EVar vlmMst2) +
   #69 * EVar vlmMst2 - #9 * EPow P2 (EVar vlmMst1) + #9 * EPow P2 (EVar vlmMst2))) * EPow P2 (EVar vMst1) / (#135 *
   EPow P2 (EVar vMsq))) / EVar vMgl + (#1 - #2 * EVar vlmMst2) * EPow P2 (EVar vMst2) / (#3 * EPow P2 (EVar vMst1)) +
   #11 * EPow P3 (EVar vlmMst1) / #18 + #71 * EPow P3 (EVar vlmMst2) / #6 - EPow P2 (EVar vMst1) * (EDec
   26575942386831276 15 - #76 * EConst CB4 / #9 + #2 * EConst CDN / #9 + #35 * EVar vlmMsq / #3 - #5 * EPow P2 (EVar
   vlmMsq) + EVar vlmMst1 * (EDec 2242274074074074 13 - #380 * EVar vlmMsq / #9 + #40 * EPow P2 (EVar vlmMsq) / #3) -
   #149 * EPow P2 (EVar vlmMst1) / #90 - EVar vlmMst2 * (#372457 - #242670 * EVar vlmMst1 + #1500 * EVar vlmMsq * (-
   #47 + #24 * EVar vlmMst1) + #18000 * EPow P2 (EVar vlmMsq) + #17700 * EPow P2 (EVar vlmMst1)) / #1350 + (- #17709 +
   #2400 * EVar vlmMsq + #6940 * EVar vlmMst1) * EPow P2 (EVar vlmMst2) / #90 + #8 * EPow P3 (EVar vlmMst1) / #27 -
   #1736 * EPow P3 (EVar vlmMst2) / #27 - #2 * EVar vDmglst1 * (#586 + #36 * EConst CB4 + #30 * EConst CDN - #495 *
   EVar vlmMsq + #135 * EPow P2 (EVar vlmMsq) - #6 * EVar vlmMst1 * (- #73 - #45 * EVar vlmMsq + #45 * EPow P2 (EVar
   vlmMsq)) + #3 * EVar vlmMst2 * (#229 - #180 * EVar vlmMsq + #86 * EVar vlmMst1 + #90 * EPow P2 (EVar vlmMsq) - #79
   * EPow P2 (EVar vlmMst1)) + #18 * (- #43 + #15 * EVar vlmMsq) * EPow P2 (EVar vlmMst1) - #3 * (- #372 + #90 * EVar
   vlmMsq + #49 * EVar vlmMst1) * EPow P2 (EVar vlmMst2) - #65 * EPow P3 (EVar vlmMst1) + #449 * EPow P3 (EVar
   vlmMst2)) / (#27 * EVar vMgl)) / EPow P2 (EVar vMst2) + EPow P4 (EVar vMst1) * ((#514500 * EVar vDmglst1 * (#485 -
   #346 * EVar vlmMst1 + #12 * EVar vlmMsq * (#1 + #10 * EVar vlmMst1 - #10 * EVar vlmMst2) + #334 * EVar vlmMst2 -
   #60 * EPow P2 (EVar vlmMst1) + #60 * EPow P2 (EVar vlmMst2)) - EVar vMgl * (- #41220947 + #420 * EVar vlmMsq *
   (#12479 + #4830 * EVar vlmMst1 - #5670 * EVar vlmMst2) + #1081710 * EVar vlmMst2 - #210 * EVar vlmMst1 * (#30109 +
   #123480 * EVar vlmMst2) + #176400 * EPow P2 (EVar vlmMsq) + #11951100 * EPow P2 (EVar vlmMst1) + #14156100 * EPow
   P2 (EVar vlmMst2))) / (#11113200 * EVar vMgl * EPow P4 (EVar vMsq)) - (EDec 2656519022158834 13 - #76 * EConst CB4
   / #9 + #2 * EConst CDN / #9 - #25 * EVar vlmMsq / #2 + EVar vlmMst1 * (EDec 42637458616780043 14 - #605 * EVar
   vlmMsq / #9 + #40 * EPow P2 (EVar vlmMsq) / #3) - (EDec 6624060846560846 14 - #40 * EVar vlmMsq / #3) * EPow P2
   (EVar vlmMst1) - EVar vlmMst2 * (EDec 4117079195011338 13 - #1386139 * EVar vlmMst1 / #3780 + #5 * EVar vlmMsq * (-
   #121 + #96 * EVar vlmMst1) / #9 + #40 * EPow P2 (EVar vlmMsq) / #3 + #298 * EPow P2 (EVar vlmMst1) / #3) - (EDec
   2986850529100529 13 - #40 * EVar vlmMsq - #2174 * EVar vlmMst1 / #9) * EPow P2 (EVar vlmMst2) + #80 * EPow P3 (EVar
   vlmMst1) / #27 + EVar vDmglst1 * (EDec 11249099794238683 14 - #8 * EConst CB4 / #3 - #20 * EConst CDN / #9 + EVar
   vlmMst1 * (EDec 25424382716049382 14 - #120 * EVar vlmMsq + #20 * EPow P2 (EVar vlmMsq)) + (EDec 12957407407407408
   14 - #20 * EVar vlmMsq) * EPow P2 (EVar vlmMst1) - EVar vlmMst2 * (EDec 21157716049382717 14 - #120 * EVar vlmMsq -
   #1439 * EVar vlmMst1 / #27 + #20 * EPow P2 (EVar vlmMsq) + #338 * EPow P2 (EVar vlmMst1) / #9) + (- #9491 + #1080 *
   EVar vlmMsq + #6636 * EVar vlmMst1) * EPow P2 (EVar vlmMst2) / #54 + #38 * EPow P3 (EVar vlmMst1) / #9 - #806 *
   EPow P3 (EVar vlmMst2) / #9) / EVar vMgl - #3920 * EPow P3 (EVar vlmMst2) / #27) / EPow P4 (EVar vMst2)) - ((EDec
   17499706655148832 16 + EVar vlmMsq * (- EDec 990854119425548 15 + #8 * EVar vlmMst1 / #9 - #52 * EVar vlmMst2 /
   #63) + #10511 * EVar vlmMst2 / #4410 - #4 * EVar vlmMst1 * (#47 + #30 * EVar vlmMst2) / #135 + #5 * EVar vDmglst1 /
   (#6 * EVar vMgl) - #2 * EPow P2 (EVar vlmMsq) / #63 + #6 * EPow P2 (EVar vlmMst2) / #7) * EPow P2 (EVar vMst1) *
   EPow P2 (EVar vMst2) + (EDec 6658120973257028 16 + EVar vlmMsq * (- EDec 36171579743008314 17 + EVar vlmMst1 / #9 -
   EVar vlmMst2 / #7) + #15647 * EVar vlmMst2 / #26460 - EVar vlmMst1 * (#31 + #15 * EVar vlmMst2) / #135 + EPow P2
   (EVar vlmMsq) / #63 + #8 * EPow P2 (EVar vlmMst2) / #63) * EPow P4 (EVar vMst2)) / EPow P4 (EVar vMsq) - (#100 *
   EVar vDmglst1 * (#55 + EVar vlmMst1 + #6 * EVar vlmMsq * (- #5 + #7 * EVar vlmMst1 - #7 * EVar vlmMst2) + #29 *
   EVar vlmMst2 - #21 * EPow P2 (EVar vlmMst1) + #21 * EPow P2 (EVar vlmMst2)) * EPow P4 (EVar vMst1) + EVar vMgl *
   ((#1525 + #30 * EVar vlmMsq * (- #25 + #44 * EVar vlmMst1 - #44 * EVar vlmMst2) + #1928 * EVar vlmMst2 - #2 * EVar
   vlmMst1 * (#589 + #900 * EVar vlmMst2) + #240 * EPow P2 (EVar vlmMst1) + #1560 * EPow P2 (EVar vlmMst2)) * EPow P4
   (EVar vMst1) + (#939 + #30 * EVar vlmMsq * (- #12 + #5 * EVar vlmMst1 - #5 * EVar vlmMst2) + #760 * EVar vlmMst2 -
   #50 * EVar vlmMst1 * (#8 + #3 * EVar vlmMst2) + #150 * EPow P2 (EVar vlmMst2)) * EPow P4 (EVar vMst2))) / (#135 *
   EVar vMgl * EPow P2 (EVar vMsq) * EPow P2 (EVar vMst2)))) + EPow P2 (EVar vMuSUSY) * (EPow P2 (EVar vs2t) * (EDec
   8361265432098766 14 + #4 * EConst CB4 - #4 * EConst CDN / #9 - #185 * EVar vlmMsq / #9 + #25 * EPow P2 (EVar
   vlmMsq) / #3 - EVar vlmMst1 * (#3781 - #300 * EVar vlmMsq + #180 * EPow P2 (EVar vlmMsq)) / #108 + EVar vlmMst2 *
   (#14065 - #3498 * EVar vlmMst1 + #60 * EVar vlmMsq * (- #35 + #12 * EVar vlmMst1) + #180 * EPow P2 (EVar vlmMsq) -
   #18 * EPow P2 (EVar vlmMst1)) / #108 + (#229 - #60 * EVar vlmMsq) * EPow P2 (EVar vlmMst1) / #36 - (- #2193 + #180
   * EVar vlmMsq + #442 * EVar vlmMst1) * EPow P2 (EVar vlmMst2) / #36 + (EVar vDmglst1 * (#7 - #60 * EVar vlmMsq * (-
   #5 + #6 * EVar vlmMst1) - #226 * EVar vlmMst2 + EVar vlmMst1 * (- #2 + #220 * EVar vlmMst2) + #180 * EPow P2 (EVar
   vlmMsq) + #178 * EPow P2 (EVar vlmMst1) + #18 * EPow P2 (EVar vlmMst2)) / #18 + (EVar vMgl * (#836 + #143 * EVar
   vlmMst1 + (- #353 + #750 * EVar vlmMst1) * EVar vlmMst2 + #30 * EVar vlmMsq * (#7 - #4 * EVar vlmMst1 + #4 * EVar
   vlmMst2) - #315 * EPow P2 (EVar vlmMst1) - #435 * EPow P2 (EVar vlmMst2)) + #50 * EVar vDmglst1 * (#82 - #93 * EVar
   vlmMst1 + #6 * EVar vlmMsq * (#4 + #3 * EVar vlmMst1 - #3 * EVar vlmMst2) + #69 * EVar vlmMst2 - #9 * EPow P2 (EVar
   vlmMst1) + #9 * EPow P2 (EVar vlmMst2))) * EPow P2 (EVar vMst1) / (#135 * EPow P2 (EVar vMsq))) / EVar vMgl + (#1 -
   #2 * EVar vlmMst2) * EPow P2 (EVar vMst2) / (#3 * EPow P2 (EVar vMst1)) + #11 * EPow P3 (EVar vlmMst1) / #18 + #71
   * EPow P3 (EVar vlmMst2) / #6 - EPow P2 (EVar vMst1) * (EDec 26575942386831276 15 - #76 * EConst CB4 / #9 + #2 *
   EConst CDN / #9 + #35 * EVar vlmMsq / #3 - #5 * EPow P2 (EVar vlmMsq) + EVar vlmMst1 * (EDec 2242274074074074 13 -
   #380 * EVar vlmMsq / #9 + #40 * EPow P2 (EVar vlmMsq) / #3) - #149 * EPow P2 (EVar vlmMst1) / #90 - EVar vlmMst2 *
   (#372457 - #242670 * EVar vlmMst1 + #1500 * EVar vlmMsq * (- #47 + #24 * EVar vlmMst1) + #18000 * EPow P2 (EVar
   vlmMsq) + #17700 * EPow P2 (EVar vlmMst1)) / #1350 + (- #17709 + #2400 * EVar vlmMsq + #6940 * EVar vlmMst1) * EPow
   P2 (EVar vlmMst2) / #90 + #8 * EPow P3 (EVar vlmMst1) / #27 - #1736 * EPow P3 (EVar vlmMst2) / #27 - #2 * EVar
   vDmglst1 * (#586 + #36 * EConst CB4 + #30 * EConst CDN - #495 * EVar vlmMsq + #135 * EPow P2 (EVar vlmMsq) - #6 *
   EVar vlmMst1 * (- #73 - #45 * EVar vlmMsq + #45 * EPow P2 (EVar vlmMsq)) + #3 * EVar vlmMst2 * (#229 - #180 * EVar
   vlmMsq + #86 * EVar vlmMst1 + #90 * EPow P2 (EVar vlmMsq) - #79 * EPow P2 (EVar vlmMst1)) + #18 * (- #43 + #15 *
   EVar vlmMsq) * EPow P2 (EVar vlmMst1) - #3 * (- #372 + #90 * EVar vlmMsq + #49 * EVar vlmMst1) * EPow P2 (EVar
   vlmMst2) - #65 * EPow P3 (EVar vlmMst1) + #449 * EPow P3 (EVar vlmMst2)) / (#27 * EVar vMgl)) / EPow P2 (EVar
   vMst2) + EPow P4 (EVar vMst1) * ((#514500 * EVar vDmglst1 * (#485 - #346 * EVar vlmMst1 + #12 * EVar vlmMsq * (#1 +
   #10 * EVar vlmMst1 - #10 * EVar vlmMst2) + #334 * EVar vlmMst2 - #60 * EPow P2 (EVar vlmMst1) + #60 * EPow P2 (EVar
   vlmMst2)) - EVar vMgl * (- #41220947 + #420 * EVar vlmMsq * (#12479 + #4830 * EVar vlmMst1 - #5670 * EVar vlmMst2)
   + #1081710 * EVar vlmMst2 - #210 * EVar vlmMst1 * (#30109 + #123480 * EVar vlmMst2) + #176400 * EPow P2 (EVar
   vlmMsq) + #11951100 * EPow P2 (EVar vlmMst1) + #14156100 * EPow P2 (EVar vlmMst2))) / (#11113200 * EVar vMgl * EPow
   P4 (EVar vMsq)) - (EDec 2656519022158834 13 - #76 * EConst CB4 / #9 + #2 * EConst CDN / #9 - #25 * EVar vlmMsq / #2
   + EVar vlmMst1 * (EDec 42637458616780043 14 - #605 * EVar vlmMsq / #9 + #40 * EPow P2 (EVar vlmMsq) / #3) - (EDec
   6624060846560846 14 - #40 * EVar vlmMsq / #3) * EPow P2 (EVar vlmMst1) - EVar vlmMst2 * (EDec 4117079195011338 13 -
   #1386139 * EVar vlmMst1 / #3780 + #5 * EVar vlmMsq * (- #121 + #96 * EVar vlmMst1) / #9 + #40 * EPow P2 (EVar
   vlmMsq) / #3 + #298 * EPow P2 (EVar vlmMst1) / #3) - (EDec 2986850529100529 13 - #40 * EVar vlmMsq - #2174 * EVar
   vlmMst1 / #9) * EPow P2 (EVar vlmMst2) + #80 * EPow P3 (EVar vlmMst1) / #27 + EVar vDmglst1 * (EDec
   11249099794238683 14 - #8 * EConst CB4 / #3 - #20 * EConst CDN / #9 + EVar vlmMst1 * (EDec 25424382716049382 14 -
   #120 * EVar vlmMsq + #20 * EPow P2 (EVar vlmMsq)) + (EDec 12957407407407408 14 - #20 * EVar vlmMsq) * EPow P2 (EVar
   vlmMst1) - EVar vlmMst2 * (EDec 21157716049382717 14 - #120 * EVar vlmMsq - #1439 * EVar vlmMst1 / #27 + #20 * EPow
   P2 (EVar vlmMsq) + #338 * EPow P2 (EVar vlmMst1) / #9) + (- #9491 + #1080 * EVar vlmMsq + #6636 * EVar vlmMst1) *
   EPow P2 (EVar vlmMst2) / #54 + #38 * EPow P3 (EVar vlmMst1) / #9 - #806 * EPow P3 (EVar vlmMst2) / #9) / EVar vMgl
   - #3920 * EPow P3 (EVar vlmMst2) / #27) / EPow P4 (EVar vMst2)) + EConst CS2 * (#81 * (#11 - #2 * EVar vlmMst1 + #2
   * EVar vlmMst2) - #36 * (#49 + #34 * EVar vlmMst1 - #34 * EVar vlmMst2) * EPow P2 (EVar vMst1) / EPow P2 (EVar
   vMst2) - #2 * (#2069 + #1110 * EVar vlmMst1 - #1110 * EVar vlmMst2) * EPow P4 (EVar vMst1) / EPow P4 (EVar vMst2))
   / #27 + #8 * EConst COepS2 * (#204 * EPow P2 (EVar vMst1) * EPow P2 (EVar vMst2) + #370 * EPow P4 (EVar vMst1) +
   #27 * EPow P4 (EVar vMst2)) / (#729 * EPow P4 (EVar vMst2)) - ((EDec 17499706655148832 16 + EVar vlmMsq * (- EDec
   990854119425548 15 + #8 * EVar vlmMst1 / #9 - #52 * EVar vlmMst2 / #63) + #10511 * EVar vlmMst2 / #4410 - #4 * EVar
   vlmMst1 * (#47 + #30 * EVar vlmMst2) / #135 + #5 * EVar vDmglst1 / (#6 * EVar vMgl) - #2 * EPow P2 (EVar vlmMsq) /
   #63 + #6 * EPow P2 (EVar vlmMst2) / #7) * EPow P2 (EVar vMst1) * EPow P2 (EVar vMst2) + (EDec 6658120973257028 16 +
   EVar vlmMsq * (- EDec 36171579743008314 17 + EVar vlmMst1 / #9 - EVar vlmMst2 / #7) + #15647 * EVar vlmMst2 /
   #26460 - EVar vlmMst1 * (#31 + #15 * EVar vlmMst2) / #135 + EPow P2 (EVar vlmMsq) / #63 + #8 * EPow P2 (EVar
   vlmMst2) / #63) * EPow P4 (EVar vMst2)) / EPow P4 (EVar vMsq) - (#100 * EVar vDmglst1 * (#55 + EVar vlmMst1 + #6 *
   EVar vlmMsq * (- #5 + #7 * EVar vlmMst1 - #7 * EVar vlmMst2) + #29 * EVar vlmMst2 - #21 * EPow P2 (EVar vlmMst1) +
   #21 * EPow P2 (EVar vlmMst2)) * EPow P4 (EVar vMst1) + EVar vMgl * ((#1525 + #30 * EVar vlmMsq * (- #25 + #44 *
   EVar vlmMst1 - #44 * EVar vlmMst2) + #1928 * EVar vlmMst2 - #2 * EVar vlmMst1 * (#589 + #900 * EVar vlmMst2) + #240
   * EPow P2 (EVar vlmMst1) + #1560 * EPow P2 (EVar vlmMst2)) * EPow P4 (EVar vMst1) + (#939 + #30 * EVar vlmMsq * (-
   #12 + #5 * EVar vlmMst1 - #5 * EVar vlmMst2) + #760 * EVar vlmMst2 - #50 * EVar vlmMst1 * (#8 + #3 * EVar vlmMst2)
   + #150 * EPow P2 (EVar vlmMst2)) * EPow P4 (EVar vMst2))) / (#135 * EVar vMgl * EPow P2 (EVar vMsq) * EPow P2 (EVar
   vMst2))) + EVar vMst1 * EVar vMt * (#144 * EVar vMst1 * EVar vMt * (#2 * EVar vDmglst1 * (#735 - #6 * EConst CB4 -
   #3 * EConst CDN - #78 * EVar vlmMst1 + #6 * EPow P2 (EVar vlmMst1) + #6 * EVar vlmMst2 * (#85 - #6 * EVar vlmMst1 +
   EPow P2 (EVar vlmMst1)) + #18 * (#7 + EVar vlmMst1) * EPow P2 (EVar vlmMst2) + #24 * EVar vlmMt * (#2 + #3 * EVar
   vlmMst2 - EVar vlmMst1 * (#3 + #2 * EVar vlmMst2) + EPow P2 (EVar vlmMst1) + EPow P2 (EVar vlmMst2)) - #26 * EPow
   P3 (EVar vlmMst1) + #2 * EPow P3 (EVar vlmMst2)) + EVar vMgl * (#417 - #6 * EConst CB4 - #3 * EConst CDN - #162 *
   EVar vlmMst1 + #6 * EVar vlmMst2 * (#87 - #8 * EVar vlmMst1 + EPow P2 (EVar vlmMst1)) + #18 * (#8 + EVar vlmMst1) *
   EPow P2 (EVar vlmMst2) + #24 * EVar vlmMt * EPow P2 (#1 - EVar vlmMst1 + EVar vlmMst2) - #26 * EPow P3 (EVar
   vlmMst1) + #2 * EPow P3 (EVar vlmMst2))) + EVar vs2t * (#3 * EVar vDmglst1 * (#2 * (EPow P2 (EVar vMst1) * (#13969
   - #11880 * EConst CB4 + #108 * EConst CDN - #4320 * EVar vlmMsq + (- #16728 - #3240 * EVar vlmMsq * (#1 + EVar
   vlmMsq)) * EVar vlmMst1 + #2160 * EPow P2 (EVar vlmMsq) + #54 * (- #407 + #300 * EVar vlmMsq) * EPow P2 (EVar
   vlmMst1) + #12 * EVar vlmMst2 * (#4094 + #2205 * EVar vlmMst1 - #90 * EVar vlmMsq * (#1 + #24 * EVar vlmMst1) +
   #270 * EPow P2 (EVar vlmMsq) + #804 * EPow P2 (EVar vlmMst1)) + #18 * (#583 + #540 * EVar vlmMsq + #680 * EVar
   vlmMst1) * EPow P2 (EVar vlmMst2) - #16848 * EPow P3 (EVar vlmMst1) - #5040 * EPow P3 (EVar vlmMst2)) + #3 * EPow
   P2 (EVar vMst2) * (#11337 - #408 * EConst CB4 - #12 * EConst CDN - #6480 * EVar vlmMsq + #720 * EPow P2 (EVar
   vlmMsq) - #30 * EVar vlmMst1 * (- #73 - #36 * EVar vlmMsq + #12 * EPow P2 (EVar vlmMsq)) + #6 * EVar vlmMst2 *
   (#2331 - #420 * EVar vlmMsq - #118 * EVar vlmMst1 + #60 * EPow P2 (EVar vlmMsq) - #60 * EPow P2 (EVar vlmMst1)) +
   #18 * (- #13 + #20 * EVar vlmMsq) * EPow P2 (EVar vlmMst1) - #6 * (- #797 + #60 * EVar vlmMsq + #4 * EVar vlmMst1)
   * EPow P2 (EVar vlmMst2) - #200 * EPow P3 (EVar vlmMst1) + #584 * EPow P3 (EVar vlmMst2))) * EPow P4 (EVar vMsq) -
   #720 * EPow P2 (EVar vMsq) * (#2 * (#41 - #10 * EVar vlmMst1 + #6 * EVar vlmMsq * (- #2 + EVar vlmMst1 - EVar
   vlmMst2) + #22 * EVar vlmMst2 - #3 * EPow P2 (EVar vlmMst1) + #3 * EPow P2 (EVar vlmMst2)) * EPow P2 (EVar vMst1) *
   EPow P2 (EVar vMst2) + #2 * (#29 + #48 * EVar vlmMst2 - #24 * EPow P2 (EVar vlmMst1) - #6 * (EVar vlmMst1 * (#6 -
   #5 * EVar vlmMst2) + EVar vlmMsq * (#2 - #3 * EVar vlmMst1 + #3 * EVar vlmMst2) + EPow P2 (EVar vlmMst2))) * EPow
   P4 (EVar vMst1) - EPow P4 (EVar vMst2)) - #5 * EPow P2 (EVar vMst2) * ((- #251 + #12 * EVar vlmMsq - #12 * EVar
   vlmMst2) * EPow P2 (EVar vMst1) * EPow P2 (EVar vMst2) + #6 * (#818 - #117 * EVar vlmMst1 + #180 * EVar vlmMsq * (-
   #2 + EVar vlmMst1 - EVar vlmMst2) + #477 * EVar vlmMst2 - #90 * EPow P2 (EVar vlmMst1) + #90 * EPow P2 (EVar
   vlmMst2)) * EPow P4 (EVar vMst1) + (#11 - #12 * EVar vlmMsq + #12 * EVar vlmMst2) * EPow P4 (EVar vMst2))) + EVar
   vMgl * (#2 * (#9 * EPow P2 (EVar vMst2) * (#13317 - #408 * EConst CB4 - #12 * EConst CDN - #4320 * EVar vlmMsq +
   #720 * EPow P2 (EVar vlmMsq) - #6 * EVar vlmMst1 * (#79 - #180 * EVar vlmMsq + #60 * EPow P2 (EVar vlmMsq)) + #6 *
   EVar vlmMst2 * (#2135 - #420 * EVar vlmMsq - #118 * EVar vlmMst1 + #60 * EPow P2 (EVar vlmMsq) - #60 * EPow P2
   (EVar vlmMst1)) + #6 * (- #167 + #60 * EVar vlmMsq) * EPow P2 (EVar vlmMst1) - #6 * (- #797 + #60 * EVar vlmMsq +
   #4 * EVar vlmMst1) * EPow P2 (EVar vlmMst2) - #200 * EPow P3 (EVar vlmMst1) + #584 * EPow P3 (EVar vlmMst2)) + EPow
   P2 (EVar vMst1) * (#107299 - #19224 * EConst CB4 - #108 * EConst CDN - #32400 * EVar vlmMsq + #6480 * EPow P2 (EVar
   vlmMsq) - #24 * EVar vlmMst1 * (#6103 - #1755 * EVar vlmMsq + #405 * EPow P2 (EVar vlmMsq)) + #18 * (- #4379 +
   #1260 * EVar vlmMsq) * EPow P2 (EVar vlmMst1) + #12 * EVar vlmMst2 * (#20882 + #699 * EVar vlmMst1 - #270 * EVar
   vlmMsq * (#17 + #8 * EVar vlmMst1) + #810 * EPow P2 (EVar vlmMsq) + #54 * EPow P2 (EVar vlmMst1)) + #18 * (#5641 +
   #180 * EVar vlmMsq + #540 * EVar vlmMst1) * EPow P2 (EVar vlmMst2) - #18072 * EPow P3 (EVar vlmMst1) + #7704 * EPow
   P3 (EVar vlmMst2))) * EPow P4 (EVar vMsq) - #720 * EPow P2 (EVar vMsq) * (#2 * (#34 - #8 * EVar vlmMst1 + #6 * EVar
   vlmMsq * (- #2 + EVar vlmMst1 - EVar vlmMst2) + #20 * EVar vlmMst2 - #3 * EPow P2 (EVar vlmMst1) + #3 * EPow P2
   (EVar vlmMst2)) * EPow P2 (EVar vMst1) * EPow P2 (EVar vMst2) + #4 * (#14 - #21 * EVar vlmMst1 + EVar vlmMsq * (-
   #6 + #9 * EVar vlmMst1 - #9 * EVar vlmMst2) + #27 * EVar vlmMst2 + #9 * EVar vlmMst1 * EVar vlmMst2 - #9 * EPow P2
   (EVar vlmMst1)) * EPow P4 (EVar vMst1) - #3 * EPow P4 (EVar vMst2)) - #15 * (#6 * (#134 - #9 * EVar vlmMst1 + #36 *
   EVar vlmMsq * (- #2 + EVar vlmMst1 - EVar vlmMst2) + #81 * EVar vlmMst2 - #18 * EPow P2 (EVar vlmMst1) + #18 * EPow
   P2 (EVar vlmMst2)) * EPow P2 (EVar vMst2) * EPow P4 (EVar vMst1) + (- #107 + #12 * EVar vlmMsq - #12 * EVar
   vlmMst2) * EPow P2 (EVar vMst1) * EPow P4 (EVar vMst2) + (#11 - #12 * EVar vlmMsq + #12 * EVar vlmMst2) * EPow P6
   (EVar vMst2)))) / EPow P4 (EVar vMsq)) / (#486 * EVar vMgl * EPow P4 (EVar vMst2))) / EPow P2 (EVar vSbeta)) +
   (EVar vMuSUSY * (EVar vs2t * EPow P3 (EVar vMt) * (EDec 29117283950617285 15 - #16 * EConst CDN / #9 - #20 * EVar
   vlmMsq / #3 + #20 * EPow P2 (EVar vlmMsq) - #4 * EVar vlmMst1 * (#454 + #60 * EVar vlmMsq + #45 * EPow P2 (EVar
   vlmMsq)) / #27 + #4 * EVar vlmMst2 * (#715 - #336 * EVar vlmMst1 + #30 * EVar vlmMsq * (- #7 + #3 * EVar vlmMst1) +
   #45 * EPow P2 (EVar vlmMsq) - #36 * EPow P2 (EVar vlmMst1)) / #27 + #164 * EPow P2 (EVar vlmMst1) / #9 - #4 * (-
   #191 + #30 * EVar vlmMsq + #44 * EVar vlmMst1) * EPow P2 (EVar vlmMst2) / #9 - #116 * EPow P3 (EVar vlmMst1) / #27
   + #788 * EPow P3 (EVar vlmMst2) / #27 + EPow P2 (EVar vMst2) * ((#4 - #8 * EVar vlmMst2) / (#3 * EPow P2 (EVar
   vMst1)) + (#1715 * (#30 * EVar vDmglst1 * (#13 - #12 * EVar vlmMsq + #12 * EVar vlmMst2) + EVar vMgl * (#195 - #60
   * EVar vlmMsq * (#3 + #2 * EVar vlmMst1 - #2 * EVar vlmMst2) + #4 * EVar vlmMst2 + #8 * EVar vlmMst1 * (#22 + #15 *
   EVar vlmMst2) - #120 * EPow P2 (EVar vlmMst2))) * EPow P2 (EVar vMst1) - EVar vMgl * (#103583 + #420 * EVar vlmMsq
   * (- #256 + #49 * EVar vlmMst1 - #259 * EVar vlmMst2) + #150052 * EVar vlmMst2 - #1372 * EVar vlmMst1 * (#31 + #15
   * EVar vlmMst2) + #44100 * EPow P2 (EVar vlmMsq) + #64680 * EPow P2 (EVar vlmMst2)) * EPow P2 (EVar vMst2)) /
   (#92610 * EVar vMgl * EPow P4 (EVar vMsq))) + EConst CS2 * (- #6 * (#1 + #2 * EVar vlmMst1 - #2 * EVar vlmMst2) -
   #28 * (#5 + #2 * EVar vlmMst1 - #2 * EVar vlmMst2) * EPow P2 (EVar vMst1) / (#3 * EPow P2 (EVar vMst2)) - #8 *
   (#139 + #60 * EVar vlmMst1 - #60 * EVar vlmMst2) * EPow P4 (EVar vMst1) / (#27 * EPow P4 (EVar vMst2))) + #16 *
   EConst COepS2 * (#42 * EPow P2 (EVar vMst1) * EPow P2 (EVar vMst2) + #40 * EPow P4 (EVar vMst1) + #27 * EPow P4
   (EVar vMst2)) / (#729 * EPow P4 (EVar vMst2)) + (#4 * EVar vDmglst1 * (- #158 - #60 * EVar vlmMsq * (- #4 + #9 *
   EVar vlmMst1) - #96 * EVar vlmMst2 + #2 * EVar vlmMst1 * (- #35 + #69 * EVar vlmMst2) + #270 * EPow P2 (EVar
   vlmMsq) + #459 * EPow P2 (EVar vlmMst1) + #27 * EPow P2 (EVar vlmMst2)) / #27 + #2 * EPow P2 (EVar vMst1) * (- #30
   * (#2250 * EVar vDmglst1 * (#7 - #20 * EVar vlmMsq + #26 * EVar vlmMst1 - #6 * EVar vlmMst2) + EVar vMgl * (#2017 +
   #15 * EVar vlmMst1 * (#782 - #375 * EVar vlmMst2) + #15 * EVar vlmMsq * (- #532 + #195 * EVar vlmMst1 - #75 * EVar
   vlmMst2) - #3750 * EVar vlmMst2 - #900 * EPow P2 (EVar vlmMsq) + #1350 * EPow P2 (EVar vlmMst1) + #3375 * EPow P2
   (EVar vlmMst2))) / EPow P2 (EVar vMsq) - (EVar vMgl * (#7874051 + #7815060 * EVar vlmMst2 + #303750 * EPow P2 (EVar
   vlmMsq) - #675 * (#989 + #290 * EVar vlmMst2 - #480 * EVar vlmMt) * EPow P2 (EVar vlmMst1) - #90 * EVar vlmMst1 *
   (#6359 - #10035 * EVar vlmMst2 + #7200 * (#1 + EVar vlmMst2) * EVar vlmMt - #16575 * EPow P2 (EVar vlmMst2)) +
   #1978425 * EPow P2 (EVar vlmMst2) - #101250 * EVar vlmMsq * (#9 + (#6 + #4 * EVar vlmMst1) * EVar vlmMst2 - #2 *
   (EPow P2 (EVar vlmMst1) + EPow P2 (EVar vlmMst2))) + #324000 * EVar vlmMt * EPow P2 (#1 + EVar vlmMst2) - #582750 *
   EPow P3 (EVar vlmMst1) - #713250 * EPow P3 (EVar vlmMst2)) + #125 * EVar vDmglst1 * (#164809 - #864 * EConst CB4 -
   #432 * EConst CDN - #14580 * EVar vlmMsq - #9366 * EVar vlmMst1 + #4860 * EPow P2 (EVar vlmMsq) - #6 * EVar vlmMst2
   * (- #23575 + #1620 * EVar vlmMsq + #906 * EVar vlmMst1 - #432 * EPow P2 (EVar vlmMst1)) + #1854 * EPow P2 (EVar
   vlmMst1) + #18 * (#2167 + #336 * EVar vlmMst1) * EPow P2 (EVar vlmMst2) + #5184 * EVar vlmMt * (#2 + #3 * EVar
   vlmMst2 - EVar vlmMst1 * (#3 + #2 * EVar vlmMst2) + EPow P2 (EVar vlmMst1) + EPow P2 (EVar vlmMst2)) - #7200 * EPow
   P3 (EVar vlmMst1) - #1440 * EPow P3 (EVar vlmMst2))) / EPow P2 (EVar vMst2)) / #30375 + #4 * (#375 * (#20 * EVar
   vDmglst1 * (#11 - #6 * EVar vlmMsq + #6 * EVar vlmMst2) + EVar vMgl * (#55 - #30 * EVar vlmMsq + #6 * (#5 + #3 *
   EVar vlmMst1) * EVar vlmMst2 - #9 * (EPow P2 (EVar vlmMst1) + EPow P2 (EVar vlmMst2)))) * EPow P4 (EVar vMst1) -
   EVar vMgl * (#5108 + #15 * EVar vlmMsq * (- #218 + #75 * EVar vlmMst1 - #195 * EVar vlmMst2) + #6270 * EVar vlmMst2
   - #375 * EVar vlmMst1 * (#8 + #3 * EVar vlmMst2) + #900 * EPow P2 (EVar vlmMsq) + #2025 * EPow P2 (EVar vlmMst2)) *
   EPow P4 (EVar vMst2)) / (#2025 * EPow P2 (EVar vMsq) * EPow P2 (EVar vMst2)) - EPow P4 (EVar vMst1) * (#1543500 *
   EVar vDmglst1 * (#2 * (#17783 - #144 * EConst CB4 - #72 * EConst CDN - #4860 * EVar vlmMsq + #12 * (- #3889 + #450
   * EVar vlmMsq) * EVar vlmMst1 - #30483 * EPow P2 (EVar vlmMst1) + #6 * EVar vlmMst2 * (#10610 - #900 * EVar vlmMsq
   + #6897 * EVar vlmMst1 + #228 * EPow P2 (EVar vlmMst1)) + #9 * (- #891 + #1160 * EVar vlmMst1) * EPow P2 (EVar
   vlmMst2) + #864 * EVar vlmMt * (#4 + #10 * EVar vlmMst2 - #10 * EVar vlmMst1 * (#1 + EVar vlmMst2) + #5 * EPow P2
   (EVar vlmMst1) + #5 * EPow P2 (EVar vlmMst2)) - #6120 * EPow P3 (EVar vlmMst1) - #5688 * EPow P3 (EVar vlmMst2)) *
   EPow P4 (EVar vMsq) - #15 * (#11 + #144 * EVar vlmMsq - #204 * EVar vlmMst1 + #60 * EVar vlmMst2) * EPow P4 (EVar
   vMst2)) + EVar vMgl * (#2 * (#1311202751 + #43575800310 * EVar vlmMst2 - #132300 * (#138494 + #9555 * EVar vlmMst2
   - #15120 * EVar vlmMt) * EPow P2 (EVar vlmMst1) - #1890 * EVar vlmMst1 * (#18939979 + #1411200 * EVar vlmMt + #280
   * EVar vlmMst2 * (- #36067 + #7560 * EVar vlmMt) - #4196850 * EPow P2 (EVar vlmMst2)) + #1681003800 * EPow P2 (EVar
   vlmMst2) + #416745000 * EVar vlmMsq * (- #2 + EVar vlmMst1 * (#5 - #2 * EVar vlmMst2) - #5 * EVar vlmMst2 + EPow P2
   (EVar vlmMst1) + EPow P2 (EVar vlmMst2)) + #666792000 * EVar vlmMt * (#1 + #4 * EVar vlmMst2 + #3 * EPow P2 (EVar
   vlmMst2)) - #3134848500 * EPow P3 (EVar vlmMst1) - #3533071500 * EPow P3 (EVar vlmMst2)) * EPow P4 (EVar vMsq) +
   #675 * (#187967 + #28 * EVar vlmMst1 * (#49766 - #13965 * EVar vlmMst2) + #420 * EVar vlmMsq * (- #2194 + #259 *
   EVar vlmMst1 - #49 * EVar vlmMst2) - #471968 * EVar vlmMst2 - #44100 * EPow P2 (EVar vlmMsq) + #141120 * EPow P2
   (EVar vlmMst1) + #205800 * EPow P2 (EVar vlmMst2)) * EPow P4 (EVar vMst2))) / (#62511750 * EPow P4 (EVar vMsq) *
   EPow P4 (EVar vMst2))) / EVar vMgl) + EVar vMst1 * (#3 * EVar vMgl * (#4 * (EPow P2 (EVar vMst1) * (#1747 - #1929 *
   EVar vlmMst2 + #18 * (- #29 + #39 * EVar vlmMst2 - #144 * EVar vlmMt) * EPow P2 (EVar vlmMst1) - #540 * EVar vlmMsq
   * (#7 + EVar vlmMst2 - EVar vlmMsq * EVar vlmMst2 + EVar vlmMst1 * (- #6 + EVar vlmMsq + #4 * EVar vlmMst2 - #6 *
   EVar vlmMt) + #5 * EVar vlmMt + #6 * EVar vlmMst2 * EVar vlmMt - #4 * EPow P2 (EVar vlmMst2)) - #5274 * EPow P2
   (EVar vlmMst2) + #18 * EVar vlmMt * (#327 + #570 * EVar vlmMst2 + #80 * EPow P2 (EVar vlmMst2)) + #3 * EVar vlmMst1
   * (#985 - #2268 * EVar vlmMt + #12 * EVar vlmMst2 * (#41 + #32 * EVar vlmMt) + #54 * EPow P2 (EVar vlmMst2) - #576
   * EPow P2 (EVar vlmMt)) + #864 * (#1 + #2 * EVar vlmMst2) * EPow P2 (EVar vlmMt) + #726 * EPow P3 (EVar vlmMst1) -
   #1590 * EPow P3 (EVar vlmMst2)) + #6 * EPow P2 (EVar vMst2) * (#212 + #225 * EVar vlmMst2 - #90 * EVar vlmMsq * (#7
   + #3 * EVar vlmMt + EVar vlmMst2 * (#3 - EVar vlmMsq + #2 * EVar vlmMt) + EVar vlmMst1 * (EVar vlmMsq - #2 * (#3 +
   EVar vlmMt))) - #6 * (#67 + #5 * EVar vlmMst2 + #14 * EVar vlmMt) * EPow P2 (EVar vlmMst1) + #102 * EPow P2 (EVar
   vlmMst2) + #3 * EVar vlmMt * (#265 + #202 * EVar vlmMst2 + #36 * EPow P2 (EVar vlmMst2)) + #144 * (#1 + EVar
   vlmMst2) * EPow P2 (EVar vlmMt) - #6 * EVar vlmMst1 * (- #54 + #37 * EVar vlmMt + EVar vlmMst2 * (#22 + #4 * EVar
   vlmMt) + EPow P2 (EVar vlmMst2) + #24 * EPow P2 (EVar vlmMt)) + #22 * EPow P3 (EVar vlmMst1) + #14 * EPow P3 (EVar
   vlmMst2))) * EPow P4 (EVar vMsq) + #5 * EPow P2 (EVar vMst2) * (#3 * (#223 - #12 * EVar vlmMsq + #18 * EVar vlmMst2
   * (#5 - #4 * EVar vlmMt) - #78 * EVar vlmMt + #72 * EVar vlmMsq * (EVar vlmMst2 + EVar vlmMt) - #72 * EPow P2 (EVar
   vlmMsq)) * EPow P2 (EVar vMst1) * EPow P2 (EVar vMst2) + #36 * (- #15 + EVar vlmMst2 + #12 * EVar vlmMsq * EVar
   vlmMst2 - #7 * EVar vlmMt - #12 * EVar vlmMst2 * EVar vlmMt + EVar vlmMst1 * (#6 - #12 * EVar vlmMsq + #12 * EVar
   vlmMt)) * EPow P4 (EVar vMst1) + (#299 - #60 * EVar vlmMsq + #6 * EVar vlmMst2 * (#23 - #12 * EVar vlmMt) - #78 *
   EVar vlmMt + #72 * EVar vlmMsq * (EVar vlmMst2 + EVar vlmMt) - #72 * EPow P2 (EVar vlmMsq)) * EPow P4 (EVar vMst2))
   - #80 * EPow P2 (EVar vMsq) * (#9 * (#11 + #6 * EVar vlmMst1 * (- #2 + EVar vlmMsq - EVar vlmMt) + #5 * EVar vlmMt
   + EVar vlmMst2 * (#7 - #6 * EVar vlmMsq + #6 * EVar vlmMt)) * EPow P2 (EVar vMst1) * EPow P2 (EVar vMst2) + #9 *
   (#11 + #6 * EVar vlmMst1 * (- #2 + EVar vlmMsq + EVar vlmMst2 - #2 * EVar vlmMt) + #7 * EVar vlmMt + EVar vlmMst2 *
   (#5 - #6 * EVar vlmMsq + #12 * EVar vlmMt) - #6 * EPow P2 (EVar vlmMst2)) * EPow P4 (EVar vMst1) + (- #17 + #33 *
   EVar vlmMt - #6 * EVar vlmMsq * (#5 + #3 * EVar vlmMst2 + #3 * EVar vlmMt) + #3 * EVar vlmMst2 * (- #1 + #6 * EVar
   vlmMt) + #18 * EPow P2 (EVar vlmMsq)) * EPow P4 (EVar vMst2))) - EVar vDmglst1 * (#4 * (#6 * EPow P2 (EVar vMst2) *
   (#1846 - #1057 * EVar vlmMst2 + #30 * EVar vlmMsq * (#151 + #51 * EVar vlmMt + #9 * EVar vlmMst2 * (#3 + #2 * EVar
   vlmMt) - #6 * EVar vlmMst1 * (#13 + #3 * EVar vlmMt)) + #270 * (EVar vlmMst1 - EVar vlmMst2) * EPow P2 (EVar
   vlmMsq) + #6 * (#352 + #15 * EVar vlmMst2 + #42 * EVar vlmMt) * EPow P2 (EVar vlmMst1) - #306 * EPow P2 (EVar
   vlmMst2) - #3 * EVar vlmMt * (#1105 + #608 * EVar vlmMst2 + #108 * EPow P2 (EVar vlmMst2)) - #432 * (#2 + EVar
   vlmMst2) * EPow P2 (EVar vlmMt) + #2 * EVar vlmMst1 * (- #2534 - #192 * EVar vlmMt + #3 * EVar vlmMst2 * (#67 + #12
   * EVar vlmMt) + #9 * EPow P2 (EVar vlmMst2) + #216 * EPow P2 (EVar vlmMt)) - #66 * EPow P3 (EVar vlmMst1) - #42 *
   EPow P3 (EVar vlmMst2)) + EPow P2 (EVar vMst1) * (#16303 + #47667 * EVar vlmMst2 + #1620 * (EVar vlmMst1 - EVar
   vlmMst2) * EPow P2 (EVar vlmMsq) + (#8226 - #8910 * EVar vlmMst2 + #22788 * EVar vlmMt) * EPow P2 (EVar vlmMst1) +
   #180 * EVar vlmMsq * (#151 - #99 * EVar vlmMst2 + #6 * EVar vlmMst1 * (- #13 + #18 * EVar vlmMst2 - #21 * EVar
   vlmMt) + #3 * (#59 + #42 * EVar vlmMst2) * EVar vlmMt - #108 * EPow P2 (EVar vlmMst2)) + #54666 * EPow P2 (EVar
   vlmMst2) - #18 * EVar vlmMt * (#3271 + #3130 * EVar vlmMst2 + #366 * EPow P2 (EVar vlmMst2)) - #3 * EVar vlmMst1 *
   (#10535 - #5148 * EVar vlmMt + #12 * EVar vlmMst2 * (#323 + #450 * EVar vlmMt) + #378 * EPow P2 (EVar vlmMst2) -
   #3456 * EPow P2 (EVar vlmMt)) - #10368 * (#1 + EVar vlmMst2) * EPow P2 (EVar vlmMt) - #4914 * EPow P3 (EVar
   vlmMst1) + #14958 * EPow P3 (EVar vlmMst2))) * EPow P4 (EVar vMsq) + #240 * EPow P2 (EVar vMsq) * ((#439 + #6 *
   EVar vlmMst1 * (- #62 + #21 * EVar vlmMsq - #21 * EVar vlmMt) + #177 * EVar vlmMt + #3 * EVar vlmMst2 * (#65 - #42
   * EVar vlmMsq + #42 * EVar vlmMt)) * EPow P2 (EVar vMst1) * EPow P2 (EVar vMst2) + (#439 - #3 * EVar vlmMst2 * (#1
   + #42 * EVar vlmMsq - #132 * EVar vlmMt) + #6 * EVar vlmMst1 * (- #62 + #21 * EVar vlmMsq + #45 * EVar vlmMst2 -
   #66 * EVar vlmMt) + #375 * EVar vlmMt - #270 * EPow P2 (EVar vlmMst2)) * EPow P4 (EVar vMst1) - (#17 + #3 * EVar
   vlmMst2 * (#1 - #6 * EVar vlmMt) - #33 * EVar vlmMt + #6 * EVar vlmMsq * (#5 + #3 * (EVar vlmMst2 + EVar vlmMt)) -
   #18 * EPow P2 (EVar vlmMsq)) * EPow P4 (EVar vMst2)) + #15 * EPow P2 (EVar vMst2) * (- ((#1409 + #6 * EVar vlmMst2
   * (#89 - #84 * EVar vlmMt) - #546 * EVar vlmMt + #12 * EVar vlmMsq * (#1 + #42 * (EVar vlmMst2 + EVar vlmMt)) -
   #504 * EPow P2 (EVar vlmMsq)) * EPow P2 (EVar vMst1) * EPow P2 (EVar vMst2)) + #4 * (#871 + #6 * EVar vlmMst1 * (-
   #89 + #66 * EVar vlmMsq - #66 * EVar vlmMt) + #375 * EVar vlmMt + EVar vlmMst2 * (#159 - #396 * EVar vlmMsq + #396
   * EVar vlmMt)) * EPow P4 (EVar vMst1) + (- #299 + #78 * EVar vlmMt - #12 * EVar vlmMsq * (- #5 + #6 * EVar vlmMst2
   + #6 * EVar vlmMt) + #6 * EVar vlmMst2 * (- #23 + #12 * EVar vlmMt) + #72 * EPow P2 (EVar vlmMsq)) * EPow P4 (EVar
   vMst2)))) * EPow P4 (EVar vMt) / (#243 * EVar vMgl * EPow P4 (EVar vMsq) * EPow P4 (EVar vMst2)) - EVar vMst1 *
   EPow P2 (EVar vMt) * EPow P2 (EVar vs2t) * (EDec 7398333333333334 13 - #68 * EConst CB4 / #3 - #2 * EConst CDN / #3
   - #240 * EVar vlmMsq + #40 * EPow P2 (EVar vlmMsq) - EVar vlmMst1 * (EDec 26333333333333332 15 - #60 * EVar vlmMsq
   + #20 * EPow P2 (EVar vlmMsq)) + (- #167 + #60 * EVar vlmMsq) * EPow P2 (EVar vlmMst1) / #3 - EVar vlmMst2 * (-
   #2135 - #797 * EVar vlmMst2 + #60 * EVar vlmMsq * (#7 + EVar vlmMst2) + #2 * EVar vlmMst1 * (#59 + #2 * EVar
   vlmMst2) - #60 * EPow P2 (EVar vlmMsq) + #60 * EPow P2 (EVar vlmMst1)) / #3 - #100 * EPow P3 (EVar vlmMst1) / #9 +
   #292 * EPow P3 (EVar vlmMst2) / #9 + EVar vDmglst1 * (EDec 6298333333333334 13 - #68 * EConst CB4 / #3 - #2 *
   EConst CDN / #3 - #360 * EVar vlmMsq + EVar vlmMst1 * (EDec 12166666666666667 14 + #60 * EVar vlmMsq - #20 * EPow
   P2 (EVar vlmMsq)) + #40 * EPow P2 (EVar vlmMsq) + EVar vlmMst2 * (#777 - #140 * EVar vlmMsq - #118 * EVar vlmMst1 /
   #3 + #20 * EPow P2 (EVar vlmMsq) - #20 * EPow P2 (EVar vlmMst1)) + (- #13 + #20 * EVar vlmMsq) * EPow P2 (EVar
   vlmMst1) - (- #797 + #60 * EVar vlmMsq + #4 * EVar vlmMst1) * EPow P2 (EVar vlmMst2) / #3 - #100 * EPow P3 (EVar
   vlmMst1) / #9 + #292 * EPow P3 (EVar vlmMst2) / #9) / EVar vMgl + EPow P2 (EVar vMst1) * (- #20 * (EVar vMgl * (#71
   - #16 * EVar vlmMst1 + #12 * EVar vlmMsq * (- #2 + EVar vlmMst1 - EVar vlmMst2) + #40 * EVar vlmMst2 - #6 * EPow P2
   (EVar vlmMst1) + #6 * EPow P2 (EVar vlmMst2)) + #3 * EVar vDmglst1 * (#83 - #20 * EVar vlmMst1 + #12 * EVar vlmMsq
   * (- #2 + EVar vlmMst1 - EVar vlmMst2) + #44 * EVar vlmMst2 - #6 * EPow P2 (EVar vlmMst1) + #6 * EPow P2 (EVar
   vlmMst2))) / (#9 * EVar vMgl * EPow P2 (EVar vMsq)) - (EDec 7749382716049382 14 + #96 * EConst CB4 - #40 * EVar
   vlmMsq + EVar vlmMst1 * (EDec 8778148148148148 13 - #200 * EVar vlmMsq + #40 * EPow P2 (EVar vlmMsq)) + (EDec
   4308888888888889 13 - #120 * EVar vlmMsq) * EPow P2 (EVar vlmMst1) - EVar vlmMst2 * (EDec 8351481481481482 13 +
   #820 * EVar vlmMst1 / #9 - #40 * EVar vlmMsq * (#5 + #4 * EVar vlmMst1) + #40 * EPow P2 (EVar vlmMsq) + #24 * EPow
   P2 (EVar vlmMst1)) - #2 * (#1625 + #180 * EVar vlmMsq + #276 * EVar vlmMst1) * EPow P2 (EVar vlmMst2) / #9 + #904 *
   EPow P3 (EVar vlmMst1) / #9 - #136 * EPow P3 (EVar vlmMst2) / #9 + EVar vDmglst1 * (EDec 37114814814814815 14 +
   #592 * EConst CB4 / #3 - #8 * EConst CDN / #3 - #280 * EVar vlmMsq + EVar vlmMst1 * (EDec 43144444444444446 14 +
   #120 * EVar vlmMsq + #40 * EPow P2 (EVar vlmMsq)) + (#394 - #280 * EVar vlmMsq) * EPow P2 (EVar vlmMst1) - EVar
   vlmMst2 * (#120 * EVar vlmMsq * (#1 - #4 * EVar vlmMst1) + #40 * EPow P2 (EVar vlmMsq) + (#1195 + #4764 * EVar
   vlmMst1 + #1788 * EPow P2 (EVar vlmMst1)) / #9) + (EDec 7133333333333333 14 - #200 * EVar vlmMsq - #228 * EVar
   vlmMst1) * EPow P2 (EVar vlmMst2) + #2708 * EPow P3 (EVar vlmMst1) / #9 + #1132 * EPow P3 (EVar vlmMst2) / #9) /
   EVar vMgl) / EPow P2 (EVar vMst2)) - EPow P4 (EVar vMst1) * (#5 * (EVar vMgl * (#911 - #54 * EVar vlmMst1 + #12 *
   EVar vlmMsq * (- #37 + #18 * EVar vlmMst1 - #18 * EVar vlmMst2) + #498 * EVar vlmMst2 - #108 * EPow P2 (EVar
   vlmMst1) + #108 * EPow P2 (EVar vlmMst2)) + EVar vDmglst1 * (#5159 - #702 * EVar vlmMst1 + #12 * EVar vlmMsq * (-
   #181 + #90 * EVar vlmMst1 - #90 * EVar vlmMst2) + #2874 * EVar vlmMst2 - #540 * EPow P2 (EVar vlmMst1) + #540 *
   EPow P2 (EVar vlmMst2))) / (#108 * EVar vMgl * EPow P4 (EVar vMsq)) + (EDec 5575486111111111 13 + #96 * EConst CB4
   + #70 * EVar vlmMsq + EVar vlmMst1 * (EDec 8758981481481482 13 - #100 * EVar vlmMsq + #40 * EPow P2 (EVar vlmMsq))
   - EVar vlmMst2 * (EDec 9398981481481482 13 - #2911 * EVar vlmMst1 / #9 - #20 * EVar vlmMsq * (#5 + #8 * EVar
   vlmMst1) + #40 * EPow P2 (EVar vlmMsq) - #146 * EPow P2 (EVar vlmMst1)) + (EDec 18094444444444446 14 - #120 * EVar
   vlmMsq) * EPow P2 (EVar vlmMst1) - (EDec 5043888888888889 13 + #40 * EVar vlmMsq + #146 * EVar vlmMst1) * EPow P2
   (EVar vlmMst2) + #46 * EPow P3 (EVar vlmMst1) / #3 - #46 * EPow P3 (EVar vlmMst2) / #3 + EVar vDmglst1 * (EDec
   27308603395061727 13 + #592 * EConst CB4 / #3 - #8 * EConst CDN / #3 + #150 * EVar vlmMsq + EVar vlmMst1 * (EDec
   5540833333333334 13 + #780 * EVar vlmMsq + #40 * EPow P2 (EVar vlmMsq)) - EVar vlmMst2 * (#60 * EVar vlmMsq * (#13
   - #8 * EVar vlmMst1) + #40 * EPow P2 (EVar vlmMsq) + (#31467 + #9076 * EVar vlmMst1 - #6744 * EPow P2 (EVar
   vlmMst1)) / #36) - #5 * (#463 + #1008 * EVar vlmMsq) * EPow P2 (EVar vlmMst1) / #18 - (- #6853 + #3600 * EVar
   vlmMsq + #9516 * EVar vlmMst1) * EPow P2 (EVar vlmMst2) / #18 + #1294 * EPow P3 (EVar vlmMst1) / #9 + #1778 * EPow
   P3 (EVar vlmMst2) / #9) / EVar vMgl) / EPow P4 (EVar vMst2)) + #5 * (#2 * (EVar vDmglst1 * (#131 - #12 * EVar
   vlmMsq + #12 * EVar vlmMst2) + (#59 - #12 * EVar vlmMsq + #12 * EVar vlmMst2) * EVar vMgl) * EPow P2 (EVar vMst1) *
   EPow P4 (EVar vMst2) + #48 * EPow P2 (EVar vMsq) * ((#2 * EVar vMgl * (#6 - #34 * EVar vlmMst2 + #12 * EVar vlmMsq
   * EVar vlmMst2 - #2 * EVar vlmMst1 * (- #17 + #6 * EVar vlmMsq + #9 * EVar vlmMst2) + #15 * EPow P2 (EVar vlmMst1)
   + #3 * EPow P2 (EVar vlmMst2)) + #6 * EVar vDmglst1 * (#12 - #26 * EVar vlmMst2 + #12 * EVar vlmMsq * EVar vlmMst2
   - #2 * EVar vlmMst1 * (- #13 + #6 * EVar vlmMsq + #15 * EVar vlmMst2) + #21 * EPow P2 (EVar vlmMst1) + #9 * EPow P2
   (EVar vlmMst2))) * EPow P4 (EVar vMst1) + #3 * (EVar vDmglst1 + EVar vMgl) * EPow P4 (EVar vMst2)) + (- #11 + #12 *
   EVar vlmMsq - #12 * EVar vlmMst2) * (EVar vDmglst1 + EVar vMgl) * EPow P6 (EVar vMst2)) / (#108 * EVar vMgl * EPow
   P2 (EVar vMst2) * EPow P4 (EVar vMsq))) + EVar vMt * EVar vs2t * (- ((- #1 + #2 * EVar vlmMst2) * EVar vshiftst3 *
   EPow P2 (EVar vMst2) * (- #4 * EPow P2 (EVar vMt) + ((- #1 - EVar vlmMst1 + EVar vlmMst2) * EPow P2 (EVar vMst1) +
   EPow P2 (EVar vMst2)) * EPow P2 (EVar vs2t))) / (#3 * EPow P2 (EVar vMst1)) + EPow P2 (EVar vs2t) * (EPow P2 (EVar
   vMst1) * (EDec 11018859670781893 14 - #40 * EConst CB4 / #9 - #2 * EConst CDN / #9 - #80 * EVar vlmMsq / #9 + #10 *
   EPow P2 (EVar vlmMsq) / #3 + EVar vlmMst1 * (EDec 18921814814814815 14 - #355 * EVar vlmMsq / #9 + #35 * EPow P2
   (EVar vlmMsq) / #3) + (EDec 4705555555555556 15 - #5 * EVar vlmMsq / #3) * EPow P2 (EVar vlmMst1) - EVar vlmMst2 *
   (#393289 - #397890 * EVar vlmMst1 + #1500 * EVar vlmMsq * (- #59 + #36 * EVar vlmMst1) + #31500 * EPow P2 (EVar
   vlmMsq) + #35850 * EPow P2 (EVar vlmMst1)) / #2700 + (- #8151 + #1300 * EVar vlmMsq + #3890 * EVar vlmMst1) * EPow
   P2 (EVar vlmMst2) / #60 + #49 * EPow P3 (EVar vlmMst1) / #54 - #2833 * EPow P3 (EVar vlmMst2) / #54 - EVar vDmglst1
   * (#2323 + #144 * EConst CB4 + #120 * EConst CDN - #2880 * EVar vlmMsq + #54 * EVar vlmMst1 * (EDec
   3255555555555556 14 + #40 * EVar vlmMsq - #20 * EPow P2 (EVar vlmMsq)) + #6 * EVar vlmMst2 * (#571 - #360 * EVar
   vlmMsq + #62 * EVar vlmMst1 + #180 * EPow P2 (EVar vlmMsq) - #158 * EPow P2 (EVar vlmMst1)) + #30 * (- #121 + #36 *
   EVar vlmMsq) * EPow P2 (EVar vlmMst1) - #6 * (- #735 + #180 * EVar vlmMsq + #98 * EVar vlmMst1) * EPow P2 (EVar
   vlmMst2) - #260 * EPow P3 (EVar vlmMst1) + #1796 * EPow P3 (EVar vlmMst2)) / (#54 * EVar vMgl)) + ((#50 * EVar
   vDmglst1 * (#192 - #91 * EVar vlmMst1 + #6 * EVar vlmMsq * (- #6 + #17 * EVar vlmMst1 - #17 * EVar vlmMst2) + #127
   * EVar vlmMst2 - #51 * EPow P2 (EVar vlmMst1) + #51 * EPow P2 (EVar vlmMst2)) + #3 * EVar vMgl * (#787 + #20 * EVar
   vlmMsq * (- #9 + #20 * EVar vlmMst1 - #20 * EVar vlmMst2) + #525 * EVar vlmMst2 - #5 * EVar vlmMst1 * (#69 + #70 *
   EVar vlmMst2) - #25 * EPow P2 (EVar vlmMst1) + #375 * EPow P2 (EVar vlmMst2))) / (#135 * EVar vMgl * EPow P2 (EVar
   vMsq)) + (EDec 23907595982905215 14 - #71872687 * EVar vlmMst2 / #529200 - (#488263 + #651840 * EVar vlmMst2) *
   EPow P2 (EVar vlmMst1) / #7560 - #770503 * EPow P2 (EVar vlmMst2) / #7560 + #37 * EVar vlmMst1 * (#2891251 +
   #2673860 * EVar vlmMst2 + #2352000 * EPow P2 (EVar vlmMst2)) / #529200 + #8 * EPow P3 (EVar vlmMst1) / #3 - #728 *
   EPow P3 (EVar vlmMst2) / #9 + (#5 * (#2 * EVar vDmglst1 + EVar vMgl) * EPow P2 (EVar vlmMsq) - #5 * EVar vlmMsq *
   (#4 * EVar vDmglst1 * (#11 + #30 * EVar vlmMst1 - #24 * EVar vlmMst2) + EVar vMgl * (#29 + #30 * EVar vlmMst1 + #2
   * (- #9 + #16 * EVar vlmMst1) * EVar vlmMst2 - #16 * (EPow P2 (EVar vlmMst1) + EPow P2 (EVar vlmMst2)))) / #6 -
   EVar vDmglst1 * (- #606133 + #624756 * EVar vlmMst2 + #72 * (- #3901 + #2976 * EVar vlmMst2) * EPow P2 (EVar
   vlmMst1) + #361944 * EPow P2 (EVar vlmMst2) - #12 * EVar vlmMst1 * (#92887 + #23460 * EVar vlmMst2 + #36288 * EPow
   P2 (EVar vlmMst2)) + #2304 * EPow P3 (EVar vlmMst1) + #218880 * EPow P3 (EVar vlmMst2)) / #3888) / EVar vMgl) /
   EPow P2 (EVar vMst2)) * EPow P4 (EVar vMst1) - EPow P2 (EVar vMst2) * (EVar vMgl * (#82320 * (#1775 + #30 * EVar
   vlmMsq * (- #5 + EVar vlmMst1 - EVar vlmMst2) + #407 * EVar vlmMst2 + EVar vlmMst1 * (- #257 + #600 * EVar vlmMst2)
   - #315 * EPow P2 (EVar vlmMst1) - #285 * EPow P2 (EVar vlmMst2)) * EPow P2 (EVar vMsq) * EPow P2 (EVar vMst1) +
   #17150 * (#53965 + #2592 * EConst CB4 - #288 * EConst CDN - #13320 * EVar vlmMsq + #5400 * EPow P2 (EVar vlmMsq) -
   #6 * EVar vlmMst1 * (#3781 - #300 * EVar vlmMsq + #180 * EPow P2 (EVar vlmMsq)) + #6 * EVar vlmMst2 * (#14137 -
   #3498 * EVar vlmMst1 + #60 * EVar vlmMsq * (- #35 + #12 * EVar vlmMst1) + #180 * EPow P2 (EVar vlmMsq) - #18 * EPow
   P2 (EVar vlmMst1)) - #18 * (- #229 + #60 * EVar vlmMsq) * EPow P2 (EVar vlmMst1) - #18 * (- #2193 + #180 * EVar
   vlmMsq + #442 * EVar vlmMst1) * EPow P2 (EVar vlmMst2) + #396 * EPow P3 (EVar vlmMst1) + #7668 * EPow P3 (EVar
   vlmMst2)) * EPow P4 (EVar vMsq) + #9 * (#6740969 + #140 * EVar vlmMsq * (- #12899 + #6230 * EVar vlmMst1 - #5390 *
   EVar vlmMst2) + #2822890 * EVar vlmMst2 + #70 * EVar vlmMst1 * (- #14529 + #25480 * EVar vlmMst2) - #58800 * EPow
   P2 (EVar vlmMsq) - #1327900 * EPow P2 (EVar vlmMst1) - #514500 * EPow P2 (EVar vlmMst2)) * EPow P4 (EVar vMst1)) +
   #102900 * EVar vDmglst1 * (#40 * (#82 - #93 * EVar vlmMst1 + #6 * EVar vlmMsq * (#4 + #3 * EVar vlmMst1 - #3 * EVar
   vlmMst2) + #69 * EVar vlmMst2 - #9 * EPow P2 (EVar vlmMst1) + #9 * EPow P2 (EVar vlmMst2)) * EPow P2 (EVar vMsq) *
   EPow P2 (EVar vMst1) + #6 * (#7 + #60 * EVar vlmMsq * (#5 - #6 * EVar vlmMst1) - #2 * EVar vlmMst1 + (- #226 + #220
   * EVar vlmMst1) * EVar vlmMst2 + #180 * EPow P2 (EVar vlmMsq) + #178 * EPow P2 (EVar vlmMst1) + #18 * EPow P2 (EVar
   vlmMst2)) * EPow P4 (EVar vMsq) + #5 * (#503 - #346 * EVar vlmMst1 + #12 * EVar vlmMsq * (#1 + #10 * EVar vlmMst1 -
   #10 * EVar vlmMst2) + #334 * EVar vlmMst2 - #60 * EPow P2 (EVar vlmMst1) + #60 * EPow P2 (EVar vlmMst2)) * EPow P4
   (EVar vMst1))) / (#11113200 * EVar vMgl * EPow P4 (EVar vMsq)) + ((#939 + #30 * EVar vlmMsq * (- #12 + #5 * EVar
   vlmMst1 - #5 * EVar vlmMst2) + #760 * EVar vlmMst2 - #50 * EVar vlmMst1 * (#8 + #3 * EVar vlmMst2) + #150 * EPow P2
   (EVar vlmMst2)) / (#135 * EPow P2 (EVar vMsq)) + (- #1 + #2 * EVar vlmMst2) / (#3 * EPow P2 (EVar vMst1)) + (EDec
   10841585681891803 16 + EVar vlmMsq * (- EDec 6291383219954648 16 + #7 * EVar vlmMst1 / #9 - #43 * EVar vlmMst2 /
   #63) + #47419 * EVar vlmMst2 / #26460 - EVar vlmMst1 * (#157 + #105 * EVar vlmMst2) / #135 + #5 * EVar vDmglst1 /
   (#6 * EVar vMgl) - EPow P2 (EVar vlmMsq) / #21 + #46 * EPow P2 (EVar vlmMst2) / #63) * EPow P2 (EVar vMst1) / EPow
   P4 (EVar vMsq)) * EPow P4 (EVar vMst2) + (- #177 * (#8 * EConst COepS2 - #81 * (#5 + #2 * EVar vlmMst1 - #2 * EVar
   vlmMst2) * EConst CS2) * EPow P2 (EVar vMst1) * EPow P2 (EVar vMst2) + (- #1328 * EConst COepS2 + #54 * (#1187 +
   #498 * EVar vlmMst1 - #498 * EVar vlmMst2) * EConst CS2) * EPow P4 (EVar vMst1) - #27 * (#8 * EConst COepS2 + #81 *
   (#11 - #2 * EVar vlmMst1 + #2 * EVar vlmMst2) * EConst CS2) * EPow P4 (EVar vMst2)) / (#729 * EPow P2 (EVar
   vMst2))) - #4 * EConst CT1ep * (#2 * (#40 * EPow P2 (EVar vMt) - #83 * EPow P2 (EVar vMst2) * EPow P2 (EVar vs2t))
   * EPow P4 (EVar vMst1) + #54 * EPow P2 (EVar vMt) * EPow P4 (EVar vMst2) + EPow P2 (EVar vMst1) * (#84 * EPow P2
   (EVar vMst2) * EPow P2 (EVar vMt) - #177 * EPow P2 (EVar vs2t) * EPow P4 (EVar vMst2)) - #27 * EPow P2 (EVar vs2t)
   * EPow P6 (EVar vMst2)) / (#243 * EPow P4 (EVar vMst2)))) - (#324 * EVar vxMsq * EConst Cz2 * EPow P2 (EVar vMgl) *
   EPow P2 (EVar vMsq) * (#20 * EVar vMt * EVar vMuSUSY * EVar vs2t * EPow P2 (EVar vMst2) * EPow P2 (EVar vSbeta) *
   (#4 * (- #1 + EVar vshiftst2) * EPow P2 (EVar vMst1) * EPow P2 (EVar vMt) - (EVar vshiftst1 - EVar vshiftst2 +
   (EVar vlmMst1 - EVar vlmMst2) * (- #2 + EVar vshiftst1 + EVar vshiftst2)) * EPow P2 (EVar vMst1) * EPow P2 (EVar
   vMst2) * EPow P2 (EVar vs2t) + (- #1 + EVar vshiftst1) * EPow P2 (EVar vMst2) * (- #4 * EPow P2 (EVar vMt) + EPow
   P2 (EVar vMst2) * EPow P2 (EVar vs2t)) - (- #1 + EVar vshiftst2) * EPow P2 (EVar vs2t) * EPow P4 (EVar vMst1)) +
   EVar vTbeta * (EPow P2 (EVar vMt) * EPow P2 (EVar vs2t) * (- #20 * (#2 * (EVar vlmMst1 - EVar vlmMst2) * EPow P2
   (EVar vMst1) - EPow P2 (EVar vMst2)) * (EPow P2 (EVar vMst1) + EPow P2 (EVar vMst2)) * EPow P2 (EVar vMuSUSY) -
   EPow P2 (EVar vSbeta) * (- #20 * (#2 * (EVar vlmMst1 - EVar vlmMst2) * EPow P2 (EVar vMst1) - EPow P2 (EVar vMst2))
   * (EPow P2 (EVar vMst1) + EPow P2 (EVar vMst2)) * EPow P2 (EVar vMuSUSY) + #40 * EPow P2 (EVar vMst2) * (EPow P4
   (EVar vMst1) + EPow P4 (EVar vMst2)))) + EPow P2 (EVar vMst2) * EPow P2 (EVar vSbeta) * (#80 * (EPow P2 (EVar
   vMst1) * EPow P2 (EVar vMst2) * EPow P2 (EVar vMt) * EPow P2 (EVar vs2t) + (EPow P2 (EVar vMst1) + EPow P2 (EVar
   vMst2)) * EPow P4 (EVar vMt)) + #5 * (EPow P2 (EVar vMst1) - EPow P2 (EVar vMst2)) * (#2 * (EVar vlmMst1 - EVar
   vlmMst2) * EPow P2 (EVar vMst1) * EPow P2 (EVar vMst2) + EPow P4 (EVar vMst1) - EPow P4 (EVar vMst2)) * EPow P4
   (EVar vs2t)) - #5 * EVar vshiftst1 * (#4 * EPow P2 (EVar vMt) * EPow P2 (EVar vMuSUSY) * EPow P2 (EVar vs2t) * (#2
   * (#1 - EVar vlmMst1 + EVar vlmMst2) * EPow P2 (EVar vMst1) * EPow P2 (EVar vMst2) + (#2 - #4 * EVar vlmMst1 + #4 *
   EVar vlmMst2) * EPow P4 (EVar vMst1) + EPow P4 (EVar vMst2)) + EPow P2 (EVar vSbeta) * (- #4 * EPow P2 (EVar vMt) *
   EPow P2 (EVar vs2t) * (#2 * (- #1 + EVar vlmMst1 - EVar vlmMst2) * EPow P2 (EVar vMst1) * EPow P2 (EVar vMst2) *
   (EPow P2 (EVar vMst2) - EPow P2 (EVar vMuSUSY)) + #2 * (#1 - #2 * EVar vlmMst1 + #2 * EVar vlmMst2) * EPow P2 (EVar
   vMuSUSY) * EPow P4 (EVar vMst1) + (#2 * EPow P2 (EVar vMst2) + EPow P2 (EVar vMuSUSY)) * EPow P4 (EVar vMst2)) +
   EPow P4 (EVar vMst2) * (#16 * EPow P4 (EVar vMt) + (- #4 * EPow P2 (EVar vMst1) * EPow P2 (EVar vMst2) + (#3 + #2 *
   EVar vlmMst1 - #2 * EVar vlmMst2) * EPow P4 (EVar vMst1) + EPow P4 (EVar vMst2)) * EPow P4 (EVar vs2t)))) + EVar
   vshiftst2 * EPow P2 (EVar vMst1) * (#20 * (#2 * (#1 - EVar vlmMst1 + EVar vlmMst2) * EPow P2 (EVar vMst1) + EPow P2
   (EVar vMst2)) * EPow P2 (EVar vMt) * EPow P2 (EVar vMuSUSY) * EPow P2 (EVar vs2t) + EPow P2 (EVar vSbeta) * (-
   (EPow P2 (EVar vMt) * (#20 * EPow P2 (EVar vMst2) * (#2 * (#1 + EVar vlmMst1 - EVar vlmMst2) * EPow P2 (EVar vMst2)
   + EPow P2 (EVar vMuSUSY)) - #40 * EPow P2 (EVar vMst1) * (EPow P2 (EVar vMst2) + (- #1 + EVar vlmMst1 - EVar
   vlmMst2) * EPow P2 (EVar vMuSUSY))) * EPow P2 (EVar vs2t)) + EPow P2 (EVar vMst2) * (- #80 * EPow P4 (EVar vMt) -
   #5 * (- #4 * EPow P2 (EVar vMst1) * EPow P2 (EVar vMst2) + EPow P4 (EVar vMst1) + (#3 - #2 * EVar vlmMst1 + #2 *
   EVar vlmMst2) * EPow P4 (EVar vMst2)) * EPow P4 (EVar vs2t)))))) + EPow P2 (EVar vMst1) * (- (EConst Cz3 * (#54 *
   EVar vxDmglst1 * EPow P2 (EVar vDmglst1) * (EVar vTbeta * (EPow P2 (EVar vMt) * EPow P2 (EVar vMuSUSY) * (#8 * EVar
   vMst1 * EVar vMt * (- #4 * (#220 + #9 * EVar vlmMst1 - #9 * EVar vlmMst2) * EVar vMst1 * EVar vMt + #3 * (#151 -
   #918 * EVar vlmMst1 + #918 * EVar vlmMst2) * EVar vs2t * EPow P2 (EVar vMst1) + (#559 + #18 * EVar vlmMst1 - #18 *
   EVar vlmMst2) * EVar vs2t * EPow P2 (EVar vMst2)) + EPow P2 (EVar vs2t) * (#24 * (#49 + #69 * EVar vlmMst1 - #69 *
   EVar vlmMst2) * EPow P2 (EVar vMst1) * EPow P2 (EVar vMst2) + #4 * (#6491 + #318 * EVar vlmMst1 - #318 * EVar
   vlmMst2) * EPow P4 (EVar vMst1) - #1533 * EPow P4 (EVar vMst2))) + EPow P2 (EVar vSbeta) * (EPow P2 (EVar vMt) *
   EPow P2 (EVar vs2t) * (#4 * (#4378 * EPow P2 (EVar vMst2) + (- #6491 - #318 * EVar vlmMst1 + #318 * EVar vlmMst2) *
   EPow P2 (EVar vMuSUSY)) * EPow P4 (EVar vMst1) + #7 * (#497 * EPow P2 (EVar vMst2) + #219 * EPow P2 (EVar vMuSUSY))
   * EPow P4 (EVar vMst2) - EPow P2 (EVar vMst1) * (#24 * (#49 + #69 * EVar vlmMst1 - #69 * EVar vlmMst2) * EPow P2
   (EVar vMst2) * EPow P2 (EVar vMuSUSY) + (#16063 + #288 * EVar vlmMst1 - #288 * EVar vlmMst2) * EPow P4 (EVar
   vMst2))) + EVar vMst1 * (#4 * EVar vMt * EPow P2 (EVar vMst2) * EPow P3 (EVar vs2t) * (- #5 * (#133 + #558 * EVar
   vlmMst1 - #558 * EVar vlmMst2) * EPow P2 (EVar vMst1) * EPow P2 (EVar vMst2) + #9559 * EPow P4 (EVar vMst1) + (#559
   + #18 * EVar vlmMst1 - #18 * EVar vlmMst2) * EPow P4 (EVar vMst2)) - #8 * EVar vs2t * EPow P3 (EVar vMt) * ((#559 +
   #18 * EVar vlmMst1 - #18 * EVar vlmMst2) * EPow P2 (EVar vMst2) * EPow P2 (EVar vMuSUSY) + #3 * EPow P2 (EVar
   vMst1) * (#1260 * EPow P2 (EVar vMst2) + (#151 - #918 * EVar vlmMst1 + #918 * EVar vlmMst2) * EPow P2 (EVar
   vMuSUSY)) + #25672 * EPow P4 (EVar vMst1) + #3 * (#565 + #16 * EVar vlmMst1 - #16 * EVar vlmMst2) * EPow P4 (EVar
   vMst2))) + #2 * (#16 * EPow P2 (EVar vMst1) * (#1163 * EPow P2 (EVar vMst2) + (#220 + #9 * EVar vlmMst1 - #9 * EVar
   vlmMst2) * EPow P2 (EVar vMuSUSY)) + #26736 * EPow P4 (EVar vMst1) - #2019 * EPow P4 (EVar vMst2)) * EPow P4 (EVar
   vMt) + (#6 * (#707 + #276 * EVar vlmMst1 - #276 * EVar vlmMst2) * EPow P2 (EVar vMst1) * EPow P2 (EVar vMst2) +
   (#22079 - #2040 * EVar vlmMst1 + #2040 * EVar vlmMst2) * EPow P4 (EVar vMst1) - #1533 * EPow P4 (EVar vMst2)) *
   EPow P4 (EVar vMst2) * EPow P4 (EVar vs2t) / #4)) + EVar vMt * EVar vMuSUSY * EPow P2 (EVar vSbeta) * (#24 * ((#565
   + #16 * EVar vlmMst1 - #16 * EVar vlmMst2) * EVar vMst1 * EPow P2 (EVar vMst2) + (#1825 + #16 * EVar vlmMst1 - #16
   * EVar vlmMst2) * EPow P3 (EVar vMst1)) * EPow P3 (EVar vMt) - #3 * EPow P2 (EVar vMst2) * EPow P3 (EVar vs2t) *
   (#3 * (#301 + #184 * EVar vlmMst1 - #184 * EVar vlmMst2) * EPow P2 (EVar vMst1) * EPow P2 (EVar vMst2) + #4 *
   (#6197 - #96 * EVar vlmMst1 + #96 * EVar vlmMst2) * EPow P4 (EVar vMst1) / #3 - #511 * EPow P4 (EVar vMst2)) - #2 *
   EVar vs2t * EPow P2 (EVar vMt) * (- #8 * (#1573 + #36 * EVar vlmMst1 - #36 * EVar vlmMst2) * EPow P2 (EVar vMst1) *
   EPow P2 (EVar vMst2) + #32 * (#154 - #9 * EVar vlmMst1 + #9 * EVar vlmMst2) * EPow P4 (EVar vMst1) + #3479 * EPow
   P4 (EVar vMst2)) - #18 * EVar vMt * EPow P2 (EVar vs2t) * (- #4 * (#53 + #1386 * EVar vlmMst1 - #1386 * EVar
   vlmMst2) * EPow P2 (EVar vMst2) * EPow P3 (EVar vMst1) / #3 + #2 * (#559 + #18 * EVar vlmMst1 - #18 * EVar vlmMst2)
   * EVar vMst1 * EPow P4 (EVar vMst2) / #3 + (#6302 - #1848 * EVar vlmMst1 + #1848 * EVar vlmMst2) * EPow P5 (EVar
   vMst1)))) + EVar vMgl * (#4 * EVar vMt * EVar vMuSUSY * EPow P2 (EVar vSbeta) * (#432 * EVar vMst1 * ((#2 * EVar
   vDmglst1 * (#235 + #6 * EVar vlmMst1 - #6 * EVar vlmMst2) + #3 * (#43 + #4 * EVar vlmMst1 - #4 * EVar vlmMst2) *
   EVar vMgl) * EPow P2 (EVar vMst1) - (EVar vDmglst1 * (#37 - #12 * EVar vlmMst1 + #12 * EVar vlmMst2) + #6 * (#9 -
   #2 * EVar vlmMst1 + #2 * EVar vlmMst2) * EVar vMgl) * EPow P2 (EVar vMst2)) * EPow P3 (EVar vMt) - EPow P2 (EVar
   vMst2) * EPow P3 (EVar vs2t) * (#3 * (#27 * EVar vDmglst1 * (#205 + #184 * EVar vlmMst1 - #184 * EVar vlmMst2) + #2
   * (#7307 + #1134 * EVar vlmMst1 - #1134 * EVar vlmMst2) * EVar vMgl) * EPow P2 (EVar vMst1) * EPow P2 (EVar vMst2)
   + #2 * (#76842 * EVar vDmglst1 + #41257 * EVar vMgl) * EPow P4 (EVar vMst1) - #27 * (#195 * EVar vDmglst1 - #328 *
   EVar vMgl) * EPow P4 (EVar vMst2)) - #4 * EVar vs2t * EPow P2 (EVar vMt) * (- #6 * (#54 * EVar vDmglst1 * (#53 + #4
   * EVar vlmMst1 - #4 * EVar vlmMst2) + #355 * EVar vMgl) * EPow P2 (EVar vMst1) * EPow P2 (EVar vMst2) + #4 * (#108
   * EVar vDmglst1 * (#10 - #3 * EVar vlmMst1 + #3 * EVar vlmMst2) - #367 * EVar vMgl) * EPow P4 (EVar vMst1) + #27 *
   (#110 * EVar vDmglst1 - #43 * EVar vMgl) * EPow P4 (EVar vMst2)) - #81 * EVar vMt * EPow P2 (EVar vs2t) * (- #8 *
   (EVar vDmglst1 * (#202 + #342 * EVar vlmMst1 - #342 * EVar vlmMst2) + (#221 + #108 * EVar vlmMst1 - #108 * EVar
   vlmMst2) * EVar vMgl) * EPow P2 (EVar vMst2) * EPow P3 (EVar vMst1) - #4 * (EVar vDmglst1 * (#58 - #9 * EVar
   vlmMst1 + #9 * EVar vlmMst2) + (#133 - #9 * EVar vlmMst1 + #9 * EVar vlmMst2) * EVar vMgl) * EVar vMst1 * EPow P4
   (EVar vMst2) + (EVar vDmglst1 * (#4366 - #2736 * EVar vlmMst1 + #2736 * EVar vlmMst2) - #2 * (#365 + #432 * EVar
   vlmMst1 - #432 * EVar vlmMst2) * EVar vMgl) * EPow P5 (EVar vMst1))) + EVar vTbeta * (- #4 * EPow P2 (EVar vMt) *
   EPow P2 (EVar vMuSUSY) * (#216 * EVar vMst1 * EVar vMt * (EVar vMst1 * (#6 * EVar vDmglst1 * (#13 + #2 * EVar
   vlmMst1 - #2 * EVar vlmMst2) * EVar vMt + (- #46 + #6 * EVar vlmMst1 - #6 * EVar vlmMst2) * EVar vMgl * EVar vMt +
   #3 * EVar vDmglst1 * (#154 + #225 * EVar vlmMst1 - #225 * EVar vlmMst2) * EVar vMst1 * EVar vs2t + #23 * (#25 + #9
   * EVar vlmMst1 - #9 * EVar vlmMst2) * EVar vMgl * EVar vMst1 * EVar vs2t) + (EVar vDmglst1 * (#58 - #9 * EVar
   vlmMst1 + #9 * EVar vlmMst2) + (#133 - #9 * EVar vlmMst1 + #9 * EVar vlmMst2) * EVar vMgl) * EVar vs2t * EPow P2
   (EVar vMst2)) - EPow P2 (EVar vs2t) * (#6 * (#54 * EVar vDmglst1 * (#35 + #46 * EVar vlmMst1 - #46 * EVar vlmMst2)
   + (#8783 + #1134 * EVar vlmMst1 - #1134 * EVar vlmMst2) * EVar vMgl) * EPow P2 (EVar vMst1) * EPow P2 (EVar vMst2)
   + #4 * (#54 * EVar vDmglst1 * (#764 + #69 * EVar vlmMst1 - #69 * EVar vlmMst2) + #7 * (#4829 + #243 * EVar vlmMst1
   - #243 * EVar vlmMst2) * EVar vMgl) * EPow P4 (EVar vMst1) + (- #5265 * EVar vDmglst1 + #8856 * EVar vMgl) * EPow
   P4 (EVar vMst2))) + EPow P2 (EVar vSbeta) * (- #108 * EVar vMst1 * EVar vs2t * EPow P3 (EVar vMt) * (- #8 * (EVar
   vDmglst1 * (#58 - #9 * EVar vlmMst1 + #9 * EVar vlmMst2) + (#133 - #9 * EVar vlmMst1 + #9 * EVar vlmMst2) * EVar
   vMgl) * EPow P2 (EVar vMst2) * EPow P2 (EVar vMuSUSY) + EPow P2 (EVar vMst1) * (#48 * (#169 * EVar vDmglst1 + #61 *
   EVar vMgl) * EPow P2 (EVar vMst2) - #8 * (EVar vDmglst1 * (#462 + #675 * EVar vlmMst1 - #675 * EVar vlmMst2) + #23
   * (#25 + #9 * EVar vlmMst1 - #9 * EVar vlmMst2) * EVar vMgl) * EPow P2 (EVar vMuSUSY)) + #64 * (#549 * EVar
   vDmglst1 + #112 * EVar vMgl) * EPow P4 (EVar vMst1) - #16 * (EVar vDmglst1 * (#37 - #12 * EVar vlmMst1 + #12 * EVar
   vlmMst2) + #6 * (#9 - #2 * EVar vlmMst1 + #2 * EVar vlmMst2) * EVar vMgl) * EPow P4 (EVar vMst2)) + EPow P4 (EVar
   vMst2) * (#6 * (#27 * EVar vDmglst1 * (#135 + #92 * EVar vlmMst1 - #92 * EVar vlmMst2) + #7 * (#833 + #162 * EVar
   vlmMst1 - #162 * EVar vlmMst2) * EVar vMgl) * EPow P2 (EVar vMst1) * EPow P2 (EVar vMst2) + #4 * (#27 * EVar
   vDmglst1 * (#5077 - #552 * EVar vlmMst1 + #552 * EVar vlmMst2) / #4 + (#9668 - #1701 * EVar vlmMst1 + #1701 * EVar
   vlmMst2) * EVar vMgl) * EPow P4 (EVar vMst1) - #27 * (#195 * EVar vDmglst1 - #328 * EVar vMgl) * EPow P4 (EVar
   vMst2)) * EPow P4 (EVar vs2t) + #108 * ((#2 * EVar vDmglst1 * (#8 * EPow P2 (EVar vMst1) * (#386 * EPow P2 (EVar
   vMst2) + #3 * (#13 + #2 * EVar vlmMst1 - #2 * EVar vlmMst2) * EPow P2 (EVar vMuSUSY)) + #5264 * EPow P4 (EVar
   vMst1) - #107 * EPow P4 (EVar vMst2)) + #8 * EVar vMgl * (#2 * EPow P2 (EVar vMst1) * (#72 * EPow P2 (EVar vMst2) +
   (- #23 + #3 * EVar vlmMst1 - #3 * EVar vlmMst2) * EPow P2 (EVar vMuSUSY)) + #317 * EPow P4 (EVar vMst1) + (- #163 +
   #6 * EVar vlmMst1 + #6 * EVar vlmMst2 - #12 * EVar vlmMt) * EPow P4 (EVar vMst2))) * EPow P4 (EVar vMt) + EVar vMt
   * EPow P2 (EVar vMst2) * EPow P3 (EVar vs2t) * (- #4 * ((EVar vDmglst1 * (#346 + #693 * EVar vlmMst1 - #693 * EVar
   vlmMst2) + #3 * (#103 + #75 * EVar vlmMst1 - #75 * EVar vlmMst2) * EVar vMgl) * EPow P2 (EVar vMst2) * EPow P3
   (EVar vMst1) + (EVar vDmglst1 * (#58 - #9 * EVar vlmMst1 + #9 * EVar vlmMst2) + (#133 - #9 * EVar vlmMst1 + #9 *
   EVar vlmMst2) * EVar vMgl) * EVar vMst1 * EPow P4 (EVar vMst2)) + #6 * (#997 * EVar vDmglst1 + #173 * EVar vMgl) *
   EPow P5 (EVar vMst1))) + #4 * EPow P2 (EVar vMt) * EPow P2 (EVar vs2t) * (#4 * (#10746 * EVar vDmglst1 + #331 *
   EVar vMgl) * EPow P2 (EVar vMst2) * EPow P4 (EVar vMst1) - #6 * (#18 * EVar vDmglst1 * (#373 + #24 * EVar vlmMst1 -
   #24 * EVar vlmMst2) + #323 * EVar vMgl) * EPow P2 (EVar vMst1) * EPow P4 (EVar vMst2) - EPow P2 (EVar vMuSUSY) *
   (#6 * (#54 * EVar vDmglst1 * (#35 + #46 * EVar vlmMst1 - #46 * EVar vlmMst2) + (#8783 + #1134 * EVar vlmMst1 -
   #1134 * EVar vlmMst2) * EVar vMgl) * EPow P2 (EVar vMst1) * EPow P2 (EVar vMst2) + #4 * (#54 * EVar vDmglst1 *
   (#764 + #69 * EVar vlmMst1 - #69 * EVar vlmMst2) + #7 * (#4829 + #243 * EVar vlmMst1 - #243 * EVar vlmMst2) * EVar
   vMgl) * EPow P4 (EVar vMst1) + (- #5265 * EVar vDmglst1 + #8856 * EVar vMgl) * EPow P4 (EVar vMst2)) + #54 * (#110
   * EVar vDmglst1 - #43 * EVar vMgl) * EPow P6 (EVar vMst2))))))) + #3 * EPow P2 (EConst Cz2) * (#36 * EVar vxDmglst1
   * EPow P2 (EVar vDmglst1) * (#8 * EVar vMt * EVar vMuSUSY * EPow P2 (EVar vSbeta) * (#8 * EVar vMst1 * (EPow P2
   (EVar vMst1) + EPow P2 (EVar vMst2)) * EPow P3 (EVar vMt) - #3 * EPow P2 (EVar vMst1) * EPow P3 (EVar vs2t) * EPow
   P4 (EVar vMst2) + #24 * EVar vMt * EPow P2 (EVar vs2t) * (#17 * (EPow P2 (EVar vMst1) + EPow P2 (EVar vMst2)) *
   EPow P3 (EVar vMst1) + EVar vMst1 * EPow P4 (EVar vMst2))) + #2 * EVar vMst1 * EVar vs2t * EVar vTbeta * (EVar vs2t
   * EPow P2 (EVar vSbeta) * (- #12 * EVar vMst1 * (EPow P2 (EVar vMst1) + EPow P2 (EVar vMst2)) * EPow P2 (EVar vMt)
   * EPow P2 (EVar vMuSUSY) + EVar vs2t * (- #512 * EVar vMt * EPow P2 (EVar vMst1) - #32 * EVar vMt * EPow P2 (EVar
   vMst2) + #3 * EVar vMst1 * EVar vs2t * EPow P2 (EVar vMst2) - #3 * EVar vs2t * EPow P3 (EVar vMst1)) * EPow P4
   (EVar vMst2)) + #4 * EPow P2 (EVar vMt) * (- ((- #3 * EVar vMst1 * EVar vs2t * (EPow P2 (EVar vMst1) + EPow P2
   (EVar vMst2)) + #16 * EVar vMt * (#18 * EPow P2 (EVar vMst1) + EPow P2 (EVar vMst2))) * EPow P2 (EVar vMuSUSY)) -
   #8 * EVar vMt * EPow P2 (EVar vSbeta) * (- #2 * (#18 * EPow P2 (EVar vMst1) + EPow P2 (EVar vMst2)) * EPow P2 (EVar
   vMuSUSY) + EPow P4 (EVar vMst2))))) + EVar vMgl * (#4 * EVar vMt * EVar vMuSUSY * EPow P2 (EVar vSbeta) * (#576 *
   (EVar vDmglst1 + EVar vMgl) * EVar vMst1 * (EPow P2 (EVar vMst1) + EPow P2 (EVar vMst2)) * EPow P3 (EVar vMt) + #2
   * EVar vMgl * EVar vs2t * EPow P2 (EVar vMt) * (#42 * EPow P2 (EVar vMst1) * EPow P2 (EVar vMst2) + #40 * EPow P4
   (EVar vMst1) - #45 * EPow P4 (EVar vMst2)) + #864 * EVar vMt * EPow P2 (EVar vs2t) * ((#19 * EVar vDmglst1 + #9 *
   EVar vMgl) * (EPow P2 (EVar vMst1) + EPow P2 (EVar vMst2)) * EPow P3 (EVar vMst1) + #2 * (EVar vDmglst1 + EVar
   vMgl) * EVar vMst1 * EPow P4 (EVar vMst2)) - EPow P2 (EVar vMst2) * EPow P3 (EVar vs2t) * (#3 * (#48 * EVar
   vDmglst1 + #179 * EVar vMgl) * EPow P2 (EVar vMst1) * EPow P2 (EVar vMst2) + EVar vMgl * (#166 * EPow P4 (EVar
   vMst1) + #315 * EPow P4 (EVar vMst2)))) + EVar vs2t * EVar vTbeta * (#4 * EPow P2 (EVar vMt) * (- #576 * EVar vMt *
   EPow P2 (EVar vSbeta) * (- (EPow P2 (EVar vMuSUSY) * (#2 * (EVar vDmglst1 + EVar vMgl) * EVar vMst1 * EPow P2 (EVar
   vMst2) + (#21 * EVar vDmglst1 + #11 * EVar vMgl) * EPow P3 (EVar vMst1))) + (EVar vDmglst1 + EVar vMgl) * EVar
   vMst1 * EPow P4 (EVar vMst2)) + EPow P2 (EVar vMuSUSY) * (- #576 * EVar vMt * (#2 * (EVar vDmglst1 + EVar vMgl) *
   EVar vMst1 * EPow P2 (EVar vMst2) + (#21 * EVar vDmglst1 + #11 * EVar vMgl) * EPow P3 (EVar vMst1)) + EVar vs2t *
   (#12 * (#12 * EVar vDmglst1 + #71 * EVar vMgl) * EPow P2 (EVar vMst1) * EPow P2 (EVar vMst2) + #2 * (#72 * EVar
   vDmglst1 + #509 * EVar vMgl) * EPow P4 (EVar vMst1) + #315 * EVar vMgl * EPow P4 (EVar vMst2)))) + EVar vs2t * EPow
   P2 (EVar vSbeta) * (EVar vs2t * EPow P4 (EVar vMst2) * (- #1152 * EVar vMt * (#2 * (EVar vDmglst1 + EVar vMgl) *
   EVar vMst1 * EPow P2 (EVar vMst2) + (#17 * EVar vDmglst1 + #7 * EVar vMgl) * EPow P3 (EVar vMst1)) + EVar vs2t *
   (#6 * (#24 * EVar vDmglst1 + #37 * EVar vMgl) * EPow P2 (EVar vMst1) * EPow P2 (EVar vMst2) - (#144 * EVar vDmglst1
   + #371 * EVar vMgl) * EPow P4 (EVar vMst1) + #315 * EVar vMgl * EPow P4 (EVar vMst2))) + #4 * EPow P2 (EVar vMt) *
   (- (EPow P2 (EVar vMuSUSY) * (#12 * (#12 * EVar vDmglst1 + #71 * EVar vMgl) * EPow P2 (EVar vMst1) * EPow P2 (EVar
   vMst2) + #2 * (#72 * EVar vDmglst1 + #509 * EVar vMgl) * EPow P4 (EVar vMst1) + #315 * EVar vMgl * EPow P4 (EVar
   vMst2))) + EVar vMgl * (#2 * EPow P2 (EVar vMst2) * EPow P4 (EVar vMst1) - #87 * EPow P2 (EVar vMst1) * EPow P4
   (EVar vMst2) + #45 * EPow P6 (EVar vMst2))))))) - #2 * EConst Cz4 * (#54 * EVar vxDmglst1 * EPow P2 (EVar vDmglst1)
   * (#2 * EVar vMt * EVar vMuSUSY * (EVar vMst1 * EVar vMt * EVar vMuSUSY * EVar vTbeta * (EVar vMt * EVar vs2t *
   (#3474 * EPow P2 (EVar vMst1) - #482 * EPow P2 (EVar vMst2)) + #180 * EVar vMst1 * EPow P2 (EVar vMt) - #15 * EPow
   P2 (EVar vs2t) * (#53 * EVar vMst1 * EPow P2 (EVar vMst2) + #37 * EPow P3 (EVar vMst1))) + EPow P2 (EVar vSbeta) *
   (- #8 * EVar vMst1 * (- #2 * EVar vMt + #45 * EVar vMst1 * EVar vs2t) * (EPow P2 (EVar vMst1) + EPow P2 (EVar
   vMst2)) * EPow P2 (EVar vMt) + #15 * EPow P2 (EVar vMst2) * EPow P3 (EVar vs2t) * (#53 * EPow P2 (EVar vMst1) *
   EPow P2 (EVar vMst2) - #16 * EPow P4 (EVar vMst1)) + #3 * EVar vMt * EPow P2 (EVar vs2t) * (- #1978 * (EPow P2
   (EVar vMst1) + EPow P2 (EVar vMst2)) * EPow P3 (EVar vMst1) + #241 * EVar vMst1 * EPow P4 (EVar vMst2)))) + EVar
   vTbeta * EPow P2 (EVar vSbeta) * (EVar vMst1 * (#8876 * EVar vMt * EPow P2 (EVar vMst1) - #964 * EVar vMt * EPow P2
   (EVar vMst2) - #795 * EVar vMst1 * EVar vs2t * EPow P2 (EVar vMst2) + #1035 * EVar vs2t * EPow P3 (EVar vMst1)) *
   EPow P3 (EVar vs2t) * EPow P4 (EVar vMst2) / #2 - #4 * EVar vs2t * EPow P3 (EVar vMt) * (EPow P2 (EVar vMuSUSY) *
   (- #241 * EVar vMst1 * EPow P2 (EVar vMst2) + #1737 * EPow P3 (EVar vMst1)) + #8 * EVar vMst1 * EPow P4 (EVar
   vMst2)) + EPow P2 (EVar vMst1) * (#30 * EPow P2 (EVar vMt) * EPow P2 (EVar vs2t) * ((#37 * EPow P2 (EVar vMst1) +
   #53 * EPow P2 (EVar vMst2)) * EPow P2 (EVar vMuSUSY) + #12 * EPow P4 (EVar vMst2)) - #360 * EPow P2 (EVar vMuSUSY)
   * EPow P4 (EVar vMt)))) + EVar vMgl * (#4 * EVar vMt * EVar vMuSUSY * EPow P2 (EVar vSbeta) * (#432 * (EVar
   vDmglst1 + EVar vMgl) * EVar vMst1 * (EPow P2 (EVar vMst1) + EPow P2 (EVar vMst2)) * EPow P3 (EVar vMt) + EPow P2
   (EVar vMst2) * EPow P3 (EVar vs2t) * (#6 * (#2385 * EVar vDmglst1 + #538 * EVar vMgl) * EPow P2 (EVar vMst1) * EPow
   P2 (EVar vMst2) + EVar vMgl * (#166 * EPow P4 (EVar vMst1) - #3267 * EPow P4 (EVar vMst2))) - #2 * EVar vs2t * EPow
   P2 (EVar vMt) * (#6 * (#540 * EVar vDmglst1 + #7 * EVar vMgl) * EPow P2 (EVar vMst1) * EPow P2 (EVar vMst2) + #40 *
   (#81 * EVar vDmglst1 + EVar vMgl) * EPow P4 (EVar vMst1) - #243 * EVar vMgl * EPow P4 (EVar vMst2)) + #81 * EVar
   vMt * EPow P2 (EVar vs2t) * (- #4 * (#187 * EVar vDmglst1 - #18 * EVar vMgl) * (EPow P2 (EVar vMst1) + EPow P2
   (EVar vMst2)) * EPow P3 (EVar vMst1) + #241 * (EVar vDmglst1 + EVar vMgl) * EVar vMst1 * EPow P4 (EVar vMst2))) +
   EVar vTbeta * (EPow P2 (EVar vMuSUSY) * (- #4 * EPow P2 (EVar vMt) * (#54 * EVar vMst1 * EVar vMt * (- (EVar vMst1
   * (#30 * (#2 * EVar vDmglst1 + EVar vMgl) * EVar vMt + (#507 * EVar vDmglst1 - #313 * EVar vMgl) * EVar vMst1 *
   EVar vs2t)) + #241 * (EVar vDmglst1 + EVar vMgl) * EVar vs2t * EPow P2 (EVar vMst2)) + EPow P2 (EVar vs2t) *
   (#14310 * EVar vDmglst1 * EPow P2 (EVar vMst1) * (EPow P2 (EVar vMst1) + EPow P2 (EVar vMst2)) + EVar vMgl * (- #39
   * EPow P2 (EVar vMst1) * EPow P2 (EVar vMst2) + #127 * EPow P4 (EVar vMst1) - #3267 * EPow P4 (EVar vMst2)))) -
   #6480 * (#2 * EVar vDmglst1 + EVar vMgl) * EPow P2 (EVar vMst1) * EPow P2 (EVar vSbeta) * EPow P4 (EVar vMt)) +
   EVar vs2t * EPow P2 (EVar vSbeta) * (- #216 * EPow P3 (EVar vMt) * (EPow P2 (EVar vMuSUSY) * (- #241 * (EVar
   vDmglst1 + EVar vMgl) * EVar vMst1 * EPow P2 (EVar vMst2) + (#507 * EVar vDmglst1 - #313 * EVar vMgl) * EPow P3
   (EVar vMst1)) + #8 * (EVar vDmglst1 + EVar vMgl) * EVar vMst1 * EPow P4 (EVar vMst2)) + EPow P2 (EVar vs2t) * EPow
   P4 (EVar vMst2) * (#108 * EVar vMt * (- #241 * (EVar vDmglst1 + EVar vMgl) * EVar vMst1 * EPow P2 (EVar vMst2) +
   (#989 * EVar vDmglst1 + #169 * EVar vMgl) * EPow P3 (EVar vMst1)) + EVar vs2t * (- #15 * (#954 * EVar vDmglst1 +
   #433 * EVar vMgl) * EPow P2 (EVar vMst1) * EPow P2 (EVar vMst2) + #2 * (#7155 * EVar vDmglst1 + #1531 * EVar vMgl)
   * EPow P4 (EVar vMst1) + #3267 * EVar vMgl * EPow P4 (EVar vMst2))) - #4 * EVar vs2t * EPow P2 (EVar vMt) * (-
   (EPow P2 (EVar vMuSUSY) * (#14310 * EVar vDmglst1 * EPow P2 (EVar vMst1) * (EPow P2 (EVar vMst1) + EPow P2 (EVar
   vMst2)) + EVar vMgl * (- #39 * EPow P2 (EVar vMst1) * EPow P2 (EVar vMst2) + #127 * EPow P4 (EVar vMst1) - #3267 *
   EPow P4 (EVar vMst2)))) - #15 * (#216 * EVar vDmglst1 + #19 * EVar vMgl) * EPow P2 (EVar vMst1) * EPow P4 (EVar
   vMst2) + EVar vMgl * (#2 * EPow P2 (EVar vMst2) * EPow P4 (EVar vMst1) + #243 * EPow P6 (EVar vMst2))))))))) /
   (#972 * EPow P2 (EVar vMgl) * EPow P2 (EVar vMst1) * EPow P2 (EVar vSbeta) * EPow P4 (EVar vMst2))) / EVar vTbeta +
   EPow P2 (EVar vs2t) * ((- #2 * EPow P2 (EVar vMt) * (EPow P2 (EVar vMuSUSY) * (#81 * (- #1 + #3 * EVar vlmMst1 - #3
   * EVar vlmMst2) * (- #1 + #2 * EVar vlmMst2) * EVar vshiftst3 - #740 * EConst CT1ep * (- #1 + EPow P2 (EVar
   vSbeta))) + #4 * EConst CT1ep * EPow P2 (EVar vMst2) * EPow P2 (EVar vSbeta)) + #11 * EConst CT1ep * EPow P2 (EVar
   vs2t) * EPow P2 (EVar vSbeta) * EPow P4 (EVar vMst2)) * EPow P6 (EVar vMst1) + #81 * (- #1 + #2 * EVar vlmMst2) *
   EVar vshiftst3 * EPow P2 (EVar vMt) * EPow P2 (EVar vMuSUSY) * EPow P6 (EVar vMst2) - #6 * EPow P4 (EVar vMst1) *
   (EPow P2 (EVar vMst2) * EPow P2 (EVar vMt) * (EPow P2 (EVar vMuSUSY) * (#27 * EVar vshiftst3 * (#1 - #2 * EVar
   vlmMst1 + #4 * EVar vlmMst1 * EVar vlmMst2 - #4 * EPow P2 (EVar vlmMst2)) - #136 * EConst CT1ep * (- #1 + EPow P2
   (EVar vSbeta))) - #10 * EConst CT1ep * EPow P2 (EVar vMst2) * EPow P2 (EVar vSbeta)) + #25 * EConst CT1ep * EPow P2
   (EVar vs2t) * EPow P2 (EVar vSbeta) * EPow P6 (EVar vMst2)) - #27 * EPow P2 (EVar vMst1) * (#2 * EPow P2 (EVar vMt)
   * (EPow P2 (EVar vMuSUSY) * (#3 * (- #1 + EVar vlmMst1 - EVar vlmMst2) * (- #1 + #2 * EVar vlmMst2) * EVar
   vshiftst3 - #2 * EConst CT1ep * (- #1 + EPow P2 (EVar vSbeta))) - #2 * EConst CT1ep * EPow P2 (EVar vMst2) * EPow
   P2 (EVar vSbeta)) * EPow P4 (EVar vMst2) + EConst CT1ep * EPow P2 (EVar vs2t) * EPow P2 (EVar vSbeta) * EPow P8
   (EVar vMst2))) / (#243 * EPow P2 (EVar vMst1) * EPow P2 (EVar vSbeta) * EPow P4 (EVar vMst2)) + ((#1 - #2 * EVar
   vlmMst2) * EVar vshiftst3 * EVar vTbeta * EPow P2 (EVar vSbeta) * (- ((#8 * (#1 - EVar vlmMst1 + EVar vlmMst2) *
   EPow P2 (EVar vMst1) * EPow P2 (EVar vMt) * EPow P2 (EVar vs2t) + #16 * EPow P4 (EVar vMt) + EPow P2 (EVar vMst1) *
   ((#3 + #2 * EVar vlmMst1 - #2 * EVar vlmMst2) * EPow P2 (EVar vMst1) - #4 * EPow P2 (EVar vMst2)) * EPow P4 (EVar
   vs2t)) * EPow P6 (EVar vMst2)) + #4 * EPow P2 (EVar vMt) * EPow P2 (EVar vs2t) * (EPow P2 (EVar vMuSUSY) * EPow P6
   (EVar vMst2) + #2 * (EPow P2 (EVar vMuSUSY) * ((#1 - #2 * EVar vlmMst1 + #2 * EVar vlmMst2) * EPow P2 (EVar vMst2)
   * EPow P4 (EVar vMst1) + (#1 - EVar vlmMst1 + EVar vlmMst2) * EPow P2 (EVar vMst1) * EPow P4 (EVar vMst2) + (#1 -
   #3 * EVar vlmMst1 + #3 * EVar vlmMst2) * EPow P6 (EVar vMst1)) + EPow P8 (EVar vMst2)))) + #10 * (#1 - #2 * EVar
   vlmMsq) * EVar vxMsq * EPow P2 (EVar vMsq) * (#4 * EVar vMt * EVar vMuSUSY * EVar vs2t * (EVar vMt * EVar vMuSUSY *
   EVar vs2t * EVar vTbeta * EPow P2 (EVar vMst1) * (EPow P2 (EVar vMst2) - #2 * (EVar vlmMst1 - EVar vlmMst2) * (EPow
   P2 (EVar vMst1) + EPow P2 (EVar vMst2))) + EPow P2 (EVar vMst2) * EPow P2 (EVar vSbeta) * ((- #1 + EVar vshiftst1)
   * EPow P2 (EVar vMst2) * (- #4 * EPow P2 (EVar vMt) + EPow P2 (EVar vMst2) * EPow P2 (EVar vs2t)) - EPow P2 (EVar
   vMst1) * (- #4 * (- #1 + EVar vshiftst2) * EPow P2 (EVar vMt) + (EVar vshiftst1 - EVar vshiftst2 + (EVar vlmMst1 -
   EVar vlmMst2) * (- #2 + EVar vshiftst1 + EVar vshiftst2)) * EPow P2 (EVar vMst2) * EPow P2 (EVar vs2t)) - (- #1 +
   EVar vshiftst2) * EPow P2 (EVar vs2t) * EPow P4 (EVar vMst1))) + EVar vTbeta * (- #8 * EPow P2 (EVar vMst1) * EPow
   P2 (EVar vMst2) * EPow P2 (EVar vMt) * ((#1 - EVar vlmMst1 + EVar vlmMst2) * EVar vshiftst1 * EPow P2 (EVar
   vMuSUSY) * EPow P2 (EVar vs2t) + #2 * EVar vshiftst2 * EPow P2 (EVar vMt) * EPow P2 (EVar vSbeta)) + EPow P2 (EVar
   vSbeta) * (- #4 * EPow P2 (EVar vMt) * EPow P2 (EVar vs2t) * (#2 * (EPow P2 (EVar vMst2) + (- EVar vlmMst1 + EVar
   vlmMst2) * EPow P2 (EVar vMuSUSY)) * EPow P4 (EVar vMst1) + EPow P2 (EVar vMst1) * ((#1 - #2 * EVar vlmMst1 + #2 *
   EVar vlmMst2) * EPow P2 (EVar vMst2) * EPow P2 (EVar vMuSUSY) - #4 * EPow P4 (EVar vMst2)) + (#2 * EPow P2 (EVar
   vMst2) + EPow P2 (EVar vMuSUSY)) * EPow P4 (EVar vMst2)) + EPow P2 (EVar vMst2) * (#16 * (EPow P2 (EVar vMst1) +
   EPow P2 (EVar vMst2)) * EPow P4 (EVar vMt) + EPow P2 (EVar vMst1) * ((- #1 + #2 * EVar vlmMst1 - #2 * EVar vlmMst2)
   * EPow P2 (EVar vMst1) * EPow P2 (EVar vMst2) + EPow P4 (EVar vMst1) + (- #1 - #2 * EVar vlmMst1 + #2 * EVar
   vlmMst2) * EPow P4 (EVar vMst2)) * EPow P4 (EVar vs2t))) - EVar vshiftst1 * (#4 * EPow P2 (EVar vMst1) * EPow P2
   (EVar vMst2) * EPow P2 (EVar vs2t) * EPow P2 (EVar vSbeta) * (#2 * (#1 - EVar vlmMst1 + EVar vlmMst2) * EPow P2
   (EVar vMt) * (EPow P2 (EVar vMst2) - EPow P2 (EVar vMuSUSY)) - EPow P2 (EVar vs2t) * EPow P4 (EVar vMst2)) + EPow
   P4 (EVar vMst1) * (#8 * (- #1 + #2 * EVar vlmMst1 - #2 * EVar vlmMst2) * EPow P2 (EVar vMt) * EPow P2 (EVar
   vMuSUSY) * EPow P2 (EVar vs2t) * (- #1 + EPow P2 (EVar vSbeta)) + (#3 + #2 * EVar vlmMst1 - #2 * EVar vlmMst2) *
   EPow P2 (EVar vSbeta) * EPow P4 (EVar vMst2) * EPow P4 (EVar vs2t)) + EPow P4 (EVar vMst2) * (- #4 * EPow P2 (EVar
   vMt) * EPow P2 (EVar vs2t) * (EPow P2 (EVar vMuSUSY) * (- #1 + EPow P2 (EVar vSbeta)) + #2 * EPow P2 (EVar vMst2) *
   EPow P2 (EVar vSbeta)) + EPow P2 (EVar vSbeta) * (#16 * EPow P4 (EVar vMt) + EPow P4 (EVar vMst2) * EPow P4 (EVar
   vs2t)))) + EPow P2 (EVar vs2t) * (#4 * EPow P2 (EVar vMt) * EPow P2 (EVar vMuSUSY) * EPow P4 (EVar vMst2) - EVar
   vshiftst2 * EPow P2 (EVar vMst1) * (#4 * EPow P2 (EVar vMst2) * EPow P2 (EVar vMt) * (EPow P2 (EVar vMuSUSY) * (-
   #1 + EPow P2 (EVar vSbeta)) + #2 * (#1 + EVar vlmMst1 - EVar vlmMst2) * EPow P2 (EVar vMst2) * EPow P2 (EVar
   vSbeta)) - #4 * EPow P2 (EVar vMst1) * (#2 * EPow P2 (EVar vMt) * ((- #1 + EVar vlmMst1 - EVar vlmMst2) * EPow P2
   (EVar vMuSUSY) * (- #1 + EPow P2 (EVar vSbeta)) + EPow P2 (EVar vMst2) * EPow P2 (EVar vSbeta)) + EPow P2 (EVar
   vs2t) * EPow P2 (EVar vSbeta) * EPow P4 (EVar vMst2)) + EPow P2 (EVar vs2t) * EPow P2 (EVar vSbeta) * (EPow P2
   (EVar vMst2) * EPow P4 (EVar vMst1) + (#3 - #2 * EVar vlmMst1 + #2 * EVar vlmMst2) * EPow P6 (EVar vMst2))) + EPow
   P2 (EVar vs2t) * EPow P2 (EVar vSbeta) * EPow P8 (EVar vMst2))))) / (#12 * EVar vTbeta * EPow P2 (EVar vMst1) *
   EPow P2 (EVar vSbeta) * EPow P4 (EVar vMst2)) + EConst Cz2 * (EPow P2 (EVar vMt) * EPow P2 (EVar vs2t) * (EPow P2
   (EVar vMst1) * (#3 * (#48 * EVar vDmglst1 * (#1537 + #60 * EVar vlmMst1 + #228 * EVar vlmMst2) + (#40285 + #4032 *
   EVar vlmMst1 + #2880 * EVar vlmMst2) * EVar vMgl) + #2 * (#72 * EVar vDmglst1 * (- #923 + #894 * EVar vlmMst1 -
   #1470 * EVar vlmMst2) + #5 * (#59 + #3564 * EVar vlmMst1 - #3564 * EVar vlmMst2) * EVar vMgl) * EPow P2 (EVar
   vMst1) / EPow P2 (EVar vMst2)) / (#486 * EVar vMgl) - (EDec 3394444444444444 14 - #4 * EVar vlmMst1 / #3 + #4 *
   EVar vlmMst2 / #3 + #44 * EVar vDmglst1 / EVar vMgl) * EPow P2 (EVar vMst2) + EPow P2 (EVar vMuSUSY) * (#339 - #30
   * EVar vlmMsq - #37 * EVar vlmMst1 + #149 * EVar vlmMst2 + (- #198 * EVar vDmglst1 + EPow P2 (EVar vMst1) * (- #30
   * (#2 * EVar vDmglst1 + EVar vMgl) + #4 * EVar vDmglst1 * ((- #390 + #90 * EVar vlmMsq + #139 * EVar vlmMst1 - #315
   * EVar vlmMst2) * EPow P2 (EVar vMsq) + #70 * EPow P2 (EVar vMst1)) / EPow P2 (EVar vMst2) + EVar vMgl * ((#311 +
   #1080 * EVar vlmMsq + #2196 * EVar vlmMst1 - #3348 * EVar vlmMst2) * EPow P2 (EVar vMsq) + #360 * EPow P2 (EVar
   vMst1)) / (#9 * EPow P2 (EVar vMst2))) / EPow P2 (EVar vMsq)) / EVar vMgl + #6 * EPow P2 (EVar vMst2) / EPow P2
   (EVar vMst1) - #25 * (#4 * EVar vDmglst1 + EVar vMgl) * EPow P4 (EVar vMst1) / (#2 * EVar vMgl * EPow P4 (EVar
   vMsq)) + #9 * (EDec 7134670781893004 14 + #40 * EVar vlmMsq / #3 + #868 * EVar vlmMst1 / #9 - #332 * EVar vlmMst2 /
   #3 + EVar vDmglst1 * (- #1613 + #1080 * EVar vlmMsq + #3684 * EVar vlmMst1 - #5796 * EVar vlmMst2) / (#27 * EVar
   vMgl)) * EPow P4 (EVar vMst1) / EPow P4 (EVar vMst2)) / #9 + #4 * EPow P4 (EVar vMst2) / (#3 * EPow P2 (EVar
   vMst1))) + (EPow P2 (EVar vMt) * EPow P2 (EVar vMuSUSY) * (- #3 * EPow P2 (EVar vs2t) * (#339 - #30 * EVar vlmMsq -
   #37 * EVar vlmMst1 + #149 * EVar vlmMst2 + (- #198 * EVar vDmglst1 + EPow P2 (EVar vMst1) * (- #30 * (#2 * EVar
   vDmglst1 + EVar vMgl) + #4 * EVar vDmglst1 * ((- #390 + #90 * EVar vlmMsq + #139 * EVar vlmMst1 - #315 * EVar
   vlmMst2) * EPow P2 (EVar vMsq) + #70 * EPow P2 (EVar vMst1)) / EPow P2 (EVar vMst2) + EVar vMgl * ((#311 + #1080 *
   EVar vlmMsq + #2196 * EVar vlmMst1 - #3348 * EVar vlmMst2) * EPow P2 (EVar vMsq) + #360 * EPow P2 (EVar vMst1)) /
   (#9 * EPow P2 (EVar vMst2))) / EPow P2 (EVar vMsq)) / EVar vMgl + #6 * EPow P2 (EVar vMst2) / EPow P2 (EVar vMst1)
   - #25 * (#4 * EVar vDmglst1 + EVar vMgl) * EPow P4 (EVar vMst1) / (#2 * EVar vMgl * EPow P4 (EVar vMsq)) + #9 *
   (EDec 7134670781893004 14 + #40 * EVar vlmMsq / #3 + #868 * EVar vlmMst1 / #9 - #332 * EVar vlmMst2 / #3 + EVar
   vDmglst1 * (- #1613 + #1080 * EVar vlmMsq + #3684 * EVar vlmMst1 - #5796 * EVar vlmMst2) / (#27 * EVar vMgl)) *
   EPow P4 (EVar vMst1) / EPow P4 (EVar vMst2)) + EVar vMt * (#4 * (#12 * (#55 + #16 * EVar vlmMst2) * (#2 * EVar
   vDmglst1 + EVar vMgl) * EVar vMt + (#3 * EVar vDmglst1 * (- #687 + #540 * EVar vlmMsq + #92 * EVar vlmMst1 - #860 *
   EVar vlmMst2) + (#2407 + #180 * EVar vlmMsq - #408 * EVar vlmMst1 + #408 * EVar vlmMst2) * EVar vMgl) * EVar vMst1
   * EVar vs2t) * EPow P2 (EVar vMst1) + #3 * EVar vs2t * (#960 * EVar vDmglst1 * EPow P2 (EVar vMsq) * EPow P5 (EVar
   vMst1) + EPow P2 (EVar vMst2) * (- #160 * (#3 * EVar vDmglst1 + EVar vMgl) * EPow P2 (EVar vMsq) * EPow P3 (EVar
   vMst1) + #4 * (#627 - #60 * EVar vlmMsq - #64 * EVar vlmMst1 + #192 * EVar vlmMst2) * (EVar vDmglst1 + EVar vMgl) *
   EVar vMst1 * EPow P4 (EVar vMsq) - #60 * (#5 * EVar vDmglst1 + EVar vMgl) * EPow P5 (EVar vMst1))) / EPow P4 (EVar
   vMsq)) / (EVar vMgl * EPow P4 (EVar vMst2))) / #27 + EVar vshiftst3 * (- #4 * EPow P2 (EVar vMst1) * EPow P2 (EVar
   vs2t) * EPow P4 (EVar vMst2) * (#2 * (- #1 + EVar vlmMst1 - EVar vlmMst2) * EPow P2 (EVar vMt) * (- (EPow P2 (EVar
   vMuSUSY) * (- #1 + EPow P2 (EVar vSbeta))) + EPow P2 (EVar vMst2) * EPow P2 (EVar vSbeta)) + EPow P2 (EVar vs2t) *
   EPow P2 (EVar vSbeta) * EPow P4 (EVar vMst2)) + EPow P2 (EVar vMt) * (#8 * (- #1 + #3 * EVar vlmMst1 - #3 * EVar
   vlmMst2) * EPow P2 (EVar vMuSUSY) * EPow P2 (EVar vs2t) * (- #1 + EPow P2 (EVar vSbeta)) * EPow P6 (EVar vMst1) +
   #4 * (- (EPow P2 (EVar vMuSUSY) * EPow P2 (EVar vs2t) * (- #1 + EPow P2 (EVar vSbeta))) + #2 * (#2 * EPow P2 (EVar
   vMt) - EPow P2 (EVar vMst2) * EPow P2 (EVar vs2t)) * EPow P2 (EVar vSbeta)) * EPow P6 (EVar vMst2)) + EPow P4 (EVar
   vMst1) * (#8 * (- #1 + #2 * EVar vlmMst1 - #2 * EVar vlmMst2) * EPow P2 (EVar vMst2) * EPow P2 (EVar vMt) * EPow P2
   (EVar vMuSUSY) * EPow P2 (EVar vs2t) * (- #1 + EPow P2 (EVar vSbeta)) + (#3 + #2 * EVar vlmMst1 - #2 * EVar
   vlmMst2) * EPow P2 (EVar vSbeta) * EPow P4 (EVar vs2t) * EPow P6 (EVar vMst2))) / (#6 * EPow P2 (EVar vMst1) * EPow
   P4 (EVar vMst2))) / EPow P2 (EVar vSbeta) - EVar vMuSUSY * (EVar vMt * EPow P3 (EVar vs2t) * ((EDec
   3382716049382716 14 - #50 * EVar vlmMsq / #3 - #281 * EVar vlmMst1 / #9 + #521 * EVar vlmMst2 / #9 + EVar vDmglst1
   * (EDec 15133333333333334 14 - #40 * EVar vlmMsq - #556 * EVar vlmMst1 / #9 + #140 * EVar vlmMst2) / EVar vMgl) *
   EPow P2 (EVar vMst1) + #2 * EVar vshiftst3 * EPow P2 (EVar vMst2) * ((- #1 - EVar vlmMst1 + EVar vlmMst2) * EPow P2
   (EVar vMst1) + EPow P2 (EVar vMst2)) / (#3 * EPow P2 (EVar vMst1)) - (#10 * (#34 * EVar vDmglst1 + #7 * EVar vMgl)
   / (#9 * EVar vMgl * EPow P2 (EVar vMsq)) + (EDec 6750720164609054 14 + #208 * EVar vlmMst1 / #3 - #208 * EVar
   vlmMst2 / #3 + EVar vDmglst1 * (#3067 + #2016 * EVar vlmMst1 - #2016 * EVar vlmMst2) / (#27 * EVar vMgl)) / EPow P2
   (EVar vMst2)) * EPow P4 (EVar vMst1) - EPow P2 (EVar vMst2) * (#666 - #60 * EVar vlmMsq - #74 * EVar vlmMst1 + #298
   * EVar vlmMst2 - (#396 * EVar vDmglst1 + #60 * (#2 * EVar vDmglst1 + EVar vMgl) * EPow P2 (EVar vMst1) / EPow P2
   (EVar vMsq) + #25 * (#4 * EVar vDmglst1 + EVar vMgl) * EPow P4 (EVar vMst1) / EPow P4 (EVar vMsq)) / EVar vMgl) /
   #18) - #2 * (#4 * EVar vs2t * EVar vshiftst3 * EPow P2 (EVar vMst2) * EPow P3 (EVar vMt) + EVar vMt * EPow P3 (EVar
   vs2t) * EPow P4 (EVar vMst2)) / (#3 * EPow P2 (EVar vMst1)) + EPow P2 (EVar vMt) * EPow P2 (EVar vs2t) * (#2 * EVar
   vMst1 * ((#627 - #60 * EVar vlmMsq - #64 * EVar vlmMst1 + #192 * EVar vlmMst2) * (EVar vDmglst1 + EVar vMgl) - #40
   * (#3 * EVar vDmglst1 + EVar vMgl) * EPow P2 (EVar vMst1) / EPow P2 (EVar vMsq)) / (#3 * EVar vMgl) + #4 * (#263 +
   #180 * EVar vlmMsq - #108 * EVar vlmMst1 - #84 * EVar vlmMst2 + (#3 * EVar vDmglst1 * (- #657 + #300 * EVar vlmMsq
   + #78 * EVar vlmMst1 - #526 * EVar vlmMst2) + #60 * (#9 * EVar vDmglst1 + EVar vMgl) * EPow P2 (EVar vMst1) / EPow
   P2 (EVar vMsq)) / EVar vMgl) * EPow P3 (EVar vMst1) / (#9 * EPow P2 (EVar vMst2)) - (#10 * (#5 * EVar vDmglst1 +
   EVar vMgl) / (EVar vMgl * EPow P4 (EVar vMsq)) - (#1789 + #720 * EVar vlmMsq + #420 * EVar vlmMst1 - #1188 * EVar
   vlmMst2 + EVar vDmglst1 * (- #6487 + #3600 * EVar vlmMsq + #6060 * EVar vlmMst1 - #11436 * EVar vlmMst2) / EVar
   vMgl) / (#9 * EPow P4 (EVar vMst2))) * EPow P5 (EVar vMst1)) + EPow P3 (EVar vMt) * (EVar vs2t * (#72 * EVar
   vDmglst1 * ((#2777 + #120 * EVar vlmMst1 + #456 * EVar vlmMst2) * EPow P2 (EVar vMst2) * EPow P4 (EVar vMst1) -
   #297 * EPow P2 (EVar vMst1) * EPow P4 (EVar vMst2) + (#931 + #1908 * EVar vlmMst1 - #2484 * EVar vlmMst2) * EPow P6
   (EVar vMst1)) + EVar vMgl * (#6 * (#17501 + #2124 * EVar vlmMst1 + #1332 * EVar vlmMst2) * EPow P2 (EVar vMst2) *
   EPow P4 (EVar vMst1) + #27 * (- #587 + #24 * EVar vlmMst1 - #24 * EVar vlmMst2) * EPow P2 (EVar vMst1) * EPow P4
   (EVar vMst2) + #4 * (#26399 + #12096 * EVar vlmMst1 - #6912 * EVar vlmMst2) * EPow P6 (EVar vMst1) + #648 * EPow P6
   (EVar vMst2))) + #144 * EVar vMt * EPow P3 (EVar vMst1) * (EVar vMgl * (((#1381 - #360 * EVar vlmMsq + #15 * EVar
   vlmMst1 + #795 * EVar vlmMst2 - #42 * EVar vlmMt) * EPow P2 (EVar vMst1) - #2 * (#4 - #48 * EVar vlmMst1 + #27 *
   EVar vlmMst2 + #21 * EVar vlmMt) * EPow P2 (EVar vMst2)) * EPow P4 (EVar vMsq) - #60 * EPow P2 (EVar vMsq) * (#3 *
   EPow P4 (EVar vMst1) - EPow P4 (EVar vMst2)) + #15 * (#3 * EPow P2 (EVar vMst1) * EPow P4 (EVar vMst2) + EPow P6
   (EVar vMst2))) + EVar vDmglst1 * (- (((- #4163 + #1080 * EVar vlmMsq + #117 * EVar vlmMst1 - #2421 * EVar vlmMst2)
   * EPow P2 (EVar vMst1) + #2 * (#4 - #48 * EVar vlmMst1 + #27 * EVar vlmMst2 + #21 * EVar vlmMt) * EPow P2 (EVar
   vMst2)) * EPow P4 (EVar vMsq)) + #60 * EPow P2 (EVar vMsq) * (- #15 * EPow P4 (EVar vMst1) + EPow P4 (EVar vMst2))
   + #15 * (#7 * EPow P2 (EVar vMst1) * EPow P4 (EVar vMst2) + EPow P6 (EVar vMst2)))) / EPow P4 (EVar vMsq)) / (#243
   * EVar vMgl * EPow P2 (EVar vMst1) * EPow P4 (EVar vMst2))) / EVar vTbeta + (- (((#36 * EVar vDmglst1 * (#7153 -
   #1080 * EVar vlmMsq + #348 * EVar vlmMst1 + #1764 * EVar vlmMst2) + (#98497 - #16200 * EVar vlmMsq + #37044 * EVar
   vlmMst1 - #11124 * EVar vlmMst2) * EVar vMgl) * EPow P4 (EVar vMsq) * EPow P4 (EVar vMst1) - #12 * EPow P2 (EVar
   vMsq) * EPow P2 (EVar vMst2) * ((#36 * EVar vDmglst1 * (#291 - #90 * EVar vlmMsq - #139 * EVar vlmMst1 + #315 *
   EVar vlmMst2) + (#5737 - #1620 * EVar vlmMsq - #2862 * EVar vlmMst1 + #6030 * EVar vlmMst2) * EVar vMgl) * EPow P2
   (EVar vMsq) * EPow P2 (EVar vMst1) - #900 * (#4 * EVar vDmglst1 + EVar vMgl) * EPow P4 (EVar vMst1)) - #54 * (#4 *
   EVar vDmglst1 * (#30 * EPow P2 (EVar vMsq) * EPow P2 (EVar vMst1) + #99 * EPow P4 (EVar vMsq) + #25 * EPow P4 (EVar
   vMst1)) + EVar vMgl * (#60 * EPow P2 (EVar vMsq) * EPow P2 (EVar vMst1) + (- #654 + #60 * EVar vlmMsq + #74 * EVar
   vlmMst1 - #298 * EVar vlmMst2) * EPow P4 (EVar vMsq) + #25 * EPow P4 (EVar vMst1))) * EPow P4 (EVar vMst2)) * EPow
   P4 (EVar vs2t)) / #3888 - EVar vMt * EPow P3 (EVar vs2t) * (#2 * (EVar vDmglst1 * (#5823 - #1980 * EVar vlmMsq -
   #660 * EVar vlmMst1 + #3732 * EVar vlmMst2) + (#1355 - #540 * EVar vlmMsq + #24 * EVar vlmMst1 + #744 * EVar
   vlmMst2) * EVar vMgl) * EPow P2 (EVar vMst2) * EPow P3 (EVar vMst1) * EPow P4 (EVar vMsq) - EPow P2 (EVar vMsq) *
   ((EVar vDmglst1 * (#1397 + #5124 * EVar vlmMst1 - #5124 * EVar vlmMst2) + (#737 + #852 * EVar vlmMst1 - #852 * EVar
   vlmMst2) * EVar vMgl) * EPow P2 (EVar vMsq) + #480 * (#6 * EVar vDmglst1 + EVar vMgl) * EPow P2 (EVar vMst2)) *
   EPow P5 (EVar vMst1) - #3 * EPow P4 (EVar vMst2) * (- #80 * (#3 * EVar vDmglst1 + EVar vMgl) * EPow P2 (EVar vMsq)
   * EPow P3 (EVar vMst1) + #2 * (#627 - #60 * EVar vlmMsq - #64 * EVar vlmMst1 + #192 * EVar vlmMst2) * (EVar
   vDmglst1 + EVar vMgl) * EVar vMst1 * EPow P4 (EVar vMsq) - #30 * (#5 * EVar vDmglst1 + EVar vMgl) * EPow P5 (EVar
   vMst1))) / (#27 * EPow P2 (EVar vMst2)) + #4 * (EPow P4 (EVar vMt) * (EVar vMgl * (#120 * EPow P2 (EVar vMsq) *
   EPow P2 (EVar vMst1) * (#4 * EPow P2 (EVar vMst1) + EPow P2 (EVar vMst2)) * EPow P4 (EVar vMst2) + #15 * EPow P2
   (EVar vMst1) * EPow P4 (EVar vMst2) * (#6 * EPow P2 (EVar vMst1) * EPow P2 (EVar vMst2) + #19 * EPow P4 (EVar
   vMst1) + #3 * EPow P4 (EVar vMst2)) + EPow P4 (EVar vMsq) * (- #2 * ((- #289 + #6 * EVar vlmMst1 - #228 * EVar
   vlmMst2 + #222 * EVar vlmMt) * EPow P2 (EVar vMst2) + #6 * (#55 + #16 * EVar vlmMst2) * EPow P2 (EVar vMuSUSY)) *
   EPow P4 (EVar vMst1) + (#392 + #360 * EVar vlmMsq - #111 * EVar vlmMst1 - #249 * EVar vlmMt) * EPow P2 (EVar vMst1)
   * EPow P4 (EVar vMst2) + (- #2383 + #900 * EVar vlmMsq + #474 * EVar vlmMst1 - #1230 * EVar vlmMst2 - #300 * EVar
   vlmMt) * EPow P6 (EVar vMst1) - #18 * EPow P6 (EVar vMst2))) + #2 * EVar vDmglst1 * (#360 * EPow P2 (EVar vMsq) *
   EPow P4 (EVar vMst1) * EPow P4 (EVar vMst2) + #390 * EPow P4 (EVar vMst2) * EPow P6 (EVar vMst1) + EPow P4 (EVar
   vMsq) * (#4 * ((#151 + #108 * EVar vlmMst2 - #108 * EVar vlmMt) * EPow P2 (EVar vMst2) - #3 * (#55 + #16 * EVar
   vlmMst2) * EPow P2 (EVar vMuSUSY)) * EPow P4 (EVar vMst1) + #297 * EPow P2 (EVar vMst1) * EPow P4 (EVar vMst2) + #6
   * (- #933 + #300 * EVar vlmMsq + #150 * EVar vlmMst1 - #462 * EVar vlmMst2 - #40 * EVar vlmMt) * EPow P6 (EVar
   vMst1)) + #90 * EPow P4 (EVar vMst1) * EPow P6 (EVar vMst2))) / EPow P2 (EVar vMst1) + EVar vMst1 * EVar vs2t *
   EPow P3 (EVar vMt) * (#120 * EVar vMgl * EPow P2 (EVar vMsq) * EPow P2 (EVar vMst2) * (EPow P2 (EVar vMst1) * (- #2
   * EPow P2 (EVar vMst2) + EPow P2 (EVar vMuSUSY)) - #6 * EPow P4 (EVar vMst1) + #2 * EPow P4 (EVar vMst2)) + EVar
   vMgl * EPow P4 (EVar vMsq) * (#3 * (- #627 + #60 * EVar vlmMsq + #64 * EVar vlmMst1 - #192 * EVar vlmMst2) * EPow
   P2 (EVar vMst2) * EPow P2 (EVar vMuSUSY) - EPow P2 (EVar vMst1) * (#12 * (- #463 + #120 * EVar vlmMsq + #27 * EVar
   vlmMst1 - #283 * EVar vlmMst2) * EPow P2 (EVar vMst2) + (#2407 + #180 * EVar vlmMsq - #408 * EVar vlmMst1 + #408 *
   EVar vlmMst2) * EPow P2 (EVar vMuSUSY)) + (#9178 - #2160 * EVar vlmMsq - #552 * EVar vlmMst1 + #4392 * EVar
   vlmMst2) * EPow P4 (EVar vMst1) + #4 * (#13 + #96 * EVar vlmMst1 - #54 * EVar vlmMst2 - #42 * EVar vlmMt) * EPow P4
   (EVar vMst2)) + EVar vDmglst1 * EPow P4 (EVar vMsq) * (#3 * (- #627 + #60 * EVar vlmMsq + #64 * EVar vlmMst1 - #192
   * EVar vlmMst2) * EPow P2 (EVar vMst2) * EPow P2 (EVar vMuSUSY) + EPow P2 (EVar vMst1) * (#4 * (#4150 - #1080 *
   EVar vlmMsq - #213 * EVar vlmMst1 + #2475 * EVar vlmMst2 + #42 * EVar vlmMt) * EPow P2 (EVar vMst2) + #3 * (#687 -
   #540 * EVar vlmMsq - #92 * EVar vlmMst1 + #860 * EVar vlmMst2) * EPow P2 (EVar vMuSUSY)) + #6 * (#7373 - #1800 *
   EVar vlmMsq - #372 * EVar vlmMst1 + #3544 * EVar vlmMst2 + #28 * EVar vlmMt) * EPow P4 (EVar vMst1) + #4 * (#13 +
   #96 * EVar vlmMst1 - #54 * EVar vlmMst2 - #42 * EVar vlmMt) * EPow P4 (EVar vMst2)) + #120 * EVar vDmglst1 * EPow
   P2 (EVar vMsq) * (- #6 * (#5 * EPow P2 (EVar vMst2) + EPow P2 (EVar vMuSUSY)) * EPow P4 (EVar vMst1) + EPow P2
   (EVar vMst1) * (#3 * EPow P2 (EVar vMst2) * EPow P2 (EVar vMuSUSY) - #2 * EPow P4 (EVar vMst2)) + #2 * EPow P6
   (EVar vMst2)) + #15 * EVar vMgl * (#3 * EPow P2 (EVar vMst2) * (- #4 * EPow P2 (EVar vMst2) + EPow P2 (EVar
   vMuSUSY)) * EPow P4 (EVar vMst1) + #8 * EPow P2 (EVar vMst1) * EPow P6 (EVar vMst2) + #4 * EPow P8 (EVar vMst2)) +
   #15 * EVar vDmglst1 * (EPow P4 (EVar vMst1) * (#15 * EPow P2 (EVar vMst2) * EPow P2 (EVar vMuSUSY) - #28 * EPow P4
   (EVar vMst2)) + #24 * EPow P2 (EVar vMst1) * EPow P6 (EVar vMst2) + #4 * EPow P8 (EVar vMst2)))) / (#27 * EPow P4
   (EVar vMst2))) / (EVar vMgl * EPow P4 (EVar vMsq)))) - EVar vAl4p * (EVar vtwoLoopFlag * (- #72 * EVar vMst1 * EVar
   vMt * EPow P3 (EVar vs2t) * (EVar vMgl * (- #2 * (#10 + #8 * EVar vlmMst1 - #4 * (#1 + EVar vlmMst1) * EVar vlmMst2
   + #3 * EPow P2 (EVar vlmMst1) + EPow P2 (EVar vlmMst2)) * EPow P2 (EVar vMst1) * EPow P2 (EVar vMst2) + (#3 + #2 *
   EVar vlmMst1 - #2 * EVar vlmMst2) * EPow P4 (EVar vMst1) + #2 * (#8 - #2 * EVar vlmMst1 + #6 * EVar vlmMst2 - EPow
   P2 (EVar vlmMst1) + EPow P2 (EVar vlmMst2)) * EPow P4 (EVar vMst2)) + EVar vDmglst1 * (- #2 * (#14 + EVar vlmMst1 *
   (#4 - #12 * EVar vlmMst2) + #7 * EPow P2 (EVar vlmMst1) + #5 * EPow P2 (EVar vlmMst2)) * EPow P2 (EVar vMst1) *
   EPow P2 (EVar vMst2) + (#19 + #18 * EVar vlmMst1 - #18 * EVar vlmMst2) * EPow P4 (EVar vMst1) + #2 * (#12 - #2 *
   EVar vlmMst1 + #6 * EVar vlmMst2 - EPow P2 (EVar vlmMst1) + EPow P2 (EVar vlmMst2)) * EPow P4 (EVar vMst2))) / EPow
   P2 (EVar vMst2) + #9 * (- #8 * EVar vDmglst1 * ((#2 - #2 * EVar vlmMst1 + EVar vlmMst2 - EPow P2 (EVar vlmMst1) +
   EPow P2 (EVar vlmMst2)) * EPow P2 (EVar vMst1) * EPow P2 (EVar vMst2) + (- #3 - #2 * EVar vlmMst1 + EVar vlmMst2 +
   EPow P2 (EVar vlmMst1) - EPow P2 (EVar vlmMst2)) * EPow P4 (EVar vMst1) + (- #1 + EVar vlmMst1) * EPow P4 (EVar
   vMst2)) + EVar vMgl * (- #4 * (- #2 * EVar vlmMst1 * (#3 + #2 * EVar vlmMst2) + EPow P2 (EVar vlmMst1) + #3 * (- #4
   - EVar vlmMst2 + EPow P2 (EVar vlmMst2))) * EPow P2 (EVar vMst1) * EPow P2 (EVar vMst2) + (- #13 + #14 * EVar
   vlmMst2 + EVar vlmMst1 * (- #26 + #8 * EVar vlmMst2) - #12 * EPow P2 (EVar vlmMst1) + #4 * EPow P2 (EVar vlmMst2))
   * EPow P4 (EVar vMst1) + #4 * (- #7 - #7 * EVar vlmMst2 + #2 * EVar vlmMst1 * (#1 + EVar vlmMst2) - #2 * EPow P2
   (EVar vlmMst2)) * EPow P4 (EVar vMst2))) * EPow P4 (EVar vs2t) + #4 * EVar vMt * (#72 * EVar vMst1 * EVar vs2t *
   EPow P2 (EVar vMt) * (EVar vMgl * ((#8 - #2 * EVar vlmMst1 + #6 * EVar vlmMst2 - EPow P2 (EVar vlmMst1) + EPow P2
   (EVar vlmMst2)) * EPow P2 (EVar vMst2) * EPow P2 (EVar vMuSUSY) + EPow P2 (EVar vMst1) * (#2 * (EVar vlmMst1 - EVar
   vlmMst2 + #2 * EVar vlmMst1 * EVar vlmMst2 - #2 * EVar vlmMst1 * EVar vlmMt + #2 * EVar vlmMst2 * EVar vlmMt) *
   EPow P2 (EVar vMst2) + (#6 + #4 * EVar vlmMst1 * (- #3 + EVar vlmMst2) + #16 * EVar vlmMst2 - #5 * EPow P2 (EVar
   vlmMst1)) * EPow P2 (EVar vMuSUSY) + EPow P2 (EVar vlmMst2) * (- #4 * EPow P2 (EVar vMst2) + EPow P2 (EVar
   vMuSUSY))) + #2 * (#4 + EVar vlmMst1 * (#5 + #2 * EVar vlmMst2 - #2 * EVar vlmMt) + EVar vlmMst2 * (- #5 + #2 *
   EVar vlmMt) - #2 * EPow P2 (EVar vlmMst2)) * EPow P4 (EVar vMst1) + (#6 - #6 * EVar vlmMst1 + #2 * EVar vlmMst2 -
   #4 * EVar vlmMst1 * EVar vlmMt + #4 * (#1 + EVar vlmMst2) * EVar vlmMt) * EPow P4 (EVar vMst2)) + EVar vDmglst1 *
   ((#12 - #2 * EVar vlmMst1 + #6 * EVar vlmMst2 - EPow P2 (EVar vlmMst1) + EPow P2 (EVar vlmMst2)) * EPow P2 (EVar
   vMst2) * EPow P2 (EVar vMuSUSY) + EPow P2 (EVar vMst1) * (#2 * (- #2 + #3 * EVar vlmMst1 - #3 * EVar vlmMst2) * (#1
   + #2 * EVar vlmMst2 - #2 * EVar vlmMt) * EPow P2 (EVar vMst2) + (#10 - #8 * EVar vlmMst1 + #12 * (#1 + EVar
   vlmMst1) * EVar vlmMst2 - #9 * EPow P2 (EVar vlmMst1) - #3 * EPow P2 (EVar vlmMst2)) * EPow P2 (EVar vMuSUSY)) +
   (#20 + #10 * EVar vlmMst1 * (#5 + #2 * EVar vlmMst2 - #2 * EVar vlmMt) + #8 * EVar vlmMt + EVar vlmMst2 * (- #58 +
   #20 * EVar vlmMt) - #20 * EPow P2 (EVar vlmMst2)) * EPow P4 (EVar vMst1) + #2 * (#8 - #5 * EVar vlmMst1 + EVar
   vlmMst2 + (#4 - #2 * EVar vlmMst1 + #2 * EVar vlmMst2) * EVar vlmMt) * EPow P4 (EVar vMst2))) + #8 * EPow P3 (EVar
   vMt) * (#2 * EVar vDmglst1 * (- #18 * (#1 + EVar vlmMt) * EPow P2 (EVar vMst1) * EPow P2 (EVar vMst2) + #18 * (#1 +
   EVar vlmMst2 * (#5 - #2 * EVar vlmMt) - #2 * EVar vlmMst1 * (#1 + EVar vlmMst2 - EVar vlmMt) - #3 * EVar vlmMt + #2
   * EPow P2 (EVar vlmMst2)) * EPow P4 (EVar vMst1) - (#1 + #12 * EVar vlmMst1 + #6 * EVar vlmMt) * EPow P4 (EVar
   vMst2)) - #9 * EVar vMgl * (#2 * (#1 + EVar vlmMt) * EPow P2 (EVar vMst1) * EPow P2 (EVar vMst2) + #2 * (EVar
   vlmMst1 * (#1 + EVar vlmMst2 - EVar vlmMt) + EVar vlmMst2 * (- #2 + EVar vlmMt) + EVar vlmMt) * EPow P4 (EVar
   vMst1) - (#3 + EVar vlmMst1 - EVar vlmMt + #2 * EVar vlmMst1 * EVar vlmMt + #2 * EVar vlmMst2 * (#1 + EVar vlmMt) +
   EPow P2 (EVar vlmMst1) - #6 * EPow P2 (EVar vlmMt)) * EPow P4 (EVar vMst2) - EPow P2 (EVar vlmMst2) * (#2 * EPow P4
   (EVar vMst1) + EPow P4 (EVar vMst2)))) - #9 * EVar vMuSUSY * (EVar vMt * EVar vMuSUSY * EVar vs2t * (#8 * EVar
   vDmglst1 * EVar vMt * (EVar vMst1 * (#12 - #2 * EVar vlmMst1 + #6 * EVar vlmMst2 - EPow P2 (EVar vlmMst1) + EPow P2
   (EVar vlmMst2)) * EPow P2 (EVar vMst2) + (#10 + #12 * EVar vlmMst2 + #4 * EVar vlmMst1 * (- #2 + #3 * EVar vlmMst2)
   - #9 * EPow P2 (EVar vlmMst1) - #3 * EPow P2 (EVar vlmMst2)) * EPow P3 (EVar vMst1)) + #8 * EVar vMgl * EVar vMt *
   (EVar vMst1 * (#8 - #2 * EVar vlmMst1 + #6 * EVar vlmMst2 - EPow P2 (EVar vlmMst1) + EPow P2 (EVar vlmMst2)) * EPow
   P2 (EVar vMst2) + (#6 + #4 * EVar vlmMst1 * (- #3 + EVar vlmMst2) + #16 * EVar vlmMst2 - #5 * EPow P2 (EVar
   vlmMst1) + EPow P2 (EVar vlmMst2)) * EPow P3 (EVar vMst1)) - #8 * EVar vDmglst1 * EVar vs2t * ((- (EVar vlmMst2 *
   (#1 + EVar vlmMst2)) + EPow P2 (EVar vlmMst1)) * EPow P2 (EVar vMst1) * EPow P2 (EVar vMst2) + (#2 + #3 * EVar
   vlmMst1 - #3 * EVar vlmMst2 + EPow P2 (EVar vlmMst1) - EPow P2 (EVar vlmMst2)) * EPow P4 (EVar vMst1) - (- #1 +
   EVar vlmMst1) * EPow P4 (EVar vMst2)) + EVar vMgl * EVar vs2t * (#4 * (#2 + #11 * EVar vlmMst2 - #2 * EVar vlmMst1
   * (#5 + #4 * EVar vlmMst2) + EPow P2 (EVar vlmMst1) + #7 * EPow P2 (EVar vlmMst2)) * EPow P2 (EVar vMst1) * EPow P2
   (EVar vMst2) + (#1 + #46 * EVar vlmMst2 - #2 * EVar vlmMst1 * (#23 + #32 * EVar vlmMst2) + #20 * EPow P2 (EVar
   vlmMst1) + #44 * EPow P2 (EVar vlmMst2)) * EPow P4 (EVar vMst1) + #4 * (#7 + #7 * EVar vlmMst2 - #2 * EVar vlmMst1
   * (#1 + EVar vlmMst2) + #2 * EPow P2 (EVar vlmMst2)) * EPow P4 (EVar vMst2))) / EPow P2 (EVar vSbeta) + (EPow P2
   (EVar vMst2) * EPow P3 (EVar vs2t) * (#8 * EVar vDmglst1 * ((- #1 + EVar vlmMst1 - EVar vlmMst2 + EPow P2 (EVar
   vlmMst1) - EPow P2 (EVar vlmMst2)) * EPow P2 (EVar vMst1) * EPow P2 (EVar vMst2) + (#2 + #3 * EVar vlmMst1 - #2 *
   EVar vlmMst2) * EPow P4 (EVar vMst1) - (- #1 + EVar vlmMst1) * EPow P4 (EVar vMst2)) + EVar vMgl * (- #4 * (- #5 +
   #4 * EVar vlmMst2 - #2 * EVar vlmMst1 * (#4 + #3 * EVar vlmMst2) + EPow P2 (EVar vlmMst1) + #5 * EPow P2 (EVar
   vlmMst2)) * EPow P2 (EVar vMst1) * EPow P2 (EVar vMst2) + (#7 - #2 * EVar vlmMst2 + EVar vlmMst1 * (#6 + #32 * EVar
   vlmMst2) - #16 * (EPow P2 (EVar vlmMst1) + EPow P2 (EVar vlmMst2))) * EPow P4 (EVar vMst1) - #4 * ((#7 - #2 * EVar
   vlmMst1) * (#1 + EVar vlmMst2) + #2 * EPow P2 (EVar vlmMst2)) * EPow P4 (EVar vMst2))) - #8 * EVar vs2t * EPow P2
   (EVar vMt) * (EVar vDmglst1 * (#4 * (#1 + EVar vlmMst2) * EPow P2 (EVar vMst1) * EPow P2 (EVar vMst2) + (#4 - #8 *
   EVar vlmMst1 + #8 * EVar vlmMst2) * EPow P4 (EVar vMst1) + #2 * (#1 - #2 * EVar vlmMst1) * EPow P4 (EVar vMst2)) +
   EVar vMgl * (#2 * EPow P2 (EVar vMst1) * EPow P2 (EVar vMst2) + #2 * EVar vlmMst2 * (EPow P2 (EVar vMst1) * EPow P2
   (EVar vMst2) + EPow P4 (EVar vMst1) - #2 * EPow P4 (EVar vMst2)) + EPow P2 (EVar vlmMst1) * (- #2 * EPow P2 (EVar
   vMst1) * EPow P2 (EVar vMst2) - #2 * EPow P4 (EVar vMst1) + EPow P4 (EVar vMst2)) - EPow P2 (EVar vlmMst2) * (#2 *
   EPow P2 (EVar vMst1) * EPow P2 (EVar vMst2) + #2 * EPow P4 (EVar vMst1) + #3 * EPow P4 (EVar vMst2)) + #2 * EVar
   vlmMst1 * (#2 * EVar vlmMst2 * EPow P2 (EVar vMst1) * EPow P2 (EVar vMst2) + (- #1 + #2 * EVar vlmMst2) * EPow P4
   (EVar vMst1) + (#1 + EVar vlmMst2) * EPow P4 (EVar vMst2)))) + EVar vMst1 * (#32 * ((EVar vDmglst1 * (#5 - EVar
   vlmMst2 + EVar vlmMst1 * (- #3 + #3 * EVar vlmMst2 - #4 * EVar vlmMt) + #4 * EVar vlmMt + #4 * EVar vlmMst2 * EVar
   vlmMt - #3 * EPow P2 (EVar vlmMst2)) + EVar vMgl * (#2 + EVar vlmMst2 + EVar vlmMst1 * (- #2 + EVar vlmMst2 - #2 *
   EVar vlmMt) + EVar vlmMt + #2 * EVar vlmMst2 * EVar vlmMt - EPow P2 (EVar vlmMst2))) * EPow P2 (EVar vMst1) + (EVar
   vDmglst1 * (#5 + EVar vlmMst2 + (#2 + EVar vlmMst2) * EVar vlmMt - EVar vlmMst1 * (#3 + EVar vlmMt)) + (#2 + EVar
   vlmMst2 + EVar vlmMt + EVar vlmMst2 * EVar vlmMt - EVar vlmMst1 * (#2 + EVar vlmMt)) * EVar vMgl) * EPow P2 (EVar
   vMst2)) * EPow P3 (EVar vMt) - #6 * EVar vMt * EPow P2 (EVar vs2t) * (- (EVar vMgl * (#4 * (#1 + #5 * EVar vlmMst1
   - #5 * EVar vlmMst2 - #2 * EVar vlmMst1 * EVar vlmMst2 + #2 * EPow P2 (EVar vlmMst1)) * EPow P2 (EVar vMst1) * EPow
   P2 (EVar vMst2) + (#1 + #18 * EVar vlmMst1 - #18 * EVar vlmMst2 - #8 * EVar vlmMst1 * EVar vlmMst2 + #8 * EPow P2
   (EVar vlmMst1)) * EPow P4 (EVar vMst1) + #2 * (- #8 + #2 * EVar vlmMst1 - #6 * EVar vlmMst2 + EPow P2 (EVar
   vlmMst1) - EPow P2 (EVar vlmMst2)) * EPow P4 (EVar vMst2))) + EVar vDmglst1 * (- #4 * (#1 + #3 * EVar vlmMst1 - #3
   * EVar vlmMst2 - #6 * EVar vlmMst1 * EVar vlmMst2 + #4 * EPow P2 (EVar vlmMst1) + #2 * EPow P2 (EVar vlmMst2)) *
   EPow P2 (EVar vMst1) * EPow P2 (EVar vMst2) + (#15 + #6 * EVar vlmMst1 - #6 * EVar vlmMst2 + #24 * EVar vlmMst1 *
   EVar vlmMst2 - #16 * EPow P2 (EVar vlmMst1) - #8 * EPow P2 (EVar vlmMst2)) * EPow P4 (EVar vMst1) + #2 * (#12 - #2
   * EVar vlmMst1 + #6 * EVar vlmMst2 - EPow P2 (EVar vlmMst1) + EPow P2 (EVar vlmMst2)) * EPow P4 (EVar vMst2))))) /
   EVar vTbeta) + #9 * EVar vMt * EPow P2 (EVar vs2t) * (EVar vMgl * ((#8 * (#1 + EVar vlmMst1) * EPow P2 (EVar vMst2)
   + (#1 + #46 * EVar vlmMst2 - #2 * EVar vlmMst1 * (#23 + #32 * EVar vlmMst2) + #20 * EPow P2 (EVar vlmMst1) + #44 *
   EPow P2 (EVar vlmMst2)) * EPow P2 (EVar vMuSUSY)) * EPow P4 (EVar vMst1) - #4 * (((- (EVar vlmMst2 * (#4 + #3 *
   EVar vlmMst2)) + EPow P2 (EVar vlmMst1)) * EPow P2 (EVar vMst2) - (#7 + #7 * EVar vlmMst2 + #2 * EPow P2 (EVar
   vlmMst2)) * EPow P2 (EVar vMuSUSY) + #2 * EVar vlmMst1 * (#1 + EVar vlmMst2) * (EPow P2 (EVar vMst2) + EPow P2
   (EVar vMuSUSY))) * EPow P4 (EVar vMst2) + EPow P2 (EVar vMst1) * (- ((#2 + #11 * EVar vlmMst2 - #2 * EVar vlmMst1 *
   (#5 + #4 * EVar vlmMst2) + EPow P2 (EVar vlmMst1) + #7 * EPow P2 (EVar vlmMst2)) * EPow P2 (EVar vMst2) * EPow P2
   (EVar vMuSUSY)) + (#2 + #2 * EVar vlmMst1 * (- #1 + EVar vlmMst2) + #6 * EVar vlmMst2 - #3 * EPow P2 (EVar vlmMst1)
   + EPow P2 (EVar vlmMst2)) * EPow P4 (EVar vMst2)))) - #8 * EVar vDmglst1 * (EPow P2 (EVar vMuSUSY) * ((EPow P2
   (EVar vlmMst1) - EPow P2 (EVar vlmMst2)) * EPow P2 (EVar vMst1) * (EPow P2 (EVar vMst1) + EPow P2 (EVar vMst2)) +
   #2 * EPow P4 (EVar vMst1) + EPow P4 (EVar vMst2)) - EVar vlmMst1 * ((#4 * EPow P2 (EVar vMst2) - #3 * EPow P2 (EVar
   vMuSUSY)) * EPow P4 (EVar vMst1) - #2 * EPow P2 (EVar vMst1) * EPow P4 (EVar vMst2) + (#2 * EPow P2 (EVar vMst2) +
   EPow P2 (EVar vMuSUSY)) * EPow P4 (EVar vMst2)) + EPow P2 (EVar vMst1) * (EPow P4 (EVar vMst2) + EVar vlmMst2 *
   (EPow P2 (EVar vMst1) * (#2 * EPow P2 (EVar vMst2) - #3 * EPow P2 (EVar vMuSUSY)) - EPow P2 (EVar vMst2) * EPow P2
   (EVar vMuSUSY) + #2 * EPow P4 (EVar vMst2))) + EPow P6 (EVar vMst2)))) / EPow P4 (EVar vMst2)) / (#216 * EVar vMgl)
   + (EConst Cz2 * (#6 * EVar vMgl * EVar vtwoLoopFlag * EPow P4 (EVar vMsq) * (EVar vTbeta * EPow P2 (EVar vSbeta) *
   (EPow P3 (EVar vMt) * (#16 * EVar vs2t * ((EVar vDmglst1 + EVar vMgl) * EVar vMst1 * EPow P2 (EVar vMst2) * EPow P2
   (EVar vMuSUSY) - (#4 * (#3 * EVar vDmglst1 + EVar vMgl) * EPow P2 (EVar vMst2) + (#3 * EVar vDmglst1 - EVar vMgl) *
   EPow P2 (EVar vMuSUSY)) * EPow P3 (EVar vMst1)) + #32 * ((#4 * EVar vDmglst1 + EVar vMgl) * EVar vMt - #2 * (#5 *
   EVar vDmglst1 + EVar vMgl) * EVar vMst1 * EVar vs2t) * EPow P4 (EVar vMst1)) - #4 * EPow P2 (EVar vMt) * EPow P2
   (EVar vMuSUSY) * EPow P2 (EVar vs2t) * (- #4 * EVar vDmglst1 * EPow P2 (EVar vMst1) * (EPow P2 (EVar vMst1) + EPow
   P2 (EVar vMst2)) + EVar vMgl * EPow P4 (EVar vMst2)) + EPow P3 (EVar vs2t) * EPow P4 (EVar vMst2) * (- #8 * (EVar
   vDmglst1 + EVar vMgl) * EVar vMst1 * EVar vMt * EPow P2 (EVar vMst2) - #2 * (#2 * EVar vDmglst1 + EVar vMgl) * EVar
   vs2t * EPow P2 (EVar vMst1) * EPow P2 (EVar vMst2) + #8 * (#5 * EVar vDmglst1 + EVar vMgl) * EVar vMt * EPow P3
   (EVar vMst1) + (#4 * EVar vDmglst1 + EVar vMgl) * EVar vs2t * EPow P4 (EVar vMst1) + EVar vMgl * EVar vs2t * EPow
   P4 (EVar vMst2))) + #4 * EVar vMt * EVar vMuSUSY * (EVar vMt * EVar vMuSUSY * EVar vs2t * EVar vTbeta * (- #4 *
   (EVar vDmglst1 + EVar vMgl) * EVar vMst1 * EVar vMt * EPow P2 (EVar vMst2) - #4 * EVar vDmglst1 * EVar vs2t * EPow
   P2 (EVar vMst1) * (EPow P2 (EVar vMst1) + EPow P2 (EVar vMst2)) + #4 * (#3 * EVar vDmglst1 - EVar vMgl) * EVar vMt
   * EPow P3 (EVar vMst1) + EVar vMgl * EVar vs2t * EPow P4 (EVar vMst2)) + EPow P2 (EVar vSbeta) * (#16 * (#3 * EVar
   vDmglst1 + EVar vMgl) * EPow P3 (EVar vMst1) * EPow P3 (EVar vMt) + ((#4 * EVar vDmglst1 + EVar vMgl) * EPow P2
   (EVar vMst1) - EVar vMgl * EPow P2 (EVar vMst2)) * EPow P3 (EVar vs2t) * EPow P4 (EVar vMst2) + #6 * EVar vMt *
   EPow P2 (EVar vs2t) * (- #4 * EVar vDmglst1 * (EPow P2 (EVar vMst1) + EPow P2 (EVar vMst2)) * EPow P3 (EVar vMst1)
   + (EVar vDmglst1 + EVar vMgl) * EVar vMst1 * EPow P4 (EVar vMst2))))) + EVar vxDmglst1 * EPow P2 (EVar vDmglst1) *
   (#12 * EVar vtwoLoopFlag * EPow P4 (EVar vMsq) * (#12 * EVar vMt * EVar vMuSUSY * EPow P2 (EVar vSbeta) * (#16 *
   EPow P3 (EVar vMst1) * EPow P3 (EVar vMt) + EPow P2 (EVar vMst1) * EPow P3 (EVar vs2t) * EPow P4 (EVar vMst2) +
   EVar vMt * EPow P2 (EVar vs2t) * (- #10 * (EPow P2 (EVar vMst1) + EPow P2 (EVar vMst2)) * EPow P3 (EVar vMst1) +
   EVar vMst1 * EPow P4 (EVar vMst2))) + EVar vTbeta * (#4 * EVar vMst1 * EVar vs2t * EPow P2 (EVar vMt) * ((#2 * EVar
   vMt * (#9 * EPow P2 (EVar vMst1) - EPow P2 (EVar vMst2)) - #3 * EVar vMst1 * EVar vs2t * (EPow P2 (EVar vMst1) +
   EPow P2 (EVar vMst2))) * EPow P2 (EVar vMuSUSY) - #6 * EVar vMt * EPow P2 (EVar vMst1) * (#8 * EPow P2 (EVar vMst2)
   + #3 * EPow P2 (EVar vMuSUSY)) * EPow P2 (EVar vSbeta)) + EPow P2 (EVar vSbeta) * (#160 * (EVar vMt - #3 * EVar
   vMst1 * EVar vs2t) * EPow P3 (EVar vMt) * EPow P4 (EVar vMst1) + #4 * EVar vs2t * EPow P2 (EVar vMt) * EPow P2
   (EVar vMuSUSY) * (EVar vMst1 * (#2 * EVar vMt + #3 * EVar vMst1 * EVar vs2t) * EPow P2 (EVar vMst2) + #3 * EVar
   vs2t * EPow P4 (EVar vMst1)) + EVar vMst1 * (#44 * EVar vMt * EPow P2 (EVar vMst1) - #4 * EVar vMt * EPow P2 (EVar
   vMst2) - #3 * EVar vMst1 * EVar vs2t * EPow P2 (EVar vMst2) + #3 * EVar vs2t * EPow P3 (EVar vMst1)) * EPow P3
   (EVar vs2t) * EPow P4 (EVar vMst2)))) + EVar vAl4p * EVar vthreeLoopFlag * (EVar vTbeta * EPow P2 (EVar vSbeta) *
   (#4 * EPow P2 (EVar vMt) * EPow P2 (EVar vs2t) * (EPow P4 (EVar vMsq) * (- #12 * EPow P2 (EVar vMst1) * EPow P2
   (EVar vMst2) * (#2 * (#1537 + #60 * EVar vlmMst1 + #228 * EVar vlmMst2) * EPow P2 (EVar vMst2) + #3 * (- #390 + #90
   * EVar vlmMsq + #139 * EVar vlmMst1 - #315 * EVar vlmMst2) * EPow P2 (EVar vMuSUSY)) + (#8 * (#7429 - #4506 * EVar
   vlmMst1 + #8538 * EVar vlmMst2) * EPow P2 (EVar vMst2) - (#2903 + #3240 * EVar vlmMsq + #10956 * EVar vlmMst1 -
   #17292 * EVar vlmMst2) * EPow P2 (EVar vMuSUSY)) * EPow P4 (EVar vMst1) + #1782 * (#2 * EPow P2 (EVar vMst2) + EPow
   P2 (EVar vMuSUSY)) * EPow P4 (EVar vMst2)) + EPow P2 (EVar vMuSUSY) * (#750 * EPow P4 (EVar vMst1) * EPow P4 (EVar
   vMst2) - #60 * EPow P2 (EVar vMsq) * (#82 * EPow P2 (EVar vMst2) * EPow P4 (EVar vMst1) - #9 * EPow P2 (EVar vMst1)
   * EPow P4 (EVar vMst2)))) - EPow P4 (EVar vMst2) * (#750 * EPow P4 (EVar vMst1) * EPow P4 (EVar vMst2) + EPow P4
   (EVar vMsq) * (- #36 * (- #291 + #90 * EVar vlmMsq + #139 * EVar vlmMst1 - #315 * EVar vlmMst2) * EPow P2 (EVar
   vMst1) * EPow P2 (EVar vMst2) + (- #29201 + #3240 * EVar vlmMsq - #948 * EVar vlmMst1 - #5388 * EVar vlmMst2) *
   EPow P4 (EVar vMst1) + #1782 * EPow P4 (EVar vMst2)) - #60 * EPow P2 (EVar vMsq) * (#100 * EPow P2 (EVar vMst2) *
   EPow P4 (EVar vMst1) - #9 * EPow P2 (EVar vMst1) * EPow P4 (EVar vMst2))) * EPow P4 (EVar vs2t) + #72 * EVar vMt *
   EPow P2 (EVar vMst2) * EPow P3 (EVar vs2t) * (#150 * EPow P4 (EVar vMst2) * EPow P5 (EVar vMst1) - EPow P4 (EVar
   vMsq) * (#2 * (- #4315 + #1380 * EVar vlmMsq + #562 * EVar vlmMst1 - #2738 * EVar vlmMst2) * EPow P2 (EVar vMst2) *
   EPow P3 (EVar vMst1) + #2 * (#627 - #60 * EVar vlmMsq - #64 * EVar vlmMst1 + #192 * EVar vlmMst2) * EVar vMst1 *
   EPow P4 (EVar vMst2) + (#445 + #4516 * EVar vlmMst1 - #4516 * EVar vlmMst2) * EPow P5 (EVar vMst1)) / #3 - #80 *
   EPow P2 (EVar vMsq) * (- #2 * EPow P3 (EVar vMst1) * EPow P4 (EVar vMst2) + #13 * EPow P2 (EVar vMst2) * EPow P5
   (EVar vMst1))) - #32 * EVar vMst1 * EVar vs2t * EPow P3 (EVar vMt) * (EPow P4 (EVar vMsq) * (#3 * (- #627 + #60 *
   EVar vlmMsq + #64 * EVar vlmMst1 - #192 * EVar vlmMst2) * EPow P2 (EVar vMst2) * EPow P2 (EVar vMuSUSY) + EPow P2
   (EVar vMst1) * ((#33166 - #8640 * EVar vlmMsq - #1644 * EVar vlmMst1 + #19656 * EVar vlmMst2 + #420 * EVar vlmMt) *
   EPow P2 (EVar vMst2) + #3 * (#3061 - #1260 * EVar vlmMsq - #434 * EVar vlmMst1 + #2354 * EVar vlmMst2) * EPow P2
   (EVar vMuSUSY)) + (#129748 - #32400 * EVar vlmMsq - #5232 * EVar vlmMst1 + #61932 * EVar vlmMst2 + #900 * EVar
   vlmMt) * EPow P4 (EVar vMst1) + #4 * (#13 + #96 * EVar vlmMst1 - #54 * EVar vlmMst2 - #42 * EVar vlmMt) * EPow P4
   (EVar vMst2)) - #120 * EPow P2 (EVar vMsq) * (#9 * (#10 * EPow P2 (EVar vMst2) + #3 * EPow P2 (EVar vMuSUSY)) *
   EPow P4 (EVar vMst1) + #2 * EPow P2 (EVar vMst1) * (- #3 * EPow P2 (EVar vMst2) * EPow P2 (EVar vMuSUSY) + EPow P4
   (EVar vMst2)) - #2 * EPow P6 (EVar vMst2)) + #15 * EPow P2 (EVar vMst2) * ((- #52 * EPow P2 (EVar vMst2) + #45 *
   EPow P2 (EVar vMuSUSY)) * EPow P4 (EVar vMst1) + #48 * EPow P2 (EVar vMst1) * EPow P4 (EVar vMst2) + #4 * EPow P6
   (EVar vMst2))) - #24 * EPow P4 (EVar vMt) * (#1440 * EPow P2 (EVar vMsq) * EPow P2 (EVar vMst1) * EPow P4 (EVar
   vMst2) + #4 * EPow P4 (EVar vMsq) * (#4 * EPow P2 (EVar vMst1) * ((#151 + #108 * EVar vlmMst2 - #108 * EVar vlmMt)
   * EPow P2 (EVar vMst2) - #3 * (#55 + #16 * EVar vlmMst2) * EPow P2 (EVar vMuSUSY)) + #4 * (- #2517 + #750 * EVar
   vlmMsq + #361 * EVar vlmMst1 - #1198 * EVar vlmMst2 - #43 * EVar vlmMt) * EPow P4 (EVar vMst1) + #297 * EPow P4
   (EVar vMst2)) + #40 * (#59 * EPow P4 (EVar vMst1) * EPow P4 (EVar vMst2) + #9 * EPow P2 (EVar vMst1) * EPow P6
   (EVar vMst2)))) + #4 * EVar vMt * EVar vMuSUSY * (EVar vMt * EVar vMuSUSY * EVar vTbeta * (EPow P4 (EVar vMsq) *
   (#24 * EVar vMst1 * EVar vMt * EVar vs2t * ((#3061 - #1260 * EVar vlmMsq - #434 * EVar vlmMst1 + #2354 * EVar
   vlmMst2) * EPow P2 (EVar vMst1) + (- #627 + #60 * EVar vlmMsq + #64 * EVar vlmMst1 - #192 * EVar vlmMst2) * EPow P2
   (EVar vMst2)) - #36 * EPow P2 (EVar vMst1) * (#8 * (#55 + #16 * EVar vlmMst2) * EPow P2 (EVar vMt) + (#390 - #90 *
   EVar vlmMsq - #139 * EVar vlmMst1 + #315 * EVar vlmMst2) * EPow P2 (EVar vMst2) * EPow P2 (EVar vs2t)) + EPow P2
   (EVar vs2t) * ((#2903 + #3240 * EVar vlmMsq + #10956 * EVar vlmMst1 - #17292 * EVar vlmMst2) * EPow P4 (EVar vMst1)
   - #1782 * EPow P4 (EVar vMst2))) + EVar vs2t * (#150 * EPow P2 (EVar vMst2) * (#36 * EVar vMst1 * EVar vMt - #5 *
   EVar vs2t * EPow P2 (EVar vMst2)) * EPow P4 (EVar vMst1) - #60 * EPow P2 (EVar vMsq) * EPow P2 (EVar vMst1) * (-
   #96 * EVar vMst1 * EVar vMt * EPow P2 (EVar vMst2) - #82 * EVar vs2t * EPow P2 (EVar vMst1) * EPow P2 (EVar vMst2)
   + #432 * EVar vMt * EPow P3 (EVar vMst1) + #9 * EVar vs2t * EPow P4 (EVar vMst2)))) + EPow P2 (EVar vSbeta) * (-
   (EPow P4 (EVar vMsq) * (EPow P2 (EVar vMst2) * (#4 * EVar vMst1 * EVar vMt * (#16 * (#4 - #48 * EVar vlmMst1 + #27
   * EVar vlmMst2 + #21 * EVar vlmMt) * EPow P2 (EVar vMt) + #9 * (- #627 + #60 * EVar vlmMsq + #64 * EVar vlmMst1 -
   #192 * EVar vlmMst2) * EPow P2 (EVar vMst2) * EPow P2 (EVar vs2t)) - #6 * EVar vs2t * EPow P2 (EVar vMst1) * (#4 *
   (#2777 + #120 * EVar vlmMst1 + #456 * EVar vlmMst2) * EPow P2 (EVar vMt) + #3 * (#681 - #180 * EVar vlmMsq - #278 *
   EVar vlmMst1 + #630 * EVar vlmMst2) * EPow P2 (EVar vMst2) * EPow P2 (EVar vs2t))) + EVar vs2t * (#8 * (#6527 -
   #9372 * EVar vlmMst1 + #15708 * EVar vlmMst2) * EPow P2 (EVar vMt) + (#16943 + #5952 * EVar vlmMst1 - #5952 * EVar
   vlmMst2) * EPow P2 (EVar vMst2) * EPow P2 (EVar vs2t)) * EPow P4 (EVar vMst1) + EVar vMt * (- #8 * (#4 * (#8336 -
   #2160 * EVar vlmMsq - #315 * EVar vlmMst1 + #4860 * EVar vlmMst2 + #63 * EVar vlmMt) * EPow P2 (EVar vMt) + #9 * (-
   #1844 + #660 * EVar vlmMsq + #249 * EVar vlmMst1 - #1273 * EVar vlmMst2) * EPow P2 (EVar vMst2) * EPow P2 (EVar
   vs2t)) * EPow P3 (EVar vMst1) + #18 * (#6931 - #2640 * EVar vlmMsq - #5512 * EVar vlmMst1 + #9608 * EVar vlmMst2) *
   EPow P2 (EVar vs2t) * EPow P5 (EVar vMst1)) - #1782 * (- #4 * EVar vs2t * EPow P2 (EVar vMt) * EPow P4 (EVar vMst2)
   + EPow P3 (EVar vs2t) * EPow P6 (EVar vMst2)))) + EVar vMst1 * (#30 * (#16 * (#13 * EPow P2 (EVar vMst1) + EPow P2
   (EVar vMst2)) * EPow P3 (EVar vMt) + #25 * EPow P2 (EVar vMst2) * EPow P3 (EVar vMst1) * EPow P3 (EVar vs2t) - #270
   * EVar vMt * EPow P2 (EVar vs2t) * EPow P4 (EVar vMst1)) * EPow P4 (EVar vMst2) + #60 * EPow P2 (EVar vMsq) * (-
   #72 * (- #11 * EVar vMt * EPow P2 (EVar vMst2) * EPow P2 (EVar vs2t) + #20 * EPow P3 (EVar vMt)) * EPow P4 (EVar
   vMst1) + (- #144 * EVar vMt * EPow P2 (EVar vMst1) * EPow P2 (EVar vs2t) + #32 * EPow P3 (EVar vMt) - #91 * EPow P3
   (EVar vMst1) * EPow P3 (EVar vs2t)) * EPow P4 (EVar vMst2) + #9 * EVar vMst1 * EPow P3 (EVar vs2t) * EPow P6 (EVar
   vMst2)))))) / #6)) / (#36 * EVar vTbeta * EPow P2 (EVar vSbeta) * EPow P4 (EVar vMsq) * EPow P4 (EVar vMst2)) +
   EVar vxDmglst1 * EPow P2 (EVar vDmglst1) * (EVar vtwoLoopFlag * (#9 * (- #3 * (#4 - #2 * EVar vlmMst1 + EVar
   vlmMst2 - EPow P2 (EVar vlmMst1) + EPow P2 (EVar vlmMst2)) * EPow P2 (EVar vMst1) * EPow P2 (EVar vMst2) + #3 * (#4
   + #4 * EVar vlmMst1 - #3 * EVar vlmMst2 - EPow P2 (EVar vlmMst1) + EPow P2 (EVar vlmMst2)) * EPow P4 (EVar vMst1) +
   (#4 - #3 * EVar vlmMst1) * EPow P4 (EVar vMst2)) * EPow P4 (EVar vs2t) - #18 * EVar vMt * EPow P3 (EVar vs2t) * (-
   #2 * (#30 + #14 * EVar vlmMst2 - #2 * EVar vlmMst1 * (#5 + #12 * EVar vlmMst2) + #13 * EPow P2 (EVar vlmMst1) + #11
   * EPow P2 (EVar vlmMst2)) * EPow P2 (EVar vMst2) * EPow P3 (EVar vMst1) + #2 * EVar vMst1 * (#16 - #2 * EVar
   vlmMst1 + #6 * EVar vlmMst2 - EPow P2 (EVar vlmMst1) + EPow P2 (EVar vlmMst2)) * EPow P4 (EVar vMst2) + (#43 + #66
   * EVar vlmMst1 - #66 * EVar vlmMst2) * EPow P5 (EVar vMst1)) / EPow P2 (EVar vMst2) + #2 * EVar vMt * (#8 * EPow P3
   (EVar vMt) * (- #27 * (#1 + EVar vlmMt) * EPow P2 (EVar vMst1) * EPow P2 (EVar vMst2) + #9 * (#9 + EVar vlmMst2 *
   (#29 - #10 * EVar vlmMt) - #10 * EVar vlmMst1 * (#1 + EVar vlmMst2 - EVar vlmMt) - #19 * EVar vlmMt + #10 * EPow P2
   (EVar vlmMst2)) * EPow P4 (EVar vMst1) + (#11 - #21 * EVar vlmMst1 - #6 * EVar vlmMt) * EPow P4 (EVar vMst2)) + #2
   * EVar vMt * EVar vs2t * (#2 * EVar vMst1 * EVar vMt * (#9 * (#16 - #2 * EVar vlmMst1 + #6 * EVar vlmMst2 - EPow P2
   (EVar vlmMst1) + EPow P2 (EVar vlmMst2)) * EPow P2 (EVar vMst2) * EPow P2 (EVar vMuSUSY) - #9 * EPow P2 (EVar
   vMst1) * (#2 * (#7 - #6 * EVar vlmMst1 + #6 * EVar vlmMst2) * (#1 + #2 * EVar vlmMst2 - #2 * EVar vlmMt) * EPow P2
   (EVar vMst2) + (- #2 + #2 * EVar vlmMst2 - #6 * EVar vlmMst1 * (#1 + #4 * EVar vlmMst2) + #15 * EPow P2 (EVar
   vlmMst1) + #9 * EPow P2 (EVar vlmMst2)) * EPow P2 (EVar vMuSUSY)) + #18 * (#5 + #15 * EVar vlmMst1 * (#5 + #2 *
   EVar vlmMst2 - #2 * EVar vlmMt) + #22 * EVar vlmMt + EVar vlmMst2 * (- #97 + #30 * EVar vlmMt) - #30 * EPow P2
   (EVar vlmMst2)) * EPow P4 (EVar vMst1) + (#251 + #102 * EVar vlmMt + #18 * EVar vlmMst2 * (#1 + #2 * EVar vlmMt) -
   #12 * EVar vlmMst1 * (#10 + #3 * EVar vlmMt)) * EPow P4 (EVar vMst2)) + #9 * EPow P2 (EVar vMuSUSY) * (#2 * EVar
   vMst1 * EVar vMt * (- #16 + #2 * EVar vlmMst1 - #6 * EVar vlmMst2 + EPow P2 (EVar vlmMst1) - EPow P2 (EVar
   vlmMst2)) * EPow P2 (EVar vMst2) + EVar vs2t * (- #4 - #3 * EVar vlmMst2 + #3 * EPow P2 (EVar vlmMst1) - #3 * EPow
   P2 (EVar vlmMst2)) * EPow P2 (EVar vMst1) * EPow P2 (EVar vMst2) + #2 * EVar vMt * (- #2 + #2 * EVar vlmMst2 - #6 *
   EVar vlmMst1 * (#1 + #4 * EVar vlmMst2) + #15 * EPow P2 (EVar vlmMst1) + #9 * EPow P2 (EVar vlmMst2)) * EPow P3
   (EVar vMst1) + #3 * EVar vs2t * (#5 * EVar vlmMst1 - EVar vlmMst2 * (#5 + EVar vlmMst2) + EPow P2 (EVar vlmMst1)) *
   EPow P4 (EVar vMst1) + (#4 - #3 * EVar vlmMst1) * EVar vs2t * EPow P4 (EVar vMst2)) / EPow P2 (EVar vSbeta)) - EVar
   vMuSUSY * (#8 * (#151 + #51 * EVar vlmMt + #18 * EVar vlmMst2 * (#1 + EVar vlmMt) - #3 * EVar vlmMst1 * (#23 + #6 *
   EVar vlmMt)) * EVar vMst1 * EPow P2 (EVar vMst2) * EPow P3 (EVar vMt) + #4 * EPow P3 (EVar vMst1) * (#27 * EVar vMt
   * (#7 + #4 * EVar vlmMst2 - #4 * EVar vlmMst1 * (#1 + #3 * EVar vlmMst2) + #7 * EPow P2 (EVar vlmMst1) + #5 * EPow
   P2 (EVar vlmMst2)) * EPow P2 (EVar vMst2) * EPow P2 (EVar vs2t) + #2 * (#151 + #3 * EVar vlmMst1 * (- #23 + #36 *
   EVar vlmMst2 - #42 * EVar vlmMt) + #177 * EVar vlmMt + #18 * EVar vlmMst2 * (- #6 + #7 * EVar vlmMt) - #108 * EPow
   P2 (EVar vlmMst2)) * EPow P3 (EVar vMt)) + #18 * (#4 * (- #9 + #10 * EVar vlmMst1 - #10 * EVar vlmMst2) * EVar vs2t
   * EPow P2 (EVar vMt) + (#4 + #15 * EVar vlmMst1 - #12 * EVar vlmMst2) * EPow P2 (EVar vMst2) * EPow P3 (EVar vs2t))
   * EPow P4 (EVar vMst1) + #54 * EVar vMst1 * EVar vMt * (- #16 + #2 * EVar vlmMst1 - #6 * EVar vlmMst2 + EPow P2
   (EVar vlmMst1) - EPow P2 (EVar vlmMst2)) * EPow P2 (EVar vs2t) * EPow P4 (EVar vMst2) + #6 * EVar vs2t * ((- #34 +
   #36 * EVar vlmMst1) * EPow P2 (EVar vMt) + #3 * (#4 - #3 * EVar vlmMst1) * EPow P2 (EVar vMst2) * EPow P2 (EVar
   vs2t)) * EPow P4 (EVar vMst2) - #18 * EPow P2 (EVar vMst1) * (#12 * (#1 + EVar vlmMst2) * EVar vs2t * EPow P2 (EVar
   vMst2) * EPow P2 (EVar vMt) + (#8 - #3 * EVar vlmMst1 + #3 * EVar vlmMst2 - #3 * EPow P2 (EVar vlmMst1) + #3 * EPow
   P2 (EVar vlmMst2)) * EPow P3 (EVar vs2t) * EPow P4 (EVar vMst2)) + #27 * EVar vMt * (- #15 + #82 * EVar vlmMst2 -
   #2 * EVar vlmMst1 * (#41 + #24 * EVar vlmMst2) + #28 * EPow P2 (EVar vlmMst1) + #20 * EPow P2 (EVar vlmMst2)) *
   EPow P2 (EVar vs2t) * EPow P5 (EVar vMst1)) / EVar vTbeta - #6 * EVar vMt * EPow P2 (EVar vs2t) * (((#36 - #60 *
   EVar vlmMst1 + #42 * EVar vlmMst2) * EPow P2 (EVar vMst2) + #9 * (#5 * EVar vlmMst1 - EVar vlmMst2 * (#5 + EVar
   vlmMst2) + EPow P2 (EVar vlmMst1)) * EPow P2 (EVar vMuSUSY)) * EPow P4 (EVar vMst1) + #3 * (#4 - #3 * EVar vlmMst1)
   * EPow P2 (EVar vMuSUSY) * EPow P4 (EVar vMst2) + EPow P2 (EVar vMst1) * (- #3 * (#4 + #3 * EVar vlmMst2 * (#1 +
   EVar vlmMst2) - #3 * EPow P2 (EVar vlmMst1)) * EPow P2 (EVar vMst2) * EPow P2 (EVar vMuSUSY) + (#1 + #18 * (EVar
   vlmMst1 + EVar vlmMst2)) * EPow P4 (EVar vMst2)) + (#17 - #18 * EVar vlmMst1) * EPow P6 (EVar vMst2))) / EPow P4
   (EVar vMst2)) / #54 + EVar vAl4p * EVar vthreeLoopFlag * (#100 * EVar vMt * EVar vMuSUSY * EPow P2 (EVar vSbeta) *
   (- (EPow P2 (EVar vMst2) * EPow P3 (EVar vs2t) * (EPow P4 (EVar vMsq) * (#72 * EPow P2 (EVar vMst1) * EPow P2 (EVar
   vMst2) * (#709 - #432 * EConst CB4 - #360 * EConst CDN + #15720 * EVar vlmMsq + #2 * EVar vlmMst1 * (- #6599 -
   #3240 * EVar vlmMsq + #1620 * EPow P2 (EVar vlmMsq)) - #18 * EVar vlmMst2 * (#689 - #360 * EVar vlmMsq + #62 * EVar
   vlmMst1 + #180 * EPow P2 (EVar vlmMsq) - #158 * EPow P2 (EVar vlmMst1)) - #162 * (- #53 + #20 * EVar vlmMsq) * EPow
   P2 (EVar vlmMst1) + #18 * (- #735 + #180 * EVar vlmMsq + #98 * EVar vlmMst1) * EPow P2 (EVar vlmMst2) + #780 * EPow
   P3 (EVar vlmMst1) - #5388 * EPow P3 (EVar vlmMst2)) + (#283217 + #55296 * EConst CB4 + #27648 * EConst CDN +
   #142560 * EVar vlmMsq - #60 * (- #67111 + #32400 * EVar vlmMsq) * EVar vlmMst1 + #116640 * EPow P2 (EVar vlmMsq) +
   #12 * EVar vlmMst2 * (- #289115 + #142560 * EVar vlmMsq + #174900 * EVar vlmMst1 - #101376 * EPow P2 (EVar
   vlmMst1)) + #1003464 * EPow P2 (EVar vlmMst1) + #72 * (- #32431 + #26112 * EVar vlmMst1) * EPow P2 (EVar vlmMst2) +
   #184320 * EPow P3 (EVar vlmMst1) - #847872 * EPow P3 (EVar vlmMst2)) * EPow P4 (EVar vMst1) - #72 * (#6457 + #60 *
   EVar vlmMsq * (#67 - #54 * EVar vlmMst1) - #982 * EVar vlmMst1 + #30 * (- #89 + #66 * EVar vlmMst1) * EVar vlmMst2
   + #1620 * EPow P2 (EVar vlmMsq) + #834 * EPow P2 (EVar vlmMst1) + #162 * EPow P2 (EVar vlmMst2)) * EPow P4 (EVar
   vMst2)) + #1440 * EPow P2 (EVar vMsq) * ((#994 - #593 * EVar vlmMst1 + #6 * EVar vlmMsq * (- #18 + #91 * EVar
   vlmMst1 - #91 * EVar vlmMst2) + #701 * EVar vlmMst2 - #273 * EPow P2 (EVar vlmMst1) + #273 * EPow P2 (EVar
   vlmMst2)) * EPow P2 (EVar vMst2) * EPow P4 (EVar vMst1) - #3 * (#108 - #133 * EVar vlmMst1 + #2 * EVar vlmMsq *
   (#32 + #9 * EVar vlmMst1 - #9 * EVar vlmMst2) + #69 * EVar vlmMst2 - #9 * EPow P2 (EVar vlmMst1) + #9 * EPow P2
   (EVar vlmMst2)) * EPow P2 (EVar vMst1) * EPow P4 (EVar vMst2)) - #180 * ((#3141 - #2306 * EVar vlmMst1 + #12 * EVar
   vlmMsq * (#47 + #50 * EVar vlmMst1 - #50 * EVar vlmMst2) + #1742 * EVar vlmMst2 - #300 * EPow P2 (EVar vlmMst1) +
   #300 * EPow P2 (EVar vlmMst2)) * EPow P4 (EVar vMst1) * EPow P4 (EVar vMst2) - #54 * EPow P2 (EVar vMst1) * EPow P6
   (EVar vMst2)))) + #16 * EVar vs2t * EPow P2 (EVar vMt) * (#2 * EPow P4 (EVar vMsq) * (#3 * EPow P2 (EVar vMst1) *
   EPow P2 (EVar vMst2) * (#248545 - #864 * EConst CB4 - #432 * EConst CDN - #14580 * EVar vlmMsq + #9042 * EVar
   vlmMst1 + #4860 * EPow P2 (EVar vlmMsq) - #6 * EVar vlmMst2 * (- #22907 + #1620 * EVar vlmMsq + #810 * EVar vlmMst1
   - #432 * EPow P2 (EVar vlmMst1)) + #3870 * EPow P2 (EVar vlmMst1) + #126 * (#289 + #48 * EVar vlmMst1) * EPow P2
   (EVar vlmMst2) + #576 * EVar vlmMt * (#29 + #35 * EVar vlmMst2 - EVar vlmMst1 * (#35 + #18 * EVar vlmMst2) + #9 *
   EPow P2 (EVar vlmMst1) + #9 * EPow P2 (EVar vlmMst2)) - #7200 * EPow P3 (EVar vlmMst1) - #1440 * EPow P3 (EVar
   vlmMst2)) + #2 * (#333689 - #1296 * EConst CB4 - #648 * EConst CDN - #105300 * EVar vlmMsq + #24 * (- #13409 +
   #3375 * EVar vlmMsq) * EVar vlmMst1 - #346779 * EPow P2 (EVar vlmMst1) + EVar vlmMst2 * (#498072 - #81000 * EVar
   vlmMsq + #610614 * EVar vlmMst1 + #17280 * EPow P2 (EVar vlmMst1)) + #9 * (- #26819 + #16800 * EVar vlmMst1) * EPow
   P2 (EVar vlmMst2) + #864 * EVar vlmMt * (#95 + #178 * EVar vlmMst2 - #2 * EVar vlmMst1 * (#89 + #69 * EVar vlmMst2)
   + #69 * EPow P2 (EVar vlmMst1) + #69 * EPow P2 (EVar vlmMst2)) - #77472 * EPow P3 (EVar vlmMst1) - #91008 * EPow P3
   (EVar vlmMst2)) * EPow P4 (EVar vMst1) - #18 * (#4401 + #60 * EVar vlmMsq * (#26 - #27 * EVar vlmMst1) - #1462 *
   EVar vlmMst1 + #6 * (- #74 + #69 * EVar vlmMst1) * EVar vlmMst2 + #810 * EPow P2 (EVar vlmMsq) + #993 * EPow P2
   (EVar vlmMst1) + #81 * EPow P2 (EVar vlmMst2)) * EPow P4 (EVar vMst2)) - #360 * EPow P2 (EVar vMsq) * (#50 * (#11 -
   #6 * EVar vlmMsq + #6 * EVar vlmMst2) * EPow P2 (EVar vMst2) * EPow P4 (EVar vMst1) + #3 * (- #9 + #100 * EVar
   vlmMsq - #118 * EVar vlmMst1 + #18 * EVar vlmMst2) * EPow P2 (EVar vMst1) * EPow P4 (EVar vMst2)) - #45 * (#2 *
   (#307 + #936 * EVar vlmMsq - #1236 * EVar vlmMst1 + #300 * EVar vlmMst2) * EPow P4 (EVar vMst1) * EPow P4 (EVar
   vMst2) + #9 * (#13 - #12 * EVar vlmMsq + #12 * EVar vlmMst2) * EPow P2 (EVar vMst1) * EPow P6 (EVar vMst2))) + EVar
   vMst1 * (#32 * EPow P3 (EVar vMt) * (#4 * (#3 * EPow P2 (EVar vMst2) * (#33943 - #2918 * EVar vlmMst2 + #60 * EVar
   vlmMsq * (#244 + #69 * EVar vlmMt + #9 * EVar vlmMst2 * (#3 + #2 * EVar vlmMt) - #6 * EVar vlmMst1 * (#16 + #3 *
   EVar vlmMt)) + #540 * (EVar vlmMst1 - EVar vlmMst2) * EPow P2 (EVar vlmMsq) + #6 * (#799 + #30 * EVar vlmMst2 + #84
   * EVar vlmMt) * EPow P2 (EVar vlmMst1) - #612 * EPow P2 (EVar vlmMst2) - #6 * EVar vlmMt * (#963 + #617 * EVar
   vlmMst2 + #108 * EPow P2 (EVar vlmMst2)) - #144 * (#17 + #6 * EVar vlmMst2) * EPow P2 (EVar vlmMt) + #2 * EVar
   vlmMst1 * (- #10100 - #1173 * EVar vlmMt + EVar vlmMst2 * (#429 + #72 * EVar vlmMt) + #18 * EPow P2 (EVar vlmMst2)
   + #432 * EPow P2 (EVar vlmMt)) - #132 * EPow P3 (EVar vlmMst1) - #84 * EPow P3 (EVar vlmMst2)) + EPow P2 (EVar
   vMst1) * (#112558 + #118485 * EVar vlmMst2 + #1620 * (EVar vlmMst1 - EVar vlmMst2) * EPow P2 (EVar vlmMsq) +
   (#19044 - #19116 * EVar vlmMst2 + #45306 * EVar vlmMt) * EPow P2 (EVar vlmMst1) + #180 * EVar vlmMsq * (#244 + #6 *
   EVar vlmMst1 * (- #16 + #36 * EVar vlmMst2 - #39 * EVar vlmMt) + #429 * EVar vlmMt + #9 * EVar vlmMst2 * (- #37 +
   #26 * EVar vlmMt) - #216 * EPow P2 (EVar vlmMst2)) + #111204 * EPow P2 (EVar vlmMst2) - #18 * EVar vlmMt * (#6121 +
   #4478 * EVar vlmMst2 + #555 * EPow P2 (EVar vlmMst2)) - #9 * EVar vlmMst1 * (#6907 + #2084 * EVar vlmMt + #12 *
   EVar vlmMst2 * (#50 + #327 * EVar vlmMt) + #234 * EPow P2 (EVar vlmMst2) - #2016 * EPow P2 (EVar vlmMt)) - #432 *
   (#59 + #42 * EVar vlmMst2) * EPow P2 (EVar vlmMt) - #9018 * EPow P3 (EVar vlmMst1) + #30240 * EPow P3 (EVar
   vlmMst2))) * EPow P4 (EVar vMsq) + #240 * EPow P2 (EVar vMsq) * ((#1174 + #6 * EVar vlmMst1 * (- #137 + #39 * EVar
   vlmMsq - #39 * EVar vlmMt) + #429 * EVar vlmMt + EVar vlmMst2 * (#393 - #234 * EVar vlmMsq + #234 * EVar vlmMt)) *
   EPow P2 (EVar vMst1) * EPow P2 (EVar vMst2) + (#1174 - #3 * EVar vlmMst2 * (#157 + #78 * EVar vlmMsq - #348 * EVar
   vlmMt) + #6 * EVar vlmMst1 * (- #137 + #39 * EVar vlmMsq + #135 * EVar vlmMst2 - #174 * EVar vlmMt) + #1293 * EVar
   vlmMt - #810 * EPow P2 (EVar vlmMst2)) * EPow P4 (EVar vMst1) - (#17 + #3 * EVar vlmMst2 * (#1 - #6 * EVar vlmMt) -
   #33 * EVar vlmMt + #6 * EVar vlmMsq * (#5 + #3 * (EVar vlmMst2 + EVar vlmMt)) - #18 * EPow P2 (EVar vlmMsq)) * EPow
   P4 (EVar vMst2)) + #15 * (#4 * (#3220 + #6 * EVar vlmMst1 * (- #323 + #174 * EVar vlmMsq - #174 * EVar vlmMt) +
   #1293 * EVar vlmMt + EVar vlmMst2 * (#645 - #1044 * EVar vlmMsq + #1044 * EVar vlmMt)) * EPow P2 (EVar vMst2) *
   EPow P4 (EVar vMst1) - (#2519 + EVar vlmMst2 * (#930 - #936 * EVar vlmMt) - #1014 * EVar vlmMt + #12 * EVar vlmMsq
   * (#7 + #78 * (EVar vlmMst2 + EVar vlmMt)) - #936 * EPow P2 (EVar vlmMsq)) * EPow P2 (EVar vMst1) * EPow P4 (EVar
   vMst2) + (- #299 + #78 * EVar vlmMt - #12 * EVar vlmMsq * (- #5 + #6 * EVar vlmMst2 + #6 * EVar vlmMt) + #6 * EVar
   vlmMst2 * (- #23 + #12 * EVar vlmMt) + #72 * EPow P2 (EVar vlmMsq)) * EPow P6 (EVar vMst2))) - #72 * EVar vMt *
   EPow P2 (EVar vs2t) * (- #720 * EPow P2 (EVar vMsq) * EPow P2 (EVar vMst2) * (#2 * (#59 + #8 * (- #2 + #3 * EVar
   vlmMsq) * EVar vlmMst2 - #2 * EVar vlmMst1 * (- #8 + #12 * EVar vlmMsq + #45 * EVar vlmMst2) + #57 * EPow P2 (EVar
   vlmMst1) + #33 * EPow P2 (EVar vlmMst2)) * EPow P4 (EVar vMst1) + EPow P4 (EVar vMst2)) + EPow P4 (EVar vMst1) *
   (#108 * (EDec 8261658179012345 12 + #1048 * EConst CB4 / #3 - #20 * EConst CDN / #3 - #610 * EVar vlmMsq + #5 *
   EVar vlmMst1 * (#29755 + #67824 * EVar vlmMsq + #864 * EPow P2 (EVar vlmMsq)) / #108 - EVar vlmMst2 * (EDec
   8868796296296297 13 + EVar vlmMsq * (#3140 - #960 * EVar vlmMst1) + #2033 * EVar vlmMst1 / #3 + #40 * EPow P2 (EVar
   vlmMsq) - #508 * EPow P2 (EVar vlmMst1) / #3) - (EDec 16651666666666667 13 + #520 * EVar vlmMsq) * EPow P2 (EVar
   vlmMst1) - (- #14057 + #2640 * EVar vlmMsq + #6136 * EVar vlmMst1) * EPow P2 (EVar vlmMst2) / #6 + #3268 * EPow P3
   (EVar vlmMst1) / #9 + #4412 * EPow P3 (EVar vlmMst2) / #9) * EPow P4 (EVar vMsq) + #5 * (#17171 - #2610 * EVar
   vlmMst1 + #12 * EVar vlmMsq * (- #541 + #270 * EVar vlmMst1 - #270 * EVar vlmMst2) + #9102 * EVar vlmMst2 - #1620 *
   EPow P2 (EVar vlmMst1) + #1620 * EPow P2 (EVar vlmMst2)) * EPow P4 (EVar vMst2)) + EPow P4 (EVar vMsq) * (#4 * EPow
   P2 (EVar vMst1) * EPow P2 (EVar vMst2) * (#29170 + #9432 * EConst CB4 - #32400 * EVar vlmMsq + #3 * (EVar vlmMst1 *
   (#1349 + #8280 * EVar vlmMsq + #360 * EPow P2 (EVar vlmMsq)) + EVar vlmMst2 * (#13243 - #360 * EVar vlmMsq * (#23 +
   EVar vlmMsq - #24 * EVar vlmMst1) - #7008 * EVar vlmMst1 - #4146 * EPow P2 (EVar vlmMst1))) - #180 * (EConst CDN +
   (#31 + #78 * EVar vlmMsq) * EPow P2 (EVar vlmMst1)) - #18 * (- #1286 + #660 * EVar vlmMsq + #717 * EVar vlmMst1) *
   EPow P2 (EVar vlmMst2) + #16242 * EPow P3 (EVar vlmMst1) + #9102 * EPow P3 (EVar vlmMst2)) + #6 * (#413 + #408 *
   EConst CB4 + #12 * EConst CDN + #8520 * EVar vlmMsq - #720 * EPow P2 (EVar vlmMsq) - #2 * (EVar vlmMst1 * (#1573 +
   #540 * EVar vlmMsq - #180 * EPow P2 (EVar vlmMsq)) + EVar vlmMst2 * (#7603 - #1260 * EVar vlmMsq - #354 * EVar
   vlmMst1 + #180 * EPow P2 (EVar vlmMsq) - #180 * EPow P2 (EVar vlmMst1))) - #18 * (#51 + #20 * EVar vlmMsq) * EPow
   P2 (EVar vlmMst1) + #6 * (- #797 + #60 * EVar vlmMsq + #4 * EVar vlmMst1) * EPow P2 (EVar vlmMst2) + #200 * EPow P3
   (EVar vlmMst1) - #584 * EPow P3 (EVar vlmMst2)) * EPow P4 (EVar vMst2)) + EPow P2 (EVar vMst1) * (#480 * (#280 -
   #63 * EVar vlmMst1 + #36 * EVar vlmMsq * (- #2 + EVar vlmMst1 - EVar vlmMst2) + #135 * EVar vlmMst2 - #18 * EPow P2
   (EVar vlmMst1) + #18 * EPow P2 (EVar vlmMst2)) * EPow P2 (EVar vMsq) * EPow P4 (EVar vMst2) - #5 * (#478 - #24 *
   EVar vlmMsq + #24 * EVar vlmMst2) * EPow P6 (EVar vMst2)) + #5 * (#11 - #12 * EVar vlmMsq + #12 * EVar vlmMst2) *
   EPow P8 (EVar vMst2)))) + EVar vTbeta * (- #100 * EPow P2 (EVar vMt) * EPow P2 (EVar vMuSUSY) * (#768 * EPow P2
   (EVar vMst1) * EPow P2 (EVar vMt) * (#9893 - #54 * EConst CB4 - #27 * EConst CDN - #50 * EVar vlmMst1 + #138 * EPow
   P2 (EVar vlmMst1) + EVar vlmMst2 * (#4538 - #300 * EVar vlmMst1 + #54 * EPow P2 (EVar vlmMst1)) + #54 * (#19 + #3 *
   EVar vlmMst1) * EPow P2 (EVar vlmMst2) + #24 * EVar vlmMt * (#29 + #35 * EVar vlmMst2 - EVar vlmMst1 * (#35 + #18 *
   EVar vlmMst2) + #9 * EPow P2 (EVar vlmMst1) + #9 * EPow P2 (EVar vlmMst2)) - #234 * EPow P3 (EVar vlmMst1) + #18 *
   EPow P3 (EVar vlmMst2)) * EPow P4 (EVar vMsq) - #48 * EVar vMst1 * EVar vMt * EVar vs2t * (#2 * (#3 * EPow P2 (EVar
   vMst2) * (#413 + #408 * EConst CB4 + #12 * EConst CDN + #8520 * EVar vlmMsq - #720 * EPow P2 (EVar vlmMsq) + #2 *
   EVar vlmMst1 * (- #1573 - #540 * EVar vlmMsq + #180 * EPow P2 (EVar vlmMsq)) - #18 * (#51 + #20 * EVar vlmMsq) *
   EPow P2 (EVar vlmMst1) + EVar vlmMst2 * (- #15206 + #2520 * EVar vlmMsq + #708 * EVar vlmMst1 - #360 * EPow P2
   (EVar vlmMsq) + #360 * EPow P2 (EVar vlmMst1)) + #6 * (- #797 + #60 * EVar vlmMsq + #4 * EVar vlmMst1) * EPow P2
   (EVar vlmMst2) + #200 * EPow P3 (EVar vlmMst1) - #584 * EPow P3 (EVar vlmMst2)) + EPow P2 (EVar vMst1) * (#59579 +
   #20088 * EConst CB4 - #324 * EConst CDN - #39240 * EVar vlmMsq - #2160 * EPow P2 (EVar vlmMsq) + #24 * EVar vlmMst1
   * (- #56 + #1935 * EVar vlmMsq + #135 * EPow P2 (EVar vlmMsq)) - #18 * (#773 + #1620 * EVar vlmMsq) * EPow P2 (EVar
   vlmMst1) - #36 * EVar vlmMst2 * (- #940 + #1109 * EVar vlmMst1 - #90 * EVar vlmMsq * (- #13 + #16 * EVar vlmMst1) +
   #90 * EPow P2 (EVar vlmMsq) + #661 * EPow P2 (EVar vlmMst1)) - #90 * (- #355 + #252 * EVar vlmMsq + #286 * EVar
   vlmMst1) * EPow P2 (EVar vlmMst2) + #33084 * EPow P3 (EVar vlmMst1) + #16452 * EPow P3 (EVar vlmMst2))) * EPow P4
   (EVar vMsq) + #90 * (#928 - #145 * EVar vlmMst1 + #180 * EVar vlmMsq * (- #2 + EVar vlmMst1 - EVar vlmMst2) + #505
   * EVar vlmMst2 - #90 * EPow P2 (EVar vlmMst1) + #90 * EPow P2 (EVar vlmMst2)) * EPow P2 (EVar vMst2) * EPow P4
   (EVar vMst1) + #240 * EPow P2 (EVar vMsq) * ((#557 - #126 * EVar vlmMst1 + #72 * EVar vlmMsq * (- #2 + EVar vlmMst1
   - EVar vlmMst2) + #270 * EVar vlmMst2 - #36 * EPow P2 (EVar vlmMst1) + #36 * EPow P2 (EVar vlmMst2)) * EPow P2
   (EVar vMst1) * EPow P2 (EVar vMst2) + (#203 + #72 * EVar vlmMsq * (- #2 + #3 * EVar vlmMst1 - #3 * EVar vlmMst2) +
   #366 * EVar vlmMst2 + #6 * EVar vlmMst1 * (- #37 + #90 * EVar vlmMst2) - #378 * EPow P2 (EVar vlmMst1) - #162 *
   EPow P2 (EVar vlmMst2)) * EPow P4 (EVar vMst1) - #3 * EPow P4 (EVar vMst2)) + #5 * (- #467 + #12 * EVar vlmMsq -
   #12 * EVar vlmMst2) * EPow P2 (EVar vMst1) * EPow P4 (EVar vMst2) + #5 * (#11 - #12 * EVar vlmMsq + #12 * EVar
   vlmMst2) * EPow P6 (EVar vMst2)) + EPow P2 (EVar vs2t) * (EPow P4 (EVar vMsq) * (#864 * EPow P2 (EVar vMst1) * EPow
   P2 (EVar vMst2) * (#479 + #36 * EConst CB4 + #30 * EConst CDN - #975 * EVar vlmMsq + EVar vlmMst1 * (#1018 + #270 *
   EVar vlmMsq - #270 * EPow P2 (EVar vlmMsq)) + #135 * EPow P2 (EVar vlmMsq) + EVar vlmMst2 * (#811 - #540 * EVar
   vlmMsq + #258 * EVar vlmMst1 + #270 * EPow P2 (EVar vlmMsq) - #237 * EPow P2 (EVar vlmMst1)) + (- #646 + #270 *
   EVar vlmMsq) * EPow P2 (EVar vlmMst1) - #3 * (- #372 + #90 * EVar vlmMsq + #49 * EVar vlmMst1) * EPow P2 (EVar
   vlmMst2) - #65 * EPow P3 (EVar vlmMst1) + #449 * EPow P3 (EVar vlmMst2)) + (#130639 - #24192 * EConst CB4 - #1728 *
   EConst CDN - #984960 * EVar vlmMsq - #12 * EVar vlmMst1 * (#262259 - #181440 * EVar vlmMsq + #19440 * EPow P2 (EVar
   vlmMsq)) + #72 * (- #21689 + #3240 * EVar vlmMsq) * EPow P2 (EVar vlmMst1) + #12 * EVar vlmMst2 * (#347507 -
   #181440 * EVar vlmMsq - #156324 * EVar vlmMst1 + #19440 * EPow P2 (EVar vlmMsq) + #84312 * EPow P2 (EVar vlmMst1))
   - #72 * (- #45823 + #3240 * EVar vlmMsq + #27876 * EVar vlmMst1) * EPow P2 (EVar vlmMst2) - #240480 * EPow P3 (EVar
   vlmMst1) + #1235808 * EPow P3 (EVar vlmMst2)) * EPow P4 (EVar vMst1) + #72 * (#6457 + #60 * EVar vlmMsq * (#67 -
   #54 * EVar vlmMst1) - #982 * EVar vlmMst1 + #30 * (- #89 + #66 * EVar vlmMst1) * EVar vlmMst2 + #1620 * EPow P2
   (EVar vlmMsq) + #834 * EPow P2 (EVar vlmMst1) + #162 * EPow P2 (EVar vlmMst2)) * EPow P4 (EVar vMst2)) - #1440 *
   EPow P2 (EVar vMsq) * (#2 * (#335 - #97 * EVar vlmMst1 + #6 * EVar vlmMsq * (- #25 + #41 * EVar vlmMst1 - #41 *
   EVar vlmMst2) + #247 * EVar vlmMst2 - #123 * EPow P2 (EVar vlmMst1) + #123 * EPow P2 (EVar vlmMst2)) * EPow P2
   (EVar vMst2) * EPow P4 (EVar vMst1) - #3 * (#108 - #133 * EVar vlmMst1 + #2 * EVar vlmMsq * (#32 + #9 * EVar
   vlmMst1 - #9 * EVar vlmMst2) + #69 * EVar vlmMst2 - #9 * EPow P2 (EVar vlmMst1) + #9 * EPow P2 (EVar vlmMst2)) *
   EPow P2 (EVar vMst1) * EPow P4 (EVar vMst2)) + #180 * ((#3087 - #2306 * EVar vlmMst1 + #12 * EVar vlmMsq * (#47 +
   #50 * EVar vlmMst1 - #50 * EVar vlmMst2) + #1742 * EVar vlmMst2 - #300 * EPow P2 (EVar vlmMst1) + #300 * EPow P2
   (EVar vlmMst2)) * EPow P4 (EVar vMst1) * EPow P4 (EVar vMst2) - #54 * EPow P2 (EVar vMst1) * EPow P6 (EVar
   vMst2)))) + EPow P2 (EVar vSbeta) * (- #25 * EPow P4 (EVar vMst2) * (#180 * (#3195 - #2306 * EVar vlmMst1 + #12 *
   EVar vlmMsq * (#47 + #50 * EVar vlmMst1 - #50 * EVar vlmMst2) + #1742 * EVar vlmMst2 - #300 * EPow P2 (EVar
   vlmMst1) + #300 * EPow P2 (EVar vlmMst2)) * EPow P4 (EVar vMst1) * EPow P4 (EVar vMst2) - EPow P4 (EVar vMsq) *
   (#144 * EPow P2 (EVar vMst1) * EPow P2 (EVar vMst2) * (#3583 - #216 * EConst CB4 - #180 * EConst CDN + #9870 * EVar
   vlmMsq + #810 * EPow P2 (EVar vlmMsq) + #10 * EVar vlmMst1 * (- #709 - #486 * EVar vlmMsq + #162 * EPow P2 (EVar
   vlmMsq)) - #6 * EVar vlmMst2 * (#1256 - #540 * EVar vlmMsq - #72 * EVar vlmMst1 + #270 * EPow P2 (EVar vlmMsq) -
   #237 * EPow P2 (EVar vlmMst1)) - #30 * (- #157 + #54 * EVar vlmMsq) * EPow P2 (EVar vlmMst1) + #18 * (- #363 + #90
   * EVar vlmMsq + #49 * EVar vlmMst1) * EPow P2 (EVar vlmMst2) + #390 * EPow P3 (EVar vlmMst1) - #2694 * EPow P3
   (EVar vlmMst2)) + (#232169 + #86400 * EConst CB4 + #53568 * EConst CDN - #989280 * EVar vlmMsq + #116640 * EPow P2
   (EVar vlmMsq) - #12 * EVar vlmMst1 * (- #414743 + #123120 * EVar vlmMsq + #19440 * EPow P2 (EVar vlmMsq)) + #12 *
   EVar vlmMst2 * (- #214703 + #103680 * EVar vlmMsq + #181596 * EVar vlmMst1 + #19440 * EPow P2 (EVar vlmMsq) -
   #118440 * EPow P2 (EVar vlmMst1)) + #72 * (#5351 + #3240 * EVar vlmMsq) * EPow P2 (EVar vlmMst1) - #72 * (#19201 +
   #3240 * EVar vlmMsq - #24348 * EVar vlmMst1) * EPow P2 (EVar vlmMst2) + #128160 * EPow P3 (EVar vlmMst1) - #459936
   * EPow P3 (EVar vlmMst2)) * EPow P4 (EVar vMst1) - #72 * (#6457 + #60 * EVar vlmMsq * (#67 - #54 * EVar vlmMst1) -
   #982 * EVar vlmMst1 + #30 * (- #89 + #66 * EVar vlmMst1) * EVar vlmMst2 + #1620 * EPow P2 (EVar vlmMsq) + #834 *
   EPow P2 (EVar vlmMst1) + #162 * EPow P2 (EVar vlmMst2)) * EPow P4 (EVar vMst2)) - #1440 * EPow P2 (EVar vMsq) * (#2
   * (#659 - #496 * EVar vlmMst1 + #6 * EVar vlmMsq * (#7 + #50 * EVar vlmMst1 - #50 * EVar vlmMst2) + #454 * EVar
   vlmMst2 - #150 * EPow P2 (EVar vlmMst1) + #150 * EPow P2 (EVar vlmMst2)) * EPow P2 (EVar vMst2) * EPow P4 (EVar
   vMst1) - #3 * (#108 - #133 * EVar vlmMst1 + #2 * EVar vlmMsq * (#32 + #9 * EVar vlmMst1 - #9 * EVar vlmMst2) + #69
   * EVar vlmMst2 - #9 * EPow P2 (EVar vlmMst1) + #9 * EPow P2 (EVar vlmMst2)) * EPow P2 (EVar vMst1) * EPow P4 (EVar
   vMst2))) * EPow P4 (EVar vs2t) + #64 * EPow P4 (EVar vMt) * (#2 * EPow P4 (EVar vMsq) * (#12 * EPow P2 (EVar vMst1)
   * (EPow P2 (EVar vMst2) * (#1477147 - #158575 * EVar vlmMst2 + #30375 * EVar vlmMsq * (#3 + #2 * EVar vlmMt) - #5 *
   EVar vlmMst1 * (#17951 + #28065 * EVar vlmMt + #15 * EVar vlmMst2 * (#409 + #36 * EVar vlmMt)) - #30375 * EPow P2
   (EVar vlmMsq) + #150 * (- #134 + #9 * EVar vlmMst2 - #279 * EVar vlmMt) * EPow P2 (EVar vlmMst1) - #79425 * EPow P2
   (EVar vlmMst2) + #15 * EVar vlmMt * (#27227 + #14075 * EVar vlmMst2 + #2970 * EPow P2 (EVar vlmMst2)) - #32400 *
   EPow P2 (EVar vlmMt) + #13500 * EPow P3 (EVar vlmMst1) - #14850 * EPow P3 (EVar vlmMst2)) + #50 * EPow P2 (EVar
   vMuSUSY) * (#9893 - #54 * EConst CB4 - #27 * EConst CDN - #50 * EVar vlmMst1 + #138 * EPow P2 (EVar vlmMst1) + EVar
   vlmMst2 * (#4538 - #300 * EVar vlmMst1 + #54 * EPow P2 (EVar vlmMst1)) + #54 * (#19 + #3 * EVar vlmMst1) * EPow P2
   (EVar vlmMst2) + #24 * EVar vlmMt * (#29 + #35 * EVar vlmMst2 - EVar vlmMst1 * (#35 + #18 * EVar vlmMst2) + #9 *
   EPow P2 (EVar vlmMst1) + #9 * EPow P2 (EVar vlmMst2)) - #234 * EPow P3 (EVar vlmMst1) + #18 * EPow P3 (EVar
   vlmMst2))) + (#37614091 + #12134250 * EVar vlmMst2 + #2700 * (#303 - #824 * EVar vlmMst2 + #322 * EVar vlmMt) *
   EPow P2 (EVar vlmMst1) + #6674400 * EPow P2 (EVar vlmMst2) - #405000 * EVar vlmMsq * (#13 + EVar vlmMst2 * (#33 -
   #10 * EVar vlmMt) - #10 * EVar vlmMst1 * (#1 + EVar vlmMst2 - EVar vlmMt) - #23 * EVar vlmMt + #10 * EPow P2 (EVar
   vlmMst2)) - #180 * EVar vlmMt * (- #11973 - #38425 * EVar vlmMst2 + #1410 * EPow P2 (EVar vlmMst2)) - #129600 *
   (#19 + #10 * EVar vlmMst2) * EPow P2 (EVar vlmMt) + #30 * EVar vlmMst1 * (#31687 - #472950 * EVar vlmMt - #30 *
   EVar vlmMst2 * (- #2971 + #684 * EVar vlmMt) + #5220 * EPow P2 (EVar vlmMst2) + #43200 * EPow P2 (EVar vlmMt)) +
   #451800 * EPow P3 (EVar vlmMst1) + #1616400 * EPow P3 (EVar vlmMst2)) * EPow P4 (EVar vMst1) - #6 * (#121294 -
   #3182 * EVar vlmMst2 - #10 * EVar vlmMst1 * (#12992 + #582 * EVar vlmMst2 - #465 * EVar vlmMt) + #51960 * EVar
   vlmMt - #6330 * EVar vlmMst2 * EVar vlmMt - #60 * EVar vlmMsq * (- #1003 + #1770 * EVar vlmMst1 + #255 * EVar
   vlmMt) + #60750 * EPow P2 (EVar vlmMsq) + #82425 * EPow P2 (EVar vlmMst1) + #6075 * EPow P2 (EVar vlmMst2) + #30600
   * EPow P2 (EVar vlmMt)) * EPow P4 (EVar vMst2)) + #360 * EPow P2 (EVar vMsq) * (#1250 * (#11 - #6 * EVar vlmMsq +
   #6 * EVar vlmMt) * EPow P2 (EVar vMst2) * EPow P4 (EVar vMst1) + (#6698 + #225 * EVar vlmMst2 + #90 * EVar vlmMst1
   * (#62 - #15 * EVar vlmMt) - #15 * (#7 + #90 * EVar vlmMst2) * EVar vlmMt + #150 * EVar vlmMsq * (- #38 + #9 * EVar
   vlmMst1 + #9 * EVar vlmMst2 + #18 * EVar vlmMt) - #2700 * EPow P2 (EVar vlmMsq)) * EPow P2 (EVar vMst1) * EPow P4
   (EVar vMst2)) + #15 * ((#215363 + #41250 * EVar vlmMst2 + #120 * EVar vlmMst1 * (#1319 - #510 * EVar vlmMt) - #30 *
   (- #979 + #1500 * EVar vlmMst2) * EVar vlmMt + #300 * EVar vlmMsq * (- #763 + #204 * EVar vlmMst1 + #150 * EVar
   vlmMst2 + #354 * EVar vlmMt) - #106200 * EPow P2 (EVar vlmMsq)) * EPow P4 (EVar vMst1) * EPow P4 (EVar vMst2) +
   #450 * (#115 - #48 * EVar vlmMsq + EVar vlmMst2 * (#69 - #36 * EVar vlmMt) - #21 * EVar vlmMt + #36 * EVar vlmMsq *
   (EVar vlmMst2 + EVar vlmMt) - #36 * EPow P2 (EVar vlmMsq)) * EPow P2 (EVar vMst1) * EPow P6 (EVar vMst2))) - #100 *
   EPow P2 (EVar vMt) * EPow P2 (EVar vs2t) * (- #16 * EPow P2 (EVar vMsq) * EPow P2 (EVar vMst2) * (#180 * (#577 -
   #600 * EVar vlmMsq + #354 * EVar vlmMst1 + #246 * EVar vlmMst2) * EPow P2 (EVar vMst2) + EPow P2 (EVar vMsq) *
   (#135281 - #460266 * EVar vlmMst2 + #1620 * EVar vlmMsq * (#103 - #100 * EVar vlmMst1 + #82 * EVar vlmMst2) +
   #14580 * EPow P2 (EVar vlmMsq) - #144 * (- #5257 + #186 * EVar vlmMst2 + #720 * EVar vlmMt) * EPow P2 (EVar
   vlmMst1) + #6 * EVar vlmMst1 * (#91201 + #41184 * EVar vlmMt + #48 * EVar vlmMst2 * (- #4651 + #720 * EVar vlmMt) -
   #47376 * EPow P2 (EVar vlmMst2)) + #643824 * EPow P2 (EVar vlmMst2) - #1728 * EVar vlmMt * (#66 + #143 * EVar
   vlmMst2 + #60 * EPow P2 (EVar vlmMst2)) + #133344 * EPow P3 (EVar vlmMst1) + #177696 * EPow P3 (EVar vlmMst2))) *
   EPow P4 (EVar vMst1) - #72 * (#120 * (- #9 + #100 * EVar vlmMsq - #118 * EVar vlmMst1 + #18 * EVar vlmMst2) * EPow
   P2 (EVar vMsq) * EPow P2 (EVar vMst1) + #4 * (#4401 + #60 * EVar vlmMsq * (#26 - #27 * EVar vlmMst1) - #1462 * EVar
   vlmMst1 + #6 * (- #74 + #69 * EVar vlmMst1) * EVar vlmMst2 + #810 * EPow P2 (EVar vlmMsq) + #993 * EPow P2 (EVar
   vlmMst1) + #81 * EPow P2 (EVar vlmMst2)) * EPow P4 (EVar vMsq) + #5 * (#497 + #1980 * EVar vlmMsq - #2472 * EVar
   vlmMst1 + #492 * EVar vlmMst2) * EPow P4 (EVar vMst1)) * EPow P6 (EVar vMst2) - EPow P2 (EVar vMuSUSY) * (EPow P4
   (EVar vMsq) * (#864 * EPow P2 (EVar vMst1) * EPow P2 (EVar vMst2) * (#479 + #36 * EConst CB4 + #30 * EConst CDN -
   #975 * EVar vlmMsq + EVar vlmMst1 * (#1018 + #270 * EVar vlmMsq - #270 * EPow P2 (EVar vlmMsq)) + #135 * EPow P2
   (EVar vlmMsq) + EVar vlmMst2 * (#811 - #540 * EVar vlmMsq + #258 * EVar vlmMst1 + #270 * EPow P2 (EVar vlmMsq) -
   #237 * EPow P2 (EVar vlmMst1)) + (- #646 + #270 * EVar vlmMsq) * EPow P2 (EVar vlmMst1) - #3 * (- #372 + #90 * EVar
   vlmMsq + #49 * EVar vlmMst1) * EPow P2 (EVar vlmMst2) - #65 * EPow P3 (EVar vlmMst1) + #449 * EPow P3 (EVar
   vlmMst2)) + (#130639 - #24192 * EConst CB4 - #1728 * EConst CDN - #984960 * EVar vlmMsq - #12 * EVar vlmMst1 *
   (#262259 - #181440 * EVar vlmMsq + #19440 * EPow P2 (EVar vlmMsq)) + #72 * (- #21689 + #3240 * EVar vlmMsq) * EPow
   P2 (EVar vlmMst1) + #12 * EVar vlmMst2 * (#347507 - #181440 * EVar vlmMsq - #156324 * EVar vlmMst1 + #19440 * EPow
   P2 (EVar vlmMsq) + #84312 * EPow P2 (EVar vlmMst1)) - #72 * (- #45823 + #3240 * EVar vlmMsq + #27876 * EVar
   vlmMst1) * EPow P2 (EVar vlmMst2) - #240480 * EPow P3 (EVar vlmMst1) + #1235808 * EPow P3 (EVar vlmMst2)) * EPow P4
   (EVar vMst1) + #72 * (#6457 + #60 * EVar vlmMsq * (#67 - #54 * EVar vlmMst1) - #982 * EVar vlmMst1 + #30 * (- #89 +
   #66 * EVar vlmMst1) * EVar vlmMst2 + #1620 * EPow P2 (EVar vlmMsq) + #834 * EPow P2 (EVar vlmMst1) + #162 * EPow P2
   (EVar vlmMst2)) * EPow P4 (EVar vMst2)) - #1440 * EPow P2 (EVar vMsq) * (#2 * (#335 - #97 * EVar vlmMst1 + #6 *
   EVar vlmMsq * (- #25 + #41 * EVar vlmMst1 - #41 * EVar vlmMst2) + #247 * EVar vlmMst2 - #123 * EPow P2 (EVar
   vlmMst1) + #123 * EPow P2 (EVar vlmMst2)) * EPow P2 (EVar vMst2) * EPow P4 (EVar vMst1) - #3 * (#108 - #133 * EVar
   vlmMst1 + #2 * EVar vlmMsq * (#32 + #9 * EVar vlmMst1 - #9 * EVar vlmMst2) + #69 * EVar vlmMst2 - #9 * EPow P2
   (EVar vlmMst1) + #9 * EPow P2 (EVar vlmMst2)) * EPow P2 (EVar vMst1) * EPow P4 (EVar vMst2)) + #180 * ((#3087 -
   #2306 * EVar vlmMst1 + #12 * EVar vlmMsq * (#47 + #50 * EVar vlmMst1 - #50 * EVar vlmMst2) + #1742 * EVar vlmMst2 -
   #300 * EPow P2 (EVar vlmMst1) + #300 * EPow P2 (EVar vlmMst2)) * EPow P4 (EVar vMst1) * EPow P4 (EVar vMst2) - #54
   * EPow P2 (EVar vMst1) * EPow P6 (EVar vMst2))) + EPow P2 (EVar vMst1) * (#48 * (#266599 - #864 * EConst CB4 - #432
   * EConst CDN - #5220 * EVar vlmMsq + #90 * (#115 - #108 * EVar vlmMsq) * EVar vlmMst1 + #9720 * EPow P2 (EVar
   vlmMsq) + #7236 * EPow P2 (EVar vlmMst1) + #6 * EVar vlmMst2 * (#20783 - #1620 * EVar vlmMsq + #468 * EVar vlmMst1
   + #432 * EPow P2 (EVar vlmMst1)) + #36 * (#953 + #168 * EVar vlmMst1) * EPow P2 (EVar vlmMst2) + #576 * EVar vlmMt
   * (#29 + #35 * EVar vlmMst2 - EVar vlmMst1 * (#35 + #18 * EVar vlmMst2) + #9 * (EPow P2 (EVar vlmMst1) + EPow P2
   (EVar vlmMst2))) - #7200 * EPow P3 (EVar vlmMst1) - #1440 * EPow P3 (EVar vlmMst2)) * EPow P4 (EVar vMsq) * EPow P4
   (EVar vMst2) + #3240 * (- #13 + #12 * EVar vlmMsq - #12 * EVar vlmMst2) * EPow P8 (EVar vMst2))) + #200 * EVar
   vMst1 * EVar vMt * EVar vs2t * (- (EPow P2 (EVar vMst2) * EPow P2 (EVar vs2t) * (#180 * EPow P2 (EVar vMst1) * (-
   #3 * (#1961 - #290 * EVar vlmMst1 + #4 * EVar vlmMsq * (- #181 + #90 * EVar vlmMst1 - #90 * EVar vlmMst2) + #1014 *
   EVar vlmMst2 - #180 * EPow P2 (EVar vlmMst1) + #180 * EPow P2 (EVar vlmMst2)) * EPow P2 (EVar vMst1) + (#163 - #12
   * EVar vlmMsq + #12 * EVar vlmMst2) * EPow P2 (EVar vMst2)) * EPow P4 (EVar vMst2) + #2880 * EPow P2 (EVar vMsq) *
   EPow P2 (EVar vMst2) * (- ((#563 - #126 * EVar vlmMst1 + #72 * EVar vlmMsq * (- #2 + EVar vlmMst1 - EVar vlmMst2) +
   #270 * EVar vlmMst2 - #36 * EPow P2 (EVar vlmMst1) + #36 * EPow P2 (EVar vlmMst2)) * EPow P2 (EVar vMst1) * EPow P2
   (EVar vMst2)) + (#914 - #72 * EVar vlmMsq * (#2 + EVar vlmMst1 - EVar vlmMst2) + #174 * EVar vlmMst2 - #30 * EVar
   vlmMst1 * (#1 + #18 * EVar vlmMst2) + #306 * EPow P2 (EVar vlmMst1) + #234 * EPow P2 (EVar vlmMst2)) * EPow P4
   (EVar vMst1) + #3 * EPow P4 (EVar vMst2)) - EPow P4 (EVar vMsq) * (#24 * EPow P2 (EVar vMst1) * EPow P2 (EVar
   vMst2) * (#57101 + #17640 * EConst CB4 - #396 * EConst CDN - #90360 * EVar vlmMsq + #2160 * EPow P2 (EVar vlmMsq) +
   #36 * EVar vlmMst1 * (#487 + #1470 * EVar vlmMsq + #30 * EPow P2 (EVar vlmMsq)) - #18 * (#467 + #1500 * EVar
   vlmMsq) * EPow P2 (EVar vlmMst1) - #12 * EVar vlmMst2 * (- #10423 + #3681 * EVar vlmMst1 - #90 * EVar vlmMsq * (-
   #53 + #48 * EVar vlmMst1) + #90 * EPow P2 (EVar vlmMsq) + #2163 * EPow P2 (EVar vlmMst1)) - #18 * (- #3369 + #1380
   * EVar vlmMsq + #1438 * EVar vlmMst1) * EPow P2 (EVar vlmMst2) + #31884 * EPow P3 (EVar vlmMst1) + #19956 * EPow P3
   (EVar vlmMst2)) + (#9306949 + #12960 * EVar vlmMsq * (#59 + #222 * EVar vlmMst1 - #222 * EVar vlmMst2) - #3056388 *
   EVar vlmMst2 + #648 * (- #2917 + #1260 * EVar vlmMst2) * EPow P2 (EVar vlmMst1) + EVar vlmMst1 * (#1591044 +
   #130896 * EVar vlmMst2 - #705888 * EPow P2 (EVar vlmMst2)) + #1925208 * EPow P2 (EVar vlmMst2) - #309024 * EPow P3
   (EVar vlmMst1) + #198432 * EPow P3 (EVar vlmMst2)) * EPow P4 (EVar vMst1) + #72 * (#413 + #408 * EConst CB4 + #12 *
   EConst CDN + #8520 * EVar vlmMsq - #720 * EPow P2 (EVar vlmMsq) + #2 * EVar vlmMst1 * (- #1573 - #540 * EVar vlmMsq
   + #180 * EPow P2 (EVar vlmMsq)) - #18 * (#51 + #20 * EVar vlmMsq) * EPow P2 (EVar vlmMst1) + EVar vlmMst2 * (-
   #15206 + #2520 * EVar vlmMsq + #708 * EVar vlmMst1 - #360 * EPow P2 (EVar vlmMsq) + #360 * EPow P2 (EVar vlmMst1))
   + #6 * (- #797 + #60 * EVar vlmMsq + #4 * EVar vlmMst1) * EPow P2 (EVar vlmMst2) + #200 * EPow P3 (EVar vlmMst1) -
   #584 * EPow P3 (EVar vlmMst2)) * EPow P4 (EVar vMst2)))) + #8 * EPow P2 (EVar vMt) * (- #2 * EPow P4 (EVar vMsq) *
   (#9 * EPow P2 (EVar vMst2) * EPow P2 (EVar vMuSUSY) * (#413 + #408 * EConst CB4 + #12 * EConst CDN + #8520 * EVar
   vlmMsq - #720 * EPow P2 (EVar vlmMsq) + #2 * EVar vlmMst1 * (- #1573 - #540 * EVar vlmMsq + #180 * EPow P2 (EVar
   vlmMsq)) - #18 * (#51 + #20 * EVar vlmMsq) * EPow P2 (EVar vlmMst1) + EVar vlmMst2 * (- #15206 + #2520 * EVar
   vlmMsq + #708 * EVar vlmMst1 - #360 * EPow P2 (EVar vlmMsq) + #360 * EPow P2 (EVar vlmMst1)) + #6 * (- #797 + #60 *
   EVar vlmMsq + #4 * EVar vlmMst1) * EPow P2 (EVar vlmMst2) + #200 * EPow P3 (EVar vlmMst1) - #584 * EPow P3 (EVar
   vlmMst2)) + EPow P2 (EVar vMst1) * (#3 * EPow P2 (EVar vMuSUSY) * (#59579 + #20088 * EConst CB4 - #324 * EConst CDN
   - #39240 * EVar vlmMsq - #2160 * EPow P2 (EVar vlmMsq) + #24 * EVar vlmMst1 * (- #56 + #1935 * EVar vlmMsq + #135 *
   EPow P2 (EVar vlmMsq)) - #18 * (#773 + #1620 * EVar vlmMsq) * EPow P2 (EVar vlmMst1) - #36 * EVar vlmMst2 * (- #940
   + #1109 * EVar vlmMst1 - #90 * EVar vlmMsq * (- #13 + #16 * EVar vlmMst1) + #90 * EPow P2 (EVar vlmMsq) + #661 *
   EPow P2 (EVar vlmMst1)) - #90 * (- #355 + #252 * EVar vlmMsq + #286 * EVar vlmMst1) * EPow P2 (EVar vlmMst2) +
   #33084 * EPow P3 (EVar vlmMst1) + #16452 * EPow P3 (EVar vlmMst2)) + #4 * EPow P2 (EVar vMst2) * (#57151 + #161988
   * EVar vlmMst2 + #6480 * EVar vlmMsq * (- #5 + #3 * EVar vlmMst1 - #3 * EVar vlmMst2) * (#1 + #2 * EVar vlmMst2 -
   #2 * EVar vlmMt) - #9 * (#1915 + #2184 * EVar vlmMst2 - #4866 * EVar vlmMt) * EPow P2 (EVar vlmMst1) + #117063 *
   EPow P2 (EVar vlmMst2) - #18 * EVar vlmMt * (#4150 + #2997 * EVar vlmMst2 + #447 * EPow P2 (EVar vlmMst2)) - #2592
   * (#7 + #6 * EVar vlmMst2) * EPow P2 (EVar vlmMt) + #6 * EVar vlmMst1 * (#716 + #6 * EVar vlmMst2 * (#275 - #993 *
   EVar vlmMt) - #4545 * EVar vlmMt - #369 * EPow P2 (EVar vlmMst2) + #2592 * EPow P2 (EVar vlmMt)) - #8622 * EPow P3
   (EVar vlmMst1) + #30492 * EPow P3 (EVar vlmMst2))) + #12 * ((#134328 + #272545 * EVar vlmMst2 - #18 * (#7074 +
   #1807 * EVar vlmMst2 - #2573 * EVar vlmMt) * EPow P2 (EVar vlmMst1) + #200058 * EPow P2 (EVar vlmMst2) - #1620 *
   EVar vlmMsq * (#20 + EVar vlmMst2 * (#107 - #30 * EVar vlmMt) - #15 * EVar vlmMst1 * (#5 + #2 * EVar vlmMst2 - #2 *
   EVar vlmMt) - #32 * EVar vlmMt + #30 * EPow P2 (EVar vlmMst2)) - #6 * EVar vlmMt * (#11911 + #12661 * EVar vlmMst2
   + #2361 * EPow P2 (EVar vlmMst2)) - #864 * (#11 + #15 * EVar vlmMst2) * EPow P2 (EVar vlmMt) + EVar vlmMst1 * (-
   #153271 + #14334 * EVar vlmMt - #6 * EVar vlmMst2 * (#265 + #5358 * EVar vlmMt) + #5976 * EPow P2 (EVar vlmMst2) +
   #12960 * EPow P2 (EVar vlmMt)) - #4788 * EPow P3 (EVar vlmMst1) + #31338 * EPow P3 (EVar vlmMst2)) * EPow P4 (EVar
   vMst1) + (#36832 - #1067 * EVar vlmMst2 + #30 * EVar vlmMsq * (#419 + #138 * EVar vlmMt + #36 * EVar vlmMst2 * (#1
   + EVar vlmMt) - #6 * EVar vlmMst1 * (#29 + #6 * EVar vlmMt)) + #540 * (EVar vlmMst1 - EVar vlmMst2) * EPow P2 (EVar
   vlmMsq) + #6 * (#757 + #30 * EVar vlmMst2 + #84 * EVar vlmMt) * EPow P2 (EVar vlmMst1) - #288 * EPow P2 (EVar
   vlmMst2) - #6 * EVar vlmMt * (#555 + #473 * EVar vlmMst2 + #108 * EPow P2 (EVar vlmMst2)) - #144 * (#17 + #6 * EVar
   vlmMst2) * EPow P2 (EVar vlmMt) + EVar vlmMst1 * (- #19027 - #3210 * EVar vlmMt + #6 * EVar vlmMst2 * (#131 + #24 *
   EVar vlmMt) + #36 * EPow P2 (EVar vlmMst2) + #864 * EPow P2 (EVar vlmMt)) - #132 * EPow P3 (EVar vlmMst1) - #84 *
   EPow P3 (EVar vlmMst2)) * EPow P4 (EVar vMst2))) + #240 * EPow P2 (EVar vMsq) * (#3 * (#18 * (#16 - #15 * EVar
   vlmMst1 + #15 * EVar vlmMst2) * (#1 + #2 * EVar vlmMst2 - #2 * EVar vlmMt) * EPow P2 (EVar vMst2) - (#203 + #72 *
   EVar vlmMsq * (- #2 + #3 * EVar vlmMst1 - #3 * EVar vlmMst2) + #366 * EVar vlmMst2 + #6 * EVar vlmMst1 * (- #37 +
   #90 * EVar vlmMst2) - #378 * EPow P2 (EVar vlmMst1) - #162 * EPow P2 (EVar vlmMst2)) * EPow P2 (EVar vMuSUSY)) *
   EPow P4 (EVar vMst1) + #9 * EPow P2 (EVar vMuSUSY) * EPow P4 (EVar vMst2) - #3 * EPow P2 (EVar vMst1) * ((#557 -
   #126 * EVar vlmMst1 + #72 * EVar vlmMsq * (- #2 + EVar vlmMst1 - EVar vlmMst2) + #270 * EVar vlmMst2 - #36 * EPow
   P2 (EVar vlmMst1) + #36 * EPow P2 (EVar vlmMst2)) * EPow P2 (EVar vMst2) * EPow P2 (EVar vMuSUSY) + #2 * (#331 -
   #235 * EVar vlmMst1 + #96 * EVar vlmMst2 + (#132 - #78 * EVar vlmMst1 + #72 * EVar vlmMst2) * EVar vlmMt + EVar
   vlmMsq * (#7 + #78 * EVar vlmMst1 - #72 * EVar vlmMst2 + #6 * EVar vlmMt) - #6 * EPow P2 (EVar vlmMsq)) * EPow P4
   (EVar vMst2)) + (#67 + #12 * EVar vlmMst2 * (#2 - #3 * EVar vlmMt) - #66 * EVar vlmMt + #6 * EVar vlmMsq * (#7 + #6
   * (EVar vlmMst2 + EVar vlmMt)) - #36 * EPow P2 (EVar vlmMsq)) * EPow P6 (EVar vMst2)) + #15 * (#6 * EPow P2 (EVar
   vMst2) * (#2 * (EVar vlmMsq * (#64 - #696 * EVar vlmMst1 + #540 * EVar vlmMst2 - #156 * EVar vlmMt) + #8 * EVar
   vlmMst1 * (#118 + #87 * EVar vlmMt) - #3 * (#740 + #231 * EVar vlmMt + #15 * EVar vlmMst2 * (#7 + #12 * EVar
   vlmMt)) + #156 * EPow P2 (EVar vlmMsq)) * EPow P2 (EVar vMst2) - #3 * (#928 - #145 * EVar vlmMst1 + #180 * EVar
   vlmMsq * (- #2 + EVar vlmMst1 - EVar vlmMst2) + #505 * EVar vlmMst2 - #90 * EPow P2 (EVar vlmMst1) + #90 * EPow P2
   (EVar vlmMst2)) * EPow P2 (EVar vMuSUSY)) * EPow P4 (EVar vMst1) + EPow P2 (EVar vMst1) * (#48 * (#112 - #12 * EVar
   vlmMsq + #51 * EVar vlmMst2 - #3 * (#13 + #12 * EVar vlmMst2) * EVar vlmMt + #36 * EVar vlmMsq * (EVar vlmMst2 +
   EVar vlmMt) - #36 * EPow P2 (EVar vlmMsq)) * EPow P2 (EVar vMst2) + (#467 - #12 * EVar vlmMsq + #12 * EVar vlmMst2)
   * EPow P2 (EVar vMuSUSY)) * EPow P4 (EVar vMst2) + (- #11 + #12 * EVar vlmMsq - #12 * EVar vlmMst2) * EPow P2 (EVar
   vMuSUSY) * EPow P6 (EVar vMst2) + #4 * (#169 - #48 * EVar vlmMsq + EVar vlmMst2 * (#87 - #36 * EVar vlmMt) - #39 *
   EVar vlmMt + #36 * EVar vlmMsq * (EVar vlmMst2 + EVar vlmMt) - #36 * EPow P2 (EVar vlmMsq)) * EPow P8 (EVar
   vMst2))))))) / (#777600 * EVar vTbeta * EPow P2 (EVar vSbeta) * EPow P4 (EVar vMsq) * EPow P4 (EVar vMst2)))) /
   EPow P2 (EVar vMgl)).

(** H5g1.cpp:1754-2057 *)
Definition H5g1_getS12 : expr :=
  - (EVar vMuSUSY * (EVar vMt * (#9 * EVar voneLoopFlag * EVar vs2t * (#2 * (#2 - EVar vlmMst1 + EVar vlmMst2) * EVar
   vMt * EVar vMuSUSY * EVar vs2t + #4 * (- EVar vlmMst1 + EVar vlmMst2) * EVar vTbeta * EPow P2 (EVar vMt) + (- #2 +
   EVar vlmMst1 - EVar vlmMst2) * EVar vTbeta * EPow P2 (EVar vMst2) * EPow P2 (EVar vs2t)) - #48 * EVar vAl4p * EVar
   vtwoLoopFlag * (- (EVar vMst1 * EVar vMt * (#4 * EVar vMgl * EVar vMt * EVar vMuSUSY * EVar vs2t * (#8 - #2 * EVar
   vlmMst1 + #6 * EVar vlmMst2 - EPow P2 (EVar vlmMst1) + EPow P2 (EVar vlmMst2)) + #4 * EVar vDmglst1 * EVar vMt *
   EVar vMuSUSY * EVar vs2t * (#12 - #2 * EVar vlmMst1 + #6 * EVar vlmMst2 - EPow P2 (EVar vlmMst1) + EPow P2 (EVar
   vlmMst2)) + EVar vDmglst1 * EVar vTbeta * (#8 * (#5 + EVar vlmMst2 + (#2 + EVar vlmMst2) * EVar vlmMt - EVar
   vlmMst1 * (#3 + EVar vlmMt)) * EPow P2 (EVar vMt) + #3 * (- #12 + #2 * EVar vlmMst1 - #6 * EVar vlmMst2 + EPow P2
   (EVar vlmMst1) - EPow P2 (EVar vlmMst2)) * EPow P2 (EVar vMst2) * EPow P2 (EVar vs2t)) + EVar vMgl * EVar vTbeta *
   (#8 * (#2 + EVar vlmMst2 + EVar vlmMt + EVar vlmMst2 * EVar vlmMt - EVar vlmMst1 * (#2 + EVar vlmMt)) * EPow P2
   (EVar vMt) + #3 * (- #8 + #2 * EVar vlmMst1 - #6 * EVar vlmMst2 + EPow P2 (EVar vlmMst1) - EPow P2 (EVar vlmMst2))
   * EPow P2 (EVar vMst2) * EPow P2 (EVar vs2t)))) + EVar vs2t * (- #2 * EVar vDmglst1 * EPow P2 (EVar vMst1) * (#2 *
   EVar vlmMst2 * EVar vMt * EVar vMuSUSY * EVar vs2t + EVar vs2t * (EPow P2 (EVar vlmMst1) - EPow P2 (EVar vlmMst2))
   * (- #2 * EVar vMt * EVar vMuSUSY + EVar vs2t * EVar vTbeta * EPow P2 (EVar vMst2)) - #4 * EVar vTbeta * EPow P2
   (EVar vMt) + (- #1 + EVar vlmMst1) * EVar vTbeta * EPow P2 (EVar vMst2) * EPow P2 (EVar vs2t) - EVar vlmMst2 * EVar
   vTbeta * (#4 * EPow P2 (EVar vMt) + EPow P2 (EVar vMst2) * EPow P2 (EVar vs2t))) + EPow P2 (EVar vMst2) * (EVar
   vDmglst1 * (- #4 * (- #1 + EVar vlmMst1) * EVar vMt * EVar vMuSUSY * EVar vs2t + (#4 - #8 * EVar vlmMst1) * EVar
   vTbeta * EPow P2 (EVar vMt) + #2 * (- #1 + EVar vlmMst1) * EVar vTbeta * EPow P2 (EVar vMst2) * EPow P2 (EVar
   vs2t)) + EVar vMgl * (#2 * EVar vMt * EVar vMuSUSY * EVar vs2t * (- #7 - #7 * EVar vlmMst2 + #2 * EVar vlmMst1 *
   (#1 + EVar vlmMst2) - #2 * EPow P2 (EVar vlmMst2)) + #2 * EVar vTbeta * (#2 * EVar vlmMst1 * (#1 + EVar vlmMst2) -
   EVar vlmMst2 * (#4 + #3 * EVar vlmMst2) + EPow P2 (EVar vlmMst1)) * EPow P2 (EVar vMt) + EVar vTbeta * (#7 + #7 *
   EVar vlmMst2 - #2 * EVar vlmMst1 * (#1 + EVar vlmMst2) + #2 * EPow P2 (EVar vlmMst2)) * EPow P2 (EVar vMst2) * EPow
   P2 (EVar vs2t))))) / (EVar vMgl * EPow P2 (EVar vMst2))) / EVar vTbeta + #4 * EVar vthreeLoopFlag * EPow P2 (EVar
   vAl4p) * (- #6 * (#1 - #2 * EVar vlmMst2) * EVar vMt * EVar vs2t * EVar vshiftst3 * EPow P2 (EVar vMst2) * (#4 *
   EPow P2 (EVar vMt) + (#1 + EVar vlmMst1 - EVar vlmMst2) * EPow P2 (EVar vMst1) * EPow P2 (EVar vs2t)) / EPow P2
   (EVar vMst1) + #8 * EVar vMt * EVar vs2t * EConst CT1ep * (- #2 * EPow P2 (EVar vMt) + EPow P2 (EVar vMst2) * EPow
   P2 (EVar vs2t)) - #36 * EVar vMst1 * EPow P2 (EVar vMt) * EPow P2 (EVar vs2t) * (EDec 3699166666666667 13 - #34 *
   EConst CB4 / #3 - EConst CDN / #3 - #120 * EVar vlmMsq + #20 * EPow P2 (EVar vlmMsq) - EVar vlmMst1 * (EDec
   13166666666666666 15 - #30 * EVar vlmMsq + #10 * EPow P2 (EVar vlmMsq)) + EVar vlmMst2 * (EDec 3558333333333333 13
   - #70 * EVar vlmMsq - #59 * EVar vlmMst1 / #3 + #10 * EPow P2 (EVar vlmMsq) - #10 * EPow P2 (EVar vlmMst1)) + (-
   #167 + #60 * EVar vlmMsq) * EPow P2 (EVar vlmMst1) / #6 - (- #797 + #60 * EVar vlmMsq + #4 * EVar vlmMst1) * EPow
   P2 (EVar vlmMst2) / #6 - #50 * EPow P3 (EVar vlmMst1) / #9 + #146 * EPow P3 (EVar vlmMst2) / #9 + (#10 * (EVar
   vDmglst1 + EVar vMgl) * EPow P2 (EVar vMst2) / (#3 * EPow P2 (EVar vMsq)) + EVar vDmglst1 * (EDec 3149166666666667
   13 - #34 * EConst CB4 / #3 - EConst CDN / #3 - #180 * EVar vlmMsq + EVar vlmMst1 * (EDec 60833333333333336 15 + #30
   * EVar vlmMsq - #10 * EPow P2 (EVar vlmMsq)) + #20 * EPow P2 (EVar vlmMsq) + EVar vlmMst2 * (EDec 3885 1 - #70 *
   EVar vlmMsq - #59 * EVar vlmMst1 / #3 + #10 * EPow P2 (EVar vlmMsq) - #10 * EPow P2 (EVar vlmMst1)) + (- #13 + #20
   * EVar vlmMsq) * EPow P2 (EVar vlmMst1) / #2 - (- #797 + #60 * EVar vlmMsq + #4 * EVar vlmMst1) * EPow P2 (EVar
   vlmMst2) / #6 - #50 * EPow P3 (EVar vlmMst1) / #9 + #146 * EPow P3 (EVar vlmMst2) / #9)) / EVar vMgl) - EVar
   vDmglst1 * EVar vMt * EPow P2 (EVar vMst1) * (#2323 + #144 * EConst CB4 + #120 * EConst CDN - #2880 * EVar vlmMsq -
   #6 * EVar vlmMst1 * (- #293 - #360 * EVar vlmMsq + #180 * EPow P2 (EVar vlmMsq)) + #6 * EVar vlmMst2 * (#571 - #360
   * EVar vlmMsq + #62 * EVar vlmMst1 + #180 * EPow P2 (EVar vlmMsq) - #158 * EPow P2 (EVar vlmMst1)) + #30 * (- #121
   + #36 * EVar vlmMsq) * EPow P2 (EVar vlmMst1) - #6 * (- #735 + #180 * EVar vlmMsq + #98 * EVar vlmMst1) * EPow P2
   (EVar vlmMst2) - #260 * EPow P3 (EVar vlmMst1) + #1796 * EPow P3 (EVar vlmMst2)) * EPow P3 (EVar vs2t) / (#3 * EVar
   vMgl) - EVar vMt * EPow P2 (EVar vMst2) * (EVar vDmglst1 * (#36 * (#7 - #2 * EVar vlmMst1 - #60 * EVar vlmMsq * (-
   #5 + #6 * EVar vlmMst1) - #226 * EVar vlmMst2 + #220 * EVar vlmMst1 * EVar vlmMst2 + #180 * EPow P2 (EVar vlmMsq) +
   #178 * EPow P2 (EVar vlmMst1) + #18 * EPow P2 (EVar vlmMst2)) * EPow P2 (EVar vMsq) + #240 * (#82 - #93 * EVar
   vlmMst1 + #6 * EVar vlmMsq * (#4 + #3 * EVar vlmMst1 - #3 * EVar vlmMst2) + #69 * EVar vlmMst2 - #9 * EPow P2 (EVar
   vlmMst1) + #9 * EPow P2 (EVar vlmMst2)) * EPow P2 (EVar vMst1)) + EVar vMgl * EPow P2 (EVar vMsq) * (#53965 + #2592
   * EConst CB4 - #288 * EConst CDN - #13320 * EVar vlmMsq + #192 * EConst COepS2 - #1944 * (- #11 + #2 * EVar vlmMst1
   - #2 * EVar vlmMst2) * EConst CS2 + #5400 * EPow P2 (EVar vlmMsq) - #6 * EVar vlmMst1 * (#3781 - #300 * EVar vlmMsq
   + #180 * EPow P2 (EVar vlmMsq)) + #6 * EVar vlmMst2 * (#14137 - #3498 * EVar vlmMst1 + #60 * EVar vlmMsq * (- #35 +
   #12 * EVar vlmMst1) + #180 * EPow P2 (EVar vlmMsq) - #18 * EPow P2 (EVar vlmMst1)) - #18 * (- #229 + #60 * EVar
   vlmMsq) * EPow P2 (EVar vlmMst1) - #18 * (- #2193 + #180 * EVar vlmMsq + #442 * EVar vlmMst1) * EPow P2 (EVar
   vlmMst2) + #396 * EPow P3 (EVar vlmMst1) + #7668 * EPow P3 (EVar vlmMst2))) * EPow P3 (EVar vs2t) / (#36 * EVar
   vMgl * EPow P2 (EVar vMsq)) + EVar vs2t * EPow P3 (EVar vMt) * (#4717 - #288 * EConst CDN - #1080 * EVar vlmMsq +
   #96 * EConst COepS2 - #972 * (#1 + #2 * EVar vlmMst1 - #2 * EVar vlmMst2) * EConst CS2 + #3240 * EPow P2 (EVar
   vlmMsq) - #24 * EVar vlmMst1 * (#454 + #60 * EVar vlmMsq + #45 * EPow P2 (EVar vlmMsq)) + #24 * EVar vlmMst2 *
   (#715 - #336 * EVar vlmMst1 + #30 * EVar vlmMsq * (- #7 + #3 * EVar vlmMst1) + #45 * EPow P2 (EVar vlmMsq) - #36 *
   EPow P2 (EVar vlmMst1)) + #2952 * EPow P2 (EVar vlmMst1) - #72 * (- #191 + #30 * EVar vlmMsq + #44 * EVar vlmMst1)
   * EPow P2 (EVar vlmMst2) - #696 * EPow P3 (EVar vlmMst1) + #4728 * EPow P3 (EVar vlmMst2) + #324 * (- (EVar
   vDmglst1 * (EDec 11703703703703704 15 - #160 * EVar vlmMsq / #9 + #20 * (#7 + #54 * EVar vlmMsq) * EVar vlmMst1 /
   #27 + #4 * (#16 - #23 * EVar vlmMst1) * EVar vlmMst2 / #9 - #20 * EPow P2 (EVar vlmMsq) - #34 * EPow P2 (EVar
   vlmMst1) - #2 * EPow P2 (EVar vlmMst2) + EPow P2 (EVar vMst1) * (#20 * (#7 - #20 * EVar vlmMsq + #26 * EVar vlmMst1
   - #6 * EVar vlmMst2) / (#9 * EPow P2 (EVar vMsq)) + (#164809 - #864 * EConst CB4 - #432 * EConst CDN - #14580 *
   EVar vlmMsq - #9366 * EVar vlmMst1 + #4860 * EPow P2 (EVar vlmMsq) + #1854 * EPow P2 (EVar vlmMst1) + #6 * EVar
   vlmMst2 * (#23575 - #1620 * EVar vlmMsq - #906 * EVar vlmMst1 + #432 * EPow P2 (EVar vlmMst1)) + #18 * (#2167 +
   #336 * EVar vlmMst1) * EPow P2 (EVar vlmMst2) + #5184 * EVar vlmMt * (#2 + #3 * EVar vlmMst2 - EVar vlmMst1 * (#3 +
   #2 * EVar vlmMst2) + EPow P2 (EVar vlmMst1) + EPow P2 (EVar vlmMst2)) - #7200 * EPow P3 (EVar vlmMst1) - #1440 *
   EPow P3 (EVar vlmMst2)) / (#243 * EPow P2 (EVar vMst2))))) + EPow P2 (EVar vMst2) * (- #4 * EVar vMgl * (#5108 +
   #15 * EVar vlmMsq * (- #218 + #75 * EVar vlmMst1 - #195 * EVar vlmMst2) + #6270 * EVar vlmMst2 - #375 * EVar
   vlmMst1 * (#8 + #3 * EVar vlmMst2) + #900 * EPow P2 (EVar vlmMsq) + #2025 * EPow P2 (EVar vlmMst2)) / EPow P2 (EVar
   vMsq) + #2700 * (#1 - #2 * EVar vlmMst2) * EVar vMgl / EPow P2 (EVar vMst1) + #1125 * EVar vDmglst1 * (#13 - #12 *
   EVar vlmMsq + #12 * EVar vlmMst2) * EPow P2 (EVar vMst1) / EPow P4 (EVar vMsq)) / #4050) / EVar vMgl) / #9 + EVar
   vMuSUSY * EPow P2 (EVar vMt) * (EPow P2 (EVar vs2t) * (#270905 + #12960 * EConst CB4 - #66600 * EVar vlmMsq + #960
   * EConst COepS2 + #3240 * (#33 - #6 * EVar vlmMst1 + #6 * EVar vlmMst2) * EConst CS2 - #1440 * (EConst CDN + EConst
   CT1ep) + #27000 * EPow P2 (EVar vlmMsq) - #30 * EVar vlmMst1 * (#3781 - #300 * EVar vlmMsq + #180 * EPow P2 (EVar
   vlmMsq)) + #30 * EVar vlmMst2 * (#14065 - #3498 * EVar vlmMst1 + #60 * EVar vlmMsq * (- #35 + #12 * EVar vlmMst1) +
   #180 * EPow P2 (EVar vlmMsq) - #18 * EPow P2 (EVar vlmMst1)) + #90 * (#229 - #60 * EVar vlmMsq) * EPow P2 (EVar
   vlmMst1) - #90 * (- #2193 + #180 * EVar vlmMsq + #442 * EVar vlmMst1) * EPow P2 (EVar vlmMst2) + #1080 * (- #1 + #2
   * EVar vlmMst2) * EVar vshiftst3 * ((#2 - #2 * EVar vlmMst1 + #2 * EVar vlmMst2) * EPow P2 (EVar vMst1) + EPow P2
   (EVar vMst2)) / EPow P2 (EVar vMst1) + #1980 * EPow P3 (EVar vlmMst1) + #38340 * EPow P3 (EVar vlmMst2) + #60 *
   EVar vDmglst1 * (#20 * (#82 - #93 * EVar vlmMst1 + #6 * EVar vlmMsq * (#4 + #3 * EVar vlmMst1 - #3 * EVar vlmMst2)
   + #69 * EVar vlmMst2 - #9 * EPow P2 (EVar vlmMst1) + #9 * EPow P2 (EVar vlmMst2)) * EPow P2 (EVar vMst1) * EPow P2
   (EVar vMst2) + EPow P2 (EVar vMsq) * (#3 * (#7 + #60 * EVar vlmMsq * (#5 - #6 * EVar vlmMst1) - #2 * EVar vlmMst1 +
   (- #226 + #220 * EVar vlmMst1) * EVar vlmMst2 + #180 * EPow P2 (EVar vlmMsq) + #178 * EPow P2 (EVar vlmMst1) + #18
   * EPow P2 (EVar vlmMst2)) * EPow P2 (EVar vMst2) + #4 * EPow P2 (EVar vMst1) * (#586 + #36 * EConst CB4 + #30 *
   EConst CDN - #495 * EVar vlmMsq + #135 * EPow P2 (EVar vlmMsq) - #6 * EVar vlmMst1 * (- #73 - #45 * EVar vlmMsq +
   #45 * EPow P2 (EVar vlmMsq)) + #3 * EVar vlmMst2 * (#229 - #180 * EVar vlmMsq + #86 * EVar vlmMst1 + #90 * EPow P2
   (EVar vlmMsq) - #79 * EPow P2 (EVar vlmMst1)) + #18 * (- #43 + #15 * EVar vlmMsq) * EPow P2 (EVar vlmMst1) - #3 *
   (- #372 + #90 * EVar vlmMsq + #49 * EVar vlmMst1) * EPow P2 (EVar vlmMst2) - #65 * EPow P3 (EVar vlmMst1) + #449 *
   EPow P3 (EVar vlmMst2)))) / (EVar vMgl * EPow P2 (EVar vMsq) * EPow P2 (EVar vMst2)) - #12 * EPow P2 (EVar vMst2) *
   (#2 * (#939 + #30 * EVar vlmMsq * (- #12 + #5 * EVar vlmMst1 - #5 * EVar vlmMst2) + #760 * EVar vlmMst2 - #50 *
   EVar vlmMst1 * (#8 + #3 * EVar vlmMst2) + #150 * EPow P2 (EVar vlmMst2)) / EPow P2 (EVar vMsq) + #90 * (- #1 + #2 *
   EVar vlmMst2) / EPow P2 (EVar vMst1) + #225 * EVar vDmglst1 * EPow P2 (EVar vMst1) / (EVar vMgl * EPow P4 (EVar
   vMsq)))) + #20 * EVar vMst1 * EVar vMt * (EVar vs2t * (#6 * (EVar vDmglst1 * (#11337 - #408 * EConst CB4 - #12 *
   EConst CDN - #6480 * EVar vlmMsq + #720 * EPow P2 (EVar vlmMsq) - #30 * EVar vlmMst1 * (- #73 - #36 * EVar vlmMsq +
   #12 * EPow P2 (EVar vlmMsq)) + #6 * EVar vlmMst2 * (#2331 - #420 * EVar vlmMsq - #118 * EVar vlmMst1 + #60 * EPow
   P2 (EVar vlmMsq) - #60 * EPow P2 (EVar vlmMst1)) + #18 * (- #13 + #20 * EVar vlmMsq) * EPow P2 (EVar vlmMst1) - #6
   * (- #797 + #60 * EVar vlmMsq + #4 * EVar vlmMst1) * EPow P2 (EVar vlmMst2) - #200 * EPow P3 (EVar vlmMst1) + #584
   * EPow P3 (EVar vlmMst2)) + EVar vMgl * (#13317 - #408 * EConst CB4 - #12 * EConst CDN - #4320 * EVar vlmMsq + #720
   * EPow P2 (EVar vlmMsq) - #6 * EVar vlmMst1 * (#79 - #180 * EVar vlmMsq + #60 * EPow P2 (EVar vlmMsq)) + #6 * EVar
   vlmMst2 * (#2135 - #420 * EVar vlmMsq - #118 * EVar vlmMst1 + #60 * EPow P2 (EVar vlmMsq) - #60 * EPow P2 (EVar
   vlmMst1)) + #6 * (- #167 + #60 * EVar vlmMsq) * EPow P2 (EVar vlmMst1) - #6 * (- #797 + #60 * EVar vlmMsq + #4 *
   EVar vlmMst1) * EPow P2 (EVar vlmMst2) - #200 * EPow P3 (EVar vlmMst1) + #584 * EPow P3 (EVar vlmMst2))) / EPow P2
   (EVar vMst2) + #5 * (EVar vDmglst1 + EVar vMgl) * (#144 * EPow P2 (EVar vMsq) + (- #11 + #12 * EVar vlmMsq - #12 *
   EVar vlmMst2) * EPow P2 (EVar vMst2)) / EPow P4 (EVar vMsq)) + #96 * EVar vDmglst1 * EVar vMst1 * EVar vMt * (#735
   - #6 * EConst CB4 - #3 * EConst CDN - #78 * EVar vlmMst1 + #6 * EPow P2 (EVar vlmMst1) + #6 * EVar vlmMst2 * (#85 -
   #6 * EVar vlmMst1 + EPow P2 (EVar vlmMst1)) + #18 * (#7 + EVar vlmMst1) * EPow P2 (EVar vlmMst2) + #24 * EVar vlmMt
   * (#2 + #3 * EVar vlmMst2 - EVar vlmMst1 * (#3 + #2 * EVar vlmMst2) + EPow P2 (EVar vlmMst1) + EPow P2 (EVar
   vlmMst2)) - #26 * EPow P3 (EVar vlmMst1) + #2 * EPow P3 (EVar vlmMst2)) / EPow P4 (EVar vMst2)) / EVar vMgl) / (#90
   * EVar vTbeta) + EVar vMt * (#60 * EVar vs2t * EVar vxMsq * (#1 - #2 * (EVar vlmMsq + EConst Cz2)) * EPow P2 (EVar
   vMgl) * EPow P2 (EVar vMsq) * EPow P2 (EVar vMst2) * ((- #1 + EVar vshiftst1) * EPow P2 (EVar vMst2) * (- #2 * EVar
   vMt * EVar vMuSUSY * EVar vs2t - #4 * EVar vTbeta * EPow P2 (EVar vMt) + EVar vTbeta * EPow P2 (EVar vMst2) * EPow
   P2 (EVar vs2t)) + EPow P2 (EVar vMst1) * (#2 * EVar vMt * EVar vMuSUSY * EVar vs2t * (#1 + #2 * (EVar vlmMst1 -
   EVar vlmMst2) * (- #1 + EVar vshiftst1) - #2 * EVar vshiftst1 + EVar vshiftst2) + EVar vTbeta * (#4 * (- #1 + EVar
   vshiftst2) * EPow P2 (EVar vMt) - (EVar vshiftst1 - EVar vshiftst2 + (EVar vlmMst1 - EVar vlmMst2) * (- #2 + EVar
   vshiftst1 + EVar vshiftst2)) * EPow P2 (EVar vMst2) * EPow P2 (EVar vs2t)))) + #2 * EPow P2 (EVar vMst1) * EPow P2
   (EConst Cz2) * (EVar vMgl * EPow P2 (EVar vMst2) * (EVar vMgl * (- #64 * EVar vMst1 * EVar vMt * (- #4 * EVar vMt *
   EVar vMuSUSY * EVar vs2t + EVar vTbeta * EPow P2 (EVar vMt) + #3 * EVar vTbeta * EPow P2 (EVar vMst2) * EPow P2
   (EVar vs2t)) + #5 * EVar vs2t * EPow P2 (EVar vMst2) * (- #14 * EVar vMt * EVar vMuSUSY * EVar vs2t + #2 * EVar
   vTbeta * EPow P2 (EVar vMt) + #7 * EVar vTbeta * EPow P2 (EVar vMst2) * EPow P2 (EVar vs2t))) + #16 * EVar vDmglst1
   * EVar vMst1 * (#16 * EVar vMuSUSY * EVar vs2t * EPow P2 (EVar vMt) - #2 * EVar vMt * (EVar vMst1 * EVar vMuSUSY +
   #6 * EVar vTbeta * EPow P2 (EVar vMst2)) * EPow P2 (EVar vs2t) - #4 * EVar vTbeta * EPow P3 (EVar vMt) + EVar vMst1
   * EVar vTbeta * EPow P2 (EVar vMst2) * EPow P3 (EVar vs2t))) + #8 * EVar vMst1 * EVar vxDmglst1 * EPow P2 (EVar
   vDmglst1) * (#60 * EVar vMt * EVar vs2t * EPow P2 (EVar vMst1) * (#4 * EVar vMt * EVar vMuSUSY - #3 * EVar vs2t *
   EVar vTbeta * EPow P2 (EVar vMst2)) + EPow P2 (EVar vMst2) * (#32 * EVar vMuSUSY * EVar vs2t * EPow P2 (EVar vMt) -
   #6 * EVar vMt * (EVar vMst1 * EVar vMuSUSY + #4 * EVar vTbeta * EPow P2 (EVar vMst2)) * EPow P2 (EVar vs2t) - #8 *
   EVar vTbeta * EPow P3 (EVar vMt) + #3 * EVar vMst1 * EVar vTbeta * EPow P2 (EVar vMst2) * EPow P3 (EVar vs2t)))) -
   EConst Cz3 * EPow P2 (EVar vMst1) * (#4 * EVar vMgl * EVar vMt * EVar vMuSUSY * (#8 * EVar vMgl * EVar vs2t * EPow
   P2 (EVar vMst2) * ((#133 - #9 * EVar vlmMst1 + #9 * EVar vlmMst2) * EVar vMst1 * EVar vMt - #41 * EVar vs2t * EPow
   P2 (EVar vMst2)) + EVar vDmglst1 * (#8 * (#58 - #9 * EVar vlmMst1 + #9 * EVar vlmMst2) * EVar vMst1 * EVar vMt *
   EVar vs2t * EPow P2 (EVar vMst2) + #12 * EPow P2 (EVar vMst1) * ((#52 + #8 * EVar vlmMst1 - #8 * EVar vlmMst2) *
   EPow P2 (EVar vMt) + (- #35 - #46 * EVar vlmMst1 + #46 * EVar vlmMst2) * EPow P2 (EVar vMst2) * EPow P2 (EVar
   vs2t)) + #195 * EPow P2 (EVar vs2t) * EPow P4 (EVar vMst2))) - #2 * EVar vMgl * EVar vTbeta * EPow P2 (EVar vMst2)
   * (EVar vDmglst1 * (#5 * EVar vs2t * EPow P2 (EVar vMst2) * (- #88 * EPow P2 (EVar vMt) + #39 * EPow P2 (EVar
   vMst2) * EPow P2 (EVar vs2t)) + #4 * EVar vMst1 * EVar vMt * (#4 * (- #37 + #12 * EVar vlmMst1 - #12 * EVar
   vlmMst2) * EPow P2 (EVar vMt) + #3 * (#58 - #9 * EVar vlmMst1 + #9 * EVar vlmMst2) * EPow P2 (EVar vMst2) * EPow P2
   (EVar vs2t)) + #3 * EVar vs2t * EPow P2 (EVar vMst1) * (#16 * (#53 + #4 * EVar vlmMst1 - #4 * EVar vlmMst2) * EPow
   P2 (EVar vMt) + (- #205 - #184 * EVar vlmMst1 + #184 * EVar vlmMst2) * EPow P2 (EVar vMst2) * EPow P2 (EVar vs2t)))
   - #4 * EVar vMgl * (- #43 * EVar vs2t * EPow P2 (EVar vMst2) * EPow P2 (EVar vMt) - #3 * EVar vMst1 * EVar vMt *
   (#8 * (- #9 + #2 * EVar vlmMst1 - #2 * EVar vlmMst2) * EPow P2 (EVar vMt) + (#133 - #9 * EVar vlmMst1 + #9 * EVar
   vlmMst2) * EPow P2 (EVar vMst2) * EPow P2 (EVar vs2t)) + #82 * EPow P3 (EVar vs2t) * EPow P4 (EVar vMst2))) + EVar
   vxDmglst1 * EPow P2 (EVar vDmglst1) * (EVar vMt * (- #4 * EVar vMst1 * EPow P2 (EVar vMst2) * (#4 * (#559 + #18 *
   EVar vlmMst1 - #18 * EVar vlmMst2) * EVar vMt * EVar vMuSUSY * EVar vs2t + #6 * (#565 + #16 * EVar vlmMst1 - #16 *
   EVar vlmMst2) * EVar vTbeta * EPow P2 (EVar vMt) - #3 * (#559 + #18 * EVar vlmMst1 - #18 * EVar vlmMst2) * EVar
   vTbeta * EPow P2 (EVar vMst2) * EPow P2 (EVar vs2t)) - #8 * (#54 * (#51 - #52 * EVar vlmMst1 + #52 * EVar vlmMst2)
   * EVar vMt * EVar vMuSUSY * EVar vs2t + #3595 * EVar vTbeta * EPow P2 (EVar vMt) + #1053 * (- #1 + #2 * EVar
   vlmMst1 - #2 * EVar vlmMst2) * EVar vTbeta * EPow P2 (EVar vMst2) * EPow P2 (EVar vs2t)) * EPow P3 (EVar vMst1)) +
   #7 * EVar vs2t * (#438 * EVar vMt * EVar vMuSUSY * EVar vs2t + #994 * EVar vTbeta * EPow P2 (EVar vMt) - #219 *
   EVar vTbeta * EPow P2 (EVar vMst2) * EPow P2 (EVar vs2t)) * EPow P4 (EVar vMst2) + EPow P2 (EVar vMst1) * (- #16 *
   (#1573 + #36 * EVar vlmMst1 - #36 * EVar vlmMst2) * EVar vs2t * EVar vTbeta * EPow P2 (EVar vMst2) * EPow P2 (EVar
   vMt) - #48 * (#49 + #69 * EVar vlmMst1 - #69 * EVar vlmMst2) * EVar vMt * EVar vMuSUSY * EPow P2 (EVar vMst2) *
   EPow P2 (EVar vs2t) + #64 * (#220 + #9 * EVar vlmMst1 - #9 * EVar vlmMst2) * EVar vMuSUSY * EPow P3 (EVar vMt) + #9
   * (#301 + #184 * EVar vlmMst1 - #184 * EVar vlmMst2) * EVar vTbeta * EPow P3 (EVar vs2t) * EPow P4 (EVar vMst2))))
   + #4 * EConst Cz4 * EPow P2 (EVar vMst1) * (EPow P2 (EVar vMgl) * EPow P2 (EVar vMst2) * (EVar vs2t * EPow P2 (EVar
   vMst2) * (#242 * EVar vMt * EVar vMuSUSY * EVar vs2t + #18 * EVar vTbeta * EPow P2 (EVar vMt) - #121 * EVar vTbeta
   * EPow P2 (EVar vMst2) * EPow P2 (EVar vs2t)) + EVar vMst1 * EVar vMt * (- #964 * EVar vMt * EVar vMuSUSY * EVar
   vs2t + #16 * EVar vTbeta * EPow P2 (EVar vMt) + #723 * EVar vTbeta * EPow P2 (EVar vMst2) * EPow P2 (EVar vs2t))) +
   EVar vDmglst1 * EVar vMst1 * (EVar vMgl * (EVar vMt * EPow P2 (EVar vMst2) * (- #964 * EVar vMt * EVar vMuSUSY *
   EVar vs2t + #16 * EVar vTbeta * EPow P2 (EVar vMt) + #723 * EVar vTbeta * EPow P2 (EVar vMst2) * EPow P2 (EVar
   vs2t)) + #10 * EVar vMst1 * (- #24 * EVar vs2t * EVar vTbeta * EPow P2 (EVar vMst2) * EPow P2 (EVar vMt) - #106 *
   EVar vMt * EVar vMuSUSY * EPow P2 (EVar vMst2) * EPow P2 (EVar vs2t) + #24 * EVar vMuSUSY * EPow P3 (EVar vMt) +
   #53 * EVar vTbeta * EPow P3 (EVar vs2t) * EPow P4 (EVar vMst2))) + EVar vDmglst1 * EVar vxDmglst1 * (#1230 * EVar
   vMt * EVar vs2t * EPow P2 (EVar vMst1) * (#4 * EVar vMt * EVar vMuSUSY - #3 * EVar vs2t * EVar vTbeta * EPow P2
   (EVar vMst2)) + EVar vMt * EPow P2 (EVar vMst2) * (- #964 * EVar vMt * EVar vMuSUSY * EVar vs2t + #16 * EVar vTbeta
   * EPow P2 (EVar vMt) + #723 * EVar vTbeta * EPow P2 (EVar vMst2) * EPow P2 (EVar vs2t)) + #15 * EVar vMst1 * (- #24
   * EVar vs2t * EVar vTbeta * EPow P2 (EVar vMst2) * EPow P2 (EVar vMt) - #106 * EVar vMt * EVar vMuSUSY * EPow P2
   (EVar vMst2) * EPow P2 (EVar vs2t) + #24 * EVar vMuSUSY * EPow P3 (EVar vMt) + #53 * EVar vTbeta * EPow P3 (EVar
   vs2t) * EPow P4 (EVar vMst2)))))) / (EVar vTbeta * EPow P2 (EVar vMgl) * EPow P2 (EVar vMst1) * EPow P4 (EVar
   vMst2)) + #2 * EVar vMst1 * (#80 * EVar vDmglst1 * (#17 + #3 * EVar vlmMst2 * (#1 - #6 * EVar vlmMt) - #33 * EVar
   vlmMt + #6 * EVar vlmMsq * (#5 + #3 * (EVar vlmMst2 + EVar vlmMt)) - #18 * EPow P2 (EVar vlmMsq)) * EPow P2 (EVar
   vMsq) * EPow P2 (EVar vMst2) + #80 * EVar vMgl * (#17 + #3 * EVar vlmMst2 * (#1 - #6 * EVar vlmMt) - #33 * EVar
   vlmMt + #6 * EVar vlmMsq * (#5 + #3 * (EVar vlmMst2 + EVar vlmMt)) - #18 * EPow P2 (EVar vlmMsq)) * EPow P2 (EVar
   vMsq) * EPow P2 (EVar vMst2) - #8 * EVar vDmglst1 * (#1846 - #1057 * EVar vlmMst2 + #30 * EVar vlmMsq * (#151 + #51
   * EVar vlmMt + #9 * EVar vlmMst2 * (#3 + #2 * EVar vlmMt) - #6 * EVar vlmMst1 * (#13 + #3 * EVar vlmMt)) + #270 *
   (EVar vlmMst1 - EVar vlmMst2) * EPow P2 (EVar vlmMsq) + #6 * (#352 + #15 * EVar vlmMst2 + #42 * EVar vlmMt) * EPow
   P2 (EVar vlmMst1) - #306 * EPow P2 (EVar vlmMst2) - #3 * EVar vlmMt * (#1105 + #608 * EVar vlmMst2 + #108 * EPow P2
   (EVar vlmMst2)) - #432 * (#2 + EVar vlmMst2) * EPow P2 (EVar vlmMt) + #2 * EVar vlmMst1 * (- #2534 - #192 * EVar
   vlmMt + #3 * EVar vlmMst2 * (#67 + #12 * EVar vlmMt) + #9 * EPow P2 (EVar vlmMst2) + #216 * EPow P2 (EVar vlmMt)) -
   #66 * EPow P3 (EVar vlmMst1) - #42 * EPow P3 (EVar vlmMst2)) * EPow P4 (EVar vMsq) + #24 * EVar vMgl * (#212 + #225
   * EVar vlmMst2 - #90 * EVar vlmMsq * (#7 + #2 * EVar vlmMst2 * EVar vlmMt - #2 * EVar vlmMst1 * (#3 + EVar vlmMt) +
   #3 * (EVar vlmMst2 + EVar vlmMt)) - #90 * (EVar vlmMst1 - EVar vlmMst2) * EPow P2 (EVar vlmMsq) - #6 * (#67 + #5 *
   EVar vlmMst2 + #14 * EVar vlmMt) * EPow P2 (EVar vlmMst1) + #102 * EPow P2 (EVar vlmMst2) + #3 * EVar vlmMt * (#265
   + #202 * EVar vlmMst2 + #36 * EPow P2 (EVar vlmMst2)) + #144 * (#1 + EVar vlmMst2) * EPow P2 (EVar vlmMt) - #6 *
   EVar vlmMst1 * (- #54 + #37 * EVar vlmMt + EVar vlmMst2 * (#22 + #4 * EVar vlmMt) + EPow P2 (EVar vlmMst2) + #24 *
   EPow P2 (EVar vlmMt)) + #22 * EPow P3 (EVar vlmMst1) + #14 * EPow P3 (EVar vlmMst2)) * EPow P4 (EVar vMsq) + #5 *
   EVar vDmglst1 * (#299 - #60 * EVar vlmMsq + #6 * EVar vlmMst2 * (#23 - #12 * EVar vlmMt) - #78 * EVar vlmMt + #72 *
   EVar vlmMsq * (EVar vlmMst2 + EVar vlmMt) - #72 * EPow P2 (EVar vlmMsq)) * EPow P4 (EVar vMst2) + #5 * EVar vMgl *
   (#299 - #60 * EVar vlmMsq + #6 * EVar vlmMst2 * (#23 - #12 * EVar vlmMt) - #78 * EVar vlmMt + #72 * EVar vlmMsq *
   (EVar vlmMst2 + EVar vlmMt) - #72 * EPow P2 (EVar vlmMsq)) * EPow P4 (EVar vMst2)) * EPow P4 (EVar vMt) / (#9 *
   EVar vMgl * EPow P2 (EVar vMst2) * EPow P4 (EVar vMsq)) + #2 * EConst Cz2 * (EVar vMt * EVar vs2t * EPow P2 (EVar
   vMst2) * (#24 * EVar vshiftst3 * EPow P2 (EVar vMt) / EPow P2 (EVar vMst1) + (#333 - #30 * EVar vlmMsq - #37 * EVar
   vlmMst1 + #149 * EVar vlmMst2 + #6 * (#1 + EVar vlmMst1) * EVar vshiftst3 - #6 * EVar vlmMst2 * EVar vshiftst3 +
   EVar vDmglst1 * (- #198 - #60 * EPow P2 (EVar vMst1) / EPow P2 (EVar vMsq)) / EVar vMgl) * EPow P2 (EVar vs2t)) +
   #18 * EVar vs2t * (EDec 32611111111111114 15 + #4 * EVar vlmMst2 / #3 + EVar vDmglst1 * (#44 - #4 * (#2777 + #120 *
   EVar vlmMst1 + #456 * EVar vlmMst2) * EPow P2 (EVar vMst1) / (#27 * EPow P2 (EVar vMst2))) / EVar vMgl - #4 * (EVar
   vlmMst1 + EPow P2 (EVar vMst2) / EPow P2 (EVar vMst1)) / #3) * EPow P3 (EVar vMt) + #2 * EVar vMuSUSY * EPow P2
   (EVar vMt) * (- ((#339 - #30 * EVar vlmMsq - #37 * EVar vlmMst1 + #149 * EVar vlmMst2 - #9 * EVar vDmglst1 * (#22 +
   #4 * EPow P2 (EVar vMst1) * (#15 / EPow P2 (EVar vMsq) + (#390 - #90 * EVar vlmMsq - #139 * EVar vlmMst1 + #315 *
   EVar vlmMst2) / EPow P2 (EVar vMst2)) / #9) / EVar vMgl + #6 * EPow P2 (EVar vMst2) / EPow P2 (EVar vMst1) + EVar
   vshiftst3 * (#12 * (- #1 + EVar vlmMst1 - EVar vlmMst2) - #6 * EPow P2 (EVar vMst2) / EPow P2 (EVar vMst1))) * EPow
   P2 (EVar vs2t)) + #4 * EVar vMst1 * EVar vMt * (#8 * EVar vDmglst1 * (#55 + #16 * EVar vlmMst2) * EVar vMst1 * EVar
   vMt + (#627 - #60 * EVar vlmMsq - #64 * EVar vlmMst1 + #192 * EVar vlmMst2) * (EVar vDmglst1 + EVar vMgl) * EVar
   vs2t * EPow P2 (EVar vMst2)) / (EVar vMgl * EPow P4 (EVar vMst2))) / EVar vTbeta + #18 * EVar vMst1 * (EVar
   vDmglst1 * (- #681 + #180 * EVar vlmMsq + #278 * EVar vlmMst1 - #630 * EVar vlmMst2) * EVar vMst1 * EVar vMt * EPow
   P3 (EVar vs2t) / #9 + (EVar vDmglst1 + EVar vMgl) * ((- #627 + #60 * EVar vlmMsq + #64 * EVar vlmMst1 - #192 * EVar
   vlmMst2) * EPow P2 (EVar vMt) * EPow P2 (EVar vs2t) / #3 + #8 * (- #60 * EPow P2 (EVar vMsq) * EPow P2 (EVar vMst2)
   + (#8 - #96 * EVar vlmMst1 + #54 * EVar vlmMst2 + #42 * EVar vlmMt) * EPow P4 (EVar vMsq) - #15 * EPow P4 (EVar
   vMst2)) * EPow P4 (EVar vMt) / (#27 * EPow P2 (EVar vMst2) * EPow P4 (EVar vMsq)))) / EVar vMgl)) + #16 * EVar
   vAl4p * (- #9 * EVar vxDmglst1 * EPow P2 (EVar vDmglst1) * (EVar vMst1 * EVar vtwoLoopFlag * (#16 - #2 * EVar
   vlmMst1 + #6 * EVar vlmMst2 - EPow P2 (EVar vlmMst1) + EPow P2 (EVar vlmMst2) - #2 * (#6 + #7 * EVar vlmMst2 - EVar
   vlmMst1 * (#7 + #6 * EVar vlmMst2) + #3 * EPow P2 (EVar vlmMst1) + #3 * EPow P2 (EVar vlmMst2)) * EPow P2 (EVar
   vMst1) / EPow P2 (EVar vMst2)) * EPow P2 (EVar vMt) * EPow P2 (EVar vs2t) + EVar vs2t * EVar vtwoLoopFlag * (EDec
   37777777777777777 16 - #4 * EVar vlmMst1 + #4 * (#1 + EVar vlmMst2) * EPow P2 (EVar vMst1) / EPow P2 (EVar vMst2))
   * EPow P3 (EVar vMt) + EVar vMt * EVar vtwoLoopFlag * ((EDec 26666666666666665 16 - EVar vlmMst1 + EVar vlmMst2 -
   EPow P2 (EVar vlmMst1) + EPow P2 (EVar vlmMst2)) * EPow P2 (EVar vMst1) + (- #4 + #3 * EVar vlmMst1) * EPow P2
   (EVar vMst2) / #3) * EPow P3 (EVar vs2t) + #2 * EVar vMuSUSY * EVar vs2t * EVar vtwoLoopFlag * EPow P2 (EVar vMt) *
   (#2 * EVar vMst1 * EVar vMt * (- #16 + #2 * EVar vlmMst1 - #6 * EVar vlmMst2 + EPow P2 (EVar vlmMst1) - EPow P2
   (EVar vlmMst2)) * EPow P2 (EVar vMst2) - EVar vs2t * (#4 + #3 * EVar vlmMst2 * (#1 + EVar vlmMst2) - #3 * EPow P2
   (EVar vlmMst1)) * EPow P2 (EVar vMst1) * EPow P2 (EVar vMst2) + #4 * EVar vMt * (#4 + #7 * EVar vlmMst2 - EVar
   vlmMst1 * (#7 + #6 * EVar vlmMst2) + #3 * (EPow P2 (EVar vlmMst1) + EPow P2 (EVar vlmMst2))) * EPow P3 (EVar vMst1)
   + (#4 - #3 * EVar vlmMst1) * EVar vs2t * EPow P4 (EVar vMst2)) / (#3 * EVar vTbeta * EPow P4 (EVar vMst2)) - #4 *
   EVar vtwoLoopFlag * ((#151 + #51 * EVar vlmMt + #18 * EVar vlmMst2 * (#1 + EVar vlmMt) - #3 * EVar vlmMst1 * (#23 +
   #6 * EVar vlmMt)) * EVar vMst1 * EPow P2 (EVar vMst2) + (#61 + #3 * EVar vlmMst1 * (- #5 + #18 * EVar vlmMst2 - #18
   * EVar vlmMt) + #105 * EVar vlmMt + #18 * EVar vlmMst2 * (- #5 + #3 * EVar vlmMt) - #54 * EPow P2 (EVar vlmMst2)) *
   EPow P3 (EVar vMst1)) * EPow P4 (EVar vMt) / (#27 * EPow P4 (EVar vMst2)) - EVar vAl4p * EVar vMuSUSY * EVar
   vthreeLoopFlag * EPow P2 (EVar vMt) * (#3 * EPow P2 (EVar vs2t) * (#6457 + #4020 * EVar vlmMsq - #2 * (#491 + #1620
   * EVar vlmMsq) * EVar vlmMst1 + #30 * (- #89 + #66 * EVar vlmMst1) * EVar vlmMst2 + #1620 * EPow P2 (EVar vlmMsq) +
   #834 * EPow P2 (EVar vlmMst1) + #162 * EPow P2 (EVar vlmMst2) + #3 * EPow P2 (EVar vMst1) * (#20 * (#108 - #133 *
   EVar vlmMst1 + #2 * EVar vlmMsq * (#32 + #9 * EVar vlmMst1 - #9 * EVar vlmMst2) + #69 * EVar vlmMst2 - #9 * EPow P2
   (EVar vlmMst1) + #9 * EPow P2 (EVar vlmMst2)) * EPow P2 (EVar vMsq) * EPow P2 (EVar vMst2) + #4 * (#479 + #36 *
   EConst CB4 + #30 * EConst CDN - #975 * EVar vlmMsq + EVar vlmMst1 * (#1018 + #270 * EVar vlmMsq - #270 * EPow P2
   (EVar vlmMsq)) + #135 * EPow P2 (EVar vlmMsq) + EVar vlmMst2 * (#811 - #540 * EVar vlmMsq + #258 * EVar vlmMst1 +
   #270 * EPow P2 (EVar vlmMsq) - #237 * EPow P2 (EVar vlmMst1)) + (- #646 + #270 * EVar vlmMsq) * EPow P2 (EVar
   vlmMst1) - #3 * (- #372 + #90 * EVar vlmMsq + #49 * EVar vlmMst1) * EPow P2 (EVar vlmMst2) - #65 * EPow P3 (EVar
   vlmMst1) + #449 * EPow P3 (EVar vlmMst2)) * EPow P4 (EVar vMsq) - #45 * EPow P4 (EVar vMst2)) / (EPow P2 (EVar
   vMst2) * EPow P4 (EVar vMsq))) + #2 * EVar vMst1 * EVar vMt * (#16 * EVar vMst1 * EVar vMt * (#9893 - #54 * EConst
   CB4 - #27 * EConst CDN - #50 * EVar vlmMst1 + #138 * EPow P2 (EVar vlmMst1) + EVar vlmMst2 * (#4538 - #300 * EVar
   vlmMst1 + #54 * EPow P2 (EVar vlmMst1)) + #54 * (#19 + #3 * EVar vlmMst1) * EPow P2 (EVar vlmMst2) + #24 * EVar
   vlmMt * (#29 + #35 * EVar vlmMst2 - EVar vlmMst1 * (#35 + #18 * EVar vlmMst2) + #9 * EPow P2 (EVar vlmMst1) + #9 *
   EPow P2 (EVar vlmMst2)) - #234 * EPow P3 (EVar vlmMst1) + #18 * EPow P3 (EVar vlmMst2)) + EVar vs2t * (- #6 * (EPow
   P2 (EVar vMst2) * (#413 + #408 * EConst CB4 + #12 * EConst CDN + #8520 * EVar vlmMsq - #720 * EPow P2 (EVar vlmMsq)
   + #2 * EVar vlmMst1 * (- #1573 - #540 * EVar vlmMsq + #180 * EPow P2 (EVar vlmMsq)) - #18 * (#51 + #20 * EVar
   vlmMsq) * EPow P2 (EVar vlmMst1) + EVar vlmMst2 * (- #15206 + #2520 * EVar vlmMsq + #708 * EVar vlmMst1 - #360 *
   EPow P2 (EVar vlmMsq) + #360 * EPow P2 (EVar vlmMst1)) + #6 * (- #797 + #60 * EVar vlmMsq + #4 * EVar vlmMst1) *
   EPow P2 (EVar vlmMst2) + #200 * EPow P3 (EVar vlmMst1) - #584 * EPow P3 (EVar vlmMst2)) + #4 * EPow P2 (EVar vMst1)
   * (#6129 + #684 * EConst CB4 - #18 * EConst CDN - #3630 * EVar vlmMsq + #6 * (- #251 + #600 * EVar vlmMsq) * EVar
   vlmMst1 + EVar vlmMst2 * (#6914 - #1122 * EVar vlmMst1 + #720 * EVar vlmMsq * (- #5 + #3 * EVar vlmMst1) - #1179 *
   EPow P2 (EVar vlmMst1)) - #3 * (#997 + #360 * EVar vlmMsq) * EPow P2 (EVar vlmMst1) - #9 * (- #393 + #120 * EVar
   vlmMsq + #125 * EVar vlmMst1) * EPow P2 (EVar vlmMst2) + #1353 * EPow P3 (EVar vlmMst1) + #951 * EPow P3 (EVar
   vlmMst2))) * EPow P4 (EVar vMsq) - #240 * EPow P2 (EVar vMsq) * ((#311 - #66 * EVar vlmMst1 + #36 * EVar vlmMsq *
   (- #2 + EVar vlmMst1 - EVar vlmMst2) + #138 * EVar vlmMst2 - #18 * EPow P2 (EVar vlmMst1) + #18 * EPow P2 (EVar
   vlmMst2)) * EPow P2 (EVar vMst1) * EPow P2 (EVar vMst2) - #3 * EPow P4 (EVar vMst2)) + #1080 * EPow P2 (EVar vMst1)
   * EPow P4 (EVar vMst2) + #5 * (- #11 + #12 * EVar vlmMsq - #12 * EVar vlmMst2) * EPow P6 (EVar vMst2)) / EPow P4
   (EVar vMsq)) / EPow P4 (EVar vMst2)) / (#324 * EVar vTbeta) + EVar vAl4p * EVar vMt * EVar vthreeLoopFlag * (- ((-
   (((#6457 + #60 * EVar vlmMsq * (#67 - #54 * EVar vlmMst1) - #982 * EVar vlmMst1 + #30 * (- #89 + #66 * EVar
   vlmMst1) * EVar vlmMst2 + #1620 * EPow P2 (EVar vlmMsq) + #834 * EPow P2 (EVar vlmMst1) + #162 * EPow P2 (EVar
   vlmMst2)) * EPow P2 (EVar vMsq) + #60 * (#108 - #133 * EVar vlmMst1 + #2 * EVar vlmMsq * (#32 + #9 * EVar vlmMst1 -
   #9 * EVar vlmMst2) + #69 * EVar vlmMst2 - #9 * EPow P2 (EVar vlmMst1) + #9 * EPow P2 (EVar vlmMst2)) * EPow P2
   (EVar vMst1)) * EPow P2 (EVar vMst2) / EPow P2 (EVar vMsq)) + EPow P2 (EVar vMst1) * (#709 - #432 * EConst CB4 -
   #360 * EConst CDN + #15720 * EVar vlmMsq + #2 * EVar vlmMst1 * (- #6599 - #3240 * EVar vlmMsq + #1620 * EPow P2
   (EVar vlmMsq)) - #18 * EVar vlmMst2 * (#689 - #360 * EVar vlmMsq + #62 * EVar vlmMst1 + #180 * EPow P2 (EVar
   vlmMsq) - #158 * EPow P2 (EVar vlmMst1)) + #162 * (#53 - #20 * EVar vlmMsq) * EPow P2 (EVar vlmMst1) + #18 * (-
   #735 + #180 * EVar vlmMsq + #98 * EVar vlmMst1) * EPow P2 (EVar vlmMst2) + #780 * EPow P3 (EVar vlmMst1) - #5388 *
   EPow P3 (EVar vlmMst2))) * EPow P3 (EVar vs2t)) / #216 - EVar vs2t * EPow P2 (EVar vMt) * (#163 + #520 * EVar
   vlmMsq / #9 - #2 * (#731 + #810 * EVar vlmMsq) * EVar vlmMst1 / #27 + #2 * (- #74 + #69 * EVar vlmMst1) * EVar
   vlmMst2 / #9 + #30 * EPow P2 (EVar vlmMsq) + #331 * EPow P2 (EVar vlmMst1) / #9 + #3 * EPow P2 (EVar vlmMst2) -
   EPow P2 (EVar vMst1) * (#10 * (#9 - #100 * EVar vlmMsq + #118 * EVar vlmMst1 - #18 * EVar vlmMst2) / (#9 * EPow P2
   (EVar vMsq)) + (EDec 15342283950617284 13 - #16 * EConst CB4 / #3 - #8 * EConst CDN / #3 - #90 * EVar vlmMsq +
   #1507 * EVar vlmMst1 / #27 + #30 * EPow P2 (EVar vlmMsq) + #215 * EPow P2 (EVar vlmMst1) / #9 + EVar vlmMst2 *
   (EDec 8484074074074074 13 - #60 * EVar vlmMsq - #30 * EVar vlmMst1 + #16 * EPow P2 (EVar vlmMst1)) + #7 * (#289 +
   #48 * EVar vlmMst1) * EPow P2 (EVar vlmMst2) / #9 + #32 * EVar vlmMt * (#29 + #35 * EVar vlmMst2 - EVar vlmMst1 *
   (#35 + #18 * EVar vlmMst2) + #9 * EPow P2 (EVar vlmMst1) + #9 * EPow P2 (EVar vlmMst2)) / #9 - #400 * EPow P3 (EVar
   vlmMst1) / #9 - #80 * EPow P3 (EVar vlmMst2) / #9) / EPow P2 (EVar vMst2) - (EDec 5416666666666667 15 - #5 * EVar
   vlmMsq + #5 * EVar vlmMst2) * EPow P2 (EVar vMst2) / EPow P4 (EVar vMsq))) - EVar vMt * EPow P2 (EVar vs2t) * (EVar
   vMst1 * (#413 + #408 * EConst CB4 + #12 * EConst CDN + #8520 * EVar vlmMsq - #720 * EPow P2 (EVar vlmMsq) + #2 *
   EVar vlmMst1 * (- #1573 - #540 * EVar vlmMsq + #180 * EPow P2 (EVar vlmMsq)) - #2 * EVar vlmMst2 * (#7603 - #1260 *
   EVar vlmMsq - #354 * EVar vlmMst1 + #180 * EPow P2 (EVar vlmMsq) - #180 * EPow P2 (EVar vlmMst1)) - #18 * (#51 +
   #20 * EVar vlmMsq) * EPow P2 (EVar vlmMst1) + #6 * (- #797 + #60 * EVar vlmMsq + #4 * EVar vlmMst1) * EPow P2 (EVar
   vlmMst2) + #200 * EPow P3 (EVar vlmMst1) - #584 * EPow P3 (EVar vlmMst2)) / #36 + (#10 * (#311 - #66 * EVar vlmMst1
   + #36 * EVar vlmMsq * (- #2 + EVar vlmMst1 - EVar vlmMst2) + #138 * EVar vlmMst2 - #18 * EPow P2 (EVar vlmMst1) +
   #18 * EPow P2 (EVar vlmMst2)) / (#9 * EPow P2 (EVar vMsq)) + (EDec 3546111111111111 13 + #76 * EConst CB4 - #2 *
   EConst CDN - #460 * EVar vlmMsq + (- EDec 14077777777777777 14 + #400 * EVar vlmMsq) * EVar vlmMst1 + EVar vlmMst2
   * (EDec 8021111111111111 13 - #374 * EVar vlmMst1 / #3 + #80 * EVar vlmMsq * (- #5 + #3 * EVar vlmMst1) - #131 *
   EPow P2 (EVar vlmMst1)) - (#901 + #360 * EVar vlmMsq) * EPow P2 (EVar vlmMst1) / #3 + (#393 - #120 * EVar vlmMsq -
   #125 * EVar vlmMst1) * EPow P2 (EVar vlmMst2) + #451 * EPow P3 (EVar vlmMst1) / #3 + #317 * EPow P3 (EVar vlmMst2)
   / #3) / EPow P2 (EVar vMst2)) * EPow P3 (EVar vMst1) - #5 * EPow P2 (EVar vMst2) * (#2 * EVar vMst1 * EPow P2 (EVar
   vMsq) + #3 * EPow P3 (EVar vMst1)) / (#3 * EPow P4 (EVar vMsq))) + EVar vMst1 * EPow P3 (EVar vMt) * (#4 * (EPow P2
   (EVar vMst2) * (#33943 - #2918 * EVar vlmMst2 + #60 * EVar vlmMsq * (#244 + #69 * EVar vlmMt + #9 * EVar vlmMst2 *
   (#3 + #2 * EVar vlmMt) - #6 * EVar vlmMst1 * (#16 + #3 * EVar vlmMt)) + #540 * (EVar vlmMst1 - EVar vlmMst2) * EPow
   P2 (EVar vlmMsq) + #6 * (#799 + #30 * EVar vlmMst2 + #84 * EVar vlmMt) * EPow P2 (EVar vlmMst1) - #612 * EPow P2
   (EVar vlmMst2) - #6 * EVar vlmMt * (#963 + #617 * EVar vlmMst2 + #108 * EPow P2 (EVar vlmMst2)) - #144 * (#17 + #6
   * EVar vlmMst2) * EPow P2 (EVar vlmMt) + #2 * EVar vlmMst1 * (- #10100 - #1173 * EVar vlmMt + EVar vlmMst2 * (#429
   + #72 * EVar vlmMt) + #18 * EPow P2 (EVar vlmMst2) + #432 * EPow P2 (EVar vlmMt)) - #132 * EPow P3 (EVar vlmMst1) -
   #84 * EPow P3 (EVar vlmMst2)) + EPow P2 (EVar vMst1) * (#32085 + #23606 * EVar vlmMst2 + (#3606 - #3402 * EVar
   vlmMst2 + #7506 * EVar vlmMt) * EPow P2 (EVar vlmMst1) + #180 * EVar vlmMsq * (#31 + #6 * EVar vlmMst1 * (- #1 + #6
   * EVar vlmMst2 - #6 * EVar vlmMt) + #84 * EVar vlmMt + #6 * EVar vlmMst2 * (- #13 + #6 * EVar vlmMt) - #36 * EPow
   P2 (EVar vlmMst2)) + #18846 * EPow P2 (EVar vlmMst2) - #6 * EVar vlmMt * (#2850 + #1348 * EVar vlmMst2 + #189 *
   EPow P2 (EVar vlmMst2)) - #2 * EVar vlmMst1 * (#5093 + #5700 * EVar vlmMt + #6 * EVar vlmMst2 * (- #173 + #531 *
   EVar vlmMt) + #162 * EPow P2 (EVar vlmMst2) - #1296 * EPow P2 (EVar vlmMt)) - #144 * (#35 + #18 * EVar vlmMst2) *
   EPow P2 (EVar vlmMt) - #1368 * EPow P3 (EVar vlmMst1) + #5094 * EPow P3 (EVar vlmMst2))) * EPow P4 (EVar vMsq) +
   #80 * EPow P2 (EVar vMsq) * (#3 * (#245 + #6 * EVar vlmMst1 * (- #25 + #6 * EVar vlmMsq - #6 * EVar vlmMt) + #84 *
   EVar vlmMt + EVar vlmMst2 * (#66 - #36 * EVar vlmMsq + #36 * EVar vlmMt)) * EPow P2 (EVar vMst1) * EPow P2 (EVar
   vMst2) + (- #17 + #33 * EVar vlmMt - #6 * EVar vlmMsq * (#5 + #3 * EVar vlmMst2 + #3 * EVar vlmMt) + #3 * EVar
   vlmMst2 * (- #1 + #6 * EVar vlmMt) + #18 * EPow P2 (EVar vlmMsq)) * EPow P4 (EVar vMst2)) - #5 * (#6 * (#185 + #66
   * EVar vlmMst2 - #6 * (#13 + #12 * EVar vlmMst2) * EVar vlmMt + #12 * EVar vlmMsq * (#1 + #6 * (EVar vlmMst2 + EVar
   vlmMt)) - #72 * EPow P2 (EVar vlmMsq)) * EPow P2 (EVar vMst1) * EPow P4 (EVar vMst2) + (#299 - #60 * EVar vlmMsq +
   #138 * EVar vlmMst2 - #6 * (#13 + #12 * EVar vlmMst2) * EVar vlmMt + #72 * EVar vlmMsq * (EVar vlmMst2 + EVar
   vlmMt) - #72 * EPow P2 (EVar vlmMsq)) * EPow P6 (EVar vMst2))) / (#162 * EPow P4 (EVar vMsq) * EPow P4 (EVar
   vMst2)))) + EVar vMt * EConst Cz2 * (#3 * EVar vMgl * EVar vs2t * EVar vtwoLoopFlag * (EVar vMgl * (#2 * EVar vMst1
   * EVar vMt * (#4 * EVar vMt * EVar vMuSUSY - #3 * EVar vs2t * EVar vTbeta * EPow P2 (EVar vMst2)) + EVar vs2t *
   EPow P2 (EVar vMst2) * (- #2 * EVar vMt * EVar vMuSUSY + EVar vs2t * EVar vTbeta * EPow P2 (EVar vMst2))) + #2 *
   EVar vDmglst1 * EVar vMst1 * (EVar vMt * EVar vs2t * (#4 * EVar vMst1 * EVar vMuSUSY - #3 * EVar vTbeta * EPow P2
   (EVar vMst2)) + #4 * EVar vMuSUSY * EPow P2 (EVar vMt) - #2 * EVar vMst1 * EVar vTbeta * EPow P2 (EVar vMst2) *
   EPow P2 (EVar vs2t))) / (EVar vTbeta * EPow P2 (EVar vMst2)) - EVar vxDmglst1 * EPow P2 (EVar vDmglst1) * (EVar
   vMst1 * EVar vtwoLoopFlag * (#12 * EVar vMt * EVar vMuSUSY * EVar vs2t * (#12 * EVar vMt * EPow P2 (EVar vMst1) -
   #2 * EVar vMt * EPow P2 (EVar vMst2) - #3 * EVar vMst1 * EVar vs2t * EPow P2 (EVar vMst2)) / EVar vTbeta + #18 *
   (EPow P2 (EVar vMst1) * (- #6 * EVar vMt * EPow P2 (EVar vMst2) * EPow P2 (EVar vs2t) + #8 * EPow P3 (EVar vMt)) +
   (EVar vMt + EVar vMst1 * EVar vs2t) * EPow P2 (EVar vs2t) * EPow P4 (EVar vMst2))) / EPow P4 (EVar vMst2) + EVar
   vAl4p * EVar vthreeLoopFlag * (EVar vMt * EVar vMuSUSY * (#30 * EVar vs2t * EPow P2 (EVar vMst1) * EPow P2 (EVar
   vMst2) * (#16 * EVar vMst1 * EVar vMt - #3 * EVar vs2t * EPow P2 (EVar vMst2)) + EPow P2 (EVar vMsq) * (- #6 * EPow
   P2 (EVar vMst1) * (#8 * (#55 + #16 * EVar vlmMst2) * EPow P2 (EVar vMt) + (#390 - #90 * EVar vlmMsq - #139 * EVar
   vlmMst1 + #315 * EVar vlmMst2) * EPow P2 (EVar vMst2) * EPow P2 (EVar vs2t)) + EVar vMt * EVar vs2t * (#4 * (- #627
   + #60 * EVar vlmMsq + #64 * EVar vlmMst1 - #192 * EVar vlmMst2) * EVar vMst1 * EPow P2 (EVar vMst2) + #8 * (#1187 -
   #360 * EVar vlmMsq - #171 * EVar vlmMst1 + #747 * EVar vlmMst2) * EPow P3 (EVar vMst1)) - #297 * EPow P2 (EVar
   vs2t) * EPow P4 (EVar vMst2))) / (EVar vTbeta * EPow P2 (EVar vMsq) * EPow P4 (EVar vMst2)) + #9 * (- (EVar vs2t *
   (#66 - #2 * (#2777 + #120 * EVar vlmMst1 + #456 * EVar vlmMst2) * EPow P2 (EVar vMst1) / (#9 * EPow P2 (EVar
   vMst2))) * EPow P2 (EVar vMt)) + (#33 * EPow P2 (EVar vMst2) / #2 + EPow P2 (EVar vMst1) * (EDec 1135 1 - #30 *
   EVar vlmMsq - #139 * EVar vlmMst1 / #3 + #105 * EVar vlmMst2 + #5 * EPow P2 (EVar vMst2) / EPow P2 (EVar vMsq))) *
   EPow P3 (EVar vs2t) + EVar vMst1 * (EVar vMt * (#209 - #20 * EVar vlmMsq - #64 * EVar vlmMst1 / #3 + #64 * EVar
   vlmMst2 - EPow P2 (EVar vMst1) * (#40 / EPow P2 (EVar vMsq) + (EDec 7913333333333334 13 - #240 * EVar vlmMsq - #114
   * EVar vlmMst1 + #498 * EVar vlmMst2) / EPow P2 (EVar vMst2))) * EPow P2 (EVar vs2t) + #8 * EPow P3 (EVar vMt) *
   ((#3 * (#1391 - #360 * EVar vlmMsq - #66 * EVar vlmMst1 + #813 * EVar vlmMst2 + #21 * EVar vlmMt) * EPow P2 (EVar
   vMst1) - #2 * (#4 - #48 * EVar vlmMst1 + #27 * EVar vlmMst2 + #21 * EVar vlmMt) * EPow P2 (EVar vMst2)) * EPow P4
   (EVar vMsq) + #60 * EPow P2 (EVar vMsq) * EPow P4 (EVar vMst2) + #15 * (#6 * EPow P2 (EVar vMst1) * EPow P4 (EVar
   vMst2) + EPow P6 (EVar vMst2))) / (#27 * EPow P4 (EVar vMsq) * EPow P4 (EVar vMst2)))))))) / EPow P2 (EVar vMgl)))
   / #144.

(** H5g1.cpp:2062-3452 *)
Definition H5g1_coef0 : expr :=
  EDec 15557037037037037 13 - #17720 * EVar vDmglst1 / (#27 * EVar vMgl) + #5936 * EVar vMst1 * EVar vs2t / (#9 * EVar
   vMt) + #112112 * EVar vDmglst1 * EVar vMst1 * EVar vs2t / (#27 * EVar vMgl * EVar vMt) + #6272 * EConst Cz2 / #9 +
   #1056 * EVar vDmglst1 * EConst Cz2 / EVar vMgl + #832 * EVar vMst1 * EVar vs2t * EConst Cz2 / (#9 * EVar vMt) +
   #832 * EVar vDmglst1 * EVar vMst1 * EVar vs2t * EConst Cz2 / (#9 * EVar vMgl * EVar vMt) - #5216 * EConst Cz3 / #3
   - #856 * EVar vDmglst1 * EConst Cz3 / (#3 * EVar vMgl) + #1152 * EVar vMst1 * EVar vs2t * EConst Cz3 / EVar vMt +
   #2368 * EVar vDmglst1 * EVar vMst1 * EVar vs2t * EConst Cz3 / (#3 * EVar vMgl * EVar vMt) - #128 * EVar vMst1 *
   EVar vs2t * EConst Cz4 / (#3 * EVar vMt) - #128 * EVar vDmglst1 * EVar vMst1 * EVar vs2t * EConst Cz4 / (#3 * EVar
   vMgl * EVar vMt) + #970352 * EPow P2 (EVar vDmglst1) / (#675 * EPow P2 (EVar vMgl)) + #589312 * EVar vMst1 * EVar
   vs2t * EPow P2 (EVar vDmglst1) / (#27 * EVar vMt * EPow P2 (EVar vMgl)) + #1584 * EConst Cz2 * EPow P2 (EVar
   vDmglst1) / EPow P2 (EVar vMgl) + #832 * EVar vMst1 * EVar vs2t * EConst Cz2 * EPow P2 (EVar vDmglst1) / (#9 * EVar
   vMt * EPow P2 (EVar vMgl)) - #2692 * EConst Cz3 * EPow P2 (EVar vDmglst1) / EPow P2 (EVar vMgl) - #9040 * EVar
   vMst1 * EVar vs2t * EConst Cz3 * EPow P2 (EVar vDmglst1) / (EVar vMt * EPow P2 (EVar vMgl)) - #128 * EVar vMst1 *
   EVar vs2t * EConst Cz4 * EPow P2 (EVar vDmglst1) / (#3 * EVar vMt * EPow P2 (EVar vMgl)) + #160 * EPow P2 (EVar
   vMsq) / EPow P2 (EVar vMst1) - #320 * EConst Cz2 * EPow P2 (EVar vMsq) / EPow P2 (EVar vMst1) - #21936 * EPow P2
   (EVar vMst1) / (#25 * EPow P2 (EVar vMsq)) - #1440 * EVar vDmglst1 * EPow P2 (EVar vMst1) / (EVar vMgl * EPow P2
   (EVar vMsq)) - #32272 * EVar vCbeta * EVar vMuSUSY * EVar vs2t * EPow P2 (EVar vMst1) / (#675 * EVar vMt * EVar
   vSbeta * EPow P2 (EVar vMsq)) + #2560 * EConst Cz2 * EPow P2 (EVar vMst1) / (#3 * EPow P2 (EVar vMsq)) + #1280 *
   EVar vDmglst1 * EConst Cz2 * EPow P2 (EVar vMst1) / (EVar vMgl * EPow P2 (EVar vMsq)) - #107168 * EPow P2 (EVar
   vDmglst1) * EPow P2 (EVar vMst1) / (#45 * EPow P2 (EVar vMgl) * EPow P2 (EVar vMsq)) + #1920 * EConst Cz2 * EPow P2
   (EVar vDmglst1) * EPow P2 (EVar vMst1) / (EPow P2 (EVar vMgl) * EPow P2 (EVar vMsq)) + #160 * EPow P2 (EVar vMsq) /
   EPow P2 (EVar vMst2) - #320 * EConst Cz2 * EPow P2 (EVar vMsq) / EPow P2 (EVar vMst2) - #39353408 * EPow P2 (EVar
   vMst1) / (#10125 * EPow P2 (EVar vMst2)) - #1025488 * EVar vDmglst1 * EPow P2 (EVar vMst1) / (#81 * EVar vMgl *
   EPow P2 (EVar vMst2)) - #62992408 * EVar vCbeta * EVar vMuSUSY * EVar vs2t * EPow P2 (EVar vMst1) / (#10125 * EVar
   vMt * EVar vSbeta * EPow P2 (EVar vMst2)) + #896 * EVar vCbeta * EVar vMuSUSY * EConst COepS2 * EVar vs2t * EPow P2
   (EVar vMst1) / (#81 * EVar vMt * EVar vSbeta * EPow P2 (EVar vMst2)) - #560 * EVar vCbeta * EVar vMuSUSY * EConst
   CS2 * EVar vs2t * EPow P2 (EVar vMst1) / (EVar vMt * EVar vSbeta * EPow P2 (EVar vMst2)) - #448 * EVar vCbeta *
   EVar vMuSUSY * EVar vs2t * EConst CT1ep * EPow P2 (EVar vMst1) / (#27 * EVar vMt * EVar vSbeta * EPow P2 (EVar
   vMst2)) + #9248 * EConst Cz2 * EPow P2 (EVar vMst1) / (#9 * EPow P2 (EVar vMst2)) + #19328 * EVar vDmglst1 * EConst
   Cz2 * EPow P2 (EVar vMst1) / (#9 * EVar vMgl * EPow P2 (EVar vMst2)) - #140008 * EVar vCbeta * EVar vMuSUSY * EVar
   vs2t * EConst Cz2 * EPow P2 (EVar vMst1) / (#27 * EVar vMt * EVar vSbeta * EPow P2 (EVar vMst2)) + #1536 * EConst
   Cz3 * EPow P2 (EVar vMst1) / EPow P2 (EVar vMst2) + #24704 * EVar vDmglst1 * EConst Cz3 * EPow P2 (EVar vMst1) /
   (#3 * EVar vMgl * EPow P2 (EVar vMst2)) + #11360 * EVar vCbeta * EVar vMuSUSY * EVar vs2t * EConst Cz3 * EPow P2
   (EVar vMst1) / (#27 * EVar vMt * EVar vSbeta * EPow P2 (EVar vMst2)) - #224 * EVar vCbeta * EVar vMuSUSY * EVar
   vs2t * EConst Cz4 * EPow P2 (EVar vMst1) / (#27 * EVar vMt * EVar vSbeta * EPow P2 (EVar vMst2)) - #23634352 * EPow
   P2 (EVar vDmglst1) * EPow P2 (EVar vMst1) / (#675 * EPow P2 (EVar vMgl) * EPow P2 (EVar vMst2)) + #9664 * EConst
   Cz2 * EPow P2 (EVar vDmglst1) * EPow P2 (EVar vMst1) / (#3 * EPow P2 (EVar vMgl) * EPow P2 (EVar vMst2)) + #74432 *
   EConst Cz3 * EPow P2 (EVar vDmglst1) * EPow P2 (EVar vMst1) / (#3 * EPow P2 (EVar vMgl) * EPow P2 (EVar vMst2)) -
   #216272 * EPow P2 (EVar vMst2) / (#675 * EPow P2 (EVar vMsq)) - #10720 * EVar vMst1 * EVar vs2t * EPow P2 (EVar
   vMst2) / (#27 * EVar vMt * EPow P2 (EVar vMsq)) - #10720 * EVar vDmglst1 * EVar vMst1 * EVar vs2t * EPow P2 (EVar
   vMst2) / (#27 * EVar vMgl * EVar vMt * EPow P2 (EVar vMsq)) + #640 * EConst Cz2 * EPow P2 (EVar vMst2) / (#3 * EPow
   P2 (EVar vMsq)) + #1280 * EVar vMst1 * EVar vs2t * EConst Cz2 * EPow P2 (EVar vMst2) / (#3 * EVar vMt * EPow P2
   (EVar vMsq)) + #1280 * EVar vDmglst1 * EVar vMst1 * EVar vs2t * EConst Cz2 * EPow P2 (EVar vMst2) / (#3 * EVar vMgl
   * EVar vMt * EPow P2 (EVar vMsq)) - #10720 * EVar vMst1 * EVar vs2t * EPow P2 (EVar vDmglst1) * EPow P2 (EVar
   vMst2) / (#27 * EVar vMt * EPow P2 (EVar vMgl) * EPow P2 (EVar vMsq)) + #1280 * EVar vMst1 * EVar vs2t * EConst Cz2
   * EPow P2 (EVar vDmglst1) * EPow P2 (EVar vMst2) / (#3 * EVar vMt * EPow P2 (EVar vMgl) * EPow P2 (EVar vMsq)) +
   #16 * EPow P2 (EVar vMst2) / EPow P2 (EVar vMst1) - #32 * EConst Cz2 * EPow P2 (EVar vMst2) / EPow P2 (EVar vMst1)
   + #160 * EPow P2 (EVar vMsq) * EPow P2 (EVar vs2t) / EPow P2 (EVar vMt) - #320 * EConst Cz2 * EPow P2 (EVar vMsq) *
   EPow P2 (EVar vs2t) / EPow P2 (EVar vMt) + #32617079 * EPow P2 (EVar vMst1) * EPow P2 (EVar vs2t) / (#10125 * EPow
   P2 (EVar vMt)) - #32 * EConst CDN * EPow P2 (EVar vMst1) * EPow P2 (EVar vs2t) / (#3 * EPow P2 (EVar vMt)) +
   #627124 * EVar vDmglst1 * EPow P2 (EVar vMst1) * EPow P2 (EVar vs2t) / (#81 * EVar vMgl * EPow P2 (EVar vMt)) -
   #128 * EConst CB4 * EVar vDmglst1 * EPow P2 (EVar vMst1) * EPow P2 (EVar vs2t) / (#3 * EVar vMgl * EPow P2 (EVar
   vMt)) - #64 * EVar vDmglst1 * EConst CDN * EPow P2 (EVar vMst1) * EPow P2 (EVar vs2t) / (#3 * EVar vMgl * EPow P2
   (EVar vMt)) - #160 * EConst COepS2 * EPow P2 (EVar vMst1) * EPow P2 (EVar vs2t) / (#81 * EPow P2 (EVar vMt)) + #244
   * EConst CS2 * EPow P2 (EVar vMst1) * EPow P2 (EVar vs2t) / EPow P2 (EVar vMt) + #80 * EConst CT1ep * EPow P2 (EVar
   vMst1) * EPow P2 (EVar vs2t) / (#27 * EPow P2 (EVar vMt)) + #80570 * EConst Cz2 * EPow P2 (EVar vMst1) * EPow P2
   (EVar vs2t) / (#27 * EPow P2 (EVar vMt)) + #49184 * EVar vDmglst1 * EConst Cz2 * EPow P2 (EVar vMst1) * EPow P2
   (EVar vs2t) / (#9 * EVar vMgl * EPow P2 (EVar vMt)) - #2584 * EConst Cz3 * EPow P2 (EVar vMst1) * EPow P2 (EVar
   vs2t) / (#27 * EPow P2 (EVar vMt)) - #5968 * EVar vDmglst1 * EConst Cz3 * EPow P2 (EVar vMst1) * EPow P2 (EVar
   vs2t) / (#3 * EVar vMgl * EPow P2 (EVar vMt)) + #760 * EConst Cz4 * EPow P2 (EVar vMst1) * EPow P2 (EVar vs2t) /
   (#27 * EPow P2 (EVar vMt)) + #320 * EVar vDmglst1 * EConst Cz4 * EPow P2 (EVar vMst1) * EPow P2 (EVar vs2t) / (EVar
   vMgl * EPow P2 (EVar vMt)) + #533198 * EPow P2 (EVar vDmglst1) * EPow P2 (EVar vMst1) * EPow P2 (EVar vs2t) / (#27
   * EPow P2 (EVar vMgl) * EPow P2 (EVar vMt)) - #64 * EConst CB4 * EPow P2 (EVar vDmglst1) * EPow P2 (EVar vMst1) *
   EPow P2 (EVar vs2t) / (EPow P2 (EVar vMgl) * EPow P2 (EVar vMt)) - #32 * EConst CDN * EPow P2 (EVar vDmglst1) *
   EPow P2 (EVar vMst1) * EPow P2 (EVar vs2t) / (EPow P2 (EVar vMgl) * EPow P2 (EVar vMt)) + #24592 * EConst Cz2 *
   EPow P2 (EVar vDmglst1) * EPow P2 (EVar vMst1) * EPow P2 (EVar vs2t) / (#3 * EPow P2 (EVar vMgl) * EPow P2 (EVar
   vMt)) - #32126 * EConst Cz3 * EPow P2 (EVar vDmglst1) * EPow P2 (EVar vMst1) * EPow P2 (EVar vs2t) / (#3 * EPow P2
   (EVar vMgl) * EPow P2 (EVar vMt)) + #480 * EConst Cz4 * EPow P2 (EVar vDmglst1) * EPow P2 (EVar vMst1) * EPow P2
   (EVar vs2t) / (EPow P2 (EVar vMgl) * EPow P2 (EVar vMt)) - #80 * EPow P2 (EVar vMsq) * EPow P2 (EVar vMst1) * EPow
   P2 (EVar vs2t) / (EPow P2 (EVar vMst2) * EPow P2 (EVar vMt)) + #160 * EConst Cz2 * EPow P2 (EVar vMsq) * EPow P2
   (EVar vMst1) * EPow P2 (EVar vs2t) / (EPow P2 (EVar vMst2) * EPow P2 (EVar vMt)) - #4501 * EPow P2 (EVar vMst2) *
   EPow P2 (EVar vs2t) / (#27 * EPow P2 (EVar vMt)) + #32 * EConst CDN * EPow P2 (EVar vMst2) * EPow P2 (EVar vs2t) /
   (#3 * EPow P2 (EVar vMt)) + #1264 * EVar vDmglst1 * EPow P2 (EVar vMst2) * EPow P2 (EVar vs2t) / (#9 * EVar vMgl *
   EPow P2 (EVar vMt)) - #32 * EConst COepS2 * EPow P2 (EVar vMst2) * EPow P2 (EVar vs2t) / (#9 * EPow P2 (EVar vMt))
   + #36 * EConst CS2 * EPow P2 (EVar vMst2) * EPow P2 (EVar vs2t) / EPow P2 (EVar vMt) + #16 * EConst CT1ep * EPow P2
   (EVar vMst2) * EPow P2 (EVar vs2t) / (#3 * EPow P2 (EVar vMt)) - #1222 * EConst Cz2 * EPow P2 (EVar vMst2) * EPow
   P2 (EVar vs2t) / (#3 * EPow P2 (EVar vMt)) - #528 * EVar vDmglst1 * EConst Cz2 * EPow P2 (EVar vMst2) * EPow P2
   (EVar vs2t) / (EVar vMgl * EPow P2 (EVar vMt)) - #344 * EConst Cz3 * EPow P2 (EVar vMst2) * EPow P2 (EVar vs2t) /
   (#3 * EPow P2 (EVar vMt)) + #880 * EVar vDmglst1 * EConst Cz3 * EPow P2 (EVar vMst2) * EPow P2 (EVar vs2t) / (#3 *
   EVar vMgl * EPow P2 (EVar vMt)) - #24 * EConst Cz4 * EPow P2 (EVar vMst2) * EPow P2 (EVar vs2t) / EPow P2 (EVar
   vMt) - #1956 * EPow P2 (EVar vDmglst1) * EPow P2 (EVar vMst2) * EPow P2 (EVar vs2t) / (EPow P2 (EVar vMgl) * EPow
   P2 (EVar vMt)) - #792 * EConst Cz2 * EPow P2 (EVar vDmglst1) * EPow P2 (EVar vMst2) * EPow P2 (EVar vs2t) / (EPow
   P2 (EVar vMgl) * EPow P2 (EVar vMt)) + #6958 * EConst Cz3 * EPow P2 (EVar vDmglst1) * EPow P2 (EVar vMst2) * EPow
   P2 (EVar vs2t) / (#3 * EPow P2 (EVar vMgl) * EPow P2 (EVar vMt)) - #80 * EPow P2 (EVar vMsq) * EPow P2 (EVar vMst2)
   * EPow P2 (EVar vs2t) / (EPow P2 (EVar vMst1) * EPow P2 (EVar vMt)) + #160 * EConst Cz2 * EPow P2 (EVar vMsq) *
   EPow P2 (EVar vMst2) * EPow P2 (EVar vs2t) / (EPow P2 (EVar vMst1) * EPow P2 (EVar vMt)) - #24728 * EPow P2 (EVar
   vMst1) * EPow P2 (EVar vMst2) * EPow P2 (EVar vs2t) / (#675 * EPow P2 (EVar vMsq) * EPow P2 (EVar vMt)) + #560 *
   EVar vDmglst1 * EPow P2 (EVar vMst1) * EPow P2 (EVar vMst2) * EPow P2 (EVar vs2t) / (#3 * EVar vMgl * EPow P2 (EVar
   vMsq) * EPow P2 (EVar vMt)) + #120 * EPow P2 (EVar vDmglst1) * EPow P2 (EVar vMst1) * EPow P2 (EVar vMst2) * EPow
   P2 (EVar vs2t) / (EPow P2 (EVar vMgl) * EPow P2 (EVar vMsq) * EPow P2 (EVar vMt)) - #6688 * EPow P2 (EVar vMst1) *
   EPow P2 (EVar vMuSUSY) * EPow P2 (EVar vs2t) / (#45 * EPow P2 (EVar vMsq) * EPow P2 (EVar vMt)) - #80 * EConst Cz2
   * EPow P2 (EVar vMst1) * EPow P2 (EVar vMuSUSY) * EPow P2 (EVar vs2t) / (EPow P2 (EVar vMsq) * EPow P2 (EVar vMt))
   + #6457954 * EPow P2 (EVar vMst1) * EPow P2 (EVar vMuSUSY) * EPow P2 (EVar vs2t) / (#10125 * EPow P2 (EVar vMst2) *
   EPow P2 (EVar vMt)) - #608 * EConst CB4 * EPow P2 (EVar vMst1) * EPow P2 (EVar vMuSUSY) * EPow P2 (EVar vs2t) / (#3
   * EPow P2 (EVar vMst2) * EPow P2 (EVar vMt)) + #16 * EConst CDN * EPow P2 (EVar vMst1) * EPow P2 (EVar vMuSUSY) *
   EPow P2 (EVar vs2t) / (#3 * EPow P2 (EVar vMst2) * EPow P2 (EVar vMt)) - #4352 * EConst COepS2 * EPow P2 (EVar
   vMst1) * EPow P2 (EVar vMuSUSY) * EPow P2 (EVar vs2t) / (#81 * EPow P2 (EVar vMst2) * EPow P2 (EVar vMt)) + #1568 *
   EConst CS2 * EPow P2 (EVar vMst1) * EPow P2 (EVar vMuSUSY) * EPow P2 (EVar vs2t) / (EPow P2 (EVar vMst2) * EPow P2
   (EVar vMt)) + #2176 * EConst CT1ep * EPow P2 (EVar vMst1) * EPow P2 (EVar vMuSUSY) * EPow P2 (EVar vs2t) / (#27 *
   EPow P2 (EVar vMst2) * EPow P2 (EVar vMt)) + #2488 * EConst Cz2 * EPow P2 (EVar vMst1) * EPow P2 (EVar vMuSUSY) *
   EPow P2 (EVar vs2t) / (#27 * EPow P2 (EVar vMst2) * EPow P2 (EVar vMt)) - #140528 * EConst Cz3 * EPow P2 (EVar
   vMst1) * EPow P2 (EVar vMuSUSY) * EPow P2 (EVar vs2t) / (#27 * EPow P2 (EVar vMst2) * EPow P2 (EVar vMt)) - #208 *
   EConst Cz4 * EPow P2 (EVar vMst1) * EPow P2 (EVar vMuSUSY) * EPow P2 (EVar vs2t) / (#27 * EPow P2 (EVar vMst2) *
   EPow P2 (EVar vMt)) + #6688 * EPow P2 (EVar vMst1) * EPow P2 (EVar vMuSUSY) * EPow P2 (EVar vs2t) / (#45 * EPow P2
   (EVar vMsq) * EPow P2 (EVar vMt) * EPow P2 (EVar vSbeta)) + #80 * EConst Cz2 * EPow P2 (EVar vMst1) * EPow P2 (EVar
   vMuSUSY) * EPow P2 (EVar vs2t) / (EPow P2 (EVar vMsq) * EPow P2 (EVar vMt) * EPow P2 (EVar vSbeta)) - #6457954 *
   EPow P2 (EVar vMst1) * EPow P2 (EVar vMuSUSY) * EPow P2 (EVar vs2t) / (#10125 * EPow P2 (EVar vMst2) * EPow P2
   (EVar vMt) * EPow P2 (EVar vSbeta)) + #608 * EConst CB4 * EPow P2 (EVar vMst1) * EPow P2 (EVar vMuSUSY) * EPow P2
   (EVar vs2t) / (#3 * EPow P2 (EVar vMst2) * EPow P2 (EVar vMt) * EPow P2 (EVar vSbeta)) - #16 * EConst CDN * EPow P2
   (EVar vMst1) * EPow P2 (EVar vMuSUSY) * EPow P2 (EVar vs2t) / (#3 * EPow P2 (EVar vMst2) * EPow P2 (EVar vMt) *
   EPow P2 (EVar vSbeta)) + #4352 * EConst COepS2 * EPow P2 (EVar vMst1) * EPow P2 (EVar vMuSUSY) * EPow P2 (EVar
   vs2t) / (#81 * EPow P2 (EVar vMst2) * EPow P2 (EVar vMt) * EPow P2 (EVar vSbeta)) - #1568 * EConst CS2 * EPow P2
   (EVar vMst1) * EPow P2 (EVar vMuSUSY) * EPow P2 (EVar vs2t) / (EPow P2 (EVar vMst2) * EPow P2 (EVar vMt) * EPow P2
   (EVar vSbeta)) - #2176 * EConst CT1ep * EPow P2 (EVar vMst1) * EPow P2 (EVar vMuSUSY) * EPow P2 (EVar vs2t) / (#27
   * EPow P2 (EVar vMst2) * EPow P2 (EVar vMt) * EPow P2 (EVar vSbeta)) - #2488 * EConst Cz2 * EPow P2 (EVar vMst1) *
   EPow P2 (EVar vMuSUSY) * EPow P2 (EVar vs2t) / (#27 * EPow P2 (EVar vMst2) * EPow P2 (EVar vMt) * EPow P2 (EVar
   vSbeta)) + #140528 * EConst Cz3 * EPow P2 (EVar vMst1) * EPow P2 (EVar vMuSUSY) * EPow P2 (EVar vs2t) / (#27 * EPow
   P2 (EVar vMst2) * EPow P2 (EVar vMt) * EPow P2 (EVar vSbeta)) + #208 * EConst Cz4 * EPow P2 (EVar vMst1) * EPow P2
   (EVar vMuSUSY) * EPow P2 (EVar vs2t) / (#27 * EPow P2 (EVar vMst2) * EPow P2 (EVar vMt) * EPow P2 (EVar vSbeta)) +
   #256 * EVar vMst1 * EVar vs2t * EPow P2 (EConst Cz2) / (#3 * EVar vMt) + #256 * EVar vDmglst1 * EVar vMst1 * EVar
   vs2t * EPow P2 (EConst Cz2) / (#3 * EVar vMgl * EVar vMt) + #256 * EVar vMst1 * EVar vs2t * EPow P2 (EVar vDmglst1)
   * EPow P2 (EConst Cz2) / (#3 * EVar vMt * EPow P2 (EVar vMgl)) - #112 * EVar vCbeta * EVar vMuSUSY * EVar vs2t *
   EPow P2 (EVar vMst1) * EPow P2 (EConst Cz2) / (#9 * EVar vMt * EVar vSbeta * EPow P2 (EVar vMst2)) + #116 * EPow P2
   (EVar vMst1) * EPow P2 (EVar vs2t) * EPow P2 (EConst Cz2) / (#9 * EPow P2 (EVar vMt)) - #20 * EPow P2 (EVar vMst2)
   * EPow P2 (EVar vs2t) * EPow P2 (EConst Cz2) / (#3 * EPow P2 (EVar vMt)) + #2272 * EPow P2 (EVar vMst1) * EPow P2
   (EVar vMuSUSY) * EPow P2 (EVar vs2t) * EPow P2 (EConst Cz2) / (#9 * EPow P2 (EVar vMst2) * EPow P2 (EVar vMt)) -
   #2272 * EPow P2 (EVar vMst1) * EPow P2 (EVar vMuSUSY) * EPow P2 (EVar vs2t) * EPow P2 (EConst Cz2) / (#9 * EPow P2
   (EVar vMst2) * EPow P2 (EVar vMt) * EPow P2 (EVar vSbeta)) + #35200 * EVar vs2t * EPow P3 (EVar vMst1) / (#27 *
   EVar vMt * EPow P2 (EVar vMsq)) + #40960 * EVar vDmglst1 * EVar vs2t * EPow P3 (EVar vMst1) / (#9 * EVar vMgl *
   EVar vMt * EPow P2 (EVar vMsq)) - #1280 * EVar vs2t * EConst Cz2 * EPow P3 (EVar vMst1) / (#3 * EVar vMt * EPow P2
   (EVar vMsq)) - #1280 * EVar vDmglst1 * EVar vs2t * EConst Cz2 * EPow P3 (EVar vMst1) / (#3 * EVar vMgl * EVar vMt *
   EPow P2 (EVar vMsq)) + #105920 * EVar vs2t * EPow P2 (EVar vDmglst1) * EPow P3 (EVar vMst1) / (#9 * EVar vMt * EPow
   P2 (EVar vMgl) * EPow P2 (EVar vMsq)) - #1280 * EVar vs2t * EConst Cz2 * EPow P2 (EVar vDmglst1) * EPow P3 (EVar
   vMst1) / (#3 * EVar vMt * EPow P2 (EVar vMgl) * EPow P2 (EVar vMsq)) + #1328 * EVar vs2t * EPow P3 (EVar vMst1) /
   (#27 * EVar vMt * EPow P2 (EVar vMst2)) + #395536 * EVar vDmglst1 * EVar vs2t * EPow P3 (EVar vMst1) / (#81 * EVar
   vMgl * EVar vMt * EPow P2 (EVar vMst2)) + #29632 * EVar vs2t * EConst Cz2 * EPow P3 (EVar vMst1) / (#3 * EVar vMt *
   EPow P2 (EVar vMst2)) + #265600 * EVar vDmglst1 * EVar vs2t * EConst Cz2 * EPow P3 (EVar vMst1) / (#9 * EVar vMgl *
   EVar vMt * EPow P2 (EVar vMst2)) - #3904 * EVar vs2t * EConst Cz3 * EPow P3 (EVar vMst1) / (EVar vMt * EPow P2
   (EVar vMst2)) - #10816 * EVar vDmglst1 * EVar vs2t * EConst Cz3 * EPow P3 (EVar vMst1) / (EVar vMgl * EVar vMt *
   EPow P2 (EVar vMst2)) + #914416 * EVar vs2t * EPow P2 (EVar vDmglst1) * EPow P3 (EVar vMst1) / (#81 * EVar vMt *
   EPow P2 (EVar vMgl) * EPow P2 (EVar vMst2)) + #530656 * EVar vs2t * EConst Cz2 * EPow P2 (EVar vDmglst1) * EPow P3
   (EVar vMst1) / (#9 * EVar vMt * EPow P2 (EVar vMgl) * EPow P2 (EVar vMst2)) - #20160 * EVar vs2t * EConst Cz3 *
   EPow P2 (EVar vDmglst1) * EPow P3 (EVar vMst1) / (EVar vMt * EPow P2 (EVar vMgl) * EPow P2 (EVar vMst2)) - #3520 *
   EVar vCbeta * EVar vMuSUSY * EPow P3 (EVar vMst1) / (#3 * EVar vSbeta * EPow P2 (EVar vMsq) * EPow P2 (EVar vMst2))
   - #140480 * EVar vCbeta * EVar vDmglst1 * EVar vMuSUSY * EPow P3 (EVar vMst1) / (#27 * EVar vMgl * EVar vSbeta *
   EPow P2 (EVar vMsq) * EPow P2 (EVar vMst2)) - #140480 * EVar vCbeta * EVar vMuSUSY * EPow P2 (EVar vDmglst1) * EPow
   P3 (EVar vMst1) / (#27 * EVar vSbeta * EPow P2 (EVar vMgl) * EPow P2 (EVar vMsq) * EPow P2 (EVar vMst2)) + #21760 *
   EVar vs2t * EPow P2 (EVar vMuSUSY) * EPow P3 (EVar vMst1) / (#9 * EVar vMt * EPow P2 (EVar vMsq) * EPow P2 (EVar
   vMst2)) + #26240 * EVar vDmglst1 * EVar vs2t * EPow P2 (EVar vMuSUSY) * EPow P3 (EVar vMst1) / (#3 * EVar vMgl *
   EVar vMt * EPow P2 (EVar vMsq) * EPow P2 (EVar vMst2)) + #1280 * EVar vs2t * EConst Cz2 * EPow P2 (EVar vMuSUSY) *
   EPow P3 (EVar vMst1) / (#3 * EVar vMt * EPow P2 (EVar vMsq) * EPow P2 (EVar vMst2)) + #1280 * EVar vDmglst1 * EVar
   vs2t * EConst Cz2 * EPow P2 (EVar vMuSUSY) * EPow P3 (EVar vMst1) / (EVar vMgl * EVar vMt * EPow P2 (EVar vMsq) *
   EPow P2 (EVar vMst2)) + #26240 * EVar vs2t * EPow P2 (EVar vDmglst1) * EPow P2 (EVar vMuSUSY) * EPow P3 (EVar
   vMst1) / (#3 * EVar vMt * EPow P2 (EVar vMgl) * EPow P2 (EVar vMsq) * EPow P2 (EVar vMst2)) + #1280 * EVar vs2t *
   EConst Cz2 * EPow P2 (EVar vDmglst1) * EPow P2 (EVar vMuSUSY) * EPow P3 (EVar vMst1) / (EVar vMt * EPow P2 (EVar
   vMgl) * EPow P2 (EVar vMsq) * EPow P2 (EVar vMst2)) + #5680 * EVar vCbeta * EVar vMuSUSY * EPow P2 (EVar vs2t) *
   EPow P3 (EVar vMst1) / (#3 * EVar vSbeta * EPow P2 (EVar vMsq) * EPow P2 (EVar vMt)) + #6640 * EVar vCbeta * EVar
   vDmglst1 * EVar vMuSUSY * EPow P2 (EVar vs2t) * EPow P3 (EVar vMst1) / (EVar vMgl * EVar vSbeta * EPow P2 (EVar
   vMsq) * EPow P2 (EVar vMt)) + #320 * EVar vCbeta * EVar vMuSUSY * EConst Cz2 * EPow P2 (EVar vs2t) * EPow P3 (EVar
   vMst1) / (EVar vSbeta * EPow P2 (EVar vMsq) * EPow P2 (EVar vMt)) + #960 * EVar vCbeta * EVar vDmglst1 * EVar
   vMuSUSY * EConst Cz2 * EPow P2 (EVar vs2t) * EPow P3 (EVar vMst1) / (EVar vMgl * EVar vSbeta * EPow P2 (EVar vMsq)
   * EPow P2 (EVar vMt)) + #6640 * EVar vCbeta * EVar vMuSUSY * EPow P2 (EVar vDmglst1) * EPow P2 (EVar vs2t) * EPow
   P3 (EVar vMst1) / (EVar vSbeta * EPow P2 (EVar vMgl) * EPow P2 (EVar vMsq) * EPow P2 (EVar vMt)) + #960 * EVar
   vCbeta * EVar vMuSUSY * EConst Cz2 * EPow P2 (EVar vDmglst1) * EPow P2 (EVar vs2t) * EPow P3 (EVar vMst1) / (EVar
   vSbeta * EPow P2 (EVar vMgl) * EPow P2 (EVar vMsq) * EPow P2 (EVar vMt)) + #25108 * EVar vCbeta * EVar vMuSUSY *
   EPow P2 (EVar vs2t) * EPow P3 (EVar vMst1) / (#27 * EVar vSbeta * EPow P2 (EVar vMst2) * EPow P2 (EVar vMt)) +
   #1152 * EConst CB4 * EVar vCbeta * EVar vMuSUSY * EPow P2 (EVar vs2t) * EPow P3 (EVar vMst1) / (EVar vSbeta * EPow
   P2 (EVar vMst2) * EPow P2 (EVar vMt)) + #40084 * EVar vCbeta * EVar vDmglst1 * EVar vMuSUSY * EPow P2 (EVar vs2t) *
   EPow P3 (EVar vMst1) / (#9 * EVar vMgl * EVar vSbeta * EPow P2 (EVar vMst2) * EPow P2 (EVar vMt)) + #2368 * EConst
   CB4 * EVar vCbeta * EVar vDmglst1 * EVar vMuSUSY * EPow P2 (EVar vs2t) * EPow P3 (EVar vMst1) / (EVar vMgl * EVar
   vSbeta * EPow P2 (EVar vMst2) * EPow P2 (EVar vMt)) - #32 * EVar vCbeta * EVar vDmglst1 * EConst CDN * EVar vMuSUSY
   * EPow P2 (EVar vs2t) * EPow P3 (EVar vMst1) / (EVar vMgl * EVar vSbeta * EPow P2 (EVar vMst2) * EPow P2 (EVar
   vMt)) - #4208 * EVar vCbeta * EVar vMuSUSY * EConst Cz2 * EPow P2 (EVar vs2t) * EPow P3 (EVar vMst1) / (#3 * EVar
   vSbeta * EPow P2 (EVar vMst2) * EPow P2 (EVar vMt)) + #10512 * EVar vCbeta * EVar vDmglst1 * EVar vMuSUSY * EConst
   Cz2 * EPow P2 (EVar vs2t) * EPow P3 (EVar vMst1) / (EVar vMgl * EVar vSbeta * EPow P2 (EVar vMst2) * EPow P2 (EVar
   vMt)) + #7072 * EVar vCbeta * EVar vMuSUSY * EConst Cz3 * EPow P2 (EVar vs2t) * EPow P3 (EVar vMst1) / (EVar vSbeta
   * EPow P2 (EVar vMst2) * EPow P2 (EVar vMt)) + #6464 * EVar vCbeta * EVar vDmglst1 * EVar vMuSUSY * EConst Cz3 *
   EPow P2 (EVar vs2t) * EPow P3 (EVar vMst1) / (EVar vMgl * EVar vSbeta * EPow P2 (EVar vMst2) * EPow P2 (EVar vMt))
   + #576 * EVar vCbeta * EVar vMuSUSY * EConst Cz4 * EPow P2 (EVar vs2t) * EPow P3 (EVar vMst1) / (EVar vSbeta * EPow
   P2 (EVar vMst2) * EPow P2 (EVar vMt)) - #5984 * EVar vCbeta * EVar vDmglst1 * EVar vMuSUSY * EConst Cz4 * EPow P2
   (EVar vs2t) * EPow P3 (EVar vMst1) / (EVar vMgl * EVar vSbeta * EPow P2 (EVar vMst2) * EPow P2 (EVar vMt)) + #40084
   * EVar vCbeta * EVar vMuSUSY * EPow P2 (EVar vDmglst1) * EPow P2 (EVar vs2t) * EPow P3 (EVar vMst1) / (#9 * EVar
   vSbeta * EPow P2 (EVar vMgl) * EPow P2 (EVar vMst2) * EPow P2 (EVar vMt)) + #2368 * EConst CB4 * EVar vCbeta * EVar
   vMuSUSY * EPow P2 (EVar vDmglst1) * EPow P2 (EVar vs2t) * EPow P3 (EVar vMst1) / (EVar vSbeta * EPow P2 (EVar vMgl)
   * EPow P2 (EVar vMst2) * EPow P2 (EVar vMt)) - #32 * EVar vCbeta * EConst CDN * EVar vMuSUSY * EPow P2 (EVar
   vDmglst1) * EPow P2 (EVar vs2t) * EPow P3 (EVar vMst1) / (EVar vSbeta * EPow P2 (EVar vMgl) * EPow P2 (EVar vMst2)
   * EPow P2 (EVar vMt)) + #10512 * EVar vCbeta * EVar vMuSUSY * EConst Cz2 * EPow P2 (EVar vDmglst1) * EPow P2 (EVar
   vs2t) * EPow P3 (EVar vMst1) / (EVar vSbeta * EPow P2 (EVar vMgl) * EPow P2 (EVar vMst2) * EPow P2 (EVar vMt)) +
   #6464 * EVar vCbeta * EVar vMuSUSY * EConst Cz3 * EPow P2 (EVar vDmglst1) * EPow P2 (EVar vs2t) * EPow P3 (EVar
   vMst1) / (EVar vSbeta * EPow P2 (EVar vMgl) * EPow P2 (EVar vMst2) * EPow P2 (EVar vMt)) - #5984 * EVar vCbeta *
   EVar vMuSUSY * EConst Cz4 * EPow P2 (EVar vDmglst1) * EPow P2 (EVar vs2t) * EPow P3 (EVar vMst1) / (EVar vSbeta *
   EPow P2 (EVar vMgl) * EPow P2 (EVar vMst2) * EPow P2 (EVar vMt)) - #21760 * EVar vs2t * EPow P2 (EVar vMuSUSY) *
   EPow P3 (EVar vMst1) / (#9 * EVar vMt * EPow P2 (EVar vMsq) * EPow P2 (EVar vMst2) * EPow P2 (EVar vSbeta)) -
   #26240 * EVar vDmglst1 * EVar vs2t * EPow P2 (EVar vMuSUSY) * EPow P3 (EVar vMst1) / (#3 * EVar vMgl * EVar vMt *
   EPow P2 (EVar vMsq) * EPow P2 (EVar vMst2) * EPow P2 (EVar vSbeta)) - #1280 * EVar vs2t * EConst Cz2 * EPow P2
   (EVar vMuSUSY) * EPow P3 (EVar vMst1) / (#3 * EVar vMt * EPow P2 (EVar vMsq) * EPow P2 (EVar vMst2) * EPow P2 (EVar
   vSbeta)) - #1280 * EVar vDmglst1 * EVar vs2t * EConst Cz2 * EPow P2 (EVar vMuSUSY) * EPow P3 (EVar vMst1) / (EVar
   vMgl * EVar vMt * EPow P2 (EVar vMsq) * EPow P2 (EVar vMst2) * EPow P2 (EVar vSbeta)) - #26240 * EVar vs2t * EPow
   P2 (EVar vDmglst1) * EPow P2 (EVar vMuSUSY) * EPow P3 (EVar vMst1) / (#3 * EVar vMt * EPow P2 (EVar vMgl) * EPow P2
   (EVar vMsq) * EPow P2 (EVar vMst2) * EPow P2 (EVar vSbeta)) - #1280 * EVar vs2t * EConst Cz2 * EPow P2 (EVar
   vDmglst1) * EPow P2 (EVar vMuSUSY) * EPow P3 (EVar vMst1) / (EVar vMt * EPow P2 (EVar vMgl) * EPow P2 (EVar vMsq) *
   EPow P2 (EVar vMst2) * EPow P2 (EVar vSbeta)) - #1152 * EVar vCbeta * EVar vMuSUSY * EPow P2 (EVar vs2t) * EPow P2
   (EConst Cz2) * EPow P3 (EVar vMst1) / (EVar vSbeta * EPow P2 (EVar vMst2) * EPow P2 (EVar vMt)) - #2432 * EVar
   vCbeta * EVar vDmglst1 * EVar vMuSUSY * EPow P2 (EVar vs2t) * EPow P2 (EConst Cz2) * EPow P3 (EVar vMst1) / (EVar
   vMgl * EVar vSbeta * EPow P2 (EVar vMst2) * EPow P2 (EVar vMt)) - #2432 * EVar vCbeta * EVar vMuSUSY * EPow P2
   (EVar vDmglst1) * EPow P2 (EVar vs2t) * EPow P2 (EConst Cz2) * EPow P3 (EVar vMst1) / (EVar vSbeta * EPow P2 (EVar
   vMgl) * EPow P2 (EVar vMst2) * EPow P2 (EVar vMt)) + #26775829 * EVar vCbeta * EVar vMuSUSY * EPow P2 (EVar vMst1)
   * EPow P3 (EVar vs2t) / (#20250 * EVar vSbeta * EPow P3 (EVar vMt)) - #160 * EConst CB4 * EVar vCbeta * EVar
   vMuSUSY * EPow P2 (EVar vMst1) * EPow P3 (EVar vs2t) / (#3 * EVar vSbeta * EPow P3 (EVar vMt)) - #8 * EVar vCbeta *
   EConst CDN * EVar vMuSUSY * EPow P2 (EVar vMst1) * EPow P3 (EVar vs2t) / (#3 * EVar vSbeta * EPow P3 (EVar vMt)) -
   #1888 * EVar vCbeta * EVar vMuSUSY * EConst COepS2 * EPow P2 (EVar vMst1) * EPow P3 (EVar vs2t) / (#81 * EVar
   vSbeta * EPow P3 (EVar vMt)) + #1180 * EVar vCbeta * EVar vMuSUSY * EConst CS2 * EPow P2 (EVar vMst1) * EPow P3
   (EVar vs2t) / (EVar vSbeta * EPow P3 (EVar vMt)) + #944 * EVar vCbeta * EVar vMuSUSY * EConst CT1ep * EPow P2 (EVar
   vMst1) * EPow P3 (EVar vs2t) / (#27 * EVar vSbeta * EPow P3 (EVar vMt)) - #10960 * EVar vCbeta * EVar vMuSUSY *
   EConst Cz2 * EPow P2 (EVar vMst1) * EPow P3 (EVar vs2t) / (#27 * EVar vSbeta * EPow P3 (EVar vMt)) - #58456 * EVar
   vCbeta * EVar vMuSUSY * EConst Cz3 * EPow P2 (EVar vMst1) * EPow P3 (EVar vs2t) / (#27 * EVar vSbeta * EPow P3
   (EVar vMt)) + #8608 * EVar vCbeta * EVar vMuSUSY * EConst Cz4 * EPow P2 (EVar vMst1) * EPow P3 (EVar vs2t) / (#27 *
   EVar vSbeta * EPow P3 (EVar vMt)) + #40 * EVar vCbeta * EVar vMuSUSY * EPow P2 (EVar vMsq) * EPow P2 (EVar vMst1) *
   EPow P3 (EVar vs2t) / (EVar vSbeta * EPow P2 (EVar vMst2) * EPow P3 (EVar vMt)) - #80 * EVar vCbeta * EVar vMuSUSY
   * EConst Cz2 * EPow P2 (EVar vMsq) * EPow P2 (EVar vMst1) * EPow P3 (EVar vs2t) / (EVar vSbeta * EPow P2 (EVar
   vMst2) * EPow P3 (EVar vMt)) + #8878 * EVar vMst1 * EPow P2 (EVar vMst2) * EPow P3 (EVar vs2t) / (#3 * EPow P3
   (EVar vMt)) - #272 * EConst CB4 * EVar vMst1 * EPow P2 (EVar vMst2) * EPow P3 (EVar vs2t) / (#3 * EPow P3 (EVar
   vMt)) - #8 * EConst CDN * EVar vMst1 * EPow P2 (EVar vMst2) * EPow P3 (EVar vs2t) / (#3 * EPow P3 (EVar vMt)) +
   #7558 * EVar vDmglst1 * EVar vMst1 * EPow P2 (EVar vMst2) * EPow P3 (EVar vs2t) / (#3 * EVar vMgl * EPow P3 (EVar
   vMt)) - #272 * EConst CB4 * EVar vDmglst1 * EVar vMst1 * EPow P2 (EVar vMst2) * EPow P3 (EVar vs2t) / (#3 * EVar
   vMgl * EPow P3 (EVar vMt)) - #8 * EVar vDmglst1 * EConst CDN * EVar vMst1 * EPow P2 (EVar vMst2) * EPow P3 (EVar
   vs2t) / (#3 * EVar vMgl * EPow P3 (EVar vMt)) + #1672 * EVar vMst1 * EConst Cz2 * EPow P2 (EVar vMst2) * EPow P3
   (EVar vs2t) / EPow P3 (EVar vMt) + #1672 * EVar vDmglst1 * EVar vMst1 * EConst Cz2 * EPow P2 (EVar vMst2) * EPow P3
   (EVar vs2t) / (EVar vMgl * EPow P3 (EVar vMt)) - #2128 * EVar vMst1 * EConst Cz3 * EPow P2 (EVar vMst2) * EPow P3
   (EVar vs2t) / (#3 * EPow P3 (EVar vMt)) - #928 * EVar vDmglst1 * EVar vMst1 * EConst Cz3 * EPow P2 (EVar vMst2) *
   EPow P3 (EVar vs2t) / (#3 * EVar vMgl * EPow P3 (EVar vMt)) - #1928 * EVar vMst1 * EConst Cz4 * EPow P2 (EVar
   vMst2) * EPow P3 (EVar vs2t) / (#3 * EPow P3 (EVar vMt)) - #1928 * EVar vDmglst1 * EVar vMst1 * EConst Cz4 * EPow
   P2 (EVar vMst2) * EPow P3 (EVar vs2t) / (#3 * EVar vMgl * EPow P3 (EVar vMt)) - #826 * EVar vMst1 * EPow P2 (EVar
   vDmglst1) * EPow P2 (EVar vMst2) * EPow P3 (EVar vs2t) / (#9 * EPow P2 (EVar vMgl) * EPow P3 (EVar vMt)) - #272 *
   EConst CB4 * EVar vMst1 * EPow P2 (EVar vDmglst1) * EPow P2 (EVar vMst2) * EPow P3 (EVar vs2t) / (#3 * EPow P2
   (EVar vMgl) * EPow P3 (EVar vMt)) - #8 * EConst CDN * EVar vMst1 * EPow P2 (EVar vDmglst1) * EPow P2 (EVar vMst2) *
   EPow P3 (EVar vs2t) / (#3 * EPow P2 (EVar vMgl) * EPow P3 (EVar vMt)) + #1672 * EVar vMst1 * EConst Cz2 * EPow P2
   (EVar vDmglst1) * EPow P2 (EVar vMst2) * EPow P3 (EVar vs2t) / (EPow P2 (EVar vMgl) * EPow P3 (EVar vMt)) + #4472 *
   EVar vMst1 * EConst Cz3 * EPow P2 (EVar vDmglst1) * EPow P2 (EVar vMst2) * EPow P3 (EVar vs2t) / (#3 * EPow P2
   (EVar vMgl) * EPow P3 (EVar vMt)) - #1928 * EVar vMst1 * EConst Cz4 * EPow P2 (EVar vDmglst1) * EPow P2 (EVar
   vMst2) * EPow P3 (EVar vs2t) / (#3 * EPow P2 (EVar vMgl) * EPow P3 (EVar vMt)) - #1420 * EVar vCbeta * EVar vMuSUSY
   * EPow P2 (EVar vMst1) * EPow P2 (EVar vMst2) * EPow P3 (EVar vs2t) / (#9 * EVar vSbeta * EPow P2 (EVar vMsq) *
   EPow P3 (EVar vMt)) - #40 * EVar vCbeta * EVar vMuSUSY * EConst Cz2 * EPow P2 (EVar vMst1) * EPow P2 (EVar vMst2) *
   EPow P3 (EVar vs2t) / (EVar vSbeta * EPow P2 (EVar vMsq) * EPow P3 (EVar vMt)) + #716 * EVar vCbeta * EVar vMuSUSY
   * EPow P2 (EVar vMst1) * EPow P2 (EConst Cz2) * EPow P3 (EVar vs2t) / (#9 * EVar vSbeta * EPow P3 (EVar vMt)) +
   #256 * EVar vMst1 * EPow P2 (EVar vMst2) * EPow P2 (EConst Cz2) * EPow P3 (EVar vs2t) / (#3 * EPow P3 (EVar vMt)) +
   #256 * EVar vDmglst1 * EVar vMst1 * EPow P2 (EVar vMst2) * EPow P2 (EConst Cz2) * EPow P3 (EVar vs2t) / (#3 * EVar
   vMgl * EPow P3 (EVar vMt)) + #256 * EVar vMst1 * EPow P2 (EVar vDmglst1) * EPow P2 (EVar vMst2) * EPow P2 (EConst
   Cz2) * EPow P3 (EVar vs2t) / (#3 * EPow P2 (EVar vMgl) * EPow P3 (EVar vMt)) - #264814 * EPow P3 (EVar vMst1) *
   EPow P3 (EVar vs2t) / (#81 * EPow P3 (EVar vMt)) - #880 * EConst CB4 * EPow P3 (EVar vMst1) * EPow P3 (EVar vs2t) /
   (#3 * EPow P3 (EVar vMt)) + #8 * EConst CDN * EPow P3 (EVar vMst1) * EPow P3 (EVar vs2t) / (#3 * EPow P3 (EVar
   vMt)) - #108106 * EVar vDmglst1 * EPow P3 (EVar vMst1) * EPow P3 (EVar vs2t) / (#27 * EVar vMgl * EPow P3 (EVar
   vMt)) - #2096 * EConst CB4 * EVar vDmglst1 * EPow P3 (EVar vMst1) * EPow P3 (EVar vs2t) / (#3 * EVar vMgl * EPow P3
   (EVar vMt)) + #40 * EVar vDmglst1 * EConst CDN * EPow P3 (EVar vMst1) * EPow P3 (EVar vs2t) / (#3 * EVar vMgl *
   EPow P3 (EVar vMt)) - #10840 * EConst Cz2 * EPow P3 (EVar vMst1) * EPow P3 (EVar vs2t) / (#9 * EPow P3 (EVar vMt))
   - #5176 * EVar vDmglst1 * EConst Cz2 * EPow P3 (EVar vMst1) * EPow P3 (EVar vs2t) / (EVar vMgl * EPow P3 (EVar
   vMt)) - #1648 * EConst Cz3 * EPow P3 (EVar vMst1) * EPow P3 (EVar vs2t) / EPow P3 (EVar vMt) - #5536 * EVar
   vDmglst1 * EConst Cz3 * EPow P3 (EVar vMst1) * EPow P3 (EVar vs2t) / (#3 * EVar vMgl * EPow P3 (EVar vMt)) + #1352
   * EConst Cz4 * EPow P3 (EVar vMst1) * EPow P3 (EVar vs2t) / (#3 * EPow P3 (EVar vMt)) + #7912 * EVar vDmglst1 *
   EConst Cz4 * EPow P3 (EVar vMst1) * EPow P3 (EVar vs2t) / (#3 * EVar vMgl * EPow P3 (EVar vMt)) - #114202 * EPow P2
   (EVar vDmglst1) * EPow P3 (EVar vMst1) * EPow P3 (EVar vs2t) / (#27 * EPow P2 (EVar vMgl) * EPow P3 (EVar vMt)) -
   #3920 * EConst CB4 * EPow P2 (EVar vDmglst1) * EPow P3 (EVar vMst1) * EPow P3 (EVar vs2t) / (#3 * EPow P2 (EVar
   vMgl) * EPow P3 (EVar vMt)) + #88 * EConst CDN * EPow P2 (EVar vDmglst1) * EPow P3 (EVar vMst1) * EPow P3 (EVar
   vs2t) / (#3 * EPow P2 (EVar vMgl) * EPow P3 (EVar vMt)) - #34520 * EConst Cz2 * EPow P2 (EVar vDmglst1) * EPow P3
   (EVar vMst1) * EPow P3 (EVar vs2t) / (#3 * EPow P2 (EVar vMgl) * EPow P3 (EVar vMt)) - #5320 * EConst Cz3 * EPow P2
   (EVar vDmglst1) * EPow P3 (EVar vMst1) * EPow P3 (EVar vs2t) / (#3 * EPow P2 (EVar vMgl) * EPow P3 (EVar vMt)) +
   #17752 * EConst Cz4 * EPow P2 (EVar vDmglst1) * EPow P3 (EVar vMst1) * EPow P3 (EVar vs2t) / (#3 * EPow P2 (EVar
   vMgl) * EPow P3 (EVar vMt)) - #5920 * EPow P2 (EVar vMst2) * EPow P3 (EVar vMst1) * EPow P3 (EVar vs2t) / (#9 *
   EPow P2 (EVar vMsq) * EPow P3 (EVar vMt)) - #2240 * EVar vDmglst1 * EPow P2 (EVar vMst2) * EPow P3 (EVar vMst1) *
   EPow P3 (EVar vs2t) / (EVar vMgl * EPow P2 (EVar vMsq) * EPow P3 (EVar vMt)) - #320 * EConst Cz2 * EPow P2 (EVar
   vMst2) * EPow P3 (EVar vMst1) * EPow P3 (EVar vs2t) / (#3 * EPow P2 (EVar vMsq) * EPow P3 (EVar vMt)) - #320 * EVar
   vDmglst1 * EConst Cz2 * EPow P2 (EVar vMst2) * EPow P3 (EVar vMst1) * EPow P3 (EVar vs2t) / (EVar vMgl * EPow P2
   (EVar vMsq) * EPow P3 (EVar vMt)) - #45040 * EPow P2 (EVar vDmglst1) * EPow P2 (EVar vMst2) * EPow P3 (EVar vMst1)
   * EPow P3 (EVar vs2t) / (#9 * EPow P2 (EVar vMgl) * EPow P2 (EVar vMsq) * EPow P3 (EVar vMt)) - #640 * EConst Cz2 *
   EPow P2 (EVar vDmglst1) * EPow P2 (EVar vMst2) * EPow P3 (EVar vMst1) * EPow P3 (EVar vs2t) / (EPow P2 (EVar vMgl)
   * EPow P2 (EVar vMsq) * EPow P3 (EVar vMt)) + #896 * EPow P2 (EConst Cz2) * EPow P3 (EVar vMst1) * EPow P3 (EVar
   vs2t) / (#3 * EPow P3 (EVar vMt)) + #2176 * EVar vDmglst1 * EPow P2 (EConst Cz2) * EPow P3 (EVar vMst1) * EPow P3
   (EVar vs2t) / (#3 * EVar vMgl * EPow P3 (EVar vMt)) + #4096 * EPow P2 (EVar vDmglst1) * EPow P2 (EConst Cz2) * EPow
   P3 (EVar vMst1) * EPow P3 (EVar vs2t) / (#3 * EPow P2 (EVar vMgl) * EPow P3 (EVar vMt)) + #160 * EPow P3 (ELog
   (EPow P2 (EVar vMst1) / EPow P2 (EVar vMsq))) / #3 - #2300 * EPow P2 (EVar vMst1) * EPow P2 (EVar vMst2) / (#9 *
   EPow P4 (EVar vMsq)) - #4600 * EVar vDmglst1 * EPow P2 (EVar vMst1) * EPow P2 (EVar vMst2) / (#9 * EVar vMgl * EPow
   P4 (EVar vMsq)) + #130 * EVar vCbeta * EVar vMuSUSY * EVar vs2t * EPow P2 (EVar vMst1) * EPow P2 (EVar vMst2) / (#3
   * EVar vMt * EVar vSbeta * EPow P4 (EVar vMsq)) + #160 * EConst Cz2 * EPow P2 (EVar vMst1) * EPow P2 (EVar vMst2) /
   EPow P4 (EVar vMsq) + #320 * EVar vDmglst1 * EConst Cz2 * EPow P2 (EVar vMst1) * EPow P2 (EVar vMst2) / (EVar vMgl
   * EPow P4 (EVar vMsq)) - #2300 * EPow P2 (EVar vDmglst1) * EPow P2 (EVar vMst1) * EPow P2 (EVar vMst2) / (#3 * EPow
   P2 (EVar vMgl) * EPow P4 (EVar vMsq)) + #480 * EConst Cz2 * EPow P2 (EVar vDmglst1) * EPow P2 (EVar vMst1) * EPow
   P2 (EVar vMst2) / (EPow P2 (EVar vMgl) * EPow P4 (EVar vMsq)) + #9723887 * EPow P2 (EVar vMst1) * EPow P2 (EVar
   vMst2) * EPow P2 (EVar vMuSUSY) * EPow P2 (EVar vs2t) / (#231525 * EPow P2 (EVar vMt) * EPow P4 (EVar vMsq)) -
   #9723887 * EPow P2 (EVar vMst1) * EPow P2 (EVar vMst2) * EPow P2 (EVar vMuSUSY) * EPow P2 (EVar vs2t) / (#231525 *
   EPow P2 (EVar vMt) * EPow P2 (EVar vSbeta) * EPow P4 (EVar vMsq)) + #4460 * EVar vCbeta * EVar vMuSUSY * EPow P3
   (EVar vMst1) / (#9 * EVar vSbeta * EPow P4 (EVar vMsq)) + #28180 * EVar vCbeta * EVar vDmglst1 * EVar vMuSUSY *
   EPow P3 (EVar vMst1) / (#27 * EVar vMgl * EVar vSbeta * EPow P4 (EVar vMsq)) - #320 * EVar vCbeta * EVar vMuSUSY *
   EConst Cz2 * EPow P3 (EVar vMst1) / (EVar vSbeta * EPow P4 (EVar vMsq)) - #2240 * EVar vCbeta * EVar vDmglst1 *
   EVar vMuSUSY * EConst Cz2 * EPow P3 (EVar vMst1) / (#3 * EVar vMgl * EVar vSbeta * EPow P4 (EVar vMsq)) + #28180 *
   EVar vCbeta * EVar vMuSUSY * EPow P2 (EVar vDmglst1) * EPow P3 (EVar vMst1) / (#27 * EVar vSbeta * EPow P2 (EVar
   vMgl) * EPow P4 (EVar vMsq)) - #2240 * EVar vCbeta * EVar vMuSUSY * EConst Cz2 * EPow P2 (EVar vDmglst1) * EPow P3
   (EVar vMst1) / (#3 * EVar vSbeta * EPow P2 (EVar vMgl) * EPow P4 (EVar vMsq)) - #8960 * EVar vs2t * EPow P2 (EVar
   vMst2) * EPow P3 (EVar vMst1) / (#27 * EVar vMt * EPow P4 (EVar vMsq)) - #8960 * EVar vDmglst1 * EVar vs2t * EPow
   P2 (EVar vMst2) * EPow P3 (EVar vMst1) / (#9 * EVar vMgl * EVar vMt * EPow P4 (EVar vMsq)) + #640 * EVar vs2t *
   EConst Cz2 * EPow P2 (EVar vMst2) * EPow P3 (EVar vMst1) / (#3 * EVar vMt * EPow P4 (EVar vMsq)) + #640 * EVar
   vDmglst1 * EVar vs2t * EConst Cz2 * EPow P2 (EVar vMst2) * EPow P3 (EVar vMst1) / (EVar vMgl * EVar vMt * EPow P4
   (EVar vMsq)) - #17920 * EVar vs2t * EPow P2 (EVar vDmglst1) * EPow P2 (EVar vMst2) * EPow P3 (EVar vMst1) / (#9 *
   EVar vMt * EPow P2 (EVar vMgl) * EPow P4 (EVar vMsq)) + #1280 * EVar vs2t * EConst Cz2 * EPow P2 (EVar vDmglst1) *
   EPow P2 (EVar vMst2) * EPow P3 (EVar vMst1) / (EVar vMt * EPow P2 (EVar vMgl) * EPow P4 (EVar vMsq)) - #2140 * EVar
   vs2t * EPow P2 (EVar vMuSUSY) * EPow P3 (EVar vMst1) / (#27 * EVar vMt * EPow P4 (EVar vMsq)) - #5020 * EVar
   vDmglst1 * EVar vs2t * EPow P2 (EVar vMuSUSY) * EPow P3 (EVar vMst1) / (#27 * EVar vMgl * EVar vMt * EPow P4 (EVar
   vMsq)) - #5020 * EVar vs2t * EPow P2 (EVar vDmglst1) * EPow P2 (EVar vMuSUSY) * EPow P3 (EVar vMst1) / (#27 * EVar
   vMt * EPow P2 (EVar vMgl) * EPow P4 (EVar vMsq)) - #590 * EVar vCbeta * EVar vMuSUSY * EPow P2 (EVar vMst2) * EPow
   P2 (EVar vs2t) * EPow P3 (EVar vMst1) / (#9 * EVar vSbeta * EPow P2 (EVar vMt) * EPow P4 (EVar vMsq)) - #1310 *
   EVar vCbeta * EVar vDmglst1 * EVar vMuSUSY * EPow P2 (EVar vMst2) * EPow P2 (EVar vs2t) * EPow P3 (EVar vMst1) /
   (#9 * EVar vMgl * EVar vSbeta * EPow P2 (EVar vMt) * EPow P4 (EVar vMsq)) - #1310 * EVar vCbeta * EVar vMuSUSY *
   EPow P2 (EVar vDmglst1) * EPow P2 (EVar vMst2) * EPow P2 (EVar vs2t) * EPow P3 (EVar vMst1) / (#9 * EVar vSbeta *
   EPow P2 (EVar vMgl) * EPow P2 (EVar vMt) * EPow P4 (EVar vMsq)) + #2140 * EVar vs2t * EPow P2 (EVar vMuSUSY) * EPow
   P3 (EVar vMst1) / (#27 * EVar vMt * EPow P2 (EVar vSbeta) * EPow P4 (EVar vMsq)) + #5020 * EVar vDmglst1 * EVar
   vs2t * EPow P2 (EVar vMuSUSY) * EPow P3 (EVar vMst1) / (#27 * EVar vMgl * EVar vMt * EPow P2 (EVar vSbeta) * EPow
   P4 (EVar vMsq)) + #5020 * EVar vs2t * EPow P2 (EVar vDmglst1) * EPow P2 (EVar vMuSUSY) * EPow P3 (EVar vMst1) /
   (#27 * EVar vMt * EPow P2 (EVar vMgl) * EPow P2 (EVar vSbeta) * EPow P4 (EVar vMsq)) - #4400 * EPow P4 (EVar vMst1)
   / (#9 * EPow P2 (EVar vMsq) * EPow P2 (EVar vMst2)) - #17600 * EVar vDmglst1 * EPow P4 (EVar vMst1) / (#9 * EVar
   vMgl * EPow P2 (EVar vMsq) * EPow P2 (EVar vMst2)) + #4400 * EVar vCbeta * EVar vMuSUSY * EVar vs2t * EPow P4 (EVar
   vMst1) / (#9 * EVar vMt * EVar vSbeta * EPow P2 (EVar vMsq) * EPow P2 (EVar vMst2)) + #17600 * EVar vCbeta * EVar
   vDmglst1 * EVar vMuSUSY * EVar vs2t * EPow P4 (EVar vMst1) / (#9 * EVar vMgl * EVar vMt * EVar vSbeta * EPow P2
   (EVar vMsq) * EPow P2 (EVar vMst2)) - #44000 * EPow P2 (EVar vDmglst1) * EPow P4 (EVar vMst1) / (#9 * EPow P2 (EVar
   vMgl) * EPow P2 (EVar vMsq) * EPow P2 (EVar vMst2)) + #44000 * EVar vCbeta * EVar vMuSUSY * EVar vs2t * EPow P2
   (EVar vDmglst1) * EPow P4 (EVar vMst1) / (#9 * EVar vMt * EVar vSbeta * EPow P2 (EVar vMgl) * EPow P2 (EVar vMsq) *
   EPow P2 (EVar vMst2)) - #181136 * EPow P2 (EVar vs2t) * EPow P4 (EVar vMst1) / (#675 * EPow P2 (EVar vMsq) * EPow
   P2 (EVar vMt)) - #10480 * EVar vDmglst1 * EPow P2 (EVar vs2t) * EPow P4 (EVar vMst1) / (#9 * EVar vMgl * EPow P2
   (EVar vMsq) * EPow P2 (EVar vMt)) - #23080 * EPow P2 (EVar vDmglst1) * EPow P2 (EVar vs2t) * EPow P4 (EVar vMst1) /
   (#9 * EPow P2 (EVar vMgl) * EPow P2 (EVar vMsq) * EPow P2 (EVar vMt)) - #29787188414 * EPow P2 (EVar vs2t) * EPow
   P4 (EVar vMst1) / (#10418625 * EPow P2 (EVar vMst2) * EPow P2 (EVar vMt)) - #253180 * EVar vDmglst1 * EPow P2 (EVar
   vs2t) * EPow P4 (EVar vMst1) / (#81 * EVar vMgl * EPow P2 (EVar vMst2) * EPow P2 (EVar vMt)) + #64 * EConst COepS2
   * EPow P2 (EVar vs2t) * EPow P4 (EVar vMst1) / (#243 * EPow P2 (EVar vMst2) * EPow P2 (EVar vMt)) - #296 * EConst
   CS2 * EPow P2 (EVar vs2t) * EPow P4 (EVar vMst1) / (#9 * EPow P2 (EVar vMst2) * EPow P2 (EVar vMt)) - #32 * EConst
   CT1ep * EPow P2 (EVar vs2t) * EPow P4 (EVar vMst1) / (#81 * EPow P2 (EVar vMst2) * EPow P2 (EVar vMt)) + #1180 *
   EConst Cz2 * EPow P2 (EVar vs2t) * EPow P4 (EVar vMst1) / (#81 * EPow P2 (EVar vMst2) * EPow P2 (EVar vMt)) -
   #29536 * EVar vDmglst1 * EConst Cz2 * EPow P2 (EVar vs2t) * EPow P4 (EVar vMst1) / (#9 * EVar vMgl * EPow P2 (EVar
   vMst2) * EPow P2 (EVar vMt)) + #5296 * EConst Cz3 * EPow P2 (EVar vs2t) * EPow P4 (EVar vMst1) / (#81 * EPow P2
   (EVar vMst2) * EPow P2 (EVar vMt)) + #6368 * EVar vDmglst1 * EConst Cz3 * EPow P2 (EVar vs2t) * EPow P4 (EVar
   vMst1) / (#3 * EVar vMgl * EPow P2 (EVar vMst2) * EPow P2 (EVar vMt)) - #16 * EConst Cz4 * EPow P2 (EVar vs2t) *
   EPow P4 (EVar vMst1) / (#81 * EPow P2 (EVar vMst2) * EPow P2 (EVar vMt)) - #270562 * EPow P2 (EVar vDmglst1) * EPow
   P2 (EVar vs2t) * EPow P4 (EVar vMst1) / (#81 * EPow P2 (EVar vMgl) * EPow P2 (EVar vMst2) * EPow P2 (EVar vMt)) -
   #118864 * EConst Cz2 * EPow P2 (EVar vDmglst1) * EPow P2 (EVar vs2t) * EPow P4 (EVar vMst1) / (#9 * EPow P2 (EVar
   vMgl) * EPow P2 (EVar vMst2) * EPow P2 (EVar vMt)) + #35024 * EConst Cz3 * EPow P2 (EVar vDmglst1) * EPow P2 (EVar
   vs2t) * EPow P4 (EVar vMst1) / (#3 * EPow P2 (EVar vMgl) * EPow P2 (EVar vMst2) * EPow P2 (EVar vMt)) + #2440 *
   EPow P2 (EVar vMuSUSY) * EPow P2 (EVar vs2t) * EPow P4 (EVar vMst1) / (#9 * EPow P2 (EVar vMsq) * EPow P2 (EVar
   vMst2) * EPow P2 (EVar vMt)) + #8800 * EVar vDmglst1 * EPow P2 (EVar vMuSUSY) * EPow P2 (EVar vs2t) * EPow P4 (EVar
   vMst1) / (#9 * EVar vMgl * EPow P2 (EVar vMsq) * EPow P2 (EVar vMst2) * EPow P2 (EVar vMt)) + #320 * EConst Cz2 *
   EPow P2 (EVar vMuSUSY) * EPow P2 (EVar vs2t) * EPow P4 (EVar vMst1) / (#3 * EPow P2 (EVar vMsq) * EPow P2 (EVar
   vMst2) * EPow P2 (EVar vMt)) + #2240 * EVar vDmglst1 * EConst Cz2 * EPow P2 (EVar vMuSUSY) * EPow P2 (EVar vs2t) *
   EPow P4 (EVar vMst1) / (#3 * EVar vMgl * EPow P2 (EVar vMsq) * EPow P2 (EVar vMst2) * EPow P2 (EVar vMt)) + #26800
   * EPow P2 (EVar vDmglst1) * EPow P2 (EVar vMuSUSY) * EPow P2 (EVar vs2t) * EPow P4 (EVar vMst1) / (#9 * EPow P2
   (EVar vMgl) * EPow P2 (EVar vMsq) * EPow P2 (EVar vMst2) * EPow P2 (EVar vMt)) + #6560 * EConst Cz2 * EPow P2 (EVar
   vDmglst1) * EPow P2 (EVar vMuSUSY) * EPow P2 (EVar vs2t) * EPow P4 (EVar vMst1) / (#3 * EPow P2 (EVar vMgl) * EPow
   P2 (EVar vMsq) * EPow P2 (EVar vMst2) * EPow P2 (EVar vMt)) - #2440 * EPow P2 (EVar vMuSUSY) * EPow P2 (EVar vs2t)
   * EPow P4 (EVar vMst1) / (#9 * EPow P2 (EVar vMsq) * EPow P2 (EVar vMst2) * EPow P2 (EVar vMt) * EPow P2 (EVar
   vSbeta)) - #8800 * EVar vDmglst1 * EPow P2 (EVar vMuSUSY) * EPow P2 (EVar vs2t) * EPow P4 (EVar vMst1) / (#9 * EVar
   vMgl * EPow P2 (EVar vMsq) * EPow P2 (EVar vMst2) * EPow P2 (EVar vMt) * EPow P2 (EVar vSbeta)) - #320 * EConst Cz2
   * EPow P2 (EVar vMuSUSY) * EPow P2 (EVar vs2t) * EPow P4 (EVar vMst1) / (#3 * EPow P2 (EVar vMsq) * EPow P2 (EVar
   vMst2) * EPow P2 (EVar vMt) * EPow P2 (EVar vSbeta)) - #2240 * EVar vDmglst1 * EConst Cz2 * EPow P2 (EVar vMuSUSY)
   * EPow P2 (EVar vs2t) * EPow P4 (EVar vMst1) / (#3 * EVar vMgl * EPow P2 (EVar vMsq) * EPow P2 (EVar vMst2) * EPow
   P2 (EVar vMt) * EPow P2 (EVar vSbeta)) - #26800 * EPow P2 (EVar vDmglst1) * EPow P2 (EVar vMuSUSY) * EPow P2 (EVar
   vs2t) * EPow P4 (EVar vMst1) / (#9 * EPow P2 (EVar vMgl) * EPow P2 (EVar vMsq) * EPow P2 (EVar vMst2) * EPow P2
   (EVar vMt) * EPow P2 (EVar vSbeta)) - #6560 * EConst Cz2 * EPow P2 (EVar vDmglst1) * EPow P2 (EVar vMuSUSY) * EPow
   P2 (EVar vs2t) * EPow P4 (EVar vMst1) / (#3 * EPow P2 (EVar vMgl) * EPow P2 (EVar vMsq) * EPow P2 (EVar vMst2) *
   EPow P2 (EVar vMt) * EPow P2 (EVar vSbeta)) - #8 * EPow P2 (EVar vs2t) * EPow P2 (EConst Cz2) * EPow P4 (EVar
   vMst1) / (#27 * EPow P2 (EVar vMst2) * EPow P2 (EVar vMt)) + #3148 * EVar vCbeta * EVar vMuSUSY * EPow P3 (EVar
   vs2t) * EPow P4 (EVar vMst1) / (#15 * EVar vSbeta * EPow P2 (EVar vMsq) * EPow P3 (EVar vMt)) + #2560 * EVar vCbeta
   * EVar vDmglst1 * EVar vMuSUSY * EPow P3 (EVar vs2t) * EPow P4 (EVar vMst1) / (#3 * EVar vMgl * EVar vSbeta * EPow
   P2 (EVar vMsq) * EPow P3 (EVar vMt)) + #280 * EVar vCbeta * EVar vMuSUSY * EConst Cz2 * EPow P3 (EVar vs2t) * EPow
   P4 (EVar vMst1) / (#3 * EVar vSbeta * EPow P2 (EVar vMsq) * EPow P3 (EVar vMt)) + #1360 * EVar vCbeta * EVar
   vDmglst1 * EVar vMuSUSY * EConst Cz2 * EPow P3 (EVar vs2t) * EPow P4 (EVar vMst1) / (#3 * EVar vMgl * EVar vSbeta *
   EPow P2 (EVar vMsq) * EPow P3 (EVar vMt)) + #19880 * EVar vCbeta * EVar vMuSUSY * EPow P2 (EVar vDmglst1) * EPow P3
   (EVar vs2t) * EPow P4 (EVar vMst1) / (#9 * EVar vSbeta * EPow P2 (EVar vMgl) * EPow P2 (EVar vMsq) * EPow P3 (EVar
   vMt)) + #3640 * EVar vCbeta * EVar vMuSUSY * EConst Cz2 * EPow P2 (EVar vDmglst1) * EPow P3 (EVar vs2t) * EPow P4
   (EVar vMst1) / (#3 * EVar vSbeta * EPow P2 (EVar vMgl) * EPow P2 (EVar vMsq) * EPow P3 (EVar vMt)) + #478241812219
   * EVar vCbeta * EVar vMuSUSY * EPow P3 (EVar vs2t) * EPow P4 (EVar vMst1) / (#166698000 * EVar vSbeta * EPow P2
   (EVar vMst2) * EPow P3 (EVar vMt)) + #606133 * EVar vCbeta * EVar vDmglst1 * EVar vMuSUSY * EPow P3 (EVar vs2t) *
   EPow P4 (EVar vMst1) / (#324 * EVar vMgl * EVar vSbeta * EPow P2 (EVar vMst2) * EPow P3 (EVar vMt)) - #5312 * EVar
   vCbeta * EVar vMuSUSY * EConst COepS2 * EPow P3 (EVar vs2t) * EPow P4 (EVar vMst1) / (#243 * EVar vSbeta * EPow P2
   (EVar vMst2) * EPow P3 (EVar vMt)) + #9496 * EVar vCbeta * EVar vMuSUSY * EConst CS2 * EPow P3 (EVar vs2t) * EPow
   P4 (EVar vMst1) / (#9 * EVar vSbeta * EPow P2 (EVar vMst2) * EPow P3 (EVar vMt)) + #2656 * EVar vCbeta * EVar
   vMuSUSY * EConst CT1ep * EPow P3 (EVar vs2t) * EPow P4 (EVar vMst1) / (#81 * EVar vSbeta * EPow P2 (EVar vMst2) *
   EPow P3 (EVar vMt)) + #65617 * EVar vCbeta * EVar vMuSUSY * EConst Cz2 * EPow P3 (EVar vs2t) * EPow P4 (EVar vMst1)
   / (#81 * EVar vSbeta * EPow P2 (EVar vMst2) * EPow P3 (EVar vMt)) + #12268 * EVar vCbeta * EVar vDmglst1 * EVar
   vMuSUSY * EConst Cz2 * EPow P3 (EVar vs2t) * EPow P4 (EVar vMst1) / (#9 * EVar vMgl * EVar vSbeta * EPow P2 (EVar
   vMst2) * EPow P3 (EVar vMt)) - #330056 * EVar vCbeta * EVar vMuSUSY * EConst Cz3 * EPow P3 (EVar vs2t) * EPow P4
   (EVar vMst1) / (#81 * EVar vSbeta * EPow P2 (EVar vMst2) * EPow P3 (EVar vMt)) - #22768 * EVar vCbeta * EVar
   vDmglst1 * EVar vMuSUSY * EConst Cz3 * EPow P3 (EVar vs2t) * EPow P4 (EVar vMst1) / (#3 * EVar vMgl * EVar vSbeta *
   EPow P2 (EVar vMst2) * EPow P3 (EVar vMt)) + #1328 * EVar vCbeta * EVar vMuSUSY * EConst Cz4 * EPow P3 (EVar vs2t)
   * EPow P4 (EVar vMst1) / (#81 * EVar vSbeta * EPow P2 (EVar vMst2) * EPow P3 (EVar vMt)) + #283217 * EVar vCbeta *
   EVar vMuSUSY * EPow P2 (EVar vDmglst1) * EPow P3 (EVar vs2t) * EPow P4 (EVar vMst1) / (#648 * EVar vSbeta * EPow P2
   (EVar vMgl) * EPow P2 (EVar vMst2) * EPow P3 (EVar vMt)) + #256 * EConst CB4 * EVar vCbeta * EVar vMuSUSY * EPow P2
   (EVar vDmglst1) * EPow P3 (EVar vs2t) * EPow P4 (EVar vMst1) / (#3 * EVar vSbeta * EPow P2 (EVar vMgl) * EPow P2
   (EVar vMst2) * EPow P3 (EVar vMt)) + #128 * EVar vCbeta * EConst CDN * EVar vMuSUSY * EPow P2 (EVar vDmglst1) *
   EPow P3 (EVar vs2t) * EPow P4 (EVar vMst1) / (#3 * EVar vSbeta * EPow P2 (EVar vMgl) * EPow P2 (EVar vMst2) * EPow
   P3 (EVar vMt)) + #33886 * EVar vCbeta * EVar vMuSUSY * EConst Cz2 * EPow P2 (EVar vDmglst1) * EPow P3 (EVar vs2t) *
   EPow P4 (EVar vMst1) / (#9 * EVar vSbeta * EPow P2 (EVar vMgl) * EPow P2 (EVar vMst2) * EPow P3 (EVar vMt)) -
   #49576 * EVar vCbeta * EVar vMuSUSY * EConst Cz3 * EPow P2 (EVar vDmglst1) * EPow P3 (EVar vs2t) * EPow P4 (EVar
   vMst1) / (#3 * EVar vSbeta * EPow P2 (EVar vMgl) * EPow P2 (EVar vMst2) * EPow P3 (EVar vMt)) - #640 * EVar vCbeta
   * EVar vMuSUSY * EConst Cz4 * EPow P2 (EVar vDmglst1) * EPow P3 (EVar vs2t) * EPow P4 (EVar vMst1) / (EVar vSbeta *
   EPow P2 (EVar vMgl) * EPow P2 (EVar vMst2) * EPow P3 (EVar vMt)) + #664 * EVar vCbeta * EVar vMuSUSY * EPow P2
   (EConst Cz2) * EPow P3 (EVar vs2t) * EPow P4 (EVar vMst1) / (#27 * EVar vSbeta * EPow P2 (EVar vMst2) * EPow P3
   (EVar vMt)) - #160842737 * EPow P4 (EVar vMst1) / (#231525 * EPow P4 (EVar vMsq)) - #41900 * EVar vDmglst1 * EPow
   P4 (EVar vMst1) / (#27 * EVar vMgl * EPow P4 (EVar vMsq)) - #375934 * EVar vCbeta * EVar vMuSUSY * EVar vs2t * EPow
   P4 (EVar vMst1) / (#15435 * EVar vMt * EVar vSbeta * EPow P4 (EVar vMsq)) + #440 * EVar vCbeta * EVar vDmglst1 *
   EVar vMuSUSY * EVar vs2t * EPow P4 (EVar vMst1) / (#9 * EVar vMgl * EVar vMt * EVar vSbeta * EPow P4 (EVar vMsq)) +
   #1520 * EConst Cz2 * EPow P4 (EVar vMst1) / (#3 * EPow P4 (EVar vMsq)) + #4160 * EVar vDmglst1 * EConst Cz2 * EPow
   P4 (EVar vMst1) / (#3 * EVar vMgl * EPow P4 (EVar vMsq)) - #430726 * EPow P2 (EVar vDmglst1) * EPow P4 (EVar vMst1)
   / (#135 * EPow P2 (EVar vMgl) * EPow P4 (EVar vMsq)) + #6140 * EVar vCbeta * EVar vMuSUSY * EVar vs2t * EPow P2
   (EVar vDmglst1) * EPow P4 (EVar vMst1) / (#9 * EVar vMt * EVar vSbeta * EPow P2 (EVar vMgl) * EPow P4 (EVar vMsq))
   + #9440 * EConst Cz2 * EPow P2 (EVar vDmglst1) * EPow P4 (EVar vMst1) / (#3 * EPow P2 (EVar vMgl) * EPow P4 (EVar
   vMsq)) + #522392 * EPow P2 (EVar vMst2) * EPow P2 (EVar vs2t) * EPow P4 (EVar vMst1) / (#15435 * EPow P2 (EVar vMt)
   * EPow P4 (EVar vMsq)) + #170 * EVar vDmglst1 * EPow P2 (EVar vMst2) * EPow P2 (EVar vs2t) * EPow P4 (EVar vMst1) /
   (#9 * EVar vMgl * EPow P2 (EVar vMt) * EPow P4 (EVar vMsq)) - #2485 * EPow P2 (EVar vDmglst1) * EPow P2 (EVar
   vMst2) * EPow P2 (EVar vs2t) * EPow P4 (EVar vMst1) / (#9 * EPow P2 (EVar vMgl) * EPow P2 (EVar vMt) * EPow P4
   (EVar vMsq)) - #41220947 * EPow P2 (EVar vMuSUSY) * EPow P2 (EVar vs2t) * EPow P4 (EVar vMst1) / (#463050 * EPow P2
   (EVar vMt) * EPow P4 (EVar vMsq)) - #4850 * EVar vDmglst1 * EPow P2 (EVar vMuSUSY) * EPow P2 (EVar vs2t) * EPow P4
   (EVar vMst1) / (#9 * EVar vMgl * EPow P2 (EVar vMt) * EPow P4 (EVar vMsq)) - #100 * EConst Cz2 * EPow P2 (EVar
   vMuSUSY) * EPow P2 (EVar vs2t) * EPow P4 (EVar vMst1) / (#3 * EPow P2 (EVar vMt) * EPow P4 (EVar vMsq)) - #400 *
   EVar vDmglst1 * EConst Cz2 * EPow P2 (EVar vMuSUSY) * EPow P2 (EVar vs2t) * EPow P4 (EVar vMst1) / (#3 * EVar vMgl
   * EPow P2 (EVar vMt) * EPow P4 (EVar vMsq)) - #1715 * EPow P2 (EVar vDmglst1) * EPow P2 (EVar vMuSUSY) * EPow P2
   (EVar vs2t) * EPow P4 (EVar vMst1) / (EPow P2 (EVar vMgl) * EPow P2 (EVar vMt) * EPow P4 (EVar vMsq)) - #1000 *
   EConst Cz2 * EPow P2 (EVar vDmglst1) * EPow P2 (EVar vMuSUSY) * EPow P2 (EVar vs2t) * EPow P4 (EVar vMst1) / (#3 *
   EPow P2 (EVar vMgl) * EPow P2 (EVar vMt) * EPow P4 (EVar vMsq)) + #41220947 * EPow P2 (EVar vMuSUSY) * EPow P2
   (EVar vs2t) * EPow P4 (EVar vMst1) / (#463050 * EPow P2 (EVar vMt) * EPow P2 (EVar vSbeta) * EPow P4 (EVar vMsq)) +
   #4850 * EVar vDmglst1 * EPow P2 (EVar vMuSUSY) * EPow P2 (EVar vs2t) * EPow P4 (EVar vMst1) / (#9 * EVar vMgl *
   EPow P2 (EVar vMt) * EPow P2 (EVar vSbeta) * EPow P4 (EVar vMsq)) + #100 * EConst Cz2 * EPow P2 (EVar vMuSUSY) *
   EPow P2 (EVar vs2t) * EPow P4 (EVar vMst1) / (#3 * EPow P2 (EVar vMt) * EPow P2 (EVar vSbeta) * EPow P4 (EVar
   vMsq)) + #400 * EVar vDmglst1 * EConst Cz2 * EPow P2 (EVar vMuSUSY) * EPow P2 (EVar vs2t) * EPow P4 (EVar vMst1) /
   (#3 * EVar vMgl * EPow P2 (EVar vMt) * EPow P2 (EVar vSbeta) * EPow P4 (EVar vMsq)) + #1715 * EPow P2 (EVar
   vDmglst1) * EPow P2 (EVar vMuSUSY) * EPow P2 (EVar vs2t) * EPow P4 (EVar vMst1) / (EPow P2 (EVar vMgl) * EPow P2
   (EVar vMt) * EPow P2 (EVar vSbeta) * EPow P4 (EVar vMsq)) + #1000 * EConst Cz2 * EPow P2 (EVar vDmglst1) * EPow P2
   (EVar vMuSUSY) * EPow P2 (EVar vs2t) * EPow P4 (EVar vMst1) / (#3 * EPow P2 (EVar vMgl) * EPow P2 (EVar vMt) * EPow
   P2 (EVar vSbeta) * EPow P4 (EVar vMsq)) - #6740969 * EVar vCbeta * EVar vMuSUSY * EPow P2 (EVar vMst2) * EPow P3
   (EVar vs2t) * EPow P4 (EVar vMst1) / (#102900 * EVar vSbeta * EPow P3 (EVar vMt) * EPow P4 (EVar vMsq)) - #2515 *
   EVar vCbeta * EVar vDmglst1 * EVar vMuSUSY * EPow P2 (EVar vMst2) * EPow P3 (EVar vs2t) * EPow P4 (EVar vMst1) /
   (#9 * EVar vMgl * EVar vSbeta * EPow P3 (EVar vMt) * EPow P4 (EVar vMsq)) - #50 * EVar vCbeta * EVar vMuSUSY *
   EConst Cz2 * EPow P2 (EVar vMst2) * EPow P3 (EVar vs2t) * EPow P4 (EVar vMst1) / (#3 * EVar vSbeta * EPow P3 (EVar
   vMt) * EPow P4 (EVar vMsq)) - #200 * EVar vCbeta * EVar vDmglst1 * EVar vMuSUSY * EConst Cz2 * EPow P2 (EVar vMst2)
   * EPow P3 (EVar vs2t) * EPow P4 (EVar vMst1) / (#3 * EVar vMgl * EVar vSbeta * EPow P3 (EVar vMt) * EPow P4 (EVar
   vMsq)) - #1745 * EVar vCbeta * EVar vMuSUSY * EPow P2 (EVar vDmglst1) * EPow P2 (EVar vMst2) * EPow P3 (EVar vs2t)
   * EPow P4 (EVar vMst1) / (#2 * EVar vSbeta * EPow P2 (EVar vMgl) * EPow P3 (EVar vMt) * EPow P4 (EVar vMsq)) - #500
   * EVar vCbeta * EVar vMuSUSY * EConst Cz2 * EPow P2 (EVar vDmglst1) * EPow P2 (EVar vMst2) * EPow P3 (EVar vs2t) *
   EPow P4 (EVar vMst1) / (#3 * EVar vSbeta * EPow P2 (EVar vMgl) * EPow P3 (EVar vMt) * EPow P4 (EVar vMsq)) - #8896
   * EPow P2 (EVar vMst1) * EPow P2 (EVar vMuSUSY) / (#3 * EPow P4 (EVar vMst2)) + #128 * EConst CB4 * EPow P2 (EVar
   vMst1) * EPow P2 (EVar vMuSUSY) / (#3 * EPow P4 (EVar vMst2)) + #64 * EConst CDN * EPow P2 (EVar vMst1) * EPow P2
   (EVar vMuSUSY) / (#3 * EPow P4 (EVar vMst2)) - #7040 * EConst Cz2 * EPow P2 (EVar vMst1) * EPow P2 (EVar vMuSUSY) /
   (#3 * EPow P4 (EVar vMst2)) - #2944 * EConst Cz3 * EPow P2 (EVar vMst1) * EPow P2 (EVar vMuSUSY) / (#3 * EPow P4
   (EVar vMst2)) - #320 * EConst Cz4 * EPow P2 (EVar vMst1) * EPow P2 (EVar vMuSUSY) / EPow P4 (EVar vMst2) + #8896 *
   EPow P2 (EVar vMst1) * EPow P2 (EVar vMuSUSY) / (#3 * EPow P2 (EVar vSbeta) * EPow P4 (EVar vMst2)) - #128 * EConst
   CB4 * EPow P2 (EVar vMst1) * EPow P2 (EVar vMuSUSY) / (#3 * EPow P2 (EVar vSbeta) * EPow P4 (EVar vMst2)) - #64 *
   EConst CDN * EPow P2 (EVar vMst1) * EPow P2 (EVar vMuSUSY) / (#3 * EPow P2 (EVar vSbeta) * EPow P4 (EVar vMst2)) +
   #7040 * EConst Cz2 * EPow P2 (EVar vMst1) * EPow P2 (EVar vMuSUSY) / (#3 * EPow P2 (EVar vSbeta) * EPow P4 (EVar
   vMst2)) + #2944 * EConst Cz3 * EPow P2 (EVar vMst1) * EPow P2 (EVar vMuSUSY) / (#3 * EPow P2 (EVar vSbeta) * EPow
   P4 (EVar vMst2)) + #320 * EConst Cz4 * EPow P2 (EVar vMst1) * EPow P2 (EVar vMuSUSY) / (EPow P2 (EVar vSbeta) *
   EPow P4 (EVar vMst2)) + #27952 * EVar vCbeta * EVar vMuSUSY * EPow P3 (EVar vMst1) / (#27 * EVar vSbeta * EPow P4
   (EVar vMst2)) - #260848 * EVar vCbeta * EVar vDmglst1 * EVar vMuSUSY * EPow P3 (EVar vMst1) / (#81 * EVar vMgl *
   EVar vSbeta * EPow P4 (EVar vMst2)) - #88384 * EVar vCbeta * EVar vMuSUSY * EConst Cz2 * EPow P3 (EVar vMst1) / (#9
   * EVar vSbeta * EPow P4 (EVar vMst2)) - #266432 * EVar vCbeta * EVar vDmglst1 * EVar vMuSUSY * EConst Cz2 * EPow P3
   (EVar vMst1) / (#9 * EVar vMgl * EVar vSbeta * EPow P4 (EVar vMst2)) + #2752 * EVar vCbeta * EVar vMuSUSY * EConst
   Cz3 * EPow P3 (EVar vMst1) / (EVar vSbeta * EPow P4 (EVar vMst2)) + #30080 * EVar vCbeta * EVar vDmglst1 * EVar
   vMuSUSY * EConst Cz3 * EPow P3 (EVar vMst1) / (#3 * EVar vMgl * EVar vSbeta * EPow P4 (EVar vMst2)) + #128 * EVar
   vCbeta * EVar vMuSUSY * EConst Cz4 * EPow P3 (EVar vMst1) / (#3 * EVar vSbeta * EPow P4 (EVar vMst2)) + #128 * EVar
   vCbeta * EVar vDmglst1 * EVar vMuSUSY * EConst Cz4 * EPow P3 (EVar vMst1) / (#3 * EVar vMgl * EVar vSbeta * EPow P4
   (EVar vMst2)) - #260848 * EVar vCbeta * EVar vMuSUSY * EPow P2 (EVar vDmglst1) * EPow P3 (EVar vMst1) / (#81 * EVar
   vSbeta * EPow P2 (EVar vMgl) * EPow P4 (EVar vMst2)) - #266432 * EVar vCbeta * EVar vMuSUSY * EConst Cz2 * EPow P2
   (EVar vDmglst1) * EPow P3 (EVar vMst1) / (#9 * EVar vSbeta * EPow P2 (EVar vMgl) * EPow P4 (EVar vMst2)) + #30080 *
   EVar vCbeta * EVar vMuSUSY * EConst Cz3 * EPow P2 (EVar vDmglst1) * EPow P3 (EVar vMst1) / (#3 * EVar vSbeta * EPow
   P2 (EVar vMgl) * EPow P4 (EVar vMst2)) + #128 * EVar vCbeta * EVar vMuSUSY * EConst Cz4 * EPow P2 (EVar vDmglst1) *
   EPow P3 (EVar vMst1) / (#3 * EVar vSbeta * EPow P2 (EVar vMgl) * EPow P4 (EVar vMst2)) - #858392 * EVar vs2t * EPow
   P2 (EVar vMuSUSY) * EPow P3 (EVar vMst1) / (#81 * EVar vMt * EPow P4 (EVar vMst2)) + #5696 * EConst CB4 * EVar vs2t
   * EPow P2 (EVar vMuSUSY) * EPow P3 (EVar vMst1) / (#3 * EVar vMt * EPow P4 (EVar vMst2)) + #32 * EConst CDN * EVar
   vs2t * EPow P2 (EVar vMuSUSY) * EPow P3 (EVar vMst1) / (#3 * EVar vMt * EPow P4 (EVar vMst2)) - #111752 * EVar
   vDmglst1 * EVar vs2t * EPow P2 (EVar vMuSUSY) * EPow P3 (EVar vMst1) / (#27 * EVar vMgl * EVar vMt * EPow P4 (EVar
   vMst2)) + #3520 * EConst CB4 * EVar vDmglst1 * EVar vs2t * EPow P2 (EVar vMuSUSY) * EPow P3 (EVar vMst1) / (EVar
   vMgl * EVar vMt * EPow P4 (EVar vMst2)) - #32 * EVar vDmglst1 * EConst CDN * EVar vs2t * EPow P2 (EVar vMuSUSY) *
   EPow P3 (EVar vMst1) / (EVar vMgl * EVar vMt * EPow P4 (EVar vMst2)) - #77024 * EVar vs2t * EConst Cz2 * EPow P2
   (EVar vMuSUSY) * EPow P3 (EVar vMst1) / (#9 * EVar vMt * EPow P4 (EVar vMst2)) + #7328 * EVar vDmglst1 * EVar vs2t
   * EConst Cz2 * EPow P2 (EVar vMuSUSY) * EPow P3 (EVar vMst1) / (EVar vMgl * EVar vMt * EPow P4 (EVar vMst2)) +
   #36800 * EVar vs2t * EConst Cz3 * EPow P2 (EVar vMuSUSY) * EPow P3 (EVar vMst1) / (#3 * EVar vMt * EPow P4 (EVar
   vMst2)) + #9856 * EVar vDmglst1 * EVar vs2t * EConst Cz3 * EPow P2 (EVar vMuSUSY) * EPow P3 (EVar vMst1) / (EVar
   vMgl * EVar vMt * EPow P4 (EVar vMst2)) + #10016 * EVar vs2t * EConst Cz4 * EPow P2 (EVar vMuSUSY) * EPow P3 (EVar
   vMst1) / (#3 * EVar vMt * EPow P4 (EVar vMst2)) - #5408 * EVar vDmglst1 * EVar vs2t * EConst Cz4 * EPow P2 (EVar
   vMuSUSY) * EPow P3 (EVar vMst1) / (EVar vMgl * EVar vMt * EPow P4 (EVar vMst2)) - #111752 * EVar vs2t * EPow P2
   (EVar vDmglst1) * EPow P2 (EVar vMuSUSY) * EPow P3 (EVar vMst1) / (#27 * EVar vMt * EPow P2 (EVar vMgl) * EPow P4
   (EVar vMst2)) + #3520 * EConst CB4 * EVar vs2t * EPow P2 (EVar vDmglst1) * EPow P2 (EVar vMuSUSY) * EPow P3 (EVar
   vMst1) / (EVar vMt * EPow P2 (EVar vMgl) * EPow P4 (EVar vMst2)) - #32 * EConst CDN * EVar vs2t * EPow P2 (EVar
   vDmglst1) * EPow P2 (EVar vMuSUSY) * EPow P3 (EVar vMst1) / (EVar vMt * EPow P2 (EVar vMgl) * EPow P4 (EVar vMst2))
   + #7328 * EVar vs2t * EConst Cz2 * EPow P2 (EVar vDmglst1) * EPow P2 (EVar vMuSUSY) * EPow P3 (EVar vMst1) / (EVar
   vMt * EPow P2 (EVar vMgl) * EPow P4 (EVar vMst2)) + #9856 * EVar vs2t * EConst Cz3 * EPow P2 (EVar vDmglst1) * EPow
   P2 (EVar vMuSUSY) * EPow P3 (EVar vMst1) / (EVar vMt * EPow P2 (EVar vMgl) * EPow P4 (EVar vMst2)) - #5408 * EVar
   vs2t * EConst Cz4 * EPow P2 (EVar vDmglst1) * EPow P2 (EVar vMuSUSY) * EPow P3 (EVar vMst1) / (EVar vMt * EPow P2
   (EVar vMgl) * EPow P4 (EVar vMst2)) + #858392 * EVar vs2t * EPow P2 (EVar vMuSUSY) * EPow P3 (EVar vMst1) / (#81 *
   EVar vMt * EPow P2 (EVar vSbeta) * EPow P4 (EVar vMst2)) - #5696 * EConst CB4 * EVar vs2t * EPow P2 (EVar vMuSUSY)
   * EPow P3 (EVar vMst1) / (#3 * EVar vMt * EPow P2 (EVar vSbeta) * EPow P4 (EVar vMst2)) - #32 * EConst CDN * EVar
   vs2t * EPow P2 (EVar vMuSUSY) * EPow P3 (EVar vMst1) / (#3 * EVar vMt * EPow P2 (EVar vSbeta) * EPow P4 (EVar
   vMst2)) + #111752 * EVar vDmglst1 * EVar vs2t * EPow P2 (EVar vMuSUSY) * EPow P3 (EVar vMst1) / (#27 * EVar vMgl *
   EVar vMt * EPow P2 (EVar vSbeta) * EPow P4 (EVar vMst2)) - #3520 * EConst CB4 * EVar vDmglst1 * EVar vs2t * EPow P2
   (EVar vMuSUSY) * EPow P3 (EVar vMst1) / (EVar vMgl * EVar vMt * EPow P2 (EVar vSbeta) * EPow P4 (EVar vMst2)) + #32
   * EVar vDmglst1 * EConst CDN * EVar vs2t * EPow P2 (EVar vMuSUSY) * EPow P3 (EVar vMst1) / (EVar vMgl * EVar vMt *
   EPow P2 (EVar vSbeta) * EPow P4 (EVar vMst2)) + #77024 * EVar vs2t * EConst Cz2 * EPow P2 (EVar vMuSUSY) * EPow P3
   (EVar vMst1) / (#9 * EVar vMt * EPow P2 (EVar vSbeta) * EPow P4 (EVar vMst2)) - #7328 * EVar vDmglst1 * EVar vs2t *
   EConst Cz2 * EPow P2 (EVar vMuSUSY) * EPow P3 (EVar vMst1) / (EVar vMgl * EVar vMt * EPow P2 (EVar vSbeta) * EPow
   P4 (EVar vMst2)) - #36800 * EVar vs2t * EConst Cz3 * EPow P2 (EVar vMuSUSY) * EPow P3 (EVar vMst1) / (#3 * EVar vMt
   * EPow P2 (EVar vSbeta) * EPow P4 (EVar vMst2)) - #9856 * EVar vDmglst1 * EVar vs2t * EConst Cz3 * EPow P2 (EVar
   vMuSUSY) * EPow P3 (EVar vMst1) / (EVar vMgl * EVar vMt * EPow P2 (EVar vSbeta) * EPow P4 (EVar vMst2)) - #10016 *
   EVar vs2t * EConst Cz4 * EPow P2 (EVar vMuSUSY) * EPow P3 (EVar vMst1) / (#3 * EVar vMt * EPow P2 (EVar vSbeta) *
   EPow P4 (EVar vMst2)) + #5408 * EVar vDmglst1 * EVar vs2t * EConst Cz4 * EPow P2 (EVar vMuSUSY) * EPow P3 (EVar
   vMst1) / (EVar vMgl * EVar vMt * EPow P2 (EVar vSbeta) * EPow P4 (EVar vMst2)) + #111752 * EVar vs2t * EPow P2
   (EVar vDmglst1) * EPow P2 (EVar vMuSUSY) * EPow P3 (EVar vMst1) / (#27 * EVar vMt * EPow P2 (EVar vMgl) * EPow P2
   (EVar vSbeta) * EPow P4 (EVar vMst2)) - #3520 * EConst CB4 * EVar vs2t * EPow P2 (EVar vDmglst1) * EPow P2 (EVar
   vMuSUSY) * EPow P3 (EVar vMst1) / (EVar vMt * EPow P2 (EVar vMgl) * EPow P2 (EVar vSbeta) * EPow P4 (EVar vMst2)) +
   #32 * EConst CDN * EVar vs2t * EPow P2 (EVar vDmglst1) * EPow P2 (EVar vMuSUSY) * EPow P3 (EVar vMst1) / (EVar vMt
   * EPow P2 (EVar vMgl) * EPow P2 (EVar vSbeta) * EPow P4 (EVar vMst2)) - #7328 * EVar vs2t * EConst Cz2 * EPow P2
   (EVar vDmglst1) * EPow P2 (EVar vMuSUSY) * EPow P3 (EVar vMst1) / (EVar vMt * EPow P2 (EVar vMgl) * EPow P2 (EVar
   vSbeta) * EPow P4 (EVar vMst2)) - #9856 * EVar vs2t * EConst Cz3 * EPow P2 (EVar vDmglst1) * EPow P2 (EVar vMuSUSY)
   * EPow P3 (EVar vMst1) / (EVar vMt * EPow P2 (EVar vMgl) * EPow P2 (EVar vSbeta) * EPow P4 (EVar vMst2)) + #5408 *
   EVar vs2t * EConst Cz4 * EPow P2 (EVar vDmglst1) * EPow P2 (EVar vMuSUSY) * EPow P3 (EVar vMst1) / (EVar vMt * EPow
   P2 (EVar vMgl) * EPow P2 (EVar vSbeta) * EPow P4 (EVar vMst2)) - #256 * EVar vCbeta * EVar vMuSUSY * EPow P2
   (EConst Cz2) * EPow P3 (EVar vMst1) / (#3 * EVar vSbeta * EPow P4 (EVar vMst2)) - #256 * EVar vCbeta * EVar
   vDmglst1 * EVar vMuSUSY * EPow P2 (EConst Cz2) * EPow P3 (EVar vMst1) / (#3 * EVar vMgl * EVar vSbeta * EPow P4
   (EVar vMst2)) - #256 * EVar vCbeta * EVar vMuSUSY * EPow P2 (EVar vDmglst1) * EPow P2 (EConst Cz2) * EPow P3 (EVar
   vMst1) / (#3 * EVar vSbeta * EPow P2 (EVar vMgl) * EPow P4 (EVar vMst2)) - #5632 * EVar vs2t * EPow P2 (EVar
   vMuSUSY) * EPow P2 (EConst Cz2) * EPow P3 (EVar vMst1) / (#3 * EVar vMt * EPow P4 (EVar vMst2)) - #3584 * EVar
   vDmglst1 * EVar vs2t * EPow P2 (EVar vMuSUSY) * EPow P2 (EConst Cz2) * EPow P3 (EVar vMst1) / (EVar vMgl * EVar vMt
   * EPow P4 (EVar vMst2)) - #3584 * EVar vs2t * EPow P2 (EVar vDmglst1) * EPow P2 (EVar vMuSUSY) * EPow P2 (EConst
   Cz2) * EPow P3 (EVar vMst1) / (EVar vMt * EPow P2 (EVar vMgl) * EPow P4 (EVar vMst2)) + #5632 * EVar vs2t * EPow P2
   (EVar vMuSUSY) * EPow P2 (EConst Cz2) * EPow P3 (EVar vMst1) / (#3 * EVar vMt * EPow P2 (EVar vSbeta) * EPow P4
   (EVar vMst2)) + #3584 * EVar vDmglst1 * EVar vs2t * EPow P2 (EVar vMuSUSY) * EPow P2 (EConst Cz2) * EPow P3 (EVar
   vMst1) / (EVar vMgl * EVar vMt * EPow P2 (EVar vSbeta) * EPow P4 (EVar vMst2)) + #3584 * EVar vs2t * EPow P2 (EVar
   vDmglst1) * EPow P2 (EVar vMuSUSY) * EPow P2 (EConst Cz2) * EPow P3 (EVar vMst1) / (EVar vMt * EPow P2 (EVar vMgl)
   * EPow P2 (EVar vSbeta) * EPow P4 (EVar vMst2)) - #25346116504 * EPow P4 (EVar vMst1) / (#3472875 * EPow P4 (EVar
   vMst2)) - #799880 * EVar vDmglst1 * EPow P4 (EVar vMst1) / (#27 * EVar vMgl * EPow P4 (EVar vMst2)) - #5244811004 *
   EVar vCbeta * EVar vMuSUSY * EVar vs2t * EPow P4 (EVar vMst1) / (#10418625 * EVar vMt * EVar vSbeta * EPow P4 (EVar
   vMst2)) - #284528 * EVar vCbeta * EVar vDmglst1 * EVar vMuSUSY * EVar vs2t * EPow P4 (EVar vMst1) / (#27 * EVar
   vMgl * EVar vMt * EVar vSbeta * EPow P4 (EVar vMst2)) + #256 * EConst CB4 * EVar vCbeta * EVar vDmglst1 * EVar
   vMuSUSY * EVar vs2t * EPow P4 (EVar vMst1) / (#3 * EVar vMgl * EVar vMt * EVar vSbeta * EPow P4 (EVar vMst2)) +
   #128 * EVar vCbeta * EVar vDmglst1 * EConst CDN * EVar vMuSUSY * EVar vs2t * EPow P4 (EVar vMst1) / (#3 * EVar vMgl
   * EVar vMt * EVar vSbeta * EPow P4 (EVar vMst2)) + #2560 * EVar vCbeta * EVar vMuSUSY * EConst COepS2 * EVar vs2t *
   EPow P4 (EVar vMst1) / (#243 * EVar vMt * EVar vSbeta * EPow P4 (EVar vMst2)) - #4448 * EVar vCbeta * EVar vMuSUSY
   * EConst CS2 * EVar vs2t * EPow P4 (EVar vMst1) / (#9 * EVar vMt * EVar vSbeta * EPow P4 (EVar vMst2)) - #1280 *
   EVar vCbeta * EVar vMuSUSY * EVar vs2t * EConst CT1ep * EPow P4 (EVar vMst1) / (#81 * EVar vMt * EVar vSbeta * EPow
   P4 (EVar vMst2)) - #38128 * EConst Cz2 * EPow P4 (EVar vMst1) / (#9 * EPow P4 (EVar vMst2)) - #19904 * EVar
   vDmglst1 * EConst Cz2 * EPow P4 (EVar vMst1) / (EVar vMgl * EPow P4 (EVar vMst2)) - #422384 * EVar vCbeta * EVar
   vMuSUSY * EVar vs2t * EConst Cz2 * EPow P4 (EVar vMst1) / (#81 * EVar vMt * EVar vSbeta * EPow P4 (EVar vMst2)) -
   #29792 * EVar vCbeta * EVar vDmglst1 * EVar vMuSUSY * EVar vs2t * EConst Cz2 * EPow P4 (EVar vMst1) / (#9 * EVar
   vMgl * EVar vMt * EVar vSbeta * EPow P4 (EVar vMst2)) + #10144 * EConst Cz3 * EPow P4 (EVar vMst1) / (#3 * EPow P4
   (EVar vMst2)) + #42112 * EVar vDmglst1 * EConst Cz3 * EPow P4 (EVar vMst1) / (#3 * EVar vMgl * EPow P4 (EVar
   vMst2)) + #23488 * EVar vCbeta * EVar vMuSUSY * EVar vs2t * EConst Cz3 * EPow P4 (EVar vMst1) / (#81 * EVar vMt *
   EVar vSbeta * EPow P4 (EVar vMst2)) - #2560 * EVar vCbeta * EVar vDmglst1 * EVar vMuSUSY * EVar vs2t * EConst Cz3 *
   EPow P4 (EVar vMst1) / (#3 * EVar vMgl * EVar vMt * EVar vSbeta * EPow P4 (EVar vMst2)) - #640 * EVar vCbeta * EVar
   vMuSUSY * EVar vs2t * EConst Cz4 * EPow P4 (EVar vMst1) / (#81 * EVar vMt * EVar vSbeta * EPow P4 (EVar vMst2)) -
   #640 * EVar vCbeta * EVar vDmglst1 * EVar vMuSUSY * EVar vs2t * EConst Cz4 * EPow P4 (EVar vMst1) / (EVar vMgl *
   EVar vMt * EVar vSbeta * EPow P4 (EVar vMst2)) - #150456364 * EPow P2 (EVar vDmglst1) * EPow P4 (EVar vMst1) /
   (#2025 * EPow P2 (EVar vMgl) * EPow P4 (EVar vMst2)) - #2669512 * EVar vCbeta * EVar vMuSUSY * EVar vs2t * EPow P2
   (EVar vDmglst1) * EPow P4 (EVar vMst1) / (#81 * EVar vMt * EVar vSbeta * EPow P2 (EVar vMgl) * EPow P4 (EVar
   vMst2)) + #128 * EConst CB4 * EVar vCbeta * EVar vMuSUSY * EVar vs2t * EPow P2 (EVar vDmglst1) * EPow P4 (EVar
   vMst1) / (EVar vMt * EVar vSbeta * EPow P2 (EVar vMgl) * EPow P4 (EVar vMst2)) + #64 * EVar vCbeta * EConst CDN *
   EVar vMuSUSY * EVar vs2t * EPow P2 (EVar vDmglst1) * EPow P4 (EVar vMst1) / (EVar vMt * EVar vSbeta * EPow P2 (EVar
   vMgl) * EPow P4 (EVar vMst2)) - #53696 * EConst Cz2 * EPow P2 (EVar vDmglst1) * EPow P4 (EVar vMst1) / (EPow P2
   (EVar vMgl) * EPow P4 (EVar vMst2)) + #104432 * EVar vCbeta * EVar vMuSUSY * EVar vs2t * EConst Cz2 * EPow P2 (EVar
   vDmglst1) * EPow P4 (EVar vMst1) / (#9 * EVar vMt * EVar vSbeta * EPow P2 (EVar vMgl) * EPow P4 (EVar vMst2)) +
   #35648 * EConst Cz3 * EPow P2 (EVar vDmglst1) * EPow P4 (EVar vMst1) / (EPow P2 (EVar vMgl) * EPow P4 (EVar vMst2))
   - #19712 * EVar vCbeta * EVar vMuSUSY * EVar vs2t * EConst Cz3 * EPow P2 (EVar vDmglst1) * EPow P4 (EVar vMst1) /
   (#3 * EVar vMt * EVar vSbeta * EPow P2 (EVar vMgl) * EPow P4 (EVar vMst2)) - #960 * EVar vCbeta * EVar vMuSUSY *
   EVar vs2t * EConst Cz4 * EPow P2 (EVar vDmglst1) * EPow P4 (EVar vMst1) / (EVar vMt * EVar vSbeta * EPow P2 (EVar
   vMgl) * EPow P4 (EVar vMst2)) + #531403689547 * EPow P2 (EVar vMuSUSY) * EPow P2 (EVar vs2t) * EPow P4 (EVar vMst1)
   / (#83349000 * EPow P2 (EVar vMt) * EPow P4 (EVar vMst2)) - #608 * EConst CB4 * EPow P2 (EVar vMuSUSY) * EPow P2
   (EVar vs2t) * EPow P4 (EVar vMst1) / (#3 * EPow P2 (EVar vMt) * EPow P4 (EVar vMst2)) + #16 * EConst CDN * EPow P2
   (EVar vMuSUSY) * EPow P2 (EVar vs2t) * EPow P4 (EVar vMst1) / (#3 * EPow P2 (EVar vMt) * EPow P4 (EVar vMst2)) +
   #437365 * EVar vDmglst1 * EPow P2 (EVar vMuSUSY) * EPow P2 (EVar vs2t) * EPow P4 (EVar vMst1) / (#162 * EVar vMgl *
   EPow P2 (EVar vMt) * EPow P4 (EVar vMst2)) - #64 * EConst CB4 * EVar vDmglst1 * EPow P2 (EVar vMuSUSY) * EPow P2
   (EVar vs2t) * EPow P4 (EVar vMst1) / (EVar vMgl * EPow P2 (EVar vMt) * EPow P4 (EVar vMst2)) - #160 * EVar vDmglst1
   * EConst CDN * EPow P2 (EVar vMuSUSY) * EPow P2 (EVar vs2t) * EPow P4 (EVar vMst1) / (#3 * EVar vMgl * EPow P2
   (EVar vMt) * EPow P4 (EVar vMst2)) - #23680 * EConst COepS2 * EPow P2 (EVar vMuSUSY) * EPow P2 (EVar vs2t) * EPow
   P4 (EVar vMst1) / (#243 * EPow P2 (EVar vMt) * EPow P4 (EVar vMst2)) + #33104 * EConst CS2 * EPow P2 (EVar vMuSUSY)
   * EPow P2 (EVar vs2t) * EPow P4 (EVar vMst1) / (#9 * EPow P2 (EVar vMt) * EPow P4 (EVar vMst2)) + #11840 * EConst
   CT1ep * EPow P2 (EVar vMuSUSY) * EPow P2 (EVar vs2t) * EPow P4 (EVar vMst1) / (#81 * EPow P2 (EVar vMt) * EPow P4
   (EVar vMst2)) + #138698 * EConst Cz2 * EPow P2 (EVar vMuSUSY) * EPow P2 (EVar vs2t) * EPow P4 (EVar vMst1) / (#81 *
   EPow P2 (EVar vMt) * EPow P4 (EVar vMst2)) - #12904 * EVar vDmglst1 * EConst Cz2 * EPow P2 (EVar vMuSUSY) * EPow P2
   (EVar vs2t) * EPow P4 (EVar vMst1) / (#9 * EVar vMgl * EPow P2 (EVar vMt) * EPow P4 (EVar vMst2)) - #1081696 *
   EConst Cz3 * EPow P2 (EVar vMuSUSY) * EPow P2 (EVar vs2t) * EPow P4 (EVar vMst1) / (#81 * EPow P2 (EVar vMt) * EPow
   P4 (EVar vMst2)) - #48896 * EVar vDmglst1 * EConst Cz3 * EPow P2 (EVar vMuSUSY) * EPow P2 (EVar vs2t) * EPow P4
   (EVar vMst1) / (#3 * EVar vMgl * EPow P2 (EVar vMt) * EPow P4 (EVar vMst2)) + #2032 * EConst Cz4 * EPow P2 (EVar
   vMuSUSY) * EPow P2 (EVar vs2t) * EPow P4 (EVar vMst1) / (#81 * EPow P2 (EVar vMt) * EPow P4 (EVar vMst2)) + #8480 *
   EVar vDmglst1 * EConst Cz4 * EPow P2 (EVar vMuSUSY) * EPow P2 (EVar vs2t) * EPow P4 (EVar vMst1) / (#3 * EVar vMgl
   * EPow P2 (EVar vMt) * EPow P4 (EVar vMst2)) - #130639 * EPow P2 (EVar vDmglst1) * EPow P2 (EVar vMuSUSY) * EPow P2
   (EVar vs2t) * EPow P4 (EVar vMst1) / (#324 * EPow P2 (EVar vMgl) * EPow P2 (EVar vMt) * EPow P4 (EVar vMst2)) +
   #224 * EConst CB4 * EPow P2 (EVar vDmglst1) * EPow P2 (EVar vMuSUSY) * EPow P2 (EVar vs2t) * EPow P4 (EVar vMst1) /
   (#3 * EPow P2 (EVar vMgl) * EPow P2 (EVar vMt) * EPow P4 (EVar vMst2)) + #16 * EConst CDN * EPow P2 (EVar vDmglst1)
   * EPow P2 (EVar vMuSUSY) * EPow P2 (EVar vs2t) * EPow P4 (EVar vMst1) / (#3 * EPow P2 (EVar vMgl) * EPow P2 (EVar
   vMt) * EPow P4 (EVar vMst2)) + #11612 * EConst Cz2 * EPow P2 (EVar vDmglst1) * EPow P2 (EVar vMuSUSY) * EPow P2
   (EVar vs2t) * EPow P4 (EVar vMst1) / (#9 * EPow P2 (EVar vMgl) * EPow P2 (EVar vMt) * EPow P4 (EVar vMst2)) -
   #103856 * EConst Cz3 * EPow P2 (EVar vDmglst1) * EPow P2 (EVar vMuSUSY) * EPow P2 (EVar vs2t) * EPow P4 (EVar
   vMst1) / (#3 * EPow P2 (EVar vMgl) * EPow P2 (EVar vMt) * EPow P4 (EVar vMst2)) + #2960 * EConst Cz4 * EPow P2
   (EVar vDmglst1) * EPow P2 (EVar vMuSUSY) * EPow P2 (EVar vs2t) * EPow P4 (EVar vMst1) / (EPow P2 (EVar vMgl) * EPow
   P2 (EVar vMt) * EPow P4 (EVar vMst2)) - #531403689547 * EPow P2 (EVar vMuSUSY) * EPow P2 (EVar vs2t) * EPow P4
   (EVar vMst1) / (#83349000 * EPow P2 (EVar vMt) * EPow P2 (EVar vSbeta) * EPow P4 (EVar vMst2)) + #608 * EConst CB4
   * EPow P2 (EVar vMuSUSY) * EPow P2 (EVar vs2t) * EPow P4 (EVar vMst1) / (#3 * EPow P2 (EVar vMt) * EPow P2 (EVar
   vSbeta) * EPow P4 (EVar vMst2)) - #16 * EConst CDN * EPow P2 (EVar vMuSUSY) * EPow P2 (EVar vs2t) * EPow P4 (EVar
   vMst1) / (#3 * EPow P2 (EVar vMt) * EPow P2 (EVar vSbeta) * EPow P4 (EVar vMst2)) - #437365 * EVar vDmglst1 * EPow
   P2 (EVar vMuSUSY) * EPow P2 (EVar vs2t) * EPow P4 (EVar vMst1) / (#162 * EVar vMgl * EPow P2 (EVar vMt) * EPow P2
   (EVar vSbeta) * EPow P4 (EVar vMst2)) + #64 * EConst CB4 * EVar vDmglst1 * EPow P2 (EVar vMuSUSY) * EPow P2 (EVar
   vs2t) * EPow P4 (EVar vMst1) / (EVar vMgl * EPow P2 (EVar vMt) * EPow P2 (EVar vSbeta) * EPow P4 (EVar vMst2)) +
   #160 * EVar vDmglst1 * EConst CDN * EPow P2 (EVar vMuSUSY) * EPow P2 (EVar vs2t) * EPow P4 (EVar vMst1) / (#3 *
   EVar vMgl * EPow P2 (EVar vMt) * EPow P2 (EVar vSbeta) * EPow P4 (EVar vMst2)) + #23680 * EConst COepS2 * EPow P2
   (EVar vMuSUSY) * EPow P2 (EVar vs2t) * EPow P4 (EVar vMst1) / (#243 * EPow P2 (EVar vMt) * EPow P2 (EVar vSbeta) *
   EPow P4 (EVar vMst2)) - #33104 * EConst CS2 * EPow P2 (EVar vMuSUSY) * EPow P2 (EVar vs2t) * EPow P4 (EVar vMst1) /
   (#9 * EPow P2 (EVar vMt) * EPow P2 (EVar vSbeta) * EPow P4 (EVar vMst2)) - #11840 * EConst CT1ep * EPow P2 (EVar
   vMuSUSY) * EPow P2 (EVar vs2t) * EPow P4 (EVar vMst1) / (#81 * EPow P2 (EVar vMt) * EPow P2 (EVar vSbeta) * EPow P4
   (EVar vMst2)) - #138698 * EConst Cz2 * EPow P2 (EVar vMuSUSY) * EPow P2 (EVar vs2t) * EPow P4 (EVar vMst1) / (#81 *
   EPow P2 (EVar vMt) * EPow P2 (EVar vSbeta) * EPow P4 (EVar vMst2)) + #12904 * EVar vDmglst1 * EConst Cz2 * EPow P2
   (EVar vMuSUSY) * EPow P2 (EVar vs2t) * EPow P4 (EVar vMst1) / (#9 * EVar vMgl * EPow P2 (EVar vMt) * EPow P2 (EVar
   vSbeta) * EPow P4 (EVar vMst2)) + #1081696 * EConst Cz3 * EPow P2 (EVar vMuSUSY) * EPow P2 (EVar vs2t) * EPow P4
   (EVar vMst1) / (#81 * EPow P2 (EVar vMt) * EPow P2 (EVar vSbeta) * EPow P4 (EVar vMst2)) + #48896 * EVar vDmglst1 *
   EConst Cz3 * EPow P2 (EVar vMuSUSY) * EPow P2 (EVar vs2t) * EPow P4 (EVar vMst1) / (#3 * EVar vMgl * EPow P2 (EVar
   vMt) * EPow P2 (EVar vSbeta) * EPow P4 (EVar vMst2)) - #2032 * EConst Cz4 * EPow P2 (EVar vMuSUSY) * EPow P2 (EVar
   vs2t) * EPow P4 (EVar vMst1) / (#81 * EPow P2 (EVar vMt) * EPow P2 (EVar vSbeta) * EPow P4 (EVar vMst2)) - #8480 *
   EVar vDmglst1 * EConst Cz4 * EPow P2 (EVar vMuSUSY) * EPow P2 (EVar vs2t) * EPow P4 (EVar vMst1) / (#3 * EVar vMgl
   * EPow P2 (EVar vMt) * EPow P2 (EVar vSbeta) * EPow P4 (EVar vMst2)) + #130639 * EPow P2 (EVar vDmglst1) * EPow P2
   (EVar vMuSUSY) * EPow P2 (EVar vs2t) * EPow P4 (EVar vMst1) / (#324 * EPow P2 (EVar vMgl) * EPow P2 (EVar vMt) *
   EPow P2 (EVar vSbeta) * EPow P4 (EVar vMst2)) - #224 * EConst CB4 * EPow P2 (EVar vDmglst1) * EPow P2 (EVar
   vMuSUSY) * EPow P2 (EVar vs2t) * EPow P4 (EVar vMst1) / (#3 * EPow P2 (EVar vMgl) * EPow P2 (EVar vMt) * EPow P2
   (EVar vSbeta) * EPow P4 (EVar vMst2)) - #16 * EConst CDN * EPow P2 (EVar vDmglst1) * EPow P2 (EVar vMuSUSY) * EPow
   P2 (EVar vs2t) * EPow P4 (EVar vMst1) / (#3 * EPow P2 (EVar vMgl) * EPow P2 (EVar vMt) * EPow P2 (EVar vSbeta) *
   EPow P4 (EVar vMst2)) - #11612 * EConst Cz2 * EPow P2 (EVar vDmglst1) * EPow P2 (EVar vMuSUSY) * EPow P2 (EVar
   vs2t) * EPow P4 (EVar vMst1) / (#9 * EPow P2 (EVar vMgl) * EPow P2 (EVar vMt) * EPow P2 (EVar vSbeta) * EPow P4
   (EVar vMst2)) + #103856 * EConst Cz3 * EPow P2 (EVar vDmglst1) * EPow P2 (EVar vMuSUSY) * EPow P2 (EVar vs2t) *
   EPow P4 (EVar vMst1) / (#3 * EPow P2 (EVar vMgl) * EPow P2 (EVar vMt) * EPow P2 (EVar vSbeta) * EPow P4 (EVar
   vMst2)) - #2960 * EConst Cz4 * EPow P2 (EVar vDmglst1) * EPow P2 (EVar vMuSUSY) * EPow P2 (EVar vs2t) * EPow P4
   (EVar vMst1) / (EPow P2 (EVar vMgl) * EPow P2 (EVar vMt) * EPow P2 (EVar vSbeta) * EPow P4 (EVar vMst2)) - #320 *
   EVar vCbeta * EVar vMuSUSY * EVar vs2t * EPow P2 (EConst Cz2) * EPow P4 (EVar vMst1) / (#27 * EVar vMt * EVar
   vSbeta * EPow P4 (EVar vMst2)) + #8144 * EPow P2 (EVar vMuSUSY) * EPow P2 (EVar vs2t) * EPow P2 (EConst Cz2) * EPow
   P4 (EVar vMst1) / (#27 * EPow P2 (EVar vMt) * EPow P4 (EVar vMst2)) + #128 * EVar vDmglst1 * EPow P2 (EVar vMuSUSY)
   * EPow P2 (EVar vs2t) * EPow P2 (EConst Cz2) * EPow P4 (EVar vMst1) / (#3 * EVar vMgl * EPow P2 (EVar vMt) * EPow
   P4 (EVar vMst2)) + #64 * EPow P2 (EVar vDmglst1) * EPow P2 (EVar vMuSUSY) * EPow P2 (EVar vs2t) * EPow P2 (EConst
   Cz2) * EPow P4 (EVar vMst1) / (EPow P2 (EVar vMgl) * EPow P2 (EVar vMt) * EPow P4 (EVar vMst2)) - #8144 * EPow P2
   (EVar vMuSUSY) * EPow P2 (EVar vs2t) * EPow P2 (EConst Cz2) * EPow P4 (EVar vMst1) / (#27 * EPow P2 (EVar vMt) *
   EPow P2 (EVar vSbeta) * EPow P4 (EVar vMst2)) - #128 * EVar vDmglst1 * EPow P2 (EVar vMuSUSY) * EPow P2 (EVar vs2t)
   * EPow P2 (EConst Cz2) * EPow P4 (EVar vMst1) / (#3 * EVar vMgl * EPow P2 (EVar vMt) * EPow P2 (EVar vSbeta) * EPow
   P4 (EVar vMst2)) - #64 * EPow P2 (EVar vDmglst1) * EPow P2 (EVar vMuSUSY) * EPow P2 (EVar vs2t) * EPow P2 (EConst
   Cz2) * EPow P4 (EVar vMst1) / (EPow P2 (EVar vMgl) * EPow P2 (EVar vMt) * EPow P2 (EVar vSbeta) * EPow P4 (EVar
   vMst2)) + #40864 * EPow P2 (EVar vs2t) * EPow P4 (EVar vMst2) / (#675 * EPow P2 (EVar vMsq) * EPow P2 (EVar vMt)) -
   #8 * EPow P2 (EVar vs2t) * EPow P4 (EVar vMst2) / (EPow P2 (EVar vMst1) * EPow P2 (EVar vMt)) + #16 * EConst Cz2 *
   EPow P2 (EVar vs2t) * EPow P4 (EVar vMst2) / (EPow P2 (EVar vMst1) * EPow P2 (EVar vMt)) + #80 * EVar vMst1 * EPow
   P3 (EVar vs2t) * EPow P4 (EVar vMst2) / (#3 * EPow P2 (EVar vMsq) * EPow P3 (EVar vMt)) + #80 * EVar vDmglst1 *
   EVar vMst1 * EPow P3 (EVar vs2t) * EPow P4 (EVar vMst2) / (#3 * EVar vMgl * EPow P2 (EVar vMsq) * EPow P3 (EVar
   vMt)) + #1252 * EVar vCbeta * EVar vMuSUSY * EPow P3 (EVar vs2t) * EPow P4 (EVar vMst2) / (#15 * EVar vSbeta * EPow
   P2 (EVar vMsq) * EPow P3 (EVar vMt)) + #80 * EVar vMst1 * EPow P2 (EVar vDmglst1) * EPow P3 (EVar vs2t) * EPow P4
   (EVar vMst2) / (#3 * EPow P2 (EVar vMgl) * EPow P2 (EVar vMsq) * EPow P3 (EVar vMt)) - #4 * EVar vCbeta * EVar
   vMuSUSY * EPow P3 (EVar vs2t) * EPow P4 (EVar vMst2) / (EVar vSbeta * EPow P2 (EVar vMst1) * EPow P3 (EVar vMt)) +
   #8 * EVar vCbeta * EVar vMuSUSY * EConst Cz2 * EPow P3 (EVar vs2t) * EPow P4 (EVar vMst2) / (EVar vSbeta * EPow P2
   (EVar vMst1) * EPow P3 (EVar vMt)) - #13597579 * EPow P4 (EVar vMst2) / (#77175 * EPow P4 (EVar vMsq)) - #6760 *
   EVar vMst1 * EVar vs2t * EPow P4 (EVar vMst2) / (#27 * EVar vMt * EPow P4 (EVar vMsq)) - #6760 * EVar vDmglst1 *
   EVar vMst1 * EVar vs2t * EPow P4 (EVar vMst2) / (#27 * EVar vMgl * EVar vMt * EPow P4 (EVar vMsq)) - #207166 * EVar
   vCbeta * EVar vMuSUSY * EVar vs2t * EPow P4 (EVar vMst2) / (#15435 * EVar vMt * EVar vSbeta * EPow P4 (EVar vMsq))
   + #80 * EConst Cz2 * EPow P4 (EVar vMst2) / EPow P4 (EVar vMsq) + #320 * EVar vMst1 * EVar vs2t * EConst Cz2 * EPow
   P4 (EVar vMst2) / (#3 * EVar vMt * EPow P4 (EVar vMsq)) + #320 * EVar vDmglst1 * EVar vMst1 * EVar vs2t * EConst
   Cz2 * EPow P4 (EVar vMst2) / (#3 * EVar vMgl * EVar vMt * EPow P4 (EVar vMsq)) - #6760 * EVar vMst1 * EVar vs2t *
   EPow P2 (EVar vDmglst1) * EPow P4 (EVar vMst2) / (#27 * EVar vMt * EPow P2 (EVar vMgl) * EPow P4 (EVar vMsq)) +
   #320 * EVar vMst1 * EVar vs2t * EConst Cz2 * EPow P2 (EVar vDmglst1) * EPow P4 (EVar vMst2) / (#3 * EVar vMt * EPow
   P2 (EVar vMgl) * EPow P4 (EVar vMsq)) + #55 * EVar vCbeta * EVar vMst1 * EVar vMuSUSY * EPow P2 (EVar vs2t) * EPow
   P4 (EVar vMst2) / (#9 * EVar vSbeta * EPow P2 (EVar vMt) * EPow P4 (EVar vMsq)) + #55 * EVar vCbeta * EVar vDmglst1
   * EVar vMst1 * EVar vMuSUSY * EPow P2 (EVar vs2t) * EPow P4 (EVar vMst2) / (#9 * EVar vMgl * EVar vSbeta * EPow P2
   (EVar vMt) * EPow P4 (EVar vMsq)) + #55 * EVar vCbeta * EVar vMst1 * EVar vMuSUSY * EPow P2 (EVar vDmglst1) * EPow
   P2 (EVar vs2t) * EPow P4 (EVar vMst2) / (#9 * EVar vSbeta * EPow P2 (EVar vMgl) * EPow P2 (EVar vMt) * EPow P4
   (EVar vMsq)) - #438008 * EPow P2 (EVar vMst1) * EPow P2 (EVar vs2t) * EPow P4 (EVar vMst2) / (#15435 * EPow P2
   (EVar vMt) * EPow P4 (EVar vMsq)) - #130 * EVar vDmglst1 * EPow P2 (EVar vMst1) * EPow P2 (EVar vs2t) * EPow P4
   (EVar vMst2) / (#3 * EVar vMgl * EPow P2 (EVar vMt) * EPow P4 (EVar vMsq)) - #65 * EPow P2 (EVar vDmglst1) * EPow
   P2 (EVar vMst1) * EPow P2 (EVar vs2t) * EPow P4 (EVar vMst2) / (EPow P2 (EVar vMgl) * EPow P2 (EVar vMt) * EPow P4
   (EVar vMsq)) + #7399303 * EPow P2 (EVar vMuSUSY) * EPow P2 (EVar vs2t) * EPow P4 (EVar vMst2) / (#463050 * EPow P2
   (EVar vMt) * EPow P4 (EVar vMsq)) - #7399303 * EPow P2 (EVar vMuSUSY) * EPow P2 (EVar vs2t) * EPow P4 (EVar vMst2)
   / (#463050 * EPow P2 (EVar vMt) * EPow P2 (EVar vSbeta) * EPow P4 (EVar vMsq)) + #1338719 * EVar vCbeta * EVar
   vMuSUSY * EPow P2 (EVar vMst1) * EPow P3 (EVar vs2t) * EPow P4 (EVar vMst2) / (#102900 * EVar vSbeta * EPow P3
   (EVar vMt) * EPow P4 (EVar vMsq)) + #10 * EVar vCbeta * EVar vDmglst1 * EVar vMuSUSY * EPow P2 (EVar vMst1) * EPow
   P3 (EVar vs2t) * EPow P4 (EVar vMst2) / (EVar vMgl * EVar vSbeta * EPow P3 (EVar vMt) * EPow P4 (EVar vMsq)) + #15
   * EVar vCbeta * EVar vMuSUSY * EPow P2 (EVar vDmglst1) * EPow P2 (EVar vMst1) * EPow P3 (EVar vs2t) * EPow P4 (EVar
   vMst2) / (EVar vSbeta * EPow P2 (EVar vMgl) * EPow P3 (EVar vMt) * EPow P4 (EVar vMsq)) + #215 * EPow P3 (EVar
   vMst1) * EPow P3 (EVar vs2t) * EPow P4 (EVar vMst2) / (#9 * EPow P3 (EVar vMt) * EPow P4 (EVar vMsq)) + #455 * EVar
   vDmglst1 * EPow P3 (EVar vMst1) * EPow P3 (EVar vs2t) * EPow P4 (EVar vMst2) / (#9 * EVar vMgl * EPow P3 (EVar vMt)
   * EPow P4 (EVar vMsq)) + #815 * EPow P2 (EVar vDmglst1) * EPow P3 (EVar vMst1) * EPow P3 (EVar vs2t) * EPow P4
   (EVar vMst2) / (#9 * EPow P2 (EVar vMgl) * EPow P3 (EVar vMt) * EPow P4 (EVar vMsq)) - #10 * EPow P2 (EVar vMsq) *
   EPow P2 (EVar vMst1) * EPow P4 (EVar vs2t) / EPow P4 (EVar vMt) + #20 * EConst Cz2 * EPow P2 (EVar vMsq) * EPow P2
   (EVar vMst1) * EPow P4 (EVar vs2t) / EPow P4 (EVar vMt) - #10 * EPow P2 (EVar vMsq) * EPow P2 (EVar vMst2) * EPow
   P4 (EVar vs2t) / EPow P4 (EVar vMt) + #20 * EConst Cz2 * EPow P2 (EVar vMsq) * EPow P2 (EVar vMst2) * EPow P4 (EVar
   vs2t) / EPow P4 (EVar vMt) - #5876588 * EPow P2 (EVar vMst1) * EPow P2 (EVar vMst2) * EPow P4 (EVar vs2t) / (#10125
   * EPow P4 (EVar vMt)) + #4 * EConst CB4 * EPow P2 (EVar vMst1) * EPow P2 (EVar vMst2) * EPow P4 (EVar vs2t) / (#3 *
   EPow P4 (EVar vMt)) + #2 * EConst CDN * EPow P2 (EVar vMst1) * EPow P2 (EVar vMst2) * EPow P4 (EVar vs2t) / EPow P4
   (EVar vMt) + #1151 * EVar vDmglst1 * EPow P2 (EVar vMst1) * EPow P2 (EVar vMst2) * EPow P4 (EVar vs2t) / (#9 * EVar
   vMgl * EPow P4 (EVar vMt)) + #8 * EConst CB4 * EVar vDmglst1 * EPow P2 (EVar vMst1) * EPow P2 (EVar vMst2) * EPow
   P4 (EVar vs2t) / (EVar vMgl * EPow P4 (EVar vMt)) + #20 * EVar vDmglst1 * EConst CDN * EPow P2 (EVar vMst1) * EPow
   P2 (EVar vMst2) * EPow P4 (EVar vs2t) / (#3 * EVar vMgl * EPow P4 (EVar vMt)) + #400 * EConst COepS2 * EPow P2
   (EVar vMst1) * EPow P2 (EVar vMst2) * EPow P4 (EVar vs2t) / (#81 * EPow P4 (EVar vMt)) - #394 * EConst CS2 * EPow
   P2 (EVar vMst1) * EPow P2 (EVar vMst2) * EPow P4 (EVar vs2t) / EPow P4 (EVar vMt) - #200 * EConst CT1ep * EPow P2
   (EVar vMst1) * EPow P2 (EVar vMst2) * EPow P4 (EVar vs2t) / (#27 * EPow P4 (EVar vMt)) + #5737 * EConst Cz2 * EPow
   P2 (EVar vMst1) * EPow P2 (EVar vMst2) * EPow P4 (EVar vs2t) / (#27 * EPow P4 (EVar vMt)) + #388 * EVar vDmglst1 *
   EConst Cz2 * EPow P2 (EVar vMst1) * EPow P2 (EVar vMst2) * EPow P4 (EVar vs2t) / (EVar vMgl * EPow P4 (EVar vMt)) +
   #11662 * EConst Cz3 * EPow P2 (EVar vMst1) * EPow P2 (EVar vMst2) * EPow P4 (EVar vs2t) / (#27 * EPow P4 (EVar
   vMt)) + #270 * EVar vDmglst1 * EConst Cz3 * EPow P2 (EVar vMst1) * EPow P2 (EVar vMst2) * EPow P4 (EVar vs2t) /
   (EVar vMgl * EPow P4 (EVar vMt)) - #4330 * EConst Cz4 * EPow P2 (EVar vMst1) * EPow P2 (EVar vMst2) * EPow P4 (EVar
   vs2t) / (#27 * EPow P4 (EVar vMt)) - #1060 * EVar vDmglst1 * EConst Cz4 * EPow P2 (EVar vMst1) * EPow P2 (EVar
   vMst2) * EPow P4 (EVar vs2t) / (#3 * EVar vMgl * EPow P4 (EVar vMt)) - #3583 * EPow P2 (EVar vDmglst1) * EPow P2
   (EVar vMst1) * EPow P2 (EVar vMst2) * EPow P4 (EVar vs2t) / (#18 * EPow P2 (EVar vMgl) * EPow P4 (EVar vMt)) + #12
   * EConst CB4 * EPow P2 (EVar vDmglst1) * EPow P2 (EVar vMst1) * EPow P2 (EVar vMst2) * EPow P4 (EVar vs2t) / (EPow
   P2 (EVar vMgl) * EPow P4 (EVar vMt)) + #10 * EConst CDN * EPow P2 (EVar vDmglst1) * EPow P2 (EVar vMst1) * EPow P2
   (EVar vMst2) * EPow P4 (EVar vs2t) / (EPow P2 (EVar vMgl) * EPow P4 (EVar vMt)) + #582 * EConst Cz2 * EPow P2 (EVar
   vDmglst1) * EPow P2 (EVar vMst1) * EPow P2 (EVar vMst2) * EPow P4 (EVar vs2t) / (EPow P2 (EVar vMgl) * EPow P4
   (EVar vMt)) + #707 * EConst Cz3 * EPow P2 (EVar vDmglst1) * EPow P2 (EVar vMst1) * EPow P2 (EVar vMst2) * EPow P4
   (EVar vs2t) / (EPow P2 (EVar vMgl) * EPow P4 (EVar vMt)) - #530 * EConst Cz4 * EPow P2 (EVar vDmglst1) * EPow P2
   (EVar vMst1) * EPow P2 (EVar vMst2) * EPow P4 (EVar vs2t) / (EPow P2 (EVar vMgl) * EPow P4 (EVar vMt)) - #74 * EPow
   P2 (EVar vMst1) * EPow P2 (EVar vMst2) * EPow P2 (EConst Cz2) * EPow P4 (EVar vs2t) / (#9 * EPow P4 (EVar vMt)) -
   #16 * EVar vDmglst1 * EPow P2 (EVar vMst1) * EPow P2 (EVar vMst2) * EPow P2 (EConst Cz2) * EPow P4 (EVar vs2t) /
   (#3 * EVar vMgl * EPow P4 (EVar vMt)) - #8 * EPow P2 (EVar vDmglst1) * EPow P2 (EVar vMst1) * EPow P2 (EVar vMst2)
   * EPow P2 (EConst Cz2) * EPow P4 (EVar vs2t) / (EPow P2 (EVar vMgl) * EPow P4 (EVar vMt)) - #257823187891 * EPow P4
   (EVar vMst1) * EPow P4 (EVar vs2t) / (#666792000 * EPow P4 (EVar vMt)) - #40 * EConst CB4 * EPow P4 (EVar vMst1) *
   EPow P4 (EVar vs2t) / (#3 * EPow P4 (EVar vMt)) - #2 * EConst CDN * EPow P4 (EVar vMst1) * EPow P4 (EVar vs2t) /
   (#3 * EPow P4 (EVar vMt)) - #773389 * EVar vDmglst1 * EPow P4 (EVar vMst1) * EPow P4 (EVar vs2t) / (#1296 * EVar
   vMgl * EPow P4 (EVar vMt)) - #8 * EConst CB4 * EVar vDmglst1 * EPow P4 (EVar vMst1) * EPow P4 (EVar vs2t) / (EVar
   vMgl * EPow P4 (EVar vMt)) - #20 * EVar vDmglst1 * EConst CDN * EPow P4 (EVar vMst1) * EPow P4 (EVar vs2t) / (#3 *
   EVar vMgl * EPow P4 (EVar vMt)) - #88 * EConst COepS2 * EPow P4 (EVar vMst1) * EPow P4 (EVar vs2t) / (#243 * EPow
   P4 (EVar vMt)) + #281 * EConst CS2 * EPow P4 (EVar vMst1) * EPow P4 (EVar vs2t) / (#9 * EPow P4 (EVar vMt)) + #44 *
   EConst CT1ep * EPow P4 (EVar vMst1) * EPow P4 (EVar vs2t) / (#81 * EPow P4 (EVar vMt)) - #98497 * EConst Cz2 * EPow
   P4 (EVar vMst1) * EPow P4 (EVar vs2t) / (#324 * EPow P4 (EVar vMt)) - #7153 * EVar vDmglst1 * EConst Cz2 * EPow P4
   (EVar vMst1) * EPow P4 (EVar vs2t) / (#9 * EVar vMgl * EPow P4 (EVar vMt)) + #38672 * EConst Cz3 * EPow P4 (EVar
   vMst1) * EPow P4 (EVar vs2t) / (#81 * EPow P4 (EVar vMt)) + #5077 * EVar vDmglst1 * EConst Cz3 * EPow P4 (EVar
   vMst1) * EPow P4 (EVar vs2t) / (#3 * EVar vMgl * EPow P4 (EVar vMt)) + #6124 * EConst Cz4 * EPow P4 (EVar vMst1) *
   EPow P4 (EVar vs2t) / (#81 * EPow P4 (EVar vMt)) + #1060 * EVar vDmglst1 * EConst Cz4 * EPow P4 (EVar vMst1) * EPow
   P4 (EVar vs2t) / (#3 * EVar vMgl * EPow P4 (EVar vMt)) - #232169 * EPow P2 (EVar vDmglst1) * EPow P4 (EVar vMst1) *
   EPow P4 (EVar vs2t) / (#2592 * EPow P2 (EVar vMgl) * EPow P4 (EVar vMt)) - #100 * EConst CB4 * EPow P2 (EVar
   vDmglst1) * EPow P4 (EVar vMst1) * EPow P4 (EVar vs2t) / (#3 * EPow P2 (EVar vMgl) * EPow P4 (EVar vMt)) - #62 *
   EConst CDN * EPow P2 (EVar vDmglst1) * EPow P4 (EVar vMst1) * EPow P4 (EVar vs2t) / (#3 * EPow P2 (EVar vMgl) *
   EPow P4 (EVar vMt)) - #29201 * EConst Cz2 * EPow P2 (EVar vDmglst1) * EPow P4 (EVar vMst1) * EPow P4 (EVar vs2t) /
   (#18 * EPow P2 (EVar vMgl) * EPow P4 (EVar vMt)) + #22079 * EConst Cz3 * EPow P2 (EVar vDmglst1) * EPow P4 (EVar
   vMst1) * EPow P4 (EVar vs2t) / (#6 * EPow P2 (EVar vMgl) * EPow P4 (EVar vMt)) + #690 * EConst Cz4 * EPow P2 (EVar
   vDmglst1) * EPow P4 (EVar vMst1) * EPow P4 (EVar vs2t) / (EPow P2 (EVar vMgl) * EPow P4 (EVar vMt)) + #10 * EPow P2
   (EVar vMsq) * EPow P4 (EVar vMst1) * EPow P4 (EVar vs2t) / (EPow P2 (EVar vMst2) * EPow P4 (EVar vMt)) - #20 *
   EConst Cz2 * EPow P2 (EVar vMsq) * EPow P4 (EVar vMst1) * EPow P4 (EVar vs2t) / (EPow P2 (EVar vMst2) * EPow P4
   (EVar vMt)) - #4136 * EPow P2 (EVar vMst2) * EPow P4 (EVar vMst1) * EPow P4 (EVar vs2t) / (#45 * EPow P2 (EVar
   vMsq) * EPow P4 (EVar vMt)) - #2740 * EVar vDmglst1 * EPow P2 (EVar vMst2) * EPow P4 (EVar vMst1) * EPow P4 (EVar
   vs2t) / (#9 * EVar vMgl * EPow P2 (EVar vMsq) * EPow P4 (EVar vMt)) - #100 * EConst Cz2 * EPow P2 (EVar vMst2) *
   EPow P4 (EVar vMst1) * EPow P4 (EVar vs2t) / (#3 * EPow P2 (EVar vMsq) * EPow P4 (EVar vMt)) - #400 * EVar vDmglst1
   * EConst Cz2 * EPow P2 (EVar vMst2) * EPow P4 (EVar vMst1) * EPow P4 (EVar vs2t) / (#3 * EVar vMgl * EPow P2 (EVar
   vMsq) * EPow P4 (EVar vMt)) - #6590 * EPow P2 (EVar vDmglst1) * EPow P2 (EVar vMst2) * EPow P4 (EVar vMst1) * EPow
   P4 (EVar vs2t) / (#9 * EPow P2 (EVar vMgl) * EPow P2 (EVar vMsq) * EPow P4 (EVar vMt)) - #1000 * EConst Cz2 * EPow
   P2 (EVar vDmglst1) * EPow P2 (EVar vMst2) * EPow P4 (EVar vMst1) * EPow P4 (EVar vs2t) / (#3 * EPow P2 (EVar vMgl)
   * EPow P2 (EVar vMsq) * EPow P4 (EVar vMt)) + #371 * EPow P2 (EConst Cz2) * EPow P4 (EVar vMst1) * EPow P4 (EVar
   vs2t) / (#27 * EPow P4 (EVar vMt)) + #16 * EVar vDmglst1 * EPow P2 (EConst Cz2) * EPow P4 (EVar vMst1) * EPow P4
   (EVar vs2t) / (#3 * EVar vMgl * EPow P4 (EVar vMt)) + #8 * EPow P2 (EVar vDmglst1) * EPow P2 (EConst Cz2) * EPow P4
   (EVar vMst1) * EPow P4 (EVar vs2t) / (EPow P2 (EVar vMgl) * EPow P4 (EVar vMt)) + #53749 * EPow P4 (EVar vMst2) *
   EPow P4 (EVar vs2t) / (#216 * EPow P4 (EVar vMt)) + #12 * EConst CB4 * EPow P4 (EVar vMst2) * EPow P4 (EVar vs2t) /
   EPow P4 (EVar vMt) - #4 * EConst CDN * EPow P4 (EVar vMst2) * EPow P4 (EVar vs2t) / (#3 * EPow P4 (EVar vMt)) + #7
   * EVar vDmglst1 * EPow P4 (EVar vMst2) * EPow P4 (EVar vs2t) / (#6 * EVar vMgl * EPow P4 (EVar vMt)) + #8 * EConst
   COepS2 * EPow P4 (EVar vMst2) * EPow P4 (EVar vs2t) / (#9 * EPow P4 (EVar vMt)) + #99 * EConst CS2 * EPow P4 (EVar
   vMst2) * EPow P4 (EVar vs2t) / EPow P4 (EVar vMt) - #4 * EConst CT1ep * EPow P4 (EVar vMst2) * EPow P4 (EVar vs2t)
   / (#3 * EPow P4 (EVar vMt)) - #109 * EConst Cz2 * EPow P4 (EVar vMst2) * EPow P4 (EVar vs2t) / EPow P4 (EVar vMt) +
   #66 * EVar vDmglst1 * EConst Cz2 * EPow P4 (EVar vMst2) * EPow P4 (EVar vs2t) / (EVar vMgl * EPow P4 (EVar vMt)) +
   #328 * EConst Cz3 * EPow P4 (EVar vMst2) * EPow P4 (EVar vs2t) / (#3 * EPow P4 (EVar vMt)) - #65 * EVar vDmglst1 *
   EConst Cz3 * EPow P4 (EVar vMst2) * EPow P4 (EVar vs2t) / (EVar vMgl * EPow P4 (EVar vMt)) + #242 * EConst Cz4 *
   EPow P4 (EVar vMst2) * EPow P4 (EVar vs2t) / (#3 * EPow P4 (EVar vMt)) + #6457 * EPow P2 (EVar vDmglst1) * EPow P4
   (EVar vMst2) * EPow P4 (EVar vs2t) / (#36 * EPow P2 (EVar vMgl) * EPow P4 (EVar vMt)) + #99 * EConst Cz2 * EPow P2
   (EVar vDmglst1) * EPow P4 (EVar vMst2) * EPow P4 (EVar vs2t) / (EPow P2 (EVar vMgl) * EPow P4 (EVar vMt)) - #511 *
   EConst Cz3 * EPow P2 (EVar vDmglst1) * EPow P4 (EVar vMst2) * EPow P4 (EVar vs2t) / (#2 * EPow P2 (EVar vMgl) *
   EPow P4 (EVar vMt)) + #10 * EPow P2 (EVar vMsq) * EPow P4 (EVar vMst2) * EPow P4 (EVar vs2t) / (EPow P2 (EVar
   vMst1) * EPow P4 (EVar vMt)) - #20 * EConst Cz2 * EPow P2 (EVar vMsq) * EPow P4 (EVar vMst2) * EPow P4 (EVar vs2t)
   / (EPow P2 (EVar vMst1) * EPow P4 (EVar vMt)) + #2714 * EPow P2 (EVar vMst1) * EPow P4 (EVar vMst2) * EPow P4 (EVar
   vs2t) / (#45 * EPow P2 (EVar vMsq) * EPow P4 (EVar vMt)) + #820 * EVar vDmglst1 * EPow P2 (EVar vMst1) * EPow P4
   (EVar vMst2) * EPow P4 (EVar vs2t) / (#9 * EVar vMgl * EPow P2 (EVar vMsq) * EPow P4 (EVar vMt)) + #10 * EConst Cz2
   * EPow P2 (EVar vMst1) * EPow P4 (EVar vMst2) * EPow P4 (EVar vs2t) / (EPow P2 (EVar vMsq) * EPow P4 (EVar vMt)) +
   #20 * EVar vDmglst1 * EConst Cz2 * EPow P2 (EVar vMst1) * EPow P4 (EVar vMst2) * EPow P4 (EVar vs2t) / (EVar vMgl *
   EPow P2 (EVar vMsq) * EPow P4 (EVar vMt)) + #180 * EPow P2 (EVar vDmglst1) * EPow P2 (EVar vMst1) * EPow P4 (EVar
   vMst2) * EPow P4 (EVar vs2t) / (EPow P2 (EVar vMgl) * EPow P2 (EVar vMsq) * EPow P4 (EVar vMt)) + #30 * EConst Cz2
   * EPow P2 (EVar vDmglst1) * EPow P2 (EVar vMst1) * EPow P4 (EVar vMst2) * EPow P4 (EVar vs2t) / (EPow P2 (EVar
   vMgl) * EPow P2 (EVar vMsq) * EPow P4 (EVar vMt)) - #35 * EPow P2 (EConst Cz2) * EPow P4 (EVar vMst2) * EPow P4
   (EVar vs2t) / (#3 * EPow P4 (EVar vMt)) + #1009961 * EPow P4 (EVar vMst1) * EPow P4 (EVar vMst2) * EPow P4 (EVar
   vs2t) / (#51450 * EPow P4 (EVar vMsq) * EPow P4 (EVar vMt)) + #2605 * EVar vDmglst1 * EPow P4 (EVar vMst1) * EPow
   P4 (EVar vMst2) * EPow P4 (EVar vs2t) / (#36 * EVar vMgl * EPow P4 (EVar vMsq) * EPow P4 (EVar vMt)) + #25 * EConst
   Cz2 * EPow P4 (EVar vMst1) * EPow P4 (EVar vMst2) * EPow P4 (EVar vs2t) / (#6 * EPow P4 (EVar vMsq) * EPow P4 (EVar
   vMt)) + #50 * EVar vDmglst1 * EConst Cz2 * EPow P4 (EVar vMst1) * EPow P4 (EVar vMst2) * EPow P4 (EVar vs2t) / (#3
   * EVar vMgl * EPow P4 (EVar vMsq) * EPow P4 (EVar vMt)) + #1775 * EPow P2 (EVar vDmglst1) * EPow P4 (EVar vMst1) *
   EPow P4 (EVar vMst2) * EPow P4 (EVar vs2t) / (#8 * EPow P2 (EVar vMgl) * EPow P4 (EVar vMsq) * EPow P4 (EVar vMt))
   + #125 * EConst Cz2 * EPow P2 (EVar vDmglst1) * EPow P4 (EVar vMst1) * EPow P4 (EVar vMst2) * EPow P4 (EVar vs2t) /
   (#3 * EPow P2 (EVar vMgl) * EPow P4 (EVar vMsq) * EPow P4 (EVar vMt)) - #320 * EVar vs2t * EPow P5 (EVar vMst1) /
   (#3 * EVar vMt * EPow P2 (EVar vMsq) * EPow P2 (EVar vMst2)) - #3520 * EVar vDmglst1 * EVar vs2t * EPow P5 (EVar
   vMst1) / (#3 * EVar vMgl * EVar vMt * EPow P2 (EVar vMsq) * EPow P2 (EVar vMst2)) - #1280 * EVar vs2t * EConst Cz2
   * EPow P5 (EVar vMst1) / (EVar vMt * EPow P2 (EVar vMsq) * EPow P2 (EVar vMst2)) - #6400 * EVar vDmglst1 * EVar
   vs2t * EConst Cz2 * EPow P5 (EVar vMst1) / (EVar vMgl * EVar vMt * EPow P2 (EVar vMsq) * EPow P2 (EVar vMst2)) -
   #5120 * EVar vs2t * EPow P2 (EVar vDmglst1) * EPow P5 (EVar vMst1) / (EVar vMt * EPow P2 (EVar vMgl) * EPow P2
   (EVar vMsq) * EPow P2 (EVar vMst2)) - #19200 * EVar vs2t * EConst Cz2 * EPow P2 (EVar vDmglst1) * EPow P5 (EVar
   vMst1) / (EVar vMt * EPow P2 (EVar vMgl) * EPow P2 (EVar vMsq) * EPow P2 (EVar vMst2)) - #320 * EVar vCbeta * EVar
   vMuSUSY * EPow P2 (EVar vs2t) * EPow P5 (EVar vMst1) / (EVar vSbeta * EPow P2 (EVar vMsq) * EPow P2 (EVar vMst2) *
   EPow P2 (EVar vMt)) - #1920 * EVar vCbeta * EVar vDmglst1 * EVar vMuSUSY * EPow P2 (EVar vs2t) * EPow P5 (EVar
   vMst1) / (EVar vMgl * EVar vSbeta * EPow P2 (EVar vMsq) * EPow P2 (EVar vMst2) * EPow P2 (EVar vMt)) - #320 * EVar
   vCbeta * EVar vMuSUSY * EConst Cz2 * EPow P2 (EVar vs2t) * EPow P5 (EVar vMst1) / (EVar vSbeta * EPow P2 (EVar
   vMsq) * EPow P2 (EVar vMst2) * EPow P2 (EVar vMt)) - #2880 * EVar vCbeta * EVar vDmglst1 * EVar vMuSUSY * EConst
   Cz2 * EPow P2 (EVar vs2t) * EPow P5 (EVar vMst1) / (EVar vMgl * EVar vSbeta * EPow P2 (EVar vMsq) * EPow P2 (EVar
   vMst2) * EPow P2 (EVar vMt)) - #9440 * EVar vCbeta * EVar vMuSUSY * EPow P2 (EVar vDmglst1) * EPow P2 (EVar vs2t) *
   EPow P5 (EVar vMst1) / (EVar vSbeta * EPow P2 (EVar vMgl) * EPow P2 (EVar vMsq) * EPow P2 (EVar vMst2) * EPow P2
   (EVar vMt)) - #10560 * EVar vCbeta * EVar vMuSUSY * EConst Cz2 * EPow P2 (EVar vDmglst1) * EPow P2 (EVar vs2t) *
   EPow P5 (EVar vMst1) / (EVar vSbeta * EPow P2 (EVar vMgl) * EPow P2 (EVar vMsq) * EPow P2 (EVar vMst2) * EPow P2
   (EVar vMt)) + #6640 * EPow P3 (EVar vs2t) * EPow P5 (EVar vMst1) / (#9 * EPow P2 (EVar vMsq) * EPow P3 (EVar vMt))
   + #8560 * EVar vDmglst1 * EPow P3 (EVar vs2t) * EPow P5 (EVar vMst1) / (#3 * EVar vMgl * EPow P2 (EVar vMsq) * EPow
   P3 (EVar vMt)) + #640 * EConst Cz2 * EPow P3 (EVar vs2t) * EPow P5 (EVar vMst1) / (#3 * EPow P2 (EVar vMsq) * EPow
   P3 (EVar vMt)) + #1280 * EVar vDmglst1 * EConst Cz2 * EPow P3 (EVar vs2t) * EPow P5 (EVar vMst1) / (EVar vMgl *
   EPow P2 (EVar vMsq) * EPow P3 (EVar vMt)) + #73120 * EPow P2 (EVar vDmglst1) * EPow P3 (EVar vs2t) * EPow P5 (EVar
   vMst1) / (#9 * EPow P2 (EVar vMgl) * EPow P2 (EVar vMsq) * EPow P3 (EVar vMt)) + #4160 * EConst Cz2 * EPow P2 (EVar
   vDmglst1) * EPow P3 (EVar vs2t) * EPow P5 (EVar vMst1) / (EPow P2 (EVar vMgl) * EPow P2 (EVar vMsq) * EPow P3 (EVar
   vMt)) - #622151 * EPow P3 (EVar vs2t) * EPow P5 (EVar vMst1) / (#324 * EPow P2 (EVar vMst2) * EPow P3 (EVar vMt)) -
   #3058187 * EVar vDmglst1 * EPow P3 (EVar vs2t) * EPow P5 (EVar vMst1) / (#324 * EVar vMgl * EPow P2 (EVar vMst2) *
   EPow P3 (EVar vMt)) + #2948 * EConst Cz2 * EPow P3 (EVar vs2t) * EPow P5 (EVar vMst1) / (#9 * EPow P2 (EVar vMst2)
   * EPow P3 (EVar vMt)) + #5588 * EVar vDmglst1 * EConst Cz2 * EPow P3 (EVar vs2t) * EPow P5 (EVar vMst1) / (#9 *
   EVar vMgl * EPow P2 (EVar vMst2) * EPow P3 (EVar vMt)) + #1384 * EConst Cz3 * EPow P3 (EVar vs2t) * EPow P5 (EVar
   vMst1) / (EPow P2 (EVar vMst2) * EPow P3 (EVar vMt)) + #7976 * EVar vDmglst1 * EConst Cz3 * EPow P3 (EVar vs2t) *
   EPow P5 (EVar vMst1) / (EVar vMgl * EPow P2 (EVar vMst2) * EPow P3 (EVar vMt)) - #9306949 * EPow P2 (EVar vDmglst1)
   * EPow P3 (EVar vs2t) * EPow P5 (EVar vMst1) / (#324 * EPow P2 (EVar vMgl) * EPow P2 (EVar vMst2) * EPow P3 (EVar
   vMt)) + #1780 * EConst Cz2 * EPow P2 (EVar vDmglst1) * EPow P3 (EVar vs2t) * EPow P5 (EVar vMst1) / (#3 * EPow P2
   (EVar vMgl) * EPow P2 (EVar vMst2) * EPow P3 (EVar vMt)) + #76472 * EConst Cz3 * EPow P2 (EVar vDmglst1) * EPow P3
   (EVar vs2t) * EPow P5 (EVar vMst1) / (#3 * EPow P2 (EVar vMgl) * EPow P2 (EVar vMst2) * EPow P3 (EVar vMt)) + #8000
   * EVar vs2t * EPow P5 (EVar vMst1) / (#9 * EVar vMt * EPow P4 (EVar vMsq)) + #29440 * EVar vDmglst1 * EVar vs2t *
   EPow P5 (EVar vMst1) / (#9 * EVar vMgl * EVar vMt * EPow P4 (EVar vMsq)) - #320 * EVar vs2t * EConst Cz2 * EPow P5
   (EVar vMst1) / (EVar vMt * EPow P4 (EVar vMsq)) - #2240 * EVar vDmglst1 * EVar vs2t * EConst Cz2 * EPow P5 (EVar
   vMst1) / (#3 * EVar vMgl * EVar vMt * EPow P4 (EVar vMsq)) + #29600 * EVar vs2t * EPow P2 (EVar vDmglst1) * EPow P5
   (EVar vMst1) / (#3 * EVar vMt * EPow P2 (EVar vMgl) * EPow P4 (EVar vMsq)) - #4160 * EVar vs2t * EConst Cz2 * EPow
   P2 (EVar vDmglst1) * EPow P5 (EVar vMst1) / (#3 * EVar vMt * EPow P2 (EVar vMgl) * EPow P4 (EVar vMsq)) - #400 *
   EVar vCbeta * EVar vMuSUSY * EPow P5 (EVar vMst1) / (EVar vSbeta * EPow P2 (EVar vMst2) * EPow P4 (EVar vMsq)) -
   #69680 * EVar vCbeta * EVar vDmglst1 * EVar vMuSUSY * EPow P5 (EVar vMst1) / (#27 * EVar vMgl * EVar vSbeta * EPow
   P2 (EVar vMst2) * EPow P4 (EVar vMsq)) - #257600 * EVar vCbeta * EVar vMuSUSY * EPow P2 (EVar vDmglst1) * EPow P5
   (EVar vMst1) / (#27 * EVar vSbeta * EPow P2 (EVar vMgl) * EPow P2 (EVar vMst2) * EPow P4 (EVar vMsq)) + #5360 *
   EVar vs2t * EPow P2 (EVar vMuSUSY) * EPow P5 (EVar vMst1) / (#9 * EVar vMt * EPow P2 (EVar vMst2) * EPow P4 (EVar
   vMsq)) + #32720 * EVar vDmglst1 * EVar vs2t * EPow P2 (EVar vMuSUSY) * EPow P5 (EVar vMst1) / (#9 * EVar vMgl *
   EVar vMt * EPow P2 (EVar vMst2) * EPow P4 (EVar vMsq)) + #160 * EVar vs2t * EConst Cz2 * EPow P2 (EVar vMuSUSY) *
   EPow P5 (EVar vMst1) / (EVar vMt * EPow P2 (EVar vMst2) * EPow P4 (EVar vMsq)) + #800 * EVar vDmglst1 * EVar vs2t *
   EConst Cz2 * EPow P2 (EVar vMuSUSY) * EPow P5 (EVar vMst1) / (EVar vMgl * EVar vMt * EPow P2 (EVar vMst2) * EPow P4
   (EVar vMsq)) + #37120 * EVar vs2t * EPow P2 (EVar vDmglst1) * EPow P2 (EVar vMuSUSY) * EPow P5 (EVar vMst1) / (#3 *
   EVar vMt * EPow P2 (EVar vMgl) * EPow P2 (EVar vMst2) * EPow P4 (EVar vMsq)) + #2400 * EVar vs2t * EConst Cz2 *
   EPow P2 (EVar vDmglst1) * EPow P2 (EVar vMuSUSY) * EPow P5 (EVar vMst1) / (EVar vMt * EPow P2 (EVar vMgl) * EPow P2
   (EVar vMst2) * EPow P4 (EVar vMsq)) + #4555 * EVar vCbeta * EVar vMuSUSY * EPow P2 (EVar vs2t) * EPow P5 (EVar
   vMst1) / (#9 * EVar vSbeta * EPow P2 (EVar vMt) * EPow P4 (EVar vMsq)) + #25795 * EVar vCbeta * EVar vDmglst1 *
   EVar vMuSUSY * EPow P2 (EVar vs2t) * EPow P5 (EVar vMst1) / (#9 * EVar vMgl * EVar vSbeta * EPow P2 (EVar vMt) *
   EPow P4 (EVar vMsq)) + #120 * EVar vCbeta * EVar vMuSUSY * EConst Cz2 * EPow P2 (EVar vs2t) * EPow P5 (EVar vMst1)
   / (EVar vSbeta * EPow P2 (EVar vMt) * EPow P4 (EVar vMsq)) + #600 * EVar vCbeta * EVar vDmglst1 * EVar vMuSUSY *
   EConst Cz2 * EPow P2 (EVar vs2t) * EPow P5 (EVar vMst1) / (EVar vMgl * EVar vSbeta * EPow P2 (EVar vMt) * EPow P4
   (EVar vMsq)) + #85855 * EVar vCbeta * EVar vMuSUSY * EPow P2 (EVar vDmglst1) * EPow P2 (EVar vs2t) * EPow P5 (EVar
   vMst1) / (#9 * EVar vSbeta * EPow P2 (EVar vMgl) * EPow P2 (EVar vMt) * EPow P4 (EVar vMsq)) + #1800 * EVar vCbeta
   * EVar vMuSUSY * EConst Cz2 * EPow P2 (EVar vDmglst1) * EPow P2 (EVar vs2t) * EPow P5 (EVar vMst1) / (EVar vSbeta *
   EPow P2 (EVar vMgl) * EPow P2 (EVar vMt) * EPow P4 (EVar vMsq)) - #5360 * EVar vs2t * EPow P2 (EVar vMuSUSY) * EPow
   P5 (EVar vMst1) / (#9 * EVar vMt * EPow P2 (EVar vMst2) * EPow P2 (EVar vSbeta) * EPow P4 (EVar vMsq)) - #32720 *
   EVar vDmglst1 * EVar vs2t * EPow P2 (EVar vMuSUSY) * EPow P5 (EVar vMst1) / (#9 * EVar vMgl * EVar vMt * EPow P2
   (EVar vMst2) * EPow P2 (EVar vSbeta) * EPow P4 (EVar vMsq)) - #160 * EVar vs2t * EConst Cz2 * EPow P2 (EVar
   vMuSUSY) * EPow P5 (EVar vMst1) / (EVar vMt * EPow P2 (EVar vMst2) * EPow P2 (EVar vSbeta) * EPow P4 (EVar vMsq)) -
   #800 * EVar vDmglst1 * EVar vs2t * EConst Cz2 * EPow P2 (EVar vMuSUSY) * EPow P5 (EVar vMst1) / (EVar vMgl * EVar
   vMt * EPow P2 (EVar vMst2) * EPow P2 (EVar vSbeta) * EPow P4 (EVar vMsq)) - #37120 * EVar vs2t * EPow P2 (EVar
   vDmglst1) * EPow P2 (EVar vMuSUSY) * EPow P5 (EVar vMst1) / (#3 * EVar vMt * EPow P2 (EVar vMgl) * EPow P2 (EVar
   vMst2) * EPow P2 (EVar vSbeta) * EPow P4 (EVar vMsq)) - #2400 * EVar vs2t * EConst Cz2 * EPow P2 (EVar vDmglst1) *
   EPow P2 (EVar vMuSUSY) * EPow P5 (EVar vMst1) / (EVar vMt * EPow P2 (EVar vMgl) * EPow P2 (EVar vMst2) * EPow P2
   (EVar vSbeta) * EPow P4 (EVar vMsq)) - #1715 * EPow P2 (EVar vMst2) * EPow P3 (EVar vs2t) * EPow P5 (EVar vMst1) /
   (#9 * EPow P3 (EVar vMt) * EPow P4 (EVar vMsq)) - #9035 * EVar vDmglst1 * EPow P2 (EVar vMst2) * EPow P3 (EVar
   vs2t) * EPow P5 (EVar vMst1) / (#9 * EVar vMgl * EPow P3 (EVar vMt) * EPow P4 (EVar vMsq)) - #40 * EConst Cz2 *
   EPow P2 (EVar vMst2) * EPow P3 (EVar vs2t) * EPow P5 (EVar vMst1) / (EPow P3 (EVar vMt) * EPow P4 (EVar vMsq)) -
   #200 * EVar vDmglst1 * EConst Cz2 * EPow P2 (EVar vMst2) * EPow P3 (EVar vs2t) * EPow P5 (EVar vMst1) / (EVar vMgl
   * EPow P3 (EVar vMt) * EPow P4 (EVar vMsq)) - #9805 * EPow P2 (EVar vDmglst1) * EPow P2 (EVar vMst2) * EPow P3
   (EVar vs2t) * EPow P5 (EVar vMst1) / (#3 * EPow P2 (EVar vMgl) * EPow P3 (EVar vMt) * EPow P4 (EVar vMsq)) - #600 *
   EConst Cz2 * EPow P2 (EVar vDmglst1) * EPow P2 (EVar vMst2) * EPow P3 (EVar vs2t) * EPow P5 (EVar vMst1) / (EPow P2
   (EVar vMgl) * EPow P3 (EVar vMt) * EPow P4 (EVar vMsq)) - #324688 * EVar vs2t * EPow P5 (EVar vMst1) / (#81 * EVar
   vMt * EPow P4 (EVar vMst2)) + #864592 * EVar vDmglst1 * EVar vs2t * EPow P5 (EVar vMst1) / (#81 * EVar vMgl * EVar
   vMt * EPow P4 (EVar vMst2)) + #146848 * EVar vs2t * EConst Cz2 * EPow P5 (EVar vMst1) / (#9 * EVar vMt * EPow P4
   (EVar vMst2)) + #235936 * EVar vDmglst1 * EVar vs2t * EConst Cz2 * EPow P5 (EVar vMst1) / (#3 * EVar vMgl * EVar
   vMt * EPow P4 (EVar vMst2)) - #28672 * EVar vs2t * EConst Cz3 * EPow P5 (EVar vMst1) / (#3 * EVar vMt * EPow P4
   (EVar vMst2)) - #46848 * EVar vDmglst1 * EVar vs2t * EConst Cz3 * EPow P5 (EVar vMst1) / (EVar vMgl * EVar vMt *
   EPow P4 (EVar vMst2)) + #716416 * EVar vs2t * EPow P2 (EVar vDmglst1) * EPow P5 (EVar vMst1) / (#9 * EVar vMt *
   EPow P2 (EVar vMgl) * EPow P4 (EVar vMst2)) + #2075968 * EVar vs2t * EConst Cz2 * EPow P2 (EVar vDmglst1) * EPow P5
   (EVar vMst1) / (#9 * EVar vMt * EPow P2 (EVar vMgl) * EPow P4 (EVar vMst2)) - #410752 * EVar vs2t * EConst Cz3 *
   EPow P2 (EVar vDmglst1) * EPow P5 (EVar vMst1) / (#3 * EVar vMt * EPow P2 (EVar vMgl) * EPow P4 (EVar vMst2)) -
   #3520 * EVar vCbeta * EVar vMuSUSY * EPow P5 (EVar vMst1) / (#3 * EVar vSbeta * EPow P2 (EVar vMsq) * EPow P4 (EVar
   vMst2)) - #140480 * EVar vCbeta * EVar vDmglst1 * EVar vMuSUSY * EPow P5 (EVar vMst1) / (#27 * EVar vMgl * EVar
   vSbeta * EPow P2 (EVar vMsq) * EPow P4 (EVar vMst2)) + #1280 * EVar vCbeta * EVar vMuSUSY * EConst Cz2 * EPow P5
   (EVar vMst1) / (EVar vSbeta * EPow P2 (EVar vMsq) * EPow P4 (EVar vMst2)) + #6400 * EVar vCbeta * EVar vDmglst1 *
   EVar vMuSUSY * EConst Cz2 * EPow P5 (EVar vMst1) / (EVar vMgl * EVar vSbeta * EPow P2 (EVar vMsq) * EPow P4 (EVar
   vMst2)) - #375680 * EVar vCbeta * EVar vMuSUSY * EPow P2 (EVar vDmglst1) * EPow P5 (EVar vMst1) / (#27 * EVar
   vSbeta * EPow P2 (EVar vMgl) * EPow P2 (EVar vMsq) * EPow P4 (EVar vMst2)) + #19200 * EVar vCbeta * EVar vMuSUSY *
   EConst Cz2 * EPow P2 (EVar vDmglst1) * EPow P5 (EVar vMst1) / (EVar vSbeta * EPow P2 (EVar vMgl) * EPow P2 (EVar
   vMsq) * EPow P4 (EVar vMst2)) + #17920 * EVar vs2t * EPow P2 (EVar vMuSUSY) * EPow P5 (EVar vMst1) / (#9 * EVar vMt
   * EPow P2 (EVar vMsq) * EPow P4 (EVar vMst2)) + #18560 * EVar vDmglst1 * EVar vs2t * EPow P2 (EVar vMuSUSY) * EPow
   P5 (EVar vMst1) / (#3 * EVar vMgl * EVar vMt * EPow P2 (EVar vMsq) * EPow P4 (EVar vMst2)) - #2560 * EVar vDmglst1
   * EVar vs2t * EConst Cz2 * EPow P2 (EVar vMuSUSY) * EPow P5 (EVar vMst1) / (EVar vMgl * EVar vMt * EPow P2 (EVar
   vMsq) * EPow P4 (EVar vMst2)) + #64960 * EVar vs2t * EPow P2 (EVar vDmglst1) * EPow P2 (EVar vMuSUSY) * EPow P5
   (EVar vMst1) / (#9 * EVar vMt * EPow P2 (EVar vMgl) * EPow P2 (EVar vMsq) * EPow P4 (EVar vMst2)) - #11520 * EVar
   vs2t * EConst Cz2 * EPow P2 (EVar vDmglst1) * EPow P2 (EVar vMuSUSY) * EPow P5 (EVar vMst1) / (EVar vMt * EPow P2
   (EVar vMgl) * EPow P2 (EVar vMsq) * EPow P4 (EVar vMst2)) + #80287 * EVar vCbeta * EVar vMuSUSY * EPow P2 (EVar
   vs2t) * EPow P5 (EVar vMst1) / (#12 * EVar vSbeta * EPow P2 (EVar vMt) * EPow P4 (EVar vMst2)) + #1152 * EConst CB4
   * EVar vCbeta * EVar vMuSUSY * EPow P2 (EVar vs2t) * EPow P5 (EVar vMst1) / (EVar vSbeta * EPow P2 (EVar vMt) *
   EPow P4 (EVar vMst2)) + #3539195 * EVar vCbeta * EVar vDmglst1 * EVar vMuSUSY * EPow P2 (EVar vs2t) * EPow P5 (EVar
   vMst1) / (#108 * EVar vMgl * EVar vSbeta * EPow P2 (EVar vMt) * EPow P4 (EVar vMst2)) + #2368 * EConst CB4 * EVar
   vCbeta * EVar vDmglst1 * EVar vMuSUSY * EPow P2 (EVar vs2t) * EPow P5 (EVar vMst1) / (EVar vMgl * EVar vSbeta *
   EPow P2 (EVar vMt) * EPow P4 (EVar vMst2)) - #32 * EVar vCbeta * EVar vDmglst1 * EConst CDN * EVar vMuSUSY * EPow
   P2 (EVar vs2t) * EPow P5 (EVar vMst1) / (EVar vMgl * EVar vSbeta * EPow P2 (EVar vMt) * EPow P4 (EVar vMst2)) -
   #7156 * EVar vCbeta * EVar vMuSUSY * EConst Cz2 * EPow P2 (EVar vs2t) * EPow P5 (EVar vMst1) / (#3 * EVar vSbeta *
   EPow P2 (EVar vMt) * EPow P4 (EVar vMst2)) + #25948 * EVar vCbeta * EVar vDmglst1 * EVar vMuSUSY * EConst Cz2 *
   EPow P2 (EVar vs2t) * EPow P5 (EVar vMst1) / (#3 * EVar vMgl * EVar vSbeta * EPow P2 (EVar vMt) * EPow P4 (EVar
   vMst2)) + #2920 * EVar vCbeta * EVar vMuSUSY * EConst Cz3 * EPow P2 (EVar vs2t) * EPow P5 (EVar vMst1) / (EVar
   vSbeta * EPow P2 (EVar vMt) * EPow P4 (EVar vMst2)) - #17464 * EVar vCbeta * EVar vDmglst1 * EVar vMuSUSY * EConst
   Cz3 * EPow P2 (EVar vs2t) * EPow P5 (EVar vMst1) / (EVar vMgl * EVar vSbeta * EPow P2 (EVar vMt) * EPow P4 (EVar
   vMst2)) + #576 * EVar vCbeta * EVar vMuSUSY * EConst Cz4 * EPow P2 (EVar vs2t) * EPow P5 (EVar vMst1) / (EVar
   vSbeta * EPow P2 (EVar vMt) * EPow P4 (EVar vMst2)) - #5984 * EVar vCbeta * EVar vDmglst1 * EVar vMuSUSY * EConst
   Cz4 * EPow P2 (EVar vs2t) * EPow P5 (EVar vMst1) / (EVar vMgl * EVar vSbeta * EPow P2 (EVar vMt) * EPow P4 (EVar
   vMst2)) + #10707109 * EVar vCbeta * EVar vMuSUSY * EPow P2 (EVar vDmglst1) * EPow P2 (EVar vs2t) * EPow P5 (EVar
   vMst1) / (#108 * EVar vSbeta * EPow P2 (EVar vMgl) * EPow P2 (EVar vMt) * EPow P4 (EVar vMst2)) + #4192 * EConst
   CB4 * EVar vCbeta * EVar vMuSUSY * EPow P2 (EVar vDmglst1) * EPow P2 (EVar vs2t) * EPow P5 (EVar vMst1) / (EVar
   vSbeta * EPow P2 (EVar vMgl) * EPow P2 (EVar vMt) * EPow P4 (EVar vMst2)) - #80 * EVar vCbeta * EConst CDN * EVar
   vMuSUSY * EPow P2 (EVar vDmglst1) * EPow P2 (EVar vs2t) * EPow P5 (EVar vMst1) / (EVar vSbeta * EPow P2 (EVar vMgl)
   * EPow P2 (EVar vMt) * EPow P4 (EVar vMst2)) + #27724 * EVar vCbeta * EVar vMuSUSY * EConst Cz2 * EPow P2 (EVar
   vDmglst1) * EPow P2 (EVar vs2t) * EPow P5 (EVar vMst1) / (EVar vSbeta * EPow P2 (EVar vMgl) * EPow P2 (EVar vMt) *
   EPow P4 (EVar vMst2)) - #75624 * EVar vCbeta * EVar vMuSUSY * EConst Cz3 * EPow P2 (EVar vDmglst1) * EPow P2 (EVar
   vs2t) * EPow P5 (EVar vMst1) / (EVar vSbeta * EPow P2 (EVar vMgl) * EPow P2 (EVar vMt) * EPow P4 (EVar vMst2)) -
   #15824 * EVar vCbeta * EVar vMuSUSY * EConst Cz4 * EPow P2 (EVar vDmglst1) * EPow P2 (EVar vs2t) * EPow P5 (EVar
   vMst1) / (EVar vSbeta * EPow P2 (EVar vMgl) * EPow P2 (EVar vMt) * EPow P4 (EVar vMst2)) - #17920 * EVar vs2t *
   EPow P2 (EVar vMuSUSY) * EPow P5 (EVar vMst1) / (#9 * EVar vMt * EPow P2 (EVar vMsq) * EPow P2 (EVar vSbeta) * EPow
   P4 (EVar vMst2)) - #18560 * EVar vDmglst1 * EVar vs2t * EPow P2 (EVar vMuSUSY) * EPow P5 (EVar vMst1) / (#3 * EVar
   vMgl * EVar vMt * EPow P2 (EVar vMsq) * EPow P2 (EVar vSbeta) * EPow P4 (EVar vMst2)) + #2560 * EVar vDmglst1 *
   EVar vs2t * EConst Cz2 * EPow P2 (EVar vMuSUSY) * EPow P5 (EVar vMst1) / (EVar vMgl * EVar vMt * EPow P2 (EVar
   vMsq) * EPow P2 (EVar vSbeta) * EPow P4 (EVar vMst2)) - #64960 * EVar vs2t * EPow P2 (EVar vDmglst1) * EPow P2
   (EVar vMuSUSY) * EPow P5 (EVar vMst1) / (#9 * EVar vMt * EPow P2 (EVar vMgl) * EPow P2 (EVar vMsq) * EPow P2 (EVar
   vSbeta) * EPow P4 (EVar vMst2)) + #11520 * EVar vs2t * EConst Cz2 * EPow P2 (EVar vDmglst1) * EPow P2 (EVar
   vMuSUSY) * EPow P5 (EVar vMst1) / (EVar vMt * EPow P2 (EVar vMgl) * EPow P2 (EVar vMsq) * EPow P2 (EVar vSbeta) *
   EPow P4 (EVar vMst2)) - #1152 * EVar vCbeta * EVar vMuSUSY * EPow P2 (EVar vs2t) * EPow P2 (EConst Cz2) * EPow P5
   (EVar vMst1) / (EVar vSbeta * EPow P2 (EVar vMt) * EPow P4 (EVar vMst2)) - #2432 * EVar vCbeta * EVar vDmglst1 *
   EVar vMuSUSY * EPow P2 (EVar vs2t) * EPow P2 (EConst Cz2) * EPow P5 (EVar vMst1) / (EVar vMgl * EVar vSbeta * EPow
   P2 (EVar vMt) * EPow P4 (EVar vMst2)) - #4352 * EVar vCbeta * EVar vMuSUSY * EPow P2 (EVar vDmglst1) * EPow P2
   (EVar vs2t) * EPow P2 (EConst Cz2) * EPow P5 (EVar vMst1) / (EVar vSbeta * EPow P2 (EVar vMgl) * EPow P2 (EVar vMt)
   * EPow P4 (EVar vMst2)) + EPow P3 (ELog (EPow P2 (EVar vMst1) / EPow P2 (EVar vMst2))) * (#4 * EVar vDmglst1 * EVar
   vMgl * EVar vMst1 * (#4 * EVar vMt * EVar vs2t * EVar vSbeta * (#2667 * EVar vCbeta * EVar vMt * EVar vMuSUSY *
   EVar vs2t + #7320 * EVar vSbeta * EPow P2 (EVar vMt) - #323 * EVar vSbeta * EPow P2 (EVar vMst2) * EPow P2 (EVar
   vs2t)) * EPow P4 (EVar vMst1) + #8 * EVar vMt * EVar vs2t * (- #28 * EPow P2 (EVar vMt) + #73 * EPow P2 (EVar
   vMst2) * EPow P2 (EVar vs2t)) * EPow P2 (EVar vSbeta) * EPow P4 (EVar vMst2) - #8 * EVar vMt * EPow P2 (EVar vMst1)
   * (- #849 * EVar vCbeta * EVar vMt * EVar vMuSUSY * EVar vSbeta * EPow P2 (EVar vMst2) * EPow P2 (EVar vs2t) - #10
   * EVar vs2t * EPow P2 (EVar vMt) * (#84 * EPow P2 (EVar vMuSUSY) * (- #1 + EPow P2 (EVar vSbeta)) + #169 * EPow P2
   (EVar vMst2) * EPow P2 (EVar vSbeta)) + #1662 * EVar vCbeta * EVar vMuSUSY * EVar vSbeta * EPow P3 (EVar vMt) +
   #356 * EPow P2 (EVar vSbeta) * EPow P3 (EVar vs2t) * EPow P4 (EVar vMst2)) + EVar vMst1 * EPow P2 (EVar vMst2) *
   EPow P2 (EVar vSbeta) * (- #320 * EPow P2 (EVar vMst2) * EPow P2 (EVar vMt) * EPow P2 (EVar vs2t) + #1056 * EPow P4
   (EVar vMt) + #449 * EPow P4 (EVar vMst2) * EPow P4 (EVar vs2t)) + EPow P3 (EVar vMst1) * (- #8 * EPow P2 (EVar vMt)
   * EPow P2 (EVar vs2t) * (#1209 * EPow P2 (EVar vMuSUSY) * (- #1 + EPow P2 (EVar vSbeta)) + #908 * EPow P2 (EVar
   vMst2) * EPow P2 (EVar vSbeta)) + #15168 * EVar vCbeta * EVar vMuSUSY * EVar vs2t * EVar vSbeta * EPow P3 (EVar
   vMt) - #3040 * EVar vCbeta * EVar vMt * EVar vMuSUSY * EVar vSbeta * EPow P2 (EVar vMst2) * EPow P3 (EVar vs2t) -
   #5472 * EPow P2 (EVar vSbeta) * EPow P4 (EVar vMt) + #311 * EPow P2 (EVar vSbeta) * EPow P4 (EVar vMst2) * EPow P4
   (EVar vs2t))) + #2 * EVar vMst1 * EPow P2 (EVar vDmglst1) * (#8 * EVar vMt * EVar vs2t * EVar vSbeta * (#6618 *
   EVar vCbeta * EVar vMt * EVar vMuSUSY * EVar vs2t + #20892 * EVar vSbeta * EPow P2 (EVar vMt) - #689 * EVar vSbeta
   * EPow P2 (EVar vMst2) * EPow P2 (EVar vs2t)) * EPow P4 (EVar vMst1) + #16 * EVar vMt * EVar vs2t * (- #28 * EPow
   P2 (EVar vMt) + #73 * EPow P2 (EVar vMst2) * EPow P2 (EVar vs2t)) * EPow P2 (EVar vSbeta) * EPow P4 (EVar vMst2) -
   #8 * EVar vMt * EPow P2 (EVar vMst1) * (- #1698 * EVar vCbeta * EVar vMt * EVar vMuSUSY * EVar vSbeta * EPow P2
   (EVar vMst2) * EPow P2 (EVar vs2t) - #56 * EVar vs2t * EPow P2 (EVar vMt) * (#30 * EPow P2 (EVar vMuSUSY) * (- #1 +
   EPow P2 (EVar vSbeta)) + #121 * EPow P2 (EVar vMst2) * EPow P2 (EVar vSbeta)) + #3324 * EVar vCbeta * EVar vMuSUSY
   * EVar vSbeta * EPow P3 (EVar vMt) + #1663 * EPow P2 (EVar vSbeta) * EPow P3 (EVar vs2t) * EPow P4 (EVar vMst2)) +
   #3 * EVar vMst1 * EPow P2 (EVar vMst2) * EPow P2 (EVar vSbeta) * (- #320 * EPow P2 (EVar vMst2) * EPow P2 (EVar
   vMt) * EPow P2 (EVar vs2t) + #1056 * EPow P4 (EVar vMt) + #449 * EPow P4 (EVar vMst2) * EPow P4 (EVar vs2t)) + EPow
   P3 (EVar vMst1) * (- #8 * EPow P2 (EVar vMt) * EPow P2 (EVar vs2t) * (#4291 * EPow P2 (EVar vMuSUSY) * (- #1 + EPow
   P2 (EVar vSbeta)) + #4936 * EPow P2 (EVar vMst2) * EPow P2 (EVar vSbeta)) + #80896 * EVar vCbeta * EVar vMuSUSY *
   EVar vs2t * EVar vSbeta * EPow P3 (EVar vMt) - #11776 * EVar vCbeta * EVar vMt * EVar vMuSUSY * EVar vSbeta * EPow
   P2 (EVar vMst2) * EPow P3 (EVar vs2t) - #28736 * EPow P2 (EVar vSbeta) * EPow P4 (EVar vMt) + #1597 * EPow P2 (EVar
   vSbeta) * EPow P4 (EVar vMst2) * EPow P4 (EVar vs2t))) + EPow P2 (EVar vMgl) * (#32 * EVar vMst1 * EVar vMt * EVar
   vs2t * (- #28 * EPow P2 (EVar vMt) + #73 * EPow P2 (EVar vMst2) * EPow P2 (EVar vs2t)) * EPow P2 (EVar vSbeta) *
   EPow P4 (EVar vMst2) - #32 * EVar vMt * EPow P3 (EVar vMst1) * (#102 * EVar vCbeta * EVar vMt * EVar vMuSUSY * EVar
   vSbeta * EPow P2 (EVar vMst2) * EPow P2 (EVar vs2t) + #2 * EVar vs2t * EPow P2 (EVar vMt) * (#214 * EPow P2 (EVar
   vMuSUSY) * (- #1 + EPow P2 (EVar vSbeta)) - #279 * EPow P2 (EVar vMst2) * EPow P2 (EVar vSbeta)) + #530 * EVar
   vCbeta * EVar vMuSUSY * EVar vSbeta * EPow P3 (EVar vMt) + #39 * EPow P2 (EVar vSbeta) * EPow P3 (EVar vs2t) * EPow
   P4 (EVar vMst2)) + EPow P2 (EVar vSbeta) * EPow P4 (EVar vMst2) * (- #3152 * EPow P2 (EVar vMst2) * EPow P2 (EVar
   vMt) * EPow P2 (EVar vs2t) - #544 * EPow P4 (EVar vMt) + #639 * EPow P4 (EVar vMst2) * EPow P4 (EVar vs2t)) + EPow
   P4 (EVar vMst1) * (- #32 * EPow P2 (EVar vMt) * EPow P2 (EVar vs2t) * (#1960 * EPow P2 (EVar vMuSUSY) * (- #1 +
   EPow P2 (EVar vSbeta)) + #223 * EPow P2 (EVar vMst2) * EPow P2 (EVar vSbeta)) + #24416 * EVar vCbeta * EVar vMuSUSY
   * EVar vs2t * EVar vSbeta * EPow P3 (EVar vMt) - #17472 * EVar vCbeta * EVar vMt * EVar vMuSUSY * EVar vSbeta *
   EPow P2 (EVar vMst2) * EPow P3 (EVar vs2t) - #4640 * EPow P2 (EVar vSbeta) * EPow P4 (EVar vMt) + #1535 * EPow P2
   (EVar vSbeta) * EPow P4 (EVar vMst2) * EPow P4 (EVar vs2t)) + #16 * EVar vMt * EVar vs2t * EVar vSbeta * (- #207 *
   EVar vCbeta * EVar vMt * EVar vMuSUSY * EVar vs2t + #1536 * EVar vSbeta * EPow P2 (EVar vMt) + EVar vSbeta * EPow
   P2 (EVar vMst2) * EPow P2 (EVar vs2t)) * EPow P5 (EVar vMst1) - #2 * EPow P2 (EVar vMst1) * (#64 * EPow P2 (EVar
   vMst2) * EPow P2 (EVar vMt) * EPow P2 (EVar vs2t) * (#217 * EPow P2 (EVar vMuSUSY) * (- #1 + EPow P2 (EVar vSbeta))
   + #15 * EPow P2 (EVar vMst2) * EPow P2 (EVar vSbeta)) - #5072 * EVar vCbeta * EVar vMuSUSY * EVar vs2t * EVar
   vSbeta * EPow P2 (EVar vMst2) * EPow P3 (EVar vMt) + #5666 * EVar vCbeta * EVar vMt * EVar vMuSUSY * EVar vSbeta *
   EPow P3 (EVar vs2t) * EPow P4 (EVar vMst2) + #32 * (#4 * EPow P2 (EVar vMuSUSY) * (- #1 + EPow P2 (EVar vSbeta)) -
   #35 * EPow P2 (EVar vMst2) * EPow P2 (EVar vSbeta)) * EPow P4 (EVar vMt) - #1097 * EPow P2 (EVar vSbeta) * EPow P4
   (EVar vs2t) * EPow P6 (EVar vMst2)))) / (#18 * EPow P2 (EVar vMgl) * EPow P2 (EVar vSbeta) * EPow P4 (EVar vMst2) *
   EPow P4 (EVar vMt)) - EPow P2 (ELog (EPow P2 (EVar vMst1) / EPow P2 (EVar vMsq))) * (EPow P2 (EVar vMgl) * (- #224
   * EVar vSbeta * EPow P2 (EVar vMsq) * EPow P2 (EVar vMt) * EPow P4 (EVar vMst2) * (#2 * EVar vCbeta * EVar vMt *
   EVar vMuSUSY * EVar vs2t * EPow P2 (EVar vMst1) + EVar vSbeta * (#20 * EVar vMst1 * EVar vMt * EVar vs2t * EPow P2
   (EVar vMst2) + #7 * EPow P2 (EVar vMst2) * EPow P2 (EVar vMt) + EPow P2 (EVar vMst1) * (#37 * EPow P2 (EVar vMt) -
   #2 * EPow P2 (EVar vMst2) * EPow P2 (EVar vs2t)) - #20 * EVar vMt * EVar vs2t * EPow P3 (EVar vMst1) + EPow P2
   (EVar vs2t) * EPow P4 (EVar vMst1) + EPow P2 (EVar vs2t) * EPow P4 (EVar vMst2))) - #2 * EPow P4 (EVar vMst2) * (-
   #560 * EVar vSbeta * (#3 * EVar vCbeta * EVar vMt * EVar vMuSUSY - #2 * EVar vs2t * EVar vSbeta * EPow P2 (EVar
   vMst2)) * EPow P3 (EVar vMst1) * EPow P3 (EVar vMt) - #2 * EVar vMt * EPow P2 (EVar vMst1) * EPow P2 (EVar vMst2) *
   (EVar vMt * EPow P2 (EVar vs2t) * (#4 * EPow P2 (EVar vMuSUSY) * (- #1 + EPow P2 (EVar vSbeta)) + #15 * EPow P2
   (EVar vMst2) * EPow P2 (EVar vSbeta)) - #420 * EPow P2 (EVar vSbeta) * EPow P3 (EVar vMt) + #3 * EVar vCbeta * EVar
   vMuSUSY * EVar vSbeta * EPow P2 (EVar vMst2) * EPow P3 (EVar vs2t)) + #4 * EPow P2 (EVar vMt) * (- #15 * EVar
   vCbeta * EVar vMt * EVar vMuSUSY * EVar vs2t * EVar vSbeta + EPow P2 (EVar vMuSUSY) * EPow P2 (EVar vs2t) * (- #1 +
   EPow P2 (EVar vSbeta)) + #57 * EPow P2 (EVar vMt) * EPow P2 (EVar vSbeta)) * EPow P4 (EVar vMst2) + #560 * EVar
   vMst1 * EVar vs2t * EPow P2 (EVar vSbeta) * EPow P3 (EVar vMt) * EPow P4 (EVar vMst2) + EPow P4 (EVar vMst1) * (#2
   * EPow P2 (EVar vMt) * EPow P2 (EVar vs2t) * (#2 * EPow P2 (EVar vMuSUSY) * (- #1 + EPow P2 (EVar vSbeta)) - #15 *
   EPow P2 (EVar vMst2) * EPow P2 (EVar vSbeta)) + #60 * EVar vCbeta * EVar vMuSUSY * EVar vs2t * EVar vSbeta * EPow
   P3 (EVar vMt) + #6 * EVar vCbeta * EVar vMt * EVar vMuSUSY * EVar vSbeta * EPow P2 (EVar vMst2) * EPow P3 (EVar
   vs2t) + #2468 * EPow P2 (EVar vSbeta) * EPow P4 (EVar vMt) - #3 * EPow P2 (EVar vSbeta) * EPow P4 (EVar vMst2) *
   EPow P4 (EVar vs2t)) - #1680 * EVar vs2t * EPow P2 (EVar vSbeta) * EPow P3 (EVar vMt) * EPow P5 (EVar vMst1)) + #35
   * EPow P4 (EVar vMsq) * (#3 * EVar vSbeta * EPow P2 (EVar vMst2) * EPow P2 (EVar vs2t) * (- #12 * EVar vCbeta *
   EVar vMt * EVar vMuSUSY * EVar vs2t + #24 * EVar vSbeta * EPow P2 (EVar vMt) + EVar vSbeta * EPow P2 (EVar vMst2) *
   EPow P2 (EVar vs2t)) * EPow P4 (EVar vMst1) + #96 * EVar vMt * EVar vs2t * EPow P3 (EVar vMst1) * (#4 * EPow P2
   (EVar vMt) * EPow P2 (EVar vMuSUSY) * (- #1 + EPow P2 (EVar vSbeta)) + EPow P2 (EVar vs2t) * EPow P2 (EVar vSbeta)
   * EPow P4 (EVar vMst2)) + EPow P2 (EVar vSbeta) * EPow P4 (EVar vMst2) * (#72 * EPow P2 (EVar vMst2) * EPow P2
   (EVar vMt) * EPow P2 (EVar vs2t) - #176 * EPow P4 (EVar vMt) - #15 * EPow P4 (EVar vMst2) * EPow P4 (EVar vs2t)) +
   #3 * EPow P2 (EVar vMst1) * EPow P2 (EVar vMst2) * (#24 * EPow P2 (EVar vMt) * EPow P2 (EVar vs2t) * (EPow P2 (EVar
   vMuSUSY) * (- #1 + EPow P2 (EVar vSbeta)) - #2 * EPow P2 (EVar vMst2) * EPow P2 (EVar vSbeta)) + #48 * EVar vCbeta
   * EVar vMuSUSY * EVar vs2t * EVar vSbeta * EPow P3 (EVar vMt) - #8 * EVar vCbeta * EVar vMt * EVar vMuSUSY * EVar
   vSbeta * EPow P2 (EVar vMst2) * EPow P3 (EVar vs2t) - #48 * EPow P2 (EVar vSbeta) * EPow P4 (EVar vMt) + #7 * EPow
   P2 (EVar vSbeta) * EPow P4 (EVar vMst2) * EPow P4 (EVar vs2t)) - #96 * EVar vMst1 * EVar vMt * EPow P2 (EVar
   vSbeta) * EPow P3 (EVar vs2t) * EPow P6 (EVar vMst2))) + #35 * EPow P2 (EVar vDmglst1) * (#64 * EVar vMst1 * EPow
   P2 (EVar vMsq) * (- #9 * EVar vMst1 * EVar vMt + #2 * EVar vs2t * EPow P2 (EVar vMst1) - #2 * EVar vs2t * EPow P2
   (EVar vMst2)) * EPow P2 (EVar vSbeta) * EPow P3 (EVar vMt) * EPow P4 (EVar vMst2) + #16 * EVar vMst1 * EVar vSbeta
   * EPow P3 (EVar vMt) * EPow P4 (EVar vMst2) * (#14 * EVar vCbeta * EVar vMt * EVar vMuSUSY * EPow P2 (EVar vMst1) +
   EVar vSbeta * (- #9 * EVar vMst1 * EVar vMt * EPow P2 (EVar vMst2) - #24 * EVar vs2t * EPow P2 (EVar vMst1) * EPow
   P2 (EVar vMst2) - #59 * EVar vMt * EPow P3 (EVar vMst1) + #26 * EVar vs2t * EPow P4 (EVar vMst1) - #2 * EVar vs2t *
   EPow P4 (EVar vMst2))) + #3 * EPow P4 (EVar vMsq) * (#9 * EVar vSbeta * EPow P2 (EVar vMst2) * EPow P2 (EVar vs2t)
   * (- #4 * EVar vCbeta * EVar vMt * EVar vMuSUSY * EVar vs2t + #8 * EVar vSbeta * EPow P2 (EVar vMt) + EVar vSbeta *
   EPow P2 (EVar vMst2) * EPow P2 (EVar vs2t)) * EPow P4 (EVar vMst1) - #9 * EPow P2 (EVar vSbeta) * EPow P2 (- #4 *
   EPow P2 (EVar vMt) + EPow P2 (EVar vMst2) * EPow P2 (EVar vs2t)) * EPow P4 (EVar vMst2) + #32 * EVar vMt * EVar
   vs2t * EPow P3 (EVar vMst1) * (#4 * EPow P2 (EVar vMt) * EPow P2 (EVar vMuSUSY) * (- #1 + EPow P2 (EVar vSbeta)) +
   EPow P2 (EVar vs2t) * EPow P2 (EVar vSbeta) * EPow P4 (EVar vMst2)) + #9 * EPow P2 (EVar vMst1) * EPow P2 (EVar
   vMst2) * EPow P2 (EVar vSbeta) * (- #16 * EPow P2 (EVar vMst2) * EPow P2 (EVar vMt) * EPow P2 (EVar vs2t) - #16 *
   EPow P4 (EVar vMt) + EPow P4 (EVar vMst2) * EPow P4 (EVar vs2t)) - #32 * EVar vMst1 * EVar vMt * EPow P2 (EVar
   vSbeta) * EPow P3 (EVar vs2t) * EPow P6 (EVar vMst2))) + #70 * EVar vDmglst1 * EVar vMgl * (#64 * EVar vMst1 * EPow
   P2 (EVar vMsq) * (- #3 * EVar vMst1 * EVar vMt + EVar vs2t * EPow P2 (EVar vMst1) - EVar vs2t * EPow P2 (EVar
   vMst2)) * EPow P2 (EVar vSbeta) * EPow P3 (EVar vMt) * EPow P4 (EVar vMst2) + #16 * EVar vMst1 * EVar vSbeta * EPow
   P3 (EVar vMt) * EPow P4 (EVar vMst2) * (#7 * EVar vCbeta * EVar vMt * EVar vMuSUSY * EPow P2 (EVar vMst1) + EVar
   vSbeta * (- #3 * EVar vMst1 * EVar vMt * EPow P2 (EVar vMst2) - #6 * EVar vs2t * EPow P2 (EVar vMst1) * EPow P2
   (EVar vMst2) - #13 * EVar vMt * EPow P3 (EVar vMst1) + #7 * EVar vs2t * EPow P4 (EVar vMst1) - EVar vs2t * EPow P4
   (EVar vMst2))) + #3 * EPow P4 (EVar vMsq) * (#3 * EVar vSbeta * EPow P2 (EVar vMst2) * EPow P2 (EVar vs2t) * (- #4
   * EVar vCbeta * EVar vMt * EVar vMuSUSY * EVar vs2t + #8 * EVar vSbeta * EPow P2 (EVar vMt) + EVar vSbeta * EPow P2
   (EVar vMst2) * EPow P2 (EVar vs2t)) * EPow P4 (EVar vMst1) - #3 * EPow P2 (EVar vSbeta) * EPow P2 (- #4 * EPow P2
   (EVar vMt) + EPow P2 (EVar vMst2) * EPow P2 (EVar vs2t)) * EPow P4 (EVar vMst2) + #16 * EVar vMt * EVar vs2t * EPow
   P3 (EVar vMst1) * (#4 * EPow P2 (EVar vMt) * EPow P2 (EVar vMuSUSY) * (- #1 + EPow P2 (EVar vSbeta)) + EPow P2
   (EVar vs2t) * EPow P2 (EVar vSbeta) * EPow P4 (EVar vMst2)) + #3 * EPow P2 (EVar vMst1) * EPow P2 (EVar vMst2) *
   EPow P2 (EVar vSbeta) * (- #16 * EPow P2 (EVar vMst2) * EPow P2 (EVar vMt) * EPow P2 (EVar vs2t) - #16 * EPow P4
   (EVar vMt) + EPow P4 (EVar vMst2) * EPow P4 (EVar vs2t)) - #16 * EVar vMst1 * EVar vMt * EPow P2 (EVar vSbeta) *
   EPow P3 (EVar vs2t) * EPow P6 (EVar vMst2))) + #105 * ELog (EPow P2 (EVar vMst1) / EPow P2 (EVar vMst2)) * EPow P4
   (EVar vMsq) * (EPow P2 (EVar vMgl) * (- #16 * EVar vMst1 * EVar vMt * EVar vs2t * (- #4 * EPow P2 (EVar vMt) + EPow
   P2 (EVar vMst2) * EPow P2 (EVar vs2t)) * EPow P2 (EVar vSbeta) * EPow P4 (EVar vMst2) - #2 * EPow P2 (EVar vMst1) *
   EPow P2 (EVar vMst2) * EPow P2 (EVar vs2t) * (- #14 * EVar vCbeta * EVar vMt * EVar vMuSUSY * EVar vs2t * EVar
   vSbeta * EPow P2 (EVar vMst2) + #4 * EPow P2 (EVar vMt) * (- #8 * EPow P2 (EVar vMuSUSY) * (- #1 + EPow P2 (EVar
   vSbeta)) + EPow P2 (EVar vMst2) * EPow P2 (EVar vSbeta)) + #3 * EPow P2 (EVar vs2t) * EPow P2 (EVar vSbeta) * EPow
   P4 (EVar vMst2)) + EPow P2 (EVar vs2t) * EPow P4 (EVar vMst1) * (#64 * EPow P2 (EVar vMt) * EPow P2 (EVar vMuSUSY)
   * (- #1 + EPow P2 (EVar vSbeta)) + #7 * EPow P2 (EVar vs2t) * EPow P2 (EVar vSbeta) * EPow P4 (EVar vMst2)) - #16 *
   EVar vMt * EPow P3 (EVar vMst1) * (- #6 * EVar vCbeta * EVar vMt * EVar vMuSUSY * EVar vSbeta * EPow P2 (EVar
   vMst2) * EPow P2 (EVar vs2t) - #12 * EVar vs2t * EPow P2 (EVar vMt) * EPow P2 (EVar vMuSUSY) * (- #1 + EPow P2
   (EVar vSbeta)) + #4 * EVar vCbeta * EVar vMuSUSY * EVar vSbeta * EPow P3 (EVar vMt) + EPow P2 (EVar vSbeta) * EPow
   P3 (EVar vs2t) * EPow P4 (EVar vMst2)) + EPow P2 (EVar vSbeta) * EPow P4 (EVar vMst2) * (#8 * EPow P2 (EVar vMst2)
   * EPow P2 (EVar vMt) * EPow P2 (EVar vs2t) + #16 * EPow P4 (EVar vMt) - EPow P4 (EVar vMst2) * EPow P4 (EVar vs2t))
   + #96 * EVar vCbeta * EVar vMuSUSY * EVar vSbeta * EPow P2 (EVar vMt) * EPow P2 (EVar vs2t) * EPow P5 (EVar vMst1))
   + #2 * EVar vMst1 * EPow P2 (EVar vDmglst1) * (#48 * EVar vCbeta * EVar vMuSUSY * EVar vSbeta * EPow P2 (EVar vMt)
   * EPow P2 (EVar vs2t) * EPow P4 (EVar vMst1) - #8 * EVar vMt * EVar vs2t * (- #4 * EPow P2 (EVar vMt) + EPow P2
   (EVar vMst2) * EPow P2 (EVar vs2t)) * EPow P2 (EVar vSbeta) * EPow P4 (EVar vMst2) + #9 * EPow P2 (EVar vs2t) *
   EPow P3 (EVar vMst1) * (#8 * EPow P2 (EVar vMt) * EPow P2 (EVar vMuSUSY) * (- #1 + EPow P2 (EVar vSbeta)) + EPow P2
   (EVar vs2t) * EPow P2 (EVar vSbeta) * EPow P4 (EVar vMst2)) - #8 * EVar vMt * EPow P2 (EVar vMst1) * (- #6 * EVar
   vCbeta * EVar vMt * EVar vMuSUSY * EVar vSbeta * EPow P2 (EVar vMst2) * EPow P2 (EVar vs2t) - #12 * EVar vs2t *
   EPow P2 (EVar vMt) * EPow P2 (EVar vMuSUSY) * (- #1 + EPow P2 (EVar vSbeta)) + #4 * EVar vCbeta * EVar vMuSUSY *
   EVar vSbeta * EPow P3 (EVar vMt) + EPow P2 (EVar vSbeta) * EPow P3 (EVar vs2t) * EPow P4 (EVar vMst2)) - #9 * EVar
   vMst1 * EPow P2 (EVar vSbeta) * EPow P4 (EVar vs2t) * EPow P6 (EVar vMst2)) + #4 * EVar vDmglst1 * EVar vMgl * EVar
   vMst1 * (#24 * EVar vCbeta * EVar vMuSUSY * EVar vSbeta * EPow P2 (EVar vMt) * EPow P2 (EVar vs2t) * EPow P4 (EVar
   vMst1) - #4 * EVar vMt * EVar vs2t * (- #4 * EPow P2 (EVar vMt) + EPow P2 (EVar vMst2) * EPow P2 (EVar vs2t)) *
   EPow P2 (EVar vSbeta) * EPow P4 (EVar vMst2) + #3 * EPow P2 (EVar vs2t) * EPow P3 (EVar vMst1) * (#8 * EPow P2
   (EVar vMt) * EPow P2 (EVar vMuSUSY) * (- #1 + EPow P2 (EVar vSbeta)) + EPow P2 (EVar vs2t) * EPow P2 (EVar vSbeta)
   * EPow P4 (EVar vMst2)) - #4 * EVar vMt * EPow P2 (EVar vMst1) * (- #6 * EVar vCbeta * EVar vMt * EVar vMuSUSY *
   EVar vSbeta * EPow P2 (EVar vMst2) * EPow P2 (EVar vs2t) - #12 * EVar vs2t * EPow P2 (EVar vMt) * EPow P2 (EVar
   vMuSUSY) * (- #1 + EPow P2 (EVar vSbeta)) + #4 * EVar vCbeta * EVar vMuSUSY * EVar vSbeta * EPow P3 (EVar vMt) +
   EPow P2 (EVar vSbeta) * EPow P3 (EVar vs2t) * EPow P4 (EVar vMst2)) - #3 * EVar vMst1 * EPow P2 (EVar vSbeta) *
   EPow P4 (EVar vs2t) * EPow P6 (EVar vMst2)))) / (#21 * EPow P2 (EVar vMgl) * EPow P2 (EVar vSbeta) * EPow P4 (EVar
   vMsq) * EPow P4 (EVar vMst2) * EPow P4 (EVar vMt)) + ELog (EPow P2 (EVar vMst1) / EPow P2 (EVar vMst2)) * (#98 *
   EPow P2 (EVar vDmglst1) * EPow P2 (EVar vMst1) * (EPow P4 (EVar vMsq) * (#800 * EVar vMst1 * EVar vMt * EVar vs2t *
   (- #4 * (#1067 + #648 * EConst Cz2 - #432 * EConst Cz3) * EPow P2 (EVar vMt) + #3 * (#7603 + #1152 * EConst Cz2 -
   #108 * EConst Cz3) * EPow P2 (EVar vMst2) * EPow P2 (EVar vs2t)) * EPow P2 (EVar vSbeta) * EPow P4 (EVar vMst2) -
   #800 * EVar vMt * EPow P3 (EVar vMst1) * (- #9 * EVar vCbeta * EVar vMt * EVar vMuSUSY * EVar vSbeta * (- #1195 +
   #6312 * EConst Cz2 - #8208 * EConst Cz3) * EPow P2 (EVar vMst2) * EPow P2 (EVar vs2t) - #16 * EVar vs2t * EPow P2
   (EVar vMt) * (#3 * (- #2047 + #1290 * EConst Cz2 - #2025 * EConst Cz3) * EPow P2 (EVar vMuSUSY) * (- #1 + EPow P2
   (EVar vSbeta)) + (#13499 + #14742 * EConst Cz2) * EPow P2 (EVar vMst2) * EPow P2 (EVar vSbeta)) + #4 * EVar vCbeta
   * EVar vMuSUSY * EVar vSbeta * (#15889 + #29052 * EConst Cz2 + #432 * EConst Cz3) * EPow P3 (EVar vMt) + #6 *
   (#10423 + #8214 * EConst Cz2 - #8370 * EConst Cz3) * EPow P2 (EVar vSbeta) * EPow P3 (EVar vs2t) * EPow P4 (EVar
   vMst2)) - #4 * EPow P2 (EVar vSbeta) * EPow P4 (EVar vMst2) * (- #266400 * EPow P2 (EVar vMst2) * EPow P2 (EVar
   vMt) * EPow P2 (EVar vs2t) + #50912 * EPow P4 (EVar vMt) + #100125 * EPow P4 (EVar vMst2) * EPow P4 (EVar vs2t)) +
   #400 * EPow P2 (EVar vMst1) * EPow P2 (EVar vMst2) * EPow P2 (EVar vSbeta) * (#6 * (#20783 + #2736 * EConst Cz2 +
   #432 * EConst Cz3) * EPow P2 (EVar vMst2) * EPow P2 (EVar vMt) * EPow P2 (EVar vs2t) + #8 * (#6343 + #3888 * EConst
   Cz2) * EPow P4 (EVar vMt) + #9 * (#628 + #945 * EConst Cz2 - #414 * EConst Cz3) * EPow P4 (EVar vMst2) * EPow P4
   (EVar vs2t)) - #25 * EPow P4 (EVar vMst1) * (#8 * EPow P2 (EVar vMt) * EPow P2 (EVar vs2t) * ((#347507 + #207504 *
   EConst Cz2 - #45792 * EConst Cz3) * EPow P2 (EVar vMuSUSY) * (- #1 + EPow P2 (EVar vSbeta)) + #4 * (- #76711 +
   #102456 * EConst Cz2) * EPow P2 (EVar vMst2) * EPow P2 (EVar vSbeta)) - #512 * EVar vCbeta * EVar vMuSUSY * EVar
   vs2t * EVar vSbeta * (- #20753 + #11781 * EConst Cz2 - #162 * EConst Cz3) * EPow P3 (EVar vMt) + #4 * EVar vCbeta *
   EVar vMt * EVar vMuSUSY * EVar vSbeta * (#289115 + #71424 * EConst Cz2 + #13824 * EConst Cz3) * EPow P2 (EVar
   vMst2) * EPow P3 (EVar vs2t) + #192 * (#26965 + #28752 * EConst Cz2) * EPow P2 (EVar vSbeta) * EPow P4 (EVar vMt) +
   (- #214703 + #64656 * EConst Cz2 - #73440 * EConst Cz3) * EPow P2 (EVar vSbeta) * EPow P4 (EVar vMst2) * EPow P4
   (EVar vs2t)) + #200 * EVar vMt * EVar vs2t * EVar vSbeta * (#3 * EVar vCbeta * EVar vMt * EVar vMuSUSY * EVar vs2t
   * (- #95783 + #345888 * EConst Cz2 - #199584 * EConst Cz3) + #208 * EVar vSbeta * (#20965 + #14292 * EConst Cz2) *
   EPow P2 (EVar vMt) + EVar vSbeta * (#254699 - #162576 * EConst Cz2) * EPow P2 (EVar vMst2) * EPow P2 (EVar vs2t)) *
   EPow P5 (EVar vMst1)) - #750 * EVar vMst1 * EPow P2 (EVar vMst2) * (#144 * EVar vMst1 * EPow P2 (EVar vMt) * (#23 *
   EPow P2 (EVar vMt) + #3 * EPow P2 (EVar vMst2) * EPow P2 (EVar vs2t)) * EPow P2 (EVar vSbeta) * EPow P4 (EVar
   vMst2) - #16 * EVar vMt * EPow P2 (EVar vMst1) * EPow P2 (EVar vMst2) * (- #6 * EVar vCbeta * EVar vMt * EVar
   vMuSUSY * EVar vSbeta * EPow P2 (EVar vMst2) * EPow P2 (EVar vs2t) - #4 * EVar vs2t * EPow P2 (EVar vMt) * (EPow P2
   (EVar vMuSUSY) * (- #1 + EPow P2 (EVar vSbeta)) + #102 * EPow P2 (EVar vMst2) * EPow P2 (EVar vSbeta)) + #178 *
   EVar vCbeta * EVar vMuSUSY * EVar vSbeta * EPow P3 (EVar vMt) + #3 * EPow P2 (EVar vSbeta) * EPow P3 (EVar vs2t) *
   EPow P4 (EVar vMst2)) + #8 * EVar vMt * EPow P4 (EVar vMst1) * (- #4551 * EVar vCbeta * EVar vMt * EVar vMuSUSY *
   EVar vSbeta * EPow P2 (EVar vMst2) * EPow P2 (EVar vs2t) - #60 * EVar vs2t * EPow P2 (EVar vMt) * (#101 * EPow P2
   (EVar vMuSUSY) * (- #1 + EPow P2 (EVar vSbeta)) + #21 * EPow P2 (EVar vMst2) * EPow P2 (EVar vSbeta)) + #1720 *
   EVar vCbeta * EVar vMuSUSY * EVar vSbeta * EPow P3 (EVar vMt) + #1521 * EPow P2 (EVar vSbeta) * EPow P3 (EVar vs2t)
   * EPow P4 (EVar vMst2)) + EPow P2 (EVar vMst2) * EPow P3 (EVar vMst1) * (#8 * EPow P2 (EVar vMt) * EPow P2 (EVar
   vs2t) * (#871 * EPow P2 (EVar vMuSUSY) * (- #1 + EPow P2 (EVar vSbeta)) + #246 * EPow P2 (EVar vMst2) * EPow P2
   (EVar vSbeta)) - #4800 * EVar vCbeta * EVar vMuSUSY * EVar vs2t * EVar vSbeta * EPow P3 (EVar vMt) + #3484 * EVar
   vCbeta * EVar vMt * EVar vMuSUSY * EVar vSbeta * EPow P2 (EVar vMst2) * EPow P3 (EVar vs2t) + #4400 * EPow P2 (EVar
   vSbeta) * EPow P4 (EVar vMt) - #871 * EPow P2 (EVar vSbeta) * EPow P4 (EVar vMst2) * EPow P4 (EVar vs2t)) + #16 *
   EVar vs2t * EVar vSbeta * (- #3 * EVar vCbeta * EVar vMuSUSY * EVar vs2t + #58 * EVar vMt * EVar vSbeta) * EPow P2
   (EVar vMt) * EPow P6 (EVar vMst2)) + #3000 * EVar vMst1 * EPow P2 (EVar vMsq) * (#32 * EVar vMt * EPow P4 (EVar
   vMst1) * (#144 * EVar vCbeta * EVar vMt * EVar vMuSUSY * EVar vSbeta * EPow P2 (EVar vMst2) * EPow P2 (EVar vs2t) +
   #6 * EVar vs2t * EPow P2 (EVar vMt) * (#122 * EPow P2 (EVar vMuSUSY) * (- #1 + EPow P2 (EVar vSbeta)) - #141 * EPow
   P2 (EVar vMst2) * EPow P2 (EVar vSbeta)) + #314 * EVar vCbeta * EVar vMuSUSY * EVar vSbeta * EPow P3 (EVar vMt) +
   #87 * EPow P2 (EVar vSbeta) * EPow P3 (EVar vs2t) * EPow P4 (EVar vMst2)) - #32 * EVar vMt * EPow P2 (EVar vMst1) *
   EPow P2 (EVar vMst2) * (- #198 * EVar vCbeta * EVar vMt * EVar vMuSUSY * EVar vSbeta * EPow P2 (EVar vMst2) * EPow
   P2 (EVar vs2t) - #24 * EVar vs2t * EPow P2 (EVar vMt) * (#11 * EPow P2 (EVar vMuSUSY) * (- #1 + EPow P2 (EVar
   vSbeta)) + #8 * EPow P2 (EVar vMst2) * EPow P2 (EVar vSbeta)) + #130 * EVar vCbeta * EVar vMuSUSY * EVar vSbeta *
   EPow P3 (EVar vMt) + #135 * EPow P2 (EVar vSbeta) * EPow P3 (EVar vs2t) * EPow P4 (EVar vMst2)) - #4 * EVar vs2t *
   EPow P2 (EVar vMst2) * EPow P3 (EVar vMst1) * (- #701 * EVar vCbeta * EVar vMt * EVar vMuSUSY * EVar vSbeta * EPow
   P2 (EVar vMst2) * EPow P2 (EVar vs2t) + EPow P2 (EVar vMt) * (- #988 * EVar vs2t * EPow P2 (EVar vMuSUSY) * (- #1 +
   EPow P2 (EVar vSbeta)) + #492 * EVar vs2t * EPow P2 (EVar vMst2) * EPow P2 (EVar vSbeta)) - #1200 * EVar vCbeta *
   EVar vMuSUSY * EVar vSbeta * EPow P3 (EVar vMt) + #227 * EPow P2 (EVar vSbeta) * EPow P3 (EVar vs2t) * EPow P4
   (EVar vMst2)) + #9 * EVar vMst1 * EPow P2 (EVar vSbeta) * EPow P4 (EVar vMst2) * (- #48 * EPow P2 (EVar vMst2) *
   EPow P2 (EVar vMt) * EPow P2 (EVar vs2t) - #16 * EPow P4 (EVar vMt) + #23 * EPow P4 (EVar vMst2) * EPow P4 (EVar
   vs2t)) - #256 * EVar vs2t * EPow P2 (EVar vSbeta) * EPow P3 (EVar vMt) * EPow P6 (EVar vMst2))) + #4900 * EVar
   vDmglst1 * EVar vMgl * EPow P2 (EVar vMst1) * (EPow P4 (EVar vMsq) * (#16 * EVar vMst1 * EVar vMt * EVar vs2t * (-
   #8 * (#145 + #324 * EConst Cz2 - #216 * EConst Cz3) * EPow P2 (EVar vMt) + #27 * (#777 + #128 * EConst Cz2 - #12 *
   EConst Cz3) * EPow P2 (EVar vMst2) * EPow P2 (EVar vs2t)) * EPow P2 (EVar vSbeta) * EPow P4 (EVar vMst2) - #16 *
   EVar vMt * EPow P3 (EVar vMst1) * (- #9 * EVar vCbeta * EVar vMt * EVar vMuSUSY * EVar vSbeta * (- #1195 + #6312 *
   EConst Cz2 - #8208 * EConst Cz3) * EPow P2 (EVar vMst2) * EPow P2 (EVar vs2t) - #12 * EVar vs2t * EPow P2 (EVar
   vMt) * (#4 * (- #2047 + #1290 * EConst Cz2 - #2025 * EConst Cz3) * EPow P2 (EVar vMuSUSY) * (- #1 + EPow P2 (EVar
   vSbeta)) + #9 * (#947 + #1100 * EConst Cz2) * EPow P2 (EVar vMst2) * EPow P2 (EVar vSbeta)) + #4 * EVar vCbeta *
   EVar vMuSUSY * EVar vSbeta * (#15889 + #29052 * EConst Cz2 + #432 * EConst Cz3) * EPow P3 (EVar vMt) + #6 * (#2899
   + #3732 * EConst Cz2 - #4158 * EConst Cz3) * EPow P2 (EVar vSbeta) * EPow P3 (EVar vs2t) * EPow P4 (EVar vMst2)) -
   #4 * EPow P2 (EVar vSbeta) * EPow P4 (EVar vMst2) * (- #2304 * EPow P2 (EVar vMst2) * EPow P2 (EVar vMt) * EPow P2
   (EVar vs2t) + #2032 * EPow P4 (EVar vMt) + #1017 * EPow P4 (EVar vMst2) * EPow P4 (EVar vs2t)) + #16 * EPow P2
   (EVar vMst1) * EPow P2 (EVar vMst2) * EPow P2 (EVar vSbeta) * (#2 * (#21991 + #2736 * EConst Cz2 + #432 * EConst
   Cz3) * EPow P2 (EVar vMst2) * EPow P2 (EVar vMt) * EPow P2 (EVar vs2t) + #8 * (#2069 + #1296 * EConst Cz2) * EPow
   P4 (EVar vMt) + #27 * (#57 + #105 * EConst Cz2 - #46 * EConst Cz3) * EPow P4 (EVar vMst2) * EPow P4 (EVar vs2t)) -
   EPow P4 (EVar vMst1) * (#8 * EPow P2 (EVar vMt) * EPow P2 (EVar vs2t) * ((#68551 + #69552 * EConst Cz2 - #19872 *
   EConst Cz3) * EPow P2 (EVar vMuSUSY) * (- #1 + EPow P2 (EVar vSbeta)) + #4 * (- #37061 + #17640 * EConst Cz2) *
   EPow P2 (EVar vMst2) * EPow P2 (EVar vSbeta)) - #768 * EVar vCbeta * EVar vMuSUSY * EVar vs2t * EVar vSbeta * (-
   #5305 + #1242 * EConst Cz2 - #36 * EConst Cz3) * EPow P3 (EVar vMt) + #4 * EVar vCbeta * EVar vMt * EVar vMuSUSY *
   EVar vSbeta * (#52063 + #24192 * EConst Cz2) * EPow P2 (EVar vMst2) * EPow P3 (EVar vs2t) + #512 * (#2152 + #2079 *
   EConst Cz2) * EPow P2 (EVar vSbeta) * EPow P4 (EVar vMt) + (- #31507 + #21168 * EConst Cz2 - #19872 * EConst Cz3) *
   EPow P2 (EVar vSbeta) * EPow P4 (EVar vMst2) * EPow P4 (EVar vs2t)) + #4 * EVar vMt * EVar vs2t * EVar vSbeta *
   (#27 * EVar vCbeta * EVar vMt * EVar vMuSUSY * EVar vs2t * (- #10489 + #15248 * EConst Cz2 - #10944 * EConst Cz3) +
   #256 * EVar vSbeta * (#5696 + #3987 * EConst Cz2) * EPow P2 (EVar vMt) + #3 * EVar vSbeta * (#26687 - #20496 *
   EConst Cz2) * EPow P2 (EVar vMst2) * EPow P2 (EVar vs2t)) * EPow P5 (EVar vMst1)) - #30 * EVar vMst1 * EPow P2
   (EVar vMst2) * (#48 * EVar vMst1 * EPow P2 (EVar vMt) * (#23 * EPow P2 (EVar vMt) + #3 * EPow P2 (EVar vMst2) *
   EPow P2 (EVar vs2t)) * EPow P2 (EVar vSbeta) * EPow P4 (EVar vMst2) - #8 * EVar vMt * EPow P2 (EVar vMst1) * EPow
   P2 (EVar vMst2) * (- #6 * EVar vCbeta * EVar vMt * EVar vMuSUSY * EVar vSbeta * EPow P2 (EVar vMst2) * EPow P2
   (EVar vs2t) - #4 * EVar vs2t * EPow P2 (EVar vMt) * (EPow P2 (EVar vMuSUSY) * (- #1 + EPow P2 (EVar vSbeta)) + #51
   * EPow P2 (EVar vMst2) * EPow P2 (EVar vSbeta)) + #178 * EVar vCbeta * EVar vMuSUSY * EVar vSbeta * EPow P3 (EVar
   vMt) + #3 * EPow P2 (EVar vSbeta) * EPow P3 (EVar vs2t) * EPow P4 (EVar vMst2)) + #4 * EVar vMt * EPow P4 (EVar
   vMst1) * (- #1437 * EVar vCbeta * EVar vMt * EVar vMuSUSY * EVar vSbeta * EPow P2 (EVar vMst2) * EPow P2 (EVar
   vs2t) - #12 * EVar vs2t * EPow P2 (EVar vMt) * (#159 * EPow P2 (EVar vMuSUSY) * (- #1 + EPow P2 (EVar vSbeta)) +
   #35 * EPow P2 (EVar vMst2) * EPow P2 (EVar vSbeta)) + #424 * EVar vCbeta * EVar vMuSUSY * EVar vSbeta * EPow P3
   (EVar vMt) + #483 * EPow P2 (EVar vSbeta) * EPow P3 (EVar vs2t) * EPow P4 (EVar vMst2)) + EPow P2 (EVar vMst2) *
   EPow P3 (EVar vMst1) * (#8 * EPow P2 (EVar vMt) * EPow P2 (EVar vs2t) * (#167 * EPow P2 (EVar vMuSUSY) * (- #1 +
   EPow P2 (EVar vSbeta)) + #42 * EPow P2 (EVar vMst2) * EPow P2 (EVar vSbeta)) - #960 * EVar vCbeta * EVar vMuSUSY *
   EVar vs2t * EVar vSbeta * EPow P3 (EVar vMt) + #668 * EVar vCbeta * EVar vMt * EVar vMuSUSY * EVar vSbeta * EPow P2
   (EVar vMst2) * EPow P3 (EVar vs2t) + #880 * EPow P2 (EVar vSbeta) * EPow P4 (EVar vMt) - #167 * EPow P2 (EVar
   vSbeta) * EPow P4 (EVar vMst2) * EPow P4 (EVar vs2t)) + #8 * EVar vs2t * EVar vSbeta * (- #3 * EVar vCbeta * EVar
   vMuSUSY * EVar vs2t + #58 * EVar vMt * EVar vSbeta) * EPow P2 (EVar vMt) * EPow P6 (EVar vMst2)) + #120 * EVar
   vMst1 * EPow P2 (EVar vMsq) * (#32 * EVar vMt * EPow P4 (EVar vMst1) * (#117 * EVar vCbeta * EVar vMt * EVar
   vMuSUSY * EVar vSbeta * EPow P2 (EVar vMst2) * EPow P2 (EVar vs2t) + #3 * EVar vs2t * EPow P2 (EVar vMt) * (#96 *
   EPow P2 (EVar vMuSUSY) * (- #1 + EPow P2 (EVar vSbeta)) - #37 * EPow P2 (EVar vMst2) * EPow P2 (EVar vSbeta)) +
   EVar vCbeta * EVar vMuSUSY * EVar vSbeta * EPow P3 (EVar vMt) - #6 * EPow P2 (EVar vSbeta) * EPow P3 (EVar vs2t) *
   EPow P4 (EVar vMst2)) - #32 * EVar vMt * EPow P2 (EVar vMst1) * EPow P2 (EVar vMst2) * (- #99 * EVar vCbeta * EVar
   vMt * EVar vMuSUSY * EVar vSbeta * EPow P2 (EVar vMst2) * EPow P2 (EVar vs2t) - #12 * EVar vs2t * EPow P2 (EVar
   vMt) * (#11 * EPow P2 (EVar vMuSUSY) * (- #1 + EPow P2 (EVar vSbeta)) + #4 * EPow P2 (EVar vMst2) * EPow P2 (EVar
   vSbeta)) + #65 * EVar vCbeta * EVar vMuSUSY * EVar vSbeta * EPow P3 (EVar vMt) + #33 * EPow P2 (EVar vSbeta) * EPow
   P3 (EVar vs2t) * EPow P4 (EVar vMst2)) - #4 * EVar vs2t * EPow P2 (EVar vMst2) * EPow P3 (EVar vMst1) * (- #127 *
   EVar vCbeta * EVar vMt * EVar vMuSUSY * EVar vSbeta * EPow P2 (EVar vMst2) * EPow P2 (EVar vs2t) + #4 * EVar vs2t *
   EPow P2 (EVar vMt) * (- #29 * EPow P2 (EVar vMuSUSY) * (- #1 + EPow P2 (EVar vSbeta)) + #21 * EPow P2 (EVar vMst2)
   * EPow P2 (EVar vSbeta)) - #240 * EVar vCbeta * EVar vMuSUSY * EVar vSbeta * EPow P3 (EVar vMt) + #49 * EPow P2
   (EVar vSbeta) * EPow P3 (EVar vs2t) * EPow P4 (EVar vMst2)) + #3 * EVar vMst1 * EPow P2 (EVar vSbeta) * EPow P4
   (EVar vMst2) * (- #48 * EPow P2 (EVar vMst2) * EPow P2 (EVar vMt) * EPow P2 (EVar vs2t) - #16 * EPow P4 (EVar vMt)
   + #23 * EPow P4 (EVar vMst2) * EPow P4 (EVar vs2t)) - #128 * EVar vs2t * EPow P2 (EVar vSbeta) * EPow P3 (EVar vMt)
   * EPow P6 (EVar vMst2))) + EPow P2 (EVar vMgl) * (#10584000 * (- #1 + #2 * EConst Cz2) * EPow P2 (EVar vMst1) *
   EPow P2 (EVar vs2t) * EPow P6 (EVar vMsq) * (EPow P2 (EVar vMst1) * (#8 * EPow P2 (EVar vMt) * EPow P2 (EVar
   vMuSUSY) * (- #1 + EPow P2 (EVar vSbeta)) + EPow P2 (EVar vs2t) * EPow P2 (EVar vSbeta) * EPow P4 (EVar vMst2)) -
   EPow P2 (EVar vs2t) * EPow P2 (EVar vSbeta) * EPow P6 (EVar vMst2)) - #30 * EPow P2 (EVar vMst1) * EPow P2 (EVar
   vMst2) * (#8 * EVar vMt * EPow P2 (EVar vMst1) * (- #1960 * EVar vCbeta * EVar vMuSUSY * EVar vs2t * EVar vSbeta *
   EPow P2 (EVar vMt) + #12 * EVar vMt * EPow P2 (EVar vs2t) * (- #10511 * EPow P2 (EVar vMuSUSY) * (- #1 + EPow P2
   (EVar vSbeta)) + #1868 * EPow P2 (EVar vMst2) * EPow P2 (EVar vSbeta)) + #338100 * EPow P2 (EVar vSbeta) * EPow P3
   (EVar vMt) - #47419 * EVar vCbeta * EVar vMuSUSY * EVar vSbeta * EPow P2 (EVar vMst2) * EPow P3 (EVar vs2t)) * EPow
   P4 (EVar vMst2) - #39200 * EVar vMt * EPow P2 (EVar vMst2) * EPow P3 (EVar vMst1) * (- #6 * EVar vCbeta * EVar vMt
   * EVar vMuSUSY * EVar vSbeta * EPow P2 (EVar vMst2) * EPow P2 (EVar vs2t) - #4 * EVar vs2t * EPow P2 (EVar vMt) *
   (EPow P2 (EVar vMuSUSY) * (- #1 + EPow P2 (EVar vSbeta)) + #17 * EPow P2 (EVar vMst2) * EPow P2 (EVar vSbeta)) +
   #90 * EVar vCbeta * EVar vMuSUSY * EVar vSbeta * EPow P3 (EVar vMt) + #3 * EPow P2 (EVar vSbeta) * EPow P3 (EVar
   vs2t) * EPow P4 (EVar vMst2)) + EPow P2 (EVar vMst2) * EPow P4 (EVar vMst1) * (#24 * EPow P2 (EVar vMt) * EPow P2
   (EVar vs2t) * (- #1717 * EPow P2 (EVar vMuSUSY) * (- #1 + EPow P2 (EVar vSbeta)) + #22148 * EPow P2 (EVar vMst2) *
   EPow P2 (EVar vSbeta)) - #1078784 * EVar vCbeta * EVar vMuSUSY * EVar vs2t * EVar vSbeta * EPow P3 (EVar vMt) +
   #483924 * EVar vCbeta * EVar vMt * EVar vMuSUSY * EVar vSbeta * EPow P2 (EVar vMst2) * EPow P3 (EVar vs2t) +
   #1078000 * EPow P2 (EVar vSbeta) * EPow P4 (EVar vMt) - #215819 * EPow P2 (EVar vSbeta) * EPow P4 (EVar vMst2) *
   EPow P4 (EVar vs2t)) - #58800 * EVar vMt * (#83 * EVar vCbeta * EVar vMt * EVar vMuSUSY * EVar vSbeta * EPow P2
   (EVar vMst2) * EPow P2 (EVar vs2t) + #4 * EVar vs2t * EPow P2 (EVar vMt) * (#27 * EPow P2 (EVar vMuSUSY) * (- #1 +
   EPow P2 (EVar vSbeta)) + #7 * EPow P2 (EVar vMst2) * EPow P2 (EVar vSbeta)) + #8 * EVar vCbeta * EVar vMuSUSY *
   EVar vSbeta * EPow P3 (EVar vMt) - #29 * EPow P2 (EVar vSbeta) * EPow P3 (EVar vs2t) * EPow P4 (EVar vMst2)) * EPow
   P5 (EVar vMst1) + #39200 * EVar vMst1 * EVar vs2t * EVar vSbeta * (- #3 * EVar vCbeta * EVar vMuSUSY * EVar vs2t +
   #58 * EVar vMt * EVar vSbeta) * EPow P2 (EVar vMt) * EPow P6 (EVar vMst2) + #16 * EPow P2 (EVar vMt) * (#21436 *
   EVar vCbeta * EVar vMt * EVar vMuSUSY * EVar vs2t * EVar vSbeta - #15647 * EPow P2 (EVar vMuSUSY) * EPow P2 (EVar
   vs2t) * (- #1 + EPow P2 (EVar vSbeta)) + #131493 * EPow P2 (EVar vMt) * EPow P2 (EVar vSbeta)) * EPow P6 (EVar
   vMst2)) - #11760 * EPow P2 (EVar vMsq) * EPow P2 (EVar vMst1) * (#1600 * EVar vMt * EPow P2 (EVar vMst2) * EPow P3
   (EVar vMst1) * (- #30 * EVar vCbeta * EVar vMt * EVar vMuSUSY * EVar vSbeta * EPow P2 (EVar vMst2) * EPow P2 (EVar
   vs2t) - #8 * EVar vs2t * EPow P2 (EVar vMt) * (#5 * EPow P2 (EVar vMuSUSY) * (- #1 + EPow P2 (EVar vSbeta)) + #2 *
   EPow P2 (EVar vMst2) * EPow P2 (EVar vSbeta)) + #21 * EVar vCbeta * EVar vMuSUSY * EVar vSbeta * EPow P3 (EVar vMt)
   + #10 * EPow P2 (EVar vSbeta) * EPow P3 (EVar vs2t) * EPow P4 (EVar vMst2)) + #2 * EVar vs2t * EPow P2 (EVar vMst2)
   * EPow P4 (EVar vMst1) * (- #3150 * EVar vCbeta * EVar vMt * EVar vMuSUSY * EVar vSbeta * EPow P2 (EVar vMst2) *
   EPow P2 (EVar vs2t) + #16 * EVar vs2t * EPow P2 (EVar vMt) * (- #482 * EPow P2 (EVar vMuSUSY) * (- #1 + EPow P2
   (EVar vSbeta)) + #125 * EPow P2 (EVar vMst2) * EPow P2 (EVar vSbeta)) - #6000 * EVar vCbeta * EVar vMuSUSY * EVar
   vSbeta * EPow P3 (EVar vMt) + #991 * EPow P2 (EVar vSbeta) * EPow P3 (EVar vs2t) * EPow P4 (EVar vMst2)) + EPow P2
   (EVar vMst1) * EPow P4 (EVar vMst2) * (- #8 * EPow P2 (EVar vMt) * EPow P2 (EVar vs2t) * (#353 * EPow P2 (EVar
   vMuSUSY) * (- #1 + EPow P2 (EVar vSbeta)) - #668 * EPow P2 (EVar vMst2) * EPow P2 (EVar vSbeta)) - #4000 * EVar
   vCbeta * EVar vMuSUSY * EVar vs2t * EVar vSbeta * EPow P3 (EVar vMt) + #1628 * EVar vCbeta * EVar vMt * EVar
   vMuSUSY * EVar vSbeta * EPow P2 (EVar vMst2) * EPow P3 (EVar vs2t) + #1200 * EPow P2 (EVar vSbeta) * EPow P4 (EVar
   vMt) - #1167 * EPow P2 (EVar vSbeta) * EPow P4 (EVar vMst2) * EPow P4 (EVar vs2t)) + #1600 * EVar vMt * (- #51 *
   EVar vCbeta * EVar vMt * EVar vMuSUSY * EVar vSbeta * EPow P2 (EVar vMst2) * EPow P2 (EVar vs2t) - #3 * EVar vs2t *
   EPow P2 (EVar vMt) * (#36 * EPow P2 (EVar vMuSUSY) * (- #1 + EPow P2 (EVar vSbeta)) - #5 * EPow P2 (EVar vMst2) *
   EPow P2 (EVar vSbeta)) + #15 * EVar vCbeta * EVar vMuSUSY * EVar vSbeta * EPow P3 (EVar vMt) + #7 * EPow P2 (EVar
   vSbeta) * EPow P3 (EVar vs2t) * EPow P4 (EVar vMst2)) * EPow P5 (EVar vMst1) + #6400 * EVar vMst1 * EVar vs2t *
   EPow P2 (EVar vSbeta) * EPow P3 (EVar vMt) * EPow P6 (EVar vMst2) - #16 * EVar vMt * EVar vSbeta * (#209 * EVar vMt
   * EVar vSbeta * EPow P2 (EVar vMst2) * EPow P2 (EVar vs2t) - #482 * EVar vSbeta * EPow P3 (EVar vMt) + #190 * EVar
   vCbeta * EVar vMuSUSY * EPow P2 (EVar vMst2) * EPow P3 (EVar vs2t)) * EPow P6 (EVar vMst2)) + EPow P4 (EVar vMsq) *
   (#705600 * EVar vMt * EVar vs2t * ((#208 - #288 * EConst Cz2 + #192 * EConst Cz3) * EPow P2 (EVar vMt) + (#2135 +
   #384 * EConst Cz2 - #36 * EConst Cz3) * EPow P2 (EVar vMst2) * EPow P2 (EVar vs2t)) * EPow P2 (EVar vSbeta) * EPow
   P3 (EVar vMst1) * EPow P4 (EVar vMst2) + #14700 * EPow P2 (EVar vMst1) * EPow P2 (EVar vSbeta) * EPow P4 (EVar
   vMst2) * (- #32 * (#733 + #81 * EConst CS2 + #18 * EConst Cz2) * EPow P2 (EVar vMst2) * EPow P2 (EVar vMt) * EPow
   P2 (EVar vs2t) + #96 * (#149 + #24 * EConst Cz3) * EPow P4 (EVar vMt) + (#14209 + #648 * EConst CS2 - #1788 *
   EConst Cz2) * EPow P4 (EVar vMst2) * EPow P4 (EVar vs2t)) - #78400 * EVar vMt * (#3 * EVar vCbeta * EVar vMt * EVar
   vMuSUSY * EVar vSbeta * (#22549 - #1008 * EConst Cz2 + #7776 * EConst Cz3) * EPow P2 (EVar vMst2) * EPow P2 (EVar
   vs2t) + #4 * EVar vs2t * EPow P2 (EVar vMt) * (#4 * (#10441 + #612 * EConst Cz2 + #1863 * EConst Cz3) * EPow P2
   (EVar vMuSUSY) * (- #1 + EPow P2 (EVar vSbeta)) - #3 * (#2197 + #3396 * EConst Cz2) * EPow P2 (EVar vMst2) * EPow
   P2 (EVar vSbeta)) + #12 * EVar vCbeta * EVar vMuSUSY * EVar vSbeta * (#643 + #3180 * EConst Cz2 + #144 * EConst
   Cz3) * EPow P3 (EVar vMt) + #2 * (- #1667 + #2232 * EConst Cz2 - #4050 * EConst Cz3) * EPow P2 (EVar vSbeta) * EPow
   P3 (EVar vs2t) * EPow P4 (EVar vMst2)) * EPow P5 (EVar vMst1) - #3 * (#24 * EPow P2 (EVar vMt) * EPow P2 (EVar
   vs2t) * ((#72625277 + #14504000 * EConst CS2 + #19521600 * EConst Cz2 - #4939200 * EConst Cz3) * EPow P2 (EVar
   vMuSUSY) * (- #1 + EPow P2 (EVar vSbeta)) - #8 * (#4731149 + #4900 * EConst CS2 - #808500 * EConst Cz2) * EPow P2
   (EVar vMst2) * EPow P2 (EVar vSbeta)) - #128 * EVar vCbeta * EVar vMuSUSY * EVar vs2t * EVar vSbeta * (- #23055979
   + #294000 * EConst CS2 + #1881600 * EConst Cz2) * EPow P3 (EVar vMt) + #4 * EVar vCbeta * EVar vMt * EVar vMuSUSY *
   EVar vSbeta * (#71872687 + #19521600 * EConst CS2 + #36691200 * EConst Cz2) * EPow P2 (EVar vMst2) * EPow P3 (EVar
   vs2t) + #128 * (#3291437 + #3013500 * EConst Cz2) * EPow P2 (EVar vSbeta) * EPow P4 (EVar vMt) + #3 * (#1737319 +
   #431200 * EConst CS2 - #2018800 * EConst Cz2 - #4939200 * EConst Cz3) * EPow P2 (EVar vSbeta) * EPow P4 (EVar
   vMst2) * EPow P4 (EVar vs2t)) * EPow P6 (EVar vMst1) + #4233600 * EVar vMt * EVar vSbeta * (#2 * EVar vMt * EVar
   vSbeta * EPow P2 (EVar vMst2) * EPow P2 (EVar vs2t) - #4 * EVar vSbeta * EPow P3 (EVar vMt) + EVar vCbeta * EVar
   vMuSUSY * EPow P2 (EVar vMst2) * EPow P3 (EVar vs2t)) * EPow P6 (EVar vMst2) - #784 * EPow P4 (EVar vMst1) * (#12 *
   EPow P2 (EVar vMst2) * EPow P2 (EVar vMt) * EPow P2 (EVar vs2t) * ((#372457 + #61200 * EConst CS2 + #55800 * EConst
   Cz2 - #37800 * EConst Cz3) * EPow P2 (EVar vMuSUSY) * (- #1 + EPow P2 (EVar vSbeta)) + #6 * (- #33703 + #375 *
   EConst CS2 - #2000 * EConst Cz2) * EPow P2 (EVar vMst2) * EPow P2 (EVar vSbeta)) - #96 * EVar vCbeta * EVar vMuSUSY
   * EVar vs2t * EVar vSbeta * (- #43417 + #1575 * EConst CS2 - #2775 * EConst Cz2) * EPow P2 (EVar vMst2) * EPow P3
   (EVar vMt) + #3 * EVar vCbeta * EVar vMt * EVar vMuSUSY * EVar vSbeta * (#393289 + #106200 * EConst CS2 + #156300 *
   EConst Cz2 - #75600 * EConst Cz3) * EPow P3 (EVar vs2t) * EPow P4 (EVar vMst2) + #16 * (#1800 * (#87 + #16 * EConst
   Cz2 + #3 * EConst Cz3) * EPow P2 (EVar vMuSUSY) * (- #1 + EPow P2 (EVar vSbeta)) - (#54223 + #34200 * EConst Cz2) *
   EPow P2 (EVar vMst2) * EPow P2 (EVar vSbeta)) * EPow P4 (EVar vMt) - #18 * (#1661 + #3750 * EConst CS2 + #8375 *
   EConst Cz2 - #3150 * EConst Cz3) * EPow P2 (EVar vSbeta) * EPow P4 (EVar vs2t) * EPow P6 (EVar vMst2)) + #58800 *
   EVar vMt * EVar vs2t * EVar vSbeta * (EVar vCbeta * EVar vMt * EVar vMuSUSY * EVar vs2t * (- #101509 + #14256 *
   EConst Cz2 - #31104 * EConst Cz3) + #32 * EVar vSbeta * (#2903 + #2196 * EConst Cz2) * EPow P2 (EVar vMt) + #3 *
   EVar vSbeta * (#1257 - #1136 * EConst Cz2) * EPow P2 (EVar vMst2) * EPow P2 (EVar vs2t)) * EPow P7 (EVar vMst1))))
   / (#529200 * EPow P2 (EVar vMgl) * EPow P2 (EVar vMst1) * EPow P2 (EVar vSbeta) * EPow P4 (EVar vMsq) * EPow P4
   (EVar vMst2) * EPow P4 (EVar vMt)) - ELog (EPow P2 (EVar vMst1) / EPow P2 (EVar vMsq)) * (#2450 * EVar vDmglst1 *
   EVar vMgl * EPow P2 (EVar vMst1) * (#2 * EPow P4 (EVar vMsq) * (#16 * EVar vMst1 * EVar vMt * EVar vs2t * (- #251 *
   EPow P2 (EVar vMt) + #9 * (#9 + EConst Cz2) * EPow P2 (EVar vMst2) * EPow P2 (EVar vs2t)) * EPow P2 (EVar vSbeta) *
   EPow P4 (EVar vMst2) - #16 * EVar vMt * EPow P3 (EVar vMst1) * (- #27 * EVar vCbeta * EVar vMt * EVar vMuSUSY *
   EVar vSbeta * (#7 + #10 * EConst Cz2) * EPow P2 (EVar vMst2) * EPow P2 (EVar vs2t) - #18 * EVar vs2t * EPow P2
   (EVar vMt) * (#2 * (- #2 + #9 * EConst Cz2) * EPow P2 (EVar vMuSUSY) * (- #1 + EPow P2 (EVar vSbeta)) + (#7 + #24 *
   EConst Cz2) * EPow P2 (EVar vMst2) * EPow P2 (EVar vSbeta)) + #2 * EVar vCbeta * EVar vMuSUSY * EVar vSbeta * (-
   #151 + #216 * EConst Cz2) * EPow P3 (EVar vMt) + #9 * (#16 + #11 * EConst Cz2) * EPow P2 (EVar vSbeta) * EPow P3
   (EVar vs2t) * EPow P4 (EVar vMst2)) + EPow P2 (EVar vSbeta) * EPow P4 (EVar vMst2) * (#192 * EPow P2 (EVar vMst2) *
   EPow P2 (EVar vMt) * EPow P2 (EVar vs2t) + #80 * EPow P4 (EVar vMt) - #45 * EPow P4 (EVar vMst2) * EPow P4 (EVar
   vs2t)) + #3 * EPow P2 (EVar vMst1) * EPow P2 (EVar vMst2) * EPow P2 (EVar vSbeta) * (#152 * EPow P2 (EVar vMst2) *
   EPow P2 (EVar vMt) * EPow P2 (EVar vs2t) + #432 * EPow P4 (EVar vMt) + #9 * (#7 + #4 * EConst Cz2) * EPow P4 (EVar
   vMst2) * EPow P4 (EVar vs2t)) - #9 * EPow P4 (EVar vMst1) * (#4 * EVar vCbeta * EVar vMt * EVar vMuSUSY * EVar vs2t
   * EVar vSbeta * (#72 * EPow P2 (EVar vMt) - #11 * EPow P2 (EVar vMst2) * EPow P2 (EVar vs2t)) - #24 * EPow P2 (EVar
   vMt) * EPow P2 (EVar vs2t) * (- #4 * EConst Cz2 * EPow P2 (EVar vMuSUSY) * (- #1 + EPow P2 (EVar vSbeta)) + #3 *
   EPow P2 (EVar vMst2) * EPow P2 (EVar vSbeta)) + #32 * (#9 + #20 * EConst Cz2) * EPow P2 (EVar vSbeta) * EPow P4
   (EVar vMt) + #3 * (#9 + #4 * EConst Cz2) * EPow P2 (EVar vSbeta) * EPow P4 (EVar vMst2) * EPow P4 (EVar vs2t)) +
   #36 * EVar vMt * EVar vs2t * EVar vSbeta * (#15 * EVar vCbeta * EVar vMt * EVar vMuSUSY * EVar vs2t * (- #3 + #8 *
   EConst Cz2) + #40 * EVar vSbeta * (- #1 + #12 * EConst Cz2) * EPow P2 (EVar vMt) + #43 * EVar vSbeta * EPow P2
   (EVar vMst2) * EPow P2 (EVar vs2t)) * EPow P5 (EVar vMst1)) - EVar vMst1 * EPow P2 (EVar vMst2) * (#24 * EVar vMst1
   * EPow P2 (EVar vMt) * (#16 * EPow P2 (EVar vMt) + #3 * EPow P2 (EVar vMst2) * EPow P2 (EVar vs2t)) * EPow P2 (EVar
   vSbeta) * EPow P4 (EVar vMst2) - #4 * EVar vMt * EVar vs2t * EPow P4 (EVar vMst1) * (#543 * EVar vCbeta * EVar vMt
   * EVar vMuSUSY * EVar vs2t * EVar vSbeta * EPow P2 (EVar vMst2) + #80 * EPow P2 (EVar vMt) * (#9 * EPow P2 (EVar
   vMuSUSY) * (- #1 + EPow P2 (EVar vSbeta)) + EPow P2 (EVar vMst2) * EPow P2 (EVar vSbeta)) - #183 * EPow P2 (EVar
   vs2t) * EPow P2 (EVar vSbeta) * EPow P4 (EVar vMst2)) - #4 * EVar vMt * EPow P2 (EVar vMst1) * EPow P2 (EVar vMst2)
   * (- #6 * EVar vCbeta * EVar vMt * EVar vMuSUSY * EVar vSbeta * EPow P2 (EVar vMst2) * EPow P2 (EVar vs2t) - #4 *
   EVar vs2t * EPow P2 (EVar vMt) * (EPow P2 (EVar vMuSUSY) * (- #1 + EPow P2 (EVar vSbeta)) + #12 * EPow P2 (EVar
   vMst2) * EPow P2 (EVar vSbeta)) - #4 * EVar vCbeta * EVar vMuSUSY * EVar vSbeta * EPow P3 (EVar vMt) + #3 * EPow P2
   (EVar vSbeta) * EPow P3 (EVar vs2t) * EPow P4 (EVar vMst2)) + EPow P2 (EVar vMst2) * EPow P3 (EVar vMst1) * (- #24
   * EPow P2 (EVar vMt) * EPow P2 (EVar vs2t) * (EPow P2 (EVar vMuSUSY) * (- #1 + EPow P2 (EVar vSbeta)) + #27 * EPow
   P2 (EVar vMst2) * EPow P2 (EVar vSbeta)) + #1152 * EVar vCbeta * EVar vMuSUSY * EVar vs2t * EVar vSbeta * EPow P3
   (EVar vMt) - #12 * EVar vCbeta * EVar vMt * EVar vMuSUSY * EVar vSbeta * EPow P2 (EVar vMst2) * EPow P3 (EVar vs2t)
   + #2192 * EPow P2 (EVar vSbeta) * EPow P4 (EVar vMt) + #3 * EPow P2 (EVar vSbeta) * EPow P4 (EVar vMst2) * EPow P4
   (EVar vs2t)) + #4 * EVar vs2t * EVar vSbeta * (- #3 * EVar vCbeta * EVar vMuSUSY * EVar vs2t + #32 * EVar vMt *
   EVar vSbeta) * EPow P2 (EVar vMt) * EPow P6 (EVar vMst2)) + #8 * EVar vMst1 * EPow P2 (EVar vMsq) * (- #8 * EVar
   vMt * EVar vs2t * EPow P2 (EVar vMst1) * EPow P2 (EVar vMst2) * (- #54 * EVar vCbeta * EVar vMt * EVar vMuSUSY *
   EVar vs2t * EVar vSbeta * EPow P2 (EVar vMst2) + EPow P2 (EVar vMt) * (- #72 * EPow P2 (EVar vMuSUSY) * (- #1 +
   EPow P2 (EVar vSbeta)) + #7 * EPow P2 (EVar vMst2) * EPow P2 (EVar vSbeta)) + #18 * EPow P2 (EVar vs2t) * EPow P2
   (EVar vSbeta) * EPow P4 (EVar vMst2)) + #144 * EPow P4 (EVar vMst1) * (#4 * EVar vs2t * EPow P2 (EVar vMuSUSY) * (-
   #1 + EPow P2 (EVar vSbeta)) * EPow P3 (EVar vMt) + EVar vMt * EPow P2 (EVar vSbeta) * EPow P3 (EVar vs2t) * EPow P4
   (EVar vMst2)) - #6 * EVar vMst1 * EPow P2 (EVar vSbeta) * EPow P4 (EVar vMst2) * (- #20 * EPow P2 (EVar vMst2) *
   EPow P2 (EVar vMt) * EPow P2 (EVar vs2t) + #24 * EPow P4 (EVar vMt) + EPow P4 (EVar vMst2) * EPow P4 (EVar vs2t)) -
   #3 * EPow P2 (EVar vMst2) * EPow P3 (EVar vMst1) * (#40 * EPow P2 (EVar vMt) * EPow P2 (EVar vs2t) * (- (EPow P2
   (EVar vMuSUSY) * (- #1 + EPow P2 (EVar vSbeta))) + #2 * EPow P2 (EVar vMst2) * EPow P2 (EVar vSbeta)) - #80 * EVar
   vCbeta * EVar vMuSUSY * EVar vs2t * EVar vSbeta * EPow P3 (EVar vMt) - #12 * EVar vCbeta * EVar vMt * EVar vMuSUSY
   * EVar vSbeta * EPow P2 (EVar vMst2) * EPow P3 (EVar vs2t) + #80 * EPow P2 (EVar vSbeta) * EPow P4 (EVar vMt) +
   EPow P2 (EVar vSbeta) * EPow P4 (EVar vMst2) * EPow P4 (EVar vs2t)) + #56 * EVar vs2t * EPow P2 (EVar vSbeta) *
   EPow P3 (EVar vMt) * EPow P6 (EVar vMst2))) + #49 * EPow P2 (EVar vDmglst1) * EPow P2 (EVar vMst1) * (#2 * EPow P4
   (EVar vMsq) * (#400 * EVar vMst1 * EVar vMt * EVar vs2t * (- #838 * EPow P2 (EVar vMt) + #3 * (#71 + #6 * EConst
   Cz2) * EPow P2 (EVar vMst2) * EPow P2 (EVar vs2t)) * EPow P2 (EVar vSbeta) * EPow P4 (EVar vMst2) - #400 * EVar vMt
   * EPow P3 (EVar vMst1) * (- #54 * EVar vCbeta * EVar vMt * EVar vMuSUSY * EVar vSbeta * (#7 + #10 * EConst Cz2) *
   EPow P2 (EVar vMst2) * EPow P2 (EVar vs2t) - #72 * EVar vs2t * EPow P2 (EVar vMt) * ((- #2 + #9 * EConst Cz2) *
   EPow P2 (EVar vMuSUSY) * (- #1 + EPow P2 (EVar vSbeta)) + #2 * (#5 + #12 * EConst Cz2) * EPow P2 (EVar vMst2) *
   EPow P2 (EVar vSbeta)) + #4 * EVar vCbeta * EVar vMuSUSY * EVar vSbeta * (- #151 + #216 * EConst Cz2) * EPow P3
   (EVar vMt) + #3 * (#251 + #138 * EConst Cz2) * EPow P2 (EVar vSbeta) * EPow P3 (EVar vs2t) * EPow P4 (EVar vMst2))
   + EPow P2 (EVar vSbeta) * EPow P4 (EVar vMst2) * (#31200 * EPow P2 (EVar vMst2) * EPow P2 (EVar vMt) * EPow P2
   (EVar vs2t) - #32096 * EPow P4 (EVar vMt) - #5025 * EPow P4 (EVar vMst2) * EPow P4 (EVar vs2t)) + #75 * EPow P2
   (EVar vMst1) * EPow P2 (EVar vMst2) * EPow P2 (EVar vSbeta) * (#232 * EPow P2 (EVar vMst2) * EPow P2 (EVar vMt) *
   EPow P2 (EVar vs2t) + #1296 * EPow P4 (EVar vMt) + (#329 + #108 * EConst Cz2) * EPow P4 (EVar vMst2) * EPow P4
   (EVar vs2t)) - #75 * EPow P4 (EVar vMst1) * (#24 * EPow P2 (EVar vMt) * EPow P2 (EVar vs2t) * (#4 * (#19 + #9 *
   EConst Cz2) * EPow P2 (EVar vMuSUSY) * (- #1 + EPow P2 (EVar vSbeta)) - #103 * EPow P2 (EVar vMst2) * EPow P2 (EVar
   vSbeta)) + #6240 * EVar vCbeta * EVar vMuSUSY * EVar vs2t * EVar vSbeta * EPow P3 (EVar vMt) + #132 * EVar vCbeta *
   EVar vMt * EVar vMuSUSY * EVar vSbeta * EPow P2 (EVar vMst2) * EPow P3 (EVar vs2t) + #480 * (#13 + #20 * EConst
   Cz2) * EPow P2 (EVar vSbeta) * EPow P4 (EVar vMt) + (#229 + #108 * EConst Cz2) * EPow P2 (EVar vSbeta) * EPow P4
   (EVar vMst2) * EPow P4 (EVar vs2t)) + #1800 * EVar vMt * EVar vs2t * EVar vSbeta * (#3 * EVar vCbeta * EVar vMt *
   EVar vMuSUSY * EVar vs2t * (#61 + #88 * EConst Cz2) + #480 * EVar vSbeta * (#1 + #3 * EConst Cz2) * EPow P2 (EVar
   vMt) + #59 * EVar vSbeta * EPow P2 (EVar vMst2) * EPow P2 (EVar vs2t)) * EPow P5 (EVar vMst1)) - #25 * EVar vMst1 *
   EPow P2 (EVar vMst2) * (#72 * EVar vMst1 * EPow P2 (EVar vMt) * (#16 * EPow P2 (EVar vMt) + #3 * EPow P2 (EVar
   vMst2) * EPow P2 (EVar vs2t)) * EPow P2 (EVar vSbeta) * EPow P4 (EVar vMst2) - #8 * EVar vMt * EVar vs2t * EPow P4
   (EVar vMst1) * (#1623 * EVar vCbeta * EVar vMt * EVar vMuSUSY * EVar vs2t * EVar vSbeta * EPow P2 (EVar vMst2) +
   #16 * EPow P2 (EVar vMt) * (#135 * EPow P2 (EVar vMuSUSY) * (- #1 + EPow P2 (EVar vSbeta)) + #8 * EPow P2 (EVar
   vMst2) * EPow P2 (EVar vSbeta)) - #543 * EPow P2 (EVar vs2t) * EPow P2 (EVar vSbeta) * EPow P4 (EVar vMst2)) - #8 *
   EVar vMt * EPow P2 (EVar vMst1) * EPow P2 (EVar vMst2) * (- #6 * EVar vCbeta * EVar vMt * EVar vMuSUSY * EVar
   vSbeta * EPow P2 (EVar vMst2) * EPow P2 (EVar vs2t) - #4 * EVar vs2t * EPow P2 (EVar vMt) * (EPow P2 (EVar vMuSUSY)
   * (- #1 + EPow P2 (EVar vSbeta)) + #24 * EPow P2 (EVar vMst2) * EPow P2 (EVar vSbeta)) - #4 * EVar vCbeta * EVar
   vMuSUSY * EVar vSbeta * EPow P3 (EVar vMt) + #3 * EPow P2 (EVar vSbeta) * EPow P3 (EVar vs2t) * EPow P4 (EVar
   vMst2)) + EPow P2 (EVar vMst2) * EPow P3 (EVar vMst1) * (- #24 * EPow P2 (EVar vMt) * EPow P2 (EVar vs2t) * (#47 *
   EPow P2 (EVar vMuSUSY) * (- #1 + EPow P2 (EVar vSbeta)) + #165 * EPow P2 (EVar vMst2) * EPow P2 (EVar vSbeta)) +
   #7488 * EVar vCbeta * EVar vMuSUSY * EVar vs2t * EVar vSbeta * EPow P3 (EVar vMt) - #564 * EVar vCbeta * EVar vMt *
   EVar vMuSUSY * EVar vSbeta * EPow P2 (EVar vMst2) * EPow P3 (EVar vs2t) + #12208 * EPow P2 (EVar vSbeta) * EPow P4
   (EVar vMt) + #141 * EPow P2 (EVar vSbeta) * EPow P4 (EVar vMst2) * EPow P4 (EVar vs2t)) + #8 * EVar vs2t * EVar
   vSbeta * (- #3 * EVar vCbeta * EVar vMuSUSY * EVar vs2t + #32 * EVar vMt * EVar vSbeta) * EPow P2 (EVar vMt) * EPow
   P6 (EVar vMst2)) + #200 * EVar vMst1 * EPow P2 (EVar vMsq) * (#576 * EVar vMt * EVar vs2t * EPow P4 (EVar vMst1) *
   (#4 * EPow P2 (EVar vMt) * EPow P2 (EVar vMuSUSY) * (- #1 + EPow P2 (EVar vSbeta)) + EPow P2 (EVar vs2t) * EPow P2
   (EVar vSbeta) * EPow P4 (EVar vMst2)) - #16 * EVar vMt * EVar vs2t * EPow P2 (EVar vMst1) * EPow P2 (EVar vMst2) *
   (- #54 * EVar vCbeta * EVar vMt * EVar vMuSUSY * EVar vs2t * EVar vSbeta * EPow P2 (EVar vMst2) + EPow P2 (EVar
   vMt) * (- #72 * EPow P2 (EVar vMuSUSY) * (- #1 + EPow P2 (EVar vSbeta)) + #7 * EPow P2 (EVar vMst2) * EPow P2 (EVar
   vSbeta)) + #36 * EPow P2 (EVar vs2t) * EPow P2 (EVar vSbeta) * EPow P4 (EVar vMst2)) - #24 * EVar vMst1 * EPow P2
   (EVar vSbeta) * EPow P4 (EVar vMst2) * (- #25 * EPow P2 (EVar vMst2) * EPow P2 (EVar vMt) * EPow P2 (EVar vs2t) +
   #38 * EPow P4 (EVar vMt) + #2 * EPow P4 (EVar vMst2) * EPow P4 (EVar vs2t)) + #3 * EPow P2 (EVar vMst2) * EPow P3
   (EVar vMst1) * (#200 * EPow P2 (EVar vMt) * EPow P2 (EVar vs2t) * (EPow P2 (EVar vMuSUSY) * (- #1 + EPow P2 (EVar
   vSbeta)) - #2 * EPow P2 (EVar vMst2) * EPow P2 (EVar vSbeta)) + #400 * EVar vCbeta * EVar vMuSUSY * EVar vs2t *
   EVar vSbeta * EPow P3 (EVar vMt) + #36 * EVar vCbeta * EVar vMt * EVar vMuSUSY * EVar vSbeta * EPow P2 (EVar vMst2)
   * EPow P3 (EVar vs2t) - #400 * EPow P2 (EVar vSbeta) * EPow P4 (EVar vMt) + #7 * EPow P2 (EVar vSbeta) * EPow P4
   (EVar vMst2) * EPow P4 (EVar vs2t)) + #112 * EVar vs2t * EPow P2 (EVar vSbeta) * EPow P3 (EVar vMt) * EPow P6 (EVar
   vMst2))) + EPow P2 (EVar vMgl) * (#1225 * EPow P2 (EVar vMst1) * EPow P4 (EVar vMsq) * (#576 * EVar vMst1 * EVar
   vMt * EVar vs2t * (- #11 * EPow P2 (EVar vMt) + (#6 + EConst Cz2) * EPow P2 (EVar vMst2) * EPow P2 (EVar vs2t)) *
   EPow P2 (EVar vSbeta) * EPow P4 (EVar vMst2) - #576 * EVar vMt * EPow P3 (EVar vMst1) * (- #3 * EVar vCbeta * EVar
   vMt * EVar vMuSUSY * EVar vSbeta * (#1 + #2 * EConst Cz2) * EPow P2 (EVar vMst2) * EPow P2 (EVar vs2t) - #2 * EVar
   vs2t * EPow P2 (EVar vMt) * (#2 * (- #5 + EConst Cz2) * EPow P2 (EVar vMuSUSY) * (- #1 + EPow P2 (EVar vSbeta)) +
   (#1 + #8 * EConst Cz2) * EPow P2 (EVar vMst2) * EPow P2 (EVar vSbeta)) + #2 * EVar vCbeta * EVar vMuSUSY * EVar
   vSbeta * (- #7 + #8 * EConst Cz2) * EPow P3 (EVar vMt) + (#7 + #3 * EConst Cz2) * EPow P2 (EVar vSbeta) * EPow P3
   (EVar vs2t) * EPow P4 (EVar vMst2)) - #2 * EPow P2 (EVar vSbeta) * EPow P4 (EVar vMst2) * (#72 * EPow P2 (EVar
   vMst2) * EPow P2 (EVar vMt) * EPow P2 (EVar vs2t) + #32 * (- #41 + #36 * EConst Cz2) * EPow P4 (EVar vMt) + #3 * (-
   #37 + #6 * EConst Cz2) * EPow P4 (EVar vMst2) * EPow P4 (EVar vs2t)) - #3 * EPow P4 (EVar vMst1) * (#24 * EPow P2
   (EVar vMt) * EPow P2 (EVar vs2t) * ((- #15 + #16 * EConst Cz2) * EPow P2 (EVar vMuSUSY) * (- #1 + EPow P2 (EVar
   vSbeta)) + #10 * EPow P2 (EVar vMst2) * EPow P2 (EVar vSbeta)) + #384 * EVar vCbeta * EVar vMuSUSY * EVar vs2t *
   EVar vSbeta * EPow P3 (EVar vMt) - #348 * EVar vCbeta * EVar vMt * EVar vMuSUSY * EVar vSbeta * EPow P2 (EVar
   vMst2) * EPow P3 (EVar vs2t) + #384 * (#1 + #5 * EConst Cz2) * EPow P2 (EVar vSbeta) * EPow P4 (EVar vMt) + #5 *
   (#11 + #12 * EConst Cz2) * EPow P2 (EVar vSbeta) * EPow P4 (EVar vMst2) * EPow P4 (EVar vs2t)) + #6 * EPow P2 (EVar
   vMst1) * EPow P2 (EVar vMst2) * (- #24 * EPow P2 (EVar vMt) * EPow P2 (EVar vs2t) * ((#7 + #8 * EConst Cz2) * EPow
   P2 (EVar vMuSUSY) * (- #1 + EPow P2 (EVar vSbeta)) - #10 * EPow P2 (EVar vMst2) * EPow P2 (EVar vSbeta)) - #432 *
   EVar vCbeta * EVar vMuSUSY * EVar vs2t * EVar vSbeta * EPow P3 (EVar vMt) - #8 * EVar vCbeta * EVar vMt * EVar
   vMuSUSY * EVar vSbeta * (- #8 + #15 * EConst Cz2) * EPow P2 (EVar vMst2) * EPow P3 (EVar vs2t) + #432 * EPow P2
   (EVar vSbeta) * EPow P4 (EVar vMt) + (- #53 + #36 * EConst Cz2) * EPow P2 (EVar vSbeta) * EPow P4 (EVar vMst2) *
   EPow P4 (EVar vs2t)) + #144 * EVar vMt * EVar vs2t * EVar vSbeta * (#3 * EVar vCbeta * EVar vMt * EVar vMuSUSY *
   EVar vs2t * (- #7 + #8 * EConst Cz2) + #8 * EVar vSbeta * (- #7 + #12 * EConst Cz2) * EPow P2 (EVar vMt) + #11 *
   EVar vSbeta * EPow P2 (EVar vMst2) * EPow P2 (EVar vs2t)) * EPow P5 (EVar vMst1)) + #88200 * EVar vSbeta * EPow P2
   (EVar vMst2) * EPow P6 (EVar vMsq) * (#4 * EVar vCbeta * EVar vMt * EVar vMuSUSY * EPow P3 (EVar vs2t) * EPow P4
   (EVar vMst1) + EVar vSbeta * (EPow P2 (- #4 * EVar vMst2 * EPow P2 (EVar vMt) + EPow P2 (EVar vs2t) * EPow P3 (EVar
   vMst2)) - EPow P4 (EVar vMst1) * (#8 * EPow P2 (EVar vMt) * EPow P2 (EVar vs2t) + EPow P2 (EVar vMst2) * EPow P4
   (EVar vs2t)) + EPow P2 (EVar vMst1) * (#16 * EPow P2 (EVar vMst2) * EPow P2 (EVar vMt) * EPow P2 (EVar vs2t) + #16
   * EPow P4 (EVar vMt) - EPow P4 (EVar vMst2) * EPow P4 (EVar vs2t)) + EPow P4 (EVar vs2t) * EPow P6 (EVar vMst1))) -
   #2 * EPow P2 (EVar vMst1) * EPow P2 (EVar vMst2) * (EVar vMt * EPow P2 (EVar vMst1) * (- #88200 * EVar vCbeta *
   EVar vMuSUSY * EVar vs2t * EVar vSbeta * EPow P2 (EVar vMt) + #4 * EVar vMt * EPow P2 (EVar vs2t) * (- #13109 *
   EPow P2 (EVar vMuSUSY) * (- #1 + EPow P2 (EVar vSbeta)) + #14865 * EPow P2 (EVar vMst2) * EPow P2 (EVar vSbeta)) +
   #235200 * EPow P2 (EVar vSbeta) * EPow P3 (EVar vMt) - #16647 * EVar vCbeta * EVar vMuSUSY * EVar vSbeta * EPow P2
   (EVar vMst2) * EPow P3 (EVar vs2t)) * EPow P4 (EVar vMst2) - #4900 * EVar vMt * EPow P2 (EVar vMst2) * EPow P3
   (EVar vMst1) * (- #6 * EVar vCbeta * EVar vMt * EVar vMuSUSY * EVar vSbeta * EPow P2 (EVar vMst2) * EPow P2 (EVar
   vs2t) - #4 * EVar vs2t * EPow P2 (EVar vMt) * (EPow P2 (EVar vMuSUSY) * (- #1 + EPow P2 (EVar vSbeta)) + #4 * EPow
   P2 (EVar vMst2) * EPow P2 (EVar vSbeta)) + #12 * EVar vCbeta * EVar vMuSUSY * EVar vSbeta * EPow P3 (EVar vMt) + #3
   * EPow P2 (EVar vSbeta) * EPow P3 (EVar vs2t) * EPow P4 (EVar vMst2)) + EPow P2 (EVar vMst2) * EPow P4 (EVar vMst1)
   * (#2 * EPow P2 (EVar vMt) * EPow P2 (EVar vs2t) * (#12479 * EPow P2 (EVar vMuSUSY) * (- #1 + EPow P2 (EVar
   vSbeta)) - #87870 * EPow P2 (EVar vMst2) * EPow P2 (EVar vSbeta)) + #263280 * EVar vCbeta * EVar vMuSUSY * EVar
   vs2t * EVar vSbeta * EPow P3 (EVar vMt) + #38697 * EVar vCbeta * EVar vMt * EVar vMuSUSY * EVar vSbeta * EPow P2
   (EVar vMst2) * EPow P3 (EVar vs2t) + #882836 * EPow P2 (EVar vSbeta) * EPow P4 (EVar vMt) - #13836 * EPow P2 (EVar
   vSbeta) * EPow P4 (EVar vMst2) * EPow P4 (EVar vs2t)) - #14700 * EVar vMt * EVar vs2t * (#37 * EVar vCbeta * EVar
   vMt * EVar vMuSUSY * EVar vs2t * EVar vSbeta * EPow P2 (EVar vMst2) + #16 * EPow P2 (EVar vMt) * (#3 * EPow P2
   (EVar vMuSUSY) * (- #1 + EPow P2 (EVar vSbeta)) + EPow P2 (EVar vMst2) * EPow P2 (EVar vSbeta)) - #13 * EPow P2
   (EVar vs2t) * EPow P2 (EVar vSbeta) * EPow P4 (EVar vMst2)) * EPow P5 (EVar vMst1) + #4900 * EVar vMst1 * EVar vs2t
   * EVar vSbeta * (- #3 * EVar vCbeta * EVar vMuSUSY * EVar vs2t + #32 * EVar vMt * EVar vSbeta) * EPow P2 (EVar vMt)
   * EPow P6 (EVar vMst2) + #2 * EPow P2 (EVar vMt) * (#15360 * EVar vCbeta * EVar vMt * EVar vMuSUSY * EVar vs2t *
   EVar vSbeta - #9571 * EPow P2 (EVar vMuSUSY) * EPow P2 (EVar vs2t) * (- #1 + EPow P2 (EVar vSbeta)) + #98418 * EPow
   P2 (EVar vMt) * EPow P2 (EVar vSbeta)) * EPow P6 (EVar vMst2)) + #196 * EPow P2 (EVar vMsq) * EPow P2 (EVar vMst1)
   * (- #800 * EVar vMt * EVar vs2t * EPow P2 (EVar vMst2) * EPow P3 (EVar vMst1) * (- #18 * EVar vCbeta * EVar vMt *
   EVar vMuSUSY * EVar vs2t * EVar vSbeta * EPow P2 (EVar vMst2) + EPow P2 (EVar vMt) * (- #24 * EPow P2 (EVar
   vMuSUSY) * (- #1 + EPow P2 (EVar vSbeta)) + #7 * EPow P2 (EVar vMst2) * EPow P2 (EVar vSbeta)) + #6 * EPow P2 (EVar
   vs2t) * EPow P2 (EVar vSbeta) * EPow P4 (EVar vMst2)) + EPow P2 (EVar vMst2) * EPow P4 (EVar vMst1) * (#8 * EPow P2
   (EVar vMt) * EPow P2 (EVar vs2t) * (#375 * EPow P2 (EVar vMuSUSY) * (- #1 + EPow P2 (EVar vSbeta)) - #641 * EPow P2
   (EVar vMst2) * EPow P2 (EVar vSbeta)) + #6000 * EVar vCbeta * EVar vMuSUSY * EVar vs2t * EVar vSbeta * EPow P3
   (EVar vMt) + #1080 * EVar vCbeta * EVar vMt * EVar vMuSUSY * EVar vSbeta * EPow P2 (EVar vMst2) * EPow P3 (EVar
   vs2t) - #6000 * EPow P2 (EVar vSbeta) * EPow P4 (EVar vMt) - #345 * EPow P2 (EVar vSbeta) * EPow P4 (EVar vMst2) *
   EPow P4 (EVar vs2t)) + EPow P2 (EVar vMst1) * EPow P4 (EVar vMst2) * (#8 * EPow P2 (EVar vMt) * EPow P2 (EVar vs2t)
   * (#105 * EPow P2 (EVar vMuSUSY) * (- #1 + EPow P2 (EVar vSbeta)) + #157 * EPow P2 (EVar vMst2) * EPow P2 (EVar
   vSbeta)) - #4256 * EVar vCbeta * EVar vMuSUSY * EVar vs2t * EVar vSbeta * EPow P3 (EVar vMt) - #300 * EVar vCbeta *
   EVar vMt * EVar vMuSUSY * EVar vSbeta * EPow P2 (EVar vMst2) * EPow P3 (EVar vs2t) - #1856 * EPow P2 (EVar vSbeta)
   * EPow P4 (EVar vMt) + #255 * EPow P2 (EVar vSbeta) * EPow P4 (EVar vMst2) * EPow P4 (EVar vs2t)) + #4800 * (#4 *
   EVar vs2t * EPow P2 (EVar vMuSUSY) * (- #1 + EPow P2 (EVar vSbeta)) * EPow P3 (EVar vMt) + EVar vMt * EPow P2 (EVar
   vSbeta) * EPow P3 (EVar vs2t) * EPow P4 (EVar vMst2)) * EPow P5 (EVar vMst1) + #5600 * EVar vMst1 * EVar vs2t *
   EPow P2 (EVar vSbeta) * EPow P3 (EVar vMt) * EPow P6 (EVar vMst2) + #8 * EVar vMt * EVar vSbeta * (#109 * EVar vMt
   * EVar vSbeta * EPow P2 (EVar vMst2) * EPow P2 (EVar vs2t) - #82 * EVar vSbeta * EPow P3 (EVar vMt) + #90 * EVar
   vCbeta * EVar vMuSUSY * EPow P2 (EVar vMst2) * EPow P3 (EVar vs2t)) * EPow P6 (EVar vMst2))) + #22050 * EPow P2
   (EVar vMst1) * EPow P2 (ELog (EPow P2 (EVar vMst1) / EPow P2 (EVar vMst2))) * EPow P4 (EVar vMsq) * (EPow P2 (EVar
   vMgl) * (- #16 * EVar vMt * EPow P3 (EVar vMst1) * (- #6 * EVar vCbeta * EVar vMt * EVar vMuSUSY * EVar vSbeta *
   EPow P2 (EVar vMst2) * EPow P2 (EVar vs2t) - #4 * EVar vs2t * EPow P2 (EVar vMt) * (EPow P2 (EVar vMuSUSY) * (- #1
   + EPow P2 (EVar vSbeta)) + #4 * EPow P2 (EVar vMst2) * EPow P2 (EVar vSbeta)) + #16 * EVar vCbeta * EVar vMuSUSY *
   EVar vSbeta * EPow P3 (EVar vMt) + #3 * EPow P2 (EVar vSbeta) * EPow P3 (EVar vs2t) * EPow P4 (EVar vMst2)) + #2 *
   EVar vs2t * EPow P2 (EVar vMst1) * EPow P2 (EVar vMst2) * (- #26 * EVar vCbeta * EVar vMt * EVar vMuSUSY * EVar
   vSbeta * EPow P2 (EVar vMst2) * EPow P2 (EVar vs2t) - #64 * EVar vs2t * EPow P2 (EVar vMt) * EPow P2 (EVar vMuSUSY)
   * (- #1 + EPow P2 (EVar vSbeta)) + #16 * EVar vCbeta * EVar vMuSUSY * EVar vSbeta * EPow P3 (EVar vMt) + #5 * EPow
   P2 (EVar vSbeta) * EPow P3 (EVar vs2t) * EPow P4 (EVar vMst2)) - EPow P4 (EVar vMst1) * (#192 * EPow P2 (EVar vMt)
   * EPow P2 (EVar vMuSUSY) * EPow P2 (EVar vs2t) * (- #1 + EPow P2 (EVar vSbeta)) - #32 * EVar vCbeta * EVar vMuSUSY
   * EVar vs2t * EVar vSbeta * EPow P3 (EVar vMt) + #32 * EVar vCbeta * EVar vMt * EVar vMuSUSY * EVar vSbeta * EPow
   P2 (EVar vMst2) * EPow P3 (EVar vs2t) + #160 * EPow P2 (EVar vSbeta) * EPow P4 (EVar vMt) + #5 * EPow P2 (EVar
   vSbeta) * EPow P4 (EVar vMst2) * EPow P4 (EVar vs2t)) + #96 * EVar vs2t * EVar vSbeta * (EVar vCbeta * EVar vMuSUSY
   * EVar vs2t + #4 * EVar vMt * EVar vSbeta) * EPow P2 (EVar vMt) * EPow P5 (EVar vMst1) + EPow P2 (EVar vs2t) * (-
   #16 * EPow P2 (EVar vMt) + #3 * EPow P2 (EVar vMst2) * EPow P2 (EVar vs2t)) * EPow P2 (EVar vSbeta) * EPow P6 (EVar
   vMst2) + #16 * EVar vMst1 * EVar vMt * EPow P2 (EVar vSbeta) * EPow P3 (EVar vs2t) * EPow P6 (EVar vMst2)) + #4 *
   EVar vDmglst1 * EVar vMgl * EVar vMst1 * (#120 * EVar vs2t * EVar vSbeta * (EVar vCbeta * EVar vMuSUSY * EVar vs2t
   + #4 * EVar vMt * EVar vSbeta) * EPow P2 (EVar vMt) * EPow P4 (EVar vMst1) - #4 * EVar vMt * EPow P2 (EVar vMst1) *
   (- #30 * EVar vCbeta * EVar vMt * EVar vMuSUSY * EVar vSbeta * EPow P2 (EVar vMst2) * EPow P2 (EVar vs2t) - #12 *
   EVar vs2t * EPow P2 (EVar vMt) * (#3 * EPow P2 (EVar vMuSUSY) * (- #1 + EPow P2 (EVar vSbeta)) + #4 * EPow P2 (EVar
   vMst2) * EPow P2 (EVar vSbeta)) + #48 * EVar vCbeta * EVar vMuSUSY * EVar vSbeta * EPow P3 (EVar vMt) + #11 * EPow
   P2 (EVar vSbeta) * EPow P3 (EVar vs2t) * EPow P4 (EVar vMst2)) - EPow P3 (EVar vMst1) * (#24 * EPow P2 (EVar vMt) *
   EPow P2 (EVar vMuSUSY) * EPow P2 (EVar vs2t) * (- #1 + EPow P2 (EVar vSbeta)) + #160 * EPow P2 (EVar vSbeta) * EPow
   P4 (EVar vMt) + #3 * EPow P2 (EVar vSbeta) * EPow P4 (EVar vMst2) * EPow P4 (EVar vs2t)) + #4 * EVar vMt * EPow P2
   (EVar vSbeta) * EPow P3 (EVar vs2t) * EPow P6 (EVar vMst2) + #3 * EVar vMst1 * EPow P2 (EVar vSbeta) * EPow P4
   (EVar vs2t) * EPow P6 (EVar vMst2)) + #2 * EVar vMst1 * EPow P2 (EVar vDmglst1) * (#48 * EVar vs2t * EVar vSbeta *
   (#11 * EVar vCbeta * EVar vMuSUSY * EVar vs2t + #60 * EVar vMt * EVar vSbeta) * EPow P2 (EVar vMt) * EPow P4 (EVar
   vMst1) - #8 * EVar vMt * EPow P2 (EVar vMst1) * (- #30 * EVar vCbeta * EVar vMt * EVar vMuSUSY * EVar vSbeta * EPow
   P2 (EVar vMst2) * EPow P2 (EVar vs2t) - #12 * EVar vs2t * EPow P2 (EVar vMt) * (#3 * EPow P2 (EVar vMuSUSY) * (- #1
   + EPow P2 (EVar vSbeta)) + #8 * EPow P2 (EVar vMst2) * EPow P2 (EVar vSbeta)) + #48 * EVar vCbeta * EVar vMuSUSY *
   EVar vSbeta * EPow P3 (EVar vMt) + #23 * EPow P2 (EVar vSbeta) * EPow P3 (EVar vs2t) * EPow P4 (EVar vMst2)) - EPow
   P3 (EVar vMst1) * (#72 * EPow P2 (EVar vMt) * EPow P2 (EVar vMuSUSY) * EPow P2 (EVar vs2t) * (- #1 + EPow P2 (EVar
   vSbeta)) + #800 * EPow P2 (EVar vSbeta) * EPow P4 (EVar vMt) + #9 * EPow P2 (EVar vSbeta) * EPow P4 (EVar vMst2) *
   EPow P4 (EVar vs2t)) + #8 * EVar vMt * EPow P2 (EVar vSbeta) * EPow P3 (EVar vs2t) * EPow P6 (EVar vMst2) + #9 *
   EVar vMst1 * EPow P2 (EVar vSbeta) * EPow P4 (EVar vs2t) * EPow P6 (EVar vMst2))) + #105 * ELog (EPow P2 (EVar
   vMst1) / EPow P2 (EVar vMst2)) * EPow P2 (EVar vMst1) * (#140 * EVar vDmglst1 * EVar vMgl * EVar vMst1 * (#16 *
   EVar vSbeta * EPow P2 (EVar vMst1) * (- #7 * EVar vCbeta * EVar vMt * EVar vMuSUSY + #6 * EVar vs2t * EVar vSbeta *
   EPow P2 (EVar vMst2)) * EPow P3 (EVar vMt) * EPow P4 (EVar vMst2) - #4 * EVar vMt * EPow P2 (EVar vMst2) * EPow P4
   (EVar vMst1) * (- #45 * EVar vCbeta * EVar vMt * EVar vMuSUSY * EVar vSbeta * EPow P2 (EVar vMst2) * EPow P2 (EVar
   vs2t) - #60 * EVar vs2t * EPow P2 (EVar vMt) * (EPow P2 (EVar vMuSUSY) * (- #1 + EPow P2 (EVar vSbeta)) + EPow P2
   (EVar vMst2) * EPow P2 (EVar vSbeta)) + #88 * EVar vCbeta * EVar vMuSUSY * EVar vSbeta * EPow P3 (EVar vMt) + #15 *
   EPow P2 (EVar vSbeta) * EPow P3 (EVar vs2t) * EPow P4 (EVar vMst2)) + #5 * EPow P3 (EVar vMst1) * EPow P4 (EVar
   vMst2) * (- #8 * EPow P2 (EVar vMt) * EPow P2 (EVar vMuSUSY) * EPow P2 (EVar vs2t) * (- #1 + EPow P2 (EVar vSbeta))
   - #4 * EVar vCbeta * EVar vMt * EVar vMuSUSY * EVar vSbeta * EPow P2 (EVar vMst2) * EPow P3 (EVar vs2t) + #16 *
   EPow P2 (EVar vSbeta) * EPow P4 (EVar vMt) + EPow P2 (EVar vSbeta) * EPow P4 (EVar vMst2) * EPow P4 (EVar vs2t)) +
   #12 * EPow P4 (EVar vMsq) * (#2 * EVar vMt * EVar vs2t * EVar vSbeta * (#117 * EVar vCbeta * EVar vMt * EVar
   vMuSUSY * EVar vs2t + #388 * EVar vSbeta * EPow P2 (EVar vMt) - #33 * EVar vSbeta * EPow P2 (EVar vMst2) * EPow P2
   (EVar vs2t)) * EPow P4 (EVar vMst1) + #3 * EVar vMst1 * EPow P2 (EVar vs2t) * (#4 * EPow P2 (EVar vMt) + EPow P2
   (EVar vMst2) * EPow P2 (EVar vs2t)) * EPow P2 (EVar vSbeta) * EPow P4 (EVar vMst2) + #2 * EVar vMt * EVar vs2t * (-
   #8 * EPow P2 (EVar vMt) + #7 * EPow P2 (EVar vMst2) * EPow P2 (EVar vs2t)) * EPow P2 (EVar vSbeta) * EPow P4 (EVar
   vMst2) + #2 * EVar vMt * EPow P2 (EVar vMst1) * (#18 * EVar vCbeta * EVar vMt * EVar vMuSUSY * EVar vSbeta * EPow
   P2 (EVar vMst2) * EPow P2 (EVar vs2t) + #4 * EVar vs2t * EPow P2 (EVar vMt) * (EPow P2 (EVar vMuSUSY) + #20 * EPow
   P2 (EVar vMst2) * EPow P2 (EVar vSbeta) - EPow P2 (EVar vMuSUSY) * EPow P2 (EVar vSbeta)) - #44 * EVar vCbeta *
   EVar vMuSUSY * EVar vSbeta * EPow P3 (EVar vMt) - #13 * EPow P2 (EVar vSbeta) * EPow P3 (EVar vs2t) * EPow P4 (EVar
   vMst2)) + EPow P3 (EVar vMst1) * (#4 * EPow P2 (EVar vMt) * EPow P2 (EVar vs2t) * (- #18 * EPow P2 (EVar vMuSUSY) *
   (- #1 + EPow P2 (EVar vSbeta)) + #7 * EPow P2 (EVar vMst2) * EPow P2 (EVar vSbeta)) - #80 * EVar vCbeta * EVar
   vMuSUSY * EVar vs2t * EVar vSbeta * EPow P3 (EVar vMt) - #24 * EVar vCbeta * EVar vMt * EVar vMuSUSY * EVar vSbeta
   * EPow P2 (EVar vMst2) * EPow P3 (EVar vs2t) - #232 * EPow P2 (EVar vSbeta) * EPow P4 (EVar vMt) + #3 * EPow P2
   (EVar vSbeta) * EPow P4 (EVar vMst2) * EPow P4 (EVar vs2t))) + #48 * EVar vMst1 * EPow P2 (EVar vSbeta) * EPow P4
   (EVar vMt) * EPow P6 (EVar vMst2) + EPow P2 (EVar vMsq) * (- #8 * EPow P2 (EVar vMst2) * EPow P2 (EVar vs2t) * EPow
   P3 (EVar vMst1) * (- #17 * EVar vCbeta * EVar vMt * EVar vMuSUSY * EVar vs2t * EVar vSbeta * EPow P2 (EVar vMst2) -
   #28 * EPow P2 (EVar vMt) * EPow P2 (EVar vMuSUSY) * (- #1 + EPow P2 (EVar vSbeta)) + #5 * EPow P2 (EVar vs2t) *
   EPow P2 (EVar vSbeta) * EPow P4 (EVar vMst2)) - #32 * EVar vMt * EPow P4 (EVar vMst1) * (- #18 * EVar vCbeta * EVar
   vMt * EVar vMuSUSY * EVar vSbeta * EPow P2 (EVar vMst2) * EPow P2 (EVar vs2t) - #36 * EVar vs2t * EPow P2 (EVar
   vMt) * EPow P2 (EVar vMuSUSY) * (- #1 + EPow P2 (EVar vSbeta)) + #14 * EVar vCbeta * EVar vMuSUSY * EVar vSbeta *
   EPow P3 (EVar vMt) + #3 * EPow P2 (EVar vSbeta) * EPow P3 (EVar vs2t) * EPow P4 (EVar vMst2)) - #32 * EVar vMt *
   EPow P2 (EVar vMst1) * EPow P2 (EVar vMst2) * (- #9 * EVar vCbeta * EVar vMt * EVar vMuSUSY * EVar vSbeta * EPow P2
   (EVar vMst2) * EPow P2 (EVar vs2t) - #12 * EVar vs2t * EPow P2 (EVar vMt) * (EPow P2 (EVar vMuSUSY) * (- #1 + EPow
   P2 (EVar vSbeta)) + EPow P2 (EVar vMst2) * EPow P2 (EVar vSbeta)) + #14 * EVar vCbeta * EVar vMuSUSY * EVar vSbeta
   * EPow P3 (EVar vMt) + #3 * EPow P2 (EVar vSbeta) * EPow P3 (EVar vs2t) * EPow P4 (EVar vMst2)) + #6 * EVar vMst1 *
   EPow P2 (EVar vSbeta) * EPow P4 (EVar vMst2) * (#16 * EPow P4 (EVar vMt) + EPow P4 (EVar vMst2) * EPow P4 (EVar
   vs2t)) + #64 * EVar vs2t * EPow P2 (EVar vSbeta) * EPow P3 (EVar vMt) * EPow P6 (EVar vMst2)) + #16 * EVar vs2t *
   EPow P2 (EVar vSbeta) * EPow P3 (EVar vMt) * EPow P8 (EVar vMst2)) + #70 * EVar vMst1 * EPow P2 (EVar vDmglst1) *
   (#32 * EVar vSbeta * EPow P2 (EVar vMst1) * (- #7 * EVar vCbeta * EVar vMt * EVar vMuSUSY + #12 * EVar vs2t * EVar
   vSbeta * EPow P2 (EVar vMst2)) * EPow P3 (EVar vMt) * EPow P4 (EVar vMst2) - #8 * EVar vMt * EPow P2 (EVar vMst2) *
   EPow P4 (EVar vMst1) * (- #135 * EVar vCbeta * EVar vMt * EVar vMuSUSY * EVar vSbeta * EPow P2 (EVar vMst2) * EPow
   P2 (EVar vs2t) - #180 * EVar vs2t * EPow P2 (EVar vMt) * (EPow P2 (EVar vMuSUSY) * (- #1 + EPow P2 (EVar vSbeta)) +
   EPow P2 (EVar vMst2) * EPow P2 (EVar vSbeta)) + #232 * EVar vCbeta * EVar vMuSUSY * EVar vSbeta * EPow P3 (EVar
   vMt) + #45 * EPow P2 (EVar vSbeta) * EPow P3 (EVar vs2t) * EPow P4 (EVar vMst2)) + #25 * EPow P3 (EVar vMst1) *
   EPow P4 (EVar vMst2) * (- #8 * EPow P2 (EVar vMt) * EPow P2 (EVar vMuSUSY) * EPow P2 (EVar vs2t) * (- #1 + EPow P2
   (EVar vSbeta)) - #4 * EVar vCbeta * EVar vMt * EVar vMuSUSY * EVar vSbeta * EPow P2 (EVar vMst2) * EPow P3 (EVar
   vs2t) + #16 * EPow P2 (EVar vSbeta) * EPow P4 (EVar vMt) + EPow P2 (EVar vSbeta) * EPow P4 (EVar vMst2) * EPow P4
   (EVar vs2t)) + #12 * EPow P4 (EVar vMsq) * (#12 * EVar vMt * EVar vs2t * EVar vSbeta * (#157 * EVar vCbeta * EVar
   vMt * EVar vMuSUSY * EVar vs2t + #428 * EVar vSbeta * EPow P2 (EVar vMt) - #37 * EVar vSbeta * EPow P2 (EVar vMst2)
   * EPow P2 (EVar vs2t)) * EPow P4 (EVar vMst1) + #9 * EVar vMst1 * EPow P2 (EVar vs2t) * (#4 * EPow P2 (EVar vMt) +
   EPow P2 (EVar vMst2) * EPow P2 (EVar vs2t)) * EPow P2 (EVar vSbeta) * EPow P4 (EVar vMst2) + #4 * EVar vMt * EVar
   vs2t * (- #8 * EPow P2 (EVar vMt) + #7 * EPow P2 (EVar vMst2) * EPow P2 (EVar vs2t)) * EPow P2 (EVar vSbeta) * EPow
   P4 (EVar vMst2) - #4 * EVar vMt * EPow P2 (EVar vMst1) * (- #18 * EVar vCbeta * EVar vMt * EVar vMuSUSY * EVar
   vSbeta * EPow P2 (EVar vMst2) * EPow P2 (EVar vs2t) + #4 * EVar vs2t * EPow P2 (EVar vMt) * (EPow P2 (EVar vMuSUSY)
   * (- #1 + EPow P2 (EVar vSbeta)) - #52 * EPow P2 (EVar vMst2) * EPow P2 (EVar vSbeta)) + #44 * EVar vCbeta * EVar
   vMuSUSY * EVar vSbeta * EPow P3 (EVar vMt) + #53 * EPow P2 (EVar vSbeta) * EPow P3 (EVar vs2t) * EPow P4 (EVar
   vMst2)) - #4 * EPow P3 (EVar vMst1) * (EPow P2 (EVar vMt) * EPow P2 (EVar vs2t) * (#84 * EPow P2 (EVar vMuSUSY) *
   (- #1 + EPow P2 (EVar vSbeta)) - #41 * EPow P2 (EVar vMst2) * EPow P2 (EVar vSbeta)) + #100 * EVar vCbeta * EVar
   vMuSUSY * EVar vs2t * EVar vSbeta * EPow P3 (EVar vMt) + #33 * EVar vCbeta * EVar vMt * EVar vMuSUSY * EVar vSbeta
   * EPow P2 (EVar vMst2) * EPow P3 (EVar vs2t) + #330 * EPow P2 (EVar vSbeta) * EPow P4 (EVar vMt) - #6 * EPow P2
   (EVar vSbeta) * EPow P4 (EVar vMst2) * EPow P4 (EVar vs2t))) + #144 * EVar vMst1 * EPow P2 (EVar vSbeta) * EPow P4
   (EVar vMt) * EPow P6 (EVar vMst2) - #2 * EPow P2 (EVar vMsq) * (#4 * EPow P2 (EVar vMst2) * EPow P2 (EVar vs2t) *
   EPow P3 (EVar vMst1) * (- #91 * EVar vCbeta * EVar vMt * EVar vMuSUSY * EVar vs2t * EVar vSbeta * EPow P2 (EVar
   vMst2) - #164 * EPow P2 (EVar vMt) * EPow P2 (EVar vMuSUSY) * (- #1 + EPow P2 (EVar vSbeta)) + #25 * EPow P2 (EVar
   vs2t) * EPow P2 (EVar vSbeta) * EPow P4 (EVar vMst2)) + #64 * EVar vMt * EPow P4 (EVar vMst1) * (- #18 * EVar
   vCbeta * EVar vMt * EVar vMuSUSY * EVar vSbeta * EPow P2 (EVar vMst2) * EPow P2 (EVar vs2t) - #36 * EVar vs2t *
   EPow P2 (EVar vMt) * EPow P2 (EVar vMuSUSY) * (- #1 + EPow P2 (EVar vSbeta)) + #13 * EVar vCbeta * EVar vMuSUSY *
   EVar vSbeta * EPow P3 (EVar vMt) + #3 * EPow P2 (EVar vSbeta) * EPow P3 (EVar vs2t) * EPow P4 (EVar vMst2)) + #32 *
   EVar vMt * EPow P2 (EVar vMst1) * EPow P2 (EVar vMst2) * (- #9 * EVar vCbeta * EVar vMt * EVar vMuSUSY * EVar
   vSbeta * EPow P2 (EVar vMst2) * EPow P2 (EVar vs2t) - #12 * EVar vs2t * EPow P2 (EVar vMt) * (EPow P2 (EVar
   vMuSUSY) * (- #1 + EPow P2 (EVar vSbeta)) + #2 * EPow P2 (EVar vMst2) * EPow P2 (EVar vSbeta)) + #14 * EVar vCbeta
   * EVar vMuSUSY * EVar vSbeta * EPow P3 (EVar vMt) + #6 * EPow P2 (EVar vSbeta) * EPow P3 (EVar vs2t) * EPow P4
   (EVar vMst2)) - #9 * EVar vMst1 * EPow P2 (EVar vSbeta) * EPow P4 (EVar vMst2) * (#16 * EPow P4 (EVar vMt) + EPow
   P4 (EVar vMst2) * EPow P4 (EVar vs2t)) - #64 * EVar vs2t * EPow P2 (EVar vSbeta) * EPow P3 (EVar vMt) * EPow P6
   (EVar vMst2)) + #32 * EVar vs2t * EPow P2 (EVar vSbeta) * EPow P3 (EVar vMt) * EPow P8 (EVar vMst2)) + EPow P2
   (EVar vMgl) * (#2240 * EVar vSbeta * (- #3 * EVar vCbeta * EVar vMt * EVar vMuSUSY + #2 * EVar vs2t * EVar vSbeta *
   EPow P2 (EVar vMst2)) * EPow P3 (EVar vMst1) * EPow P3 (EVar vMt) * EPow P4 (EVar vMst2) + EPow P4 (EVar vMst1) *
   EPow P4 (EVar vMst2) * (#72 * EPow P2 (EVar vMt) * EPow P2 (EVar vs2t) * (#3 * EPow P2 (EVar vMuSUSY) * (- #1 +
   EPow P2 (EVar vSbeta)) - #7 * EPow P2 (EVar vMst2) * EPow P2 (EVar vSbeta)) - #112 * EVar vCbeta * EVar vMuSUSY *
   EVar vs2t * EVar vSbeta * EPow P3 (EVar vMt) - #308 * EVar vCbeta * EVar vMt * EVar vMuSUSY * EVar vSbeta * EPow P2
   (EVar vMst2) * EPow P3 (EVar vs2t) + #2800 * EPow P2 (EVar vSbeta) * EPow P4 (EVar vMt) + #163 * EPow P2 (EVar
   vSbeta) * EPow P4 (EVar vMst2) * EPow P4 (EVar vs2t)) - #1680 * EVar vMt * EPow P2 (EVar vMst2) * (- #3 * EVar
   vCbeta * EVar vMt * EVar vMuSUSY * EVar vSbeta * EPow P2 (EVar vMst2) * EPow P2 (EVar vs2t) - #4 * EVar vs2t * EPow
   P2 (EVar vMt) * (EPow P2 (EVar vMuSUSY) * (- #1 + EPow P2 (EVar vSbeta)) + EPow P2 (EVar vMst2) * EPow P2 (EVar
   vSbeta)) + #8 * EVar vCbeta * EVar vMuSUSY * EVar vSbeta * EPow P3 (EVar vMt) + EPow P2 (EVar vSbeta) * EPow P3
   (EVar vs2t) * EPow P4 (EVar vMst2)) * EPow P5 (EVar vMst1) + #70 * EPow P4 (EVar vMsq) * (#48 * EVar vMst1 * EVar
   vMt * EVar vs2t * (- #8 * EPow P2 (EVar vMt) + #7 * EPow P2 (EVar vMst2) * EPow P2 (EVar vs2t)) * EPow P2 (EVar
   vSbeta) * EPow P4 (EVar vMst2) + #48 * EVar vMt * EPow P3 (EVar vMst1) * (- #30 * EVar vCbeta * EVar vMt * EVar
   vMuSUSY * EVar vSbeta * EPow P2 (EVar vMst2) * EPow P2 (EVar vs2t) + #4 * EVar vs2t * EPow P2 (EVar vMt) * (- #17 *
   EPow P2 (EVar vMuSUSY) * (- #1 + EPow P2 (EVar vSbeta)) + #4 * EPow P2 (EVar vMst2) * EPow P2 (EVar vSbeta)) + #4 *
   EVar vCbeta * EVar vMuSUSY * EVar vSbeta * EPow P3 (EVar vMt) + #3 * EPow P2 (EVar vSbeta) * EPow P3 (EVar vs2t) *
   EPow P4 (EVar vMst2)) + #4 * EVar vs2t * EPow P2 (EVar vMst1) * EPow P2 (EVar vMst2) * (- #59 * EVar vCbeta * EVar
   vMt * EVar vMuSUSY * EVar vSbeta * EPow P2 (EVar vMst2) * EPow P2 (EVar vs2t) + #4 * EVar vs2t * EPow P2 (EVar vMt)
   * (- #47 * EPow P2 (EVar vMuSUSY) * (- #1 + EPow P2 (EVar vSbeta)) + #16 * EPow P2 (EVar vMst2) * EPow P2 (EVar
   vSbeta)) - #72 * EVar vCbeta * EVar vMuSUSY * EVar vSbeta * EPow P3 (EVar vMt) + #6 * EPow P2 (EVar vSbeta) * EPow
   P3 (EVar vs2t) * EPow P4 (EVar vMst2)) + EPow P2 (EVar vSbeta) * EPow P4 (EVar vMst2) * (- #112 * EPow P2 (EVar
   vMst2) * EPow P2 (EVar vMt) * EPow P2 (EVar vs2t) - #80 * EPow P4 (EVar vMt) + #35 * EPow P4 (EVar vMst2) * EPow P4
   (EVar vs2t)) - #4 * EPow P4 (EVar vMst1) * (#2 * EPow P2 (EVar vMt) * EPow P2 (EVar vs2t) * (#121 * EPow P2 (EVar
   vMuSUSY) * (- #1 + EPow P2 (EVar vSbeta)) - #12 * EPow P2 (EVar vMst2) * EPow P2 (EVar vSbeta)) + #120 * EVar
   vCbeta * EVar vMuSUSY * EVar vs2t * EVar vSbeta * EPow P3 (EVar vMt) + #27 * EVar vCbeta * EVar vMt * EVar vMuSUSY
   * EVar vSbeta * EPow P2 (EVar vMst2) * EPow P3 (EVar vs2t) + #288 * EPow P2 (EVar vSbeta) * EPow P4 (EVar vMt) + #8
   * EPow P2 (EVar vSbeta) * EPow P4 (EVar vMst2) * EPow P4 (EVar vs2t)) + #48 * EVar vMt * EVar vs2t * EVar vSbeta *
   (- #15 * EVar vCbeta * EVar vMt * EVar vMuSUSY * EVar vs2t + #68 * EVar vSbeta * EPow P2 (EVar vMt) - #5 * EVar
   vSbeta * EPow P2 (EVar vMst2) * EPow P2 (EVar vs2t)) * EPow P5 (EVar vMst1)) + #8 * EVar vMt * EPow P2 (EVar vMst1)
   * (- #140 * EVar vCbeta * EVar vMuSUSY * EVar vs2t * EVar vSbeta * EPow P2 (EVar vMt) + EVar vMt * EPow P2 (EVar
   vs2t) * (#104 * EPow P2 (EVar vMuSUSY) * (- #1 + EPow P2 (EVar vSbeta)) + #33 * EPow P2 (EVar vMst2) * EPow P2
   (EVar vSbeta)) + #420 * EPow P2 (EVar vSbeta) * EPow P3 (EVar vMt) + #43 * EVar vCbeta * EVar vMuSUSY * EVar vSbeta
   * EPow P2 (EVar vMst2) * EPow P3 (EVar vs2t)) * EPow P6 (EVar vMst2) - #28 * EPow P2 (EVar vMsq) * (EPow P2 (EVar
   vMst2) * EPow P2 (EVar vs2t) * EPow P4 (EVar vMst1) * (- #160 * EVar vCbeta * EVar vMt * EVar vMuSUSY * EVar vs2t *
   EVar vSbeta * EPow P2 (EVar vMst2) - #4 * EPow P2 (EVar vMt) * (#88 * EPow P2 (EVar vMuSUSY) * (- #1 + EPow P2
   (EVar vSbeta)) - #5 * EPow P2 (EVar vMst2) * EPow P2 (EVar vSbeta)) + #41 * EPow P2 (EVar vs2t) * EPow P2 (EVar
   vSbeta) * EPow P4 (EVar vMst2)) + #160 * EVar vMt * EPow P2 (EVar vMst2) * EPow P3 (EVar vMst1) * (- #3 * EVar
   vCbeta * EVar vMt * EVar vMuSUSY * EVar vSbeta * EPow P2 (EVar vMst2) * EPow P2 (EVar vs2t) - #4 * EVar vs2t * EPow
   P2 (EVar vMt) * (EPow P2 (EVar vMuSUSY) * (- #1 + EPow P2 (EVar vSbeta)) + EPow P2 (EVar vMst2) * EPow P2 (EVar
   vSbeta)) + #6 * EVar vCbeta * EVar vMuSUSY * EVar vSbeta * EPow P3 (EVar vMt) + EPow P2 (EVar vSbeta) * EPow P3
   (EVar vs2t) * EPow P4 (EVar vMst2)) + #2 * EPow P2 (EVar vMst1) * EPow P4 (EVar vMst2) * (#16 * EPow P2 (EVar vMt)
   * EPow P2 (EVar vs2t) * (- (EPow P2 (EVar vMuSUSY) * (- #1 + EPow P2 (EVar vSbeta))) + EPow P2 (EVar vMst2) * EPow
   P2 (EVar vSbeta)) + #20 * EVar vCbeta * EVar vMuSUSY * EVar vs2t * EVar vSbeta * EPow P3 (EVar vMt) + #2 * EVar
   vCbeta * EVar vMt * EVar vMuSUSY * EVar vSbeta * EPow P2 (EVar vMst2) * EPow P3 (EVar vs2t) - #120 * EPow P2 (EVar
   vSbeta) * EPow P4 (EVar vMt) - #3 * EPow P2 (EVar vSbeta) * EPow P4 (EVar vMst2) * EPow P4 (EVar vs2t)) + #160 *
   EVar vMt * (- #6 * EVar vCbeta * EVar vMt * EVar vMuSUSY * EVar vSbeta * EPow P2 (EVar vMst2) * EPow P2 (EVar vs2t)
   - #12 * EVar vs2t * EPow P2 (EVar vMt) * EPow P2 (EVar vMuSUSY) * (- #1 + EPow P2 (EVar vSbeta)) + #6 * EVar vCbeta
   * EVar vMuSUSY * EVar vSbeta * EPow P3 (EVar vMt) + EPow P2 (EVar vSbeta) * EPow P3 (EVar vs2t) * EPow P4 (EVar
   vMst2)) * EPow P5 (EVar vMst1) - #320 * EVar vMst1 * EVar vs2t * EPow P2 (EVar vSbeta) * EPow P3 (EVar vMt) * EPow
   P6 (EVar vMst2) - #4 * EVar vMt * EVar vSbeta * (#13 * EVar vMt * EVar vSbeta * EPow P2 (EVar vMst2) * EPow P2
   (EVar vs2t) + #16 * EVar vSbeta * EPow P3 (EVar vMt) + #5 * EVar vCbeta * EVar vMuSUSY * EPow P2 (EVar vMst2) *
   EPow P3 (EVar vs2t)) * EPow P6 (EVar vMst2)) - #1680 * EPow P6 (EVar vMsq) * (EPow P2 (EVar vMst1) * EPow P2 (EVar
   vs2t) * (#8 * EPow P2 (EVar vMt) * EPow P2 (EVar vMuSUSY) * (- #1 + EPow P2 (EVar vSbeta)) + EPow P2 (EVar vs2t) *
   EPow P2 (EVar vSbeta) * EPow P4 (EVar vMst2)) - EPow P2 (EVar vSbeta) * EPow P4 (EVar vs2t) * EPow P6 (EVar vMst2))
   + #16 * EPow P2 (EVar vMt) * (- #37 * EVar vCbeta * EVar vMt * EVar vMuSUSY * EVar vs2t * EVar vSbeta + #9 * EPow
   P2 (EVar vMuSUSY) * EPow P2 (EVar vs2t) * (- #1 + EPow P2 (EVar vSbeta)) + #9 * EPow P2 (EVar vMt) * EPow P2 (EVar
   vSbeta)) * EPow P8 (EVar vMst2) + #2240 * EVar vMst1 * EVar vs2t * EPow P2 (EVar vSbeta) * EPow P3 (EVar vMt) *
   EPow P8 (EVar vMst2)))) / (#4410 * EPow P2 (EVar vMgl) * EPow P2 (EVar vMst1) * EPow P2 (EVar vSbeta) * EPow P4
   (EVar vMsq) * EPow P4 (EVar vMst2) * EPow P4 (EVar vMt)) + EPow P2 (ELog (EPow P2 (EVar vMst1) / EPow P2 (EVar
   vMst2))) * (EPow P2 (EVar vMgl) * (#30 * EPow P2 (EVar vMst2) * (#32 * EVar vMt * EVar vs2t * EPow P2 (EVar vMst1)
   * (- #70 * EVar vCbeta * EVar vMuSUSY * EVar vSbeta * EPow P2 (EVar vMt) + #23 * EVar vCbeta * EVar vMuSUSY * EVar
   vSbeta * EPow P2 (EVar vMst2) * EPow P2 (EVar vs2t) + #6 * EVar vMt * EVar vs2t * (#9 * EPow P2 (EVar vMuSUSY) * (-
   #1 + EPow P2 (EVar vSbeta)) + #4 * EPow P2 (EVar vMst2) * EPow P2 (EVar vSbeta))) * EPow P4 (EVar vMst2) + EVar
   vs2t * EPow P2 (EVar vMst2) * EPow P4 (EVar vMst1) * (#420 * EVar vCbeta * EVar vMt * EVar vMuSUSY * EVar vSbeta *
   EPow P2 (EVar vMst2) * EPow P2 (EVar vs2t) + #2568 * EVar vs2t * EPow P2 (EVar vMt) * EPow P2 (EVar vMuSUSY) * (-
   #1 + EPow P2 (EVar vSbeta)) - #2240 * EVar vCbeta * EVar vMuSUSY * EVar vSbeta * EPow P3 (EVar vMt) + #79 * EPow P2
   (EVar vSbeta) * EPow P3 (EVar vs2t) * EPow P4 (EVar vMst2)) + #1680 * EVar vMt * EVar vs2t * (#3 * EVar vCbeta *
   EVar vMt * EVar vMuSUSY * EVar vs2t * EVar vSbeta * EPow P2 (EVar vMst2) + #4 * EPow P2 (EVar vMt) * EPow P2 (EVar
   vMuSUSY) * (- #1 + EPow P2 (EVar vSbeta)) - EPow P2 (EVar vs2t) * EPow P2 (EVar vSbeta) * EPow P4 (EVar vMst2)) *
   EPow P5 (EVar vMst1) - #64 * EPow P2 (EVar vMt) * (#11 * EVar vCbeta * EVar vMt * EVar vMuSUSY * EVar vs2t * EVar
   vSbeta - #4 * EPow P2 (EVar vMuSUSY) * EPow P2 (EVar vs2t) * (- #1 + EPow P2 (EVar vSbeta)) + #24 * EPow P2 (EVar
   vMt) * EPow P2 (EVar vSbeta)) * EPow P6 (EVar vMst2)) + #840 * EPow P2 (EVar vMsq) * (- #160 * EVar vMt * EVar vs2t
   * EPow P2 (EVar vMst2) * EPow P3 (EVar vMst1) * (- #3 * EVar vCbeta * EVar vMt * EVar vMuSUSY * EVar vs2t * EVar
   vSbeta * EPow P2 (EVar vMst2) - #4 * EPow P2 (EVar vMt) * EPow P2 (EVar vMuSUSY) * (- #1 + EPow P2 (EVar vSbeta)) +
   EPow P2 (EVar vs2t) * EPow P2 (EVar vSbeta) * EPow P4 (EVar vMst2)) + EVar vs2t * EPow P2 (EVar vMst1) * EPow P4
   (EVar vMst2) * (#76 * EVar vCbeta * EVar vMt * EVar vMuSUSY * EVar vSbeta * EPow P2 (EVar vMst2) * EPow P2 (EVar
   vs2t) + #8 * EVar vs2t * EPow P2 (EVar vMt) * (#29 * EPow P2 (EVar vMuSUSY) * (- #1 + EPow P2 (EVar vSbeta)) + #6 *
   EPow P2 (EVar vMst2) * EPow P2 (EVar vSbeta)) - #240 * EVar vCbeta * EVar vMuSUSY * EVar vSbeta * EPow P3 (EVar
   vMt) - #9 * EPow P2 (EVar vSbeta) * EPow P3 (EVar vs2t) * EPow P4 (EVar vMst2)) - #4 * EVar vs2t * EPow P2 (EVar
   vMst2) * EPow P4 (EVar vMst1) * (- #75 * EVar vCbeta * EVar vMt * EVar vMuSUSY * EVar vSbeta * EPow P2 (EVar vMst2)
   * EPow P2 (EVar vs2t) - #208 * EVar vs2t * EPow P2 (EVar vMt) * EPow P2 (EVar vMuSUSY) * (- #1 + EPow P2 (EVar
   vSbeta)) + #60 * EVar vCbeta * EVar vMuSUSY * EVar vSbeta * EPow P3 (EVar vMt) + #14 * EPow P2 (EVar vSbeta) * EPow
   P3 (EVar vs2t) * EPow P4 (EVar vMst2)) + #160 * EVar vMt * EVar vSbeta * (#3 * EVar vCbeta * EVar vMt * EVar
   vMuSUSY * (#4 * EPow P2 (EVar vMt) - EPow P2 (EVar vMst2) * EPow P2 (EVar vs2t)) + #2 * EVar vs2t * EVar vSbeta *
   EPow P2 (EVar vMst2) * (- #6 * EPow P2 (EVar vMt) + EPow P2 (EVar vMst2) * EPow P2 (EVar vs2t))) * EPow P5 (EVar
   vMst1) + #8 * EVar vMt * EVar vSbeta * (#9 * EVar vMt * EVar vSbeta * EPow P2 (EVar vMst2) * EPow P2 (EVar vs2t) -
   #12 * EVar vSbeta * EPow P3 (EVar vMt) + #5 * EVar vCbeta * EVar vMuSUSY * EPow P2 (EVar vMst2) * EPow P3 (EVar
   vs2t)) * EPow P6 (EVar vMst2)) + EPow P4 (EVar vMsq) * (#3360 * EVar vMst1 * EVar vMt * EVar vs2t * (- #128 * EPow
   P2 (EVar vMt) + #797 * EPow P2 (EVar vMst2) * EPow P2 (EVar vs2t)) * EPow P2 (EVar vSbeta) * EPow P4 (EVar vMst2) -
   #1120 * EVar vMt * EPow P3 (EVar vMst1) * (#9750 * EVar vCbeta * EVar vMt * EVar vMuSUSY * EVar vSbeta * EPow P2
   (EVar vMst2) * EPow P2 (EVar vs2t) + #4 * EVar vs2t * EPow P2 (EVar vMt) * (#5641 * EPow P2 (EVar vMuSUSY) * (- #1
   + EPow P2 (EVar vSbeta)) - #2094 * EPow P2 (EVar vMst2) * EPow P2 (EVar vSbeta)) + #7032 * EVar vCbeta * EVar
   vMuSUSY * EVar vSbeta * EPow P3 (EVar vMt) - #859 * EPow P2 (EVar vSbeta) * EPow P3 (EVar vs2t) * EPow P4 (EVar
   vMst2)) + #210 * EPow P2 (EVar vSbeta) * EPow P4 (EVar vMst2) * (- #6112 * EPow P2 (EVar vMst2) * EPow P2 (EVar
   vMt) * EPow P2 (EVar vs2t) + #32 * EPow P4 (EVar vMt) + #2193 * EPow P4 (EVar vMst2) * EPow P4 (EVar vs2t)) - EPow
   P4 (EVar vMst1) * (#8 * EPow P2 (EVar vMt) * EPow P2 (EVar vs2t) * (#2258059 * EPow P2 (EVar vMuSUSY) * (- #1 +
   EPow P2 (EVar vSbeta)) + #184876 * EPow P2 (EVar vMst2) * EPow P2 (EVar vSbeta)) + #1626368 * EVar vCbeta * EVar
   vMuSUSY * EVar vs2t * EVar vSbeta * EPow P3 (EVar vMt) + #3082012 * EVar vCbeta * EVar vMt * EVar vMuSUSY * EVar
   vSbeta * EPow P2 (EVar vMst2) * EPow P3 (EVar vs2t) + #2834624 * EPow P2 (EVar vSbeta) * EPow P4 (EVar vMt) +
   #256523 * EPow P2 (EVar vSbeta) * EPow P4 (EVar vMst2) * EPow P4 (EVar vs2t)) + #560 * EVar vMt * EVar vs2t * EVar
   vSbeta * (- #27237 * EVar vCbeta * EVar vMt * EVar vMuSUSY * EVar vs2t + #37192 * EVar vSbeta * EPow P2 (EVar vMt)
   + #2579 * EVar vSbeta * EPow P2 (EVar vMst2) * EPow P2 (EVar vs2t)) * EPow P5 (EVar vMst1) - #56 * EPow P2 (EVar
   vMst1) * (- #12 * EPow P2 (EVar vMst2) * EPow P2 (EVar vMt) * EPow P2 (EVar vs2t) * (- #17709 * EPow P2 (EVar
   vMuSUSY) * (- #1 + EPow P2 (EVar vSbeta)) + #4601 * EPow P2 (EVar vMst2) * EPow P2 (EVar vSbeta)) + #70344 * EVar
   vCbeta * EVar vMuSUSY * EVar vs2t * EVar vSbeta * EPow P2 (EVar vMst2) * EPow P3 (EVar vMt) + #73359 * EVar vCbeta
   * EVar vMt * EVar vMuSUSY * EVar vSbeta * EPow P3 (EVar vs2t) * EPow P4 (EVar vMst2) + #32 * (#1440 * EPow P2 (EVar
   vMuSUSY) * (- #1 + EPow P2 (EVar vSbeta)) - #823 * EPow P2 (EVar vMst2) * EPow P2 (EVar vSbeta)) * EPow P4 (EVar
   vMt) - #10116 * EPow P2 (EVar vSbeta) * EPow P4 (EVar vs2t) * EPow P6 (EVar vMst2)))) + #140 * EVar vDmglst1 * EVar
   vMgl * (#150 * EVar vs2t * EPow P2 (EVar vMst2) * EPow P4 (EVar vMst1) * (#12 * EVar vMst1 * EVar vMt * (#3 * EVar
   vCbeta * EVar vMt * EVar vMuSUSY * EVar vs2t * EVar vSbeta * EPow P2 (EVar vMst2) + #4 * EPow P2 (EVar vMt) * EPow
   P2 (EVar vMuSUSY) * (- #1 + EPow P2 (EVar vSbeta)) - EPow P2 (EVar vs2t) * EPow P2 (EVar vSbeta) * EPow P4 (EVar
   vMst2)) + EVar vs2t * EPow P2 (EVar vMst2) * (- #4 * EVar vCbeta * EVar vMt * EVar vMuSUSY * EVar vs2t * EVar
   vSbeta * EPow P2 (EVar vMst2) - #8 * EPow P2 (EVar vMt) * EPow P2 (EVar vMuSUSY) * (- #1 + EPow P2 (EVar vSbeta)) +
   EPow P2 (EVar vs2t) * EPow P2 (EVar vSbeta) * EPow P4 (EVar vMst2))) + EPow P4 (EVar vMsq) * (#24 * EVar vMst1 *
   EVar vMt * EVar vs2t * (- #128 * EPow P2 (EVar vMt) + #797 * EPow P2 (EVar vMst2) * EPow P2 (EVar vs2t)) * EPow P2
   (EVar vSbeta) * EPow P4 (EVar vMst2) + #54 * EPow P2 (EVar vSbeta) * EPow P2 (- #4 * EPow P2 (EVar vMt) + EPow P2
   (EVar vMst2) * EPow P2 (EVar vs2t)) * EPow P4 (EVar vMst2) - #8 * EVar vMt * EPow P3 (EVar vMst1) * (- #1926 * EVar
   vCbeta * EVar vMt * EVar vMuSUSY * EVar vSbeta * EPow P2 (EVar vMst2) * EPow P2 (EVar vs2t) + #4 * EVar vs2t * EPow
   P2 (EVar vMt) * (#1749 * EPow P2 (EVar vMuSUSY) * (- #1 + EPow P2 (EVar vSbeta)) - #6536 * EPow P2 (EVar vMst2) *
   EPow P2 (EVar vSbeta)) + #24296 * EVar vCbeta * EVar vMuSUSY * EVar vSbeta * EPow P3 (EVar vMt) + #3033 * EPow P2
   (EVar vSbeta) * EPow P3 (EVar vs2t) * EPow P4 (EVar vMst2)) + #4 * EPow P2 (EVar vMst1) * EPow P2 (EVar vMst2) *
   EPow P2 (EVar vSbeta) * (#8200 * EPow P2 (EVar vMst2) * EPow P2 (EVar vMt) * EPow P2 (EVar vs2t) + #5648 * EPow P4
   (EVar vMt) + #1089 * EPow P4 (EVar vMst2) * EPow P4 (EVar vs2t)) + EPow P4 (EVar vMst1) * (- #8 * EPow P2 (EVar
   vMt) * EPow P2 (EVar vs2t) * (#9491 * EPow P2 (EVar vMuSUSY) * (- #1 + EPow P2 (EVar vSbeta)) + #10832 * EPow P2
   (EVar vMst2) * EPow P2 (EVar vSbeta)) + #85536 * EVar vCbeta * EVar vMuSUSY * EVar vs2t * EVar vSbeta * EPow P3
   (EVar vMt) - #20108 * EVar vCbeta * EVar vMt * EVar vMuSUSY * EVar vSbeta * EPow P2 (EVar vMst2) * EPow P3 (EVar
   vs2t) - #92736 * EPow P2 (EVar vSbeta) * EPow P4 (EVar vMt) + #617 * EPow P2 (EVar vSbeta) * EPow P4 (EVar vMst2) *
   EPow P4 (EVar vs2t)) + #4 * EVar vMt * EVar vs2t * EVar vSbeta * (#20559 * EVar vCbeta * EVar vMt * EVar vMuSUSY *
   EVar vs2t + #184728 * EVar vSbeta * EPow P2 (EVar vMt) - #5569 * EVar vSbeta * EPow P2 (EVar vMst2) * EPow P2 (EVar
   vs2t)) * EPow P5 (EVar vMst1)) + #60 * EPow P2 (EVar vMsq) * EPow P2 (EVar vMst1) * (- #48 * EVar vMst1 * EVar vMt
   * EVar vs2t * EPow P2 (EVar vMst2) * (- #3 * EVar vCbeta * EVar vMt * EVar vMuSUSY * EVar vs2t * EVar vSbeta * EPow
   P2 (EVar vMst2) - #4 * EPow P2 (EVar vMt) * EPow P2 (EVar vMuSUSY) * (- #1 + EPow P2 (EVar vSbeta)) + EPow P2 (EVar
   vs2t) * EPow P2 (EVar vSbeta) * EPow P4 (EVar vMst2)) - #4 * EPow P2 (EVar vMst1) * EPow P2 (EVar vMst2) * EPow P2
   (EVar vs2t) * (- #17 * EVar vCbeta * EVar vMt * EVar vMuSUSY * EVar vs2t * EVar vSbeta * EPow P2 (EVar vMst2) - #28
   * EPow P2 (EVar vMt) * EPow P2 (EVar vMuSUSY) * (- #1 + EPow P2 (EVar vSbeta)) + #5 * EPow P2 (EVar vs2t) * EPow P2
   (EVar vSbeta) * EPow P4 (EVar vMst2)) + #48 * EVar vMt * EPow P3 (EVar vMst1) * (- #9 * EVar vCbeta * EVar vMt *
   EVar vMuSUSY * EVar vSbeta * EPow P2 (EVar vMst2) * EPow P2 (EVar vs2t) - #4 * EVar vs2t * EPow P2 (EVar vMt) * (#2
   * EPow P2 (EVar vMuSUSY) * (- #1 + EPow P2 (EVar vSbeta)) + #5 * EPow P2 (EVar vMst2) * EPow P2 (EVar vSbeta)) +
   #20 * EVar vCbeta * EVar vMuSUSY * EVar vSbeta * EPow P3 (EVar vMt) + #4 * EPow P2 (EVar vSbeta) * EPow P3 (EVar
   vs2t) * EPow P4 (EVar vMst2)) + #3 * EPow P2 (EVar vSbeta) * EPow P4 (EVar vs2t) * EPow P8 (EVar vMst2))) + #70 *
   EPow P2 (EVar vDmglst1) * (#150 * EVar vs2t * EPow P2 (EVar vMst2) * EPow P4 (EVar vMst1) * (#72 * EVar vMst1 *
   EVar vMt * (#3 * EVar vCbeta * EVar vMt * EVar vMuSUSY * EVar vs2t * EVar vSbeta * EPow P2 (EVar vMst2) + #4 * EPow
   P2 (EVar vMt) * EPow P2 (EVar vMuSUSY) * (- #1 + EPow P2 (EVar vSbeta)) - EPow P2 (EVar vs2t) * EPow P2 (EVar
   vSbeta) * EPow P4 (EVar vMst2)) + #5 * EVar vs2t * EPow P2 (EVar vMst2) * (- #4 * EVar vCbeta * EVar vMt * EVar
   vMuSUSY * EVar vs2t * EVar vSbeta * EPow P2 (EVar vMst2) - #8 * EPow P2 (EVar vMt) * EPow P2 (EVar vMuSUSY) * (- #1
   + EPow P2 (EVar vSbeta)) + EPow P2 (EVar vs2t) * EPow P2 (EVar vSbeta) * EPow P4 (EVar vMst2))) + EPow P4 (EVar
   vMsq) * (#48 * EVar vMst1 * EVar vMt * EVar vs2t * (- #128 * EPow P2 (EVar vMt) + #797 * EPow P2 (EVar vMst2) *
   EPow P2 (EVar vs2t)) * EPow P2 (EVar vSbeta) * EPow P4 (EVar vMst2) + #162 * EPow P2 (EVar vSbeta) * EPow P2 (- #4
   * EPow P2 (EVar vMt) + EPow P2 (EVar vMst2) * EPow P2 (EVar vs2t)) * EPow P4 (EVar vMst2) - #16 * EVar vMt * EPow
   P3 (EVar vMst1) * (- #1926 * EVar vCbeta * EVar vMt * EVar vMuSUSY * EVar vSbeta * EPow P2 (EVar vMst2) * EPow P2
   (EVar vs2t) + #4 * EVar vs2t * EPow P2 (EVar vMt) * (#1749 * EPow P2 (EVar vMuSUSY) * (- #1 + EPow P2 (EVar
   vSbeta)) - #13007 * EPow P2 (EVar vMst2) * EPow P2 (EVar vSbeta)) + #24296 * EVar vCbeta * EVar vMuSUSY * EVar
   vSbeta * EPow P3 (EVar vMt) + #10107 * EPow P2 (EVar vSbeta) * EPow P3 (EVar vs2t) * EPow P4 (EVar vMst2)) + #12 *
   EPow P2 (EVar vMst1) * EPow P2 (EVar vMst2) * EPow P2 (EVar vSbeta) * (#7624 * EPow P2 (EVar vMst2) * EPow P2 (EVar
   vMt) * EPow P2 (EVar vs2t) + #5648 * EPow P4 (EVar vMt) + #1089 * EPow P4 (EVar vMst2) * EPow P4 (EVar vs2t)) +
   EPow P4 (EVar vMst1) * (- #8 * EPow P2 (EVar vMt) * EPow P2 (EVar vs2t) * (#45823 * EPow P2 (EVar vMuSUSY) * (- #1
   + EPow P2 (EVar vSbeta)) + #71536 * EPow P2 (EVar vMst2) * EPow P2 (EVar vSbeta)) + #858208 * EVar vCbeta * EVar
   vMuSUSY * EVar vs2t * EVar vSbeta * EPow P3 (EVar vMt) - #129724 * EVar vCbeta * EVar vMt * EVar vMuSUSY * EVar
   vSbeta * EPow P2 (EVar vMst2) * EPow P3 (EVar vs2t) - #474624 * EPow P2 (EVar vSbeta) * EPow P4 (EVar vMt) + #19201
   * EPow P2 (EVar vSbeta) * EPow P4 (EVar vMst2) * EPow P4 (EVar vs2t)) + #8 * EVar vMt * EVar vs2t * EVar vSbeta *
   (#126513 * EVar vCbeta * EVar vMt * EVar vMuSUSY * EVar vs2t + #533488 * EVar vSbeta * EPow P2 (EVar vMt) - #26739
   * EVar vSbeta * EPow P2 (EVar vMst2) * EPow P2 (EVar vs2t)) * EPow P5 (EVar vMst1)) + #60 * EPow P2 (EVar vMsq) *
   EPow P2 (EVar vMst1) * (- #96 * EVar vMst1 * EVar vMt * EVar vs2t * EPow P2 (EVar vMst2) * (- #3 * EVar vCbeta *
   EVar vMt * EVar vMuSUSY * EVar vs2t * EVar vSbeta * EPow P2 (EVar vMst2) - #4 * EPow P2 (EVar vMt) * EPow P2 (EVar
   vMuSUSY) * (- #1 + EPow P2 (EVar vSbeta)) + #2 * EPow P2 (EVar vs2t) * EPow P2 (EVar vSbeta) * EPow P4 (EVar
   vMst2)) - #4 * EPow P2 (EVar vMst1) * EPow P2 (EVar vMst2) * EPow P2 (EVar vs2t) * (- #91 * EVar vCbeta * EVar vMt
   * EVar vMuSUSY * EVar vs2t * EVar vSbeta * EPow P2 (EVar vMst2) - #164 * EPow P2 (EVar vMt) * EPow P2 (EVar
   vMuSUSY) * (- #1 + EPow P2 (EVar vSbeta)) + #25 * EPow P2 (EVar vs2t) * EPow P2 (EVar vSbeta) * EPow P4 (EVar
   vMst2)) + #96 * EVar vMt * EPow P3 (EVar vMst1) * (- #33 * EVar vCbeta * EVar vMt * EVar vMuSUSY * EVar vSbeta *
   EPow P2 (EVar vMst2) * EPow P2 (EVar vs2t) - #12 * EVar vs2t * EPow P2 (EVar vMt) * (#3 * EPow P2 (EVar vMuSUSY) *
   (- #1 + EPow P2 (EVar vSbeta)) + #5 * EPow P2 (EVar vMst2) * EPow P2 (EVar vSbeta)) + #60 * EVar vCbeta * EVar
   vMuSUSY * EVar vSbeta * EPow P3 (EVar vMt) + #13 * EPow P2 (EVar vSbeta) * EPow P3 (EVar vs2t) * EPow P4 (EVar
   vMst2)) + #9 * EPow P2 (EVar vSbeta) * EPow P4 (EVar vs2t) * EPow P8 (EVar vMst2)))) / (#2520 * EPow P2 (EVar vMgl)
   * EPow P2 (EVar vSbeta) * EPow P4 (EVar vMsq) * EPow P4 (EVar vMst2) * EPow P4 (EVar vMt)).

(** H5g1.cpp:3457-3775 *)
Definition H5g1_coef1 : expr :=
  - EDec 4477037037037037 13 - #11024 * EVar vDmglst1 / (#27 * EVar vMgl) + #1472 * EVar vMst1 * EVar vs2t / (#3 * EVar
   vMt) - #40192 * EVar vDmglst1 * EVar vMst1 * EVar vs2t / (#27 * EVar vMgl * EVar vMt) + #1328 * EConst Cz2 / #3 +
   #896 * EVar vMst1 * EVar vs2t * EConst Cz2 / (#3 * EVar vMt) + #896 * EVar vDmglst1 * EVar vMst1 * EVar vs2t *
   EConst Cz2 / (#3 * EVar vMgl * EVar vMt) + #128 * EConst Cz3 - #583376 * EPow P2 (EVar vDmglst1) / (#675 * EPow P2
   (EVar vMgl)) - #13376 * EVar vMst1 * EVar vs2t * EPow P2 (EVar vDmglst1) / (#3 * EVar vMt * EPow P2 (EVar vMgl)) +
   #896 * EVar vMst1 * EVar vs2t * EConst Cz2 * EPow P2 (EVar vDmglst1) / (#3 * EVar vMt * EPow P2 (EVar vMgl)) - #320
   * EPow P2 (EVar vMsq) / EPow P2 (EVar vMst1) - #880 * EPow P2 (EVar vMst1) / (#3 * EPow P2 (EVar vMsq)) - #160 *
   EVar vDmglst1 * EPow P2 (EVar vMst1) / (EVar vMgl * EPow P2 (EVar vMsq)) - #112 * EPow P2 (EVar vDmglst1) * EPow P2
   (EVar vMst1) / (#3 * EPow P2 (EVar vMgl) * EPow P2 (EVar vMsq)) - #320 * EPow P2 (EVar vMsq) / EPow P2 (EVar vMst2)
   + #448 * EPow P2 (EVar vMst1) / (#3 * EPow P2 (EVar vMst2)) + #19648 * EVar vDmglst1 * EPow P2 (EVar vMst1) / (#9 *
   EVar vMgl * EPow P2 (EVar vMst2)) - #15008 * EVar vCbeta * EVar vMuSUSY * EVar vs2t * EPow P2 (EVar vMst1) / (#3 *
   EVar vMt * EVar vSbeta * EPow P2 (EVar vMst2)) + #2368 * EConst Cz2 * EPow P2 (EVar vMst1) / (#3 * EPow P2 (EVar
   vMst2)) + #1536 * EVar vDmglst1 * EConst Cz2 * EPow P2 (EVar vMst1) / (EVar vMgl * EPow P2 (EVar vMst2)) - #1024 *
   EVar vCbeta * EVar vMuSUSY * EVar vs2t * EConst Cz2 * EPow P2 (EVar vMst1) / (EVar vMt * EVar vSbeta * EPow P2
   (EVar vMst2)) + #503056 * EPow P2 (EVar vDmglst1) * EPow P2 (EVar vMst1) / (#135 * EPow P2 (EVar vMgl) * EPow P2
   (EVar vMst2)) + #2304 * EConst Cz2 * EPow P2 (EVar vDmglst1) * EPow P2 (EVar vMst1) / (EPow P2 (EVar vMgl) * EPow
   P2 (EVar vMst2)) - #1280 * EPow P2 (EVar vMst2) / (#9 * EPow P2 (EVar vMsq)) - #3520 * EVar vMst1 * EVar vs2t *
   EPow P2 (EVar vMst2) / (#9 * EVar vMt * EPow P2 (EVar vMsq)) - #3520 * EVar vDmglst1 * EVar vMst1 * EVar vs2t *
   EPow P2 (EVar vMst2) / (#9 * EVar vMgl * EVar vMt * EPow P2 (EVar vMsq)) - #3520 * EVar vMst1 * EVar vs2t * EPow P2
   (EVar vDmglst1) * EPow P2 (EVar vMst2) / (#9 * EVar vMt * EPow P2 (EVar vMgl) * EPow P2 (EVar vMsq)) - #32 * EPow
   P2 (EVar vMst2) / EPow P2 (EVar vMst1) - #320 * EPow P2 (EVar vMsq) * EPow P2 (EVar vs2t) / EPow P2 (EVar vMt) +
   #8080 * EPow P2 (EVar vMst1) * EPow P2 (EVar vs2t) / (#3 * EPow P2 (EVar vMt)) + #52816 * EVar vDmglst1 * EPow P2
   (EVar vMst1) * EPow P2 (EVar vs2t) / (#9 * EVar vMgl * EPow P2 (EVar vMt)) + #512 * EConst Cz2 * EPow P2 (EVar
   vMst1) * EPow P2 (EVar vs2t) / EPow P2 (EVar vMt) + #1024 * EVar vDmglst1 * EConst Cz2 * EPow P2 (EVar vMst1) *
   EPow P2 (EVar vs2t) / (EVar vMgl * EPow P2 (EVar vMt)) + #86552 * EPow P2 (EVar vDmglst1) * EPow P2 (EVar vMst1) *
   EPow P2 (EVar vs2t) / (#9 * EPow P2 (EVar vMgl) * EPow P2 (EVar vMt)) + #1536 * EConst Cz2 * EPow P2 (EVar
   vDmglst1) * EPow P2 (EVar vMst1) * EPow P2 (EVar vs2t) / (EPow P2 (EVar vMgl) * EPow P2 (EVar vMt)) + #160 * EPow
   P2 (EVar vMsq) * EPow P2 (EVar vMst1) * EPow P2 (EVar vs2t) / (EPow P2 (EVar vMst2) * EPow P2 (EVar vMt)) - #208 *
   EPow P2 (EVar vMst2) * EPow P2 (EVar vs2t) / EPow P2 (EVar vMt) - #592 * EVar vDmglst1 * EPow P2 (EVar vMst2) *
   EPow P2 (EVar vs2t) / (#9 * EVar vMgl * EPow P2 (EVar vMt)) + #1384 * EPow P2 (EVar vDmglst1) * EPow P2 (EVar
   vMst2) * EPow P2 (EVar vs2t) / (#9 * EPow P2 (EVar vMgl) * EPow P2 (EVar vMt)) + #160 * EPow P2 (EVar vMsq) * EPow
   P2 (EVar vMst2) * EPow P2 (EVar vs2t) / (EPow P2 (EVar vMst1) * EPow P2 (EVar vMt)) - #960 * EPow P2 (EVar vMst1) *
   EPow P2 (EVar vMuSUSY) * EPow P2 (EVar vs2t) / (EPow P2 (EVar vMst2) * EPow P2 (EVar vMt)) - #64 * EConst Cz2 *
   EPow P2 (EVar vMst1) * EPow P2 (EVar vMuSUSY) * EPow P2 (EVar vs2t) / (#3 * EPow P2 (EVar vMst2) * EPow P2 (EVar
   vMt)) + #960 * EPow P2 (EVar vMst1) * EPow P2 (EVar vMuSUSY) * EPow P2 (EVar vs2t) / (EPow P2 (EVar vMst2) * EPow
   P2 (EVar vMt) * EPow P2 (EVar vSbeta)) + #64 * EConst Cz2 * EPow P2 (EVar vMst1) * EPow P2 (EVar vMuSUSY) * EPow P2
   (EVar vs2t) / (#3 * EPow P2 (EVar vMst2) * EPow P2 (EVar vMt) * EPow P2 (EVar vSbeta)) - #1280 * EVar vs2t * EPow
   P3 (EVar vMst1) / (#9 * EVar vMt * EPow P2 (EVar vMsq)) - #5120 * EVar vDmglst1 * EVar vs2t * EPow P3 (EVar vMst1)
   / (#3 * EVar vMgl * EVar vMt * EPow P2 (EVar vMsq)) - #14080 * EVar vs2t * EPow P2 (EVar vDmglst1) * EPow P3 (EVar
   vMst1) / (#3 * EVar vMt * EPow P2 (EVar vMgl) * EPow P2 (EVar vMsq)) + #4096 * EVar vs2t * EPow P3 (EVar vMst1) /
   (#3 * EVar vMt * EPow P2 (EVar vMst2)) + #32768 * EVar vDmglst1 * EVar vs2t * EPow P3 (EVar vMst1) / (#3 * EVar
   vMgl * EVar vMt * EPow P2 (EVar vMst2)) + #8704 * EVar vs2t * EConst Cz2 * EPow P3 (EVar vMst1) / (#3 * EVar vMt *
   EPow P2 (EVar vMst2)) + #25216 * EVar vDmglst1 * EVar vs2t * EConst Cz2 * EPow P3 (EVar vMst1) / (#3 * EVar vMgl *
   EVar vMt * EPow P2 (EVar vMst2)) + #238016 * EVar vs2t * EPow P2 (EVar vDmglst1) * EPow P3 (EVar vMst1) / (#9 *
   EVar vMt * EPow P2 (EVar vMgl) * EPow P2 (EVar vMst2)) + #49984 * EVar vs2t * EConst Cz2 * EPow P2 (EVar vDmglst1)
   * EPow P3 (EVar vMst1) / (#3 * EVar vMt * EPow P2 (EVar vMgl) * EPow P2 (EVar vMst2)) + #1600 * EVar vCbeta * EVar
   vMuSUSY * EPow P3 (EVar vMst1) / (#3 * EVar vSbeta * EPow P2 (EVar vMsq) * EPow P2 (EVar vMst2)) + #18880 * EVar
   vCbeta * EVar vDmglst1 * EVar vMuSUSY * EPow P3 (EVar vMst1) / (#9 * EVar vMgl * EVar vSbeta * EPow P2 (EVar vMsq)
   * EPow P2 (EVar vMst2)) + #18880 * EVar vCbeta * EVar vMuSUSY * EPow P2 (EVar vDmglst1) * EPow P3 (EVar vMst1) /
   (#9 * EVar vSbeta * EPow P2 (EVar vMgl) * EPow P2 (EVar vMsq) * EPow P2 (EVar vMst2)) + #32 * EVar vCbeta * EVar
   vMuSUSY * EPow P2 (EVar vs2t) * EPow P3 (EVar vMst1) / (EVar vSbeta * EPow P2 (EVar vMst2) * EPow P2 (EVar vMt)) +
   #224 * EVar vCbeta * EVar vDmglst1 * EVar vMuSUSY * EPow P2 (EVar vs2t) * EPow P3 (EVar vMst1) / (EVar vMgl * EVar
   vSbeta * EPow P2 (EVar vMst2) * EPow P2 (EVar vMt)) + #64 * EVar vCbeta * EVar vMuSUSY * EConst Cz2 * EPow P2 (EVar
   vs2t) * EPow P3 (EVar vMst1) / (EVar vSbeta * EPow P2 (EVar vMst2) * EPow P2 (EVar vMt)) + #2368 * EVar vCbeta *
   EVar vDmglst1 * EVar vMuSUSY * EConst Cz2 * EPow P2 (EVar vs2t) * EPow P3 (EVar vMst1) / (EVar vMgl * EVar vSbeta *
   EPow P2 (EVar vMst2) * EPow P2 (EVar vMt)) + #224 * EVar vCbeta * EVar vMuSUSY * EPow P2 (EVar vDmglst1) * EPow P2
   (EVar vs2t) * EPow P3 (EVar vMst1) / (EVar vSbeta * EPow P2 (EVar vMgl) * EPow P2 (EVar vMst2) * EPow P2 (EVar
   vMt)) + #2368 * EVar vCbeta * EVar vMuSUSY * EConst Cz2 * EPow P2 (EVar vDmglst1) * EPow P2 (EVar vs2t) * EPow P3
   (EVar vMst1) / (EVar vSbeta * EPow P2 (EVar vMgl) * EPow P2 (EVar vMst2) * EPow P2 (EVar vMt)) + #416 * EVar vCbeta
   * EVar vMuSUSY * EPow P2 (EVar vMst1) * EPow P3 (EVar vs2t) / (EVar vSbeta * EPow P3 (EVar vMt)) - #120 * EVar
   vCbeta * EVar vMuSUSY * EConst Cz2 * EPow P2 (EVar vMst1) * EPow P3 (EVar vs2t) / (EVar vSbeta * EPow P3 (EVar
   vMt)) - #80 * EVar vCbeta * EVar vMuSUSY * EPow P2 (EVar vMsq) * EPow P2 (EVar vMst1) * EPow P3 (EVar vs2t) / (EVar
   vSbeta * EPow P2 (EVar vMst2) * EPow P3 (EVar vMt)) + #5344 * EVar vMst1 * EPow P2 (EVar vMst2) * EPow P3 (EVar
   vs2t) / (#3 * EPow P3 (EVar vMt)) + #6464 * EVar vDmglst1 * EVar vMst1 * EPow P2 (EVar vMst2) * EPow P3 (EVar vs2t)
   / (#3 * EVar vMgl * EPow P3 (EVar vMt)) + #544 * EVar vMst1 * EConst Cz2 * EPow P2 (EVar vMst2) * EPow P3 (EVar
   vs2t) / (#3 * EPow P3 (EVar vMt)) + #544 * EVar vDmglst1 * EVar vMst1 * EConst Cz2 * EPow P2 (EVar vMst2) * EPow P3
   (EVar vs2t) / (#3 * EVar vMgl * EPow P3 (EVar vMt)) + #19664 * EVar vMst1 * EPow P2 (EVar vDmglst1) * EPow P2 (EVar
   vMst2) * EPow P3 (EVar vs2t) / (#9 * EPow P2 (EVar vMgl) * EPow P3 (EVar vMt)) + #544 * EVar vMst1 * EConst Cz2 *
   EPow P2 (EVar vDmglst1) * EPow P2 (EVar vMst2) * EPow P3 (EVar vs2t) / (#3 * EPow P2 (EVar vMgl) * EPow P3 (EVar
   vMt)) - #1792 * EPow P3 (EVar vMst1) * EPow P3 (EVar vs2t) / EPow P3 (EVar vMt) - #6688 * EVar vDmglst1 * EPow P3
   (EVar vMst1) * EPow P3 (EVar vs2t) / (#3 * EVar vMgl * EPow P3 (EVar vMt)) - #608 * EConst Cz2 * EPow P3 (EVar
   vMst1) * EPow P3 (EVar vs2t) / (#3 * EPow P3 (EVar vMt)) - #2912 * EVar vDmglst1 * EConst Cz2 * EPow P3 (EVar
   vMst1) * EPow P3 (EVar vs2t) / (#3 * EVar vMgl * EPow P3 (EVar vMt)) - #34832 * EPow P2 (EVar vDmglst1) * EPow P3
   (EVar vMst1) * EPow P3 (EVar vs2t) / (#9 * EPow P2 (EVar vMgl) * EPow P3 (EVar vMt)) - #6368 * EConst Cz2 * EPow P2
   (EVar vDmglst1) * EPow P3 (EVar vMst1) * EPow P3 (EVar vs2t) / (#3 * EPow P2 (EVar vMgl) * EPow P3 (EVar vMt)) -
   #140 * EPow P2 (EVar vMst1) * EPow P2 (EVar vMst2) / (#3 * EPow P4 (EVar vMsq)) - #280 * EVar vDmglst1 * EPow P2
   (EVar vMst1) * EPow P2 (EVar vMst2) / (#3 * EVar vMgl * EPow P4 (EVar vMsq)) - #140 * EPow P2 (EVar vDmglst1) *
   EPow P2 (EVar vMst1) * EPow P2 (EVar vMst2) / (EPow P2 (EVar vMgl) * EPow P4 (EVar vMsq)) + #520 * EVar vCbeta *
   EVar vMuSUSY * EPow P3 (EVar vMst1) / (#3 * EVar vSbeta * EPow P4 (EVar vMsq)) + #3640 * EVar vCbeta * EVar
   vDmglst1 * EVar vMuSUSY * EPow P3 (EVar vMst1) / (#9 * EVar vMgl * EVar vSbeta * EPow P4 (EVar vMsq)) + #3640 *
   EVar vCbeta * EVar vMuSUSY * EPow P2 (EVar vDmglst1) * EPow P3 (EVar vMst1) / (#9 * EVar vSbeta * EPow P2 (EVar
   vMgl) * EPow P4 (EVar vMsq)) - #1040 * EVar vs2t * EPow P2 (EVar vMst2) * EPow P3 (EVar vMst1) / (#9 * EVar vMt *
   EPow P4 (EVar vMsq)) - #1040 * EVar vDmglst1 * EVar vs2t * EPow P2 (EVar vMst2) * EPow P3 (EVar vMst1) / (#3 * EVar
   vMgl * EVar vMt * EPow P4 (EVar vMsq)) - #2080 * EVar vs2t * EPow P2 (EVar vDmglst1) * EPow P2 (EVar vMst2) * EPow
   P3 (EVar vMst1) / (#3 * EVar vMt * EPow P2 (EVar vMgl) * EPow P4 (EVar vMsq)) + #800 * EPow P4 (EVar vMst1) / (#3 *
   EPow P2 (EVar vMsq) * EPow P2 (EVar vMst2)) + #3200 * EVar vDmglst1 * EPow P4 (EVar vMst1) / (#3 * EVar vMgl * EPow
   P2 (EVar vMsq) * EPow P2 (EVar vMst2)) + #8000 * EPow P2 (EVar vDmglst1) * EPow P4 (EVar vMst1) / (#3 * EPow P2
   (EVar vMgl) * EPow P2 (EVar vMsq) * EPow P2 (EVar vMst2)) - #1168 * EPow P2 (EVar vs2t) * EPow P4 (EVar vMst1) /
   (EPow P2 (EVar vMst2) * EPow P2 (EVar vMt)) - #2208 * EVar vDmglst1 * EPow P2 (EVar vs2t) * EPow P4 (EVar vMst1) /
   (EVar vMgl * EPow P2 (EVar vMst2) * EPow P2 (EVar vMt)) - #2048 * EVar vDmglst1 * EConst Cz2 * EPow P2 (EVar vs2t)
   * EPow P4 (EVar vMst1) / (EVar vMgl * EPow P2 (EVar vMst2) * EPow P2 (EVar vMt)) - #18800 * EPow P2 (EVar vDmglst1)
   * EPow P2 (EVar vs2t) * EPow P4 (EVar vMst1) / (#3 * EPow P2 (EVar vMgl) * EPow P2 (EVar vMst2) * EPow P2 (EVar
   vMt)) - #7168 * EConst Cz2 * EPow P2 (EVar vDmglst1) * EPow P2 (EVar vs2t) * EPow P4 (EVar vMst1) / (EPow P2 (EVar
   vMgl) * EPow P2 (EVar vMst2) * EPow P2 (EVar vMt)) + #506 * EVar vCbeta * EVar vMuSUSY * EPow P3 (EVar vs2t) * EPow
   P4 (EVar vMst1) / (EVar vSbeta * EPow P2 (EVar vMst2) * EPow P3 (EVar vMt)) + #1072 * EVar vCbeta * EVar vDmglst1 *
   EVar vMuSUSY * EPow P3 (EVar vs2t) * EPow P4 (EVar vMst1) / (EVar vMgl * EVar vSbeta * EPow P2 (EVar vMst2) * EPow
   P3 (EVar vMt)) + #1080 * EVar vCbeta * EVar vMuSUSY * EPow P2 (EVar vDmglst1) * EPow P3 (EVar vs2t) * EPow P4 (EVar
   vMst1) / (EVar vSbeta * EPow P2 (EVar vMgl) * EPow P2 (EVar vMst2) * EPow P3 (EVar vMt)) - #410 * EPow P4 (EVar
   vMst1) / (#9 * EPow P4 (EVar vMsq)) + #760 * EVar vDmglst1 * EPow P4 (EVar vMst1) / (#9 * EVar vMgl * EPow P4 (EVar
   vMsq)) + #3916 * EPow P2 (EVar vDmglst1) * EPow P4 (EVar vMst1) / (#9 * EPow P2 (EVar vMgl) * EPow P4 (EVar vMsq))
   - #2560 * EPow P2 (EVar vMst1) * EPow P2 (EVar vMuSUSY) / EPow P4 (EVar vMst2) - #2048 * EConst Cz2 * EPow P2 (EVar
   vMst1) * EPow P2 (EVar vMuSUSY) / (#3 * EPow P4 (EVar vMst2)) + #2560 * EPow P2 (EVar vMst1) * EPow P2 (EVar
   vMuSUSY) / (EPow P2 (EVar vSbeta) * EPow P4 (EVar vMst2)) + #2048 * EConst Cz2 * EPow P2 (EVar vMst1) * EPow P2
   (EVar vMuSUSY) / (#3 * EPow P2 (EVar vSbeta) * EPow P4 (EVar vMst2)) - #1632 * EVar vCbeta * EVar vMuSUSY * EPow P3
   (EVar vMst1) / (EVar vSbeta * EPow P4 (EVar vMst2)) - #230624 * EVar vCbeta * EVar vDmglst1 * EVar vMuSUSY * EPow
   P3 (EVar vMst1) / (#27 * EVar vMgl * EVar vSbeta * EPow P4 (EVar vMst2)) - #3200 * EVar vCbeta * EVar vMuSUSY *
   EConst Cz2 * EPow P3 (EVar vMst1) / (EVar vSbeta * EPow P4 (EVar vMst2)) - #8704 * EVar vCbeta * EVar vDmglst1 *
   EVar vMuSUSY * EConst Cz2 * EPow P3 (EVar vMst1) / (EVar vMgl * EVar vSbeta * EPow P4 (EVar vMst2)) - #230624 *
   EVar vCbeta * EVar vMuSUSY * EPow P2 (EVar vDmglst1) * EPow P3 (EVar vMst1) / (#27 * EVar vSbeta * EPow P2 (EVar
   vMgl) * EPow P4 (EVar vMst2)) - #8704 * EVar vCbeta * EVar vMuSUSY * EConst Cz2 * EPow P2 (EVar vDmglst1) * EPow P3
   (EVar vMst1) / (EVar vSbeta * EPow P2 (EVar vMgl) * EPow P4 (EVar vMst2)) - #21248 * EVar vs2t * EPow P2 (EVar
   vMuSUSY) * EPow P3 (EVar vMst1) / (#3 * EVar vMt * EPow P4 (EVar vMst2)) - #8320 * EVar vDmglst1 * EVar vs2t * EPow
   P2 (EVar vMuSUSY) * EPow P3 (EVar vMst1) / (EVar vMgl * EVar vMt * EPow P4 (EVar vMst2)) - #640 * EVar vs2t *
   EConst Cz2 * EPow P2 (EVar vMuSUSY) * EPow P3 (EVar vMst1) / (EVar vMt * EPow P4 (EVar vMst2)) + #2432 * EVar
   vDmglst1 * EVar vs2t * EConst Cz2 * EPow P2 (EVar vMuSUSY) * EPow P3 (EVar vMst1) / (EVar vMgl * EVar vMt * EPow P4
   (EVar vMst2)) - #8320 * EVar vs2t * EPow P2 (EVar vDmglst1) * EPow P2 (EVar vMuSUSY) * EPow P3 (EVar vMst1) / (EVar
   vMt * EPow P2 (EVar vMgl) * EPow P4 (EVar vMst2)) + #2432 * EVar vs2t * EConst Cz2 * EPow P2 (EVar vDmglst1) * EPow
   P2 (EVar vMuSUSY) * EPow P3 (EVar vMst1) / (EVar vMt * EPow P2 (EVar vMgl) * EPow P4 (EVar vMst2)) + #21248 * EVar
   vs2t * EPow P2 (EVar vMuSUSY) * EPow P3 (EVar vMst1) / (#3 * EVar vMt * EPow P2 (EVar vSbeta) * EPow P4 (EVar
   vMst2)) + #8320 * EVar vDmglst1 * EVar vs2t * EPow P2 (EVar vMuSUSY) * EPow P3 (EVar vMst1) / (EVar vMgl * EVar vMt
   * EPow P2 (EVar vSbeta) * EPow P4 (EVar vMst2)) + #640 * EVar vs2t * EConst Cz2 * EPow P2 (EVar vMuSUSY) * EPow P3
   (EVar vMst1) / (EVar vMt * EPow P2 (EVar vSbeta) * EPow P4 (EVar vMst2)) - #2432 * EVar vDmglst1 * EVar vs2t *
   EConst Cz2 * EPow P2 (EVar vMuSUSY) * EPow P3 (EVar vMst1) / (EVar vMgl * EVar vMt * EPow P2 (EVar vSbeta) * EPow
   P4 (EVar vMst2)) + #8320 * EVar vs2t * EPow P2 (EVar vDmglst1) * EPow P2 (EVar vMuSUSY) * EPow P3 (EVar vMst1) /
   (EVar vMt * EPow P2 (EVar vMgl) * EPow P2 (EVar vSbeta) * EPow P4 (EVar vMst2)) - #2432 * EVar vs2t * EConst Cz2 *
   EPow P2 (EVar vDmglst1) * EPow P2 (EVar vMuSUSY) * EPow P3 (EVar vMst1) / (EVar vMt * EPow P2 (EVar vMgl) * EPow P2
   (EVar vSbeta) * EPow P4 (EVar vMst2)) - #2756 * EPow P4 (EVar vMst1) / EPow P4 (EVar vMst2) - #76928 * EVar
   vDmglst1 * EPow P4 (EVar vMst1) / (#9 * EVar vMgl * EPow P4 (EVar vMst2)) - #8000 * EVar vCbeta * EVar vMuSUSY *
   EVar vs2t * EPow P4 (EVar vMst1) / (#3 * EVar vMt * EVar vSbeta * EPow P4 (EVar vMst2)) - #21568 * EVar vCbeta *
   EVar vDmglst1 * EVar vMuSUSY * EVar vs2t * EPow P4 (EVar vMst1) / (#3 * EVar vMgl * EVar vMt * EVar vSbeta * EPow
   P4 (EVar vMst2)) + #256 * EConst Cz2 * EPow P4 (EVar vMst1) / EPow P4 (EVar vMst2) - #256 * EVar vDmglst1 * EConst
   Cz2 * EPow P4 (EVar vMst1) / (EVar vMgl * EPow P4 (EVar vMst2)) - #1024 * EVar vCbeta * EVar vMuSUSY * EVar vs2t *
   EConst Cz2 * EPow P4 (EVar vMst1) / (EVar vMt * EVar vSbeta * EPow P4 (EVar vMst2)) + #2048 * EVar vCbeta * EVar
   vDmglst1 * EVar vMuSUSY * EVar vs2t * EConst Cz2 * EPow P4 (EVar vMst1) / (EVar vMgl * EVar vMt * EVar vSbeta *
   EPow P4 (EVar vMst2)) - #2085296 * EPow P2 (EVar vDmglst1) * EPow P4 (EVar vMst1) / (#135 * EPow P2 (EVar vMgl) *
   EPow P4 (EVar vMst2)) - #7008 * EVar vCbeta * EVar vMuSUSY * EVar vs2t * EPow P2 (EVar vDmglst1) * EPow P4 (EVar
   vMst1) / (EVar vMt * EVar vSbeta * EPow P2 (EVar vMgl) * EPow P4 (EVar vMst2)) - #1856 * EConst Cz2 * EPow P2 (EVar
   vDmglst1) * EPow P4 (EVar vMst1) / (EPow P2 (EVar vMgl) * EPow P4 (EVar vMst2)) + #11264 * EVar vCbeta * EVar
   vMuSUSY * EVar vs2t * EConst Cz2 * EPow P2 (EVar vDmglst1) * EPow P4 (EVar vMst1) / (EVar vMt * EVar vSbeta * EPow
   P2 (EVar vMgl) * EPow P4 (EVar vMst2)) + #52 * EPow P2 (EVar vMuSUSY) * EPow P2 (EVar vs2t) * EPow P4 (EVar vMst1)
   / (EPow P2 (EVar vMt) * EPow P4 (EVar vMst2)) + #1024 * EVar vDmglst1 * EPow P2 (EVar vMuSUSY) * EPow P2 (EVar
   vs2t) * EPow P4 (EVar vMst1) / (EVar vMgl * EPow P2 (EVar vMt) * EPow P4 (EVar vMst2)) - #64 * EConst Cz2 * EPow P2
   (EVar vMuSUSY) * EPow P2 (EVar vs2t) * EPow P4 (EVar vMst1) / (#3 * EPow P2 (EVar vMt) * EPow P4 (EVar vMst2)) -
   #2752 * EVar vDmglst1 * EConst Cz2 * EPow P2 (EVar vMuSUSY) * EPow P2 (EVar vs2t) * EPow P4 (EVar vMst1) / (#3 *
   EVar vMgl * EPow P2 (EVar vMt) * EPow P4 (EVar vMst2)) - #352 * EPow P2 (EVar vDmglst1) * EPow P2 (EVar vMuSUSY) *
   EPow P2 (EVar vs2t) * EPow P4 (EVar vMst1) / (#3 * EPow P2 (EVar vMgl) * EPow P2 (EVar vMt) * EPow P4 (EVar vMst2))
   - #1376 * EConst Cz2 * EPow P2 (EVar vDmglst1) * EPow P2 (EVar vMuSUSY) * EPow P2 (EVar vs2t) * EPow P4 (EVar
   vMst1) / (EPow P2 (EVar vMgl) * EPow P2 (EVar vMt) * EPow P4 (EVar vMst2)) - #52 * EPow P2 (EVar vMuSUSY) * EPow P2
   (EVar vs2t) * EPow P4 (EVar vMst1) / (EPow P2 (EVar vMt) * EPow P2 (EVar vSbeta) * EPow P4 (EVar vMst2)) - #1024 *
   EVar vDmglst1 * EPow P2 (EVar vMuSUSY) * EPow P2 (EVar vs2t) * EPow P4 (EVar vMst1) / (EVar vMgl * EPow P2 (EVar
   vMt) * EPow P2 (EVar vSbeta) * EPow P4 (EVar vMst2)) + #64 * EConst Cz2 * EPow P2 (EVar vMuSUSY) * EPow P2 (EVar
   vs2t) * EPow P4 (EVar vMst1) / (#3 * EPow P2 (EVar vMt) * EPow P2 (EVar vSbeta) * EPow P4 (EVar vMst2)) + #2752 *
   EVar vDmglst1 * EConst Cz2 * EPow P2 (EVar vMuSUSY) * EPow P2 (EVar vs2t) * EPow P4 (EVar vMst1) / (#3 * EVar vMgl
   * EPow P2 (EVar vMt) * EPow P2 (EVar vSbeta) * EPow P4 (EVar vMst2)) + #352 * EPow P2 (EVar vDmglst1) * EPow P2
   (EVar vMuSUSY) * EPow P2 (EVar vs2t) * EPow P4 (EVar vMst1) / (#3 * EPow P2 (EVar vMgl) * EPow P2 (EVar vMt) * EPow
   P2 (EVar vSbeta) * EPow P4 (EVar vMst2)) + #1376 * EConst Cz2 * EPow P2 (EVar vDmglst1) * EPow P2 (EVar vMuSUSY) *
   EPow P2 (EVar vs2t) * EPow P4 (EVar vMst1) / (EPow P2 (EVar vMgl) * EPow P2 (EVar vMt) * EPow P2 (EVar vSbeta) *
   EPow P4 (EVar vMst2)) + #16 * EPow P2 (EVar vs2t) * EPow P4 (EVar vMst2) / (EPow P2 (EVar vMst1) * EPow P2 (EVar
   vMt)) + #8 * EVar vCbeta * EVar vMuSUSY * EPow P3 (EVar vs2t) * EPow P4 (EVar vMst2) / (EVar vSbeta * EPow P2 (EVar
   vMst1) * EPow P3 (EVar vMt)) - #30 * EPow P4 (EVar vMst2) / EPow P4 (EVar vMsq) - #520 * EVar vMst1 * EVar vs2t *
   EPow P4 (EVar vMst2) / (#9 * EVar vMt * EPow P4 (EVar vMsq)) - #520 * EVar vDmglst1 * EVar vMst1 * EVar vs2t * EPow
   P4 (EVar vMst2) / (#9 * EVar vMgl * EVar vMt * EPow P4 (EVar vMsq)) - #520 * EVar vMst1 * EVar vs2t * EPow P2 (EVar
   vDmglst1) * EPow P4 (EVar vMst2) / (#9 * EVar vMt * EPow P2 (EVar vMgl) * EPow P4 (EVar vMsq)) + #20 * EPow P2
   (EVar vMsq) * EPow P2 (EVar vMst1) * EPow P4 (EVar vs2t) / EPow P4 (EVar vMt) + #20 * EPow P2 (EVar vMsq) * EPow P2
   (EVar vMst2) * EPow P4 (EVar vs2t) / EPow P4 (EVar vMt) - #330 * EPow P2 (EVar vMst1) * EPow P2 (EVar vMst2) * EPow
   P4 (EVar vs2t) / EPow P4 (EVar vMt) + #116 * EVar vDmglst1 * EPow P2 (EVar vMst1) * EPow P2 (EVar vMst2) * EPow P4
   (EVar vs2t) / (EVar vMgl * EPow P4 (EVar vMt)) + #172 * EConst Cz2 * EPow P2 (EVar vMst1) * EPow P2 (EVar vMst2) *
   EPow P4 (EVar vs2t) / (#3 * EPow P4 (EVar vMt)) + #344 * EVar vDmglst1 * EConst Cz2 * EPow P2 (EVar vMst1) * EPow
   P2 (EVar vMst2) * EPow P4 (EVar vs2t) / (#3 * EVar vMgl * EPow P4 (EVar vMt)) + #2378 * EPow P2 (EVar vDmglst1) *
   EPow P2 (EVar vMst1) * EPow P2 (EVar vMst2) * EPow P4 (EVar vs2t) / (#9 * EPow P2 (EVar vMgl) * EPow P4 (EVar vMt))
   + #172 * EConst Cz2 * EPow P2 (EVar vDmglst1) * EPow P2 (EVar vMst1) * EPow P2 (EVar vMst2) * EPow P4 (EVar vs2t) /
   (EPow P2 (EVar vMgl) * EPow P4 (EVar vMt)) - #45 * EPow P4 (EVar vMst1) * EPow P4 (EVar vs2t) / (#2 * EPow P4 (EVar
   vMt)) - #396 * EVar vDmglst1 * EPow P4 (EVar vMst1) * EPow P4 (EVar vs2t) / (EVar vMgl * EPow P4 (EVar vMt)) - #30
   * EConst Cz2 * EPow P4 (EVar vMst1) * EPow P4 (EVar vs2t) / EPow P4 (EVar vMt) - #344 * EVar vDmglst1 * EConst Cz2
   * EPow P4 (EVar vMst1) * EPow P4 (EVar vs2t) / (#3 * EVar vMgl * EPow P4 (EVar vMt)) - #4900 * EPow P2 (EVar
   vDmglst1) * EPow P4 (EVar vMst1) * EPow P4 (EVar vs2t) / (#9 * EPow P2 (EVar vMgl) * EPow P4 (EVar vMt)) - #172 *
   EConst Cz2 * EPow P2 (EVar vDmglst1) * EPow P4 (EVar vMst1) * EPow P4 (EVar vs2t) / (EPow P2 (EVar vMgl) * EPow P4
   (EVar vMt)) - #20 * EPow P2 (EVar vMsq) * EPow P4 (EVar vMst1) * EPow P4 (EVar vs2t) / (EPow P2 (EVar vMst2) * EPow
   P4 (EVar vMt)) + #228 * EPow P4 (EVar vMst2) * EPow P4 (EVar vs2t) / EPow P4 (EVar vMt) + #12 * EVar vDmglst1 *
   EPow P4 (EVar vMst2) * EPow P4 (EVar vs2t) / (EVar vMgl * EPow P4 (EVar vMt)) - #82 * EConst Cz2 * EPow P4 (EVar
   vMst2) * EPow P4 (EVar vs2t) / (#3 * EPow P4 (EVar vMt)) + #92 * EPow P2 (EVar vDmglst1) * EPow P4 (EVar vMst2) *
   EPow P4 (EVar vs2t) / (#9 * EPow P2 (EVar vMgl) * EPow P4 (EVar vMt)) - #20 * EPow P2 (EVar vMsq) * EPow P4 (EVar
   vMst2) * EPow P4 (EVar vs2t) / (EPow P2 (EVar vMst1) * EPow P4 (EVar vMt)) - #640 * EVar vs2t * EPow P5 (EVar
   vMst1) / (#3 * EVar vMt * EPow P2 (EVar vMsq) * EPow P2 (EVar vMst2)) - #7040 * EVar vDmglst1 * EVar vs2t * EPow P5
   (EVar vMst1) / (#3 * EVar vMgl * EVar vMt * EPow P2 (EVar vMsq) * EPow P2 (EVar vMst2)) - #10240 * EVar vs2t * EPow
   P2 (EVar vDmglst1) * EPow P5 (EVar vMst1) / (EVar vMt * EPow P2 (EVar vMgl) * EPow P2 (EVar vMsq) * EPow P2 (EVar
   vMst2)) - #40 * EPow P3 (EVar vs2t) * EPow P5 (EVar vMst1) / (#3 * EPow P2 (EVar vMst2) * EPow P3 (EVar vMt)) +
   #2264 * EVar vDmglst1 * EPow P3 (EVar vs2t) * EPow P5 (EVar vMst1) / (#3 * EVar vMgl * EPow P2 (EVar vMst2) * EPow
   P3 (EVar vMt)) + #6488 * EPow P2 (EVar vDmglst1) * EPow P3 (EVar vs2t) * EPow P5 (EVar vMst1) / (#3 * EPow P2 (EVar
   vMgl) * EPow P2 (EVar vMst2) * EPow P3 (EVar vMt)) - #40 * EVar vs2t * EPow P5 (EVar vMst1) / (#3 * EVar vMt * EPow
   P4 (EVar vMsq)) - #2120 * EVar vDmglst1 * EVar vs2t * EPow P5 (EVar vMst1) / (#3 * EVar vMgl * EVar vMt * EPow P4
   (EVar vMsq)) - #3080 * EVar vs2t * EPow P2 (EVar vDmglst1) * EPow P5 (EVar vMst1) / (EVar vMt * EPow P2 (EVar vMgl)
   * EPow P4 (EVar vMsq)) + #560 * EVar vCbeta * EVar vMuSUSY * EPow P5 (EVar vMst1) / (#3 * EVar vSbeta * EPow P2
   (EVar vMst2) * EPow P4 (EVar vMsq)) + #10000 * EVar vCbeta * EVar vDmglst1 * EVar vMuSUSY * EPow P5 (EVar vMst1) /
   (#9 * EVar vMgl * EVar vSbeta * EPow P2 (EVar vMst2) * EPow P4 (EVar vMsq)) + #34480 * EVar vCbeta * EVar vMuSUSY *
   EPow P2 (EVar vDmglst1) * EPow P5 (EVar vMst1) / (#9 * EVar vSbeta * EPow P2 (EVar vMgl) * EPow P2 (EVar vMst2) *
   EPow P4 (EVar vMsq)) - #5984 * EVar vs2t * EPow P5 (EVar vMst1) / (#3 * EVar vMt * EPow P4 (EVar vMst2)) + #6496 *
   EVar vDmglst1 * EVar vs2t * EPow P5 (EVar vMst1) / (EVar vMgl * EVar vMt * EPow P4 (EVar vMst2)) + #8960 * EVar
   vs2t * EConst Cz2 * EPow P5 (EVar vMst1) / (#3 * EVar vMt * EPow P4 (EVar vMst2)) + #43904 * EVar vDmglst1 * EVar
   vs2t * EConst Cz2 * EPow P5 (EVar vMst1) / (#3 * EVar vMgl * EVar vMt * EPow P4 (EVar vMst2)) + #463328 * EVar vs2t
   * EPow P2 (EVar vDmglst1) * EPow P5 (EVar vMst1) / (#9 * EVar vMt * EPow P2 (EVar vMgl) * EPow P4 (EVar vMst2)) +
   #43200 * EVar vs2t * EConst Cz2 * EPow P2 (EVar vDmglst1) * EPow P5 (EVar vMst1) / (EVar vMt * EPow P2 (EVar vMgl)
   * EPow P4 (EVar vMst2)) + #2240 * EVar vCbeta * EVar vMuSUSY * EPow P5 (EVar vMst1) / (#3 * EVar vSbeta * EPow P2
   (EVar vMsq) * EPow P4 (EVar vMst2)) + #40000 * EVar vCbeta * EVar vDmglst1 * EVar vMuSUSY * EPow P5 (EVar vMst1) /
   (#9 * EVar vMgl * EVar vSbeta * EPow P2 (EVar vMsq) * EPow P4 (EVar vMst2)) + #137920 * EVar vCbeta * EVar vMuSUSY
   * EPow P2 (EVar vDmglst1) * EPow P5 (EVar vMst1) / (#9 * EVar vSbeta * EPow P2 (EVar vMgl) * EPow P2 (EVar vMsq) *
   EPow P4 (EVar vMst2)) + #72 * EVar vCbeta * EVar vMuSUSY * EPow P2 (EVar vs2t) * EPow P5 (EVar vMst1) / (EVar
   vSbeta * EPow P2 (EVar vMt) * EPow P4 (EVar vMst2)) - #2040 * EVar vCbeta * EVar vDmglst1 * EVar vMuSUSY * EPow P2
   (EVar vs2t) * EPow P5 (EVar vMst1) / (EVar vMgl * EVar vSbeta * EPow P2 (EVar vMt) * EPow P4 (EVar vMst2)) + #64 *
   EVar vCbeta * EVar vMuSUSY * EConst Cz2 * EPow P2 (EVar vs2t) * EPow P5 (EVar vMst1) / (EVar vSbeta * EPow P2 (EVar
   vMt) * EPow P4 (EVar vMst2)) + #2368 * EVar vCbeta * EVar vDmglst1 * EVar vMuSUSY * EConst Cz2 * EPow P2 (EVar
   vs2t) * EPow P5 (EVar vMst1) / (EVar vMgl * EVar vSbeta * EPow P2 (EVar vMt) * EPow P4 (EVar vMst2)) - #1432 * EVar
   vCbeta * EVar vMuSUSY * EPow P2 (EVar vDmglst1) * EPow P2 (EVar vs2t) * EPow P5 (EVar vMst1) / (EVar vSbeta * EPow
   P2 (EVar vMgl) * EPow P2 (EVar vMt) * EPow P4 (EVar vMst2)) + #5824 * EVar vCbeta * EVar vMuSUSY * EConst Cz2 *
   EPow P2 (EVar vDmglst1) * EPow P2 (EVar vs2t) * EPow P5 (EVar vMst1) / (EVar vSbeta * EPow P2 (EVar vMgl) * EPow P2
   (EVar vMt) * EPow P4 (EVar vMst2)) + #8 * ELog (EPow P2 (EVar vMst1) / EPow P2 (EVar vMsq)) * (#20 * EVar vCbeta *
   EVar vMt * EVar vMuSUSY * EPow P3 (EVar vMst1) * (EVar vDmglst1 * EVar vMgl * (#118 * EPow P4 (EVar vMsq) - #7 *
   EPow P4 (EVar vMst2)) + EPow P2 (EVar vDmglst1) * (#118 * EPow P4 (EVar vMsq) - #7 * EPow P4 (EVar vMst2)) + #3 *
   EPow P2 (EVar vMgl) * (#10 * EPow P4 (EVar vMsq) - EPow P4 (EVar vMst2))) + EVar vSbeta * (EPow P2 (EVar vDmglst1)
   * (- #40 * EVar vMst1 * EPow P2 (EVar vMsq) * (- #9 * EVar vMst1 * EVar vMt + #2 * EVar vs2t * EPow P2 (EVar vMst1)
   - #2 * EVar vs2t * EPow P2 (EVar vMst2)) * EPow P4 (EVar vMst2) + #10 * EVar vMst1 * EPow P4 (EVar vMst2) * (#9 *
   EVar vMst1 * EVar vMt * EPow P2 (EVar vMst2) + #24 * EVar vs2t * EPow P2 (EVar vMst1) * EPow P2 (EVar vMst2) + #59
   * EVar vMt * EPow P3 (EVar vMst1) - #26 * EVar vs2t * EPow P4 (EVar vMst1) + #2 * EVar vs2t * EPow P4 (EVar vMst2))
   + EPow P4 (EVar vMsq) * (#540 * EVar vMt * EPow P2 (EVar vMst1) * EPow P2 (EVar vMst2) - #4800 * EVar vs2t * EPow
   P2 (EVar vMst2) * EPow P3 (EVar vMst1) + #6900 * EVar vMt * EPow P4 (EVar vMst1) + #68 * EVar vMt * EPow P4 (EVar
   vMst2) - #920 * EVar vMst1 * EVar vs2t * EPow P4 (EVar vMst2) - #11520 * EVar vs2t * EPow P5 (EVar vMst1))) - #5 *
   EPow P2 (EVar vMgl) * (- #8 * EPow P2 (EVar vMsq) * (#4 * EVar vMt * EPow P2 (EVar vMst1) + EVar vMt * EPow P2
   (EVar vMst2) + #2 * EVar vMst1 * EVar vs2t * EPow P2 (EVar vMst2) - #2 * EVar vs2t * EPow P3 (EVar vMst1)) * EPow
   P4 (EVar vMst2) - EPow P4 (EVar vMst2) * (#6 * EVar vMt * EPow P2 (EVar vMst1) * EPow P2 (EVar vMst2) + #8 * EVar
   vs2t * EPow P2 (EVar vMst2) * EPow P3 (EVar vMst1) + #19 * EVar vMt * EPow P4 (EVar vMst1) + #3 * EVar vMt * EPow
   P4 (EVar vMst2) + #4 * EVar vMst1 * EVar vs2t * EPow P4 (EVar vMst2) - #12 * EVar vs2t * EPow P5 (EVar vMst1)) + #6
   * EPow P4 (EVar vMsq) * (- #6 * EVar vMt * EPow P2 (EVar vMst1) * EPow P2 (EVar vMst2) + #8 * EVar vs2t * EPow P2
   (EVar vMst2) * EPow P3 (EVar vMst1) - #14 * EVar vMt * EPow P4 (EVar vMst1) - #7 * EVar vMt * EPow P4 (EVar vMst2)
   + #12 * EVar vMst1 * EVar vs2t * EPow P4 (EVar vMst2) + #8 * EVar vs2t * EPow P5 (EVar vMst1))) - #20 * EVar
   vDmglst1 * EVar vMgl * (#4 * EVar vMst1 * EPow P2 (EVar vMsq) * (- #3 * EVar vMst1 * EVar vMt + EVar vs2t * EPow P2
   (EVar vMst1) - EVar vs2t * EPow P2 (EVar vMst2)) * EPow P4 (EVar vMst2) + EVar vMst1 * EPow P4 (EVar vMst2) * (- #3
   * EVar vMst1 * EVar vMt * EPow P2 (EVar vMst2) - #6 * EVar vs2t * EPow P2 (EVar vMst1) * EPow P2 (EVar vMst2) - #13
   * EVar vMt * EPow P3 (EVar vMst1) + #7 * EVar vs2t * EPow P4 (EVar vMst1) - EVar vs2t * EPow P4 (EVar vMst2)) + #2
   * EPow P4 (EVar vMsq) * (- #9 * EVar vMt * EPow P2 (EVar vMst1) * EPow P2 (EVar vMst2) + #42 * EVar vs2t * EPow P2
   (EVar vMst2) * EPow P3 (EVar vMst1) - #57 * EVar vMt * EPow P4 (EVar vMst1) - #2 * EVar vMt * EPow P4 (EVar vMst2)
   + #17 * EVar vMst1 * EVar vs2t * EPow P4 (EVar vMst2) + #66 * EVar vs2t * EPow P5 (EVar vMst1)))) + #60 * ELog
   (EPow P2 (EVar vMst1) / EPow P2 (EVar vMst2)) * EPow P4 (EVar vMsq) * (#4 * EVar vCbeta * EVar vMt * EVar vMuSUSY *
   (#7 * EVar vDmglst1 * EVar vMgl + #7 * EPow P2 (EVar vDmglst1) + #3 * EPow P2 (EVar vMgl)) * EPow P3 (EVar vMst1) -
   EVar vSbeta * (#4 * EVar vDmglst1 * EVar vMgl * EVar vMst1 * (#6 * EVar vs2t * EPow P2 (EVar vMst1) * EPow P2 (EVar
   vMst2) - #5 * EVar vMt * EPow P3 (EVar vMst1) + #15 * EVar vs2t * EPow P4 (EVar vMst1) + EVar vs2t * EPow P4 (EVar
   vMst2)) + EPow P2 (EVar vMgl) * (#8 * EVar vs2t * EPow P2 (EVar vMst2) * EPow P3 (EVar vMst1) - #5 * EVar vMt *
   EPow P4 (EVar vMst1) + EVar vMt * EPow P4 (EVar vMst2) + #4 * EVar vMst1 * EVar vs2t * EPow P4 (EVar vMst2) + #12 *
   EVar vs2t * EPow P5 (EVar vMst1)) + #2 * EPow P2 (EVar vDmglst1) * (#24 * EVar vs2t * EPow P2 (EVar vMst2) * EPow
   P3 (EVar vMst1) - #25 * EVar vMt * EPow P4 (EVar vMst1) + #2 * EVar vMst1 * EVar vs2t * EPow P4 (EVar vMst2) + #90
   * EVar vs2t * EPow P5 (EVar vMst1))))) / (#3 * EVar vMt * EVar vSbeta * EPow P2 (EVar vMgl) * EPow P4 (EVar vMsq) *
   EPow P4 (EVar vMst2)) + #2 * EPow P2 (ELog (EPow P2 (EVar vMst1) / EPow P2 (EVar vMst2))) * (#2 * EVar vDmglst1 *
   EVar vMgl * EVar vMst1 * (#8 * EVar vMt * EVar vs2t * EVar vSbeta * (- #153 * EVar vCbeta * EVar vMt * EVar vMuSUSY
   * EVar vs2t + #968 * EVar vSbeta * EPow P2 (EVar vMt) + #32 * EVar vSbeta * EPow P2 (EVar vMst2) * EPow P2 (EVar
   vs2t)) * EPow P4 (EVar vMst1) + #12 * EVar vMt * EVar vs2t * (- #8 * EPow P2 (EVar vMt) + #19 * EPow P2 (EVar
   vMst2) * EPow P2 (EVar vs2t)) * EPow P2 (EVar vSbeta) * EPow P4 (EVar vMst2) - #4 * EVar vMt * EPow P2 (EVar vMst1)
   * (#114 * EVar vCbeta * EVar vMt * EVar vMuSUSY * EVar vSbeta * EPow P2 (EVar vMst2) * EPow P2 (EVar vs2t) + #4 *
   EVar vs2t * EPow P2 (EVar vMt) * (#95 * EPow P2 (EVar vMuSUSY) * (- #1 + EPow P2 (EVar vSbeta)) - #231 * EPow P2
   (EVar vMst2) * EPow P2 (EVar vSbeta)) + #900 * EVar vCbeta * EVar vMuSUSY * EVar vSbeta * EPow P3 (EVar vMt) + #19
   * EPow P2 (EVar vSbeta) * EPow P3 (EVar vs2t) * EPow P4 (EVar vMst2)) + EVar vMst1 * EPow P2 (EVar vMst2) * EPow P2
   (EVar vSbeta) * (#64 * EPow P2 (EVar vMst2) * EPow P2 (EVar vMt) * EPow P2 (EVar vs2t) + #528 * EPow P4 (EVar vMt)
   + #155 * EPow P4 (EVar vMst2) * EPow P4 (EVar vs2t)) - EPow P3 (EVar vMst1) * (#8 * EPow P2 (EVar vMt) * EPow P2
   (EVar vs2t) * (#283 * EPow P2 (EVar vMuSUSY) * (- #1 + EPow P2 (EVar vSbeta)) + #192 * EPow P2 (EVar vMst2) * EPow
   P2 (EVar vSbeta)) - #2944 * EVar vCbeta * EVar vMuSUSY * EVar vs2t * EVar vSbeta * EPow P3 (EVar vMt) + #512 * EVar
   vCbeta * EVar vMt * EVar vMuSUSY * EVar vSbeta * EPow P2 (EVar vMst2) * EPow P3 (EVar vs2t) + #384 * EPow P2 (EVar
   vSbeta) * EPow P4 (EVar vMt) + #27 * EPow P2 (EVar vSbeta) * EPow P4 (EVar vMst2) * EPow P4 (EVar vs2t))) + EVar
   vMst1 * EPow P2 (EVar vDmglst1) * (#16 * EVar vMt * EVar vs2t * EVar vSbeta * (#9 * EVar vCbeta * EVar vMt * EVar
   vMuSUSY * EVar vs2t + #2855 * EVar vSbeta * EPow P2 (EVar vMt) + #32 * EVar vSbeta * EPow P2 (EVar vMst2) * EPow P2
   (EVar vs2t)) * EPow P4 (EVar vMst1) + #24 * EVar vMt * EVar vs2t * (- #8 * EPow P2 (EVar vMt) + #19 * EPow P2 (EVar
   vMst2) * EPow P2 (EVar vs2t)) * EPow P2 (EVar vSbeta) * EPow P4 (EVar vMst2) - #8 * EVar vMt * EPow P2 (EVar vMst1)
   * (#114 * EVar vCbeta * EVar vMt * EVar vMuSUSY * EVar vSbeta * EPow P2 (EVar vMst2) * EPow P2 (EVar vs2t) + #2 *
   EVar vs2t * EPow P2 (EVar vMt) * (#190 * EPow P2 (EVar vMuSUSY) * (- #1 + EPow P2 (EVar vSbeta)) - #933 * EPow P2
   (EVar vMst2) * EPow P2 (EVar vSbeta)) + #900 * EVar vCbeta * EVar vMuSUSY * EVar vSbeta * EPow P3 (EVar vMt) + #127
   * EPow P2 (EVar vSbeta) * EPow P3 (EVar vs2t) * EPow P4 (EVar vMst2)) + #3 * EVar vMst1 * EPow P2 (EVar vMst2) *
   EPow P2 (EVar vSbeta) * (#64 * EPow P2 (EVar vMst2) * EPow P2 (EVar vMt) * EPow P2 (EVar vs2t) + #528 * EPow P4
   (EVar vMt) + #155 * EPow P4 (EVar vMst2) * EPow P4 (EVar vs2t)) - #3 * EPow P3 (EVar vMst1) * (#8 * EPow P2 (EVar
   vMt) * EPow P2 (EVar vs2t) * (#283 * EPow P2 (EVar vMuSUSY) * (- #1 + EPow P2 (EVar vSbeta)) + #384 * EPow P2 (EVar
   vMst2) * EPow P2 (EVar vSbeta)) - #6016 * EVar vCbeta * EVar vMuSUSY * EVar vs2t * EVar vSbeta * EPow P3 (EVar vMt)
   + #512 * EVar vCbeta * EVar vMt * EVar vMuSUSY * EVar vSbeta * EPow P2 (EVar vMst2) * EPow P3 (EVar vs2t) + #944 *
   EPow P2 (EVar vSbeta) * EPow P4 (EVar vMt) + #27 * EPow P2 (EVar vSbeta) * EPow P4 (EVar vMst2) * EPow P4 (EVar
   vs2t))) + EPow P2 (EVar vMgl) * (#24 * EVar vMst1 * EVar vMt * EVar vs2t * (- #8 * EPow P2 (EVar vMt) + #19 * EPow
   P2 (EVar vMst2) * EPow P2 (EVar vs2t)) * EPow P2 (EVar vSbeta) * EPow P4 (EVar vMst2) - #8 * EVar vMt * EPow P3
   (EVar vMst1) * (#330 * EVar vCbeta * EVar vMt * EVar vMuSUSY * EVar vSbeta * EPow P2 (EVar vMst2) * EPow P2 (EVar
   vs2t) + #4 * EVar vs2t * EPow P2 (EVar vMt) * (#167 * EPow P2 (EVar vMuSUSY) * (- #1 + EPow P2 (EVar vSbeta)) - #74
   * EPow P2 (EVar vMst2) * EPow P2 (EVar vSbeta)) + #272 * EVar vCbeta * EVar vMuSUSY * EVar vSbeta * EPow P3 (EVar
   vMt) - #53 * EPow P2 (EVar vSbeta) * EPow P3 (EVar vs2t) * EPow P4 (EVar vMst2)) + #2 * EPow P2 (EVar vSbeta) *
   EPow P4 (EVar vMst2) * (- #246 * EPow P2 (EVar vMst2) * EPow P2 (EVar vMt) * EPow P2 (EVar vs2t) - #106 * EPow P4
   (EVar vMt) + #41 * EPow P4 (EVar vMst2) * EPow P4 (EVar vs2t)) + EPow P4 (EVar vMst1) * (- #24 * EPow P2 (EVar vMt)
   * EPow P2 (EVar vs2t) * (#231 * EPow P2 (EVar vMuSUSY) * (- #1 + EPow P2 (EVar vSbeta)) + #16 * EPow P2 (EVar
   vMst2) * EPow P2 (EVar vSbeta)) + #1296 * EVar vCbeta * EVar vMuSUSY * EVar vs2t * EVar vSbeta * EPow P3 (EVar vMt)
   - #1168 * EVar vCbeta * EVar vMt * EVar vMuSUSY * EVar vSbeta * EPow P2 (EVar vMst2) * EPow P3 (EVar vs2t) + #48 *
   EPow P2 (EVar vSbeta) * EPow P4 (EVar vMt) - #27 * EPow P2 (EVar vSbeta) * EPow P4 (EVar vMst2) * EPow P4 (EVar
   vs2t)) + #16 * EVar vMt * EVar vs2t * EVar vSbeta * (- #261 * EVar vCbeta * EVar vMt * EVar vMuSUSY * EVar vs2t +
   #190 * EVar vSbeta * EPow P2 (EVar vMt) + #32 * EVar vSbeta * EPow P2 (EVar vMst2) * EPow P2 (EVar vs2t)) * EPow P5
   (EVar vMst1) + EPow P2 (EVar vMst1) * (#4 * EPow P2 (EVar vMst2) * EPow P2 (EVar vMt) * EPow P2 (EVar vs2t) * (-
   #802 * EPow P2 (EVar vMuSUSY) * (- #1 + EPow P2 (EVar vSbeta)) + #57 * EPow P2 (EVar vMst2) * EPow P2 (EVar
   vSbeta)) + #528 * EVar vCbeta * EVar vMuSUSY * EVar vs2t * EVar vSbeta * EPow P2 (EVar vMst2) * EPow P3 (EVar vMt)
   - #1276 * EVar vCbeta * EVar vMt * EVar vMuSUSY * EVar vSbeta * EPow P3 (EVar vs2t) * EPow P4 (EVar vMst2) - #32 *
   (#8 * EPow P2 (EVar vMuSUSY) * (- #1 + EPow P2 (EVar vSbeta)) - #17 * EPow P2 (EVar vMst2) * EPow P2 (EVar vSbeta))
   * EPow P4 (EVar vMt) + #237 * EPow P2 (EVar vSbeta) * EPow P4 (EVar vs2t) * EPow P6 (EVar vMst2)))) / (#3 * EPow P2
   (EVar vMgl) * EPow P2 (EVar vSbeta) * EPow P4 (EVar vMst2) * EPow P4 (EVar vMt)) + ELog (EPow P2 (EVar vMst1) /
   EPow P2 (EVar vMst2)) * (#2 * EPow P2 (EVar vDmglst1) * (- #600 * EVar vMst1 * EVar vSbeta * EPow P2 (EVar vMst2) *
   EPow P3 (EVar vMt) * (- #2 * EVar vCbeta * EVar vMt * EVar vMuSUSY * EPow P2 (EVar vMst1) * (#58 * EPow P2 (EVar
   vMst1) + #7 * EPow P2 (EVar vMst2)) + EVar vSbeta * EPow P2 (EVar vMst2) * (#9 * EVar vMst1 * EVar vMt * EPow P2
   (EVar vMst2) + #24 * EVar vs2t * EPow P2 (EVar vMst1) * EPow P2 (EVar vMst2) + #25 * EVar vMt * EPow P3 (EVar
   vMst1) + #90 * EVar vs2t * EPow P4 (EVar vMst1) + #2 * EVar vs2t * EPow P4 (EVar vMst2))) + #1200 * EVar vMst1 *
   EVar vSbeta * EPow P2 (EVar vMsq) * EPow P3 (EVar vMt) * (#4 * EVar vCbeta * EVar vMt * EVar vMuSUSY * EPow P2
   (EVar vMst1) * (#58 * EPow P2 (EVar vMst1) + #7 * EPow P2 (EVar vMst2)) - EVar vSbeta * EPow P2 (EVar vMst2) * (#9
   * EVar vMst1 * EVar vMt * EPow P2 (EVar vMst2) + #48 * EVar vs2t * EPow P2 (EVar vMst1) * EPow P2 (EVar vMst2) +
   #180 * EVar vs2t * EPow P4 (EVar vMst1) + #4 * EVar vs2t * EPow P4 (EVar vMst2))) + EPow P4 (EVar vMsq) * (#80 *
   EVar vMst1 * EVar vMt * EVar vs2t * (#215 * EPow P2 (EVar vMt) + #396 * EPow P2 (EVar vMst2) * EPow P2 (EVar vs2t))
   * EPow P2 (EVar vSbeta) * EPow P4 (EVar vMst2) - #80 * EVar vMt * EPow P3 (EVar vMst1) * (#1710 * EVar vCbeta *
   EVar vMt * EVar vMuSUSY * EVar vSbeta * EPow P2 (EVar vMst2) * EPow P2 (EVar vs2t) + #3 * EVar vs2t * EPow P2 (EVar
   vMt) * (#1288 * EPow P2 (EVar vMuSUSY) * (- #1 + EPow P2 (EVar vSbeta)) - #2959 * EPow P2 (EVar vMst2) * EPow P2
   (EVar vSbeta)) + #4438 * EVar vCbeta * EVar vMuSUSY * EVar vSbeta * EPow P3 (EVar vMt) + #414 * EPow P2 (EVar
   vSbeta) * EPow P3 (EVar vs2t) * EPow P4 (EVar vMst2)) + #8 * EPow P2 (EVar vSbeta) * EPow P4 (EVar vMst2) * (- #720
   * EPow P2 (EVar vMst2) * EPow P2 (EVar vMt) * EPow P2 (EVar vs2t) + #211 * EPow P4 (EVar vMt) + #180 * EPow P4
   (EVar vMst2) * EPow P4 (EVar vs2t)) + #5 * EPow P2 (EVar vMst1) * EPow P2 (EVar vMst2) * EPow P2 (EVar vSbeta) *
   (#20568 * EPow P2 (EVar vMst2) * EPow P2 (EVar vMt) * EPow P2 (EVar vs2t) + #20216 * EPow P4 (EVar vMt) + #2349 *
   EPow P4 (EVar vMst2) * EPow P4 (EVar vs2t)) - #5 * EPow P4 (EVar vMst1) * (#72 * EPow P2 (EVar vMt) * EPow P2 (EVar
   vs2t) * (#491 * EPow P2 (EVar vMuSUSY) * (- #1 + EPow P2 (EVar vSbeta)) + #125 * EPow P2 (EVar vMst2) * EPow P2
   (EVar vSbeta)) + #20832 * EVar vCbeta * EVar vMuSUSY * EVar vs2t * EVar vSbeta * EPow P3 (EVar vMt) + #5976 * EVar
   vCbeta * EVar vMt * EVar vMuSUSY * EVar vSbeta * EPow P2 (EVar vMst2) * EPow P3 (EVar vs2t) + #23624 * EPow P2
   (EVar vSbeta) * EPow P4 (EVar vMt) + #1143 * EPow P2 (EVar vSbeta) * EPow P4 (EVar vMst2) * EPow P4 (EVar vs2t)) +
   #40 * EVar vMt * EVar vs2t * EVar vSbeta * (#5859 * EVar vCbeta * EVar vMt * EVar vMuSUSY * EVar vs2t + #75062 *
   EVar vSbeta * EPow P2 (EVar vMt) - #1917 * EVar vSbeta * EPow P2 (EVar vMst2) * EPow P2 (EVar vs2t)) * EPow P5
   (EVar vMst1))) + #20 * EVar vDmglst1 * EVar vMgl * (- #120 * EVar vMst1 * EVar vSbeta * EPow P2 (EVar vMst2) * EPow
   P3 (EVar vMt) * (- (EVar vCbeta * EVar vMt * EVar vMuSUSY * EPow P2 (EVar vMst1) * (#22 * EPow P2 (EVar vMst1) + #7
   * EPow P2 (EVar vMst2))) + EVar vSbeta * EPow P2 (EVar vMst2) * (#3 * EVar vMst1 * EVar vMt * EPow P2 (EVar vMst2)
   + #6 * EVar vs2t * EPow P2 (EVar vMst1) * EPow P2 (EVar vMst2) + #5 * EVar vMt * EPow P3 (EVar vMst1) + #15 * EVar
   vs2t * EPow P4 (EVar vMst1) + EVar vs2t * EPow P4 (EVar vMst2))) + #240 * EVar vMst1 * EVar vSbeta * EPow P2 (EVar
   vMsq) * EPow P3 (EVar vMt) * (#2 * EVar vCbeta * EVar vMt * EVar vMuSUSY * EPow P2 (EVar vMst1) * (#22 * EPow P2
   (EVar vMst1) + #7 * EPow P2 (EVar vMst2)) - EVar vSbeta * EPow P2 (EVar vMst2) * (#3 * EVar vMst1 * EVar vMt * EPow
   P2 (EVar vMst2) + #12 * EVar vs2t * EPow P2 (EVar vMst1) * EPow P2 (EVar vMst2) + #30 * EVar vs2t * EPow P4 (EVar
   vMst1) + #2 * EVar vs2t * EPow P4 (EVar vMst2))) + EPow P4 (EVar vMsq) * (#16 * EVar vMst1 * EVar vMt * EVar vs2t *
   (#103 * EPow P2 (EVar vMt) + #198 * EPow P2 (EVar vMst2) * EPow P2 (EVar vs2t)) * EPow P2 (EVar vSbeta) * EPow P4
   (EVar vMst2) - #16 * EVar vMt * EPow P3 (EVar vMst1) * (#855 * EVar vCbeta * EVar vMt * EVar vMuSUSY * EVar vSbeta
   * EPow P2 (EVar vMst2) * EPow P2 (EVar vs2t) + EVar vs2t * EPow P2 (EVar vMt) * (#1932 * EPow P2 (EVar vMuSUSY) *
   (- #1 + EPow P2 (EVar vSbeta)) - #2209 * EPow P2 (EVar vMst2) * EPow P2 (EVar vSbeta)) + #2219 * EVar vCbeta * EVar
   vMuSUSY * EVar vSbeta * EPow P3 (EVar vMt) - #87 * EPow P2 (EVar vSbeta) * EPow P3 (EVar vs2t) * EPow P4 (EVar
   vMst2)) + #16 * EPow P2 (EVar vSbeta) * EPow P4 (EVar vMst2) * (- #24 * EPow P2 (EVar vMst2) * EPow P2 (EVar vMt) *
   EPow P2 (EVar vs2t) + #11 * EPow P4 (EVar vMt) + #6 * EPow P4 (EVar vMst2) * EPow P4 (EVar vs2t)) + #3 * EPow P2
   (EVar vMst1) * EPow P2 (EVar vMst2) * EPow P2 (EVar vSbeta) * (#2456 * EPow P2 (EVar vMst2) * EPow P2 (EVar vMt) *
   EPow P2 (EVar vs2t) + #2232 * EPow P4 (EVar vMt) + #261 * EPow P4 (EVar vMst2) * EPow P4 (EVar vs2t)) - EPow P4
   (EVar vMst1) * (#24 * EPow P2 (EVar vMt) * EPow P2 (EVar vs2t) * (#401 * EPow P2 (EVar vMuSUSY) * (- #1 + EPow P2
   (EVar vSbeta)) - #263 * EPow P2 (EVar vMst2) * EPow P2 (EVar vSbeta)) + #26592 * EVar vCbeta * EVar vMuSUSY * EVar
   vs2t * EVar vSbeta * EPow P3 (EVar vMt) + #912 * EVar vCbeta * EVar vMt * EVar vMuSUSY * EVar vSbeta * EPow P2
   (EVar vMst2) * EPow P3 (EVar vs2t) + #3200 * EPow P2 (EVar vSbeta) * EPow P4 (EVar vMt) + #651 * EPow P2 (EVar
   vSbeta) * EPow P4 (EVar vMst2) * EPow P4 (EVar vs2t)) + #4 * EVar vMt * EVar vs2t * EVar vSbeta * (- #1827 * EVar
   vCbeta * EVar vMt * EVar vMuSUSY * EVar vs2t + #25312 * EVar vSbeta * EPow P2 (EVar vMt) - #531 * EVar vSbeta *
   EPow P2 (EVar vMst2) * EPow P2 (EVar vs2t)) * EPow P5 (EVar vMst1))) + #15 * EPow P2 (EVar vMgl) * (- #160 * EVar
   vSbeta * EPow P2 (EVar vMsq) * EPow P3 (EVar vMt) * (- #12 * EVar vCbeta * EVar vMt * EVar vMuSUSY * (#2 * EPow P2
   (EVar vMst1) + EPow P2 (EVar vMst2)) * EPow P3 (EVar vMst1) + EVar vSbeta * EPow P2 (EVar vMst2) * (#3 * EVar vMt *
   EPow P2 (EVar vMst1) * EPow P2 (EVar vMst2) + #8 * EVar vs2t * EPow P2 (EVar vMst2) * EPow P3 (EVar vMst1) + #2 *
   EVar vMt * EPow P4 (EVar vMst2) + #4 * EVar vMst1 * EVar vs2t * EPow P4 (EVar vMst2) + #12 * EVar vs2t * EPow P5
   (EVar vMst1))) - #40 * EVar vSbeta * EPow P2 (EVar vMst2) * EPow P3 (EVar vMt) * (- #12 * EVar vCbeta * EVar vMt *
   EVar vMuSUSY * (#2 * EPow P2 (EVar vMst1) + EPow P2 (EVar vMst2)) * EPow P3 (EVar vMst1) + EVar vSbeta * EPow P2
   (EVar vMst2) * (#6 * EVar vMt * EPow P2 (EVar vMst1) * EPow P2 (EVar vMst2) + #8 * EVar vs2t * EPow P2 (EVar vMst2)
   * EPow P3 (EVar vMst1) + #5 * EVar vMt * EPow P4 (EVar vMst1) + #3 * EVar vMt * EPow P4 (EVar vMst2) + #4 * EVar
   vMst1 * EVar vs2t * EPow P4 (EVar vMst2) + #12 * EVar vs2t * EPow P5 (EVar vMst1))) + #120 * EPow P2 (EVar vs2t) *
   EPow P6 (EVar vMsq) * (EPow P2 (EVar vMst1) * (#8 * EPow P2 (EVar vMt) * EPow P2 (EVar vMuSUSY) * (- #1 + EPow P2
   (EVar vSbeta)) + EPow P2 (EVar vs2t) * EPow P2 (EVar vSbeta) * EPow P4 (EVar vMst2)) - EPow P2 (EVar vs2t) * EPow
   P2 (EVar vSbeta) * EPow P6 (EVar vMst2)) + EPow P4 (EVar vMsq) * (#128 * EVar vMst1 * EVar vMt * EVar vs2t * (#17 *
   EPow P2 (EVar vMt) + #33 * EPow P2 (EVar vMst2) * EPow P2 (EVar vs2t)) * EPow P2 (EVar vSbeta) * EPow P4 (EVar
   vMst2) - #64 * EVar vMt * EPow P3 (EVar vMst1) * (#345 * EVar vCbeta * EVar vMt * EVar vMuSUSY * EVar vSbeta * EPow
   P2 (EVar vMst2) * EPow P2 (EVar vs2t) + #4 * EVar vs2t * EPow P2 (EVar vMt) * (#181 * EPow P2 (EVar vMuSUSY) * (-
   #1 + EPow P2 (EVar vSbeta)) - #61 * EPow P2 (EVar vMst2) * EPow P2 (EVar vSbeta)) + #267 * EVar vCbeta * EVar
   vMuSUSY * EVar vSbeta * EPow P3 (EVar vMt) - #49 * EPow P2 (EVar vSbeta) * EPow P3 (EVar vs2t) * EPow P4 (EVar
   vMst2)) + #10 * EPow P2 (EVar vSbeta) * EPow P4 (EVar vMst2) * (- #160 * EPow P2 (EVar vMst2) * EPow P2 (EVar vMt)
   * EPow P2 (EVar vs2t) + #72 * EPow P4 (EVar vMt) + #63 * EPow P4 (EVar vMst2) * EPow P4 (EVar vs2t)) + EPow P4
   (EVar vMst1) * (- #8 * EPow P2 (EVar vMt) * EPow P2 (EVar vs2t) * (#1471 * EPow P2 (EVar vMuSUSY) * (- #1 + EPow P2
   (EVar vSbeta)) - #836 * EPow P2 (EVar vMst2) * EPow P2 (EVar vSbeta)) - #23456 * EVar vCbeta * EVar vMuSUSY * EVar
   vs2t * EVar vSbeta * EPow P3 (EVar vMt) - #68 * EVar vCbeta * EVar vMt * EVar vMuSUSY * EVar vSbeta * EPow P2 (EVar
   vMst2) * EPow P3 (EVar vs2t) + #296 * EPow P2 (EVar vSbeta) * EPow P4 (EVar vMt) - #807 * EPow P2 (EVar vSbeta) *
   EPow P4 (EVar vMst2) * EPow P4 (EVar vs2t)) + #16 * EVar vMt * EVar vs2t * EVar vSbeta * (- #1317 * EVar vCbeta *
   EVar vMt * EVar vMuSUSY * EVar vs2t + #1724 * EVar vSbeta * EPow P2 (EVar vMt) - #21 * EVar vSbeta * EPow P2 (EVar
   vMst2) * EPow P2 (EVar vs2t)) * EPow P5 (EVar vMst1) - #2 * EPow P2 (EVar vMst1) * (- #8 * EPow P2 (EVar vMst2) *
   EPow P2 (EVar vMt) * EPow P2 (EVar vs2t) * (- #727 * EPow P2 (EVar vMuSUSY) * (- #1 + EPow P2 (EVar vSbeta)) + #415
   * EPow P2 (EVar vMst2) * EPow P2 (EVar vSbeta)) + #5040 * EVar vCbeta * EVar vMuSUSY * EVar vs2t * EVar vSbeta *
   EPow P2 (EVar vMst2) * EPow P3 (EVar vMt) + #1648 * EVar vCbeta * EVar vMt * EVar vMuSUSY * EVar vSbeta * EPow P3
   (EVar vs2t) * EPow P4 (EVar vMst2) + #8 * (#320 * EPow P2 (EVar vMuSUSY) * (- #1 + EPow P2 (EVar vSbeta)) - #271 *
   EPow P2 (EVar vMst2) * EPow P2 (EVar vSbeta)) * EPow P4 (EVar vMt) - #97 * EPow P2 (EVar vSbeta) * EPow P4 (EVar
   vs2t) * EPow P6 (EVar vMst2))))) / (#45 * EPow P2 (EVar vMgl) * EPow P2 (EVar vSbeta) * EPow P4 (EVar vMsq) * EPow
   P4 (EVar vMst2) * EPow P4 (EVar vMt)).

(** H5g1.cpp:3780-3892 *)
Definition H5g1_coef2 : expr :=
  (#14760 * EPow P2 (EVar vMgl) * EPow P2 (EVar vMst1) * EPow P2 (EVar vMst2) * EPow P2 (EVar vMt) * EPow P2 (EVar
   vMuSUSY) * EPow P2 (EVar vs2t) - #14760 * EPow P2 (EVar vMgl) * EPow P2 (EVar vMst1) * EPow P2 (EVar vMst2) * EPow
   P2 (EVar vMt) * EPow P2 (EVar vMuSUSY) * EPow P2 (EVar vs2t) * EPow P2 (EVar vSbeta) - #34560 * EVar vCbeta * EVar
   vDmglst1 * EVar vMgl * EVar vMuSUSY * EVar vSbeta * EPow P2 (EVar vMst2) * EPow P2 (EVar vMt) * EPow P2 (EVar vs2t)
   * EPow P3 (EVar vMst1) - #34560 * EVar vCbeta * EVar vMuSUSY * EVar vSbeta * EPow P2 (EVar vDmglst1) * EPow P2
   (EVar vMst2) * EPow P2 (EVar vMt) * EPow P2 (EVar vs2t) * EPow P3 (EVar vMst1) - #11520 * EVar vCbeta * EVar
   vMuSUSY * EVar vSbeta * EPow P2 (EVar vMgl) * EPow P2 (EVar vMst2) * EPow P2 (EVar vMt) * EPow P2 (EVar vs2t) *
   EPow P3 (EVar vMst1) - #67920 * EVar vCbeta * EVar vMuSUSY * EVar vs2t * EVar vSbeta * EPow P2 (EVar vMgl) * EPow
   P2 (EVar vMst1) * EPow P2 (EVar vMst2) * EPow P3 (EVar vMt) + #170880 * EVar vDmglst1 * EVar vMgl * EVar vs2t *
   EPow P2 (EVar vMuSUSY) * EPow P3 (EVar vMst1) * EPow P3 (EVar vMt) + #170880 * EVar vs2t * EPow P2 (EVar vDmglst1)
   * EPow P2 (EVar vMuSUSY) * EPow P3 (EVar vMst1) * EPow P3 (EVar vMt) + #109440 * EVar vs2t * EPow P2 (EVar vMgl) *
   EPow P2 (EVar vMuSUSY) * EPow P3 (EVar vMst1) * EPow P3 (EVar vMt) + #136320 * EVar vDmglst1 * EVar vMgl * EVar
   vs2t * EPow P2 (EVar vMst2) * EPow P2 (EVar vSbeta) * EPow P3 (EVar vMst1) * EPow P3 (EVar vMt) + #399360 * EVar
   vs2t * EPow P2 (EVar vDmglst1) * EPow P2 (EVar vMst2) * EPow P2 (EVar vSbeta) * EPow P3 (EVar vMst1) * EPow P3
   (EVar vMt) + #17280 * EVar vs2t * EPow P2 (EVar vMgl) * EPow P2 (EVar vMst2) * EPow P2 (EVar vSbeta) * EPow P3
   (EVar vMst1) * EPow P3 (EVar vMt) - #170880 * EVar vDmglst1 * EVar vMgl * EVar vs2t * EPow P2 (EVar vMuSUSY) * EPow
   P2 (EVar vSbeta) * EPow P3 (EVar vMst1) * EPow P3 (EVar vMt) - #170880 * EVar vs2t * EPow P2 (EVar vDmglst1) * EPow
   P2 (EVar vMuSUSY) * EPow P2 (EVar vSbeta) * EPow P3 (EVar vMst1) * EPow P3 (EVar vMt) - #109440 * EVar vs2t * EPow
   P2 (EVar vMgl) * EPow P2 (EVar vMuSUSY) * EPow P2 (EVar vSbeta) * EPow P3 (EVar vMst1) * EPow P3 (EVar vMt) - #7680
   * EVar vDmglst1 * EVar vMgl * EPow P2 (EVar vMt) * EPow P2 (EVar vMuSUSY) * EPow P2 (EVar vs2t) * EPow P4 (EVar
   vMst1) - #19200 * EPow P2 (EVar vDmglst1) * EPow P2 (EVar vMt) * EPow P2 (EVar vMuSUSY) * EPow P2 (EVar vs2t) *
   EPow P4 (EVar vMst1) - #1920 * EPow P2 (EVar vMgl) * EPow P2 (EVar vMt) * EPow P2 (EVar vMuSUSY) * EPow P2 (EVar
   vs2t) * EPow P4 (EVar vMst1) - #29520 * EVar vDmglst1 * EVar vMgl * EPow P2 (EVar vMst2) * EPow P2 (EVar vMt) *
   EPow P2 (EVar vs2t) * EPow P2 (EVar vSbeta) * EPow P4 (EVar vMst1) - #51960 * EPow P2 (EVar vDmglst1) * EPow P2
   (EVar vMst2) * EPow P2 (EVar vMt) * EPow P2 (EVar vs2t) * EPow P2 (EVar vSbeta) * EPow P4 (EVar vMst1) - #12840 *
   EPow P2 (EVar vMgl) * EPow P2 (EVar vMst2) * EPow P2 (EVar vMt) * EPow P2 (EVar vs2t) * EPow P2 (EVar vSbeta) *
   EPow P4 (EVar vMst1) + #7680 * EVar vDmglst1 * EVar vMgl * EPow P2 (EVar vMt) * EPow P2 (EVar vMuSUSY) * EPow P2
   (EVar vs2t) * EPow P2 (EVar vSbeta) * EPow P4 (EVar vMst1) + #19200 * EPow P2 (EVar vDmglst1) * EPow P2 (EVar vMt)
   * EPow P2 (EVar vMuSUSY) * EPow P2 (EVar vs2t) * EPow P2 (EVar vSbeta) * EPow P4 (EVar vMst1) + #1920 * EPow P2
   (EVar vMgl) * EPow P2 (EVar vMt) * EPow P2 (EVar vMuSUSY) * EPow P2 (EVar vs2t) * EPow P2 (EVar vSbeta) * EPow P4
   (EVar vMst1) - #76800 * EVar vCbeta * EVar vDmglst1 * EVar vMgl * EVar vMuSUSY * EVar vs2t * EVar vSbeta * EPow P3
   (EVar vMt) * EPow P4 (EVar vMst1) - #99840 * EVar vCbeta * EVar vMuSUSY * EVar vs2t * EVar vSbeta * EPow P2 (EVar
   vDmglst1) * EPow P3 (EVar vMt) * EPow P4 (EVar vMst1) - #42240 * EVar vCbeta * EVar vMuSUSY * EVar vs2t * EVar
   vSbeta * EPow P2 (EVar vMgl) * EPow P3 (EVar vMt) * EPow P4 (EVar vMst1) + #22440 * EVar vCbeta * EVar vDmglst1 *
   EVar vMgl * EVar vMt * EVar vMuSUSY * EVar vSbeta * EPow P2 (EVar vMst2) * EPow P3 (EVar vs2t) * EPow P4 (EVar
   vMst1) + #45180 * EVar vCbeta * EVar vMt * EVar vMuSUSY * EVar vSbeta * EPow P2 (EVar vDmglst1) * EPow P2 (EVar
   vMst2) * EPow P3 (EVar vs2t) * EPow P4 (EVar vMst1) + #8340 * EVar vCbeta * EVar vMt * EVar vMuSUSY * EVar vSbeta *
   EPow P2 (EVar vMgl) * EPow P2 (EVar vMst2) * EPow P3 (EVar vs2t) * EPow P4 (EVar vMst1) + #82080 * EVar vDmglst1 *
   EVar vMgl * EPow P2 (EVar vMst1) * EPow P2 (EVar vMt) * EPow P2 (EVar vs2t) * EPow P2 (EVar vSbeta) * EPow P4 (EVar
   vMst2) + #115440 * EPow P2 (EVar vDmglst1) * EPow P2 (EVar vMst1) * EPow P2 (EVar vMt) * EPow P2 (EVar vs2t) * EPow
   P2 (EVar vSbeta) * EPow P4 (EVar vMst2) + #42960 * EPow P2 (EVar vMgl) * EPow P2 (EVar vMst1) * EPow P2 (EVar vMt)
   * EPow P2 (EVar vs2t) * EPow P2 (EVar vSbeta) * EPow P4 (EVar vMst2) + #36160 * EVar vDmglst1 * EVar vMgl * EVar
   vMst1 * EVar vs2t * EPow P2 (EVar vSbeta) * EPow P3 (EVar vMt) * EPow P4 (EVar vMst2) + #24000 * EVar vMst1 * EVar
   vs2t * EPow P2 (EVar vDmglst1) * EPow P2 (EVar vSbeta) * EPow P3 (EVar vMt) * EPow P4 (EVar vMst2) + #25920 * EVar
   vMst1 * EVar vs2t * EPow P2 (EVar vMgl) * EPow P2 (EVar vSbeta) * EPow P3 (EVar vMt) * EPow P4 (EVar vMst2) + #6960
   * EVar vCbeta * EVar vMt * EVar vMuSUSY * EVar vSbeta * EPow P2 (EVar vMgl) * EPow P2 (EVar vMst1) * EPow P3 (EVar
   vs2t) * EPow P4 (EVar vMst2) - #19680 * EVar vDmglst1 * EVar vMgl * EVar vMt * EPow P2 (EVar vSbeta) * EPow P3
   (EVar vMst1) * EPow P3 (EVar vs2t) * EPow P4 (EVar vMst2) - #19680 * EVar vMt * EPow P2 (EVar vDmglst1) * EPow P2
   (EVar vSbeta) * EPow P3 (EVar vMst1) * EPow P3 (EVar vs2t) * EPow P4 (EVar vMst2) - #19680 * EVar vMt * EPow P2
   (EVar vMgl) * EPow P2 (EVar vSbeta) * EPow P3 (EVar vMst1) * EPow P3 (EVar vs2t) * EPow P4 (EVar vMst2) + #30720 *
   EPow P2 (EVar vMgl) * EPow P2 (EVar vMst1) * EPow P2 (EVar vMuSUSY) * EPow P4 (EVar vMt) + #86880 * EVar vDmglst1 *
   EVar vMgl * EPow P2 (EVar vMst1) * EPow P2 (EVar vMst2) * EPow P2 (EVar vSbeta) * EPow P4 (EVar vMt) + #171280 *
   EPow P2 (EVar vDmglst1) * EPow P2 (EVar vMst1) * EPow P2 (EVar vMst2) * EPow P2 (EVar vSbeta) * EPow P4 (EVar vMt)
   + #28080 * EPow P2 (EVar vMgl) * EPow P2 (EVar vMst1) * EPow P2 (EVar vMst2) * EPow P2 (EVar vSbeta) * EPow P4
   (EVar vMt) - #30720 * EPow P2 (EVar vMgl) * EPow P2 (EVar vMst1) * EPow P2 (EVar vMuSUSY) * EPow P2 (EVar vSbeta) *
   EPow P4 (EVar vMt) - #172480 * EVar vCbeta * EVar vDmglst1 * EVar vMgl * EVar vMuSUSY * EVar vSbeta * EPow P3 (EVar
   vMst1) * EPow P4 (EVar vMt) - #172480 * EVar vCbeta * EVar vMuSUSY * EVar vSbeta * EPow P2 (EVar vDmglst1) * EPow
   P3 (EVar vMst1) * EPow P4 (EVar vMt) - #43200 * EVar vCbeta * EVar vMuSUSY * EVar vSbeta * EPow P2 (EVar vMgl) *
   EPow P3 (EVar vMst1) * EPow P4 (EVar vMt) - #18240 * EVar vDmglst1 * EVar vMgl * EPow P2 (EVar vSbeta) * EPow P4
   (EVar vMst1) * EPow P4 (EVar vMt) - #75680 * EPow P2 (EVar vDmglst1) * EPow P2 (EVar vSbeta) * EPow P4 (EVar vMst1)
   * EPow P4 (EVar vMt) + #480 * EPow P2 (EVar vMgl) * EPow P2 (EVar vSbeta) * EPow P4 (EVar vMst1) * EPow P4 (EVar
   vMt) + #29600 * EVar vDmglst1 * EVar vMgl * EPow P2 (EVar vSbeta) * EPow P4 (EVar vMst2) * EPow P4 (EVar vMt) +
   #19856 * EPow P2 (EVar vDmglst1) * EPow P2 (EVar vSbeta) * EPow P4 (EVar vMst2) * EPow P4 (EVar vMt) + #29440 *
   EPow P2 (EVar vMgl) * EPow P2 (EVar vSbeta) * EPow P4 (EVar vMst2) * EPow P4 (EVar vMt) - #7200 * ELog (EPow P2
   (EVar vMst1) / EPow P2 (EVar vMsq)) * EPow P2 (EVar vMgl) * EPow P2 (EVar vSbeta) * EPow P4 (EVar vMst2) * EPow P4
   (EVar vMt) - #8490 * EVar vDmglst1 * EVar vMgl * EPow P2 (EVar vSbeta) * EPow P4 (EVar vMst1) * EPow P4 (EVar
   vMst2) * EPow P4 (EVar vs2t) - #18495 * EPow P2 (EVar vDmglst1) * EPow P2 (EVar vSbeta) * EPow P4 (EVar vMst1) *
   EPow P4 (EVar vMst2) * EPow P4 (EVar vs2t) - #345 * EPow P2 (EVar vMgl) * EPow P2 (EVar vSbeta) * EPow P4 (EVar
   vMst1) * EPow P4 (EVar vMst2) * EPow P4 (EVar vs2t) + #97920 * EVar vDmglst1 * EVar vMgl * EVar vs2t * EPow P2
   (EVar vSbeta) * EPow P3 (EVar vMt) * EPow P5 (EVar vMst1) + #514560 * EVar vs2t * EPow P2 (EVar vDmglst1) * EPow P2
   (EVar vSbeta) * EPow P3 (EVar vMt) * EPow P5 (EVar vMst1) + #1920 * EVar vs2t * EPow P2 (EVar vMgl) * EPow P2 (EVar
   vSbeta) * EPow P3 (EVar vMt) * EPow P5 (EVar vMst1) - #11520 * EVar vDmglst1 * EVar vMgl * EVar vMt * EPow P2 (EVar
   vMst2) * EPow P2 (EVar vSbeta) * EPow P3 (EVar vs2t) * EPow P5 (EVar vMst1) - #23040 * EVar vMt * EPow P2 (EVar
   vDmglst1) * EPow P2 (EVar vMst2) * EPow P2 (EVar vSbeta) * EPow P3 (EVar vs2t) * EPow P5 (EVar vMst1) - #3840 *
   EVar vMt * EPow P2 (EVar vMgl) * EPow P2 (EVar vMst2) * EPow P2 (EVar vSbeta) * EPow P3 (EVar vs2t) * EPow P5 (EVar
   vMst1) - #14160 * EVar vDmglst1 * EVar vMgl * EPow P2 (EVar vMt) * EPow P2 (EVar vs2t) * EPow P2 (EVar vSbeta) *
   EPow P6 (EVar vMst2) - #13560 * EPow P2 (EVar vDmglst1) * EPow P2 (EVar vMt) * EPow P2 (EVar vs2t) * EPow P2 (EVar
   vSbeta) * EPow P6 (EVar vMst2) - #9000 * EPow P2 (EVar vMgl) * EPow P2 (EVar vMt) * EPow P2 (EVar vs2t) * EPow P2
   (EVar vSbeta) * EPow P6 (EVar vMst2) + #31200 * EVar vDmglst1 * EVar vMgl * EVar vMst1 * EVar vMt * EPow P2 (EVar
   vSbeta) * EPow P3 (EVar vs2t) * EPow P6 (EVar vMst2) + #42720 * EVar vMst1 * EVar vMt * EPow P2 (EVar vDmglst1) *
   EPow P2 (EVar vSbeta) * EPow P3 (EVar vs2t) * EPow P6 (EVar vMst2) + #23520 * EVar vMst1 * EVar vMt * EPow P2 (EVar
   vMgl) * EPow P2 (EVar vSbeta) * EPow P3 (EVar vs2t) * EPow P6 (EVar vMst2) + #1110 * EVar vDmglst1 * EVar vMgl *
   EPow P2 (EVar vMst1) * EPow P2 (EVar vSbeta) * EPow P4 (EVar vs2t) * EPow P6 (EVar vMst2) + #5505 * EPow P2 (EVar
   vDmglst1) * EPow P2 (EVar vMst1) * EPow P2 (EVar vSbeta) * EPow P4 (EVar vs2t) * EPow P6 (EVar vMst2) - #5325 *
   EPow P2 (EVar vMgl) * EPow P2 (EVar vMst1) * EPow P2 (EVar vSbeta) * EPow P4 (EVar vs2t) * EPow P6 (EVar vMst2) +
   #30 * ELog (EPow P2 (EVar vMst1) / EPow P2 (EVar vMst2)) * (EVar vMst1 * EPow P2 (EVar vDmglst1) * (#48 * EVar vs2t
   * EVar vSbeta * (- #137 * EVar vCbeta * EVar vMuSUSY * EVar vs2t + #460 * EVar vMt * EVar vSbeta) * EPow P2 (EVar
   vMt) * EPow P4 (EVar vMst1) + #8 * EVar vMt * EVar vs2t * (- #60 * EPow P2 (EVar vMt) + #41 * EPow P2 (EVar vMst2)
   * EPow P2 (EVar vs2t)) * EPow P2 (EVar vSbeta) * EPow P4 (EVar vMst2) - #8 * EVar vMt * EPow P2 (EVar vMst1) *
   (#534 * EVar vCbeta * EVar vMt * EVar vMuSUSY * EVar vSbeta * EPow P2 (EVar vMst2) * EPow P2 (EVar vs2t) + #12 *
   EVar vs2t * EPow P2 (EVar vMt) * (#73 * EPow P2 (EVar vMuSUSY) * (- #1 + EPow P2 (EVar vSbeta)) - #88 * EPow P2
   (EVar vMst2) * EPow P2 (EVar vSbeta)) + #468 * EVar vCbeta * EVar vMuSUSY * EVar vSbeta * EPow P3 (EVar vMt) - #233
   * EPow P2 (EVar vSbeta) * EPow P3 (EVar vs2t) * EPow P4 (EVar vMst2)) + #3 * EVar vMst1 * EPow P2 (EVar vMst2) *
   EPow P2 (EVar vSbeta) * (#384 * EPow P2 (EVar vMst2) * EPow P2 (EVar vMt) * EPow P2 (EVar vs2t) + #512 * EPow P4
   (EVar vMt) + #91 * EPow P4 (EVar vMst2) * EPow P4 (EVar vs2t)) + EPow P3 (EVar vMst1) * (- #24 * EPow P2 (EVar vMt)
   * EPow P2 (EVar vs2t) * (#91 * EPow P2 (EVar vMuSUSY) * (- #1 + EPow P2 (EVar vSbeta)) - #96 * EPow P2 (EVar vMst2)
   * EPow P2 (EVar vSbeta)) - #6912 * EVar vCbeta * EVar vMuSUSY * EVar vs2t * EVar vSbeta * EPow P3 (EVar vMt) +
   #3296 * EPow P2 (EVar vSbeta) * EPow P4 (EVar vMt) - #273 * EPow P2 (EVar vSbeta) * EPow P4 (EVar vMst2) * EPow P4
   (EVar vs2t))) + #2 * EVar vDmglst1 * EVar vMgl * EVar vMst1 * (#8 * EVar vs2t * EVar vSbeta * (- #267 * EVar vCbeta
   * EVar vMuSUSY * EVar vs2t + #460 * EVar vMt * EVar vSbeta) * EPow P2 (EVar vMt) * EPow P4 (EVar vMst1) + #4 * EVar
   vMt * EVar vs2t * (- #60 * EPow P2 (EVar vMt) + #41 * EPow P2 (EVar vMst2) * EPow P2 (EVar vs2t)) * EPow P2 (EVar
   vSbeta) * EPow P4 (EVar vMst2) - #4 * EVar vMt * EPow P2 (EVar vMst1) * (#534 * EVar vCbeta * EVar vMt * EVar
   vMuSUSY * EVar vSbeta * EPow P2 (EVar vMst2) * EPow P2 (EVar vs2t) + #12 * EVar vs2t * EPow P2 (EVar vMt) * (#73 *
   EPow P2 (EVar vMuSUSY) * (- #1 + EPow P2 (EVar vSbeta)) - #44 * EPow P2 (EVar vMst2) * EPow P2 (EVar vSbeta)) +
   #468 * EVar vCbeta * EVar vMuSUSY * EVar vSbeta * EPow P3 (EVar vMt) - #137 * EPow P2 (EVar vSbeta) * EPow P3 (EVar
   vs2t) * EPow P4 (EVar vMst2)) + EVar vMst1 * EPow P2 (EVar vMst2) * EPow P2 (EVar vSbeta) * (#384 * EPow P2 (EVar
   vMst2) * EPow P2 (EVar vMt) * EPow P2 (EVar vs2t) + #512 * EPow P4 (EVar vMt) + #91 * EPow P4 (EVar vMst2) * EPow
   P4 (EVar vs2t)) + EPow P3 (EVar vMst1) * (- #8 * EPow P2 (EVar vMt) * EPow P2 (EVar vs2t) * (#91 * EPow P2 (EVar
   vMuSUSY) * (- #1 + EPow P2 (EVar vSbeta)) - #96 * EPow P2 (EVar vMst2) * EPow P2 (EVar vSbeta)) - #2304 * EVar
   vCbeta * EVar vMuSUSY * EVar vs2t * EVar vSbeta * EPow P3 (EVar vMt) + #864 * EPow P2 (EVar vSbeta) * EPow P4 (EVar
   vMt) - #91 * EPow P2 (EVar vSbeta) * EPow P4 (EVar vMst2) * EPow P4 (EVar vs2t))) + EPow P2 (EVar vMgl) * (#8 *
   EVar vMst1 * EVar vMt * EVar vs2t * (- #60 * EPow P2 (EVar vMt) + #41 * EPow P2 (EVar vMst2) * EPow P2 (EVar vs2t))
   * EPow P2 (EVar vSbeta) * EPow P4 (EVar vMst2) - #8 * EVar vMt * EPow P3 (EVar vMst1) * (#342 * EVar vCbeta * EVar
   vMt * EVar vMuSUSY * EVar vSbeta * EPow P2 (EVar vMst2) * EPow P2 (EVar vs2t) + #4 * EVar vs2t * EPow P2 (EVar vMt)
   * (#155 * EPow P2 (EVar vMuSUSY) * (- #1 + EPow P2 (EVar vSbeta)) - #44 * EPow P2 (EVar vMst2) * EPow P2 (EVar
   vSbeta)) + #116 * EVar vCbeta * EVar vMuSUSY * EVar vSbeta * EPow P3 (EVar vMt) - #73 * EPow P2 (EVar vSbeta) *
   EPow P3 (EVar vs2t) * EPow P4 (EVar vMst2)) + EPow P2 (EVar vSbeta) * EPow P4 (EVar vMst2) * (- #328 * EPow P2
   (EVar vMst2) * EPow P2 (EVar vMt) * EPow P2 (EVar vs2t) - #408 * EPow P4 (EVar vMt) + #41 * EPow P4 (EVar vMst2) *
   EPow P4 (EVar vs2t)) + #4 * EPow P4 (EVar vMst1) * (#2 * EPow P2 (EVar vMt) * EPow P2 (EVar vs2t) * (- #173 * EPow
   P2 (EVar vMuSUSY) * (- #1 + EPow P2 (EVar vSbeta)) + #96 * EPow P2 (EVar vMst2) * EPow P2 (EVar vSbeta)) - #576 *
   EVar vCbeta * EVar vMuSUSY * EVar vs2t * EVar vSbeta * EPow P3 (EVar vMt) + #172 * EPow P2 (EVar vSbeta) * EPow P4
   (EVar vMt) - #33 * EPow P2 (EVar vSbeta) * EPow P4 (EVar vMst2) * EPow P4 (EVar vs2t)) + #16 * EVar vs2t * EVar
   vSbeta * (- #171 * EVar vCbeta * EVar vMuSUSY * EVar vs2t + #92 * EVar vMt * EVar vSbeta) * EPow P2 (EVar vMt) *
   EPow P5 (EVar vMst1) + EPow P2 (EVar vMst1) * (#8 * EPow P2 (EVar vMst2) * EPow P2 (EVar vMt) * EPow P2 (EVar vs2t)
   * (- #173 * EPow P2 (EVar vMuSUSY) * (- #1 + EPow P2 (EVar vSbeta)) + #89 * EPow P2 (EVar vMst2) * EPow P2 (EVar
   vSbeta)) - #768 * EVar vCbeta * EVar vMuSUSY * EVar vs2t * EVar vSbeta * EPow P2 (EVar vMst2) * EPow P3 (EVar vMt)
   - #528 * EVar vCbeta * EVar vMt * EVar vMuSUSY * EVar vSbeta * EPow P3 (EVar vs2t) * EPow P4 (EVar vMst2) + #512 *
   (- (EPow P2 (EVar vMuSUSY) * (- #1 + EPow P2 (EVar vSbeta))) + EPow P2 (EVar vMst2) * EPow P2 (EVar vSbeta)) * EPow
   P4 (EVar vMt) + #91 * EPow P2 (EVar vSbeta) * EPow P4 (EVar vs2t) * EPow P6 (EVar vMst2)))) + #1770 * EVar vDmglst1
   * EVar vMgl * EPow P2 (EVar vSbeta) * EPow P4 (EVar vs2t) * EPow P8 (EVar vMst2) + #1695 * EPow P2 (EVar vDmglst1)
   * EPow P2 (EVar vSbeta) * EPow P4 (EVar vs2t) * EPow P8 (EVar vMst2) + #3585 * EPow P2 (EVar vMgl) * EPow P2 (EVar
   vSbeta) * EPow P4 (EVar vs2t) * EPow P8 (EVar vMst2)) / (#45 * EPow P2 (EVar vMgl) * EPow P2 (EVar vSbeta) * EPow
   P4 (EVar vMst2) * EPow P4 (EVar vMt)).

(** H5g1.cpp:3897-3903 *)
Definition H5g1_coef3 : expr :=
  - EDec 2986666666666667 13.

(** the constructor, H5g1.cpp:39-71: value of each data member (members it does not assign are zero, H5g1.hpp) *)
Definition H5g1_ctor {T : Type} {N : Num T} (d : Depth) (a_Al4p a_beta a_Dmglst1 a_lmMt a_lmMst1 a_lmMst2 a_lmMsq
   a_Mgl a_Mt a_Mst1 a_Mst2 a_Msq a_MuSUSY a_s2t : T) (mdr f1 f2 f3 : Z) (v : hvar) : T :=
  match v with
  | vTbeta => ntan a_beta
  | vSbeta => nsin a_beta
  | vCbeta => ncos a_beta
  | vDmglst1 => a_Dmglst1
  | vlmMt => a_lmMt
  | vlmMst1 => a_lmMst1
  | vlmMst2 => a_lmMst2
  | vlmMsq => a_lmMsq
  | vMgl => a_Mgl
  | vMt => a_Mt
  | vMst1 => a_Mst1
  | vMst2 => a_Mst2
  | vMsq => a_Msq
  | vMuSUSY => a_MuSUSY
  | vs2t => a_s2t
  | voneLoopFlag => nint f1
  | vtwoLoopFlag => nint f2
  | vthreeLoopFlag => nint f3
  | vAl4p => a_Al4p
  | vshiftst1 => nint mdr
  | vshiftst2 => nint mdr
  | vshiftst3 => nint mdr
  | vxDmglst1 => nint (x_Dmglst1 d)
  | vxMsq => nint (x_Msq d)
  | _ => nint 0
  end.
