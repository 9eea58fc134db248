(** * Class H6g2
    GENERATED by tools/gen_hier.py from source/himalaya/hierarchies/H6g2.cpp (expressions are transcribed operator by operator;
    no subexpression is an integer division, and integer subexpressions stay below 2^31 when the flags are 0 or 1). *)
From Coq Require Import ZArith List.
From Verif Require Import Num HierExpr HierCalc.
Local Open Scope hx_scope.

(** H6g2.cpp:77-514 *)
Definition H6g2_getS1 : expr :=
  - (EPow P2 (EVar vMt) * (#270 * EVar vs2t * EVar vxMst * (#27 * (EVar vlmMst1 - EVar vlmMst2) * EVar vMst2 * EVar
   voneLoopFlag * EVar vs2t * EPow P2 (EVar vMuSUSY) - #2 * EVar vAl4p * EVar vtwoLoopFlag * (#4 * (#18 * (EVar
   vlmMst1 - EVar vlmMst2) * (- #2 + #3 * EVar vlmMst2) * EVar vMst2 * EVar vs2t * EVar vxDmglst2 * EVar vxDR2DRMOD *
   EPow P2 (EVar vDmglst2) + EVar vDmglst2 * EVar vMgl * (EVar vMt * (#785 + #6 * EVar vlmMst1 * (#85 - #42 * EVar
   vlmMst2) - #438 * EVar vlmMst2 + #252 * EPow P2 (EVar vlmMst2)) - EVar vMst2 * EVar vs2t * (#49 - #84 * EVar
   vlmMst2 + EVar vlmMst1 * (#84 - #36 * EVar vlmMst2 * (- #1 + EVar vxDR2DRMOD)) + #36 * (- #1 + EVar vxDR2DRMOD) *
   EPow P2 (EVar vlmMst2))) + (EVar vMt * (#193 + #474 * EVar vlmMst2 - #6 * EVar vlmMst1 * (#67 + #42 * EVar vlmMst2)
   + #252 * EPow P2 (EVar vlmMst2)) - EVar vMst2 * EVar vs2t * (#1 + #3 * EVar vlmMst2 * (- #37 + #6 * EVar
   vxDR2DRMOD) - #3 * EVar vlmMst1 * (- #37 + #6 * EVar vlmMst2 * (- #12 + EVar vxDR2DRMOD) + #6 * EVar vxDR2DRMOD) -
   #81 * EPow P2 (EVar vlmMst1) + #9 * (- #15 + #2 * EVar vxDR2DRMOD) * EPow P2 (EVar vlmMst2))) * EPow P2 (EVar
   vMgl)) * EPow P2 (EVar vMuSUSY) - EVar vxDmglst2 * EPow P2 (EVar vDmglst2) * (#4 * EVar vMt * EVar vTbeta * (-
   #2501 + #222 * EVar vlmMst2 + #42 * EVar vlmMst1 * (- #7 + #6 * EVar vlmMst2) - #252 * EPow P2 (EVar vlmMst2)) *
   EPow P2 (EVar vMuSUSY) + #6 * EVar vMst2 * EVar vMuSUSY * (EVar vMuSUSY * EVar vs2t * EVar vTbeta * (#85 - #60 *
   EVar vlmMst1 + #60 * EVar vlmMst2 + #36 * EVar vlmMst1 * EVar vlmMst2 - #36 * EPow P2 (EVar vlmMst2)) + #10 * (-
   #43 + #60 * EVar vlmMst1 - #60 * EVar vlmMst2) * EVar vMt * EPow P2 (EVar vSbeta)) + #15 * (- #43 + #60 * EVar
   vlmMst1 - #60 * EVar vlmMst2) * EVar vs2t * EVar vTbeta * (- #1 + EPow P2 (EVar vSbeta)) * EPow P2 (EVar vSbeta) *
   EPow P3 (EVar vMst2)) / EVar vTbeta) / EPow P2 (EVar vMgl)) * EPow P6 (EVar vMst1) / EPow P7 (EVar vMst2) - EPow P2
   (EVar vMuSUSY) * (#3645 * EVar voneLoopFlag * EPow P2 (EVar vs2t) * (#2 - EVar vlmMst1 + EVar vlmMst2 - #2 * (EVar
   vlmMst1 - EVar vlmMst2) * EPow P2 (EVar vMst1) * (EPow P2 (EVar vMst1) + EPow P2 (EVar vMst2)) / EPow P4 (EVar
   vMst2)) + #19440 * EVar vAl4p * EPow P2 (EVar vs2t) * ((#2 - #3 * EVar vlmMst2) * EVar vtwoLoopFlag * EVar
   vxDmglst2 * EVar vxDR2DRMOD * EPow P2 (EVar vDmglst2) * ((EPow P2 (EVar vMst1) + EPow P2 (EVar vMst2)) * EPow P4
   (EVar vMst2) - #2 * (EVar vlmMst1 - EVar vlmMst2) * EPow P2 (EVar vMst1) * (EPow P2 (EVar vMst1) * EPow P2 (EVar
   vMst2) + EPow P4 (EVar vMst1) + EPow P4 (EVar vMst2))) / EPow P2 (EVar vMgl) + #5 * EVar vAl4p * (#1 - #2 * EVar
   vlmMsq) * EVar vthreeLoopFlag * EVar vxMsq * EPow P2 (EVar vMsq) * ((#1 - #2 * EVar vlmMst2 * (- #1 + EVar
   vshiftst1)) * EPow P2 (EVar vMst1) * EPow P2 (EVar vMst2) + #2 * EVar vlmMst1 * (- #1 + EVar vshiftst1) * EPow P2
   (EVar vMst1) * EPow P2 (EVar vMst2) + EVar vshiftst2 * EPow P2 (EVar vMst1) * (#2 * EPow P2 (EVar vMst1) + EPow P2
   (EVar vMst2)) - #2 * EVar vlmMst1 * (#1 - #2 * EVar vshiftst1 + EVar vshiftst2) * EPow P4 (EVar vMst1) + #2 * EVar
   vlmMst2 * (#1 - #2 * EVar vshiftst1 + EVar vshiftst2) * EPow P4 (EVar vMst1) + EPow P4 (EVar vMst2) - EVar
   vshiftst1 * (#2 * EPow P2 (EVar vMst1) * EPow P2 (EVar vMst2) + #2 * EPow P4 (EVar vMst1) + EPow P4 (EVar vMst2))))
   / (EPow P2 (EVar vMst1) * EPow P4 (EVar vMst2)) + #2 * EVar vthreeLoopFlag * EPow P2 (EVar vAl4p) * (#180 * EPow P2
   (EVar vMt) * (#3 * EVar vMgl * (#8 * EPow P2 (EVar vMst2) * (#436 - #6 * EConst CB4 + #6 * EConst CD3 - #3 * EConst
   CDN - #48 * EVar vlmMst1 + (#408 - #96 * EVar vlmMst1) * EVar vlmMst2 + #24 * EVar vlmMt - #972 * EConst CS2 - #48
   * (- #4 + EVar vlmMst1) * EPow P2 (EVar vlmMst2) + #48 * EPow P3 (EVar vlmMst2)) + EPow P2 (EVar vMst1) * (#10667 -
   #96 * EConst CB4 + #96 * EConst CD3 - #48 * EConst CDN - #3072 * EVar vlmMst1 - #384 * (- #25 + #9 * EVar vlmMst1)
   * EVar vlmMst2 - #384 * EVar vlmMst1 * EVar vlmMt + #384 * (#1 + EVar vlmMst2) * EVar vlmMt - #224 * EConst COepS2
   + #324 * (- #43 + #14 * EVar vlmMst1 - #14 * EVar vlmMst2) * EConst CS2 - #384 * (- #13 + #4 * EVar vlmMst1) * EPow
   P2 (EVar vlmMst2) + #1536 * EPow P3 (EVar vlmMst2))) + #2 * EVar vDmglst2 * (EPow P2 (EVar vMst1) * (#28405 - #288
   * EConst CB4 + #288 * EConst CD3 - #144 * EConst CDN + #5472 * EVar vlmMst1 - #288 * (- #89 + #2 * EVar vlmMst1) *
   EVar vlmMst2 + #576 * (- #2 + EVar vlmMst1 - EVar vlmMst2) * EVar vlmMt + #224 * EConst COepS2 - #324 * (#65 + #14
   * EVar vlmMst1 - #14 * EVar vlmMst2) * EConst CS2 - #576 * (- #9 + #8 * EVar vlmMst1) * EPow P2 (EVar vlmMst2) +
   #4608 * EPow P3 (EVar vlmMst2)) + #72 * EPow P2 (EVar vMst2) * (#180 - #2 * EConst CB4 + #2 * EConst CD3 - EConst
   CDN + #144 * EVar vlmMst2 - #216 * EConst CS2 - #16 * (- #2 + EVar vlmMst1) * EPow P2 (EVar vlmMst2) + #16 * (EVar
   vlmMst1 + EPow P3 (EVar vlmMst2))))) / (EVar vMgl * EPow P4 (EVar vMst2)) + #90 * EPow P2 (EVar vs2t) * (#15829 -
   #720 * EConst CB4 + #72 * EConst CD3 - #36 * EConst CDN - #3330 * EVar vlmMsq + #1350 * EPow P2 (EVar vlmMsq) - #3
   * EVar vlmMst1 * (#5279 - #1950 * EVar vlmMsq + #630 * EPow P2 (EVar vlmMsq)) - #954 * EPow P2 (EVar vlmMst1) + #3
   * EVar vlmMst2 * (#10421 - #6558 * EVar vlmMst1 + #30 * EVar vlmMsq * (- #95 + #42 * EVar vlmMst1) + #630 * EPow P2
   (EVar vlmMsq) + #234 * EPow P2 (EVar vlmMst1)) - #18 * (- #1460 + #210 * EVar vlmMsq + #399 * EVar vlmMst1) * EPow
   P2 (EVar vlmMst2) - #288 * EPow P3 (EVar vlmMst1) + #6768 * EPow P3 (EVar vlmMst2) + #6 * EPow P2 (EVar vMst1) *
   ((EVar vMgl * (#111 + #2668 * EVar vlmMst1 + #2 * (- #1514 + #675 * EVar vlmMst1) * EVar vlmMst2 + #90 * EVar
   vlmMsq * (#4 - #13 * EVar vlmMst1 + #13 * EVar vlmMst2) - #90 * EPow P2 (EVar vlmMst1) - #1260 * EPow P2 (EVar
   vlmMst2)) + #100 * EVar vDmglst2 * (#69 + (- #53 + #42 * EVar vlmMsq) * EVar vlmMst2 + EVar vlmMst1 * (#53 - #42 *
   EVar vlmMsq + #42 * EVar vlmMst2) - #42 * EPow P2 (EVar vlmMst2))) / (EVar vMgl * EPow P2 (EVar vMsq)) - #135 *
   (EDec 20420053497942388 14 + #76 * EConst CB4 / #9 - #2 * EConst CDN / #9 - #50 * EVar vlmMsq / #3 + #2 * EVar
   vlmMst1 * (#57971 - #14625 * EVar vlmMsq + #2700 * EPow P2 (EVar vlmMsq)) / #405 + (- #1331 + #180 * EVar vlmMsq) *
   EPow P2 (EVar vlmMst1) / #27 - #2 * EVar vlmMst2 * (#52436 - #70455 * EVar vlmMst1 + #225 * EVar vlmMsq * (- #65 +
   #36 * EVar vlmMst1) + #2700 * EPow P2 (EVar vlmMsq) + #8280 * EPow P2 (EVar vlmMst1)) / #405 + (- #8063 + #900 *
   EVar vlmMsq + #3792 * EVar vlmMst1) * EPow P2 (EVar vlmMst2) / #27 - #62 * EPow P3 (EVar vlmMst1) / #27 - #2626 *
   EPow P3 (EVar vlmMst2) / #27 - EVar vDmglst2 * (EDec 10911799176954733 14 - #8 * EConst CB4 / #3 + #32 * EConst CD3
   / #9 - #20 * EConst CDN / #9 + #80 * EVar vlmMsq - EVar vlmMst1 * (EDec 7819061728395062 14 + #20 * EPow P2 (EVar
   vlmMsq)) - #2888 * EPow P2 (EVar vlmMst1) / #135 + EVar vlmMst2 * (#40 * EVar vlmMsq * EVar vlmMst1 + #20 * EPow P2
   (EVar vlmMsq) + #4 * (- #21616 - #64515 * EVar vlmMst1 + #31275 * EPow P2 (EVar vlmMst1)) / #2025) - #4 * (- #5023
   + #1350 * EVar vlmMsq + #6285 * EVar vlmMst1) * EPow P2 (EVar vlmMst2) / #135 + #20 * EPow P3 (EVar vlmMst1) / #27
   + #3340 * EPow P3 (EVar vlmMst2) / #27) / EVar vMgl) / EPow P2 (EVar vMst2)) / #5 + #162 * EPow P4 (EVar vMst1) *
   ((EDec 10702990137854083 16 + #9571 * EVar vlmMsq / #26460 + (EDec 4249508692365835 15 - #169 * EVar vlmMsq / #63)
   * EVar vlmMst1 + (- EDec 46112244897959185 16 + #19 * EVar vlmMsq / #7 + #31 * EVar vlmMst1 / #9) * EVar vlmMst2 -
   EPow P2 (EVar vlmMsq) / #63 - #8 * EPow P2 (EVar vlmMst1) / #21 + #5 * EVar vDmglst2 * (#216 + (- #95 + #132 * EVar
   vlmMsq) * EVar vlmMst2 + EVar vlmMst1 * (#95 - #132 * EVar vlmMsq + #132 * EVar vlmMst2) - #132 * EPow P2 (EVar
   vlmMst2)) / (#54 * EVar vMgl) - #194 * EPow P2 (EVar vlmMst2) / #63) / EPow P4 (EVar vMsq) - (EDec 3633804294212688
   13 + #76 * EConst CB4 / #9 - #2 * EConst CDN / #9 - #35 * EVar vlmMsq / #2 + EVar vlmMst1 * (EDec 2113489518770471
   13 - #695 * EVar vlmMsq / #9 + #40 * EPow P2 (EVar vlmMsq) / #3) - (EDec 21487936507936507 14 - #20 * EVar vlmMsq)
   * EPow P2 (EVar vlmMst1) - EVar vlmMst2 * (EDec 19046006298815823 14 - #71398 * EVar vlmMst1 / #105 + #5 * EVar
   vlmMsq * (- #139 + #120 * EVar vlmMst1) / #9 + #40 * EPow P2 (EVar vlmMsq) / #3 + #334 * EPow P2 (EVar vlmMst1) /
   #3) + (- #146507 + #14700 * EVar vlmMsq + #91070 * EVar vlmMst1) * EPow P2 (EVar vlmMst2) / #315 - #44 * EPow P3
   (EVar vlmMst1) / #9 - #1556 * EPow P3 (EVar vlmMst2) / #9 - EVar vDmglst2 * (EDec 5361152102791342 13 - #8 * EConst
   CB4 / #3 + #32 * EConst CD3 / #9 - #20 * EConst CDN / #9 + #90 * EVar vlmMsq - (EDec 12311224321827497 14 + #20 *
   EVar vlmMsq * (#1 + EVar vlmMsq)) * EVar vlmMst1 - EVar vlmMst2 * (EDec 1733220122616948 14 - #20 * EVar vlmMsq *
   (#1 + EVar vlmMsq) + (EDec 13304550264550264 14 - #40 * EVar vlmMsq) * EVar vlmMst1 - #1180 * EPow P2 (EVar
   vlmMst1) / #9) - #15886 * EPow P2 (EVar vlmMst1) / #945 + (EDec 14985608465608465 14 - #40 * EVar vlmMsq - #2812 *
   EVar vlmMst1 / #9) * EPow P2 (EVar vlmMst2) - #92 * EPow P3 (EVar vlmMst1) / #27 + #4988 * EPow P3 (EVar vlmMst2) /
   #27) / EVar vMgl) / EPow P4 (EVar vMst2)) + #162 * (EVar vDmglst2 * (EDec 19734567901234566 15 - #8 * EConst CB4 /
   #3 + #32 * EConst CD3 / #9 - #20 * EConst CDN / #9 + #170 * EVar vlmMsq / #3 + EVar vlmMst1 * (EDec
   9333333333333334 15 - #20 * EPow P2 (EVar vlmMsq)) + #10 * EPow P2 (EVar vlmMsq) - #26 * EPow P2 (EVar vlmMst1) /
   #3 + #2 * EVar vlmMst2 * (- #291 - #464 * EVar vlmMst1 + #90 * EVar vlmMsq * (- #1 + #2 * EVar vlmMst1) + #90 *
   EPow P2 (EVar vlmMsq) + #32 * EPow P2 (EVar vlmMst1)) / #9 - #2 * (- #607 + #180 * EVar vlmMsq + #336 * EVar
   vlmMst1) * EPow P2 (EVar vlmMst2) / #9 + #608 * EPow P3 (EVar vlmMst2) / #9) - #16 * (#1 + EVar vlmMst2) * (#4 *
   EVar vDmglst2 * EVar vlmMst2 + EVar vMgl + EVar vlmMst2 * EVar vMgl) * EPow P4 (EVar vMst2) / (#9 * EPow P4 (EVar
   vMst1)) + EPow P2 (EVar vMst2) * (EVar vMgl * (#2 * (#4167613 - #19932360 * EVar vlmMst2 + #20580 * EVar vlmMst1 *
   (#701 + #540 * EVar vlmMst2) + #420 * EVar vlmMsq * (#13109 - #26460 * EVar vlmMst1 + #25620 * EVar vlmMst2) +
   #176400 * EPow P2 (EVar vlmMsq) - #10936800 * EPow P2 (EVar vlmMst2)) * EPow P2 (EVar vMst1) + (#41220947 - #420 *
   EVar vlmMsq * (#12479 + #69090 * EVar vlmMst1 - #69930 * EVar vlmMst2) - #21234990 * EVar vlmMst2 + #10290 * EVar
   vlmMst1 * (#2573 + #2820 * EVar vlmMst2) - #176400 * EPow P2 (EVar vlmMsq) - #29194200 * EPow P2 (EVar vlmMst2)) *
   EPow P2 (EVar vMst2)) / #11113200 + #5 * EVar vDmglst2 * (#2 * (#219 + (- #95 + #132 * EVar vlmMsq) * EVar vlmMst2
   + EVar vlmMst1 * (#95 - #132 * EVar vlmMsq + #132 * EVar vlmMst2) - #132 * EPow P2 (EVar vlmMst2)) * EPow P2 (EVar
   vMst1) + (#557 - #224 * EVar vlmMst2 + #4 * EVar vlmMst1 * (#53 + #96 * EVar vlmMst2) + EVar vlmMsq * (#12 - #384 *
   EVar vlmMst1 + #384 * EVar vlmMst2) - #384 * EPow P2 (EVar vlmMst2)) * EPow P2 (EVar vMst2)) / #108 - (#40 * (#8 *
   EVar vDmglst2 * (#14 - #15 * EVar vlmMsq + #15 * EVar vlmMst2) + (#43 - #30 * EVar vlmMsq + #30 * EVar vlmMst2) *
   EVar vMgl) * EPow P2 (EVar vMsq) * EPow P2 (EVar vMst2) + (- #12 * EVar vMgl * (#341 + #642 * EVar vlmMst2 + #64 *
   EVar vlmMst1 * (#1 + EVar vlmMst2) - #30 * EVar vlmMsq * (#5 + #6 * EVar vlmMst2) + #90 * EPow P2 (EVar vlmMsq) +
   #272 * EPow P2 (EVar vlmMst2)) - #24 * EVar vDmglst2 * (- #115 + (#366 + #64 * EVar vlmMst1) * EVar vlmMst2 - #30 *
   EVar vlmMsq * (- #1 + #6 * EVar vlmMst2) + #90 * EPow P2 (EVar vlmMsq) + #336 * EPow P2 (EVar vlmMst2))) * EPow P4
   (EVar vMsq) + (#90 * EVar vDmglst2 * (#13 - #28 * EVar vlmMsq + #28 * EVar vlmMst2) + #5 * (#67 - #84 * EVar vlmMsq
   + #84 * EVar vlmMst2) * EVar vMgl) * EPow P4 (EVar vMst2)) / (#216 * EPow P2 (EVar vMst1))) / EPow P4 (EVar vMsq) -
   (#2 * EVar vDmglst2 * (#54 * (#344 * EConst COepS2 + #9 * (#15643 - #774 * EVar vlmMst1 + #774 * EVar vlmMst2) *
   EConst CS2) * EPow P2 (EVar vMst1) * EPow P2 (EVar vMst2) + #4 * (#17308 * EConst COepS2 + #27 * (#93919 - #12981 *
   EVar vlmMst1 + #12981 * EVar vlmMst2) * EConst CS2) * EPow P4 (EVar vMst1) + #27 * (#56 * EConst COepS2 - #81 * (-
   #1677 + #14 * EVar vlmMst1 - #14 * EVar vlmMst2) * EConst CS2) * EPow P4 (EVar vMst2)) + #3 * EVar vMgl * (- #3 *
   (#3896 * EConst COepS2 - #81 * (#9473 + #974 * EVar vlmMst1 - #974 * EVar vlmMst2) * EConst CS2) * EPow P2 (EVar
   vMst1) * EPow P2 (EVar vMst2) + (- #29428 * EConst COepS2 + #27 * (#160997 + #22071 * EVar vlmMst1 - #22071 * EVar
   vlmMst2) * EConst CS2) * EPow P4 (EVar vMst1) + #432 * (- #4 * EConst COepS2 + #81 * (#22 + EVar vlmMst1 - EVar
   vlmMst2) * EConst CS2) * EPow P4 (EVar vMst2))) / (#2187 * EPow P4 (EVar vMst2)) + (EVar vMgl * ((#1725 + (- #7006
   + #2640 * EVar vlmMsq) * EVar vlmMst2 + EVar vlmMst1 * (#7006 - #2640 * EVar vlmMsq + #4800 * EVar vlmMst2) - #1080
   * EPow P2 (EVar vlmMst1) - #3720 * EPow P2 (EVar vlmMst2)) * EPow P4 (EVar vMst1) + #2 * (#836 - #2235 * EVar
   vlmMst2 + #75 * EVar vlmMst1 * (#27 + #16 * EVar vlmMst2) + #30 * EVar vlmMsq * (#7 - #40 * EVar vlmMst1 + #40 *
   EVar vlmMst2) - #1200 * EPow P2 (EVar vlmMst2)) * EPow P4 (EVar vMst2)) + #50 * EVar vDmglst2 * ((#291 + #2 * (-
   #103 + #84 * EVar vlmMsq) * EVar vlmMst2 + #2 * EVar vlmMst1 * (#103 - #84 * EVar vlmMsq + #84 * EVar vlmMst2) -
   #168 * EPow P2 (EVar vlmMst2)) * EPow P4 (EVar vMst1) + #2 * (#118 + #109 * EVar vlmMst1 + (- #133 + #102 * EVar
   vlmMst1) * EVar vlmMst2 + #6 * EVar vlmMsq * (#4 - #17 * EVar vlmMst1 + #17 * EVar vlmMst2) - #102 * EPow P2 (EVar
   vlmMst2)) * EPow P4 (EVar vMst2))) / (#270 * EPow P2 (EVar vMsq) * EPow P2 (EVar vMst2))) / EVar vMgl + #54 * (- #1
   + #2 * EVar vlmMst2) * EVar vshiftst3 * (#2 * (#1 - #2 * EVar vlmMst1 + #2 * EVar vlmMst2) * EPow P2 (EVar vMst2) *
   EPow P4 (EVar vMst1) + #2 * (#1 - EVar vlmMst1 + EVar vlmMst2) * EPow P2 (EVar vMst1) * EPow P4 (EVar vMst2) + (#2
   - #6 * EVar vlmMst1 + #6 * EVar vlmMst2) * EPow P6 (EVar vMst1) + EPow P6 (EVar vMst2)) / (EPow P2 (EVar vMst1) *
   EPow P4 (EVar vMst2))) + (#10 * (#3 * EPow P2 (EVar vMgl) * (- #6 * EVar vMst2 * EPow P2 (EVar vMst1) * (- #36 *
   EPow P2 (EVar vMt) * (#218 * EConst Cz3 + #50 * EConst Cz4 + #21 * EPow P2 (EConst Cz2)) + EPow P2 (EVar vMst2) *
   EPow P2 (EVar vs2t) * ((- #56978 - #216 * EVar vlmMst1 + #216 * EVar vlmMst2) * EConst Cz3 + #1136 * EConst Cz4 +
   #813 * EPow P2 (EConst Cz2)) + #4 * EVar vMst2 * EVar vMt * EVar vs2t * (- #11396 * EConst Cz3 - #1135 * EConst Cz4
   + #2388 * EPow P2 (EConst Cz2))) + #18 * (#8 * (#230 * EConst Cz3 + #27 * EConst Cz4) * EPow P2 (EVar vMt) + #5 *
   EVar vMst2 * EVar vMt * EVar vs2t * (#2098 * EConst Cz3 + #102 * EConst Cz4 - #333 * EPow P2 (EConst Cz2)) + #3 *
   EPow P2 (EVar vMst2) * EPow P2 (EVar vs2t) * ((#1913 + #12 * EVar vlmMst1 - #12 * EVar vlmMst2) * EConst Cz3 - #10
   * EConst Cz4 + #48 * EPow P2 (EConst Cz2))) * EPow P3 (EVar vMst2) + EVar vs2t * (EVar vMt * (#268928 * EConst Cz3
   + #47056 * EConst Cz4 - #82020 * EPow P2 (EConst Cz2)) + EVar vMst2 * EVar vs2t * (#8 * (#76813 + #162 * EVar
   vlmMst1 - #162 * EVar vlmMst2) * EConst Cz3 - #15686 * EConst Cz4 - #18183 * EPow P2 (EConst Cz2))) * EPow P4 (EVar
   vMst1)) + #2 * EVar vDmglst2 * EVar vMgl * EVar vMst2 * (#27 * EPow P2 (EVar vMst2) * (#16 * (- #83 * EConst Cz3 +
   #27 * EConst Cz4) * EPow P2 (EVar vMt) + EVar vMst2 * EVar vMt * EVar vs2t * (#37474 * EConst Cz3 + #542 * EConst
   Cz4 - #5289 * EPow P2 (EConst Cz2)) + EPow P2 (EVar vMst2) * EPow P2 (EVar vs2t) * (#16175 * EConst Cz3 + #424 *
   EConst Cz4 + #474 * EPow P2 (EConst Cz2))) - #36 * EPow P2 (EVar vMst1) * (#6 * EPow P2 (EVar vMt) * (#250 * EConst
   Cz3 - #94 * EConst Cz4 + #21 * EPow P2 (EConst Cz2)) - #3 * EPow P2 (EVar vMst2) * EPow P2 (EVar vs2t) * (#9207 *
   EConst Cz3 + #185 * EConst Cz4 + #237 * EPow P2 (EConst Cz2)) + EVar vMst2 * EVar vMt * EVar vs2t * (- #59336 *
   EConst Cz3 - #709 * EConst Cz4 + #8535 * EPow P2 (EConst Cz2))) + #4 * EPow P2 (EVar vs2t) * (#338536 * EConst Cz3
   + #11327 * EConst Cz4 + #15897 * EPow P2 (EConst Cz2)) * EPow P4 (EVar vMst1)) + EVar vMst2 * EVar vxDmglst2 * EPow
   P2 (EVar vDmglst2) * (#9 * EPow P2 (EVar vMst2) * (#48 * (- #1990 * EConst Cz3 + #81 * EConst Cz4) * EPow P2 (EVar
   vMt) + #2 * EVar vMst2 * EVar vMt * EVar vs2t * (#256474 * EConst Cz3 + #2498 * EConst Cz4 - #31083 * EPow P2
   (EConst Cz2)) + EPow P2 (EVar vMst2) * EPow P2 (EVar vs2t) * (#226447 * EConst Cz3 + #8888 * EConst Cz4 + #4098 *
   EPow P2 (EConst Cz2))) - #12 * EPow P2 (EVar vMst1) * (#36 * EPow P2 (EVar vMt) * (#250 * EConst Cz3 - #94 * EConst
   Cz4 + #21 * EPow P2 (EConst Cz2)) - EPow P2 (EVar vMst2) * EPow P2 (EVar vs2t) * (#409448 * EConst Cz3 + #10819 *
   EConst Cz4 + #3471 * EPow P2 (EConst Cz2)) + EVar vMst2 * EVar vMt * EVar vs2t * (- #699292 * EConst Cz3 - #12344 *
   EConst Cz4 + #88647 * EPow P2 (EConst Cz2))) + #8 * EPow P2 (EVar vs2t) * (#338536 * EConst Cz3 + #11327 * EConst
   Cz4 + #15897 * EPow P2 (EConst Cz2)) * EPow P4 (EVar vMst1))) / EPow P2 (EVar vMgl) + #40 * EConst CT1ep * (#2 *
   EVar vDmglst2 * EVar vMst2 * (- #36 * EPow P2 (EVar vMst1) * (#253 * EVar vMst2 * EVar vMt * EVar vs2t + #42 * EPow
   P2 (EVar vMt) - #129 * EPow P2 (EVar vMst2) * EPow P2 (EVar vs2t)) + #189 * EVar vs2t * (- #5 * EVar vMt + #2 *
   EVar vMst2 * EVar vs2t) * EPow P3 (EVar vMst2) + #17308 * EPow P2 (EVar vs2t) * EPow P4 (EVar vMst1)) + #3 * EVar
   vMgl * (#6 * EVar vMst2 * EPow P2 (EVar vMst1) * (#272 * EVar vMst2 * EVar vMt * EVar vs2t + #252 * EPow P2 (EVar
   vMt) - #487 * EPow P2 (EVar vMst2) * EPow P2 (EVar vs2t)) + EVar vs2t * (#3764 * EVar vMt - #7357 * EVar vMst2 *
   EVar vs2t) * EPow P4 (EVar vMst1) + #54 * EVar vs2t * (#7 * EVar vMt - #8 * EVar vMst2 * EVar vs2t) * EPow P4 (EVar
   vMst2))) / EVar vMgl + EVar vMt * EVar vs2t * (#14580 * EPow P2 (EVar vMst1) * EPow P2 (EVar vMst2) * (EDec
   10353004115226338 13 + #1016 * EConst CB4 / #9 - #4 * EConst CDN / #9 - #240 * EVar vlmMsq + #80 * EPow P2 (EVar
   vlmMsq) / #3 - #8 * EVar vlmMst1 * (#422 - #45 * EVar vlmMsq + #45 * EPow P2 (EVar vlmMsq)) / #9 - #176 * EPow P2
   (EVar vlmMst1) / #9 + #8 * EVar vlmMst2 * (#1096 + #15 * EVar vlmMsq * (- #7 + #6 * EVar vlmMst1 - #6 * EVar
   vlmMst2) + #717 * EVar vlmMst2 - EVar vlmMst1 * (#551 + #248 * EVar vlmMst2) + #45 * EPow P2 (EVar vlmMsq) + #8 *
   EPow P2 (EVar vlmMst1)) / #9 + #640 * EPow P3 (EVar vlmMst2) / #3 + (- #80 * (EVar vMgl * (#55 + #6 * EVar vlmMsq *
   (- #2 + #5 * EVar vlmMst1 - #5 * EVar vlmMst2) + #52 * EVar vlmMst2 - #10 * EVar vlmMst1 * (#4 + #3 * EVar vlmMst2)
   + #30 * EPow P2 (EVar vlmMst2)) + EVar vDmglst2 * (#321 + #18 * EVar vlmMsq * (- #2 + #5 * EVar vlmMst1 - #5 * EVar
   vlmMst2) + #96 * EVar vlmMst2 - #30 * EVar vlmMst1 * (#2 + #3 * EVar vlmMst2) + #90 * EPow P2 (EVar vlmMst2))) *
   EPow P2 (EVar vMst1) / (#27 * EPow P2 (EVar vMsq)) + EVar vDmglst2 * (EDec 8816139917695473 13 + #248 * EConst CB4
   - #4 * EConst CDN - #2560 * EVar vlmMsq / #3 + EVar vlmMst1 * (EDec 13096296296296296 14 - #120 * EVar vlmMsq - #40
   * EPow P2 (EVar vlmMsq)) + #80 * EPow P2 (EVar vlmMsq) / #3 + #176 * EPow P2 (EVar vlmMst1) / #9 + #8 * EVar
   vlmMst2 * (#4364 - #573 * EVar vlmMst1 + #45 * EVar vlmMsq * (#5 + #6 * EVar vlmMst1) + #135 * EPow P2 (EVar
   vlmMsq) + #24 * EPow P2 (EVar vlmMst1)) / #27 - #8 * (- #377 + #90 * EVar vlmMsq + #376 * EVar vlmMst1) * EPow P2
   (EVar vlmMst2) / #9 + #2944 * EPow P3 (EVar vlmMst2) / #9)) / EVar vMgl) + #10 * (#2552929 + #257904 * EConst CB4 -
   #648 * EConst CDN - #456840 * EVar vlmMsq + #38880 * EPow P2 (EVar vlmMsq) - #216 * EVar vlmMst1 * (#4591 - #360 *
   EVar vlmMsq + #450 * EPow P2 (EVar vlmMsq)) + #41904 * EPow P2 (EVar vlmMst1) + #216 * EVar vlmMst2 * (#9211 -
   #6466 * EVar vlmMst1 + #180 * EVar vlmMsq * (- #4 + #5 * EVar vlmMst1) + #450 * EPow P2 (EVar vlmMsq) + #576 * EPow
   P2 (EVar vlmMst1)) - #864 * (- #1784 + #225 * EVar vlmMsq + #840 * EVar vlmMst1) * EPow P2 (EVar vlmMst2) - #3456 *
   EPow P3 (EVar vlmMst1) + #604800 * EPow P3 (EVar vlmMst2)) * EPow P4 (EVar vMst1) + (#9 * (#15 * EVar vMgl * (-
   #640 * (#23 + EVar vlmMsq * (- #6 + #9 * EVar vlmMst1 - #9 * EVar vlmMst2) + #18 * EVar vlmMst2 - #3 * EVar vlmMst1
   * (#4 + #3 * EVar vlmMst2) + #9 * EPow P2 (EVar vlmMst2)) * EPow P2 (EVar vMsq) * EPow P2 (EVar vMst1) + #3 *
   (#18201 + #1760 * EConst CB4 - #16 * EConst CDN - #5760 * EVar vlmMsq + #960 * EPow P2 (EVar vlmMsq) - #16 * EVar
   vlmMst1 * (#199 - #30 * EVar vlmMsq + #30 * EPow P2 (EVar vlmMsq)) + #16 * EVar vlmMst2 * (#1291 - #322 * EVar
   vlmMst1 + #30 * EVar vlmMsq * (- #5 + #2 * EVar vlmMst1) + #30 * EPow P2 (EVar vlmMsq) - #16 * EPow P2 (EVar
   vlmMst1)) - #256 * EPow P2 (EVar vlmMst1) - #32 * (- #313 + #30 * EVar vlmMsq + #72 * EVar vlmMst1) * EPow P2 (EVar
   vlmMst2) + #2560 * EPow P3 (EVar vlmMst2)) * EPow P4 (EVar vMsq) - #20 * (#233 + #36 * EVar vlmMsq * (- #2 + #5 *
   EVar vlmMst1 - #5 * EVar vlmMst2) + #207 * EVar vlmMst2 - #45 * EVar vlmMst1 * (#3 + #4 * EVar vlmMst2) + #180 *
   EPow P2 (EVar vlmMst2)) * EPow P4 (EVar vMst1)) + EVar vDmglst2 * (- #14400 * (#77 + #6 * EVar vlmMsq * (- #2 + #3
   * EVar vlmMst1 - #3 * EVar vlmMst2) + #24 * EVar vlmMst2 - #6 * EVar vlmMst1 * (#2 + #3 * EVar vlmMst2) + #18 *
   EPow P2 (EVar vlmMst2)) * EPow P2 (EVar vMsq) * EPow P2 (EVar vMst1) + (#779917 + #188640 * EConst CB4 - #3600 *
   EConst CDN - #648000 * EVar vlmMsq + #43200 * EPow P2 (EVar vlmMsq) - #720 * EVar vlmMst1 * (- #173 + #90 * EVar
   vlmMsq + #30 * EPow P2 (EVar vlmMsq)) + #720 * EVar vlmMst2 * (#1623 - #130 * EVar vlmMst1 + #30 * EVar vlmMsq * (-
   #1 + #2 * EVar vlmMst1) + #30 * EPow P2 (EVar vlmMsq) - #16 * EPow P2 (EVar vlmMst1)) + #11520 * EPow P2 (EVar
   vlmMst1) - #1440 * (- #265 + #30 * EVar vlmMsq + #136 * EVar vlmMst1) * EPow P2 (EVar vlmMst2) + #207360 * EPow P3
   (EVar vlmMst2)) * EPow P4 (EVar vMsq) - #300 * (#1961 + #180 * EVar vlmMsq * (- #2 + #5 * EVar vlmMst1 - #5 * EVar
   vlmMst2) + #675 * EVar vlmMst2 - #45 * EVar vlmMst1 * (#7 + #20 * EVar vlmMst2) + #900 * EPow P2 (EVar vlmMst2)) *
   EPow P4 (EVar vMst1))) * EPow P4 (EVar vMst2) / EPow P4 (EVar vMsq) - #160 * EConst COepS2 * ((- #3036 * EVar
   vDmglst2 + #816 * EVar vMgl) * EPow P2 (EVar vMst1) * EPow P2 (EVar vMst2) + #1882 * EVar vMgl * EPow P4 (EVar
   vMst1) - #63 * (#5 * EVar vDmglst2 - #3 * EVar vMgl) * EPow P4 (EVar vMst2)) - #108 * EConst CS2 * (#3 * EVar
   vDmglst2 * EPow P2 (EVar vMst2) * (#8 * (#2489 + #3795 * EVar vlmMst1 - #3795 * EVar vlmMst2) * EPow P2 (EVar
   vMst1) + #9 * (- #453 + #350 * EVar vlmMst1 - #350 * EVar vlmMst2) * EPow P2 (EVar vMst2)) - #5 * EVar vMgl * (#36
   * (#169 + #136 * EVar vlmMst1 - #136 * EVar vlmMst2) * EPow P2 (EVar vMst1) * EPow P2 (EVar vMst2) + #2 * (#9185 +
   #5646 * EVar vlmMst1 - #5646 * EVar vlmMst2) * EPow P4 (EVar vMst1) + #81 * (- #1 + #14 * EVar vlmMst1 - #14 * EVar
   vlmMst2) * EPow P4 (EVar vMst2))) + #90 * (- #48 * (#15 * EVar vDmglst2 * (#95 + #12 * EVar vlmMsq * (- #2 + EVar
   vlmMst1 - EVar vlmMst2) + #32 * EVar vlmMst2 - #4 * EVar vlmMst1 * (#2 + #3 * EVar vlmMst2) + #12 * EPow P2 (EVar
   vlmMst2)) + #5 * EVar vMgl * (#71 + #12 * EVar vlmMsq * (- #2 + EVar vlmMst1 - EVar vlmMst2) + #40 * EVar vlmMst2 -
   #4 * EVar vlmMst1 * (#4 + #3 * EVar vlmMst2) + #12 * EPow P2 (EVar vlmMst2))) * EPow P2 (EVar vMsq) - #5 * (EVar
   vMgl * (#1153 + #12 * EVar vlmMsq * (- #35 + #54 * EVar vlmMst1 - #54 * EVar vlmMst2) + #906 * EVar vlmMst2 - #162
   * EVar vlmMst1 * (#3 + #4 * EVar vlmMst2) + #648 * EPow P2 (EVar vlmMst2)) + EVar vDmglst2 * (#8713 + #12 * EVar
   vlmMsq * (- #179 + #270 * EVar vlmMst1 - #270 * EVar vlmMst2) + #3282 * EVar vlmMst2 - #162 * EVar vlmMst1 * (#7 +
   #20 * EVar vlmMst2) + #3240 * EPow P2 (EVar vlmMst2))) * EPow P2 (EVar vMst1) - #5 * (EVar vMgl * (#911 + #12 *
   EVar vlmMsq * (- #37 + #18 * EVar vlmMst1 - #18 * EVar vlmMst2) + #606 * EVar vlmMst2 - #54 * EVar vlmMst1 * (#3 +
   #4 * EVar vlmMst2) + #216 * EPow P2 (EVar vlmMst2)) + EVar vDmglst2 * (#5591 + #12 * EVar vlmMsq * (- #181 + #90 *
   EVar vlmMst1 - #90 * EVar vlmMst2) + #2550 * EVar vlmMst2 - #54 * EVar vlmMst1 * (#7 + #20 * EVar vlmMst2) + #1080
   * EPow P2 (EVar vlmMst2))) * EPow P2 (EVar vMst2) + #2304 * (#1 + EVar vlmMst2) * (- EVar vDmglst2 + #3 * EVar
   vDmglst2 * EVar vlmMst2 + EVar vMgl + EVar vlmMst2 * EVar vMgl) * EPow P4 (EVar vMsq) / EPow P2 (EVar vMst1)) *
   EPow P6 (EVar vMst2) / EPow P4 (EVar vMsq)) / EVar vMgl)) / EPow P5 (EVar vMst2)) + #2 * EVar vAl4p * EVar
   vxDmglst2 * EPow P2 (EVar vDmglst2) * (EVar vAl4p * EVar vthreeLoopFlag * ((#72 * EPow P2 (EVar vMt) * (#5 * EPow
   P2 (EVar vMst1) * (#28405 - #288 * EConst CB4 + #288 * EConst CD3 - #144 * EConst CDN + #5472 * EVar vlmMst1 - #288
   * (- #89 + #2 * EVar vlmMst1) * EVar vlmMst2 + #576 * (- #2 + EVar vlmMst1 - EVar vlmMst2) * EVar vlmMt + #224 *
   EConst COepS2 - #324 * (#65 + #14 * EVar vlmMst1 - #14 * EVar vlmMst2) * EConst CS2 - #576 * (- #9 + #8 * EVar
   vlmMst1) * EPow P2 (EVar vlmMst2) + #4608 * EPow P3 (EVar vlmMst2)) + #4 * EPow P2 (EVar vMst2) * (#50134 - #270 *
   EConst CB4 + #270 * EConst CD3 - #135 * EConst CDN + #120 * (#271 + #24 * EVar vlmMst1) * EVar vlmMst2 - #120 *
   EVar vlmMt - #29646 * EConst CS2 - #720 * (- #2 + #3 * EVar vlmMst1) * EPow P2 (EVar vlmMst2) + #2160 * (EVar
   vlmMst1 + EPow P3 (EVar vlmMst2)))) + #80 * EConst CT1ep * (#6 * EPow P2 (EVar vMst1) * (#1555 * EVar vMst2 * EVar
   vMt * EVar vs2t - #252 * EPow P2 (EVar vMt) + #185 * EPow P2 (EVar vMst2) * EPow P2 (EVar vs2t)) + #63 * EVar vs2t
   * (EVar vMt + #5 * EVar vMst2 * EVar vs2t) * EPow P3 (EVar vMst2) + #17308 * EPow P2 (EVar vs2t) * EPow P4 (EVar
   vMst1))) / EPow P4 (EVar vMst2) + #14580 * EPow P2 (EVar vs2t) * (EDec 1121664609053498 13 - #100 * EConst CB4 / #9
   + #112 * EConst CD3 / #9 - #62 * EConst CDN / #9 + #1055 * EVar vlmMsq / #9 + #15 * EPow P2 (EVar vlmMsq) - #2 *
   EVar vlmMst1 * (- #544 + #210 * EVar vlmMsq + #135 * EPow P2 (EVar vlmMsq)) / #9 - #103 * EPow P2 (EVar vlmMst1) /
   #9 + EVar vlmMst2 * (- #7921 - #1476 * EVar vlmMst1 + #90 * EVar vlmMsq * (#5 + #18 * EVar vlmMst1) + #810 * EPow
   P2 (EVar vlmMsq) + #288 * EPow P2 (EVar vlmMst1)) / #27 + (EDec 9366666666666667 14 - #60 * EVar vlmMsq - #112 *
   EVar vlmMst1) * EPow P2 (EVar vlmMst2) + EPow P2 (EVar vMst1) * (#10 * (#405 + (- #187 + #246 * EVar vlmMsq) * EVar
   vlmMst2 + EVar vlmMst1 * (#187 - #246 * EVar vlmMsq + #246 * EVar vlmMst2) - #246 * EPow P2 (EVar vlmMst2)) / (#27
   * EPow P2 (EVar vMsq)) - (EDec 7378472976680384 14 + #164 * EConst CB4 / #9 - #176 * EConst CD3 / #9 + #94 * EConst
   CDN / #9 - #260 * EVar vlmMsq / #3 - #20 * EVar vlmMsq * (#2 + #3 * EVar vlmMst1) * EVar vlmMst2 - #30 * EVar
   vlmMst2 * EPow P2 (EVar vlmMsq) + EVar vlmMst1 * (- EDec 9655703703703703 14 + #40 * EVar vlmMsq + #30 * EPow P2
   (EVar vlmMsq)) + #7556 * EPow P2 (EVar vlmMst1) / #135 - #2 * EVar vlmMst2 * (- #99788 + #2005 * EVar vlmMst1 +
   #32775 * EPow P2 (EVar vlmMst1)) / #675 + #2 * (- #3377 + #4050 * EVar vlmMsq + #19155 * EVar vlmMst1) * EPow P2
   (EVar vlmMst2) / #135 + #10 * EPow P3 (EVar vlmMst1) / #27 - #5050 * EPow P3 (EVar vlmMst2) / #27) / EPow P2 (EVar
   vMst2)) + #304 * EPow P3 (EVar vlmMst2) / #3 + EPow P4 (EVar vMst1) * (#5 * (#216 + (- #95 + #132 * EVar vlmMsq) *
   EVar vlmMst2 + EVar vlmMst1 * (#95 - #132 * EVar vlmMsq + #132 * EVar vlmMst2) - #132 * EPow P2 (EVar vlmMst2)) /
   (#54 * EPow P4 (EVar vMsq)) + (EDec 5361152102791342 13 - #8 * EConst CB4 / #3 + #32 * EConst CD3 / #9 - #20 *
   EConst CDN / #9 + #90 * EVar vlmMsq - (EDec 12311224321827497 14 + #20 * EVar vlmMsq * (#1 + EVar vlmMsq)) * EVar
   vlmMst1 - EVar vlmMst2 * (EDec 1733220122616948 14 - #20 * EVar vlmMsq * (#1 + EVar vlmMsq) + (EDec
   13304550264550264 14 - #40 * EVar vlmMsq) * EVar vlmMst1 - #1180 * EPow P2 (EVar vlmMst1) / #9) - #15886 * EPow P2
   (EVar vlmMst1) / #945 + (EDec 14985608465608465 14 - #40 * EVar vlmMsq - #2812 * EVar vlmMst1 / #9) * EPow P2 (EVar
   vlmMst2) - #92 * EPow P3 (EVar vlmMst1) / #27 + #4988 * EPow P3 (EVar vlmMst2) / #27) / EPow P4 (EVar vMst2)) - #32
   * (- #2 + EVar vlmMst2 + #5 * EPow P2 (EVar vlmMst2)) * EPow P4 (EVar vMst2) / (#9 * EPow P4 (EVar vMst1)) - (#6 *
   (#7400 * EConst COepS2 + #27 * (#1089707 - #5550 * EVar vlmMst1 + #5550 * EVar vlmMst2) * EConst CS2) * EPow P2
   (EVar vMst1) * EPow P2 (EVar vMst2) + #40 * (#17308 * EConst COepS2 + #27 * (#93919 - #12981 * EVar vlmMst1 +
   #12981 * EVar vlmMst2) * EConst CS2) * EPow P4 (EVar vMst1) + #9 * (#1400 * EConst COepS2 + #81 * (#116129 - #350 *
   EVar vlmMst1 + #350 * EVar vlmMst2) * EConst CS2) * EPow P4 (EVar vMst2)) / (#10935 * EPow P4 (EVar vMst2)) + #5 *
   ((#291 + #2 * (- #103 + #84 * EVar vlmMsq) * EVar vlmMst2 + #2 * EVar vlmMst1 * (#103 - #84 * EVar vlmMsq + #84 *
   EVar vlmMst2) - #168 * EPow P2 (EVar vlmMst2)) * EPow P4 (EVar vMst1) + (#684 + #347 * EVar vlmMst1 + #7 * (- #77 +
   #78 * EVar vlmMst1) * EVar vlmMst2 + #6 * EVar vlmMsq * (#32 - #91 * EVar vlmMst1 + #91 * EVar vlmMst2) - #546 *
   EPow P2 (EVar vlmMst2)) * EPow P4 (EVar vMst2)) / (#27 * EPow P2 (EVar vMsq) * EPow P2 (EVar vMst2)) + EPow P2
   (EVar vMst2) * (#800 * (- #8 + #15 * EVar vlmMsq - #15 * EVar vlmMst2) * EPow P2 (EVar vMsq) * EPow P2 (EVar vMst2)
   + #12 * (- #1149 + #266 * EVar vlmMst2 + #64 * EVar vlmMst1 * (- #2 + #3 * EVar vlmMst2) - #90 * EVar vlmMsq * (-
   #5 + #6 * EVar vlmMst2) + #270 * EPow P2 (EVar vlmMsq) + #1264 * EPow P2 (EVar vlmMst2)) * EPow P4 (EVar vMsq) - #5
   * ((- #4239 + #12 * EVar vlmMsq * (- #47 + #244 * EVar vlmMst1 - #244 * EVar vlmMst2) + #1324 * EVar vlmMst2 - #8 *
   EVar vlmMst1 * (#95 + #366 * EVar vlmMst2) + #2928 * EPow P2 (EVar vlmMst2)) * EPow P2 (EVar vMst1) * EPow P2 (EVar
   vMst2) + (- #3834 + EVar vlmMst1 * (- #890 + #2328 * EVar vlmMsq - #2328 * EVar vlmMst2) + (#890 - #2328 * EVar
   vlmMsq) * EVar vlmMst2 + #2328 * EPow P2 (EVar vlmMst2)) * EPow P4 (EVar vMst1) - #63 * (- #5 + #28 * EVar vlmMsq -
   #28 * EVar vlmMst2) * EPow P4 (EVar vMst2))) / (#216 * EPow P2 (EVar vMst1) * EPow P4 (EVar vMsq))) - EVar vMt *
   EVar vs2t * (EPow P4 (EVar vMsq) * (- #3 * EPow P2 (EVar vMst1) * EPow P2 (EVar vMst2) * (#433447 + #1058400 *
   EConst CB4 - #23760 * EConst CDN - #4255200 * EVar vlmMsq - #1120 * EConst COepS2 + #324 * (- #1387 + #70 * EVar
   vlmMst1 - #70 * EVar vlmMst2) * EConst CS2 + #129600 * EPow P2 (EVar vlmMsq) - #2160 * EVar vlmMst1 * (- #359 +
   #150 * EVar vlmMsq + #30 * EPow P2 (EVar vlmMsq)) + #720 * EVar vlmMst2 * (#8503 + #666 * EVar vlmMst1 + #90 * EVar
   vlmMsq * (#1 + #2 * EVar vlmMst1) + #90 * EPow P2 (EVar vlmMsq) - #48 * EPow P2 (EVar vlmMst1)) + #69120 * EPow P2
   (EVar vlmMst1) - #4320 * (- #177 + #30 * EVar vlmMsq + #232 * EVar vlmMst1) * EPow P2 (EVar vlmMst2) + #1036800 *
   EPow P3 (EVar vlmMst2)) - #2 * (#10274911 + #3285360 * EConst CB4 - #68040 * EConst CDN - #13381200 * EVar vlmMsq -
   #248800 * EConst COepS2 + #108 * (- #20803 + #46650 * EVar vlmMst1 - #46650 * EVar vlmMst2) * EConst CS2 + #194400
   * EPow P2 (EVar vlmMsq) - #3600 * EVar vlmMst1 * (#167 + #405 * EVar vlmMsq + #81 * EPow P2 (EVar vlmMsq)) -
   #103680 * EPow P2 (EVar vlmMst1) + #720 * EVar vlmMst2 * (#30469 + #2709 * EVar vlmMst1 + #135 * EVar vlmMsq * (#11
   + #6 * EVar vlmMst1) + #405 * EPow P2 (EVar vlmMsq) + #72 * EPow P2 (EVar vlmMst1)) - #6480 * (- #19 + #90 * EVar
   vlmMsq + #568 * EVar vlmMst1) * EPow P2 (EVar vlmMst2) + #3628800 * EPow P3 (EVar vlmMst2)) * EPow P4 (EVar vMst1)
   + #414720 * (#2 + EVar vlmMst2 - #3 * EPow P2 (EVar vlmMst2)) * EPow P4 (EVar vMst2)) + #21600 * EPow P2 (EVar
   vMsq) * ((#1445 + #72 * EVar vlmMsq * (- #2 + #3 * EVar vlmMst1 - #3 * EVar vlmMst2) + #180 * EVar vlmMst2 - #36 *
   EVar vlmMst1 * (#1 + #6 * EVar vlmMst2) + #216 * EPow P2 (EVar vlmMst2)) * EPow P2 (EVar vMst2) * EPow P4 (EVar
   vMst1) + #2 * (#397 + #36 * EVar vlmMsq * (- #2 + EVar vlmMst1 - EVar vlmMst2) + #78 * EVar vlmMst2 - #6 * EVar
   vlmMst1 * (#1 + #6 * EVar vlmMst2) + #36 * EPow P2 (EVar vlmMst2)) * EPow P2 (EVar vMst1) * EPow P4 (EVar vMst2) +
   #6 * (#107 + #6 * EVar vlmMsq * (- #2 + #5 * EVar vlmMst1 - #5 * EVar vlmMst2) + #32 * EVar vlmMst2 - #10 * EVar
   vlmMst1 * (#2 + #3 * EVar vlmMst2) + #30 * EPow P2 (EVar vlmMst2)) * EPow P6 (EVar vMst1)) + #450 * ((#37213 + #12
   * EVar vlmMsq * (- #539 + #810 * EVar vlmMst1 - #810 * EVar vlmMst2) + #6630 * EVar vlmMst2 - #162 * EVar vlmMst1 *
   (#1 + #60 * EVar vlmMst2) + #9720 * EPow P2 (EVar vlmMst2)) * EPow P4 (EVar vMst1) * EPow P4 (EVar vMst2) + #6 *
   (#1961 + #180 * EVar vlmMsq * (- #2 + #5 * EVar vlmMst1 - #5 * EVar vlmMst2) + #675 * EVar vlmMst2 - #45 * EVar
   vlmMst1 * (#7 + #20 * EVar vlmMst2) + #900 * EPow P2 (EVar vlmMst2)) * EPow P2 (EVar vMst2) * EPow P6 (EVar vMst1)
   + (#21275 + #12 * EVar vlmMsq * (- #541 + #270 * EVar vlmMst1 - #270 * EVar vlmMst2) + #6546 * EVar vlmMst2 - #54 *
   EVar vlmMst1 * (#1 + #60 * EVar vlmMst2) + #3240 * EPow P2 (EVar vlmMst2)) * EPow P2 (EVar vMst1) * EPow P6 (EVar
   vMst2))) / (EPow P2 (EVar vMst1) * EPow P3 (EVar vMst2) * EPow P4 (EVar vMsq))) + #4860 * EVar vs2t * EVar
   vtwoLoopFlag * (- #2 * (#4 * EVar vMt * (- #31 + #3 * EVar vlmMst1 * (- #2 + EVar vlmMst2) + #4 * EVar vlmMst2 - #3
   * EPow P2 (EVar vlmMst2)) + #3 * EVar vMst2 * EVar vs2t * (#4 + EVar vlmMst2 + EVar vlmMst1 * (- #1 + #2 * EVar
   vlmMst2) - #2 * EPow P2 (EVar vlmMst2))) * EPow P2 (EVar vMst2) * EPow P4 (EVar vMst1) - #2 * (EVar vMst2 * EVar
   vs2t * (#10 + EVar vlmMst1 * (- #3 + #6 * EVar vlmMst2) - #6 * EPow P2 (EVar vlmMst2)) + #4 * EVar vMt * (- #14 +
   EVar vlmMst1 * (- #2 + EVar vlmMst2) - EPow P2 (EVar vlmMst2))) * EPow P2 (EVar vMst1) * EPow P4 (EVar vMst2) + (-
   #3 * EVar vMst2 * EVar vs2t * (#9 + #4 * EVar vlmMst1 * (- #1 + EVar vlmMst2) + #4 * EVar vlmMst2 - #4 * EPow P2
   (EVar vlmMst2)) + EVar vMt * (#398 + EVar vlmMst1 * (#68 - #40 * EVar vlmMst2) - #52 * EVar vlmMst2 + #40 * EPow P2
   (EVar vlmMst2))) * EPow P6 (EVar vMst1) + #2 * (- #2 + #3 * EVar vlmMst2) * EVar vs2t * EPow P7 (EVar vMst2)) /
   (EPow P2 (EVar vMst1) * EPow P5 (EVar vMst2))) / EPow P2 (EVar vMgl) + EVar vAl4p * EVar vs2t * (#4860 * EVar
   vtwoLoopFlag * (#2 * EVar vMgl * (- (EVar vMst2 * EVar vs2t * (- #14 - #20 * EVar vlmMst2 + #2 * EVar vlmMst1 * (#5
   + #3 * EVar vlmMst2) + EPow P2 (EVar vlmMst1) - #7 * EPow P2 (EVar vlmMst2))) + #8 * EVar vMt * (#4 + #3 * EVar
   vlmMst2 - EVar vlmMst1 * (#1 + EVar vlmMst2) + EPow P2 (EVar vlmMst2))) * EPow P2 (EVar vMst1) * EPow P4 (EVar
   vMst2) + #4 * EVar vDmglst2 * (EVar vMst2 * EVar vs2t * (- #5 + #8 * EVar vlmMst2 - #4 * EVar vlmMst1 * (#2 + EVar
   vlmMst2) + #4 * EPow P2 (EVar vlmMst2)) + EVar vMt * (#65 + EVar vlmMst1 * (#34 - #20 * EVar vlmMst2) - #26 * EVar
   vlmMst2 + #20 * EPow P2 (EVar vlmMst2))) * EPow P6 (EVar vMst1) + EVar vMgl * (EVar vMst2 * EVar vs2t * (- #1 + #50
   * EVar vlmMst2 - #2 * EVar vlmMst1 * (#25 + #32 * EVar vlmMst2) + #20 * EPow P2 (EVar vlmMst1) + #44 * EPow P2
   (EVar vlmMst2)) + EVar vMt * (#84 + #152 * EVar vlmMst2 - #40 * EVar vlmMst1 * (#3 + #2 * EVar vlmMst2) + #80 *
   EPow P2 (EVar vlmMst2))) * EPow P6 (EVar vMst1) + #8 * EVar vDmglst2 * ((EVar vMst2 * EVar vs2t * (- #2 + #3 * EVar
   vlmMst2 - EVar vlmMst1 * (#3 + #2 * EVar vlmMst2) + #2 * EPow P2 (EVar vlmMst2)) + EVar vMt * (#22 + EVar vlmMst1 *
   (#8 - #6 * EVar vlmMst2) - #4 * EVar vlmMst2 + #6 * EPow P2 (EVar vlmMst2))) * EPow P2 (EVar vMst2) * EPow P4 (EVar
   vMst1) + (- (EVar vMst2 * EVar vs2t * (#1 + EVar vlmMst1 - #2 * EVar vlmMst2 + #2 * EVar vlmMst1 * EVar vlmMst2 -
   #2 * EPow P2 (EVar vlmMst2))) + #2 * EVar vMt * (#6 + EVar vlmMst1 + EVar vlmMst2 - EVar vlmMst1 * EVar vlmMst2 +
   EPow P2 (EVar vlmMst2))) * EPow P2 (EVar vMst1) * EPow P4 (EVar vMst2) + EVar vlmMst2 * EVar vs2t * EPow P7 (EVar
   vMst2)) + #4 * EVar vMgl * ((#4 * EVar vMt * (#5 + #6 * EVar vlmMst2 - EVar vlmMst1 * (#4 + #3 * EVar vlmMst2) + #3
   * EPow P2 (EVar vlmMst2)) + EVar vMst2 * EVar vs2t * (- #1 + #13 * EVar vlmMst2 - EVar vlmMst1 * (#13 + #8 * EVar
   vlmMst2) + EPow P2 (EVar vlmMst1) + #7 * EPow P2 (EVar vlmMst2))) * EPow P2 (EVar vMst2) * EPow P4 (EVar vMst1) +
   (#1 + EVar vlmMst2) * EVar vs2t * EPow P7 (EVar vMst2))) / (EVar vMgl * EPow P2 (EVar vMst1) * EPow P5 (EVar
   vMst2)) - #135 * EVar vxDR2DRMOD * (#144 * (#2 * EVar vDmglst2 * EVar vlmMst2 + EVar vMgl + EVar vlmMst2 * EVar
   vMgl) * EVar vs2t * EVar vtwoLoopFlag * ((EPow P2 (EVar vMst1) + EPow P2 (EVar vMst2)) * EPow P4 (EVar vMst2) - #2
   * (EVar vlmMst1 - EVar vlmMst2) * EPow P2 (EVar vMst1) * (EPow P2 (EVar vMst1) * EPow P2 (EVar vMst2) + EPow P4
   (EVar vMst1) + EPow P4 (EVar vMst2))) / (EVar vMgl * EPow P2 (EVar vMst1) * EPow P4 (EVar vMst2)) - EVar vAl4p *
   EVar vthreeLoopFlag * (- (EVar vs2t * (#3636 - #1800 * EVar vlmMsq + #1080 * EPow P2 (EVar vlmMsq) - #24 * EVar
   vlmMst1 * (#431 - #150 * EVar vlmMsq + #90 * EPow P2 (EVar vlmMsq)) + #768 * EPow P2 (EVar vlmMst1) + #48 * EVar
   vlmMst2 * (#363 + #30 * EVar vlmMsq * (- #4 + #3 * EVar vlmMst1 - #3 * EVar vlmMst2) + #451 * EVar vlmMst2 - EVar
   vlmMst1 * (#407 + #168 * EVar vlmMst2) + #45 * EPow P2 (EVar vlmMsq) + #16 * EPow P2 (EVar vlmMst1)) + #7296 * EPow
   P3 (EVar vlmMst2) + (#24 * EVar vDmglst2 * (#45 + #30 * EVar vlmMsq * (#1 + #3 * EVar vlmMsq - #6 * EVar vlmMst2) *
   (#1 - #2 * EVar vlmMst1 + #2 * EVar vlmMst2) + #8 * EVar vlmMst2 * (#29 + #8 * EPow P2 (EVar vlmMst1)) + #1068 *
   EPow P2 (EVar vlmMst2) - #2 * EVar vlmMst1 * (- #83 + #430 * EVar vlmMst2 + #336 * EPow P2 (EVar vlmMst2)) + #608 *
   EPow P3 (EVar vlmMst2)) - #384 * (#1 + EVar vlmMst2) * (#4 * EVar vDmglst2 * EVar vlmMst2 + EVar vMgl + EVar
   vlmMst2 * EVar vMgl) * EPow P4 (EVar vMst2) / EPow P4 (EVar vMst1) + (#8 * EPow P2 (EVar vMst1) * (#80 * EVar
   vDmglst2 * (EVar vlmMst1 - EVar vlmMst2) * (#14 - #15 * EVar vlmMsq + #15 * EVar vlmMst2) * EPow P2 (EVar vMst2) +
   #10 * (EVar vlmMst1 - EVar vlmMst2) * (#43 - #30 * EVar vlmMsq + #30 * EVar vlmMst2) * EVar vMgl * EPow P2 (EVar
   vMst2) + #6 * EVar vDmglst2 * EPow P2 (EVar vMsq) * (#96 + EVar vlmMst2 * (#173 + #30 * EVar vlmMsq + #90 * EPow P2
   (EVar vlmMsq) + #288 * EPow P2 (EVar vlmMst1)) + (#526 - #180 * EVar vlmMsq) * EPow P2 (EVar vlmMst2) - EVar
   vlmMst1 * (#13 + #30 * EVar vlmMsq * (#1 - #6 * EVar vlmMst2) + #526 * EVar vlmMst2 + #90 * EPow P2 (EVar vlmMsq) +
   #848 * EPow P2 (EVar vlmMst2)) + #560 * EPow P3 (EVar vlmMst2)) + #3 * EVar vMgl * EPow P2 (EVar vMsq) * (#64 + #15
   * EVar vlmMst2 * (#33 - #10 * EVar vlmMsq + #6 * EPow P2 (EVar vlmMsq)) + #288 * (#1 + EVar vlmMst2) * EPow P2
   (EVar vlmMst1) + #6 * (#173 - #30 * EVar vlmMsq) * EPow P2 (EVar vlmMst2) - EVar vlmMst1 * (#431 + #1326 * EVar
   vlmMst2 - #30 * EVar vlmMsq * (#5 + #6 * EVar vlmMst2) + #90 * EPow P2 (EVar vlmMsq) + #848 * EPow P2 (EVar
   vlmMst2)) + #560 * EPow P3 (EVar vlmMst2))) - #40 * (#8 * EVar vDmglst2 * (#14 - #15 * EVar vlmMsq + #15 * EVar
   vlmMst2) + (#43 - #30 * EVar vlmMsq + #30 * EVar vlmMst2) * EVar vMgl) * (EPow P4 (EVar vMst2) - #2 * (EVar vlmMst1
   - EVar vlmMst2) * (EPow P4 (EVar vMst1) + EPow P4 (EVar vMst2)))) / (EPow P2 (EVar vMsq) * EPow P2 (EVar vMst2)) +
   (#2 * EPow P4 (EVar vMst1) * ((#24 * EVar vDmglst2 * (#96 + EVar vlmMst2 * (#285 + #30 * EVar vlmMsq + #90 * EPow
   P2 (EVar vlmMsq) + #544 * EPow P2 (EVar vlmMst1)) + (#590 - #180 * EVar vlmMsq) * EPow P2 (EVar vlmMst2) - EVar
   vlmMst1 * (#109 + #30 * EVar vlmMsq * (#1 - #6 * EVar vlmMst2) + #590 * EVar vlmMst2 + #90 * EPow P2 (EVar vlmMsq)
   + #1360 * EPow P2 (EVar vlmMst2)) + #816 * EPow P3 (EVar vlmMst2)) + #12 * EVar vMgl * (#80 + EVar vlmMst2 * (#479
   - #150 * EVar vlmMsq + #90 * EPow P2 (EVar vlmMsq)) + #544 * (#1 + EVar vlmMst2) * EPow P2 (EVar vlmMst1) + #2 *
   (#631 - #90 * EVar vlmMsq) * EPow P2 (EVar vlmMst2) - EVar vlmMst1 * (#399 + #1806 * EVar vlmMst2 - #30 * EVar
   vlmMsq * (#5 + #6 * EVar vlmMst2) + #90 * EPow P2 (EVar vlmMsq) + #1360 * EPow P2 (EVar vlmMst2)) + #816 * EPow P3
   (EVar vlmMst2))) * EPow P4 (EVar vMsq) + (EVar vlmMst1 - EVar vlmMst2) * (#90 * EVar vDmglst2 * (#13 - #28 * EVar
   vlmMsq + #28 * EVar vlmMst2) + #5 * (#67 - #84 * EVar vlmMsq + #84 * EVar vlmMst2) * EVar vMgl) * EPow P4 (EVar
   vMst2)) / EPow P4 (EVar vMst2) + EPow P2 (EVar vMst2) * (- #5 * (#18 * EVar vDmglst2 * (#13 - #28 * EVar vlmMsq +
   #28 * EVar vlmMst2) + (#67 - #84 * EVar vlmMsq + #84 * EVar vlmMst2) * EVar vMgl) * (EPow P2 (EVar vMst2) - #2 *
   (EVar vlmMst1 - EVar vlmMst2) * (EPow P2 (EVar vMst1) + EPow P2 (EVar vMst2))) - (#40 * (#8 * EVar vDmglst2 * (#14
   - #15 * EVar vlmMsq + #15 * EVar vlmMst2) + (#43 - #30 * EVar vlmMsq + #30 * EVar vlmMst2) * EVar vMgl) * EPow P2
   (EVar vMsq) * EPow P2 (EVar vMst2) + (- #12 * EVar vMgl * (#335 + #654 * EVar vlmMst2 + #64 * EVar vlmMst1 * (#1 +
   EVar vlmMst2) - #30 * EVar vlmMsq * (#5 + #6 * EVar vlmMst2) + #90 * EPow P2 (EVar vlmMsq) + #272 * EPow P2 (EVar
   vlmMst2)) - #24 * EVar vDmglst2 * (- #115 + (#366 + #64 * EVar vlmMst1) * EVar vlmMst2 - #30 * EVar vlmMsq * (- #1
   + #6 * EVar vlmMst2) + #90 * EPow P2 (EVar vlmMsq) + #336 * EPow P2 (EVar vlmMst2))) * EPow P4 (EVar vMsq) + (#90 *
   EVar vDmglst2 * (#13 - #28 * EVar vlmMsq + #28 * EVar vlmMst2) + #5 * (#67 - #84 * EVar vlmMsq + #84 * EVar
   vlmMst2) * EVar vMgl) * EPow P4 (EVar vMst2)) / EPow P2 (EVar vMst1))) / EPow P4 (EVar vMsq)) / EVar vMgl)) + #1536
   * EVar vMt * (#2 * EVar vDmglst2 * EPow P2 (EVar vMst2) * (EPow P2 (EVar vMst1) * EPow P2 (EVar vMst2) * (#8 + #7 *
   EVar vlmMst2 - #11 * EPow P2 (EVar vlmMst2) + EVar vlmMst1 * (- #3 + #5 * EVar vlmMst2 + #6 * EPow P2 (EVar
   vlmMst2)) - #6 * EPow P3 (EVar vlmMst2)) + #2 * (#8 + #13 * EVar vlmMst2 - #8 * EPow P2 (EVar vlmMst2) + EVar
   vlmMst1 * (- #5 + #5 * EVar vlmMst2 + #6 * EPow P2 (EVar vlmMst2)) - #6 * EPow P3 (EVar vlmMst2)) * EPow P4 (EVar
   vMst1) + (#1 - #2 * EVar vlmMst2 - #3 * EPow P2 (EVar vlmMst2)) * EPow P4 (EVar vMst2)) + (#1 + EVar vlmMst2) *
   EVar vMgl * (#2 * (#1 - #10 * EVar vlmMst2 + #4 * EVar vlmMst1 * (#2 + EVar vlmMst2) - #4 * EPow P2 (EVar vlmMst2))
   * EPow P2 (EVar vMst2) * EPow P4 (EVar vMst1) - #2 * (#1 + #5 * EVar vlmMst2 - EVar vlmMst1 * (#3 + #2 * EVar
   vlmMst2) + #2 * EPow P2 (EVar vlmMst2)) * EPow P2 (EVar vMst1) * EPow P4 (EVar vMst2) + (#7 - #32 * EVar vlmMst2 +
   #4 * EVar vlmMst1 * (#7 + #3 * EVar vlmMst2) - #12 * EPow P2 (EVar vlmMst2)) * EPow P6 (EVar vMst1) - #2 * (#1 +
   EVar vlmMst2) * EPow P6 (EVar vMst2))) / (EVar vMgl * EPow P2 (EVar vMst1) * EPow P5 (EVar vMst2)) + EVar vxDmglst2
   * EPow P2 (EVar vDmglst2) * (EVar vs2t * EPow P2 (EVar vMst1) * (#160 * EPow P2 (EVar vMsq) * EPow P2 (EVar vMst2)
   * (#5 * (#8 - #15 * EVar vlmMsq) * (EPow P2 (EVar vMst1) + EPow P2 (EVar vMst2)) * EPow P4 (EVar vMst2) + #30 *
   EPow P2 (EVar vlmMst2) * (#5 * EPow P2 (EVar vMst2) * EPow P4 (EVar vMst1) + #5 * EPow P2 (EVar vMst1) * EPow P4
   (EVar vMst2) + #2 * EPow P6 (EVar vMst1)) - #2 * EVar vlmMst1 * (#5 * (#8 - #15 * EVar vlmMsq + #15 * EVar vlmMst2)
   * EPow P2 (EVar vMst1) * EPow P2 (EVar vMst2) * (EPow P2 (EVar vMst1) + EPow P2 (EVar vMst2)) + (#28 - #30 * EVar
   vlmMsq + #30 * EVar vlmMst2) * EPow P6 (EVar vMst1)) + EVar vlmMst2 * (#10 * (#8 - #15 * EVar vlmMsq) * EPow P2
   (EVar vMst2) * EPow P4 (EVar vMst1) + #5 * (#31 - #30 * EVar vlmMsq) * EPow P2 (EVar vMst1) * EPow P4 (EVar vMst2)
   + (#56 - #60 * EVar vlmMsq) * EPow P6 (EVar vMst1) + #75 * EPow P6 (EVar vMst2))) + #45 * EPow P4 (EVar vMst2) *
   (#7 * (#5 - #28 * EVar vlmMsq) * (EPow P2 (EVar vMst1) + EPow P2 (EVar vMst2)) * EPow P4 (EVar vMst2) + #56 * EPow
   P2 (EVar vlmMst2) * (#7 * EPow P2 (EVar vMst2) * EPow P4 (EVar vMst1) + #7 * EPow P2 (EVar vMst1) * EPow P4 (EVar
   vMst2) + #2 * EPow P6 (EVar vMst1)) - #2 * EVar vlmMst1 * (#7 * (#5 - #28 * EVar vlmMsq + #28 * EVar vlmMst2) *
   EPow P2 (EVar vMst1) * EPow P2 (EVar vMst2) * (EPow P2 (EVar vMst1) + EPow P2 (EVar vMst2)) + (#26 - #56 * EVar
   vlmMsq + #56 * EVar vlmMst2) * EPow P6 (EVar vMst1)) + EVar vlmMst2 * (#14 * (#5 - #28 * EVar vlmMsq) * EPow P2
   (EVar vMst2) * EPow P4 (EVar vMst1) + #14 * (#19 - #28 * EVar vlmMsq) * EPow P2 (EVar vMst1) * EPow P4 (EVar vMst2)
   + (#52 - #112 * EVar vlmMsq) * EPow P6 (EVar vMst1) + #196 * EPow P6 (EVar vMst2)))) - #4 * EPow P4 (EVar vMsq) *
   (- ((EVar vMst2 * EVar vs2t * (#3035 + #5240 * EVar vlmMst2 - #270 * EVar vlmMsq * (#5 + #3 * EVar vlmMsq - #6 *
   EVar vlmMst2) * (#1 - #2 * EVar vlmMst1 + #2 * EVar vlmMst2) + #192 * (#2 - #3 * EVar vlmMst2) * EPow P2 (EVar
   vlmMst1) - #4620 * EPow P2 (EVar vlmMst2) + #6 * EVar vlmMst1 * (- #1161 + #458 * EVar vlmMst2 + #1008 * EPow P2
   (EVar vlmMst2)) - #5472 * EPow P3 (EVar vlmMst2)) - #128 * EVar vMt * (- #53 - #191 * EVar vlmMst2 + EVar vlmMst1 *
   (#60 + #18 * EVar vlmMst2 - #72 * EPow P2 (EVar vlmMst2)) + #54 * EPow P2 (EVar vlmMst2) + #72 * EPow P3 (EVar
   vlmMst2))) * EPow P3 (EVar vMst2) * EPow P4 (EVar vMst1)) - #3 * (EVar vMst2 * EVar vs2t * (#1065 + #64 * EVar
   vlmMst1 * (#2 - #3 * EVar vlmMst2) - #266 * EVar vlmMst2 + #90 * EVar vlmMsq * (- #5 + #6 * EVar vlmMst2) - #270 *
   EPow P2 (EVar vlmMsq) - #1264 * EPow P2 (EVar vlmMst2)) + #512 * EVar vMt * (#2 + EVar vlmMst2 - #3 * EPow P2 (EVar
   vlmMst2))) * EPow P2 (EVar vMst1) * EPow P5 (EVar vMst2) - #2 * EVar vMst2 * (#3 * EVar vMst2 * EVar vs2t * (#480 -
   #9 * EVar vlmMst2 * (- #129 + #50 * EVar vlmMsq + #30 * EPow P2 (EVar vlmMsq)) + #288 * (#2 - #3 * EVar vlmMst2) *
   EPow P2 (EVar vlmMst1) + #10 * (- #17 + #54 * EVar vlmMsq) * EPow P2 (EVar vlmMst2) + EVar vlmMst1 * (- #1385 -
   #406 * EVar vlmMst2 - #90 * EVar vlmMsq * (- #5 + #6 * EVar vlmMst2) + #270 * EPow P2 (EVar vlmMsq) + #2544 * EPow
   P2 (EVar vlmMst2)) - #1680 * EPow P3 (EVar vlmMst2)) + #64 * EVar vMt * (#11 + #371 * EVar vlmMst2 - #42 * EPow P2
   (EVar vlmMst2) + #6 * EVar vlmMst1 * (- #21 - #5 * EVar vlmMst2 + #24 * EPow P2 (EVar vlmMst2)) - #144 * EPow P3
   (EVar vlmMst2))) * EPow P6 (EVar vMst1) + EVar vs2t * (#12 * (#96 + EVar vlmMst2 * (#285 + #30 * EVar vlmMsq + #90
   * EPow P2 (EVar vlmMsq) + #544 * EPow P2 (EVar vlmMst1)) + (#590 - #180 * EVar vlmMsq) * EPow P2 (EVar vlmMst2) -
   EVar vlmMst1 * (#109 + #30 * EVar vlmMsq * (#1 - #6 * EVar vlmMst2) + #590 * EVar vlmMst2 + #90 * EPow P2 (EVar
   vlmMsq) + #1360 * EPow P2 (EVar vlmMst2)) + #816 * EPow P3 (EVar vlmMst2)) * EPow P8 (EVar vMst1) - #192 * (- #2 +
   EVar vlmMst2 + #5 * EPow P2 (EVar vlmMst2)) * EPow P8 (EVar vMst2)))) / (EPow P2 (EVar vMgl) * EPow P4 (EVar vMsq)
   * EPow P4 (EVar vMst1) * EPow P4 (EVar vMst2))))) + #2 * EVar vAl4p * EConst Cz2 * (- #9720 * EVar vs2t * EVar
   vtwoLoopFlag * (EVar vMgl * EPow P2 (EVar vMst2) * (#4 * EVar vMt * ((#9 * EVar vDmglst2 + EVar vMgl) * EPow P2
   (EVar vMst1) * EPow P2 (EVar vMst2) + (#13 * EVar vDmglst2 + EVar vMgl) * EPow P4 (EVar vMst1) + (#5 * EVar
   vDmglst2 + EVar vMgl) * EPow P4 (EVar vMst2)) - EVar vMst2 * EVar vs2t * (EVar vMgl * EPow P4 (EVar vMst2) + #4 *
   EVar vDmglst2 * (EPow P2 (EVar vMst1) * EPow P2 (EVar vMst2) + EPow P4 (EVar vMst1) + EPow P4 (EVar vMst2)))) + #2
   * EVar vxMst * (EVar vDmglst2 * EVar vMgl * (#34 * EVar vMt - #2 * EVar vMst2 * EVar vs2t) + (#82 * EVar vMt - #3 *
   EVar vMst2 * EVar vs2t) * EVar vxDmglst2 * EPow P2 (EVar vDmglst2) + #2 * EVar vMt * EPow P2 (EVar vMgl)) * EPow P6
   (EVar vMst1)) + EPow P2 (EVar vMst2) * (#2 * EVar vxDmglst2 * EPow P2 (EVar vDmglst2) * (- #9720 * EVar vs2t * EVar
   vtwoLoopFlag * EPow P2 (EVar vMst1) * EPow P4 (EVar vMsq) * (- #3 * (- #14 * EVar vMt + EVar vMst2 * EVar vs2t) *
   EPow P2 (EVar vMst1) * EPow P2 (EVar vMst2) + (#62 * EVar vMt - #3 * EVar vMst2 * EVar vs2t) * EPow P4 (EVar vMst1)
   + (#22 * EVar vMt - #3 * EVar vMst2 * EVar vs2t) * EPow P4 (EVar vMst2)) + EVar vAl4p * EVar vMst2 * EVar
   vthreeLoopFlag * (#4050 * EVar vMst2 * EVar vs2t * EPow P2 (EVar vMst1) * ((#372 * EVar vMt - #22 * EVar vMst2 *
   EVar vs2t) * EPow P2 (EVar vMst2) * EPow P4 (EVar vMst1) + (#1252 * EVar vMt - #97 * EVar vMst2 * EVar vs2t) * EPow
   P2 (EVar vMst1) * EPow P4 (EVar vMst2) + #2 * EPow P2 (EVar vMsq) * (#2 * (#576 * EVar vMt - #41 * EVar vMst2 *
   EVar vs2t) * EPow P2 (EVar vMst1) * EPow P2 (EVar vMst2) + #4 * (#120 * EVar vMt - #7 * EVar vMst2 * EVar vs2t) *
   EPow P4 (EVar vMst1) + #13 * (#48 * EVar vMt - #7 * EVar vMst2 * EVar vs2t) * EPow P4 (EVar vMst2)) + #2 * (#358 *
   EVar vMt - #61 * EVar vMst2 * EVar vs2t) * EPow P6 (EVar vMst2)) + EPow P4 (EVar vMsq) * (- #9 * EPow P2 (EVar
   vMst1) * EPow P2 (EVar vMst2) * ((#1340537 - #496800 * EVar vlmMsq + #4680 * EVar vlmMst1 + #778680 * EVar vlmMst2)
   * EVar vMst2 * EVar vMt * EVar vs2t + #192 * (#617 + #2040 * EVar vlmMst2) * EPow P2 (EVar vMt) + (- #115931 +
   #48600 * EVar vlmMsq + #53280 * EVar vlmMst1 - #148320 * EVar vlmMst2) * EPow P2 (EVar vMst2) * EPow P2 (EVar
   vs2t)) - #6 * ((#3255761 - #1458000 * EVar vlmMsq - #351000 * EVar vlmMst1 + #2631960 * EVar vlmMst2) * EVar vMst2
   * EVar vMt * EVar vs2t + #180 * (#3643 - #120 * EVar vlmMst1 + #3192 * EVar vlmMst2) * EPow P2 (EVar vMt) + #5 * (-
   #47953 + #14580 * EVar vlmMsq + #25650 * EVar vlmMst1 - #54162 * EVar vlmMst2) * EPow P2 (EVar vMst2) * EPow P2
   (EVar vs2t)) * EPow P4 (EVar vMst1) + EPow P2 (EVar vs2t) * (#4 * (#2286439 - #72900 * EVar vlmMsq - #307800 * EVar
   vlmMst1 + #450360 * EVar vlmMst2) * EPow P6 (EVar vMst1) + #233280 * EPow P6 (EVar vMst2))))) - EVar vAl4p * EVar
   vthreeLoopFlag * (#12960 * EVar vs2t * EVar vxDR2DRMOD * EPow P4 (EVar vMsq) * (EVar vMst2 * EVar vxDmglst2 * EPow
   P2 (EVar vDmglst2) * ((#32 * (- #1 + #6 * EVar vlmMst2) * EVar vMt + (#49 - #66 * EVar vlmMst1 + #42 * EVar
   vlmMst2) * EVar vMst2 * EVar vs2t) * EPow P2 (EVar vMst1) * EPow P3 (EVar vMst2) + #2 * EVar vMst2 * (#32 * (- #1 +
   #6 * EVar vlmMst2) * EVar vMt + (#8 - #33 * EVar vlmMst1 + #21 * EVar vlmMst2) * EVar vMst2 * EVar vs2t) * EPow P4
   (EVar vMst1) + (- #46 * EVar vlmMst1 * EVar vs2t + #30 * EVar vlmMst2 * EVar vs2t) * EPow P6 (EVar vMst1) + #33 *
   EVar vs2t * EPow P6 (EVar vMst2)) + EVar vMgl * (#32 * EVar vMt * EPow P2 (EVar vMst1) * (EVar vDmglst2 * (#1 + #3
   * EVar vlmMst2) * EPow P2 (EVar vMst2) * (#2 * EPow P2 (EVar vMst1) + EPow P2 (EVar vMst2)) + (#1 + EVar vlmMst2) *
   EVar vMgl * (#2 * EPow P2 (EVar vMst1) * EPow P2 (EVar vMst2) + #3 * EPow P4 (EVar vMst1) + EPow P4 (EVar vMst2)))
   + EVar vMst2 * EVar vs2t * (- #2 * (EVar vDmglst2 * (#23 * EVar vlmMst1 - #15 * EVar vlmMst2) + (#4 + #13 * EVar
   vlmMst1 - #9 * EVar vlmMst2) * EVar vMgl) * (EPow P2 (EVar vMst1) + EPow P2 (EVar vMst2)) * EPow P4 (EVar vMst1) +
   (EVar vDmglst2 * (#23 - #46 * EVar vlmMst1 + #30 * EVar vlmMst2) + (#5 - #26 * EVar vlmMst1 + #18 * EVar vlmMst2) *
   EVar vMgl) * EPow P2 (EVar vMst1) * EPow P4 (EVar vMst2) + (#23 * EVar vDmglst2 + #13 * EVar vMgl) * EPow P6 (EVar
   vMst2)))) + EVar vMgl * (#90 * EVar vMt * EPow P2 (EVar vMst1) * (#6 * EVar vMst2 * EVar vMt * (#2 * (EVar vDmglst2
   * (#7286 - #240 * EVar vlmMst1 + #6384 * EVar vlmMst2) + (- #353 + #72 * EVar vlmMst1 + #696 * EVar vlmMst2) * EVar
   vMgl) * EPow P2 (EVar vMst1) + #32 * (#24 * EVar vDmglst2 * (#5 + #6 * EVar vlmMst2) + (#53 + #24 * EVar vlmMst2) *
   EVar vMgl) * EPow P2 (EVar vMst2)) * EPow P4 (EVar vMsq) + EVar vs2t * (#2 * (#412663 - #226800 * EVar vlmMsq +
   #396360 * EVar vlmMst1 - #119880 * EVar vlmMst2) * EVar vMgl * EPow P4 (EVar vMsq) * EPow P4 (EVar vMst1) / #15 +
   #9 * (EVar vDmglst2 * (- #6720 * EPow P2 (EVar vMsq) * EPow P2 (EVar vMst1) + (EDec 18556466666666667 12 - #5280 *
   EVar vlmMsq + #248 * EVar vlmMst1 + #7944 * EVar vlmMst2) * EPow P4 (EVar vMsq) - #3720 * EPow P4 (EVar vMst1)) +
   EVar vMgl * (- #960 * EPow P2 (EVar vMsq) * EPow P2 (EVar vMst1) + (#3469 - #1440 * EVar vlmMsq + #664 * EVar
   vlmMst1 + #1384 * EVar vlmMst2) * EPow P4 (EVar vMsq) - #360 * EPow P4 (EVar vMst1))) * EPow P4 (EVar vMst2) + #2 *
   EPow P2 (EVar vMsq) * EPow P2 (EVar vMst2) * (#2 * (EVar vDmglst2 * (#534391 - #113400 * EVar vlmMsq - #23760 *
   EVar vlmMst1 + #196560 * EVar vlmMst2) + #10 * (#5827 - #2700 * EVar vlmMsq + #2988 * EVar vlmMst1 + #468 * EVar
   vlmMst2) * EVar vMgl) * EPow P2 (EVar vMsq) * EPow P2 (EVar vMst1) / #5 - #2880 * (#15 * EVar vDmglst2 + #2 * EVar
   vMgl) * EPow P4 (EVar vMst1) - #2880 * (#6 * EVar vDmglst2 + EVar vMgl) * EPow P4 (EVar vMst2)) - #360 * ((#67 *
   EVar vDmglst2 + #7 * EVar vMgl) * EVar vMst2 * EPow P2 (EVar vMst1) + (#41 * EVar vDmglst2 + #5 * EVar vMgl) * EPow
   P3 (EVar vMst2)) * EPow P5 (EVar vMst2))) - EVar vMst2 * EPow P2 (EVar vs2t) * (- #3 * EVar vMgl * (#32400 * EVar
   vxMsq * ((#1 - #2 * EVar vlmMst2 * (- #1 + EVar vshiftst1)) * EPow P2 (EVar vMst1) * EPow P2 (EVar vMst2) + #2 *
   EVar vlmMst1 * (- #1 + EVar vshiftst1) * EPow P2 (EVar vMst1) * EPow P2 (EVar vMst2) + EVar vshiftst2 * EPow P2
   (EVar vMst1) * (#2 * EPow P2 (EVar vMst1) + EPow P2 (EVar vMst2)) - #2 * EVar vlmMst1 * (#1 - #2 * EVar vshiftst1 +
   EVar vshiftst2) * EPow P4 (EVar vMst1) + #2 * EVar vlmMst2 * (#1 - #2 * EVar vshiftst1 + EVar vshiftst2) * EPow P4
   (EVar vMst1) + EPow P4 (EVar vMst2) - EVar vshiftst1 * (#2 * EPow P2 (EVar vMst1) * EPow P2 (EVar vMst2) + #2 *
   EPow P4 (EVar vMst1) + EPow P4 (EVar vMst2))) * EPow P6 (EVar vMsq) - EPow P4 (EVar vMsq) * (- #6 * (#240379 +
   #10800 * EVar vlmMsq - #21420 * EVar vlmMst2 - #1080 * (#1 + #2 * EVar vlmMst2) * EVar vshiftst3 + #180 * EVar
   vlmMst1 * (#55 + #12 * EVar vshiftst3)) * EPow P2 (EVar vMst2) * EPow P4 (EVar vMst1) + #180 * (#59 - #450 * EVar
   vlmMsq + #1362 * EVar vlmMst2 + #36 * (#1 + EVar vlmMst2) * EVar vshiftst3 - #6 * EVar vlmMst1 * (#107 + #6 * EVar
   vshiftst3)) * EPow P2 (EVar vMst1) * EPow P4 (EVar vMst2) - (#3647353 + #64800 * EVar vlmMsq - #52380 * EVar
   vlmMst2 - #6480 * (#1 + #3 * EVar vlmMst2) * EVar vshiftst3 + #540 * EVar vlmMst1 * (- #31 + #36 * EVar vshiftst3))
   * EPow P6 (EVar vMst1) + #1080 * (#49 + #3 * EVar vshiftst3) * EPow P6 (EVar vMst2)) + #5400 * EPow P2 (EVar vMsq)
   * (#4 * EPow P4 (EVar vMst1) * EPow P4 (EVar vMst2) + #4 * EPow P2 (EVar vMst2) * EPow P6 (EVar vMst1) + #7 * EPow
   P2 (EVar vMst1) * EPow P6 (EVar vMst2)) + #1350 * (#4 * EPow P4 (EVar vMst2) * EPow P6 (EVar vMst1) + #4 * EPow P4
   (EVar vMst1) * EPow P6 (EVar vMst2) + #9 * EPow P2 (EVar vMst1) * EPow P8 (EVar vMst2))) + #4 * EVar vDmglst2 *
   (EPow P4 (EVar vMsq) * (#162 * (#9053 - #900 * EVar vlmMsq - #1810 * EVar vlmMst1 + #3570 * EVar vlmMst2) * EPow P2
   (EVar vMst2) * EPow P4 (EVar vMst1) + #135 * (#4151 - #1080 * EVar vlmMsq - #1368 * EVar vlmMst1 + #3480 * EVar
   vlmMst2) * EPow P2 (EVar vMst1) * EPow P4 (EVar vMst2) + #2 * (#2286439 - #72900 * EVar vlmMsq - #307800 * EVar
   vlmMst1 + #450360 * EVar vlmMst2) * EPow P6 (EVar vMst1) + #74520 * EPow P6 (EVar vMst2)) - #8100 * EPow P2 (EVar
   vMsq) * (#14 * EPow P4 (EVar vMst1) * EPow P4 (EVar vMst2) + #14 * EPow P2 (EVar vMst2) * EPow P6 (EVar vMst1) +
   #17 * EPow P2 (EVar vMst1) * EPow P6 (EVar vMst2)) - #4050 * (#11 * EPow P4 (EVar vMst2) * EPow P6 (EVar vMst1) +
   #11 * EPow P4 (EVar vMst1) * EPow P6 (EVar vMst2) + #16 * EPow P2 (EVar vMst1) * EPow P8 (EVar vMst2))))))) / (EPow
   P2 (EVar vMst1) * EPow P4 (EVar vMsq))) / (EPow P2 (EVar vMgl) * EPow P7 (EVar vMst2))))) / #29160.

(** H6g2.cpp:519-3120 *)
Definition H6g2_getS2 : expr :=
  - (EVar voneLoopFlag * (#4 * EVar vMt * EVar vMuSUSY * EVar vs2t * (#4 * (EVar vlmMst1 - EVar vlmMst2) * EPow P2 (EVar
   vMt) + ((- #2 - EVar vlmMst1 + EVar vlmMst2) * EPow P2 (EVar vMst1) + (#2 - EVar vlmMst1 + EVar vlmMst2) * EPow P2
   (EVar vMst2)) * EPow P2 (EVar vs2t)) / EVar vTbeta + #4 * EPow P2 (EVar vMt) * EPow P2 (EVar vs2t) * (#2 * (EVar
   vlmMst1 - EVar vlmMst2) * (EPow P2 (EVar vMst1) - EPow P2 (EVar vMst2)) + EPow P2 (EVar vMuSUSY) * (#2 - EVar
   vlmMst1 + EVar vlmMst2 - #2 * (EVar vlmMst1 - EVar vlmMst2) * EPow P2 (EVar vMst1) * (EPow P2 (EVar vMst1) + EPow
   P2 (EVar vMst2)) / EPow P4 (EVar vMst2))) - #4 * EPow P2 (EVar vMt) * EPow P2 (EVar vMuSUSY) * EPow P2 (EVar vs2t)
   * (#2 - EVar vlmMst1 + EVar vlmMst2 - #2 * (EVar vlmMst1 - EVar vlmMst2) * EPow P2 (EVar vMst1) * (EPow P2 (EVar
   vMst1) + EPow P2 (EVar vMst2)) / EPow P4 (EVar vMst2)) / EPow P2 (EVar vSbeta) + #16 * (EVar vlmMst1 + EVar vlmMst2
   - #2 * EVar vlmMt) * EPow P4 (EVar vMt) - (- #4 * EPow P2 (EVar vMst1) * EPow P2 (EVar vMst2) + (#2 + EVar vlmMst1
   - EVar vlmMst2) * EPow P4 (EVar vMst1) + (#2 - EVar vlmMst1 + EVar vlmMst2) * EPow P4 (EVar vMst2)) * EPow P4 (EVar
   vs2t))) / #32 + EVar vthreeLoopFlag * EPow P2 (EVar vAl4p) * (EVar vDmglst2 * EVar vMst2 * (- #2 * EVar vMgl *
   (EPow P4 (EVar vMst1) * (#4 * EPow P2 (EVar vMt) * EPow P2 (EVar vs2t) * (#4 * EVar vTbeta * EPow P2 (EVar vMuSUSY)
   * (- #1 + EPow P2 (EVar vSbeta)) * (#338536 * EConst Cz3 + #11327 * EConst Cz4 + #15897 * EPow P2 (EConst Cz2)) +
   EPow P2 (EVar vSbeta) * (#36 * EVar vTbeta * EPow P2 (EVar vMst2) * (- #734 * EConst Cz3 + #1538 * EConst Cz4 +
   #2307 * EPow P2 (EConst Cz2)) - #3 * EVar vMst2 * EVar vMuSUSY * (- #844756 * EConst Cz3 + #10126 * EConst Cz4 +
   #105585 * EPow P2 (EConst Cz2)))) + EPow P2 (EVar vSbeta) * (- #32 * EVar vs2t * (#9 * EVar vMuSUSY * (#2806 *
   EConst Cz3 + #1514 * EConst Cz4 + #2757 * EPow P2 (EConst Cz2)) + EVar vMst2 * EVar vTbeta * (- #614702 * EConst
   Cz3 + #25730 * EConst Cz4 + #38595 * EPow P2 (EConst Cz2))) * EPow P3 (EVar vMt) + #2 * EVar vMt * EPow P2 (EVar
   vMst2) * (#8 * EVar vMuSUSY * (#89947 * EConst Cz3 + #6332 * EConst Cz4 + #9498 * EPow P2 (EConst Cz2)) + EVar
   vMst2 * EVar vTbeta * (- #565214 * EConst Cz3 + #31142 * EConst Cz4 + #46713 * EPow P2 (EConst Cz2))) * EPow P3
   (EVar vs2t)) + EVar vTbeta * EPow P2 (EVar vSbeta) * (#64 * (- #562226 * EConst Cz3 + #5582 * EConst Cz4 + #8373 *
   EPow P2 (EConst Cz2)) * EPow P4 (EVar vMt) + (#197843 * EConst Cz3 - #16796 * EConst Cz4 - #25194 * EPow P2 (EConst
   Cz2)) * EPow P4 (EVar vMst2) * EPow P4 (EVar vs2t))) + #18 * EPow P2 (EVar vMst1) * (EPow P2 (EVar vMst2) * EPow P2
   (EVar vMt) * (#16 * EVar vTbeta * EPow P2 (EVar vMt) * EPow P2 (EVar vSbeta) * (- #24526 * EConst Cz3 + #322 *
   EConst Cz4 + #483 * EPow P2 (EConst Cz2)) + #3 * EVar vMuSUSY * EPow P2 (EVar vs2t) * (EVar vMst2 * EPow P2 (EVar
   vSbeta) * (#124922 * EConst Cz3 + #1210 * EConst Cz4 - #18273 * EPow P2 (EConst Cz2)) + #8 * EVar vMuSUSY * EVar
   vTbeta * (- #1 + EPow P2 (EVar vSbeta)) * (#9207 * EConst Cz3 + #185 * EConst Cz4 + #237 * EPow P2 (EConst Cz2))) -
   #12 * EVar vMt * EVar vs2t * EPow P2 (EVar vSbeta) * (#8 * EVar vMuSUSY * (#590 * EConst Cz3 - #4 * EConst Cz4 +
   #75 * EPow P2 (EConst Cz2)) + EVar vMst2 * EVar vTbeta * (- #21022 * EConst Cz3 + #922 * EConst Cz4 + #1383 * EPow
   P2 (EConst Cz2)))) + #8 * EVar vMst2 * EVar vMuSUSY * (#24 * EVar vMt * EPow P2 (EVar vSbeta) * (- #955 * EConst
   Cz3 + #26 * EConst Cz4 + #93 * EPow P2 (EConst Cz2)) - EVar vMuSUSY * EVar vs2t * EVar vTbeta * (- #1 + EPow P2
   (EVar vSbeta)) * (- #59336 * EConst Cz3 - #709 * EConst Cz4 + #8535 * EPow P2 (EConst Cz2))) * EPow P3 (EVar vMt) +
   #6 * EVar vMt * EPow P2 (EVar vs2t) * EPow P2 (EVar vSbeta) * (#4 * EVar vMt * EVar vTbeta * (#741 * EConst Cz3 +
   #100 * EConst Cz4 + #150 * EPow P2 (EConst Cz2)) + EVar vMuSUSY * EVar vs2t * (#20653 * EConst Cz3 + #316 * EConst
   Cz4 + #474 * EPow P2 (EConst Cz2))) * EPow P4 (EVar vMst2) + EVar vTbeta * (- #48 * EPow P2 (EVar vMuSUSY) * (- #1
   + EPow P2 (EVar vSbeta)) * (#250 * EConst Cz3 - #94 * EConst Cz4 + #21 * EPow P2 (EConst Cz2)) * EPow P4 (EVar vMt)
   + EPow P2 (EVar vSbeta) * (#3 * EVar vMst2 * EVar vs2t * (- #2239 * EConst Cz3 + #54 * EConst Cz4) + #2 * EVar vMt
   * (- #6250 * EConst Cz3 + #208 * EConst Cz4 + #1203 * EPow P2 (EConst Cz2))) * EPow P3 (EVar vs2t) * EPow P5 (EVar
   vMst2))) + #27 * EPow P2 (EVar vMst2) * (#4 * EVar vMt * EPow P2 (EVar vMst2) * (EPow P2 (EVar vMst2) * EPow P2
   (EVar vs2t) * EPow P2 (EVar vSbeta) * (#4 * EVar vMt * EVar vTbeta * (#439 * EConst Cz3 - #108 * EConst Cz4) + EVar
   vMuSUSY * EVar vs2t * (#16175 * EConst Cz3 + #424 * EConst Cz4 + #474 * EPow P2 (EConst Cz2))) + EVar vMt * (EVar
   vTbeta * EPow P2 (EVar vMuSUSY) * EPow P2 (EVar vs2t) * (- #1 + EPow P2 (EVar vSbeta)) * (#16175 * EConst Cz3 +
   #424 * EConst Cz4 + #474 * EPow P2 (EConst Cz2)) + #2 * EVar vMt * EPow P2 (EVar vSbeta) * (#4 * EVar vMuSUSY *
   EVar vs2t * (- #439 * EConst Cz3 + #108 * EConst Cz4) + EVar vMt * EVar vTbeta * (#11897 * EConst Cz3 + #56 *
   EConst Cz4 + #84 * EPow P2 (EConst Cz2))))) - #2 * EVar vs2t * EPow P2 (EVar vMt) * EPow P2 (EVar vSbeta) * (#4 *
   EVar vMt * EVar vTbeta * (#5742 * EConst Cz3 - #506 * EConst Cz4 + #105 * EPow P2 (EConst Cz2)) + #3 * EVar vMuSUSY
   * EVar vs2t * (- #37474 * EConst Cz3 - #542 * EConst Cz4 + #5289 * EPow P2 (EConst Cz2))) * EPow P3 (EVar vMst2) +
   #4 * EVar vMst2 * EVar vMuSUSY * (#2 * EVar vMt * EPow P2 (EVar vSbeta) * (#5742 * EConst Cz3 - #506 * EConst Cz4 +
   #105 * EPow P2 (EConst Cz2)) - EVar vMuSUSY * EVar vs2t * EVar vTbeta * (- #1 + EPow P2 (EVar vSbeta)) * (- #37474
   * EConst Cz3 - #542 * EConst Cz4 + #5289 * EPow P2 (EConst Cz2))) * EPow P3 (EVar vMt) + EVar vTbeta * (- #64 *
   (#83 * EConst Cz3 - #27 * EConst Cz4) * EPow P2 (EVar vMuSUSY) * (- #1 + EPow P2 (EVar vSbeta)) * EPow P4 (EVar
   vMt) + EPow P2 (EVar vSbeta) * (- (EVar vMst2 * EVar vs2t * (#16175 * EConst Cz3 + #424 * EConst Cz4 + #474 * EPow
   P2 (EConst Cz2))) + #2 * EVar vMt * (- #37474 * EConst Cz3 - #542 * EConst Cz4 + #5289 * EPow P2 (EConst Cz2))) *
   EPow P3 (EVar vs2t) * EPow P5 (EVar vMst2)))) - EVar vDmglst2 * EVar vxDmglst2 * (EPow P4 (EVar vMst1) * (- #8 *
   EPow P2 (EVar vMt) * EPow P2 (EVar vs2t) * (- #4 * EVar vTbeta * EPow P2 (EVar vMuSUSY) * (- #1 + EPow P2 (EVar
   vSbeta)) * (#338536 * EConst Cz3 + #11327 * EConst Cz4 + #15897 * EPow P2 (EConst Cz2)) + #6 * EVar vTbeta * EPow
   P2 (EVar vMst2) * EPow P2 (EVar vSbeta) * (#4404 * EConst Cz3 + #105742 * EVar vxDR2DRMOD * EConst Cz3 - #9228 *
   EConst Cz4 + #4838 * EVar vxDR2DRMOD * EConst Cz4 + #3 * (- #4614 + #2419 * EVar vxDR2DRMOD) * EPow P2 (EConst
   Cz2)) - #3 * EVar vMst2 * EVar vMuSUSY * EPow P2 (EVar vSbeta) * (#844756 * EConst Cz3 - #408118 * EVar vxDR2DRMOD
   * EConst Cz3 - #10126 * EConst Cz4 + #83590 * EVar vxDR2DRMOD * EConst Cz4 + #3 * (- #35195 + #17009 * EVar
   vxDR2DRMOD) * EPow P2 (EConst Cz2))) + #4 * EVar vMt * EPow P2 (EVar vMst2) * EPow P2 (EVar vSbeta) * (EVar vMst2 *
   EVar vTbeta * (#2 * (- #282607 + #789712 * EVar vxDR2DRMOD) * EConst Cz3 + #2 * (#15571 - #63244 * EVar vxDR2DRMOD)
   * EConst Cz4 + (#46713 - #189732 * EVar vxDR2DRMOD) * EPow P2 (EConst Cz2)) + #4 * EVar vMuSUSY * ((#179894 +
   #614777 * EVar vxDR2DRMOD) * EConst Cz3 + #8 * (#1583 - #898 * EVar vxDR2DRMOD) * EConst Cz4 + (#18996 - #28272 *
   EVar vxDR2DRMOD) * EPow P2 (EConst Cz2))) * EPow P3 (EVar vs2t) + EPow P2 (EVar vSbeta) * (- #64 * EVar vs2t * (#9
   * EVar vMuSUSY * (#2806 * EConst Cz3 + #1514 * EConst Cz4 + #2757 * EPow P2 (EConst Cz2)) + EVar vMst2 * EVar
   vTbeta * (- #614702 * EConst Cz3 + #1442476 * EVar vxDR2DRMOD * EConst Cz3 + #25730 * EConst Cz4 - #81328 * EVar
   vxDR2DRMOD * EConst Cz4 + (#38595 - #121992 * EVar vxDR2DRMOD) * EPow P2 (EConst Cz2))) * EPow P3 (EVar vMt) + #128
   * EVar vTbeta * (- #562226 * EConst Cz3 + #5582 * EConst Cz4 + #8373 * EPow P2 (EConst Cz2)) * EPow P4 (EVar vMt) +
   EVar vTbeta * (#395686 * EConst Cz3 - #699017 * EVar vxDR2DRMOD * EConst Cz3 - #33592 * EConst Cz4 + #61508 * EVar
   vxDR2DRMOD * EConst Cz4 + #6 * (- #8398 + #15377 * EVar vxDR2DRMOD) * EPow P2 (EConst Cz2)) * EPow P4 (EVar vMst2)
   * EPow P4 (EVar vs2t))) + #6 * EPow P2 (EVar vMst1) * (- #8 * EPow P2 (EVar vMst2) * EPow P2 (EVar vMt) * (- (EVar
   vTbeta * EPow P2 (EVar vMuSUSY) * EPow P2 (EVar vs2t) * (- #1 + EPow P2 (EVar vSbeta)) * (#409448 * EConst Cz3 +
   #10819 * EConst Cz4 + #3471 * EPow P2 (EConst Cz2))) + #2 * EVar vMt * EPow P2 (EVar vSbeta) * (#36 * EVar vMuSUSY
   * EVar vs2t * (#3124 * EConst Cz3 + #29 * EConst Cz4 + #165 * EPow P2 (EConst Cz2)) + EVar vMt * EVar vTbeta * (-
   #316834 * EConst Cz3 + #9406 * EConst Cz4 + #14109 * EPow P2 (EConst Cz2)))) + #2 * EVar vMt * EVar vs2t * EPow P2
   (EVar vSbeta) * (EVar vMst2 * EVar vs2t * (EVar vMuSUSY * EVar vs2t * (#958451 * EConst Cz3 + #16612 * EConst Cz4 +
   #1590 * EPow P2 (EConst Cz2)) + #9 * EVar vMt * EVar vTbeta * (- #9125 * EConst Cz3 + #1592 * EConst Cz4 + #2388 *
   EPow P2 (EConst Cz2))) + EVar vMt * (#3 * EVar vMuSUSY * EVar vs2t * (#629162 * EConst Cz3 + #17194 * EConst Cz4 -
   #84045 * EPow P2 (EConst Cz2)) + #4 * EVar vMt * EVar vTbeta * (- #68146 * EConst Cz3 + #8614 * EConst Cz4 + #12921
   * EPow P2 (EConst Cz2)))) * EPow P3 (EVar vMst2) + #8 * EVar vMst2 * EVar vMuSUSY * (- #2 * EVar vMt * EPow P2
   (EVar vSbeta) * (- #118001 * EConst Cz3 + #6920 * EConst Cz4 + #6492 * EPow P2 (EConst Cz2)) - EVar vMuSUSY * EVar
   vs2t * EVar vTbeta * (- #1 + EPow P2 (EVar vSbeta)) * (- #699292 * EConst Cz3 - #12344 * EConst Cz4 + #88647 * EPow
   P2 (EConst Cz2))) * EPow P3 (EVar vMt) + EVar vTbeta * (- #288 * EPow P2 (EVar vMuSUSY) * (- #1 + EPow P2 (EVar
   vSbeta)) * (#250 * EConst Cz3 - #94 * EConst Cz4 + #21 * EPow P2 (EConst Cz2)) * EPow P4 (EVar vMt) + EPow P2 (EVar
   vSbeta) * (- #8 * EVar vMt * (- #35065 * EConst Cz3 + #2425 * EConst Cz4 + #2301 * EPow P2 (EConst Cz2)) + EVar
   vMst2 * EVar vs2t * (- #139555 * EConst Cz3 + #5026 * EConst Cz4 + #5352 * EPow P2 (EConst Cz2))) * EPow P3 (EVar
   vs2t) * EPow P5 (EVar vMst2))) + #9 * EPow P2 (EVar vMst2) * (- #4 * EPow P2 (EVar vMst2) * EPow P2 (EVar vMt) * (-
   (EVar vTbeta * EPow P2 (EVar vMuSUSY) * EPow P2 (EVar vs2t) * (- #1 + EPow P2 (EVar vSbeta)) * (#226447 * EConst
   Cz3 + #8888 * EConst Cz4 + #4098 * EPow P2 (EConst Cz2))) + #2 * EVar vMt * EPow P2 (EVar vSbeta) * (#9 * EVar
   vMuSUSY * EVar vs2t * (#19703 * EConst Cz3 - #376 * EConst Cz4 + #84 * EPow P2 (EConst Cz2)) + EVar vMt * EVar
   vTbeta * (- #225923 * EConst Cz3 + #728 * EConst Cz4 + #1092 * EPow P2 (EConst Cz2)))) + #4 * EVar vMt * EVar vs2t
   * EPow P2 (EVar vSbeta) * (EVar vMt * (EVar vMuSUSY * EVar vs2t * (#769422 * EConst Cz3 + #7494 * EConst Cz4 -
   #93249 * EPow P2 (EConst Cz2)) + #4 * EVar vMt * EVar vTbeta * (- #55952 * EConst Cz3 + #1742 * EConst Cz4 + #21 *
   EPow P2 (EConst Cz2))) + EVar vMst2 * EVar vs2t * (#9 * EVar vMt * EVar vTbeta * (#19703 * EConst Cz3 - #376 *
   EConst Cz4 + #84 * EPow P2 (EConst Cz2)) + EVar vMuSUSY * EVar vs2t * (#226447 * EConst Cz3 + #8888 * EConst Cz4 +
   #4098 * EPow P2 (EConst Cz2)))) * EPow P3 (EVar vMst2) + #8 * EVar vMst2 * EVar vMuSUSY * (- #2 * EVar vMt * EPow
   P2 (EVar vSbeta) * (- #55952 * EConst Cz3 + #1742 * EConst Cz4 + #21 * EPow P2 (EConst Cz2)) - EVar vMuSUSY * EVar
   vs2t * EVar vTbeta * (- #1 + EPow P2 (EVar vSbeta)) * (- #256474 * EConst Cz3 - #2498 * EConst Cz4 + #31083 * EPow
   P2 (EConst Cz2))) * EPow P3 (EVar vMt) + EVar vTbeta * (- #192 * (#1990 * EConst Cz3 - #81 * EConst Cz4) * EPow P2
   (EVar vMuSUSY) * (- #1 + EPow P2 (EVar vSbeta)) * EPow P4 (EVar vMt) + EPow P2 (EVar vSbeta) * (- (EVar vMst2 *
   EVar vs2t * (#226447 * EConst Cz3 + #8888 * EConst Cz4 + #4098 * EPow P2 (EConst Cz2))) + #4 * EVar vMt * (-
   #256474 * EConst Cz3 - #2498 * EConst Cz4 + #31083 * EPow P2 (EConst Cz2))) * EPow P3 (EVar vs2t) * EPow P5 (EVar
   vMst2))))) + #3 * EPow P2 (EVar vMgl) * (#6 * EVar vMst2 * EPow P2 (EVar vMst1) * (EPow P2 (EVar vMt) * (- #4 *
   EPow P2 (EVar vMst2) * (#2 * EVar vTbeta * EPow P2 (EVar vMt) * EPow P2 (EVar vSbeta) * (#69050 * EConst Cz3 + #418
   * EConst Cz4 + #627 * EPow P2 (EConst Cz2)) - EVar vTbeta * EPow P2 (EVar vMuSUSY) * EPow P2 (EVar vs2t) * (- #1 +
   EPow P2 (EVar vSbeta)) * ((- #56978 - #216 * EVar vlmMst1 + #216 * EVar vlmMst2) * EConst Cz3 + #1136 * EConst Cz4
   + #813 * EPow P2 (EConst Cz2)) + EVar vMt * EVar vMuSUSY * EVar vs2t * EPow P2 (EVar vSbeta) * (#7078 * EConst Cz3
   + #2990 * EConst Cz4 + #4485 * EPow P2 (EConst Cz2))) - #2 * EVar vs2t * EPow P2 (EVar vSbeta) * (#3 * EVar vMuSUSY
   * EVar vs2t * (#14114 * EConst Cz3 + #3010 * EConst Cz4 - #4557 * EPow P2 (EConst Cz2)) + #4 * EVar vMt * EVar
   vTbeta * (- #48454 * EConst Cz3 + #754 * EConst Cz4 + #1131 * EPow P2 (EConst Cz2))) * EPow P3 (EVar vMst2)) - #16
   * EVar vMst2 * EVar vMuSUSY * (- #4 * EVar vMt * EPow P2 (EVar vSbeta) * (- #8219 * EConst Cz3 + #326 * EConst Cz4
   + #165 * EPow P2 (EConst Cz2)) - EVar vMuSUSY * EVar vs2t * EVar vTbeta * (- #1 + EPow P2 (EVar vSbeta)) * (-
   #11396 * EConst Cz3 - #1135 * EConst Cz4 + #2388 * EPow P2 (EConst Cz2))) * EPow P3 (EVar vMt) + #4 * EVar vMt *
   EPow P2 (EVar vs2t) * EPow P2 (EVar vSbeta) * (#4 * EVar vMt * EVar vTbeta * ((- #940 + #54 * EVar vlmMst1 - #54 *
   EVar vlmMst2) * EConst Cz3 + #214 * EConst Cz4 + #483 * EPow P2 (EConst Cz2)) + EVar vMuSUSY * EVar vs2t * ((-
   #39761 - #108 * EVar vlmMst1 + #108 * EVar vlmMst2) * EConst Cz3 + #1046 * EConst Cz4 + #1245 * EPow P2 (EConst
   Cz2))) * EPow P4 (EVar vMst2) + EVar vTbeta * (- #144 * EPow P2 (EVar vMuSUSY) * (- #1 + EPow P2 (EVar vSbeta)) *
   (#218 * EConst Cz3 + #50 * EConst Cz4 + #21 * EPow P2 (EConst Cz2)) * EPow P4 (EVar vMt) + EPow P2 (EVar vSbeta) *
   (EVar vMst2 * EVar vs2t * (#22544 * EConst Cz3 - #956 * EConst Cz4 - #1677 * EPow P2 (EConst Cz2)) + #4 * EVar vMt
   * (- #8678 * EConst Cz3 + #740 * EConst Cz4 + #219 * EPow P2 (EConst Cz2))) * EPow P3 (EVar vs2t) * EPow P5 (EVar
   vMst2))) - EPow P4 (EVar vMst1) * (- #4 * EVar vMst2 * EPow P2 (EVar vMt) * EPow P2 (EVar vs2t) * (EVar vTbeta *
   EPow P2 (EVar vMuSUSY) * (- #1 + EPow P2 (EVar vSbeta)) * (- #8 * (#76813 + #162 * EVar vlmMst1 - #162 * EVar
   vlmMst2) * EConst Cz3 + #15686 * EConst Cz4 + #18183 * EPow P2 (EConst Cz2)) + EVar vMst2 * EPow P2 (EVar vSbeta) *
   (#6 * EVar vMuSUSY * (#1144 * EConst Cz3 - #4954 * EConst Cz4 + #6177 * EPow P2 (EConst Cz2)) + EVar vMst2 * EVar
   vTbeta * (- #66166 * EConst Cz3 + #13834 * EConst Cz4 + #20751 * EPow P2 (EConst Cz2)))) + #16 * EVar vs2t * (#4 *
   EVar vTbeta * EPow P2 (EVar vMst2) * EPow P2 (EVar vSbeta) * (- #57758 * EConst Cz3 + #1370 * EConst Cz4 + #2055 *
   EPow P2 (EConst Cz2)) + EVar vMst2 * EVar vMuSUSY * EPow P2 (EVar vSbeta) * (- #22466 * EConst Cz3 + #11402 *
   EConst Cz4 + #17103 * EPow P2 (EConst Cz2)) - EVar vTbeta * EPow P2 (EVar vMuSUSY) * (- #1 + EPow P2 (EVar vSbeta))
   * (- #67232 * EConst Cz3 - #11764 * EConst Cz4 + #20505 * EPow P2 (EConst Cz2))) * EPow P3 (EVar vMt) + EPow P2
   (EVar vSbeta) * (- #4 * EVar vMt * (EVar vMst2 * EVar vTbeta * (- #44630 * EConst Cz3 + #878 * EConst Cz4 + #1317 *
   EPow P2 (EConst Cz2)) + EVar vMuSUSY * (- #272636 * EConst Cz3 + #8870 * EConst Cz4 + #13305 * EPow P2 (EConst
   Cz2))) * EPow P3 (EVar vMst2) * EPow P3 (EVar vs2t) + #64 * (EVar vMuSUSY * (#107072 * EConst Cz3 - #3326 * EConst
   Cz4 - #3045 * EPow P2 (EConst Cz2)) + #4 * EVar vMst2 * EVar vTbeta * (#24241 * EConst Cz3 + #146 * EConst Cz4 +
   #219 * EPow P2 (EConst Cz2))) * EPow P4 (EVar vMt) + EVar vTbeta * ((- #34070 + #648 * EVar vlmMst1 - #648 * EVar
   vlmMst2) * EConst Cz3 + #2594 * EConst Cz4 + #5835 * EPow P2 (EConst Cz2)) * EPow P4 (EVar vs2t) * EPow P5 (EVar
   vMst2))) + #18 * EPow P3 (EVar vMst2) * (#12 * EPow P2 (EVar vMst2) * EPow P2 (EVar vMt) * (- (EVar vMt * EVar
   vMuSUSY * EVar vs2t * EPow P2 (EVar vSbeta) * ((#1622 - #48 * EVar vlmMst1 + #48 * EVar vlmMst2) * EConst Cz3 +
   #142 * EConst Cz4 + #69 * EPow P2 (EConst Cz2))) + EVar vTbeta * (- #2 * EPow P2 (EVar vMt) * EPow P2 (EVar vSbeta)
   * ((#3902 - #24 * (EVar vlmMst1 + EVar vlmMst2) + #48 * EVar vlmMt) * EConst Cz3 + #14 * EConst Cz4 + #21 * EPow P2
   (EConst Cz2)) + EPow P2 (EVar vMuSUSY) * EPow P2 (EVar vs2t) * (#1 - EPow P2 (EVar vSbeta)) * ((#1913 + #12 * EVar
   vlmMst1 - #12 * EVar vlmMst2) * EConst Cz3 - #10 * EConst Cz4 + #48 * EPow P2 (EConst Cz2)))) + #6 * EVar vs2t *
   EPow P2 (EVar vMt) * EPow P2 (EVar vSbeta) * (- #4 * EVar vMt * EVar vTbeta * (- #1922 * EConst Cz3 + #206 * EConst
   Cz4 + #21 * EPow P2 (EConst Cz2)) + #5 * EVar vMuSUSY * EVar vs2t * (- #2098 * EConst Cz3 - #102 * EConst Cz4 +
   #333 * EPow P2 (EConst Cz2))) * EPow P3 (EVar vMst2) - #4 * EVar vMst2 * EVar vMuSUSY * (- #6 * EVar vMt * EPow P2
   (EVar vSbeta) * (- #1922 * EConst Cz3 + #206 * EConst Cz4 + #21 * EPow P2 (EConst Cz2)) - #5 * EVar vMuSUSY * EVar
   vs2t * EVar vTbeta * (- #1 + EPow P2 (EVar vSbeta)) * (- #2098 * EConst Cz3 - #102 * EConst Cz4 + #333 * EPow P2
   (EConst Cz2))) * EPow P3 (EVar vMt) - #6 * EVar vMt * EPow P2 (EVar vs2t) * EPow P2 (EVar vSbeta) * (#2 * EVar
   vMuSUSY * EVar vs2t * ((#1913 + #12 * EVar vlmMst1 - #12 * EVar vlmMst2) * EConst Cz3 - #10 * EConst Cz4 + #48 *
   EPow P2 (EConst Cz2)) - EVar vMt * EVar vTbeta * ((#1622 - #48 * EVar vlmMst1 + #48 * EVar vlmMst2) * EConst Cz3 +
   #142 * EConst Cz4 + #69 * EPow P2 (EConst Cz2))) * EPow P4 (EVar vMst2) + EVar vTbeta * (- #32 * (#230 * EConst Cz3
   + #27 * EConst Cz4) * EPow P2 (EVar vMuSUSY) * (- #1 + EPow P2 (EVar vSbeta)) * EPow P4 (EVar vMt) + #10 * EVar vMt
   * EPow P2 (EVar vSbeta) * (#2098 * EConst Cz3 + #102 * EConst Cz4 - #333 * EPow P2 (EConst Cz2)) * EPow P3 (EVar
   vs2t) * EPow P5 (EVar vMst2) + #3 * EPow P2 (EVar vSbeta) * ((#1913 + #12 * EVar vlmMst1 - #12 * EVar vlmMst2) *
   EConst Cz3 - #10 * EConst Cz4 + #48 * EPow P2 (EConst Cz2)) * EPow P4 (EVar vs2t) * EPow P6 (EVar vMst2))))) /
   (#5832 * EVar vTbeta * EPow P2 (EVar vMgl) * EPow P2 (EVar vSbeta) * EPow P5 (EVar vMst2)) + #4 * EVar vAl4p * EVar
   vtwoLoopFlag * EVar vxMst * EConst Cz2 * EPow P2 (EVar vMt) * (EVar vxDmglst2 * EPow P2 (EVar vDmglst2) * (#16 *
   (#7 * EVar vMuSUSY + #15 * EVar vMst2 * EVar vTbeta) * EPow P2 (EVar vMt) * EPow P2 (EVar vSbeta) + #3 * EVar vMst2
   * EVar vMuSUSY * EPow P2 (EVar vs2t) * (- (EVar vMuSUSY * EVar vTbeta * (- #1 + EPow P2 (EVar vSbeta))) + #10 *
   EVar vMst2 * EPow P2 (EVar vSbeta)) + #2 * EVar vMt * EVar vs2t * EVar vTbeta * (#41 * EPow P2 (EVar vMuSUSY) * (-
   #1 + EPow P2 (EVar vSbeta)) - #40 * EPow P2 (EVar vMst2) * EPow P2 (EVar vSbeta))) - #2 * EVar vDmglst2 * EVar vMgl
   * (#16 * (#2 * EVar vMuSUSY + #3 * EVar vMst2 * EVar vTbeta) * EPow P2 (EVar vMt) * EPow P2 (EVar vSbeta) + EVar
   vMst2 * EVar vMuSUSY * EPow P2 (EVar vs2t) * (EVar vMuSUSY * EVar vTbeta * (- #1 + EPow P2 (EVar vSbeta)) - #6 *
   EVar vMst2 * EPow P2 (EVar vSbeta)) + EVar vMt * EVar vs2t * EVar vTbeta * (- #17 * EPow P2 (EVar vMuSUSY) * (- #1
   + EPow P2 (EVar vSbeta)) - #20 * EPow P2 (EVar vMst2) * EPow P2 (EVar vSbeta))) + #2 * EVar vMt * EPow P2 (EVar
   vMgl) * (#8 * EVar vMt * (#2 * EVar vMuSUSY + EVar vMst2 * EVar vTbeta) * EPow P2 (EVar vSbeta) + EVar vs2t * EVar
   vTbeta * (EPow P2 (EVar vMuSUSY) * (- #1 + EPow P2 (EVar vSbeta)) - #4 * EPow P2 (EVar vMst2) * EPow P2 (EVar
   vSbeta)))) * EPow P6 (EVar vMst1) / (#3 * EVar vTbeta * EPow P2 (EVar vMgl) * EPow P2 (EVar vSbeta) * EPow P7 (EVar
   vMst2)) - EVar vxMst * (EVar vMgl * EVar vMst2 * EVar vTbeta * (- #27 * (EVar vlmMst1 - EVar vlmMst2) * EVar vMgl *
   EVar voneLoopFlag * EPow P2 (EVar vMt) * EPow P2 (EVar vMuSUSY) * EPow P2 (EVar vs2t) * (- #1 + EPow P2 (EVar
   vSbeta)) - #32 * EVar vAl4p * EVar vtwoLoopFlag * (- (EVar vMgl * (#65 - #159 * EVar vlmMst2 + #6 * EVar vlmMst1 *
   (#25 + #6 * EVar vlmMst2 - #6 * EVar vlmMt) + #9 * EVar vlmMt + #36 * EVar vlmMst2 * EVar vlmMt - #36 * EPow P2
   (EVar vlmMst2))) + #18 * EVar vDmglst2 * (#4 - #61 * EVar vlmMst2 + #6 * EVar vlmMst1 * (#9 + #2 * EVar vlmMst2 -
   #2 * EVar vlmMt) + #7 * EVar vlmMt + #12 * EVar vlmMst2 * EVar vlmMt - #12 * EPow P2 (EVar vlmMst2))) * EPow P2
   (EVar vSbeta) * EPow P4 (EVar vMt)) - EVar vAl4p * EVar vtwoLoopFlag * (#144 * (EVar vlmMst1 - EVar vlmMst2) * EVar
   vMst2 * EVar vTbeta * EVar vxDR2DRMOD * (#2 * EVar vDmglst2 * EVar vlmMst2 * EVar vMgl + (- #2 + #3 * EVar vlmMst2)
   * EVar vxDmglst2 * EPow P2 (EVar vDmglst2) + (#1 + EVar vlmMst2) * EPow P2 (EVar vMgl)) * EPow P2 (EVar vMt) * EPow
   P2 (EVar vMuSUSY) * EPow P2 (EVar vs2t) * (#1 - EPow P2 (EVar vSbeta)) + EVar vMgl * (#8 * EVar vs2t * EVar vTbeta
   * (EVar vDmglst2 * EVar vMst2 * EVar vs2t * (- #49 + #84 * EVar vlmMst2 - #12 * EVar vlmMst1 * (#7 + #3 * EVar
   vlmMst2) + #36 * EPow P2 (EVar vlmMst2)) + EVar vMgl * EVar vMst2 * EVar vs2t * (- #1 + #111 * EVar vlmMst2 - #3 *
   EVar vlmMst1 * (#37 + #72 * EVar vlmMst2) + #81 * EPow P2 (EVar vlmMst1) + #135 * EPow P2 (EVar vlmMst2)) + EVar
   vDmglst2 * EVar vMt * (#785 - #438 * EVar vlmMst2 - #6 * EVar vlmMst1 * (- #85 + #42 * EVar vlmMst2) + #252 * EPow
   P2 (EVar vlmMst2)) + EVar vMgl * EVar vMt * (#193 + #474 * EVar vlmMst2 - #6 * EVar vlmMst1 * (#67 + #42 * EVar
   vlmMst2) + #252 * EPow P2 (EVar vlmMst2))) * EPow P2 (EVar vMt) * EPow P2 (EVar vMuSUSY) + #8 * EVar vMst2 * EVar
   vTbeta * EPow P2 (EVar vMt) * (EVar vMgl * (#1 - #111 * EVar vlmMst2 + #3 * EVar vlmMst1 * (#37 + #72 * EVar
   vlmMst2) - #81 * EPow P2 (EVar vlmMst1) - #135 * EPow P2 (EVar vlmMst2)) * EPow P2 (EVar vMuSUSY) - EVar vDmglst2 *
   (#36 * (EVar vlmMst1 - EVar vlmMst2) * EPow P2 (EVar vMst2) + (- #49 + #84 * EVar vlmMst2 - #12 * EVar vlmMst1 *
   (#7 + #3 * EVar vlmMst2) + #36 * EPow P2 (EVar vlmMst2)) * EPow P2 (EVar vMuSUSY))) * EPow P2 (EVar vs2t) * EPow P2
   (EVar vSbeta) - #8 * EVar vs2t * EVar vTbeta * ((#4 * EVar vDmglst2 * (#95 - #447 * EVar vlmMst2 + EVar vlmMst1 *
   (#411 + #90 * EVar vlmMst2 - #90 * EVar vlmMt) + #36 * EVar vlmMt + #90 * EVar vlmMst2 * EVar vlmMt - #90 * EPow P2
   (EVar vlmMst2)) - #4 * EVar vMgl * (#49 - #75 * EVar vlmMst2 + #3 * EVar vlmMst1 * (#25 + #6 * EVar vlmMst2 - #6 *
   EVar vlmMt) + #18 * EVar vlmMst2 * EVar vlmMt - #18 * EPow P2 (EVar vlmMst2))) * EPow P2 (EVar vMst2) + (EVar
   vDmglst2 * (#785 + #6 * EVar vlmMst1 * (#85 - #42 * EVar vlmMst2) - #438 * EVar vlmMst2 + #252 * EPow P2 (EVar
   vlmMst2)) + EVar vMgl * (#193 + #474 * EVar vlmMst2 - #6 * EVar vlmMst1 * (#67 + #42 * EVar vlmMst2) + #252 * EPow
   P2 (EVar vlmMst2))) * EPow P2 (EVar vMuSUSY)) * EPow P2 (EVar vSbeta) * EPow P3 (EVar vMt) + #2 * EVar vMt * EVar
   vMuSUSY * EPow P2 (EVar vSbeta) * (#8 * EVar vDmglst2 * (#36 * (- #1 + #3 * EVar vlmMst1 - #3 * EVar vlmMst2) *
   EVar vMst2 * EVar vs2t * EPow P2 (EVar vMt) - #3 * EVar vMt * (#50 + EVar vlmMst1 * (#51 - #18 * EVar vlmMst2) -
   #51 * EVar vlmMst2 + #18 * EPow P2 (EVar vlmMst2)) * EPow P2 (EVar vMst2) * EPow P2 (EVar vs2t) + #4 * (#7 - #381 *
   EVar vlmMst2 + EVar vlmMst1 * (#327 + #72 * EVar vlmMst2 - #81 * EVar vlmMt) + #54 * EVar vlmMt + #81 * EVar
   vlmMst2 * EVar vlmMt - #72 * EPow P2 (EVar vlmMst2)) * EPow P3 (EVar vMt) + #2 * (#1 + #3 * EVar vlmMst1 - #3 *
   EVar vlmMst2) * EPow P3 (EVar vMst2) * EPow P3 (EVar vs2t)) - EVar vMgl * (- #144 * EVar vMst2 * EVar vs2t * (-
   EVar vlmMst1 + EVar vlmMst2 - #2 * EVar vlmMst1 * EVar vlmMst2 + EPow P2 (EVar vlmMst1) + EPow P2 (EVar vlmMst2)) *
   EPow P2 (EVar vMt) + #24 * EVar vMt * (#1 + #33 * EVar vlmMst2 - #3 * EVar vlmMst1 * (#11 + #6 * EVar vlmMst2) +
   #18 * EPow P2 (EVar vlmMst2)) * EPow P2 (EVar vMst2) * EPow P2 (EVar vs2t) + #32 * (#83 - #96 * EVar vlmMst2 + #3 *
   EVar vlmMst1 * (#29 + #12 * EVar vlmMst2 - #9 * EVar vlmMt) + #9 * EVar vlmMt + #27 * EVar vlmMst2 * EVar vlmMt -
   #36 * EPow P2 (EVar vlmMst2)) * EPow P3 (EVar vMt) + (#5 + EVar vlmMst1 * (#6 - #288 * EVar vlmMst2) - #6 * EVar
   vlmMst2 + #144 * EPow P2 (EVar vlmMst1) + #144 * EPow P2 (EVar vlmMst2)) * EPow P3 (EVar vMst2) * EPow P3 (EVar
   vs2t))) + #4 * (EVar vDmglst2 * (#11 + #42 * EVar vlmMst1 - #42 * EVar vlmMst2) + (- #5 - #6 * EVar vlmMst1 + #6 *
   EVar vlmMst2) * EVar vMgl) * EVar vMt * EVar vTbeta * EPow P2 (EVar vSbeta) * EPow P3 (EVar vs2t) * EPow P4 (EVar
   vMst2) + (#2 * EVar vDmglst2 * (#5 + #6 * EVar vlmMst1 - #6 * EVar vlmMst2) + (- #11 - #6 * EVar vlmMst1 + #6 *
   EVar vlmMst2) * EVar vMgl) * EVar vTbeta * EPow P2 (EVar vSbeta) * EPow P4 (EVar vs2t) * EPow P5 (EVar vMst2)) +
   EVar vxDmglst2 * EPow P2 (EVar vDmglst2) * (- #12 * EVar vMst2 * EPow P2 (EVar vMt) * EPow P2 (EVar vs2t) * (EVar
   vTbeta * (- #85 + EVar vlmMst1 * (#60 - #36 * EVar vlmMst2) - #60 * EVar vlmMst2 + #36 * EPow P2 (EVar vlmMst2)) *
   EPow P2 (EVar vMuSUSY) * (- #1 + EPow P2 (EVar vSbeta)) + #2 * EVar vMst2 * (#6 * (#4 - #9 * EVar vlmMst1 + #9 *
   EVar vlmMst2) * EVar vMst2 * EVar vTbeta + EVar vMuSUSY * (#355 + #6 * EVar vlmMst2 - #6 * EVar vlmMst1 * (#1 + #6
   * EVar vlmMst2) + #36 * EPow P2 (EVar vlmMst2))) * EPow P2 (EVar vSbeta)) + #8 * EVar vs2t * (EVar vTbeta * (#2501
   + #42 * EVar vlmMst1 * (#7 - #6 * EVar vlmMst2) - #222 * EVar vlmMst2 + #252 * EPow P2 (EVar vlmMst2)) * EPow P2
   (EVar vMuSUSY) * (#1 - EPow P2 (EVar vSbeta)) + #4 * EVar vMst2 * ((#99 - #135 * EVar vlmMst1 + #135 * EVar
   vlmMst2) * EVar vMuSUSY + EVar vMst2 * EVar vTbeta * (- #257 + #12 * EVar vlmMst1 * (#76 + #15 * EVar vlmMst2 - #15
   * EVar vlmMt) + #162 * EVar vlmMt + #6 * EVar vlmMst2 * (- #179 + #30 * EVar vlmMt) - #180 * EPow P2 (EVar
   vlmMst2))) * EPow P2 (EVar vSbeta)) * EPow P3 (EVar vMt) + EPow P2 (EVar vSbeta) * (#4 * EVar vMt * (#12 * (#1 - #6
   * EVar vlmMst1 + #6 * EVar vlmMst2) * EVar vMuSUSY + (#35 - #102 * EVar vlmMst1 + #102 * EVar vlmMst2) * EVar vMst2
   * EVar vTbeta) * EPow P3 (EVar vMst2) * EPow P3 (EVar vs2t) + #32 * (#9 * EVar vMst2 * EVar vTbeta * (#102 + EVar
   vlmMst2 * (#353 - #60 * EVar vlmMt) - #6 * EVar vlmMst1 * (#49 + #10 * EVar vlmMst2 - #10 * EVar vlmMt) - #59 *
   EVar vlmMt + #60 * EPow P2 (EVar vlmMst2)) + EVar vMuSUSY * (#412 - #6 * EVar vlmMst1 * (#176 + #42 * EVar vlmMst2
   - #39 * EVar vlmMt) + #9 * EVar vlmMst2 * (#147 - #26 * EVar vlmMt) - #267 * EVar vlmMt + #252 * EPow P2 (EVar
   vlmMst2))) * EPow P4 (EVar vMt) + #3 * (#5 + #6 * EVar vlmMst1 - #6 * EVar vlmMst2) * EVar vTbeta * EPow P4 (EVar
   vs2t) * EPow P5 (EVar vMst2))))) * EPow P6 (EVar vMst1) / (#108 * EVar vTbeta * EPow P2 (EVar vMgl) * EPow P2 (EVar
   vSbeta) * EPow P7 (EVar vMst2)) - EVar vAl4p * EVar vtwoLoopFlag * (- #72 * EVar vMt * EPow P3 (EVar vs2t) * (-
   (EVar vMgl * (#4 * (#3 + EVar vlmMst1 * (#2 + EVar vlmMst2) - EPow P2 (EVar vlmMst2)) * EPow P2 (EVar vMst1) * EPow
   P2 (EVar vMst2) + (#3 + #2 * EVar vlmMst1 - #2 * EVar vlmMst2) * EPow P4 (EVar vMst1) + #4 * (- #4 + EVar vlmMst1 -
   #3 * EVar vlmMst2 + EVar vlmMst1 * EVar vlmMst2 - EPow P2 (EVar vlmMst2)) * EPow P4 (EVar vMst2))) + EVar vDmglst2
   * (- #4 * (#1 + EVar vlmMst1 * (- #2 + EVar vlmMst2) + #4 * EVar vlmMst2 - EPow P2 (EVar vlmMst2)) * EPow P2 (EVar
   vMst1) * EPow P2 (EVar vMst2) + (#1 + #6 * EVar vlmMst1 - #6 * EVar vlmMst2) * EPow P4 (EVar vMst1) + #4 * (#6 +
   EVar vlmMst1 + EVar vlmMst2 - EVar vlmMst1 * EVar vlmMst2 + EPow P2 (EVar vlmMst2)) * EPow P4 (EVar vMst2))) / EVar
   vMst2 + #32 * EPow P4 (EVar vMt) * (#2 * EVar vDmglst2 * ((#53 - #18 * EVar vlmMst1 + #24 * EVar vlmMst2 - #24 *
   EVar vlmMt) * EPow P2 (EVar vMst1) * EPow P4 (EVar vMst2) + #18 * ((#5 + EVar vlmMst2 * (#11 - #2 * EVar vlmMt) -
   #2 * EVar vlmMst1 * (#4 + EVar vlmMst2 - EVar vlmMt) - #3 * EVar vlmMt + #2 * EPow P2 (EVar vlmMst2)) * EPow P2
   (EVar vMst2) * EPow P4 (EVar vMst1) + (#3 - #6 * EVar vlmMst2 * (- #5 + EVar vlmMt) - #5 * EVar vlmMt + EVar
   vlmMst1 * (- #25 - #6 * EVar vlmMst2 + #6 * EVar vlmMt) + #6 * EPow P2 (EVar vlmMst2)) * EPow P6 (EVar vMst1)) -
   #18 * EVar vlmMst2 * EPow P6 (EVar vMst2)) + #9 * EVar vMgl * (#2 * (#2 + #2 * EVar vlmMst1 * (#3 + EVar vlmMst2 -
   EVar vlmMt) + EVar vlmMt + EVar vlmMst2 * (- #7 + #2 * EVar vlmMt) - #2 * EPow P2 (EVar vlmMst2)) * EPow P2 (EVar
   vMst2) * EPow P4 (EVar vMst1) + (#3 + #2 * EVar vlmMst1 * (#3 + EVar vlmMst2) + EVar vlmMt + EVar vlmMst2 * (- #5 +
   #4 * EVar vlmMt) + EPow P2 (EVar vlmMst1) - EPow P2 (EVar vlmMst2) - #6 * EPow P2 (EVar vlmMt)) * EPow P2 (EVar
   vMst1) * EPow P4 (EVar vMst2) + (#9 + EVar vlmMst1 * (#22 + #6 * EVar vlmMst2 - #6 * EVar vlmMt) + #6 * EVar
   vlmMst2 * (- #4 + EVar vlmMt) + #2 * EVar vlmMt - #6 * EPow P2 (EVar vlmMst2)) * EPow P6 (EVar vMst1) - #2 * (#1 +
   EVar vlmMst2) * EPow P6 (EVar vMst2))) / (EPow P2 (EVar vMst1) * EPow P4 (EVar vMst2)) - #144 * EVar vs2t * EPow P3
   (EVar vMt) * (EVar vDmglst2 * (#4 * EPow P2 (EVar vMst1) * EPow P2 (EVar vMst2) * ((#6 + #13 * EVar vlmMst2 - #4 *
   EVar vlmMt - #2 * EVar vlmMst2 * EVar vlmMt + EVar vlmMst1 * (- #9 - #2 * EVar vlmMst2 + #2 * EVar vlmMt) + #2 *
   EPow P2 (EVar vlmMst2)) * EPow P2 (EVar vMst2) + (- #11 + #2 * EVar vlmMst2 + EVar vlmMst1 * (- #4 + #3 * EVar
   vlmMst2) - #3 * EPow P2 (EVar vlmMst2)) * EPow P2 (EVar vMuSUSY)) - (#4 * (#1 - #29 * EVar vlmMst2 + EVar vlmMst1 *
   (#25 + #6 * EVar vlmMst2 - #6 * EVar vlmMt) + #4 * EVar vlmMt + #6 * EVar vlmMst2 * EVar vlmMt - #6 * EPow P2 (EVar
   vlmMst2)) * EPow P2 (EVar vMst2) + (#65 + EVar vlmMst1 * (#34 - #20 * EVar vlmMst2) - #26 * EVar vlmMst2 + #20 *
   EPow P2 (EVar vlmMst2)) * EPow P2 (EVar vMuSUSY)) * EPow P4 (EVar vMst1) - #4 * (#6 + EVar vlmMst1 + EVar vlmMst2 -
   EVar vlmMst1 * EVar vlmMst2 + EPow P2 (EVar vlmMst2)) * EPow P2 (EVar vMuSUSY) * EPow P4 (EVar vMst2) + #8 * (#5 +
   EVar vlmMst1 * (- #1 + EVar vlmMst2) + EVar vlmMst2 - EPow P2 (EVar vlmMst2)) * EPow P6 (EVar vMst2)) + EVar vMgl *
   ((#4 * (#5 - #7 * EVar vlmMst2 + EVar vlmMst1 * (#7 + #2 * EVar vlmMst2 - #2 * EVar vlmMt) + #2 * EVar vlmMst2 *
   EVar vlmMt - #2 * EPow P2 (EVar vlmMst2)) * EPow P2 (EVar vMst2) + (- #21 - #38 * EVar vlmMst2 + #10 * EVar vlmMst1
   * (#3 + #2 * EVar vlmMst2) - #20 * EPow P2 (EVar vlmMst2)) * EPow P2 (EVar vMuSUSY)) * EPow P4 (EVar vMst1) + #4 *
   ((- #4 + EVar vlmMst1 - #3 * EVar vlmMst2 + EVar vlmMst1 * EVar vlmMst2 - EPow P2 (EVar vlmMst2)) * EPow P2 (EVar
   vMuSUSY) * EPow P4 (EVar vMst2) + EPow P2 (EVar vMst1) * ((- #5 - #6 * EVar vlmMst2 + EVar vlmMst1 * (#4 + #3 *
   EVar vlmMst2) - #3 * EPow P2 (EVar vlmMst2)) * EPow P2 (EVar vMst2) * EPow P2 (EVar vMuSUSY) + (#4 - #5 * EVar
   vlmMst2 + EVar vlmMst1 * (#5 + #2 * EVar vlmMst2 - #2 * EVar vlmMt) + #2 * EVar vlmMst2 * EVar vlmMt - #2 * EPow P2
   (EVar vlmMst2)) * EPow P4 (EVar vMst2)) + (#3 - #4 * EVar vlmMst2 + #2 * (EVar vlmMst1 + EVar vlmMst1 * EVar
   vlmMst2 + EVar vlmMt) - #2 * EPow P2 (EVar vlmMst2)) * EPow P6 (EVar vMst2)))) / EPow P5 (EVar vMst2) + #36 * EVar
   vMt * EVar vMuSUSY * (#16 * EPow P3 (EVar vMt) * (EVar vMgl * (#13 + #2 * EVar vlmMst1 * (#6 + #3 * EVar vlmMst2 -
   #2 * EVar vlmMt) + #2 * EVar vlmMt + #2 * EVar vlmMst2 * (- #7 + #2 * EVar vlmMt) - #6 * EPow P2 (EVar vlmMst2)) *
   EPow P4 (EVar vMst1) + EVar vDmglst2 * (#11 - #6 * EVar vlmMst1 * EVar vlmMst2 - #8 * EVar vlmMst2 * (- #5 + EVar
   vlmMt) + #8 * EVar vlmMst1 * (- #4 + EVar vlmMt) - #8 * EVar vlmMt + #6 * EPow P2 (EVar vlmMst2)) * EPow P4 (EVar
   vMst1) + #2 * EVar vDmglst2 * ((#7 + #7 * EVar vlmMst2 + EVar vlmMst1 * (- #5 + EVar vlmMt) - #2 * EVar vlmMt -
   EVar vlmMst2 * EVar vlmMt) * EPow P2 (EVar vMst1) * EPow P2 (EVar vMst2) + (#5 + EVar vlmMst1 * (- #1 + EVar
   vlmMst2) + EVar vlmMst2 - EPow P2 (EVar vlmMst2)) * EPow P4 (EVar vMst2)) + #2 * EVar vMgl * ((#4 + EVar vlmMst1 *
   (#3 + #2 * EVar vlmMst2 - EVar vlmMt) + EVar vlmMst2 * (- #4 + EVar vlmMt) + EVar vlmMt - #2 * EPow P2 (EVar
   vlmMst2)) * EPow P2 (EVar vMst1) * EPow P2 (EVar vMst2) + (#2 + EVar vlmMst1 + (- #2 + EVar vlmMst1) * EVar vlmMst2
   + EVar vlmMt - EPow P2 (EVar vlmMst2)) * EPow P4 (EVar vMst2))) + #6 * EVar vMt * EPow P2 (EVar vMst2) * EPow P2
   (EVar vs2t) * (EVar vDmglst2 * (#4 * (#5 + EVar vlmMst1 * (#3 - #2 * EVar vlmMst2) - #3 * EVar vlmMst2 + #2 * EPow
   P2 (EVar vlmMst2)) * EPow P2 (EVar vMst1) * EPow P2 (EVar vMst2) + (#21 + EVar vlmMst1 * (#18 - #8 * EVar vlmMst2)
   - #18 * EVar vlmMst2 + #8 * EPow P2 (EVar vlmMst2)) * EPow P4 (EVar vMst1) + #4 * (#6 + EVar vlmMst1 + EVar vlmMst2
   - EVar vlmMst1 * EVar vlmMst2 + EPow P2 (EVar vlmMst2)) * EPow P4 (EVar vMst2)) + EVar vMgl * (#4 * (#1 + #3 * EVar
   vlmMst2 - EVar vlmMst1 * (#3 + #2 * EVar vlmMst2) + #2 * EPow P2 (EVar vlmMst2)) * EPow P2 (EVar vMst1) * EPow P2
   (EVar vMst2) + (#1 + #14 * EVar vlmMst2 - #2 * EVar vlmMst1 * (#7 + #4 * EVar vlmMst2) + #8 * EPow P2 (EVar
   vlmMst2)) * EPow P4 (EVar vMst1) + #4 * (#4 + #3 * EVar vlmMst2 - EVar vlmMst1 * (#1 + EVar vlmMst2) + EPow P2
   (EVar vlmMst2)) * EPow P4 (EVar vMst2))) + EPow P3 (EVar vMst2) * EPow P3 (EVar vs2t) * (- #4 * EVar vDmglst2 * (#2
   * (#1 + #2 * EVar vlmMst1 - EVar vlmMst2) * EPow P2 (EVar vMst2) * EPow P4 (EVar vMst1) + #2 * (#1 + EVar vlmMst1 -
   EVar vlmMst2 + #2 * EVar vlmMst1 * EVar vlmMst2 - #2 * EPow P2 (EVar vlmMst2)) * EPow P2 (EVar vMst1) * EPow P4
   (EVar vMst2) + (#1 + #2 * EVar vlmMst1 - #2 * EVar vlmMst2) * EPow P6 (EVar vMst1) - #2 * EVar vlmMst2 * EPow P6
   (EVar vMst2)) + EVar vMgl * (#2 * (- #16 + #6 * EVar vlmMst2 - #2 * EVar vlmMst1 * (#8 + #5 * EVar vlmMst2) + #3 *
   EPow P2 (EVar vlmMst1) + #7 * EPow P2 (EVar vlmMst2)) * EPow P2 (EVar vMst2) * EPow P4 (EVar vMst1) - #2 * (- #12 -
   #18 * EVar vlmMst2 + #2 * EVar vlmMst1 * (#5 + #3 * EVar vlmMst2) + EPow P2 (EVar vlmMst1) - #7 * EPow P2 (EVar
   vlmMst2)) * EPow P2 (EVar vMst1) * EPow P4 (EVar vMst2) + (#3 + EVar vlmMst1 * (#2 - #32 * EVar vlmMst2) - #2 *
   EVar vlmMst2 + #16 * EPow P2 (EVar vlmMst1) + #16 * EPow P2 (EVar vlmMst2)) * EPow P6 (EVar vMst1) + #4 * (#1 +
   EVar vlmMst2) * EPow P6 (EVar vMst2))) / EPow P2 (EVar vMst1) + #8 * EVar vMst2 * EVar vs2t * EPow P2 (EVar vMt) *
   (EVar vDmglst2 * (#4 * (#1 - EVar vlmMst1 + EVar vlmMst2) * EPow P2 (EVar vMst2) * EPow P4 (EVar vMst1) + #2 * (#1
   + #2 * EVar vlmMst2) * EPow P2 (EVar vMst1) * EPow P4 (EVar vMst2) + (#4 - #8 * EVar vlmMst1 + #8 * EVar vlmMst2) *
   EPow P6 (EVar vMst1) - #4 * EVar vlmMst2 * EPow P6 (EVar vMst2)) - EVar vMgl * (- #2 * EVar vlmMst1 * ((#1 + #2 *
   EVar vlmMst2) * (EPow P2 (EVar vMst1) + EPow P2 (EVar vMst2)) * EPow P4 (EVar vMst1) + (#3 + EVar vlmMst2) * EPow
   P2 (EVar vMst1) * EPow P4 (EVar vMst2)) + EPow P2 (EVar vlmMst1) * (#2 * EPow P2 (EVar vMst2) * EPow P4 (EVar
   vMst1) - EPow P2 (EVar vMst1) * EPow P4 (EVar vMst2) + #2 * EPow P6 (EVar vMst1)) + EPow P2 (EVar vlmMst2) * (#2 *
   EPow P2 (EVar vMst2) * EPow P4 (EVar vMst1) + #3 * EPow P2 (EVar vMst1) * EPow P4 (EVar vMst2) + #2 * EPow P6 (EVar
   vMst1)) + #2 * EPow P6 (EVar vMst2) + #2 * EVar vlmMst2 * (EPow P2 (EVar vMst2) * EPow P4 (EVar vMst1) + #2 * EPow
   P2 (EVar vMst1) * EPow P4 (EVar vMst2) + EPow P6 (EVar vMst1) + EPow P6 (EVar vMst2)))) / EPow P2 (EVar vMst1)) /
   (EVar vTbeta * EPow P5 (EVar vMst2)) - #36 * EPow P2 (EVar vMt) * EPow P2 (EVar vs2t) * (#4 * (EVar vDmglst2 * (#2
   - #4 * EVar vlmMst1) + EVar vMgl * (#2 * EVar vlmMst1 * (- #2 + EVar vlmMst2) + EVar vlmMst2 * (#2 + EVar vlmMst2)
   - #3 * EPow P2 (EVar vlmMst1))) * EPow P2 (EVar vMst1) + #4 * (EVar vDmglst2 * (#2 + #8 * EVar vlmMst2) + EVar vMgl
   * (#2 - #2 * EVar vlmMst2 + #2 * EVar vlmMst1 * (#3 + EVar vlmMst2) + EPow P2 (EVar vlmMst1) - #3 * EPow P2 (EVar
   vlmMst2))) * EPow P2 (EVar vMst2) - #16 * EVar vDmglst2 * (EVar vlmMst1 - EVar vlmMst2) * EPow P4 (EVar vMst1) /
   EPow P2 (EVar vMst2) + (- #8 * (#2 * EVar vDmglst2 * EVar vlmMst2 + EVar vMgl + EVar vlmMst2 * EVar vMgl) * EPow P4
   (EVar vMst2) + EPow P2 (EVar vMuSUSY) * (#4 * EVar vDmglst2 * (#2 * (#2 - #3 * EVar vlmMst2 + EVar vlmMst1 * (#3 +
   #2 * EVar vlmMst2) - #2 * EPow P2 (EVar vlmMst2)) * EPow P2 (EVar vMst2) * EPow P4 (EVar vMst1) + #2 * (#1 + EVar
   vlmMst1 - #2 * EVar vlmMst2 + #2 * EVar vlmMst1 * EVar vlmMst2 - #2 * EPow P2 (EVar vlmMst2)) * EPow P2 (EVar
   vMst1) * EPow P4 (EVar vMst2) + (#5 - #8 * EVar vlmMst2 + #4 * EVar vlmMst1 * (#2 + EVar vlmMst2) - #4 * EPow P2
   (EVar vlmMst2)) * EPow P6 (EVar vMst1) - #2 * EVar vlmMst2 * EPow P6 (EVar vMst2)) + EVar vMgl * (- #4 * (- #1 -
   #13 * EVar vlmMst1 + #13 * EVar vlmMst2 - #8 * EVar vlmMst1 * EVar vlmMst2 + EPow P2 (EVar vlmMst1) + #7 * EPow P2
   (EVar vlmMst2)) * EPow P2 (EVar vMst2) * EPow P4 (EVar vMst1) + #2 * (- #14 + #10 * EVar vlmMst1 - #20 * EVar
   vlmMst2 + #6 * EVar vlmMst1 * EVar vlmMst2 + EPow P2 (EVar vlmMst1) - #7 * EPow P2 (EVar vlmMst2)) * EPow P2 (EVar
   vMst1) * EPow P4 (EVar vMst2) + (#1 + #50 * EVar vlmMst1 - #50 * EVar vlmMst2 + #64 * EVar vlmMst1 * EVar vlmMst2 -
   #20 * EPow P2 (EVar vlmMst1) - #44 * EPow P2 (EVar vlmMst2)) * EPow P6 (EVar vMst1) - #4 * (#1 + EVar vlmMst2) *
   EPow P6 (EVar vMst2))) / EPow P4 (EVar vMst2)) / EPow P2 (EVar vMst1)) + (- #9 * EPow P4 (EVar vs2t) * (#4 * EVar
   vDmglst2 * (- #2 * (EVar vlmMst1 - #2 * EVar vlmMst1 * EVar vlmMst2 + #2 * EPow P2 (EVar vlmMst2)) * EPow P2 (EVar
   vMst2) * EPow P4 (EVar vMst1) - #2 * (#1 + EVar vlmMst1 + #2 * EVar vlmMst1 * EVar vlmMst2 - #2 * EPow P2 (EVar
   vlmMst2)) * EPow P2 (EVar vMst1) * EPow P4 (EVar vMst2) + (#1 + #2 * EVar vlmMst1) * EPow P6 (EVar vMst1) + #2 *
   EVar vlmMst2 * EPow P6 (EVar vMst2)) + EVar vMgl * (- #4 * (#14 + #6 * EVar vlmMst2 + EVar vlmMst1 * (#3 + #2 *
   EVar vlmMst2) - #2 * EPow P2 (EVar vlmMst1)) * EPow P2 (EVar vMst2) * EPow P4 (EVar vMst1) - #2 * (- #10 - #16 *
   EVar vlmMst2 + #2 * EVar vlmMst1 * (#5 + #3 * EVar vlmMst2) + EPow P2 (EVar vlmMst1) - #7 * EPow P2 (EVar vlmMst2))
   * EPow P2 (EVar vMst1) * EPow P4 (EVar vMst2) + (#35 + EVar vlmMst1 * (#34 - #12 * EVar vlmMst2) - #14 * EVar
   vlmMst2 + #10 * EPow P2 (EVar vlmMst1) + #2 * EPow P2 (EVar vlmMst2)) * EPow P6 (EVar vMst1) + #4 * (#1 + EVar
   vlmMst2) * EPow P6 (EVar vMst2))) - #36 * EVar vs2t * EPow P2 (EVar vMt) * EPow P2 (EVar vMuSUSY) * (EVar vMgl *
   (#4 * (#4 * EVar vMt * (#5 + #6 * EVar vlmMst2 - EVar vlmMst1 * (#4 + #3 * EVar vlmMst2) + #3 * EPow P2 (EVar
   vlmMst2)) + EVar vMst2 * EVar vs2t * (- #1 + #13 * EVar vlmMst2 - EVar vlmMst1 * (#13 + #8 * EVar vlmMst2) + EPow
   P2 (EVar vlmMst1) + #7 * EPow P2 (EVar vlmMst2))) * EPow P2 (EVar vMst2) * EPow P4 (EVar vMst1) + #2 * (- (EVar
   vMst2 * EVar vs2t * (- #14 - #20 * EVar vlmMst2 + #2 * EVar vlmMst1 * (#5 + #3 * EVar vlmMst2) + EPow P2 (EVar
   vlmMst1) - #7 * EPow P2 (EVar vlmMst2))) + #8 * EVar vMt * (#4 + #3 * EVar vlmMst2 - EVar vlmMst1 * (#1 + EVar
   vlmMst2) + EPow P2 (EVar vlmMst2))) * EPow P2 (EVar vMst1) * EPow P4 (EVar vMst2) + (EVar vMst2 * EVar vs2t * (- #1
   + #50 * EVar vlmMst2 - #2 * EVar vlmMst1 * (#25 + #32 * EVar vlmMst2) + #20 * EPow P2 (EVar vlmMst1) + #44 * EPow
   P2 (EVar vlmMst2)) + EVar vMt * (#84 + #152 * EVar vlmMst2 - #40 * EVar vlmMst1 * (#3 + #2 * EVar vlmMst2) + #80 *
   EPow P2 (EVar vlmMst2))) * EPow P6 (EVar vMst1) + #4 * (#1 + EVar vlmMst2) * EVar vs2t * EPow P7 (EVar vMst2)) + #4
   * EVar vDmglst2 * ((EVar vMst2 * EVar vs2t * (- #5 + #8 * EVar vlmMst2 - #4 * EVar vlmMst1 * (#2 + EVar vlmMst2) +
   #4 * EPow P2 (EVar vlmMst2)) + EVar vMt * (#65 + EVar vlmMst1 * (#34 - #20 * EVar vlmMst2) - #26 * EVar vlmMst2 +
   #20 * EPow P2 (EVar vlmMst2))) * EPow P6 (EVar vMst1) + #2 * ((EVar vMst2 * EVar vs2t * (- #2 + #3 * EVar vlmMst2 -
   EVar vlmMst1 * (#3 + #2 * EVar vlmMst2) + #2 * EPow P2 (EVar vlmMst2)) + EVar vMt * (#22 + EVar vlmMst1 * (#8 - #6
   * EVar vlmMst2) - #4 * EVar vlmMst2 + #6 * EPow P2 (EVar vlmMst2))) * EPow P2 (EVar vMst2) * EPow P4 (EVar vMst1) +
   (- (EVar vMst2 * EVar vs2t * (#1 + EVar vlmMst1 - #2 * EVar vlmMst2 + #2 * EVar vlmMst1 * EVar vlmMst2 - #2 * EPow
   P2 (EVar vlmMst2))) + #2 * EVar vMt * (#6 + EVar vlmMst1 + EVar vlmMst2 - EVar vlmMst1 * EVar vlmMst2 + EPow P2
   (EVar vlmMst2))) * EPow P2 (EVar vMst1) * EPow P4 (EVar vMst2) + EVar vlmMst2 * EVar vs2t * EPow P7 (EVar vMst2))))
   / (EPow P2 (EVar vSbeta) * EPow P5 (EVar vMst2))) / EPow P2 (EVar vMst1)) / (#216 * EVar vMgl) + EVar
   vthreeLoopFlag * EConst Cz2 * EPow P2 (EVar vAl4p) * (- #5 * EVar vxMsq * EPow P2 (EVar vMsq) * (- (EPow P2 (EVar
   vs2t) * EPow P4 (EVar vMst1) * (#8 * (- EVar vshiftst1 + EVar vlmMst1 * (- #1 + #2 * EVar vshiftst1 - EVar
   vshiftst2) + EVar vshiftst2 + EVar vlmMst2 * (#1 - #2 * EVar vshiftst1 + EVar vshiftst2)) * EVar vTbeta * EPow P2
   (EVar vMt) * EPow P2 (EVar vMuSUSY) * (- #1 + EPow P2 (EVar vSbeta)) - #4 * EVar vMt * (- #1 + EVar vshiftst2) * (-
   (EVar vMuSUSY * EVar vs2t) + #2 * EVar vMt * EVar vTbeta) * EPow P2 (EVar vMst2) * EPow P2 (EVar vSbeta) + (#1 + #2
   * (EVar vlmMst1 - EVar vlmMst2) * (- #1 + EVar vshiftst1) + #3 * EVar vshiftst1 - #4 * EVar vshiftst2) * EVar
   vTbeta * EPow P2 (EVar vs2t) * EPow P2 (EVar vSbeta) * EPow P4 (EVar vMst2))) + (#1 - EVar vshiftst1) * EPow P4
   (EVar vMst2) * (- #4 * EVar vTbeta * EPow P2 (EVar vMt) * EPow P2 (EVar vs2t) * (EPow P2 (EVar vMuSUSY) * (- #1 +
   EPow P2 (EVar vSbeta)) + #2 * EPow P2 (EVar vMst2) * EPow P2 (EVar vSbeta)) + EPow P2 (EVar vSbeta) * (#16 * EVar
   vMuSUSY * EVar vs2t * EPow P3 (EVar vMt) - #4 * EVar vMt * EVar vMuSUSY * EPow P2 (EVar vMst2) * EPow P3 (EVar
   vs2t) + #16 * EVar vTbeta * EPow P4 (EVar vMt) + EVar vTbeta * EPow P4 (EVar vMst2) * EPow P4 (EVar vs2t))) - EPow
   P2 (EVar vMst1) * EPow P2 (EVar vMst2) * (- #4 * EVar vTbeta * EPow P2 (EVar vMt) * EPow P2 (EVar vs2t) * ((#1 + #2
   * (EVar vlmMst1 - EVar vlmMst2) * (- #1 + EVar vshiftst1) - #2 * EVar vshiftst1 + EVar vshiftst2) * EPow P2 (EVar
   vMuSUSY) * (#1 - EPow P2 (EVar vSbeta)) + #2 * (#2 + (- #1 + EVar vlmMst1 - EVar vlmMst2) * EVar vshiftst1 + (- #1
   - EVar vlmMst1 + EVar vlmMst2) * EVar vshiftst2) * EPow P2 (EVar vMst2) * EPow P2 (EVar vSbeta)) + EPow P2 (EVar
   vSbeta) * (- #16 * EVar vMuSUSY * EVar vs2t * (- #1 + EVar vshiftst2) * EPow P3 (EVar vMt) + #4 * EVar vMt * EVar
   vMuSUSY * (EVar vshiftst1 - EVar vshiftst2 + EVar vlmMst1 * (- #2 + EVar vshiftst1 + EVar vshiftst2) - EVar vlmMst2
   * (- #2 + EVar vshiftst1 + EVar vshiftst2)) * EPow P2 (EVar vMst2) * EPow P3 (EVar vs2t) + #16 * (- #1 + EVar
   vshiftst2) * EVar vTbeta * EPow P4 (EVar vMt) + (#1 - #4 * EVar vshiftst1 - #2 * (EVar vlmMst1 - EVar vlmMst2) * (-
   #1 + EVar vshiftst2) + #3 * EVar vshiftst2) * EVar vTbeta * EPow P4 (EVar vMst2) * EPow P4 (EVar vs2t))) - (- #1 +
   EVar vshiftst2) * EVar vTbeta * EPow P2 (EVar vMst2) * EPow P2 (EVar vSbeta) * EPow P4 (EVar vs2t) * EPow P6 (EVar
   vMst1)) / (#3 * EVar vTbeta * EPow P2 (EVar vMst1) * EPow P2 (EVar vSbeta) * EPow P4 (EVar vMst2)) + EVar
   vxDR2DRMOD * (#8 * EPow P2 (EVar vMt) * EPow P2 (EVar vs2t) * (#2 * (#23 * EVar vDmglst2 + #13 * EVar vMgl) * EPow
   P2 (EPow P2 (EVar vMst1) - EPow P2 (EVar vMst2)) / (EVar vMgl * EPow P2 (EVar vMst1)) + EPow P2 (EVar vMuSUSY) *
   (#5 - #26 * EVar vlmMst1 + #18 * EVar vlmMst2 + (EVar vDmglst2 * (#23 - #46 * EVar vlmMst1 + #30 * EVar vlmMst2) +
   (#23 * EVar vDmglst2 + #13 * EVar vMgl) * EPow P2 (EVar vMst2) / EPow P2 (EVar vMst1) - #2 * (EVar vDmglst2 * (#23
   * EVar vlmMst1 - #15 * EVar vlmMst2) + (#4 + #13 * EVar vlmMst1 - #9 * EVar vlmMst2) * EVar vMgl) * EPow P2 (EVar
   vMst1) * (EPow P2 (EVar vMst1) + EPow P2 (EVar vMst2)) / EPow P4 (EVar vMst2)) / EVar vMgl)) + #32 * EPow P3 (EVar
   vMt) * (#8 * EVar vs2t * ((#1 + EVar vlmMst2) * EVar vMgl * (#2 * EPow P2 (EVar vMst2) + EPow P2 (EVar vMuSUSY)) *
   (#2 * EPow P2 (EVar vMst1) * EPow P2 (EVar vMst2) + #3 * EPow P4 (EVar vMst1) + EPow P4 (EVar vMst2)) - EVar
   vDmglst2 * EPow P2 (EVar vMst2) * (- ((#1 + #3 * EVar vlmMst2) * EPow P2 (EVar vMst2) * EPow P2 (EVar vMuSUSY)) +
   EPow P2 (EVar vMst1) * (#4 * (#3 + EVar vlmMst2) * EPow P2 (EVar vMst2) - #2 * (#1 + #3 * EVar vlmMst2) * EPow P2
   (EVar vMuSUSY)) + #6 * (#5 + #3 * EVar vlmMst2) * EPow P4 (EVar vMst1) - #2 * (- #1 + EVar vlmMst2) * EPow P4 (EVar
   vMst2))) + EVar vMst2 * EVar vMt * (EVar vDmglst2 * (#96 * (#2 + EVar vlmMst2) * EPow P2 (EVar vMst2) * EPow P4
   (EVar vMst1) + #9 * EPow P2 (EVar vMst1) * EPow P4 (EVar vMst2) + #192 * (#3 + #2 * EVar vlmMst2) * EPow P6 (EVar
   vMst1) - #23 * EPow P6 (EVar vMst2)) - EVar vMgl * (#48 * (#1 + EVar vlmMst2) * (#2 * EPow P2 (EVar vMst1) + EPow
   P2 (EVar vMst2)) * EPow P4 (EVar vMst1) + (#29 + #16 * EVar vlmMst2) * EPow P2 (EVar vMst1) * EPow P4 (EVar vMst2)
   + #13 * EPow P6 (EVar vMst2))) / EPow P2 (EVar vMst1)) / (EVar vMgl * EPow P5 (EVar vMst2)) + #9 * EVar vxDmglst2 *
   EPow P2 (EVar vDmglst2) * (EVar vMt * EPow P3 (EVar vs2t) * (#128 * (#1 - #6 * EVar vlmMst2) * EPow P3 (EVar vMst2)
   / #9 + (EDec 2345557475994513 12 - #120 * EVar vlmMst1 + #120 * EVar vlmMst2) * EPow P4 (EVar vMst1) / EVar vMst2)
   + EPow P2 (EVar vMt) * EPow P2 (EVar vs2t) * (#528 * EPow P2 (EVar vMst1) - #1056 * EPow P2 (EVar vMst2) + #8 *
   (#49 - #66 * EVar vlmMst1 + #42 * EVar vlmMst2) * EPow P2 (EVar vMuSUSY) + #16 * (#8 - #33 * EVar vlmMst1 + #21 *
   EVar vlmMst2) * EPow P2 (EVar vMst1) * EPow P2 (EVar vMuSUSY) / EPow P2 (EVar vMst2) + #264 * EPow P2 (EVar vMst2)
   * (#2 * EPow P2 (EVar vMst2) + EPow P2 (EVar vMuSUSY)) / EPow P2 (EVar vMst1) + (EDec 4100423280423281 14 + #3956 *
   EVar vlmMst1 - #7796 * EVar vlmMst2 + #540 * EPow P2 (EVar vMuSUSY) / EPow P2 (EVar vMsq)) * EPow P4 (EVar vMst1) /
   EPow P2 (EVar vMst2) + EPow P2 (EVar vMuSUSY) * EPow P4 (EVar vMst1) * (#375 / EPow P4 (EVar vMsq) + (- #368 * EVar
   vlmMst1 + #240 * EVar vlmMst2) / EPow P4 (EVar vMst2))) / #9 - EVar vMt * EVar vMuSUSY * (- #352 * EVar vs2t *
   (EPow P2 (EVar vMst1) - EPow P2 (EVar vMst2)) * EPow P2 (EVar vMt) / (#3 * EPow P2 (EVar vMst1)) + #64 * EPow P3
   (EVar vMt) * (#8 * EVar vlmMst2 * (EPow P2 (EVar vMst1) + EPow P2 (EVar vMst2)) * EPow P4 (EVar vMsq) + #30 * EPow
   P2 (EVar vMsq) * EPow P4 (EVar vMst1) + EPow P2 (EVar vMst2) * (- #16 * EPow P4 (EVar vMsq) + #45 * EPow P4 (EVar
   vMst1))) / (#9 * EPow P3 (EVar vMst2) * EPow P4 (EVar vMsq)) + EVar vMt * EPow P2 (EVar vs2t) * (#128 * EPow P2
   (EVar vMst1) * (#1 - #6 * EVar vlmMst2 + #15 * EPow P2 (EVar vMst1) / EPow P2 (EVar vMsq)) / (#3 * EVar vMst2) +
   (EDec 7954436625514403 12 + #480 * EVar vlmMsq - #344 * EVar vlmMst1 / #3 - #2728 * EVar vlmMst2 / #3) * EPow P4
   (EVar vMst1) / EPow P3 (EVar vMst2) + EVar vMst2 * (EDec 42666666666666664 15 - #256 * EVar vlmMst2 + #360 * EPow
   P4 (EVar vMst1) / EPow P4 (EVar vMsq))) + EPow P3 (EVar vs2t) * (#88 * EPow P2 (EVar vMst1) / #3 + #16 * (- #8 +
   #33 * EVar vlmMst1 - #21 * EVar vlmMst2) * EPow P2 (EVar vMst2) / #9 - (EDec 12754644718792867 13 - #150 * EVar
   vlmMst1 + #150 * EVar vlmMst2) * EPow P4 (EVar vMst1) / EPow P2 (EVar vMst2) - #88 * EPow P4 (EVar vMst2) / (#3 *
   EPow P2 (EVar vMst1)))) / EVar vTbeta - #8 * EVar vs2t * EPow P3 (EVar vMt) * (#42525 * (#100 * EPow P2 (EVar vMsq)
   + #59 * EPow P2 (EVar vMst2)) * EPow P2 (EVar vMuSUSY) * EPow P4 (EVar vMst1) + EPow P4 (EVar vMsq) * (- #181440 *
   EPow P2 (EVar vMst1) * (#2 * EPow P2 (EVar vMst2) + (- #1 + #6 * EVar vlmMst2) * EPow P2 (EVar vMuSUSY)) +
   (#91451239 + #2041200 * EVar vlmMsq - #5210730 * EVar vlmMst1 + #6316380 * EVar vlmMst2 - #561330 * EVar vlmMt) *
   EPow P4 (EVar vMst1) - #90720 * ((- #1 + #6 * EVar vlmMst2) * EPow P2 (EVar vMst2) * EPow P2 (EVar vMuSUSY) + #2 *
   (- #2 + EVar vlmMst2) * EPow P4 (EVar vMst2)))) / (#25515 * EPow P3 (EVar vMst2) * EPow P4 (EVar vMsq)) + #16 *
   EPow P4 (EVar vMt) * (- #96 * (#4 + EVar vlmMst2) * EPow P2 (EVar vMst2) * EPow P4 (EVar vMst1) - #34 * EPow P2
   (EVar vMst1) * EPow P4 (EVar vMst2) + (#1152 + #768 * EVar vlmMst2 + #45 * EPow P2 (EVar vMst2) / EPow P2 (EVar
   vMsq)) * EPow P6 (EVar vMst1) - #66 * EPow P6 (EVar vMst2)) / (#9 * EPow P2 (EVar vMst1) * EPow P4 (EVar vMst2)) -
   EPow P4 (EVar vs2t) * (#2 * (#66 * EVar vlmMst1 - #7 * (#7 + #6 * EVar vlmMst2)) * EPow P2 (EVar vMst1) * EPow P2
   (EVar vMst2) - #2 * (#17 + #66 * EVar vlmMst1 - #42 * EVar vlmMst2) * EPow P4 (EVar vMst2) + EPow P4 (EVar vMst1) *
   (EDec 24983904320987654 13 - #360 * EVar vlmMst1 + #360 * EVar vlmMst2 + #15 * EPow P2 (EVar vMst2) / (#2 * EPow P2
   (EVar vMsq)) + #75 * EPow P4 (EVar vMst2) / (#4 * EPow P4 (EVar vMsq))) + #66 * EPow P6 (EVar vMst2) / EPow P2
   (EVar vMst1)) / #9 - EVar vs2t * EPow P2 (EVar vMt) * EPow P2 (EVar vMuSUSY) * (#60 * EVar vMst2 * (- #200 * EVar
   vMt + #9 * EVar vMst2 * EVar vs2t) * EPow P2 (EVar vMsq) * EPow P6 (EVar vMst1) + #15 * (- #472 * EVar vMt + #25 *
   EVar vMst2 * EVar vs2t) * EPow P3 (EVar vMst2) * EPow P6 (EVar vMst1) + #8 * EPow P4 (EVar vMsq) * ((#32 * (- #1 +
   #6 * EVar vlmMst2) * EVar vMt + (#49 - #66 * EVar vlmMst1 + #42 * EVar vlmMst2) * EVar vMst2 * EVar vs2t) * EPow P2
   (EVar vMst1) * EPow P3 (EVar vMst2) + #2 * EVar vMst2 * (#32 * (- #1 + #6 * EVar vlmMst2) * EVar vMt + (#8 - #33 *
   EVar vlmMst1 + #21 * EVar vlmMst2) * EVar vMst2 * EVar vs2t) * EPow P4 (EVar vMst1) + (- #46 * EVar vlmMst1 * EVar
   vs2t + #30 * EVar vlmMst2 * EVar vs2t) * EPow P6 (EVar vMst1) + #33 * EVar vs2t * EPow P6 (EVar vMst2))) / (#9 *
   EPow P2 (EVar vMst1) * EPow P2 (EVar vSbeta) * EPow P4 (EVar vMsq) * EPow P4 (EVar vMst2))) / EPow P2 (EVar vMgl) +
   (- #128 * (EVar vDmglst2 + #3 * EVar vDmglst2 * EVar vlmMst2 + EVar vMgl + EVar vlmMst2 * EVar vMgl) * EVar vMt *
   EPow P3 (EVar vMst2) * EPow P3 (EVar vs2t) + (- #2 * (EPow P2 (EVar vMst1) - EPow P2 (EVar vMst2)) * (EVar vDmglst2
   * (#2 * (#23 * EVar vlmMst1 - #15 * EVar vlmMst2) * EPow P2 (EVar vMst1) * EPow P2 (EVar vMst2) + #23 * EPow P4
   (EVar vMst1) - #23 * EPow P4 (EVar vMst2)) + EVar vMgl * (#2 * (#4 + #13 * EVar vlmMst1 - #9 * EVar vlmMst2) * EPow
   P2 (EVar vMst1) * EPow P2 (EVar vMst2) + #13 * EPow P4 (EVar vMst1) - #13 * EPow P4 (EVar vMst2))) * EPow P4 (EVar
   vs2t) + EVar vMt * EVar vMuSUSY * ((#384 * (EVar vDmglst2 + #3 * EVar vDmglst2 * EVar vlmMst2 + EVar vMgl + EVar
   vlmMst2 * EVar vMgl) * EVar vMt * EPow P2 (EVar vMst1) * EPow P2 (EVar vMst2) * EPow P2 (EVar vs2t) * (EPow P2
   (EVar vMst1) * EPow P2 (EVar vMst2) + EPow P4 (EVar vMst1) + EPow P4 (EVar vMst2)) + #512 * EPow P2 (EVar vMst1) *
   EPow P3 (EVar vMt) * (EVar vDmglst2 * (#7 + EVar vlmMst2) * EPow P2 (EVar vMst1) * EPow P2 (EVar vMst2) - EVar
   vDmglst2 * (- #1 + EVar vlmMst2) * EPow P4 (EVar vMst2) - (#1 + EVar vlmMst2) * EVar vMgl * (#3 * EPow P2 (EVar
   vMst1) * EPow P2 (EVar vMst2) + #6 * EPow P4 (EVar vMst1) + EPow P4 (EVar vMst2))) + #32 * (#23 * EVar vDmglst2 +
   #13 * EVar vMgl) * EVar vs2t * (EPow P2 (EVar vMst1) - EPow P2 (EVar vMst2)) * EPow P2 (EVar vMt) * EPow P5 (EVar
   vMst2) - EPow P3 (EVar vs2t) * (#16 * (EVar vDmglst2 * (#23 * EVar vlmMst1 - #15 * EVar vlmMst2) + (#4 + #13 * EVar
   vlmMst1 - #9 * EVar vlmMst2) * EVar vMgl) * EPow P2 (EVar vMst1) * EPow P2 (EVar vMst2) + #8 * (#23 * EVar vDmglst2
   + #13 * EVar vMgl) * EPow P4 (EVar vMst1) - #8 * (#23 * EVar vDmglst2 + #13 * EVar vMgl) * EPow P4 (EVar vMst2)) *
   EPow P5 (EVar vMst2)) / EVar vTbeta - #8 * EVar vMt * EVar vMuSUSY * EVar vs2t * (EVar vDmglst2 * EVar vMst2 *
   ((#32 * (#1 + #3 * EVar vlmMst2) * EVar vMt + (#23 - #46 * EVar vlmMst1 + #30 * EVar vlmMst2) * EVar vMst2 * EVar
   vs2t) * EPow P2 (EVar vMst1) * EPow P3 (EVar vMst2) + #2 * EVar vMst2 * (#32 * (#1 + #3 * EVar vlmMst2) * EVar vMt
   + (- #23 * EVar vlmMst1 + #15 * EVar vlmMst2) * EVar vMst2 * EVar vs2t) * EPow P4 (EVar vMst1) + (- #46 * EVar
   vlmMst1 * EVar vs2t + #30 * EVar vlmMst2 * EVar vs2t) * EPow P6 (EVar vMst1) + #23 * EVar vs2t * EPow P6 (EVar
   vMst2)) + EVar vMgl * (#2 * (#32 * (#1 + EVar vlmMst2) * EVar vMt + (- #4 - #13 * EVar vlmMst1 + #9 * EVar vlmMst2)
   * EVar vMst2 * EVar vs2t) * EPow P2 (EVar vMst2) * EPow P4 (EVar vMst1) + (#32 * (#1 + EVar vlmMst2) * EVar vMt +
   (#5 - #26 * EVar vlmMst1 + #18 * EVar vlmMst2) * EVar vMst2 * EVar vs2t) * EPow P2 (EVar vMst1) * EPow P4 (EVar
   vMst2) + #2 * (#48 * (#1 + EVar vlmMst2) * EVar vMt + (- #4 - #13 * EVar vlmMst1 + #9 * EVar vlmMst2) * EVar vMst2
   * EVar vs2t) * EPow P6 (EVar vMst1) + #13 * EVar vs2t * EPow P7 (EVar vMst2))) / EPow P2 (EVar vSbeta)) / EPow P5
   (EVar vMst2)) / EPow P2 (EVar vMst1)) / EVar vMgl) / #9) + EPow P2 (EVar vAl4p) * (#5 * (#1 - #2 * EVar vlmMsq) *
   EVar vthreeLoopFlag * EVar vxMsq * EPow P2 (EVar vMsq) * (#4 * EVar vMt * EVar vMuSUSY * EVar vs2t * (EVar vMt *
   EVar vMuSUSY * EVar vs2t * EVar vTbeta * EPow P2 (EVar vMst1) * (EPow P2 (EVar vMst2) - #2 * (EVar vlmMst1 - EVar
   vlmMst2) * (EPow P2 (EVar vMst1) + EPow P2 (EVar vMst2))) + EPow P2 (EVar vMst2) * EPow P2 (EVar vSbeta) * ((- #1 +
   EVar vshiftst1) * EPow P2 (EVar vMst2) * (- #4 * EPow P2 (EVar vMt) + EPow P2 (EVar vMst2) * EPow P2 (EVar vs2t)) -
   EPow P2 (EVar vMst1) * (- #4 * (- #1 + EVar vshiftst2) * EPow P2 (EVar vMt) + (EVar vshiftst1 - EVar vshiftst2 +
   EVar vlmMst1 * (- #2 + EVar vshiftst1 + EVar vshiftst2) - EVar vlmMst2 * (- #2 + EVar vshiftst1 + EVar vshiftst2))
   * EPow P2 (EVar vMst2) * EPow P2 (EVar vs2t)) - (- #1 + EVar vshiftst2) * EPow P2 (EVar vs2t) * EPow P4 (EVar
   vMst1))) + EVar vTbeta * (- #8 * EPow P2 (EVar vMst1) * EPow P2 (EVar vMst2) * EPow P2 (EVar vMt) * ((#1 - EVar
   vlmMst1 + EVar vlmMst2) * EVar vshiftst1 * EPow P2 (EVar vMuSUSY) * EPow P2 (EVar vs2t) + #2 * EVar vshiftst2 *
   EPow P2 (EVar vMt) * EPow P2 (EVar vSbeta)) + #4 * EPow P2 (EVar vMt) * EPow P2 (EVar vMuSUSY) * EPow P2 (EVar
   vs2t) * EPow P4 (EVar vMst2) + EPow P2 (EVar vSbeta) * (- #4 * EPow P2 (EVar vMt) * EPow P2 (EVar vs2t) * (#2 *
   (EPow P2 (EVar vMst2) + (- EVar vlmMst1 + EVar vlmMst2) * EPow P2 (EVar vMuSUSY)) * EPow P4 (EVar vMst1) + EPow P2
   (EVar vMst1) * ((#1 - #2 * EVar vlmMst1 + #2 * EVar vlmMst2) * EPow P2 (EVar vMst2) * EPow P2 (EVar vMuSUSY) - #4 *
   EPow P4 (EVar vMst2)) + (#2 * EPow P2 (EVar vMst2) + EPow P2 (EVar vMuSUSY)) * EPow P4 (EVar vMst2)) + #16 * EPow
   P2 (EVar vMst2) * (EPow P2 (EVar vMst1) + EPow P2 (EVar vMst2)) * EPow P4 (EVar vMt) + EPow P2 (EVar vMst1) * EPow
   P2 (EVar vMst2) * ((- #1 + #2 * EVar vlmMst1 - #2 * EVar vlmMst2) * EPow P2 (EVar vMst1) * EPow P2 (EVar vMst2) +
   EPow P4 (EVar vMst1) + (- #1 - #2 * EVar vlmMst1 + #2 * EVar vlmMst2) * EPow P4 (EVar vMst2)) * EPow P4 (EVar
   vs2t)) - EVar vshiftst1 * (#4 * EPow P2 (EVar vMst1) * EPow P2 (EVar vMst2) * EPow P2 (EVar vs2t) * EPow P2 (EVar
   vSbeta) * (#2 * (#1 - EVar vlmMst1 + EVar vlmMst2) * EPow P2 (EVar vMt) * (EPow P2 (EVar vMst2) - EPow P2 (EVar
   vMuSUSY)) - EPow P2 (EVar vs2t) * EPow P4 (EVar vMst2)) + EPow P4 (EVar vMst1) * (#8 * (- #1 + #2 * EVar vlmMst1 -
   #2 * EVar vlmMst2) * EPow P2 (EVar vMt) * EPow P2 (EVar vMuSUSY) * EPow P2 (EVar vs2t) * (- #1 + EPow P2 (EVar
   vSbeta)) + (#3 + #2 * EVar vlmMst1 - #2 * EVar vlmMst2) * EPow P2 (EVar vSbeta) * EPow P4 (EVar vMst2) * EPow P4
   (EVar vs2t)) + EPow P4 (EVar vMst2) * (- #4 * EPow P2 (EVar vMt) * EPow P2 (EVar vs2t) * (EPow P2 (EVar vMuSUSY) *
   (- #1 + EPow P2 (EVar vSbeta)) + #2 * EPow P2 (EVar vMst2) * EPow P2 (EVar vSbeta)) + EPow P2 (EVar vSbeta) * (#16
   * EPow P4 (EVar vMt) + EPow P4 (EVar vMst2) * EPow P4 (EVar vs2t)))) - EVar vshiftst2 * EPow P2 (EVar vMst1) * EPow
   P2 (EVar vs2t) * (#4 * EPow P2 (EVar vMst2) * EPow P2 (EVar vMt) * (EPow P2 (EVar vMuSUSY) * (- #1 + EPow P2 (EVar
   vSbeta)) + #2 * (#1 + EVar vlmMst1 - EVar vlmMst2) * EPow P2 (EVar vMst2) * EPow P2 (EVar vSbeta)) - #4 * EPow P2
   (EVar vMst1) * (#2 * EPow P2 (EVar vMt) * ((- #1 + EVar vlmMst1 - EVar vlmMst2) * EPow P2 (EVar vMuSUSY) * (- #1 +
   EPow P2 (EVar vSbeta)) + EPow P2 (EVar vMst2) * EPow P2 (EVar vSbeta)) + EPow P2 (EVar vs2t) * EPow P2 (EVar
   vSbeta) * EPow P4 (EVar vMst2)) + EPow P2 (EVar vs2t) * EPow P2 (EVar vSbeta) * (EPow P2 (EVar vMst2) * EPow P4
   (EVar vMst1) + (#3 - #2 * EVar vlmMst1 + #2 * EVar vlmMst2) * EPow P6 (EVar vMst2))) + EPow P2 (EVar vSbeta) * EPow
   P4 (EVar vs2t) * EPow P8 (EVar vMst2))) / (#6 * EVar vTbeta * EPow P2 (EVar vMst1) * EPow P2 (EVar vSbeta) * EPow
   P4 (EVar vMst2)) + EVar vthreeLoopFlag * ((EDec 40271234567901234 14 + #520 * EVar vlmMsq / #27 + #220 * EPow P2
   (EVar vlmMsq) / #9 - #10 * EVar vlmMst1 * (#85 - #10 * EVar vlmMsq + #6 * EPow P2 (EVar vlmMsq)) / #9 - #392 * EPow
   P2 (EVar vlmMst1) / #9 + #4 * EVar vlmMst2 * (#722 - #1449 * EVar vlmMst1 + #270 * EVar vlmMsq * EVar vlmMst1 -
   #135 * EPow P2 (EVar vlmMsq) + #63 * EPow P2 (EVar vlmMst1)) / #81 + #2 * EVar vlmMt * (#1417 - #688 * EVar vlmMst2
   + #90 * EVar vlmMsq * (- #9 + #4 * EVar vlmMst2) + #12 * EVar vlmMst1 * (#27 + #32 * EVar vlmMst2) + #18 * EPow P2
   (EVar vlmMst1) - #246 * EPow P2 (EVar vlmMst2)) / #27 - #4 * (- #803 + #90 * EVar vlmMsq + #189 * EVar vlmMst1) *
   EPow P2 (EVar vlmMst2) / #27 - #4 * (- #12 + #10 * EVar vlmMsq + EVar vlmMst1 + #45 * EVar vlmMst2) * EPow P2 (EVar
   vlmMt) / #3 + #40 * EPow P3 (EVar vlmMsq) / #9 - #68 * EPow P3 (EVar vlmMst1) / #9 + #4 * (#7 * EVar vMgl * (#22483
   + #2250 * EVar vlmMst2 + #30 * EVar vlmMst1 * (- #91 + #150 * EVar vlmMst2) - #750 * EVar vlmMt + #4500 * EVar
   vlmMst2 * EVar vlmMt - #30 * EVar vlmMsq * (- #41 + #60 * EVar vlmMst1 + #150 * EVar vlmMt) + #3150 * EPow P2 (EVar
   vlmMsq) - #1350 * EPow P2 (EVar vlmMst1) - #4500 * EPow P2 (EVar vlmMst2)) * EPow P2 (EVar vMst1) + #5 * EVar
   vDmglst2 * (- #6300 * (#1 + #2 * EVar vlmMst1 - #4 * EVar vlmMst2 + #2 * EVar vlmMt) * EPow P2 (EVar vMst1) + EPow
   P2 (EVar vMsq) * (#496858 - #397915 * EVar vlmMst2 + #219975 * EVar vlmMt + #109200 * EVar vlmMst2 * EVar vlmMt -
   #1050 * EVar vlmMsq * (#23 + #18 * EVar vlmMst1 + #6 * EVar vlmMst2 + #30 * EVar vlmMt) + #28350 * EPow P2 (EVar
   vlmMsq) - #4410 * EPow P2 (EVar vlmMst1) - #221970 * EPow P2 (EVar vlmMst2) + #630 * EVar vlmMst1 * (#269 + #254 *
   EVar vlmMst2 - #64 * EVar vlmMt + #64 * EPow P2 (EVar vlmMst2)) + #63000 * EPow P2 (EVar vlmMt) - #40320 * EPow P3
   (EVar vlmMst2)))) / (#14175 * EVar vMgl * EPow P2 (EVar vMsq)) + #148 * EPow P3 (EVar vlmMst2) / #9 + #184 * EPow
   P3 (EVar vlmMt) / #3 + EPow P4 (EVar vMst1) * ((EDec 1698404168016413 14 + #16403 * EVar vlmMsq / #2205 - (EDec
   4383446712018141 15 + #2 * EVar vlmMsq / #7) * EVar vlmMst1 + #10 * EVar vlmMst1 * EVar vlmMst2 / #3 - #5 * (#11 +
   #12 * EVar vlmMsq - #12 * EVar vlmMst2) * EVar vlmMt / #18 - #20 * EVar vDmglst2 * (EVar vlmMst1 - #2 * EVar
   vlmMst2 + EVar vlmMt) / (#3 * EVar vMgl) + #38 * EPow P2 (EVar vlmMsq) / #21 - #32 * EPow P2 (EVar vlmMst1) / #21 -
   #10 * EPow P2 (EVar vlmMst2) / #3) / EPow P4 (EVar vMsq) + (EDec 14054626938375586 13 + #140 * EVar vlmMsq + (EDec
   5149222171831696 13 - #520 * EVar vlmMsq) * EVar vlmMst1 - #137992 * EPow P2 (EVar vlmMst1) / #945 - EVar vlmMst2 *
   (EDec 9630333282942806 13 - #550874 * EVar vlmMst1 / #945 + #40 * EVar vlmMsq * (- #16 + #3 * EVar vlmMst1) + #376
   * EPow P2 (EVar vlmMst1) / #9) - (EDec 5791343915343915 13 - #120 * EVar vlmMsq - #656 * EVar vlmMst1 / #3) * EPow
   P2 (EVar vlmMst2) + EVar vlmMt * (#3425 + #1080 * EVar vlmMsq * (- #1 + EVar vlmMst1 - EVar vlmMst2) + #2618 * EVar
   vlmMst2 - #2 * EVar vlmMst1 * (#573 + #1112 * EVar vlmMst2) + #312 * EPow P2 (EVar vlmMst1) + #1912 * EPow P2 (EVar
   vlmMst2)) / #9 + #64 * (- #1 + #3 * EVar vlmMst1 - #3 * EVar vlmMst2) * EPow P2 (EVar vlmMt) / #3 + #64 * EPow P3
   (EVar vlmMst1) / #27 - EVar vDmglst2 * (EDec 3879568149934479 12 + #1840 * EVar vlmMsq + (EDec 5812930880994373 13
   - #2320 * EVar vlmMsq) * EVar vlmMst1 - #126272 * EPow P2 (EVar vlmMst1) / #189 - #4 * EVar vlmMst2 * (#57911521 -
   #22348620 * EVar vlmMst1 + #2381400 * EVar vlmMsq * (- #19 + #3 * EVar vlmMst1) + #2487240 * EPow P2 (EVar
   vlmMst1)) / #59535 + #16 * (- #15893 + #5670 * EVar vlmMsq + #4284 * EVar vlmMst1) * EPow P2 (EVar vlmMst2) / #189
   + #16 * EVar vlmMt * (#2105 + #405 * EVar vlmMsq * (- #3 + #2 * EVar vlmMst1 - #2 * EVar vlmMst2) + #2247 * EVar
   vlmMst2 - #3 * EVar vlmMst1 * (#341 + #364 * EVar vlmMst2) + #234 * EPow P2 (EVar vlmMst1) + #858 * EPow P2 (EVar
   vlmMst2)) / #27 + #128 * (- #5 + #6 * EVar vlmMst1 - #6 * EVar vlmMst2) * EPow P2 (EVar vlmMt) / #3 + #256 * EPow
   P3 (EVar vlmMst1) / #27 - #5536 * EPow P3 (EVar vlmMst2) / #27) / EVar vMgl - #4840 * EPow P3 (EVar vlmMst2) / #27)
   / EPow P4 (EVar vMst2)) + (#2 * (#2 * EVar vDmglst2 * (- #243 + #2 * (#55 + #32 * EVar vlmMst1) * EVar vlmMst2 -
   #30 * EVar vlmMsq * (- #1 + #6 * EVar vlmMst2) + #90 * EPow P2 (EVar vlmMsq) + #208 * EPow P2 (EVar vlmMst2)) +
   EVar vMgl * (#277 + #514 * EVar vlmMst2 + #64 * EVar vlmMst1 * (#1 + EVar vlmMst2) - #30 * EVar vlmMsq * (#5 + #6 *
   EVar vlmMst2) + #90 * EPow P2 (EVar vlmMsq) + #208 * EPow P2 (EVar vlmMst2))) * EPow P2 (EVar vMst2) / (#9 * EPow
   P2 (EVar vMst1)) + EPow P2 (EVar vMst1) * (#4 * EVar vDmglst2 * (#23048051 + #10812060 * EVar vlmMst2 + #12600 *
   (#1213 + #285 * EVar vlmMst2 - #225 * EVar vlmMt) * EPow P2 (EVar vlmMst1) - #58646700 * EPow P2 (EVar vlmMst2) -
   #2835000 * EVar vlmMsq * (#27 + EVar vlmMst2 * (#19 - #2 * EVar vlmMt) - #2 * EVar vlmMst1 * (#6 + EVar vlmMst2 -
   EVar vlmMt) - #7 * EVar vlmMt + #2 * EPow P2 (EVar vlmMst2)) + #31500 * EVar vlmMt * (- #622 - #389 * EVar vlmMst2
   + #6 * EPow P2 (EVar vlmMst2)) + #1260 * EVar vlmMst1 * (#58569 - #1075 * EVar vlmMt + #5 * EVar vlmMst2 * (#6883 +
   #420 * EVar vlmMt) + #9300 * EPow P2 (EVar vlmMst2) - #7200 * EPow P2 (EVar vlmMt)) + #4536000 * (#3 + #2 * EVar
   vlmMst2) * EPow P2 (EVar vlmMt) - #252000 * EPow P3 (EVar vlmMst1) - #15057000 * EPow P3 (EVar vlmMst2)) + #35 *
   EVar vMgl * (#6906919 - #4511760 * EVar vlmMst2 - #1800 * (#373 + #114 * EVar vlmMst2 - #90 * EVar vlmMt) * EPow P2
   (EVar vlmMst1) - #352800 * EPow P2 (EVar vlmMst2) + #162000 * EVar vlmMsq * (#12 + EVar vlmMst2 * (#15 - #2 * EVar
   vlmMt) - #2 * EVar vlmMst1 * (#5 + EVar vlmMst2 - EVar vlmMt) - #5 * EVar vlmMt + #2 * EPow P2 (EVar vlmMst2)) +
   #16200 * EVar vlmMt * (#194 + #71 * EVar vlmMst2 + #42 * EPow P2 (EVar vlmMst2)) - #259200 * (#1 + #2 * EVar
   vlmMst2) * EPow P2 (EVar vlmMt) + #120 * EVar vlmMst1 * (#3938 + #1215 * EVar vlmMt - #15 * EVar vlmMst2 * (#7 +
   #468 * EVar vlmMt) + #5940 * EPow P2 (EVar vlmMst2) + #4320 * EPow P2 (EVar vlmMt)) + #14400 * EPow P3 (EVar
   vlmMst1) - #522000 * EPow P3 (EVar vlmMst2))) / (#425250 * EPow P2 (EVar vMst2)) + EPow P2 (EVar vMst2) * (#171500
   * EVar vDmglst2 * (#6 * (#83 - #21 * EVar vlmMst1 + #6 * (- #1 + #6 * EVar vlmMst1) * EVar vlmMst2 + #3 * (- #7 +
   #12 * EVar vlmMst2) * EVar vlmMt + #12 * EVar vlmMsq * (#4 - #3 * (EVar vlmMst1 + EVar vlmMt)) + #36 * EPow P2
   (EVar vlmMsq) - #36 * EPow P2 (EVar vlmMst2)) * EPow P2 (EVar vMst1) - (#1267 + #1632 * EVar vlmMst2 - #6 * EVar
   vlmMst1 * (#11 + #60 * EVar vlmMst2) + #78 * EVar vlmMt - #936 * EVar vlmMst2 * EVar vlmMt + #12 * EVar vlmMsq * (-
   #137 + #30 * EVar vlmMst1 + #48 * EVar vlmMst2 + #78 * EVar vlmMt) - #936 * EPow P2 (EVar vlmMsq) + #360 * EPow P2
   (EVar vlmMst2)) * EPow P2 (EVar vMst2)) + EVar vMgl * (#514500 * (#5 - #78 * EVar vlmMst2 + #3 * EVar vlmMst1 * (#5
   + #12 * EVar vlmMst2) + #3 * (#5 + #12 * EVar vlmMst2) * EVar vlmMt + #12 * EVar vlmMsq * (#4 - #3 * (EVar vlmMst1
   + EVar vlmMt)) + #36 * EPow P2 (EVar vlmMsq) - #36 * EPow P2 (EVar vlmMst2)) * EPow P2 (EVar vMst1) - (#142320737 +
   #123053280 * EVar vlmMst2 - #257250 * EVar vlmMst1 * (#41 + #60 * EVar vlmMst2) - #257250 * (#77 + #228 * EVar
   vlmMst2) * EVar vlmMt + #420 * EVar vlmMsq * (- #220709 + #36750 * EVar vlmMst1 + #82740 * EVar vlmMst2 + #139650 *
   EVar vlmMt) - #54419400 * EPow P2 (EVar vlmMsq) + #19668600 * EPow P2 (EVar vlmMst2)) * EPow P2 (EVar vMst2))) /
   (#2778300 * EPow P4 (EVar vMsq)) + (- #5 * ((#64 * EVar vDmglst2 * (#14 - #15 * EVar vlmMsq + #15 * EVar vlmMst2) +
   #8 * (#43 - #30 * EVar vlmMsq + #30 * EVar vlmMst2) * EVar vMgl) * EPow P2 (EVar vMsq) + (#18 * EVar vDmglst2 *
   (#13 - #28 * EVar vlmMsq + #28 * EVar vlmMst2) + (#67 - #84 * EVar vlmMsq + #84 * EVar vlmMst2) * EVar vMgl) * EPow
   P2 (EVar vMst2)) / (#54 * EPow P2 (EVar vMst1) * EPow P4 (EVar vMsq)) - #64 * (#1 + EVar vlmMst2) * (#4 * EVar
   vDmglst2 * EVar vlmMst2 + EVar vMgl + EVar vlmMst2 * EVar vMgl) / (#9 * EPow P4 (EVar vMst1))) * EPow P4 (EVar
   vMst2) + (#3000 * EVar vDmglst2 * ((- #87 + EVar vlmMst1 * (#40 + #6 * EVar vlmMst2 - #6 * EVar vlmMt) + #6 * EVar
   vlmMst2 * (- #10 + EVar vlmMt) + #20 * EVar vlmMt - #6 * EPow P2 (EVar vlmMst2)) * EPow P4 (EVar vMst1) + (- #5 +
   EVar vlmMst1 - #12 * EVar vlmMst2 + #6 * EVar vlmMst1 * EVar vlmMst2 - EVar vlmMt + #12 * EVar vlmMst2 * EVar vlmMt
   - #6 * EVar vlmMsq * (- #2 + EVar vlmMst1 + EVar vlmMst2 + #2 * EVar vlmMt) + #12 * EPow P2 (EVar vlmMsq) - #6 *
   EPow P2 (EVar vlmMst2)) * EPow P4 (EVar vMst2)) - #4 * EVar vMgl * (#375 * (- #39 + EVar vlmMst1 * (#34 + #6 * EVar
   vlmMst2 - #6 * EVar vlmMt) + #6 * EVar vlmMst2 * (- #8 + EVar vlmMt) + #14 * EVar vlmMt - #6 * EPow P2 (EVar
   vlmMst2)) * EPow P4 (EVar vMst1) + (#7839 + #8660 * EVar vlmMst2 - #375 * EVar vlmMst1 * (#7 + #6 * EVar vlmMst2) -
   #4875 * EVar vlmMt - #6000 * EVar vlmMst2 * EVar vlmMt + #10 * EVar vlmMsq * (- #116 + #225 * EVar vlmMst1 + #285 *
   EVar vlmMst2 + #600 * EVar vlmMt) - #5550 * EPow P2 (EVar vlmMsq) + #2700 * EPow P2 (EVar vlmMst2)) * EPow P4 (EVar
   vMst2))) / (#675 * EPow P2 (EVar vMsq) * EPow P2 (EVar vMst2)) + (- #945 * EPow P2 (EVar vMuSUSY) * (#3 * EVar vMgl
   * (#8 * EPow P2 (EVar vMst2) * (#436 - #6 * EConst CB4 + #6 * EConst CD3 - #3 * EConst CDN - #48 * EVar vlmMst1 +
   (#408 - #96 * EVar vlmMst1) * EVar vlmMst2 + #24 * EVar vlmMt - #48 * (- #4 + EVar vlmMst1) * EPow P2 (EVar
   vlmMst2) + #48 * EPow P3 (EVar vlmMst2)) + EPow P2 (EVar vMst1) * (#10667 - #96 * EConst CB4 + #96 * EConst CD3 -
   #48 * EConst CDN - #3072 * EVar vlmMst1 - #384 * (- #25 + #9 * EVar vlmMst1) * EVar vlmMst2 - #384 * (- #1 + EVar
   vlmMst1 - EVar vlmMst2) * EVar vlmMt - #384 * (- #13 + #4 * EVar vlmMst1) * EPow P2 (EVar vlmMst2) + #1536 * EPow
   P3 (EVar vlmMst2))) + #2 * EVar vDmglst2 * (#72 * EPow P2 (EVar vMst2) * (#180 - #2 * EConst CB4 + #2 * EConst CD3
   - EConst CDN + #16 * EVar vlmMst1 + #144 * EVar vlmMst2 - #16 * (- #2 + EVar vlmMst1) * EPow P2 (EVar vlmMst2) +
   #16 * EPow P3 (EVar vlmMst2)) + EPow P2 (EVar vMst1) * (#28405 - #288 * EConst CB4 + #288 * EConst CD3 - #144 *
   EConst CDN + #5472 * EVar vlmMst1 - #288 * (- #89 + #2 * EVar vlmMst1) * EVar vlmMst2 + #576 * (- #2 + EVar vlmMst1
   - EVar vlmMst2) * EVar vlmMt - #576 * (- #9 + #8 * EVar vlmMst1) * EPow P2 (EVar vlmMst2) + #4608 * EPow P3 (EVar
   vlmMst2)))) + #560 * EConst COepS2 * (#3 * EVar vMgl * (EPow P2 (EVar vMst1) * (#627 * EPow P2 (EVar vMst2) + #378
   * EPow P2 (EVar vMuSUSY)) + #1168 * EPow P4 (EVar vMst1) + #189 * EPow P4 (EVar vMst2)) + #4 * EVar vDmglst2 * (#63
   * EPow P2 (EVar vMst1) * (#23 * EPow P2 (EVar vMst2) - #3 * EPow P2 (EVar vMuSUSY)) + #5582 * EPow P4 (EVar vMst1)
   + #189 * EPow P4 (EVar vMst2))) - #27 * EConst CS2 * (#42 * EVar vMgl * (#9 * EPow P2 (EVar vMst1) * ((#4163 +
   #2090 * EVar vlmMst1 - #2090 * EVar vlmMst2) * EPow P2 (EVar vMst2) + #90 * (- #43 + #14 * EVar vlmMst1 - #14 *
   EVar vlmMst2) * EPow P2 (EVar vMuSUSY)) + #8 * (#8653 + #4380 * EVar vlmMst1 - #4380 * EVar vlmMst2) * EPow P4
   (EVar vMst1) + #81 * (- #240 * EPow P2 (EVar vMst2) * EPow P2 (EVar vMuSUSY) + (#109 + #70 * EVar vlmMst1 - #70 *
   EVar vlmMst2) * EPow P4 (EVar vMst2))) + #4 * EVar vDmglst2 * (#45 * EPow P2 (EVar vMst1) * (#23 * (#115 + #588 *
   EVar vlmMst1 - #588 * EVar vlmMst2) * EPow P2 (EVar vMst2) - #126 * (#65 + #14 * EVar vlmMst1 - #14 * EVar vlmMst2)
   * EPow P2 (EVar vMuSUSY)) + (#2001242 + #2344440 * EVar vlmMst1 - #2344440 * EVar vlmMst2) * EPow P4 (EVar vMst1) -
   #81 * (#3360 * EPow P2 (EVar vMst2) * EPow P2 (EVar vMuSUSY) + (#1593 - #980 * EVar vlmMst1 + #980 * EVar vlmMst2)
   * EPow P4 (EVar vMst2))))) / (#76545 * EPow P4 (EVar vMst2))) / EVar vMgl) * EPow P4 (EVar vMt) + (- (EPow P2 (EVar
   vMst1) * EPow P2 (EVar vMst2) * (EDec 9516896090534979 14 - EConst CB4 / #9 + #2 * EConst CD3 / #9 - EConst CDN /
   #6 - #445 * EVar vlmMsq / #36 + EVar vlmMst1 * (EDec 2180061728395062 14 - #5 * EPow P2 (EVar vlmMsq) / #2) + #35 *
   EPow P2 (EVar vlmMsq) / #12 + EVar vlmMst2 * (#18499 + #20550 * EVar vlmMst1 + #675 * EVar vlmMsq * (- #7 + #2 *
   EVar vlmMst1) + #2025 * EPow P2 (EVar vlmMsq) - #6525 * EPow P2 (EVar vlmMst1)) / #810 + (- #1649 + #180 * EVar
   vlmMsq) * EPow P2 (EVar vlmMst1) / #108 + (#289 - #360 * EVar vlmMsq + #1398 * EVar vlmMst1) * EPow P2 (EVar
   vlmMst2) / #108 - #79 * EPow P3 (EVar vlmMst1) / #54 + ((#50 * EVar vDmglst2 * (#25 + #12 * EVar vlmMsq * (- #4 +
   #3 * EVar vlmMst1 - #3 * EVar vlmMst2) + (#48 - #36 * EVar vlmMst1) * EVar vlmMst2 + #36 * EPow P2 (EVar vlmMst2))
   + EVar vMgl * (- #2953 + #60 * EVar vlmMsq * (#17 + #6 * EVar vlmMst1 - #6 * EVar vlmMst2) - #636 * EVar vlmMst2 -
   #24 * EVar vlmMst1 * (#16 + #75 * EVar vlmMst2) + #720 * EPow P2 (EVar vlmMst1) + #1080 * EPow P2 (EVar vlmMst2)))
   * EPow P2 (EVar vMst1) / (#1080 * EPow P2 (EVar vMsq)) - EVar vDmglst2 * (EDec 14217769547325103 15 + #2 * EConst
   CB4 / #3 - #8 * EConst CD3 / #9 + #5 * EConst CDN / #9 - #15 * EVar vlmMsq / #2 - #5 * EPow P2 (EVar vlmMsq) / #2 +
   EVar vlmMst1 * (- EDec 2421432098765432 14 + #5 * EPow P2 (EVar vlmMsq)) - EVar vlmMst2 * (#5 * EVar vlmMsq * (- #1
   + #2 * EVar vlmMst1) + #5 * EPow P2 (EVar vlmMsq) + (- #128893 - #86970 * EVar vlmMst1 - #48150 * EPow P2 (EVar
   vlmMst1)) / #4050) - #137 * EPow P2 (EVar vlmMst1) / #135 + (#10 * EVar vlmMsq - #83 * (#34 + #15 * EVar vlmMst1) /
   #135) * EPow P2 (EVar vlmMst2) + #5 * EPow P3 (EVar vlmMst1) / #27 - #77 * EPow P3 (EVar vlmMst2) / #27)) / EVar
   vMgl - #185 * EPow P3 (EVar vlmMst2) / #54)) + (EDec 35682629270197204 15 + EConst CB4 + EConst CD3 / #9 - EConst
   CDN / #9 - #655 * EVar vlmMsq / #72 + EVar vlmMst1 * (EDec 6586121882086168 14 - #70 * EVar vlmMsq / #9 + #5 * EPow
   P2 (EVar vlmMsq) / #12) + #25 * EPow P2 (EVar vlmMsq) / #12 - EVar vlmMst2 * (EDec 3361121882086168 14 + #99767 *
   EVar vlmMst1 / #3780 - #5 * EVar vlmMsq * (#13 + #9 * EVar vlmMst1) / #18 + #5 * EPow P2 (EVar vlmMsq) / #12 - #305
   * EPow P2 (EVar vlmMst1) / #36) + (EDec 27599470899470898 15 - #5 * EVar vlmMsq / #3) * EPow P2 (EVar vlmMst1) +
   (EDec 7516137566137566 15 - #5 * EVar vlmMsq / #6 - #473 * EVar vlmMst1 / #36) * EPow P2 (EVar vlmMst2) - #10 *
   EPow P3 (EVar vlmMst1) / #27 + #136 * EPow P3 (EVar vlmMst2) / #27 + EVar vDmglst2 * (EDec 8440344866031853 14 - #5
   * EVar vlmMsq * (#2 + #3 * EVar vlmMst1) / #3 + #1011403 * EVar vlmMst2 / #1190700 + #5 * EPow P2 (EVar vlmMsq) /
   #2 + (EDec 4326984126984127 15 + #11 * EVar vlmMst2 / #3) * EPow P2 (EVar vlmMst1) + EVar vlmMst1 * (EDec
   10650581170739901 15 + #1474 * EVar vlmMst2 / #315 - #11 * EPow P2 (EVar vlmMst2) / #3) - #113 * EPow P2 (EVar
   vlmMst2) / #35 - #11 * EPow P3 (EVar vlmMst1) / #9 + #11 * EPow P3 (EVar vlmMst2) / #9) / EVar vMgl) * EPow P4
   (EVar vMst1) + ((EVar vMgl * (- #82320 * (#1318 - #15 * EVar vlmMsq * (#23 + #41 * EVar vlmMst1 - #41 * EVar
   vlmMst2) - #346 * EVar vlmMst2 + EVar vlmMst1 * (#691 + #525 * EVar vlmMst2) + #45 * EPow P2 (EVar vlmMst1) - #570
   * EPow P2 (EVar vlmMst2)) * EPow P2 (EVar vMsq) * EPow P2 (EVar vMst1) + #34300 * (#9403 - #720 * EConst CB4 + #72
   * EConst CD3 - #36 * EConst CDN - #630 * EVar vlmMsq - #270 * EPow P2 (EVar vlmMsq) - #3 * EVar vlmMst1 * (#5663 -
   #1950 * EVar vlmMsq + #630 * EPow P2 (EVar vlmMsq)) - #954 * EPow P2 (EVar vlmMst1) + #3 * EVar vlmMst2 * (#6377 -
   #6942 * EVar vlmMst1 + #30 * EVar vlmMsq * (- #59 + #42 * EVar vlmMst1) + #630 * EPow P2 (EVar vlmMsq) + #234 *
   EPow P2 (EVar vlmMst1)) - #18 * (- #1172 + #210 * EVar vlmMsq + #399 * EVar vlmMst1) * EPow P2 (EVar vlmMst2) -
   #288 * EPow P3 (EVar vlmMst1) + #6768 * EPow P3 (EVar vlmMst2)) * EPow P4 (EVar vMsq) + #3 * (#6074157 - #420 *
   EVar vlmMsq * (#9224 + #5705 * EVar vlmMst1 - #6545 * EVar vlmMst2) + #1208165 * EVar vlmMst2 + #35 * EVar vlmMst1
   * (#76169 + #108780 * EVar vlmMst2) - #176400 * EPow P2 (EVar vlmMsq) - #705600 * EPow P2 (EVar vlmMst1) - #3278100
   * EPow P2 (EVar vlmMst2)) * EPow P4 (EVar vMst1)) + #17150 * EVar vDmglst2 * (#240 * (- #77 + EVar vlmMsq * (#6 +
   #60 * EVar vlmMst1 - #60 * EVar vlmMst2) + #50 * EVar vlmMst2 - #4 * EVar vlmMst1 * (#14 + #15 * EVar vlmMst2) +
   #60 * EPow P2 (EVar vlmMst2)) * EPow P2 (EVar vMsq) * EPow P2 (EVar vMst1) + #2 * (#7337 - #432 * EConst CB4 + #576
   * EConst CD3 - #360 * EConst CDN + #8100 * EVar vlmMsq - #1620 * EPow P2 (EVar vlmMsq) - #216 * EVar vlmMst1 * (-
   #7 + #15 * EPow P2 (EVar vlmMsq)) - #1404 * EPow P2 (EVar vlmMst1) + #36 * EVar vlmMst2 * (- #689 - #528 * EVar
   vlmMst1 + #90 * EVar vlmMsq * (#1 + #2 * EVar vlmMst1) + #90 * EPow P2 (EVar vlmMsq) + #32 * EPow P2 (EVar
   vlmMst1)) - #36 * (- #239 + #180 * EVar vlmMsq + #336 * EVar vlmMst1) * EPow P2 (EVar vlmMst2) + #10944 * EPow P3
   (EVar vlmMst2)) * EPow P4 (EVar vMsq) + #15 * (#113 - #34 * EVar vlmMst2 + #12 * EVar vlmMsq * (#1 - #10 * EVar
   vlmMst1 + #10 * EVar vlmMst2) + #2 * EVar vlmMst1 * (#11 + #60 * EVar vlmMst2) - #120 * EPow P2 (EVar vlmMst2)) *
   EPow P4 (EVar vMst1)) - EPow P2 (EVar vMst2) * (EVar vMgl * (- #41160 * (#2986 - #30 * EVar vlmMsq * (#43 + #40 *
   EVar vlmMst1 - #40 * EVar vlmMst2) - #735 * EVar vlmMst2 + #75 * EVar vlmMst1 * (#27 + #16 * EVar vlmMst2) - #1200
   * EPow P2 (EVar vlmMst2)) * EPow P2 (EVar vMsq) * EPow P2 (EVar vMst1) - #308700 * (#405 + #770 * EVar vlmMst2 +
   #64 * EVar vlmMst1 * (#1 + EVar vlmMst2) - #30 * EVar vlmMsq * (#5 + #6 * EVar vlmMst2) + #90 * EPow P2 (EVar
   vlmMsq) + #336 * EPow P2 (EVar vlmMst2)) * EPow P4 (EVar vMsq) + (#45671209 - #420 * EVar vlmMsq * (#51313 + #42630
   * EVar vlmMst1 - #44310 * EVar vlmMst2) + #9501870 * EVar vlmMst2 + #10290 * EVar vlmMst1 * (#1171 + #1740 * EVar
   vlmMst2) - #352800 * EPow P2 (EVar vlmMsq) - #18257400 * EPow P2 (EVar vlmMst2)) * EPow P4 (EVar vMst1)) + #51450 *
   EVar vDmglst2 * (#40 * (- #230 + #6 * EVar vlmMsq * (#16 + #17 * EVar vlmMst1 - #17 * EVar vlmMst2) + #13 * EVar
   vlmMst2 - EVar vlmMst1 * (#109 + #102 * EVar vlmMst2) + #102 * EPow P2 (EVar vlmMst2)) * EPow P2 (EVar vMsq) * EPow
   P2 (EVar vMst1) - #12 * (- #115 + (#494 + #64 * EVar vlmMst1) * EVar vlmMst2 - #30 * EVar vlmMsq * (- #1 + #6 *
   EVar vlmMst2) + #90 * EPow P2 (EVar vlmMsq) + #464 * EPow P2 (EVar vlmMst2)) * EPow P4 (EVar vMsq) - #5 * (- #793 +
   #12 * EVar vlmMsq * (#19 + #42 * EVar vlmMst1 - #42 * EVar vlmMst2) + #6 * EVar vlmMst2 - #18 * EVar vlmMst1 * (#13
   + #28 * EVar vlmMst2) + #504 * EPow P2 (EVar vlmMst2)) * EPow P4 (EVar vMst1))) / EPow P2 (EVar vMst1)) * EPow P4
   (EVar vMst2) / (#22226400 * EPow P4 (EVar vMsq)) - EConst COepS2 * (#4 * EVar vDmglst2 * (#1944 * EPow P2 (EVar
   vMst1) * EPow P2 (EVar vMst2) + #4199 * EPow P4 (EVar vMst1) + #189 * EPow P4 (EVar vMst2)) - #3 * EVar vMgl *
   (#2058 * EPow P2 (EVar vMst1) * EPow P2 (EVar vMst2) + #1945 * EPow P4 (EVar vMst1) + #432 * EPow P4 (EVar vMst2)))
   / #2187 + EConst CS2 * (#2 * EVar vDmglst2 * (#36 * (- #275 + #324 * EVar vlmMst1 - #324 * EVar vlmMst2) * EPow P2
   (EVar vMst1) * EPow P2 (EVar vMst2) + (#51635 + #25194 * EVar vlmMst1 - #25194 * EVar vlmMst2) * EPow P4 (EVar
   vMst1) + #81 * (- #1677 + #14 * EVar vlmMst1 - #14 * EVar vlmMst2) * EPow P4 (EVar vMst2)) - #3 * EVar vMgl * (#9 *
   (#3137 + #686 * EVar vlmMst1 - #686 * EVar vlmMst2) * EPow P2 (EVar vMst1) * EPow P2 (EVar vMst2) + #5 * (#3799 +
   #1167 * EVar vlmMst1 - #1167 * EVar vlmMst2) * EPow P4 (EVar vMst1) + #1296 * (#22 + EVar vlmMst1 - EVar vlmMst2) *
   EPow P4 (EVar vMst2))) / #324) / EVar vMgl) * EPow P4 (EVar vs2t) - EVar vMt * EPow P3 (EVar vs2t) * (- #87480 *
   EPow P2 (EVar vMst1) * EPow P2 (EVar vMst2) * (EDec 1917798353909465 14 + #68 * EConst CB4 / #9 + #2 * EConst CDN /
   #9 + #40 * EVar vlmMsq - #40 * EPow P2 (EVar vlmMsq) / #3 - #4 * EVar vlmMst1 * (#223 - #15 * EVar vlmMsq + #15 *
   EPow P2 (EVar vlmMsq)) / #9 - #8 * EPow P2 (EVar vlmMst1) / #3 + #4 * EVar vlmMst2 * (- #163 - #229 * EVar vlmMst1
   + #15 * EVar vlmMsq * (#3 + #2 * EVar vlmMst1) + #15 * EPow P2 (EVar vlmMsq) + #24 * EPow P2 (EVar vlmMst1)) / #9 -
   #4 * (- #107 + #30 * EVar vlmMsq + #104 * EVar vlmMst1) * EPow P2 (EVar vlmMst2) / #9 - (#20 * (EVar vDmglst2 -
   EVar vMgl) * EPow P2 (EVar vMst1) / (#9 * EPow P2 (EVar vMsq)) + EVar vDmglst2 * (EDec 4773436213991769 14 - #68 *
   EConst CB4 / #9 - #2 * EConst CDN / #9 + #80 * EVar vlmMsq / #3 + #40 * EPow P2 (EVar vlmMsq) / #3 + #4 * EVar
   vlmMst1 * (#77 + #135 * EVar vlmMsq + #45 * EPow P2 (EVar vlmMsq)) / #27 + #4 * EVar vlmMst2 * (#409 + #183 * EVar
   vlmMst1 - #45 * EVar vlmMsq * (#7 + #2 * EVar vlmMst1) - #45 * EPow P2 (EVar vlmMsq) - #72 * EPow P2 (EVar
   vlmMst1)) / #27 - #8 * EPow P2 (EVar vlmMst1) / #3 + #4 * (#105 + #30 * EVar vlmMsq + #104 * EVar vlmMst1) * EPow
   P2 (EVar vlmMst2) / #9 - #320 * EPow P3 (EVar vlmMst2) / #9)) / EVar vMgl + #320 * EPow P3 (EVar vlmMst2) / #9) +
   (EVar vDmglst2 * (#35542243 - #8755920 * EVar vlmMst2 + #291600 * EVar vlmMsq * (#7 - #6 * EVar vlmMst1 + #6 * EVar
   vlmMst2) + #38880 * (#37 - #40 * EVar vlmMst2) * EPow P2 (EVar vlmMst1) + #1438560 * EPow P2 (EVar vlmMst2) + #720
   * EVar vlmMst1 * (#8705 - #3996 * EVar vlmMst2 + #5616 * EPow P2 (EVar vlmMst2)) - #311040 * EPow P3 (EVar vlmMst1)
   - #2177280 * EPow P3 (EVar vlmMst2)) - #15 * EVar vMgl * (#542267 - #29376 * EVar vlmMst2 + #19440 * EVar vlmMsq *
   (#1 - #2 * EVar vlmMst1 + #2 * EVar vlmMst2) + #864 * (#205 + #216 * EVar vlmMst2) * EPow P2 (EVar vlmMst1) +
   #177120 * EPow P2 (EVar vlmMst2) - #1728 * EVar vlmMst1 * (#31 + #205 * EVar vlmMst2 + #204 * EPow P2 (EVar
   vlmMst2)) - #6912 * EPow P3 (EVar vlmMst1) + #172800 * EPow P3 (EVar vlmMst2))) * EPow P4 (EVar vMst1) / EVar vMgl
   + (- #27 * (#15 * EVar vMgl * (#320 * (#25 - #6 * EVar vlmMsq * (#2 + EVar vlmMst1 - EVar vlmMst2) + #4 * EVar
   vlmMst2 + EVar vlmMst1 * (#8 + #6 * EVar vlmMst2) - #6 * EPow P2 (EVar vlmMst2)) * EPow P2 (EVar vMsq) * EPow P2
   (EVar vMst1) + #3 * (#17177 + #1760 * EConst CB4 - #16 * EConst CDN - #5760 * EVar vlmMsq + #960 * EPow P2 (EVar
   vlmMsq) - #16 * EVar vlmMst1 * (#199 - #30 * EVar vlmMsq + #30 * EPow P2 (EVar vlmMsq)) + #16 * EVar vlmMst2 *
   (#1163 - #322 * EVar vlmMst1 + #30 * EVar vlmMsq * (- #5 + #2 * EVar vlmMst1) + #30 * EPow P2 (EVar vlmMsq) - #16 *
   EPow P2 (EVar vlmMst1)) - #256 * EPow P2 (EVar vlmMst1) - #32 * (- #281 + #30 * EVar vlmMsq + #72 * EVar vlmMst1) *
   EPow P2 (EVar vlmMst2) + #2560 * EPow P3 (EVar vlmMst2)) * EPow P4 (EVar vMsq) + #10 * (- #1 + #12 * EVar vlmMsq -
   #12 * EVar vlmMst2) * EPow P4 (EVar vMst1)) + EVar vDmglst2 * (#28800 * (#9 - #3 * EVar vlmMsq * (#2 + EVar vlmMst1
   - EVar vlmMst2) + #4 * EVar vlmMst2 + EVar vlmMst1 * (#2 + #3 * EVar vlmMst2) - #3 * EPow P2 (EVar vlmMst2)) * EPow
   P2 (EVar vMsq) * EPow P2 (EVar vMst1) + (#825997 + #188640 * EConst CB4 - #3600 * EConst CDN - #648000 * EVar
   vlmMsq + #43200 * EPow P2 (EVar vlmMsq) - #720 * EVar vlmMst1 * (- #173 + #90 * EVar vlmMsq + #30 * EPow P2 (EVar
   vlmMsq)) + #720 * EVar vlmMst2 * (#1495 - #130 * EVar vlmMst1 + #30 * EVar vlmMsq * (- #1 + #2 * EVar vlmMst1) +
   #30 * EPow P2 (EVar vlmMsq) - #16 * EPow P2 (EVar vlmMst1)) + #11520 * EPow P2 (EVar vlmMst1) - #1440 * (- #169 +
   #30 * EVar vlmMsq + #136 * EVar vlmMst1) * EPow P2 (EVar vlmMst2) + #207360 * EPow P3 (EVar vlmMst2)) * EPow P4
   (EVar vMsq) + #150 * (#23 + #12 * EVar vlmMsq - #12 * EVar vlmMst2) * EPow P4 (EVar vMst1))) * EPow P4 (EVar vMst2)
   / EPow P4 (EVar vMsq) + #160 * EConst COepS2 * (#3 * EVar vMgl * (#438 * EPow P2 (EVar vMst1) * EPow P2 (EVar
   vMst2) + #439 * EPow P4 (EVar vMst1) + #189 * EPow P4 (EVar vMst2)) - EVar vDmglst2 * (#7218 * EPow P2 (EVar vMst1)
   * EPow P2 (EVar vMst2) + #15571 * EPow P4 (EVar vMst1) + #945 * EPow P4 (EVar vMst2))) + #108 * EConst CS2 * (EVar
   vDmglst2 * (#18 * (#14033 + #12030 * EVar vlmMst1 - #12030 * EVar vlmMst2) * EPow P2 (EVar vMst1) * EPow P2 (EVar
   vMst2) + (#836021 + #467130 * EVar vlmMst1 - #467130 * EVar vlmMst2) * EPow P4 (EVar vMst1) + #81 * (- #453 + #350
   * EVar vlmMst1 - #350 * EVar vlmMst2) * EPow P4 (EVar vMst2)) - #15 * EVar vMgl * (#18 * (#347 + #146 * EVar
   vlmMst1 - #146 * EVar vlmMst2) * EPow P2 (EVar vMst1) * EPow P2 (EVar vMst2) + (#6121 + #2634 * EVar vlmMst1 -
   #2634 * EVar vlmMst2) * EPow P4 (EVar vMst1) + #81 * (- #1 + #14 * EVar vlmMst1 - #14 * EVar vlmMst2) * EPow P4
   (EVar vMst2))) + #270 * (#48 * (#15 * EVar vDmglst2 * (#95 + #12 * EVar vlmMsq * (- #2 + EVar vlmMst1 - EVar
   vlmMst2) + #32 * EVar vlmMst2 - #4 * EVar vlmMst1 * (#2 + #3 * EVar vlmMst2) + #12 * EPow P2 (EVar vlmMst2)) + #5 *
   EVar vMgl * (#71 + #12 * EVar vlmMsq * (- #2 + EVar vlmMst1 - EVar vlmMst2) + #40 * EVar vlmMst2 - #4 * EVar
   vlmMst1 * (#4 + #3 * EVar vlmMst2) + #12 * EPow P2 (EVar vlmMst2))) * EPow P2 (EVar vMsq) - #15 * EVar vMgl * (#223
   - #12 * EVar vlmMsq * (#13 + #6 * EVar vlmMst1 - #6 * EVar vlmMst2) + #102 * EVar vlmMst2 + #18 * EVar vlmMst1 *
   (#3 + #4 * EVar vlmMst2) - #72 * EPow P2 (EVar vlmMst2)) * EPow P2 (EVar vMst1) + #5 * EVar vDmglst2 * (- #3 *
   (#823 - #12 * EVar vlmMsq * (#61 + #30 * EVar vlmMst1 - #30 * EVar vlmMst2) + #606 * EVar vlmMst2 + #18 * EVar
   vlmMst1 * (#7 + #20 * EVar vlmMst2) - #360 * EPow P2 (EVar vlmMst2)) * EPow P2 (EVar vMst1) + (#5591 + #12 * EVar
   vlmMsq * (- #181 + #90 * EVar vlmMst1 - #90 * EVar vlmMst2) + #2550 * EVar vlmMst2 - #54 * EVar vlmMst1 * (#7 + #20
   * EVar vlmMst2) + #1080 * EPow P2 (EVar vlmMst2)) * EPow P2 (EVar vMst2)) - #2304 * (#1 + EVar vlmMst2) * (- EVar
   vDmglst2 + #3 * EVar vDmglst2 * EVar vlmMst2 + EVar vMgl + EVar vlmMst2 * EVar vMgl) * EPow P4 (EVar vMsq) / EPow
   P2 (EVar vMst1)) * EPow P6 (EVar vMst2) / EPow P4 (EVar vMsq)) / EVar vMgl) / (#87480 * EVar vMst2) + EPow P2 (EVar
   vMt) * EPow P2 (EVar vs2t) * (#2 * EPow P2 (EVar vMst1) * (#5 * EVar vMgl * (#517702 - #2700 * EConst CD3 + #2700 *
   EConst CDN + #10125 * EVar vlmMsq - #64800 * (EVar vlmMst1 - EVar vlmMst2) * EVar vlmMt - #30375 * EPow P2 (EVar
   vlmMsq) - #15 * EVar vlmMst1 * (#43538 - #5850 * EVar vlmMsq + #675 * EPow P2 (EVar vlmMsq)) + #15 * EVar vlmMst2 *
   (#47993 - #10020 * EVar vlmMst1 - #450 * EVar vlmMsq * (#4 + #3 * EVar vlmMst1) + #675 * EPow P2 (EVar vlmMsq) -
   #1035 * EPow P2 (EVar vlmMst1)) + #225 * (- #887 + #90 * EVar vlmMsq) * EPow P2 (EVar vlmMst1) - #225 * (- #1195 +
   #339 * EVar vlmMst1) * EPow P2 (EVar vlmMst2) - #29250 * EPow P3 (EVar vlmMst1) + #121050 * EPow P3 (EVar vlmMst2))
   + EVar vDmglst2 * (#2416741 + #1789710 * EVar vlmMst2 + #67500 * EVar vlmMsq * (#8 - #3 * EVar vlmMst1 + #12 * EVar
   vlmMst2) - #324000 * (#2 + EVar vlmMst2) * EVar vlmMt - #303750 * EPow P2 (EVar vlmMsq) + #450 * (- #341 + #30 *
   EVar vlmMst2) * EPow P2 (EVar vlmMst1) + #60 * EVar vlmMst1 * (#34484 - #12885 * EVar vlmMst2 + #5400 * EVar vlmMt
   - #21825 * EPow P2 (EVar vlmMst2)) + #224550 * EPow P2 (EVar vlmMst2) - #4500 * EPow P3 (EVar vlmMst1) + #1300500 *
   EPow P3 (EVar vlmMst2))) / (#30375 * EVar vMgl) + ((#9000 * EVar vDmglst2 * (#4 - EVar vlmMst1 + EVar vlmMst2) + #2
   * EVar vMgl * (#5108 + #15 * EVar vlmMst1 * (#718 - #75 * EVar vlmMst2) - #15 * EVar vlmMsq * (#218 + #195 * EVar
   vlmMst1 - #75 * EVar vlmMst2) - #7500 * EVar vlmMst2 + #900 * EPow P2 (EVar vlmMsq) + #2025 * EPow P2 (EVar
   vlmMst1))) / (#2025 * EVar vMgl * EPow P2 (EVar vMsq)) + (EDec 19655862427463637 14 + (- EDec 29324826908541195 14
   + #40 * EVar vlmMsq / #3) * EVar vlmMst1 + EVar vlmMst2 * (EDec 30524826908541195 14 - #40 * EVar vlmMsq / #3 -
   #32894 * EVar vlmMst1 / #945 - #286 * EPow P2 (EVar vlmMst1) / #9) - #50753 * EPow P2 (EVar vlmMst1) / #945 + #32 *
   EVar vlmMt * (- #2 * EVar vlmMst1 * (#1 + EVar vlmMst2) + EVar vlmMst2 * (#2 + EVar vlmMst2) + EPow P2 (EVar
   vlmMst1)) / #3 + (EDec 8851534391534392 14 - #2 * EVar vlmMst1 / #9) * EPow P2 (EVar vlmMst2) + #190 * EPow P3
   (EVar vlmMst1) / #27 - EVar vDmglst2 * (EDec 1903527287429963 13 - #160 * EVar vlmMsq / #3 + (- EDec
   5359278609221467 13 + #200 * EVar vlmMsq / #3) * EVar vlmMst1 + EVar vlmMst2 * (EDec 3154834164777022 13 - #200 *
   EVar vlmMsq / #3 + #84592 * EVar vlmMst1 / #315 - #208 * EPow P2 (EVar vlmMst1) / #9) - #35576 * EPow P2 (EVar
   vlmMst1) / #315 + #8 * (- #6127 + #5110 * EVar vlmMst1) * EPow P2 (EVar vlmMst2) / #315 + #64 * EVar vlmMt * (#2 +
   #5 * EVar vlmMst2 - EVar vlmMst1 * (#5 + #2 * EVar vlmMst2) + EPow P2 (EVar vlmMst1) + EPow P2 (EVar vlmMst2)) / #3
   + #16 * EPow P3 (EVar vlmMst1) / #27 - #2896 * EPow P3 (EVar vlmMst2) / #27) / EVar vMgl + #674 * EPow P3 (EVar
   vlmMst2) / #27) / EPow P2 (EVar vMst2)) * EPow P4 (EVar vMst1) + EPow P2 (EVar vMst2) * (EDec 2525348765432099 13 +
   #8 * EConst CD3 / #9 - #8 * EConst CDN / #9 - #100 * EVar vlmMsq / #3 + #32 * EVar vlmMt / #3 + #20 * EPow P2 (EVar
   vlmMsq) + #2 * EVar vlmMst1 * (#763 - #300 * EVar vlmMsq + #45 * EPow P2 (EVar vlmMsq)) / #27 + #124 * EPow P2
   (EVar vlmMst1) / #9 - #2 * EVar vlmMst2 * (#30 * EVar vlmMsq * (#8 + #3 * EVar vlmMst1) + #45 * EPow P2 (EVar
   vlmMsq) + #13 * (- #209 - #30 * EVar vlmMst1 + #9 * EPow P2 (EVar vlmMst1))) / #27 + #2 * (#256 + #30 * EVar vlmMsq
   + #31 * EVar vlmMst1) * EPow P2 (EVar vlmMst2) / #9 + #32 * EPow P3 (EVar vlmMst1) / #9 - #16 * EPow P3 (EVar
   vlmMst2) / #9 + #2 * ((#11250 * EVar vDmglst2 * (#3 - #4 * EVar vlmMsq + #4 * EVar vlmMst2) - EVar vMgl * (#3091 -
   #10230 * EVar vlmMst2 + #60 * EVar vlmMst1 * (#92 + #75 * EVar vlmMst2) + #30 * EVar vlmMsq * (#157 - #60 * (EVar
   vlmMst1 + EVar vlmMst2)) + #1800 * EPow P2 (EVar vlmMsq) - #1350 * EPow P2 (EVar vlmMst1) - #1350 * EPow P2 (EVar
   vlmMst2))) * EPow P2 (EVar vMst1) / EPow P2 (EVar vMsq) + #15 * EVar vDmglst2 * (#28373 - #240 * EConst CB4 + #240
   * EConst CD3 - #120 * EConst CDN + #750 * EVar vlmMsq + #1380 * EVar vlmMst1 + #2700 * EPow P2 (EVar vlmMsq) + #690
   * EPow P2 (EVar vlmMst1) - #20 * EVar vlmMst2 * (- #1676 + #270 * EVar vlmMsq - #27 * EVar vlmMst1 + #48 * EPow P2
   (EVar vlmMst1)) - #30 * (- #391 + #32 * EVar vlmMst1) * EPow P2 (EVar vlmMst2) + #1920 * EPow P3 (EVar vlmMst2))) /
   (#2025 * EVar vMgl) - (EDec 23647986178598424 16 - #991 * EVar vlmMsq / #441 + (- #194 + #385 * EVar vlmMsq) * EVar
   vlmMst1 / #735 + (EDec 2511111111111111 15 - EVar vlmMsq + EVar vlmMst1) * EVar vlmMst2 - #5 * EVar vDmglst2 * (#1
   + #4 * EVar vlmMsq - #4 * EVar vlmMst2) / (#6 * EVar vMgl) + #5 * EPow P2 (EVar vlmMsq) / #21 - #16 * EPow P2 (EVar
   vlmMst1) / #21) * EPow P4 (EVar vMst1) / EPow P4 (EVar vMsq)) + (#15 * (#8575 * EVar vDmglst2 * ((#65 - #324 * EVar
   vlmMsq + #324 * EVar vlmMst2) * EPow P2 (EVar vMst1) + (- #203 + #540 * EVar vlmMsq - #540 * EVar vlmMst2) * EPow
   P2 (EVar vMst2)) - #2 * EVar vMgl * ((#9261 * EVar vlmMst1 * (#7 + #5 * EVar vlmMst2) + #105 * EVar vlmMsq * (#2929
   - #441 * EVar vlmMst1 + #231 * EVar vlmMst2) + #11025 * EPow P2 (EVar vlmMsq) - #2 * (#65299 + #186186 * EVar
   vlmMst2 + #17640 * EPow P2 (EVar vlmMst2))) * EPow P2 (EVar vMst1) + (#242073 - #105 * EVar vlmMsq * (#3909 + #49 *
   EVar vlmMst1 - #259 * EVar vlmMst2) + #399812 * EVar vlmMst2 + #343 * EVar vlmMst1 * (#31 + #15 * EVar vlmMst2) -
   #11025 * EPow P2 (EVar vlmMsq) - #16170 * EPow P2 (EVar vlmMst2)) * EPow P2 (EVar vMst2))) - #686 * EPow P2 (EVar
   vMsq) * (EVar vMgl * (#750 * (- #43 + #30 * EVar vlmMsq - #30 * EVar vlmMst2) * EPow P2 (EVar vMst1) * EPow P2
   (EVar vMst2) + #225 * EPow P2 (EVar vMsq) * ((#309 + #578 * EVar vlmMst2 + #64 * EVar vlmMst1 * (#1 + EVar vlmMst2)
   - #30 * EVar vlmMsq * (#5 + #6 * EVar vlmMst2) + #90 * EPow P2 (EVar vlmMsq) + #240 * EPow P2 (EVar vlmMst2)) *
   EPow P2 (EVar vMst1) - #32 * EPow P2 (#1 + EVar vlmMst2) * EPow P2 (EVar vMst2)) + #2 * (#22642 - #15 * EVar vlmMsq
   * (#1282 + #75 * EVar vlmMst1 - #195 * EVar vlmMst2) + #16230 * EVar vlmMst2 + #375 * EVar vlmMst1 * (#8 + #3 *
   EVar vlmMst2) - #900 * EPow P2 (EVar vlmMsq) - #2025 * EPow P2 (EVar vlmMst2)) * EPow P4 (EVar vMst1)) + #150 *
   EVar vDmglst2 * (#3 * EPow P2 (EVar vMsq) * ((- #179 + #30 * EVar vlmMsq + #238 * EVar vlmMst2 - #180 * EVar vlmMsq
   * EVar vlmMst2 + #64 * EVar vlmMst1 * EVar vlmMst2 + #90 * EPow P2 (EVar vlmMsq) + #272 * EPow P2 (EVar vlmMst2)) *
   EPow P2 (EVar vMst1) - #64 * EVar vlmMst2 * (#1 + EVar vlmMst2) * EPow P2 (EVar vMst2)) - #10 * (#4 * (#14 - #15 *
   EVar vlmMsq + #15 * EVar vlmMst2) * EPow P2 (EVar vMst1) * EPow P2 (EVar vMst2) + (- #107 + #120 * EVar vlmMsq -
   #120 * EVar vlmMst2) * EPow P4 (EVar vMst1)))) / EPow P4 (EVar vMst1)) * EPow P4 (EVar vMst2) / (#1389150 * EVar
   vMgl * EPow P4 (EVar vMsq)) - EPow P2 (EVar vMuSUSY) * (#15829 - #720 * EConst CB4 + #72 * EConst CD3 - #36 *
   EConst CDN - #3330 * EVar vlmMsq + #1350 * EPow P2 (EVar vlmMsq) - #3 * EVar vlmMst1 * (#5279 - #1950 * EVar vlmMsq
   + #630 * EPow P2 (EVar vlmMsq)) - #954 * EPow P2 (EVar vlmMst1) + #3 * EVar vlmMst2 * (#10421 - #6558 * EVar
   vlmMst1 + #30 * EVar vlmMsq * (- #95 + #42 * EVar vlmMst1) + #630 * EPow P2 (EVar vlmMsq) + #234 * EPow P2 (EVar
   vlmMst1)) - #18 * (- #1460 + #210 * EVar vlmMsq + #399 * EVar vlmMst1) * EPow P2 (EVar vlmMst2) - #288 * EPow P3
   (EVar vlmMst1) + #6768 * EPow P3 (EVar vlmMst2) + #162 * ((EVar vMgl * (#111 - #3028 * EVar vlmMst2 + #90 * EVar
   vlmMsq * (#4 - #13 * EVar vlmMst1 + #13 * EVar vlmMst2) + #2 * EVar vlmMst1 * (#1334 + #675 * EVar vlmMst2) - #90 *
   EPow P2 (EVar vlmMst1) - #1260 * EPow P2 (EVar vlmMst2)) + #100 * EVar vDmglst2 * (#69 + (- #53 + #42 * EVar
   vlmMsq) * EVar vlmMst2 + EVar vlmMst1 * (#53 - #42 * EVar vlmMsq + #42 * EVar vlmMst2) - #42 * EPow P2 (EVar
   vlmMst2))) * EPow P2 (EVar vMst1) / (#135 * EPow P2 (EVar vMsq)) + EVar vDmglst2 * (EDec 19734567901234566 15 - #8
   * EConst CB4 / #3 + #32 * EConst CD3 / #9 - #20 * EConst CDN / #9 + #170 * EVar vlmMsq / #3 + EVar vlmMst1 * (EDec
   9333333333333334 15 - #20 * EPow P2 (EVar vlmMsq)) + #10 * EPow P2 (EVar vlmMsq) - #26 * EPow P2 (EVar vlmMst1) /
   #3 + #2 * EVar vlmMst2 * (- #291 - #464 * EVar vlmMst1 + #90 * EVar vlmMsq * (- #1 + #2 * EVar vlmMst1) + #90 *
   EPow P2 (EVar vlmMsq) + #32 * EPow P2 (EVar vlmMst1)) / #9 - #2 * (- #607 + #180 * EVar vlmMsq + #336 * EVar
   vlmMst1) * EPow P2 (EVar vlmMst2) / #9 + #608 * EPow P3 (EVar vlmMst2) / #9)) / EVar vMgl - #162 * EPow P2 (EVar
   vMst1) * (EDec 20420053497942388 14 + #76 * EConst CB4 / #9 - #2 * EConst CDN / #9 - #50 * EVar vlmMsq / #3 + #2 *
   EVar vlmMst1 * (#57971 - #14625 * EVar vlmMsq + #2700 * EPow P2 (EVar vlmMsq)) / #405 + (- #1331 + #180 * EVar
   vlmMsq) * EPow P2 (EVar vlmMst1) / #27 - #2 * EVar vlmMst2 * (#52436 - #70455 * EVar vlmMst1 + #225 * EVar vlmMsq *
   (- #65 + #36 * EVar vlmMst1) + #2700 * EPow P2 (EVar vlmMsq) + #8280 * EPow P2 (EVar vlmMst1)) / #405 + (- #8063 +
   #900 * EVar vlmMsq + #3792 * EVar vlmMst1) * EPow P2 (EVar vlmMst2) / #27 - #62 * EPow P3 (EVar vlmMst1) / #27 -
   #2626 * EPow P3 (EVar vlmMst2) / #27 - EVar vDmglst2 * (EDec 10911799176954733 14 - #8 * EConst CB4 / #3 + #32 *
   EConst CD3 / #9 - #20 * EConst CDN / #9 + #80 * EVar vlmMsq - EVar vlmMst1 * (EDec 7819061728395062 14 + #20 * EPow
   P2 (EVar vlmMsq)) - #2888 * EPow P2 (EVar vlmMst1) / #135 + EVar vlmMst2 * (#40 * EVar vlmMsq * EVar vlmMst1 + #20
   * EPow P2 (EVar vlmMsq) + #4 * (- #21616 - #64515 * EVar vlmMst1 + #31275 * EPow P2 (EVar vlmMst1)) / #2025) - #4 *
   (- #5023 + #1350 * EVar vlmMsq + #6285 * EVar vlmMst1) * EPow P2 (EVar vlmMst2) / #135 + #20 * EPow P3 (EVar
   vlmMst1) / #27 + #3340 * EPow P3 (EVar vlmMst2) / #27) / EVar vMgl) / EPow P2 (EVar vMst2) + #162 * EPow P4 (EVar
   vMst1) * ((EDec 10702990137854083 16 + #9571 * EVar vlmMsq / #26460 + (EDec 4249508692365835 15 - #169 * EVar
   vlmMsq / #63) * EVar vlmMst1 + (- EDec 46112244897959185 16 + #19 * EVar vlmMsq / #7 + #31 * EVar vlmMst1 / #9) *
   EVar vlmMst2 - EPow P2 (EVar vlmMsq) / #63 - #8 * EPow P2 (EVar vlmMst1) / #21 + #5 * EVar vDmglst2 * (#216 + (-
   #95 + #132 * EVar vlmMsq) * EVar vlmMst2 + EVar vlmMst1 * (#95 - #132 * EVar vlmMsq + #132 * EVar vlmMst2) - #132 *
   EPow P2 (EVar vlmMst2)) / (#54 * EVar vMgl) - #194 * EPow P2 (EVar vlmMst2) / #63) / EPow P4 (EVar vMsq) - (EDec
   3633804294212688 13 + #76 * EConst CB4 / #9 - #2 * EConst CDN / #9 - #35 * EVar vlmMsq / #2 + EVar vlmMst1 * (EDec
   2113489518770471 13 - #695 * EVar vlmMsq / #9 + #40 * EPow P2 (EVar vlmMsq) / #3) - (EDec 21487936507936507 14 -
   #20 * EVar vlmMsq) * EPow P2 (EVar vlmMst1) - EVar vlmMst2 * (EDec 19046006298815823 14 - #71398 * EVar vlmMst1 /
   #105 + #5 * EVar vlmMsq * (- #139 + #120 * EVar vlmMst1) / #9 + #40 * EPow P2 (EVar vlmMsq) / #3 + #334 * EPow P2
   (EVar vlmMst1) / #3) + (- #146507 + #14700 * EVar vlmMsq + #91070 * EVar vlmMst1) * EPow P2 (EVar vlmMst2) / #315 -
   #44 * EPow P3 (EVar vlmMst1) / #9 - #1556 * EPow P3 (EVar vlmMst2) / #9 - EVar vDmglst2 * (EDec 5361152102791342 13
   - #8 * EConst CB4 / #3 + #32 * EConst CD3 / #9 - #20 * EConst CDN / #9 + #90 * EVar vlmMsq - (EDec
   12311224321827497 14 + #20 * EVar vlmMsq * (#1 + EVar vlmMsq)) * EVar vlmMst1 - EVar vlmMst2 * (EDec
   1733220122616948 14 - #20 * EVar vlmMsq * (#1 + EVar vlmMsq) + (EDec 13304550264550264 14 - #40 * EVar vlmMsq) *
   EVar vlmMst1 - #1180 * EPow P2 (EVar vlmMst1) / #9) - #15886 * EPow P2 (EVar vlmMst1) / #945 + (EDec
   14985608465608465 14 - #40 * EVar vlmMsq - #2812 * EVar vlmMst1 / #9) * EPow P2 (EVar vlmMst2) - #92 * EPow P3
   (EVar vlmMst1) / #27 + #4988 * EPow P3 (EVar vlmMst2) / #27) / EVar vMgl) / EPow P4 (EVar vMst2)) + #162 * ((EVar
   vMgl * (#341 + #642 * EVar vlmMst2 + #64 * EVar vlmMst1 * (#1 + EVar vlmMst2) - #30 * EVar vlmMsq * (#5 + #6 * EVar
   vlmMst2) + #90 * EPow P2 (EVar vlmMsq) + #272 * EPow P2 (EVar vlmMst2)) + #2 * EVar vDmglst2 * (- #115 + (#366 +
   #64 * EVar vlmMst1) * EVar vlmMst2 - #30 * EVar vlmMsq * (- #1 + #6 * EVar vlmMst2) + #90 * EPow P2 (EVar vlmMsq) +
   #336 * EPow P2 (EVar vlmMst2))) * EPow P2 (EVar vMst2) / (#18 * EPow P2 (EVar vMst1)) + EPow P2 (EVar vMst2) *
   (EVar vMgl * (#2 * (#4167613 - #19932360 * EVar vlmMst2 + #20580 * EVar vlmMst1 * (#701 + #540 * EVar vlmMst2) +
   #420 * EVar vlmMsq * (#13109 - #26460 * EVar vlmMst1 + #25620 * EVar vlmMst2) + #176400 * EPow P2 (EVar vlmMsq) -
   #10936800 * EPow P2 (EVar vlmMst2)) * EPow P2 (EVar vMst1) + (#41220947 - #420 * EVar vlmMsq * (#12479 + #69090 *
   EVar vlmMst1 - #69930 * EVar vlmMst2) - #21234990 * EVar vlmMst2 + #10290 * EVar vlmMst1 * (#2573 + #2820 * EVar
   vlmMst2) - #176400 * EPow P2 (EVar vlmMsq) - #29194200 * EPow P2 (EVar vlmMst2)) * EPow P2 (EVar vMst2)) + #514500
   * EVar vDmglst2 * (#2 * (#219 + (- #95 + #132 * EVar vlmMsq) * EVar vlmMst2 + EVar vlmMst1 * (#95 - #132 * EVar
   vlmMsq + #132 * EVar vlmMst2) - #132 * EPow P2 (EVar vlmMst2)) * EPow P2 (EVar vMst1) + (#557 - #224 * EVar vlmMst2
   + #12 * EVar vlmMsq * (#1 - #32 * EVar vlmMst1 + #32 * EVar vlmMst2) + #4 * EVar vlmMst1 * (#53 + #96 * EVar
   vlmMst2) - #384 * EPow P2 (EVar vlmMst2)) * EPow P2 (EVar vMst2))) / (#11113200 * EPow P4 (EVar vMsq)) + (- #5 *
   ((#64 * EVar vDmglst2 * (#14 - #15 * EVar vlmMsq + #15 * EVar vlmMst2) + #8 * (#43 - #30 * EVar vlmMsq + #30 * EVar
   vlmMst2) * EVar vMgl) * EPow P2 (EVar vMsq) + (#18 * EVar vDmglst2 * (#13 - #28 * EVar vlmMsq + #28 * EVar vlmMst2)
   + (#67 - #84 * EVar vlmMsq + #84 * EVar vlmMst2) * EVar vMgl) * EPow P2 (EVar vMst2)) / (#216 * EPow P2 (EVar
   vMst1) * EPow P4 (EVar vMsq)) - #16 * (#1 + EVar vlmMst2) * (#4 * EVar vDmglst2 * EVar vlmMst2 + EVar vMgl + EVar
   vlmMst2 * EVar vMgl) / (#9 * EPow P4 (EVar vMst1))) * EPow P4 (EVar vMst2) + (EVar vMgl * ((#1725 + (- #7006 +
   #2640 * EVar vlmMsq) * EVar vlmMst2 + EVar vlmMst1 * (#7006 - #2640 * EVar vlmMsq + #4800 * EVar vlmMst2) - #1080 *
   EPow P2 (EVar vlmMst1) - #3720 * EPow P2 (EVar vlmMst2)) * EPow P4 (EVar vMst1) + #2 * (#836 - #2235 * EVar vlmMst2
   + #75 * EVar vlmMst1 * (#27 + #16 * EVar vlmMst2) + #30 * EVar vlmMsq * (#7 - #40 * EVar vlmMst1 + #40 * EVar
   vlmMst2) - #1200 * EPow P2 (EVar vlmMst2)) * EPow P4 (EVar vMst2)) + #50 * EVar vDmglst2 * ((#291 + #2 * (- #103 +
   #84 * EVar vlmMsq) * EVar vlmMst2 + #2 * EVar vlmMst1 * (#103 - #84 * EVar vlmMsq + #84 * EVar vlmMst2) - #168 *
   EPow P2 (EVar vlmMst2)) * EPow P4 (EVar vMst1) + #2 * (#118 + #109 * EVar vlmMst1 + (- #133 + #102 * EVar vlmMst1)
   * EVar vlmMst2 + #6 * EVar vlmMsq * (#4 - #17 * EVar vlmMst1 + #17 * EVar vlmMst2) - #102 * EPow P2 (EVar vlmMst2))
   * EPow P4 (EVar vMst2))) / (#270 * EPow P2 (EVar vMsq) * EPow P2 (EVar vMst2))) / EVar vMgl) / #162 + (- #3 * EVar
   vMgl * (#6 * EPow P2 (EVar vMst1) * EPow P2 (EVar vMst2) * ((#25760 * EConst COepS2 - #162 * (#4783 + #3220 * EVar
   vlmMst1 - #3220 * EVar vlmMst2) * EConst CS2) * EPow P2 (EVar vMst2) + #5 * (#3896 * EConst COepS2 - #81 * (#9473 +
   #974 * EVar vlmMst1 - #974 * EVar vlmMst2) * EConst CS2) * EPow P2 (EVar vMuSUSY)) + ((#276680 * EConst COepS2 -
   #27 * (#406627 + #207510 * EVar vlmMst1 - #207510 * EVar vlmMst2) * EConst CS2) * EPow P2 (EVar vMst2) + #10 *
   (#29428 * EConst COepS2 - #27 * (#160997 + #22071 * EVar vlmMst1 - #22071 * EVar vlmMst2) * EConst CS2) * EPow P2
   (EVar vMuSUSY)) * EPow P4 (EVar vMst1) + #27 * ((#920 * EConst COepS2 - #81 * (- #891 + #230 * EVar vlmMst1 - #230
   * EVar vlmMst2) * EConst CS2) * EPow P2 (EVar vMst2) + #160 * (#4 * EConst COepS2 - #81 * (#22 + EVar vlmMst1 -
   EVar vlmMst2) * EConst CS2) * EPow P2 (EVar vMuSUSY)) * EPow P4 (EVar vMst2)) + #4 * EVar vDmglst2 * (#54 * EPow P2
   (EVar vMst1) * EPow P2 (EVar vMst2) * ((#2000 * EConst COepS2 - #162 * (#31 + #250 * EVar vlmMst1 - #250 * EVar
   vlmMst2) * EConst CS2) * EPow P2 (EVar vMst2) + #5 * (#344 * EConst COepS2 + #9 * (#15643 - #774 * EVar vlmMst1 +
   #774 * EVar vlmMst2) * EConst CS2) * EPow P2 (EVar vMuSUSY)) + #2 * (#9 * (#30760 * EConst COepS2 - #27 * (#28283 +
   #23070 * EVar vlmMst1 - #23070 * EVar vlmMst2) * EConst CS2) * EPow P2 (EVar vMst2) + #10 * (#17308 * EConst COepS2
   + #27 * (#93919 - #12981 * EVar vlmMst1 + #12981 * EVar vlmMst2) * EConst CS2) * EPow P2 (EVar vMuSUSY)) * EPow P4
   (EVar vMst1) + #135 * (#56 * EConst COepS2 - #81 * (- #1677 + #14 * EVar vlmMst1 - #14 * EVar vlmMst2) * EConst
   CS2) * EPow P2 (EVar vMuSUSY) * EPow P4 (EVar vMst2) - #2768742 * EConst CS2 * EPow P6 (EVar vMst2))) / (#21870 *
   EVar vMgl * EPow P4 (EVar vMst2))) + EPow P2 (EVar vMt) * EPow P2 (EVar vMuSUSY) * (EPow P2 (EVar vMt) * (#3 * EVar
   vMgl * (#8 * EPow P2 (EVar vMst2) * (#436 - #6 * EConst CB4 + #6 * EConst CD3 - #3 * EConst CDN - #48 * EVar
   vlmMst1 + (#408 - #96 * EVar vlmMst1) * EVar vlmMst2 + #24 * EVar vlmMt - #972 * EConst CS2 - #48 * (- #4 + EVar
   vlmMst1) * EPow P2 (EVar vlmMst2) + #48 * EPow P3 (EVar vlmMst2)) + EPow P2 (EVar vMst1) * (#10667 - #96 * EConst
   CB4 + #96 * EConst CD3 - #48 * EConst CDN - #3072 * EVar vlmMst1 - #384 * (- #25 + #9 * EVar vlmMst1) * EVar
   vlmMst2 - #384 * (- #1 + EVar vlmMst1 - EVar vlmMst2) * EVar vlmMt - #224 * EConst COepS2 + #324 * (- #43 + #14 *
   EVar vlmMst1 - #14 * EVar vlmMst2) * EConst CS2 - #384 * (- #13 + #4 * EVar vlmMst1) * EPow P2 (EVar vlmMst2) +
   #1536 * EPow P3 (EVar vlmMst2))) + #2 * EVar vDmglst2 * (#72 * EPow P2 (EVar vMst2) * (#180 - #2 * EConst CB4 + #2
   * EConst CD3 - EConst CDN + #16 * EVar vlmMst1 + #144 * EVar vlmMst2 - #216 * EConst CS2 - #16 * (- #2 + EVar
   vlmMst1) * EPow P2 (EVar vlmMst2) + #16 * EPow P3 (EVar vlmMst2)) + EPow P2 (EVar vMst1) * (#28405 - #288 * EConst
   CB4 + #288 * EConst CD3 - #144 * EConst CDN + #5472 * EVar vlmMst1 - #288 * (- #89 + #2 * EVar vlmMst1) * EVar
   vlmMst2 + #576 * (- #2 + EVar vlmMst1 - EVar vlmMst2) * EVar vlmMt + #224 * EConst COepS2 - #324 * (#65 + #14 *
   EVar vlmMst1 - #14 * EVar vlmMst2) * EConst CS2 - #576 * (- #9 + #8 * EVar vlmMst1) * EPow P2 (EVar vlmMst2) +
   #4608 * EPow P3 (EVar vlmMst2)))) / (#81 * EVar vMgl * EPow P4 (EVar vMst2)) + EPow P2 (EVar vs2t) * (EDec
   9770987654320987 14 - #40 * EConst CB4 / #9 + #4 * EConst CD3 / #9 - #2 * EConst CDN / #9 - #185 * EVar vlmMsq / #9
   + #25 * EPow P2 (EVar vlmMsq) / #3 - EVar vlmMst1 * (#5279 - #1950 * EVar vlmMsq + #630 * EPow P2 (EVar vlmMsq)) /
   #54 - #53 * EPow P2 (EVar vlmMst1) / #9 + EVar vlmMst2 * (#10421 - #6558 * EVar vlmMst1 + #30 * EVar vlmMsq * (-
   #95 + #42 * EVar vlmMst1) + #630 * EPow P2 (EVar vlmMsq) + #234 * EPow P2 (EVar vlmMst1)) / #54 - (- #1460 + #210 *
   EVar vlmMsq + #399 * EVar vlmMst1) * EPow P2 (EVar vlmMst2) / #9 - #16 * EPow P3 (EVar vlmMst1) / #9 + #376 * EPow
   P3 (EVar vlmMst2) / #9 - EPow P2 (EVar vMst1) * (EDec 20420053497942388 14 + #76 * EConst CB4 / #9 - #2 * EConst
   CDN / #9 - #50 * EVar vlmMsq / #3 + #2 * EVar vlmMst1 * (#57971 - #14625 * EVar vlmMsq + #2700 * EPow P2 (EVar
   vlmMsq)) / #405 + (- #1331 + #180 * EVar vlmMsq) * EPow P2 (EVar vlmMst1) / #27 - #2 * EVar vlmMst2 * (#52436 -
   #70455 * EVar vlmMst1 + #225 * EVar vlmMsq * (- #65 + #36 * EVar vlmMst1) + #2700 * EPow P2 (EVar vlmMsq) + #8280 *
   EPow P2 (EVar vlmMst1)) / #405 + (- #8063 + #900 * EVar vlmMsq + #3792 * EVar vlmMst1) * EPow P2 (EVar vlmMst2) /
   #27 - #62 * EPow P3 (EVar vlmMst1) / #27 - #2626 * EPow P3 (EVar vlmMst2) / #27 - EVar vDmglst2 * (EDec
   10911799176954733 14 - #8 * EConst CB4 / #3 + #32 * EConst CD3 / #9 - #20 * EConst CDN / #9 + #80 * EVar vlmMsq -
   EVar vlmMst1 * (EDec 7819061728395062 14 + #20 * EPow P2 (EVar vlmMsq)) - #2888 * EPow P2 (EVar vlmMst1) / #135 +
   EVar vlmMst2 * (#40 * EVar vlmMsq * EVar vlmMst1 + #20 * EPow P2 (EVar vlmMsq) + #4 * (- #21616 - #64515 * EVar
   vlmMst1 + #31275 * EPow P2 (EVar vlmMst1)) / #2025) - #4 * (- #5023 + #1350 * EVar vlmMsq + #6285 * EVar vlmMst1) *
   EPow P2 (EVar vlmMst2) / #135 + #20 * EPow P3 (EVar vlmMst1) / #27 + #3340 * EPow P3 (EVar vlmMst2) / #27) / EVar
   vMgl) / EPow P2 (EVar vMst2) + (#6 * (EVar vMgl * (#111 - #3028 * EVar vlmMst2 + #90 * EVar vlmMsq * (#4 - #13 *
   EVar vlmMst1 + #13 * EVar vlmMst2) + #2 * EVar vlmMst1 * (#1334 + #675 * EVar vlmMst2) - #90 * EPow P2 (EVar
   vlmMst1) - #1260 * EPow P2 (EVar vlmMst2)) + #100 * EVar vDmglst2 * (#69 + (- #53 + #42 * EVar vlmMsq) * EVar
   vlmMst2 + EVar vlmMst1 * (#53 - #42 * EVar vlmMsq + #42 * EVar vlmMst2) - #42 * EPow P2 (EVar vlmMst2))) * EPow P2
   (EVar vMst1) / EPow P2 (EVar vMsq) + #5 * EVar vDmglst2 * (#3197 - #432 * EConst CB4 + #576 * EConst CD3 - #360 *
   EConst CDN + #9180 * EVar vlmMsq + #216 * EVar vlmMst1 * (#7 - #15 * EPow P2 (EVar vlmMsq)) + #1620 * EPow P2 (EVar
   vlmMsq) - #1404 * EPow P2 (EVar vlmMst1) + #36 * EVar vlmMst2 * (- #291 - #464 * EVar vlmMst1 + #90 * EVar vlmMsq *
   (- #1 + #2 * EVar vlmMst1) + #90 * EPow P2 (EVar vlmMsq) + #32 * EPow P2 (EVar vlmMst1)) - #36 * (- #607 + #180 *
   EVar vlmMsq + #336 * EVar vlmMst1) * EPow P2 (EVar vlmMst2) + #10944 * EPow P3 (EVar vlmMst2))) / (#810 * EVar
   vMgl) - EConst CS2 * (#1056 + #48 * EVar vlmMst1 - #48 * EVar vlmMst2 + (#9473 + #974 * EVar vlmMst1 - #974 * EVar
   vlmMst2 + #3 * EVar vDmglst2 * (EDec 6952444444444444 12 - #344 * EVar vlmMst1 + #344 * EVar vlmMst2) / EVar vMgl)
   * EPow P2 (EVar vMst1) / (#3 * EPow P2 (EVar vMst2)) + (EVar vDmglst2 * (#3354 - #28 * EVar vlmMst1 + #28 * EVar
   vlmMst2) + (#8 * EVar vDmglst2 * (#93919 - #12981 * EVar vlmMst1 + #12981 * EVar vlmMst2) + #3 * (#160997 + #22071
   * EVar vlmMst1 - #22071 * EVar vlmMst2) * EVar vMgl) * EPow P4 (EVar vMst1) / (#81 * EPow P4 (EVar vMst2))) / EVar
   vMgl) + EPow P4 (EVar vMst1) * ((EDec 10702990137854083 16 + #9571 * EVar vlmMsq / #26460 + (#56221 - #35490 * EVar
   vlmMsq) * EVar vlmMst1 / #13230 + (- EDec 46112244897959185 16 + #19 * EVar vlmMsq / #7 + #31 * EVar vlmMst1 / #9)
   * EVar vlmMst2 - EPow P2 (EVar vlmMsq) / #63 - #8 * EPow P2 (EVar vlmMst1) / #21 + #5 * EVar vDmglst2 * (#216 + (-
   #95 + #132 * EVar vlmMsq) * EVar vlmMst2 + EVar vlmMst1 * (#95 - #132 * EVar vlmMsq + #132 * EVar vlmMst2) - #132 *
   EPow P2 (EVar vlmMst2)) / (#54 * EVar vMgl) - #194 * EPow P2 (EVar vlmMst2) / #63) / EPow P4 (EVar vMsq) - (EDec
   3633804294212688 13 + #76 * EConst CB4 / #9 - #2 * EConst CDN / #9 - #35 * EVar vlmMsq / #2 + EVar vlmMst1 * (EDec
   2113489518770471 13 - #695 * EVar vlmMsq / #9 + #40 * EPow P2 (EVar vlmMsq) / #3) - (EDec 21487936507936507 14 -
   #20 * EVar vlmMsq) * EPow P2 (EVar vlmMst1) - EVar vlmMst2 * (EDec 19046006298815823 14 - #71398 * EVar vlmMst1 /
   #105 + #5 * EVar vlmMsq * (- #139 + #120 * EVar vlmMst1) / #9 + #40 * EPow P2 (EVar vlmMsq) / #3 + #334 * EPow P2
   (EVar vlmMst1) / #3) + (- #146507 + #14700 * EVar vlmMsq + #91070 * EVar vlmMst1) * EPow P2 (EVar vlmMst2) / #315 -
   #44 * EPow P3 (EVar vlmMst1) / #9 - #1556 * EPow P3 (EVar vlmMst2) / #9 - EVar vDmglst2 * (EDec 5361152102791342 13
   - #8 * EConst CB4 / #3 + #32 * EConst CD3 / #9 - #20 * EConst CDN / #9 + #90 * EVar vlmMsq - (EDec
   12311224321827497 14 + #20 * EVar vlmMsq * (#1 + EVar vlmMsq)) * EVar vlmMst1 - EVar vlmMst2 * (EDec
   1733220122616948 14 - #20 * EVar vlmMsq * (#1 + EVar vlmMsq) + (EDec 13304550264550264 14 - #40 * EVar vlmMsq) *
   EVar vlmMst1 - #1180 * EPow P2 (EVar vlmMst1) / #9) - #15886 * EPow P2 (EVar vlmMst1) / #945 + (EDec
   14985608465608465 14 - #40 * EVar vlmMsq - #2812 * EVar vlmMst1 / #9) * EPow P2 (EVar vlmMst2) - #92 * EPow P3
   (EVar vlmMst1) / #27 + #4988 * EPow P3 (EVar vlmMst2) / #27) / EVar vMgl) / EPow P4 (EVar vMst2)) + ((EVar vMgl *
   (#341 + #642 * EVar vlmMst2 + #64 * EVar vlmMst1 * (#1 + EVar vlmMst2) - #30 * EVar vlmMsq * (#5 + #6 * EVar
   vlmMst2) + #90 * EPow P2 (EVar vlmMsq) + #272 * EPow P2 (EVar vlmMst2)) + #2 * EVar vDmglst2 * (- #115 + (#366 +
   #64 * EVar vlmMst1) * EVar vlmMst2 - #30 * EVar vlmMsq * (- #1 + #6 * EVar vlmMst2) + #90 * EPow P2 (EVar vlmMsq) +
   #336 * EPow P2 (EVar vlmMst2))) * EPow P2 (EVar vMst2) / (#18 * EPow P2 (EVar vMst1)) + EPow P2 (EVar vMst2) *
   (EVar vMgl * (#2 * (#4167613 - #19932360 * EVar vlmMst2 + #20580 * EVar vlmMst1 * (#701 + #540 * EVar vlmMst2) +
   #420 * EVar vlmMsq * (#13109 - #26460 * EVar vlmMst1 + #25620 * EVar vlmMst2) + #176400 * EPow P2 (EVar vlmMsq) -
   #10936800 * EPow P2 (EVar vlmMst2)) * EPow P2 (EVar vMst1) + (#41220947 - #420 * EVar vlmMsq * (#12479 + #69090 *
   EVar vlmMst1 - #69930 * EVar vlmMst2) - #21234990 * EVar vlmMst2 + #10290 * EVar vlmMst1 * (#2573 + #2820 * EVar
   vlmMst2) - #176400 * EPow P2 (EVar vlmMsq) - #29194200 * EPow P2 (EVar vlmMst2)) * EPow P2 (EVar vMst2)) + #514500
   * EVar vDmglst2 * (#2 * (#219 + (- #95 + #132 * EVar vlmMsq) * EVar vlmMst2 + EVar vlmMst1 * (#95 - #132 * EVar
   vlmMsq + #132 * EVar vlmMst2) - #132 * EPow P2 (EVar vlmMst2)) * EPow P2 (EVar vMst1) + (#557 - #224 * EVar vlmMst2
   + #12 * EVar vlmMsq * (#1 - #32 * EVar vlmMst1 + #32 * EVar vlmMst2) + #4 * EVar vlmMst1 * (#53 + #96 * EVar
   vlmMst2) - #384 * EPow P2 (EVar vlmMst2)) * EPow P2 (EVar vMst2))) / (#11113200 * EPow P4 (EVar vMsq)) + (- #5 *
   ((#64 * EVar vDmglst2 * (#14 - #15 * EVar vlmMsq + #15 * EVar vlmMst2) + #8 * (#43 - #30 * EVar vlmMsq + #30 * EVar
   vlmMst2) * EVar vMgl) * EPow P2 (EVar vMsq) + (#18 * EVar vDmglst2 * (#13 - #28 * EVar vlmMsq + #28 * EVar vlmMst2)
   + (#67 - #84 * EVar vlmMsq + #84 * EVar vlmMst2) * EVar vMgl) * EPow P2 (EVar vMst2)) / (#216 * EPow P2 (EVar
   vMst1) * EPow P4 (EVar vMsq)) - #16 * (#1 + EVar vlmMst2) * (#4 * EVar vDmglst2 * EVar vlmMst2 + EVar vMgl + EVar
   vlmMst2 * EVar vMgl) / (#9 * EPow P4 (EVar vMst1))) * EPow P4 (EVar vMst2) - #4 * EConst COepS2 * (#4 * EVar
   vDmglst2 * (#2322 * EPow P2 (EVar vMst1) * EPow P2 (EVar vMst2) + #8654 * EPow P4 (EVar vMst1) + #189 * EPow P4
   (EVar vMst2)) - #3 * EVar vMgl * (#2922 * EPow P2 (EVar vMst1) * EPow P2 (EVar vMst2) + #7357 * EPow P4 (EVar
   vMst1) + #432 * EPow P4 (EVar vMst2))) / (#2187 * EPow P4 (EVar vMst2)) + (EVar vMgl * ((#1725 + (- #7006 + #2640 *
   EVar vlmMsq) * EVar vlmMst2 + EVar vlmMst1 * (#7006 - #2640 * EVar vlmMsq + #4800 * EVar vlmMst2) - #1080 * EPow P2
   (EVar vlmMst1) - #3720 * EPow P2 (EVar vlmMst2)) * EPow P4 (EVar vMst1) + #2 * (#836 - #2235 * EVar vlmMst2 + #75 *
   EVar vlmMst1 * (#27 + #16 * EVar vlmMst2) + #30 * EVar vlmMsq * (#7 - #40 * EVar vlmMst1 + #40 * EVar vlmMst2) -
   #1200 * EPow P2 (EVar vlmMst2)) * EPow P4 (EVar vMst2)) + #50 * EVar vDmglst2 * ((#291 + #2 * (- #103 + #84 * EVar
   vlmMsq) * EVar vlmMst2 + #2 * EVar vlmMst1 * (#103 - #84 * EVar vlmMsq + #84 * EVar vlmMst2) - #168 * EPow P2 (EVar
   vlmMst2)) * EPow P4 (EVar vMst1) + #2 * (#118 + #109 * EVar vlmMst1 + (- #133 + #102 * EVar vlmMst1) * EVar vlmMst2
   + #6 * EVar vlmMsq * (#4 - #17 * EVar vlmMst1 + #17 * EVar vlmMst2) - #102 * EPow P2 (EVar vlmMst2)) * EPow P4
   (EVar vMst2))) / (#270 * EPow P2 (EVar vMsq) * EPow P2 (EVar vMst2))) / EVar vMgl) + EVar vMt * EVar vs2t * (#14580
   * EPow P2 (EVar vMst1) * EPow P2 (EVar vMst2) * (EDec 10353004115226338 13 + #1016 * EConst CB4 / #9 - #4 * EConst
   CDN / #9 - #240 * EVar vlmMsq + #80 * EPow P2 (EVar vlmMsq) / #3 - #8 * EVar vlmMst1 * (#422 - #45 * EVar vlmMsq +
   #45 * EPow P2 (EVar vlmMsq)) / #9 - #176 * EPow P2 (EVar vlmMst1) / #9 + #8 * EVar vlmMst2 * (#1096 + #15 * EVar
   vlmMsq * (- #7 + #6 * EVar vlmMst1 - #6 * EVar vlmMst2) + #717 * EVar vlmMst2 - EVar vlmMst1 * (#551 + #248 * EVar
   vlmMst2) + #45 * EPow P2 (EVar vlmMsq) + #8 * EPow P2 (EVar vlmMst1)) / #9 + #640 * EPow P3 (EVar vlmMst2) / #3 +
   (- #80 * (EVar vMgl * (#55 + #6 * EVar vlmMsq * (- #2 + #5 * EVar vlmMst1 - #5 * EVar vlmMst2) + #52 * EVar vlmMst2
   - #10 * EVar vlmMst1 * (#4 + #3 * EVar vlmMst2) + #30 * EPow P2 (EVar vlmMst2)) + EVar vDmglst2 * (#321 + #18 *
   EVar vlmMsq * (- #2 + #5 * EVar vlmMst1 - #5 * EVar vlmMst2) + #96 * EVar vlmMst2 - #30 * EVar vlmMst1 * (#2 + #3 *
   EVar vlmMst2) + #90 * EPow P2 (EVar vlmMst2))) * EPow P2 (EVar vMst1) / (#27 * EPow P2 (EVar vMsq)) + EVar vDmglst2
   * (EDec 8816139917695473 13 + #248 * EConst CB4 - #4 * EConst CDN - #2560 * EVar vlmMsq / #3 + EVar vlmMst1 * (EDec
   13096296296296296 14 - #120 * EVar vlmMsq - #40 * EPow P2 (EVar vlmMsq)) + #80 * EPow P2 (EVar vlmMsq) / #3 + #176
   * EPow P2 (EVar vlmMst1) / #9 + #8 * EVar vlmMst2 * (#4364 - #573 * EVar vlmMst1 + #45 * EVar vlmMsq * (#5 + #6 *
   EVar vlmMst1) + #135 * EPow P2 (EVar vlmMsq) + #24 * EPow P2 (EVar vlmMst1)) / #27 - #8 * (- #377 + #90 * EVar
   vlmMsq + #376 * EVar vlmMst1) * EPow P2 (EVar vlmMst2) / #9 + #2944 * EPow P3 (EVar vlmMst2) / #9)) / EVar vMgl) +
   #10 * (#2552929 + #257904 * EConst CB4 - #648 * EConst CDN - #456840 * EVar vlmMsq + #38880 * EPow P2 (EVar vlmMsq)
   - #216 * EVar vlmMst1 * (#4591 - #360 * EVar vlmMsq + #450 * EPow P2 (EVar vlmMsq)) + #41904 * EPow P2 (EVar
   vlmMst1) + #216 * EVar vlmMst2 * (#9211 - #6466 * EVar vlmMst1 + #180 * EVar vlmMsq * (- #4 + #5 * EVar vlmMst1) +
   #450 * EPow P2 (EVar vlmMsq) + #576 * EPow P2 (EVar vlmMst1)) - #864 * (- #1784 + #225 * EVar vlmMsq + #840 * EVar
   vlmMst1) * EPow P2 (EVar vlmMst2) - #3456 * EPow P3 (EVar vlmMst1) + #604800 * EPow P3 (EVar vlmMst2)) * EPow P4
   (EVar vMst1) + (#9 * (#4800 * (- #2 * EVar vMgl * (#23 + EVar vlmMsq * (- #6 + #9 * EVar vlmMst1 - #9 * EVar
   vlmMst2) + #18 * EVar vlmMst2 - #3 * EVar vlmMst1 * (#4 + #3 * EVar vlmMst2) + #9 * EPow P2 (EVar vlmMst2)) - #3 *
   EVar vDmglst2 * (#77 + #6 * EVar vlmMsq * (- #2 + #3 * EVar vlmMst1 - #3 * EVar vlmMst2) + #24 * EVar vlmMst2 - #6
   * EVar vlmMst1 * (#2 + #3 * EVar vlmMst2) + #18 * EPow P2 (EVar vlmMst2))) * EPow P2 (EVar vMsq) * EPow P2 (EVar
   vMst1) + (#45 * EVar vMgl * (#18201 + #1760 * EConst CB4 - #16 * EConst CDN - #5760 * EVar vlmMsq + #960 * EPow P2
   (EVar vlmMsq) - #16 * EVar vlmMst1 * (#199 - #30 * EVar vlmMsq + #30 * EPow P2 (EVar vlmMsq)) + #16 * EVar vlmMst2
   * (#1291 - #322 * EVar vlmMst1 + #30 * EVar vlmMsq * (- #5 + #2 * EVar vlmMst1) + #30 * EPow P2 (EVar vlmMsq) - #16
   * EPow P2 (EVar vlmMst1)) - #256 * EPow P2 (EVar vlmMst1) - #32 * (- #313 + #30 * EVar vlmMsq + #72 * EVar vlmMst1)
   * EPow P2 (EVar vlmMst2) + #2560 * EPow P3 (EVar vlmMst2)) + EVar vDmglst2 * (#779917 + #188640 * EConst CB4 -
   #3600 * EConst CDN - #648000 * EVar vlmMsq + #43200 * EPow P2 (EVar vlmMsq) - #720 * EVar vlmMst1 * (- #173 + #90 *
   EVar vlmMsq + #30 * EPow P2 (EVar vlmMsq)) + #720 * EVar vlmMst2 * (#1623 - #130 * EVar vlmMst1 + #30 * EVar vlmMsq
   * (- #1 + #2 * EVar vlmMst1) + #30 * EPow P2 (EVar vlmMsq) - #16 * EPow P2 (EVar vlmMst1)) + #11520 * EPow P2 (EVar
   vlmMst1) - #1440 * (- #265 + #30 * EVar vlmMsq + #136 * EVar vlmMst1) * EPow P2 (EVar vlmMst2) + #207360 * EPow P3
   (EVar vlmMst2))) * EPow P4 (EVar vMsq) - #300 * (EVar vMgl * (#233 + #36 * EVar vlmMsq * (- #2 + #5 * EVar vlmMst1
   - #5 * EVar vlmMst2) + #207 * EVar vlmMst2 - #45 * EVar vlmMst1 * (#3 + #4 * EVar vlmMst2) + #180 * EPow P2 (EVar
   vlmMst2)) + EVar vDmglst2 * (#1961 + #180 * EVar vlmMsq * (- #2 + #5 * EVar vlmMst1 - #5 * EVar vlmMst2) + #675 *
   EVar vlmMst2 - #45 * EVar vlmMst1 * (#7 + #20 * EVar vlmMst2) + #900 * EPow P2 (EVar vlmMst2))) * EPow P4 (EVar
   vMst1)) * EPow P4 (EVar vMst2) / EPow P4 (EVar vMsq) - #160 * EConst COepS2 * ((- #3036 * EVar vDmglst2 + #816 *
   EVar vMgl) * EPow P2 (EVar vMst1) * EPow P2 (EVar vMst2) + #1882 * EVar vMgl * EPow P4 (EVar vMst1) - #63 * (#5 *
   EVar vDmglst2 - #3 * EVar vMgl) * EPow P4 (EVar vMst2)) - #108 * EConst CS2 * (#3 * EVar vDmglst2 * EPow P2 (EVar
   vMst2) * (#8 * (#2489 + #3795 * EVar vlmMst1 - #3795 * EVar vlmMst2) * EPow P2 (EVar vMst1) + #9 * (- #453 + #350 *
   EVar vlmMst1 - #350 * EVar vlmMst2) * EPow P2 (EVar vMst2)) - #5 * EVar vMgl * (#36 * (#169 + #136 * EVar vlmMst1 -
   #136 * EVar vlmMst2) * EPow P2 (EVar vMst1) * EPow P2 (EVar vMst2) + #2 * (#9185 + #5646 * EVar vlmMst1 - #5646 *
   EVar vlmMst2) * EPow P4 (EVar vMst1) + #81 * (- #1 + #14 * EVar vlmMst1 - #14 * EVar vlmMst2) * EPow P4 (EVar
   vMst2))) + #90 * (- #48 * (#15 * EVar vDmglst2 * (#95 + #12 * EVar vlmMsq * (- #2 + EVar vlmMst1 - EVar vlmMst2) +
   #32 * EVar vlmMst2 - #4 * EVar vlmMst1 * (#2 + #3 * EVar vlmMst2) + #12 * EPow P2 (EVar vlmMst2)) + #5 * EVar vMgl
   * (#71 + #12 * EVar vlmMsq * (- #2 + EVar vlmMst1 - EVar vlmMst2) + #40 * EVar vlmMst2 - #4 * EVar vlmMst1 * (#4 +
   #3 * EVar vlmMst2) + #12 * EPow P2 (EVar vlmMst2))) * EPow P2 (EVar vMsq) - #5 * (EVar vMgl * (#1153 + #12 * EVar
   vlmMsq * (- #35 + #54 * EVar vlmMst1 - #54 * EVar vlmMst2) + #906 * EVar vlmMst2 - #162 * EVar vlmMst1 * (#3 + #4 *
   EVar vlmMst2) + #648 * EPow P2 (EVar vlmMst2)) + EVar vDmglst2 * (#8713 + #12 * EVar vlmMsq * (- #179 + #270 * EVar
   vlmMst1 - #270 * EVar vlmMst2) + #3282 * EVar vlmMst2 - #162 * EVar vlmMst1 * (#7 + #20 * EVar vlmMst2) + #3240 *
   EPow P2 (EVar vlmMst2))) * EPow P2 (EVar vMst1) - #5 * (EVar vMgl * (#911 + #12 * EVar vlmMsq * (- #37 + #18 * EVar
   vlmMst1 - #18 * EVar vlmMst2) + #606 * EVar vlmMst2 - #54 * EVar vlmMst1 * (#3 + #4 * EVar vlmMst2) + #216 * EPow
   P2 (EVar vlmMst2)) + EVar vDmglst2 * (#5591 + #12 * EVar vlmMsq * (- #181 + #90 * EVar vlmMst1 - #90 * EVar
   vlmMst2) + #2550 * EVar vlmMst2 - #54 * EVar vlmMst1 * (#7 + #20 * EVar vlmMst2) + #1080 * EPow P2 (EVar vlmMst2)))
   * EPow P2 (EVar vMst2) + #2304 * (#1 + EVar vlmMst2) * (- EVar vDmglst2 + #3 * EVar vDmglst2 * EVar vlmMst2 + EVar
   vMgl + EVar vlmMst2 * EVar vMgl) * EPow P4 (EVar vMsq) / EPow P2 (EVar vMst1)) * EPow P6 (EVar vMst2) / EPow P4
   (EVar vMsq)) / EVar vMgl) / (#14580 * EPow P5 (EVar vMst2))) / EPow P2 (EVar vSbeta) + EConst CT1ep * (#4 * EVar
   vDmglst2 * EVar vMst2 * (EPow P4 (EVar vMst1) * (- #8 * EPow P2 (EVar vMt) * EPow P2 (EVar vs2t) * (#4327 * EPow P2
   (EVar vMuSUSY) * (- #1 + EPow P2 (EVar vSbeta)) + #6921 * EPow P2 (EVar vMst2) * EPow P2 (EVar vSbeta)) + #205840 *
   EVar vMst2 * EVar vs2t * EPow P2 (EVar vSbeta) * EPow P3 (EVar vMt) - #15571 * EVar vMt * EPow P2 (EVar vSbeta) *
   EPow P3 (EVar vMst2) * EPow P3 (EVar vs2t) - #89312 * EPow P2 (EVar vSbeta) * EPow P4 (EVar vMt) + #4199 * EPow P2
   (EVar vSbeta) * EPow P4 (EVar vMst2) * EPow P4 (EVar vs2t)) + #189 * EPow P3 (EVar vMst2) * (- #4 * EVar vMst2 *
   EPow P2 (EVar vMt) * EPow P2 (EVar vMuSUSY) * EPow P2 (EVar vs2t) * (- #1 + EPow P2 (EVar vSbeta)) + #10 * EVar
   vs2t * (EPow P2 (EVar vMuSUSY) * (- #1 + EPow P2 (EVar vSbeta)) + #2 * EPow P2 (EVar vMst2) * EPow P2 (EVar
   vSbeta)) * EPow P3 (EVar vMt) - #5 * EVar vMt * EPow P2 (EVar vSbeta) * EPow P3 (EVar vs2t) * EPow P4 (EVar vMst2)
   - #16 * EVar vMst2 * EPow P2 (EVar vSbeta) * EPow P4 (EVar vMt) + EPow P2 (EVar vSbeta) * EPow P4 (EVar vs2t) *
   EPow P5 (EVar vMst2)) + #18 * EPow P2 (EVar vMst1) * (- #12 * EPow P2 (EVar vMst2) * EPow P2 (EVar vMt) * EPow P2
   (EVar vs2t) * (#43 * EPow P2 (EVar vMuSUSY) * (- #1 + EPow P2 (EVar vSbeta)) + #50 * EPow P2 (EVar vMst2) * EPow P2
   (EVar vSbeta)) + #2 * EVar vMst2 * EVar vs2t * (#506 * EPow P2 (EVar vMuSUSY) * (- #1 + EPow P2 (EVar vSbeta)) +
   #1383 * EPow P2 (EVar vMst2) * EPow P2 (EVar vSbeta)) * EPow P3 (EVar vMt) + #56 * (#3 * EPow P2 (EVar vMuSUSY) *
   (- #1 + EPow P2 (EVar vSbeta)) - #23 * EPow P2 (EVar vMst2) * EPow P2 (EVar vSbeta)) * EPow P4 (EVar vMt) - #401 *
   EVar vMt * EPow P2 (EVar vSbeta) * EPow P3 (EVar vs2t) * EPow P5 (EVar vMst2) + #108 * EPow P2 (EVar vSbeta) * EPow
   P4 (EVar vs2t) * EPow P6 (EVar vMst2))) - #3 * EVar vMgl * (#108 * EPow P4 (EVar vMst2) * (EVar vMst2 * EPow P2
   (EVar vMt) * EPow P2 (EVar vs2t) * (- #16 * EPow P2 (EVar vMuSUSY) * (- #1 + EPow P2 (EVar vSbeta)) - #23 * EPow P2
   (EVar vMst2) * EPow P2 (EVar vSbeta)) + #14 * EVar vs2t * (EPow P2 (EVar vMuSUSY) * (- #1 + EPow P2 (EVar vSbeta))
   + #2 * EPow P2 (EVar vMst2) * EPow P2 (EVar vSbeta)) * EPow P3 (EVar vMt) - #7 * EVar vMt * EPow P2 (EVar vSbeta) *
   EPow P3 (EVar vs2t) * EPow P4 (EVar vMst2) + #28 * EVar vMst2 * EPow P2 (EVar vSbeta) * EPow P4 (EVar vMt) + #4 *
   EPow P2 (EVar vSbeta) * EPow P4 (EVar vs2t) * EPow P5 (EVar vMst2)) + EPow P4 (EVar vMst1) * (- #4 * EVar vMst2 *
   EPow P2 (EVar vMt) * EPow P2 (EVar vs2t) * (#7357 * EPow P2 (EVar vMuSUSY) * (- #1 + EPow P2 (EVar vSbeta)) + #6917
   * EPow P2 (EVar vMst2) * EPow P2 (EVar vSbeta)) + #16 * EVar vs2t * (#941 * EPow P2 (EVar vMuSUSY) * (- #1 + EPow
   P2 (EVar vSbeta)) + #2740 * EPow P2 (EVar vMst2) * EPow P2 (EVar vSbeta)) * EPow P3 (EVar vMt) - #1756 * EVar vMt *
   EPow P2 (EVar vSbeta) * EPow P3 (EVar vs2t) * EPow P4 (EVar vMst2) + #18688 * EVar vMst2 * EPow P2 (EVar vSbeta) *
   EPow P4 (EVar vMt) + #1945 * EPow P2 (EVar vSbeta) * EPow P4 (EVar vs2t) * EPow P5 (EVar vMst2)) + #6 * EVar vMst2
   * EPow P2 (EVar vMst1) * (- #4 * EPow P2 (EVar vMst2) * EPow P2 (EVar vMt) * EPow P2 (EVar vs2t) * (#487 * EPow P2
   (EVar vMuSUSY) * (- #1 + EPow P2 (EVar vSbeta)) + #644 * EPow P2 (EVar vMst2) * EPow P2 (EVar vSbeta)) + #8 * EVar
   vMst2 * EVar vs2t * (#136 * EPow P2 (EVar vMuSUSY) * (- #1 + EPow P2 (EVar vSbeta)) + #377 * EPow P2 (EVar vMst2) *
   EPow P2 (EVar vSbeta)) * EPow P3 (EVar vMt) + #8 * (#126 * EPow P2 (EVar vMuSUSY) * (- #1 + EPow P2 (EVar vSbeta))
   + #209 * EPow P2 (EVar vMst2) * EPow P2 (EVar vSbeta)) * EPow P4 (EVar vMt) - #292 * EVar vMt * EPow P2 (EVar
   vSbeta) * EPow P3 (EVar vs2t) * EPow P5 (EVar vMst2) + #343 * EPow P2 (EVar vSbeta) * EPow P4 (EVar vs2t) * EPow P6
   (EVar vMst2)))) / (#1458 * EVar vMgl * EPow P2 (EVar vSbeta) * EPow P5 (EVar vMst2)) + EVar vMuSUSY * (- (EPow P2
   (EVar vMt) * EPow P2 (EVar vs2t) * (EPow P2 (EVar vMst1) * (EDec 7945756172839506 13 + #96 * EConst CB4 - #120 *
   EVar vlmMsq - #10 * EVar vlmMst1 * (#43 - #4 * EVar vlmMsq + #4 * EPow P2 (EVar vlmMsq)) - #56 * EPow P2 (EVar
   vlmMst1) / #3 + #2 * EVar vlmMst2 * (#901 - #780 * EVar vlmMst1 + #60 * EVar vlmMsq * (- #1 + #2 * EVar vlmMst1) +
   #60 * EPow P2 (EVar vlmMsq) + #32 * EPow P2 (EVar vlmMst1)) / #3 - #16 * (- #101 + #15 * EVar vlmMsq + #44 * EVar
   vlmMst1) * EPow P2 (EVar vlmMst2) / #3 + #640 * EPow P3 (EVar vlmMst2) / #3 + (- #40 * (#6 * EVar vDmglst2 * (#15 +
   EVar vlmMst1 * (- #4 + #6 * EVar vlmMsq - #6 * EVar vlmMst2) + #4 * EVar vlmMst2 - #6 * EVar vlmMsq * EVar vlmMst2
   + #6 * EPow P2 (EVar vlmMst2)) + EVar vMgl * (#9 + #4 * EVar vlmMst1 * (- #4 + #3 * EVar vlmMsq - #3 * EVar
   vlmMst2) + #16 * EVar vlmMst2 - #12 * EVar vlmMsq * EVar vlmMst2 + #12 * EPow P2 (EVar vlmMst2))) * EPow P2 (EVar
   vMst1) / (#9 * EPow P2 (EVar vMsq)) + EVar vDmglst2 * (EDec 6002756172839506 13 + #592 * EConst CB4 / #3 - #8 *
   EConst CDN / #3 - #680 * EVar vlmMsq + #40 * EVar vlmMsq * (#3 + EVar vlmMsq + #2 * EVar vlmMst1) * EVar vlmMst2 +
   EVar vlmMst1 * (EDec 8111111111111111 14 - #120 * EVar vlmMsq - #40 * EPow P2 (EVar vlmMsq)) + #56 * EPow P2 (EVar
   vlmMst1) / #3 + #2 * EVar vlmMst2 * (#3859 - #756 * EVar vlmMst1 + #96 * EPow P2 (EVar vlmMst1)) / #9 - #16 * (-
   #28 + #15 * EVar vlmMsq + #60 * EVar vlmMst1) * EPow P2 (EVar vlmMst2) / #3 + #896 * EPow P3 (EVar vlmMst2) / #3))
   / EVar vMgl) / EVar vMst2 + (EDec 10735195473251028 13 + #96 * EConst CB4 - #110 * EVar vlmMsq - EVar vlmMst1 *
   (EDec 45755555555555554 14 - #20 * EVar vlmMsq + #40 * EPow P2 (EVar vlmMsq)) + #652 * EPow P2 (EVar vlmMst1) / #9
   + #2 * EVar vlmMst2 * (#2635 - #3160 * EVar vlmMst1 + #90 * EVar vlmMsq * (- #1 + #4 * EVar vlmMst1) + #180 * EPow
   P2 (EVar vlmMsq) + #528 * EPow P2 (EVar vlmMst1)) / #9 + (EDec 6297777777777778 13 - #80 * EVar vlmMsq - #416 *
   EVar vlmMst1) * EPow P2 (EVar vlmMst2) - #32 * EPow P3 (EVar vlmMst1) / #9 - EVar vDmglst2 * (EDec 6185941700960219
   13 - #592 * EConst CB4 / #3 + #8 * EConst CDN / #3 + #750 * EVar vlmMsq + #20 * EVar vlmMst1 * (#542 + #243 * EVar
   vlmMsq + #162 * EPow P2 (EVar vlmMsq)) / #81 + #92 * EPow P2 (EVar vlmMst1) / #3 - EVar vlmMst2 * (#20 * EVar
   vlmMsq * (#3 + #4 * EVar vlmMst1) + #40 * EPow P2 (EVar vlmMsq) + #8 * (#11723 - #702 * EVar vlmMst1 + #756 * EPow
   P2 (EVar vlmMst1)) / #81) + #4 * (- #75 + #60 * EVar vlmMsq + #344 * EVar vlmMst1) * EPow P2 (EVar vlmMst2) / #3 -
   #32 * EPow P3 (EVar vlmMst1) / #3 - #1120 * EPow P3 (EVar vlmMst2) / #3) / EVar vMgl + #2720 * EPow P3 (EVar
   vlmMst2) / #9) * EPow P4 (EVar vMst1) / EPow P3 (EVar vMst2) - EConst CS2 * ((EDec 45 1 - #63 * EVar vlmMst1 + #63
   * EVar vlmMst2 + #3 * EVar vDmglst2 * (- #453 + #350 * EVar vlmMst1 - #350 * EVar vlmMst2) / (#10 * EVar vMgl)) *
   EVar vMst2 - (EDec 3425 1 + #209 * EVar vlmMst1 - #209 * EVar vlmMst2 - EVar vDmglst2 * (EDec 7996333333333333 13 +
   #907 * EVar vlmMst1 - #907 * EVar vlmMst2) / EVar vMgl) * EPow P2 (EVar vMst1) / EVar vMst2 + (EVar vDmglst2 *
   (#525961 + #356010 * EVar vlmMst1 - #356010 * EVar vlmMst2) - #15 * (#6143 + #3198 * EVar vlmMst1 - #3198 * EVar
   vlmMst2) * EVar vMgl) * EPow P4 (EVar vMst1) / (#135 * EVar vMgl * EPow P3 (EVar vMst2))) + EVar vMst2 * (EDec
   7370416666666666 13 + #220 * EConst CB4 / #3 - #2 * EConst CDN / #3 - #240 * EVar vlmMsq + #40 * EPow P2 (EVar
   vlmMsq) - #2 * EVar vlmMst1 * (#199 - #30 * EVar vlmMsq + #30 * EPow P2 (EVar vlmMsq)) / #3 + #2 * EVar vlmMst2 *
   (#1227 - #322 * EVar vlmMst1 + #30 * EVar vlmMsq * (- #5 + #2 * EVar vlmMst1) + #30 * EPow P2 (EVar vlmMsq) - #16 *
   EPow P2 (EVar vlmMst1)) / #3 - #32 * EPow P2 (EVar vlmMst1) / #3 - #4 * (- #99 + #10 * EVar vlmMsq + #24 * EVar
   vlmMst1) * EPow P2 (EVar vlmMst2) + #320 * EPow P3 (EVar vlmMst2) / #3 + (- #20 * (#3 * EVar vDmglst2 * (#59 + #8 *
   EVar vlmMst1 * (- #2 + #3 * EVar vlmMsq - #3 * EVar vlmMst2) + #16 * EVar vlmMst2 - #24 * EVar vlmMsq * EVar
   vlmMst2 + #24 * EPow P2 (EVar vlmMst2)) + EVar vMgl * (#21 + #8 * EVar vlmMst1 * (- #4 + #3 * EVar vlmMsq - #3 *
   EVar vlmMst2) + #32 * EVar vlmMst2 - #24 * EVar vlmMsq * EVar vlmMst2 + #24 * EPow P2 (EVar vlmMst2))) * EPow P2
   (EVar vMst1) / (#9 * EPow P2 (EVar vMsq)) + EVar vDmglst2 * (EDec 7434787037037037 13 + #524 * EConst CB4 / #3 -
   #10 * EConst CDN / #3 - #600 * EVar vlmMsq + EVar vlmMst1 * (EDec 11533333333333333 14 - #60 * EVar vlmMsq - #20 *
   EPow P2 (EVar vlmMsq)) + #40 * EPow P2 (EVar vlmMsq) + #2 * EVar vlmMst2 * (#1559 - #130 * EVar vlmMst1 + #30 *
   EVar vlmMsq * (- #1 + #2 * EVar vlmMst1) + #30 * EPow P2 (EVar vlmMsq) - #16 * EPow P2 (EVar vlmMst1)) / #3 + #32 *
   EPow P2 (EVar vlmMst1) / #3 - #4 * (- #217 + #30 * EVar vlmMsq + #136 * EVar vlmMst1) * EPow P2 (EVar vlmMst2) / #3
   + #192 * EPow P3 (EVar vlmMst2))) / EVar vMgl - (EDec 11342592592592593 15 - #5 * EVar vlmMsq / #9 + #5 * (- #3 +
   #4 * EVar vlmMsq) * EVar vlmMst1 + #20 * (#7 - #9 * (EVar vlmMsq + EVar vlmMst1)) * EVar vlmMst2 / #9 + #20 * EPow
   P2 (EVar vlmMst2) + EVar vDmglst2 * (EDec 14134259259259258 14 - #5 * EVar vlmMsq / #9 + #5 * (- #7 + #20 * EVar
   vlmMsq) * EVar vlmMst1 + (EDec 3555555555555556 14 - #100 * (EVar vlmMsq + EVar vlmMst1)) * EVar vlmMst2 + #100 *
   EPow P2 (EVar vlmMst2)) / EVar vMgl) * EPow P4 (EVar vMst1) / EPow P4 (EVar vMsq)) + (EPow P3 (EVar vMst2) * (#4 *
   (- #5 * (#3 * EVar vDmglst2 * (#95 + #12 * EVar vlmMsq * (- #2 + EVar vlmMst1 - EVar vlmMst2) + #32 * EVar vlmMst2
   - #4 * EVar vlmMst1 * (#2 + #3 * EVar vlmMst2) + #12 * EPow P2 (EVar vlmMst2)) + EVar vMgl * (#71 + #12 * EVar
   vlmMsq * (- #2 + EVar vlmMst1 - EVar vlmMst2) + #40 * EVar vlmMst2 - #4 * EVar vlmMst1 * (#4 + #3 * EVar vlmMst2) +
   #12 * EPow P2 (EVar vlmMst2))) / EPow P2 (EVar vMsq) + #48 * (#1 + EVar vlmMst2) * (- EVar vDmglst2 + #3 * EVar
   vDmglst2 * EVar vlmMst2 + EVar vMgl + EVar vlmMst2 * EVar vMgl) / EPow P2 (EVar vMst1)) / #9 - #5 * ((EVar vMgl *
   (#242 + #24 * EVar vlmMsq * (#1 + #18 * EVar vlmMst1 - #18 * EVar vlmMst2) + #300 * EVar vlmMst2 - #108 * EVar
   vlmMst1 * (#3 + #4 * EVar vlmMst2) + #432 * EPow P2 (EVar vlmMst2)) + EVar vDmglst2 * (#3122 + #24 * EVar vlmMsq *
   (#1 + #90 * EVar vlmMst1 - #90 * EVar vlmMst2) + #732 * EVar vlmMst2 - #108 * EVar vlmMst1 * (#7 + #20 * EVar
   vlmMst2) + #2160 * EPow P2 (EVar vlmMst2))) * EPow P2 (EVar vMst1) + (EVar vMgl * (#911 + #12 * EVar vlmMsq * (-
   #37 + #18 * EVar vlmMst1 - #18 * EVar vlmMst2) + #606 * EVar vlmMst2 - #54 * EVar vlmMst1 * (#3 + #4 * EVar
   vlmMst2) + #216 * EPow P2 (EVar vlmMst2)) + EVar vDmglst2 * (#5591 + #12 * EVar vlmMsq * (- #181 + #90 * EVar
   vlmMst1 - #90 * EVar vlmMst2) + #2550 * EVar vlmMst2 - #54 * EVar vlmMst1 * (#7 + #20 * EVar vlmMst2) + #1080 *
   EPow P2 (EVar vlmMst2))) * EPow P2 (EVar vMst2)) / (#108 * EPow P4 (EVar vMsq))) + #4 * EConst COepS2 * (- #3 *
   EVar vMgl * (#627 * EPow P2 (EVar vMst1) * EPow P2 (EVar vMst2) + #1066 * EPow P4 (EVar vMst1) + #189 * EPow P4
   (EVar vMst2)) + EVar vDmglst2 * (#8163 * EPow P2 (EVar vMst1) * EPow P2 (EVar vMst2) + #23734 * EPow P4 (EVar
   vMst1) + #945 * EPow P4 (EVar vMst2))) / (#729 * EPow P3 (EVar vMst2))) / EVar vMgl)) - EVar vs2t * EPow P3 (EVar
   vMt) * (EDec 45418086419753087 14 + #16 * EConst CD3 / #9 - #16 * EConst CDN / #9 - #100 * EVar vlmMsq / #3 + #64 *
   EVar vlmMt / #3 + #20 * EPow P2 (EVar vlmMsq) + #4 * EVar vlmMst1 * (#667 - #300 * EVar vlmMsq + #45 * EPow P2
   (EVar vlmMsq)) / #27 + #4 * EVar vlmMst2 * (#1946 + EVar vlmMsq * (#30 - #90 * EVar vlmMst1) + #294 * EVar vlmMst1
   - #45 * EPow P2 (EVar vlmMsq) - #117 * EPow P2 (EVar vlmMst1)) / #27 + #248 * EPow P2 (EVar vlmMst1) / #9 + #4 *
   (#152 + #30 * EVar vlmMsq + #31 * EVar vlmMst1) * EPow P2 (EVar vlmMst2) / #9 + #64 * EPow P3 (EVar vlmMst1) / #9 -
   #32 * EPow P3 (EVar vlmMst2) / #9 + #4 * (- ((#4500 * EVar vDmglst2 + EVar vMgl * (#9608 + #8520 * EVar vlmMst1 -
   #15 * EVar vlmMsq * (#218 + #195 * EVar vlmMst1 - #75 * EVar vlmMst2) + #375 * (- #14 + #15 * EVar vlmMst1) * EVar
   vlmMst2 + #900 * EPow P2 (EVar vlmMsq) - #1350 * EPow P2 (EVar vlmMst1) - #3375 * EPow P2 (EVar vlmMst2))) * EPow
   P2 (EVar vMst1) / EPow P2 (EVar vMsq)) + #30 * EVar vDmglst2 * (#15529 - #120 * EConst CB4 + #120 * EConst CD3 -
   #60 * EConst CDN + #150 * EVar vlmMsq + #690 * EVar vlmMst1 + #675 * EPow P2 (EVar vlmMsq) + #345 * EPow P2 (EVar
   vlmMst1) - #5 * EVar vlmMst2 * (- #3091 + #270 * EVar vlmMsq + #42 * EVar vlmMst1 + #96 * EPow P2 (EVar vlmMst1)) +
   (#4305 - #480 * EVar vlmMst1) * EPow P2 (EVar vlmMst2) + #960 * EPow P3 (EVar vlmMst2))) / (#2025 * EVar vMgl) -
   EPow P4 (EVar vMst1) * ((EDec 3340708346830796 15 - #2 * EVar vlmMsq * (#256 + #259 * EVar vlmMst1 - #49 * EVar
   vlmMst2) / #441 - #212 * EVar vlmMst2 / #135 + EVar vlmMst1 * (EDec 2731368102796674 15 + #38 * EVar vlmMst2 / #9)
   + #20 * EVar vDmglst2 / (#9 * EVar vMgl) + #10 * EPow P2 (EVar vlmMsq) / #21 - #32 * EPow P2 (EVar vlmMst1) / #21 -
   #20 * EPow P2 (EVar vlmMst2) / #9) / EPow P4 (EVar vMsq) - (EDec 11881718576027706 13 - #80 * EVar vlmMsq / #3 + (-
   EDec 9603533282942807 13 + #40 * EVar vlmMsq) * EVar vlmMst1 + EVar vlmMst2 * (EDec 14154644394053919 13 - #138308
   * EVar vlmMst1 / #945 - #40 * EVar vlmMsq * (#3 + #2 * EVar vlmMst1) / #3 - #820 * EPow P2 (EVar vlmMst1) / #9) +
   #2 * (- #94783 + #6300 * EVar vlmMsq) * EPow P2 (EVar vlmMst1) / #945 + (EDec 4322899470899471 13 + #40 * EVar
   vlmMsq / #3 - #332 * EVar vlmMst1 / #9) * EPow P2 (EVar vlmMst2) + #64 * EVar vlmMt * (#1 + #4 * EVar vlmMst2 - #2
   * EVar vlmMst1 * (#2 + EVar vlmMst2) + EPow P2 (EVar vlmMst1) + EPow P2 (EVar vlmMst2)) / #3 + #52 * EPow P3 (EVar
   vlmMst1) / #27 + #3404 * EPow P3 (EVar vlmMst2) / #27 + EVar vDmglst2 * (EDec 7724522050654477 13 - #64 * EConst
   CB4 / #9 + #64 * EConst CD3 / #9 - #32 * EConst CDN / #9 + #560 * EVar vlmMsq / #3 + (EDec 15132107835726883 13 -
   #160 * EVar vlmMsq) * EVar vlmMst1 + #38704 * EPow P2 (EVar vlmMst1) / #189 + EVar vlmMst2 * (#160 * EVar vlmMsq +
   #4 * (#1947623 - #3019800 * EVar vlmMst1 + #97020 * EPow P2 (EVar vlmMst1)) / #19845) + #16 * (#6787 - #5439 * EVar
   vlmMst1) * EPow P2 (EVar vlmMst2) / #189 - #128 * EVar vlmMt * (#4 + #6 * EVar vlmMst2 - #2 * EVar vlmMst1 * (#3 +
   EVar vlmMst2) + EPow P2 (EVar vlmMst1) + EPow P2 (EVar vlmMst2)) / #3 - #16 * EPow P3 (EVar vlmMst1) / #9 + #1328 *
   EPow P3 (EVar vlmMst2) / #3) / EVar vMgl) / EPow P4 (EVar vMst2)) + (- #2 * (#2 * EVar vDmglst2 * (- #179 + #2 *
   (#87 + #32 * EVar vlmMst1) * EVar vlmMst2 - #30 * EVar vlmMsq * (- #1 + #6 * EVar vlmMst2) + #90 * EPow P2 (EVar
   vlmMsq) + #208 * EPow P2 (EVar vlmMst2)) + EVar vMgl * (#277 + #514 * EVar vlmMst2 + #64 * EVar vlmMst1 * (#1 +
   EVar vlmMst2) - #30 * EVar vlmMsq * (#5 + #6 * EVar vlmMst2) + #90 * EPow P2 (EVar vlmMsq) + #208 * EPow P2 (EVar
   vlmMst2))) * EPow P2 (EVar vMst2) / (#9 * EPow P2 (EVar vMst1)) + EPow P2 (EVar vMst1) * (#16 * EVar vDmglst2 *
   (#9080791 - #54000 * EConst CB4 + #54000 * EConst CD3 - #27000 * EConst CDN + #607500 * EVar vlmMsq - #60 * (-
   #42359 + #3375 * EVar vlmMsq) * EVar vlmMst1 + #324000 * (- #2 + EVar vlmMst1 - EVar vlmMst2) * EVar vlmMt + #60 *
   EVar vlmMst2 * (#143041 + #3375 * EVar vlmMsq - #14460 * EVar vlmMst1 - #3375 * EPow P2 (EVar vlmMst1)) + #1800 *
   EPow P2 (EVar vlmMst1) - #900 * (- #2402 + #1695 * EVar vlmMst1) * EPow P2 (EVar vlmMst2) - #4500 * EPow P3 (EVar
   vlmMst1) + #1732500 * EPow P3 (EVar vlmMst2)) + #5 * EVar vMgl * (#19319827 + #19042320 * EVar vlmMst2 + #518400 *
   (#1 + #2 * EVar vlmMst2) * EVar vlmMt - #3600 * (#701 + #186 * EVar vlmMst2) * EPow P2 (EVar vlmMst1) + #5943600 *
   EPow P2 (EVar vlmMst2) + #324000 * EVar vlmMsq * (- #2 + EVar vlmMst1 - EVar vlmMst2 - #2 * EVar vlmMst1 * EVar
   vlmMst2 + EPow P2 (EVar vlmMst1) + EPow P2 (EVar vlmMst2)) - #240 * EVar vlmMst1 * (#35693 + #5610 * EVar vlmMst2 +
   #4320 * EVar vlmMt + #3690 * EPow P2 (EVar vlmMst2)) - #295200 * EPow P3 (EVar vlmMst1) + #1850400 * EPow P3 (EVar
   vlmMst2))) / (#121500 * EPow P2 (EVar vMst2)) + EPow P2 (EVar vMst2) * (- #17150 * EVar vDmglst2 * (#3 * (#7 + #12
   * EVar vlmMsq - #12 * EVar vlmMst2) * EPow P2 (EVar vMst1) + #2 * (#43 - #144 * EVar vlmMsq + #144 * EVar vlmMst2)
   * EPow P2 (EVar vMst2)) + EVar vMgl * (#1715 * (#75 + #60 * EVar vlmMsq * (- #3 + #2 * EVar vlmMst1 - #2 * EVar
   vlmMst2) + #356 * EVar vlmMst2 - #8 * EVar vlmMst1 * (#22 + #15 * EVar vlmMst2) + #120 * EPow P2 (EVar vlmMst2)) *
   EPow P2 (EVar vMst1) + (- #393767 + #420 * EVar vlmMsq * (#2194 + #49 * EVar vlmMst1 - #259 * EVar vlmMst2) -
   #878948 * EVar vlmMst2 - #1372 * EVar vlmMst1 * (#31 + #15 * EVar vlmMst2) + #44100 * EPow P2 (EVar vlmMsq) +
   #64680 * EPow P2 (EVar vlmMst2)) * EPow P2 (EVar vMst2))) / (#92610 * EPow P4 (EVar vMsq)) + (#5 * ((#64 * EVar
   vDmglst2 * (#14 - #15 * EVar vlmMsq + #15 * EVar vlmMst2) + #8 * (#43 - #30 * EVar vlmMsq + #30 * EVar vlmMst2) *
   EVar vMgl) * EPow P2 (EVar vMsq) + (#18 * EVar vDmglst2 * (#13 - #28 * EVar vlmMsq + #28 * EVar vlmMst2) + (#67 -
   #84 * EVar vlmMsq + #84 * EVar vlmMst2) * EVar vMgl) * EPow P2 (EVar vMst2)) / (#54 * EPow P2 (EVar vMst1) * EPow
   P4 (EVar vMsq)) + #64 * (#1 + EVar vlmMst2) * (#4 * EVar vDmglst2 * EVar vlmMst2 + EVar vMgl + EVar vlmMst2 * EVar
   vMgl) / (#9 * EPow P4 (EVar vMst1))) * EPow P4 (EVar vMst2) + (- #9000 * EVar vDmglst2 * (#2 * (- #3 + EVar vlmMst1
   - EVar vlmMst2) * EPow P4 (EVar vMst1) + (#17 - #20 * EVar vlmMsq + #20 * EVar vlmMst2) * EPow P4 (EVar vMst2)) +
   #4 * EVar vMgl * (#1125 * (- #4 + EVar vlmMst1 * (#2 - #6 * EVar vlmMst2) - #2 * EVar vlmMst2 + #3 * EPow P2 (EVar
   vlmMst1) + #3 * EPow P2 (EVar vlmMst2)) * EPow P4 (EVar vMst1) + (- #6517 + #15 * EVar vlmMsq * (#532 + #75 * EVar
   vlmMst1 - #195 * EVar vlmMst2) - #4980 * EVar vlmMst2 - #375 * EVar vlmMst1 * (#8 + #3 * EVar vlmMst2) + #900 *
   EPow P2 (EVar vlmMsq) + #2025 * EPow P2 (EVar vlmMst2)) * EPow P4 (EVar vMst2))) / (#2025 * EPow P2 (EVar vMsq) *
   EPow P2 (EVar vMst2)) + (#8 * EConst COepS2 * (#24 * EVar vDmglst2 * (#150 * EPow P2 (EVar vMst1) * EPow P2 (EVar
   vMst2) + #919 * EPow P4 (EVar vMst1)) - EVar vMgl * (#4485 * EPow P2 (EVar vMst1) * EPow P2 (EVar vMst2) + #11402 *
   EPow P4 (EVar vMst1) + #621 * EPow P4 (EVar vMst2))) / #729 - EConst CS2 * (#24 * EVar vDmglst2 * (#45 * (#139 +
   #100 * EVar vlmMst1 - #100 * EVar vlmMst2) * EPow P2 (EVar vMst1) * EPow P2 (EVar vMst2) + (#34538 + #27570 * EVar
   vlmMst1 - #27570 * EVar vlmMst2) * EPow P4 (EVar vMst1) + #5697 * EPow P4 (EVar vMst2)) - EVar vMgl * (#9 * (#11113
   + #14950 * EVar vlmMst1 - #14950 * EVar vlmMst2) * EPow P2 (EVar vMst1) * EPow P2 (EVar vMst2) + #4 * (#126661 +
   #85515 * EVar vlmMst1 - #85515 * EVar vlmMst2) * EPow P4 (EVar vMst1) + #81 * (- #891 + #230 * EVar vlmMst1 - #230
   * EVar vlmMst2) * EPow P4 (EVar vMst2))) / #135) / EPow P4 (EVar vMst2)) / EVar vMgl) + EPow P4 (EVar vMt) * (#20 *
   (#567143 - #125172 * EVar vlmMst2 + #648 * EVar vlmMst2 * (- #38 + #5 * EVar vlmMst2) * EVar vlmMt - #9720 * (EVar
   vlmMsq * (EVar vlmMst1 * (#9 - #2 * EVar vlmMt) + #2 * EVar vlmMst2 * (- #6 + EVar vlmMt) + #3 * (- #4 + EVar
   vlmMt)) + EVar vlmMt) - #9720 * (EVar vlmMst1 - EVar vlmMst2) * EPow P2 (EVar vlmMsq) + #240300 * EPow P2 (EVar
   vlmMst2) - #108 * EVar vlmMst1 * (#2111 + EVar vlmMst1 * (#457 - #12 * EVar vlmMst2 - #126 * EVar vlmMt) - #420 *
   EVar vlmMt + #4 * EVar vlmMst2 * (#454 + #39 * EVar vlmMt) + #750 * EPow P2 (EVar vlmMst2) - #288 * EPow P2 (EVar
   vlmMt)) - #15552 * (#1 + #2 * EVar vlmMst2) * EPow P2 (EVar vlmMt) + #216 * EPow P3 (EVar vlmMst1) + #79488 * EPow
   P3 (EVar vlmMst2)) * EPow P4 (EVar vMst1) + (- #24 * EPow P2 (EVar vMst1) * EPow P2 (EVar vMst2) * (#2700 * EVar
   vMgl * (- #25 + EVar vlmMst1 * (- #5 + #6 * EVar vlmMsq - #6 * EVar vlmMst2) + (#4 - #6 * EVar vlmMsq) * EVar
   vlmMst2 + EVar vlmMt + #6 * EPow P2 (EVar vlmMst2)) * EPow P2 (EVar vMst1) + #300 * EVar vDmglst2 * (- #313 + #3 *
   EVar vlmMst1 * (- #23 + #42 * EVar vlmMsq - #42 * EVar vlmMst2) - #42 * (- #2 + #3 * EVar vlmMsq) * EVar vlmMst2 -
   #15 * EVar vlmMt + #126 * EPow P2 (EVar vlmMst2)) * EPow P2 (EVar vMst1) + #2 * EVar vMgl * EPow P2 (EVar vMsq) *
   (- #71744 + #28755 * EVar vlmMst2 + #15255 * EVar vlmMt + #17820 * EVar vlmMst2 * EVar vlmMt + #4050 * (EVar
   vlmMst1 - EVar vlmMst2) * EPow P2 (EVar vlmMsq) - #540 * (- #15 + #4 * EVar vlmMt) * EPow P2 (EVar vlmMst1) -
   #89910 * EPow P2 (EVar vlmMst2) + #6480 * EVar vlmMt * EPow P2 (EVar vlmMst2) + #4050 * EVar vlmMsq * (- #11 + EVar
   vlmMst1 - #2 * EVar vlmMst2 - #2 * EVar vlmMst1 * EVar vlmMst2 + EVar vlmMt + #2 * EPow P2 (EVar vlmMst2)) + #270 *
   EVar vlmMst1 * (#221 + #279 * EVar vlmMst2 - #66 * EVar vlmMt - #16 * EVar vlmMst2 * EVar vlmMt + #112 * EPow P2
   (EVar vlmMst2) - #24 * EPow P2 (EVar vlmMt)) + #6480 * EPow P2 (EVar vlmMt) + #6480 * EVar vlmMst2 * EPow P2 (EVar
   vlmMt) - #30240 * EPow P3 (EVar vlmMst2)) + #3 * EVar vDmglst2 * EPow P2 (EVar vMsq) * (#93487 + #196530 * EVar
   vlmMst2 + #9030 * EVar vlmMt - #7380 * EVar vlmMst2 * EVar vlmMt + #2700 * (EVar vlmMst1 - EVar vlmMst2) * EPow P2
   (EVar vlmMsq) - #360 * (#23 + #8 * EVar vlmMst2 - #4 * EVar vlmMt) * EPow P2 (EVar vlmMst1) + #68040 * EPow P2
   (EVar vlmMst2) + #1440 * EVar vlmMt * EPow P2 (EVar vlmMst2) + #300 * EVar vlmMsq * (#29 + EVar vlmMst1 * (#9 - #18
   * EVar vlmMst2) + #6 * EVar vlmMst2 - #15 * EVar vlmMt + #18 * EPow P2 (EVar vlmMst2)) - #8640 * EPow P2 (EVar
   vlmMt) - #4320 * EVar vlmMst2 * EPow P2 (EVar vlmMt) + #20 * EVar vlmMst1 * (- #5846 + #321 * EVar vlmMt - #12 *
   EVar vlmMst2 * (#209 + #12 * EVar vlmMt) + #576 * EPow P2 (EVar vlmMst2) + #216 * EPow P2 (EVar vlmMt)) - #8640 *
   EPow P3 (EVar vlmMst2))) / EPow P2 (EVar vMsq) + #9 * (#9 * EVar vMgl * (#800 * (#19 + (- #8 + #6 * EVar vlmMsq) *
   EVar vlmMst2 + EVar vlmMst1 * (#7 - #6 * EVar vlmMsq + #6 * EVar vlmMst2) + EVar vlmMt - #6 * EPow P2 (EVar
   vlmMst2)) * EPow P2 (EVar vMsq) * EPow P2 (EVar vMst1) + (#813 - #3360 * EVar vlmMst2 - #2400 * (EVar vlmMst1 -
   EVar vlmMst2) * EPow P2 (EVar vlmMsq) - #1280 * (#1 + EVar vlmMst2) * EPow P2 (EVar vlmMst1) + #2400 * EVar vlmMsq
   * (#7 + EVar vlmMst1 - #2 * EVar vlmMst2 + #2 * EVar vlmMst1 * EVar vlmMst2 + EVar vlmMt - #2 * EPow P2 (EVar
   vlmMst2)) + #30880 * EPow P2 (EVar vlmMst2) - #80 * EVar vlmMt * (#175 + #96 * EVar vlmMst2 + #32 * EPow P2 (EVar
   vlmMst2)) - #80 * EVar vlmMst1 * (#167 + #258 * EVar vlmMst2 - #32 * (#1 + EVar vlmMst2) * EVar vlmMt + #112 * EPow
   P2 (EVar vlmMst2)) - #3840 * EPow P2 (EVar vlmMt) + #10240 * EPow P3 (EVar vlmMst2)) * EPow P4 (EVar vMsq) + #200 *
   (#38 + #4 * (- #2 + #3 * EVar vlmMsq) * EVar vlmMst2 + EVar vlmMst1 * (#7 - #12 * EVar vlmMsq + #12 * EVar vlmMst2)
   + EVar vlmMt - #12 * EPow P2 (EVar vlmMst2)) * EPow P4 (EVar vMst1)) - #5 * EVar vDmglst2 * (- #160 * (#439 + #6 *
   (- #8 + #21 * EVar vlmMsq) * EVar vlmMst2 + #3 * EVar vlmMst1 * (#17 - #42 * EVar vlmMsq + #42 * EVar vlmMst2) - #3
   * EVar vlmMt - #126 * EPow P2 (EVar vlmMst2)) * EPow P2 (EVar vMsq) * EPow P2 (EVar vMst1) + (#7335 + #169856 *
   EVar vlmMst2 + #4320 * (EVar vlmMst1 - EVar vlmMst2) * EPow P2 (EVar vlmMsq) + #2304 * (- #1 + EVar vlmMst2) * EPow
   P2 (EVar vlmMst1) + #21984 * EPow P2 (EVar vlmMst2) + #480 * EVar vlmMsq * (- #79 - #30 * EVar vlmMst2 - #9 * EVar
   vlmMst1 * (- #3 + #2 * EVar vlmMst2) + #3 * EVar vlmMt + #18 * EPow P2 (EVar vlmMst2)) + #48 * EVar vlmMt * (#31 -
   #128 * EVar vlmMst2 + #96 * EPow P2 (EVar vlmMst2)) + #144 * EVar vlmMst1 * (- #269 + #32 * EVar vlmMt - #2 * EVar
   vlmMst2 * (#63 + #16 * EVar vlmMt) + #112 * EPow P2 (EVar vlmMst2)) - #18432 * EPow P3 (EVar vlmMst2)) * EPow P4
   (EVar vMsq) + #40 * (- #1330 + EVar vlmMst1 * (- #51 + #396 * EVar vlmMsq - #396 * EVar vlmMst2) + (#48 - #396 *
   EVar vlmMsq) * EVar vlmMst2 + #3 * EVar vlmMt + #396 * EPow P2 (EVar vlmMst2)) * EPow P4 (EVar vMst1))) * EPow P4
   (EVar vMst2) / EPow P4 (EVar vMsq) + #108 * EConst CS2 * ((- #48 * EVar vDmglst2 * (#601 + #2790 * EVar vlmMst1 -
   #2790 * EVar vlmMst2) + #72 * (#457 + #550 * EVar vlmMst1 - #550 * EVar vlmMst2) * EVar vMgl) * EPow P2 (EVar
   vMst1) * EPow P2 (EVar vMst2) + #40 * (#4082 + #3045 * EVar vlmMst1 - #3045 * EVar vlmMst2) * EVar vMgl * EPow P4
   (EVar vMst1) + (#675 * EVar vDmglst2 * (#27 - #14 * EVar vlmMst1 + #14 * EVar vlmMst2) + #81 * (- #79 + #70 * EVar
   vlmMst1 - #70 * EVar vlmMst2) * EVar vMgl) * EPow P4 (EVar vMst2)) + #160 * EConst COepS2 * (#9 * EVar vDmglst2 *
   EPow P2 (EVar vMst2) * (#496 * EPow P2 (EVar vMst1) + #35 * EPow P2 (EVar vMst2)) - EVar vMgl * (#1320 * EPow P2
   (EVar vMst1) * EPow P2 (EVar vMst2) + #4060 * EPow P4 (EVar vMst1) + #189 * EPow P4 (EVar vMst2))) + #90 * (- #32 *
   (- #5 * EVar vMgl * (#58 - #36 * EVar vlmMst2 + #6 * EVar vlmMst1 * (#4 + #3 * EVar vlmMst2) - #3 * EVar vlmMt - #9
   * EVar vlmMst2 * EVar vlmMt + #3 * EVar vlmMsq * (#5 - #6 * EVar vlmMst1 + #9 * EVar vlmMst2 + #3 * EVar vlmMt) -
   #9 * EPow P2 (EVar vlmMsq) - #18 * EPow P2 (EVar vlmMst2)) - #15 * EVar vDmglst2 * (#64 - #20 * EVar vlmMst2 + #6 *
   EVar vlmMst1 * (#2 + #3 * EVar vlmMst2) + #3 * EVar vlmMt - #3 * EVar vlmMst2 * EVar vlmMt + EVar vlmMsq * (#5 -
   #18 * EVar vlmMst1 + #21 * EVar vlmMst2 + #3 * EVar vlmMt) - #3 * EPow P2 (EVar vlmMsq) - #18 * EPow P2 (EVar
   vlmMst2))) * EPow P2 (EVar vMsq) + #5 * (#3 * EVar vDmglst2 * (#1693 - #136 * EVar vlmMst2 + #6 * EVar vlmMst1 *
   (#19 + #84 * EVar vlmMst2) - #4 * EVar vlmMsq * (#5 + #126 * EVar vlmMst1 - #132 * EVar vlmMst2 - #6 * EVar vlmMt)
   + #42 * EVar vlmMt - #24 * EVar vlmMst2 * EVar vlmMt - #24 * EPow P2 (EVar vlmMsq) - #504 * EPow P2 (EVar vlmMst2))
   + EVar vMgl * (#1271 - #216 * EVar vlmMst2 + #6 * EVar vlmMst1 * (#41 + #60 * EVar vlmMst2) - #12 * EVar vlmMsq *
   (#5 + #30 * EVar vlmMst1 - #36 * EVar vlmMst2 - #6 * EVar vlmMt) + #30 * EVar vlmMt - #72 * EVar vlmMst2 * EVar
   vlmMt - #72 * EPow P2 (EVar vlmMsq) - #360 * EPow P2 (EVar vlmMst2))) * EPow P2 (EVar vMst1) + #15 * (EVar vDmglst2
   * (#1535 - #184 * EVar vlmMst2 + #18 * EVar vlmMst1 * (#7 + #20 * EVar vlmMst2) - #6 * (- #9 + #28 * EVar vlmMst2)
   * EVar vlmMt + #4 * EVar vlmMsq * (#1 - #90 * EVar vlmMst1 + #132 * EVar vlmMst2 + #42 * EVar vlmMt) - #168 * EPow
   P2 (EVar vlmMsq) - #360 * EPow P2 (EVar vlmMst2)) + EVar vMgl * (#403 - #24 * EVar vlmMst2 + #18 * EVar vlmMst1 *
   (#3 + #4 * EVar vlmMst2) - #12 * EVar vlmMsq * (#1 + #6 * EVar vlmMst1 - #12 * EVar vlmMst2 - #6 * EVar vlmMt) -
   #18 * (#1 + #4 * EVar vlmMst2) * EVar vlmMt - #72 * EPow P2 (EVar vlmMsq) - #72 * EPow P2 (EVar vlmMst2))) * EPow
   P2 (EVar vMst2) + #2304 * (#1 + EVar vlmMst2) * (- EVar vDmglst2 + #3 * EVar vDmglst2 * EVar vlmMst2 + EVar vMgl +
   EVar vlmMst2 * EVar vMgl) * EPow P4 (EVar vMsq) / EPow P2 (EVar vMst1)) * EPow P6 (EVar vMst2) / EPow P4 (EVar
   vMsq)) / EVar vMgl) / (#7290 * EPow P5 (EVar vMst2)) + EVar vMt * (EPow P3 (EVar vs2t) * (EPow P2 (EVar vMst1) *
   (EDec 30191041152263375 14 + #4 * EConst CB4 + #4 * EConst CD3 / #9 - #4 * EConst CDN / #9 - #335 * EVar vlmMsq /
   #9 + #25 * EPow P2 (EVar vlmMsq) / #3 + EVar vlmMst1 * (EDec 1885172839506173 13 - #325 * EVar vlmMsq / #9 + #5 *
   EPow P2 (EVar vlmMsq) / #3) + #10 * (- #149 + #18 * EVar vlmMsq) * EPow P2 (EVar vlmMst1) / #27 - EVar vlmMst2 *
   (#53429 - #183450 * EVar vlmMst1 + #2250 * EVar vlmMsq * (- #7 + #6 * EVar vlmMst1) + #1350 * EPow P2 (EVar vlmMsq)
   + #29610 * EPow P2 (EVar vlmMst1)) / #810 + (- #3683 + #270 * EVar vlmMsq + #2595 * EVar vlmMst1) * EPow P2 (EVar
   vlmMst2) / #27 - #110 * EPow P3 (EVar vlmMst1) / #27 - #1498 * EPow P3 (EVar vlmMst2) / #27 - EVar vDmglst2 *
   (#5430043 + #1334580 * EVar vlmMst2 + #202500 * EVar vlmMsq * (#7 + #6 * EVar vlmMst2) - #607500 * EPow P2 (EVar
   vlmMsq) + #900 * (- #859 + #3690 * EVar vlmMst2) * EPow P2 (EVar vlmMst1) + #846900 * EPow P2 (EVar vlmMst2) - #120
   * EVar vlmMst1 * (#44309 + #12315 * EVar vlmMst2 + #56475 * EPow P2 (EVar vlmMst2)) + #45000 * EPow P3 (EVar
   vlmMst1) + #3411000 * EPow P3 (EVar vlmMst2)) / (#60750 * EVar vMgl)) - ((#150 * EVar vDmglst2 * (#5 - #2 * EVar
   vlmMst1 + #2 * EVar vlmMst2) + EVar vMgl * (#1503 + #1670 * EVar vlmMst1 - #60 * EVar vlmMsq * (#12 + #5 * EVar
   vlmMst1 - #5 * EVar vlmMst2) + #50 * (- #19 + #42 * EVar vlmMst1) * EVar vlmMst2 - #900 * EPow P2 (EVar vlmMst1) -
   #1200 * EPow P2 (EVar vlmMst2))) / (#270 * EPow P2 (EVar vMsq)) + (#5 * EVar vlmMsq * (#1 - #2 * EVar vlmMst1 + #2
   * EVar vlmMst2) * (#12 * EVar vDmglst2 + EVar vMgl + #8 * EVar vlmMst1 * EVar vMgl - #8 * EVar vlmMst2 * EVar vMgl)
   / #6 + (- #3 * EVar vMgl * (#79604910131 + #34248010860 * EVar vlmMst2 - #1058400 * (#78238 + #33285 * EVar
   vlmMst2) * EPow P2 (EVar vlmMst1) - #83251627200 * EPow P2 (EVar vlmMst2) + #1260 * EVar vlmMst1 * (- #29738761 +
   #131792640 * EVar vlmMst2 + #59005800 * EPow P2 (EVar vlmMst2)) - #1296540000 * EPow P3 (EVar vlmMst1) -
   #37821924000 * EPow P3 (EVar vlmMst2)) + #20 * EVar vDmglst2 * (#32030812049 + #1902812940 * EVar vlmMst2 + #793800
   * (#433 + #6552 * EVar vlmMst2) * EPow P2 (EVar vlmMst1) + #76998600 * EPow P2 (EVar vlmMst2) - #1260 * EVar
   vlmMst1 * (#2674409 + #333900 * EVar vlmMst2 + #7514640 * EPow P2 (EVar vlmMst2)) - #311169600 * EPow P3 (EVar
   vlmMst1) + #4578638400 * EPow P3 (EVar vlmMst2))) / #1500282000) / EPow P2 (EVar vMst2)) * EPow P4 (EVar vMst1) /
   EVar vMgl - EPow P2 (EVar vMst2) * (#12760 - #720 * EConst CB4 + #72 * EConst CD3 - #36 * EConst CDN - #1980 * EVar
   vlmMsq + #540 * EPow P2 (EVar vlmMsq) - #3 * EVar vlmMst1 * (#5471 - #1950 * EVar vlmMsq + #630 * EPow P2 (EVar
   vlmMsq)) - #954 * EPow P2 (EVar vlmMst1) + #3 * EVar vlmMst2 * (#8495 - #6750 * EVar vlmMst1 + #210 * EVar vlmMsq *
   (- #11 + #6 * EVar vlmMst1) + #630 * EPow P2 (EVar vlmMsq) + #234 * EPow P2 (EVar vlmMst1)) - #18 * (- #1324 + #210
   * EVar vlmMsq + #399 * EVar vlmMst1) * EPow P2 (EVar vlmMst2) - #288 * EPow P3 (EVar vlmMst1) + #6768 * EPow P3
   (EVar vlmMst2) + #162 * ((EVar vMgl * (- #725 + #30 * EVar vlmMsq * (#5 + EVar vlmMst1 - EVar vlmMst2) - #793 *
   EVar vlmMst2 + EVar vlmMst1 * (#643 + #150 * EVar vlmMst2) - #90 * EPow P2 (EVar vlmMst1) - #60 * EPow P2 (EVar
   vlmMst2)) + #50 * EVar vDmglst2 * (#20 + #6 * EVar vlmMsq * (- #4 + #3 * EVar vlmMst1 - #3 * EVar vlmMst2) + #27 *
   EVar vlmMst2 - #3 * EVar vlmMst1 * (#1 + #6 * EVar vlmMst2) + #18 * EPow P2 (EVar vlmMst2))) * EPow P2 (EVar vMst1)
   / (#135 * EPow P2 (EVar vMsq)) + EVar vDmglst2 * (EDec 3251234567901235 14 - #8 * EConst CB4 / #3 + #32 * EConst
   CD3 / #9 - #20 * EConst CDN / #9 + #160 * EVar vlmMsq / #3 + EVar vlmMst1 * (EDec 9333333333333334 15 - #20 * EPow
   P2 (EVar vlmMsq)) - #26 * EPow P2 (EVar vlmMst1) / #3 + #4 * EVar vlmMst2 * (- #237 - #248 * EVar vlmMst1 + #90 *
   EVar vlmMsq * EVar vlmMst1 + #45 * EPow P2 (EVar vlmMsq) + #16 * EPow P2 (EVar vlmMst1)) / #9 - #2 * (- #439 + #180
   * EVar vlmMsq + #336 * EVar vlmMst1) * EPow P2 (EVar vlmMst2) / #9 + #608 * EPow P3 (EVar vlmMst2) / #9)) / EVar
   vMgl + #162 * (EDec 32026967930029154 17 + EVar vlmMsq * (- EDec 6291383219954648 16 - #43 * EVar vlmMst1 / #63 +
   #7 * EVar vlmMst2 / #9) - #553 * EVar vlmMst2 / #540 + EVar vlmMst1 * (EDec 16532123960695388 16 + #13 * EVar
   vlmMst2 / #9) - #5 * EVar vDmglst2 / (#18 * EVar vMgl) - EPow P2 (EVar vlmMsq) / #21 - #8 * EPow P2 (EVar vlmMst1)
   / #21 - #10 * EPow P2 (EVar vlmMst2) / #9) * EPow P4 (EVar vMst1) / EPow P4 (EVar vMsq)) / #162 + (#1 - #2 * EVar
   vlmMst2) * EVar vshiftst3 * EPow P4 (EVar vMst2) / (#3 * EPow P2 (EVar vMst1)) + ((EVar vMgl * (#9 * (#3653969 -
   #140 * EVar vlmMsq * (#12899 + #5390 * EVar vlmMst1 - #6230 * EVar vlmMst2) + #2069970 * EVar vlmMst2 + #37730 *
   EVar vlmMst1 * (- #7 + #20 * EVar vlmMst2) - #58800 * EPow P2 (EVar vlmMsq) - #813400 * EPow P2 (EVar vlmMst2)) *
   EPow P2 (EVar vMst1) - (#58456697 - #420 * EVar vlmMsq * (#63929 + #69090 * EVar vlmMst1 - #69930 * EVar vlmMst2) +
   #374010 * EVar vlmMst2 + #10290 * EVar vlmMst1 * (#2573 + #2820 * EVar vlmMst2) - #176400 * EPow P2 (EVar vlmMsq) -
   #29194200 * EPow P2 (EVar vlmMst2)) * EPow P2 (EVar vMst2)) + #514500 * EVar vDmglst2 * ((#119 - #34 * EVar vlmMst2
   + #12 * EVar vlmMsq * (#1 - #10 * EVar vlmMst1 + #10 * EVar vlmMst2) + #2 * EVar vlmMst1 * (#11 + #60 * EVar
   vlmMst2) - #120 * EPow P2 (EVar vlmMst2)) * EPow P2 (EVar vMst1) - #2 * (#337 - #24 * EVar vlmMsq * (#5 + #8 * EVar
   vlmMst1 - #8 * EVar vlmMst2) + #14 * EVar vlmMst2 + #2 * EVar vlmMst1 * (#53 + #96 * EVar vlmMst2) - #192 * EPow P2
   (EVar vlmMst2)) * EPow P2 (EVar vMst2))) * EPow P4 (EVar vMst2) / (#11113200 * EPow P4 (EVar vMsq)) + (- #30 * EVar
   vDmglst2 * EPow P2 (EVar vMsq) * ((- #115 + #430 * EVar vlmMst2 + #64 * EVar vlmMst1 * EVar vlmMst2 - #30 * EVar
   vlmMsq * (- #1 + #6 * EVar vlmMst2) + #90 * EPow P2 (EVar vlmMsq) + #400 * EPow P2 (EVar vlmMst2)) * EPow P2 (EVar
   vMst1) - #64 * EVar vlmMst2 * (#1 + EVar vlmMst2) * EPow P2 (EVar vMst2)) + #100 * EVar vDmglst2 * EPow P2 (EVar
   vMst1) * ((- #174 - #109 * EVar vlmMst1 + #6 * EVar vlmMsq * (#6 + #17 * EVar vlmMst1 - #17 * EVar vlmMst2) + #73 *
   EVar vlmMst2 - #102 * EVar vlmMst1 * EVar vlmMst2 + #102 * EPow P2 (EVar vlmMst2)) * EPow P2 (EVar vMst1) + #4 *
   (#14 - #15 * EVar vlmMsq + #15 * EVar vlmMst2) * EPow P2 (EVar vMst2)) + EVar vMgl * (#50 * (#43 - #30 * EVar
   vlmMsq + #30 * EVar vlmMst2) * EPow P2 (EVar vMst1) * EPow P2 (EVar vMst2) - #15 * EPow P2 (EVar vMsq) * ((#373 +
   #706 * EVar vlmMst2 + #64 * EVar vlmMst1 * (#1 + EVar vlmMst2) - #30 * EVar vlmMsq * (#5 + #6 * EVar vlmMst2) + #90
   * EPow P2 (EVar vlmMsq) + #304 * EPow P2 (EVar vlmMst2)) * EPow P2 (EVar vMst1) - #32 * EPow P2 (#1 + EVar vlmMst2)
   * EPow P2 (EVar vMst2)) + #6 * (- #637 + #20 * EVar vlmMsq * (#9 + #20 * EVar vlmMst1 - #20 * EVar vlmMst2) + #495
   * EVar vlmMst2 - #25 * EVar vlmMst1 * (#27 + #16 * EVar vlmMst2) + #400 * EPow P2 (EVar vlmMst2)) * EPow P4 (EVar
   vMst1))) * EPow P4 (EVar vMst2) / (#270 * EPow P2 (EVar vMsq) * EPow P4 (EVar vMst1)) + (- #45 * EVar vMgl * (#664
   * EConst COepS2 - #81 * (#1261 + #166 * EVar vlmMst1 - #166 * EVar vlmMst2) * EConst CS2) * EPow P2 (EVar vMst1) *
   EPow P2 (EVar vMst2) + #54 * EVar vDmglst2 * (#632 * EConst COepS2 + #9 * (#16193 - #1422 * EVar vlmMst1 + #1422 *
   EVar vlmMst2) * EConst CS2) * EPow P2 (EVar vMst1) * EPow P2 (EVar vMst2) - #15 * EVar vMgl * (#3548 * EConst
   COepS2 - #27 * (#15148 + #2661 * EVar vlmMst1 - #2661 * EVar vlmMst2) * EConst CS2) * EPow P4 (EVar vMst1) + #4 *
   EVar vDmglst2 * (#25328 * EConst COepS2 + #27 * (#47051 - #18996 * EVar vlmMst1 + #18996 * EVar vlmMst2) * EConst
   CS2) * EPow P4 (EVar vMst1) + #3024 * EVar vDmglst2 * EConst COepS2 * EPow P4 (EVar vMst2) - #5184 * EVar vMgl *
   EConst COepS2 * EPow P4 (EVar vMst2)) / (#2187 * EPow P2 (EVar vMst2))) / EVar vMgl) + (EVar vs2t * EPow P2 (EVar
   vMst2) * (#4 * (- #1 + #2 * EVar vlmMst2) * EVar vMgl * EVar vshiftst3 * EPow P2 (EVar vMt) / EPow P2 (EVar vMst1)
   + #6 * EVar vDmglst2 * (#1677 - #14 * EVar vlmMst1 + #14 * EVar vlmMst2) * EConst CS2 * EPow P2 (EVar vs2t) + EVar
   vMgl * (#144 * (#22 + EVar vlmMst1 - EVar vlmMst2) * EConst CS2 + (#1 + EVar vlmMst1 - EVar vlmMst2) * (- #1 + #2 *
   EVar vlmMst2) * EVar vshiftst3) * EPow P2 (EVar vs2t)) / #3 + #2 * EConst CT1ep * (#3 * EVar vMgl * (#3 * EPow P2
   (EVar vMst1) * EPow P2 (EVar vMst2) * (- #2990 * EVar vMst2 * EVar vs2t * EPow P2 (EVar vMt) - #627 * EVar vMt *
   EPow P2 (EVar vMst2) * EPow P2 (EVar vs2t) + #1760 * EPow P3 (EVar vMt) + #830 * EPow P3 (EVar vMst2) * EPow P3
   (EVar vs2t)) + (- #22804 * EVar vMst2 * EVar vs2t * EPow P2 (EVar vMt) - #3198 * EVar vMt * EPow P2 (EVar vMst2) *
   EPow P2 (EVar vs2t) + #16240 * EPow P3 (EVar vMt) + #4435 * EPow P3 (EVar vMst2) * EPow P3 (EVar vs2t)) * EPow P4
   (EVar vMst1) + #27 * (- #46 * EVar vMst2 * EVar vs2t * EPow P2 (EVar vMt) - #21 * EVar vMt * EPow P2 (EVar vMst2) *
   EPow P2 (EVar vs2t) + #28 * EPow P3 (EVar vMt) + #16 * EPow P3 (EVar vMst2) * EPow P3 (EVar vs2t)) * EPow P4 (EVar
   vMst2)) + EVar vDmglst2 * EVar vMst2 * (- #27 * EVar vMst2 * EPow P2 (EVar vMst1) * (- #800 * EVar vMst2 * EVar
   vs2t * EPow P2 (EVar vMt) - #907 * EVar vMt * EPow P2 (EVar vMst2) * EPow P2 (EVar vs2t) + #1984 * EPow P3 (EVar
   vMt) + #316 * EPow P3 (EVar vMst2) * EPow P3 (EVar vs2t)) + #2 * EVar vs2t * (#35601 * EVar vMst2 * EVar vMt * EVar
   vs2t + #66168 * EPow P2 (EVar vMt) - #12664 * EPow P2 (EVar vMst2) * EPow P2 (EVar vs2t)) * EPow P4 (EVar vMst1) -
   #189 * (#20 * EPow P3 (EVar vMst2) * EPow P3 (EVar vMt) - #15 * EVar vMt * EPow P2 (EVar vs2t) * EPow P5 (EVar
   vMst2) + #4 * EPow P3 (EVar vs2t) * EPow P6 (EVar vMst2)))) / (#729 * EPow P5 (EVar vMst2))) / EVar vMgl)) / EVar
   vTbeta + EVar vs2t * EPow P3 (EVar vMt) * (#18 * EPow P2 (EVar vMsq) * (- #21600 * (EVar vDmglst2 * (- #15 + #2 *
   EVar vlmMst1 - #4 * EVar vlmMst2 + #2 * EVar vlmMt) + (#7 - #2 * EVar vlmMst1 + #4 * EVar vlmMst2 - #2 * EVar
   vlmMt) * EVar vMgl) * EPow P2 (EVar vMst1) + EPow P2 (EVar vMsq) * (#3 * EVar vDmglst2 * (#678821 + #737120 * EVar
   vlmMst2 + #21600 * EVar vlmMsq * (#13 - #2 * EVar vlmMst1 + #4 * EVar vlmMst2 - #2 * EVar vlmMt) - #2880 * (#21 +
   #12 * EVar vlmMst2 - #4 * EVar vlmMt) * EPow P2 (EVar vlmMst1) + #440160 * EPow P2 (EVar vlmMst2) - #480 * EVar
   vlmMt * (- #279 - #13 * EVar vlmMst2 + #24 * EPow P2 (EVar vlmMst2)) - #34560 * (#2 + EVar vlmMst2) * EPow P2 (EVar
   vlmMt) + #160 * EVar vlmMst1 * (- #4724 - #1941 * EVar vlmMst2 - #39 * EVar vlmMt + #72 * EPow P2 (EVar vlmMst2) +
   #216 * EPow P2 (EVar vlmMt)) + #23040 * EPow P3 (EVar vlmMst2)) - EVar vMgl * (#1058993 - #330480 * EVar vlmMst2 +
   #64800 * EVar vlmMsq * (#5 - #2 * EVar vlmMst1 + #4 * EVar vlmMst2 - #2 * EVar vlmMt) + #8640 * (- #13 + #4 * EVar
   vlmMst2 + #4 * EVar vlmMt) * EPow P2 (EVar vlmMst1) + #622080 * EPow P2 (EVar vlmMst2) - #4320 * EVar vlmMt * (-
   #31 - #6 * EVar vlmMst2 + #8 * EPow P2 (EVar vlmMst2)) - #2160 * EVar vlmMst1 * (#325 + #300 * EVar vlmMst2 - #52 *
   EVar vlmMt + #112 * EPow P2 (EVar vlmMst2) - #48 * EPow P2 (EVar vlmMt)) - #103680 * EVar vlmMst2 * EPow P2 (EVar
   vlmMt) + #207360 * EPow P3 (EVar vlmMst2)))) * EPow P4 (EVar vMst1) * EPow P4 (EVar vMst2) + #8 * EPow P2 (EVar
   vMst2) * (EVar vDmglst2 * (#24208447 + #1263240 * EVar vlmMst2 - #9720 * (#266 + #74 * EVar vlmMst2 - #55 * EVar
   vlmMt) * EPow P2 (EVar vlmMst1) - #1140480 * EPow P2 (EVar vlmMst2) + #145800 * EVar vlmMsq * (#28 + EVar vlmMst2 *
   (#41 - #6 * EVar vlmMt) - #10 * EVar vlmMt + EVar vlmMst1 * (- #31 - #6 * EVar vlmMst2 + #6 * EVar vlmMt) + #6 *
   EPow P2 (EVar vlmMst2)) + #3240 * EVar vlmMt * (#846 + #1042 * EVar vlmMst2 + #309 * EPow P2 (EVar vlmMst2)) -
   #233280 * (#2 + #3 * EVar vlmMst2) * EPow P2 (EVar vlmMt) + #360 * EVar vlmMst1 * (- #21491 + EVar vlmMst2 * (#8190
   - #4266 * EVar vlmMt) - #5922 * EVar vlmMt + #3267 * EPow P2 (EVar vlmMst2) + #1944 * EPow P2 (EVar vlmMt)) + #9720
   * EPow P3 (EVar vlmMst1) - #466560 * EPow P3 (EVar vlmMst2)) - #3 * EVar vMgl * (#1907557 - #326160 * EVar vlmMst2
   + #1080 * (- #158 + #6 * EVar vlmMst2 + #39 * EVar vlmMt) * EPow P2 (EVar vlmMst1) + #75600 * EPow P2 (EVar
   vlmMst2) + #48600 * EVar vlmMsq * (#2 + #11 * EVar vlmMst2 - EVar vlmMst1 * (#9 + #2 * EVar vlmMst2 - #2 * EVar
   vlmMt) - #2 * (#1 + EVar vlmMst2) * EVar vlmMt + #2 * EPow P2 (EVar vlmMst2)) + #1620 * EVar vlmMt * (#83 + #104 *
   EVar vlmMst2 + #58 * EPow P2 (EVar vlmMst2)) - #540 * EVar vlmMst1 * (#797 + #120 * EVar vlmMt + #4 * EVar vlmMst2
   * (#4 + #63 * EVar vlmMt) + #78 * EPow P2 (EVar vlmMst2) - #144 * EPow P2 (EVar vlmMt)) - #77760 * EVar vlmMst2 *
   EPow P2 (EVar vlmMt) + #1080 * EPow P3 (EVar vlmMst1) + #34560 * EPow P3 (EVar vlmMst2))) * EPow P4 (EVar vMsq) *
   EPow P6 (EVar vMst1) + #54 * EPow P2 (EVar vMst1) * (#5 * EVar vDmglst2 * (- #80 * (#131 + #126 * EVar vlmMst2 + #6
   * EVar vlmMst1 * (- #7 + #6 * EVar vlmMst2) + #6 * (- #7 + #6 * EVar vlmMst2) * EVar vlmMt - #6 * EVar vlmMsq * (#7
   + #6 * (EVar vlmMst1 + EVar vlmMt)) + #36 * EPow P2 (EVar vlmMsq) - #36 * EPow P2 (EVar vlmMst2)) * EPow P2 (EVar
   vMsq) * EPow P2 (EVar vMst1) + (#1983 + #182144 * EVar vlmMst2 + #4320 * (EVar vlmMst1 - EVar vlmMst2) * EPow P2
   (EVar vlmMsq) + #2304 * (- #1 + EVar vlmMst2) * EPow P2 (EVar vlmMst1) + #33504 * EPow P2 (EVar vlmMst2) + #240 *
   EVar vlmMsq * (- #161 + EVar vlmMst1 * (#54 - #36 * EVar vlmMst2) - #60 * EVar vlmMst2 + #6 * EVar vlmMt + #36 *
   EPow P2 (EVar vlmMst2)) + #48 * EVar vlmMt * (#31 - #128 * EVar vlmMst2 + #96 * EPow P2 (EVar vlmMst2)) + #144 *
   EVar vlmMst1 * (- #285 + #32 * EVar vlmMt - #2 * EVar vlmMst2 * (#55 + #16 * EVar vlmMt) + #112 * EPow P2 (EVar
   vlmMst2)) - #18432 * EPow P3 (EVar vlmMst2)) * EPow P4 (EVar vMsq) - #20 * (#155 + #90 * EVar vlmMst2 + #3 * EVar
   vlmMst1 * (- #23 + #12 * EVar vlmMst2) + (- #69 + #36 * EVar vlmMst2) * EVar vlmMt + #12 * EVar vlmMsq * (#4 - #3 *
   (EVar vlmMst1 + EVar vlmMt)) + #36 * EPow P2 (EVar vlmMsq) - #36 * EPow P2 (EVar vlmMst2)) * EPow P4 (EVar vMst1))
   - EVar vMgl * (#400 * (#95 - #18 * EVar vlmMst2 + #6 * EVar vlmMst1 * (#5 + #6 * EVar vlmMst2) + #6 * (#5 + #6 *
   EVar vlmMst2) * EVar vlmMt - #6 * EVar vlmMsq * (#7 + #6 * (EVar vlmMst1 + EVar vlmMt)) + #36 * EPow P2 (EVar
   vlmMsq) - #36 * EPow P2 (EVar vlmMst2)) * EPow P2 (EVar vMsq) * EPow P2 (EVar vMst1) + #9 * (#5253 - #4640 * EVar
   vlmMst2 + #1200 * EVar vlmMsq * (#13 - #4 * EVar vlmMst2 * (#1 + EVar vlmMst2) + EVar vlmMst1 * (#2 + #4 * EVar
   vlmMst2) + #2 * EVar vlmMt) - #2400 * (EVar vlmMst1 - EVar vlmMst2) * EPow P2 (EVar vlmMsq) - #1280 * (#1 + EVar
   vlmMst2) * EPow P2 (EVar vlmMst1) + #29600 * EPow P2 (EVar vlmMst2) - #80 * EVar vlmMt * (#127 + #96 * EVar vlmMst2
   + #32 * EPow P2 (EVar vlmMst2)) - #80 * EVar vlmMst1 * (#183 + #274 * EVar vlmMst2 - #32 * (#1 + EVar vlmMst2) *
   EVar vlmMt + #112 * EPow P2 (EVar vlmMst2)) - #3840 * EPow P2 (EVar vlmMt) + #10240 * EPow P3 (EVar vlmMst2)) *
   EPow P4 (EVar vMsq) + #100 * (#47 - #54 * EVar vlmMst2 + (#3 + #36 * EVar vlmMst2) * (EVar vlmMst1 + EVar vlmMt) +
   #12 * EVar vlmMsq * (#4 - #3 * (EVar vlmMst1 + EVar vlmMt)) + #36 * EPow P2 (EVar vlmMsq) - #36 * EPow P2 (EVar
   vlmMst2)) * EPow P4 (EVar vMst1))) * EPow P6 (EVar vMst2) - #3 * EPow P2 (EVar vMuSUSY) * (#60 * EPow P2 (EVar
   vMsq) * EPow P2 (EVar vMst2) * (- #720 * (EVar vMgl * (#55 + #6 * EVar vlmMsq * (- #2 + #5 * EVar vlmMst1 - #5 *
   EVar vlmMst2) + #52 * EVar vlmMst2 - #10 * EVar vlmMst1 * (#4 + #3 * EVar vlmMst2) + #30 * EPow P2 (EVar vlmMst2))
   + EVar vDmglst2 * (#321 + #18 * EVar vlmMsq * (- #2 + #5 * EVar vlmMst1 - #5 * EVar vlmMst2) + #96 * EVar vlmMst2 -
   #30 * EVar vlmMst1 * (#2 + #3 * EVar vlmMst2) + #90 * EPow P2 (EVar vlmMst2))) * EPow P2 (EVar vMst1) + EPow P2
   (EVar vMsq) * (#243 * EVar vDmglst2 * (EDec 8816139917695473 13 + #248 * EConst CB4 - #4 * EConst CDN - #2560 *
   EVar vlmMsq / #3 + EVar vlmMst1 * (EDec 13096296296296296 14 - #120 * EVar vlmMsq - #40 * EPow P2 (EVar vlmMsq)) +
   #80 * EPow P2 (EVar vlmMsq) / #3 + #176 * EPow P2 (EVar vlmMst1) / #9 + #8 * EVar vlmMst2 * (#4364 - #573 * EVar
   vlmMst1 + #45 * EVar vlmMsq * (#5 + #6 * EVar vlmMst1) + #135 * EPow P2 (EVar vlmMsq) + #24 * EPow P2 (EVar
   vlmMst1)) / #27 - #8 * (- #377 + #90 * EVar vlmMsq + #376 * EVar vlmMst1) * EPow P2 (EVar vlmMst2) / #9 + #2944 *
   EPow P3 (EVar vlmMst2) / #9) + EVar vMgl * (#251578 + #27432 * EConst CB4 - #108 * EConst CDN - #58320 * EVar
   vlmMsq + #6480 * EPow P2 (EVar vlmMsq) - #216 * EVar vlmMst1 * (#422 - #45 * EVar vlmMsq + #45 * EPow P2 (EVar
   vlmMsq)) - #4752 * EPow P2 (EVar vlmMst1) + #216 * EVar vlmMst2 * (#1096 + #15 * EVar vlmMsq * (- #7 + #6 * EVar
   vlmMst1 - #6 * EVar vlmMst2) + #717 * EVar vlmMst2 - EVar vlmMst1 * (#551 + #248 * EVar vlmMst2) + #45 * EPow P2
   (EVar vlmMsq) + #8 * EPow P2 (EVar vlmMst1)) + #51840 * EPow P3 (EVar vlmMst2)))) * EPow P4 (EVar vMst1) + #9 *
   EPow P2 (EVar vMst1) * (#15 * EVar vMgl * (- #640 * (#23 + EVar vlmMsq * (- #6 + #9 * EVar vlmMst1 - #9 * EVar
   vlmMst2) + #18 * EVar vlmMst2 - #3 * EVar vlmMst1 * (#4 + #3 * EVar vlmMst2) + #9 * EPow P2 (EVar vlmMst2)) * EPow
   P2 (EVar vMsq) * EPow P2 (EVar vMst1) + #3 * (#18201 + #1760 * EConst CB4 - #16 * EConst CDN - #5760 * EVar vlmMsq
   + #960 * EPow P2 (EVar vlmMsq) - #16 * EVar vlmMst1 * (#199 - #30 * EVar vlmMsq + #30 * EPow P2 (EVar vlmMsq)) +
   #16 * EVar vlmMst2 * (#1291 - #322 * EVar vlmMst1 + #30 * EVar vlmMsq * (- #5 + #2 * EVar vlmMst1) + #30 * EPow P2
   (EVar vlmMsq) - #16 * EPow P2 (EVar vlmMst1)) - #256 * EPow P2 (EVar vlmMst1) - #32 * (- #313 + #30 * EVar vlmMsq +
   #72 * EVar vlmMst1) * EPow P2 (EVar vlmMst2) + #2560 * EPow P3 (EVar vlmMst2)) * EPow P4 (EVar vMsq) - #20 * (#233
   + #36 * EVar vlmMsq * (- #2 + #5 * EVar vlmMst1 - #5 * EVar vlmMst2) + #207 * EVar vlmMst2 - #45 * EVar vlmMst1 *
   (#3 + #4 * EVar vlmMst2) + #180 * EPow P2 (EVar vlmMst2)) * EPow P4 (EVar vMst1)) + EVar vDmglst2 * (- #14400 *
   (#77 + #6 * EVar vlmMsq * (- #2 + #3 * EVar vlmMst1 - #3 * EVar vlmMst2) + #24 * EVar vlmMst2 - #6 * EVar vlmMst1 *
   (#2 + #3 * EVar vlmMst2) + #18 * EPow P2 (EVar vlmMst2)) * EPow P2 (EVar vMsq) * EPow P2 (EVar vMst1) + (#779917 +
   #188640 * EConst CB4 - #3600 * EConst CDN - #648000 * EVar vlmMsq + #43200 * EPow P2 (EVar vlmMsq) - #720 * EVar
   vlmMst1 * (- #173 + #90 * EVar vlmMsq + #30 * EPow P2 (EVar vlmMsq)) + #720 * EVar vlmMst2 * (#1623 - #130 * EVar
   vlmMst1 + #30 * EVar vlmMsq * (- #1 + #2 * EVar vlmMst1) + #30 * EPow P2 (EVar vlmMsq) - #16 * EPow P2 (EVar
   vlmMst1)) + #11520 * EPow P2 (EVar vlmMst1) - #1440 * (- #265 + #30 * EVar vlmMsq + #136 * EVar vlmMst1) * EPow P2
   (EVar vlmMst2) + #207360 * EPow P3 (EVar vlmMst2)) * EPow P4 (EVar vMsq) - #300 * (#1961 + #180 * EVar vlmMsq * (-
   #2 + #5 * EVar vlmMst1 - #5 * EVar vlmMst2) + #675 * EVar vlmMst2 - #45 * EVar vlmMst1 * (#7 + #20 * EVar vlmMst2)
   + #900 * EPow P2 (EVar vlmMst2)) * EPow P4 (EVar vMst1))) * EPow P4 (EVar vMst2) + #10 * EVar vMgl * (#2552929 +
   #257904 * EConst CB4 - #648 * EConst CDN - #456840 * EVar vlmMsq + #38880 * EPow P2 (EVar vlmMsq) - #216 * EVar
   vlmMst1 * (#4591 - #360 * EVar vlmMsq + #450 * EPow P2 (EVar vlmMsq)) + #41904 * EPow P2 (EVar vlmMst1) + #216 *
   EVar vlmMst2 * (#9211 - #6466 * EVar vlmMst1 + #180 * EVar vlmMsq * (- #4 + #5 * EVar vlmMst1) + #450 * EPow P2
   (EVar vlmMsq) + #576 * EPow P2 (EVar vlmMst1)) - #864 * (- #1784 + #225 * EVar vlmMsq + #840 * EVar vlmMst1) * EPow
   P2 (EVar vlmMst2) - #3456 * EPow P3 (EVar vlmMst1) + #604800 * EPow P3 (EVar vlmMst2)) * EPow P4 (EVar vMsq) * EPow
   P6 (EVar vMst1) + #90 * (- #48 * (#15 * EVar vDmglst2 * (#95 + #12 * EVar vlmMsq * (- #2 + EVar vlmMst1 - EVar
   vlmMst2) + #32 * EVar vlmMst2 - #4 * EVar vlmMst1 * (#2 + #3 * EVar vlmMst2) + #12 * EPow P2 (EVar vlmMst2)) + #5 *
   EVar vMgl * (#71 + #12 * EVar vlmMsq * (- #2 + EVar vlmMst1 - EVar vlmMst2) + #40 * EVar vlmMst2 - #4 * EVar
   vlmMst1 * (#4 + #3 * EVar vlmMst2) + #12 * EPow P2 (EVar vlmMst2))) * EPow P2 (EVar vMsq) * EPow P2 (EVar vMst1) -
   #5 * (EVar vMgl * (#911 + #12 * EVar vlmMsq * (- #37 + #18 * EVar vlmMst1 - #18 * EVar vlmMst2) + #606 * EVar
   vlmMst2 - #54 * EVar vlmMst1 * (#3 + #4 * EVar vlmMst2) + #216 * EPow P2 (EVar vlmMst2)) + EVar vDmglst2 * (#5591 +
   #12 * EVar vlmMsq * (- #181 + #90 * EVar vlmMst1 - #90 * EVar vlmMst2) + #2550 * EVar vlmMst2 - #54 * EVar vlmMst1
   * (#7 + #20 * EVar vlmMst2) + #1080 * EPow P2 (EVar vlmMst2))) * EPow P2 (EVar vMst1) * EPow P2 (EVar vMst2) +
   #2304 * (#1 + EVar vlmMst2) * (- EVar vDmglst2 + #3 * EVar vDmglst2 * EVar vlmMst2 + EVar vMgl + EVar vlmMst2 *
   EVar vMgl) * EPow P4 (EVar vMsq) - #5 * (EVar vMgl * (#1153 + #12 * EVar vlmMsq * (- #35 + #54 * EVar vlmMst1 - #54
   * EVar vlmMst2) + #906 * EVar vlmMst2 - #162 * EVar vlmMst1 * (#3 + #4 * EVar vlmMst2) + #648 * EPow P2 (EVar
   vlmMst2)) + EVar vDmglst2 * (#8713 + #12 * EVar vlmMsq * (- #179 + #270 * EVar vlmMst1 - #270 * EVar vlmMst2) +
   #3282 * EVar vlmMst2 - #162 * EVar vlmMst1 * (#7 + #20 * EVar vlmMst2) + #3240 * EPow P2 (EVar vlmMst2))) * EPow P4
   (EVar vMst1)) * EPow P6 (EVar vMst2)) + EPow P2 (EVar vMst1) * EPow P4 (EVar vMsq) * (- #4 * EVar vDmglst2 * EPow
   P2 (EVar vMst2) * (#18 * EPow P2 (EVar vMst1) * (#3 * (#18440 * EConst COepS2 - #9 * (#15691 + #41490 * EVar
   vlmMst1 - #41490 * EVar vlmMst2) * EConst CS2) * EPow P2 (EVar vMst2) + #4 * (#5060 * EConst COepS2 - #27 * (#2489
   + #3795 * EVar vlmMst1 - #3795 * EVar vlmMst2) * EConst CS2) * EPow P2 (EVar vMuSUSY)) + #27 * EPow P2 (EVar vMst2)
   * (#50 * (#56 * EConst COepS2 - #81 * (- #27 + #14 * EVar vlmMst1 - #14 * EVar vlmMst2) * EConst CS2) * EPow P2
   (EVar vMst2) + (#1400 * EConst COepS2 - #81 * (- #453 + #350 * EVar vlmMst1 - #350 * EVar vlmMst2) * EConst CS2) *
   EPow P2 (EVar vMuSUSY)) + #16 * (#257300 * EConst COepS2 - #27 * (#220117 + #192975 * EVar vlmMst1 - #192975 * EVar
   vlmMst2) * EConst CS2) * EPow P4 (EVar vMst1)) + #12 * EVar vMgl * (#2 * (#8 * (#13700 * EConst COepS2 - #27 *
   (#16297 + #10275 * EVar vlmMst1 - #10275 * EVar vlmMst2) * EConst CS2) * EPow P2 (EVar vMst2) + #5 * (#7528 *
   EConst COepS2 - #27 * (#9185 + #5646 * EVar vlmMst1 - #5646 * EVar vlmMst2) * EConst CS2) * EPow P2 (EVar vMuSUSY))
   * EPow P4 (EVar vMst1) + #135 * (#56 * EConst COepS2 + #81 * (#1 - #14 * EVar vlmMst1 + #14 * EVar vlmMst2) *
   EConst CS2) * EPow P2 (EVar vMuSUSY) * EPow P4 (EVar vMst2) + #6 * EPow P2 (EVar vMst1) * (#10 * (#544 * EConst
   COepS2 - #81 * (#169 + #136 * EVar vlmMst1 - #136 * EVar vlmMst2) * EConst CS2) * EPow P2 (EVar vMst2) * EPow P2
   (EVar vMuSUSY) + (#15080 * EConst COepS2 - #81 * (#4367 + #3770 * EVar vlmMst1 - #3770 * EVar vlmMst2) * EConst
   CS2) * EPow P4 (EVar vMst2)) + #54 * (#280 * EConst COepS2 - #81 * (- #79 + #70 * EVar vlmMst1 - #70 * EVar
   vlmMst2) * EConst CS2) * EPow P6 (EVar vMst2))) + #1080 * (#8 * (- #5 * EVar vMgl * (#119 - #63 * EVar vlmMst2 +
   #12 * EVar vlmMst1 * (#4 + #3 * EVar vlmMst2) - #6 * (#1 + #3 * EVar vlmMst2) * EVar vlmMt + #3 * EVar vlmMsq * (#7
   - #12 * EVar vlmMst1 + #18 * EVar vlmMst2 + #6 * EVar vlmMt) - #18 * EPow P2 (EVar vlmMsq) - #36 * EPow P2 (EVar
   vlmMst2)) - #15 * EVar vDmglst2 * (#125 - #37 * EVar vlmMst2 + #12 * EVar vlmMst1 * (#2 + #3 * EVar vlmMst2) + #6 *
   EVar vlmMt - #6 * EVar vlmMst2 * EVar vlmMt + EVar vlmMsq * (#7 - #36 * EVar vlmMst1 + #42 * EVar vlmMst2 + #6 *
   EVar vlmMt) - #6 * EPow P2 (EVar vlmMsq) - #36 * EPow P2 (EVar vlmMst2))) * EPow P2 (EVar vMsq) * EPow P2 (EVar
   vMst1) - #15 * (EVar vDmglst2 * (#754 - #50 * EVar vlmMst2 + #9 * EVar vlmMst1 * (#7 + #20 * EVar vlmMst2) - #4 *
   EVar vlmMsq * (#10 + #45 * EVar vlmMst1 - #66 * EVar vlmMst2 - #21 * EVar vlmMt) + #27 * EVar vlmMt - #84 * EVar
   vlmMst2 * EVar vlmMt - #84 * EPow P2 (EVar vlmMsq) - #180 * EPow P2 (EVar vlmMst2)) + EVar vMgl * (#206 + #6 * EVar
   vlmMst2 + #9 * EVar vlmMst1 * (#3 + #4 * EVar vlmMst2) - #12 * EVar vlmMsq * (#2 + #3 * EVar vlmMst1 - #6 * EVar
   vlmMst2 - #3 * EVar vlmMt) - #9 * (#1 + #4 * EVar vlmMst2) * EVar vlmMt - #36 * EPow P2 (EVar vlmMsq) - #36 * EPow
   P2 (EVar vlmMst2))) * EPow P2 (EVar vMst1) * EPow P2 (EVar vMst2) - #1152 * (#1 + EVar vlmMst2) * (- EVar vDmglst2
   + #3 * EVar vDmglst2 * EVar vlmMst2 + EVar vMgl + EVar vlmMst2 * EVar vMgl) * EPow P4 (EVar vMsq) - #5 * (#2 * EVar
   vMgl * (#5 - #54 * EVar vlmMst2 + #3 * EVar vlmMst1 * (#7 + #12 * EVar vlmMst2) + #3 * (#7 + #12 * EVar vlmMst2) *
   EVar vlmMt + #12 * EVar vlmMsq * (#1 - #3 * (EVar vlmMst1 + EVar vlmMt)) + #36 * EPow P2 (EVar vlmMsq) - #36 * EPow
   P2 (EVar vlmMst2)) + #6 * EVar vDmglst2 * (#41 - #6 * EVar vlmMst2 + #3 * EVar vlmMst1 * (- #1 + #12 * EVar
   vlmMst2) + (- #3 + #36 * EVar vlmMst2) * EVar vlmMt + #12 * EVar vlmMsq * (#1 - #3 * (EVar vlmMst1 + EVar vlmMt)) +
   #36 * EPow P2 (EVar vlmMsq) - #36 * EPow P2 (EVar vlmMst2))) * EPow P4 (EVar vMst1)) * EPow P8 (EVar vMst2)) /
   (#43740 * EVar vMgl * EPow P2 (EVar vMst1) * EPow P4 (EVar vMsq) * EPow P5 (EVar vMst2)) + (#1 - #2 * EVar vlmMst2)
   * EVar vshiftst3 * ((#8 * (- #1 + EVar vlmMst1 - EVar vlmMst2) * EPow P2 (EVar vMst1) * EPow P2 (EVar vMt) * EPow
   P2 (EVar vs2t) - #16 * EPow P4 (EVar vMt) - (- #4 * EPow P2 (EVar vMst1) * EPow P2 (EVar vMst2) + (#3 + #2 * EVar
   vlmMst1 - #2 * EVar vlmMst2) * EPow P4 (EVar vMst1) + EPow P4 (EVar vMst2)) * EPow P4 (EVar vs2t)) * EPow P6 (EVar
   vMst2) - #4 * EPow P2 (EVar vMt) * EPow P2 (EVar vMuSUSY) * EPow P2 (EVar vs2t) * (#2 * (#1 - #2 * EVar vlmMst1 +
   #2 * EVar vlmMst2) * EPow P2 (EVar vMst2) * EPow P4 (EVar vMst1) + #2 * (#1 - EVar vlmMst1 + EVar vlmMst2) * EPow
   P2 (EVar vMst1) * EPow P4 (EVar vMst2) + (#2 - #6 * EVar vlmMst1 + #6 * EVar vlmMst2) * EPow P6 (EVar vMst1) + EPow
   P6 (EVar vMst2)) / EPow P2 (EVar vSbeta) + #4 * EPow P2 (EVar vMt) * EPow P2 (EVar vs2t) * (EPow P2 (EVar vMuSUSY)
   * EPow P6 (EVar vMst2) + #2 * (EPow P2 (EVar vMuSUSY) * ((#1 - #2 * EVar vlmMst1 + #2 * EVar vlmMst2) * EPow P2
   (EVar vMst2) * EPow P4 (EVar vMst1) + (#1 - EVar vlmMst1 + EVar vlmMst2) * EPow P2 (EVar vMst1) * EPow P4 (EVar
   vMst2) + (#1 - #3 * EVar vlmMst1 + #3 * EVar vlmMst2) * EPow P6 (EVar vMst1)) + EPow P8 (EVar vMst2)))) / (#12 *
   EPow P2 (EVar vMst1) * EPow P4 (EVar vMst2)))) + EVar vAl4p * EVar vxDmglst2 * EPow P2 (EVar vDmglst2) * (EVar
   vtwoLoopFlag * (#36 * EVar vMt * EPow P3 (EVar vs2t) * (#4 * (#3 - EVar vlmMst1 * (- #2 + EVar vlmMst2) - #4 * EVar
   vlmMst2 + EPow P2 (EVar vlmMst2)) * EPow P2 (EVar vMst1) * EPow P2 (EVar vMst2) + (#7 - #6 * EVar vlmMst1 + #6 *
   EVar vlmMst2) * EPow P4 (EVar vMst1) + #4 * (#14 - EVar vlmMst1 * (- #2 + EVar vlmMst2) + EPow P2 (EVar vlmMst2)) *
   EPow P4 (EVar vMst2)) / EVar vMst2 + #32 * EPow P4 (EVar vMt) * (- #9 * (- #27 - #19 * EVar vlmMst2 + #2 * EVar
   vlmMst1 * (#6 + EVar vlmMst2 - EVar vlmMt) + #7 * EVar vlmMt + #2 * EVar vlmMst2 * EVar vlmMt - #2 * EPow P2 (EVar
   vlmMst2)) * EPow P2 (EVar vMst2) * EPow P4 (EVar vMst1) + (- #2 + #9 * EVar vlmMst1 + #3 * EVar vlmMst2 + #15 *
   EVar vlmMt) * EPow P2 (EVar vMst1) * EPow P4 (EVar vMst2) + #27 * (#23 + #38 * EVar vlmMst2 - #9 * EVar vlmMt - #6
   * EVar vlmMst2 * EVar vlmMt + EVar vlmMst1 * (- #29 - #6 * EVar vlmMst2 + #6 * EVar vlmMt) + #6 * EPow P2 (EVar
   vlmMst2)) * EPow P6 (EVar vMst1) + #9 * (- #2 + #3 * EVar vlmMst2) * EPow P6 (EVar vMst2)) / (EPow P2 (EVar vMst1)
   * EPow P4 (EVar vMst2)) + #8 * EVar vs2t * EPow P3 (EVar vMt) * (#9 * (#4 * (- #28 - #41 * EVar vlmMst2 + EVar
   vlmMst1 * (#31 + #6 * EVar vlmMst2 - #6 * EVar vlmMt) + #10 * EVar vlmMt + #6 * EVar vlmMst2 * EVar vlmMt - #6 *
   EPow P2 (EVar vlmMst2)) * EPow P2 (EVar vMst2) + (- #199 + #26 * EVar vlmMst2 + EVar vlmMst1 * (- #34 + #20 * EVar
   vlmMst2) - #20 * EPow P2 (EVar vlmMst2)) * EPow P2 (EVar vMuSUSY)) * EPow P4 (EVar vMst1) + #36 * (- #14 + EVar
   vlmMst1 * (- #2 + EVar vlmMst2) - EPow P2 (EVar vlmMst2)) * EPow P2 (EVar vMuSUSY) * EPow P4 (EVar vMst2) + #36 *
   EPow P2 (EVar vMst1) * ((- #31 + #3 * EVar vlmMst1 * (- #2 + EVar vlmMst2) + #4 * EVar vlmMst2 - #3 * EPow P2 (EVar
   vlmMst2)) * EPow P2 (EVar vMst2) * EPow P2 (EVar vMuSUSY) + (- #13 + #2 * EVar vlmMst1 - #4 * EVar vlmMst2 + #2 *
   EVar vlmMt) * EPow P4 (EVar vMst2)) + #2 * (#161 + #36 * EVar vlmMst1 * (- #2 + EVar vlmMst2) + #78 * EVar vlmMst2
   - #6 * EVar vlmMt - #36 * EPow P2 (EVar vlmMst2)) * EPow P6 (EVar vMst2)) / EPow P5 (EVar vMst2) + #12 * EPow P2
   (EVar vMt) * EPow P2 (EVar vs2t) * (#2 * EPow P4 (EVar vMst1) * (#9 * (#4 - EVar vlmMst1 + EVar vlmMst2 + #2 * EVar
   vlmMst1 * EVar vlmMst2 - #2 * EPow P2 (EVar vlmMst2)) * EPow P2 (EVar vMst2) * EPow P2 (EVar vMuSUSY) + (- #7 + #6
   * EVar vlmMst1 - #24 * EVar vlmMst2) * EPow P4 (EVar vMst2)) + (#12 * (- #4 + #5 * EVar vlmMst1 - #5 * EVar
   vlmMst2) * EPow P2 (EVar vMst2) + #9 * (#9 + #4 * EVar vlmMst1 * (- #1 + EVar vlmMst2) + #4 * EVar vlmMst2 - #4 *
   EPow P2 (EVar vlmMst2)) * EPow P2 (EVar vMuSUSY)) * EPow P6 (EVar vMst1) - #6 * (- #2 + #3 * EVar vlmMst2) * (#2 *
   EPow P2 (EVar vMst2) + EPow P2 (EVar vMuSUSY)) * EPow P6 (EVar vMst2) + #2 * EPow P2 (EVar vMst1) * (#3 * (#10 - #3
   * EVar vlmMst1 + #6 * EVar vlmMst1 * EVar vlmMst2 - #6 * EPow P2 (EVar vlmMst2)) * EPow P2 (EVar vMuSUSY) * EPow P4
   (EVar vMst2) + (- #23 + #36 * EVar vlmMst2) * EPow P6 (EVar vMst2))) / (EPow P2 (EVar vMst1) * EPow P4 (EVar
   vMst2)) + (#9 * EPow P4 (EVar vs2t) * (- #6 * (- #2 + EVar vlmMst1 - #2 * EVar vlmMst1 * EVar vlmMst2 + #2 * EPow
   P2 (EVar vlmMst2)) * EPow P2 (EVar vMst2) * EPow P4 (EVar vMst1) + #6 * (- #2 + EVar vlmMst1 - #2 * EVar vlmMst2 -
   #2 * EVar vlmMst1 * EVar vlmMst2 + #2 * EPow P2 (EVar vlmMst2)) * EPow P2 (EVar vMst1) * EPow P4 (EVar vMst2) + (#1
   + #6 * EVar vlmMst1) * EPow P6 (EVar vMst1) + #2 * (- #2 + #3 * EVar vlmMst2) * EPow P6 (EVar vMst2)) + #4 * EVar
   vMt * EVar vMuSUSY * (#9 * EVar vMt * EVar vMuSUSY * EVar vs2t * (- #2 * (#4 * EVar vMt * (- #31 + #3 * EVar
   vlmMst1 * (- #2 + EVar vlmMst2) + #4 * EVar vlmMst2 - #3 * EPow P2 (EVar vlmMst2)) + #3 * EVar vMst2 * EVar vs2t *
   (#4 + EVar vlmMst2 + EVar vlmMst1 * (- #1 + #2 * EVar vlmMst2) - #2 * EPow P2 (EVar vlmMst2))) * EPow P2 (EVar
   vMst2) * EPow P4 (EVar vMst1) - #2 * (EVar vMst2 * EVar vs2t * (#10 + EVar vlmMst1 * (- #3 + #6 * EVar vlmMst2) -
   #6 * EPow P2 (EVar vlmMst2)) + #4 * EVar vMt * (- #14 + EVar vlmMst1 * (- #2 + EVar vlmMst2) - EPow P2 (EVar
   vlmMst2))) * EPow P2 (EVar vMst1) * EPow P4 (EVar vMst2) + (- #3 * EVar vMst2 * EVar vs2t * (#9 + #4 * EVar vlmMst1
   * (- #1 + EVar vlmMst2) + #4 * EVar vlmMst2 - #4 * EPow P2 (EVar vlmMst2)) + EVar vMt * (#398 + EVar vlmMst1 * (#68
   - #40 * EVar vlmMst2) - #52 * EVar vlmMst2 + #40 * EPow P2 (EVar vlmMst2))) * EPow P6 (EVar vMst1) + #2 * (- #2 +
   #3 * EVar vlmMst2) * EVar vs2t * EPow P7 (EVar vMst2)) / EPow P2 (EVar vSbeta) - (- #2 * EPow P2 (EVar vMst2) *
   (#36 * (#3 - EVar vlmMst1 + EVar vlmMst2) * EVar vMst2 * EVar vs2t * EPow P2 (EVar vMt) + #54 * EVar vMt * (- #17 +
   #2 * EVar vlmMst1 * (- #2 + EVar vlmMst2) + #4 * EVar vlmMst2 - #2 * EPow P2 (EVar vlmMst2)) * EPow P2 (EVar vMst2)
   * EPow P2 (EVar vs2t) + #4 * (#29 - #18 * EVar vlmMst1 * (- #1 + EVar vlmMst2) - #3 * EVar vlmMst2 - #15 * EVar
   vlmMt + #18 * EPow P2 (EVar vlmMst2)) * EPow P3 (EVar vMt) + #9 * (#2 + #3 * EVar vlmMst2) * EPow P3 (EVar vMst2) *
   EPow P3 (EVar vs2t)) * EPow P4 (EVar vMst1) + #2 * EPow P2 (EVar vMst1) * (#6 * (- #11 + #18 * EVar vlmMst2) * EVar
   vMst2 * EVar vs2t * EPow P2 (EVar vMt) + #54 * EVar vMt * (#14 - EVar vlmMst1 * (- #2 + EVar vlmMst2) + EPow P2
   (EVar vlmMst2)) * EPow P2 (EVar vMst2) * EPow P2 (EVar vs2t) + #4 * (#79 + #18 * EVar vlmMst1 * (- #2 + EVar
   vlmMst2) + #39 * EVar vlmMst2 - #3 * EVar vlmMt - #18 * EPow P2 (EVar vlmMst2)) * EPow P3 (EVar vMt) - #9 * (#8 +
   #3 * EVar vlmMst2 + EVar vlmMst1 * (- #3 + #6 * EVar vlmMst2) - #6 * EPow P2 (EVar vlmMst2)) * EPow P3 (EVar vMst2)
   * EPow P3 (EVar vs2t)) * EPow P4 (EVar vMst2) - (#72 * (#7 - #6 * EVar vlmMst1 + #6 * EVar vlmMst2) * EVar vMst2 *
   EVar vs2t * EPow P2 (EVar vMt) - #27 * EVar vMt * (#75 + EVar vlmMst1 * (#10 - #8 * EVar vlmMst2) - #10 * EVar
   vlmMst2 + #8 * EPow P2 (EVar vlmMst2)) * EPow P2 (EVar vMst2) * EPow P2 (EVar vs2t) + #8 * (#236 + #339 * EVar
   vlmMst2 - #18 * EVar vlmMst1 * (#13 + #4 * EVar vlmMst2 - #3 * EVar vlmMt) - #3 * (#35 + #18 * EVar vlmMst2) * EVar
   vlmMt + #72 * EPow P2 (EVar vlmMst2)) * EPow P3 (EVar vMt) + #27 * (#1 - #2 * EVar vlmMst1 + #2 * EVar vlmMst2) *
   EPow P3 (EVar vMst2) * EPow P3 (EVar vs2t)) * EPow P6 (EVar vMst1) + #18 * (- #2 + #3 * EVar vlmMst2) * EVar vs2t *
   (- #4 * EPow P2 (EVar vMt) + EPow P2 (EVar vMst2) * EPow P2 (EVar vs2t)) * EPow P7 (EVar vMst2)) / EVar vTbeta) /
   EPow P5 (EVar vMst2)) / EPow P2 (EVar vMst1)) / #108 + EVar vAl4p * EVar vthreeLoopFlag * ((EDec 36767919341563784
   13 - #976 * EVar vlmMsq / #135 - #20 * (#103 + #6 * EVar vlmMsq) * EVar vlmMst1 / #9 - #4 * (- #350909 + #39600 *
   EVar vlmMsq + #450 * EVar vlmMst1) * EVar vlmMst2 / #2025 + #4 * (#6293 - #960 * (EVar vlmMsq + EVar vlmMst1) +
   #3704 * EVar vlmMst2) * EVar vlmMt / #135 + #60 * EPow P2 (EVar vlmMsq) - #28 * EPow P2 (EVar vlmMst1) / #9 + #4 *
   (- #629 + #2880 * EVar vlmMst1) * EPow P2 (EVar vlmMst2) / #135 + #464 * EPow P2 (EVar vlmMt) / #9 - #40 * (#9 + #2
   * EVar vlmMst1 - #4 * EVar vlmMst2 + #2 * EVar vlmMt) * EPow P2 (EVar vMst1) / (#9 * EPow P2 (EVar vMsq)) + #2 * (-
   #1021 - #502 * EVar vlmMst2 + #64 * EVar vlmMst1 * (- #2 + #3 * EVar vlmMst2) - #90 * EVar vlmMsq * (- #5 + #6 *
   EVar vlmMst2) + #270 * EPow P2 (EVar vlmMsq) + #624 * EPow P2 (EVar vlmMst2)) * EPow P2 (EVar vMst2) / (#9 * EPow
   P2 (EVar vMst1)) + EPow P2 (EVar vMst1) * (#3582403037 + #2058687540 * EVar vlmMst2 - #37800 * (#1783 + #285 * EVar
   vlmMst2 - #225 * EVar vlmMt) * EPow P2 (EVar vlmMst1) + #592080300 * EPow P2 (EVar vlmMst2) + #8505000 * EVar
   vlmMsq * (#65 + EVar vlmMst2 * (#27 - #2 * EVar vlmMt) - #2 * EVar vlmMst1 * (#8 + EVar vlmMst2 - EVar vlmMt) - #11
   * EVar vlmMt + #2 * EPow P2 (EVar vlmMst2)) - #56700 * EVar vlmMt * (- #5825 + #1311 * EVar vlmMst2 + #10 * EPow P2
   (EVar vlmMst2)) - #13608000 * (#7 + #2 * EVar vlmMst2) * EPow P2 (EVar vlmMt) + #3780 * EVar vlmMst1 * (- #371868 +
   #19265 * EVar vlmMt - #15 * EVar vlmMst2 * (#7547 + #140 * EVar vlmMt) + #9900 * EPow P2 (EVar vlmMst2) + #7200 *
   EPow P2 (EVar vlmMt)) + #756000 * EPow P3 (EVar vlmMst1) - #27405000 * EPow P3 (EVar vlmMst2)) / (#637875 * EPow P2
   (EVar vMst2)) - #256 * EPow P3 (EVar vlmMst2) / #3 - EPow P4 (EVar vMst1) * (#20 * (EVar vlmMst1 - #2 * EVar
   vlmMst2 + EVar vlmMt) / (#3 * EPow P4 (EVar vMsq)) + (EDec 3879568149934479 12 + #1840 * EVar vlmMsq + (EDec
   5812930880994373 13 - #2320 * EVar vlmMsq) * EVar vlmMst1 - #126272 * EPow P2 (EVar vlmMst1) / #189 - #4 * EVar
   vlmMst2 * (#57911521 - #22348620 * EVar vlmMst1 + #2381400 * EVar vlmMsq * (- #19 + #3 * EVar vlmMst1) + #2487240 *
   EPow P2 (EVar vlmMst1)) / #59535 + #16 * (- #15893 + #5670 * EVar vlmMsq + #4284 * EVar vlmMst1) * EPow P2 (EVar
   vlmMst2) / #189 + #16 * EVar vlmMt * (#2105 + #405 * EVar vlmMsq * (- #3 + #2 * EVar vlmMst1 - #2 * EVar vlmMst2) +
   #2247 * EVar vlmMst2 - #3 * EVar vlmMst1 * (#341 + #364 * EVar vlmMst2) + #234 * EPow P2 (EVar vlmMst1) + #858 *
   EPow P2 (EVar vlmMst2)) / #27 + #128 * (- #5 + #6 * EVar vlmMst1 - #6 * EVar vlmMst2) * EPow P2 (EVar vlmMt) / #3 +
   #256 * EPow P3 (EVar vlmMst1) / #27 - #5536 * EPow P3 (EVar vlmMst2) / #27) / EPow P4 (EVar vMst2)) - #128 * (- #2
   + EVar vlmMst2 + #5 * EPow P2 (EVar vlmMst2)) * EPow P4 (EVar vMst2) / (#9 * EPow P4 (EVar vMst1)) - #4 * (#150 *
   (#87 - #6 * EVar vlmMst2 * (- #10 + EVar vlmMt) - #20 * EVar vlmMt + EVar vlmMst1 * (- #40 - #6 * EVar vlmMst2 + #6
   * EVar vlmMt) + #6 * EPow P2 (EVar vlmMst2)) * EPow P4 (EVar vMst1) + (#2048 + #3330 * EVar vlmMst2 - #675 * EVar
   vlmMst1 * (- #1 + #2 * EVar vlmMst2) + #1695 * EVar vlmMt - #2700 * EVar vlmMst2 * EVar vlmMt + #150 * EVar vlmMsq
   * (- #38 + #9 * EVar vlmMst1 + #9 * EVar vlmMst2 + #18 * EVar vlmMt) - #2700 * EPow P2 (EVar vlmMsq) + #1350 * EPow
   P2 (EVar vlmMst2)) * EPow P4 (EVar vMst2)) / (#135 * EPow P2 (EVar vMsq) * EPow P2 (EVar vMst2)) + EPow P2 (EVar
   vMst2) * ((- #90263 - #176280 * EVar vlmMst2 + #750 * EVar vlmMst1 * (- #13 + #60 * EVar vlmMst2) - #42870 * EVar
   vlmMt + #106200 * EVar vlmMst2 * EVar vlmMt - #300 * EVar vlmMsq * (- #763 + #150 * EVar vlmMst1 + #204 * EVar
   vlmMst2 + #354 * EVar vlmMt) + #106200 * EPow P2 (EVar vlmMsq) - #45000 * EPow P2 (EVar vlmMst2)) * EPow P2 (EVar
   vMst1) * EPow P2 (EVar vMst2) + #1350 * (#29 + #14 * EVar vlmMst2 + #3 * EVar vlmMst1 * (- #5 + #4 * EVar vlmMst2)
   - #15 * EVar vlmMt + #12 * EVar vlmMst2 * EVar vlmMt - #4 * EVar vlmMsq * (- #4 + #3 * EVar vlmMst1 + #3 * EVar
   vlmMt) + #12 * EPow P2 (EVar vlmMsq) - #12 * EPow P2 (EVar vlmMst2)) * EPow P4 (EVar vMst1) + #75 * (#160 * (- #8 +
   #15 * EVar vlmMsq - #15 * EVar vlmMst2) * EPow P2 (EVar vMsq) * EPow P2 (EVar vMst2) + #63 * (- #5 + #28 * EVar
   vlmMsq - #28 * EVar vlmMst2) * EPow P4 (EVar vMst2))) / (#810 * EPow P2 (EVar vMst1) * EPow P4 (EVar vMsq)) + #2 *
   (- #189 * EPow P2 (EVar vMuSUSY) * (#4 * EPow P2 (EVar vMst2) * (#50134 - #270 * EConst CB4 + #270 * EConst CD3 -
   #135 * EConst CDN + #2160 * EVar vlmMst1 + #120 * (#271 + #24 * EVar vlmMst1) * EVar vlmMst2 - #120 * EVar vlmMt -
   #720 * (- #2 + #3 * EVar vlmMst1) * EPow P2 (EVar vlmMst2) + #2160 * EPow P3 (EVar vlmMst2)) + #5 * EPow P2 (EVar
   vMst1) * (#28405 - #288 * EConst CB4 + #288 * EConst CD3 - #144 * EConst CDN + #5472 * EVar vlmMst1 - #288 * (- #89
   + #2 * EVar vlmMst1) * EVar vlmMst2 + #576 * (- #2 + EVar vlmMst1 - EVar vlmMst2) * EVar vlmMt - #576 * (- #9 + #8
   * EVar vlmMst1) * EPow P2 (EVar vlmMst2) + #4608 * EPow P3 (EVar vlmMst2))) + #560 * EConst COepS2 * (- #3 * EPow
   P2 (EVar vMst1) * (#4703 * EPow P2 (EVar vMst2) + #126 * EPow P2 (EVar vMuSUSY)) + #11164 * EPow P4 (EVar vMst1) -
   #819 * EPow P4 (EVar vMst2)) - #27 * EConst CS2 * (#3 * EPow P2 (EVar vMst1) * ((#128797 - #1975260 * EVar vlmMst1
   + #1975260 * EVar vlmMst2) * EPow P2 (EVar vMst2) - #3780 * (#65 + #14 * EVar vlmMst1 - #14 * EVar vlmMst2) * EPow
   P2 (EVar vMuSUSY)) + (#4002484 + #4688880 * EVar vlmMst1 - #4688880 * EVar vlmMst2) * EPow P4 (EVar vMst1) + #189 *
   (- #4392 * EPow P2 (EVar vMst2) * EPow P2 (EVar vMuSUSY) + (#3869 - #1820 * EVar vlmMst1 + #1820 * EVar vlmMst2) *
   EPow P4 (EVar vMst2)))) / (#76545 * EPow P4 (EVar vMst2))) * EPow P4 (EVar vMt) + EVar vs2t * EPow P3 (EVar vMt) *
   (- #3 * EPow P2 (EVar vMst1) * (#90713501 + #5443200 * EVar vlmMsq + #61803000 * EVar vlmMst2 - #15120 * (- #652 +
   #7 * EVar vlmMst2) * EVar vlmMt + #725760 * (- #5 + #2 * EVar vlmMst2) * EPow P2 (EVar vlmMst1) + #4460400 * EPow
   P2 (EVar vlmMst2) - #7560 * EVar vlmMst1 * (#4679 - #370 * EVar vlmMst2 + #178 * EVar vlmMt + #384 * EPow P2 (EVar
   vlmMst2)) - #2177280 * EPow P2 (EVar vlmMt) + #453600 * (- #15 + #2 * EVar vlmMst1 - #4 * EVar vlmMst2 + #2 * EVar
   vlmMt) * EPow P2 (EVar vMst1) / EPow P2 (EVar vMsq) + #1451520 * EPow P3 (EVar vlmMst2)) / EVar vMst2 - #90720 *
   (#5 * (#259 - #31 * EVar vlmMst2 + #12 * EVar vlmMst1 * (#1 + #6 * EVar vlmMst2) - #6 * (- #2 + EVar vlmMst2) *
   EVar vlmMt + EVar vlmMsq * (#7 - #72 * EVar vlmMst1 + #78 * EVar vlmMst2 + #6 * EVar vlmMt) - #6 * EPow P2 (EVar
   vlmMsq) - #72 * EPow P2 (EVar vlmMst2)) / EPow P2 (EVar vMsq) - #96 * (#2 + EVar vlmMst2 - #3 * EPow P2 (EVar
   vlmMst2)) / EPow P2 (EVar vMst1)) * EPow P3 (EVar vMst2) + #28 * (#24208447 + #1263240 * EVar vlmMst2 - #9720 *
   (#266 + #74 * EVar vlmMst2 - #55 * EVar vlmMt) * EPow P2 (EVar vlmMst1) - #1140480 * EPow P2 (EVar vlmMst2) +
   #145800 * EVar vlmMsq * (#28 + EVar vlmMst2 * (#41 - #6 * EVar vlmMt) - #10 * EVar vlmMt + EVar vlmMst1 * (- #31 -
   #6 * EVar vlmMst2 + #6 * EVar vlmMt) + #6 * EPow P2 (EVar vlmMst2)) + #3240 * EVar vlmMt * (#846 + #1042 * EVar
   vlmMst2 + #309 * EPow P2 (EVar vlmMst2)) - #233280 * (#2 + #3 * EVar vlmMst2) * EPow P2 (EVar vlmMt) + #360 * EVar
   vlmMst1 * (- #21491 + EVar vlmMst2 * (#8190 - #4266 * EVar vlmMt) - #5922 * EVar vlmMt + #3267 * EPow P2 (EVar
   vlmMst2) + #1944 * EPow P2 (EVar vlmMt)) + #9720 * EPow P3 (EVar vlmMst1) - #466560 * EPow P3 (EVar vlmMst2)) *
   EPow P4 (EVar vMst1) / EPow P3 (EVar vMst2) - #9 * EVar vMst2 * (#8400 * (#5 + #198 * EVar vlmMst2 + #6 * EVar
   vlmMst1 * (- #13 + #6 * EVar vlmMst2) + #6 * (- #13 + #6 * EVar vlmMst2) * EVar vlmMt - #6 * EVar vlmMsq * (#7 + #6
   * (EVar vlmMst1 + EVar vlmMt)) + #36 * EPow P2 (EVar vlmMsq) - #36 * EPow P2 (EVar vlmMst2)) * EPow P2 (EVar vMsq)
   * EPow P2 (EVar vMst1) + (#36729361 - #13527360 * EVar vlmMst2 - #453600 * (EVar vlmMst1 - EVar vlmMst2) * EPow P2
   (EVar vlmMsq) - #241920 * (- #2 + EVar vlmMst2) * EPow P2 (EVar vlmMst1) + #15120 * EVar vlmMst1 * (#135 - #64 *
   EVar vlmMt + EVar vlmMst2 * (#302 + #32 * EVar vlmMt) - #112 * EPow P2 (EVar vlmMst2)) + #25200 * EVar vlmMsq *
   (#131 + #96 * EVar vlmMst2 + #18 * EVar vlmMst1 * (- #5 + #2 * EVar vlmMst2) - #6 * EVar vlmMt - #36 * EPow P2
   (EVar vlmMst2)) - #8316000 * EPow P2 (EVar vlmMst2) - #5040 * EVar vlmMt * (- #7 - #240 * EVar vlmMst2 + #96 * EPow
   P2 (EVar vlmMst2)) + #120960 * EPow P2 (EVar vlmMt) + #1935360 * EPow P3 (EVar vlmMst2)) * EPow P4 (EVar vMsq) +
   #2100 * (#155 + #90 * EVar vlmMst2 + #3 * EVar vlmMst1 * (- #23 + #12 * EVar vlmMst2) + (- #69 + #36 * EVar
   vlmMst2) * EVar vlmMt + #12 * EVar vlmMsq * (#4 - #3 * (EVar vlmMst1 + EVar vlmMt)) + #36 * EPow P2 (EVar vlmMsq) -
   #36 * EPow P2 (EVar vlmMst2)) * EPow P4 (EVar vMst1)) / EPow P4 (EVar vMsq) - #153090 * EPow P2 (EVar vMuSUSY) * (-
   #16 * EVar vMst2 * (#5 * (#397 + #36 * EVar vlmMsq * (- #2 + EVar vlmMst1 - EVar vlmMst2) + #78 * EVar vlmMst2 - #6
   * EVar vlmMst1 * (#1 + #6 * EVar vlmMst2) + #36 * EPow P2 (EVar vlmMst2)) / EPow P2 (EVar vMsq) + #48 * (#2 + EVar
   vlmMst2 - #3 * EPow P2 (EVar vlmMst2)) / EPow P2 (EVar vMst1)) / #27 + EPow P2 (EVar vMst1) * (EDec
   14094528120713305 13 + #1352 * EConst CB4 / #3 - #28 * EConst CDN / #3 - #16520 * EVar vlmMsq / #9 + #80 * EPow P2
   (EVar vlmMsq) / #3 - #40 * EVar vlmMst1 * (#167 + #405 * EVar vlmMsq + #81 * EPow P2 (EVar vlmMsq)) / #81 - #128 *
   EPow P2 (EVar vlmMst1) / #9 + #8 * EVar vlmMst2 * (#30469 + #2709 * EVar vlmMst1 + #135 * EVar vlmMsq * (#11 + #6 *
   EVar vlmMst1) + #405 * EPow P2 (EVar vlmMsq) + #72 * EPow P2 (EVar vlmMst1)) / #81 - #8 * (- #19 + #90 * EVar
   vlmMsq + #568 * EVar vlmMst1) * EPow P2 (EVar vlmMst2) / #9 - #80 * (#107 + #6 * EVar vlmMsq * (- #2 + #5 * EVar
   vlmMst1 - #5 * EVar vlmMst2) + #32 * EVar vlmMst2 - #10 * EVar vlmMst1 * (#2 + #3 * EVar vlmMst2) + #30 * EPow P2
   (EVar vlmMst2)) * EPow P2 (EVar vMst1) / (#9 * EPow P2 (EVar vMsq)) + #4480 * EPow P3 (EVar vlmMst2) / #9) / EPow
   P3 (EVar vMst2) - #5 * (EVar vMst2 * (#37213 + #12 * EVar vlmMsq * (- #539 + #810 * EVar vlmMst1 - #810 * EVar
   vlmMst2) + #6630 * EVar vlmMst2 - #162 * EVar vlmMst1 * (#1 + #60 * EVar vlmMst2) + #9720 * EPow P2 (EVar vlmMst2))
   * EPow P2 (EVar vMst1) + (#21275 + #12 * EVar vlmMsq * (- #541 + #270 * EVar vlmMst1 - #270 * EVar vlmMst2) + #6546
   * EVar vlmMst2 - #54 * EVar vlmMst1 * (#1 + #60 * EVar vlmMst2) + #3240 * EPow P2 (EVar vlmMst2)) * EPow P3 (EVar
   vMst2)) / (#162 * EPow P4 (EVar vMsq)) + (EDec 8918662551440329 14 + #1960 * EConst CB4 / #9 - #44 * EConst CDN /
   #9 - #7880 * EVar vlmMsq / #9 + #80 * EPow P2 (EVar vlmMsq) / #3 - #4 * EVar vlmMst1 * (- #359 + #150 * EVar vlmMsq
   + #30 * EPow P2 (EVar vlmMsq)) / #9 + #4 * EVar vlmMst2 * (#8503 + #666 * EVar vlmMst1 + #90 * EVar vlmMsq * (#1 +
   #2 * EVar vlmMst1) + #90 * EPow P2 (EVar vlmMsq) - #48 * EPow P2 (EVar vlmMst1)) / #27 + #128 * EPow P2 (EVar
   vlmMst1) / #9 - #8 * (- #177 + #30 * EVar vlmMsq + #232 * EVar vlmMst1) * EPow P2 (EVar vlmMst2) / #9 - #40 *
   (#1445 + #72 * EVar vlmMsq * (- #2 + #3 * EVar vlmMst1 - #3 * EVar vlmMst2) + #180 * EVar vlmMst2 - #36 * EVar
   vlmMst1 * (#1 + #6 * EVar vlmMst2) + #216 * EPow P2 (EVar vlmMst2)) * EPow P2 (EVar vMst1) / (#27 * EPow P2 (EVar
   vMsq)) + #640 * EPow P3 (EVar vlmMst2) / #3 - #5 * (#1961 + #180 * EVar vlmMsq * (- #2 + #5 * EVar vlmMst1 - #5 *
   EVar vlmMst2) + #675 * EVar vlmMst2 - #45 * EVar vlmMst1 * (#7 + #20 * EVar vlmMst2) + #900 * EPow P2 (EVar
   vlmMst2)) * EPow P4 (EVar vMst1) / (#27 * EPow P4 (EVar vMsq))) / EVar vMst2) + (- #560 * EConst COepS2 * (- #63 *
   EPow P2 (EVar vMst2) * (#2 * EPow P2 (EVar vMst2) + EPow P2 (EVar vMuSUSY)) - #6 * EPow P2 (EVar vMst1) * (#4307 *
   EPow P2 (EVar vMst2) + #1555 * EPow P2 (EVar vMuSUSY)) + #102920 * EPow P4 (EVar vMst1)) + #54 * EConst CS2 * (#6 *
   EPow P2 (EVar vMst1) * ((#760703 - #904470 * EVar vlmMst1 + #904470 * EVar vlmMst2) * EPow P2 (EVar vMst2) + #7 *
   (#20803 - #46650 * EVar vlmMst1 + #46650 * EVar vlmMst2) * EPow P2 (EVar vMuSUSY)) + #112 * (#220117 + #192975 *
   EVar vlmMst1 - #192975 * EVar vlmMst2) * EPow P4 (EVar vMst1) + #27 * (#7 * (#1387 - #70 * EVar vlmMst1 + #70 *
   EVar vlmMst2) * EPow P2 (EVar vMst2) * EPow P2 (EVar vMuSUSY) + (#18722 - #980 * EVar vlmMst1 + #980 * EVar
   vlmMst2) * EPow P4 (EVar vMst2)))) / EPow P3 (EVar vMst2) - #56700 * (#4 * (#44 - #21 * EVar vlmMst1 + #6 * (#5 +
   #6 * EVar vlmMst1) * EVar vlmMst2 + #3 * (- #7 + #12 * EVar vlmMst2) * EVar vlmMt + #12 * EVar vlmMsq * (#1 - #3 *
   (EVar vlmMst1 + EVar vlmMt)) + #36 * EPow P2 (EVar vlmMsq) - #36 * EPow P2 (EVar vlmMst2)) * EPow P2 (EVar vMst1) *
   EPow P3 (EVar vMst2) + (#2100 - #62 * EVar vlmMst2 + #9 * EVar vlmMst1 * (#1 + #60 * EVar vlmMst2) + #117 * EVar
   vlmMt - #156 * EVar vlmMst2 * EVar vlmMt + EVar vlmMsq * (- #64 - #540 * EVar vlmMst1 + #696 * EVar vlmMst2 + #156
   * EVar vlmMt) - #156 * EPow P2 (EVar vlmMsq) - #540 * EPow P2 (EVar vlmMst2)) * EPow P5 (EVar vMst2)) / EPow P4
   (EVar vMsq)) / #153090 + (EConst CT1ep * (- #2 * EPow P4 (EVar vMst1) * (#8 * EPow P2 (EVar vMt) * EPow P2 (EVar
   vs2t) * (#4327 * EPow P2 (EVar vMuSUSY) * (- #1 + EPow P2 (EVar vSbeta)) + #6921 * EPow P2 (EVar vMst2) * EPow P2
   (EVar vSbeta)) - #205840 * EVar vMst2 * EVar vs2t * EPow P2 (EVar vSbeta) * EPow P3 (EVar vMt) + #15571 * EVar vMt
   * EPow P2 (EVar vSbeta) * EPow P3 (EVar vMst2) * EPow P3 (EVar vs2t) + #89312 * EPow P2 (EVar vSbeta) * EPow P4
   (EVar vMt) - #4199 * EPow P2 (EVar vSbeta) * EPow P4 (EVar vMst2) * EPow P4 (EVar vs2t)) + #63 * EPow P3 (EVar
   vMst2) * (- #4 * EVar vMst2 * EPow P2 (EVar vMt) * EPow P2 (EVar vs2t) * (#5 * EPow P2 (EVar vMuSUSY) * (- #1 +
   EPow P2 (EVar vSbeta)) + #18 * EPow P2 (EVar vMst2) * EPow P2 (EVar vSbeta)) - #4 * EVar vs2t * (EPow P2 (EVar
   vMuSUSY) * (- #1 + EPow P2 (EVar vSbeta)) + #2 * EPow P2 (EVar vMst2) * EPow P2 (EVar vSbeta)) * EPow P3 (EVar vMt)
   + #2 * EVar vMt * EPow P2 (EVar vSbeta) * EPow P3 (EVar vs2t) * EPow P4 (EVar vMst2) + #208 * EVar vMst2 * EPow P2
   (EVar vSbeta) * EPow P4 (EVar vMt) + #5 * EPow P2 (EVar vSbeta) * EPow P4 (EVar vs2t) * EPow P5 (EVar vMst2)) + #24
   * EPow P2 (EVar vMst1) * (EPow P2 (EVar vMst2) * EPow P2 (EVar vMt) * EPow P2 (EVar vs2t) * (- #185 * EPow P2 (EVar
   vMuSUSY) * (- #1 + EPow P2 (EVar vSbeta)) - #1791 * EPow P2 (EVar vMst2) * EPow P2 (EVar vSbeta)) + EVar vMst2 *
   EVar vs2t * (- #1555 * EPow P2 (EVar vMuSUSY) * (- #1 + EPow P2 (EVar vSbeta)) - #4307 * EPow P2 (EVar vMst2) *
   EPow P2 (EVar vSbeta)) * EPow P3 (EVar vMt) + (#252 * EPow P2 (EVar vMuSUSY) * (- #1 + EPow P2 (EVar vSbeta)) +
   #9406 * EPow P2 (EVar vMst2) * EPow P2 (EVar vSbeta)) * EPow P4 (EVar vMt) + #767 * EVar vMt * EPow P2 (EVar
   vSbeta) * EPow P3 (EVar vs2t) * EPow P5 (EVar vMst2) + #20 * EPow P2 (EVar vSbeta) * EPow P4 (EVar vs2t) * EPow P6
   (EVar vMst2))) / (#729 * EPow P4 (EVar vMst2)) + EPow P2 (EVar vMt) * EPow P2 (EVar vMuSUSY) * (#2 * EPow P2 (EVar
   vMt) * (#4 * EPow P2 (EVar vMst2) * (#50134 - #270 * EConst CB4 + #270 * EConst CD3 - #135 * EConst CDN + #2160 *
   EVar vlmMst1 + #120 * (#271 + #24 * EVar vlmMst1) * EVar vlmMst2 - #120 * EVar vlmMt - #29646 * EConst CS2 - #720 *
   (- #2 + #3 * EVar vlmMst1) * EPow P2 (EVar vlmMst2) + #2160 * EPow P3 (EVar vlmMst2)) + #5 * EPow P2 (EVar vMst1) *
   (#28405 - #288 * EConst CB4 + #288 * EConst CD3 - #144 * EConst CDN + #5472 * EVar vlmMst1 - #288 * (- #89 + #2 *
   EVar vlmMst1) * EVar vlmMst2 + #576 * (- #2 + EVar vlmMst1 - EVar vlmMst2) * EVar vlmMt + #224 * EConst COepS2 -
   #324 * (#65 + #14 * EVar vlmMst1 - #14 * EVar vlmMst2) * EConst CS2 - #576 * (- #9 + #8 * EVar vlmMst1) * EPow P2
   (EVar vlmMst2) + #4608 * EPow P3 (EVar vlmMst2))) / (#405 * EPow P4 (EVar vMst2)) + EPow P2 (EVar vs2t) * (EDec
   1121664609053498 13 - #100 * EConst CB4 / #9 + #112 * EConst CD3 / #9 - #62 * EConst CDN / #9 + #1055 * EVar vlmMsq
   / #9 + #15 * EPow P2 (EVar vlmMsq) - #2 * EVar vlmMst1 * (- #544 + #210 * EVar vlmMsq + #135 * EPow P2 (EVar
   vlmMsq)) / #9 - #103 * EPow P2 (EVar vlmMst1) / #9 + EVar vlmMst2 * (- #7921 - #1476 * EVar vlmMst1 + #90 * EVar
   vlmMsq * (#5 + #18 * EVar vlmMst1) + #810 * EPow P2 (EVar vlmMsq) + #288 * EPow P2 (EVar vlmMst1)) / #27 + (EDec
   9366666666666667 14 - #60 * EVar vlmMsq - #112 * EVar vlmMst1) * EPow P2 (EVar vlmMst2) + #10 * (#405 + (- #187 +
   #246 * EVar vlmMsq) * EVar vlmMst2 + EVar vlmMst1 * (#187 - #246 * EVar vlmMsq + #246 * EVar vlmMst2) - #246 * EPow
   P2 (EVar vlmMst2)) * EPow P2 (EVar vMst1) / (#27 * EPow P2 (EVar vMsq)) + (- #1149 + #266 * EVar vlmMst2 + #64 *
   EVar vlmMst1 * (- #2 + #3 * EVar vlmMst2) - #90 * EVar vlmMsq * (- #5 + #6 * EVar vlmMst2) + #270 * EPow P2 (EVar
   vlmMsq) + #1264 * EPow P2 (EVar vlmMst2)) * EPow P2 (EVar vMst2) / (#18 * EPow P2 (EVar vMst1)) - EPow P2 (EVar
   vMst1) * (EDec 7378472976680384 14 + #164 * EConst CB4 / #9 - #176 * EConst CD3 / #9 + #94 * EConst CDN / #9 - #260
   * EVar vlmMsq / #3 + EVar vlmMst1 * (- EDec 9655703703703703 14 + #40 * EVar vlmMsq + #30 * EPow P2 (EVar vlmMsq))
   + #7556 * EPow P2 (EVar vlmMst1) / #135 - #2 * EVar vlmMst2 * (- #99788 + #2005 * EVar vlmMst1 + #6750 * EVar
   vlmMsq * (#2 + #3 * EVar vlmMst1) + #10125 * EPow P2 (EVar vlmMsq) + #32775 * EPow P2 (EVar vlmMst1)) / #675 + #2 *
   (- #3377 + #4050 * EVar vlmMsq + #19155 * EVar vlmMst1) * EPow P2 (EVar vlmMst2) / #135 + #10 * EPow P3 (EVar
   vlmMst1) / #27 - #5050 * EPow P3 (EVar vlmMst2) / #27) / EPow P2 (EVar vMst2) + #304 * EPow P3 (EVar vlmMst2) / #3
   + EPow P4 (EVar vMst1) * (#5 * (#216 + (- #95 + #132 * EVar vlmMsq) * EVar vlmMst2 + EVar vlmMst1 * (#95 - #132 *
   EVar vlmMsq + #132 * EVar vlmMst2) - #132 * EPow P2 (EVar vlmMst2)) / (#54 * EPow P4 (EVar vMsq)) + (EDec
   5361152102791342 13 - #8 * EConst CB4 / #3 + #32 * EConst CD3 / #9 - #20 * EConst CDN / #9 + #90 * EVar vlmMsq -
   (EDec 12311224321827497 14 + #20 * EVar vlmMsq * (#1 + EVar vlmMsq)) * EVar vlmMst1 - EVar vlmMst2 * (EDec
   1733220122616948 14 - #20 * EVar vlmMsq * (#1 + EVar vlmMsq) + (EDec 13304550264550264 14 - #40 * EVar vlmMsq) *
   EVar vlmMst1 - #1180 * EPow P2 (EVar vlmMst1) / #9) - #15886 * EPow P2 (EVar vlmMst1) / #945 + (EDec
   14985608465608465 14 - #40 * EVar vlmMsq - #2812 * EVar vlmMst1 / #9) * EPow P2 (EVar vlmMst2) - #92 * EPow P3
   (EVar vlmMst1) / #27 + #4988 * EPow P3 (EVar vlmMst2) / #27) / EPow P4 (EVar vMst2)) - #32 * (- #2 + EVar vlmMst2 +
   #5 * EPow P2 (EVar vlmMst2)) * EPow P4 (EVar vMst2) / (#9 * EPow P4 (EVar vMst1)) - (#6 * (#7400 * EConst COepS2 +
   #27 * (#1089707 - #5550 * EVar vlmMst1 + #5550 * EVar vlmMst2) * EConst CS2) * EPow P2 (EVar vMst1) * EPow P2 (EVar
   vMst2) + #40 * (#17308 * EConst COepS2 + #27 * (#93919 - #12981 * EVar vlmMst1 + #12981 * EVar vlmMst2) * EConst
   CS2) * EPow P4 (EVar vMst1) + #9 * (#1400 * EConst COepS2 + #81 * (#116129 - #350 * EVar vlmMst1 + #350 * EVar
   vlmMst2) * EConst CS2) * EPow P4 (EVar vMst2)) / (#10935 * EPow P4 (EVar vMst2)) + #5 * ((#291 + #2 * (- #103 + #84
   * EVar vlmMsq) * EVar vlmMst2 + #2 * EVar vlmMst1 * (#103 - #84 * EVar vlmMsq + #84 * EVar vlmMst2) - #168 * EPow
   P2 (EVar vlmMst2)) * EPow P4 (EVar vMst1) + (#684 + #347 * EVar vlmMst1 + #7 * (- #77 + #78 * EVar vlmMst1) * EVar
   vlmMst2 + #6 * EVar vlmMsq * (#32 - #91 * EVar vlmMst1 + #91 * EVar vlmMst2) - #546 * EPow P2 (EVar vlmMst2)) *
   EPow P4 (EVar vMst2)) / (#27 * EPow P2 (EVar vMsq) * EPow P2 (EVar vMst2)) + #5 * ((#3834 + (- #890 + #2328 * EVar
   vlmMsq) * EVar vlmMst2 + EVar vlmMst1 * (#890 - #2328 * EVar vlmMsq + #2328 * EVar vlmMst2) - #2328 * EPow P2 (EVar
   vlmMst2)) * EPow P2 (EVar vMst2) * EPow P4 (EVar vMst1) + #160 * (- #8 + #15 * EVar vlmMsq - #15 * EVar vlmMst2) *
   EPow P2 (EVar vMsq) * EPow P4 (EVar vMst2) + (#4239 - #1324 * EVar vlmMst2 + #8 * EVar vlmMst1 * (#95 + #366 * EVar
   vlmMst2) + EVar vlmMsq * (#564 - #2928 * EVar vlmMst1 + #2928 * EVar vlmMst2) - #2928 * EPow P2 (EVar vlmMst2)) *
   EPow P2 (EVar vMst1) * EPow P4 (EVar vMst2) + #63 * (- #5 + #28 * EVar vlmMsq - #28 * EVar vlmMst2) * EPow P6 (EVar
   vMst2)) / (#216 * EPow P2 (EVar vMst1) * EPow P4 (EVar vMsq))) - EVar vMt * EVar vs2t * (EPow P4 (EVar vMsq) * (-
   #3 * EPow P2 (EVar vMst1) * EPow P2 (EVar vMst2) * (#433447 + #1058400 * EConst CB4 - #23760 * EConst CDN -
   #4255200 * EVar vlmMsq - #1120 * EConst COepS2 + #324 * (- #1387 + #70 * EVar vlmMst1 - #70 * EVar vlmMst2) *
   EConst CS2 + #129600 * EPow P2 (EVar vlmMsq) - #2160 * EVar vlmMst1 * (- #359 + #150 * EVar vlmMsq + #30 * EPow P2
   (EVar vlmMsq)) + #720 * EVar vlmMst2 * (#8503 + #666 * EVar vlmMst1 + #90 * EVar vlmMsq * (#1 + #2 * EVar vlmMst1)
   + #90 * EPow P2 (EVar vlmMsq) - #48 * EPow P2 (EVar vlmMst1)) + #69120 * EPow P2 (EVar vlmMst1) - #4320 * (- #177 +
   #30 * EVar vlmMsq + #232 * EVar vlmMst1) * EPow P2 (EVar vlmMst2) + #1036800 * EPow P3 (EVar vlmMst2)) - #2 *
   (#10274911 + #3285360 * EConst CB4 - #68040 * EConst CDN - #13381200 * EVar vlmMsq - #248800 * EConst COepS2 + #108
   * (- #20803 + #46650 * EVar vlmMst1 - #46650 * EVar vlmMst2) * EConst CS2 + #194400 * EPow P2 (EVar vlmMsq) - #3600
   * EVar vlmMst1 * (#167 + #405 * EVar vlmMsq + #81 * EPow P2 (EVar vlmMsq)) - #103680 * EPow P2 (EVar vlmMst1) +
   #720 * EVar vlmMst2 * (#30469 + #2709 * EVar vlmMst1 + #135 * EVar vlmMsq * (#11 + #6 * EVar vlmMst1) + #405 * EPow
   P2 (EVar vlmMsq) + #72 * EPow P2 (EVar vlmMst1)) - #6480 * (- #19 + #90 * EVar vlmMsq + #568 * EVar vlmMst1) * EPow
   P2 (EVar vlmMst2) + #3628800 * EPow P3 (EVar vlmMst2)) * EPow P4 (EVar vMst1) + #414720 * (#2 + EVar vlmMst2 - #3 *
   EPow P2 (EVar vlmMst2)) * EPow P4 (EVar vMst2)) + #21600 * EPow P2 (EVar vMsq) * ((#1445 + #72 * EVar vlmMsq * (-
   #2 + #3 * EVar vlmMst1 - #3 * EVar vlmMst2) + #180 * EVar vlmMst2 - #36 * EVar vlmMst1 * (#1 + #6 * EVar vlmMst2) +
   #216 * EPow P2 (EVar vlmMst2)) * EPow P2 (EVar vMst2) * EPow P4 (EVar vMst1) + #2 * (#397 + #36 * EVar vlmMsq * (-
   #2 + EVar vlmMst1 - EVar vlmMst2) + #78 * EVar vlmMst2 - #6 * EVar vlmMst1 * (#1 + #6 * EVar vlmMst2) + #36 * EPow
   P2 (EVar vlmMst2)) * EPow P2 (EVar vMst1) * EPow P4 (EVar vMst2) + #6 * (#107 + #6 * EVar vlmMsq * (- #2 + #5 *
   EVar vlmMst1 - #5 * EVar vlmMst2) + #32 * EVar vlmMst2 - #10 * EVar vlmMst1 * (#2 + #3 * EVar vlmMst2) + #30 * EPow
   P2 (EVar vlmMst2)) * EPow P6 (EVar vMst1)) + #450 * ((#37213 + #12 * EVar vlmMsq * (- #539 + #810 * EVar vlmMst1 -
   #810 * EVar vlmMst2) + #6630 * EVar vlmMst2 - #162 * EVar vlmMst1 * (#1 + #60 * EVar vlmMst2) + #9720 * EPow P2
   (EVar vlmMst2)) * EPow P4 (EVar vMst1) * EPow P4 (EVar vMst2) + #6 * (#1961 + #180 * EVar vlmMsq * (- #2 + #5 *
   EVar vlmMst1 - #5 * EVar vlmMst2) + #675 * EVar vlmMst2 - #45 * EVar vlmMst1 * (#7 + #20 * EVar vlmMst2) + #900 *
   EPow P2 (EVar vlmMst2)) * EPow P2 (EVar vMst2) * EPow P6 (EVar vMst1) + (#21275 + #12 * EVar vlmMsq * (- #541 +
   #270 * EVar vlmMst1 - #270 * EVar vlmMst2) + #6546 * EVar vlmMst2 - #54 * EVar vlmMst1 * (#1 + #60 * EVar vlmMst2)
   + #3240 * EPow P2 (EVar vlmMst2)) * EPow P2 (EVar vMst1) * EPow P6 (EVar vMst2))) / (#14580 * EPow P2 (EVar vMst1)
   * EPow P3 (EVar vMst2) * EPow P4 (EVar vMsq)))) / EPow P2 (EVar vSbeta) - EVar vMt * EPow P3 (EVar vs2t) * (- (EVar
   vMst2 * EPow P2 (EVar vMst1) * (EDec 5870953360768176 13 + #68 * EConst CB4 / #9 + #2 * EConst CDN / #9 - #380 *
   EVar vlmMsq / #9 - #40 * EPow P2 (EVar vlmMsq) / #3 - #4 * EVar vlmMst1 * (#4066 + #675 * EVar vlmMsq + #135 * EPow
   P2 (EVar vlmMsq)) / #81 - #64 * EPow P2 (EVar vlmMst1) / #3 + #4 * EVar vlmMst2 * (#4672 + #711 * EVar vlmMst1 +
   #135 * EVar vlmMsq * (#9 + #2 * EVar vlmMst1) + #135 * EPow P2 (EVar vlmMsq) + #216 * EPow P2 (EVar vlmMst1)) / #81
   - #4 * (#239 + #30 * EVar vlmMsq + #104 * EVar vlmMst1) * EPow P2 (EVar vlmMst2) / #9 + #320 * EPow P3 (EVar
   vlmMst2) / #9)) + #20 * EVar vMst2 * EPow P4 (EVar vMst1) / (#9 * EPow P2 (EVar vMsq)) + (EDec 4062899291266575 13
   - #24322 * EVar vlmMst2 / #243 + EVar vlmMsq * (EDec 23333333333333332 15 - #20 * EVar vlmMst1 + #20 * EVar
   vlmMst2) + #4 * (#37 - #40 * EVar vlmMst2) * EPow P2 (EVar vlmMst1) / #9 + #148 * EPow P2 (EVar vlmMst2) / #9 + #2
   * EVar vlmMst1 * (#8705 - #3996 * EVar vlmMst2 + #5616 * EPow P2 (EVar vlmMst2)) / #243 - #32 * EPow P3 (EVar
   vlmMst1) / #9 - #224 * EPow P3 (EVar vlmMst2) / #9) * EPow P4 (EVar vMst1) / EVar vMst2 - EPow P3 (EVar vMst2) *
   (EDec 10148220164609053 14 + #980 * EConst CB4 / #9 - #22 * EConst CDN / #9 - #3940 * EVar vlmMsq / #9 + #40 * EPow
   P2 (EVar vlmMsq) / #3 - #2 * EVar vlmMst1 * (- #359 + #150 * EVar vlmMsq + #30 * EPow P2 (EVar vlmMsq)) / #9 + #2 *
   EVar vlmMst2 * (#8887 + #666 * EVar vlmMst1 + #90 * EVar vlmMsq * (#1 + #2 * EVar vlmMst1) + #90 * EPow P2 (EVar
   vlmMsq) - #48 * EPow P2 (EVar vlmMst1)) / #27 + #64 * EPow P2 (EVar vlmMst1) / #9 - #4 * (#15 + #30 * EVar vlmMsq +
   #232 * EVar vlmMst1) * EPow P2 (EVar vlmMst2) / #9 + #20 * (#143 - #72 * EVar vlmMsq * (#2 + EVar vlmMst1 - EVar
   vlmMst2) + #132 * EVar vlmMst2 + #12 * EVar vlmMst1 * (#1 + #6 * EVar vlmMst2) - #72 * EPow P2 (EVar vlmMst2)) *
   EPow P2 (EVar vMst1) / (#27 * EPow P2 (EVar vMsq)) + #320 * EPow P3 (EVar vlmMst2) / #3 + #5 * (#23 + #12 * EVar
   vlmMsq - #12 * EVar vlmMst2) * EPow P4 (EVar vMst1) / (#108 * EPow P4 (EVar vMsq))) + (#1560 * (#236 * EConst
   COepS2 + #27 * (#32 - #177 * EVar vlmMst1 + #177 * EVar vlmMst2) * EConst CS2) * EPow P2 (EVar vMst1) * EPow P2
   (EVar vMst2) + (- #622840 * EConst COepS2 + #27 * (#836021 + #467130 * EVar vlmMst1 - #467130 * EVar vlmMst2) *
   EConst CS2) * EPow P4 (EVar vMst1) + #9 * (#280 * EConst COepS2 - #81 * (- #1387 + #70 * EVar vlmMst1 - #70 * EVar
   vlmMst2) * EConst CS2) * EPow P4 (EVar vMst2)) / (#21870 * EVar vMst2) + #8 * (#5 * (#397 + #36 * EVar vlmMsq * (-
   #2 + EVar vlmMst1 - EVar vlmMst2) + #78 * EVar vlmMst2 - #6 * EVar vlmMst1 * (#1 + #6 * EVar vlmMst2) + #36 * EPow
   P2 (EVar vlmMst2)) / EPow P2 (EVar vMsq) + #48 * (#2 + EVar vlmMst2 - #3 * EPow P2 (EVar vlmMst2)) / EPow P2 (EVar
   vMst1)) * EPow P5 (EVar vMst2) / #27 + #5 * (#9 * (- #593 + #4 * EVar vlmMsq * (#181 + #90 * EVar vlmMst1 - #90 *
   EVar vlmMst2) - #718 * EVar vlmMst2 - #6 * EVar vlmMst1 * (#1 + #60 * EVar vlmMst2) + #360 * EPow P2 (EVar
   vlmMst2)) * EPow P2 (EVar vMst1) * EPow P5 (EVar vMst2) + (#21275 + #12 * EVar vlmMsq * (- #541 + #270 * EVar
   vlmMst1 - #270 * EVar vlmMst2) + #6546 * EVar vlmMst2 - #54 * EVar vlmMst1 * (#1 + #60 * EVar vlmMst2) + #3240 *
   EPow P2 (EVar vlmMst2)) * EPow P7 (EVar vMst2)) / (#324 * EPow P4 (EVar vMsq))) + EPow P2 (EVar vMt) * EPow P2
   (EVar vs2t) * (EPow P2 (EVar vMst1) * (EDec 3308944644326867 13 - #760 * EVar vlmMsq / #9 + #4 * (#211261 + #3375 *
   EVar vlmMsq) * EVar vlmMst1 / #2025 + #32 * (#6 + EVar vlmMst1 - EVar vlmMst2) * EVar vlmMt / #9 - #30 * EPow P2
   (EVar vlmMsq) + #2 * EVar vlmMst2 * (#548953 + #54000 * EVar vlmMsq + #174270 * EVar vlmMst1 - #450 * EPow P2 (EVar
   vlmMst1)) / #2025 - #578 * EPow P2 (EVar vlmMst1) / #135 - #2 * (#15049 + #8610 * EVar vlmMst1) * EPow P2 (EVar
   vlmMst2) / #135 + #4 * EPow P3 (EVar vlmMst1) / #27 + #3452 * EPow P3 (EVar vlmMst2) / #27) + (#40 * (#4 - EVar
   vlmMst1 + EVar vlmMst2) / (#9 * EPow P2 (EVar vMsq)) - (EDec 1903527287429963 13 - #160 * EVar vlmMsq / #3 + (-
   EDec 5359278609221467 13 + #200 * EVar vlmMsq / #3) * EVar vlmMst1 + EVar vlmMst2 * (EDec 3154834164777022 13 -
   #200 * EVar vlmMsq / #3 + #84592 * EVar vlmMst1 / #315 - #208 * EPow P2 (EVar vlmMst1) / #9) - #35576 * EPow P2
   (EVar vlmMst1) / #315 + #8 * (- #6127 + #5110 * EVar vlmMst1) * EPow P2 (EVar vlmMst2) / #315 + #64 * EVar vlmMt *
   (#2 + #5 * EVar vlmMst2 - EVar vlmMst1 * (#5 + #2 * EVar vlmMst2) + EPow P2 (EVar vlmMst1) + EPow P2 (EVar
   vlmMst2)) / #3 + #16 * EPow P3 (EVar vlmMst1) / #27 - #2896 * EPow P3 (EVar vlmMst2) / #27) / EPow P2 (EVar vMst2))
   * EPow P4 (EVar vMst1) + EPow P2 (EVar vMst2) * (EDec 1427379365079365 12 - #16 * EConst CB4 / #3 + #16 * EConst
   CD3 / #3 - #8 * EConst CDN / #3 + #910 * EVar vlmMsq / #9 + #608 * EVar vlmMst1 / #9 - #32 * EVar vlmMt / #9 + #60
   * EPow P2 (EVar vlmMsq) + #4 * EVar vlmMst2 * (#5987 - #810 * EVar vlmMsq + #603 * EVar vlmMst1 - #144 * EPow P2
   (EVar vlmMst1)) / #27 + #58 * EPow P2 (EVar vlmMst1) / #3 + #2 * (#743 - #96 * EVar vlmMst1) * EPow P2 (EVar
   vlmMst2) / #9 + #10 * (#49 - #100 * EVar vlmMsq + #100 * EVar vlmMst2) * EPow P2 (EVar vMst1) / (#9 * EPow P2 (EVar
   vMsq)) + #128 * EPow P3 (EVar vlmMst2) / #3 + #5 * (#1 + #4 * EVar vlmMsq - #4 * EVar vlmMst2) * EPow P4 (EVar
   vMst1) / (#6 * EPow P4 (EVar vMsq))) - (#10 * (#313 - #600 * EVar vlmMsq + #600 * EVar vlmMst2) / EPow P2 (EVar
   vMsq) + #3 * (- #1085 - #118 * EVar vlmMst2 + #64 * EVar vlmMst1 * (- #2 + #3 * EVar vlmMst2) - #90 * EVar vlmMsq *
   (- #5 + #6 * EVar vlmMst2) + #270 * EPow P2 (EVar vlmMsq) + #944 * EPow P2 (EVar vlmMst2)) / EPow P2 (EVar vMst1))
   * EPow P4 (EVar vMst2) / #27 - EConst CS2 * ((EDec 8072952380952381 13 + #796 * EVar vlmMst1 - #796 * EVar vlmMst2)
   * EPow P2 (EVar vMst1) + (EDec 5960571428571428 13 + #84 * EVar vlmMst1 - #84 * EVar vlmMst2) * EPow P2 (EVar
   vMst2) + #4 * (#28283 + #23070 * EVar vlmMst1 - #23070 * EVar vlmMst2) * EPow P4 (EVar vMst1) / (#45 * EPow P2
   (EVar vMst2)) - EPow P2 (EVar vMuSUSY) * (#6 * (#1089707 - #5550 * EVar vlmMst1 + #5550 * EVar vlmMst2) * EPow P2
   (EVar vMst1) * EPow P2 (EVar vMst2) + #40 * (#93919 - #12981 * EVar vlmMst1 + #12981 * EVar vlmMst2) * EPow P4
   (EVar vMst1) + #27 * (#116129 - #350 * EVar vlmMst1 + #350 * EVar vlmMst2) * EPow P4 (EVar vMst2)) / (#405 * EPow
   P4 (EVar vMst2))) + #64 * (- #2 + EVar vlmMst2 + #5 * EPow P2 (EVar vlmMst2)) * EPow P6 (EVar vMst2) / (#9 * EPow
   P4 (EVar vMst1)) + #8 * EConst COepS2 * (#4 * (#6921 * EPow P2 (EVar vMst2) + #4327 * EPow P2 (EVar vMuSUSY)) *
   EPow P4 (EVar vMst1) + #6 * EPow P2 (EVar vMst1) * (#185 * EPow P2 (EVar vMst2) * EPow P2 (EVar vMuSUSY) + #1791 *
   EPow P4 (EVar vMst2)) + #63 * (#5 * EPow P2 (EVar vMuSUSY) * EPow P4 (EVar vMst2) + #18 * EPow P6 (EVar vMst2))) /
   (#2187 * EPow P4 (EVar vMst2)) - EPow P2 (EVar vMuSUSY) * (EDec 1121664609053498 13 - #100 * EConst CB4 / #9 + #112
   * EConst CD3 / #9 - #62 * EConst CDN / #9 + #1055 * EVar vlmMsq / #9 + #15 * EPow P2 (EVar vlmMsq) - #2 * EVar
   vlmMst1 * (- #544 + #210 * EVar vlmMsq + #135 * EPow P2 (EVar vlmMsq)) / #9 - #103 * EPow P2 (EVar vlmMst1) / #9 +
   EVar vlmMst2 * (- #7921 - #1476 * EVar vlmMst1 + #90 * EVar vlmMsq * (#5 + #18 * EVar vlmMst1) + #810 * EPow P2
   (EVar vlmMsq) + #288 * EPow P2 (EVar vlmMst1)) / #27 + (EDec 9366666666666667 14 - #60 * EVar vlmMsq - #112 * EVar
   vlmMst1) * EPow P2 (EVar vlmMst2) + #10 * (#405 + (- #187 + #246 * EVar vlmMsq) * EVar vlmMst2 + EVar vlmMst1 *
   (#187 - #246 * EVar vlmMsq + #246 * EVar vlmMst2) - #246 * EPow P2 (EVar vlmMst2)) * EPow P2 (EVar vMst1) / (#27 *
   EPow P2 (EVar vMsq)) + (- #1149 + #266 * EVar vlmMst2 + #64 * EVar vlmMst1 * (- #2 + #3 * EVar vlmMst2) - #90 *
   EVar vlmMsq * (- #5 + #6 * EVar vlmMst2) + #270 * EPow P2 (EVar vlmMsq) + #1264 * EPow P2 (EVar vlmMst2)) * EPow P2
   (EVar vMst2) / (#18 * EPow P2 (EVar vMst1)) - EPow P2 (EVar vMst1) * (EDec 7378472976680384 14 + #164 * EConst CB4
   / #9 - #176 * EConst CD3 / #9 + #94 * EConst CDN / #9 - #260 * EVar vlmMsq / #3 - #20 * EVar vlmMsq * (#2 + #3 *
   EVar vlmMst1) * EVar vlmMst2 - #30 * EVar vlmMst2 * EPow P2 (EVar vlmMsq) + EVar vlmMst1 * (- EDec 9655703703703703
   14 + #40 * EVar vlmMsq + #30 * EPow P2 (EVar vlmMsq)) + #7556 * EPow P2 (EVar vlmMst1) / #135 - #2 * EVar vlmMst2 *
   (- #99788 + #2005 * EVar vlmMst1 + #32775 * EPow P2 (EVar vlmMst1)) / #675 + #2 * (- #3377 + #4050 * EVar vlmMsq +
   #19155 * EVar vlmMst1) * EPow P2 (EVar vlmMst2) / #135 + #10 * EPow P3 (EVar vlmMst1) / #27 - #5050 * EPow P3 (EVar
   vlmMst2) / #27) / EPow P2 (EVar vMst2) + #304 * EPow P3 (EVar vlmMst2) / #3 + EPow P4 (EVar vMst1) * (#5 * (#216 +
   (- #95 + #132 * EVar vlmMsq) * EVar vlmMst2 + EVar vlmMst1 * (#95 - #132 * EVar vlmMsq + #132 * EVar vlmMst2) -
   #132 * EPow P2 (EVar vlmMst2)) / (#54 * EPow P4 (EVar vMsq)) + (EDec 5361152102791342 13 - #8 * EConst CB4 / #3 +
   #32 * EConst CD3 / #9 - #20 * EConst CDN / #9 + #90 * EVar vlmMsq - (EDec 12311224321827497 14 + #20 * EVar vlmMsq
   * (#1 + EVar vlmMsq)) * EVar vlmMst1 - EVar vlmMst2 * (EDec 1733220122616948 14 - #20 * EVar vlmMsq * (#1 + EVar
   vlmMsq) + (EDec 13304550264550264 14 - #40 * EVar vlmMsq) * EVar vlmMst1 - #1180 * EPow P2 (EVar vlmMst1) / #9) -
   #15886 * EPow P2 (EVar vlmMst1) / #945 + (EDec 14985608465608465 14 - #40 * EVar vlmMsq - #2812 * EVar vlmMst1 /
   #9) * EPow P2 (EVar vlmMst2) - #92 * EPow P3 (EVar vlmMst1) / #27 + #4988 * EPow P3 (EVar vlmMst2) / #27) / EPow P4
   (EVar vMst2)) - #32 * (- #2 + EVar vlmMst2 + #5 * EPow P2 (EVar vlmMst2)) * EPow P4 (EVar vMst2) / (#9 * EPow P4
   (EVar vMst1)) + #5 * ((#291 + #2 * (- #103 + #84 * EVar vlmMsq) * EVar vlmMst2 + #2 * EVar vlmMst1 * (#103 - #84 *
   EVar vlmMsq + #84 * EVar vlmMst2) - #168 * EPow P2 (EVar vlmMst2)) * EPow P4 (EVar vMst1) + (#684 + #347 * EVar
   vlmMst1 + #7 * (- #77 + #78 * EVar vlmMst1) * EVar vlmMst2 + #6 * EVar vlmMsq * (#32 - #91 * EVar vlmMst1 + #91 *
   EVar vlmMst2) - #546 * EPow P2 (EVar vlmMst2)) * EPow P4 (EVar vMst2)) / (#27 * EPow P2 (EVar vMsq) * EPow P2 (EVar
   vMst2)) + #5 * ((#3834 + (- #890 + #2328 * EVar vlmMsq) * EVar vlmMst2 + EVar vlmMst1 * (#890 - #2328 * EVar vlmMsq
   + #2328 * EVar vlmMst2) - #2328 * EPow P2 (EVar vlmMst2)) * EPow P2 (EVar vMst2) * EPow P4 (EVar vMst1) + #160 * (-
   #8 + #15 * EVar vlmMsq - #15 * EVar vlmMst2) * EPow P2 (EVar vMsq) * EPow P4 (EVar vMst2) + (#4239 - #1324 * EVar
   vlmMst2 + #8 * EVar vlmMst1 * (#95 + #366 * EVar vlmMst2) + EVar vlmMsq * (#564 - #2928 * EVar vlmMst1 + #2928 *
   EVar vlmMst2) - #2928 * EPow P2 (EVar vlmMst2)) * EPow P2 (EVar vMst1) * EPow P4 (EVar vMst2) + #63 * (- #5 + #28 *
   EVar vlmMsq - #28 * EVar vlmMst2) * EPow P6 (EVar vMst2)) / (#216 * EPow P2 (EVar vMst1) * EPow P4 (EVar vMsq))) -
   #5 * ((- #31 + #1980 * EVar vlmMsq - #1980 * EVar vlmMst2) * EPow P4 (EVar vMst1) * EPow P4 (EVar vMst2) + #160 *
   (- #8 + #15 * EVar vlmMsq - #15 * EVar vlmMst2) * EPow P2 (EVar vMsq) * EPow P6 (EVar vMst2) + (#481 - #3636 * EVar
   vlmMsq + #3636 * EVar vlmMst2) * EPow P2 (EVar vMst1) * EPow P6 (EVar vMst2) + #9 * (- #9 + #140 * EVar vlmMsq -
   #140 * EVar vlmMst2) * EPow P8 (EVar vMst2)) / (#108 * EPow P2 (EVar vMst1) * EPow P4 (EVar vMsq))) + EPow P4 (EVar
   vs2t) * (- (EPow P2 (EVar vMst1) * EPow P2 (EVar vMst2) * (EDec 904877462277092 13 - EConst CB4 + #4 * EConst CD3 /
   #3 - #5 * EConst CDN / #6 + #1105 * EVar vlmMsq / #36 + EVar vlmMst1 * (EDec 3808296296296297 14 - #40 * EVar
   vlmMsq / #3 - #15 * EPow P2 (EVar vlmMsq) / #2) + #15 * EPow P2 (EVar vlmMsq) / #4 + #2233 * EPow P2 (EVar vlmMst1)
   / #270 - EVar vlmMst2 * (#206449 + #85010 * EVar vlmMst1 - #2250 * EVar vlmMsq * (#7 + #18 * EVar vlmMst1) - #20250
   * EPow P2 (EVar vlmMsq) + #51150 * EPow P2 (EVar vlmMst1)) / #2700 + (EDec 1677037037037037 14 - #15 * EVar vlmMsq
   + #269 * EVar vlmMst1 / #18) * EPow P2 (EVar vlmMst2) + #5 * (#25 + #12 * EVar vlmMsq * (- #4 + #3 * EVar vlmMst1 -
   #3 * EVar vlmMst2) + (#48 - #36 * EVar vlmMst1) * EVar vlmMst2 + #36 * EPow P2 (EVar vlmMst2)) * EPow P2 (EVar
   vMst1) / (#108 * EPow P2 (EVar vMsq)) + #5 * EPow P3 (EVar vlmMst1) / #54 + #211 * EPow P3 (EVar vlmMst2) / #54)) +
   (EDec 8440344866031853 14 - #5 * EVar vlmMsq * (#2 + #3 * EVar vlmMst1) / #3 + #1011403 * EVar vlmMst2 / #1190700 +
   #5 * EPow P2 (EVar vlmMsq) / #2 + (EDec 4326984126984127 15 + #11 * EVar vlmMst2 / #3) * EPow P2 (EVar vlmMst1) +
   EVar vlmMst1 * (EDec 10650581170739901 15 + #1474 * EVar vlmMst2 / #315 - #11 * EPow P2 (EVar vlmMst2) / #3) - #113
   * EPow P2 (EVar vlmMst2) / #35 - #11 * EPow P3 (EVar vlmMst1) / #9 + #11 * EPow P3 (EVar vlmMst2) / #9) * EPow P4
   (EVar vMst1) + (EDec 6173605967078189 14 - #25 * EConst CB4 / #9 + #28 * EConst CD3 / #9 - #31 * EConst CDN / #18 +
   #605 * EVar vlmMsq / #36 - #15 * EPow P2 (EVar vlmMsq) / #4 - EVar vlmMst1 * (- #608 + #210 * EVar vlmMsq + #135 *
   EPow P2 (EVar vlmMsq)) / #18 - #103 * EPow P2 (EVar vlmMst1) / #36 + EVar vlmMst2 * (- #8815 - #2052 * EVar vlmMst1
   + #90 * EVar vlmMsq * (#23 + #18 * EVar vlmMst1) + #810 * EPow P2 (EVar vlmMsq) + #288 * EPow P2 (EVar vlmMst1)) /
   #108 - (EDec 1613888888888889 14 + #15 * EVar vlmMsq + #28 * EVar vlmMst1) * EPow P2 (EVar vlmMst2) - #5 * (#359 -
   #202 * EVar vlmMst2 + #20 * EVar vlmMst1 * (#8 + #15 * EVar vlmMst2) + #6 * EVar vlmMsq * (#7 - #50 * EVar vlmMst1
   + #50 * EVar vlmMst2) - #300 * EPow P2 (EVar vlmMst2)) * EPow P2 (EVar vMst1) / (#54 * EPow P2 (EVar vMsq)) + #76 *
   EPow P3 (EVar vlmMst2) / #3 + #5 * (#113 - #34 * EVar vlmMst2 + #12 * EVar vlmMsq * (#1 - #10 * EVar vlmMst1 + #10
   * EVar vlmMst2) + #2 * EVar vlmMst1 * (#11 + #60 * EVar vlmMst2) - #120 * EPow P2 (EVar vlmMst2)) * EPow P4 (EVar
   vMst1) / (#432 * EPow P4 (EVar vMsq))) * EPow P4 (EVar vMst2) - #2 * EConst COepS2 * (#480 * EPow P2 (EVar vMst1) *
   EPow P2 (EVar vMst2) + #8398 * EPow P4 (EVar vMst1) + #315 * EPow P4 (EVar vMst2)) / #2187 + EConst CS2 * (#12 * (-
   #22273 + #1200 * EVar vlmMst1 - #1200 * EVar vlmMst2) * EPow P2 (EVar vMst1) * EPow P2 (EVar vMst2) + #10 * (#51635
   + #25194 * EVar vlmMst1 - #25194 * EVar vlmMst2) * EPow P4 (EVar vMst1) + #27 * (- #116129 + #350 * EVar vlmMst1 -
   #350 * EVar vlmMst2) * EPow P4 (EVar vMst2)) / #1620 + (#10 * (#1004 - #6 * EVar vlmMsq * (#68 + #91 * EVar vlmMst1
   - #91 * EVar vlmMst2) + #61 * EVar vlmMst2 + EVar vlmMst1 * (#347 + #546 * EVar vlmMst2) - #546 * EPow P2 (EVar
   vlmMst2)) / EPow P2 (EVar vMsq) + #3 * (- #1405 + #394 * EVar vlmMst2 + #64 * EVar vlmMst1 * (- #2 + #3 * EVar
   vlmMst2) - #90 * EVar vlmMsq * (- #5 + #6 * EVar vlmMst2) + #270 * EPow P2 (EVar vlmMsq) + #1904 * EPow P2 (EVar
   vlmMst2)) / EPow P2 (EVar vMst1)) * EPow P6 (EVar vMst2) / #216 + (#8 * (#2 + EVar vlmMst2 - #3 * EPow P2 (EVar
   vlmMst2)) * EPow P2 (EVar vMsq) + #5 * (- #4 + #15 * EVar vlmMsq - #15 * EVar vlmMst2) * EPow P2 (EVar vMst1)) *
   EPow P8 (EVar vMst2) / (#9 * EPow P2 (EVar vMsq) * EPow P4 (EVar vMst1)) + #5 * (#3 * (- #1653 + #4 * EVar vlmMsq *
   (#53 + #294 * EVar vlmMst1 - #294 * EVar vlmMst2) - #2 * EVar vlmMst2 - #42 * EVar vlmMst1 * (#5 + #28 * EVar
   vlmMst2) + #1176 * EPow P2 (EVar vlmMst2)) * EPow P2 (EVar vMst1) * EPow P6 (EVar vMst2) + (#3287 - #180 * EVar
   vlmMsq * (#11 + #12 * EVar vlmMst1 - #12 * EVar vlmMst2) + #1644 * EVar vlmMst2 + #48 * EVar vlmMst1 * (#7 + #45 *
   EVar vlmMst2) - #2160 * EPow P2 (EVar vlmMst2)) * EPow P8 (EVar vMst2)) / (#864 * EPow P4 (EVar vMsq))) + EVar
   vMuSUSY * (EPow P2 (EVar vMt) * EPow P2 (EVar vs2t) * (- (EPow P2 (EVar vMst1) * (EDec 19803992798353909 13 + #1048
   * EConst CB4 / #3 - #20 * EConst CDN / #3 - #1440 * EVar vlmMsq - EVar vlmMst1 * (EDec 363037037037037 12 + #200 *
   EVar vlmMsq + #40 * EPow P2 (EVar vlmMsq)) - #128 * EPow P2 (EVar vlmMst1) / #3 + EVar vlmMst2 * (#40 * EVar vlmMsq
   * (#5 + EVar vlmMsq + #2 * EVar vlmMst1) + #2 * (#35429 + #3420 * EVar vlmMst1 + #288 * EPow P2 (EVar vlmMst1)) /
   #27) - #8 * (#79 + #30 * EVar vlmMsq + #168 * EVar vlmMst1) * EPow P2 (EVar vlmMst2) / #3 - #80 * (#15 + EVar
   vlmMst1 * (- #4 + #6 * EVar vlmMsq - #6 * EVar vlmMst2) + (#4 - #6 * EVar vlmMsq) * EVar vlmMst2 + #6 * EPow P2
   (EVar vlmMst2)) * EPow P2 (EVar vMst1) / (#3 * EPow P2 (EVar vMsq)) + #1280 * EPow P3 (EVar vlmMst2) / #3) / EVar
   vMst2) + #8 * (#5 * (#397 + #36 * EVar vlmMsq * (- #2 + EVar vlmMst1 - EVar vlmMst2) + #78 * EVar vlmMst2 - #6 *
   EVar vlmMst1 * (#1 + #6 * EVar vlmMst2) + #36 * EPow P2 (EVar vlmMst2)) / EPow P2 (EVar vMsq) + #48 * (#2 + EVar
   vlmMst2 - #3 * EPow P2 (EVar vlmMst2)) / EPow P2 (EVar vMst1)) * EPow P3 (EVar vMst2) / #9 + (EDec 6185941700960219
   13 - #592 * EConst CB4 / #3 + #8 * EConst CDN / #3 + #750 * EVar vlmMsq + #20 * EVar vlmMst1 * (#542 + #243 * EVar
   vlmMsq + #162 * EPow P2 (EVar vlmMsq)) / #81 + #92 * EPow P2 (EVar vlmMst1) / #3 - EVar vlmMst2 * (#20 * EVar
   vlmMsq * (#3 + #4 * EVar vlmMst1) + #40 * EPow P2 (EVar vlmMsq) + #8 * (#11723 - #702 * EVar vlmMst1 + #756 * EPow
   P2 (EVar vlmMst1)) / #81) + #4 * (- #75 + #60 * EVar vlmMsq + #344 * EVar vlmMst1) * EPow P2 (EVar vlmMst2) / #3 -
   #32 * EPow P3 (EVar vlmMst1) / #3 - #1120 * EPow P3 (EVar vlmMst2) / #3) * EPow P4 (EVar vMst1) / EPow P3 (EVar
   vMst2) - EVar vMst2 * (EDec 21911327160493826 14 + #980 * EConst CB4 / #3 - #22 * EConst CDN / #3 - #3940 * EVar
   vlmMsq / #3 + EVar vlmMst1 * (EDec 23933333333333334 14 - #100 * EVar vlmMsq - #20 * EPow P2 (EVar vlmMsq)) + #40 *
   EPow P2 (EVar vlmMsq) + EVar vlmMst2 * (EDec 19322222222222222 13 + #20 * EVar vlmMsq * (#1 + EVar vlmMsq) + #4 *
   (#37 + #10 * EVar vlmMsq) * EVar vlmMst1 - #32 * EPow P2 (EVar vlmMst1) / #3) + #64 * EPow P2 (EVar vlmMst1) / #3 -
   #4 * (- #81 + #30 * EVar vlmMsq + #232 * EVar vlmMst1) * EPow P2 (EVar vlmMst2) / #3 - #20 * (#217 + #8 * EVar
   vlmMst1 * (- #1 + #6 * EVar vlmMsq - #6 * EVar vlmMst2) + (#8 - #48 * EVar vlmMsq) * EVar vlmMst2 + #48 * EPow P2
   (EVar vlmMst2)) * EPow P2 (EVar vMst1) / (#3 * EPow P2 (EVar vMsq)) + #320 * EPow P3 (EVar vlmMst2) - (EDec
   14134259259259258 14 - #5 * EVar vlmMsq / #9 + #5 * (- #7 + #20 * EVar vlmMsq) * EVar vlmMst1 + (EDec
   3555555555555556 14 - #100 * (EVar vlmMsq + EVar vlmMst1)) * EVar vlmMst2 + #100 * EPow P2 (EVar vlmMst2)) * EPow
   P4 (EVar vMst1) / EPow P4 (EVar vMsq)) + (- #4 * EConst COepS2 * (- #9267 * EPow P2 (EVar vMst1) * EPow P2 (EVar
   vMst2) + #23734 * EPow P4 (EVar vMst1) - #63 * EPow P4 (EVar vMst2)) / #729 + EConst CS2 * (#3 * (#29123 - #92670 *
   EVar vlmMst1 + #92670 * EVar vlmMst2) * EPow P2 (EVar vMst1) * EPow P2 (EVar vMst2) + #2 * (#525961 + #356010 *
   EVar vlmMst1 - #356010 * EVar vlmMst2) * EPow P4 (EVar vMst1) + #27 * (#1387 - #70 * EVar vlmMst1 + #70 * EVar
   vlmMst2) * EPow P4 (EVar vMst2)) / #270) / EPow P3 (EVar vMst2) + #5 * (#2 * (#7969 + #12 * EVar vlmMsq * (#1 +
   #270 * EVar vlmMst1 - #270 * EVar vlmMst2) + #42 * EVar vlmMst2 - #54 * EVar vlmMst1 * (#1 + #60 * EVar vlmMst2) +
   #3240 * EPow P2 (EVar vlmMst2)) * EPow P2 (EVar vMst1) * EPow P3 (EVar vMst2) + (#21275 + #12 * EVar vlmMsq * (-
   #541 + #270 * EVar vlmMst1 - #270 * EVar vlmMst2) + #6546 * EVar vlmMst2 - #54 * EVar vlmMst1 * (#1 + #60 * EVar
   vlmMst2) + #3240 * EPow P2 (EVar vlmMst2)) * EPow P5 (EVar vMst2)) / (#108 * EPow P4 (EVar vMsq))) - EVar vs2t *
   EPow P3 (EVar vMt) * (EDec 30638698412698413 13 - #32 * EConst CB4 / #3 + #32 * EConst CD3 / #3 - #16 * EConst CDN
   / #3 + #920 * EVar vlmMsq / #9 + #1472 * EVar vlmMst1 / #9 - #64 * EVar vlmMt / #9 + #60 * EPow P2 (EVar vlmMsq) +
   #4 * EVar vlmMst2 * (#12247 - #810 * EVar vlmMsq + #918 * EVar vlmMst1 - #288 * EPow P2 (EVar vlmMst1)) / #27 +
   #116 * EPow P2 (EVar vlmMst1) / #3 + #4 * (#431 - #96 * EVar vlmMst1) * EPow P2 (EVar vlmMst2) / #9 - #40 * EPow P2
   (EVar vMst1) / (#9 * EPow P2 (EVar vMsq)) + #2 * (#957 + #64 * EVar vlmMst1 * (#2 - #3 * EVar vlmMst2) + #182 *
   EVar vlmMst2 + #90 * EVar vlmMsq * (- #5 + #6 * EVar vlmMst2) - #270 * EPow P2 (EVar vlmMsq) - #624 * EPow P2 (EVar
   vlmMst2)) * EPow P2 (EVar vMst2) / (#9 * EPow P2 (EVar vMst1)) + #256 * EPow P3 (EVar vlmMst2) / #3 + EPow P2 (EVar
   vMst1) * (EDec 3746992103468548 12 - #32 * EConst CB4 / #3 + #32 * EConst CD3 / #3 - #16 * EConst CDN / #3 - #200 *
   EVar vlmMsq / #3 + #8 * (#253561 + #3375 * EVar vlmMsq) * EVar vlmMst1 / #2025 + #64 * (#5 + EVar vlmMst1 - EVar
   vlmMst2) * EVar vlmMt / #9 + #8 * EVar vlmMst2 * (#732839 - #3375 * EVar vlmMsq + #121560 * EVar vlmMst1 - #11025 *
   EPow P2 (EVar vlmMst1)) / #2025 + #4064 * EPow P2 (EVar vlmMst1) / #135 - #8 * (#4292 + #5025 * EVar vlmMst1) *
   EPow P2 (EVar vlmMst2) / #135 + #8 * EPow P3 (EVar vlmMst1) / #27 + #9208 * EPow P3 (EVar vlmMst2) / #27) / EPow P2
   (EVar vMst2) - #5 * EPow P2 (EVar vMst2) * (#27 * (#5 + #4 * EVar vlmMsq - #4 * EVar vlmMst2) * EPow P2 (EVar
   vMst1) + #2 * (#83 - #936 * EVar vlmMsq + #936 * EVar vlmMst2) * EPow P2 (EVar vMst2)) / (#54 * EPow P4 (EVar
   vMsq)) - #20 * EPow P4 (EVar vMst1) / (#9 * EPow P4 (EVar vMsq)) + (EDec 7724522050654477 13 - #64 * EConst CB4 /
   #9 + #64 * EConst CD3 / #9 - #32 * EConst CDN / #9 + #560 * EVar vlmMsq / #3 + (EDec 15132107835726883 13 - #160 *
   EVar vlmMsq) * EVar vlmMst1 + #38704 * EPow P2 (EVar vlmMst1) / #189 + EVar vlmMst2 * (#160 * EVar vlmMsq + #4 *
   (#1947623 - #3019800 * EVar vlmMst1 + #97020 * EPow P2 (EVar vlmMst1)) / #19845) + #16 * (#6787 - #5439 * EVar
   vlmMst1) * EPow P2 (EVar vlmMst2) / #189 - #128 * EVar vlmMt * (#4 + #6 * EVar vlmMst2 - #2 * EVar vlmMst1 * (#3 +
   EVar vlmMst2) + EPow P2 (EVar vlmMst1) + EPow P2 (EVar vlmMst2)) / #3 - #16 * EPow P3 (EVar vlmMst1) / #9 + #1328 *
   EPow P3 (EVar vlmMst2) / #3) * EPow P4 (EVar vMst1) / EPow P4 (EVar vMst2) + #128 * (- #2 + EVar vlmMst2 + #5 *
   EPow P2 (EVar vlmMst2)) * EPow P4 (EVar vMst2) / (#9 * EPow P4 (EVar vMst1)) + #20 * (#4 * (#3 - EVar vlmMst1 +
   EVar vlmMst2) * EPow P4 (EVar vMst1) + (- #51 + #100 * EVar vlmMsq - #100 * EVar vlmMst2) * EPow P4 (EVar vMst2)) /
   (#9 * EPow P2 (EVar vMsq) * EPow P2 (EVar vMst2)) + (#32 * EConst COepS2 * (#660 * EPow P2 (EVar vMst1) * EPow P2
   (EVar vMst2) + #1838 * EPow P4 (EVar vMst1) + #63 * EPow P4 (EVar vMst2)) / #243 - #4 * EConst CS2 * (#12 * (#18419
   + #11550 * EVar vlmMst1 - #11550 * EVar vlmMst2) * EPow P2 (EVar vMst1) * EPow P2 (EVar vMst2) + #28 * (#17269 +
   #13785 * EVar vlmMst1 - #13785 * EVar vlmMst2) * EPow P4 (EVar vMst1) + #27 * (#3477 + #490 * EVar vlmMst1 - #490 *
   EVar vlmMst2) * EPow P4 (EVar vMst2)) / #315) / EPow P4 (EVar vMst2) + (#800 * (#8 - #15 * EVar vlmMsq + #15 * EVar
   vlmMst2) * EPow P2 (EVar vMsq) * EPow P4 (EVar vMst2) + #315 * (#5 - #28 * EVar vlmMsq + #28 * EVar vlmMst2) * EPow
   P6 (EVar vMst2)) / (#54 * EPow P2 (EVar vMst1) * EPow P4 (EVar vMsq))) + EPow P4 (EVar vMt) * (- (EPow P4 (EVar
   vMsq) * (- #3 * EPow P2 (EVar vMst1) * EPow P2 (EVar vMst2) * (#34872121 - #13890240 * EVar vlmMst2 - #7840 *
   EConst COepS2 - #324 * (#9361 + #490 * EVar vlmMst2) * EConst CS2 - #453600 * (EVar vlmMst1 - EVar vlmMst2) * EPow
   P2 (EVar vlmMsq) - #241920 * (- #2 + EVar vlmMst2) * EPow P2 (EVar vlmMst1) + #7560 * EVar vlmMst1 * (#206 - #128 *
   EVar vlmMt + EVar vlmMst2 * (#636 + #64 * EVar vlmMt) + #21 * EConst CS2 - #224 * EPow P2 (EVar vlmMst2)) + #50400
   * EVar vlmMsq * (#64 + #48 * EVar vlmMst2 + #9 * EVar vlmMst1 * (- #5 + #2 * EVar vlmMst2) - #3 * EVar vlmMt - #18
   * EPow P2 (EVar vlmMst2)) - #5654880 * EPow P2 (EVar vlmMst2) - #5040 * EVar vlmMt * (- #31 - #240 * EVar vlmMst2 +
   #96 * EPow P2 (EVar vlmMst2)) + #120960 * EPow P2 (EVar vlmMt) + #1935360 * EPow P3 (EVar vlmMst2)) - #8 *
   (#24896293 + #2509920 * EVar vlmMst2 - #605920 * EConst COepS2 - #108 * (#105619 + #113610 * EVar vlmMst2) * EConst
   CS2 - #170100 * (EVar vlmMst1 - EVar vlmMst2) * EPow P2 (EVar vlmMsq) + #90720 * (- #3 + EVar vlmMst2) * EPow P2
   (EVar vlmMst1) + #18900 * EVar vlmMsq * (#100 + #48 * EVar vlmMst2 + #9 * EVar vlmMst1 * (- #5 + #2 * EVar vlmMst2)
   - #3 * EVar vlmMt - #18 * EPow P2 (EVar vlmMst2)) - #1563030 * EPow P2 (EVar vlmMst2) - #1890 * EVar vlmMt * (-
   #539 - #233 * EVar vlmMst2 + #96 * EPow P2 (EVar vlmMst2)) - #1890 * EVar vlmMst1 * (#2075 + #281 * EVar vlmMt -
   EVar vlmMst2 * (#1139 + #96 * EVar vlmMt) - #6492 * EConst CS2 + #528 * EPow P2 (EVar vlmMst2)) - #226800 * EPow P2
   (EVar vlmMt) + #907200 * EPow P3 (EVar vlmMst2)) * EPow P4 (EVar vMst1) + #2903040 * (#2 + EVar vlmMst2 - #3 * EPow
   P2 (EVar vlmMst2)) * EPow P4 (EVar vMst2))) + #50400 * EPow P2 (EVar vMsq) * ((#778 - #3 * EVar vlmMst1 * (#1 + #78
   * EVar vlmMsq - #78 * EVar vlmMst2) + #6 * (#1 + #39 * EVar vlmMsq) * EVar vlmMst2 - #3 * EVar vlmMt - #234 * EPow
   P2 (EVar vlmMst2)) * EPow P2 (EVar vMst2) * EPow P4 (EVar vMst1) + #3 * (#265 - #34 * EVar vlmMst2 + #12 * EVar
   vlmMst1 * (#1 + #6 * EVar vlmMst2) - #6 * (- #2 + EVar vlmMst2) * EVar vlmMt + #2 * EVar vlmMsq * (#5 - #36 * EVar
   vlmMst1 + #39 * EVar vlmMst2 + #3 * EVar vlmMt) - #6 * EPow P2 (EVar vlmMsq) - #72 * EPow P2 (EVar vlmMst2)) * EPow
   P2 (EVar vMst1) * EPow P4 (EVar vMst2) + (#313 + #42 * (- #2 + #3 * EVar vlmMsq) * EVar vlmMst2 + #3 * EVar vlmMst1
   * (#23 - #42 * EVar vlmMsq + #42 * EVar vlmMst2) + #15 * EVar vlmMt - #126 * EPow P2 (EVar vlmMst2)) * EPow P6
   (EVar vMst1)) + #3150 * (#4 * (#1330 + #12 * (- #4 + #33 * EVar vlmMsq) * EVar vlmMst2 + EVar vlmMst1 * (#51 - #396
   * EVar vlmMsq + #396 * EVar vlmMst2) - #3 * EVar vlmMt - #396 * EPow P2 (EVar vlmMst2)) * EPow P2 (EVar vMst2) *
   EPow P6 (EVar vMst1) + #3 * ((#4585 + #104 * EVar vlmMst2 + #6 * EVar vlmMst1 * (- #25 + #228 * EVar vlmMst2) - #4
   * EVar vlmMsq * (#5 + #342 * EVar vlmMst1 - #348 * EVar vlmMst2 - #6 * EVar vlmMt) + #66 * EVar vlmMt - #24 * EVar
   vlmMst2 * EVar vlmMt - #24 * EPow P2 (EVar vlmMsq) - #1368 * EPow P2 (EVar vlmMst2)) * EPow P4 (EVar vMst1) * EPow
   P4 (EVar vMst2) + (#4317 - #280 * EVar vlmMst2 + #18 * EVar vlmMst1 * (#1 + #60 * EVar vlmMst2) - #78 * (- #3 + #4
   * EVar vlmMst2) * EVar vlmMt + #4 * EVar vlmMsq * (#7 - #270 * EVar vlmMst1 + #348 * EVar vlmMst2 + #78 * EVar
   vlmMt) - #312 * EPow P2 (EVar vlmMsq) - #1080 * EPow P2 (EVar vlmMst2)) * EPow P2 (EVar vMst1) * EPow P6 (EVar
   vMst2)))) / (#51030 * EPow P2 (EVar vMst1) * EPow P3 (EVar vMst2) * EPow P4 (EVar vMsq)) + EVar vMt * (#2 * EConst
   CT1ep * (#3 * EVar vMst2 * EPow P2 (EVar vMst1) * (#15840 * EVar vMst2 * EVar vs2t * EPow P2 (EVar vMt) - #9267 *
   EVar vMt * EPow P2 (EVar vMst2) * EPow P2 (EVar vs2t) + #17312 * EPow P3 (EVar vMt) - #530 * EPow P3 (EVar vMst2) *
   EPow P3 (EVar vs2t)) + #63 * EPow P3 (EVar vMst2) * (#72 * EVar vMst2 * EVar vs2t * EPow P2 (EVar vMt) - #3 * EVar
   vMt * EPow P2 (EVar vMst2) * EPow P2 (EVar vs2t) + #4 * EPow P3 (EVar vMt) - #10 * EPow P3 (EVar vMst2) * EPow P3
   (EVar vs2t)) + #2 * EVar vs2t * (#35601 * EVar vMst2 * EVar vMt * EVar vs2t + #66168 * EPow P2 (EVar vMt) - #12664
   * EPow P2 (EVar vMst2) * EPow P2 (EVar vs2t)) * EPow P4 (EVar vMst1)) / (#729 * EPow P4 (EVar vMst2)) + EPow P3
   (EVar vs2t) * (EPow P2 (EVar vMst1) * (EDec 18595119067215364 14 + #64 * EConst CB4 / #9 - #64 * EConst CD3 / #9 +
   #32 * EConst CDN / #9 + #275 * EVar vlmMsq / #9 + #4 * (#4106 - #1125 * EVar vlmMsq) * EVar vlmMst1 / #675 + #15 *
   EPow P2 (EVar vlmMsq) + #6011 * EPow P2 (EVar vlmMst1) / #135 - EVar vlmMst2 * (- #1551 + #15750 * EVar vlmMsq +
   #40910 * EVar vlmMst1 + #58350 * EPow P2 (EVar vlmMst1)) / #675 + (#5891 + #23190 * EVar vlmMst1) * EPow P2 (EVar
   vlmMst2) / #135 + #10 * EPow P3 (EVar vlmMst1) / #27 - #2314 * EPow P3 (EVar vlmMst2) / #27) - (#5 * (#5 - #2 *
   EVar vlmMst1 + #2 * EVar vlmMst2) / (#9 * EPow P2 (EVar vMsq)) + (EDec 42699721850958684 14 + #1510169 * EVar
   vlmMst2 / #59535 + EVar vlmMsq * (#10 - #20 * EVar vlmMst1 + #20 * EVar vlmMst2) + #2 * (#433 + #6552 * EVar
   vlmMst2) * EPow P2 (EVar vlmMst1) / #189 + #194 * EPow P2 (EVar vlmMst2) / #189 - EVar vlmMst1 * (#2674409 +
   #333900 * EVar vlmMst2 + #7514640 * EPow P2 (EVar vlmMst2)) / #59535 - #112 * EPow P3 (EVar vlmMst1) / #27 + #1648
   * EPow P3 (EVar vlmMst2) / #27) / EPow P2 (EVar vMst2)) * EPow P4 (EVar vMst1) - EPow P2 (EVar vMst2) * (EDec
   17599979423868314 14 - #100 * EConst CB4 / #9 + #112 * EConst CD3 / #9 - #62 * EConst CDN / #9 + #830 * EVar vlmMsq
   / #9 - #2 * EVar vlmMst1 * (- #192 + #70 * EVar vlmMsq + #45 * EPow P2 (EVar vlmMsq)) / #3 - #103 * EPow P2 (EVar
   vlmMst1) / #9 + #2 * EVar vlmMst2 * (- #4160 - #882 * EVar vlmMst1 + #90 * EVar vlmMsq * (#7 + #9 * EVar vlmMst1) +
   #405 * EPow P2 (EVar vlmMsq) + #144 * EPow P2 (EVar vlmMst1)) / #27 + (EDec 23444444444444443 15 - #60 * EVar
   vlmMsq - #112 * EVar vlmMst1) * EPow P2 (EVar vlmMst2) + #5 * (#42 + EVar vlmMst1 * (#9 - #18 * EVar vlmMst2) + #2
   * EVar vlmMsq * (- #32 + #9 * EVar vlmMst1 - #9 * EVar vlmMst2) + #55 * EVar vlmMst2 + #18 * EPow P2 (EVar
   vlmMst2)) * EPow P2 (EVar vMst1) / (#9 * EPow P2 (EVar vMsq)) + #304 * EPow P3 (EVar vlmMst2) / #3 - #5 * EPow P4
   (EVar vMst1) / (#18 * EPow P4 (EVar vMsq))) - (#10 * (#844 - #6 * EVar vlmMsq * (#18 + #91 * EVar vlmMst1 - #91 *
   EVar vlmMst2) - #239 * EVar vlmMst2 + EVar vlmMst1 * (#347 + #546 * EVar vlmMst2) - #546 * EPow P2 (EVar vlmMst2))
   / EPow P2 (EVar vMsq) + #3 * (- #1277 + #330 * EVar vlmMst2 + #64 * EVar vlmMst1 * (- #2 + #3 * EVar vlmMst2) - #90
   * EVar vlmMsq * (- #5 + #6 * EVar vlmMst2) + #270 * EPow P2 (EVar vlmMsq) + #1584 * EPow P2 (EVar vlmMst2)) / EPow
   P2 (EVar vMst1)) * EPow P4 (EVar vMst2) / #54 + (#159 * (#200 * EConst COepS2 + #27 * (#21401 - #150 * EVar vlmMst1
   + #150 * EVar vlmMst2) * EConst CS2) * EPow P2 (EVar vMst1) * EPow P2 (EVar vMst2) + #20 * (#25328 * EConst COepS2
   + #27 * (#47051 - #18996 * EVar vlmMst1 + #18996 * EVar vlmMst2) * EConst CS2) * EPow P4 (EVar vMst1) + #9 * (#1400
   * EConst COepS2 + #81 * (#116129 - #350 * EVar vlmMst1 + #350 * EVar vlmMst2) * EConst CS2) * EPow P4 (EVar vMst2))
   / (#10935 * EPow P2 (EVar vMst2)) + #32 * (- #2 + EVar vlmMst2 + #5 * EPow P2 (EVar vlmMst2)) * EPow P6 (EVar
   vMst2) / (#9 * EPow P4 (EVar vMst1)) + #5 * ((#405 - #434 * EVar vlmMst2 + #10 * EVar vlmMst1 * (- #13 + #60 * EVar
   vlmMst2) + EVar vlmMsq * (#564 - #600 * EVar vlmMst1 + #600 * EVar vlmMst2) - #600 * EPow P2 (EVar vlmMst2)) * EPow
   P4 (EVar vMst1) * EPow P4 (EVar vMst2) - #160 * (- #8 + #15 * EVar vlmMsq - #15 * EVar vlmMst2) * EPow P2 (EVar
   vMsq) * EPow P6 (EVar vMst2) + #2 * (- #2277 + #24 * EVar vlmMsq * (#25 + #61 * EVar vlmMst1 - #61 * EVar vlmMst2)
   - #220 * EVar vlmMst2 - #4 * EVar vlmMst1 * (#95 + #366 * EVar vlmMst2) + #1464 * EPow P2 (EVar vlmMst2)) * EPow P2
   (EVar vMst1) * EPow P6 (EVar vMst2) + #9 * (#9 - #140 * EVar vlmMsq + #140 * EVar vlmMst2) * EPow P8 (EVar vMst2))
   / (#216 * EPow P2 (EVar vMst1) * EPow P4 (EVar vMsq))))) / EVar vTbeta)) / EPow P2 (EVar vMgl) + EVar vAl4p * EVar
   vxDmglst2 * EConst Cz2 * EPow P2 (EVar vDmglst2) * (EVar vtwoLoopFlag * (#4 * EPow P2 (EVar vMt) * (#8 * (#4 * EVar
   vMuSUSY + #9 * EVar vMst2 * EVar vTbeta) * EPow P2 (EVar vMt) * EPow P2 (EVar vSbeta) + #3 * EVar vMst2 * EVar
   vMuSUSY * EPow P2 (EVar vs2t) * (- (EVar vMuSUSY * EVar vTbeta * (- #1 + EPow P2 (EVar vSbeta))) + #10 * EVar vMst2
   * EPow P2 (EVar vSbeta)) + #2 * EVar vMt * EVar vs2t * EVar vTbeta * (#31 * EPow P2 (EVar vMuSUSY) * (- #1 + EPow
   P2 (EVar vSbeta)) - #12 * EPow P2 (EVar vMst2) * EPow P2 (EVar vSbeta))) * EPow P4 (EVar vMst1) + EPow P2 (EVar
   vMst1) * EPow P2 (EVar vMst2) * (#12 * EVar vMst2 * EVar vMuSUSY * EPow P2 (EVar vMt) * EPow P2 (EVar vs2t) * (EVar
   vMuSUSY * EVar vTbeta + #10 * EVar vMst2 * EPow P2 (EVar vSbeta) - EVar vMuSUSY * EVar vTbeta * EPow P2 (EVar
   vSbeta)) + #168 * EVar vs2t * EVar vTbeta * EPow P2 (EVar vMuSUSY) * (- #1 + EPow P2 (EVar vSbeta)) * EPow P3 (EVar
   vMt) + #4 * EVar vMt * EVar vTbeta * EPow P2 (EVar vSbeta) * EPow P3 (EVar vs2t) * EPow P4 (EVar vMst2) + #32 *
   (EVar vMuSUSY + EVar vMst2 * EVar vTbeta) * EPow P2 (EVar vSbeta) * EPow P4 (EVar vMt) - #3 * EVar vTbeta * EPow P2
   (EVar vSbeta) * EPow P4 (EVar vs2t) * EPow P5 (EVar vMst2)) + EPow P4 (EVar vMst2) * (#12 * EVar vMst2 * EVar
   vMuSUSY * EPow P2 (EVar vMt) * EPow P2 (EVar vs2t) * (- (EVar vMuSUSY * EVar vTbeta * (- #1 + EPow P2 (EVar
   vSbeta))) + #11 * EVar vMst2 * EPow P2 (EVar vSbeta)) + #8 * EVar vs2t * EVar vTbeta * (#11 * EPow P2 (EVar
   vMuSUSY) * (- #1 + EPow P2 (EVar vSbeta)) - #4 * EPow P2 (EVar vMst2) * EPow P2 (EVar vSbeta)) * EPow P3 (EVar vMt)
   - #4 * EVar vMt * (#3 * EVar vMuSUSY + #11 * EVar vMst2 * EVar vTbeta) * EPow P2 (EVar vSbeta) * EPow P3 (EVar
   vMst2) * EPow P3 (EVar vs2t) + #32 * EVar vMuSUSY * EPow P2 (EVar vSbeta) * EPow P4 (EVar vMt) + #3 * EVar vTbeta *
   EPow P2 (EVar vSbeta) * EPow P4 (EVar vs2t) * EPow P5 (EVar vMst2))) / (#3 * EVar vTbeta * EPow P2 (EVar vSbeta) *
   EPow P5 (EVar vMst2)) + EVar vAl4p * EVar vthreeLoopFlag * (#7 * EPow P4 (EVar vs2t) * (EPow P4 (EVar vMsq) * (#12
   * (- #34574 + #36450 * EVar vlmMsq + #15795 * EVar vlmMst1 - #87075 * EVar vlmMst2) * EPow P2 (EVar vMst2) * EPow
   P4 (EVar vMst1) + #9 * (#64091 - #48600 * EVar vlmMsq - #53280 * EVar vlmMst1 + #148320 * EVar vlmMst2) * EPow P2
   (EVar vMst1) * EPow P4 (EVar vMst2) + (#4400182 - #427680 * EVar vlmMst1 + #427680 * EVar vlmMst2) * EPow P6 (EVar
   vMst1) + #233280 * EPow P6 (EVar vMst2)) - #8100 * EPow P2 (EVar vMsq) * (- #100 * EPow P4 (EVar vMst1) * EPow P4
   (EVar vMst2) + #6 * EPow P2 (EVar vMst2) * EPow P6 (EVar vMst1) + #91 * EPow P2 (EVar vMst1) * EPow P6 (EVar
   vMst2)) - #4050 * (#10 * EPow P4 (EVar vMst2) * EPow P6 (EVar vMst1) - #147 * EPow P4 (EVar vMst1) * EPow P6 (EVar
   vMst2) + #90 * EPow P2 (EVar vMst1) * EPow P8 (EVar vMst2))) / (EPow P2 (EVar vMst1) * EPow P4 (EVar vMsq)) + #2 *
   EVar vMt * (#4 * EPow P3 (EVar vMt) * (EVar vMuSUSY * (- #48 * (- #1161746 + #56700 * EVar vlmMsq + #6615 * EVar
   vlmMst1 - #222075 * EVar vlmMst2 + #34020 * EVar vlmMt) * EVar vMst2 * EPow P2 (EVar vMst1) - #9 * (#718271 +
   #302400 * EVar vlmMsq + #32760 * EVar vlmMst1 - #955080 * EVar vlmMst2 - #45360 * EVar vlmMt) * EPow P3 (EVar
   vMst2)) + EVar vTbeta * (#30 * (#6261919 + #45360 * EVar vlmMsq - #240408 * EVar vlmMst1 + #406728 * EVar vlmMst2 -
   #287280 * EVar vlmMt) * EPow P2 (EVar vMst1) * EPow P2 (EVar vMst2) - #756 * (#5 * (- #3643 + #120 * EVar vlmMst1 -
   #3192 * EVar vlmMst2) * EPow P2 (EVar vMst1) - #8 * (#617 + #2040 * EVar vlmMst2) * EPow P2 (EVar vMst2)) * EPow P2
   (EVar vMuSUSY) * (- #1 + EPow P2 (EVar vSbeta)) / EPow P2 (EVar vSbeta) - #16 * (#17026487 + #1530900 * EVar vlmMsq
   - #3163860 * EVar vlmMst1 + #4320540 * EVar vlmMst2 - #340200 * EVar vlmMt) * EPow P4 (EVar vMst1) - #630 * (-
   #19211 + #648 * EVar vlmMst1 + #5328 * EVar vlmMst2 + #7848 * EVar vlmMt) * EPow P4 (EVar vMst2) + #3265920 * EPow
   P6 (EVar vMst2) / EPow P2 (EVar vMst1)) - #226800 * (#22 * EVar vMuSUSY * EPow P3 (EVar vMst2) * EPow P4 (EVar
   vMst1) + #58 * EVar vMuSUSY * EPow P2 (EVar vMst1) * EPow P5 (EVar vMst2) + EPow P2 (EVar vMsq) * (#52 * EVar
   vMuSUSY * EPow P2 (EVar vMst1) * EPow P3 (EVar vMst2) + EVar vMst2 * (#28 * EVar vMuSUSY + #6 * EVar vMst2 * EVar
   vTbeta) * EPow P4 (EVar vMst1) + (#52 * EVar vMuSUSY - #9 * EVar vMst2 * EVar vTbeta) * EPow P5 (EVar vMst2)) +
   (#58 * EVar vMuSUSY - #17 * EVar vMst2 * EVar vTbeta) * EPow P7 (EVar vMst2)) / EPow P4 (EVar vMsq)) + EVar vs2t *
   (#7 * EPow P2 (EVar vMst2) * EPow P2 (EVar vs2t) * (- (EPow P4 (EVar vMsq) * (#6 * ((#131737 - #96660 * EVar
   vlmMst1 + #96660 * EVar vlmMst2) * EVar vMuSUSY + #10 * (- #76585 + #3240 * EVar vlmMsq - #36504 * EVar vlmMst1 +
   #29592 * EVar vlmMst2) * EVar vMst2 * EVar vTbeta) * EPow P2 (EVar vMst2) * EPow P4 (EVar vMst1) + #9 * (#2 *
   (#90011 - #48600 * EVar vlmMsq - #53280 * EVar vlmMst1 + #148320 * EVar vlmMst2) * EVar vMuSUSY + (#1340537 -
   #496800 * EVar vlmMsq + #4680 * EVar vlmMst1 + #778680 * EVar vlmMst2) * EVar vMst2 * EVar vTbeta) * EPow P2 (EVar
   vMst1) * EPow P4 (EVar vMst2) + (#16 * (#776573 - #80595 * EVar vlmMst1 + #80595 * EVar vlmMst2) * EVar vMuSUSY +
   (#8194483 - #2329560 * EVar vlmMst1 + #2329560 * EVar vlmMst2) * EVar vMst2 * EVar vTbeta) * EPow P6 (EVar vMst1) +
   #466560 * EVar vMuSUSY * EPow P6 (EVar vMst2))) + #16200 * EPow P2 (EVar vMsq) * (- #3 * (#3 * EVar vMuSUSY + #16 *
   EVar vMst2 * EVar vTbeta) * EPow P4 (EVar vMst1) * EPow P4 (EVar vMst2) + #13 * (#7 * EVar vMuSUSY + #24 * EVar
   vMst2 * EVar vTbeta) * EPow P2 (EVar vMst1) * EPow P6 (EVar vMst2)) - #8100 * (#5 * (#5 * EVar vMuSUSY + #18 * EVar
   vMst2 * EVar vTbeta) * EPow P4 (EVar vMst1) * EPow P6 (EVar vMst2) - #2 * (#61 * EVar vMuSUSY + #179 * EVar vMst2 *
   EVar vTbeta) * EPow P2 (EVar vMst1) * EPow P8 (EVar vMst2))) + EVar vMt * (- #56700 * EVar vMuSUSY * EVar vs2t *
   EPow P2 (EVar vMst1) * EPow P2 (EVar vMst2) * (#2 * EPow P2 (EVar vMst2) * (- #11 * EVar vMuSUSY * EVar vTbeta * (-
   #1 + EPow P2 (EVar vSbeta)) + #78 * EVar vMst2 * EPow P2 (EVar vSbeta)) * EPow P4 (EVar vMst1) + EPow P2 (EVar
   vMst1) * (- #97 * EVar vMuSUSY * EVar vTbeta * (- #1 + EPow P2 (EVar vSbeta)) + #804 * EVar vMst2 * EPow P2 (EVar
   vSbeta)) * EPow P4 (EVar vMst2) + #2 * EPow P2 (EVar vMsq) * (#2 * EPow P2 (EVar vMst1) * EPow P2 (EVar vMst2) * (-
   #41 * EVar vMuSUSY * EVar vTbeta * (- #1 + EPow P2 (EVar vSbeta)) + #396 * EVar vMst2 * EPow P2 (EVar vSbeta)) + #4
   * (- #7 * EVar vMuSUSY * EVar vTbeta * (- #1 + EPow P2 (EVar vSbeta)) + #54 * EVar vMst2 * EPow P2 (EVar vSbeta)) *
   EPow P4 (EVar vMst1) + #13 * (- #7 * EVar vMuSUSY * EVar vTbeta * (- #1 + EPow P2 (EVar vSbeta)) + #72 * EVar vMst2
   * EPow P2 (EVar vSbeta)) * EPow P4 (EVar vMst2)) + #2 * (- #61 * EVar vMuSUSY * EVar vTbeta * (- #1 + EPow P2 (EVar
   vSbeta)) + #537 * EVar vMst2 * EPow P2 (EVar vSbeta)) * EPow P6 (EVar vMst2)) - EVar vs2t * EPow P4 (EVar vMsq) *
   (- #3 * EPow P2 (EVar vMst2) * (#140 * (- #47953 + #14580 * EVar vlmMsq + #25650 * EVar vlmMst1 - #54162 * EVar
   vlmMst2) * EVar vTbeta * EPow P2 (EVar vMuSUSY) * (- #1 + EPow P2 (EVar vSbeta)) + #3 * EVar vMst2 * (#7 *
   (#2489911 - #1425600 * EVar vlmMsq - #716040 * EVar vlmMst1 + #2927880 * EVar vlmMst2) * EVar vMuSUSY + #60 *
   (#5208 * EVar vlmMst1 - #19 * (#13297 + #6216 * EVar vlmMst2)) * EVar vMst2 * EVar vTbeta) * EPow P2 (EVar vSbeta))
   * EPow P4 (EVar vMst1) - #9 * EPow P2 (EVar vMst1) * (#14 * (- #115931 + #48600 * EVar vlmMsq + #53280 * EVar
   vlmMst1 - #148320 * EVar vlmMst2) * EVar vTbeta * EPow P2 (EVar vMuSUSY) * (- #1 + EPow P2 (EVar vSbeta)) + #3 *
   EVar vMst2 * (#7 * (#1340537 - #496800 * EVar vlmMsq + #4680 * EVar vlmMst1 + #778680 * EVar vlmMst2) * EVar
   vMuSUSY + #12 * (- #53927 + #1820 * EVar vlmMst1 - #230300 * EVar vlmMst2) * EVar vMst2 * EVar vTbeta) * EPow P2
   (EVar vSbeta)) * EPow P4 (EVar vMst2) - #14 * (#4 * (- #2286439 + #72900 * EVar vlmMsq + #307800 * EVar vlmMst1 -
   #450360 * EVar vlmMst2) * EVar vTbeta * EPow P2 (EVar vMuSUSY) * (- #1 + EPow P2 (EVar vSbeta)) + #15 * EVar vMst2
   * ((#1991719 - #194400 * EVar vlmMsq - #328536 * EVar vlmMst1 + #618840 * EVar vlmMst2) * EVar vMuSUSY - #12 *
   (#78533 + #6732 * EVar vlmMst1 + #180 * EVar vlmMst2) * EVar vMst2 * EVar vTbeta) * EPow P2 (EVar vSbeta)) * EPow
   P6 (EVar vMst1) + #3265920 * EVar vTbeta * (EPow P2 (EVar vMuSUSY) * (- #1 + EPow P2 (EVar vSbeta)) + #2 * EPow P2
   (EVar vMst2) * EPow P2 (EVar vSbeta)) * EPow P6 (EVar vMst2)) + #2 * EVar vMt * EPow P4 (EVar vMsq) * (#9 * EPow P2
   (EVar vMst1) * (- #7 * (- #1340537 + #496800 * EVar vlmMsq - #4680 * EVar vlmMst1 - #778680 * EVar vlmMst2) * EVar
   vTbeta * EPow P2 (EVar vMuSUSY) * (- #1 + EPow P2 (EVar vSbeta)) + #2 * EVar vMst2 * (#18 * (#74087 - #1820 * EVar
   vlmMst1 + #230300 * EVar vlmMst2) * EVar vMuSUSY + (#740951 + #302400 * EVar vlmMsq + #32760 * EVar vlmMst1 -
   #955080 * EVar vlmMst2 - #45360 * EVar vlmMt) * EVar vMst2 * EVar vTbeta) * EPow P2 (EVar vSbeta)) * EPow P3 (EVar
   vMst2) + #6 * EVar vMst2 * (- #7 * (- #3255761 + #1458000 * EVar vlmMsq + #351000 * EVar vlmMst1 - #2631960 * EVar
   vlmMst2) * EVar vTbeta * EPow P2 (EVar vMuSUSY) * (- #1 + EPow P2 (EVar vSbeta)) + EVar vMst2 * (#72 * (#371369 -
   #7875 * EVar vlmMst1 + #320355 * EVar vlmMst2) * EVar vMuSUSY + (- #21082949 + #7560 * EVar vlmMst1 - #687960 *
   EVar vlmMst2 + #680400 * EVar vlmMt) * EVar vMst2 * EVar vTbeta) * EPow P2 (EVar vSbeta)) * EPow P4 (EVar vMst1) +
   EPow P2 (EVar vSbeta) * (#56 * (#9 * (#520939 + #44280 * EVar vlmMst1 + #76680 * EVar vlmMst2) * EVar vMuSUSY +
   (#9227767 + #291600 * EVar vlmMsq - #754920 * EVar vlmMst1 + #1088640 * EVar vlmMst2 - #22680 * EVar vlmMt) * EVar
   vMst2 * EVar vTbeta) * EPow P6 (EVar vMst1) + #6531840 * EVar vMuSUSY * EPow P6 (EVar vMst2))) + #226800 * EVar
   vMst2 * EVar vMt * EVar vTbeta * EPow P2 (EVar vMst1) * (- (EPow P2 (EVar vMst2) * EPow P2 (EVar vMuSUSY) * (- #1 +
   EPow P2 (EVar vSbeta)) * (#313 * EPow P2 (EVar vMst1) * EPow P2 (EVar vMst2) + #93 * EPow P4 (EVar vMst1) + #179 *
   EPow P4 (EVar vMst2))) + #8 * EPow P2 (EVar vMsq) * (- #3 * EPow P2 (EVar vMuSUSY) * (- #1 + EPow P2 (EVar vSbeta))
   * (#24 * EPow P2 (EVar vMst1) * EPow P2 (EVar vMst2) + #10 * EPow P4 (EVar vMst1) + #13 * EPow P4 (EVar vMst2)) +
   #26 * EPow P2 (EVar vSbeta) * EPow P6 (EVar vMst2)) + #232 * EPow P2 (EVar vSbeta) * EPow P8 (EVar vMst2))) / EPow
   P2 (EVar vSbeta)) / (EPow P2 (EVar vMst1) * EPow P4 (EVar vMsq))) / (EVar vTbeta * EPow P4 (EVar vMst2))) /
   #204120) / EPow P2 (EVar vMgl) + EVar vxDR2DRMOD * (EVar vthreeLoopFlag * EPow P2 (EVar vAl4p) * (- #12 * EPow P2
   (EVar vMt) * EPow P2 (EVar vs2t) * ((#8 * (#2 * EVar vDmglst2 * (#889 + #694 * EVar vlmMst2 - #576 * EVar vlmMst1 *
   (#1 + EVar vlmMst2) + #90 * EVar vlmMsq * (- #1 + #6 * EVar vlmMst2) - #270 * EPow P2 (EVar vlmMsq) - #48 * EPow P2
   (EVar vlmMst2)) - #3 * EVar vMgl * (#207 + #494 * EVar vlmMst2 - #30 * EVar vlmMsq * (#5 + #6 * EVar vlmMst2) + #90
   * EPow P2 (EVar vlmMsq) + #240 * EPow P2 (EVar vlmMst2))) * EPow P2 (EVar vMst1) + #1536 * ((EVar vlmMst1 - EVar
   vlmMst2) * (#1 + EVar vlmMst2) * EVar vMgl + #2 * EVar vDmglst2 * (#2 + #7 * EVar vlmMst2 - EVar vlmMst1 * (#5 + #4
   * EVar vlmMst2) + #4 * EPow P2 (EVar vlmMst2))) * EPow P4 (EVar vMst1) / EPow P2 (EVar vMst2) + #10 * (#18 * EVar
   vDmglst2 * (#13 - #28 * EVar vlmMsq + #28 * EVar vlmMst2) + (#67 - #84 * EVar vlmMsq + #84 * EVar vlmMst2) * EVar
   vMgl) * (EPow P2 (EVar vMst1) - #2 * EPow P2 (EVar vMst2)) * EPow P4 (EVar vMst2) / EPow P4 (EVar vMsq) + #8 * EPow
   P2 (EVar vMst2) * ((#160 * EVar vDmglst2 * (- #14 + #15 * EVar vlmMsq - #15 * EVar vlmMst2) + #20 * (- #43 + #30 *
   EVar vlmMsq - #30 * EVar vlmMst2) * EVar vMgl - #3 * (EVar vMgl * (#303 + #590 * EVar vlmMst2 + #64 * EVar vlmMst1
   * (#1 + EVar vlmMst2) - #30 * EVar vlmMsq * (#5 + #6 * EVar vlmMst2) + #90 * EPow P2 (EVar vlmMsq) + #240 * EPow P2
   (EVar vlmMst2)) + #2 * EVar vDmglst2 * (- #179 + (#238 + #64 * EVar vlmMst1) * EVar vlmMst2 - #30 * EVar vlmMsq *
   (- #1 + #6 * EVar vlmMst2) + #90 * EPow P2 (EVar vlmMsq) + #272 * EPow P2 (EVar vlmMst2))) * EPow P2 (EVar vMsq) /
   EPow P2 (EVar vMst1)) * EPow P2 (EVar vMst2) - #2 * ((#40 * EVar vDmglst2 * (- #14 + #15 * EVar vlmMsq - #15 * EVar
   vlmMst2) + #5 * (- #43 + #30 * EVar vlmMsq - #30 * EVar vlmMst2) * EVar vMgl) * EPow P2 (EVar vMst1) + EPow P2
   (EVar vMsq) * (#2 * EVar vDmglst2 * (#329 + #90 * EVar vlmMsq * (- #1 + #6 * EVar vlmMst2) + #96 * EVar vlmMst1 *
   (#1 - #2 * EVar vlmMst2 * (#1 + EVar vlmMst2)) - #270 * EPow P2 (EVar vlmMsq) + EVar vlmMst2 * (- #586 + #96 * EPow
   P2 (EVar vlmMst1)) - #528 * EPow P2 (EVar vlmMst2) + #96 * EPow P3 (EVar vlmMst2)) - #3 * EVar vMgl * (#207 + #414
   * EVar vlmMst2 - #30 * EVar vlmMsq * (#5 + #6 * EVar vlmMst2) + #90 * EPow P2 (EVar vlmMsq) + #128 * EPow P2 (EVar
   vlmMst2) + #32 * EVar vlmMst1 * (#3 + #5 * EVar vlmMst2 + #2 * EPow P2 (EVar vlmMst2)) - #32 * ((#1 + EVar vlmMst2)
   * EPow P2 (EVar vlmMst1) + EPow P3 (EVar vlmMst2))))) + #2 * (EVar vMgl * (#48 * EPow P2 (#1 + EVar vlmMst2) * EPow
   P2 (EVar vMsq) + #5 * (#43 - #30 * EVar vlmMsq + #30 * EVar vlmMst2) * EPow P2 (EVar vMst1)) + #8 * EVar vDmglst2 *
   (#24 * EPow P2 (EVar vlmMst2) * EPow P2 (EVar vMsq) + #5 * (#14 - #15 * EVar vlmMsq) * EPow P2 (EVar vMst1) + #3 *
   EVar vlmMst2 * (#8 * EPow P2 (EVar vMsq) + #25 * EPow P2 (EVar vMst1)))) * EPow P4 (EVar vMst2) / EPow P4 (EVar
   vMst1)) / EPow P2 (EVar vMsq)) / EVar vMgl - EPow P2 (EVar vMuSUSY) * (#3636 - #1800 * EVar vlmMsq + #1080 * EPow
   P2 (EVar vlmMsq) - #24 * EVar vlmMst1 * (#431 - #150 * EVar vlmMsq + #90 * EPow P2 (EVar vlmMsq)) + #768 * EPow P2
   (EVar vlmMst1) + #48 * EVar vlmMst2 * (#363 + #30 * EVar vlmMsq * (- #4 + #3 * EVar vlmMst1 - #3 * EVar vlmMst2) +
   #451 * EVar vlmMst2 - EVar vlmMst1 * (#407 + #168 * EVar vlmMst2) + #45 * EPow P2 (EVar vlmMsq) + #16 * EPow P2
   (EVar vlmMst1)) + #7296 * EPow P3 (EVar vlmMst2) + (#12 * (EVar vMgl * (#335 + #654 * EVar vlmMst2 + #64 * EVar
   vlmMst1 * (#1 + EVar vlmMst2) - #30 * EVar vlmMsq * (#5 + #6 * EVar vlmMst2) + #90 * EPow P2 (EVar vlmMsq) + #272 *
   EPow P2 (EVar vlmMst2)) + #2 * EVar vDmglst2 * (- #115 + (#366 + #64 * EVar vlmMst1) * EVar vlmMst2 - #30 * EVar
   vlmMsq * (- #1 + #6 * EVar vlmMst2) + #90 * EPow P2 (EVar vlmMsq) + #336 * EPow P2 (EVar vlmMst2))) * EPow P2 (EVar
   vMst2) / EPow P2 (EVar vMst1) + #24 * EVar vDmglst2 * (#45 + #30 * EVar vlmMsq * (#1 - #6 * EVar vlmMst2) * (#1 -
   #2 * EVar vlmMst1 + #2 * EVar vlmMst2) + #90 * (#1 - #2 * EVar vlmMst1 + #2 * EVar vlmMst2) * EPow P2 (EVar vlmMsq)
   + #8 * EVar vlmMst2 * (#29 + #8 * EPow P2 (EVar vlmMst1)) + #1068 * EPow P2 (EVar vlmMst2) - #2 * EVar vlmMst1 * (-
   #83 + #430 * EVar vlmMst2 + #336 * EPow P2 (EVar vlmMst2)) + #608 * EPow P3 (EVar vlmMst2)) + EPow P2 (EVar vMst1)
   * (#80 * (EVar vlmMst1 - EVar vlmMst2) * (#8 * EVar vDmglst2 * (#14 - #15 * EVar vlmMsq + #15 * EVar vlmMst2) +
   (#43 - #30 * EVar vlmMsq + #30 * EVar vlmMst2) * EVar vMgl) / EPow P2 (EVar vMsq) + #24 * (#2 * EVar vDmglst2 *
   (#96 + EVar vlmMst2 * (#173 + #30 * EVar vlmMsq + #90 * EPow P2 (EVar vlmMsq) + #288 * EPow P2 (EVar vlmMst1)) +
   (#526 - #180 * EVar vlmMsq) * EPow P2 (EVar vlmMst2) - EVar vlmMst1 * (#13 + #30 * EVar vlmMsq * (#1 - #6 * EVar
   vlmMst2) + #526 * EVar vlmMst2 + #90 * EPow P2 (EVar vlmMsq) + #848 * EPow P2 (EVar vlmMst2)) + #560 * EPow P3
   (EVar vlmMst2)) + EVar vMgl * (#64 + #15 * EVar vlmMst2 * (#33 - #10 * EVar vlmMsq + #6 * EPow P2 (EVar vlmMsq)) +
   #288 * (#1 + EVar vlmMst2) * EPow P2 (EVar vlmMst1) + #6 * (#173 - #30 * EVar vlmMsq) * EPow P2 (EVar vlmMst2) -
   EVar vlmMst1 * (#431 + #1326 * EVar vlmMst2 - #30 * EVar vlmMsq * (#5 + #6 * EVar vlmMst2) + #90 * EPow P2 (EVar
   vlmMsq) + #848 * EPow P2 (EVar vlmMst2)) + #560 * EPow P3 (EVar vlmMst2))) / EPow P2 (EVar vMst2)) + (- #5 * ((#64
   * EVar vDmglst2 * (#14 - #15 * EVar vlmMsq + #15 * EVar vlmMst2) + #8 * (#43 - #30 * EVar vlmMsq + #30 * EVar
   vlmMst2) * EVar vMgl) * EPow P2 (EVar vMsq) + (#18 * EVar vDmglst2 * (#13 - #28 * EVar vlmMsq + #28 * EVar vlmMst2)
   + (#67 - #84 * EVar vlmMsq + #84 * EVar vlmMst2) * EVar vMgl) * EPow P2 (EVar vMst2)) / (EPow P2 (EVar vMst1) *
   EPow P4 (EVar vMsq)) - #384 * (#1 + EVar vlmMst2) * (#4 * EVar vDmglst2 * EVar vlmMst2 + EVar vMgl + EVar vlmMst2 *
   EVar vMgl) / EPow P4 (EVar vMst1)) * EPow P4 (EVar vMst2) - #40 * (#8 * EVar vDmglst2 * (#14 - #15 * EVar vlmMsq +
   #15 * EVar vlmMst2) + (#43 - #30 * EVar vlmMsq + #30 * EVar vlmMst2) * EVar vMgl) * (EPow P4 (EVar vMst2) - #2 *
   (EVar vlmMst1 - EVar vlmMst2) * (EPow P4 (EVar vMst1) + EPow P4 (EVar vMst2))) / (EPow P2 (EVar vMsq) * EPow P2
   (EVar vMst2)) + (- #5 * (#18 * EVar vDmglst2 * (#13 - #28 * EVar vlmMsq + #28 * EVar vlmMst2) + (#67 - #84 * EVar
   vlmMsq + #84 * EVar vlmMst2) * EVar vMgl) * EPow P2 (EVar vMst2) * (EPow P2 (EVar vMst2) - #2 * (EVar vlmMst1 -
   EVar vlmMst2) * (EPow P2 (EVar vMst1) + EPow P2 (EVar vMst2))) + #2 * EPow P4 (EVar vMst1) * ((#24 * EVar vDmglst2
   * (#96 + EVar vlmMst2 * (#285 + #30 * EVar vlmMsq + #90 * EPow P2 (EVar vlmMsq) + #544 * EPow P2 (EVar vlmMst1)) +
   (#590 - #180 * EVar vlmMsq) * EPow P2 (EVar vlmMst2) - EVar vlmMst1 * (#109 + #30 * EVar vlmMsq * (#1 - #6 * EVar
   vlmMst2) + #590 * EVar vlmMst2 + #90 * EPow P2 (EVar vlmMsq) + #1360 * EPow P2 (EVar vlmMst2)) + #816 * EPow P3
   (EVar vlmMst2)) + #12 * EVar vMgl * (#80 + EVar vlmMst2 * (#479 - #150 * EVar vlmMsq + #90 * EPow P2 (EVar vlmMsq))
   + #544 * (#1 + EVar vlmMst2) * EPow P2 (EVar vlmMst1) + #2 * (#631 - #90 * EVar vlmMsq) * EPow P2 (EVar vlmMst2) -
   EVar vlmMst1 * (#399 + #1806 * EVar vlmMst2 - #30 * EVar vlmMsq * (#5 + #6 * EVar vlmMst2) + #90 * EPow P2 (EVar
   vlmMsq) + #1360 * EPow P2 (EVar vlmMst2)) + #816 * EPow P3 (EVar vlmMst2))) * EPow P4 (EVar vMsq) + (EVar vlmMst1 -
   EVar vlmMst2) * (#90 * EVar vDmglst2 * (#13 - #28 * EVar vlmMsq + #28 * EVar vlmMst2) + #5 * (#67 - #84 * EVar
   vlmMsq + #84 * EVar vlmMst2) * EVar vMgl) * EPow P4 (EVar vMst2)) / EPow P4 (EVar vMst2)) / EPow P4 (EVar vMsq)) /
   EVar vMgl)) + #2592 * EVar vs2t * EPow P2 (EVar vMt) * EPow P2 (EVar vMuSUSY) * (- (EVar vs2t * (#3636 - #1800 *
   EVar vlmMsq + #1080 * EPow P2 (EVar vlmMsq) - #24 * EVar vlmMst1 * (#431 - #150 * EVar vlmMsq + #90 * EPow P2 (EVar
   vlmMsq)) + #768 * EPow P2 (EVar vlmMst1) + #48 * EVar vlmMst2 * (#363 + #30 * EVar vlmMsq * (- #4 + #3 * EVar
   vlmMst1 - #3 * EVar vlmMst2) + #451 * EVar vlmMst2 - EVar vlmMst1 * (#407 + #168 * EVar vlmMst2) + #45 * EPow P2
   (EVar vlmMsq) + #16 * EPow P2 (EVar vlmMst1)) + #7296 * EPow P3 (EVar vlmMst2) + (#12 * (EVar vMgl * (#335 + #654 *
   EVar vlmMst2 + #64 * EVar vlmMst1 * (#1 + EVar vlmMst2) - #30 * EVar vlmMsq * (#5 + #6 * EVar vlmMst2) + #90 * EPow
   P2 (EVar vlmMsq) + #272 * EPow P2 (EVar vlmMst2)) + #2 * EVar vDmglst2 * (- #115 + (#366 + #64 * EVar vlmMst1) *
   EVar vlmMst2 - #30 * EVar vlmMsq * (- #1 + #6 * EVar vlmMst2) + #90 * EPow P2 (EVar vlmMsq) + #336 * EPow P2 (EVar
   vlmMst2))) * EPow P2 (EVar vMst2) / EPow P2 (EVar vMst1) + #24 * EVar vDmglst2 * (#45 + #30 * EVar vlmMsq * (#1 -
   #6 * EVar vlmMst2) * (#1 - #2 * EVar vlmMst1 + #2 * EVar vlmMst2) + #90 * (#1 - #2 * EVar vlmMst1 + #2 * EVar
   vlmMst2) * EPow P2 (EVar vlmMsq) + #8 * EVar vlmMst2 * (#29 + #8 * EPow P2 (EVar vlmMst1)) + #1068 * EPow P2 (EVar
   vlmMst2) - #2 * EVar vlmMst1 * (- #83 + #430 * EVar vlmMst2 + #336 * EPow P2 (EVar vlmMst2)) + #608 * EPow P3 (EVar
   vlmMst2)) + EPow P2 (EVar vMst1) * (#80 * (EVar vlmMst1 - EVar vlmMst2) * (#8 * EVar vDmglst2 * (#14 - #15 * EVar
   vlmMsq + #15 * EVar vlmMst2) + (#43 - #30 * EVar vlmMsq + #30 * EVar vlmMst2) * EVar vMgl) / EPow P2 (EVar vMsq) +
   #24 * (#2 * EVar vDmglst2 * (#96 + EVar vlmMst2 * (#173 + #30 * EVar vlmMsq + #90 * EPow P2 (EVar vlmMsq) + #288 *
   EPow P2 (EVar vlmMst1)) + (#526 - #180 * EVar vlmMsq) * EPow P2 (EVar vlmMst2) - EVar vlmMst1 * (#13 + #30 * EVar
   vlmMsq * (#1 - #6 * EVar vlmMst2) + #526 * EVar vlmMst2 + #90 * EPow P2 (EVar vlmMsq) + #848 * EPow P2 (EVar
   vlmMst2)) + #560 * EPow P3 (EVar vlmMst2)) + EVar vMgl * (#64 + #15 * EVar vlmMst2 * (#33 - #10 * EVar vlmMsq + #6
   * EPow P2 (EVar vlmMsq)) + #288 * (#1 + EVar vlmMst2) * EPow P2 (EVar vlmMst1) + #6 * (#173 - #30 * EVar vlmMsq) *
   EPow P2 (EVar vlmMst2) - EVar vlmMst1 * (#431 + #1326 * EVar vlmMst2 - #30 * EVar vlmMsq * (#5 + #6 * EVar vlmMst2)
   + #90 * EPow P2 (EVar vlmMsq) + #848 * EPow P2 (EVar vlmMst2)) + #560 * EPow P3 (EVar vlmMst2))) / EPow P2 (EVar
   vMst2)) + (- #5 * ((#64 * EVar vDmglst2 * (#14 - #15 * EVar vlmMsq + #15 * EVar vlmMst2) + #8 * (#43 - #30 * EVar
   vlmMsq + #30 * EVar vlmMst2) * EVar vMgl) * EPow P2 (EVar vMsq) + (#18 * EVar vDmglst2 * (#13 - #28 * EVar vlmMsq +
   #28 * EVar vlmMst2) + (#67 - #84 * EVar vlmMsq + #84 * EVar vlmMst2) * EVar vMgl) * EPow P2 (EVar vMst2)) / (EPow
   P2 (EVar vMst1) * EPow P4 (EVar vMsq)) - #384 * (#1 + EVar vlmMst2) * (#4 * EVar vDmglst2 * EVar vlmMst2 + EVar
   vMgl + EVar vlmMst2 * EVar vMgl) / EPow P4 (EVar vMst1)) * EPow P4 (EVar vMst2) - #40 * (#8 * EVar vDmglst2 * (#14
   - #15 * EVar vlmMsq + #15 * EVar vlmMst2) + (#43 - #30 * EVar vlmMsq + #30 * EVar vlmMst2) * EVar vMgl) * (EPow P4
   (EVar vMst2) - #2 * (EVar vlmMst1 - EVar vlmMst2) * (EPow P4 (EVar vMst1) + EPow P4 (EVar vMst2))) / (EPow P2 (EVar
   vMsq) * EPow P2 (EVar vMst2)) + (- #5 * (#18 * EVar vDmglst2 * (#13 - #28 * EVar vlmMsq + #28 * EVar vlmMst2) +
   (#67 - #84 * EVar vlmMsq + #84 * EVar vlmMst2) * EVar vMgl) * EPow P2 (EVar vMst2) * (EPow P2 (EVar vMst2) - #2 *
   (EVar vlmMst1 - EVar vlmMst2) * (EPow P2 (EVar vMst1) + EPow P2 (EVar vMst2))) + #2 * EPow P4 (EVar vMst1) * ((#24
   * EVar vDmglst2 * (#96 + EVar vlmMst2 * (#285 + #30 * EVar vlmMsq + #90 * EPow P2 (EVar vlmMsq) + #544 * EPow P2
   (EVar vlmMst1)) + (#590 - #180 * EVar vlmMsq) * EPow P2 (EVar vlmMst2) - EVar vlmMst1 * (#109 + #30 * EVar vlmMsq *
   (#1 - #6 * EVar vlmMst2) + #590 * EVar vlmMst2 + #90 * EPow P2 (EVar vlmMsq) + #1360 * EPow P2 (EVar vlmMst2)) +
   #816 * EPow P3 (EVar vlmMst2)) + #12 * EVar vMgl * (#80 + EVar vlmMst2 * (#479 - #150 * EVar vlmMsq + #90 * EPow P2
   (EVar vlmMsq)) + #544 * (#1 + EVar vlmMst2) * EPow P2 (EVar vlmMst1) + #2 * (#631 - #90 * EVar vlmMsq) * EPow P2
   (EVar vlmMst2) - EVar vlmMst1 * (#399 + #1806 * EVar vlmMst2 - #30 * EVar vlmMsq * (#5 + #6 * EVar vlmMst2) + #90 *
   EPow P2 (EVar vlmMsq) + #1360 * EPow P2 (EVar vlmMst2)) + #816 * EPow P3 (EVar vlmMst2))) * EPow P4 (EVar vMsq) +
   (EVar vlmMst1 - EVar vlmMst2) * (#90 * EVar vDmglst2 * (#13 - #28 * EVar vlmMsq + #28 * EVar vlmMst2) + #5 * (#67 -
   #84 * EVar vlmMsq + #84 * EVar vlmMst2) * EVar vMgl) * EPow P4 (EVar vMst2)) / EPow P4 (EVar vMst2)) / EPow P4
   (EVar vMsq)) / EVar vMgl)) / #216 + #64 * EVar vMt * (#2 * EVar vDmglst2 * EPow P2 (EVar vMst2) * (EPow P2 (EVar
   vMst1) * EPow P2 (EVar vMst2) * (#8 + #7 * EVar vlmMst2 - #11 * EPow P2 (EVar vlmMst2) + EVar vlmMst1 * (- #3 + #5
   * EVar vlmMst2 + #6 * EPow P2 (EVar vlmMst2)) - #6 * EPow P3 (EVar vlmMst2)) + #2 * (#8 + #13 * EVar vlmMst2 - #8 *
   EPow P2 (EVar vlmMst2) + EVar vlmMst1 * (- #5 + #5 * EVar vlmMst2 + #6 * EPow P2 (EVar vlmMst2)) - #6 * EPow P3
   (EVar vlmMst2)) * EPow P4 (EVar vMst1) + (#1 - #2 * EVar vlmMst2 - #3 * EPow P2 (EVar vlmMst2)) * EPow P4 (EVar
   vMst2)) + (#1 + EVar vlmMst2) * EVar vMgl * (#2 * (#1 - #10 * EVar vlmMst2 + #4 * EVar vlmMst1 * (#2 + EVar
   vlmMst2) - #4 * EPow P2 (EVar vlmMst2)) * EPow P2 (EVar vMst2) * EPow P4 (EVar vMst1) - #2 * (#1 + #5 * EVar
   vlmMst2 - EVar vlmMst1 * (#3 + #2 * EVar vlmMst2) + #2 * EPow P2 (EVar vlmMst2)) * EPow P2 (EVar vMst1) * EPow P4
   (EVar vMst2) + (#7 - #32 * EVar vlmMst2 + #4 * EVar vlmMst1 * (#7 + #3 * EVar vlmMst2) - #12 * EPow P2 (EVar
   vlmMst2)) * EPow P6 (EVar vMst1) - #2 * (#1 + EVar vlmMst2) * EPow P6 (EVar vMst2))) / (#9 * EVar vMgl * EPow P2
   (EVar vMst1) * EPow P5 (EVar vMst2))) / EPow P2 (EVar vSbeta) + #3 * EPow P3 (EVar vs2t) * (#3072 * EVar vMt * ((#1
   + EVar vlmMst2) * EVar vMgl * (#2 * (#2 + #2 * EVar vlmMst1 - EVar vlmMst2) * EPow P2 (EVar vMst2) * EPow P4 (EVar
   vMst1) + #2 * (#1 - #3 * EVar vlmMst2 + EVar vlmMst1 * (#3 + #2 * EVar vlmMst2) - #2 * EPow P2 (EVar vlmMst2)) *
   EPow P2 (EVar vMst1) * EPow P4 (EVar vMst2) + (#1 + #2 * EVar vlmMst1 - #2 * EVar vlmMst2) * EPow P6 (EVar vMst1) -
   #2 * (#1 + EVar vlmMst2) * EPow P6 (EVar vMst2)) + EVar vDmglst2 * (#2 * (#1 - #4 * EVar vlmMst1 + #10 * EVar
   vlmMst2 + #3 * EPow P2 (EVar vlmMst2)) * EPow P2 (EVar vMst2) * EPow P4 (EVar vMst1) + #2 * EPow P2 (EVar vMst1) *
   (#6 + #11 * EVar vlmMst2 - #5 * EPow P2 (EVar vlmMst2) + EVar vlmMst1 * (- #3 + #5 * EVar vlmMst2 + #6 * EPow P2
   (EVar vlmMst2)) - #6 * EPow P3 (EVar vlmMst2)) * EPow P4 (EVar vMst2) + (#1 + #13 * EVar vlmMst2 - #2 * EVar
   vlmMst1 * (#5 + #3 * EVar vlmMst2) + #6 * EPow P2 (EVar vlmMst2)) * EPow P6 (EVar vMst1) - #2 * (- #1 + #2 * EVar
   vlmMst2 + #3 * EPow P2 (EVar vlmMst2)) * EPow P6 (EVar vMst2))) / (EVar vMst2 * EPow P2 (EVar vMst1)) + EVar vs2t *
   (#4 * EPow P2 (EVar vMst1) * EPow P2 (EVar vMst2) * (#80 * EVar vDmglst2 * (#14 - #15 * EVar vlmMsq + #15 * EVar
   vlmMst2) * EPow P2 (EVar vMst1) + #10 * (#43 - #30 * EVar vlmMsq + #30 * EVar vlmMst2) * EVar vMgl * EPow P2 (EVar
   vMst1) + #3 * EVar vMgl * EPow P2 (EVar vMsq) * (#143 + #1260 * EVar vlmMst2 * (#1 + EVar vlmMst2) + #30 * EVar
   vlmMsq * (- #1 + #2 * EVar vlmMst1 - #2 * EVar vlmMst2) * (#5 + #6 * EVar vlmMst2) + #90 * (#1 - #2 * EVar vlmMst1
   + #2 * EVar vlmMst2) * EPow P2 (EVar vlmMsq) - #448 * (#1 + EVar vlmMst2) * EPow P2 (EVar vlmMst1) + #2 * EVar
   vlmMst1 * (- #463 - #334 * EVar vlmMst2 + #176 * EPow P2 (EVar vlmMst2)) + #96 * EPow P3 (EVar vlmMst2)) + #6 *
   EVar vDmglst2 * EPow P2 (EVar vMsq) * (#13 + #30 * EVar vlmMsq * (#1 - #6 * EVar vlmMst2) * (#1 - #2 * EVar vlmMst1
   + #2 * EVar vlmMst2) + #90 * (#1 - #2 * EVar vlmMst1 + #2 * EVar vlmMst2) * EPow P2 (EVar vlmMsq) - #8 * EVar
   vlmMst2 * (#31 + #56 * EPow P2 (EVar vlmMst1)) + #748 * EPow P2 (EVar vlmMst2) + EVar vlmMst1 * (#358 - #732 * EVar
   vlmMst2 + #352 * EPow P2 (EVar vlmMst2)) + #96 * EPow P3 (EVar vlmMst2))) / EPow P2 (EVar vMsq) + #12 * (- #2 *
   EVar vDmglst2 * (- #147 + #2 * (#55 + #32 * EVar vlmMst1) * EVar vlmMst2 - #30 * EVar vlmMsq * (- #1 + #6 * EVar
   vlmMst2) + #90 * EPow P2 (EVar vlmMsq) + #144 * EPow P2 (EVar vlmMst2)) - EVar vMgl * (#207 + #430 * EVar vlmMst2 +
   #64 * EVar vlmMst1 * (#1 + EVar vlmMst2) - #30 * EVar vlmMsq * (#5 + #6 * EVar vlmMst2) + #90 * EPow P2 (EVar
   vlmMsq) + #176 * EPow P2 (EVar vlmMst2))) * EPow P4 (EVar vMst1) + (- ((#40 * (#1 - #2 * EVar vlmMst1 + #2 * EVar
   vlmMst2) * (#8 * EVar vDmglst2 * (#14 - #15 * EVar vlmMsq + #15 * EVar vlmMst2) + (#43 - #30 * EVar vlmMsq + #30 *
   EVar vlmMst2) * EVar vMgl) * EPow P2 (EVar vMsq) * EPow P2 (EVar vMst1) + (- #12 * EVar vMgl * (#399 - #80 * EVar
   vlmMst2 - #30 * EVar vlmMsq * (#1 + #2 * EVar vlmMst1 - #2 * EVar vlmMst2) * (#5 + #6 * EVar vlmMst2) + #90 * (#1 +
   #2 * EVar vlmMst1 - #2 * EVar vlmMst2) * EPow P2 (EVar vlmMsq) - #64 * (#1 + EVar vlmMst2) * EPow P2 (EVar vlmMst1)
   - #1228 * EPow P2 (EVar vlmMst2) + #2 * EVar vlmMst1 * (#495 + #878 * EVar vlmMst2 + #336 * EPow P2 (EVar vlmMst2))
   - #608 * EPow P3 (EVar vlmMst2)) + #24 * EVar vDmglst2 * (#275 - #564 * EVar vlmMst2 + #30 * EVar vlmMsq * (#1 + #2
   * EVar vlmMst1 - #2 * EVar vlmMst2) * (- #1 + #6 * EVar vlmMst2) - #90 * (#1 + #2 * EVar vlmMst1 - #2 * EVar
   vlmMst2) * EPow P2 (EVar vlmMsq) + #64 * EVar vlmMst2 * EPow P2 (EVar vlmMst1) + #332 * EPow P2 (EVar vlmMst2) - #2
   * EVar vlmMst1 * (- #83 + #494 * EVar vlmMst2 + #336 * EPow P2 (EVar vlmMst2)) + #608 * EPow P3 (EVar vlmMst2))) *
   EPow P4 (EVar vMsq) + (#90 * EVar vDmglst2 * (- #13 + #28 * EVar vlmMsq - #28 * EVar vlmMst2) + #5 * (- #67 + #84 *
   EVar vlmMsq - #84 * EVar vlmMst2) * EVar vMgl) * EPow P4 (EVar vMst1)) * EPow P4 (EVar vMst2)) + (#40 * (#1 + #2 *
   EVar vlmMst1 - #2 * EVar vlmMst2) * (#8 * EVar vDmglst2 * (- #14 + #15 * EVar vlmMsq - #15 * EVar vlmMst2) + (- #43
   + #30 * EVar vlmMsq - #30 * EVar vlmMst2) * EVar vMgl) * EPow P2 (EVar vMsq) * EPow P2 (EVar vMst1) + (- #12 * EVar
   vMgl * (#399 + #782 * EVar vlmMst2 + #64 * EVar vlmMst1 * (#1 + EVar vlmMst2) - #30 * EVar vlmMsq * (#5 + #6 * EVar
   vlmMst2) + #90 * EPow P2 (EVar vlmMsq) + #336 * EPow P2 (EVar vlmMst2)) - #24 * EVar vDmglst2 * (- #115 + (#494 +
   #64 * EVar vlmMst1) * EVar vlmMst2 - #30 * EVar vlmMsq * (- #1 + #6 * EVar vlmMst2) + #90 * EPow P2 (EVar vlmMsq) +
   #464 * EPow P2 (EVar vlmMst2))) * EPow P4 (EVar vMsq) + (#1 - #2 * EVar vlmMst1 + #2 * EVar vlmMst2) * (#90 * EVar
   vDmglst2 * (- #13 + #28 * EVar vlmMsq - #28 * EVar vlmMst2) + #5 * (- #67 + #84 * EVar vlmMsq - #84 * EVar vlmMst2)
   * EVar vMgl) * EPow P4 (EVar vMst1)) * EPow P6 (EVar vMst2) / EPow P2 (EVar vMst1)) / EPow P4 (EVar vMsq))) / EVar
   vMgl + #16 * EPow P3 (EVar vMt) * (#128 * EVar vs2t * EPow P2 (EVar vMst1) * (- (EVar vDmglst2 * EPow P2 (EVar
   vMst2) * (EPow P2 (EVar vMst1) * EPow P2 (EVar vMst2) * (EPow P2 (EVar vMst2) * (#253 + #5 * EVar vlmMst2 * (#107 -
   #6 * EVar vlmMt) - #102 * EVar vlmMt - #18 * EVar vlmMst1 * (#9 + EVar vlmMst2 - #2 * EVar vlmMt + #2 * EVar
   vlmMst2 * EVar vlmMt - #2 * EPow P2 (EVar vlmMst2)) + #12 * (#10 + #3 * EVar vlmMt) * EPow P2 (EVar vlmMst2) - #36
   * EPow P3 (EVar vlmMst2)) + #18 * EPow P2 (EVar vMuSUSY) * (#8 + #7 * EVar vlmMst2 - #11 * EPow P2 (EVar vlmMst2) +
   EVar vlmMst1 * (- #3 + #5 * EVar vlmMst2 + #6 * EPow P2 (EVar vlmMst2)) - #6 * EPow P3 (EVar vlmMst2))) + #18 *
   ((#2 * EPow P2 (EVar vMuSUSY) * (#8 + #13 * EVar vlmMst2 - #8 * EPow P2 (EVar vlmMst2) + EVar vlmMst1 * (- #5 + #5
   * EVar vlmMst2 + #6 * EPow P2 (EVar vlmMst2)) - #6 * EPow P3 (EVar vlmMst2)) + EPow P2 (EVar vMst2) * (#23 + EVar
   vlmMst2 * (#93 - #22 * EVar vlmMt) - #14 * EVar vlmMt - #4 * (- #11 + EVar vlmMt) * EPow P2 (EVar vlmMst2) - #2 *
   EVar vlmMst1 * (#25 + EVar vlmMst2 * (#17 - #2 * EVar vlmMt) - #6 * EVar vlmMt + #2 * EPow P2 (EVar vlmMst2)) + #4
   * EPow P3 (EVar vlmMst2))) * EPow P4 (EVar vMst1) + (#1 - #2 * EVar vlmMst2 - #3 * EPow P2 (EVar vlmMst2)) * (#2 *
   EPow P2 (EVar vMst2) + EPow P2 (EVar vMuSUSY)) * EPow P4 (EVar vMst2) + (#14 + EVar vlmMst2 * (#189 - #48 * EVar
   vlmMt) - #22 * EVar vlmMt + EVar vlmMst1 * (- #137 + #30 * EVar vlmMt + #9 * EVar vlmMst2 * (- #13 + #2 * EVar
   vlmMt) - #18 * EPow P2 (EVar vlmMst2)) - #9 * (- #15 + #2 * EVar vlmMt) * EPow P2 (EVar vlmMst2) + #18 * EPow P3
   (EVar vlmMst2)) * EPow P6 (EVar vMst1)))) + #9 * (#1 + EVar vlmMst2) * EVar vMgl * (- #2 * EPow P2 (EVar vMst2) *
   ((#3 + #2 * EVar vlmMst1 * (#7 + #2 * EVar vlmMst2 - #2 * EVar vlmMt) + #4 * EVar vlmMst2 * (- #4 + EVar vlmMt) +
   #2 * EVar vlmMt - #4 * EPow P2 (EVar vlmMst2)) * EPow P2 (EVar vMst2) + (#1 - #10 * EVar vlmMst2 + #4 * EVar
   vlmMst1 * (#2 + EVar vlmMst2) - #4 * EPow P2 (EVar vlmMst2)) * EPow P2 (EVar vMuSUSY)) * EPow P4 (EVar vMst1) +
   EPow P2 (EVar vMst1) * ((#1 - #2 * EVar vlmMst1 * (#5 + #2 * EVar vlmMst2 - #2 * EVar vlmMt) - #4 * EVar vlmMst2 *
   (- #3 + EVar vlmMt) - #6 * EVar vlmMt + #4 * EPow P2 (EVar vlmMst2)) * EPow P2 (EVar vMst2) + #2 * (#1 + #5 * EVar
   vlmMst2 - EVar vlmMst1 * (#3 + #2 * EVar vlmMst2) + #2 * EPow P2 (EVar vlmMst2)) * EPow P2 (EVar vMuSUSY)) * EPow
   P4 (EVar vMst2) - (#2 * (#8 - #27 * EVar vlmMst2 + EVar vlmMst1 * (#25 + #6 * EVar vlmMst2 - #6 * EVar vlmMt) + #2
   * EVar vlmMt + #6 * EVar vlmMst2 * EVar vlmMt - #6 * EPow P2 (EVar vlmMst2)) * EPow P2 (EVar vMst2) + (#7 - #32 *
   EVar vlmMst2 + #4 * EVar vlmMst1 * (#7 + #3 * EVar vlmMst2) - #12 * EPow P2 (EVar vlmMst2)) * EPow P2 (EVar
   vMuSUSY)) * EPow P6 (EVar vMst1) + #2 * (#1 + EVar vlmMst2) * (#2 * EPow P2 (EVar vMst2) + EPow P2 (EVar vMuSUSY))
   * EPow P6 (EVar vMst2))) + EVar vMst2 * EVar vMt * (#8 * EVar vDmglst2 * ((#9115 + #12498 * EVar vlmMst2 + #270 *
   EVar vlmMsq * (- #1 + #6 * EVar vlmMst2) - #1152 * EVar vlmMst1 * (#4 + #2 * EVar vlmMst2 - EVar vlmMt) - #96 *
   (#29 + #27 * EVar vlmMst2) * EVar vlmMt - #810 * EPow P2 (EVar vlmMsq) + #1872 * EPow P2 (EVar vlmMst2)) * EPow P4
   (EVar vMst1) * EPow P4 (EVar vMst2) - #9 * (- #243 + #2 * (#55 + #32 * EVar vlmMst1) * EVar vlmMst2 - #30 * EVar
   vlmMsq * (- #1 + #6 * EVar vlmMst2) + #90 * EPow P2 (EVar vlmMsq) + #208 * EPow P2 (EVar vlmMst2)) * EPow P2 (EVar
   vMst1) * EPow P6 (EVar vMst2) + #576 * (EPow P2 (EVar vMst2) * (#31 + EVar vlmMst2 * (#95 - #23 * EVar vlmMt) - #16
   * EVar vlmMt + (#51 - #6 * EVar vlmMt) * EPow P2 (EVar vlmMst2) - #2 * EVar vlmMst1 * (#25 + EVar vlmMst2 * (#20 -
   #3 * EVar vlmMt) - #6 * EVar vlmMt + #3 * EPow P2 (EVar vlmMst2)) + #6 * EPow P3 (EVar vlmMst2)) * EPow P6 (EVar
   vMst1) + (#42 + EVar vlmMst2 * (#242 - #62 * EVar vlmMt) - #33 * EVar vlmMt + #6 * (#29 - #4 * EVar vlmMt) * EPow
   P2 (EVar vlmMst2) - #2 * EVar vlmMst1 * (#81 + EVar vlmMst2 * (#74 - #12 * EVar vlmMt) - #18 * EVar vlmMt + #12 *
   EPow P2 (EVar vlmMst2)) + #24 * EPow P3 (EVar vlmMst2)) * EPow P8 (EVar vMst1)) + #576 * EVar vlmMst2 * (#1 + EVar
   vlmMst2) * EPow P8 (EVar vMst2)) + EPow P2 (EVar vMst1) * (EPow P2 (EVar vMst1) + EPow P2 (EVar vMst2)) * (#120 *
   (#8 * EVar vDmglst2 * (#14 - #15 * EVar vlmMsq + #15 * EVar vlmMst2) + (#43 - #30 * EVar vlmMsq + #30 * EVar
   vlmMst2) * EVar vMgl) * EPow P2 (EVar vMsq) * EPow P6 (EVar vMst2) + (#270 * EVar vDmglst2 * (#13 - #28 * EVar
   vlmMsq + #28 * EVar vlmMst2) + #15 * (#67 - #84 * EVar vlmMsq + #84 * EVar vlmMst2) * EVar vMgl) * EPow P8 (EVar
   vMst2)) / EPow P4 (EVar vMsq) + #4 * EVar vMgl * (- ((#3559 + #10942 * EVar vlmMst2 - #270 * EVar vlmMsq * (#5 + #6
   * EVar vlmMst2) - #1152 * EVar vlmMst1 * (#1 + EVar vlmMst2) * (#3 + EVar vlmMst2 - EVar vlmMt) + #810 * EPow P2
   (EVar vlmMsq) + #8112 * EPow P2 (EVar vlmMst2) - #192 * EVar vlmMt * (#7 + #13 * EVar vlmMst2 + #6 * EPow P2 (EVar
   vlmMst2)) + #1152 * EPow P3 (EVar vlmMst2)) * EPow P4 (EVar vMst1) * EPow P4 (EVar vMst2)) + #576 * (#1 + EVar
   vlmMst2) * ((#5 - #57 * EVar vlmMst2 + #2 * EVar vlmMst1 * (#25 + #6 * EVar vlmMst2 - #6 * EVar vlmMt) + #7 * EVar
   vlmMt + #12 * EVar vlmMst2 * EVar vlmMt - #12 * EPow P2 (EVar vlmMst2)) * EPow P2 (EVar vMst1) + (- #2 - #27 * EVar
   vlmMst2 + EVar vlmMst1 * (#22 + #6 * EVar vlmMst2 - #6 * EVar vlmMt) + #5 * EVar vlmMt + #6 * EVar vlmMst2 * EVar
   vlmMt - #6 * EPow P2 (EVar vlmMst2)) * EPow P2 (EVar vMst2)) * EPow P6 (EVar vMst1) - #9 * (#271 + #526 * EVar
   vlmMst2 + #64 * EVar vlmMst1 * (#1 + EVar vlmMst2) - #30 * EVar vlmMsq * (#5 + #6 * EVar vlmMst2) + #90 * EPow P2
   (EVar vlmMsq) + #208 * EPow P2 (EVar vlmMst2)) * EPow P2 (EVar vMst1) * EPow P6 (EVar vMst2) + #288 * EPow P2 (#1 +
   EVar vlmMst2) * EPow P8 (EVar vMst2)))) / (EVar vMgl * EPow P4 (EVar vMst1) * EPow P5 (EVar vMst2)) + #4 * EVar vMt
   * EVar vMuSUSY * (#1024 * EPow P2 (EVar vMst1) * EPow P3 (EVar vMt) * (EVar vDmglst2 * EPow P2 (EVar vMst2) * (EPow
   P2 (EVar vMst1) * EPow P2 (EVar vMst2) * (#119 + EVar vlmMst2 * (#224 - #15 * EVar vlmMt) - #51 * EVar vlmMt + #3 *
   (#5 + #6 * EVar vlmMt) * EPow P2 (EVar vlmMst2) + #18 * EVar vlmMst1 * (- #4 + EVar vlmMt - EVar vlmMst2 * (#1 +
   EVar vlmMt) + EPow P2 (EVar vlmMst2)) - #18 * EPow P3 (EVar vlmMst2)) + (#263 + EVar vlmMst2 * (#962 - #213 * EVar
   vlmMt) - #177 * EVar vlmMt + (#393 - #18 * EVar vlmMt) * EPow P2 (EVar vlmMst2) - #18 * EVar vlmMst1 * (#26 - EVar
   vlmMst2 * (- #17 + EVar vlmMt) - #7 * EVar vlmMt + EPow P2 (EVar vlmMst2)) + #18 * EPow P3 (EVar vlmMst2)) * EPow
   P4 (EVar vMst1) - #18 * (- #1 + #2 * EVar vlmMst2 + #3 * EPow P2 (EVar vlmMst2)) * EPow P4 (EVar vMst2)) + #9 * (#1
   + EVar vlmMst2) * EVar vMgl * ((#3 - #21 * EVar vlmMst2 + #2 * EVar vlmMst1 * (#8 + #3 * EVar vlmMst2 - #3 * EVar
   vlmMt) + #5 * EVar vlmMt + #6 * EVar vlmMst2 * EVar vlmMt - #6 * EPow P2 (EVar vlmMst2)) * EPow P2 (EVar vMst2) *
   EPow P4 (EVar vMst1) + (- #1 - #7 * EVar vlmMst2 + #2 * EVar vlmMst1 * (#2 + EVar vlmMst2 - EVar vlmMt) + #3 * EVar
   vlmMt + #2 * EVar vlmMst2 * EVar vlmMt - #2 * EPow P2 (EVar vlmMst2)) * EPow P2 (EVar vMst1) * EPow P4 (EVar vMst2)
   + (#12 - #45 * EVar vlmMst2 + #2 * EVar vlmMst1 * (#19 + #6 * EVar vlmMst2 - #6 * EVar vlmMt) + #7 * EVar vlmMt +
   #12 * EVar vlmMst2 * EVar vlmMt - #12 * EPow P2 (EVar vlmMst2)) * EPow P6 (EVar vMst1) - #2 * (#1 + EVar vlmMst2) *
   EPow P6 (EVar vMst2))) - #6912 * EVar vMt * EPow P2 (EVar vMst1) * EPow P2 (EVar vMst2) * EPow P2 (EVar vs2t) *
   ((#1 + EVar vlmMst2) * EVar vMgl * (#2 * (#2 - #5 * EVar vlmMst2 + EVar vlmMst1 * (#5 + #2 * EVar vlmMst2) - #2 *
   EPow P2 (EVar vlmMst2)) * EPow P2 (EVar vMst2) * EPow P4 (EVar vMst1) + #2 * (- #2 * EVar vlmMst2 * (#2 + EVar
   vlmMst2) + EVar vlmMst1 * (#3 + #2 * EVar vlmMst2)) * EPow P2 (EVar vMst1) * EPow P4 (EVar vMst2) + (#5 - #12 *
   EVar vlmMst2 + #4 * EVar vlmMst1 * (#3 + EVar vlmMst2) - #4 * EPow P2 (EVar vlmMst2)) * EPow P6 (EVar vMst1) - #2 *
   (#1 + EVar vlmMst2) * EPow P6 (EVar vMst2)) + EVar vDmglst2 * (#2 * EPow P2 (EVar vMst2) * (#8 + #19 * EVar vlmMst2
   - #5 * EPow P2 (EVar vlmMst2) + EVar vlmMst1 * (- #7 + #5 * EVar vlmMst2 + #6 * EPow P2 (EVar vlmMst2)) - #6 * EPow
   P3 (EVar vlmMst2)) * EPow P4 (EVar vMst1) + #2 * EPow P2 (EVar vMst1) * (#7 + #9 * EVar vlmMst2 - #8 * EPow P2
   (EVar vlmMst2) + EVar vlmMst1 * (- #3 + #5 * EVar vlmMst2 + #6 * EPow P2 (EVar vlmMst2)) - #6 * EPow P3 (EVar
   vlmMst2)) * EPow P4 (EVar vMst2) + (#17 + #51 * EVar vlmMst2 - #4 * EPow P2 (EVar vlmMst2) + #4 * EVar vlmMst1 * (-
   #6 + EVar vlmMst2 + #3 * EPow P2 (EVar vlmMst2)) - #12 * EPow P3 (EVar vlmMst2)) * EPow P6 (EVar vMst1) - #2 * (-
   #1 + #2 * EVar vlmMst2 + #3 * EPow P2 (EVar vlmMst2)) * EPow P6 (EVar vMst2))) - #12 * EVar vMst2 * EVar vs2t *
   EPow P2 (EVar vMt) * (EPow P2 (EVar vMst1) * (EPow P2 (EVar vMst1) - EPow P2 (EVar vMst2)) * (#40 * (#8 * EVar
   vDmglst2 * (#14 - #15 * EVar vlmMsq + #15 * EVar vlmMst2) + (#43 - #30 * EVar vlmMsq + #30 * EVar vlmMst2) * EVar
   vMgl) * EPow P2 (EVar vMsq) * EPow P6 (EVar vMst2) + (#90 * EVar vDmglst2 * (#13 - #28 * EVar vlmMsq + #28 * EVar
   vlmMst2) + #5 * (#67 - #84 * EVar vlmMsq + #84 * EVar vlmMst2) * EVar vMgl) * EPow P8 (EVar vMst2)) + EPow P4 (EVar
   vMsq) * (- #8 * EVar vDmglst2 * (- ((#121 - #650 * EVar vlmMst2 + #90 * EVar vlmMsq * (- #1 + #6 * EVar vlmMst2) -
   #270 * EPow P2 (EVar vlmMsq) + #192 * EVar vlmMst2 * EPow P2 (EVar vlmMst1) - #432 * EPow P2 (EVar vlmMst2) - #192
   * EVar vlmMst1 * (- #1 + EVar vlmMst2 + #2 * EPow P2 (EVar vlmMst2)) + #192 * EPow P3 (EVar vlmMst2)) * EPow P4
   (EVar vMst1) * EPow P4 (EVar vMst2)) - #192 * (EVar vlmMst2 * EPow P2 (EVar vlmMst1) + EVar vlmMst1 * (#4 + #2 *
   EVar vlmMst2 - #2 * EPow P2 (EVar vlmMst2)) + (- #4 + EVar vlmMst2) * EPow P2 (#1 + EVar vlmMst2)) * EPow P2 (EVar
   vMst2) * EPow P6 (EVar vMst1) - #3 * (- #179 + #2 * (#87 + #32 * EVar vlmMst1) * EVar vlmMst2 - #30 * EVar vlmMsq *
   (- #1 + #6 * EVar vlmMst2) + #90 * EPow P2 (EVar vlmMsq) + #208 * EPow P2 (EVar vlmMst2)) * EPow P2 (EVar vMst1) *
   EPow P6 (EVar vMst2) - #192 * (- #6 - #14 * EVar vlmMst2 + EVar vlmMst2 * EPow P2 (EVar vlmMst1) + EVar vlmMst1 *
   (#9 + #6 * EVar vlmMst2 - #2 * EPow P2 (EVar vlmMst2)) - #6 * EPow P2 (EVar vlmMst2) + EPow P3 (EVar vlmMst2)) *
   EPow P8 (EVar vMst1) + #192 * EVar vlmMst2 * (#1 + EVar vlmMst2) * EPow P8 (EVar vMst2)) + #12 * EVar vMgl * (-
   ((#143 + #302 * EVar vlmMst2 - #30 * EVar vlmMsq * (#5 + #6 * EVar vlmMst2) + #90 * EPow P2 (EVar vlmMsq) + #48 *
   EPow P2 (EVar vlmMst2) + #128 * EVar vlmMst1 * EPow P2 (#1 + EVar vlmMst2) - #64 * ((#1 + EVar vlmMst2) * EPow P2
   (EVar vlmMst1) + EPow P3 (EVar vlmMst2))) * EPow P4 (EVar vMst1) * EPow P4 (EVar vMst2)) + (#271 + #526 * EVar
   vlmMst2 + #64 * EVar vlmMst1 * (#1 + EVar vlmMst2) - #30 * EVar vlmMsq * (#5 + #6 * EVar vlmMst2) + #90 * EPow P2
   (EVar vlmMsq) + #208 * EPow P2 (EVar vlmMst2)) * EPow P2 (EVar vMst1) * EPow P6 (EVar vMst2) + #64 * (#1 + EVar
   vlmMst2) * (EPow P2 (#1 - EVar vlmMst1 + EVar vlmMst2) * EPow P2 (EVar vMst2) * EPow P6 (EVar vMst1) + (#1 + #3 *
   EVar vlmMst2 - EVar vlmMst1 * (#3 + #2 * EVar vlmMst2) + EPow P2 (EVar vlmMst1) + EPow P2 (EVar vlmMst2)) * EPow P8
   (EVar vMst1)) - #32 * EPow P2 (#1 + EVar vlmMst2) * EPow P8 (EVar vMst2)))) / EPow P4 (EVar vMsq) + #3 * EPow P3
   (EVar vMst2) * EPow P3 (EVar vs2t) * (EVar vMgl * (#40 * (#43 - #30 * EVar vlmMsq + #30 * EVar vlmMst2) * EPow P2
   (EVar vMsq) * EPow P2 (EVar vMst1) * (#2 * (EVar vlmMst1 - EVar vlmMst2) * EPow P2 (EVar vMst1) * EPow P2 (EVar
   vMst2) + EPow P4 (EVar vMst1) - EPow P4 (EVar vMst2)) * EPow P4 (EVar vMst2) + #5 * (#67 - #84 * EVar vlmMsq + #84
   * EVar vlmMst2) * (EPow P2 (EVar vMst1) + #2 * (EVar vlmMst1 - EVar vlmMst2) * EPow P2 (EVar vMst2)) * EPow P4
   (EVar vMst1) * EPow P6 (EVar vMst2) + #12 * EPow P4 (EVar vMsq) * (- #2 * (#16 - #3 * EVar vlmMst2 * (#133 - #50 *
   EVar vlmMsq + #30 * EPow P2 (EVar vlmMsq)) - #32 * (#1 + EVar vlmMst2) * EPow P2 (EVar vlmMst1) + #2 * (- #383 +
   #90 * EVar vlmMsq) * EPow P2 (EVar vlmMst2) + EVar vlmMst1 * (#463 + #846 * EVar vlmMst2 - #30 * EVar vlmMsq * (#5
   + #6 * EVar vlmMst2) + #90 * EPow P2 (EVar vlmMsq) + #336 * EPow P2 (EVar vlmMst2)) - #304 * EPow P3 (EVar
   vlmMst2)) * EPow P4 (EVar vMst1) * EPow P4 (EVar vMst2) - EPow P2 (EVar vMst2) * (#175 + #462 * EVar vlmMst2 +
   #1024 * EVar vlmMst1 * EVar vlmMst2 * (#1 + EVar vlmMst2) - #30 * EVar vlmMsq * (#5 + #6 * EVar vlmMst2) + #90 *
   EPow P2 (EVar vlmMsq) - #272 * EPow P2 (EVar vlmMst2) - #512 * ((#1 + EVar vlmMst2) * EPow P2 (EVar vlmMst1) + EPow
   P3 (EVar vlmMst2))) * EPow P6 (EVar vMst1) + (#367 + #718 * EVar vlmMst2 + #64 * EVar vlmMst1 * (#1 + EVar vlmMst2)
   - #30 * EVar vlmMsq * (#5 + #6 * EVar vlmMst2) + #90 * EPow P2 (EVar vlmMsq) + #304 * EPow P2 (EVar vlmMst2)) *
   EPow P2 (EVar vMst1) * EPow P6 (EVar vMst2) + #32 * (#1 + EVar vlmMst2) * (#1 + EVar vlmMst1 * (#2 - #32 * EVar
   vlmMst2) - #2 * EVar vlmMst2 + #16 * EPow P2 (EVar vlmMst1) + #16 * EPow P2 (EVar vlmMst2)) * EPow P8 (EVar vMst1)
   - #32 * EPow P2 (#1 + EVar vlmMst2) * EPow P8 (EVar vMst2))) + #2 * EVar vDmglst2 * (#384 * EVar vlmMst2 * EPow P4
   (EVar vMsq) * EPow P4 (EVar vMst1) * (#2 * EPow P2 (EVar vlmMst1) * (#8 * EPow P2 (EVar vMst1) * EPow P2 (EVar
   vMst2) + #8 * EPow P4 (EVar vMst1) + EPow P4 (EVar vMst2)) + EPow P2 (EVar vlmMst2) * (#16 * EPow P2 (EVar vMst1) *
   (EPow P2 (EVar vMst1) + EPow P2 (EVar vMst2)) + #19 * EPow P4 (EVar vMst2))) + EPow P2 (EVar vMst1) * EPow P2 (EVar
   vMst2) * (#45 * (#13 - #28 * EVar vlmMsq) * EPow P4 (EVar vMst1) * EPow P4 (EVar vMst2) + #160 * (- #14 + #15 *
   EVar vlmMsq) * EPow P2 (EVar vMsq) * EPow P2 (EVar vMst2) * (- EPow P4 (EVar vMst1) + EPow P4 (EVar vMst2)) + #12 *
   EPow P4 (EVar vMsq) * (#160 * EPow P2 (EVar vMst1) * EPow P2 (EVar vMst2) - #3 * (- #49 + #10 * EVar vlmMsq + #30 *
   EPow P2 (EVar vlmMsq)) * EPow P4 (EVar vMst1) + #5 * (- #23 + #6 * EVar vlmMsq + #18 * EPow P2 (EVar vlmMsq)) *
   EPow P4 (EVar vMst2))) - #24 * EPow P2 (EVar vlmMst2) * (#200 * EPow P2 (EVar vMsq) * EPow P4 (EVar vMst1) * EPow
   P6 (EVar vMst2) + #105 * EPow P4 (EVar vMst1) * EPow P8 (EVar vMst2) + EPow P4 (EVar vMsq) * (#6 * (- #61 + #30 *
   EVar vlmMsq) * EPow P4 (EVar vMst1) * EPow P4 (EVar vMst2) + #8 * EPow P2 (EVar vMst2) * EPow P6 (EVar vMst1) -
   #200 * EPow P2 (EVar vMst1) * EPow P6 (EVar vMst2) - #64 * EPow P8 (EVar vMst1) + #32 * EPow P8 (EVar vMst2))) + #2
   * EVar vlmMst1 * (- #12 * EPow P4 (EVar vMsq) * ((- #83 + #462 * EVar vlmMst2 - #30 * EVar vlmMsq * (- #1 + #6 *
   EVar vlmMst2) + #90 * EPow P2 (EVar vlmMsq) + #336 * EPow P2 (EVar vlmMst2)) * EPow P4 (EVar vMst1) * EPow P4 (EVar
   vMst2) + #32 * (#3 + #3 * EVar vlmMst2 + #16 * EPow P2 (EVar vlmMst2)) * EPow P2 (EVar vMst2) * EPow P6 (EVar
   vMst1) - #32 * EVar vlmMst2 * EPow P2 (EVar vMst1) * EPow P6 (EVar vMst2) + #32 * (#3 + #2 * EVar vlmMst2 + #16 *
   EPow P2 (EVar vlmMst2)) * EPow P8 (EVar vMst1)) + EPow P4 (EVar vMst1) * (#160 * (#14 - #15 * EVar vlmMsq + #15 *
   EVar vlmMst2) * EPow P2 (EVar vMsq) * EPow P6 (EVar vMst2) + #45 * (#13 - #28 * EVar vlmMsq + #28 * EVar vlmMst2) *
   EPow P8 (EVar vMst2))) + #2 * EVar vlmMst2 * (#630 * EPow P6 (EVar vMst1) * EPow P6 (EVar vMst2) + #12 * EPow P4
   (EVar vMsq) * ((- #67 + #30 * EVar vlmMsq + #90 * EPow P2 (EVar vlmMsq)) * EPow P4 (EVar vMst1) * EPow P4 (EVar
   vMst2) + #3 * (#19 + #30 * EVar vlmMsq) * EPow P2 (EVar vMst2) * EPow P6 (EVar vMst1) + #5 * (#43 - #18 * EVar
   vlmMsq) * EPow P2 (EVar vMst1) * EPow P6 (EVar vMst2) + #112 * EPow P8 (EVar vMst1) - #32 * EPow P8 (EVar vMst2)) +
   #45 * (- #13 + #28 * EVar vlmMsq) * EPow P4 (EVar vMst1) * EPow P8 (EVar vMst2) + #80 * EPow P2 (EVar vMsq) * (#15
   * EPow P4 (EVar vMst2) * EPow P6 (EVar vMst1) + #2 * (- #14 + #15 * EVar vlmMsq) * EPow P4 (EVar vMst1) * EPow P6
   (EVar vMst2) - #15 * EPow P2 (EVar vMst1) * EPow P8 (EVar vMst2))))) / EPow P4 (EVar vMsq)) / (EVar vMgl * EVar
   vTbeta * EPow P4 (EVar vMst1) * EPow P5 (EVar vMst2))) / #2592 + EVar vAl4p * (- ((#2 * EVar vDmglst2 * EVar
   vlmMst2 + EVar vMgl + EVar vlmMst2 * EVar vMgl) * EVar vtwoLoopFlag * (- (EPow P2 (EVar vMst2) * EPow P2 (EVar
   vs2t) * EPow P4 (EVar vMst1) * (- #8 * (EVar vlmMst1 - EVar vlmMst2) * EVar vTbeta * EPow P2 (EVar vMt) * EPow P2
   (EVar vMuSUSY) * (- #1 + EPow P2 (EVar vSbeta)) + #4 * EVar vMt * (- (EVar vMuSUSY * EVar vs2t) + #2 * EVar vMt *
   EVar vTbeta) * EPow P2 (EVar vMst2) * EPow P2 (EVar vSbeta) + (#1 - #2 * EVar vlmMst1 + #2 * EVar vlmMst2) * EVar
   vTbeta * EPow P2 (EVar vs2t) * EPow P2 (EVar vSbeta) * EPow P4 (EVar vMst2))) - EPow P2 (EVar vMst1) * EPow P4
   (EVar vMst2) * (- #4 * EVar vTbeta * EPow P2 (EVar vMt) * EPow P2 (EVar vs2t) * ((- #1 + #2 * EVar vlmMst1 - #2 *
   EVar vlmMst2) * EPow P2 (EVar vMuSUSY) * (- #1 + EPow P2 (EVar vSbeta)) + #4 * EPow P2 (EVar vMst2) * EPow P2 (EVar
   vSbeta)) + EPow P2 (EVar vSbeta) * (#16 * EVar vMuSUSY * EVar vs2t * EPow P3 (EVar vMt) + #8 * (- EVar vlmMst1 +
   EVar vlmMst2) * EVar vMt * EVar vMuSUSY * EPow P2 (EVar vMst2) * EPow P3 (EVar vs2t) - #16 * EVar vTbeta * EPow P4
   (EVar vMt) + (#1 + #2 * EVar vlmMst1 - #2 * EVar vlmMst2) * EVar vTbeta * EPow P4 (EVar vMst2) * EPow P4 (EVar
   vs2t))) + EVar vTbeta * EPow P2 (EVar vs2t) * (#8 * (EVar vlmMst1 - EVar vlmMst2) * EPow P2 (EVar vMt) * EPow P2
   (EVar vMuSUSY) * (- #1 + EPow P2 (EVar vSbeta)) + EPow P2 (EVar vs2t) * EPow P2 (EVar vSbeta) * EPow P4 (EVar
   vMst2)) * EPow P6 (EVar vMst1) + (- #4 * EVar vTbeta * EPow P2 (EVar vMt) * EPow P2 (EVar vs2t) * (EPow P2 (EVar
   vMuSUSY) * (- #1 + EPow P2 (EVar vSbeta)) + #2 * EPow P2 (EVar vMst2) * EPow P2 (EVar vSbeta)) + EPow P2 (EVar
   vSbeta) * (#16 * EVar vMuSUSY * EVar vs2t * EPow P3 (EVar vMt) - #4 * EVar vMt * EVar vMuSUSY * EPow P2 (EVar
   vMst2) * EPow P3 (EVar vs2t) + #16 * EVar vTbeta * EPow P4 (EVar vMt) + EVar vTbeta * EPow P4 (EVar vMst2) * EPow
   P4 (EVar vs2t))) * EPow P6 (EVar vMst2))) / (#6 * EVar vMgl * EVar vTbeta * EPow P2 (EVar vMst1) * EPow P2 (EVar
   vSbeta) * EPow P4 (EVar vMst2)) + EVar vxDmglst2 * EPow P2 (EVar vDmglst2) * ((#2 - #3 * EVar vlmMst2) * EVar
   vtwoLoopFlag * (#4 * EVar vMt * EVar vMuSUSY * EVar vs2t * ((- #4 * EPow P2 (EVar vMst1) * EPow P2 (EVar vMt) + #4
   * EPow P2 (EVar vMst2) * EPow P2 (EVar vMt) + #2 * (EVar vlmMst1 - EVar vlmMst2) * EPow P2 (EVar vMst1) * EPow P2
   (EVar vMst2) * EPow P2 (EVar vs2t) + EPow P2 (EVar vs2t) * (EPow P4 (EVar vMst1) - EPow P4 (EVar vMst2))) / EVar
   vTbeta + EVar vMt * EVar vMuSUSY * EVar vs2t * ((EPow P2 (EVar vMst1) + EPow P2 (EVar vMst2)) * EPow P4 (EVar
   vMst2) - #2 * (EVar vlmMst1 - EVar vlmMst2) * EPow P2 (EVar vMst1) * (EPow P2 (EVar vMst1) * EPow P2 (EVar vMst2) +
   EPow P4 (EVar vMst1) + EPow P4 (EVar vMst2))) / (EPow P2 (EVar vSbeta) * EPow P4 (EVar vMst2))) + #16 * (EPow P2
   (EVar vMst1) + EPow P2 (EVar vMst2)) * EPow P4 (EVar vMt) + (EPow P2 (EVar vMst1) - EPow P2 (EVar vMst2)) * (#2 *
   (EVar vlmMst1 - EVar vlmMst2) * EPow P2 (EVar vMst1) * EPow P2 (EVar vMst2) + EPow P4 (EVar vMst1) - EPow P4 (EVar
   vMst2)) * EPow P4 (EVar vs2t) - #4 * EPow P2 (EVar vMt) * EPow P2 (EVar vs2t) * (#2 * EPow P4 (EVar vMst1) * ((-
   EVar vlmMst1 + EVar vlmMst2) * EPow P2 (EVar vMst2) * EPow P2 (EVar vMuSUSY) + EPow P4 (EVar vMst2)) + #2 * (- EVar
   vlmMst1 + EVar vlmMst2) * EPow P2 (EVar vMuSUSY) * EPow P6 (EVar vMst1) + EPow P2 (EVar vMst1) * ((#1 - #2 * EVar
   vlmMst1 + #2 * EVar vlmMst2) * EPow P2 (EVar vMuSUSY) * EPow P4 (EVar vMst2) - #4 * EPow P6 (EVar vMst2)) + (#2 *
   EPow P2 (EVar vMst2) + EPow P2 (EVar vMuSUSY)) * EPow P6 (EVar vMst2)) / EPow P4 (EVar vMst2)) / (#6 * EPow P2
   (EVar vMst1)) + EVar vAl4p * EVar vthreeLoopFlag * (EVar vMt * EPow P3 (EVar vs2t) * (#25920 * (- #71 + #6 * EVar
   vlmMst1 * (- #1 + EVar vlmMst2) + EVar vlmMst2 + #30 * EPow P2 (EVar vlmMst2)) * EPow P2 (EVar vMst2) * EPow P4
   (EVar vMst1) + #25920 * EPow P2 (EVar vMst1) * (#5 + #167 * EVar vlmMst2 + #18 * EPow P2 (EVar vlmMst2) + #6 * EVar
   vlmMst1 * (- #10 - #3 * EVar vlmMst2 + #12 * EPow P2 (EVar vlmMst2)) - #72 * EPow P3 (EVar vlmMst2)) * EPow P4
   (EVar vMst2) + #48600 * EPow P2 (EVar vMst2) * EPow P6 (EVar vMst1) / EPow P2 (EVar vMsq) - (- #26558551 + #291600
   * EVar vlmMsq * (- #5 + #3 * EVar vlmMst1 - #3 * EVar vlmMst2) - #5328630 * EVar vlmMst2 + #2529760 * EConst COepS2
   - #66700746 * EConst CS2 + #51227640 * EVar vlmMst2 * EConst CS2 - #19440 * (- #61 + #24 * EVar vlmMst2) * EPow P2
   (EVar vlmMst1) + #1652400 * EPow P2 (EVar vlmMst2) + #90 * EVar vlmMst1 * (#79943 - #31536 * EVar vlmMst2 - #569196
   * EConst CS2 + #5184 * EPow P2 (EVar vlmMst2)) + #155520 * EPow P3 (EVar vlmMst1) - #155520 * EPow P3 (EVar
   vlmMst2)) * EPow P6 (EVar vMst1) + #12150 * EPow P4 (EVar vMst2) * EPow P6 (EVar vMst1) / EPow P4 (EVar vMsq) -
   #311040 * (- #2 - EVar vlmMst2 + #3 * EPow P2 (EVar vlmMst2)) * EPow P6 (EVar vMst2)) / (#21870 * EVar vMst2 * EPow
   P2 (EVar vMst1)) - EPow P4 (EVar vs2t) * (- ((#615080 * EConst COepS2 - #27 * (#669989 + #461310 * EVar vlmMst1 -
   #461310 * EVar vlmMst2) * EConst CS2) * EPow P4 (EVar vMst1)) / #43740 + (EDec 1467968136853605 13 - #80299571 *
   EVar vlmMst2 / #2381400 - #5 * EVar vlmMsq * (#78 * EVar vlmMst1 - #7 * (#5 + #6 * EVar vlmMst2)) / #36 + #5 * EPow
   P2 (EVar vlmMsq) / #2 + (EDec 14137566137566138 16 + #143 * EVar vlmMst2 / #18) * EPow P2 (EVar vlmMst1) + EVar
   vlmMst1 * (EDec 27663925002099607 15 + #13708 * EVar vlmMst2 / #945 - #143 * EPow P2 (EVar vlmMst2) / #18) - #9584
   * EPow P2 (EVar vlmMst2) / #945 - #143 * EPow P3 (EVar vlmMst1) / #54 + #143 * EPow P3 (EVar vlmMst2) / #54) * EPow
   P4 (EVar vMst1) - EPow P2 (EVar vMst2) * (EPow P2 (EVar vMsq) * EPow P2 (EVar vMst1) * (#5 - #4312 * EVar vlmMst2 +
   #270 * EVar vlmMsq * (#5 - #6 * EVar vlmMst2) * (#1 - #2 * EVar vlmMst1 + #2 * EVar vlmMst2) + #810 * (#1 - #2 *
   EVar vlmMst1 + #2 * EVar vlmMst2) * EPow P2 (EVar vlmMsq) + #1344 * (#2 - #3 * EVar vlmMst2) * EPow P2 (EVar
   vlmMst1) + #4428 * EPow P2 (EVar vlmMst2) + #6 * EVar vlmMst1 * (#1001 - #1418 * EVar vlmMst2 + #528 * EPow P2
   (EVar vlmMst2)) + #864 * EPow P3 (EVar vlmMst2)) + #5 * (#91 - #12 * EVar vlmMsq * (#26 + #3 * EVar vlmMst1 - #3 *
   EVar vlmMst2) + #360 * EVar vlmMst2 + #12 * EVar vlmMst1 * (- #4 + #3 * EVar vlmMst2) - #36 * EPow P2 (EVar
   vlmMst2)) * EPow P4 (EVar vMst1)) / (#216 * EPow P2 (EVar vMsq)) - (#400 * (- #8 + #15 * EVar vlmMsq - #15 * EVar
   vlmMst2) * (#1 - #2 * EVar vlmMst1 + #2 * EVar vlmMst2) * EPow P2 (EVar vMsq) * EPow P2 (EVar vMst1) + #2 * (-
   #3739 + #7028 * EVar vlmMst2 - #270 * EVar vlmMsq * (#1 + #2 * EVar vlmMst1 - #2 * EVar vlmMst2) * (- #5 + #6 *
   EVar vlmMst2) + #810 * (#1 + #2 * EVar vlmMst1 - #2 * EVar vlmMst2) * EPow P2 (EVar vlmMsq) - #192 * (- #2 + #3 *
   EVar vlmMst2) * EPow P2 (EVar vlmMst1) + #3924 * EPow P2 (EVar vlmMst2) + #6 * EVar vlmMst1 * (- #1289 + #650 *
   EVar vlmMst2 + #1008 * EPow P2 (EVar vlmMst2)) - #5472 * EPow P3 (EVar vlmMst2)) * EPow P4 (EVar vMsq) - #5 * (-
   #244 + EVar vlmMst1 * (#87 - #180 * EVar vlmMst2) + #36 * EVar vlmMsq * (#17 + #5 * EVar vlmMst1 - #5 * EVar
   vlmMst2) - #699 * EVar vlmMst2 + #180 * EPow P2 (EVar vlmMst2)) * EPow P4 (EVar vMst1)) * EPow P4 (EVar vMst2) /
   (#432 * EPow P4 (EVar vMsq)) + (#200 * (#1 + #2 * EVar vlmMst1 - #2 * EVar vlmMst2) * (#8 - #15 * EVar vlmMsq + #15
   * EVar vlmMst2) / EPow P2 (EVar vMsq) + #3 * (- #1321 + #394 * EVar vlmMst2 + #64 * EVar vlmMst1 * (- #2 + #3 *
   EVar vlmMst2) - #90 * EVar vlmMsq * (- #5 + #6 * EVar vlmMst2) + #270 * EPow P2 (EVar vlmMsq) + #1904 * EPow P2
   (EVar vlmMst2)) / EPow P2 (EVar vMst1)) * EPow P6 (EVar vMst2) / #216 + (#8 * (#2 + EVar vlmMst2 - #3 * EPow P2
   (EVar vlmMst2)) * EPow P2 (EVar vMsq) + #5 * (- #4 + #15 * EVar vlmMsq - #15 * EVar vlmMst2) * EPow P2 (EVar
   vMst1)) * EPow P8 (EVar vMst2) / (#9 * EPow P2 (EVar vMsq) * EPow P4 (EVar vMst1)) + #5 * (#7 * (#1 - #2 * EVar
   vlmMst1 + #2 * EVar vlmMst2) * (#5 - #28 * EVar vlmMsq + #28 * EVar vlmMst2) * EPow P2 (EVar vMst1) * EPow P6 (EVar
   vMst2) + (#1 + #2 * EVar vlmMst1 - #2 * EVar vlmMst2) * (#9 - #140 * EVar vlmMsq + #140 * EVar vlmMst2) * EPow P8
   (EVar vMst2)) / (#96 * EPow P4 (EVar vMsq))) + EPow P3 (EVar vMt) * (- #20 * EVar vMst2 * EVar vs2t * EPow P2 (EVar
   vMst1) * (#14175 * (- #5 * (#688 + #27 * EVar vlmMst1 + #36 * EVar vlmMsq * (- #2 + #5 * EVar vlmMst1 - #5 * EVar
   vlmMst2) + #45 * EVar vlmMst2 - #180 * EVar vlmMst1 * EVar vlmMst2 + #180 * EPow P2 (EVar vlmMst2)) * EPow P2 (EVar
   vMst2) * EPow P2 (EVar vMuSUSY) - #8 * EPow P2 (EVar vMsq) * (#3 * (- #19 + #2 * EVar vlmMst1 - #4 * EVar vlmMst2 +
   #2 * EVar vlmMt) * EPow P2 (EVar vMst2) + (#727 + #30 * EVar vlmMst1 + #18 * EVar vlmMsq * (- #2 + #5 * EVar
   vlmMst1 - #5 * EVar vlmMst2) + #6 * EVar vlmMst2 - #90 * EVar vlmMst1 * EVar vlmMst2 + #90 * EPow P2 (EVar
   vlmMst2)) * EPow P2 (EVar vMuSUSY)) - #6 * (#5 + #2 * EVar vlmMst1 - #4 * EVar vlmMst2 + #2 * EVar vlmMt) * EPow P4
   (EVar vMst2)) * EPow P6 (EVar vMst1) + EPow P4 (EVar vMsq) * (- #30240 * EPow P2 (EVar vMst1) * EPow P2 (EVar
   vMst2) * (EPow P2 (EVar vMst2) * (#300 + #72 * EVar vlmMt + EVar vlmMst2 * (- #341 + #78 * EVar vlmMt) + #18 * EVar
   vlmMst1 * (#8 - #4 * EVar vlmMt + EVar vlmMst2 * (#5 + #2 * EVar vlmMt) - #2 * EPow P2 (EVar vlmMst2)) - #12 * (#26
   + #3 * EVar vlmMt) * EPow P2 (EVar vlmMst2) + #36 * EPow P3 (EVar vlmMst2)) + #3 * EPow P2 (EVar vMuSUSY) * (- #53
   - #191 * EVar vlmMst2 + EVar vlmMst1 * (#60 + #18 * EVar vlmMst2 - #72 * EPow P2 (EVar vlmMst2)) + #54 * EPow P2
   (EVar vlmMst2) + #72 * EPow P3 (EVar vlmMst2))) - #90720 * (#6 * (#93 + #88 * EVar vlmMst2 - #22 * EVar vlmMt - #8
   * EVar vlmMst2 * EVar vlmMt + EVar vlmMst1 * (- #34 - #8 * EVar vlmMst2 + #4 * EVar vlmMt) + #12 * EPow P2 (EVar
   vlmMst2)) * EPow P2 (EVar vMst2) + EPow P2 (EVar vMuSUSY) * (- #11 - #371 * EVar vlmMst2 + #42 * EPow P2 (EVar
   vlmMst2) - #6 * EVar vlmMst1 * (- #21 - #5 * EVar vlmMst2 + #24 * EPow P2 (EVar vlmMst2)) + #144 * EPow P3 (EVar
   vlmMst2))) * EPow P4 (EVar vMst1) + #1088640 * (#2 + EVar vlmMst2 - #3 * EPow P2 (EVar vlmMst2)) * (#2 * EPow P2
   (EVar vMst2) + EPow P2 (EVar vMuSUSY)) * EPow P4 (EVar vMst2) + (#377667593 - #198080820 * EVar vlmMst2 - #45543680
   * EConst COepS2 - #4968 * (- #135731 + #185640 * EVar vlmMst2) * EConst CS2 - #136080 * (#339 + #62 * EVar vlmMst2
   - #59 * EVar vlmMt) * EPow P2 (EVar vlmMst1) - #136987200 * EPow P2 (EVar vlmMst2) + #1020600 * EVar vlmMsq * (#97
   + #94 * EVar vlmMst2 - #4 * EVar vlmMst1 * (#17 + #3 * EVar vlmMst2 - #3 * EVar vlmMt) - #2 * (#13 + #6 * EVar
   vlmMst2) * EVar vlmMt + #12 * EPow P2 (EVar vlmMst2)) + #5670 * EVar vlmMt * (#19949 + #19864 * EVar vlmMst2 +
   #4296 * EPow P2 (EVar vlmMst2)) - #1632960 * (#7 + #6 * EVar vlmMst2) * EPow P2 (EVar vlmMt) + #630 * EVar vlmMst1
   * (- #19783 - #114840 * EVar vlmMt - #72 * EVar vlmMst2 * (- #3401 + #714 * EVar vlmMt) + #1463904 * EConst CS2 +
   #36504 * EPow P2 (EVar vlmMst2) + #15552 * EPow P2 (EVar vlmMt)) + #136080 * EPow P3 (EVar vlmMst1) - #14696640 *
   EPow P3 (EVar vlmMst2)) * EPow P6 (EVar vMst1))) + #189 * EVar vMt * (#3000 * EPow P2 (EVar vMsq) * (#20 * (#8 -
   #15 * EVar vlmMsq + #15 * EVar vlmMst2) * EPow P2 (EVar vMst1) * (EPow P2 (EVar vMst1) + EPow P2 (EVar vMst2)) *
   EPow P6 (EVar vMst2) + #9 * (#127 + EVar vlmMst2 * (#68 - #6 * EVar vlmMt) - #24 * EVar vlmMt + EVar vlmMst1 * (-
   #44 - #6 * EVar vlmMst2 + #6 * EVar vlmMt) + #6 * EPow P2 (EVar vlmMst2)) * EPow P2 (EVar vMst2) * EPow P8 (EVar
   vMst1)) + #4 * EPow P4 (EVar vMsq) * (- ((#316871 + #20250 * EVar vlmMsq * (#5 - #6 * EVar vlmMst2) - #480 * (#137
   + #60 * EVar vlmMst1) * EVar vlmMt + #6 * EVar vlmMst2 * (- #18049 + #9600 * EVar vlmMst1 + #12240 * EVar vlmMt) +
   #60750 * EPow P2 (EVar vlmMsq) + #9360 * EPow P2 (EVar vlmMst2)) * EPow P4 (EVar vMst1) * EPow P4 (EVar vMst2)) -
   #14400 * EPow P2 (EVar vMst2) * (#221 + EVar vlmMst2 * (#299 - #47 * EVar vlmMt) - #62 * EVar vlmMt + (#87 - #6 *
   EVar vlmMt) * EPow P2 (EVar vlmMst2) - #2 * EVar vlmMst1 * (#65 + EVar vlmMst2 * (#32 - #3 * EVar vlmMt) - #12 *
   EVar vlmMt + #3 * EPow P2 (EVar vlmMst2)) + #6 * EPow P3 (EVar vlmMst2)) * EPow P6 (EVar vMst1) + #225 * (#937 +
   #64 * EVar vlmMst1 * (#2 - #3 * EVar vlmMst2) + #502 * EVar vlmMst2 + #90 * EVar vlmMsq * (- #5 + #6 * EVar
   vlmMst2) - #270 * EPow P2 (EVar vlmMsq) - #624 * EPow P2 (EVar vlmMst2)) * EPow P2 (EVar vMst1) * EPow P6 (EVar
   vMst2) + #28800 * (#42 + EVar vlmMst2 * (#242 - #62 * EVar vlmMt) - #33 * EVar vlmMt + #6 * (#29 - #4 * EVar vlmMt)
   * EPow P2 (EVar vlmMst2) - #2 * EVar vlmMst1 * (#81 + EVar vlmMst2 * (#74 - #12 * EVar vlmMt) - #18 * EVar vlmMt +
   #12 * EPow P2 (EVar vlmMst2)) + #24 * EPow P3 (EVar vlmMst2)) * EPow P8 (EVar vMst1) + #14400 * (- #2 + EVar
   vlmMst2 + #5 * EPow P2 (EVar vlmMst2)) * EPow P8 (EVar vMst2)) - #3375 * (- #4 * (- #4 + EVar vlmMst1 - #2 * EVar
   vlmMst2 + EVar vlmMt) * EPow P4 (EVar vMst2) * EPow P8 (EVar vMst1) + #7 * (- #5 + #28 * EVar vlmMsq - #28 * EVar
   vlmMst2) * EPow P2 (EVar vMst1) * (EPow P2 (EVar vMst1) + EPow P2 (EVar vMst2)) * EPow P8 (EVar vMst2)))) /
   (#765450 * EPow P4 (EVar vMsq) * EPow P4 (EVar vMst1) * EPow P4 (EVar vMst2)) - EVar vs2t * (#8 * EVar vMst2 *
   EConst CT1ep * (- #58056 * EVar vMst2 * EVar vs2t * EPow P2 (EVar vMt) - #126488 * EVar vMt * EPow P2 (EVar vMst2)
   * EPow P2 (EVar vs2t) + #1301248 * EPow P3 (EVar vMt) + #15377 * EPow P3 (EVar vMst2) * EPow P3 (EVar vs2t)) * EPow
   P8 (EVar vMst1) + #27 * EPow P2 (EVar vMt) * EPow P2 (EVar vMuSUSY) * (#5 * EPow P2 (EVar vMst1) * EPow P3 (EVar
   vMst2) * (#63 * (- #5 + #28 * EVar vlmMsq - #28 * EVar vlmMst2) * EVar vs2t * (EPow P2 (EVar vMst1) + EPow P2 (EVar
   vMst2)) * (- #2 * EVar vlmMst1 * EPow P2 (EVar vMst1) + #2 * EVar vlmMst2 * EPow P2 (EVar vMst1) + EPow P2 (EVar
   vMst2)) * EPow P3 (EVar vMst2) + #4 * (- #3 * EVar vMst2 * EVar vs2t * (#247 + #2 * EVar vlmMst1 * (- #5 + #72 *
   EVar vlmMsq - #72 * EVar vlmMst2) + #10 * EVar vlmMst2 - #144 * EVar vlmMsq * EVar vlmMst2 + #144 * EPow P2 (EVar
   vlmMst2)) + #20 * EVar vMt * (#688 + #27 * EVar vlmMst1 + #36 * EVar vlmMsq * (- #2 + #5 * EVar vlmMst1 - #5 * EVar
   vlmMst2) + #45 * EVar vlmMst2 - #180 * EVar vlmMst1 * EVar vlmMst2 + #180 * EPow P2 (EVar vlmMst2))) * EPow P6
   (EVar vMst1)) + #20 * EPow P2 (EVar vMsq) * (#40 * (- #8 + #15 * EVar vlmMsq - #15 * EVar vlmMst2) * EVar vs2t *
   EPow P2 (EVar vMst1) * (EPow P2 (EVar vMst1) + EPow P2 (EVar vMst2)) * (- #2 * EVar vlmMst1 * EPow P2 (EVar vMst1)
   + #2 * EVar vlmMst2 * EPow P2 (EVar vMst1) + EPow P2 (EVar vMst2)) * EPow P4 (EVar vMst2) + EVar vMst2 * (EVar
   vMst2 * EVar vs2t * (- #1011 - #298 * EVar vlmMst2 + #552 * EVar vlmMsq * EVar vlmMst2 + EVar vlmMst1 * (#298 -
   #552 * EVar vlmMsq + #552 * EVar vlmMst2) - #552 * EPow P2 (EVar vlmMst2)) + #32 * EVar vMt * (#727 + #30 * EVar
   vlmMst1 + #18 * EVar vlmMsq * (- #2 + #5 * EVar vlmMst1 - #5 * EVar vlmMst2) + #6 * EVar vlmMst2 - #90 * EVar
   vlmMst1 * EVar vlmMst2 + #90 * EPow P2 (EVar vlmMst2))) * EPow P8 (EVar vMst1)) + #4 * EPow P4 (EVar vMsq) * (-
   ((EVar vMst2 * EVar vs2t * (#3035 + #5240 * EVar vlmMst2 + #270 * EVar vlmMsq * (#1 - #2 * EVar vlmMst1 + #2 * EVar
   vlmMst2) * (- #5 + #6 * EVar vlmMst2) + #810 * (- #1 + #2 * EVar vlmMst1 - #2 * EVar vlmMst2) * EPow P2 (EVar
   vlmMsq) + #192 * (#2 - #3 * EVar vlmMst2) * EPow P2 (EVar vlmMst1) - #4620 * EPow P2 (EVar vlmMst2) + #6 * EVar
   vlmMst1 * (- #1161 + #458 * EVar vlmMst2 + #1008 * EPow P2 (EVar vlmMst2)) - #5472 * EPow P3 (EVar vlmMst2)) - #128
   * EVar vMt * (- #53 - #191 * EVar vlmMst2 + EVar vlmMst1 * (#60 + #18 * EVar vlmMst2 - #72 * EPow P2 (EVar
   vlmMst2)) + #54 * EPow P2 (EVar vlmMst2) + #72 * EPow P3 (EVar vlmMst2))) * EPow P3 (EVar vMst2) * EPow P4 (EVar
   vMst1)) - #3 * (EVar vMst2 * EVar vs2t * (#1065 + #64 * EVar vlmMst1 * (#2 - #3 * EVar vlmMst2) - #266 * EVar
   vlmMst2 + #90 * EVar vlmMsq * (- #5 + #6 * EVar vlmMst2) - #270 * EPow P2 (EVar vlmMsq) - #1264 * EPow P2 (EVar
   vlmMst2)) + #512 * EVar vMt * (#2 + EVar vlmMst2 - #3 * EPow P2 (EVar vlmMst2))) * EPow P2 (EVar vMst1) * EPow P5
   (EVar vMst2) - #2 * EVar vMst2 * (#3 * EVar vMst2 * EVar vs2t * (#480 - #9 * EVar vlmMst2 * (- #129 + #50 * EVar
   vlmMsq + #30 * EPow P2 (EVar vlmMsq)) + #288 * (#2 - #3 * EVar vlmMst2) * EPow P2 (EVar vlmMst1) + #10 * (- #17 +
   #54 * EVar vlmMsq) * EPow P2 (EVar vlmMst2) + EVar vlmMst1 * (- #1385 - #406 * EVar vlmMst2 - #90 * EVar vlmMsq *
   (- #5 + #6 * EVar vlmMst2) + #270 * EPow P2 (EVar vlmMsq) + #2544 * EPow P2 (EVar vlmMst2)) - #1680 * EPow P3 (EVar
   vlmMst2)) + #64 * EVar vMt * (#11 + #371 * EVar vlmMst2 - #42 * EPow P2 (EVar vlmMst2) + #6 * EVar vlmMst1 * (- #21
   - #5 * EVar vlmMst2 + #24 * EPow P2 (EVar vlmMst2)) - #144 * EPow P3 (EVar vlmMst2))) * EPow P6 (EVar vMst1) + EVar
   vs2t * (#12 * (#96 + EVar vlmMst2 * (#285 + #30 * EVar vlmMsq + #90 * EPow P2 (EVar vlmMsq) + #544 * EPow P2 (EVar
   vlmMst1)) + (#590 - #180 * EVar vlmMsq) * EPow P2 (EVar vlmMst2) - EVar vlmMst1 * (#109 + #30 * EVar vlmMsq * (#1 -
   #6 * EVar vlmMst2) + #590 * EVar vlmMst2 + #90 * EPow P2 (EVar vlmMsq) + #1360 * EPow P2 (EVar vlmMst2)) + #816 *
   EPow P3 (EVar vlmMst2)) * EPow P8 (EVar vMst1) - #192 * (- #2 + EVar vlmMst2 + #5 * EPow P2 (EVar vlmMst2)) * EPow
   P8 (EVar vMst2)))) / (EPow P2 (EVar vSbeta) * EPow P4 (EVar vMsq))) / (#5832 * EPow P4 (EVar vMst1) * EPow P4 (EVar
   vMst2)) + EPow P2 (EVar vMt) * EPow P2 (EVar vs2t) * (#8 * (#1061 + #270 * EVar vlmMsq * (#5 - #6 * EVar vlmMst2) +
   #192 * EVar vlmMst1 * (- #11 + EVar vlmMst2) + #2398 * EVar vlmMst2 + #810 * EPow P2 (EVar vlmMsq) + #1296 * EPow
   P2 (EVar vlmMst2)) * EPow P2 (EVar vMst1) - #32 * (#338660 * EConst COepS2 + #27 * (#182471 - #253995 * EVar
   vlmMst1 + #253995 * EVar vlmMst2) * EConst CS2) * EPow P4 (EVar vMst1) / (#945 * EPow P2 (EVar vMst2)) - #216 *
   (#20 * (#4 - EVar vlmMst1 + EVar vlmMst2) / (#3 * EPow P2 (EVar vMsq)) - (EDec 7818382197186929 13 - #240 * EVar
   vlmMsq + (- EDec 23457324263038547 15 + #180 * EVar vlmMsq) * EVar vlmMst1 + EVar vlmMst2 * (EDec 9301239909297052
   13 - #180 * EVar vlmMsq + #520424 * EVar vlmMst1 / #945 - #304 * EPow P2 (EVar vlmMst1) / #9) - #162772 * EPow P2
   (EVar vlmMst1) / #945 + #4 * (- #89413 + #5460 * EVar vlmMst1) * EPow P2 (EVar vlmMst2) / #945 + #32 * EVar vlmMt *
   (#54 + #65 * EVar vlmMst2 - EVar vlmMst1 * (#65 + #18 * EVar vlmMst2) + #9 * EPow P2 (EVar vlmMst1) + #9 * EPow P2
   (EVar vlmMst2)) / #9 + #16 * EPow P3 (EVar vlmMst1) / #27 + #272 * EPow P3 (EVar vlmMst2) / #27) / EPow P2 (EVar
   vMst2)) * EPow P4 (EVar vMst1) + #2 * EPow P2 (EVar vMst2) * (#800 * (- #8 + #15 * EVar vlmMsq - #15 * EVar
   vlmMst2) * EPow P2 (EVar vMsq) * EPow P2 (EVar vMst1) + #8 * (#2507 + #514 * EVar vlmMst2 + #270 * EVar vlmMsq * (-
   #5 + #6 * EVar vlmMst2) - #810 * EPow P2 (EVar vlmMsq) + #96 * (- #2 + #3 * EVar vlmMst2) * EPow P2 (EVar vlmMst1)
   - #1584 * EPow P2 (EVar vlmMst2) - #96 * EVar vlmMst1 * (- #5 + #2 * EVar vlmMst2 + #6 * EPow P2 (EVar vlmMst2)) +
   #288 * EPow P3 (EVar vlmMst2)) * EPow P4 (EVar vMsq) + #15 * (#35 + #12 * EVar vlmMsq - #12 * EVar vlmMst2) * EPow
   P4 (EVar vMst1)) / EPow P4 (EVar vMsq) + #8 * (#400 * (#8 - #15 * EVar vlmMsq + #15 * EVar vlmMst2) / EPow P2 (EVar
   vMsq) + #3 * (- #1001 - #118 * EVar vlmMst2 + #64 * EVar vlmMst1 * (- #2 + #3 * EVar vlmMst2) - #90 * EVar vlmMsq *
   (- #5 + #6 * EVar vlmMst2) + #270 * EPow P2 (EVar vlmMsq) + #944 * EPow P2 (EVar vlmMst2)) / EPow P2 (EVar vMst1))
   * EPow P4 (EVar vMst2) - #1536 * (- #2 + EVar vlmMst2 + #5 * EPow P2 (EVar vlmMst2)) * EPow P6 (EVar vMst2) / EPow
   P4 (EVar vMst1) - (#630 * (#5 - #28 * EVar vlmMsq + #28 * EVar vlmMst2) * (EPow P2 (EVar vMst1) - #2 * EPow P2
   (EVar vMst2)) * EPow P4 (EVar vMst2) + #2 * (#800 * (#8 - #15 * EVar vlmMsq + #15 * EVar vlmMst2) * EPow P2 (EVar
   vMsq) * EPow P6 (EVar vMst2) + #45 * (#9 - #140 * EVar vlmMsq + #140 * EVar vlmMst2) * EPow P8 (EVar vMst2)) / EPow
   P2 (EVar vMst1) + EPow P2 (EVar vMuSUSY) * (#15 * EPow P2 (EVar vMst1) * EPow P4 (EVar vMst2) * (#21 * (#5 - #28 *
   EVar vlmMsq + #28 * EVar vlmMst2) * EPow P2 (EVar vMst2) * (EPow P2 (EVar vMst1) + EPow P2 (EVar vMst2)) * (- #2 *
   EVar vlmMst1 * EPow P2 (EVar vMst1) + #2 * EVar vlmMst2 * EPow P2 (EVar vMst1) + EPow P2 (EVar vMst2)) + (#988 + #8
   * EVar vlmMst1 * (- #5 + #72 * EVar vlmMsq - #72 * EVar vlmMst2) + #8 * (#5 - #72 * EVar vlmMsq) * EVar vlmMst2 +
   #576 * EPow P2 (EVar vlmMst2)) * EPow P6 (EVar vMst1)) + #20 * EPow P2 (EVar vMsq) * (- #40 * (- #8 + #15 * EVar
   vlmMsq - #15 * EVar vlmMst2) * EPow P2 (EVar vMst1) * (EPow P2 (EVar vMst1) + EPow P2 (EVar vMst2)) * (- #2 * EVar
   vlmMst1 * EPow P2 (EVar vMst1) + #2 * EVar vlmMst2 * EPow P2 (EVar vMst1) + EPow P2 (EVar vMst2)) * EPow P4 (EVar
   vMst2) + (#1011 + EVar vlmMst1 * (- #298 + #552 * EVar vlmMsq - #552 * EVar vlmMst2) + (#298 - #552 * EVar vlmMsq)
   * EVar vlmMst2 + #552 * EPow P2 (EVar vlmMst2)) * EPow P2 (EVar vMst2) * EPow P8 (EVar vMst1)) - #4 * EPow P4 (EVar
   vMsq) * (- ((#3035 + #5240 * EVar vlmMst2 + #270 * EVar vlmMsq * (#1 - #2 * EVar vlmMst1 + #2 * EVar vlmMst2) * (-
   #5 + #6 * EVar vlmMst2) + #810 * (- #1 + #2 * EVar vlmMst1 - #2 * EVar vlmMst2) * EPow P2 (EVar vlmMsq) + #192 *
   (#2 - #3 * EVar vlmMst2) * EPow P2 (EVar vlmMst1) - #4620 * EPow P2 (EVar vlmMst2) + #6 * EVar vlmMst1 * (- #1161 +
   #458 * EVar vlmMst2 + #1008 * EPow P2 (EVar vlmMst2)) - #5472 * EPow P3 (EVar vlmMst2)) * EPow P4 (EVar vMst1) *
   EPow P4 (EVar vMst2)) - #6 * EPow P2 (EVar vMst2) * (#480 - #9 * EVar vlmMst2 * (- #129 + #50 * EVar vlmMsq + #30 *
   EPow P2 (EVar vlmMsq)) + #288 * (#2 - #3 * EVar vlmMst2) * EPow P2 (EVar vlmMst1) + #10 * (- #17 + #54 * EVar
   vlmMsq) * EPow P2 (EVar vlmMst2) + EVar vlmMst1 * (- #1385 - #406 * EVar vlmMst2 - #90 * EVar vlmMsq * (- #5 + #6 *
   EVar vlmMst2) + #270 * EPow P2 (EVar vlmMsq) + #2544 * EPow P2 (EVar vlmMst2)) - #1680 * EPow P3 (EVar vlmMst2)) *
   EPow P6 (EVar vMst1) + #3 * (- #1065 + #266 * EVar vlmMst2 + #64 * EVar vlmMst1 * (- #2 + #3 * EVar vlmMst2) - #90
   * EVar vlmMsq * (- #5 + #6 * EVar vlmMst2) + #270 * EPow P2 (EVar vlmMsq) + #1264 * EPow P2 (EVar vlmMst2)) * EPow
   P2 (EVar vMst1) * EPow P6 (EVar vMst2) + #12 * (#96 + EVar vlmMst2 * (#285 + #30 * EVar vlmMsq + #90 * EPow P2
   (EVar vlmMsq) + #544 * EPow P2 (EVar vlmMst1)) + (#590 - #180 * EVar vlmMsq) * EPow P2 (EVar vlmMst2) - EVar
   vlmMst1 * (#109 + #30 * EVar vlmMsq * (#1 - #6 * EVar vlmMst2) + #590 * EVar vlmMst2 + #90 * EPow P2 (EVar vlmMsq)
   + #1360 * EPow P2 (EVar vlmMst2)) + #816 * EPow P3 (EVar vlmMst2)) * EPow P8 (EVar vMst1) - #192 * (- #2 + EVar
   vlmMst2 + #5 * EPow P2 (EVar vlmMst2)) * EPow P8 (EVar vMst2))) / (EPow P4 (EVar vMst1) * EPow P4 (EVar vMst2))) /
   EPow P4 (EVar vMsq)) / #216 + EVar vMuSUSY * (- (EPow P2 (EVar vMt) * EPow P2 (EVar vs2t) * (- ((#322696 * EConst
   COepS2 - #81 * (#86631 + #80674 * EVar vlmMst1 - #80674 * EVar vlmMst2) * EConst CS2) * EPow P4 (EVar vMst1)) /
   #729 + (EDec 4873938614540466 12 + #152 * EConst CB4 - #4 * EConst CDN - #560 * EVar vlmMsq - (EDec
   16657654320987654 13 + #200 * EVar vlmMsq) * EVar vlmMst1 - #224 * EPow P2 (EVar vlmMst1) + EVar vlmMst2 * (EDec
   31377654320987654 13 + #200 * EVar vlmMsq + #768 * EVar vlmMst1 + #64 * EPow P2 (EVar vlmMst1)) + #32 * (- #17 + #2
   * EVar vlmMst1) * EPow P2 (EVar vlmMst2) - #64 * EPow P3 (EVar vlmMst1) / #3 - #320 * EPow P3 (EVar vlmMst2) / #3)
   * EPow P4 (EVar vMst1) - #4 * EPow P2 (EVar vMst2) * (#16 * EPow P2 (EVar vMsq) * EPow P2 (EVar vMst1) * (#7 - #30
   * EVar vlmMst2 + EVar vlmMst1 * (#11 + #2 * EVar vlmMst2 - #12 * EPow P2 (EVar vlmMst2)) - #2 * EPow P2 (EVar
   vlmMst2) + #12 * EPow P3 (EVar vlmMst2)) + #5 * (#157 + #8 * EVar vlmMst1 * (#1 + #3 * EVar vlmMsq - #3 * EVar
   vlmMst2) - #8 * (#1 + #3 * EVar vlmMsq) * EVar vlmMst2 + #24 * EPow P2 (EVar vlmMst2)) * EPow P4 (EVar vMst1)) /
   (#3 * EPow P2 (EVar vMsq)) + (#32 * (#29 + #179 * EVar vlmMst2 - #18 * EPow P2 (EVar vlmMst2) + #6 * EVar vlmMst1 *
   (- #10 - #3 * EVar vlmMst2 + #12 * EPow P2 (EVar vlmMst2)) - #72 * EPow P3 (EVar vlmMst2)) - #15 * (#355 + #6 *
   EVar vlmMst1 * (#3 + #20 * EVar vlmMsq - #20 * EVar vlmMst2) - #6 * (#3 + #20 * EVar vlmMsq) * EVar vlmMst2 + #120
   * EPow P2 (EVar vlmMst2)) * EPow P4 (EVar vMst1) / EPow P4 (EVar vMsq)) * EPow P4 (EVar vMst2) / #9 + #128 * (#2 +
   EVar vlmMst2 - #3 * EPow P2 (EVar vlmMst2)) * EPow P6 (EVar vMst2) / (#3 * EPow P2 (EVar vMst1))) / EPow P3 (EVar
   vMst2)) + EPow P3 (EVar vMt) * (#8 * EVar vMst2 * EVar vMt * EPow P2 (EVar vMst1) * (- #32 * EPow P4 (EVar vMsq) *
   (EPow P2 (EVar vMst1) * EPow P2 (EVar vMst2) * (#96 + #36 * EVar vlmMt + EVar vlmMst2 * (- #187 + #39 * EVar vlmMt)
   - #3 * (#19 + #6 * EVar vlmMt) * EPow P2 (EVar vlmMst2) - #18 * EVar vlmMst1 * (- #3 + #2 * EVar vlmMt - EVar
   vlmMst2 * (#3 + EVar vlmMt) + EPow P2 (EVar vlmMst2)) + #18 * EPow P3 (EVar vlmMst2)) + (#834 + EVar vlmMst2 *
   (#569 - #33 * EVar vlmMt) - #162 * EVar vlmMt + (#51 - #18 * EVar vlmMt) * EPow P2 (EVar vlmMst2) - #18 * EVar
   vlmMst1 * (#13 + EVar vlmMst2 - EVar vlmMst2 * EVar vlmMt + EPow P2 (EVar vlmMst2)) + #18 * EPow P3 (EVar vlmMst2))
   * EPow P4 (EVar vMst1) - #36 * (#2 + EVar vlmMst2 - #3 * EPow P2 (EVar vlmMst2)) * EPow P4 (EVar vMst2)) + (#60 *
   (#167 - #12 * EVar vlmMst1 * (#2 + #3 * EVar vlmMsq - #3 * EVar vlmMst2) + #6 * (#5 + #6 * EVar vlmMsq) * EVar
   vlmMst2 - #6 * EVar vlmMt - #36 * EPow P2 (EVar vlmMst2)) * EPow P2 (EVar vMsq) + #45 * (#235 - #24 * EVar vlmMst1
   * (#1 + #3 * EVar vlmMsq - #3 * EVar vlmMst2) + #24 * (#1 + #3 * EVar vlmMsq) * EVar vlmMst2 - #72 * EPow P2 (EVar
   vlmMst2)) * EPow P2 (EVar vMst2)) * EPow P6 (EVar vMst1)) - #3 * EVar vs2t * (#60 * EPow P4 (EVar vMst2) * EPow P8
   (EVar vMst1) - #80 * EPow P2 (EVar vMsq) * (#10 * (- #8 + #15 * EVar vlmMsq - #15 * EVar vlmMst2) * EPow P2 (EVar
   vMst1) * (EPow P2 (EVar vMst1) - EPow P2 (EVar vMst2)) * EPow P6 (EVar vMst2) + (#33 - #9 * EVar vlmMst1 + #9 *
   EVar vlmMst2) * EPow P2 (EVar vMst2) * EPow P8 (EVar vMst1)) + #315 * (#5 - #28 * EVar vlmMsq + #28 * EVar vlmMst2)
   * EPow P2 (EVar vMst1) * (EPow P2 (EVar vMst1) - EPow P2 (EVar vMst2)) * EPow P8 (EVar vMst2) - #4 * EPow P4 (EVar
   vMsq) * (- ((#2395 + #482 * EVar vlmMst2 + #270 * EVar vlmMsq * (- #5 + #6 * EVar vlmMst2) - #810 * EPow P2 (EVar
   vlmMsq) + #192 * (- #2 + #3 * EVar vlmMst2) * EPow P2 (EVar vlmMst1) + #192 * EVar vlmMst1 * (#3 + EVar vlmMst2 -
   #6 * EPow P2 (EVar vlmMst2)) - #1296 * EPow P2 (EVar vlmMst2) + #576 * EPow P3 (EVar vlmMst2)) * EPow P4 (EVar
   vMst1) * EPow P4 (EVar vMst2)) + #192 * EPow P2 (EVar vMst2) * ((#2 - #3 * EVar vlmMst2) * EPow P2 (EVar vlmMst1) +
   EVar vlmMst1 * (#8 - #2 * EVar vlmMst2 + #6 * EPow P2 (EVar vlmMst2)) - #3 * (#6 + #5 * EVar vlmMst2 + EPow P3
   (EVar vlmMst2))) * EPow P6 (EVar vMst1) + #3 * (#873 + #64 * EVar vlmMst1 * (#2 - #3 * EVar vlmMst2) + #182 * EVar
   vlmMst2 + #90 * EVar vlmMsq * (- #5 + #6 * EVar vlmMst2) - #270 * EPow P2 (EVar vlmMsq) - #624 * EPow P2 (EVar
   vlmMst2)) * EPow P2 (EVar vMst1) * EPow P6 (EVar vMst2) - #384 * (- #6 - #14 * EVar vlmMst2 + EVar vlmMst2 * EPow
   P2 (EVar vlmMst1) + EVar vlmMst1 * (#9 + #6 * EVar vlmMst2 - #2 * EPow P2 (EVar vlmMst2)) - #6 * EPow P2 (EVar
   vlmMst2) + EPow P3 (EVar vlmMst2)) * EPow P8 (EVar vMst1) + #192 * (- #2 + EVar vlmMst2 + #5 * EPow P2 (EVar
   vlmMst2)) * EPow P8 (EVar vMst2)))) / (#162 * EPow P4 (EVar vMsq) * EPow P4 (EVar vMst1) * EPow P4 (EVar vMst2)) +
   EVar vMt * EPow P2 (EVar vs2t) * (- #16 * (EVar vMst2 * EVar vs2t * (#376960 * EConst COepS2 - #27 * (#1307689 +
   #282720 * EVar vlmMst1 - #282720 * EVar vlmMst2) * EConst CS2 - #565440 * EConst CT1ep) + #3630330 * EVar vMt *
   EConst CT1ep) * EPow P4 (EVar vMst1) / EPow P3 (EVar vMst2) + #405 * EVar vs2t * (#4 * EPow P2 (EVar vMst1) * (#155
   - #1726 * EVar vlmMst2 + #270 * EVar vlmMsq * (- #5 + #6 * EVar vlmMst2) - #810 * EPow P2 (EVar vlmMsq) + #1536 *
   (- #2 + #3 * EVar vlmMst2) * EPow P2 (EVar vlmMst1) + #192 * EVar vlmMst1 * (#7 + #27 * EVar vlmMst2 - #48 * EPow
   P2 (EVar vlmMst2)) - #3600 * EPow P2 (EVar vlmMst2) + #4608 * EPow P3 (EVar vlmMst2)) + #2 * EPow P2 (EVar vMst2) *
   (- #400 * (- #8 + #15 * EVar vlmMsq - #15 * EVar vlmMst2) * EPow P2 (EVar vMsq) * EPow P2 (EVar vMst1) + #4 * (#80
   + EVar vlmMst2 * (- #3019 + #1350 * EVar vlmMsq + #810 * EPow P2 (EVar vlmMsq)) + #96 * (- #2 + #3 * EVar vlmMst2)
   * EPow P2 (EVar vlmMst1) - #18 * (- #23 + #90 * EVar vlmMsq) * EPow P2 (EVar vlmMst2) - #3 * EVar vlmMst1 * (-
   #1225 + #554 * EVar vlmMst2 - #90 * EVar vlmMsq * (- #5 + #6 * EVar vlmMst2) + #270 * EPow P2 (EVar vlmMsq) + #1008
   * EPow P2 (EVar vlmMst2)) + #2736 * EPow P3 (EVar vlmMst2)) * EPow P4 (EVar vMsq) - #15 * EPow P4 (EVar vMst1)) /
   EPow P4 (EVar vMsq) + #216 * (#5 * (#19 - #6 * EVar vlmMst1 + #6 * EVar vlmMst2) / (#18 * EPow P2 (EVar vMsq)) +
   (EDec 8653922396522787 13 + #64 * EConst CB4 / #9 - #64 * EConst CD3 / #9 + #32 * EConst CDN / #9 + #145 * EVar
   vlmMsq / #3 + (EDec 723524901318552 13 - #50 * EVar vlmMsq) * EVar vlmMst1 - #3673 * EPow P2 (EVar vlmMst1) / #189
   + EVar vlmMst2 * (- EDec 14257471235407743 14 + #50 * EVar vlmMsq + #13058 * EVar vlmMst1 / #189 + #256 * EPow P2
   (EVar vlmMst1) / #3) - #5 * (#1877 + #5376 * EVar vlmMst1) * EPow P2 (EVar vlmMst2) / #189 - #256 * EPow P3 (EVar
   vlmMst1) / #27 + #1792 * EPow P3 (EVar vlmMst2) / #27) / EPow P2 (EVar vMst2)) * EPow P4 (EVar vMst1) + (#1600 *
   (EVar vlmMst1 - EVar vlmMst2) * (#8 - #15 * EVar vlmMsq + #15 * EVar vlmMst2) / EPow P2 (EVar vMsq) + #12 * (-
   #1193 + #330 * EVar vlmMst2 + #64 * EVar vlmMst1 * (- #2 + #3 * EVar vlmMst2) - #90 * EVar vlmMsq * (- #5 + #6 *
   EVar vlmMst2) + #270 * EPow P2 (EVar vlmMsq) + #1584 * EPow P2 (EVar vlmMst2)) / EPow P2 (EVar vMst1) + #315 * (#5
   - #28 * EVar vlmMsq + #28 * EVar vlmMst2) * EPow P2 (EVar vMst1) / EPow P4 (EVar vMsq)) * EPow P4 (EVar vMst2) +
   (#2 * (#400 * (- #8 + #15 * EVar vlmMsq - #15 * EVar vlmMst2) * EPow P2 (EVar vMsq) * EPow P2 (EVar vMst1) - #384 *
   (- #2 + EVar vlmMst2 + #5 * EPow P2 (EVar vlmMst2)) * EPow P4 (EVar vMsq) + #315 * (EVar vlmMst1 - EVar vlmMst2) *
   (#5 - #28 * EVar vlmMsq + #28 * EVar vlmMst2) * EPow P4 (EVar vMst1)) * EPow P6 (EVar vMst2) / EPow P4 (EVar vMst1)
   + #45 * (- #9 + #140 * EVar vlmMsq - #140 * EVar vlmMst2) * EPow P8 (EVar vMst2) / EPow P2 (EVar vMst1)) / EPow P4
   (EVar vMsq))) / #87480) / EVar vTbeta)) / EPow P2 (EVar vMgl))) - EConst Cz2 * (- (EVar vAl4p * EVar vtwoLoopFlag *
   (- #4 * EVar vDmglst2 * (#4 * EPow P2 (EVar vMt) * (#12 * (EVar vMuSUSY + #2 * EVar vMst2 * EVar vTbeta) * EPow P2
   (EVar vMt) * EPow P2 (EVar vSbeta) + EVar vMst2 * EVar vMuSUSY * EPow P2 (EVar vs2t) * (EVar vMuSUSY * EVar vTbeta
   * (- #1 + EPow P2 (EVar vSbeta)) - #6 * EVar vMst2 * EPow P2 (EVar vSbeta)) + EVar vMt * EVar vs2t * EVar vTbeta *
   (- #13 * EPow P2 (EVar vMuSUSY) * (- #1 + EPow P2 (EVar vSbeta)) - #12 * EPow P2 (EVar vMst2) * EPow P2 (EVar
   vSbeta))) * EPow P4 (EVar vMst1) + EPow P4 (EVar vMst2) * (- #2 * EVar vMst2 * EVar vMuSUSY * EPow P2 (EVar vMt) *
   EPow P2 (EVar vs2t) * (- #2 * EVar vMuSUSY * EVar vTbeta * (- #1 + EPow P2 (EVar vSbeta)) + #15 * EVar vMst2 * EPow
   P2 (EVar vSbeta)) - #4 * EVar vs2t * EVar vTbeta * (#5 * EPow P2 (EVar vMuSUSY) * (- #1 + EPow P2 (EVar vSbeta)) -
   #4 * EPow P2 (EVar vMst2) * EPow P2 (EVar vSbeta)) * EPow P3 (EVar vMt) + #2 * EVar vMt * (#2 * EVar vMuSUSY + #5 *
   EVar vMst2 * EVar vTbeta) * EPow P2 (EVar vSbeta) * EPow P3 (EVar vMst2) * EPow P3 (EVar vs2t) - #16 * EVar vMuSUSY
   * EPow P2 (EVar vSbeta) * EPow P4 (EVar vMt) - EVar vTbeta * EPow P2 (EVar vSbeta) * EPow P4 (EVar vs2t) * EPow P5
   (EVar vMst2)) + EPow P2 (EVar vMst1) * EPow P2 (EVar vMst2) * (- #8 * EVar vs2t * (#3 * EVar vMuSUSY * EVar vs2t +
   #2 * EVar vMt * EVar vTbeta) * EPow P2 (EVar vMst2) * EPow P2 (EVar vMt) * EPow P2 (EVar vSbeta) + #4 * EVar vMst2
   * EVar vTbeta * EPow P2 (EVar vMt) * (EPow P2 (EVar vMuSUSY) * EPow P2 (EVar vs2t) * (- #1 + EPow P2 (EVar vSbeta))
   + #8 * EPow P2 (EVar vMt) * EPow P2 (EVar vSbeta)) - #36 * EVar vs2t * EVar vTbeta * EPow P2 (EVar vMuSUSY) * (- #1
   + EPow P2 (EVar vSbeta)) * EPow P3 (EVar vMt) - #2 * EVar vMt * EVar vTbeta * EPow P2 (EVar vSbeta) * EPow P3 (EVar
   vs2t) * EPow P4 (EVar vMst2) + EVar vTbeta * EPow P2 (EVar vSbeta) * EPow P4 (EVar vs2t) * EPow P5 (EVar vMst2))) +
   EVar vMgl * (- #2 * EPow P2 (EVar vMst1) * EPow P2 (EVar vMst2) * (#8 * EVar vs2t * EVar vTbeta * (EPow P2 (EVar
   vMuSUSY) + #4 * EPow P2 (EVar vMst2) * EPow P2 (EVar vSbeta) - EPow P2 (EVar vMuSUSY) * EPow P2 (EVar vSbeta)) *
   EPow P3 (EVar vMt) - #2 * EVar vMt * (EVar vMuSUSY + #2 * EVar vMst2 * EVar vTbeta) * EPow P2 (EVar vSbeta) * EPow
   P3 (EVar vMst2) * EPow P3 (EVar vs2t) - #32 * (#2 * EVar vMuSUSY + EVar vMst2 * EVar vTbeta) * EPow P2 (EVar
   vSbeta) * EPow P4 (EVar vMt) + EVar vTbeta * EPow P2 (EVar vSbeta) * EPow P4 (EVar vs2t) * EPow P5 (EVar vMst2)) +
   EPow P4 (EVar vMst2) * (#4 * EVar vMst2 * EVar vMuSUSY * EPow P2 (EVar vMt) * EPow P2 (EVar vs2t) * (- (EVar
   vMuSUSY * EVar vTbeta * (- #1 + EPow P2 (EVar vSbeta))) + #6 * EVar vMst2 * EPow P2 (EVar vSbeta)) + #16 * EVar
   vs2t * EVar vTbeta * (EPow P2 (EVar vMuSUSY) * (- #1 + EPow P2 (EVar vSbeta)) - #4 * EPow P2 (EVar vMst2) * EPow P2
   (EVar vSbeta)) * EPow P3 (EVar vMt) - #4 * EVar vMt * (EVar vMuSUSY + #2 * EVar vMst2 * EVar vTbeta) * EPow P2
   (EVar vSbeta) * EPow P3 (EVar vMst2) * EPow P3 (EVar vs2t) + #32 * (#2 * EVar vMuSUSY + EVar vMst2 * EVar vTbeta) *
   EPow P2 (EVar vSbeta) * EPow P4 (EVar vMt) + EVar vTbeta * EPow P2 (EVar vSbeta) * EPow P4 (EVar vs2t) * EPow P5
   (EVar vMst2)) + EPow P4 (EVar vMst1) * (#16 * EVar vs2t * EVar vTbeta * (EPow P2 (EVar vMuSUSY) * (- #1 + EPow P2
   (EVar vSbeta)) - #4 * EPow P2 (EVar vMst2) * EPow P2 (EVar vSbeta)) * EPow P3 (EVar vMt) + #96 * (#2 * EVar vMuSUSY
   + EVar vMst2 * EVar vTbeta) * EPow P2 (EVar vSbeta) * EPow P4 (EVar vMt) + EVar vTbeta * EPow P2 (EVar vSbeta) *
   EPow P4 (EVar vs2t) * EPow P5 (EVar vMst2))))) / #6 + EVar vthreeLoopFlag * EPow P2 (EVar vAl4p) * (#84 * EVar vMt
   * EVar vMuSUSY * EPow P2 (EVar vSbeta) * (#4 * EPow P2 (EVar vMst1) * EPow P3 (EVar vMt) * (#9 * EVar vDmglst2 *
   EPow P2 (EVar vMst2) * ((#8 * (#57943 + #1800 * EVar vlmMsq - #2850 * EVar vlmMst1 + #2190 * EVar vlmMst2 - #1260 *
   EVar vlmMt) * EPow P2 (EVar vMst1) + #15 * (#1805 + #960 * EVar vlmMsq + #248 * EVar vlmMst1 - #2872 * EVar vlmMst2
   - #448 * EVar vlmMt) * EPow P2 (EVar vMst2)) * EPow P4 (EVar vMsq) + #2400 * (#14 * EPow P2 (EVar vMsq) + #11 *
   EPow P2 (EVar vMst2)) * (EPow P2 (EVar vMst1) * EPow P2 (EVar vMst2) + EPow P4 (EVar vMst1) + EPow P4 (EVar
   vMst2))) + EVar vMgl * (#64800 * (#2 * EPow P2 (EVar vMsq) * EPow P2 (EVar vMst2) + EPow P4 (EVar vMst2)) * (EPow
   P2 (EVar vMst1) * EPow P2 (EVar vMst2) + EPow P4 (EVar vMst1) + EPow P4 (EVar vMst2)) - EPow P4 (EVar vMsq) * (#48
   * (#45986 - #2700 * EVar vlmMsq - #7245 * EVar vlmMst1 + #21015 * EVar vlmMst2 + #630 * EVar vlmMt) * EPow P2 (EVar
   vMst1) * EPow P2 (EVar vMst2) + #4 * (#1126591 - #184140 * EVar vlmMst1 + #383940 * EVar vlmMst2 + #7560 * EVar
   vlmMt) * EPow P4 (EVar vMst1) + #9 * (#88373 - #14400 * EVar vlmMsq - #9960 * EVar vlmMst1 + #52680 * EVar vlmMst2
   + #3360 * EVar vlmMt) * EPow P4 (EVar vMst2)))) + EPow P3 (EVar vMst2) * EPow P3 (EVar vs2t) * (#180 * EPow P2
   (EVar vMsq) * ((EVar vDmglst2 * (#3599 - #1080 * EVar vlmMsq - #1368 * EVar vlmMst1 + #3480 * EVar vlmMst2) - (#235
   + #450 * EVar vlmMsq + #642 * EVar vlmMst1 - #1362 * EVar vlmMst2) * EVar vMgl) * EPow P2 (EVar vMsq) * EPow P2
   (EVar vMst1) + #6 * ((#92 * EVar vDmglst2 + #49 * EVar vMgl) * EPow P2 (EVar vMsq) - #5 * (#34 * EVar vDmglst2 + #7
   * EVar vMgl) * EPow P2 (EVar vMst1)) * EPow P2 (EVar vMst2) + #90 * (#2 * EVar vDmglst2 + EVar vMgl) * EPow P4
   (EVar vMst1)) * EPow P4 (EVar vMst2) + EPow P4 (EVar vMsq) * (#6 * (#6 * EVar vDmglst2 * (#33563 - #4020 * EVar
   vlmMst1 + #4020 * EVar vlmMst2) + (- #242149 + #2700 * EVar vlmMsq + #9360 * EVar vlmMst1 - #19440 * EVar vlmMst2)
   * EVar vMgl) * EPow P2 (EVar vMst2) * EPow P4 (EVar vMst1) + (#16 * EVar vDmglst2 * (#776573 - #80595 * EVar
   vlmMst1 + #80595 * EVar vlmMst2) + #3 * (- #2205079 + #76140 * EVar vlmMst1 - #76140 * EVar vlmMst2) * EVar vMgl) *
   EPow P6 (EVar vMst1) / #3) + #1350 * EPow P2 (EVar vMst1) * (#5 * (#4 * EVar vDmglst2 + EVar vMgl) * EPow P2 (EVar
   vMst1) - (#64 * EVar vDmglst2 + #9 * EVar vMgl) * EPow P2 (EVar vMst2)) * EPow P6 (EVar vMst2)) - #3 * EVar vMt *
   EPow P2 (EVar vMst1) * EPow P2 (EVar vMst2) * EPow P2 (EVar vs2t) * (#15 * EPow P2 (EVar vMsq) * EPow P2 (EVar
   vMst1) * ((EVar vDmglst2 * (EDec 2605046 1 - #43200 * EVar vlmMsq - #21240 * EVar vlmMst1 + #85752 * EVar vlmMst2)
   + (#15395 - #8640 * EVar vlmMsq + #17928 * EVar vlmMst1 - #8712 * EVar vlmMst2) * EVar vMgl) * EPow P2 (EVar vMsq)
   - #2880 * (#9 * EVar vDmglst2 + EVar vMgl) * EPow P2 (EVar vMst1)) * EPow P2 (EVar vMst2) + #2 * (EVar vDmglst2 *
   (EDec 33195316666666665 10 - #324000 * EVar vlmMsq - #547560 * EVar vlmMst1 + #1031400 * EVar vlmMst2) + (#63043 -
   #64800 * EVar vlmMsq + #217080 * EVar vlmMst1 - #147960 * EVar vlmMst2) * EVar vMgl) * EPow P4 (EVar vMsq) * EPow
   P4 (EVar vMst1) + #135 * (- #320 * (#9 * EVar vDmglst2 + EVar vMgl) * EPow P2 (EVar vMsq) * EPow P2 (EVar vMst1) +
   (EVar vDmglst2 * (EDec 18556466666666667 12 - #5280 * EVar vlmMsq + #248 * EVar vlmMst1 + #7944 * EVar vlmMst2) +
   (#3469 - #1440 * EVar vlmMsq + #664 * EVar vlmMst1 + #1384 * EVar vlmMst2) * EVar vMgl) * EPow P4 (EVar vMsq) - #80
   * (#13 * EVar vDmglst2 + EVar vMgl) * EPow P4 (EVar vMst1)) * EPow P4 (EVar vMst2) - #5400 * (EVar vMgl * (#16 *
   EPow P2 (EVar vMsq) + #2 * EPow P2 (EVar vMst1) + #5 * EPow P2 (EVar vMst2)) + EVar vDmglst2 * (#96 * EPow P2 (EVar
   vMsq) + #26 * EPow P2 (EVar vMst1) + #41 * EPow P2 (EVar vMst2))) * EPow P6 (EVar vMst2)) - #2 * EVar vMst2 * EVar
   vs2t * EPow P2 (EVar vMt) * EPow P4 (EVar vMsq) * (- (EVar vMgl * (#3 * (#502399 + #65160 * EVar vlmMst1 - #134280
   * EVar vlmMst2) * EPow P2 (EVar vMst2) * EPow P4 (EVar vMst1) + #9 * (- #29683 + #13560 * EVar vlmMst1 - #36600 *
   EVar vlmMst2) * EPow P2 (EVar vMst1) * EPow P4 (EVar vMst2) + (#4828526 + #406080 * EVar vlmMst1 - #613440 * EVar
   vlmMst2) * EPow P6 (EVar vMst1) - #105840 * EPow P6 (EVar vMst2))) + #24 * EVar vDmglst2 * (#6 * (#21379 + #1770 *
   EVar vlmMst1 + #12630 * EVar vlmMst2) * EPow P2 (EVar vMst2) * EPow P4 (EVar vMst1) + #6 * (#4879 - #270 * EVar
   vlmMst1 + #8910 * EVar vlmMst2) * EPow P2 (EVar vMst1) * EPow P4 (EVar vMst2) + (#520939 + #44280 * EVar vlmMst1 +
   #76680 * EVar vlmMst2) * EPow P6 (EVar vMst1) + #8280 * EPow P6 (EVar vMst2))) - #3240 * EVar vMgl * EVar vs2t *
   EVar vshiftst3 * (#4 * EPow P2 (EVar vMt) + ((#1 + EVar vlmMst1 - EVar vlmMst2) * EPow P2 (EVar vMst1) - EPow P2
   (EVar vMst2)) * EPow P2 (EVar vs2t)) * EPow P4 (EVar vMsq) * EPow P7 (EVar vMst2)) + EVar vTbeta * (- #28 * EPow P2
   (EVar vMt) * EPow P2 (EVar vMuSUSY) * (#2 * EVar vDmglst2 * EVar vMst2 * (#8100 * EVar vMst2 * EVar vs2t * EPow P2
   (EVar vMst1) * ((#186 * EVar vMt - #11 * EVar vMst2 * EVar vs2t) * EPow P2 (EVar vMst2) * EPow P4 (EVar vMst1) +
   (#134 * EVar vMt - #11 * EVar vMst2 * EVar vs2t) * EPow P2 (EVar vMst1) * EPow P4 (EVar vMst2) + #2 * EPow P2 (EVar
   vMsq) * (- #14 * (- #12 * EVar vMt + EVar vMst2 * EVar vs2t) * EPow P2 (EVar vMst1) * EPow P2 (EVar vMst2) + #2 *
   (#120 * EVar vMt - #7 * EVar vMst2 * EVar vs2t) * EPow P4 (EVar vMst1) + (#96 * EVar vMt - #17 * EVar vMst2 * EVar
   vs2t) * EPow P4 (EVar vMst2)) + #2 * (#41 * EVar vMt - #8 * EVar vMst2 * EVar vs2t) * EPow P6 (EVar vMst2)) + EPow
   P4 (EVar vMsq) * (- #27 * EPow P2 (EVar vMst1) * EPow P2 (EVar vMst2) * ((#278347 - #79200 * EVar vlmMsq + #3720 *
   EVar vlmMst1 + #119160 * EVar vlmMst2) * EVar vMst2 * EVar vMt * EVar vs2t + #7680 * (#5 + #6 * EVar vlmMst2) *
   EPow P2 (EVar vMt) + #10 * (- #4151 + #1080 * EVar vlmMsq + #1368 * EVar vlmMst1 - #3480 * EVar vlmMst2) * EPow P2
   (EVar vMst2) * EPow P2 (EVar vs2t)) - #36 * EVar vMst2 * EVar vs2t * ((#534391 - #113400 * EVar vlmMsq - #23760 *
   EVar vlmMst1 + #196560 * EVar vlmMst2) * EVar vMt + #9 * (- #9053 + #900 * EVar vlmMsq + #1810 * EVar vlmMst1 -
   #3570 * EVar vlmMst2) * EVar vMst2 * EVar vs2t) * EPow P4 (EVar vMst1) + EPow P2 (EVar vs2t) * (#4 * (#2286439 -
   #72900 * EVar vlmMsq - #307800 * EVar vlmMst1 + #450360 * EVar vlmMst2) * EPow P6 (EVar vMst1) + #149040 * EPow P6
   (EVar vMst2)))) + #3 * EVar vMgl * (#1350 * EVar vs2t * EPow P2 (EVar vMst1) * EPow P2 (EVar vMst2) * ((#72 * EVar
   vMt - #4 * EVar vMst2 * EVar vs2t) * EPow P2 (EVar vMst2) * EPow P4 (EVar vMst1) - #4 * (- #14 * EVar vMt + EVar
   vMst2 * EVar vs2t) * EPow P2 (EVar vMst1) * EPow P4 (EVar vMst2) + #4 * EPow P2 (EVar vMsq) * (- #4 * (- #12 * EVar
   vMt + EVar vMst2 * EVar vs2t) * EPow P2 (EVar vMst1) * EPow P2 (EVar vMst2) + (#64 * EVar vMt - #4 * EVar vMst2 *
   EVar vs2t) * EPow P4 (EVar vMst1) + (#32 * EVar vMt - #7 * EVar vMst2 * EVar vs2t) * EPow P4 (EVar vMst2)) + (#40 *
   EVar vMt - #9 * EVar vMst2 * EVar vs2t) * EPow P6 (EVar vMst2)) + EPow P4 (EVar vMsq) * (- #90 * EPow P2 (EVar
   vMst1) * (#3 * (#3469 - #1440 * EVar vlmMsq + #664 * EVar vlmMst1 + #1384 * EVar vlmMst2) * EVar vMst2 * EVar vMt *
   EVar vs2t + #64 * (#53 + #24 * EVar vlmMst2) * EPow P2 (EVar vMt) + #2 * (- #59 + #450 * EVar vlmMsq + #642 * EVar
   vlmMst1 - #1362 * EVar vlmMst2) * EPow P2 (EVar vMst2) * EPow P2 (EVar vs2t)) * EPow P3 (EVar vMst2) + EVar vs2t *
   (- #6 * (#40 * (#5827 - #2700 * EVar vlmMsq + #2988 * EVar vlmMst1 + #468 * EVar vlmMst2) * EVar vMt + (#240379 +
   #10800 * EVar vlmMsq + #9900 * EVar vlmMst1 - #21420 * EVar vlmMst2) * EVar vMst2 * EVar vs2t) * EPow P2 (EVar
   vMst2) * EPow P4 (EVar vMst1) - (#4 * (#412663 - #226800 * EVar vlmMsq + #396360 * EVar vlmMst1 - #119880 * EVar
   vlmMst2) * EVar vMt + (#3647353 + #64800 * EVar vlmMsq - #16740 * EVar vlmMst1 - #52380 * EVar vlmMst2) * EVar
   vMst2 * EVar vs2t) * EPow P6 (EVar vMst1)) + #52920 * EPow P2 (EVar vs2t) * EPow P7 (EVar vMst2)))) + #3780 * EVar
   vMst2 * (- #18 * EVar vMgl * EVar vshiftst3 * EPow P4 (EVar vMsq) * (- #4 * EPow P2 (EVar vMst1) * EPow P2 (EVar
   vs2t) * EPow P4 (EVar vMst2) * (#2 * (- #1 + EVar vlmMst1 - EVar vlmMst2) * EPow P2 (EVar vMt) * (- (EPow P2 (EVar
   vMuSUSY) * (- #1 + EPow P2 (EVar vSbeta))) + EPow P2 (EVar vMst2) * EPow P2 (EVar vSbeta)) + EPow P2 (EVar vs2t) *
   EPow P2 (EVar vSbeta) * EPow P4 (EVar vMst2)) + #8 * (- #1 + #3 * EVar vlmMst1 - #3 * EVar vlmMst2) * EPow P2 (EVar
   vMt) * EPow P2 (EVar vMuSUSY) * EPow P2 (EVar vs2t) * (- #1 + EPow P2 (EVar vSbeta)) * EPow P6 (EVar vMst1) + (- #4
   * EPow P2 (EVar vMt) * EPow P2 (EVar vs2t) * (EPow P2 (EVar vMuSUSY) * (- #1 + EPow P2 (EVar vSbeta)) + #2 * EPow
   P2 (EVar vMst2) * EPow P2 (EVar vSbeta)) + EPow P2 (EVar vSbeta) * (#16 * EPow P4 (EVar vMt) + EPow P4 (EVar vMst2)
   * EPow P4 (EVar vs2t))) * EPow P6 (EVar vMst2) + EPow P4 (EVar vMst1) * (#8 * (- #1 + #2 * EVar vlmMst1 - #2 * EVar
   vlmMst2) * EPow P2 (EVar vMst2) * EPow P2 (EVar vMt) * EPow P2 (EVar vMuSUSY) * EPow P2 (EVar vs2t) * (- #1 + EPow
   P2 (EVar vSbeta)) + (#3 + #2 * EVar vlmMst1 - #2 * EVar vlmMst2) * EPow P2 (EVar vSbeta) * EPow P4 (EVar vs2t) *
   EPow P6 (EVar vMst2))) + EPow P4 (EVar vMst1) * (#8 * (EVar vDmglst2 * (#7286 - #240 * EVar vlmMst1 + #6384 * EVar
   vlmMst2) + (- #353 + #72 * EVar vlmMst1 + #696 * EVar vlmMst2) * EVar vMgl) * EPow P2 (EVar vMuSUSY) * EPow P4
   (EVar vMsq) * EPow P4 (EVar vMt) - #105 * (#6 * EVar vDmglst2 + EVar vMgl) * EPow P2 (EVar vSbeta) * EPow P4 (EVar
   vs2t) * EPow P10 (EVar vMst2))) + EPow P2 (EVar vSbeta) * (- #21 * EPow P4 (EVar vs2t) * EPow P5 (EVar vMst2) * (#6
   * EPow P2 (EVar vMsq) * ((#24 * EVar vDmglst2 * (#3892 + #1350 * EVar vlmMsq + #705 * EVar vlmMst1 - #3345 * EVar
   vlmMst2) + (- #235099 + #16200 * EVar vlmMsq + #28620 * EVar vlmMst1 - #60300 * EVar vlmMst2) * EVar vMgl) * EPow
   P2 (EVar vMsq) - #2700 * (#2 * EVar vDmglst2 + EVar vMgl) * EPow P2 (EVar vMst1)) * EPow P2 (EVar vMst2) * EPow P4
   (EVar vMst1) - #90 * EPow P2 (EVar vMst1) * (EVar vMgl * (- #600 * EPow P2 (EVar vMsq) * EPow P2 (EVar vMst1) + #2
   * (#529 + #450 * EVar vlmMsq + #642 * EVar vlmMst1 - #1362 * EVar vlmMst2) * EPow P4 (EVar vMsq) + #75 * EPow P4
   (EVar vMst1)) + EVar vDmglst2 * (- #2400 * EPow P2 (EVar vMsq) * EPow P2 (EVar vMst1) + (- #6094 + #2160 * EVar
   vlmMsq + #2736 * EVar vlmMst1 - #6960 * EVar vlmMst2) * EPow P4 (EVar vMsq) + #300 * EPow P4 (EVar vMst1))) * EPow
   P4 (EVar vMst2) + (EVar vDmglst2 * (#8800364 - #855360 * EVar vlmMst1 + #855360 * EVar vlmMst2) - #15 * (#150437 +
   #3240 * EVar vlmMsq - #3996 * EVar vlmMst1 - #8100 * EVar vlmMst2) * EVar vMgl) * EPow P4 (EVar vMsq) * EPow P6
   (EVar vMst1) / #3 + #1080 * EPow P2 (EVar vMsq) * ((#92 * EVar vDmglst2 + #49 * EVar vMgl) * EPow P2 (EVar vMsq) -
   #5 * (#34 * EVar vDmglst2 + #7 * EVar vMgl) * EPow P2 (EVar vMst1)) * EPow P6 (EVar vMst2)) + #84 * EVar vMt * EPow
   P2 (EVar vMst1) * EPow P3 (EVar vs2t) * EPow P4 (EVar vMst2) * (EPow P4 (EVar vMsq) * (#30 * (EVar vDmglst2 * (EDec
   467482 1 + #2160 * EVar vlmMsq - #11736 * EVar vlmMst1 + #7128 * EVar vlmMst2) + (- #7913 + #2160 * EVar vlmMsq +
   #5976 * EVar vlmMst1 - #10584 * EVar vlmMst2) * EVar vMgl) * EPow P2 (EVar vMst1) * EPow P2 (EVar vMst2) + (EVar
   vDmglst2 * (#8194483 - #2329560 * EVar vlmMst1 + #2329560 * EVar vlmMst2) + #51 * (- #6167 + #9720 * EVar vlmMst1 -
   #9720 * EVar vlmMst2) * EVar vMgl) * EPow P4 (EVar vMst1) / #3) + #135 * EPow P2 (EVar vMsq) * ((EVar vDmglst2 *
   (EDec 18556466666666667 12 - #5280 * EVar vlmMsq + #248 * EVar vlmMst1 + #7944 * EVar vlmMst2) + (#3469 - #1440 *
   EVar vlmMsq + #664 * EVar vlmMst1 + #1384 * EVar vlmMst2) * EVar vMgl) * EPow P2 (EVar vMsq) + #320 * (#3 * EVar
   vDmglst2 + EVar vMgl) * EPow P2 (EVar vMst1) - #640 * (#6 * EVar vDmglst2 + EVar vMgl) * EPow P2 (EVar vMst2)) *
   EPow P4 (EVar vMst2) + #5400 * (#3 * (#5 * EVar vDmglst2 + EVar vMgl) * EPow P2 (EVar vMst1) - #41 * EVar vDmglst2
   * EPow P2 (EVar vMst2)) * EPow P6 (EVar vMst2)) - #28 * EVar vMst2 * EPow P2 (EVar vMt) * EPow P2 (EVar vs2t) * (-
   #3 * EVar vMgl * EPow P4 (EVar vMsq) * (- #6 * EPow P2 (EVar vMst2) * (#4 * (#73931 + #3060 * EVar vlmMst1 - #3060
   * EVar vlmMst2) * EPow P2 (EVar vMst2) + (#240379 + #10800 * EVar vlmMsq + #9900 * EVar vlmMst1 - #21420 * EVar
   vlmMst2) * EPow P2 (EVar vMuSUSY)) * EPow P4 (EVar vMst1) + #9 * EPow P2 (EVar vMst1) * ((#17923 - #13560 * EVar
   vlmMst1 + #36600 * EVar vlmMst2) * EPow P2 (EVar vMst2) + #20 * (#59 - #450 * EVar vlmMsq - #642 * EVar vlmMst1 +
   #1362 * EVar vlmMst2) * EPow P2 (EVar vMuSUSY)) * EPow P4 (EVar vMst2) - ((#3321329 + #210600 * EVar vlmMst1 -
   #210600 * EVar vlmMst2) * EPow P2 (EVar vMst2) + (#3647353 + #64800 * EVar vlmMsq - #16740 * EVar vlmMst1 - #52380
   * EVar vlmMst2) * EPow P2 (EVar vMuSUSY)) * EPow P6 (EVar vMst1) + #52920 * (#2 * EPow P2 (EVar vMst2) + EPow P2
   (EVar vMuSUSY)) * EPow P6 (EVar vMst2)) - #4 * EVar vDmglst2 * EPow P4 (EVar vMsq) * (#162 * EPow P2 (EVar vMst2) *
   (#40 * (#275 + #34 * EVar vlmMst1 + #62 * EVar vlmMst2) * EPow P2 (EVar vMst2) + (#9053 - #900 * EVar vlmMsq -
   #1810 * EVar vlmMst1 + #3570 * EVar vlmMst2) * EPow P2 (EVar vMuSUSY)) * EPow P4 (EVar vMst1) + #27 * EPow P2 (EVar
   vMst1) * (#4 * (#3499 - #270 * EVar vlmMst1 + #8910 * EVar vlmMst2) * EPow P2 (EVar vMst2) + #5 * (#4151 - #1080 *
   EVar vlmMsq - #1368 * EVar vlmMst1 + #3480 * EVar vlmMst2) * EPow P2 (EVar vMuSUSY)) * EPow P4 (EVar vMst2) + #2 *
   (#45 * (#78533 + #6732 * EVar vlmMst1 + #180 * EVar vlmMst2) * EPow P2 (EVar vMst2) + (#2286439 - #72900 * EVar
   vlmMsq - #307800 * EVar vlmMst1 + #450360 * EVar vlmMst2) * EPow P2 (EVar vMuSUSY)) * EPow P6 (EVar vMst1) + #74520
   * (#2 * EPow P2 (EVar vMst2) + EPow P2 (EVar vMuSUSY)) * EPow P6 (EVar vMst2)) + #4050 * EVar vMgl * EPow P2 (EVar
   vMst1) * EPow P2 (EVar vMuSUSY) * (#4 * EPow P4 (EVar vMst1) * EPow P4 (EVar vMst2) + #4 * EPow P2 (EVar vMst1) *
   EPow P6 (EVar vMst2) + #4 * EPow P2 (EVar vMsq) * (#4 * EPow P2 (EVar vMst2) * EPow P4 (EVar vMst1) + #4 * EPow P2
   (EVar vMst1) * EPow P4 (EVar vMst2) + #7 * EPow P6 (EVar vMst2)) + #9 * EPow P8 (EVar vMst2)) + #16200 * EVar
   vDmglst2 * EPow P2 (EVar vMst1) * EPow P2 (EVar vMuSUSY) * (#11 * EPow P4 (EVar vMst1) * EPow P4 (EVar vMst2) + #11
   * EPow P2 (EVar vMst1) * EPow P6 (EVar vMst2) + EPow P2 (EVar vMsq) * (#28 * EPow P2 (EVar vMst2) * EPow P4 (EVar
   vMst1) + #28 * EPow P2 (EVar vMst1) * EPow P4 (EVar vMst2) + #34 * EPow P6 (EVar vMst2)) + #16 * EPow P8 (EVar
   vMst2))) - #16 * EVar vMst2 * EPow P4 (EVar vMt) * (- #4 * EVar vDmglst2 * EPow P4 (EVar vMsq) * (#27 * EPow P2
   (EVar vMst1) * EPow P2 (EVar vMst2) * ((#114841 - #1680 * EVar vlmMst1 + #31920 * EVar vlmMst2 + #23520 * EVar
   vlmMt) * EPow P2 (EVar vMst2) - #6720 * (#5 + #6 * EVar vlmMst2) * EPow P2 (EVar vMuSUSY)) + #9 * ((#2655197 +
   #75600 * EVar vlmMsq - #325080 * EVar vlmMst1 + #778680 * EVar vlmMst2 - #10080 * EVar vlmMt) * EPow P2 (EVar
   vMst2) + #105 * (- #3643 + #120 * EVar vlmMst1 - #3192 * EVar vlmMst2) * EPow P2 (EVar vMuSUSY)) * EPow P4 (EVar
   vMst1) + #4 * (#17026487 + #1530900 * EVar vlmMsq - #3163860 * EVar vlmMst1 + #4320540 * EVar vlmMst2 - #340200 *
   EVar vlmMt) * EPow P6 (EVar vMst1) - #521640 * EPow P6 (EVar vMst2)) - #453600 * EVar vDmglst2 * EPow P2 (EVar
   vMst1) * (#3 * EPow P2 (EVar vMsq) * EPow P2 (EVar vMst2) * (EPow P4 (EVar vMst1) - EPow P4 (EVar vMst2)) - #4 *
   EPow P8 (EVar vMst2)) + #21 * EVar vMgl * (EPow P4 (EVar vMsq) * (#9 * EPow P2 (EVar vMst1) * EPow P2 (EVar vMst2)
   * ((#54383 + #3600 * EVar vlmMsq - #12480 * EVar vlmMst1 + #25020 * EVar vlmMst2 - #13980 * EVar vlmMt) * EPow P2
   (EVar vMst2) + #160 * (#53 + #24 * EVar vlmMst2) * EPow P2 (EVar vMuSUSY)) + #3 * ((#310039 + #21600 * EVar vlmMsq
   - #91080 * EVar vlmMst1 + #123480 * EVar vlmMst2 - #43920 * EVar vlmMt) * EPow P2 (EVar vMst2) + #30 * (- #353 +
   #72 * EVar vlmMst1 + #696 * EVar vlmMst2) * EPow P2 (EVar vMuSUSY)) * EPow P4 (EVar vMst1) + #2 * (#610669 +
   #145800 * EVar vlmMsq - #300240 * EVar vlmMst1 + #249480 * EVar vlmMst2 - #78840 * EVar vlmMt) * EPow P6 (EVar
   vMst1) + #52920 * EPow P6 (EVar vMst2)) + #10800 * EPow P2 (EVar vMsq) * (#3 * EPow P2 (EVar vMst2) * EPow P6 (EVar
   vMst1) + #5 * EPow P2 (EVar vMst1) * EPow P6 (EVar vMst2)) + #37800 * EPow P2 (EVar vMst1) * EPow P8 (EVar vMst2)))
   - #56 * EVar vs2t * EPow P2 (EVar vMst1) * EPow P3 (EVar vMt) * (EVar vDmglst2 * EPow P2 (EVar vMst2) * (EPow P4
   (EVar vMsq) * (#27 * EPow P2 (EVar vMst2) * (#30 * (#2029 + #960 * EVar vlmMsq + #248 * EVar vlmMst1 - #2872 * EVar
   vlmMst2 - #448 * EVar vlmMt) * EPow P2 (EVar vMst2) + (#278347 - #79200 * EVar vlmMsq + #3720 * EVar vlmMst1 +
   #119160 * EVar vlmMst2) * EPow P2 (EVar vMuSUSY)) + #18 * EPow P2 (EVar vMst1) * (#3 * (#438149 - #26520 * EVar
   vlmMst1 + #60600 * EVar vlmMst2 - #3360 * EVar vlmMt) * EPow P2 (EVar vMst2) + #2 * (#534391 - #113400 * EVar
   vlmMsq - #23760 * EVar vlmMst1 + #196560 * EVar vlmMst2) * EPow P2 (EVar vMuSUSY)) + #8 * (#9227767 + #291600 *
   EVar vlmMsq - #754920 * EVar vlmMst1 + #1088640 * EVar vlmMst2 - #22680 * EVar vlmMt) * EPow P4 (EVar vMst1)) +
   #129600 * EPow P2 (EVar vMsq) * (- #3 * EPow P2 (EVar vMuSUSY) * (#7 * EPow P2 (EVar vMst1) * EPow P2 (EVar vMst2)
   + #10 * EPow P4 (EVar vMst1) + #4 * EPow P4 (EVar vMst2)) + #14 * EPow P6 (EVar vMst2)) + #16200 * (- (EPow P2
   (EVar vMuSUSY) * (#93 * EPow P2 (EVar vMst2) * EPow P4 (EVar vMst1) + #67 * EPow P2 (EVar vMst1) * EPow P4 (EVar
   vMst2) + #41 * EPow P6 (EVar vMst2))) + #88 * EPow P8 (EVar vMst2))) + #3 * EVar vMgl * (- (EPow P4 (EVar vMsq) *
   (#6 * EPow P2 (EVar vMst1) * EPow P2 (EVar vMst2) * ((#470657 - #86040 * EVar vlmMst1 + #178200 * EVar vlmMst2) *
   EPow P2 (EVar vMst2) - #20 * (#5827 - #2700 * EVar vlmMsq + #2988 * EVar vlmMst1 + #468 * EVar vlmMst2) * EPow P2
   (EVar vMuSUSY)) + #2 * (#4 * (#574759 + #32400 * EVar vlmMsq - #97200 * EVar vlmMst1 + #131760 * EVar vlmMst2) *
   EPow P2 (EVar vMst2) + (- #412663 + #226800 * EVar vlmMsq - #396360 * EVar vlmMst1 + #119880 * EVar vlmMst2) * EPow
   P2 (EVar vMuSUSY)) * EPow P4 (EVar vMst1) + #9 * (#2 * (#86693 - #14400 * EVar vlmMsq - #9960 * EVar vlmMst1 +
   #52680 * EVar vlmMst2 + #3360 * EVar vlmMt) * EPow P2 (EVar vMst2) - #15 * (#3469 - #1440 * EVar vlmMsq + #664 *
   EVar vlmMst1 + #1384 * EVar vlmMst2) * EPow P2 (EVar vMuSUSY)) * EPow P4 (EVar vMst2))) + #43200 * EPow P2 (EVar
   vMsq) * (- (EPow P2 (EVar vMuSUSY) * (#4 * EPow P2 (EVar vMst2) * EPow P4 (EVar vMst1) + #3 * EPow P2 (EVar vMst1)
   * EPow P4 (EVar vMst2) + #2 * EPow P6 (EVar vMst2))) + #6 * EPow P8 (EVar vMst2)) + #5400 * (- (EPow P2 (EVar
   vMuSUSY) * (#9 * EPow P4 (EVar vMst1) * EPow P4 (EVar vMst2) + #7 * EPow P2 (EVar vMst1) * EPow P6 (EVar vMst2) +
   #5 * EPow P8 (EVar vMst2))) + #24 * EPow P10 (EVar vMst2))))))) / (#408240 * EPow P2 (EVar vMst1) * EPow P4 (EVar
   vMsq))) / (EVar vMgl * EVar vTbeta * EPow P2 (EVar vSbeta) * EPow P5 (EVar vMst2)).

(** H6g2.cpp:3125-4257 *)
Definition H6g2_getS12 : expr :=
  (- (EVar vAl4p * EVar vMuSUSY * EConst Cz2 * (- #68040 * EVar vMt * EVar vtwoLoopFlag * EPow P2 (EVar vMst1) * EPow P4
   (EVar vMsq) * (EVar vMgl * EPow P2 (EVar vMst2) * (#2 * EVar vMt * EVar vMuSUSY * EVar vs2t * (#4 * EVar vMt * ((#9
   * EVar vDmglst2 + EVar vMgl) * EPow P2 (EVar vMst1) * EPow P2 (EVar vMst2) + (#13 * EVar vDmglst2 + EVar vMgl) *
   EPow P4 (EVar vMst1) + (#5 * EVar vDmglst2 + EVar vMgl) * EPow P4 (EVar vMst2)) - EVar vMst2 * EVar vs2t * (EVar
   vMgl * EPow P4 (EVar vMst2) + #4 * EVar vDmglst2 * (EPow P2 (EVar vMst1) * EPow P2 (EVar vMst2) + EPow P4 (EVar
   vMst1) + EPow P4 (EVar vMst2)))) + EVar vTbeta * (#16 * EPow P3 (EVar vMt) * (- #2 * EVar vMgl * EPow P2 (EVar
   vMst1) * EPow P2 (EVar vMst2) + #3 * (EVar vDmglst2 - EVar vMgl) * EPow P4 (EVar vMst1) - (EVar vDmglst2 + EVar
   vMgl) * EPow P4 (EVar vMst2)) - #6 * EVar vMt * EPow P2 (EVar vMst2) * EPow P2 (EVar vs2t) * (#4 * EVar vDmglst2 *
   EPow P2 (EVar vMst1) * (EPow P2 (EVar vMst1) + EPow P2 (EVar vMst2)) + (#5 * EVar vDmglst2 + EVar vMgl) * EPow P4
   (EVar vMst2)) + (#4 * EVar vDmglst2 * EPow P2 (EVar vMst2) + EVar vMgl * (- EPow P2 (EVar vMst1) + EPow P2 (EVar
   vMst2))) * EPow P3 (EVar vs2t) * EPow P5 (EVar vMst2))) + #4 * EVar vMt * EVar vxMst * (EVar vxDmglst2 * EPow P2
   (EVar vDmglst2) * (#82 * EVar vMt * EVar vMuSUSY * EVar vs2t - #56 * EVar vTbeta * EPow P2 (EVar vMt) - #3 * EVar
   vMst2 * (EVar vMuSUSY + #5 * EVar vMst2 * EVar vTbeta) * EPow P2 (EVar vs2t)) + #2 * EVar vMgl * (EVar vMgl * EVar
   vMt * (EVar vMuSUSY * EVar vs2t - #8 * EVar vMt * EVar vTbeta) + EVar vDmglst2 * (#17 * EVar vMt * EVar vMuSUSY *
   EVar vs2t + #16 * EVar vTbeta * EPow P2 (EVar vMt) - EVar vMst2 * (EVar vMuSUSY + #3 * EVar vMst2 * EVar vTbeta) *
   EPow P2 (EVar vs2t)))) * EPow P6 (EVar vMst1)) + EPow P2 (EVar vMst2) * (#9 * EVar vMt * EVar vxDmglst2 * EPow P2
   (EVar vDmglst2) * (- #15120 * EVar vtwoLoopFlag * EPow P2 (EVar vMst1) * EPow P4 (EVar vMsq) * (- #6 * EVar vMst2 *
   EVar vMt * EVar vMuSUSY * EPow P2 (EVar vs2t) * (EPow P2 (EVar vMst1) * EPow P2 (EVar vMst2) + EPow P4 (EVar vMst1)
   + EPow P4 (EVar vMst2)) - #8 * EVar vTbeta * EPow P3 (EVar vMt) * (EPow P2 (EVar vMst1) * EPow P2 (EVar vMst2) + #4
   * EPow P4 (EVar vMst1) + EPow P4 (EVar vMst2)) - #3 * EVar vMt * EVar vTbeta * EPow P2 (EVar vMst2) * EPow P2 (EVar
   vs2t) * (#10 * EPow P2 (EVar vMst1) * (EPow P2 (EVar vMst1) + EPow P2 (EVar vMst2)) + #11 * EPow P4 (EVar vMst2)) +
   #4 * EVar vMuSUSY * EVar vs2t * EPow P2 (EVar vMt) * (#21 * EPow P2 (EVar vMst1) * EPow P2 (EVar vMst2) + #31 *
   EPow P4 (EVar vMst1) + #11 * EPow P4 (EVar vMst2)) + #3 * EVar vTbeta * EPow P3 (EVar vs2t) * EPow P7 (EVar vMst2))
   + EVar vAl4p * EVar vMst2 * EVar vthreeLoopFlag * (#113400 * EPow P2 (EVar vMsq) * (- (EPow P3 (EVar vMst2) * (-
   #2304 * EVar vMuSUSY * EVar vs2t * EPow P2 (EVar vMt) + #4 * EVar vMst2 * EVar vMt * (#41 * EVar vMuSUSY + #198 *
   EVar vMst2 * EVar vTbeta) * EPow P2 (EVar vs2t) + #416 * EVar vTbeta * EPow P3 (EVar vMt) + #9 * EVar vTbeta * EPow
   P3 (EVar vMst2) * EPow P3 (EVar vs2t)) * EPow P4 (EVar vMst1)) + #13 * EPow P2 (EVar vMst1) * (#96 * EVar vMuSUSY *
   EVar vs2t * EPow P2 (EVar vMt) - #2 * EVar vMst2 * EVar vMt * (#7 * EVar vMuSUSY + #36 * EVar vMst2 * EVar vTbeta)
   * EPow P2 (EVar vs2t) - #32 * EVar vTbeta * EPow P3 (EVar vMt) + #7 * EVar vTbeta * EPow P3 (EVar vMst2) * EPow P3
   (EVar vs2t)) * EPow P5 (EVar vMst2) - #8 * EVar vMst2 * EVar vMt * (- #120 * EVar vMt * EVar vMuSUSY * EVar vs2t +
   #28 * EVar vTbeta * EPow P2 (EVar vMt) + EVar vMst2 * (#7 * EVar vMuSUSY + #27 * EVar vMst2 * EVar vTbeta) * EPow
   P2 (EVar vs2t)) * EPow P6 (EVar vMst1)) + EPow P4 (EVar vMsq) * (- #3 * EPow P4 (EVar vMst1) * (#8 * EVar vMst2 *
   EVar vs2t * (#7 * (#3255761 - #1458000 * EVar vlmMsq - #351000 * EVar vlmMst1 + #2631960 * EVar vlmMst2) * EVar
   vMuSUSY + #36 * (- #371369 + #7875 * EVar vlmMst1 - #320355 * EVar vlmMst2) * EVar vMst2 * EVar vTbeta) * EPow P2
   (EVar vMt) - #7 * EVar vMt * (#40 * (#47953 - #14580 * EVar vlmMsq - #25650 * EVar vlmMst1 + #54162 * EVar vlmMst2)
   * EVar vMuSUSY + #3 * (#2489911 - #1425600 * EVar vlmMsq - #716040 * EVar vlmMst1 + #2927880 * EVar vlmMst2) * EVar
   vMst2 * EVar vTbeta) * EPow P2 (EVar vMst2) * EPow P2 (EVar vs2t) + #32 * (#315 * (#3643 - #120 * EVar vlmMst1 +
   #3192 * EVar vlmMst2) * EVar vMuSUSY + #2 * (- #1161746 + #56700 * EVar vlmMsq + #6615 * EVar vlmMst1 - #222075 *
   EVar vlmMst2 + #34020 * EVar vlmMt) * EVar vMst2 * EVar vTbeta) * EPow P3 (EVar vMt) + #14 * (#131737 - #96660 *
   EVar vlmMst1 + #96660 * EVar vlmMst2) * EVar vTbeta * EPow P3 (EVar vs2t) * EPow P4 (EVar vMst2)) - #9 * EPow P2
   (EVar vMst1) * EPow P2 (EVar vMst2) * (#4 * (EVar vMst2 * EVar vs2t * (#7 * (#1340537 - #496800 * EVar vlmMsq +
   #4680 * EVar vlmMst1 + #778680 * EVar vlmMst2) * EVar vMuSUSY + #18 * (- #74087 + #1820 * EVar vlmMst1 - #230300 *
   EVar vlmMst2) * EVar vMst2 * EVar vTbeta) + EVar vMt * (#1344 * (#617 + #2040 * EVar vlmMst2) * EVar vMuSUSY +
   (#718271 + #302400 * EVar vlmMsq + #32760 * EVar vlmMst1 - #955080 * EVar vlmMst2 - #45360 * EVar vlmMt) * EVar
   vMst2 * EVar vTbeta)) * EPow P2 (EVar vMt) - #7 * EVar vMt * (#4 * (#115931 - #48600 * EVar vlmMsq - #53280 * EVar
   vlmMst1 + #148320 * EVar vlmMst2) * EVar vMuSUSY + #3 * (#1340537 - #496800 * EVar vlmMsq + #4680 * EVar vlmMst1 +
   #778680 * EVar vlmMst2) * EVar vMst2 * EVar vTbeta) * EPow P2 (EVar vMst2) * EPow P2 (EVar vs2t) + #14 * (#90011 -
   #48600 * EVar vlmMsq - #53280 * EVar vlmMst1 + #148320 * EVar vlmMst2) * EVar vTbeta * EPow P3 (EVar vs2t) * EPow
   P4 (EVar vMst2)) + EVar vs2t * (#14 * (#8 * (#2286439 - #72900 * EVar vlmMsq - #307800 * EVar vlmMst1 + #450360 *
   EVar vlmMst2) * EVar vMt * EVar vMuSUSY * EVar vs2t + #15 * (#1991719 - #194400 * EVar vlmMsq - #328536 * EVar
   vlmMst1 + #618840 * EVar vlmMst2) * EVar vMst2 * EVar vMt * EVar vs2t * EVar vTbeta + #72 * (#520939 + #44280 *
   EVar vlmMst1 + #76680 * EVar vlmMst2) * EVar vTbeta * EPow P2 (EVar vMt) + #8 * (- #776573 + #80595 * EVar vlmMst1
   - #80595 * EVar vlmMst2) * EVar vTbeta * EPow P2 (EVar vMst2) * EPow P2 (EVar vs2t)) * EPow P6 (EVar vMst1) -
   #3265920 * (- #2 * EVar vMt * EVar vMuSUSY * EVar vs2t - #4 * EVar vTbeta * EPow P2 (EVar vMt) + EVar vTbeta * EPow
   P2 (EVar vMst2) * EPow P2 (EVar vs2t)) * EPow P6 (EVar vMst2))) + #56700 * (- ((- #2504 * EVar vMuSUSY * EVar vs2t
   * EPow P2 (EVar vMt) + #2 * EVar vMst2 * EVar vMt * (#97 * EVar vMuSUSY + #402 * EVar vMst2 * EVar vTbeta) * EPow
   P2 (EVar vs2t) + #928 * EVar vTbeta * EPow P3 (EVar vMt) + #25 * EVar vTbeta * EPow P3 (EVar vMst2) * EPow P3 (EVar
   vs2t)) * EPow P4 (EVar vMst1) * EPow P5 (EVar vMst2)) - #4 * EVar vMt * (- #186 * EVar vMt * EVar vMuSUSY * EVar
   vs2t + #88 * EVar vTbeta * EPow P2 (EVar vMt) + EVar vMst2 * (#11 * EVar vMuSUSY + #39 * EVar vMst2 * EVar vTbeta)
   * EPow P2 (EVar vs2t)) * EPow P3 (EVar vMst2) * EPow P6 (EVar vMst1) + #2 * EPow P2 (EVar vMst1) * (#716 * EVar
   vMuSUSY * EVar vs2t * EPow P2 (EVar vMt) - EVar vMst2 * EVar vMt * (#122 * EVar vMuSUSY + #537 * EVar vMst2 * EVar
   vTbeta) * EPow P2 (EVar vs2t) - #464 * EVar vTbeta * EPow P3 (EVar vMt) + #61 * EVar vTbeta * EPow P3 (EVar vMst2)
   * EPow P3 (EVar vs2t)) * EPow P7 (EVar vMst2))) / #9) + #7 * EVar vAl4p * EVar vthreeLoopFlag * (- #97200 * EVar
   vMst2 * EVar vMt * EVar vs2t * EVar vxMsq * EPow P2 (EVar vMgl) * (EVar vTbeta * EPow P2 (EVar vMst2) * (#4 * (- #1
   + EVar vshiftst2) * EPow P2 (EVar vMst1) * EPow P2 (EVar vMt) - (EVar vshiftst1 - EVar vshiftst2 + (EVar vlmMst1 -
   EVar vlmMst2) * (- #2 + EVar vshiftst1 + EVar vshiftst2)) * EPow P2 (EVar vMst1) * EPow P2 (EVar vMst2) * EPow P2
   (EVar vs2t) + (- #1 + EVar vshiftst1) * EPow P2 (EVar vMst2) * (- #4 * EPow P2 (EVar vMt) + EPow P2 (EVar vMst2) *
   EPow P2 (EVar vs2t)) - (- #1 + EVar vshiftst2) * EPow P2 (EVar vs2t) * EPow P4 (EVar vMst1)) + #2 * EVar vMt * EVar
   vMuSUSY * EVar vs2t * ((#1 - #2 * EVar vlmMst2 * (- #1 + EVar vshiftst1)) * EPow P2 (EVar vMst1) * EPow P2 (EVar
   vMst2) + #2 * EVar vlmMst1 * (- #1 + EVar vshiftst1) * EPow P2 (EVar vMst1) * EPow P2 (EVar vMst2) + EVar vshiftst2
   * EPow P2 (EVar vMst1) * (#2 * EPow P2 (EVar vMst1) + EPow P2 (EVar vMst2)) - #2 * EVar vlmMst1 * (#1 - #2 * EVar
   vshiftst1 + EVar vshiftst2) * EPow P4 (EVar vMst1) + #2 * EVar vlmMst2 * (#1 - #2 * EVar vshiftst1 + EVar
   vshiftst2) * EPow P4 (EVar vMst1) + EPow P4 (EVar vMst2) - EVar vshiftst1 * (#2 * EPow P2 (EVar vMst1) * EPow P2
   (EVar vMst2) + #2 * EPow P4 (EVar vMst1) + EPow P4 (EVar vMst2)))) * EPow P6 (EVar vMsq) - #3240 * EVar vMt * EVar
   vxDR2DRMOD * EPow P4 (EVar vMsq) * (EVar vMst2 * EVar vxDmglst2 * EPow P2 (EVar vDmglst2) * (- (EVar vMst2 * EVar
   vTbeta * (#64 * EVar vMt * EPow P2 (EVar vMst1) * (#4 * (#2 * EPow P2 (EVar vMst2) - EVar vlmMst2 * (EPow P2 (EVar
   vMst1) + EPow P2 (EVar vMst2))) * EPow P2 (EVar vMt) + #3 * EPow P2 (EVar vs2t) * ((- #1 + #6 * EVar vlmMst2) *
   EPow P2 (EVar vMst2) * (EPow P2 (EVar vMst1) + EPow P2 (EVar vMst2)) + (#1 + #3 * EVar vlmMst2) * EPow P4 (EVar
   vMst1))) + EPow P3 (EVar vMst2) * (#528 * EVar vs2t * (EPow P2 (EVar vMst1) - EPow P2 (EVar vMst2)) * EPow P2 (EVar
   vMt) - #3 * EPow P3 (EVar vs2t) * (#8 * (- #8 + #33 * EVar vlmMst1 - #21 * EVar vlmMst2) * EPow P2 (EVar vMst1) *
   EPow P2 (EVar vMst2) / #3 + #44 * EPow P4 (EVar vMst1) - #44 * EPow P4 (EVar vMst2))))) + #8 * EVar vMt * EVar
   vMuSUSY * EVar vs2t * ((#32 * (- #1 + #6 * EVar vlmMst2) * EVar vMt + (#49 - #66 * EVar vlmMst1 + #42 * EVar
   vlmMst2) * EVar vMst2 * EVar vs2t) * EPow P2 (EVar vMst1) * EPow P3 (EVar vMst2) + #2 * EVar vMst2 * (#32 * (- #1 +
   #6 * EVar vlmMst2) * EVar vMt + (#8 - #33 * EVar vlmMst1 + #21 * EVar vlmMst2) * EVar vMst2 * EVar vs2t) * EPow P4
   (EVar vMst1) + (- #46 * EVar vlmMst1 * EVar vs2t + #30 * EVar vlmMst2 * EVar vs2t) * EPow P6 (EVar vMst1) + #33 *
   EVar vs2t * EPow P6 (EVar vMst2))) + EVar vMgl * (- (EVar vTbeta * (#64 * EVar vMt * EPow P2 (EVar vMst1) * (#3 *
   (EVar vDmglst2 + #3 * EVar vDmglst2 * EVar vlmMst2 + EVar vMgl + EVar vlmMst2 * EVar vMgl) * EPow P2 (EVar vMst2) *
   EPow P2 (EVar vs2t) * (EPow P2 (EVar vMst1) * EPow P2 (EVar vMst2) + EPow P4 (EVar vMst1) + EPow P4 (EVar vMst2)) +
   #4 * EPow P2 (EVar vMt) * (EVar vDmglst2 * (#7 + EVar vlmMst2) * EPow P2 (EVar vMst1) * EPow P2 (EVar vMst2) - EVar
   vDmglst2 * (- #1 + EVar vlmMst2) * EPow P4 (EVar vMst2) - (#1 + EVar vlmMst2) * EVar vMgl * (#3 * EPow P2 (EVar
   vMst1) * EPow P2 (EVar vMst2) + #6 * EPow P4 (EVar vMst1) + EPow P4 (EVar vMst2)))) + (#16 * (#23 * EVar vDmglst2 +
   #13 * EVar vMgl) * EVar vs2t * (EPow P2 (EVar vMst1) - EPow P2 (EVar vMst2)) * EPow P2 (EVar vMt) - EPow P3 (EVar
   vs2t) * (#8 * (EVar vDmglst2 * (#23 * EVar vlmMst1 - #15 * EVar vlmMst2) + (#4 + #13 * EVar vlmMst1 - #9 * EVar
   vlmMst2) * EVar vMgl) * EPow P2 (EVar vMst1) * EPow P2 (EVar vMst2) + #4 * (#23 * EVar vDmglst2 + #13 * EVar vMgl)
   * (EPow P4 (EVar vMst1) - EPow P4 (EVar vMst2)))) * EPow P5 (EVar vMst2))) + EVar vMt * EVar vMuSUSY * EVar vs2t *
   (#256 * EVar vMt * EPow P2 (EVar vMst1) * (EVar vDmglst2 * (#1 + #3 * EVar vlmMst2) * EPow P2 (EVar vMst2) * (#2 *
   EPow P2 (EVar vMst1) + EPow P2 (EVar vMst2)) + (#1 + EVar vlmMst2) * EVar vMgl * (#2 * EPow P2 (EVar vMst1) * EPow
   P2 (EVar vMst2) + #3 * EPow P4 (EVar vMst1) + EPow P4 (EVar vMst2))) + #8 * EVar vMst2 * EVar vs2t * (- #2 * (EVar
   vDmglst2 * (#23 * EVar vlmMst1 - #15 * EVar vlmMst2) + (#4 + #13 * EVar vlmMst1 - #9 * EVar vlmMst2) * EVar vMgl) *
   (EPow P2 (EVar vMst1) + EPow P2 (EVar vMst2)) * EPow P4 (EVar vMst1) + (EVar vDmglst2 * (#23 - #46 * EVar vlmMst1 +
   #30 * EVar vlmMst2) + (#5 - #26 * EVar vlmMst1 + #18 * EVar vlmMst2) * EVar vMgl) * EPow P2 (EVar vMst1) * EPow P4
   (EVar vMst2) + (#23 * EVar vDmglst2 + #13 * EVar vMgl) * EPow P6 (EVar vMst2))))) + EVar vMgl * (- #3 * EVar vTbeta
   * (EPow P2 (EVar vMst1) * (#4 * (#9 * EVar vDmglst2 * EPow P2 (EVar vMst2) * ((#8 * (#57943 + #1800 * EVar vlmMsq -
   #2850 * EVar vlmMst1 + #2190 * EVar vlmMst2 - #1260 * EVar vlmMt) * EPow P2 (EVar vMst1) + #15 * (#1805 + #960 *
   EVar vlmMsq + #248 * EVar vlmMst1 - #2872 * EVar vlmMst2 - #448 * EVar vlmMt) * EPow P2 (EVar vMst2)) * EPow P4
   (EVar vMsq) + #2400 * (#14 * EPow P2 (EVar vMsq) + #11 * EPow P2 (EVar vMst2)) * (EPow P2 (EVar vMst1) * EPow P2
   (EVar vMst2) + EPow P4 (EVar vMst1) + EPow P4 (EVar vMst2))) + EVar vMgl * (#64800 * (#2 * EPow P2 (EVar vMsq) *
   EPow P2 (EVar vMst2) + EPow P4 (EVar vMst2)) * (EPow P2 (EVar vMst1) * EPow P2 (EVar vMst2) + EPow P4 (EVar vMst1)
   + EPow P4 (EVar vMst2)) - EPow P4 (EVar vMsq) * (#48 * (#45986 - #2700 * EVar vlmMsq - #7245 * EVar vlmMst1 +
   #21015 * EVar vlmMst2 + #630 * EVar vlmMt) * EPow P2 (EVar vMst1) * EPow P2 (EVar vMst2) + #4 * (#1126591 - #184140
   * EVar vlmMst1 + #383940 * EVar vlmMst2 + #7560 * EVar vlmMt) * EPow P4 (EVar vMst1) + #9 * (#88373 - #14400 * EVar
   vlmMsq - #9960 * EVar vlmMst1 + #52680 * EVar vlmMst2 + #3360 * EVar vlmMt) * EPow P4 (EVar vMst2)))) * EPow P4
   (EVar vMt) - #3 * EPow P2 (EVar vMst2) * EPow P2 (EVar vMt) * EPow P2 (EVar vs2t) * (#2 * (EVar vDmglst2 * (EDec
   33195316666666665 10 - #324000 * EVar vlmMsq - #547560 * EVar vlmMst1 + #1031400 * EVar vlmMst2) + (#63043 - #64800
   * EVar vlmMsq + #217080 * EVar vlmMst1 - #147960 * EVar vlmMst2) * EVar vMgl) * EPow P4 (EVar vMsq) * EPow P4 (EVar
   vMst1) + #135 * (- #320 * (#9 * EVar vDmglst2 + EVar vMgl) * EPow P2 (EVar vMsq) * EPow P2 (EVar vMst1) + (EVar
   vDmglst2 * (EDec 18556466666666667 12 - #5280 * EVar vlmMsq + #248 * EVar vlmMst1 + #7944 * EVar vlmMst2) + (#3469
   - #1440 * EVar vlmMsq + #664 * EVar vlmMst1 + #1384 * EVar vlmMst2) * EVar vMgl) * EPow P4 (EVar vMsq) - #80 * (#13
   * EVar vDmglst2 + EVar vMgl) * EPow P4 (EVar vMst1)) * EPow P4 (EVar vMst2) + #15 * EPow P2 (EVar vMsq) * EPow P2
   (EVar vMst2) * ((EVar vDmglst2 * (EDec 2605046 1 - #43200 * EVar vlmMsq - #21240 * EVar vlmMst1 + #85752 * EVar
   vlmMst2) + (#15395 - #8640 * EVar vlmMsq + #17928 * EVar vlmMst1 - #8712 * EVar vlmMst2) * EVar vMgl) * EPow P2
   (EVar vMsq) * EPow P2 (EVar vMst1) - #2880 * (#9 * EVar vDmglst2 + EVar vMgl) * EPow P4 (EVar vMst1) - #5760 * (#6
   * EVar vDmglst2 + EVar vMgl) * EPow P4 (EVar vMst2)) - #5400 * EPow P3 (EVar vMst2) * (#2 * (#13 * EVar vDmglst2 +
   EVar vMgl) * EPow P2 (EVar vMst1) * EPow P3 (EVar vMst2) + (#41 * EVar vDmglst2 + #5 * EVar vMgl) * EPow P5 (EVar
   vMst2)))) + EVar vMt * EPow P3 (EVar vMst2) * EPow P3 (EVar vs2t) * (#180 * EPow P2 (EVar vMsq) * ((EVar vDmglst2 *
   (#3599 - #1080 * EVar vlmMsq - #1368 * EVar vlmMst1 + #3480 * EVar vlmMst2) - (#235 + #450 * EVar vlmMsq + #642 *
   EVar vlmMst1 - #1362 * EVar vlmMst2) * EVar vMgl) * EPow P2 (EVar vMsq) * EPow P2 (EVar vMst1) + #6 * ((#92 * EVar
   vDmglst2 + #49 * EVar vMgl) * EPow P2 (EVar vMsq) - #5 * (#34 * EVar vDmglst2 + #7 * EVar vMgl) * EPow P2 (EVar
   vMst1)) * EPow P2 (EVar vMst2) + #90 * (#2 * EVar vDmglst2 + EVar vMgl) * EPow P4 (EVar vMst1)) * EPow P4 (EVar
   vMst2) + EPow P4 (EVar vMsq) * (#6 * (#6 * EVar vDmglst2 * (#33563 - #4020 * EVar vlmMst1 + #4020 * EVar vlmMst2) +
   (- #242149 + #2700 * EVar vlmMsq + #9360 * EVar vlmMst1 - #19440 * EVar vlmMst2) * EVar vMgl) * EPow P2 (EVar
   vMst2) * EPow P4 (EVar vMst1) + (#16 * EVar vDmglst2 * (#776573 - #80595 * EVar vlmMst1 + #80595 * EVar vlmMst2) +
   #3 * (- #2205079 + #76140 * EVar vlmMst1 - #76140 * EVar vlmMst2) * EVar vMgl) * EPow P6 (EVar vMst1) / #3) + #1350
   * EPow P2 (EVar vMst1) * (#5 * (#4 * EVar vDmglst2 + EVar vMgl) * EPow P2 (EVar vMst1) - (#64 * EVar vDmglst2 + #9
   * EVar vMgl) * EPow P2 (EVar vMst2)) * EPow P6 (EVar vMst2)) + EPow P4 (EVar vMsq) * (#3240 * EVar vMgl * EVar
   vshiftst3 * (- (EPow P2 (EVar vMst2) * (#4 * EVar vs2t * EPow P3 (EVar vMt) + (#1 + EVar vlmMst1 - EVar vlmMst2) *
   EVar vMt * EPow P2 (EVar vMst1) * EPow P3 (EVar vs2t))) + EVar vMt * EPow P3 (EVar vs2t) * EPow P4 (EVar vMst2)) *
   EPow P5 (EVar vMst2) - #2 * EVar vMst2 * EVar vs2t * EPow P3 (EVar vMt) * (- (EVar vMgl * (#3 * (#502399 + #65160 *
   EVar vlmMst1 - #134280 * EVar vlmMst2) * EPow P2 (EVar vMst2) * EPow P4 (EVar vMst1) + #9 * (- #29683 + #13560 *
   EVar vlmMst1 - #36600 * EVar vlmMst2) * EPow P2 (EVar vMst1) * EPow P4 (EVar vMst2) + (#4828526 + #406080 * EVar
   vlmMst1 - #613440 * EVar vlmMst2) * EPow P6 (EVar vMst1) - #105840 * EPow P6 (EVar vMst2))) + #24 * EVar vDmglst2 *
   (#6 * (#21379 + #1770 * EVar vlmMst1 + #12630 * EVar vlmMst2) * EPow P2 (EVar vMst2) * EPow P4 (EVar vMst1) + #6 *
   (#4879 - #270 * EVar vlmMst1 + #8910 * EVar vlmMst2) * EPow P2 (EVar vMst1) * EPow P4 (EVar vMst2) + (#520939 +
   #44280 * EVar vlmMst1 + #76680 * EVar vlmMst2) * EPow P6 (EVar vMst1) + #8280 * EPow P6 (EVar vMst2))))) + #2 *
   EVar vMuSUSY * EPow P2 (EVar vMt) * (#2 * EVar vDmglst2 * EVar vMst2 * (#8100 * EVar vMst2 * EVar vs2t * EPow P2
   (EVar vMst1) * ((#186 * EVar vMt - #11 * EVar vMst2 * EVar vs2t) * EPow P2 (EVar vMst2) * EPow P4 (EVar vMst1) +
   (#134 * EVar vMt - #11 * EVar vMst2 * EVar vs2t) * EPow P2 (EVar vMst1) * EPow P4 (EVar vMst2) + #2 * EPow P2 (EVar
   vMsq) * (- #14 * (- #12 * EVar vMt + EVar vMst2 * EVar vs2t) * EPow P2 (EVar vMst1) * EPow P2 (EVar vMst2) + #2 *
   (#120 * EVar vMt - #7 * EVar vMst2 * EVar vs2t) * EPow P4 (EVar vMst1) + (#96 * EVar vMt - #17 * EVar vMst2 * EVar
   vs2t) * EPow P4 (EVar vMst2)) + #2 * (#41 * EVar vMt - #8 * EVar vMst2 * EVar vs2t) * EPow P6 (EVar vMst2)) + EPow
   P4 (EVar vMsq) * (- #27 * EPow P2 (EVar vMst1) * EPow P2 (EVar vMst2) * ((#278347 - #79200 * EVar vlmMsq + #3720 *
   EVar vlmMst1 + #119160 * EVar vlmMst2) * EVar vMst2 * EVar vMt * EVar vs2t + #7680 * (#5 + #6 * EVar vlmMst2) *
   EPow P2 (EVar vMt) + #10 * (- #4151 + #1080 * EVar vlmMsq + #1368 * EVar vlmMst1 - #3480 * EVar vlmMst2) * EPow P2
   (EVar vMst2) * EPow P2 (EVar vs2t)) - #36 * ((#534391 - #113400 * EVar vlmMsq - #23760 * EVar vlmMst1 + #196560 *
   EVar vlmMst2) * EVar vMst2 * EVar vMt * EVar vs2t + #30 * (#3643 - #120 * EVar vlmMst1 + #3192 * EVar vlmMst2) *
   EPow P2 (EVar vMt) + #9 * (- #9053 + #900 * EVar vlmMsq + #1810 * EVar vlmMst1 - #3570 * EVar vlmMst2) * EPow P2
   (EVar vMst2) * EPow P2 (EVar vs2t)) * EPow P4 (EVar vMst1) + EPow P2 (EVar vs2t) * (#4 * (#2286439 - #72900 * EVar
   vlmMsq - #307800 * EVar vlmMst1 + #450360 * EVar vlmMst2) * EPow P6 (EVar vMst1) + #149040 * EPow P6 (EVar
   vMst2)))) + #3 * EVar vMgl * (#1350 * EVar vs2t * EPow P2 (EVar vMst1) * EPow P2 (EVar vMst2) * ((#72 * EVar vMt -
   #4 * EVar vMst2 * EVar vs2t) * EPow P2 (EVar vMst2) * EPow P4 (EVar vMst1) - #4 * (- #14 * EVar vMt + EVar vMst2 *
   EVar vs2t) * EPow P2 (EVar vMst1) * EPow P4 (EVar vMst2) + #4 * EPow P2 (EVar vMsq) * (- #4 * (- #12 * EVar vMt +
   EVar vMst2 * EVar vs2t) * EPow P2 (EVar vMst1) * EPow P2 (EVar vMst2) + (#64 * EVar vMt - #4 * EVar vMst2 * EVar
   vs2t) * EPow P4 (EVar vMst1) + (#32 * EVar vMt - #7 * EVar vMst2 * EVar vs2t) * EPow P4 (EVar vMst2)) + (#40 * EVar
   vMt - #9 * EVar vMst2 * EVar vs2t) * EPow P6 (EVar vMst2)) + EPow P4 (EVar vMsq) * (- #90 * EPow P2 (EVar vMst1) *
   (#3 * (#3469 - #1440 * EVar vlmMsq + #664 * EVar vlmMst1 + #1384 * EVar vlmMst2) * EVar vMst2 * EVar vMt * EVar
   vs2t + #64 * (#53 + #24 * EVar vlmMst2) * EPow P2 (EVar vMt) - #2 * (#59 - #450 * EVar vlmMsq + #1362 * EVar
   vlmMst2 + #36 * (#1 + EVar vlmMst2) * EVar vshiftst3 - #6 * EVar vlmMst1 * (#107 + #6 * EVar vshiftst3)) * EPow P2
   (EVar vMst2) * EPow P2 (EVar vs2t)) * EPow P3 (EVar vMst2) + #6 * EVar vMst2 * (- #40 * (#5827 - #2700 * EVar
   vlmMsq + #2988 * EVar vlmMst1 + #468 * EVar vlmMst2) * EVar vMst2 * EVar vMt * EVar vs2t - #60 * (- #353 + #72 *
   EVar vlmMst1 + #696 * EVar vlmMst2) * EPow P2 (EVar vMt) - (#240379 + #10800 * EVar vlmMsq - #21420 * EVar vlmMst2
   - #1080 * (#1 + #2 * EVar vlmMst2) * EVar vshiftst3 + #180 * EVar vlmMst1 * (#55 + #12 * EVar vshiftst3)) * EPow P2
   (EVar vMst2) * EPow P2 (EVar vs2t)) * EPow P4 (EVar vMst1) - EVar vs2t * (#4 * (#412663 - #226800 * EVar vlmMsq +
   #396360 * EVar vlmMst1 - #119880 * EVar vlmMst2) * EVar vMt + EVar vMst2 * EVar vs2t * (#3647353 + #64800 * EVar
   vlmMsq - #52380 * EVar vlmMst2 - #6480 * (#1 + #3 * EVar vlmMst2) * EVar vshiftst3 + #540 * EVar vlmMst1 * (- #31 +
   #36 * EVar vshiftst3))) * EPow P6 (EVar vMst1) + #1080 * (#49 + #3 * EVar vshiftst3) * EPow P2 (EVar vs2t) * EPow
   P7 (EVar vMst2))))))))) + #1890 * EVar vMt * EVar vxMst * (#27 * (EVar vlmMst1 - EVar vlmMst2) * EVar vMst2 * EVar
   vMt * EVar voneLoopFlag * EPow P2 (EVar vMgl) * EPow P2 (EVar vMuSUSY) * EPow P2 (EVar vs2t) - EVar vAl4p * EVar
   vtwoLoopFlag * (#8 * EVar vMt * EVar vs2t * (#18 * (EVar vlmMst1 - EVar vlmMst2) * (- #2 + #3 * EVar vlmMst2) *
   EVar vMst2 * EVar vs2t * EVar vxDmglst2 * EVar vxDR2DRMOD * EPow P2 (EVar vDmglst2) + EVar vDmglst2 * EVar vMgl *
   (EVar vMt * (#785 + #6 * EVar vlmMst1 * (#85 - #42 * EVar vlmMst2) - #438 * EVar vlmMst2 + #252 * EPow P2 (EVar
   vlmMst2)) - EVar vMst2 * EVar vs2t * (#49 - #84 * EVar vlmMst2 + EVar vlmMst1 * (#84 - #36 * EVar vlmMst2 * (- #1 +
   EVar vxDR2DRMOD)) + #36 * (- #1 + EVar vxDR2DRMOD) * EPow P2 (EVar vlmMst2))) + (EVar vMt * (#193 + #474 * EVar
   vlmMst2 - #6 * EVar vlmMst1 * (#67 + #42 * EVar vlmMst2) + #252 * EPow P2 (EVar vlmMst2)) - EVar vMst2 * EVar vs2t
   * (#1 + #3 * EVar vlmMst2 * (- #37 + #6 * EVar vxDR2DRMOD) - #3 * EVar vlmMst1 * (- #37 + #6 * EVar vlmMst2 * (-
   #12 + EVar vxDR2DRMOD) + #6 * EVar vxDR2DRMOD) - #81 * EPow P2 (EVar vlmMst1) + #9 * (- #15 + #2 * EVar vxDR2DRMOD)
   * EPow P2 (EVar vlmMst2))) * EPow P2 (EVar vMgl)) * EPow P2 (EVar vMuSUSY) + EVar vMgl * EVar vMuSUSY * EVar vTbeta
   * (#8 * EVar vDmglst2 * (#36 * (- #1 + #3 * EVar vlmMst1 - #3 * EVar vlmMst2) * EVar vMst2 * EVar vs2t * EPow P2
   (EVar vMt) - #3 * EVar vMt * (#50 + EVar vlmMst1 * (#51 - #18 * EVar vlmMst2) - #51 * EVar vlmMst2 + #18 * EPow P2
   (EVar vlmMst2)) * EPow P2 (EVar vMst2) * EPow P2 (EVar vs2t) + #4 * (#7 - #381 * EVar vlmMst2 + EVar vlmMst1 *
   (#327 + #72 * EVar vlmMst2 - #81 * EVar vlmMt) + #54 * EVar vlmMt + #81 * EVar vlmMst2 * EVar vlmMt - #72 * EPow P2
   (EVar vlmMst2)) * EPow P3 (EVar vMt) + #2 * (#1 + #3 * EVar vlmMst1 - #3 * EVar vlmMst2) * EPow P3 (EVar vMst2) *
   EPow P3 (EVar vs2t)) - EVar vMgl * (- #144 * EVar vMst2 * EVar vs2t * (- EVar vlmMst1 + EVar vlmMst2 - #2 * EVar
   vlmMst1 * EVar vlmMst2 + EPow P2 (EVar vlmMst1) + EPow P2 (EVar vlmMst2)) * EPow P2 (EVar vMt) + #24 * EVar vMt *
   (#1 + #33 * EVar vlmMst2 - #3 * EVar vlmMst1 * (#11 + #6 * EVar vlmMst2) + #18 * EPow P2 (EVar vlmMst2)) * EPow P2
   (EVar vMst2) * EPow P2 (EVar vs2t) + #32 * (#83 + #3 * EVar vlmMst1 * (#29 + #12 * EVar vlmMst2 - #9 * EVar vlmMt)
   + #9 * EVar vlmMt + #3 * EVar vlmMst2 * (- #32 + #9 * EVar vlmMt) - #36 * EPow P2 (EVar vlmMst2)) * EPow P3 (EVar
   vMt) + (#5 + EVar vlmMst1 * (#6 - #288 * EVar vlmMst2) - #6 * EVar vlmMst2 + #144 * (EPow P2 (EVar vlmMst1) + EPow
   P2 (EVar vlmMst2))) * EPow P3 (EVar vMst2) * EPow P3 (EVar vs2t))) + #2 * EVar vxDmglst2 * EPow P2 (EVar vDmglst2)
   * (- #3 * EVar vMst2 * EVar vMt * EPow P2 (EVar vs2t) * (#2 * EVar vMst2 * EVar vMuSUSY * EVar vTbeta * (#355 + #6
   * EVar vlmMst2 - #6 * EVar vlmMst1 * (#1 + #6 * EVar vlmMst2) + #36 * EPow P2 (EVar vlmMst2)) + #2 * (#85 + #60 *
   EVar vlmMst2 + #12 * EVar vlmMst1 * (- #5 + #3 * EVar vlmMst2) - #36 * EPow P2 (EVar vlmMst2)) * EPow P2 (EVar
   vMuSUSY) + #5 * (- #43 + #60 * EVar vlmMst1 - #60 * EVar vlmMst2) * EPow P2 (EVar vMst2) * (- #1 + EPow P2 (EVar
   vSbeta)) * EPow P2 (EVar vSbeta)) + EVar vMuSUSY * (#2 * EVar vs2t * EPow P2 (EVar vMt) * (EVar vMuSUSY * (#5002 +
   #84 * EVar vlmMst1 * (#7 - #6 * EVar vlmMst2) - #444 * EVar vlmMst2 + #504 * EPow P2 (EVar vlmMst2)) + #3 * EVar
   vMst2 * EVar vTbeta * (#347 - #430 * EPow P2 (EVar vSbeta) + #120 * (EVar vlmMst1 - EVar vlmMst2) * (- #4 + #5 *
   EPow P2 (EVar vSbeta)))) + EVar vTbeta * (#8 * (#412 - #6 * EVar vlmMst1 * (#176 + #42 * EVar vlmMst2 - #39 * EVar
   vlmMt) + #9 * EVar vlmMst2 * (#147 - #26 * EVar vlmMt) - #267 * EVar vlmMt + #252 * EPow P2 (EVar vlmMst2)) * EPow
   P3 (EVar vMt) + #12 * (#1 - #6 * EVar vlmMst1 + #6 * EVar vlmMst2) * EPow P3 (EVar vMst2) * EPow P3 (EVar
   vs2t)))))) * EPow P4 (EVar vMsq) * EPow P8 (EVar vMst1)) / (#204120 * EVar vTbeta * EPow P2 (EVar vMgl) * EPow P2
   (EVar vMst1) * EPow P4 (EVar vMsq) * EPow P7 (EVar vMst2)) + EVar vMuSUSY * (EVar vMt * EVar voneLoopFlag * EVar
   vs2t * (#4 * (EVar vlmMst1 - EVar vlmMst2) * EPow P2 (EVar vMt) - ((#2 + EVar vlmMst1 - EVar vlmMst2) * EPow P2
   (EVar vMst1) + (- #2 + EVar vlmMst1 - EVar vlmMst2) * EPow P2 (EVar vMst2)) * EPow P2 (EVar vs2t) - #2 * EVar vMt *
   EVar vMuSUSY * EVar vs2t * (#2 - EVar vlmMst1 + EVar vlmMst2 - #2 * (EVar vlmMst1 - EVar vlmMst2) * EPow P2 (EVar
   vMst1) * (EPow P2 (EVar vMst1) + EPow P2 (EVar vMst2)) / EPow P4 (EVar vMst2)) / EVar vTbeta) / #16 - EVar vMt *
   EVar vthreeLoopFlag * EPow P2 (EVar vAl4p) * (#24300 * (#1 - #2 * EVar vlmMsq) * EVar vs2t * EVar vxMsq * EPow P2
   (EVar vMsq) * (EVar vTbeta * EPow P2 (EVar vMst2) * ((- #1 + EVar vshiftst1) * EPow P2 (EVar vMst2) * (- #4 * EPow
   P2 (EVar vMt) + EPow P2 (EVar vMst2) * EPow P2 (EVar vs2t)) + EPow P2 (EVar vMst1) * (#4 * (- #1 + EVar vshiftst2)
   * EPow P2 (EVar vMt) + (- EVar vshiftst1 + EVar vshiftst2) * EPow P2 (EVar vMst2) * EPow P2 (EVar vs2t)) - (- #1 +
   EVar vshiftst2) * EPow P2 (EVar vs2t) * EPow P4 (EVar vMst1)) + EVar vs2t * (EVar vMt * EVar vMuSUSY * (#2 * (#1 -
   #2 * EVar vshiftst1 + EVar vshiftst2) * EPow P2 (EVar vMst1) * EPow P2 (EVar vMst2) - #4 * (EVar vshiftst1 - EVar
   vshiftst2) * EPow P4 (EVar vMst1) - #2 * (- #1 + EVar vshiftst1) * EPow P4 (EVar vMst2)) + (- EVar vlmMst1 + EVar
   vlmMst2) * EPow P2 (EVar vMst1) * (#4 * EVar vMt * EVar vMuSUSY * (#1 - #2 * EVar vshiftst1 + EVar vshiftst2) *
   EPow P2 (EVar vMst1) - #4 * EVar vMt * EVar vMuSUSY * (- #1 + EVar vshiftst1) * EPow P2 (EVar vMst2) + EVar vs2t *
   (- #2 + EVar vshiftst1 + EVar vshiftst2) * EVar vTbeta * EPow P4 (EVar vMst2)))) / (EPow P2 (EVar vMst1) * EPow P4
   (EVar vMst2)) - #5 * (EVar vDmglst2 * EVar vMgl * EVar vMst2 * (- #2 * EVar vs2t * (#72 * EVar vTbeta * EPow P2
   (EVar vMt) * (#2806 * EConst Cz3 + #1514 * EConst Cz4 + #2757 * EPow P2 (EConst Cz2)) - #4 * EVar vTbeta * EPow P2
   (EVar vMst2) * EPow P2 (EVar vs2t) * (#89947 * EConst Cz3 + #6332 * EConst Cz4 + #9498 * EPow P2 (EConst Cz2)) +
   EVar vMt * EVar vs2t * (#8 * EVar vMuSUSY * (#338536 * EConst Cz3 + #11327 * EConst Cz4 + #15897 * EPow P2 (EConst
   Cz2)) + #3 * EVar vMst2 * EVar vTbeta * (- #844756 * EConst Cz3 + #10126 * EConst Cz4 + #105585 * EPow P2 (EConst
   Cz2)))) * EPow P4 (EVar vMst1) + #9 * EPow P2 (EVar vMst1) * (- #16 * EVar vMst2 * EVar vs2t * EPow P2 (EVar vMt) *
   (EVar vMuSUSY * (#59336 * EConst Cz3 + #709 * EConst Cz4 - #8535 * EPow P2 (EConst Cz2)) + #6 * EVar vMst2 * EVar
   vTbeta * (#590 * EConst Cz3 - #4 * EConst Cz4 + #75 * EPow P2 (EConst Cz2))) - #3 * EVar vMt * EPow P2 (EVar vMst2)
   * EPow P2 (EVar vs2t) * (#16 * EVar vMuSUSY * (#9207 * EConst Cz3 + #185 * EConst Cz4 + #237 * EPow P2 (EConst
   Cz2)) + EVar vMst2 * EVar vTbeta * (- #124922 * EConst Cz3 - #1210 * EConst Cz4 + #18273 * EPow P2 (EConst Cz2))) +
   #96 * (EVar vMuSUSY * (#250 * EConst Cz3 - #94 * EConst Cz4 + #21 * EPow P2 (EConst Cz2)) + #2 * EVar vMst2 * EVar
   vTbeta * (- #955 * EConst Cz3 + #26 * EConst Cz4 + #93 * EPow P2 (EConst Cz2))) * EPow P3 (EVar vMt) + #6 * EVar
   vTbeta * (#20653 * EConst Cz3 + #316 * EConst Cz4 + #474 * EPow P2 (EConst Cz2)) * EPow P3 (EVar vs2t) * EPow P4
   (EVar vMst2)) + #27 * EPow P2 (EVar vMst2) * (- #4 * EVar vMt * EVar vs2t * EPow P2 (EVar vMst2) * (#4 * EVar vMt *
   EVar vTbeta * (#439 * EConst Cz3 - #108 * EConst Cz4) + EVar vMuSUSY * EVar vs2t * (#16175 * EConst Cz3 + #424 *
   EConst Cz4 + #474 * EPow P2 (EConst Cz2))) + #4 * EVar vMst2 * EPow P2 (EVar vMt) * (EVar vMt * EVar vTbeta *
   (#5742 * EConst Cz3 - #506 * EConst Cz4 + #105 * EPow P2 (EConst Cz2)) + EVar vMuSUSY * EVar vs2t * (- #37474 *
   EConst Cz3 - #542 * EConst Cz4 + #5289 * EPow P2 (EConst Cz2))) - #3 * EVar vMt * EVar vTbeta * EPow P2 (EVar vs2t)
   * (- #37474 * EConst Cz3 - #542 * EConst Cz4 + #5289 * EPow P2 (EConst Cz2)) * EPow P3 (EVar vMst2) + #64 * EVar
   vMuSUSY * (#83 * EConst Cz3 - #27 * EConst Cz4) * EPow P3 (EVar vMt) + #2 * EVar vTbeta * (#16175 * EConst Cz3 +
   #424 * EConst Cz4 + #474 * EPow P2 (EConst Cz2)) * EPow P3 (EVar vs2t) * EPow P4 (EVar vMst2))) - #3 * EPow P2
   (EVar vMgl) * ((#4 * EVar vs2t * EPow P2 (EVar vMt) * (EVar vMuSUSY * (#134464 * EConst Cz3 + #23528 * EConst Cz4 -
   #41010 * EPow P2 (EConst Cz2)) + EVar vMst2 * EVar vTbeta * (#22466 * EConst Cz3 - #11402 * EConst Cz4 - #17103 *
   EPow P2 (EConst Cz2))) + #2 * EVar vMst2 * EVar vMt * EPow P2 (EVar vs2t) * (EVar vMuSUSY * (#8 * (#76813 + #162 *
   EVar vlmMst1 - #162 * EVar vlmMst2) * EConst Cz3 - #15686 * EConst Cz4 - #18183 * EPow P2 (EConst Cz2)) + #3 * EVar
   vMst2 * EVar vTbeta * (#1144 * EConst Cz3 - #4954 * EConst Cz4 + #6177 * EPow P2 (EConst Cz2))) + #16 * EVar vTbeta
   * (- #107072 * EConst Cz3 + #3326 * EConst Cz4 + #3045 * EPow P2 (EConst Cz2)) * EPow P3 (EVar vMt) + EVar vTbeta *
   (- #272636 * EConst Cz3 + #8870 * EConst Cz4 + #13305 * EPow P2 (EConst Cz2)) * EPow P3 (EVar vMst2) * EPow P3
   (EVar vs2t)) * EPow P4 (EVar vMst1) - #9 * EPow P3 (EVar vMst2) * (- #4 * EVar vMst2 * EPow P2 (EVar vMt) * (#5 *
   EVar vMuSUSY * EVar vs2t * (#2098 * EConst Cz3 + #102 * EConst Cz4 - #333 * EPow P2 (EConst Cz2)) + #3 * EVar vMt *
   EVar vTbeta * (- #1922 * EConst Cz3 + #206 * EConst Cz4 + #21 * EPow P2 (EConst Cz2))) + #6 * EVar vMt * EVar vs2t
   * EPow P2 (EVar vMst2) * (- #2 * EVar vMuSUSY * EVar vs2t * ((#1913 + #12 * EVar vlmMst1 - #12 * EVar vlmMst2) *
   EConst Cz3 - #10 * EConst Cz4 + #48 * EPow P2 (EConst Cz2)) + EVar vMt * EVar vTbeta * ((#1622 - #48 * EVar vlmMst1
   + #48 * EVar vlmMst2) * EConst Cz3 + #142 * EConst Cz4 + #69 * EPow P2 (EConst Cz2))) + #15 * EVar vMt * EVar
   vTbeta * EPow P2 (EVar vs2t) * (#2098 * EConst Cz3 + #102 * EConst Cz4 - #333 * EPow P2 (EConst Cz2)) * EPow P3
   (EVar vMst2) - #32 * EVar vMuSUSY * (#230 * EConst Cz3 + #27 * EConst Cz4) * EPow P3 (EVar vMt) + #6 * EVar vTbeta
   * ((#1913 + #12 * EVar vlmMst1 - #12 * EVar vlmMst2) * EConst Cz3 - #10 * EConst Cz4 + #48 * EPow P2 (EConst Cz2))
   * EPow P3 (EVar vs2t) * EPow P4 (EVar vMst2)) + #3 * EVar vMst2 * EPow P2 (EVar vMst1) * (- #2 * EVar vMst2 * EVar
   vs2t * EPow P2 (EVar vMt) * (#8 * EVar vMuSUSY * (- #11396 * EConst Cz3 - #1135 * EConst Cz4 + #2388 * EPow P2
   (EConst Cz2)) + EVar vMst2 * EVar vTbeta * (#7078 * EConst Cz3 + #2990 * EConst Cz4 + #4485 * EPow P2 (EConst
   Cz2))) + EVar vMt * EPow P2 (EVar vMst2) * EPow P2 (EVar vs2t) * (- #4 * EVar vMuSUSY * ((- #56978 - #216 * EVar
   vlmMst1 + #216 * EVar vlmMst2) * EConst Cz3 + #1136 * EConst Cz4 + #813 * EPow P2 (EConst Cz2)) + #3 * EVar vMst2 *
   EVar vTbeta * (- #14114 * EConst Cz3 - #3010 * EConst Cz4 + #4557 * EPow P2 (EConst Cz2))) + #16 * (#9 * EVar
   vMuSUSY * (#218 * EConst Cz3 + #50 * EConst Cz4 + #21 * EPow P2 (EConst Cz2)) + #2 * EVar vMst2 * EVar vTbeta * (-
   #8219 * EConst Cz3 + #326 * EConst Cz4 + #165 * EPow P2 (EConst Cz2))) * EPow P3 (EVar vMt) + #2 * EVar vTbeta *
   ((- #39761 - #108 * EVar vlmMst1 + #108 * EVar vlmMst2) * EConst Cz3 + #1046 * EConst Cz4 + #1245 * EPow P2 (EConst
   Cz2)) * EPow P3 (EVar vs2t) * EPow P4 (EVar vMst2))) + EVar vMst2 * EVar vxDmglst2 * EPow P2 (EVar vDmglst2) * (-
   #2 * EVar vs2t * (#72 * EVar vTbeta * EPow P2 (EVar vMt) * (#2806 * EConst Cz3 + #1514 * EConst Cz4 + #2757 * EPow
   P2 (EConst Cz2)) - #4 * EVar vTbeta * EPow P2 (EVar vMst2) * EPow P2 (EVar vs2t) * (#89947 * EConst Cz3 + #6332 *
   EConst Cz4 + #9498 * EPow P2 (EConst Cz2)) + EVar vMt * EVar vs2t * (#8 * EVar vMuSUSY * (#338536 * EConst Cz3 +
   #11327 * EConst Cz4 + #15897 * EPow P2 (EConst Cz2)) + #3 * EVar vMst2 * EVar vTbeta * (- #844756 * EConst Cz3 +
   #10126 * EConst Cz4 + #105585 * EPow P2 (EConst Cz2)))) * EPow P4 (EVar vMst1) + #3 * EPow P2 (EVar vMst1) * (- #8
   * EVar vMst2 * EVar vs2t * EPow P2 (EVar vMt) * (EVar vMuSUSY * (#699292 * EConst Cz3 + #12344 * EConst Cz4 -
   #88647 * EPow P2 (EConst Cz2)) + #36 * EVar vMst2 * EVar vTbeta * (#3124 * EConst Cz3 + #29 * EConst Cz4 + #165 *
   EPow P2 (EConst Cz2))) - EVar vMt * EPow P2 (EVar vMst2) * EPow P2 (EVar vs2t) * (#8 * EVar vMuSUSY * (#409448 *
   EConst Cz3 + #10819 * EConst Cz4 + #3471 * EPow P2 (EConst Cz2)) + #3 * EVar vMst2 * EVar vTbeta * (- #629162 *
   EConst Cz3 - #17194 * EConst Cz4 + #84045 * EPow P2 (EConst Cz2))) + #8 * (EVar vMst2 * EVar vTbeta * (#118001 *
   EConst Cz3 - #6920 * EConst Cz4 - #6492 * EPow P2 (EConst Cz2)) + #36 * EVar vMuSUSY * (#250 * EConst Cz3 - #94 *
   EConst Cz4 + #21 * EPow P2 (EConst Cz2))) * EPow P3 (EVar vMt) + EVar vTbeta * (#958451 * EConst Cz3 + #16612 *
   EConst Cz4 + #1590 * EPow P2 (EConst Cz2)) * EPow P3 (EVar vs2t) * EPow P4 (EVar vMst2)) + #9 * EPow P2 (EVar
   vMst2) * (- #4 * EVar vMst2 * EPow P2 (EVar vMt) * (EVar vMuSUSY * EVar vs2t * (#256474 * EConst Cz3 + #2498 *
   EConst Cz4 - #31083 * EPow P2 (EConst Cz2)) + EVar vMt * EVar vTbeta * (- #55952 * EConst Cz3 + #1742 * EConst Cz4
   + #21 * EPow P2 (EConst Cz2))) - #2 * EVar vMt * EVar vs2t * EPow P2 (EVar vMst2) * (#9 * EVar vMt * EVar vTbeta *
   (#19703 * EConst Cz3 - #376 * EConst Cz4 + #84 * EPow P2 (EConst Cz2)) + EVar vMuSUSY * EVar vs2t * (#226447 *
   EConst Cz3 + #8888 * EConst Cz4 + #4098 * EPow P2 (EConst Cz2))) + #3 * EVar vMt * EVar vTbeta * EPow P2 (EVar
   vs2t) * (#256474 * EConst Cz3 + #2498 * EConst Cz4 - #31083 * EPow P2 (EConst Cz2)) * EPow P3 (EVar vMst2) + #96 *
   EVar vMuSUSY * (#1990 * EConst Cz3 - #81 * EConst Cz4) * EPow P3 (EVar vMt) + EVar vTbeta * (#226447 * EConst Cz3 +
   #8888 * EConst Cz4 + #4098 * EPow P2 (EConst Cz2)) * EPow P3 (EVar vs2t) * EPow P4 (EVar vMst2)))) / (EPow P2 (EVar
   vMgl) * EPow P5 (EVar vMst2)) + EVar vMt * EVar vMuSUSY * (#20 * (#9 * EVar vMst2 * EPow P2 (EVar vMt) * (#3 * EVar
   vMgl * (#8 * EPow P2 (EVar vMst2) * (#436 - #6 * EConst CB4 + #6 * EConst CD3 - #3 * EConst CDN - #48 * EVar
   vlmMst1 + (#408 - #96 * EVar vlmMst1) * EVar vlmMst2 + #24 * EVar vlmMt - #972 * EConst CS2 - #48 * (- #4 + EVar
   vlmMst1) * EPow P2 (EVar vlmMst2) + #48 * EPow P3 (EVar vlmMst2)) + EPow P2 (EVar vMst1) * (#10667 - #96 * EConst
   CB4 + #96 * EConst CD3 - #48 * EConst CDN - #3072 * EVar vlmMst1 - #384 * (- #25 + #9 * EVar vlmMst1) * EVar
   vlmMst2 - #384 * EVar vlmMst1 * EVar vlmMt + #384 * (#1 + EVar vlmMst2) * EVar vlmMt - #224 * EConst COepS2 + #324
   * (- #43 + #14 * EVar vlmMst1 - #14 * EVar vlmMst2) * EConst CS2 - #384 * (- #13 + #4 * EVar vlmMst1) * EPow P2
   (EVar vlmMst2) + #1536 * EPow P3 (EVar vlmMst2))) + #2 * EVar vDmglst2 * (EPow P2 (EVar vMst1) * (#28405 - #288 *
   EConst CB4 + #288 * EConst CD3 - #144 * EConst CDN + #5472 * EVar vlmMst1 - #288 * (- #89 + #2 * EVar vlmMst1) *
   EVar vlmMst2 + #576 * (- #2 + EVar vlmMst1 - EVar vlmMst2) * EVar vlmMt + #224 * EConst COepS2 - #324 * (#65 + #14
   * EVar vlmMst1 - #14 * EVar vlmMst2) * EConst CS2 - #576 * (- #9 + #8 * EVar vlmMst1) * EPow P2 (EVar vlmMst2) +
   #4608 * EPow P3 (EVar vlmMst2)) + #72 * EPow P2 (EVar vMst2) * (#180 - #2 * EConst CB4 + #2 * EConst CD3 - EConst
   CDN + #144 * EVar vlmMst2 - #216 * EConst CS2 - #16 * (- #2 + EVar vlmMst1) * EPow P2 (EVar vlmMst2) + #16 * (EVar
   vlmMst1 + EPow P3 (EVar vlmMst2))))) + #4 * EVar vDmglst2 * EVar vMst2 * EConst CT1ep * (- #36 * EPow P2 (EVar
   vMst1) * (#253 * EVar vMst2 * EVar vMt * EVar vs2t + #42 * EPow P2 (EVar vMt) - #129 * EPow P2 (EVar vMst2) * EPow
   P2 (EVar vs2t)) + #189 * EVar vs2t * (- #5 * EVar vMt + #2 * EVar vMst2 * EVar vs2t) * EPow P3 (EVar vMst2) +
   #17308 * EPow P2 (EVar vs2t) * EPow P4 (EVar vMst1)) + #6 * EVar vMgl * EConst CT1ep * (#6 * EVar vMst2 * EPow P2
   (EVar vMst1) * (#272 * EVar vMst2 * EVar vMt * EVar vs2t + #252 * EPow P2 (EVar vMt) - #487 * EPow P2 (EVar vMst2)
   * EPow P2 (EVar vs2t)) + EVar vs2t * (#3764 * EVar vMt - #7357 * EVar vMst2 * EVar vs2t) * EPow P4 (EVar vMst1) +
   #54 * EVar vs2t * (#7 * EVar vMt - #8 * EVar vMst2 * EVar vs2t) * EPow P4 (EVar vMst2))) / (EVar vMgl * EPow P5
   (EVar vMst2)) + #90 * EPow P2 (EVar vs2t) * (#15829 - #720 * EConst CB4 + #72 * EConst CD3 - #36 * EConst CDN -
   #3330 * EVar vlmMsq + #1350 * EPow P2 (EVar vlmMsq) - #3 * EVar vlmMst1 * (#5279 - #1950 * EVar vlmMsq + #630 *
   EPow P2 (EVar vlmMsq)) - #954 * EPow P2 (EVar vlmMst1) + #3 * EVar vlmMst2 * (#10421 - #6558 * EVar vlmMst1 + #30 *
   EVar vlmMsq * (- #95 + #42 * EVar vlmMst1) + #630 * EPow P2 (EVar vlmMsq) + #234 * EPow P2 (EVar vlmMst1)) - #18 *
   (- #1460 + #210 * EVar vlmMsq + #399 * EVar vlmMst1) * EPow P2 (EVar vlmMst2) - #288 * EPow P3 (EVar vlmMst1) +
   #6768 * EPow P3 (EVar vlmMst2) + #6 * EPow P2 (EVar vMst1) * ((EVar vMgl * (#111 - #3028 * EVar vlmMst2 + #90 *
   EVar vlmMsq * (#4 - #13 * EVar vlmMst1 + #13 * EVar vlmMst2) + #2 * EVar vlmMst1 * (#1334 + #675 * EVar vlmMst2) -
   #90 * EPow P2 (EVar vlmMst1) - #1260 * EPow P2 (EVar vlmMst2)) + #100 * EVar vDmglst2 * (#69 + (- #53 + #42 * EVar
   vlmMsq) * EVar vlmMst2 + EVar vlmMst1 * (#53 - #42 * EVar vlmMsq + #42 * EVar vlmMst2) - #42 * EPow P2 (EVar
   vlmMst2))) / (EVar vMgl * EPow P2 (EVar vMsq)) - #135 * (EDec 20420053497942388 14 + #76 * EConst CB4 / #9 - #2 *
   EConst CDN / #9 - #50 * EVar vlmMsq / #3 + #2 * EVar vlmMst1 * (#57971 - #14625 * EVar vlmMsq + #2700 * EPow P2
   (EVar vlmMsq)) / #405 - #2 * EVar vlmMst2 * (#52436 - #70455 * EVar vlmMst1 + #225 * EVar vlmMsq * (- #65 + #36 *
   EVar vlmMst1) + #2700 * EPow P2 (EVar vlmMsq) + #8280 * EPow P2 (EVar vlmMst1)) / #405 + ((- #1331 + #180 * EVar
   vlmMsq) * EPow P2 (EVar vlmMst1) + (- #8063 + #900 * EVar vlmMsq) * EPow P2 (EVar vlmMst2) + #3792 * EVar vlmMst1 *
   EPow P2 (EVar vlmMst2)) / #27 - #62 * EPow P3 (EVar vlmMst1) / #27 - #2626 * EPow P3 (EVar vlmMst2) / #27 - EVar
   vDmglst2 * (EDec 10911799176954733 14 - #8 * EConst CB4 / #3 + #32 * EConst CD3 / #9 - #20 * EConst CDN / #9 + #80
   * EVar vlmMsq - EVar vlmMst1 * (EDec 7819061728395062 14 + #20 * EPow P2 (EVar vlmMsq)) - #2888 * EPow P2 (EVar
   vlmMst1) / #135 + EVar vlmMst2 * (#40 * EVar vlmMsq * EVar vlmMst1 + #20 * EPow P2 (EVar vlmMsq) + #4 * (- #21616 -
   #64515 * EVar vlmMst1 + #31275 * EPow P2 (EVar vlmMst1)) / #2025) - #4 * (- #5023 + #1350 * EVar vlmMsq + #6285 *
   EVar vlmMst1) * EPow P2 (EVar vlmMst2) / #135 + #20 * EPow P3 (EVar vlmMst1) / #27 + #3340 * EPow P3 (EVar vlmMst2)
   / #27) / EVar vMgl) / EPow P2 (EVar vMst2)) / #5 - #162 * EConst CS2 * (#1056 + #48 * EVar vlmMst1 - #48 * EVar
   vlmMst2 + (#9473 + #974 * EVar vlmMst1 - #974 * EVar vlmMst2 + #3 * EVar vDmglst2 * (EDec 6952444444444444 12 -
   #344 * EVar vlmMst1 + #344 * EVar vlmMst2) / EVar vMgl) * EPow P2 (EVar vMst1) / (#3 * EPow P2 (EVar vMst2)) +
   (EVar vDmglst2 * (#3354 - #28 * EVar vlmMst1 + #28 * EVar vlmMst2) + (#8 * EVar vDmglst2 * (#93919 - #12981 * EVar
   vlmMst1 + #12981 * EVar vlmMst2) + #3 * (#160997 + #22071 * EVar vlmMst1 - #22071 * EVar vlmMst2) * EVar vMgl) *
   EPow P4 (EVar vMst1) / (#81 * EPow P4 (EVar vMst2))) / EVar vMgl) + #162 * EPow P4 (EVar vMst1) * ((EDec
   10702990137854083 16 + #9571 * EVar vlmMsq / #26460 + (#56221 - #35490 * EVar vlmMsq) * EVar vlmMst1 / #13230 + (-
   EDec 46112244897959185 16 + #19 * EVar vlmMsq / #7 + #31 * EVar vlmMst1 / #9) * EVar vlmMst2 - EPow P2 (EVar
   vlmMsq) / #63 - #8 * EPow P2 (EVar vlmMst1) / #21 + #5 * EVar vDmglst2 * (#216 + (- #95 + #132 * EVar vlmMsq) *
   EVar vlmMst2 + EVar vlmMst1 * (#95 - #132 * EVar vlmMsq + #132 * EVar vlmMst2) - #132 * EPow P2 (EVar vlmMst2)) /
   (#54 * EVar vMgl) - #194 * EPow P2 (EVar vlmMst2) / #63) / EPow P4 (EVar vMsq) - (EDec 3633804294212688 13 + #76 *
   EConst CB4 / #9 - #2 * EConst CDN / #9 - #35 * EVar vlmMsq / #2 + EVar vlmMst1 * (EDec 2113489518770471 13 - #695 *
   EVar vlmMsq / #9 + #40 * EPow P2 (EVar vlmMsq) / #3) - (EDec 21487936507936507 14 - #20 * EVar vlmMsq) * EPow P2
   (EVar vlmMst1) - EVar vlmMst2 * (EDec 19046006298815823 14 - #71398 * EVar vlmMst1 / #105 + #5 * EVar vlmMsq * (-
   #139 + #120 * EVar vlmMst1) / #9 + #40 * EPow P2 (EVar vlmMsq) / #3 + #334 * EPow P2 (EVar vlmMst1) / #3) + (-
   #146507 + #14700 * EVar vlmMsq + #91070 * EVar vlmMst1) * EPow P2 (EVar vlmMst2) / #315 - #44 * EPow P3 (EVar
   vlmMst1) / #9 - #1556 * EPow P3 (EVar vlmMst2) / #9 - EVar vDmglst2 * (EDec 5361152102791342 13 - #8 * EConst CB4 /
   #3 + #32 * EConst CD3 / #9 - #20 * EConst CDN / #9 + #90 * EVar vlmMsq - (EDec 12311224321827497 14 + #20 * EVar
   vlmMsq * (#1 + EVar vlmMsq)) * EVar vlmMst1 - EVar vlmMst2 * (EDec 1733220122616948 14 - #20 * EVar vlmMsq * (#1 +
   EVar vlmMsq) + (EDec 13304550264550264 14 - #40 * EVar vlmMsq) * EVar vlmMst1 - #1180 * EPow P2 (EVar vlmMst1) /
   #9) - #15886 * EPow P2 (EVar vlmMst1) / #945 + (EDec 14985608465608465 14 - #40 * EVar vlmMsq - #2812 * EVar
   vlmMst1 / #9) * EPow P2 (EVar vlmMst2) - #92 * EPow P3 (EVar vlmMst1) / #27 + #4988 * EPow P3 (EVar vlmMst2) / #27)
   / EVar vMgl) / EPow P4 (EVar vMst2)) + #162 * (EVar vDmglst2 * (#3197 - #432 * EConst CB4 + #576 * EConst CD3 -
   #360 * EConst CDN + #9180 * EVar vlmMsq + #216 * EVar vlmMst1 * (#7 - #15 * EPow P2 (EVar vlmMsq)) + #1620 * EPow
   P2 (EVar vlmMsq) - #1404 * EPow P2 (EVar vlmMst1) + #36 * EVar vlmMst2 * (- #291 - #464 * EVar vlmMst1 + #90 * EVar
   vlmMsq * (- #1 + #2 * EVar vlmMst1) + #90 * EPow P2 (EVar vlmMsq) + #32 * EPow P2 (EVar vlmMst1)) - #36 * (- #607 +
   #180 * EVar vlmMsq + #336 * EVar vlmMst1) * EPow P2 (EVar vlmMst2) + #10944 * EPow P3 (EVar vlmMst2)) / #162 - #16
   * (#1 + EVar vlmMst2) * (#4 * EVar vDmglst2 * EVar vlmMst2 + EVar vMgl + EVar vlmMst2 * EVar vMgl) * EPow P4 (EVar
   vMst2) / (#9 * EPow P4 (EVar vMst1)) - #4 * EConst COepS2 * (#4 * EVar vDmglst2 * (#2322 * EPow P2 (EVar vMst1) *
   EPow P2 (EVar vMst2) + #8654 * EPow P4 (EVar vMst1) + #189 * EPow P4 (EVar vMst2)) - #3 * EVar vMgl * (#2922 * EPow
   P2 (EVar vMst1) * EPow P2 (EVar vMst2) + #7357 * EPow P4 (EVar vMst1) + #432 * EPow P4 (EVar vMst2))) / (#2187 *
   EPow P4 (EVar vMst2)) + EPow P2 (EVar vMst2) * (EVar vMgl * (#2 * (#4167613 - #19932360 * EVar vlmMst2 + #20580 *
   EVar vlmMst1 * (#701 + #540 * EVar vlmMst2) + #420 * EVar vlmMsq * (#13109 - #26460 * EVar vlmMst1 + #25620 * EVar
   vlmMst2) + #176400 * EPow P2 (EVar vlmMsq) - #10936800 * EPow P2 (EVar vlmMst2)) * EPow P2 (EVar vMst1) +
   (#41220947 - #420 * EVar vlmMsq * (#12479 + #69090 * EVar vlmMst1 - #69930 * EVar vlmMst2) - #21234990 * EVar
   vlmMst2 + #10290 * EVar vlmMst1 * (#2573 + #2820 * EVar vlmMst2) - #176400 * EPow P2 (EVar vlmMsq) - #29194200 *
   EPow P2 (EVar vlmMst2)) * EPow P2 (EVar vMst2)) / #11113200 + #5 * EVar vDmglst2 * (#2 * (#219 + (- #95 + #132 *
   EVar vlmMsq) * EVar vlmMst2 + EVar vlmMst1 * (#95 - #132 * EVar vlmMsq + #132 * EVar vlmMst2) - #132 * EPow P2
   (EVar vlmMst2)) * EPow P2 (EVar vMst1) + (#557 - #224 * EVar vlmMst2 + #4 * EVar vlmMst1 * (#53 + #96 * EVar
   vlmMst2) + EVar vlmMsq * (#12 - #384 * EVar vlmMst1 + #384 * EVar vlmMst2) - #384 * EPow P2 (EVar vlmMst2)) * EPow
   P2 (EVar vMst2)) / #108 - (#40 * (#8 * EVar vDmglst2 * (#14 - #15 * EVar vlmMsq + #15 * EVar vlmMst2) + (#43 - #30
   * EVar vlmMsq + #30 * EVar vlmMst2) * EVar vMgl) * EPow P2 (EVar vMsq) * EPow P2 (EVar vMst2) + (- #12 * EVar vMgl
   * (#341 + #642 * EVar vlmMst2 + #64 * EVar vlmMst1 * (#1 + EVar vlmMst2) - #30 * EVar vlmMsq * (#5 + #6 * EVar
   vlmMst2) + #90 * EPow P2 (EVar vlmMsq) + #272 * EPow P2 (EVar vlmMst2)) - #24 * EVar vDmglst2 * (- #115 + (#366 +
   #64 * EVar vlmMst1) * EVar vlmMst2 - #30 * EVar vlmMsq * (- #1 + #6 * EVar vlmMst2) + #90 * EPow P2 (EVar vlmMsq) +
   #336 * EPow P2 (EVar vlmMst2))) * EPow P4 (EVar vMsq) + (#90 * EVar vDmglst2 * (#13 - #28 * EVar vlmMsq + #28 *
   EVar vlmMst2) + #5 * (#67 - #84 * EVar vlmMsq + #84 * EVar vlmMst2) * EVar vMgl) * EPow P4 (EVar vMst2)) / (#216 *
   EPow P2 (EVar vMst1))) / EPow P4 (EVar vMsq) + (EVar vMgl * ((#1725 + (- #7006 + #2640 * EVar vlmMsq) * EVar
   vlmMst2 + EVar vlmMst1 * (#7006 - #2640 * EVar vlmMsq + #4800 * EVar vlmMst2) - #1080 * EPow P2 (EVar vlmMst1) -
   #3720 * EPow P2 (EVar vlmMst2)) * EPow P4 (EVar vMst1) + #2 * (#836 - #2235 * EVar vlmMst2 + #75 * EVar vlmMst1 *
   (#27 + #16 * EVar vlmMst2) + #30 * EVar vlmMsq * (#7 - #40 * EVar vlmMst1 + #40 * EVar vlmMst2) - #1200 * EPow P2
   (EVar vlmMst2)) * EPow P4 (EVar vMst2)) + #50 * EVar vDmglst2 * ((#291 + #2 * (- #103 + #84 * EVar vlmMsq) * EVar
   vlmMst2 + #2 * EVar vlmMst1 * (#103 - #84 * EVar vlmMsq + #84 * EVar vlmMst2) - #168 * EPow P2 (EVar vlmMst2)) *
   EPow P4 (EVar vMst1) + #2 * (#118 + #109 * EVar vlmMst1 + (- #133 + #102 * EVar vlmMst1) * EVar vlmMst2 + #6 * EVar
   vlmMsq * (#4 - #17 * EVar vlmMst1 + #17 * EVar vlmMst2) - #102 * EPow P2 (EVar vlmMst2)) * EPow P4 (EVar vMst2))) /
   (#270 * EPow P2 (EVar vMsq) * EPow P2 (EVar vMst2))) / EVar vMgl + #54 * (- #1 + #2 * EVar vlmMst2) * EVar
   vshiftst3 * (#2 * (#1 - #2 * EVar vlmMst1 + #2 * EVar vlmMst2) * EPow P2 (EVar vMst2) * EPow P4 (EVar vMst1) + #2 *
   (#1 - EVar vlmMst1 + EVar vlmMst2) * EPow P2 (EVar vMst1) * EPow P4 (EVar vMst2) + (#2 - #6 * EVar vlmMst1 + #6 *
   EVar vlmMst2) * EPow P6 (EVar vMst1) + EPow P6 (EVar vMst2)) / (EPow P2 (EVar vMst1) * EPow P4 (EVar vMst2))) +
   EVar vMt * EVar vs2t * (#14580 * EPow P2 (EVar vMst1) * EPow P2 (EVar vMst2) * (EDec 10353004115226338 13 + #1016 *
   EConst CB4 / #9 - #4 * EConst CDN / #9 - #240 * EVar vlmMsq + #80 * EPow P2 (EVar vlmMsq) / #3 - #8 * EVar vlmMst1
   * (#422 - #45 * EVar vlmMsq + #45 * EPow P2 (EVar vlmMsq)) / #9 - #176 * EPow P2 (EVar vlmMst1) / #9 + #8 * EVar
   vlmMst2 * (#1096 + #15 * EVar vlmMsq * (- #7 + #6 * EVar vlmMst1 - #6 * EVar vlmMst2) + #717 * EVar vlmMst2 - EVar
   vlmMst1 * (#551 + #248 * EVar vlmMst2) + #45 * EPow P2 (EVar vlmMsq) + #8 * EPow P2 (EVar vlmMst1)) / #9 + #640 *
   EPow P3 (EVar vlmMst2) / #3 + (- #80 * (EVar vMgl * (#55 + #6 * EVar vlmMsq * (- #2 + #5 * EVar vlmMst1 - #5 * EVar
   vlmMst2) + #52 * EVar vlmMst2 - #10 * EVar vlmMst1 * (#4 + #3 * EVar vlmMst2) + #30 * EPow P2 (EVar vlmMst2)) +
   EVar vDmglst2 * (#321 + #18 * EVar vlmMsq * (- #2 + #5 * EVar vlmMst1 - #5 * EVar vlmMst2) + #96 * EVar vlmMst2 -
   #30 * EVar vlmMst1 * (#2 + #3 * EVar vlmMst2) + #90 * EPow P2 (EVar vlmMst2))) * EPow P2 (EVar vMst1) / (#27 * EPow
   P2 (EVar vMsq)) + EVar vDmglst2 * (EDec 8816139917695473 13 + #248 * EConst CB4 - #4 * EConst CDN - #2560 * EVar
   vlmMsq / #3 + EVar vlmMst1 * (EDec 13096296296296296 14 - #120 * EVar vlmMsq - #40 * EPow P2 (EVar vlmMsq)) + #80 *
   EPow P2 (EVar vlmMsq) / #3 + #176 * EPow P2 (EVar vlmMst1) / #9 + #8 * EVar vlmMst2 * (#4364 - #573 * EVar vlmMst1
   + #45 * EVar vlmMsq * (#5 + #6 * EVar vlmMst1) + #135 * EPow P2 (EVar vlmMsq) + #24 * EPow P2 (EVar vlmMst1)) / #27
   - #8 * (- #377 + #90 * EVar vlmMsq + #376 * EVar vlmMst1) * EPow P2 (EVar vlmMst2) / #9 + #2944 * EPow P3 (EVar
   vlmMst2) / #9)) / EVar vMgl) + #10 * (#2552929 + #257904 * EConst CB4 - #648 * EConst CDN - #456840 * EVar vlmMsq +
   #38880 * EPow P2 (EVar vlmMsq) - #216 * EVar vlmMst1 * (#4591 - #360 * EVar vlmMsq + #450 * EPow P2 (EVar vlmMsq))
   + #41904 * EPow P2 (EVar vlmMst1) + #216 * EVar vlmMst2 * (#9211 - #6466 * EVar vlmMst1 + #180 * EVar vlmMsq * (-
   #4 + #5 * EVar vlmMst1) + #450 * EPow P2 (EVar vlmMsq) + #576 * EPow P2 (EVar vlmMst1)) - #864 * (- #1784 + #225 *
   EVar vlmMsq + #840 * EVar vlmMst1) * EPow P2 (EVar vlmMst2) - #3456 * EPow P3 (EVar vlmMst1) + #604800 * EPow P3
   (EVar vlmMst2)) * EPow P4 (EVar vMst1) + (#9 * (#4800 * (- #2 * EVar vMgl * (#23 + EVar vlmMsq * (- #6 + #9 * EVar
   vlmMst1 - #9 * EVar vlmMst2) + #18 * EVar vlmMst2 - #3 * EVar vlmMst1 * (#4 + #3 * EVar vlmMst2) + #9 * EPow P2
   (EVar vlmMst2)) - #3 * EVar vDmglst2 * (#77 + #6 * EVar vlmMsq * (- #2 + #3 * EVar vlmMst1 - #3 * EVar vlmMst2) +
   #24 * EVar vlmMst2 - #6 * EVar vlmMst1 * (#2 + #3 * EVar vlmMst2) + #18 * EPow P2 (EVar vlmMst2))) * EPow P2 (EVar
   vMsq) * EPow P2 (EVar vMst1) + (#45 * EVar vMgl * (#18201 + #1760 * EConst CB4 - #16 * EConst CDN - #5760 * EVar
   vlmMsq + #960 * EPow P2 (EVar vlmMsq) - #16 * EVar vlmMst1 * (#199 - #30 * EVar vlmMsq + #30 * EPow P2 (EVar
   vlmMsq)) + #16 * EVar vlmMst2 * (#1291 - #322 * EVar vlmMst1 + #30 * EVar vlmMsq * (- #5 + #2 * EVar vlmMst1) + #30
   * EPow P2 (EVar vlmMsq) - #16 * EPow P2 (EVar vlmMst1)) - #256 * EPow P2 (EVar vlmMst1) - #32 * (- #313 + #30 *
   EVar vlmMsq + #72 * EVar vlmMst1) * EPow P2 (EVar vlmMst2) + #2560 * EPow P3 (EVar vlmMst2)) + EVar vDmglst2 *
   (#779917 + #188640 * EConst CB4 - #3600 * EConst CDN - #648000 * EVar vlmMsq + #43200 * EPow P2 (EVar vlmMsq) -
   #720 * EVar vlmMst1 * (- #173 + #90 * EVar vlmMsq + #30 * EPow P2 (EVar vlmMsq)) + #720 * EVar vlmMst2 * (#1623 -
   #130 * EVar vlmMst1 + #30 * EVar vlmMsq * (- #1 + #2 * EVar vlmMst1) + #30 * EPow P2 (EVar vlmMsq) - #16 * EPow P2
   (EVar vlmMst1)) + #11520 * EPow P2 (EVar vlmMst1) - #1440 * (- #265 + #30 * EVar vlmMsq + #136 * EVar vlmMst1) *
   EPow P2 (EVar vlmMst2) + #207360 * EPow P3 (EVar vlmMst2))) * EPow P4 (EVar vMsq) - #300 * (EVar vMgl * (#233 + #36
   * EVar vlmMsq * (- #2 + #5 * EVar vlmMst1 - #5 * EVar vlmMst2) + #207 * EVar vlmMst2 - #45 * EVar vlmMst1 * (#3 +
   #4 * EVar vlmMst2) + #180 * EPow P2 (EVar vlmMst2)) + EVar vDmglst2 * (#1961 + #180 * EVar vlmMsq * (- #2 + #5 *
   EVar vlmMst1 - #5 * EVar vlmMst2) + #675 * EVar vlmMst2 - #45 * EVar vlmMst1 * (#7 + #20 * EVar vlmMst2) + #900 *
   EPow P2 (EVar vlmMst2))) * EPow P4 (EVar vMst1)) * EPow P4 (EVar vMst2) / EPow P4 (EVar vMsq) - #160 * EConst
   COepS2 * ((- #3036 * EVar vDmglst2 + #816 * EVar vMgl) * EPow P2 (EVar vMst1) * EPow P2 (EVar vMst2) + #1882 * EVar
   vMgl * EPow P4 (EVar vMst1) - #63 * (#5 * EVar vDmglst2 - #3 * EVar vMgl) * EPow P4 (EVar vMst2)) - #108 * EConst
   CS2 * (#3 * EVar vDmglst2 * EPow P2 (EVar vMst2) * (#8 * (#2489 + #3795 * EVar vlmMst1 - #3795 * EVar vlmMst2) *
   EPow P2 (EVar vMst1) + #9 * (- #453 + #350 * EVar vlmMst1 - #350 * EVar vlmMst2) * EPow P2 (EVar vMst2)) - #5 *
   EVar vMgl * (#36 * (#169 + #136 * EVar vlmMst1 - #136 * EVar vlmMst2) * EPow P2 (EVar vMst1) * EPow P2 (EVar vMst2)
   + #2 * (#9185 + #5646 * EVar vlmMst1 - #5646 * EVar vlmMst2) * EPow P4 (EVar vMst1) + #81 * (- #1 + #14 * EVar
   vlmMst1 - #14 * EVar vlmMst2) * EPow P4 (EVar vMst2))) + #90 * (- #48 * (#15 * EVar vDmglst2 * (#95 + #12 * EVar
   vlmMsq * (- #2 + EVar vlmMst1 - EVar vlmMst2) + #32 * EVar vlmMst2 - #4 * EVar vlmMst1 * (#2 + #3 * EVar vlmMst2) +
   #12 * EPow P2 (EVar vlmMst2)) + #5 * EVar vMgl * (#71 + #12 * EVar vlmMsq * (- #2 + EVar vlmMst1 - EVar vlmMst2) +
   #40 * EVar vlmMst2 - #4 * EVar vlmMst1 * (#4 + #3 * EVar vlmMst2) + #12 * EPow P2 (EVar vlmMst2))) * EPow P2 (EVar
   vMsq) - #5 * (EVar vMgl * (#1153 + #12 * EVar vlmMsq * (- #35 + #54 * EVar vlmMst1 - #54 * EVar vlmMst2) + #906 *
   EVar vlmMst2 - #162 * EVar vlmMst1 * (#3 + #4 * EVar vlmMst2) + #648 * EPow P2 (EVar vlmMst2)) + EVar vDmglst2 *
   (#8713 + #12 * EVar vlmMsq * (- #179 + #270 * EVar vlmMst1 - #270 * EVar vlmMst2) + #3282 * EVar vlmMst2 - #162 *
   EVar vlmMst1 * (#7 + #20 * EVar vlmMst2) + #3240 * EPow P2 (EVar vlmMst2))) * EPow P2 (EVar vMst1) - #5 * (EVar
   vMgl * (#911 + #12 * EVar vlmMsq * (- #37 + #18 * EVar vlmMst1 - #18 * EVar vlmMst2) + #606 * EVar vlmMst2 - #54 *
   EVar vlmMst1 * (#3 + #4 * EVar vlmMst2) + #216 * EPow P2 (EVar vlmMst2)) + EVar vDmglst2 * (#5591 + #12 * EVar
   vlmMsq * (- #181 + #90 * EVar vlmMst1 - #90 * EVar vlmMst2) + #2550 * EVar vlmMst2 - #54 * EVar vlmMst1 * (#7 + #20
   * EVar vlmMst2) + #1080 * EPow P2 (EVar vlmMst2))) * EPow P2 (EVar vMst2) + #2304 * (#1 + EVar vlmMst2) * (- EVar
   vDmglst2 + #3 * EVar vDmglst2 * EVar vlmMst2 + EVar vMgl + EVar vlmMst2 * EVar vMgl) * EPow P4 (EVar vMsq) / EPow
   P2 (EVar vMst1)) * EPow P6 (EVar vMst2) / EPow P4 (EVar vMsq)) / EVar vMgl) / EPow P5 (EVar vMst2))) / (#14580 *
   EVar vTbeta) - EVar vthreeLoopFlag * EPow P2 (EVar vAl4p) * (- (EVar vs2t * EPow P3 (EVar vMt) * (EDec
   22709043209876543 14 + #8 * EConst CD3 / #9 - #8 * EConst CDN / #9 - #50 * EVar vlmMsq / #3 + #32 * EVar vlmMt / #3
   + #10 * EPow P2 (EVar vlmMsq) + #2 * EVar vlmMst1 * (#667 - #300 * EVar vlmMsq + #45 * EPow P2 (EVar vlmMsq)) / #27
   + #2 * EVar vlmMst2 * (#1946 + EVar vlmMsq * (#30 - #90 * EVar vlmMst1) + #294 * EVar vlmMst1 - #45 * EPow P2 (EVar
   vlmMsq) - #117 * EPow P2 (EVar vlmMst1)) / #27 + #124 * EPow P2 (EVar vlmMst1) / #9 + #2 * (#152 + #30 * EVar
   vlmMsq + #31 * EVar vlmMst1) * EPow P2 (EVar vlmMst2) / #9 + #32 * EPow P3 (EVar vlmMst1) / #9 - #16 * EPow P3
   (EVar vlmMst2) / #9 + #4 * EVar vDmglst2 * (#15529 - #120 * EConst CB4 + #120 * EConst CD3 - #60 * EConst CDN +
   #150 * EVar vlmMsq + #690 * EVar vlmMst1 + #675 * EPow P2 (EVar vlmMsq) + #345 * EPow P2 (EVar vlmMst1) - #5 * EVar
   vlmMst2 * (- #3091 + #270 * EVar vlmMsq + #42 * EVar vlmMst1 + #96 * EPow P2 (EVar vlmMst1)) + (#4305 - #480 * EVar
   vlmMst1) * EPow P2 (EVar vlmMst2) + #960 * EPow P3 (EVar vlmMst2)) / (#135 * EVar vMgl) - EConst CS2 * (EDec 2673 1
   - #69 * EVar vlmMst1 + #69 * EVar vlmMst2 - (EDec 37043333333333334 14 + #1495 * EVar vlmMst1 / #3 - #1495 * EVar
   vlmMst2 / #3 - #4 * EVar vDmglst2 * (#139 + #100 * EVar vlmMst1 - #100 * EVar vlmMst2) / EVar vMgl) * EPow P2 (EVar
   vMst1) / EPow P2 (EVar vMst2) + (#2532 * EVar vDmglst2 / #5 + #2 * (#12 * EVar vDmglst2 * (#17269 + #13785 * EVar
   vlmMst1 - #13785 * EVar vlmMst2) + (- #126661 - #85515 * EVar vlmMst1 + #85515 * EVar vlmMst2) * EVar vMgl) * EPow
   P4 (EVar vMst1) / (#135 * EPow P4 (EVar vMst2))) / EVar vMgl) - EPow P4 (EVar vMst1) * ((EDec 1670354173415398 15 -
   EVar vlmMsq * (#256 + #259 * EVar vlmMst1 - #49 * EVar vlmMst2) / #441 - #106 * EVar vlmMst2 / #135 + EVar vlmMst1
   * (EDec 1365684051398337 15 + #19 * EVar vlmMst2 / #9) + #10 * EVar vDmglst2 / (#9 * EVar vMgl) + #5 * EPow P2
   (EVar vlmMsq) / #21 - #16 * EPow P2 (EVar vlmMst1) / #21 - #10 * EPow P2 (EVar vlmMst2) / #9) / EPow P4 (EVar vMsq)
   - (EDec 5940859288013853 13 - #40 * EVar vlmMsq / #3 + (- EDec 48017666414714034 14 + #20 * EVar vlmMsq) * EVar
   vlmMst1 + EVar vlmMst2 * (EDec 7077322197026959 13 - #69154 * EVar vlmMst1 / #945 - #20 * EVar vlmMsq * (#3 + #2 *
   EVar vlmMst1) / #3 - #410 * EPow P2 (EVar vlmMst1) / #9) + (- #94783 + #6300 * EVar vlmMsq) * EPow P2 (EVar
   vlmMst1) / #945 + (EDec 21614497354497354 14 + #20 * EVar vlmMsq / #3 - #166 * EVar vlmMst1 / #9) * EPow P2 (EVar
   vlmMst2) + #32 * EVar vlmMt * (#1 + #4 * EVar vlmMst2 - #2 * EVar vlmMst1 * (#2 + EVar vlmMst2) + EPow P2 (EVar
   vlmMst1) + EPow P2 (EVar vlmMst2)) / #3 + #26 * EPow P3 (EVar vlmMst1) / #27 + #1702 * EPow P3 (EVar vlmMst2) / #27
   + EVar vDmglst2 * (EDec 38622610253272387 14 - #32 * EConst CB4 / #9 + #32 * EConst CD3 / #9 - #16 * EConst CDN /
   #9 + #280 * EVar vlmMsq / #3 + (EDec 7566053917863442 13 - #80 * EVar vlmMsq) * EVar vlmMst1 + #19352 * EPow P2
   (EVar vlmMst1) / #189 + EVar vlmMst2 * (EDec 19628349710254471 14 + #80 * EVar vlmMsq - #57520 * EVar vlmMst1 /
   #189 + #88 * EPow P2 (EVar vlmMst1) / #9) + #8 * (#6787 - #5439 * EVar vlmMst1) * EPow P2 (EVar vlmMst2) / #189 -
   #64 * EVar vlmMt * (#4 + #6 * EVar vlmMst2 - #2 * EVar vlmMst1 * (#3 + EVar vlmMst2) + EPow P2 (EVar vlmMst1) +
   EPow P2 (EVar vlmMst2)) / #3 - #8 * EPow P3 (EVar vlmMst1) / #9 + #664 * EPow P3 (EVar vlmMst2) / #3) / EVar vMgl)
   / EPow P4 (EVar vMst2)) + (#32 * (#1 + EVar vlmMst2) * (#4 * EVar vDmglst2 * EVar vlmMst2 + EVar vMgl + EVar
   vlmMst2 * EVar vMgl) * EPow P4 (EVar vMst2) / (#9 * EPow P4 (EVar vMst1)) + #4 * EConst COepS2 * (#24 * EVar
   vDmglst2 * (#150 * EPow P2 (EVar vMst1) * EPow P2 (EVar vMst2) + #919 * EPow P4 (EVar vMst1)) - EVar vMgl * (#4485
   * EPow P2 (EVar vMst1) * EPow P2 (EVar vMst2) + #11402 * EPow P4 (EVar vMst1) + #621 * EPow P4 (EVar vMst2))) /
   (#729 * EPow P4 (EVar vMst2)) + EPow P2 (EVar vMst2) * (- #5 * EVar vDmglst2 * (#3 * (#7 + #12 * EVar vlmMsq - #12
   * EVar vlmMst2) * EPow P2 (EVar vMst1) + #2 * (#43 - #144 * EVar vlmMsq + #144 * EVar vlmMst2) * EPow P2 (EVar
   vMst2)) / #54 + EVar vMgl * (#1715 * (#75 + #60 * EVar vlmMsq * (- #3 + #2 * EVar vlmMst1 - #2 * EVar vlmMst2) +
   #356 * EVar vlmMst2 - #8 * EVar vlmMst1 * (#22 + #15 * EVar vlmMst2) + #120 * EPow P2 (EVar vlmMst2)) * EPow P2
   (EVar vMst1) + (- #393767 + #420 * EVar vlmMsq * (#2194 + #49 * EVar vlmMst1 - #259 * EVar vlmMst2) - #878948 *
   EVar vlmMst2 - #1372 * EVar vlmMst1 * (#31 + #15 * EVar vlmMst2) + #44100 * EPow P2 (EVar vlmMsq) + #64680 * EPow
   P2 (EVar vlmMst2)) * EPow P2 (EVar vMst2)) / #185220 + (#40 * (#8 * EVar vDmglst2 * (#14 - #15 * EVar vlmMsq + #15
   * EVar vlmMst2) + (#43 - #30 * EVar vlmMsq + #30 * EVar vlmMst2) * EVar vMgl) * EPow P2 (EVar vMsq) * EPow P2 (EVar
   vMst2) + (- #24 * EVar vDmglst2 * (- #179 + #2 * (#87 + #32 * EVar vlmMst1) * EVar vlmMst2 - #30 * EVar vlmMsq * (-
   #1 + #6 * EVar vlmMst2) + #90 * EPow P2 (EVar vlmMsq) + #208 * EPow P2 (EVar vlmMst2)) - #12 * EVar vMgl * (#277 +
   #514 * EVar vlmMst2 + #64 * EVar vlmMst1 * (#1 + EVar vlmMst2) - #30 * EVar vlmMsq * (#5 + #6 * EVar vlmMst2) + #90
   * EPow P2 (EVar vlmMsq) + #208 * EPow P2 (EVar vlmMst2))) * EPow P4 (EVar vMsq) + (#90 * EVar vDmglst2 * (#13 - #28
   * EVar vlmMsq + #28 * EVar vlmMst2) + #5 * (#67 - #84 * EVar vlmMsq + #84 * EVar vlmMst2) * EVar vMgl) * EPow P4
   (EVar vMst2)) / (#108 * EPow P2 (EVar vMst1))) / EPow P4 (EVar vMsq) - (#16 * EVar vDmglst2 * (EPow P2 (EVar vMsq)
   * EPow P2 (EVar vMst1) * (- #9080791 + #54000 * EConst CB4 - #54000 * EConst CD3 + #27000 * EConst CDN - #607500 *
   EVar vlmMsq - #2541540 * EVar vlmMst1 + #202500 * EVar vlmMsq * EVar vlmMst1 - #8582460 * EVar vlmMst2 - #202500 *
   EVar vlmMsq * EVar vlmMst2 + #867600 * EVar vlmMst1 * EVar vlmMst2 + #648000 * EVar vlmMt - #324000 * EVar vlmMst1
   * EVar vlmMt + #324000 * EVar vlmMst2 * EVar vlmMt - #1800 * EPow P2 (EVar vlmMst1) + #202500 * EVar vlmMst2 * EPow
   P2 (EVar vlmMst1) - #2161800 * EPow P2 (EVar vlmMst2) + #1525500 * EVar vlmMst1 * EPow P2 (EVar vlmMst2) + #4500 *
   EPow P3 (EVar vlmMst1) - #1732500 * EPow P3 (EVar vlmMst2)) + #33750 * (#2 * EPow P2 (EVar vMst1) * EPow P2 (EVar
   vMst2) + #2 * (- #3 + EVar vlmMst1 - EVar vlmMst2) * EPow P4 (EVar vMst1) + (#17 - #20 * EVar vlmMsq + #20 * EVar
   vlmMst2) * EPow P4 (EVar vMst2))) + #5 * EVar vMgl * (EPow P2 (EVar vMsq) * EPow P2 (EVar vMst1) * (- #19319827 -
   #19042320 * EVar vlmMst2 - #518400 * EVar vlmMt - #1036800 * EVar vlmMst2 * EVar vlmMt + #3600 * (#701 + #186 *
   EVar vlmMst2) * EPow P2 (EVar vlmMst1) - #5943600 * EPow P2 (EVar vlmMst2) - #324000 * EVar vlmMsq * (- #2 + EVar
   vlmMst1 - EVar vlmMst2 - #2 * EVar vlmMst1 * EVar vlmMst2 + EPow P2 (EVar vlmMst1) + EPow P2 (EVar vlmMst2)) + #240
   * EVar vlmMst1 * (#35693 + #5610 * EVar vlmMst2 + #4320 * EVar vlmMt + #3690 * EPow P2 (EVar vlmMst2)) + #295200 *
   EPow P3 (EVar vlmMst1) - #1850400 * EPow P3 (EVar vlmMst2)) + #48 * ((#9608 - #15 * EVar vlmMsq * (#218 + #195 *
   EVar vlmMst1 - #75 * EVar vlmMst2) - #5250 * EVar vlmMst2 + #15 * EVar vlmMst1 * (#568 + #375 * EVar vlmMst2) +
   #900 * EPow P2 (EVar vlmMsq) - #1350 * EPow P2 (EVar vlmMst1) - #3375 * EPow P2 (EVar vlmMst2)) * EPow P2 (EVar
   vMst1) * EPow P2 (EVar vMst2) - #1125 * (- #4 + EVar vlmMst1 * (#2 - #6 * EVar vlmMst2) - #2 * EVar vlmMst2 + #3 *
   EPow P2 (EVar vlmMst1) + #3 * EPow P2 (EVar vlmMst2)) * EPow P4 (EVar vMst1) + (#6517 - #15 * EVar vlmMsq * (#532 +
   #75 * EVar vlmMst1 - #195 * EVar vlmMst2) + #4980 * EVar vlmMst2 + #375 * EVar vlmMst1 * (#8 + #3 * EVar vlmMst2) -
   #900 * EPow P2 (EVar vlmMsq) - #2025 * EPow P2 (EVar vlmMst2)) * EPow P4 (EVar vMst2)))) / (#243000 * EPow P2 (EVar
   vMsq) * EPow P2 (EVar vMst2))) / EVar vMgl)) - EPow P2 (EVar vMt) * EPow P2 (EVar vs2t) * (EPow P2 (EVar vMst1) *
   EPow P2 (EVar vMst2) * (EDec 3972878086419753 13 + #48 * EConst CB4 - #60 * EVar vlmMsq - #5 * EVar vlmMst1 * (#43
   - #4 * EVar vlmMsq + #4 * EPow P2 (EVar vlmMsq)) - #28 * EPow P2 (EVar vlmMst1) / #3 + EVar vlmMst2 * (#901 - #780
   * EVar vlmMst1 + #60 * EVar vlmMsq * (- #1 + #2 * EVar vlmMst1) + #60 * EPow P2 (EVar vlmMsq) + #32 * EPow P2 (EVar
   vlmMst1)) / #3 - #8 * (- #101 + #15 * EVar vlmMsq + #44 * EVar vlmMst1) * EPow P2 (EVar vlmMst2) / #3 + #320 * EPow
   P3 (EVar vlmMst2) / #3 + (- #20 * (#6 * EVar vDmglst2 * (#15 + EVar vlmMst1 * (- #4 + #6 * EVar vlmMsq - #6 * EVar
   vlmMst2) + #4 * EVar vlmMst2 - #6 * EVar vlmMsq * EVar vlmMst2 + #6 * EPow P2 (EVar vlmMst2)) + EVar vMgl * (#9 +
   #4 * EVar vlmMst1 * (- #4 + #3 * EVar vlmMsq - #3 * EVar vlmMst2) + #16 * EVar vlmMst2 - #12 * EVar vlmMsq * EVar
   vlmMst2 + #12 * EPow P2 (EVar vlmMst2))) * EPow P2 (EVar vMst1) / (#9 * EPow P2 (EVar vMsq)) + EVar vDmglst2 *
   (EDec 3001378086419753 13 + #296 * EConst CB4 / #3 - #4 * EConst CDN / #3 - #340 * EVar vlmMsq + EVar vlmMst1 *
   (EDec 4055555555555556 14 - #60 * EVar vlmMsq - #20 * EPow P2 (EVar vlmMsq)) + #28 * EPow P2 (EVar vlmMst1) / #3 +
   EVar vlmMst2 * (EDec 42877777777777777 14 - #84 * EVar vlmMst1 + #20 * EVar vlmMsq * (#3 + #2 * EVar vlmMst1) + #20
   * EPow P2 (EVar vlmMsq) + #32 * EPow P2 (EVar vlmMst1) / #3) - #8 * (- #28 + #15 * EVar vlmMsq + #60 * EVar
   vlmMst1) * EPow P2 (EVar vlmMst2) / #3 + #448 * EPow P3 (EVar vlmMst2) / #3)) / EVar vMgl) + (EDec 5367597736625514
   13 + #48 * EConst CB4 - #55 * EVar vlmMsq - EVar vlmMst1 * (EDec 22877777777777777 14 - #10 * EVar vlmMsq + #20 *
   EPow P2 (EVar vlmMsq)) + #326 * EPow P2 (EVar vlmMst1) / #9 + EVar vlmMst2 * (#2635 - #3160 * EVar vlmMst1 + #90 *
   EVar vlmMsq * (- #1 + #4 * EVar vlmMst1) + #180 * EPow P2 (EVar vlmMsq) + #528 * EPow P2 (EVar vlmMst1)) / #9 +
   (EDec 3148888888888889 13 - #40 * EVar vlmMsq - #208 * EVar vlmMst1) * EPow P2 (EVar vlmMst2) - #16 * EPow P3 (EVar
   vlmMst1) / #9 - EVar vDmglst2 * (EDec 30929708504801096 14 - #296 * EConst CB4 / #3 + #4 * EConst CDN / #3 + #375 *
   EVar vlmMsq + EVar vlmMst1 * (EDec 6691358024691358 14 + #30 * EVar vlmMsq + #20 * EPow P2 (EVar vlmMsq)) + #46 *
   EPow P2 (EVar vlmMst1) / #3 - EVar vlmMst2 * (#10 * EVar vlmMsq * (#3 + #4 * EVar vlmMst1) + #20 * EPow P2 (EVar
   vlmMsq) + #4 * (#11723 - #702 * EVar vlmMst1 + #756 * EPow P2 (EVar vlmMst1)) / #81) + #2 * (- #75 + #60 * EVar
   vlmMsq + #344 * EVar vlmMst1) * EPow P2 (EVar vlmMst2) / #3 - #16 * EPow P3 (EVar vlmMst1) / #3 - #560 * EPow P3
   (EVar vlmMst2) / #3) / EVar vMgl + #1360 * EPow P3 (EVar vlmMst2) / #9) * EPow P4 (EVar vMst1) + (EDec
   3685208333333333 13 + #110 * EConst CB4 / #3 - EConst CDN / #3 - #120 * EVar vlmMsq + #20 * EPow P2 (EVar vlmMsq) -
   EVar vlmMst1 * (#199 - #30 * EVar vlmMsq + #30 * EPow P2 (EVar vlmMsq)) / #3 + EVar vlmMst2 * (#1227 - #322 * EVar
   vlmMst1 + #30 * EVar vlmMsq * (- #5 + #2 * EVar vlmMst1) + #30 * EPow P2 (EVar vlmMsq) - #16 * EPow P2 (EVar
   vlmMst1)) / #3 - #16 * EPow P2 (EVar vlmMst1) / #3 - #2 * (- #99 + #10 * EVar vlmMsq + #24 * EVar vlmMst1) * EPow
   P2 (EVar vlmMst2) + #160 * EPow P3 (EVar vlmMst2) / #3 + (- #10 * (#3 * EVar vDmglst2 * (#59 + #8 * EVar vlmMst1 *
   (- #2 + #3 * EVar vlmMsq - #3 * EVar vlmMst2) + #16 * EVar vlmMst2 - #24 * EVar vlmMsq * EVar vlmMst2 + #24 * EPow
   P2 (EVar vlmMst2)) + EVar vMgl * (#21 + #8 * EVar vlmMst1 * (- #4 + #3 * EVar vlmMsq - #3 * EVar vlmMst2) + #32 *
   EVar vlmMst2 - #24 * EVar vlmMsq * EVar vlmMst2 + #24 * EPow P2 (EVar vlmMst2))) * EPow P2 (EVar vMst1) / (#9 *
   EPow P2 (EVar vMsq)) + EVar vDmglst2 * (EDec 37173935185185184 14 + #262 * EConst CB4 / #3 - #5 * EConst CDN / #3 -
   #300 * EVar vlmMsq + EVar vlmMst1 * (EDec 57666666666666664 15 - #30 * EVar vlmMsq - #10 * EPow P2 (EVar vlmMsq)) +
   #20 * EPow P2 (EVar vlmMsq) + EVar vlmMst2 * (#1559 - #130 * EVar vlmMst1 + #30 * EVar vlmMsq * (- #1 + #2 * EVar
   vlmMst1) + #30 * EPow P2 (EVar vlmMsq) - #16 * EPow P2 (EVar vlmMst1)) / #3 + #16 * EPow P2 (EVar vlmMst1) / #3 -
   #2 * (- #217 + #30 * EVar vlmMsq + #136 * EVar vlmMst1) * EPow P2 (EVar vlmMst2) / #3 + #96 * EPow P3 (EVar
   vlmMst2))) / EVar vMgl - #5 * (EVar vMgl * (#245 + #12 * EVar vlmMsq * (- #1 + #36 * EVar vlmMst1 - #36 * EVar
   vlmMst2) + #336 * EVar vlmMst2 - #108 * EVar vlmMst1 * (#3 + #4 * EVar vlmMst2) + #432 * EPow P2 (EVar vlmMst2)) +
   EVar vDmglst2 * (#3053 + #12 * EVar vlmMsq * (- #1 + #180 * EVar vlmMst1 - #180 * EVar vlmMst2) + #768 * EVar
   vlmMst2 - #108 * EVar vlmMst1 * (#7 + #20 * EVar vlmMst2) + #2160 * EPow P2 (EVar vlmMst2))) * EPow P4 (EVar vMst1)
   / (#216 * EVar vMgl * EPow P4 (EVar vMsq))) * EPow P4 (EVar vMst2) + (#2 * EConst COepS2 * (- #3 * EVar vMgl *
   (#627 * EPow P2 (EVar vMst1) * EPow P2 (EVar vMst2) + #1066 * EPow P4 (EVar vMst1) + #189 * EPow P4 (EVar vMst2)) +
   EVar vDmglst2 * (#8163 * EPow P2 (EVar vMst1) * EPow P2 (EVar vMst2) + #23734 * EPow P4 (EVar vMst1) + #945 * EPow
   P4 (EVar vMst2))) / #729 - EConst CS2 * (EVar vDmglst2 * (#9 * (#23989 + #27210 * EVar vlmMst1 - #27210 * EVar
   vlmMst2) * EPow P2 (EVar vMst1) * EPow P2 (EVar vMst2) + #2 * (#525961 + #356010 * EVar vlmMst1 - #356010 * EVar
   vlmMst2) * EPow P4 (EVar vMst1) + #81 * (- #453 + #350 * EVar vlmMst1 - #350 * EVar vlmMst2) * EPow P4 (EVar
   vMst2)) - #15 * EVar vMgl * (#9 * (#685 + #418 * EVar vlmMst1 - #418 * EVar vlmMst2) * EPow P2 (EVar vMst1) * EPow
   P2 (EVar vMst2) + #2 * (#6143 + #3198 * EVar vlmMst1 - #3198 * EVar vlmMst2) * EPow P4 (EVar vMst1) + #81 * (- #1 +
   #14 * EVar vlmMst1 - #14 * EVar vlmMst2) * EPow P4 (EVar vMst2))) / #540 + (#2 * (- #5 * (#3 * EVar vDmglst2 * (#95
   + #12 * EVar vlmMsq * (- #2 + EVar vlmMst1 - EVar vlmMst2) + #32 * EVar vlmMst2 - #4 * EVar vlmMst1 * (#2 + #3 *
   EVar vlmMst2) + #12 * EPow P2 (EVar vlmMst2)) + EVar vMgl * (#71 + #12 * EVar vlmMsq * (- #2 + EVar vlmMst1 - EVar
   vlmMst2) + #40 * EVar vlmMst2 - #4 * EVar vlmMst1 * (#4 + #3 * EVar vlmMst2) + #12 * EPow P2 (EVar vlmMst2))) /
   EPow P2 (EVar vMsq) + #48 * (#1 + EVar vlmMst2) * (- EVar vDmglst2 + #3 * EVar vDmglst2 * EVar vlmMst2 + EVar vMgl
   + EVar vlmMst2 * EVar vMgl) / EPow P2 (EVar vMst1)) / #9 - #5 * ((EVar vMgl * (#242 + #24 * EVar vlmMsq * (#1 + #18
   * EVar vlmMst1 - #18 * EVar vlmMst2) + #300 * EVar vlmMst2 - #108 * EVar vlmMst1 * (#3 + #4 * EVar vlmMst2) + #432
   * EPow P2 (EVar vlmMst2)) + EVar vDmglst2 * (#3122 + #24 * EVar vlmMsq * (#1 + #90 * EVar vlmMst1 - #90 * EVar
   vlmMst2) + #732 * EVar vlmMst2 - #108 * EVar vlmMst1 * (#7 + #20 * EVar vlmMst2) + #2160 * EPow P2 (EVar vlmMst2)))
   * EPow P2 (EVar vMst1) + (EVar vMgl * (#911 + #12 * EVar vlmMsq * (- #37 + #18 * EVar vlmMst1 - #18 * EVar vlmMst2)
   + #606 * EVar vlmMst2 - #54 * EVar vlmMst1 * (#3 + #4 * EVar vlmMst2) + #216 * EPow P2 (EVar vlmMst2)) + EVar
   vDmglst2 * (#5591 + #12 * EVar vlmMsq * (- #181 + #90 * EVar vlmMst1 - #90 * EVar vlmMst2) + #2550 * EVar vlmMst2 -
   #54 * EVar vlmMst1 * (#7 + #20 * EVar vlmMst2) + #1080 * EPow P2 (EVar vlmMst2))) * EPow P2 (EVar vMst2)) / (#216 *
   EPow P4 (EVar vMsq))) * EPow P6 (EVar vMst2)) / EVar vMgl) / EPow P3 (EVar vMst2) + EPow P4 (EVar vMt) * (#20 *
   (#567143 - #125172 * EVar vlmMst2 + #648 * EVar vlmMst2 * (- #38 + #5 * EVar vlmMst2) * EVar vlmMt - #9720 * (EVar
   vlmMsq * (EVar vlmMst1 * (#9 - #2 * EVar vlmMt) + #2 * EVar vlmMst2 * (- #6 + EVar vlmMt) + #3 * (- #4 + EVar
   vlmMt)) + EVar vlmMt) - #9720 * (EVar vlmMst1 - EVar vlmMst2) * EPow P2 (EVar vlmMsq) + #240300 * EPow P2 (EVar
   vlmMst2) - #108 * EVar vlmMst1 * (#2111 + EVar vlmMst1 * (#457 - #12 * EVar vlmMst2 - #126 * EVar vlmMt) - #420 *
   EVar vlmMt + #4 * EVar vlmMst2 * (#454 + #39 * EVar vlmMt) + #750 * EPow P2 (EVar vlmMst2) - #288 * EPow P2 (EVar
   vlmMt)) - #15552 * (#1 + #2 * EVar vlmMst2) * EPow P2 (EVar vlmMt) + #216 * EPow P3 (EVar vlmMst1) + #79488 * EPow
   P3 (EVar vlmMst2)) * EPow P4 (EVar vMst1) + #108 * EConst CS2 * (- #48 * EVar vDmglst2 * (#601 + #2790 * EVar
   vlmMst1 - #2790 * EVar vlmMst2) * EPow P2 (EVar vMst1) * EPow P2 (EVar vMst2) + #72 * (#457 + #550 * EVar vlmMst1 -
   #550 * EVar vlmMst2) * EVar vMgl * EPow P2 (EVar vMst1) * EPow P2 (EVar vMst2) + #40 * (#4082 + #3045 * EVar
   vlmMst1 - #3045 * EVar vlmMst2) * EVar vMgl * EPow P4 (EVar vMst1) - #675 * EVar vDmglst2 * (- #27 + #14 * EVar
   vlmMst1 - #14 * EVar vlmMst2) * EPow P4 (EVar vMst2) + #81 * (- #79 + #70 * EVar vlmMst1 - #70 * EVar vlmMst2) *
   EVar vMgl * EPow P4 (EVar vMst2)) / EVar vMgl + (- #24 * EPow P2 (EVar vMst1) * EPow P2 (EVar vMst2) * (#2700 *
   EVar vMgl * (- #25 + EVar vlmMst1 * (- #5 + #6 * EVar vlmMsq - #6 * EVar vlmMst2) + (#4 - #6 * EVar vlmMsq) * EVar
   vlmMst2 + EVar vlmMt + #6 * EPow P2 (EVar vlmMst2)) * EPow P2 (EVar vMst1) + #300 * EVar vDmglst2 * (- #313 + #3 *
   EVar vlmMst1 * (- #23 + #42 * EVar vlmMsq - #42 * EVar vlmMst2) - #42 * (- #2 + #3 * EVar vlmMsq) * EVar vlmMst2 -
   #15 * EVar vlmMt + #126 * EPow P2 (EVar vlmMst2)) * EPow P2 (EVar vMst1) + #2 * EVar vMgl * EPow P2 (EVar vMsq) *
   (- #71744 + #28755 * EVar vlmMst2 + #15255 * EVar vlmMt + #17820 * EVar vlmMst2 * EVar vlmMt + #4050 * (EVar
   vlmMst1 - EVar vlmMst2) * EPow P2 (EVar vlmMsq) - #540 * (- #15 + #4 * EVar vlmMt) * EPow P2 (EVar vlmMst1) -
   #89910 * EPow P2 (EVar vlmMst2) + #6480 * EVar vlmMt * EPow P2 (EVar vlmMst2) + #4050 * EVar vlmMsq * (- #11 + EVar
   vlmMst1 - #2 * EVar vlmMst2 - #2 * EVar vlmMst1 * EVar vlmMst2 + EVar vlmMt + #2 * EPow P2 (EVar vlmMst2)) + #270 *
   EVar vlmMst1 * (#221 + #279 * EVar vlmMst2 - #66 * EVar vlmMt - #16 * EVar vlmMst2 * EVar vlmMt + #112 * EPow P2
   (EVar vlmMst2) - #24 * EPow P2 (EVar vlmMt)) + #6480 * EPow P2 (EVar vlmMt) + #6480 * EVar vlmMst2 * EPow P2 (EVar
   vlmMt) - #30240 * EPow P3 (EVar vlmMst2)) + #3 * EVar vDmglst2 * EPow P2 (EVar vMsq) * (#93487 + #196530 * EVar
   vlmMst2 + #9030 * EVar vlmMt - #7380 * EVar vlmMst2 * EVar vlmMt + #2700 * (EVar vlmMst1 - EVar vlmMst2) * EPow P2
   (EVar vlmMsq) - #360 * (#23 + #8 * EVar vlmMst2 - #4 * EVar vlmMt) * EPow P2 (EVar vlmMst1) + #68040 * EPow P2
   (EVar vlmMst2) + #1440 * EVar vlmMt * EPow P2 (EVar vlmMst2) + #300 * EVar vlmMsq * (#29 + EVar vlmMst1 * (#9 - #18
   * EVar vlmMst2) + #6 * EVar vlmMst2 - #15 * EVar vlmMt + #18 * EPow P2 (EVar vlmMst2)) - #8640 * EPow P2 (EVar
   vlmMt) - #4320 * EVar vlmMst2 * EPow P2 (EVar vlmMt) + #20 * EVar vlmMst1 * (- #5846 + #321 * EVar vlmMt - #12 *
   EVar vlmMst2 * (#209 + #12 * EVar vlmMt) + #576 * EPow P2 (EVar vlmMst2) + #216 * EPow P2 (EVar vlmMt)) - #8640 *
   EPow P3 (EVar vlmMst2))) / EPow P2 (EVar vMsq) + #9 * (#9 * EVar vMgl * (#800 * (#19 + (- #8 + #6 * EVar vlmMsq) *
   EVar vlmMst2 + EVar vlmMst1 * (#7 - #6 * EVar vlmMsq + #6 * EVar vlmMst2) + EVar vlmMt - #6 * EPow P2 (EVar
   vlmMst2)) * EPow P2 (EVar vMsq) * EPow P2 (EVar vMst1) + (#813 - #3360 * EVar vlmMst2 - #2400 * (EVar vlmMst1 -
   EVar vlmMst2) * EPow P2 (EVar vlmMsq) - #1280 * (#1 + EVar vlmMst2) * EPow P2 (EVar vlmMst1) + #2400 * EVar vlmMsq
   * (#7 + EVar vlmMst1 - #2 * EVar vlmMst2 + #2 * EVar vlmMst1 * EVar vlmMst2 + EVar vlmMt - #2 * EPow P2 (EVar
   vlmMst2)) + #30880 * EPow P2 (EVar vlmMst2) - #80 * EVar vlmMt * (#175 + #96 * EVar vlmMst2 + #32 * EPow P2 (EVar
   vlmMst2)) - #80 * EVar vlmMst1 * (#167 + #258 * EVar vlmMst2 - #32 * (#1 + EVar vlmMst2) * EVar vlmMt + #112 * EPow
   P2 (EVar vlmMst2)) - #3840 * EPow P2 (EVar vlmMt) + #10240 * EPow P3 (EVar vlmMst2)) * EPow P4 (EVar vMsq) + #200 *
   (#38 + #4 * (- #2 + #3 * EVar vlmMsq) * EVar vlmMst2 + EVar vlmMst1 * (#7 - #12 * EVar vlmMsq + #12 * EVar vlmMst2)
   + EVar vlmMt - #12 * EPow P2 (EVar vlmMst2)) * EPow P4 (EVar vMst1)) - #5 * EVar vDmglst2 * (- #160 * (#439 + #6 *
   (- #8 + #21 * EVar vlmMsq) * EVar vlmMst2 + #3 * EVar vlmMst1 * (#17 - #42 * EVar vlmMsq + #42 * EVar vlmMst2) - #3
   * EVar vlmMt - #126 * EPow P2 (EVar vlmMst2)) * EPow P2 (EVar vMsq) * EPow P2 (EVar vMst1) + (#7335 + #169856 *
   EVar vlmMst2 + #4320 * (EVar vlmMst1 - EVar vlmMst2) * EPow P2 (EVar vlmMsq) + #2304 * (- #1 + EVar vlmMst2) * EPow
   P2 (EVar vlmMst1) + #21984 * EPow P2 (EVar vlmMst2) + #480 * EVar vlmMsq * (- #79 - #30 * EVar vlmMst2 - #9 * EVar
   vlmMst1 * (- #3 + #2 * EVar vlmMst2) + #3 * EVar vlmMt + #18 * EPow P2 (EVar vlmMst2)) + #48 * EVar vlmMt * (#31 -
   #128 * EVar vlmMst2 + #96 * EPow P2 (EVar vlmMst2)) + #144 * EVar vlmMst1 * (- #269 + #32 * EVar vlmMt - #2 * EVar
   vlmMst2 * (#63 + #16 * EVar vlmMt) + #112 * EPow P2 (EVar vlmMst2)) - #18432 * EPow P3 (EVar vlmMst2)) * EPow P4
   (EVar vMsq) + #40 * (- #1330 + EVar vlmMst1 * (- #51 + #396 * EVar vlmMsq - #396 * EVar vlmMst2) + (#48 - #396 *
   EVar vlmMsq) * EVar vlmMst2 + #3 * EVar vlmMt + #396 * EPow P2 (EVar vlmMst2)) * EPow P4 (EVar vMst1))) * EPow P4
   (EVar vMst2) / EPow P4 (EVar vMsq) + #160 * EConst COepS2 * (#9 * EVar vDmglst2 * EPow P2 (EVar vMst2) * (#496 *
   EPow P2 (EVar vMst1) + #35 * EPow P2 (EVar vMst2)) - EVar vMgl * (#1320 * EPow P2 (EVar vMst1) * EPow P2 (EVar
   vMst2) + #4060 * EPow P4 (EVar vMst1) + #189 * EPow P4 (EVar vMst2))) + #90 * (- #32 * (- #5 * EVar vMgl * (#58 -
   #36 * EVar vlmMst2 + #6 * EVar vlmMst1 * (#4 + #3 * EVar vlmMst2) - #3 * EVar vlmMt - #9 * EVar vlmMst2 * EVar
   vlmMt + #3 * EVar vlmMsq * (#5 - #6 * EVar vlmMst1 + #9 * EVar vlmMst2 + #3 * EVar vlmMt) - #9 * EPow P2 (EVar
   vlmMsq) - #18 * EPow P2 (EVar vlmMst2)) - #15 * EVar vDmglst2 * (#64 - #20 * EVar vlmMst2 + #6 * EVar vlmMst1 * (#2
   + #3 * EVar vlmMst2) + #3 * EVar vlmMt - #3 * EVar vlmMst2 * EVar vlmMt + EVar vlmMsq * (#5 - #18 * EVar vlmMst1 +
   #21 * EVar vlmMst2 + #3 * EVar vlmMt) - #3 * EPow P2 (EVar vlmMsq) - #18 * EPow P2 (EVar vlmMst2))) * EPow P2 (EVar
   vMsq) + #5 * (#3 * EVar vDmglst2 * (#1693 - #136 * EVar vlmMst2 + #6 * EVar vlmMst1 * (#19 + #84 * EVar vlmMst2) -
   #4 * EVar vlmMsq * (#5 + #126 * EVar vlmMst1 - #132 * EVar vlmMst2 - #6 * EVar vlmMt) + #42 * EVar vlmMt - #24 *
   EVar vlmMst2 * EVar vlmMt - #24 * EPow P2 (EVar vlmMsq) - #504 * EPow P2 (EVar vlmMst2)) + EVar vMgl * (#1271 -
   #216 * EVar vlmMst2 + #6 * EVar vlmMst1 * (#41 + #60 * EVar vlmMst2) - #12 * EVar vlmMsq * (#5 + #30 * EVar vlmMst1
   - #36 * EVar vlmMst2 - #6 * EVar vlmMt) + #30 * EVar vlmMt - #72 * EVar vlmMst2 * EVar vlmMt - #72 * EPow P2 (EVar
   vlmMsq) - #360 * EPow P2 (EVar vlmMst2))) * EPow P2 (EVar vMst1) + #15 * (EVar vDmglst2 * (#1535 - #184 * EVar
   vlmMst2 + #18 * EVar vlmMst1 * (#7 + #20 * EVar vlmMst2) - #6 * (- #9 + #28 * EVar vlmMst2) * EVar vlmMt + #4 *
   EVar vlmMsq * (#1 - #90 * EVar vlmMst1 + #132 * EVar vlmMst2 + #42 * EVar vlmMt) - #168 * EPow P2 (EVar vlmMsq) -
   #360 * EPow P2 (EVar vlmMst2)) + EVar vMgl * (#403 - #24 * EVar vlmMst2 + #18 * EVar vlmMst1 * (#3 + #4 * EVar
   vlmMst2) - #12 * EVar vlmMsq * (#1 + #6 * EVar vlmMst1 - #12 * EVar vlmMst2 - #6 * EVar vlmMt) - #18 * (#1 + #4 *
   EVar vlmMst2) * EVar vlmMt - #72 * EPow P2 (EVar vlmMsq) - #72 * EPow P2 (EVar vlmMst2))) * EPow P2 (EVar vMst2) +
   #2304 * (#1 + EVar vlmMst2) * (- EVar vDmglst2 + #3 * EVar vDmglst2 * EVar vlmMst2 + EVar vMgl + EVar vlmMst2 *
   EVar vMgl) * EPow P4 (EVar vMsq) / EPow P2 (EVar vMst1)) * EPow P6 (EVar vMst2) / EPow P4 (EVar vMsq)) / EVar vMgl)
   / (#14580 * EPow P5 (EVar vMst2)) + EVar vMt * (EVar vs2t * EPow P2 (EVar vMst2) * (#6 * (EVar vDmglst2 * (#1677 -
   #14 * EVar vlmMst1 + #14 * EVar vlmMst2) + #24 * (#22 + EVar vlmMst1 - EVar vlmMst2) * EVar vMgl) * EConst CS2 *
   EPow P2 (EVar vs2t) / EVar vMgl + (- #1 + #2 * EVar vlmMst2) * EVar vshiftst3 * (#4 * EPow P2 (EVar vMt) + (#1 +
   EVar vlmMst1 - EVar vlmMst2) * EPow P2 (EVar vMst1) * EPow P2 (EVar vs2t)) / EPow P2 (EVar vMst1)) / #6 + EPow P3
   (EVar vs2t) * (EPow P2 (EVar vMst1) * (EDec 15095520576131688 14 + #2 * EConst CB4 + #2 * EConst CD3 / #9 - #2 *
   EConst CDN / #9 - #335 * EVar vlmMsq / #18 + EVar vlmMst1 * (EDec 9425864197530865 14 - #325 * EVar vlmMsq / #18 +
   #5 * EPow P2 (EVar vlmMsq) / #6) + #25 * EPow P2 (EVar vlmMsq) / #6 + #5 * (- #149 + #18 * EVar vlmMsq) * EPow P2
   (EVar vlmMst1) / #27 - EVar vlmMst2 * (#53429 - #183450 * EVar vlmMst1 + #2250 * EVar vlmMsq * (- #7 + #6 * EVar
   vlmMst1) + #1350 * EPow P2 (EVar vlmMsq) + #29610 * EPow P2 (EVar vlmMst1)) / #1620 + (- #3683 + #270 * EVar vlmMsq
   + #2595 * EVar vlmMst1) * EPow P2 (EVar vlmMst2) / #54 - #55 * EPow P3 (EVar vlmMst1) / #27 + EVar vDmglst2 * (- #5
   * EVar vlmMsq * (#7 + #6 * EVar vlmMst2) / #3 + #5 * EPow P2 (EVar vlmMsq) + (- #5430043 - #1334580 * EVar vlmMst2
   + #900 * (#859 - #3690 * EVar vlmMst2) * EPow P2 (EVar vlmMst1) - #846900 * EPow P2 (EVar vlmMst2) + #120 * EVar
   vlmMst1 * (#44309 + #12315 * EVar vlmMst2 + #56475 * EPow P2 (EVar vlmMst2)) - #45000 * EPow P3 (EVar vlmMst1) -
   #3411000 * EPow P3 (EVar vlmMst2)) / #121500) / EVar vMgl - #749 * EPow P3 (EVar vlmMst2) / #27) - (#5556600 *
   (#150 * EVar vDmglst2 * (#5 - #2 * EVar vlmMst1 + #2 * EVar vlmMst2) + EVar vMgl * (#1503 - #60 * EVar vlmMsq *
   (#12 + #5 * EVar vlmMst1 - #5 * EVar vlmMst2) - #950 * EVar vlmMst2 + #10 * EVar vlmMst1 * (#167 + #210 * EVar
   vlmMst2) - #900 * EPow P2 (EVar vlmMst1) - #1200 * EPow P2 (EVar vlmMst2))) / EPow P2 (EVar vMsq) + (#1250235000 *
   EVar vlmMsq * (#1 - #2 * EVar vlmMst1 + #2 * EVar vlmMst2) * (#12 * EVar vDmglst2 + EVar vMgl + #8 * EVar vlmMst1 *
   EVar vMgl - #8 * EVar vlmMst2 * EVar vMgl) - #3 * EVar vMgl * (#79604910131 + #34248010860 * EVar vlmMst2 -
   #1058400 * (#78238 + #33285 * EVar vlmMst2) * EPow P2 (EVar vlmMst1) - #83251627200 * EPow P2 (EVar vlmMst2) +
   #1260 * EVar vlmMst1 * (- #29738761 + #131792640 * EVar vlmMst2 + #59005800 * EPow P2 (EVar vlmMst2)) - #1296540000
   * EPow P3 (EVar vlmMst1) - #37821924000 * EPow P3 (EVar vlmMst2)) + #20 * EVar vDmglst2 * (#32030812049 +
   #1902812940 * EVar vlmMst2 + #793800 * (#433 + #6552 * EVar vlmMst2) * EPow P2 (EVar vlmMst1) + #76998600 * EPow P2
   (EVar vlmMst2) - #1260 * EVar vlmMst1 * (#2674409 + #333900 * EVar vlmMst2 + #7514640 * EPow P2 (EVar vlmMst2)) -
   #311169600 * EPow P3 (EVar vlmMst1) + #4578638400 * EPow P3 (EVar vlmMst2))) / EPow P2 (EVar vMst2)) * EPow P4
   (EVar vMst1) / (#3000564000 * EVar vMgl) - EPow P2 (EVar vMst2) * (#12760 - #720 * EConst CB4 + #72 * EConst CD3 -
   #36 * EConst CDN - #1980 * EVar vlmMsq + #540 * EPow P2 (EVar vlmMsq) - #3 * EVar vlmMst1 * (#5471 - #1950 * EVar
   vlmMsq + #630 * EPow P2 (EVar vlmMsq)) - #954 * EPow P2 (EVar vlmMst1) + #3 * EVar vlmMst2 * (#8495 - #6750 * EVar
   vlmMst1 + #210 * EVar vlmMsq * (- #11 + #6 * EVar vlmMst1) + #630 * EPow P2 (EVar vlmMsq) + #234 * EPow P2 (EVar
   vlmMst1)) - #18 * (- #1324 + #210 * EVar vlmMsq + #399 * EVar vlmMst1) * EPow P2 (EVar vlmMst2) - #288 * EPow P3
   (EVar vlmMst1) + #6768 * EPow P3 (EVar vlmMst2) + #324 * ((EVar vMgl * (- #725 + #30 * EVar vlmMsq * (#5 + EVar
   vlmMst1 - EVar vlmMst2) - #793 * EVar vlmMst2 + EVar vlmMst1 * (#643 + #150 * EVar vlmMst2) - #90 * EPow P2 (EVar
   vlmMst1) - #60 * EPow P2 (EVar vlmMst2)) + #50 * EVar vDmglst2 * (#20 + #6 * EVar vlmMsq * (- #4 + #3 * EVar
   vlmMst1 - #3 * EVar vlmMst2) + #27 * EVar vlmMst2 - #3 * EVar vlmMst1 * (#1 + #6 * EVar vlmMst2) + #18 * EPow P2
   (EVar vlmMst2))) * EPow P2 (EVar vMst1) / (#270 * EPow P2 (EVar vMsq)) + EVar vDmglst2 * (EDec 16256172839506174 15
   - #4 * EConst CB4 / #3 + #16 * EConst CD3 / #9 - #10 * EConst CDN / #9 + #80 * EVar vlmMsq / #3 + EVar vlmMst1 *
   (EDec 4666666666666667 15 - #10 * EPow P2 (EVar vlmMsq)) - #13 * EPow P2 (EVar vlmMst1) / #3 + #2 * EVar vlmMst2 *
   (- #237 - #248 * EVar vlmMst1 + #90 * EVar vlmMsq * EVar vlmMst1 + #45 * EPow P2 (EVar vlmMsq) + #16 * EPow P2
   (EVar vlmMst1)) / #9 - (- #439 + #180 * EVar vlmMsq + #336 * EVar vlmMst1) * EPow P2 (EVar vlmMst2) / #9 + #304 *
   EPow P3 (EVar vlmMst2) / #9)) / EVar vMgl + #324 * (EDec 16013483965014577 17 - #5549 * EVar vlmMsq / #17640 +
   (EDec 8266061980347694 16 - #43 * EVar vlmMsq / #126) * EVar vlmMst1 + (- #553 + #420 * EVar vlmMsq + #780 * EVar
   vlmMst1) * EVar vlmMst2 / #1080 - #5 * EVar vDmglst2 / (#36 * EVar vMgl) - EPow P2 (EVar vlmMsq) / #42 - #4 * EPow
   P2 (EVar vlmMst1) / #21 - #5 * EPow P2 (EVar vlmMst2) / #9) * EPow P4 (EVar vMst1) / EPow P4 (EVar vMsq)) / #324 +
   (- ((#15 * EVar vMgl * (#373 + #706 * EVar vlmMst2 + #64 * EVar vlmMst1 * (#1 + EVar vlmMst2) - #30 * EVar vlmMsq *
   (#5 + #6 * EVar vlmMst2) - #6 * EVar vshiftst3 + #12 * EVar vlmMst2 * EVar vshiftst3 + #90 * EPow P2 (EVar vlmMsq)
   + #304 * EPow P2 (EVar vlmMst2)) * EPow P2 (EVar vMsq) + #30 * EVar vDmglst2 * (- #115 + (#430 + #64 * EVar
   vlmMst1) * EVar vlmMst2 - #30 * EVar vlmMsq * (- #1 + #6 * EVar vlmMst2) + #90 * EPow P2 (EVar vlmMsq) + #400 *
   EPow P2 (EVar vlmMst2)) * EPow P2 (EVar vMsq) + #6 * EVar vMgl * (#637 - #20 * EVar vlmMsq * (#9 + #20 * EVar
   vlmMst1 - #20 * EVar vlmMst2) - #495 * EVar vlmMst2 + #25 * EVar vlmMst1 * (#27 + #16 * EVar vlmMst2) - #400 * EPow
   P2 (EVar vlmMst2)) * EPow P2 (EVar vMst1) - #100 * EVar vDmglst2 * (- #174 + #6 * EVar vlmMsq * (#6 + #17 * EVar
   vlmMst1 - #17 * EVar vlmMst2) + #73 * EVar vlmMst2 - EVar vlmMst1 * (#109 + #102 * EVar vlmMst2) + #102 * EPow P2
   (EVar vlmMst2)) * EPow P2 (EVar vMst1)) * EPow P4 (EVar vMst2)) / (#540 * EPow P2 (EVar vMsq) * EPow P2 (EVar
   vMst1)) + (EVar vMgl * (#9 * (#3653969 - #140 * EVar vlmMsq * (#12899 + #5390 * EVar vlmMst1 - #6230 * EVar
   vlmMst2) + #2069970 * EVar vlmMst2 + #37730 * EVar vlmMst1 * (- #7 + #20 * EVar vlmMst2) - #58800 * EPow P2 (EVar
   vlmMsq) - #813400 * EPow P2 (EVar vlmMst2)) * EPow P2 (EVar vMst1) - (#58456697 - #420 * EVar vlmMsq * (#63929 +
   #69090 * EVar vlmMst1 - #69930 * EVar vlmMst2) + #374010 * EVar vlmMst2 + #10290 * EVar vlmMst1 * (#2573 + #2820 *
   EVar vlmMst2) - #176400 * EPow P2 (EVar vlmMsq) - #29194200 * EPow P2 (EVar vlmMst2)) * EPow P2 (EVar vMst2)) +
   #514500 * EVar vDmglst2 * ((#119 - #34 * EVar vlmMst2 + #12 * EVar vlmMsq * (#1 - #10 * EVar vlmMst1 + #10 * EVar
   vlmMst2) + #2 * EVar vlmMst1 * (#11 + #60 * EVar vlmMst2) - #120 * EPow P2 (EVar vlmMst2)) * EPow P2 (EVar vMst1) -
   #2 * (#337 - #24 * EVar vlmMsq * (#5 + #8 * EVar vlmMst1 - #8 * EVar vlmMst2) + #14 * EVar vlmMst2 + #2 * EVar
   vlmMst1 * (#53 + #96 * EVar vlmMst2) - #192 * EPow P2 (EVar vlmMst2)) * EPow P2 (EVar vMst2))) * EPow P4 (EVar
   vMst2) / (#22226400 * EPow P4 (EVar vMsq)) + (- #45 * EVar vMgl * (#664 * EConst COepS2 - #81 * (#1261 + #166 *
   EVar vlmMst1 - #166 * EVar vlmMst2) * EConst CS2) * EPow P2 (EVar vMst1) * EPow P2 (EVar vMst2) + #54 * EVar
   vDmglst2 * (#632 * EConst COepS2 + #9 * (#16193 - #1422 * EVar vlmMst1 + #1422 * EVar vlmMst2) * EConst CS2) * EPow
   P2 (EVar vMst1) * EPow P2 (EVar vMst2) - #15 * EVar vMgl * (#3548 * EConst COepS2 - #27 * (#15148 + #2661 * EVar
   vlmMst1 - #2661 * EVar vlmMst2) * EConst CS2) * EPow P4 (EVar vMst1) + #4 * EVar vDmglst2 * (#25328 * EConst COepS2
   + #27 * (#47051 - #18996 * EVar vlmMst1 + #18996 * EVar vlmMst2) * EConst CS2) * EPow P4 (EVar vMst1) + #3024 *
   EVar vDmglst2 * EConst COepS2 * EPow P4 (EVar vMst2) - #5184 * EVar vMgl * EConst COepS2 * EPow P4 (EVar vMst2)) /
   (#4374 * EPow P2 (EVar vMst2)) + (EVar vMgl * (#48 * EPow P2 (#1 + EVar vlmMst2) * EPow P2 (EVar vMsq) + #5 * (#43
   - #30 * EVar vlmMsq + #30 * EVar vlmMst2) * EPow P2 (EVar vMst1)) + #8 * EVar vDmglst2 * (#24 * EPow P2 (EVar
   vlmMst2) * EPow P2 (EVar vMsq) + #5 * (#14 - #15 * EVar vlmMsq) * EPow P2 (EVar vMst1) + #3 * EVar vlmMst2 * (#8 *
   EPow P2 (EVar vMsq) + #25 * EPow P2 (EVar vMst1)))) * EPow P6 (EVar vMst2) / (#54 * EPow P2 (EVar vMsq) * EPow P4
   (EVar vMst1))) / EVar vMgl) + EConst CT1ep * (#3 * EVar vMgl * (#3 * EPow P2 (EVar vMst1) * EPow P2 (EVar vMst2) *
   (- #2990 * EVar vMst2 * EVar vs2t * EPow P2 (EVar vMt) - #627 * EVar vMt * EPow P2 (EVar vMst2) * EPow P2 (EVar
   vs2t) + #1760 * EPow P3 (EVar vMt) + #830 * EPow P3 (EVar vMst2) * EPow P3 (EVar vs2t)) + (- #22804 * EVar vMst2 *
   EVar vs2t * EPow P2 (EVar vMt) - #3198 * EVar vMt * EPow P2 (EVar vMst2) * EPow P2 (EVar vs2t) + #16240 * EPow P3
   (EVar vMt) + #4435 * EPow P3 (EVar vMst2) * EPow P3 (EVar vs2t)) * EPow P4 (EVar vMst1) + #27 * (- #46 * EVar vMst2
   * EVar vs2t * EPow P2 (EVar vMt) - #21 * EVar vMt * EPow P2 (EVar vMst2) * EPow P2 (EVar vs2t) + #28 * EPow P3
   (EVar vMt) + #16 * EPow P3 (EVar vMst2) * EPow P3 (EVar vs2t)) * EPow P4 (EVar vMst2)) + EVar vDmglst2 * EVar vMst2
   * (- #27 * EVar vMst2 * EPow P2 (EVar vMst1) * (- #800 * EVar vMst2 * EVar vs2t * EPow P2 (EVar vMt) - #907 * EVar
   vMt * EPow P2 (EVar vMst2) * EPow P2 (EVar vs2t) + #1984 * EPow P3 (EVar vMt) + #316 * EPow P3 (EVar vMst2) * EPow
   P3 (EVar vs2t)) + #2 * EVar vs2t * (#35601 * EVar vMst2 * EVar vMt * EVar vs2t + #66168 * EPow P2 (EVar vMt) -
   #12664 * EPow P2 (EVar vMst2) * EPow P2 (EVar vs2t)) * EPow P4 (EVar vMst1) - #189 * (#20 * EPow P3 (EVar vMst2) *
   EPow P3 (EVar vMt) - #15 * EVar vMt * EPow P2 (EVar vs2t) * EPow P5 (EVar vMst2) + #4 * EPow P3 (EVar vs2t) * EPow
   P6 (EVar vMst2)))) / (#729 * EVar vMgl * EPow P5 (EVar vMst2)))) + EVar vAl4p * EVar vMt * EVar vtwoLoopFlag * (#12
   * EVar vMt * EPow P2 (EVar vs2t) * (#2 * EVar vMst2 * (#4 + #3 * EVar vlmMst2 - EVar vlmMst1 * (#1 + EVar vlmMst2)
   + EPow P2 (EVar vlmMst2) + EVar vDmglst2 * (#6 + EVar vlmMst1 + EVar vlmMst2 - EVar vlmMst1 * EVar vlmMst2 + EPow
   P2 (EVar vlmMst2)) / EVar vMgl) + (#2 - #6 * EVar vlmMst1 + (#6 - #4 * EVar vlmMst1) * EVar vlmMst2 + #4 * EPow P2
   (EVar vlmMst2) + EVar vDmglst2 * (#10 + EVar vlmMst1 * (#6 - #4 * EVar vlmMst2) - #6 * EVar vlmMst2 + #4 * EPow P2
   (EVar vlmMst2)) / EVar vMgl) * EPow P2 (EVar vMst1) / EVar vMst2 + (EDec 5 1 - #7 * EVar vlmMst1 + (#7 - #4 * EVar
   vlmMst1) * EVar vlmMst2 + #4 * EPow P2 (EVar vlmMst2) + EVar vDmglst2 * (EDec 105 1 + EVar vlmMst1 * (#9 - #4 *
   EVar vlmMst2) - #9 * EVar vlmMst2 + #4 * EPow P2 (EVar vlmMst2)) / EVar vMgl) * EPow P4 (EVar vMst1) / EPow P3
   (EVar vMst2)) + #8 * EVar vs2t * EPow P2 (EVar vMt) * (#6 * EVar vlmMst1 + #2 * (- #2 + EVar vlmMst1) * EVar
   vlmMst2 + EPow P2 (EVar vlmMst1) - #3 * EPow P2 (EVar vlmMst2) + #2 * (EVar vDmglst2 + #2 * EVar vDmglst2 * EVar
   vlmMst2 + (#1 - EVar vlmMst1 + EVar vlmMst2) * (#2 * EVar vDmglst2 + (EVar vlmMst1 - EVar vlmMst2) * EVar vMgl) *
   EPow P2 (EVar vMst1) / EPow P2 (EVar vMst2) - (#2 * EVar vDmglst2 * EVar vlmMst2 + EVar vMgl + EVar vlmMst2 * EVar
   vMgl) * EPow P2 (EVar vMst2) / EPow P2 (EVar vMst1) - (EVar vDmglst2 * (- #2 + #4 * EVar vlmMst1 - #4 * EVar
   vlmMst2) + EVar vMgl * (- EVar vlmMst1 + EVar vlmMst2 - #2 * EVar vlmMst1 * EVar vlmMst2 + EPow P2 (EVar vlmMst1) +
   EPow P2 (EVar vlmMst2))) * EPow P4 (EVar vMst1) / EPow P4 (EVar vMst2)) / EVar vMgl) + (#16 * EVar vTbeta * EPow P2
   (EVar vMst1) * EPow P3 (EVar vMt) * (EVar vMgl * (#13 + #2 * EVar vlmMst1 * (#6 + #3 * EVar vlmMst2 - #2 * EVar
   vlmMt) + #2 * EVar vlmMt + #2 * EVar vlmMst2 * (- #7 + #2 * EVar vlmMt) - #6 * EPow P2 (EVar vlmMst2)) * EPow P4
   (EVar vMst1) + EVar vDmglst2 * (#11 - #6 * EVar vlmMst1 * EVar vlmMst2 - #8 * EVar vlmMst2 * (- #5 + EVar vlmMt) +
   #8 * EVar vlmMst1 * (- #4 + EVar vlmMt) - #8 * EVar vlmMt + #6 * EPow P2 (EVar vlmMst2)) * EPow P4 (EVar vMst1) +
   #2 * EVar vDmglst2 * ((#7 + #7 * EVar vlmMst2 + EVar vlmMst1 * (- #5 + EVar vlmMt) - #2 * EVar vlmMt - EVar vlmMst2
   * EVar vlmMt) * EPow P2 (EVar vMst1) * EPow P2 (EVar vMst2) + (#5 + EVar vlmMst1 * (- #1 + EVar vlmMst2) + EVar
   vlmMst2 - EPow P2 (EVar vlmMst2)) * EPow P4 (EVar vMst2)) + #2 * EVar vMgl * ((#4 + EVar vlmMst1 * (#3 + #2 * EVar
   vlmMst2 - EVar vlmMt) + EVar vlmMst2 * (- #4 + EVar vlmMt) + EVar vlmMt - #2 * EPow P2 (EVar vlmMst2)) * EPow P2
   (EVar vMst1) * EPow P2 (EVar vMst2) + (#2 + EVar vlmMst1 + (- #2 + EVar vlmMst1) * EVar vlmMst2 + EVar vlmMt - EPow
   P2 (EVar vlmMst2)) * EPow P4 (EVar vMst2))) + EVar vTbeta * EPow P3 (EVar vMst2) * EPow P3 (EVar vs2t) * (- #4 *
   EVar vDmglst2 * (#2 * (#1 + #2 * EVar vlmMst1 - EVar vlmMst2) * EPow P2 (EVar vMst2) * EPow P4 (EVar vMst1) + #2 *
   (#1 + EVar vlmMst1 - EVar vlmMst2 + #2 * EVar vlmMst1 * EVar vlmMst2 - #2 * EPow P2 (EVar vlmMst2)) * EPow P2 (EVar
   vMst1) * EPow P4 (EVar vMst2) + (#1 + #2 * EVar vlmMst1 - #2 * EVar vlmMst2) * EPow P6 (EVar vMst1) - #2 * EVar
   vlmMst2 * EPow P6 (EVar vMst2)) + EVar vMgl * (#2 * (- #16 + #6 * EVar vlmMst2 - #2 * EVar vlmMst1 * (#8 + #5 *
   EVar vlmMst2) + #3 * EPow P2 (EVar vlmMst1) + #7 * EPow P2 (EVar vlmMst2)) * EPow P2 (EVar vMst2) * EPow P4 (EVar
   vMst1) - #2 * (- #12 - #18 * EVar vlmMst2 + #2 * EVar vlmMst1 * (#5 + #3 * EVar vlmMst2) + EPow P2 (EVar vlmMst1) -
   #7 * EPow P2 (EVar vlmMst2)) * EPow P2 (EVar vMst1) * EPow P4 (EVar vMst2) + (#3 + EVar vlmMst1 * (#2 - #32 * EVar
   vlmMst2) - #2 * EVar vlmMst2 + #16 * (EPow P2 (EVar vlmMst1) + EPow P2 (EVar vlmMst2))) * EPow P6 (EVar vMst1) + #4
   * (#1 + EVar vlmMst2) * EPow P6 (EVar vMst2))) - #2 * EVar vMt * EVar vMuSUSY * EVar vs2t * (#2 * EVar vMgl * (-
   (EVar vMst2 * EVar vs2t * (- #14 - #20 * EVar vlmMst2 + #2 * EVar vlmMst1 * (#5 + #3 * EVar vlmMst2) + EPow P2
   (EVar vlmMst1) - #7 * EPow P2 (EVar vlmMst2))) + #8 * EVar vMt * (#4 + #3 * EVar vlmMst2 - EVar vlmMst1 * (#1 +
   EVar vlmMst2) + EPow P2 (EVar vlmMst2))) * EPow P2 (EVar vMst1) * EPow P4 (EVar vMst2) + #4 * EVar vDmglst2 * (EVar
   vMst2 * EVar vs2t * (- #5 + #8 * EVar vlmMst2 - #4 * EVar vlmMst1 * (#2 + EVar vlmMst2) + #4 * EPow P2 (EVar
   vlmMst2)) + EVar vMt * (#65 + EVar vlmMst1 * (#34 - #20 * EVar vlmMst2) - #26 * EVar vlmMst2 + #20 * EPow P2 (EVar
   vlmMst2))) * EPow P6 (EVar vMst1) + EVar vMgl * (EVar vMst2 * EVar vs2t * (- #1 + #50 * EVar vlmMst2 - #2 * EVar
   vlmMst1 * (#25 + #32 * EVar vlmMst2) + #20 * EPow P2 (EVar vlmMst1) + #44 * EPow P2 (EVar vlmMst2)) + EVar vMt *
   (#84 + #152 * EVar vlmMst2 - #40 * EVar vlmMst1 * (#3 + #2 * EVar vlmMst2) + #80 * EPow P2 (EVar vlmMst2))) * EPow
   P6 (EVar vMst1) + #8 * EVar vDmglst2 * ((EVar vMst2 * EVar vs2t * (- #2 + #3 * EVar vlmMst2 - EVar vlmMst1 * (#3 +
   #2 * EVar vlmMst2) + #2 * EPow P2 (EVar vlmMst2)) + EVar vMt * (#22 + EVar vlmMst1 * (#8 - #6 * EVar vlmMst2) - #4
   * EVar vlmMst2 + #6 * EPow P2 (EVar vlmMst2))) * EPow P2 (EVar vMst2) * EPow P4 (EVar vMst1) + (- (EVar vMst2 *
   EVar vs2t * (#1 + EVar vlmMst1 - #2 * EVar vlmMst2 + #2 * EVar vlmMst1 * EVar vlmMst2 - #2 * EPow P2 (EVar
   vlmMst2))) + #2 * EVar vMt * (#6 + EVar vlmMst1 + EVar vlmMst2 - EVar vlmMst1 * EVar vlmMst2 + EPow P2 (EVar
   vlmMst2))) * EPow P2 (EVar vMst1) * EPow P4 (EVar vMst2) + EVar vlmMst2 * EVar vs2t * EPow P7 (EVar vMst2)) + #4 *
   EVar vMgl * ((#4 * EVar vMt * (#5 + #6 * EVar vlmMst2 - EVar vlmMst1 * (#4 + #3 * EVar vlmMst2) + #3 * EPow P2
   (EVar vlmMst2)) + EVar vMst2 * EVar vs2t * (- #1 + #13 * EVar vlmMst2 - EVar vlmMst1 * (#13 + #8 * EVar vlmMst2) +
   EPow P2 (EVar vlmMst1) + #7 * EPow P2 (EVar vlmMst2))) * EPow P2 (EVar vMst2) * EPow P4 (EVar vMst1) + (#1 + EVar
   vlmMst2) * EVar vs2t * EPow P7 (EVar vMst2)))) / (EVar vMgl * EVar vTbeta * EPow P2 (EVar vMst1) * EPow P5 (EVar
   vMst2))) / #12 - EVar vAl4p * EVar vxDmglst2 * EPow P2 (EVar vDmglst2) * (EVar vtwoLoopFlag * (EVar vMt * (- (EVar
   vMt * EPow P2 (EVar vs2t) * (EVar vMst2 * (#28 + #4 * EVar vlmMst1 - #2 * EVar vlmMst1 * EVar vlmMst2 + #2 * EPow
   P2 (EVar vlmMst2)) + (#34 + #8 * EVar vlmMst1 - #4 * (#2 + EVar vlmMst1) * EVar vlmMst2 + #4 * EPow P2 (EVar
   vlmMst2)) * EPow P2 (EVar vMst1) / EVar vMst2 + (EDec 375 1 + EVar vlmMst1 * (#5 - #4 * EVar vlmMst2) - #5 * EVar
   vlmMst2 + #4 * EPow P2 (EVar vlmMst2)) * EPow P4 (EVar vMst1) / EPow P3 (EVar vMst2))) + #2 * EVar vs2t * EPow P2
   (EVar vMt) * (#11 - #18 * EVar vlmMst2 + #6 * (#3 - EVar vlmMst1 + EVar vlmMst2) * EPow P2 (EVar vMst1) / EPow P2
   (EVar vMst2) + #6 * (- #2 + #3 * EVar vlmMst2) * EPow P2 (EVar vMst2) / EPow P2 (EVar vMst1) + #6 * (#7 - #6 * EVar
   vlmMst1 + #6 * EVar vlmMst2) * EPow P4 (EVar vMst1) / EPow P4 (EVar vMst2)) / #9 + EPow P3 (EVar vs2t) * ((#2 + #3
   * EVar vlmMst2) * EPow P2 (EVar vMst1) / #3 + (EDec 26666666666666665 16 + EVar vlmMst2 + EVar vlmMst1 * (- #1 + #2
   * EVar vlmMst2) - #2 * EPow P2 (EVar vlmMst2)) * EPow P2 (EVar vMst2) + (EDec 5 1 - EVar vlmMst1 + EVar vlmMst2) *
   EPow P4 (EVar vMst1) / EPow P2 (EVar vMst2) + (EDec 6666666666666666 16 - EVar vlmMst2) * EPow P4 (EVar vMst2) /
   EPow P2 (EVar vMst1)) + #4 * EPow P3 (EVar vMt) * ((#29 - #18 * EVar vlmMst1 * (- #1 + EVar vlmMst2) - #3 * EVar
   vlmMst2 - #15 * EVar vlmMt + #18 * EPow P2 (EVar vlmMst2)) * EPow P2 (EVar vMst1) * EPow P2 (EVar vMst2) + (#236 +
   #339 * EVar vlmMst2 - #18 * EVar vlmMst1 * (#13 + #4 * EVar vlmMst2 - #3 * EVar vlmMt) - #105 * EVar vlmMt - #54 *
   EVar vlmMst2 * EVar vlmMt + #72 * EPow P2 (EVar vlmMst2)) * EPow P4 (EVar vMst1) + (- #79 - #18 * EVar vlmMst1 * (-
   #2 + EVar vlmMst2) - #39 * EVar vlmMst2 + #3 * EVar vlmMt + #18 * EPow P2 (EVar vlmMst2)) * EPow P4 (EVar vMst2)) /
   (#27 * EPow P5 (EVar vMst2))) + EVar vMuSUSY * EVar vs2t * EPow P2 (EVar vMt) * (- #2 * (#4 * EVar vMt * (- #31 +
   #3 * EVar vlmMst1 * (- #2 + EVar vlmMst2) + #4 * EVar vlmMst2 - #3 * EPow P2 (EVar vlmMst2)) + #3 * EVar vMst2 *
   EVar vs2t * (#4 + EVar vlmMst2 + EVar vlmMst1 * (- #1 + #2 * EVar vlmMst2) - #2 * EPow P2 (EVar vlmMst2))) * EPow
   P2 (EVar vMst2) * EPow P4 (EVar vMst1) - #2 * (EVar vMst2 * EVar vs2t * (#10 + EVar vlmMst1 * (- #3 + #6 * EVar
   vlmMst2) - #6 * EPow P2 (EVar vlmMst2)) + #4 * EVar vMt * (- #14 + EVar vlmMst1 * (- #2 + EVar vlmMst2) - EPow P2
   (EVar vlmMst2))) * EPow P2 (EVar vMst1) * EPow P4 (EVar vMst2) + (- #3 * EVar vMst2 * EVar vs2t * (#9 + #4 * EVar
   vlmMst1 * (- #1 + EVar vlmMst2) + #4 * EVar vlmMst2 - #4 * EPow P2 (EVar vlmMst2)) + EVar vMt * (#398 + EVar
   vlmMst1 * (#68 - #40 * EVar vlmMst2) - #52 * EVar vlmMst2 + #40 * EPow P2 (EVar vlmMst2))) * EPow P6 (EVar vMst1) +
   #2 * (- #2 + #3 * EVar vlmMst2) * EVar vs2t * EPow P7 (EVar vMst2)) / (#3 * EVar vTbeta * EPow P2 (EVar vMst1) *
   EPow P5 (EVar vMst2))) + EVar vAl4p * EVar vthreeLoopFlag * (- (EVar vs2t * EPow P3 (EVar vMt) * (EDec
   15319349206349207 13 - #16 * EConst CB4 / #3 + #16 * EConst CD3 / #3 - #8 * EConst CDN / #3 + #460 * EVar vlmMsq /
   #9 + #736 * EVar vlmMst1 / #9 - #32 * EVar vlmMt / #9 + #30 * EPow P2 (EVar vlmMsq) + EVar vlmMst2 * (EDec
   9071851851851852 13 - #60 * EVar vlmMsq + #68 * EVar vlmMst1 - #64 * EPow P2 (EVar vlmMst1) / #3) + #58 * EPow P2
   (EVar vlmMst1) / #3 + #2 * (#431 - #96 * EVar vlmMst1) * EPow P2 (EVar vlmMst2) / #9 - #20 * EPow P2 (EVar vMst1) /
   (#9 * EPow P2 (EVar vMsq)) + #128 * EPow P3 (EVar vlmMst2) / #3 + EPow P2 (EVar vMst1) * (EDec 1873496051734274 12
   - #16 * EConst CB4 / #3 + #16 * EConst CD3 / #3 - #8 * EConst CDN / #3 - #100 * EVar vlmMsq / #3 + #4 * (#253561 +
   #3375 * EVar vlmMsq) * EVar vlmMst1 / #2025 + #32 * (#5 + EVar vlmMst1 - EVar vlmMst2) * EVar vlmMt / #9 + #4 *
   EVar vlmMst2 * (#732839 - #3375 * EVar vlmMsq + #121560 * EVar vlmMst1 - #11025 * EPow P2 (EVar vlmMst1)) / #2025 +
   #2032 * EPow P2 (EVar vlmMst1) / #135 - #4 * (#4292 + #5025 * EVar vlmMst1) * EPow P2 (EVar vlmMst2) / #135 + #4 *
   EPow P3 (EVar vlmMst1) / #27 + #4604 * EPow P3 (EVar vlmMst2) / #27) / EPow P2 (EVar vMst2) - #5 * EPow P2 (EVar
   vMst2) * (#27 * (#5 + #4 * EVar vlmMsq - #4 * EVar vlmMst2) * EPow P2 (EVar vMst1) + #2 * (#83 - #936 * EVar vlmMsq
   + #936 * EVar vlmMst2) * EPow P2 (EVar vMst2)) / (#108 * EPow P4 (EVar vMsq)) - #10 * EPow P4 (EVar vMst1) / (#9 *
   EPow P4 (EVar vMsq)) - EConst CS2 * (EDec 5960571428571428 13 + #84 * EVar vlmMst1 - #84 * EVar vlmMst2 + (EDec
   1403352380952381 12 + #880 * EVar vlmMst1 - #880 * EVar vlmMst2) * EPow P2 (EVar vMst1) / EPow P2 (EVar vMst2) + #8
   * (#17269 + #13785 * EVar vlmMst1 - #13785 * EVar vlmMst2) * EPow P4 (EVar vMst1) / (#45 * EPow P4 (EVar vMst2))) +
   (EDec 38622610253272387 14 - #32 * EConst CB4 / #9 + #32 * EConst CD3 / #9 - #16 * EConst CDN / #9 + #280 * EVar
   vlmMsq / #3 + (EDec 7566053917863442 13 - #80 * EVar vlmMsq) * EVar vlmMst1 + #19352 * EPow P2 (EVar vlmMst1) /
   #189 + EVar vlmMst2 * (EDec 19628349710254471 14 + #80 * EVar vlmMsq - #57520 * EVar vlmMst1 / #189 + #88 * EPow P2
   (EVar vlmMst1) / #9) + #8 * (#6787 - #5439 * EVar vlmMst1) * EPow P2 (EVar vlmMst2) / #189 - #64 * EVar vlmMt * (#4
   + #6 * EVar vlmMst2 - #2 * EVar vlmMst1 * (#3 + EVar vlmMst2) + EPow P2 (EVar vlmMst1) + EPow P2 (EVar vlmMst2)) /
   #3 - #8 * EPow P3 (EVar vlmMst1) / #9 + #664 * EPow P3 (EVar vlmMst2) / #3) * EPow P4 (EVar vMst1) / EPow P4 (EVar
   vMst2) + #64 * (- #2 + EVar vlmMst2 + #5 * EPow P2 (EVar vlmMst2)) * EPow P4 (EVar vMst2) / (#9 * EPow P4 (EVar
   vMst1)) + #16 * EConst COepS2 * (#660 * EPow P2 (EVar vMst1) * EPow P2 (EVar vMst2) + #1838 * EPow P4 (EVar vMst1)
   + #63 * EPow P4 (EVar vMst2)) / (#243 * EPow P4 (EVar vMst2)) + #10 * (#4 * (#3 - EVar vlmMst1 + EVar vlmMst2) *
   EPow P4 (EVar vMst1) + (- #51 + #100 * EVar vlmMsq - #100 * EVar vlmMst2) * EPow P4 (EVar vMst2)) / (#9 * EPow P2
   (EVar vMsq) * EPow P2 (EVar vMst2)) + (#12 * (#957 + #64 * EVar vlmMst1 * (#2 - #3 * EVar vlmMst2) + #182 * EVar
   vlmMst2 + #90 * EVar vlmMsq * (- #5 + #6 * EVar vlmMst2) - #270 * EPow P2 (EVar vlmMsq) - #624 * EPow P2 (EVar
   vlmMst2)) * EPow P2 (EVar vMst2) * EPow P4 (EVar vMsq) + #800 * (#8 - #15 * EVar vlmMsq + #15 * EVar vlmMst2) *
   EPow P2 (EVar vMsq) * EPow P4 (EVar vMst2) + #315 * (#5 - #28 * EVar vlmMsq + #28 * EVar vlmMst2) * EPow P6 (EVar
   vMst2)) / (#108 * EPow P2 (EVar vMst1) * EPow P4 (EVar vMsq)))) + EPow P4 (EVar vMt) * (- (EPow P4 (EVar vMsq) * (-
   #3 * EPow P2 (EVar vMst1) * EPow P2 (EVar vMst2) * (#34872121 - #13890240 * EVar vlmMst2 - #7840 * EConst COepS2 -
   #324 * (#9361 + #490 * EVar vlmMst2) * EConst CS2 - #453600 * (EVar vlmMst1 - EVar vlmMst2) * EPow P2 (EVar vlmMsq)
   - #241920 * (- #2 + EVar vlmMst2) * EPow P2 (EVar vlmMst1) + #7560 * EVar vlmMst1 * (#206 - #128 * EVar vlmMt +
   EVar vlmMst2 * (#636 + #64 * EVar vlmMt) + #21 * EConst CS2 - #224 * EPow P2 (EVar vlmMst2)) + #50400 * EVar vlmMsq
   * (#64 + #48 * EVar vlmMst2 + #9 * EVar vlmMst1 * (- #5 + #2 * EVar vlmMst2) - #3 * EVar vlmMt - #18 * EPow P2
   (EVar vlmMst2)) - #5654880 * EPow P2 (EVar vlmMst2) - #5040 * EVar vlmMt * (- #31 - #240 * EVar vlmMst2 + #96 *
   EPow P2 (EVar vlmMst2)) + #120960 * EPow P2 (EVar vlmMt) + #1935360 * EPow P3 (EVar vlmMst2)) - #8 * (#24896293 +
   #2509920 * EVar vlmMst2 - #605920 * EConst COepS2 - #108 * (#105619 + #113610 * EVar vlmMst2) * EConst CS2 -
   #170100 * (EVar vlmMst1 - EVar vlmMst2) * EPow P2 (EVar vlmMsq) + #90720 * (- #3 + EVar vlmMst2) * EPow P2 (EVar
   vlmMst1) + #18900 * EVar vlmMsq * (#100 + #48 * EVar vlmMst2 + #9 * EVar vlmMst1 * (- #5 + #2 * EVar vlmMst2) - #3
   * EVar vlmMt - #18 * EPow P2 (EVar vlmMst2)) - #1563030 * EPow P2 (EVar vlmMst2) - #1890 * EVar vlmMt * (- #539 -
   #233 * EVar vlmMst2 + #96 * EPow P2 (EVar vlmMst2)) - #1890 * EVar vlmMst1 * (#2075 + #281 * EVar vlmMt - EVar
   vlmMst2 * (#1139 + #96 * EVar vlmMt) - #6492 * EConst CS2 + #528 * EPow P2 (EVar vlmMst2)) - #226800 * EPow P2
   (EVar vlmMt) + #907200 * EPow P3 (EVar vlmMst2)) * EPow P4 (EVar vMst1) + #2903040 * (#2 + EVar vlmMst2 - #3 * EPow
   P2 (EVar vlmMst2)) * EPow P4 (EVar vMst2))) + #50400 * EPow P2 (EVar vMsq) * ((#778 + #6 * (#1 + #39 * EVar vlmMsq)
   * EVar vlmMst2 - #3 * (EVar vlmMst1 + #78 * EVar vlmMsq * EVar vlmMst1 - #78 * EVar vlmMst1 * EVar vlmMst2 + EVar
   vlmMt) - #234 * EPow P2 (EVar vlmMst2)) * EPow P2 (EVar vMst2) * EPow P4 (EVar vMst1) + #3 * (#265 - #34 * EVar
   vlmMst2 + #12 * EVar vlmMst1 * (#1 + #6 * EVar vlmMst2) - #6 * (- #2 + EVar vlmMst2) * EVar vlmMt + #2 * EVar
   vlmMsq * (#5 - #36 * EVar vlmMst1 + #39 * EVar vlmMst2 + #3 * EVar vlmMt) - #6 * EPow P2 (EVar vlmMsq) - #72 * EPow
   P2 (EVar vlmMst2)) * EPow P2 (EVar vMst1) * EPow P4 (EVar vMst2) + (#313 + #42 * (- #2 + #3 * EVar vlmMsq) * EVar
   vlmMst2 + #3 * EVar vlmMst1 * (#23 - #42 * EVar vlmMsq + #42 * EVar vlmMst2) + #15 * EVar vlmMt - #126 * EPow P2
   (EVar vlmMst2)) * EPow P6 (EVar vMst1)) + #3150 * (#4 * (#1330 + #12 * (- #4 + #33 * EVar vlmMsq) * EVar vlmMst2 +
   EVar vlmMst1 * (#51 - #396 * EVar vlmMsq + #396 * EVar vlmMst2) - #3 * EVar vlmMt - #396 * EPow P2 (EVar vlmMst2))
   * EPow P2 (EVar vMst2) * EPow P6 (EVar vMst1) + #3 * ((#4585 + #104 * EVar vlmMst2 + #6 * EVar vlmMst1 * (- #25 +
   #228 * EVar vlmMst2) - #4 * EVar vlmMsq * (#5 + #342 * EVar vlmMst1 - #348 * EVar vlmMst2 - #6 * EVar vlmMt) + #66
   * EVar vlmMt - #24 * EVar vlmMst2 * EVar vlmMt - #24 * EPow P2 (EVar vlmMsq) - #1368 * EPow P2 (EVar vlmMst2)) *
   EPow P4 (EVar vMst1) * EPow P4 (EVar vMst2) + (#4317 - #280 * EVar vlmMst2 + #18 * EVar vlmMst1 * (#1 + #60 * EVar
   vlmMst2) - #78 * (- #3 + #4 * EVar vlmMst2) * EVar vlmMt + #4 * EVar vlmMsq * (#7 - #270 * EVar vlmMst1 + #348 *
   EVar vlmMst2 + #78 * EVar vlmMt) - #312 * EPow P2 (EVar vlmMsq) - #1080 * EPow P2 (EVar vlmMst2)) * EPow P2 (EVar
   vMst1) * EPow P6 (EVar vMst2)))) / (#102060 * EPow P2 (EVar vMst1) * EPow P3 (EVar vMst2) * EPow P4 (EVar vMsq)) +
   EPow P2 (EVar vMt) * (EPow P2 (EVar vs2t) * (- (EPow P2 (EVar vMst1) * (EDec 9901996399176954 13 + #524 * EConst
   CB4 / #3 - #10 * EConst CDN / #3 - #720 * EVar vlmMsq - EVar vlmMst1 * (EDec 1815185185185185 13 + #100 * EVar
   vlmMsq + #20 * EPow P2 (EVar vlmMsq)) - #64 * EPow P2 (EVar vlmMst1) / #3 + EVar vlmMst2 * (#20 * EVar vlmMsq * (#5
   + EVar vlmMsq + #2 * EVar vlmMst1) + (#35429 + #3420 * EVar vlmMst1 + #288 * EPow P2 (EVar vlmMst1)) / #27) - #4 *
   (#79 + #30 * EVar vlmMsq + #168 * EVar vlmMst1) * EPow P2 (EVar vlmMst2) / #3 - #40 * (#15 + EVar vlmMst1 * (- #4 +
   #6 * EVar vlmMsq - #6 * EVar vlmMst2) + (#4 - #6 * EVar vlmMsq) * EVar vlmMst2 + #6 * EPow P2 (EVar vlmMst2)) *
   EPow P2 (EVar vMst1) / (#3 * EPow P2 (EVar vMsq)) + #640 * EPow P3 (EVar vlmMst2) / #3) / EVar vMst2) + #4 * (#5 *
   (#397 + #36 * EVar vlmMsq * (- #2 + EVar vlmMst1 - EVar vlmMst2) + #78 * EVar vlmMst2 - #6 * EVar vlmMst1 * (#1 +
   #6 * EVar vlmMst2) + #36 * EPow P2 (EVar vlmMst2)) / EPow P2 (EVar vMsq) + #48 * (#2 + EVar vlmMst2 - #3 * EPow P2
   (EVar vlmMst2)) / EPow P2 (EVar vMst1)) * EPow P3 (EVar vMst2) / #9 - EVar vMst2 * (EDec 10955663580246913 14 +
   #490 * EConst CB4 / #3 - #11 * EConst CDN / #3 - #1970 * EVar vlmMsq / #3 + EVar vlmMst1 * (EDec 11966666666666667
   14 - #50 * EVar vlmMsq - #10 * EPow P2 (EVar vlmMsq)) + #20 * EPow P2 (EVar vlmMsq) + EVar vlmMst2 * (EDec
   9661111111111111 13 + #10 * EVar vlmMsq * (#1 + EVar vlmMsq) + (#74 + #20 * EVar vlmMsq) * EVar vlmMst1 - #16 *
   EPow P2 (EVar vlmMst1) / #3) + #32 * EPow P2 (EVar vlmMst1) / #3 + (#54 - #20 * EVar vlmMsq - #464 * EVar vlmMst1 /
   #3) * EPow P2 (EVar vlmMst2) - #10 * (#217 + #8 * EVar vlmMst1 * (- #1 + #6 * EVar vlmMsq - #6 * EVar vlmMst2) +
   (#8 - #48 * EVar vlmMsq) * EVar vlmMst2 + #48 * EPow P2 (EVar vlmMst2)) * EPow P2 (EVar vMst1) / (#3 * EPow P2
   (EVar vMsq)) + #160 * EPow P3 (EVar vlmMst2) - (EDec 7067129629629629 14 - #5 * EVar vlmMsq / #18 + #5 * (- #7 +
   #20 * EVar vlmMsq) * EVar vlmMst1 / #2 + (EDec 1777777777777778 14 - #50 * (EVar vlmMsq + EVar vlmMst1)) * EVar
   vlmMst2 + #50 * EPow P2 (EVar vlmMst2)) * EPow P4 (EVar vMst1) / EPow P4 (EVar vMsq)) + ((EDec 30929708504801096 14
   - #296 * EConst CB4 / #3 + #4 * EConst CDN / #3 + #375 * EVar vlmMsq + EVar vlmMst1 * (EDec 6691358024691358 14 +
   #30 * EVar vlmMsq + #20 * EPow P2 (EVar vlmMsq)) + #46 * EPow P2 (EVar vlmMst1) / #3 - EVar vlmMst2 * (#10 * EVar
   vlmMsq * (#3 + #4 * EVar vlmMst1) + #20 * EPow P2 (EVar vlmMsq) + #4 * (#11723 - #702 * EVar vlmMst1 + #756 * EPow
   P2 (EVar vlmMst1)) / #81) + #2 * (- #75 + #60 * EVar vlmMsq + #344 * EVar vlmMst1) * EPow P2 (EVar vlmMst2) / #3 -
   #16 * EPow P3 (EVar vlmMst1) / #3 - #560 * EPow P3 (EVar vlmMst2) / #3) * EPow P4 (EVar vMst1) - #2 * EConst COepS2
   * (- #9267 * EPow P2 (EVar vMst1) * EPow P2 (EVar vMst2) + #23734 * EPow P4 (EVar vMst1) - #63 * EPow P4 (EVar
   vMst2)) / #729 + EConst CS2 * (#3 * (#29123 - #92670 * EVar vlmMst1 + #92670 * EVar vlmMst2) * EPow P2 (EVar vMst1)
   * EPow P2 (EVar vMst2) + #2 * (#525961 + #356010 * EVar vlmMst1 - #356010 * EVar vlmMst2) * EPow P4 (EVar vMst1) +
   #27 * (#1387 - #70 * EVar vlmMst1 + #70 * EVar vlmMst2) * EPow P4 (EVar vMst2)) / #540) / EPow P3 (EVar vMst2) + #5
   * (#2 * (#7969 + #12 * EVar vlmMsq * (#1 + #270 * EVar vlmMst1 - #270 * EVar vlmMst2) + #42 * EVar vlmMst2 - #54 *
   EVar vlmMst1 * (#1 + #60 * EVar vlmMst2) + #3240 * EPow P2 (EVar vlmMst2)) * EPow P2 (EVar vMst1) * EPow P3 (EVar
   vMst2) + (#21275 + #12 * EVar vlmMsq * (- #541 + #270 * EVar vlmMst1 - #270 * EVar vlmMst2) + #6546 * EVar vlmMst2
   - #54 * EVar vlmMst1 * (#1 + #60 * EVar vlmMst2) + #3240 * EPow P2 (EVar vlmMst2)) * EPow P5 (EVar vMst2)) / (#216
   * EPow P4 (EVar vMsq))) + EVar vMuSUSY * ((#72 * EPow P2 (EVar vMt) * (#5 * EPow P2 (EVar vMst1) * (#28405 - #288 *
   EConst CB4 + #288 * EConst CD3 - #144 * EConst CDN + #5472 * EVar vlmMst1 - #288 * (- #89 + #2 * EVar vlmMst1) *
   EVar vlmMst2 + #576 * (- #2 + EVar vlmMst1 - EVar vlmMst2) * EVar vlmMt + #224 * EConst COepS2 - #324 * (#65 + #14
   * EVar vlmMst1 - #14 * EVar vlmMst2) * EConst CS2 - #576 * (- #9 + #8 * EVar vlmMst1) * EPow P2 (EVar vlmMst2) +
   #4608 * EPow P3 (EVar vlmMst2)) + #4 * EPow P2 (EVar vMst2) * (#50134 - #270 * EConst CB4 + #270 * EConst CD3 -
   #135 * EConst CDN + #120 * (#271 + #24 * EVar vlmMst1) * EVar vlmMst2 - #120 * EVar vlmMt - #29646 * EConst CS2 -
   #720 * (- #2 + #3 * EVar vlmMst1) * EPow P2 (EVar vlmMst2) + #2160 * (EVar vlmMst1 + EPow P3 (EVar vlmMst2)))) +
   #80 * EConst CT1ep * (#6 * EPow P2 (EVar vMst1) * (#1555 * EVar vMst2 * EVar vMt * EVar vs2t - #252 * EPow P2 (EVar
   vMt) + #185 * EPow P2 (EVar vMst2) * EPow P2 (EVar vs2t)) + #63 * EVar vs2t * (EVar vMt + #5 * EVar vMst2 * EVar
   vs2t) * EPow P3 (EVar vMst2) + #17308 * EPow P2 (EVar vs2t) * EPow P4 (EVar vMst1))) / EPow P4 (EVar vMst2) +
   #14580 * EPow P2 (EVar vs2t) * (EDec 1121664609053498 13 - #100 * EConst CB4 / #9 + #112 * EConst CD3 / #9 - #62 *
   EConst CDN / #9 + #1055 * EVar vlmMsq / #9 + #15 * EPow P2 (EVar vlmMsq) - #2 * EVar vlmMst1 * (- #544 + #210 *
   EVar vlmMsq + #135 * EPow P2 (EVar vlmMsq)) / #9 - #103 * EPow P2 (EVar vlmMst1) / #9 + EVar vlmMst2 * (- #7921 -
   #1476 * EVar vlmMst1 + #90 * EVar vlmMsq * (#5 + #18 * EVar vlmMst1) + #810 * EPow P2 (EVar vlmMsq) + #288 * EPow
   P2 (EVar vlmMst1)) / #27 + (EDec 9366666666666667 14 - #60 * EVar vlmMsq - #112 * EVar vlmMst1) * EPow P2 (EVar
   vlmMst2) + EPow P2 (EVar vMst1) * (#10 * (#405 + (- #187 + #246 * EVar vlmMsq) * EVar vlmMst2 + EVar vlmMst1 *
   (#187 - #246 * EVar vlmMsq + #246 * EVar vlmMst2) - #246 * EPow P2 (EVar vlmMst2)) / (#27 * EPow P2 (EVar vMsq)) -
   (EDec 7378472976680384 14 + #164 * EConst CB4 / #9 - #176 * EConst CD3 / #9 + #94 * EConst CDN / #9 - #260 * EVar
   vlmMsq / #3 + EVar vlmMst1 * (- EDec 9655703703703703 14 + #40 * EVar vlmMsq + #30 * EPow P2 (EVar vlmMsq)) + #7556
   * EPow P2 (EVar vlmMst1) / #135 - #2 * EVar vlmMst2 * (- #99788 + #2005 * EVar vlmMst1 + #6750 * EVar vlmMsq * (#2
   + #3 * EVar vlmMst1) + #10125 * EPow P2 (EVar vlmMsq) + #32775 * EPow P2 (EVar vlmMst1)) / #675 + #2 * (- #3377 +
   #4050 * EVar vlmMsq + #19155 * EVar vlmMst1) * EPow P2 (EVar vlmMst2) / #135 + #10 * EPow P3 (EVar vlmMst1) / #27 -
   #5050 * EPow P3 (EVar vlmMst2) / #27) / EPow P2 (EVar vMst2)) + #304 * EPow P3 (EVar vlmMst2) / #3 + EPow P4 (EVar
   vMst1) * (#5 * (#216 + (- #95 + #132 * EVar vlmMsq) * EVar vlmMst2 + EVar vlmMst1 * (#95 - #132 * EVar vlmMsq +
   #132 * EVar vlmMst2) - #132 * EPow P2 (EVar vlmMst2)) / (#54 * EPow P4 (EVar vMsq)) + (EDec 5361152102791342 13 -
   #8 * EConst CB4 / #3 + #32 * EConst CD3 / #9 - #20 * EConst CDN / #9 + #90 * EVar vlmMsq - (EDec 12311224321827497
   14 + #20 * EVar vlmMsq * (#1 + EVar vlmMsq)) * EVar vlmMst1 - EVar vlmMst2 * (EDec 1733220122616948 14 - #20 * EVar
   vlmMsq * (#1 + EVar vlmMsq) + (EDec 13304550264550264 14 - #40 * EVar vlmMsq) * EVar vlmMst1 - #1180 * EPow P2
   (EVar vlmMst1) / #9) - #15886 * EPow P2 (EVar vlmMst1) / #945 + (EDec 14985608465608465 14 - #40 * EVar vlmMsq -
   #2812 * EVar vlmMst1 / #9) * EPow P2 (EVar vlmMst2) - #92 * EPow P3 (EVar vlmMst1) / #27 + #4988 * EPow P3 (EVar
   vlmMst2) / #27) / EPow P4 (EVar vMst2)) - #32 * (- #2 + EVar vlmMst2 + #5 * EPow P2 (EVar vlmMst2)) * EPow P4 (EVar
   vMst2) / (#9 * EPow P4 (EVar vMst1)) - (#6 * (#7400 * EConst COepS2 + #27 * (#1089707 - #5550 * EVar vlmMst1 +
   #5550 * EVar vlmMst2) * EConst CS2) * EPow P2 (EVar vMst1) * EPow P2 (EVar vMst2) + #40 * (#17308 * EConst COepS2 +
   #27 * (#93919 - #12981 * EVar vlmMst1 + #12981 * EVar vlmMst2) * EConst CS2) * EPow P4 (EVar vMst1) + #9 * (#1400 *
   EConst COepS2 + #81 * (#116129 - #350 * EVar vlmMst1 + #350 * EVar vlmMst2) * EConst CS2) * EPow P4 (EVar vMst2)) /
   (#10935 * EPow P4 (EVar vMst2)) + #5 * ((#291 + #2 * (- #103 + #84 * EVar vlmMsq) * EVar vlmMst2 + #2 * EVar
   vlmMst1 * (#103 - #84 * EVar vlmMsq + #84 * EVar vlmMst2) - #168 * EPow P2 (EVar vlmMst2)) * EPow P4 (EVar vMst1) +
   (#684 + #347 * EVar vlmMst1 + #7 * (- #77 + #78 * EVar vlmMst1) * EVar vlmMst2 + #6 * EVar vlmMsq * (#32 - #91 *
   EVar vlmMst1 + #91 * EVar vlmMst2) - #546 * EPow P2 (EVar vlmMst2)) * EPow P4 (EVar vMst2)) / (#27 * EPow P2 (EVar
   vMsq) * EPow P2 (EVar vMst2)) + EPow P2 (EVar vMst2) * (#800 * (- #8 + #15 * EVar vlmMsq - #15 * EVar vlmMst2) *
   EPow P2 (EVar vMsq) * EPow P2 (EVar vMst2) + #12 * (- #1149 + #266 * EVar vlmMst2 + #64 * EVar vlmMst1 * (- #2 + #3
   * EVar vlmMst2) - #90 * EVar vlmMsq * (- #5 + #6 * EVar vlmMst2) + #270 * EPow P2 (EVar vlmMsq) + #1264 * EPow P2
   (EVar vlmMst2)) * EPow P4 (EVar vMsq) - #5 * ((- #4239 + #12 * EVar vlmMsq * (- #47 + #244 * EVar vlmMst1 - #244 *
   EVar vlmMst2) + #1324 * EVar vlmMst2 - #8 * EVar vlmMst1 * (#95 + #366 * EVar vlmMst2) + #2928 * EPow P2 (EVar
   vlmMst2)) * EPow P2 (EVar vMst1) * EPow P2 (EVar vMst2) + (- #3834 + EVar vlmMst1 * (- #890 + #2328 * EVar vlmMsq -
   #2328 * EVar vlmMst2) + (#890 - #2328 * EVar vlmMsq) * EVar vlmMst2 + #2328 * EPow P2 (EVar vlmMst2)) * EPow P4
   (EVar vMst1) - #63 * (- #5 + #28 * EVar vlmMsq - #28 * EVar vlmMst2) * EPow P4 (EVar vMst2))) / (#216 * EPow P2
   (EVar vMst1) * EPow P4 (EVar vMsq))) - EVar vMt * EVar vs2t * (EPow P4 (EVar vMsq) * (- #3 * EPow P2 (EVar vMst1) *
   EPow P2 (EVar vMst2) * (#433447 + #1058400 * EConst CB4 - #23760 * EConst CDN - #4255200 * EVar vlmMsq - #1120 *
   EConst COepS2 + #324 * (- #1387 + #70 * EVar vlmMst1 - #70 * EVar vlmMst2) * EConst CS2 + #129600 * EPow P2 (EVar
   vlmMsq) - #2160 * EVar vlmMst1 * (- #359 + #150 * EVar vlmMsq + #30 * EPow P2 (EVar vlmMsq)) + #720 * EVar vlmMst2
   * (#8503 + #666 * EVar vlmMst1 + #90 * EVar vlmMsq * (#1 + #2 * EVar vlmMst1) + #90 * EPow P2 (EVar vlmMsq) - #48 *
   EPow P2 (EVar vlmMst1)) + #69120 * EPow P2 (EVar vlmMst1) - #4320 * (- #177 + #30 * EVar vlmMsq + #232 * EVar
   vlmMst1) * EPow P2 (EVar vlmMst2) + #1036800 * EPow P3 (EVar vlmMst2)) - #2 * (#10274911 + #3285360 * EConst CB4 -
   #68040 * EConst CDN - #13381200 * EVar vlmMsq - #248800 * EConst COepS2 + #108 * (- #20803 + #46650 * EVar vlmMst1
   - #46650 * EVar vlmMst2) * EConst CS2 + #194400 * EPow P2 (EVar vlmMsq) - #3600 * EVar vlmMst1 * (#167 + #405 *
   EVar vlmMsq + #81 * EPow P2 (EVar vlmMsq)) - #103680 * EPow P2 (EVar vlmMst1) + #720 * EVar vlmMst2 * (#30469 +
   #2709 * EVar vlmMst1 + #135 * EVar vlmMsq * (#11 + #6 * EVar vlmMst1) + #405 * EPow P2 (EVar vlmMsq) + #72 * EPow
   P2 (EVar vlmMst1)) - #6480 * (- #19 + #90 * EVar vlmMsq + #568 * EVar vlmMst1) * EPow P2 (EVar vlmMst2) + #3628800
   * EPow P3 (EVar vlmMst2)) * EPow P4 (EVar vMst1) + #414720 * (#2 + EVar vlmMst2 - #3 * EPow P2 (EVar vlmMst2)) *
   EPow P4 (EVar vMst2)) + #21600 * EPow P2 (EVar vMsq) * ((#1445 + #72 * EVar vlmMsq * (- #2 + #3 * EVar vlmMst1 - #3
   * EVar vlmMst2) + #180 * EVar vlmMst2 - #36 * EVar vlmMst1 * (#1 + #6 * EVar vlmMst2) + #216 * EPow P2 (EVar
   vlmMst2)) * EPow P2 (EVar vMst2) * EPow P4 (EVar vMst1) + #2 * (#397 + #36 * EVar vlmMsq * (- #2 + EVar vlmMst1 -
   EVar vlmMst2) + #78 * EVar vlmMst2 - #6 * EVar vlmMst1 * (#1 + #6 * EVar vlmMst2) + #36 * EPow P2 (EVar vlmMst2)) *
   EPow P2 (EVar vMst1) * EPow P4 (EVar vMst2) + #6 * (#107 + #6 * EVar vlmMsq * (- #2 + #5 * EVar vlmMst1 - #5 * EVar
   vlmMst2) + #32 * EVar vlmMst2 - #10 * EVar vlmMst1 * (#2 + #3 * EVar vlmMst2) + #30 * EPow P2 (EVar vlmMst2)) *
   EPow P6 (EVar vMst1)) + #450 * ((#37213 + #12 * EVar vlmMsq * (- #539 + #810 * EVar vlmMst1 - #810 * EVar vlmMst2)
   + #6630 * EVar vlmMst2 - #162 * EVar vlmMst1 * (#1 + #60 * EVar vlmMst2) + #9720 * EPow P2 (EVar vlmMst2)) * EPow
   P4 (EVar vMst1) * EPow P4 (EVar vMst2) + #6 * (#1961 + #180 * EVar vlmMsq * (- #2 + #5 * EVar vlmMst1 - #5 * EVar
   vlmMst2) + #675 * EVar vlmMst2 - #45 * EVar vlmMst1 * (#7 + #20 * EVar vlmMst2) + #900 * EPow P2 (EVar vlmMst2)) *
   EPow P2 (EVar vMst2) * EPow P6 (EVar vMst1) + (#21275 + #12 * EVar vlmMsq * (- #541 + #270 * EVar vlmMst1 - #270 *
   EVar vlmMst2) + #6546 * EVar vlmMst2 - #54 * EVar vlmMst1 * (#1 + #60 * EVar vlmMst2) + #3240 * EPow P2 (EVar
   vlmMst2)) * EPow P2 (EVar vMst1) * EPow P6 (EVar vMst2))) / (EPow P2 (EVar vMst1) * EPow P3 (EVar vMst2) * EPow P4
   (EVar vMsq))) / (#14580 * EVar vTbeta)) + EVar vMt * (EConst CT1ep * (#3 * EVar vMst2 * EPow P2 (EVar vMst1) *
   (#15840 * EVar vMst2 * EVar vs2t * EPow P2 (EVar vMt) - #9267 * EVar vMt * EPow P2 (EVar vMst2) * EPow P2 (EVar
   vs2t) + #17312 * EPow P3 (EVar vMt) - #530 * EPow P3 (EVar vMst2) * EPow P3 (EVar vs2t)) + #63 * EPow P3 (EVar
   vMst2) * (#72 * EVar vMst2 * EVar vs2t * EPow P2 (EVar vMt) - #3 * EVar vMt * EPow P2 (EVar vMst2) * EPow P2 (EVar
   vs2t) + #4 * EPow P3 (EVar vMt) - #10 * EPow P3 (EVar vMst2) * EPow P3 (EVar vs2t)) + #2 * EVar vs2t * (#35601 *
   EVar vMst2 * EVar vMt * EVar vs2t + #66168 * EPow P2 (EVar vMt) - #12664 * EPow P2 (EVar vMst2) * EPow P2 (EVar
   vs2t)) * EPow P4 (EVar vMst1)) / (#729 * EPow P4 (EVar vMst2)) + EPow P3 (EVar vs2t) * (EPow P2 (EVar vMst1) *
   (EDec 9297559533607682 14 + #32 * EConst CB4 / #9 - #32 * EConst CD3 / #9 + #16 * EConst CDN / #9 + #275 * EVar
   vlmMsq / #18 + (EDec 12165925925925926 15 - #10 * EVar vlmMsq / #3) * EVar vlmMst1 + #15 * EPow P2 (EVar vlmMsq) /
   #2 + #6011 * EPow P2 (EVar vlmMst1) / #270 - EVar vlmMst2 * (- #1551 + #15750 * EVar vlmMsq + #40910 * EVar vlmMst1
   + #58350 * EPow P2 (EVar vlmMst1)) / #1350 + (#5891 + #23190 * EVar vlmMst1) * EPow P2 (EVar vlmMst2) / #270 + #5 *
   EPow P3 (EVar vlmMst1) / #27 - #1157 * EPow P3 (EVar vlmMst2) / #27) - (#5 * (#5 - #2 * EVar vlmMst1 + #2 * EVar
   vlmMst2) / (#18 * EPow P2 (EVar vMsq)) + (EDec 21349860925479342 14 + #1510169 * EVar vlmMst2 / #119070 + EVar
   vlmMsq * (#5 - #10 * EVar vlmMst1 + #10 * EVar vlmMst2) + (#433 + #6552 * EVar vlmMst2) * EPow P2 (EVar vlmMst1) /
   #189 + #97 * EPow P2 (EVar vlmMst2) / #189 - EVar vlmMst1 * (#2674409 + #333900 * EVar vlmMst2 + #7514640 * EPow P2
   (EVar vlmMst2)) / #119070 - #56 * EPow P3 (EVar vlmMst1) / #27 + #824 * EPow P3 (EVar vlmMst2) / #27) / EPow P2
   (EVar vMst2)) * EPow P4 (EVar vMst1) - EPow P2 (EVar vMst2) * (EDec 8799989711934157 14 - #50 * EConst CB4 / #9 +
   #56 * EConst CD3 / #9 - #31 * EConst CDN / #9 + #415 * EVar vlmMsq / #9 + EVar vlmMst1 * (#64 - #70 * EVar vlmMsq /
   #3 - #15 * EPow P2 (EVar vlmMsq)) - #103 * EPow P2 (EVar vlmMst1) / #18 + EVar vlmMst2 * (- #4160 - #882 * EVar
   vlmMst1 + #90 * EVar vlmMsq * (#7 + #9 * EVar vlmMst1) + #405 * EPow P2 (EVar vlmMsq) + #144 * EPow P2 (EVar
   vlmMst1)) / #27 + (EDec 11722222222222221 15 - #30 * EVar vlmMsq - #56 * EVar vlmMst1) * EPow P2 (EVar vlmMst2) +
   #5 * (#42 + EVar vlmMst1 * (#9 - #18 * EVar vlmMst2) + #2 * EVar vlmMsq * (- #32 + #9 * EVar vlmMst1 - #9 * EVar
   vlmMst2) + #55 * EVar vlmMst2 + #18 * EPow P2 (EVar vlmMst2)) * EPow P2 (EVar vMst1) / (#18 * EPow P2 (EVar vMsq))
   + #152 * EPow P3 (EVar vlmMst2) / #3 - #5 * EPow P4 (EVar vMst1) / (#36 * EPow P4 (EVar vMsq))) - (#10 * (#844 - #6
   * EVar vlmMsq * (#18 + #91 * EVar vlmMst1 - #91 * EVar vlmMst2) - #239 * EVar vlmMst2 + EVar vlmMst1 * (#347 + #546
   * EVar vlmMst2) - #546 * EPow P2 (EVar vlmMst2)) / EPow P2 (EVar vMsq) + #3 * (- #1277 + #330 * EVar vlmMst2 + #64
   * EVar vlmMst1 * (- #2 + #3 * EVar vlmMst2) - #90 * EVar vlmMsq * (- #5 + #6 * EVar vlmMst2) + #270 * EPow P2 (EVar
   vlmMsq) + #1584 * EPow P2 (EVar vlmMst2)) / EPow P2 (EVar vMst1)) * EPow P4 (EVar vMst2) / #108 + (#159 * (#200 *
   EConst COepS2 + #27 * (#21401 - #150 * EVar vlmMst1 + #150 * EVar vlmMst2) * EConst CS2) * EPow P2 (EVar vMst1) *
   EPow P2 (EVar vMst2) + #20 * (#25328 * EConst COepS2 + #27 * (#47051 - #18996 * EVar vlmMst1 + #18996 * EVar
   vlmMst2) * EConst CS2) * EPow P4 (EVar vMst1) + #9 * (#1400 * EConst COepS2 + #81 * (#116129 - #350 * EVar vlmMst1
   + #350 * EVar vlmMst2) * EConst CS2) * EPow P4 (EVar vMst2)) / (#21870 * EPow P2 (EVar vMst2)) + #16 * (- #2 + EVar
   vlmMst2 + #5 * EPow P2 (EVar vlmMst2)) * EPow P6 (EVar vMst2) / (#9 * EPow P4 (EVar vMst1)) + #5 * ((#405 - #434 *
   EVar vlmMst2 + #10 * EVar vlmMst1 * (- #13 + #60 * EVar vlmMst2) + EVar vlmMsq * (#564 - #600 * EVar vlmMst1 + #600
   * EVar vlmMst2) - #600 * EPow P2 (EVar vlmMst2)) * EPow P4 (EVar vMst1) * EPow P4 (EVar vMst2) - #160 * (- #8 + #15
   * EVar vlmMsq - #15 * EVar vlmMst2) * EPow P2 (EVar vMsq) * EPow P6 (EVar vMst2) + #2 * (- #2277 + #24 * EVar
   vlmMsq * (#25 + #61 * EVar vlmMst1 - #61 * EVar vlmMst2) - #220 * EVar vlmMst2 - #4 * EVar vlmMst1 * (#95 + #366 *
   EVar vlmMst2) + #1464 * EPow P2 (EVar vlmMst2)) * EPow P2 (EVar vMst1) * EPow P6 (EVar vMst2) + #9 * (#9 - #140 *
   EVar vlmMsq + #140 * EVar vlmMst2) * EPow P8 (EVar vMst2)) / (#432 * EPow P2 (EVar vMst1) * EPow P4 (EVar
   vMsq)))))) / EPow P2 (EVar vMgl) - EVar vAl4p * EVar vMt * EVar vxDR2DRMOD * (EVar vAl4p * EVar vthreeLoopFlag *
   (#1296 * EVar vMt * EVar vMuSUSY * EVar vs2t * (- (EVar vs2t * (#3636 - #1800 * EVar vlmMsq + #1080 * EPow P2 (EVar
   vlmMsq) - #24 * EVar vlmMst1 * (#431 - #150 * EVar vlmMsq + #90 * EPow P2 (EVar vlmMsq)) + #768 * EPow P2 (EVar
   vlmMst1) + #48 * EVar vlmMst2 * (#363 + #30 * EVar vlmMsq * (- #4 + #3 * EVar vlmMst1 - #3 * EVar vlmMst2) + #451 *
   EVar vlmMst2 - EVar vlmMst1 * (#407 + #168 * EVar vlmMst2) + #45 * EPow P2 (EVar vlmMsq) + #16 * EPow P2 (EVar
   vlmMst1)) + #7296 * EPow P3 (EVar vlmMst2) + (#24 * EVar vDmglst2 * (#45 + #30 * EVar vlmMsq * (#1 + #3 * EVar
   vlmMsq - #6 * EVar vlmMst2) * (#1 - #2 * EVar vlmMst1 + #2 * EVar vlmMst2) + #8 * EVar vlmMst2 * (#29 + #8 * EPow
   P2 (EVar vlmMst1)) + #1068 * EPow P2 (EVar vlmMst2) - #2 * EVar vlmMst1 * (- #83 + #430 * EVar vlmMst2 + #336 *
   EPow P2 (EVar vlmMst2)) + #608 * EPow P3 (EVar vlmMst2)) - #384 * (#1 + EVar vlmMst2) * (#4 * EVar vDmglst2 * EVar
   vlmMst2 + EVar vMgl + EVar vlmMst2 * EVar vMgl) * EPow P4 (EVar vMst2) / EPow P4 (EVar vMst1) + (#8 * EPow P2 (EVar
   vMst1) * (#80 * EVar vDmglst2 * (EVar vlmMst1 - EVar vlmMst2) * (#14 - #15 * EVar vlmMsq + #15 * EVar vlmMst2) *
   EPow P2 (EVar vMst2) + #10 * (EVar vlmMst1 - EVar vlmMst2) * (#43 - #30 * EVar vlmMsq + #30 * EVar vlmMst2) * EVar
   vMgl * EPow P2 (EVar vMst2) + #6 * EVar vDmglst2 * EPow P2 (EVar vMsq) * (#96 + EVar vlmMst2 * (#173 + #30 * EVar
   vlmMsq + #90 * EPow P2 (EVar vlmMsq) + #288 * EPow P2 (EVar vlmMst1)) + (#526 - #180 * EVar vlmMsq) * EPow P2 (EVar
   vlmMst2) - EVar vlmMst1 * (#13 + #30 * EVar vlmMsq * (#1 - #6 * EVar vlmMst2) + #526 * EVar vlmMst2 + #90 * EPow P2
   (EVar vlmMsq) + #848 * EPow P2 (EVar vlmMst2)) + #560 * EPow P3 (EVar vlmMst2)) + #3 * EVar vMgl * EPow P2 (EVar
   vMsq) * (#64 + #15 * EVar vlmMst2 * (#33 - #10 * EVar vlmMsq + #6 * EPow P2 (EVar vlmMsq)) + #288 * (#1 + EVar
   vlmMst2) * EPow P2 (EVar vlmMst1) + #6 * (#173 - #30 * EVar vlmMsq) * EPow P2 (EVar vlmMst2) - EVar vlmMst1 * (#431
   + #1326 * EVar vlmMst2 - #30 * EVar vlmMsq * (#5 + #6 * EVar vlmMst2) + #90 * EPow P2 (EVar vlmMsq) + #848 * EPow
   P2 (EVar vlmMst2)) + #560 * EPow P3 (EVar vlmMst2))) - #40 * (#8 * EVar vDmglst2 * (#14 - #15 * EVar vlmMsq + #15 *
   EVar vlmMst2) + (#43 - #30 * EVar vlmMsq + #30 * EVar vlmMst2) * EVar vMgl) * (EPow P4 (EVar vMst2) - #2 * (EVar
   vlmMst1 - EVar vlmMst2) * (EPow P4 (EVar vMst1) + EPow P4 (EVar vMst2)))) / (EPow P2 (EVar vMsq) * EPow P2 (EVar
   vMst2)) + (#2 * EPow P4 (EVar vMst1) * ((#24 * EVar vDmglst2 * (#96 + EVar vlmMst2 * (#285 + #30 * EVar vlmMsq +
   #90 * EPow P2 (EVar vlmMsq) + #544 * EPow P2 (EVar vlmMst1)) + (#590 - #180 * EVar vlmMsq) * EPow P2 (EVar vlmMst2)
   - EVar vlmMst1 * (#109 + #30 * EVar vlmMsq * (#1 - #6 * EVar vlmMst2) + #590 * EVar vlmMst2 + #90 * EPow P2 (EVar
   vlmMsq) + #1360 * EPow P2 (EVar vlmMst2)) + #816 * EPow P3 (EVar vlmMst2)) + #12 * EVar vMgl * (#80 + EVar vlmMst2
   * (#479 - #150 * EVar vlmMsq + #90 * EPow P2 (EVar vlmMsq)) + #544 * (#1 + EVar vlmMst2) * EPow P2 (EVar vlmMst1) +
   #2 * (#631 - #90 * EVar vlmMsq) * EPow P2 (EVar vlmMst2) - EVar vlmMst1 * (#399 + #1806 * EVar vlmMst2 - #30 * EVar
   vlmMsq * (#5 + #6 * EVar vlmMst2) + #90 * EPow P2 (EVar vlmMsq) + #1360 * EPow P2 (EVar vlmMst2)) + #816 * EPow P3
   (EVar vlmMst2))) * EPow P4 (EVar vMsq) + (EVar vlmMst1 - EVar vlmMst2) * (#90 * EVar vDmglst2 * (#13 - #28 * EVar
   vlmMsq + #28 * EVar vlmMst2) + #5 * (#67 - #84 * EVar vlmMsq + #84 * EVar vlmMst2) * EVar vMgl) * EPow P4 (EVar
   vMst2)) / EPow P4 (EVar vMst2) + EPow P2 (EVar vMst2) * (- #5 * (#18 * EVar vDmglst2 * (#13 - #28 * EVar vlmMsq +
   #28 * EVar vlmMst2) + (#67 - #84 * EVar vlmMsq + #84 * EVar vlmMst2) * EVar vMgl) * (EPow P2 (EVar vMst2) - #2 *
   (EVar vlmMst1 - EVar vlmMst2) * (EPow P2 (EVar vMst1) + EPow P2 (EVar vMst2))) - (#40 * (#8 * EVar vDmglst2 * (#14
   - #15 * EVar vlmMsq + #15 * EVar vlmMst2) + (#43 - #30 * EVar vlmMsq + #30 * EVar vlmMst2) * EVar vMgl) * EPow P2
   (EVar vMsq) * EPow P2 (EVar vMst2) + (- #12 * EVar vMgl * (#335 + #654 * EVar vlmMst2 + #64 * EVar vlmMst1 * (#1 +
   EVar vlmMst2) - #30 * EVar vlmMsq * (#5 + #6 * EVar vlmMst2) + #90 * EPow P2 (EVar vlmMsq) + #272 * EPow P2 (EVar
   vlmMst2)) - #24 * EVar vDmglst2 * (- #115 + (#366 + #64 * EVar vlmMst1) * EVar vlmMst2 - #30 * EVar vlmMsq * (- #1
   + #6 * EVar vlmMst2) + #90 * EPow P2 (EVar vlmMsq) + #336 * EPow P2 (EVar vlmMst2))) * EPow P4 (EVar vMsq) + (#90 *
   EVar vDmglst2 * (#13 - #28 * EVar vlmMsq + #28 * EVar vlmMst2) + #5 * (#67 - #84 * EVar vlmMsq + #84 * EVar
   vlmMst2) * EVar vMgl) * EPow P4 (EVar vMst2)) / EPow P2 (EVar vMst1))) / EPow P4 (EVar vMsq)) / EVar vMgl)) / #216
   + #64 * EVar vMt * (#2 * EVar vDmglst2 * EPow P2 (EVar vMst2) * (EPow P2 (EVar vMst1) * EPow P2 (EVar vMst2) * (#8
   + #7 * EVar vlmMst2 - #11 * EPow P2 (EVar vlmMst2) + EVar vlmMst1 * (- #3 + #5 * EVar vlmMst2 + #6 * EPow P2 (EVar
   vlmMst2)) - #6 * EPow P3 (EVar vlmMst2)) + #2 * (#8 + #13 * EVar vlmMst2 - #8 * EPow P2 (EVar vlmMst2) + EVar
   vlmMst1 * (- #5 + #5 * EVar vlmMst2 + #6 * EPow P2 (EVar vlmMst2)) - #6 * EPow P3 (EVar vlmMst2)) * EPow P4 (EVar
   vMst1) + (#1 - #2 * EVar vlmMst2 - #3 * EPow P2 (EVar vlmMst2)) * EPow P4 (EVar vMst2)) + (#1 + EVar vlmMst2) *
   EVar vMgl * (#2 * (#1 - #10 * EVar vlmMst2 + #4 * EVar vlmMst1 * (#2 + EVar vlmMst2) - #4 * EPow P2 (EVar vlmMst2))
   * EPow P2 (EVar vMst2) * EPow P4 (EVar vMst1) - #2 * (#1 + #5 * EVar vlmMst2 - EVar vlmMst1 * (#3 + #2 * EVar
   vlmMst2) + #2 * EPow P2 (EVar vlmMst2)) * EPow P2 (EVar vMst1) * EPow P4 (EVar vMst2) + (#7 - #32 * EVar vlmMst2 +
   #4 * EVar vlmMst1 * (#7 + #3 * EVar vlmMst2) - #12 * EPow P2 (EVar vlmMst2)) * EPow P6 (EVar vMst1) - #2 * (#1 +
   EVar vlmMst2) * EPow P6 (EVar vMst2))) / (#9 * EVar vMgl * EPow P2 (EVar vMst1) * EPow P5 (EVar vMst2))) / EVar
   vTbeta + (#3 * EPow P3 (EVar vs2t) * (#12 * EPow P2 (EVar vMst1) * (#2 * EVar vDmglst2 * (#147 + #114 * EVar
   vlmMst2 + #30 * EVar vlmMsq * (- #1 + #6 * EVar vlmMst2) - #90 * EPow P2 (EVar vlmMsq) + #512 * EVar vlmMst2 * EPow
   P2 (EVar vlmMst1) - #16 * EPow P2 (EVar vlmMst2) - #64 * EVar vlmMst1 * (#3 + #3 * EVar vlmMst2 + #16 * EPow P2
   (EVar vlmMst2)) + #512 * EPow P3 (EVar vlmMst2)) - EVar vMgl * (#175 - #30 * EVar vlmMsq * (#5 + #6 * EVar vlmMst2)
   + EVar vlmMst2 * (#462 + #1024 * EVar vlmMst1 * (#1 + EVar vlmMst2)) + #90 * EPow P2 (EVar vlmMsq) - #272 * EPow P2
   (EVar vlmMst2) - #512 * ((#1 + EVar vlmMst2) * EPow P2 (EVar vlmMst1) + EPow P3 (EVar vlmMst2)))) + #384 * ((#1 +
   EVar vlmMst2) * EVar vMgl * (#1 + EVar vlmMst1 * (#2 - #32 * EVar vlmMst2) - #2 * EVar vlmMst2 + #16 * (EPow P2
   (EVar vlmMst1) + EPow P2 (EVar vlmMst2))) + #2 * EVar vDmglst2 * (- #2 * EVar vlmMst1 * (#3 + #2 * EVar vlmMst2 +
   #16 * EPow P2 (EVar vlmMst2)) + EVar vlmMst2 * (#7 + #4 * EVar vlmMst2 + #16 * (EPow P2 (EVar vlmMst1) + EPow P2
   (EVar vlmMst2))))) * EPow P4 (EVar vMst1) / EPow P2 (EVar vMst2) + #5 * (#18 * EVar vDmglst2 * (#13 - #28 * EVar
   vlmMsq + #28 * EVar vlmMst2) + (#67 - #84 * EVar vlmMsq + #84 * EVar vlmMst2) * EVar vMgl) * (EPow P2 (EVar vMst1)
   + #2 * (EVar vlmMst1 - EVar vlmMst2) * EPow P2 (EVar vMst2)) * EPow P4 (EVar vMst2) / EPow P4 (EVar vMsq) + (#8 *
   EPow P2 (EVar vMst2) * (#40 * EVar vDmglst2 * (#14 - #15 * EVar vlmMsq + #15 * EVar vlmMst2) * EPow P2 (EVar vMst1)
   + #5 * (#43 - #30 * EVar vlmMsq + #30 * EVar vlmMst2) * EVar vMgl * EPow P2 (EVar vMst1) - #3 * EVar vMgl * EPow P2
   (EVar vMsq) * (#16 - #3 * EVar vlmMst2 * (#133 - #50 * EVar vlmMsq + #30 * EPow P2 (EVar vlmMsq)) - #32 * (#1 +
   EVar vlmMst2) * EPow P2 (EVar vlmMst1) + #2 * (- #383 + #90 * EVar vlmMsq) * EPow P2 (EVar vlmMst2) + EVar vlmMst1
   * (#463 + #846 * EVar vlmMst2 - #30 * EVar vlmMsq * (#5 + #6 * EVar vlmMst2) + #90 * EPow P2 (EVar vlmMsq) + #336 *
   EPow P2 (EVar vlmMst2)) - #304 * EPow P3 (EVar vlmMst2)) + #6 * EVar vDmglst2 * EPow P2 (EVar vMsq) * (#80 + EVar
   vlmMst2 * (- #67 + #30 * EVar vlmMsq + #90 * EPow P2 (EVar vlmMsq) + #32 * EPow P2 (EVar vlmMst1)) + #6 * (#61 -
   #30 * EVar vlmMsq) * EPow P2 (EVar vlmMst2) - EVar vlmMst1 * (- #83 + #462 * EVar vlmMst2 - #30 * EVar vlmMsq * (-
   #1 + #6 * EVar vlmMst2) + #90 * EPow P2 (EVar vlmMsq) + #336 * EPow P2 (EVar vlmMst2)) + #304 * EPow P3 (EVar
   vlmMst2))) - #4 * ((- #3 * EVar vMgl * (#367 + #718 * EVar vlmMst2 + #64 * EVar vlmMst1 * (#1 + EVar vlmMst2) - #30
   * EVar vlmMsq * (#5 + #6 * EVar vlmMst2) + #90 * EPow P2 (EVar vlmMsq) + #304 * EPow P2 (EVar vlmMst2)) - #6 * EVar
   vDmglst2 * (- #115 + (#430 + #64 * EVar vlmMst1) * EVar vlmMst2 - #30 * EVar vlmMsq * (- #1 + #6 * EVar vlmMst2) +
   #90 * EPow P2 (EVar vlmMsq) + #400 * EPow P2 (EVar vlmMst2))) * EPow P2 (EVar vMsq) + #20 * (EVar vlmMst1 - EVar
   vlmMst2) * (#8 * EVar vDmglst2 * (- #14 + #15 * EVar vlmMsq - #15 * EVar vlmMst2) + (- #43 + #30 * EVar vlmMsq -
   #30 * EVar vlmMst2) * EVar vMgl) * EPow P2 (EVar vMst1)) * EPow P4 (EVar vMst2) / EPow P2 (EVar vMst1) - #8 * (EVar
   vMgl * (#48 * EPow P2 (#1 + EVar vlmMst2) * EPow P2 (EVar vMsq) + #5 * (#43 - #30 * EVar vlmMsq + #30 * EVar
   vlmMst2) * EPow P2 (EVar vMst1)) + #8 * EVar vDmglst2 * (#24 * EPow P2 (EVar vlmMst2) * EPow P2 (EVar vMsq) + #5 *
   (#14 - #15 * EVar vlmMsq) * EPow P2 (EVar vMst1) + #3 * EVar vlmMst2 * (#8 * EPow P2 (EVar vMsq) + #25 * EPow P2
   (EVar vMst1)))) * EPow P6 (EVar vMst2) / EPow P4 (EVar vMst1)) / EPow P2 (EVar vMsq)) + #256 * EVar vMt * (#4 *
   EPow P2 (EVar vMt) * (EVar vDmglst2 * EPow P2 (EVar vMst2) * (EPow P2 (EVar vMst1) * EPow P2 (EVar vMst2) * (#119 +
   EVar vlmMst2 * (#224 - #15 * EVar vlmMt) - #51 * EVar vlmMt + #3 * (#5 + #6 * EVar vlmMt) * EPow P2 (EVar vlmMst2)
   + #18 * EVar vlmMst1 * (- #4 + EVar vlmMt - EVar vlmMst2 * (#1 + EVar vlmMt) + EPow P2 (EVar vlmMst2)) - #18 * EPow
   P3 (EVar vlmMst2)) + (#263 + EVar vlmMst2 * (#962 - #213 * EVar vlmMt) - #177 * EVar vlmMt + (#393 - #18 * EVar
   vlmMt) * EPow P2 (EVar vlmMst2) - #18 * EVar vlmMst1 * (#26 - EVar vlmMst2 * (- #17 + EVar vlmMt) - #7 * EVar vlmMt
   + EPow P2 (EVar vlmMst2)) + #18 * EPow P3 (EVar vlmMst2)) * EPow P4 (EVar vMst1) - #18 * (- #1 + #2 * EVar vlmMst2
   + #3 * EPow P2 (EVar vlmMst2)) * EPow P4 (EVar vMst2)) + #9 * (#1 + EVar vlmMst2) * EVar vMgl * ((#3 - #21 * EVar
   vlmMst2 + #2 * EVar vlmMst1 * (#8 + #3 * EVar vlmMst2 - #3 * EVar vlmMt) + #5 * EVar vlmMt + #6 * EVar vlmMst2 *
   EVar vlmMt - #6 * EPow P2 (EVar vlmMst2)) * EPow P2 (EVar vMst2) * EPow P4 (EVar vMst1) + (- #1 - #7 * EVar vlmMst2
   + #2 * EVar vlmMst1 * (#2 + EVar vlmMst2 - EVar vlmMt) + #3 * EVar vlmMt + #2 * EVar vlmMst2 * EVar vlmMt - #2 *
   EPow P2 (EVar vlmMst2)) * EPow P2 (EVar vMst1) * EPow P4 (EVar vMst2) + (#12 - #45 * EVar vlmMst2 + #2 * EVar
   vlmMst1 * (#19 + #6 * EVar vlmMst2 - #6 * EVar vlmMt) + #7 * EVar vlmMt + #12 * EVar vlmMst2 * EVar vlmMt - #12 *
   EPow P2 (EVar vlmMst2)) * EPow P6 (EVar vMst1) - #2 * (#1 + EVar vlmMst2) * EPow P6 (EVar vMst2))) - #27 * EPow P2
   (EVar vMst2) * EPow P2 (EVar vs2t) * ((#1 + EVar vlmMst2) * EVar vMgl * (#2 * (#2 - #5 * EVar vlmMst2 + EVar
   vlmMst1 * (#5 + #2 * EVar vlmMst2) - #2 * EPow P2 (EVar vlmMst2)) * EPow P2 (EVar vMst2) * EPow P4 (EVar vMst1) +
   #2 * (- #2 * EVar vlmMst2 * (#2 + EVar vlmMst2) + EVar vlmMst1 * (#3 + #2 * EVar vlmMst2)) * EPow P2 (EVar vMst1) *
   EPow P4 (EVar vMst2) + (#5 - #12 * EVar vlmMst2 + #4 * EVar vlmMst1 * (#3 + EVar vlmMst2) - #4 * EPow P2 (EVar
   vlmMst2)) * EPow P6 (EVar vMst1) - #2 * (#1 + EVar vlmMst2) * EPow P6 (EVar vMst2)) + EVar vDmglst2 * (#2 * EPow P2
   (EVar vMst2) * (#8 + #19 * EVar vlmMst2 - #5 * EPow P2 (EVar vlmMst2) + EVar vlmMst1 * (- #7 + #5 * EVar vlmMst2 +
   #6 * EPow P2 (EVar vlmMst2)) - #6 * EPow P3 (EVar vlmMst2)) * EPow P4 (EVar vMst1) + #2 * EPow P2 (EVar vMst1) *
   (#7 + #9 * EVar vlmMst2 - #8 * EPow P2 (EVar vlmMst2) + EVar vlmMst1 * (- #3 + #5 * EVar vlmMst2 + #6 * EPow P2
   (EVar vlmMst2)) - #6 * EPow P3 (EVar vlmMst2)) * EPow P4 (EVar vMst2) + (#17 + #51 * EVar vlmMst2 - #4 * EPow P2
   (EVar vlmMst2) + #4 * EVar vlmMst1 * (- #6 + EVar vlmMst2 + #3 * EPow P2 (EVar vlmMst2)) - #12 * EPow P3 (EVar
   vlmMst2)) * EPow P6 (EVar vMst1) - #2 * (- #1 + #2 * EVar vlmMst2 + #3 * EPow P2 (EVar vlmMst2)) * EPow P6 (EVar
   vMst2)))) / (EPow P2 (EVar vMst1) * EPow P5 (EVar vMst2)) - #12 * EVar vs2t * EPow P2 (EVar vMt) * (EPow P2 (EVar
   vMst1) * (EPow P2 (EVar vMst1) - EPow P2 (EVar vMst2)) * (#40 * (#8 * EVar vDmglst2 * (#14 - #15 * EVar vlmMsq +
   #15 * EVar vlmMst2) + (#43 - #30 * EVar vlmMsq + #30 * EVar vlmMst2) * EVar vMgl) * EPow P2 (EVar vMsq) * EPow P6
   (EVar vMst2) + (#90 * EVar vDmglst2 * (#13 - #28 * EVar vlmMsq + #28 * EVar vlmMst2) + #5 * (#67 - #84 * EVar
   vlmMsq + #84 * EVar vlmMst2) * EVar vMgl) * EPow P8 (EVar vMst2)) + EPow P4 (EVar vMsq) * (#12 * EVar vMgl * (-
   ((#143 + #302 * EVar vlmMst2 - #30 * EVar vlmMsq * (#5 + #6 * EVar vlmMst2) + #90 * EPow P2 (EVar vlmMsq) + #48 *
   EPow P2 (EVar vlmMst2) + #128 * EVar vlmMst1 * EPow P2 (#1 + EVar vlmMst2) - #64 * ((#1 + EVar vlmMst2) * EPow P2
   (EVar vlmMst1) + EPow P3 (EVar vlmMst2))) * EPow P4 (EVar vMst1) * EPow P4 (EVar vMst2)) + (#271 + #526 * EVar
   vlmMst2 + #64 * EVar vlmMst1 * (#1 + EVar vlmMst2) - #30 * EVar vlmMsq * (#5 + #6 * EVar vlmMst2) + #90 * EPow P2
   (EVar vlmMsq) + #208 * EPow P2 (EVar vlmMst2)) * EPow P2 (EVar vMst1) * EPow P6 (EVar vMst2) + #64 * (#1 + EVar
   vlmMst2) * (EPow P2 (#1 - EVar vlmMst1 + EVar vlmMst2) * EPow P2 (EVar vMst2) * EPow P6 (EVar vMst1) + (#1 + #3 *
   EVar vlmMst2 - EVar vlmMst1 * (#3 + #2 * EVar vlmMst2) + EPow P2 (EVar vlmMst1) + EPow P2 (EVar vlmMst2)) * EPow P8
   (EVar vMst1)) - #32 * EPow P2 (#1 + EVar vlmMst2) * EPow P8 (EVar vMst2)) - #8 * EVar vDmglst2 * (- ((#121 + #90 *
   EVar vlmMsq * (- #1 + #6 * EVar vlmMst2) - #270 * EPow P2 (EVar vlmMsq) + #2 * EVar vlmMst2 * (- #325 + #96 * EPow
   P2 (EVar vlmMst1)) - #432 * EPow P2 (EVar vlmMst2) + #192 * (- (EVar vlmMst1 * (- #1 + EVar vlmMst2 + #2 * EPow P2
   (EVar vlmMst2))) + EPow P3 (EVar vlmMst2))) * EPow P4 (EVar vMst1) * EPow P4 (EVar vMst2)) - #192 * (EVar vlmMst2 *
   EPow P2 (EVar vlmMst1) + EVar vlmMst1 * (#4 + #2 * EVar vlmMst2 - #2 * EPow P2 (EVar vlmMst2)) + (- #4 + EVar
   vlmMst2) * EPow P2 (#1 + EVar vlmMst2)) * EPow P2 (EVar vMst2) * EPow P6 (EVar vMst1) - #3 * (- #179 + #2 * (#87 +
   #32 * EVar vlmMst1) * EVar vlmMst2 - #30 * EVar vlmMsq * (- #1 + #6 * EVar vlmMst2) + #90 * EPow P2 (EVar vlmMsq) +
   #208 * EPow P2 (EVar vlmMst2)) * EPow P2 (EVar vMst1) * EPow P6 (EVar vMst2) + #192 * (- ((- #6 - #14 * EVar
   vlmMst2 + EVar vlmMst2 * EPow P2 (EVar vlmMst1) + EVar vlmMst1 * (#9 + #6 * EVar vlmMst2 - #2 * EPow P2 (EVar
   vlmMst2)) - #6 * EPow P2 (EVar vlmMst2) + EPow P3 (EVar vlmMst2)) * EPow P8 (EVar vMst1)) + EVar vlmMst2 * (#1 +
   EVar vlmMst2) * EPow P8 (EVar vMst2))))) / (EPow P4 (EVar vMsq) * EPow P4 (EVar vMst1) * EPow P4 (EVar vMst2))) /
   EVar vMgl) + (#432 * EVar vMgl * (#2 * EVar vDmglst2 * EVar vlmMst2 + EVar vMgl + EVar vlmMst2 * EVar vMgl) * EVar
   vs2t * EVar vtwoLoopFlag * EPow P2 (EVar vMst1) * (- ((#2 * EVar vMt * (EVar vMuSUSY * EVar vs2t - #2 * EVar vMt *
   EVar vTbeta) * EPow P2 (EVar vMst1) + EPow P2 (EVar vMst2) * (#2 * EVar vMt * EVar vMuSUSY * EVar vs2t + #4 * EVar
   vTbeta * EPow P2 (EVar vMt) - EVar vTbeta * EPow P2 (EVar vMst2) * EPow P2 (EVar vs2t)) + EVar vTbeta * EPow P2
   (EVar vs2t) * EPow P4 (EVar vMst1)) * EPow P4 (EVar vMst2)) + #2 * (EVar vlmMst1 - EVar vlmMst2) * EVar vs2t * EPow
   P2 (EVar vMst1) * (#2 * EVar vMt * EVar vMuSUSY * (EPow P2 (EVar vMst1) * EPow P2 (EVar vMst2) + EPow P4 (EVar
   vMst1) + EPow P4 (EVar vMst2)) - EVar vs2t * EVar vTbeta * EPow P6 (EVar vMst2))) + EVar vxDmglst2 * EPow P2 (EVar
   vDmglst2) * (#432 * (#2 - #3 * EVar vlmMst2) * EVar vs2t * EVar vtwoLoopFlag * EPow P2 (EVar vMst1) * EPow P4 (EVar
   vMsq) * (EVar vTbeta * (- #4 * EPow P2 (EVar vMst1) * EPow P2 (EVar vMt) + #4 * EPow P2 (EVar vMst2) * EPow P2
   (EVar vMt) + #2 * (EVar vlmMst1 - EVar vlmMst2) * EPow P2 (EVar vMst1) * EPow P2 (EVar vMst2) * EPow P2 (EVar vs2t)
   + EPow P2 (EVar vs2t) * (EPow P4 (EVar vMst1) - EPow P4 (EVar vMst2))) * EPow P4 (EVar vMst2) + #2 * EVar vMt *
   EVar vMuSUSY * EVar vs2t * ((EPow P2 (EVar vMst1) + EPow P2 (EVar vMst2)) * EPow P4 (EVar vMst2) - #2 * (EVar
   vlmMst1 - EVar vlmMst2) * EPow P2 (EVar vMst1) * (EPow P2 (EVar vMst1) * EPow P2 (EVar vMst2) + EPow P4 (EVar
   vMst1) + EPow P4 (EVar vMst2)))) + EVar vAl4p * EVar vthreeLoopFlag * (#6 * EVar vMt * EVar vMuSUSY * EVar vs2t *
   (EVar vs2t * EPow P2 (EVar vMst1) * (#160 * EPow P2 (EVar vMsq) * EPow P2 (EVar vMst2) * (#5 * (#8 - #15 * EVar
   vlmMsq) * (EPow P2 (EVar vMst1) + EPow P2 (EVar vMst2)) * EPow P4 (EVar vMst2) + #30 * EPow P2 (EVar vlmMst2) * (#5
   * EPow P2 (EVar vMst2) * EPow P4 (EVar vMst1) + #5 * EPow P2 (EVar vMst1) * EPow P4 (EVar vMst2) + #2 * EPow P6
   (EVar vMst1)) - #2 * EVar vlmMst1 * (#5 * (#8 - #15 * EVar vlmMsq + #15 * EVar vlmMst2) * EPow P2 (EVar vMst1) *
   EPow P2 (EVar vMst2) * (EPow P2 (EVar vMst1) + EPow P2 (EVar vMst2)) + (#28 - #30 * EVar vlmMsq + #30 * EVar
   vlmMst2) * EPow P6 (EVar vMst1)) + EVar vlmMst2 * (#10 * (#8 - #15 * EVar vlmMsq) * EPow P2 (EVar vMst2) * EPow P4
   (EVar vMst1) + #5 * (#31 - #30 * EVar vlmMsq) * EPow P2 (EVar vMst1) * EPow P4 (EVar vMst2) + (#56 - #60 * EVar
   vlmMsq) * EPow P6 (EVar vMst1) + #75 * EPow P6 (EVar vMst2))) + #45 * EPow P4 (EVar vMst2) * (#7 * (#5 - #28 * EVar
   vlmMsq) * (EPow P2 (EVar vMst1) + EPow P2 (EVar vMst2)) * EPow P4 (EVar vMst2) + #56 * EPow P2 (EVar vlmMst2) * (#7
   * EPow P2 (EVar vMst2) * EPow P4 (EVar vMst1) + #7 * EPow P2 (EVar vMst1) * EPow P4 (EVar vMst2) + #2 * EPow P6
   (EVar vMst1)) - #2 * EVar vlmMst1 * (#7 * (#5 - #28 * EVar vlmMsq + #28 * EVar vlmMst2) * EPow P2 (EVar vMst1) *
   EPow P2 (EVar vMst2) * (EPow P2 (EVar vMst1) + EPow P2 (EVar vMst2)) + (#26 - #56 * EVar vlmMsq + #56 * EVar
   vlmMst2) * EPow P6 (EVar vMst1)) + EVar vlmMst2 * (#14 * (#5 - #28 * EVar vlmMsq) * EPow P2 (EVar vMst2) * EPow P4
   (EVar vMst1) + #14 * (#19 - #28 * EVar vlmMsq) * EPow P2 (EVar vMst1) * EPow P4 (EVar vMst2) + (#52 - #112 * EVar
   vlmMsq) * EPow P6 (EVar vMst1) + #196 * EPow P6 (EVar vMst2)))) - #4 * EPow P4 (EVar vMsq) * (- ((EVar vMst2 * EVar
   vs2t * (#3035 + #5240 * EVar vlmMst2 - #270 * EVar vlmMsq * (#5 + #3 * EVar vlmMsq - #6 * EVar vlmMst2) * (#1 - #2
   * EVar vlmMst1 + #2 * EVar vlmMst2) + #192 * (#2 - #3 * EVar vlmMst2) * EPow P2 (EVar vlmMst1) - #4620 * EPow P2
   (EVar vlmMst2) + #6 * EVar vlmMst1 * (- #1161 + #458 * EVar vlmMst2 + #1008 * EPow P2 (EVar vlmMst2)) - #5472 *
   EPow P3 (EVar vlmMst2)) - #128 * EVar vMt * (- #53 - #191 * EVar vlmMst2 + EVar vlmMst1 * (#60 + #18 * EVar vlmMst2
   - #72 * EPow P2 (EVar vlmMst2)) + #54 * EPow P2 (EVar vlmMst2) + #72 * EPow P3 (EVar vlmMst2))) * EPow P3 (EVar
   vMst2) * EPow P4 (EVar vMst1)) - #3 * (EVar vMst2 * EVar vs2t * (#1065 + #64 * EVar vlmMst1 * (#2 - #3 * EVar
   vlmMst2) - #266 * EVar vlmMst2 + #90 * EVar vlmMsq * (- #5 + #6 * EVar vlmMst2) - #270 * EPow P2 (EVar vlmMsq) -
   #1264 * EPow P2 (EVar vlmMst2)) + #512 * EVar vMt * (#2 + EVar vlmMst2 - #3 * EPow P2 (EVar vlmMst2))) * EPow P2
   (EVar vMst1) * EPow P5 (EVar vMst2) - #2 * EVar vMst2 * (#3 * EVar vMst2 * EVar vs2t * (#480 - #9 * EVar vlmMst2 *
   (- #129 + #50 * EVar vlmMsq + #30 * EPow P2 (EVar vlmMsq)) + #288 * (#2 - #3 * EVar vlmMst2) * EPow P2 (EVar
   vlmMst1) + #10 * (- #17 + #54 * EVar vlmMsq) * EPow P2 (EVar vlmMst2) + EVar vlmMst1 * (- #1385 - #406 * EVar
   vlmMst2 - #90 * EVar vlmMsq * (- #5 + #6 * EVar vlmMst2) + #270 * EPow P2 (EVar vlmMsq) + #2544 * EPow P2 (EVar
   vlmMst2)) - #1680 * EPow P3 (EVar vlmMst2)) + #64 * EVar vMt * (#11 + #371 * EVar vlmMst2 - #42 * EPow P2 (EVar
   vlmMst2) + #6 * EVar vlmMst1 * (- #21 - #5 * EVar vlmMst2 + #24 * EPow P2 (EVar vlmMst2)) - #144 * EPow P3 (EVar
   vlmMst2))) * EPow P6 (EVar vMst1) + EVar vs2t * (#12 * (#96 + EVar vlmMst2 * (#285 + #30 * EVar vlmMsq + #90 * EPow
   P2 (EVar vlmMsq) + #544 * EPow P2 (EVar vlmMst1)) + (#590 - #180 * EVar vlmMsq) * EPow P2 (EVar vlmMst2) - EVar
   vlmMst1 * (#109 + #30 * EVar vlmMsq * (#1 - #6 * EVar vlmMst2) + #590 * EVar vlmMst2 + #90 * EPow P2 (EVar vlmMsq)
   + #1360 * EPow P2 (EVar vlmMst2)) + #816 * EPow P3 (EVar vlmMst2)) * EPow P8 (EVar vMst1) - #192 * (- #2 + EVar
   vlmMst2 + #5 * EPow P2 (EVar vlmMst2)) * EPow P8 (EVar vMst2)))) - EVar vTbeta * (#256 * EVar vMst2 * EVar vMt *
   EPow P2 (EVar vMst1) * EPow P4 (EVar vMsq) * (#4 * EPow P2 (EVar vMt) * (EPow P2 (EVar vMst1) * EPow P2 (EVar
   vMst2) * (#96 + #36 * EVar vlmMt + EVar vlmMst2 * (- #187 + #39 * EVar vlmMt) - #3 * (#19 + #6 * EVar vlmMt) * EPow
   P2 (EVar vlmMst2) + #18 * (EVar vlmMst1 * (#3 - #2 * EVar vlmMt + EVar vlmMst2 * (#3 + EVar vlmMt) - EPow P2 (EVar
   vlmMst2)) + EPow P3 (EVar vlmMst2))) + (#834 + EVar vlmMst2 * (#569 - #33 * EVar vlmMt) - #162 * EVar vlmMt + (#51
   - #18 * EVar vlmMt) * EPow P2 (EVar vlmMst2) - #18 * EVar vlmMst1 * (#13 + EVar vlmMst2 - EVar vlmMst2 * EVar vlmMt
   + EPow P2 (EVar vlmMst2)) + #18 * EPow P3 (EVar vlmMst2)) * EPow P4 (EVar vMst1) - #36 * (#2 + EVar vlmMst2 - #3 *
   EPow P2 (EVar vlmMst2)) * EPow P4 (EVar vMst2)) + #9 * EPow P2 (EVar vs2t) * (#6 * EPow P2 (EVar vMst2) * (- #7 +
   #30 * EVar vlmMst2 + #2 * EPow P2 (EVar vlmMst2) + EVar vlmMst1 * (- #11 - #2 * EVar vlmMst2 + #12 * EPow P2 (EVar
   vlmMst2)) - #12 * EPow P3 (EVar vlmMst2)) * EPow P4 (EVar vMst1) + EPow P2 (EVar vMst1) * (#29 + #179 * EVar
   vlmMst2 - #18 * EPow P2 (EVar vlmMst2) + #6 * EVar vlmMst1 * (- #10 - #3 * EVar vlmMst2 + #12 * EPow P2 (EVar
   vlmMst2)) - #72 * EPow P3 (EVar vlmMst2)) * EPow P4 (EVar vMst2) + #3 * (#17 + #51 * EVar vlmMst2 - #4 * EPow P2
   (EVar vlmMst2) + #4 * EVar vlmMst1 * (- #6 + EVar vlmMst2 + #3 * EPow P2 (EVar vlmMst2)) - #12 * EPow P3 (EVar
   vlmMst2)) * EPow P6 (EVar vMst1) + #12 * (#2 + EVar vlmMst2 - #3 * EPow P2 (EVar vlmMst2)) * EPow P6 (EVar vMst2)))
   - #3 * EPow P2 (EVar vMst2) * EPow P3 (EVar vs2t) * (#8 * EPow P2 (EVar vMsq) * (#100 * (#8 - #15 * EVar vlmMsq +
   #15 * EVar vlmMst2) * EPow P2 (EVar vMst1) + EPow P2 (EVar vMsq) * (#80 + EVar vlmMst2 * (- #3019 + #1350 * EVar
   vlmMsq + #810 * EPow P2 (EVar vlmMsq)) + #96 * (- #2 + #3 * EVar vlmMst2) * EPow P2 (EVar vlmMst1) + #18 * (#23 -
   #90 * EVar vlmMsq) * EPow P2 (EVar vlmMst2) - #3 * EVar vlmMst1 * (- #1225 + #554 * EVar vlmMst2 - #90 * EVar
   vlmMsq * (- #5 + #6 * EVar vlmMst2) + #270 * EPow P2 (EVar vlmMsq) + #1008 * EPow P2 (EVar vlmMst2)) + #2736 * EPow
   P3 (EVar vlmMst2))) * EPow P4 (EVar vMst1) * EPow P4 (EVar vMst2) + EPow P2 (EVar vMst1) * (#1600 * (EVar vlmMst1 -
   EVar vlmMst2) * (#8 - #15 * EVar vlmMsq + #15 * EVar vlmMst2) * EPow P2 (EVar vMsq) * EPow P2 (EVar vMst1) + #12 *
   (- #1193 + #330 * EVar vlmMst2 + #64 * EVar vlmMst1 * (- #2 + #3 * EVar vlmMst2) - #90 * EVar vlmMsq * (- #5 + #6 *
   EVar vlmMst2) + #270 * EPow P2 (EVar vlmMsq) + #1584 * EPow P2 (EVar vlmMst2)) * EPow P4 (EVar vMsq) + #315 * (#5 -
   #28 * EVar vlmMsq + #28 * EVar vlmMst2) * EPow P4 (EVar vMst1) + #45 * (- #9 + #140 * EVar vlmMsq - #140 * EVar
   vlmMst2) * EPow P4 (EVar vMst2)) * EPow P6 (EVar vMst2) + EPow P4 (EVar vMsq) * (#4 * EPow P2 (EVar vMst2) * (#155
   - #1726 * EVar vlmMst2 + #270 * EVar vlmMsq * (- #5 + #6 * EVar vlmMst2) - #810 * EPow P2 (EVar vlmMsq) + #1536 *
   (- #2 + #3 * EVar vlmMst2) * EPow P2 (EVar vlmMst1) + #192 * EVar vlmMst1 * (#7 + #27 * EVar vlmMst2 - #48 * EPow
   P2 (EVar vlmMst2)) - #3600 * EPow P2 (EVar vlmMst2) + #4608 * EPow P3 (EVar vlmMst2)) * EPow P6 (EVar vMst1) + #768
   * (- #2 * EVar vlmMst1 * (#3 + #2 * EVar vlmMst2 + #16 * EPow P2 (EVar vlmMst2)) + EVar vlmMst2 * (#7 + #4 * EVar
   vlmMst2 + #16 * (EPow P2 (EVar vlmMst1) + EPow P2 (EVar vlmMst2)))) * EPow P8 (EVar vMst1)) + #2 * (#400 * (- #8 +
   #15 * EVar vlmMsq - #15 * EVar vlmMst2) * EPow P2 (EVar vMsq) * EPow P2 (EVar vMst1) - #384 * (- #2 + EVar vlmMst2
   + #5 * EPow P2 (EVar vlmMst2)) * EPow P4 (EVar vMsq) + #315 * (EVar vlmMst1 - EVar vlmMst2) * (#5 - #28 * EVar
   vlmMsq + #28 * EVar vlmMst2) * EPow P4 (EVar vMst1)) * EPow P8 (EVar vMst2)) + #12 * EVar vs2t * EPow P2 (EVar vMt)
   * (EPow P2 (EVar vMst1) * (EPow P2 (EVar vMst1) - EPow P2 (EVar vMst2)) * (#800 * (#8 - #15 * EVar vlmMsq + #15 *
   EVar vlmMst2) * EPow P2 (EVar vMsq) * EPow P6 (EVar vMst2) + #315 * (#5 - #28 * EVar vlmMsq + #28 * EVar vlmMst2) *
   EPow P8 (EVar vMst2)) - #4 * EPow P4 (EVar vMsq) * (- ((#2395 + #482 * EVar vlmMst2 + #270 * EVar vlmMsq * (- #5 +
   #6 * EVar vlmMst2) - #810 * EPow P2 (EVar vlmMsq) + #192 * (- #2 + #3 * EVar vlmMst2) * EPow P2 (EVar vlmMst1) +
   #192 * EVar vlmMst1 * (#3 + EVar vlmMst2 - #6 * EPow P2 (EVar vlmMst2)) - #1296 * EPow P2 (EVar vlmMst2) + #576 *
   EPow P3 (EVar vlmMst2)) * EPow P4 (EVar vMst1) * EPow P4 (EVar vMst2)) + #192 * EPow P2 (EVar vMst2) * ((#2 - #3 *
   EVar vlmMst2) * EPow P2 (EVar vlmMst1) + EVar vlmMst1 * (#8 - #2 * EVar vlmMst2 + #6 * EPow P2 (EVar vlmMst2)) - #3
   * (#6 + #5 * EVar vlmMst2 + EPow P3 (EVar vlmMst2))) * EPow P6 (EVar vMst1) + #3 * (#873 + #64 * EVar vlmMst1 * (#2
   - #3 * EVar vlmMst2) + #182 * EVar vlmMst2 + #90 * EVar vlmMsq * (- #5 + #6 * EVar vlmMst2) - #270 * EPow P2 (EVar
   vlmMsq) - #624 * EPow P2 (EVar vlmMst2)) * EPow P2 (EVar vMst1) * EPow P6 (EVar vMst2) - #384 * (- #6 - #14 * EVar
   vlmMst2 + EVar vlmMst2 * EPow P2 (EVar vlmMst1) + EVar vlmMst1 * (#9 + #6 * EVar vlmMst2 - #2 * EPow P2 (EVar
   vlmMst2)) - #6 * EPow P2 (EVar vlmMst2) + EPow P3 (EVar vlmMst2)) * EPow P8 (EVar vMst1) + #192 * (- #2 + EVar
   vlmMst2 + #5 * EPow P2 (EVar vlmMst2)) * EPow P8 (EVar vMst2)))))) / EPow P4 (EVar vMsq)) / (EVar vTbeta * EPow P2
   (EVar vMgl) * EPow P4 (EVar vMst1) * EPow P4 (EVar vMst2))) / #1296).

(** H6g2.cpp:4262-5124 *)
Definition H6g2_coef0 : expr :=
  EDec 4832548148148148 12 + #7949728 * EVar vDmglst2 / (#945 * EVar vMgl) + #448 * EConst COepS2 / #9 + #1792 * EVar
   vDmglst2 * EConst COepS2 / (#27 * EVar vMgl) - #7848 * EConst CS2 / #5 + #76464 * EVar vDmglst2 * EConst CS2 / (#35
   * EVar vMgl) - #3502 * EVar vMst2 * EVar vs2t / (#5 * EVar vMt) + #1322 * EVar vDmglst2 * EVar vMst2 * EVar vs2t /
   (#9 * EVar vMgl * EVar vMt) + #448 * EVar vMst2 * EConst COepS2 * EVar vs2t / (#9 * EVar vMt) - #2240 * EVar
   vDmglst2 * EVar vMst2 * EConst COepS2 * EVar vs2t / (#27 * EVar vMgl * EVar vMt) + #5688 * EVar vMst2 * EConst CS2
   * EVar vs2t / (#5 * EVar vMt) - #3240 * EVar vDmglst2 * EVar vMst2 * EConst CS2 * EVar vs2t / (EVar vMgl * EVar
   vMt) - #224 * EConst CT1ep / #3 - #896 * EVar vDmglst2 * EConst CT1ep / (#9 * EVar vMgl) - #224 * EVar vMst2 * EVar
   vs2t * EConst CT1ep / (#3 * EVar vMt) + #1120 * EVar vDmglst2 * EVar vMst2 * EVar vs2t * EConst CT1ep / (#9 * EVar
   vMgl * EVar vMt) + #217532 * EConst Cz2 / #45 - #1837456 * EVar vDmglst2 * EConst Cz2 / (#315 * EVar vMgl) -
   #346772 * EVar vMst2 * EVar vs2t * EConst Cz2 / (#45 * EVar vMt) + #8116 * EVar vDmglst2 * EVar vMst2 * EVar vs2t *
   EConst Cz2 / (#3 * EVar vMgl * EVar vMt) - #31216 * EConst Cz3 / #3 - #95176 * EVar vDmglst2 * EConst Cz3 / (#9 *
   EVar vMgl) + #15376 * EVar vMst2 * EVar vs2t * EConst Cz3 / (#3 * EVar vMt) + #5104 * EVar vDmglst2 * EVar vMst2 *
   EVar vs2t * EConst Cz3 / (EVar vMgl * EVar vMt) - #112 * EConst Cz4 / #3 - #448 * EVar vDmglst2 * EConst Cz4 / (#9
   * EVar vMgl) - #1648 * EVar vMst2 * EVar vs2t * EConst Cz4 / (#3 * EVar vMt) - #4048 * EVar vDmglst2 * EVar vMst2 *
   EVar vs2t * EConst Cz4 / (#9 * EVar vMgl * EVar vMt) + #89346044 * EPow P2 (EVar vDmglst2) / (#2025 * EPow P2 (EVar
   vMgl)) - #11648 * EConst COepS2 * EPow P2 (EVar vDmglst2) / (#81 * EPow P2 (EVar vMgl)) - #30952 * EConst CS2 *
   EPow P2 (EVar vDmglst2) / (#5 * EPow P2 (EVar vMgl)) - #73458722 * EVar vMst2 * EVar vs2t * EPow P2 (EVar vDmglst2)
   / (#2835 * EVar vMt * EPow P2 (EVar vMgl)) + #448 * EVar vMst2 * EConst COepS2 * EVar vs2t * EPow P2 (EVar
   vDmglst2) / (#81 * EVar vMt * EPow P2 (EVar vMgl)) + #74888 * EVar vMst2 * EConst CS2 * EVar vs2t * EPow P2 (EVar
   vDmglst2) / (#35 * EVar vMt * EPow P2 (EVar vMgl)) + #5824 * EConst CT1ep * EPow P2 (EVar vDmglst2) / (#27 * EPow
   P2 (EVar vMgl)) - #224 * EVar vMst2 * EVar vs2t * EConst CT1ep * EPow P2 (EVar vDmglst2) / (#27 * EVar vMt * EPow
   P2 (EVar vMgl)) + #153688 * EConst Cz2 * EPow P2 (EVar vDmglst2) / (#27 * EPow P2 (EVar vMgl)) + #2963804 * EVar
   vMst2 * EVar vs2t * EConst Cz2 * EPow P2 (EVar vDmglst2) / (#945 * EVar vMt * EPow P2 (EVar vMgl)) - #903692 *
   EConst Cz3 * EPow P2 (EVar vDmglst2) / (#27 * EPow P2 (EVar vMgl)) + #447616 * EVar vMst2 * EVar vs2t * EConst Cz3
   * EPow P2 (EVar vDmglst2) / (#27 * EVar vMt * EPow P2 (EVar vMgl)) + #2912 * EConst Cz4 * EPow P2 (EVar vDmglst2) /
   (#27 * EPow P2 (EVar vMgl)) - #13936 * EVar vMst2 * EVar vs2t * EConst Cz4 * EPow P2 (EVar vDmglst2) / (#27 * EVar
   vMt * EPow P2 (EVar vMgl)) + #160 * EPow P2 (EVar vMsq) / EPow P2 (EVar vMst1) - #320 * EConst Cz2 * EPow P2 (EVar
   vMsq) / EPow P2 (EVar vMst1) - #2117986 * EVar vs2t * EPow P2 (EVar vMst1) / (#405 * EVar vMst2 * EVar vMt) +
   #1357642 * EVar vDmglst2 * EVar vs2t * EPow P2 (EVar vMst1) / (#135 * EVar vMgl * EVar vMst2 * EVar vMt) + #24128 *
   EConst COepS2 * EVar vs2t * EPow P2 (EVar vMst1) / (#81 * EVar vMst2 * EVar vMt) - #29504 * EVar vDmglst2 * EConst
   COepS2 * EVar vs2t * EPow P2 (EVar vMst1) / (#27 * EVar vMgl * EVar vMst2 * EVar vMt) - #34936 * EConst CS2 * EVar
   vs2t * EPow P2 (EVar vMst1) / (#5 * EVar vMst2 * EVar vMt) + #125528 * EVar vDmglst2 * EConst CS2 * EVar vs2t *
   EPow P2 (EVar vMst1) / (#15 * EVar vMgl * EVar vMst2 * EVar vMt) - #12064 * EVar vs2t * EConst CT1ep * EPow P2
   (EVar vMst1) / (#27 * EVar vMst2 * EVar vMt) + #14752 * EVar vDmglst2 * EVar vs2t * EConst CT1ep * EPow P2 (EVar
   vMst1) / (#9 * EVar vMgl * EVar vMst2 * EVar vMt) - #1882628 * EVar vs2t * EConst Cz2 * EPow P2 (EVar vMst1) /
   (#135 * EVar vMst2 * EVar vMt) + #1752596 * EVar vDmglst2 * EVar vs2t * EConst Cz2 * EPow P2 (EVar vMst1) / (#45 *
   EVar vMgl * EVar vMst2 * EVar vMt) + #387632 * EVar vs2t * EConst Cz3 * EPow P2 (EVar vMst1) / (#27 * EVar vMst2 *
   EVar vMt) - #168176 * EVar vDmglst2 * EVar vs2t * EConst Cz3 * EPow P2 (EVar vMst1) / (#9 * EVar vMgl * EVar vMst2
   * EVar vMt) - #6032 * EVar vs2t * EConst Cz4 * EPow P2 (EVar vMst1) / (#27 * EVar vMst2 * EVar vMt) + #7376 * EVar
   vDmglst2 * EVar vs2t * EConst Cz4 * EPow P2 (EVar vMst1) / (#9 * EVar vMgl * EVar vMst2 * EVar vMt) - #181427002 *
   EVar vs2t * EPow P2 (EVar vDmglst2) * EPow P2 (EVar vMst1) / (#8505 * EVar vMst2 * EVar vMt * EPow P2 (EVar vMgl))
   + #275648 * EConst COepS2 * EVar vs2t * EPow P2 (EVar vDmglst2) * EPow P2 (EVar vMst1) / (#243 * EVar vMst2 * EVar
   vMt * EPow P2 (EVar vMgl)) + #6085624 * EConst CS2 * EVar vs2t * EPow P2 (EVar vDmglst2) * EPow P2 (EVar vMst1) /
   (#315 * EVar vMst2 * EVar vMt * EPow P2 (EVar vMgl)) - #137824 * EVar vs2t * EConst CT1ep * EPow P2 (EVar vDmglst2)
   * EPow P2 (EVar vMst1) / (#81 * EVar vMst2 * EVar vMt * EPow P2 (EVar vMgl)) - #84331796 * EVar vs2t * EConst Cz2 *
   EPow P2 (EVar vDmglst2) * EPow P2 (EVar vMst1) / (#2835 * EVar vMst2 * EVar vMt * EPow P2 (EVar vMgl)) + #545168 *
   EVar vs2t * EConst Cz3 * EPow P2 (EVar vDmglst2) * EPow P2 (EVar vMst1) / (#81 * EVar vMst2 * EVar vMt * EPow P2
   (EVar vMgl)) - #68912 * EVar vs2t * EConst Cz4 * EPow P2 (EVar vDmglst2) * EPow P2 (EVar vMst1) / (#81 * EVar vMst2
   * EVar vMt * EPow P2 (EVar vMgl)) + #359728 * EPow P2 (EVar vMst1) / (#675 * EPow P2 (EVar vMsq)) - #320 * EVar
   vDmglst2 * EPow P2 (EVar vMst1) / (#3 * EVar vMgl * EPow P2 (EVar vMsq)) - #15200 * EVar vMst2 * EVar vs2t * EPow
   P2 (EVar vMst1) / (#27 * EVar vMt * EPow P2 (EVar vMsq)) - #20960 * EVar vDmglst2 * EVar vMst2 * EVar vs2t * EPow
   P2 (EVar vMst1) / (#27 * EVar vMgl * EVar vMt * EPow P2 (EVar vMsq)) - #480 * EPow P2 (EVar vDmglst2) * EPow P2
   (EVar vMst1) / (EPow P2 (EVar vMgl) * EPow P2 (EVar vMsq)) - #800 * EVar vMst2 * EVar vs2t * EPow P2 (EVar
   vDmglst2) * EPow P2 (EVar vMst1) / (#27 * EVar vMt * EPow P2 (EVar vMgl) * EPow P2 (EVar vMsq)) + #160 * EPow P2
   (EVar vMsq) / EPow P2 (EVar vMst2) - #320 * EConst Cz2 * EPow P2 (EVar vMsq) / EPow P2 (EVar vMst2) + #13813838 *
   EPow P2 (EVar vMst1) / (#2025 * EPow P2 (EVar vMst2)) + #184384408 * EVar vDmglst2 * EPow P2 (EVar vMst1) / (#70875
   * EVar vMgl * EPow P2 (EVar vMst2)) + #13376 * EConst COepS2 * EPow P2 (EVar vMst1) / (#81 * EPow P2 (EVar vMst2))
   + #41216 * EVar vDmglst2 * EConst COepS2 * EPow P2 (EVar vMst1) / (#81 * EVar vMgl * EPow P2 (EVar vMst2)) - #33304
   * EConst CS2 * EPow P2 (EVar vMst1) / (#5 * EPow P2 (EVar vMst2)) - #42320 * EVar vDmglst2 * EConst CS2 * EPow P2
   (EVar vMst1) / (#21 * EVar vMgl * EPow P2 (EVar vMst2)) - #6688 * EConst CT1ep * EPow P2 (EVar vMst1) / (#27 * EPow
   P2 (EVar vMst2)) - #20608 * EVar vDmglst2 * EConst CT1ep * EPow P2 (EVar vMst1) / (#27 * EVar vMgl * EPow P2 (EVar
   vMst2)) + #1240156 * EConst Cz2 * EPow P2 (EVar vMst1) / (#135 * EPow P2 (EVar vMst2)) - #42483152 * EVar vDmglst2
   * EConst Cz2 * EPow P2 (EVar vMst1) / (#945 * EVar vMgl * EPow P2 (EVar vMst2)) - #552400 * EConst Cz3 * EPow P2
   (EVar vMst1) / (#27 * EPow P2 (EVar vMst2)) + #784832 * EVar vDmglst2 * EConst Cz3 * EPow P2 (EVar vMst1) / (#27 *
   EVar vMgl * EPow P2 (EVar vMst2)) - #3344 * EConst Cz4 * EPow P2 (EVar vMst1) / (#27 * EPow P2 (EVar vMst2)) -
   #10304 * EVar vDmglst2 * EConst Cz4 * EPow P2 (EVar vMst1) / (#27 * EVar vMgl * EPow P2 (EVar vMst2)) +
   #14329612148 * EPow P2 (EVar vDmglst2) * EPow P2 (EVar vMst1) / (#212625 * EPow P2 (EVar vMgl) * EPow P2 (EVar
   vMst2)) - #601984 * EConst COepS2 * EPow P2 (EVar vDmglst2) * EPow P2 (EVar vMst1) / (#243 * EPow P2 (EVar vMgl) *
   EPow P2 (EVar vMst2)) - #1030376 * EConst CS2 * EPow P2 (EVar vDmglst2) * EPow P2 (EVar vMst1) / (#315 * EPow P2
   (EVar vMgl) * EPow P2 (EVar vMst2)) + #300992 * EConst CT1ep * EPow P2 (EVar vDmglst2) * EPow P2 (EVar vMst1) /
   (#81 * EPow P2 (EVar vMgl) * EPow P2 (EVar vMst2)) + #50095352 * EConst Cz2 * EPow P2 (EVar vDmglst2) * EPow P2
   (EVar vMst1) / (#567 * EPow P2 (EVar vMgl) * EPow P2 (EVar vMst2)) - #5069344 * EConst Cz3 * EPow P2 (EVar
   vDmglst2) * EPow P2 (EVar vMst1) / (#81 * EPow P2 (EVar vMgl) * EPow P2 (EVar vMst2)) + #150496 * EConst Cz4 * EPow
   P2 (EVar vDmglst2) * EPow P2 (EVar vMst1) / (#81 * EPow P2 (EVar vMgl) * EPow P2 (EVar vMst2)) - #13936 * EPow P2
   (EVar vMst2) / (#25 * EPow P2 (EVar vMsq)) - #800 * EVar vDmglst2 * EPow P2 (EVar vMst2) / (#3 * EVar vMgl * EPow
   P2 (EVar vMsq)) + #1600 * EConst Cz2 * EPow P2 (EVar vMst2) / (#3 * EPow P2 (EVar vMsq)) + #640 * EVar vDmglst2 *
   EConst Cz2 * EPow P2 (EVar vMst2) / (EVar vMgl * EPow P2 (EVar vMsq)) - #32768 * EPow P2 (EVar vDmglst2) * EPow P2
   (EVar vMst2) / (#45 * EPow P2 (EVar vMgl) * EPow P2 (EVar vMsq)) + #960 * EConst Cz2 * EPow P2 (EVar vDmglst2) *
   EPow P2 (EVar vMst2) / (EPow P2 (EVar vMgl) * EPow P2 (EVar vMsq)) + #2216 * EPow P2 (EVar vMst2) / (#3 * EPow P2
   (EVar vMst1)) - #1296 * EVar vDmglst2 * EPow P2 (EVar vMst2) / (EVar vMgl * EPow P2 (EVar vMst1)) + #1568 * EConst
   Cz2 * EPow P2 (EVar vMst2) / (#3 * EPow P2 (EVar vMst1)) + #2944 * EVar vDmglst2 * EConst Cz2 * EPow P2 (EVar
   vMst2) / (#3 * EVar vMgl * EPow P2 (EVar vMst1)) - #8168 * EPow P2 (EVar vDmglst2) * EPow P2 (EVar vMst2) / (#3 *
   EPow P2 (EVar vMgl) * EPow P2 (EVar vMst1)) + #1536 * EConst Cz2 * EPow P2 (EVar vDmglst2) * EPow P2 (EVar vMst2) /
   (EPow P2 (EVar vMgl) * EPow P2 (EVar vMst1)) + #160 * EPow P2 (EVar vMsq) * EPow P2 (EVar vs2t) / EPow P2 (EVar
   vMt) - #320 * EConst Cz2 * EPow P2 (EVar vMsq) * EPow P2 (EVar vs2t) / EPow P2 (EVar vMt) + #4141616 * EPow P2
   (EVar vMst1) * EPow P2 (EVar vs2t) / (#2025 * EPow P2 (EVar vMt)) - #32 * EConst CD3 * EPow P2 (EVar vMst1) * EPow
   P2 (EVar vs2t) / (#3 * EPow P2 (EVar vMt)) + #32 * EConst CDN * EPow P2 (EVar vMst1) * EPow P2 (EVar vs2t) / (#3 *
   EPow P2 (EVar vMt)) + #19333928 * EVar vDmglst2 * EPow P2 (EVar vMst1) * EPow P2 (EVar vs2t) / (#10125 * EVar vMgl
   * EPow P2 (EVar vMt)) - #20608 * EConst COepS2 * EPow P2 (EVar vMst1) * EPow P2 (EVar vs2t) / (#81 * EPow P2 (EVar
   vMt)) + #6400 * EVar vDmglst2 * EConst COepS2 * EPow P2 (EVar vMst1) * EPow P2 (EVar vs2t) / (#27 * EVar vMgl *
   EPow P2 (EVar vMt)) + #38264 * EConst CS2 * EPow P2 (EVar vMst1) * EPow P2 (EVar vs2t) / (#5 * EPow P2 (EVar vMt))
   - #2976 * EVar vDmglst2 * EConst CS2 * EPow P2 (EVar vMst1) * EPow P2 (EVar vs2t) / (#5 * EVar vMgl * EPow P2 (EVar
   vMt)) + #10304 * EConst CT1ep * EPow P2 (EVar vMst1) * EPow P2 (EVar vs2t) / (#27 * EPow P2 (EVar vMt)) - #3200 *
   EVar vDmglst2 * EConst CT1ep * EPow P2 (EVar vMst1) * EPow P2 (EVar vs2t) / (#9 * EVar vMgl * EPow P2 (EVar vMt)) +
   #591448 * EConst Cz2 * EPow P2 (EVar vMst1) * EPow P2 (EVar vs2t) / (#135 * EPow P2 (EVar vMt)) - #17600 * EVar
   vDmglst2 * EConst Cz2 * EPow P2 (EVar vMst1) * EPow P2 (EVar vs2t) / (#3 * EVar vMgl * EPow P2 (EVar vMt)) - #15040
   * EConst Cz3 * EPow P2 (EVar vMst1) * EPow P2 (EVar vs2t) / (#27 * EPow P2 (EVar vMt)) - #3952 * EVar vDmglst2 *
   EConst Cz3 * EPow P2 (EVar vMst1) * EPow P2 (EVar vs2t) / (#3 * EVar vMgl * EPow P2 (EVar vMt)) + #3424 * EConst
   Cz4 * EPow P2 (EVar vMst1) * EPow P2 (EVar vs2t) / (#27 * EPow P2 (EVar vMt)) - #1600 * EVar vDmglst2 * EConst Cz4
   * EPow P2 (EVar vMst1) * EPow P2 (EVar vs2t) / (#9 * EVar vMgl * EPow P2 (EVar vMt)) + #281425742 * EPow P2 (EVar
   vDmglst2) * EPow P2 (EVar vMst1) * EPow P2 (EVar vs2t) / (#70875 * EPow P2 (EVar vMgl) * EPow P2 (EVar vMt)) +
   #12736 * EConst COepS2 * EPow P2 (EVar vDmglst2) * EPow P2 (EVar vMst1) * EPow P2 (EVar vs2t) / (#27 * EPow P2
   (EVar vMgl) * EPow P2 (EVar vMt)) - #339064 * EConst CS2 * EPow P2 (EVar vDmglst2) * EPow P2 (EVar vMst1) * EPow P2
   (EVar vs2t) / (#35 * EPow P2 (EVar vMgl) * EPow P2 (EVar vMt)) - #6368 * EConst CT1ep * EPow P2 (EVar vDmglst2) *
   EPow P2 (EVar vMst1) * EPow P2 (EVar vs2t) / (#9 * EPow P2 (EVar vMgl) * EPow P2 (EVar vMt)) - #1010572 * EConst
   Cz2 * EPow P2 (EVar vDmglst2) * EPow P2 (EVar vMst1) * EPow P2 (EVar vs2t) / (#63 * EPow P2 (EVar vMgl) * EPow P2
   (EVar vMt)) + #18250 * EConst Cz3 * EPow P2 (EVar vDmglst2) * EPow P2 (EVar vMst1) * EPow P2 (EVar vs2t) / (#9 *
   EPow P2 (EVar vMgl) * EPow P2 (EVar vMt)) - #3184 * EConst Cz4 * EPow P2 (EVar vDmglst2) * EPow P2 (EVar vMst1) *
   EPow P2 (EVar vs2t) / (#9 * EPow P2 (EVar vMgl) * EPow P2 (EVar vMt)) - #80 * EPow P2 (EVar vMsq) * EPow P2 (EVar
   vMst1) * EPow P2 (EVar vs2t) / (EPow P2 (EVar vMst2) * EPow P2 (EVar vMt)) + #160 * EConst Cz2 * EPow P2 (EVar
   vMsq) * EPow P2 (EVar vMst1) * EPow P2 (EVar vs2t) / (EPow P2 (EVar vMst2) * EPow P2 (EVar vMt)) + #818213 * EPow
   P2 (EVar vMst2) * EPow P2 (EVar vs2t) / (#270 * EPow P2 (EVar vMt)) + #32 * EConst CD3 * EPow P2 (EVar vMst2) *
   EPow P2 (EVar vs2t) / (#3 * EPow P2 (EVar vMt)) - #32 * EConst CDN * EPow P2 (EVar vMst2) * EPow P2 (EVar vs2t) /
   (#3 * EPow P2 (EVar vMt)) + #226984 * EVar vDmglst2 * EPow P2 (EVar vMst2) * EPow P2 (EVar vs2t) / (#45 * EVar vMgl
   * EPow P2 (EVar vMt)) - #128 * EConst CB4 * EVar vDmglst2 * EPow P2 (EVar vMst2) * EPow P2 (EVar vs2t) / (#3 * EVar
   vMgl * EPow P2 (EVar vMt)) + #128 * EConst CD3 * EVar vDmglst2 * EPow P2 (EVar vMst2) * EPow P2 (EVar vs2t) / (#3 *
   EVar vMgl * EPow P2 (EVar vMt)) - #64 * EVar vDmglst2 * EConst CDN * EPow P2 (EVar vMst2) * EPow P2 (EVar vs2t) /
   (#3 * EVar vMgl * EPow P2 (EVar vMt)) - #368 * EConst COepS2 * EPow P2 (EVar vMst2) * EPow P2 (EVar vs2t) / (#9 *
   EPow P2 (EVar vMt)) - #16038 * EConst CS2 * EPow P2 (EVar vMst2) * EPow P2 (EVar vs2t) / (#5 * EPow P2 (EVar vMt))
   - #30384 * EVar vDmglst2 * EConst CS2 * EPow P2 (EVar vMst2) * EPow P2 (EVar vs2t) / (#5 * EVar vMgl * EPow P2
   (EVar vMt)) + #184 * EConst CT1ep * EPow P2 (EVar vMst2) * EPow P2 (EVar vs2t) / (#3 * EPow P2 (EVar vMt)) - #17923
   * EConst Cz2 * EPow P2 (EVar vMst2) * EPow P2 (EVar vs2t) / (#45 * EPow P2 (EVar vMt)) - #55984 * EVar vDmglst2 *
   EConst Cz2 * EPow P2 (EVar vMst2) * EPow P2 (EVar vs2t) / (#45 * EVar vMgl * EPow P2 (EVar vMt)) + #3244 * EConst
   Cz3 * EPow P2 (EVar vMst2) * EPow P2 (EVar vs2t) / (#3 * EPow P2 (EVar vMt)) - #7024 * EVar vDmglst2 * EConst Cz3 *
   EPow P2 (EVar vMst2) * EPow P2 (EVar vs2t) / (#9 * EVar vMgl * EPow P2 (EVar vMt)) + #284 * EConst Cz4 * EPow P2
   (EVar vMst2) * EPow P2 (EVar vs2t) / (#3 * EPow P2 (EVar vMt)) + #192 * EVar vDmglst2 * EConst Cz4 * EPow P2 (EVar
   vMst2) * EPow P2 (EVar vs2t) / (EVar vMgl * EPow P2 (EVar vMt)) + #1798498 * EPow P2 (EVar vDmglst2) * EPow P2
   (EVar vMst2) * EPow P2 (EVar vs2t) / (#105 * EPow P2 (EVar vMgl) * EPow P2 (EVar vMt)) - #64 * EConst CB4 * EPow P2
   (EVar vDmglst2) * EPow P2 (EVar vMst2) * EPow P2 (EVar vs2t) / (EPow P2 (EVar vMgl) * EPow P2 (EVar vMt)) + #64 *
   EConst CD3 * EPow P2 (EVar vDmglst2) * EPow P2 (EVar vMst2) * EPow P2 (EVar vs2t) / (EPow P2 (EVar vMgl) * EPow P2
   (EVar vMt)) - #32 * EConst CDN * EPow P2 (EVar vDmglst2) * EPow P2 (EVar vMst2) * EPow P2 (EVar vs2t) / (EPow P2
   (EVar vMgl) * EPow P2 (EVar vMt)) + #448 * EConst COepS2 * EPow P2 (EVar vDmglst2) * EPow P2 (EVar vMst2) * EPow P2
   (EVar vs2t) / (#9 * EPow P2 (EVar vMgl) * EPow P2 (EVar vMt)) - #250344 * EConst CS2 * EPow P2 (EVar vDmglst2) *
   EPow P2 (EVar vMst2) * EPow P2 (EVar vs2t) / (#35 * EPow P2 (EVar vMgl) * EPow P2 (EVar vMt)) - #224 * EConst CT1ep
   * EPow P2 (EVar vDmglst2) * EPow P2 (EVar vMst2) * EPow P2 (EVar vs2t) / (#3 * EPow P2 (EVar vMgl) * EPow P2 (EVar
   vMt)) - #215708 * EConst Cz2 * EPow P2 (EVar vDmglst2) * EPow P2 (EVar vMst2) * EPow P2 (EVar vs2t) / (#105 * EPow
   P2 (EVar vMgl) * EPow P2 (EVar vMt)) - #39406 * EConst Cz3 * EPow P2 (EVar vDmglst2) * EPow P2 (EVar vMst2) * EPow
   P2 (EVar vs2t) / (#3 * EPow P2 (EVar vMgl) * EPow P2 (EVar vMt)) + #752 * EConst Cz4 * EPow P2 (EVar vDmglst2) *
   EPow P2 (EVar vMst2) * EPow P2 (EVar vs2t) / (#3 * EPow P2 (EVar vMgl) * EPow P2 (EVar vMt)) - #80 * EPow P2 (EVar
   vMsq) * EPow P2 (EVar vMst2) * EPow P2 (EVar vs2t) / (EPow P2 (EVar vMst1) * EPow P2 (EVar vMt)) + #160 * EConst
   Cz2 * EPow P2 (EVar vMsq) * EPow P2 (EVar vMst2) * EPow P2 (EVar vs2t) / (EPow P2 (EVar vMst1) * EPow P2 (EVar
   vMt)) - #24728 * EPow P2 (EVar vMst1) * EPow P2 (EVar vMst2) * EPow P2 (EVar vs2t) / (#675 * EPow P2 (EVar vMsq) *
   EPow P2 (EVar vMt)) + #400 * EVar vDmglst2 * EPow P2 (EVar vMst1) * EPow P2 (EVar vMst2) * EPow P2 (EVar vs2t) /
   (EVar vMgl * EPow P2 (EVar vMsq) * EPow P2 (EVar vMt)) + #1960 * EPow P2 (EVar vDmglst2) * EPow P2 (EVar vMst1) *
   EPow P2 (EVar vMst2) * EPow P2 (EVar vs2t) / (#3 * EPow P2 (EVar vMgl) * EPow P2 (EVar vMsq) * EPow P2 (EVar vMt))
   - #56 * EPow P2 (EConst Cz2) - #224 * EVar vDmglst2 * EPow P2 (EConst Cz2) / (#3 * EVar vMgl) - #56 * EVar vMst2 *
   EVar vs2t * EPow P2 (EConst Cz2) / EVar vMt + #280 * EVar vDmglst2 * EVar vMst2 * EVar vs2t * EPow P2 (EConst Cz2)
   / (#3 * EVar vMgl * EVar vMt) + #1456 * EPow P2 (EVar vDmglst2) * EPow P2 (EConst Cz2) / (#9 * EPow P2 (EVar vMgl))
   - #56 * EVar vMst2 * EVar vs2t * EPow P2 (EVar vDmglst2) * EPow P2 (EConst Cz2) / (#9 * EVar vMt * EPow P2 (EVar
   vMgl)) - #3016 * EVar vs2t * EPow P2 (EVar vMst1) * EPow P2 (EConst Cz2) / (#9 * EVar vMst2 * EVar vMt) + #3688 *
   EVar vDmglst2 * EVar vs2t * EPow P2 (EVar vMst1) * EPow P2 (EConst Cz2) / (#3 * EVar vMgl * EVar vMst2 * EVar vMt)
   - #34456 * EVar vs2t * EPow P2 (EVar vDmglst2) * EPow P2 (EVar vMst1) * EPow P2 (EConst Cz2) / (#27 * EVar vMst2 *
   EVar vMt * EPow P2 (EVar vMgl)) - #1672 * EPow P2 (EVar vMst1) * EPow P2 (EConst Cz2) / (#9 * EPow P2 (EVar vMst2))
   - #5152 * EVar vDmglst2 * EPow P2 (EVar vMst1) * EPow P2 (EConst Cz2) / (#9 * EVar vMgl * EPow P2 (EVar vMst2)) +
   #75248 * EPow P2 (EVar vDmglst2) * EPow P2 (EVar vMst1) * EPow P2 (EConst Cz2) / (#27 * EPow P2 (EVar vMgl) * EPow
   P2 (EVar vMst2)) + #2576 * EPow P2 (EVar vMst1) * EPow P2 (EVar vs2t) * EPow P2 (EConst Cz2) / (#9 * EPow P2 (EVar
   vMt)) - #800 * EVar vDmglst2 * EPow P2 (EVar vMst1) * EPow P2 (EVar vs2t) * EPow P2 (EConst Cz2) / (#3 * EVar vMgl
   * EPow P2 (EVar vMt)) - #1592 * EPow P2 (EVar vDmglst2) * EPow P2 (EVar vMst1) * EPow P2 (EVar vs2t) * EPow P2
   (EConst Cz2) / (#3 * EPow P2 (EVar vMgl) * EPow P2 (EVar vMt)) + #46 * EPow P2 (EVar vMst2) * EPow P2 (EVar vs2t) *
   EPow P2 (EConst Cz2) / EPow P2 (EVar vMt) - #56 * EPow P2 (EVar vDmglst2) * EPow P2 (EVar vMst2) * EPow P2 (EVar
   vs2t) * EPow P2 (EConst Cz2) / (EPow P2 (EVar vMgl) * EPow P2 (EVar vMt)) - #38080 * EVar vs2t * EPow P3 (EVar
   vMst2) / (#27 * EVar vMt * EPow P2 (EVar vMsq)) - #40000 * EVar vDmglst2 * EVar vs2t * EPow P3 (EVar vMst2) / (#9 *
   EVar vMgl * EVar vMt * EPow P2 (EVar vMsq)) + #1280 * EVar vs2t * EConst Cz2 * EPow P3 (EVar vMst2) / (EVar vMt *
   EPow P2 (EVar vMsq)) + #8960 * EVar vDmglst2 * EVar vs2t * EConst Cz2 * EPow P3 (EVar vMst2) / (#3 * EVar vMgl *
   EVar vMt * EPow P2 (EVar vMsq)) - #82880 * EVar vs2t * EPow P2 (EVar vDmglst2) * EPow P3 (EVar vMst2) / (#9 * EVar
   vMt * EPow P2 (EVar vMgl) * EPow P2 (EVar vMsq)) + #16640 * EVar vs2t * EConst Cz2 * EPow P2 (EVar vDmglst2) * EPow
   P3 (EVar vMst2) / (#3 * EVar vMt * EPow P2 (EVar vMgl) * EPow P2 (EVar vMsq)) - #1024 * EVar vs2t * EPow P3 (EVar
   vMst2) / (#3 * EVar vMt * EPow P2 (EVar vMst1)) + #1024 * EVar vDmglst2 * EVar vs2t * EPow P3 (EVar vMst2) / (#3 *
   EVar vMgl * EVar vMt * EPow P2 (EVar vMst1)) + #4096 * EVar vs2t * EPow P2 (EVar vDmglst2) * EPow P3 (EVar vMst2) /
   (#3 * EVar vMt * EPow P2 (EVar vMgl) * EPow P2 (EVar vMst1)) + #18641 * EVar vMst2 * EPow P2 (EVar vMst1) * EPow P3
   (EVar vs2t) / (#81 * EPow P3 (EVar vMt)) + #272 * EConst CB4 * EVar vMst2 * EPow P2 (EVar vMst1) * EPow P3 (EVar
   vs2t) / (#3 * EPow P3 (EVar vMt)) + #8 * EConst CDN * EVar vMst2 * EPow P2 (EVar vMst1) * EPow P3 (EVar vs2t) / (#3
   * EPow P3 (EVar vMt)) - #231989 * EVar vDmglst2 * EVar vMst2 * EPow P2 (EVar vMst1) * EPow P3 (EVar vs2t) / (#405 *
   EVar vMgl * EPow P3 (EVar vMt)) + #272 * EConst CB4 * EVar vDmglst2 * EVar vMst2 * EPow P2 (EVar vMst1) * EPow P3
   (EVar vs2t) / (#3 * EVar vMgl * EPow P3 (EVar vMt)) + #8 * EVar vDmglst2 * EConst CDN * EVar vMst2 * EPow P2 (EVar
   vMst1) * EPow P3 (EVar vs2t) / (#3 * EVar vMgl * EPow P3 (EVar vMt)) - #2336 * EVar vMst2 * EConst COepS2 * EPow P2
   (EVar vMst1) * EPow P3 (EVar vs2t) / (#81 * EPow P3 (EVar vMt)) + #12832 * EVar vDmglst2 * EVar vMst2 * EConst
   COepS2 * EPow P2 (EVar vMst1) * EPow P3 (EVar vs2t) / (#81 * EVar vMgl * EPow P3 (EVar vMt)) + #1388 * EVar vMst2 *
   EConst CS2 * EPow P2 (EVar vMst1) * EPow P3 (EVar vs2t) / EPow P3 (EVar vMt) - #56132 * EVar vDmglst2 * EVar vMst2
   * EConst CS2 * EPow P2 (EVar vMst1) * EPow P3 (EVar vs2t) / (#15 * EVar vMgl * EPow P3 (EVar vMt)) + #1168 * EVar
   vMst2 * EConst CT1ep * EPow P2 (EVar vMst1) * EPow P3 (EVar vs2t) / (#27 * EPow P3 (EVar vMt)) - #6416 * EVar
   vDmglst2 * EVar vMst2 * EConst CT1ep * EPow P2 (EVar vMst1) * EPow P3 (EVar vs2t) / (#27 * EVar vMgl * EPow P3
   (EVar vMt)) + #15826 * EVar vMst2 * EConst Cz2 * EPow P2 (EVar vMst1) * EPow P3 (EVar vs2t) / (#27 * EPow P3 (EVar
   vMt)) - #467482 * EVar vDmglst2 * EVar vMst2 * EConst Cz2 * EPow P2 (EVar vMst1) * EPow P3 (EVar vs2t) / (#135 *
   EVar vMgl * EPow P3 (EVar vMt)) - #34712 * EVar vMst2 * EConst Cz3 * EPow P2 (EVar vMst1) * EPow P3 (EVar vs2t) /
   (#27 * EPow P3 (EVar vMt)) + #25000 * EVar vDmglst2 * EVar vMst2 * EConst Cz3 * EPow P2 (EVar vMst1) * EPow P3
   (EVar vs2t) / (#27 * EVar vMgl * EPow P3 (EVar vMt)) + #2960 * EVar vMst2 * EConst Cz4 * EPow P2 (EVar vMst1) *
   EPow P3 (EVar vs2t) / (#27 * EPow P3 (EVar vMt)) - #832 * EVar vDmglst2 * EVar vMst2 * EConst Cz4 * EPow P2 (EVar
   vMst1) * EPow P3 (EVar vs2t) / (#27 * EVar vMgl * EPow P3 (EVar vMt)) + #1711970 * EVar vMst2 * EPow P2 (EVar
   vDmglst2) * EPow P2 (EVar vMst1) * EPow P3 (EVar vs2t) / (#243 * EPow P2 (EVar vMgl) * EPow P3 (EVar vMt)) + #272 *
   EConst CB4 * EVar vMst2 * EPow P2 (EVar vDmglst2) * EPow P2 (EVar vMst1) * EPow P3 (EVar vs2t) / (#3 * EPow P2
   (EVar vMgl) * EPow P3 (EVar vMt)) + #8 * EConst CDN * EVar vMst2 * EPow P2 (EVar vDmglst2) * EPow P2 (EVar vMst1) *
   EPow P3 (EVar vs2t) / (#3 * EPow P2 (EVar vMgl) * EPow P3 (EVar vMt)) - #49088 * EVar vMst2 * EConst COepS2 * EPow
   P2 (EVar vDmglst2) * EPow P2 (EVar vMst1) * EPow P3 (EVar vs2t) / (#243 * EPow P2 (EVar vMgl) * EPow P3 (EVar vMt))
   - #6656 * EVar vMst2 * EConst CS2 * EPow P2 (EVar vDmglst2) * EPow P2 (EVar vMst1) * EPow P3 (EVar vs2t) / (#9 *
   EPow P2 (EVar vMgl) * EPow P3 (EVar vMt)) + #24544 * EVar vMst2 * EConst CT1ep * EPow P2 (EVar vDmglst2) * EPow P2
   (EVar vMst1) * EPow P3 (EVar vs2t) / (#81 * EPow P2 (EVar vMgl) * EPow P3 (EVar vMt)) + #306340 * EVar vMst2 *
   EConst Cz2 * EPow P2 (EVar vDmglst2) * EPow P2 (EVar vMst1) * EPow P3 (EVar vs2t) / (#81 * EPow P2 (EVar vMgl) *
   EPow P3 (EVar vMt)) - #280520 * EVar vMst2 * EConst Cz3 * EPow P2 (EVar vDmglst2) * EPow P2 (EVar vMst1) * EPow P3
   (EVar vs2t) / (#81 * EPow P2 (EVar vMgl) * EPow P3 (EVar vMt)) + #19400 * EVar vMst2 * EConst Cz4 * EPow P2 (EVar
   vDmglst2) * EPow P2 (EVar vMst1) * EPow P3 (EVar vs2t) / (#81 * EPow P2 (EVar vMgl) * EPow P3 (EVar vMt)) + #292 *
   EVar vMst2 * EPow P2 (EVar vMst1) * EPow P2 (EConst Cz2) * EPow P3 (EVar vs2t) / (#9 * EPow P3 (EVar vMt)) - #1604
   * EVar vDmglst2 * EVar vMst2 * EPow P2 (EVar vMst1) * EPow P2 (EConst Cz2) * EPow P3 (EVar vs2t) / (#9 * EVar vMgl
   * EPow P3 (EVar vMt)) + #6136 * EVar vMst2 * EPow P2 (EVar vDmglst2) * EPow P2 (EVar vMst1) * EPow P2 (EConst Cz2)
   * EPow P3 (EVar vs2t) / (#27 * EPow P2 (EVar vMgl) * EPow P3 (EVar vMt)) + #17177 * EPow P3 (EVar vMst2) * EPow P3
   (EVar vs2t) / (#6 * EPow P3 (EVar vMt)) + #880 * EConst CB4 * EPow P3 (EVar vMst2) * EPow P3 (EVar vs2t) / (#3 *
   EPow P3 (EVar vMt)) - #8 * EConst CDN * EPow P3 (EVar vMst2) * EPow P3 (EVar vs2t) / (#3 * EPow P3 (EVar vMt)) +
   #825997 * EVar vDmglst2 * EPow P3 (EVar vMst2) * EPow P3 (EVar vs2t) / (#270 * EVar vMgl * EPow P3 (EVar vMt)) +
   #2096 * EConst CB4 * EVar vDmglst2 * EPow P3 (EVar vMst2) * EPow P3 (EVar vs2t) / (#3 * EVar vMgl * EPow P3 (EVar
   vMt)) - #40 * EVar vDmglst2 * EConst CDN * EPow P3 (EVar vMst2) * EPow P3 (EVar vs2t) / (#3 * EVar vMgl * EPow P3
   (EVar vMt)) - #112 * EConst COepS2 * EPow P3 (EVar vMst2) * EPow P3 (EVar vs2t) / (#9 * EPow P3 (EVar vMt)) + #560
   * EVar vDmglst2 * EConst COepS2 * EPow P3 (EVar vMst2) * EPow P3 (EVar vs2t) / (#27 * EVar vMgl * EPow P3 (EVar
   vMt)) - #18 * EConst CS2 * EPow P3 (EVar vMst2) * EPow P3 (EVar vs2t) / EPow P3 (EVar vMt) + #2718 * EVar vDmglst2
   * EConst CS2 * EPow P3 (EVar vMst2) * EPow P3 (EVar vs2t) / (#5 * EVar vMgl * EPow P3 (EVar vMt)) + #56 * EConst
   CT1ep * EPow P3 (EVar vMst2) * EPow P3 (EVar vs2t) / (#3 * EPow P3 (EVar vMt)) - #280 * EVar vDmglst2 * EConst
   CT1ep * EPow P3 (EVar vMst2) * EPow P3 (EVar vs2t) / (#9 * EVar vMgl * EPow P3 (EVar vMt)) - #3469 * EConst Cz2 *
   EPow P3 (EVar vMst2) * EPow P3 (EVar vs2t) / (#3 * EPow P3 (EVar vMt)) - #278347 * EVar vDmglst2 * EConst Cz2 *
   EPow P3 (EVar vMst2) * EPow P3 (EVar vs2t) / (#45 * EVar vMgl * EPow P3 (EVar vMt)) + #20980 * EConst Cz3 * EPow P3
   (EVar vMst2) * EPow P3 (EVar vs2t) / (#9 * EPow P3 (EVar vMt)) + #74948 * EVar vDmglst2 * EConst Cz3 * EPow P3
   (EVar vMst2) * EPow P3 (EVar vs2t) / (#9 * EVar vMgl * EPow P3 (EVar vMt)) + #340 * EConst Cz4 * EPow P3 (EVar
   vMst2) * EPow P3 (EVar vs2t) / (#3 * EPow P3 (EVar vMt)) + #1084 * EVar vDmglst2 * EConst Cz4 * EPow P3 (EVar
   vMst2) * EPow P3 (EVar vs2t) / (#9 * EVar vMgl * EPow P3 (EVar vMt)) + #986407 * EPow P2 (EVar vDmglst2) * EPow P3
   (EVar vMst2) * EPow P3 (EVar vs2t) / (#810 * EPow P2 (EVar vMgl) * EPow P3 (EVar vMt)) + #3920 * EConst CB4 * EPow
   P2 (EVar vDmglst2) * EPow P3 (EVar vMst2) * EPow P3 (EVar vs2t) / (#3 * EPow P2 (EVar vMgl) * EPow P3 (EVar vMt)) -
   #88 * EConst CDN * EPow P2 (EVar vDmglst2) * EPow P3 (EVar vMst2) * EPow P3 (EVar vs2t) / (#3 * EPow P2 (EVar vMgl)
   * EPow P3 (EVar vMt)) - #112 * EConst COepS2 * EPow P2 (EVar vDmglst2) * EPow P3 (EVar vMst2) * EPow P3 (EVar vs2t)
   / (#81 * EPow P2 (EVar vMgl) * EPow P3 (EVar vMt)) - #2774 * EConst CS2 * EPow P2 (EVar vDmglst2) * EPow P3 (EVar
   vMst2) * EPow P3 (EVar vs2t) / (#5 * EPow P2 (EVar vMgl) * EPow P3 (EVar vMt)) + #56 * EConst CT1ep * EPow P2 (EVar
   vDmglst2) * EPow P3 (EVar vMst2) * EPow P3 (EVar vs2t) / (#27 * EPow P2 (EVar vMgl) * EPow P3 (EVar vMt)) -
   #1340537 * EConst Cz2 * EPow P2 (EVar vDmglst2) * EPow P3 (EVar vMst2) * EPow P3 (EVar vs2t) / (#135 * EPow P2
   (EVar vMgl) * EPow P3 (EVar vMt)) + #512948 * EConst Cz3 * EPow P2 (EVar vDmglst2) * EPow P3 (EVar vMst2) * EPow P3
   (EVar vs2t) / (#27 * EPow P2 (EVar vMgl) * EPow P3 (EVar vMt)) + #4996 * EConst Cz4 * EPow P2 (EVar vDmglst2) *
   EPow P3 (EVar vMst2) * EPow P3 (EVar vs2t) / (#27 * EPow P2 (EVar vMgl) * EPow P3 (EVar vMt)) + #4000 * EPow P2
   (EVar vMst1) * EPow P3 (EVar vMst2) * EPow P3 (EVar vs2t) / (#9 * EPow P2 (EVar vMsq) * EPow P3 (EVar vMt)) + #960
   * EVar vDmglst2 * EPow P2 (EVar vMst1) * EPow P3 (EVar vMst2) * EPow P3 (EVar vs2t) / (EVar vMgl * EPow P2 (EVar
   vMsq) * EPow P3 (EVar vMt)) - #320 * EConst Cz2 * EPow P2 (EVar vMst1) * EPow P3 (EVar vMst2) * EPow P3 (EVar vs2t)
   / (#3 * EPow P2 (EVar vMsq) * EPow P3 (EVar vMt)) - #320 * EVar vDmglst2 * EConst Cz2 * EPow P2 (EVar vMst1) * EPow
   P3 (EVar vMst2) * EPow P3 (EVar vs2t) / (EVar vMgl * EPow P2 (EVar vMsq) * EPow P3 (EVar vMt)) + #11440 * EPow P2
   (EVar vDmglst2) * EPow P2 (EVar vMst1) * EPow P3 (EVar vMst2) * EPow P3 (EVar vs2t) / (#9 * EPow P2 (EVar vMgl) *
   EPow P2 (EVar vMsq) * EPow P3 (EVar vMt)) - #640 * EConst Cz2 * EPow P2 (EVar vDmglst2) * EPow P2 (EVar vMst1) *
   EPow P3 (EVar vMst2) * EPow P3 (EVar vs2t) / (EPow P2 (EVar vMgl) * EPow P2 (EVar vMsq) * EPow P3 (EVar vMt)) -
   #370 * EPow P2 (EConst Cz2) * EPow P3 (EVar vMst2) * EPow P3 (EVar vs2t) / EPow P3 (EVar vMt) - #3526 * EVar
   vDmglst2 * EPow P2 (EConst Cz2) * EPow P3 (EVar vMst2) * EPow P3 (EVar vs2t) / (#3 * EVar vMgl * EPow P3 (EVar
   vMt)) - #20722 * EPow P2 (EVar vDmglst2) * EPow P2 (EConst Cz2) * EPow P3 (EVar vMst2) * EPow P3 (EVar vs2t) / (#9
   * EPow P2 (EVar vMgl) * EPow P3 (EVar vMt)) + #160 * EPow P3 (ELog (EPow P2 (EVar vMst1) / EPow P2 (EVar vMsq))) /
   #3 + #100 * EPow P2 (EVar vMst1) * EPow P2 (EVar vMst2) / (#9 * EPow P4 (EVar vMsq)) + #3320 * EVar vDmglst2 * EPow
   P2 (EVar vMst1) * EPow P2 (EVar vMst2) / (#9 * EVar vMgl * EPow P4 (EVar vMsq)) + #580 * EPow P2 (EVar vDmglst2) *
   EPow P2 (EVar vMst1) * EPow P2 (EVar vMst2) / (EPow P2 (EVar vMgl) * EPow P4 (EVar vMsq)) - #400 * EVar vs2t * EPow
   P2 (EVar vMst1) * EPow P3 (EVar vMst2) / (#27 * EVar vMt * EPow P4 (EVar vMsq)) - #3280 * EVar vDmglst2 * EVar vs2t
   * EPow P2 (EVar vMst1) * EPow P3 (EVar vMst2) / (#9 * EVar vMgl * EVar vMt * EPow P4 (EVar vMsq)) - #7040 * EVar
   vs2t * EPow P2 (EVar vDmglst2) * EPow P2 (EVar vMst1) * EPow P3 (EVar vMst2) / (#9 * EVar vMt * EPow P2 (EVar vMgl)
   * EPow P4 (EVar vMsq)) - #2240 * EVar vs2t * EPow P4 (EVar vMst1) / (#3 * EVar vMst2 * EVar vMt * EPow P2 (EVar
   vMsq)) + #1600 * EVar vDmglst2 * EVar vs2t * EPow P4 (EVar vMst1) / (EVar vMgl * EVar vMst2 * EVar vMt * EPow P2
   (EVar vMsq)) + #1600 * EVar vs2t * EPow P2 (EVar vDmglst2) * EPow P4 (EVar vMst1) / (EVar vMst2 * EVar vMt * EPow
   P2 (EVar vMgl) * EPow P2 (EVar vMsq)) + #1040 * EPow P4 (EVar vMst1) / (EPow P2 (EVar vMsq) * EPow P2 (EVar vMst2))
   - #4640 * EVar vDmglst2 * EPow P4 (EVar vMst1) / (EVar vMgl * EPow P2 (EVar vMsq) * EPow P2 (EVar vMst2)) + #320 *
   EConst Cz2 * EPow P4 (EVar vMst1) / (EPow P2 (EVar vMsq) * EPow P2 (EVar vMst2)) - #640 * EVar vDmglst2 * EConst
   Cz2 * EPow P4 (EVar vMst1) / (EVar vMgl * EPow P2 (EVar vMsq) * EPow P2 (EVar vMst2)) - #4640 * EPow P2 (EVar
   vDmglst2) * EPow P4 (EVar vMst1) / (EPow P2 (EVar vMgl) * EPow P2 (EVar vMsq) * EPow P2 (EVar vMst2)) - #640 *
   EConst Cz2 * EPow P2 (EVar vDmglst2) * EPow P4 (EVar vMst1) / (EPow P2 (EVar vMgl) * EPow P2 (EVar vMsq) * EPow P2
   (EVar vMst2)) + #40864 * EPow P2 (EVar vs2t) * EPow P4 (EVar vMst1) / (#675 * EPow P2 (EVar vMsq) * EPow P2 (EVar
   vMt)) + #640 * EVar vDmglst2 * EPow P2 (EVar vs2t) * EPow P4 (EVar vMst1) / (#3 * EVar vMgl * EPow P2 (EVar vMsq) *
   EPow P2 (EVar vMt)) + #640 * EPow P2 (EVar vDmglst2) * EPow P2 (EVar vs2t) * EPow P4 (EVar vMst1) / (#3 * EPow P2
   (EVar vMgl) * EPow P2 (EVar vMsq) * EPow P2 (EVar vMt)) + #24574447162 * EPow P2 (EVar vs2t) * EPow P4 (EVar vMst1)
   / (#10418625 * EPow P2 (EVar vMst2) * EPow P2 (EVar vMt)) - #7932854794 * EVar vDmglst2 * EPow P2 (EVar vs2t) *
   EPow P4 (EVar vMst1) / (#3472875 * EVar vMgl * EPow P2 (EVar vMst2) * EPow P2 (EVar vMt)) - #110672 * EConst COepS2
   * EPow P2 (EVar vs2t) * EPow P4 (EVar vMst1) / (#243 * EPow P2 (EVar vMst2) * EPow P2 (EVar vMt)) + #98432 * EVar
   vDmglst2 * EConst COepS2 * EPow P2 (EVar vs2t) * EPow P4 (EVar vMst1) / (#81 * EVar vMgl * EPow P2 (EVar vMst2) *
   EPow P2 (EVar vMt)) + #813254 * EConst CS2 * EPow P2 (EVar vs2t) * EPow P4 (EVar vMst1) / (#45 * EPow P2 (EVar
   vMst2) * EPow P2 (EVar vMt)) - #452528 * EVar vDmglst2 * EConst CS2 * EPow P2 (EVar vs2t) * EPow P4 (EVar vMst1) /
   (#15 * EVar vMgl * EPow P2 (EVar vMst2) * EPow P2 (EVar vMt)) + #55336 * EConst CT1ep * EPow P2 (EVar vs2t) * EPow
   P4 (EVar vMst1) / (#81 * EPow P2 (EVar vMst2) * EPow P2 (EVar vMt)) - #49216 * EVar vDmglst2 * EConst CT1ep * EPow
   P2 (EVar vs2t) * EPow P4 (EVar vMst1) / (#27 * EVar vMgl * EPow P2 (EVar vMst2) * EPow P2 (EVar vMt)) + #3321329 *
   EConst Cz2 * EPow P2 (EVar vs2t) * EPow P4 (EVar vMst1) / (#405 * EPow P2 (EVar vMst2) * EPow P2 (EVar vMt)) -
   #628264 * EVar vDmglst2 * EConst Cz2 * EPow P2 (EVar vs2t) * EPow P4 (EVar vMst1) / (#27 * EVar vMgl * EPow P2
   (EVar vMst2) * EPow P2 (EVar vMt)) - #132332 * EConst Cz3 * EPow P2 (EVar vs2t) * EPow P4 (EVar vMst1) / (#81 *
   EPow P2 (EVar vMst2) * EPow P2 (EVar vMt)) + #11744 * EVar vDmglst2 * EConst Cz3 * EPow P2 (EVar vs2t) * EPow P4
   (EVar vMst1) / (#27 * EVar vMgl * EPow P2 (EVar vMst2) * EPow P2 (EVar vMt)) + #27668 * EConst Cz4 * EPow P2 (EVar
   vs2t) * EPow P4 (EVar vMst1) / (#81 * EPow P2 (EVar vMst2) * EPow P2 (EVar vMt)) - #24608 * EVar vDmglst2 * EConst
   Cz4 * EPow P2 (EVar vs2t) * EPow P4 (EVar vMst1) / (#27 * EVar vMgl * EPow P2 (EVar vMst2) * EPow P2 (EVar vMt)) -
   #7932854794 * EPow P2 (EVar vDmglst2) * EPow P2 (EVar vs2t) * EPow P4 (EVar vMst1) / (#3472875 * EPow P2 (EVar
   vMgl) * EPow P2 (EVar vMst2) * EPow P2 (EVar vMt)) + #98432 * EConst COepS2 * EPow P2 (EVar vDmglst2) * EPow P2
   (EVar vs2t) * EPow P4 (EVar vMst1) / (#81 * EPow P2 (EVar vMgl) * EPow P2 (EVar vMst2) * EPow P2 (EVar vMt)) -
   #452528 * EConst CS2 * EPow P2 (EVar vDmglst2) * EPow P2 (EVar vs2t) * EPow P4 (EVar vMst1) / (#15 * EPow P2 (EVar
   vMgl) * EPow P2 (EVar vMst2) * EPow P2 (EVar vMt)) - #49216 * EConst CT1ep * EPow P2 (EVar vDmglst2) * EPow P2
   (EVar vs2t) * EPow P4 (EVar vMst1) / (#27 * EPow P2 (EVar vMgl) * EPow P2 (EVar vMst2) * EPow P2 (EVar vMt)) -
   #628264 * EConst Cz2 * EPow P2 (EVar vDmglst2) * EPow P2 (EVar vs2t) * EPow P4 (EVar vMst1) / (#27 * EPow P2 (EVar
   vMgl) * EPow P2 (EVar vMst2) * EPow P2 (EVar vMt)) + #11744 * EConst Cz3 * EPow P2 (EVar vDmglst2) * EPow P2 (EVar
   vs2t) * EPow P4 (EVar vMst1) / (#27 * EPow P2 (EVar vMgl) * EPow P2 (EVar vMst2) * EPow P2 (EVar vMt)) - #24608 *
   EConst Cz4 * EPow P2 (EVar vDmglst2) * EPow P2 (EVar vs2t) * EPow P4 (EVar vMst1) / (#27 * EPow P2 (EVar vMgl) *
   EPow P2 (EVar vMst2) * EPow P2 (EVar vMt)) + #13834 * EPow P2 (EVar vs2t) * EPow P2 (EConst Cz2) * EPow P4 (EVar
   vMst1) / (#27 * EPow P2 (EVar vMst2) * EPow P2 (EVar vMt)) - #12304 * EVar vDmglst2 * EPow P2 (EVar vs2t) * EPow P2
   (EConst Cz2) * EPow P4 (EVar vMst1) / (#9 * EVar vMgl * EPow P2 (EVar vMst2) * EPow P2 (EVar vMt)) - #12304 * EPow
   P2 (EVar vDmglst2) * EPow P2 (EVar vs2t) * EPow P2 (EConst Cz2) * EPow P4 (EVar vMst1) / (#9 * EPow P2 (EVar vMgl)
   * EPow P2 (EVar vMst2) * EPow P2 (EVar vMt)) - #15260456 * EVar vs2t * EPow P4 (EVar vMst1) / (#1215 * EVar vMt *
   EPow P3 (EVar vMst2)) + #193667576 * EVar vDmglst2 * EVar vs2t * EPow P4 (EVar vMst1) / (#3645 * EVar vMgl * EVar
   vMt * EPow P3 (EVar vMst2)) + #175360 * EConst COepS2 * EVar vs2t * EPow P4 (EVar vMst1) / (#243 * EVar vMt * EPow
   P3 (EVar vMst2)) - #3293440 * EVar vDmglst2 * EConst COepS2 * EVar vs2t * EPow P4 (EVar vMst1) / (#729 * EVar vMgl
   * EVar vMt * EPow P3 (EVar vMst2)) - #1043008 * EConst CS2 * EVar vs2t * EPow P4 (EVar vMst1) / (#45 * EVar vMt *
   EPow P3 (EVar vMst2)) + #14087488 * EVar vDmglst2 * EConst CS2 * EVar vs2t * EPow P4 (EVar vMst1) / (#135 * EVar
   vMgl * EVar vMt * EPow P3 (EVar vMst2)) - #87680 * EVar vs2t * EConst CT1ep * EPow P4 (EVar vMst1) / (#81 * EVar
   vMt * EPow P3 (EVar vMst2)) + #1646720 * EVar vDmglst2 * EVar vs2t * EConst CT1ep * EPow P4 (EVar vMst1) / (#243 *
   EVar vMgl * EVar vMt * EPow P3 (EVar vMst2)) - #9196144 * EVar vs2t * EConst Cz2 * EPow P4 (EVar vMst1) / (#405 *
   EVar vMt * EPow P3 (EVar vMst2)) + #147644272 * EVar vDmglst2 * EVar vs2t * EConst Cz2 * EPow P4 (EVar vMst1) /
   (#1215 * EVar vMgl * EVar vMt * EPow P3 (EVar vMst2)) + #1848256 * EVar vs2t * EConst Cz3 * EPow P4 (EVar vMst1) /
   (#81 * EVar vMt * EPow P3 (EVar vMst2)) - #19670464 * EVar vDmglst2 * EVar vs2t * EConst Cz3 * EPow P4 (EVar vMst1)
   / (#243 * EVar vMgl * EVar vMt * EPow P3 (EVar vMst2)) - #43840 * EVar vs2t * EConst Cz4 * EPow P4 (EVar vMst1) /
   (#81 * EVar vMt * EPow P3 (EVar vMst2)) + #823360 * EVar vDmglst2 * EVar vs2t * EConst Cz4 * EPow P4 (EVar vMst1) /
   (#243 * EVar vMgl * EVar vMt * EPow P3 (EVar vMst2)) + #193667576 * EVar vs2t * EPow P2 (EVar vDmglst2) * EPow P4
   (EVar vMst1) / (#3645 * EVar vMt * EPow P2 (EVar vMgl) * EPow P3 (EVar vMst2)) - #3293440 * EConst COepS2 * EVar
   vs2t * EPow P2 (EVar vDmglst2) * EPow P4 (EVar vMst1) / (#729 * EVar vMt * EPow P2 (EVar vMgl) * EPow P3 (EVar
   vMst2)) + #14087488 * EConst CS2 * EVar vs2t * EPow P2 (EVar vDmglst2) * EPow P4 (EVar vMst1) / (#135 * EVar vMt *
   EPow P2 (EVar vMgl) * EPow P3 (EVar vMst2)) + #1646720 * EVar vs2t * EConst CT1ep * EPow P2 (EVar vDmglst2) * EPow
   P4 (EVar vMst1) / (#243 * EVar vMt * EPow P2 (EVar vMgl) * EPow P3 (EVar vMst2)) + #147644272 * EVar vs2t * EConst
   Cz2 * EPow P2 (EVar vDmglst2) * EPow P4 (EVar vMst1) / (#1215 * EVar vMt * EPow P2 (EVar vMgl) * EPow P3 (EVar
   vMst2)) - #19670464 * EVar vs2t * EConst Cz3 * EPow P2 (EVar vDmglst2) * EPow P4 (EVar vMst1) / (#243 * EVar vMt *
   EPow P2 (EVar vMgl) * EPow P3 (EVar vMst2)) + #823360 * EVar vs2t * EConst Cz4 * EPow P2 (EVar vDmglst2) * EPow P4
   (EVar vMst1) / (#243 * EVar vMt * EPow P2 (EVar vMgl) * EPow P3 (EVar vMst2)) - #21920 * EVar vs2t * EPow P2
   (EConst Cz2) * EPow P4 (EVar vMst1) / (#27 * EVar vMt * EPow P3 (EVar vMst2)) + #411680 * EVar vDmglst2 * EVar vs2t
   * EPow P2 (EConst Cz2) * EPow P4 (EVar vMst1) / (#81 * EVar vMgl * EVar vMt * EPow P3 (EVar vMst2)) + #411680 *
   EVar vs2t * EPow P2 (EVar vDmglst2) * EPow P2 (EConst Cz2) * EPow P4 (EVar vMst1) / (#81 * EVar vMt * EPow P2 (EVar
   vMgl) * EPow P3 (EVar vMst2)) + #542267 * EPow P3 (EVar vs2t) * EPow P4 (EVar vMst1) / (#486 * EVar vMst2 * EPow P3
   (EVar vMt)) - #35542243 * EVar vDmglst2 * EPow P3 (EVar vs2t) * EPow P4 (EVar vMst1) / (#7290 * EVar vMgl * EVar
   vMst2 * EPow P3 (EVar vMt)) - #7024 * EConst COepS2 * EPow P3 (EVar vs2t) * EPow P4 (EVar vMst1) / (#243 * EVar
   vMst2 * EPow P3 (EVar vMt)) + #249136 * EVar vDmglst2 * EConst COepS2 * EPow P3 (EVar vs2t) * EPow P4 (EVar vMst1)
   / (#729 * EVar vMgl * EVar vMst2 * EPow P3 (EVar vMt)) + #12242 * EConst CS2 * EPow P3 (EVar vs2t) * EPow P4 (EVar
   vMst1) / (#9 * EVar vMst2 * EPow P3 (EVar vMt)) - #1672042 * EVar vDmglst2 * EConst CS2 * EPow P3 (EVar vs2t) *
   EPow P4 (EVar vMst1) / (#135 * EVar vMgl * EVar vMst2 * EPow P3 (EVar vMt)) + #3512 * EConst CT1ep * EPow P3 (EVar
   vs2t) * EPow P4 (EVar vMst1) / (#81 * EVar vMst2 * EPow P3 (EVar vMt)) - #124568 * EVar vDmglst2 * EConst CT1ep *
   EPow P3 (EVar vs2t) * EPow P4 (EVar vMst1) / (#243 * EVar vMgl * EVar vMst2 * EPow P3 (EVar vMt)) + #104839 *
   EConst Cz2 * EPow P3 (EVar vs2t) * EPow P4 (EVar vMst1) / (#405 * EVar vMst2 * EPow P3 (EVar vMt)) - #8194483 *
   EVar vDmglst2 * EConst Cz2 * EPow P3 (EVar vs2t) * EPow P4 (EVar vMst1) / (#1215 * EVar vMgl * EVar vMst2 * EPow P3
   (EVar vMt)) - #89260 * EConst Cz3 * EPow P3 (EVar vs2t) * EPow P4 (EVar vMst1) / (#81 * EVar vMst2 * EPow P3 (EVar
   vMt)) + #1130428 * EVar vDmglst2 * EConst Cz3 * EPow P3 (EVar vs2t) * EPow P4 (EVar vMst1) / (#243 * EVar vMgl *
   EVar vMst2 * EPow P3 (EVar vMt)) + #1756 * EConst Cz4 * EPow P3 (EVar vs2t) * EPow P4 (EVar vMst1) / (#81 * EVar
   vMst2 * EPow P3 (EVar vMt)) - #62284 * EVar vDmglst2 * EConst Cz4 * EPow P3 (EVar vs2t) * EPow P4 (EVar vMst1) /
   (#243 * EVar vMgl * EVar vMst2 * EPow P3 (EVar vMt)) - #35542243 * EPow P2 (EVar vDmglst2) * EPow P3 (EVar vs2t) *
   EPow P4 (EVar vMst1) / (#7290 * EVar vMst2 * EPow P2 (EVar vMgl) * EPow P3 (EVar vMt)) + #249136 * EConst COepS2 *
   EPow P2 (EVar vDmglst2) * EPow P3 (EVar vs2t) * EPow P4 (EVar vMst1) / (#729 * EVar vMst2 * EPow P2 (EVar vMgl) *
   EPow P3 (EVar vMt)) - #1672042 * EConst CS2 * EPow P2 (EVar vDmglst2) * EPow P3 (EVar vs2t) * EPow P4 (EVar vMst1)
   / (#135 * EVar vMst2 * EPow P2 (EVar vMgl) * EPow P3 (EVar vMt)) - #124568 * EConst CT1ep * EPow P2 (EVar vDmglst2)
   * EPow P3 (EVar vs2t) * EPow P4 (EVar vMst1) / (#243 * EVar vMst2 * EPow P2 (EVar vMgl) * EPow P3 (EVar vMt)) -
   #8194483 * EConst Cz2 * EPow P2 (EVar vDmglst2) * EPow P3 (EVar vs2t) * EPow P4 (EVar vMst1) / (#1215 * EVar vMst2
   * EPow P2 (EVar vMgl) * EPow P3 (EVar vMt)) + #1130428 * EConst Cz3 * EPow P2 (EVar vDmglst2) * EPow P3 (EVar vs2t)
   * EPow P4 (EVar vMst1) / (#243 * EVar vMst2 * EPow P2 (EVar vMgl) * EPow P3 (EVar vMt)) - #62284 * EConst Cz4 *
   EPow P2 (EVar vDmglst2) * EPow P3 (EVar vs2t) * EPow P4 (EVar vMst1) / (#243 * EVar vMst2 * EPow P2 (EVar vMgl) *
   EPow P3 (EVar vMt)) + #80 * EVar vMst2 * EPow P3 (EVar vs2t) * EPow P4 (EVar vMst1) / (#3 * EPow P2 (EVar vMsq) *
   EPow P3 (EVar vMt)) - #80 * EVar vDmglst2 * EVar vMst2 * EPow P3 (EVar vs2t) * EPow P4 (EVar vMst1) / (#3 * EVar
   vMgl * EPow P2 (EVar vMsq) * EPow P3 (EVar vMt)) - #80 * EVar vMst2 * EPow P2 (EVar vDmglst2) * EPow P3 (EVar vs2t)
   * EPow P4 (EVar vMst1) / (#3 * EPow P2 (EVar vMgl) * EPow P2 (EVar vMsq) * EPow P3 (EVar vMt)) + #878 * EPow P2
   (EConst Cz2) * EPow P3 (EVar vs2t) * EPow P4 (EVar vMst1) / (#27 * EVar vMst2 * EPow P3 (EVar vMt)) - #31142 * EVar
   vDmglst2 * EPow P2 (EConst Cz2) * EPow P3 (EVar vs2t) * EPow P4 (EVar vMst1) / (#81 * EVar vMgl * EVar vMst2 * EPow
   P3 (EVar vMt)) - #31142 * EPow P2 (EVar vDmglst2) * EPow P2 (EConst Cz2) * EPow P3 (EVar vs2t) * EPow P4 (EVar
   vMst1) / (#81 * EVar vMst2 * EPow P2 (EVar vMgl) * EPow P3 (EVar vMt)) + #15728921 * EPow P4 (EVar vMst1) / (#77175
   * EPow P4 (EVar vMsq)) - #1880 * EVar vMst2 * EVar vs2t * EPow P4 (EVar vMst1) / (#27 * EVar vMt * EPow P4 (EVar
   vMsq)) - #6200 * EVar vDmglst2 * EVar vMst2 * EVar vs2t * EPow P4 (EVar vMst1) / (#27 * EVar vMgl * EVar vMt * EPow
   P4 (EVar vMsq)) - #6200 * EVar vMst2 * EVar vs2t * EPow P2 (EVar vDmglst2) * EPow P4 (EVar vMst1) / (#27 * EVar vMt
   * EPow P2 (EVar vMgl) * EPow P4 (EVar vMsq)) - #438008 * EPow P2 (EVar vMst2) * EPow P2 (EVar vs2t) * EPow P4 (EVar
   vMst1) / (#15435 * EPow P2 (EVar vMt) * EPow P4 (EVar vMsq)) + #10 * EVar vDmglst2 * EPow P2 (EVar vMst2) * EPow P2
   (EVar vs2t) * EPow P4 (EVar vMst1) / (EVar vMgl * EPow P2 (EVar vMt) * EPow P4 (EVar vMsq)) + #10 * EPow P2 (EVar
   vDmglst2) * EPow P2 (EVar vMst2) * EPow P2 (EVar vs2t) * EPow P4 (EVar vMst1) / (EPow P2 (EVar vMgl) * EPow P2
   (EVar vMt) * EPow P4 (EVar vMsq)) - #5 * EPow P3 (EVar vMst2) * EPow P3 (EVar vs2t) * EPow P4 (EVar vMst1) / (#9 *
   EPow P3 (EVar vMt) * EPow P4 (EVar vMsq)) + #115 * EVar vDmglst2 * EPow P3 (EVar vMst2) * EPow P3 (EVar vs2t) *
   EPow P4 (EVar vMst1) / (#9 * EVar vMgl * EPow P3 (EVar vMt) * EPow P4 (EVar vMsq)) + #115 * EPow P2 (EVar vDmglst2)
   * EPow P3 (EVar vMst2) * EPow P3 (EVar vs2t) * EPow P4 (EVar vMst1) / (#9 * EPow P2 (EVar vMgl) * EPow P3 (EVar
   vMt) * EPow P4 (EVar vMsq)) + #175715865103 * EPow P4 (EVar vMst1) / (#10418625 * EPow P4 (EVar vMst2)) -
   #291022313156 * EVar vDmglst2 * EPow P4 (EVar vMst1) / (#6251175 * EVar vMgl * EPow P4 (EVar vMst2)) + #74752 *
   EConst COepS2 * EPow P4 (EVar vMst1) / (#243 * EPow P4 (EVar vMst2)) + #1428992 * EVar vDmglst2 * EConst COepS2 *
   EPow P4 (EVar vMst1) / (#729 * EVar vMgl * EPow P4 (EVar vMst2)) - #553792 * EConst CS2 * EPow P4 (EVar vMst1) /
   (#45 * EPow P4 (EVar vMst2)) - #32019872 * EVar vDmglst2 * EConst CS2 * EPow P4 (EVar vMst1) / (#945 * EVar vMgl *
   EPow P4 (EVar vMst2)) - #37376 * EConst CT1ep * EPow P4 (EVar vMst1) / (#81 * EPow P4 (EVar vMst2)) - #714496 *
   EVar vDmglst2 * EConst CT1ep * EPow P4 (EVar vMst1) / (#243 * EVar vMgl * EPow P4 (EVar vMst2)) + #4885352 * EConst
   Cz2 * EPow P4 (EVar vMst1) / (#405 * EPow P4 (EVar vMst2)) - #1089695168 * EVar vDmglst2 * EConst Cz2 * EPow P4
   (EVar vMst1) / (#8505 * EVar vMgl * EPow P4 (EVar vMst2)) - #3102848 * EConst Cz3 * EPow P4 (EVar vMst1) / (#81 *
   EPow P4 (EVar vMst2)) + #35982464 * EVar vDmglst2 * EConst Cz3 * EPow P4 (EVar vMst1) / (#243 * EVar vMgl * EPow P4
   (EVar vMst2)) - #18688 * EConst Cz4 * EPow P4 (EVar vMst1) / (#81 * EPow P4 (EVar vMst2)) - #357248 * EVar vDmglst2
   * EConst Cz4 * EPow P4 (EVar vMst1) / (#243 * EVar vMgl * EPow P4 (EVar vMst2)) - #291022313156 * EPow P2 (EVar
   vDmglst2) * EPow P4 (EVar vMst1) / (#6251175 * EPow P2 (EVar vMgl) * EPow P4 (EVar vMst2)) + #1428992 * EConst
   COepS2 * EPow P2 (EVar vDmglst2) * EPow P4 (EVar vMst1) / (#729 * EPow P2 (EVar vMgl) * EPow P4 (EVar vMst2)) -
   #32019872 * EConst CS2 * EPow P2 (EVar vDmglst2) * EPow P4 (EVar vMst1) / (#945 * EPow P2 (EVar vMgl) * EPow P4
   (EVar vMst2)) - #714496 * EConst CT1ep * EPow P2 (EVar vDmglst2) * EPow P4 (EVar vMst1) / (#243 * EPow P2 (EVar
   vMgl) * EPow P4 (EVar vMst2)) - #1089695168 * EConst Cz2 * EPow P2 (EVar vDmglst2) * EPow P4 (EVar vMst1) / (#8505
   * EPow P2 (EVar vMgl) * EPow P4 (EVar vMst2)) + #35982464 * EConst Cz3 * EPow P2 (EVar vDmglst2) * EPow P4 (EVar
   vMst1) / (#243 * EPow P2 (EVar vMgl) * EPow P4 (EVar vMst2)) - #357248 * EConst Cz4 * EPow P2 (EVar vDmglst2) *
   EPow P4 (EVar vMst1) / (#243 * EPow P2 (EVar vMgl) * EPow P4 (EVar vMst2)) - #9344 * EPow P2 (EConst Cz2) * EPow P4
   (EVar vMst1) / (#27 * EPow P4 (EVar vMst2)) - #178624 * EVar vDmglst2 * EPow P2 (EConst Cz2) * EPow P4 (EVar vMst1)
   / (#81 * EVar vMgl * EPow P4 (EVar vMst2)) - #178624 * EPow P2 (EVar vDmglst2) * EPow P2 (EConst Cz2) * EPow P4
   (EVar vMst1) / (#81 * EPow P2 (EVar vMgl) * EPow P4 (EVar vMst2)) - #3440 * EPow P4 (EVar vMst2) / (#9 * EPow P2
   (EVar vMsq) * EPow P2 (EVar vMst1)) - #8960 * EVar vDmglst2 * EPow P4 (EVar vMst2) / (#9 * EVar vMgl * EPow P2
   (EVar vMsq) * EPow P2 (EVar vMst1)) - #12800 * EPow P2 (EVar vDmglst2) * EPow P4 (EVar vMst2) / (#9 * EPow P2 (EVar
   vMgl) * EPow P2 (EVar vMsq) * EPow P2 (EVar vMst1)) - #181136 * EPow P2 (EVar vs2t) * EPow P4 (EVar vMst2) / (#675
   * EPow P2 (EVar vMsq) * EPow P2 (EVar vMt)) - #8560 * EVar vDmglst2 * EPow P2 (EVar vs2t) * EPow P4 (EVar vMst2) /
   (#9 * EVar vMgl * EPow P2 (EVar vMsq) * EPow P2 (EVar vMt)) - #12520 * EPow P2 (EVar vDmglst2) * EPow P2 (EVar
   vs2t) * EPow P4 (EVar vMst2) / (#9 * EPow P2 (EVar vMgl) * EPow P2 (EVar vMsq) * EPow P2 (EVar vMt)) - #412 * EPow
   P2 (EVar vs2t) * EPow P4 (EVar vMst2) / (EPow P2 (EVar vMst1) * EPow P2 (EVar vMt)) + #1432 * EVar vDmglst2 * EPow
   P2 (EVar vs2t) * EPow P4 (EVar vMst2) / (#3 * EVar vMgl * EPow P2 (EVar vMst1) * EPow P2 (EVar vMt)) - #784 *
   EConst Cz2 * EPow P2 (EVar vs2t) * EPow P4 (EVar vMst2) / (#3 * EPow P2 (EVar vMst1) * EPow P2 (EVar vMt)) - #1472
   * EVar vDmglst2 * EConst Cz2 * EPow P2 (EVar vs2t) * EPow P4 (EVar vMst2) / (#3 * EVar vMgl * EPow P2 (EVar vMst1)
   * EPow P2 (EVar vMt)) + #4340 * EPow P2 (EVar vDmglst2) * EPow P2 (EVar vs2t) * EPow P4 (EVar vMst2) / (#3 * EPow
   P2 (EVar vMgl) * EPow P2 (EVar vMst1) * EPow P2 (EVar vMt)) - #768 * EConst Cz2 * EPow P2 (EVar vDmglst2) * EPow P2
   (EVar vs2t) * EPow P4 (EVar vMst2) / (EPow P2 (EVar vMgl) * EPow P2 (EVar vMst1) * EPow P2 (EVar vMt)) - #142320737
   * EPow P4 (EVar vMst2) / (#231525 * EPow P4 (EVar vMsq)) - #25340 * EVar vDmglst2 * EPow P4 (EVar vMst2) / (#27 *
   EVar vMgl * EPow P4 (EVar vMsq)) + #1120 * EConst Cz2 * EPow P4 (EVar vMst2) / (#3 * EPow P4 (EVar vMsq)) + #2560 *
   EVar vDmglst2 * EConst Cz2 * EPow P4 (EVar vMst2) / (#3 * EVar vMgl * EPow P4 (EVar vMsq)) - #180526 * EPow P2
   (EVar vDmglst2) * EPow P4 (EVar vMst2) / (#135 * EPow P2 (EVar vMgl) * EPow P4 (EVar vMsq)) + #5440 * EConst Cz2 *
   EPow P2 (EVar vDmglst2) * EPow P4 (EVar vMst2) / (#3 * EPow P2 (EVar vMgl) * EPow P4 (EVar vMsq)) + #522392 * EPow
   P2 (EVar vMst1) * EPow P2 (EVar vs2t) * EPow P4 (EVar vMst2) / (#15435 * EPow P2 (EVar vMt) * EPow P4 (EVar vMsq))
   + #650 * EVar vDmglst2 * EPow P2 (EVar vMst1) * EPow P2 (EVar vs2t) * EPow P4 (EVar vMst2) / (#9 * EVar vMgl * EPow
   P2 (EVar vMt) * EPow P4 (EVar vMsq)) + #155 * EPow P2 (EVar vDmglst2) * EPow P2 (EVar vMst1) * EPow P2 (EVar vs2t)
   * EPow P4 (EVar vMst2) / (#9 * EPow P2 (EVar vMgl) * EPow P2 (EVar vMt) * EPow P4 (EVar vMsq)) - #256 * EPow P4
   (EVar vMst2) / (#3 * EPow P4 (EVar vMst1)) + #1024 * EPow P2 (EVar vDmglst2) * EPow P4 (EVar vMst2) / (#3 * EPow P2
   (EVar vMgl) * EPow P4 (EVar vMst1)) - #10 * EPow P2 (EVar vMsq) * EPow P2 (EVar vMst1) * EPow P4 (EVar vs2t) / EPow
   P4 (EVar vMt) + #20 * EConst Cz2 * EPow P2 (EVar vMsq) * EPow P2 (EVar vMst1) * EPow P4 (EVar vs2t) / EPow P4 (EVar
   vMt) - #10 * EPow P2 (EVar vMsq) * EPow P2 (EVar vMst2) * EPow P4 (EVar vs2t) / EPow P4 (EVar vMt) + #20 * EConst
   Cz2 * EPow P2 (EVar vMsq) * EPow P2 (EVar vMst2) * EPow P4 (EVar vs2t) / EPow P4 (EVar vMt) - #9250423 * EPow P2
   (EVar vMst1) * EPow P2 (EVar vMst2) * EPow P4 (EVar vs2t) / (#8100 * EPow P4 (EVar vMt)) + #4 * EConst CB4 * EPow
   P2 (EVar vMst1) * EPow P2 (EVar vMst2) * EPow P4 (EVar vs2t) / (#3 * EPow P4 (EVar vMt)) - #8 * EConst CD3 * EPow
   P2 (EVar vMst1) * EPow P2 (EVar vMst2) * EPow P4 (EVar vs2t) / (#3 * EPow P4 (EVar vMt)) + #2 * EConst CDN * EPow
   P2 (EVar vMst1) * EPow P2 (EVar vMst2) * EPow P4 (EVar vs2t) / EPow P4 (EVar vMt) + #1727459 * EVar vDmglst2 * EPow
   P2 (EVar vMst1) * EPow P2 (EVar vMst2) * EPow P4 (EVar vs2t) / (#10125 * EVar vMgl * EPow P4 (EVar vMt)) + #8 *
   EConst CB4 * EVar vDmglst2 * EPow P2 (EVar vMst1) * EPow P2 (EVar vMst2) * EPow P4 (EVar vs2t) / (EVar vMgl * EPow
   P4 (EVar vMt)) - #32 * EConst CD3 * EVar vDmglst2 * EPow P2 (EVar vMst1) * EPow P2 (EVar vMst2) * EPow P4 (EVar
   vs2t) / (#3 * EVar vMgl * EPow P4 (EVar vMt)) + #20 * EVar vDmglst2 * EConst CDN * EPow P2 (EVar vMst1) * EPow P2
   (EVar vMst2) * EPow P4 (EVar vs2t) / (#3 * EVar vMgl * EPow P4 (EVar vMt)) + #2744 * EConst COepS2 * EPow P2 (EVar
   vMst1) * EPow P2 (EVar vMst2) * EPow P4 (EVar vs2t) / (#81 * EPow P4 (EVar vMt)) - #128 * EVar vDmglst2 * EConst
   COepS2 * EPow P2 (EVar vMst1) * EPow P2 (EVar vMst2) * EPow P4 (EVar vs2t) / (#3 * EVar vMgl * EPow P4 (EVar vMt))
   - #3137 * EConst CS2 * EPow P2 (EVar vMst1) * EPow P2 (EVar vMst2) * EPow P4 (EVar vs2t) / EPow P4 (EVar vMt) -
   #2200 * EVar vDmglst2 * EConst CS2 * EPow P2 (EVar vMst1) * EPow P2 (EVar vMst2) * EPow P4 (EVar vs2t) / (#3 * EVar
   vMgl * EPow P4 (EVar vMt)) - #1372 * EConst CT1ep * EPow P2 (EVar vMst1) * EPow P2 (EVar vMst2) * EPow P4 (EVar
   vs2t) / (#27 * EPow P4 (EVar vMt)) + #64 * EVar vDmglst2 * EConst CT1ep * EPow P2 (EVar vMst1) * EPow P2 (EVar
   vMst2) * EPow P4 (EVar vs2t) / (EVar vMgl * EPow P4 (EVar vMt)) - #235099 * EConst Cz2 * EPow P2 (EVar vMst1) *
   EPow P2 (EVar vMst2) * EPow P4 (EVar vs2t) / (#270 * EPow P4 (EVar vMt)) + #15568 * EVar vDmglst2 * EConst Cz2 *
   EPow P2 (EVar vMst1) * EPow P2 (EVar vMst2) * EPow P4 (EVar vs2t) / (#45 * EVar vMgl * EPow P4 (EVar vMt)) + #22544
   * EConst Cz3 * EPow P2 (EVar vMst1) * EPow P2 (EVar vMst2) * EPow P4 (EVar vs2t) / (#27 * EPow P4 (EVar vMt)) +
   #4478 * EVar vDmglst2 * EConst Cz3 * EPow P2 (EVar vMst1) * EPow P2 (EVar vMst2) * EPow P4 (EVar vs2t) / (#9 * EVar
   vMgl * EPow P4 (EVar vMt)) - #956 * EConst Cz4 * EPow P2 (EVar vMst1) * EPow P2 (EVar vMst2) * EPow P4 (EVar vs2t)
   / (#27 * EPow P4 (EVar vMt)) - #12 * EVar vDmglst2 * EConst Cz4 * EPow P2 (EVar vMst1) * EPow P2 (EVar vMst2) *
   EPow P4 (EVar vs2t) / (EVar vMgl * EPow P4 (EVar vMt)) - #65965567 * EPow P2 (EVar vDmglst2) * EPow P2 (EVar vMst1)
   * EPow P2 (EVar vMst2) * EPow P4 (EVar vs2t) / (#60750 * EPow P2 (EVar vMgl) * EPow P4 (EVar vMt)) + #12 * EConst
   CB4 * EPow P2 (EVar vDmglst2) * EPow P2 (EVar vMst1) * EPow P2 (EVar vMst2) * EPow P4 (EVar vs2t) / (EPow P2 (EVar
   vMgl) * EPow P4 (EVar vMt)) - #16 * EConst CD3 * EPow P2 (EVar vDmglst2) * EPow P2 (EVar vMst1) * EPow P2 (EVar
   vMst2) * EPow P4 (EVar vs2t) / (EPow P2 (EVar vMgl) * EPow P4 (EVar vMt)) + #10 * EConst CDN * EPow P2 (EVar
   vDmglst2) * EPow P2 (EVar vMst1) * EPow P2 (EVar vMst2) * EPow P4 (EVar vs2t) / (EPow P2 (EVar vMgl) * EPow P4
   (EVar vMt)) - #1280 * EConst COepS2 * EPow P2 (EVar vDmglst2) * EPow P2 (EVar vMst1) * EPow P2 (EVar vMst2) * EPow
   P4 (EVar vs2t) / (#243 * EPow P2 (EVar vMgl) * EPow P4 (EVar vMt)) - #89092 * EConst CS2 * EPow P2 (EVar vDmglst2)
   * EPow P2 (EVar vMst1) * EPow P2 (EVar vMst2) * EPow P4 (EVar vs2t) / (#45 * EPow P2 (EVar vMgl) * EPow P4 (EVar
   vMt)) + #640 * EConst CT1ep * EPow P2 (EVar vDmglst2) * EPow P2 (EVar vMst1) * EPow P2 (EVar vMst2) * EPow P4 (EVar
   vs2t) / (#81 * EPow P2 (EVar vMgl) * EPow P4 (EVar vMt)) - #69148 * EConst Cz2 * EPow P2 (EVar vDmglst2) * EPow P2
   (EVar vMst1) * EPow P2 (EVar vMst2) * EPow P4 (EVar vs2t) / (#405 * EPow P2 (EVar vMgl) * EPow P4 (EVar vMt)) +
   #139555 * EConst Cz3 * EPow P2 (EVar vDmglst2) * EPow P2 (EVar vMst1) * EPow P2 (EVar vMst2) * EPow P4 (EVar vs2t)
   / (#81 * EPow P2 (EVar vMgl) * EPow P4 (EVar vMt)) - #5026 * EConst Cz4 * EPow P2 (EVar vDmglst2) * EPow P2 (EVar
   vMst1) * EPow P2 (EVar vMst2) * EPow P4 (EVar vs2t) / (#81 * EPow P2 (EVar vMgl) * EPow P4 (EVar vMt)) - #559 *
   EPow P2 (EVar vMst1) * EPow P2 (EVar vMst2) * EPow P2 (EConst Cz2) * EPow P4 (EVar vs2t) / (#9 * EPow P4 (EVar
   vMt)) - #1784 * EPow P2 (EVar vDmglst2) * EPow P2 (EVar vMst1) * EPow P2 (EVar vMst2) * EPow P2 (EConst Cz2) * EPow
   P4 (EVar vs2t) / (#27 * EPow P2 (EVar vMgl) * EPow P4 (EVar vMt)) + #71378675209 * EPow P4 (EVar vMst1) * EPow P4
   (EVar vs2t) / (#166698000 * EPow P4 (EVar vMt)) + #12 * EConst CB4 * EPow P4 (EVar vMst1) * EPow P4 (EVar vs2t) /
   EPow P4 (EVar vMt) + #4 * EConst CD3 * EPow P4 (EVar vMst1) * EPow P4 (EVar vs2t) / (#3 * EPow P4 (EVar vMt)) - #4
   * EConst CDN * EPow P4 (EVar vMst1) * EPow P4 (EVar vs2t) / (#3 * EPow P4 (EVar vMt)) + #126628974763 * EVar
   vDmglst2 * EPow P4 (EVar vMst1) * EPow P4 (EVar vs2t) / (#125023500 * EVar vMgl * EPow P4 (EVar vMt)) + #7780 *
   EConst COepS2 * EPow P4 (EVar vMst1) * EPow P4 (EVar vs2t) / (#243 * EPow P4 (EVar vMt)) - #67184 * EVar vDmglst2 *
   EConst COepS2 * EPow P4 (EVar vMst1) * EPow P4 (EVar vs2t) / (#729 * EVar vMgl * EPow P4 (EVar vMt)) - #18995 *
   EConst CS2 * EPow P4 (EVar vMst1) * EPow P4 (EVar vs2t) / (#9 * EPow P4 (EVar vMt)) + #103270 * EVar vDmglst2 *
   EConst CS2 * EPow P4 (EVar vMst1) * EPow P4 (EVar vs2t) / (#27 * EVar vMgl * EPow P4 (EVar vMt)) - #3890 * EConst
   CT1ep * EPow P4 (EVar vMst1) * EPow P4 (EVar vs2t) / (#81 * EPow P4 (EVar vMt)) + #33592 * EVar vDmglst2 * EConst
   CT1ep * EPow P4 (EVar vMst1) * EPow P4 (EVar vs2t) / (#243 * EVar vMgl * EPow P4 (EVar vMt)) - #150437 * EConst Cz2
   * EPow P4 (EVar vMst1) * EPow P4 (EVar vs2t) / (#324 * EPow P4 (EVar vMt)) + #2200091 * EVar vDmglst2 * EConst Cz2
   * EPow P4 (EVar vMst1) * EPow P4 (EVar vs2t) / (#1215 * EVar vMgl * EPow P4 (EVar vMt)) + #17035 * EConst Cz3 *
   EPow P4 (EVar vMst1) * EPow P4 (EVar vs2t) / (#81 * EPow P4 (EVar vMt)) - #197843 * EVar vDmglst2 * EConst Cz3 *
   EPow P4 (EVar vMst1) * EPow P4 (EVar vs2t) / (#243 * EVar vMgl * EPow P4 (EVar vMt)) - #1297 * EConst Cz4 * EPow P4
   (EVar vMst1) * EPow P4 (EVar vs2t) / (#81 * EPow P4 (EVar vMt)) + #16796 * EVar vDmglst2 * EConst Cz4 * EPow P4
   (EVar vMst1) * EPow P4 (EVar vs2t) / (#243 * EVar vMgl * EPow P4 (EVar vMt)) + #126628974763 * EPow P2 (EVar
   vDmglst2) * EPow P4 (EVar vMst1) * EPow P4 (EVar vs2t) / (#125023500 * EPow P2 (EVar vMgl) * EPow P4 (EVar vMt)) -
   #67184 * EConst COepS2 * EPow P2 (EVar vDmglst2) * EPow P4 (EVar vMst1) * EPow P4 (EVar vs2t) / (#729 * EPow P2
   (EVar vMgl) * EPow P4 (EVar vMt)) + #103270 * EConst CS2 * EPow P2 (EVar vDmglst2) * EPow P4 (EVar vMst1) * EPow P4
   (EVar vs2t) / (#27 * EPow P2 (EVar vMgl) * EPow P4 (EVar vMt)) + #33592 * EConst CT1ep * EPow P2 (EVar vDmglst2) *
   EPow P4 (EVar vMst1) * EPow P4 (EVar vs2t) / (#243 * EPow P2 (EVar vMgl) * EPow P4 (EVar vMt)) + #2200091 * EConst
   Cz2 * EPow P2 (EVar vDmglst2) * EPow P4 (EVar vMst1) * EPow P4 (EVar vs2t) / (#1215 * EPow P2 (EVar vMgl) * EPow P4
   (EVar vMt)) - #197843 * EConst Cz3 * EPow P2 (EVar vDmglst2) * EPow P4 (EVar vMst1) * EPow P4 (EVar vs2t) / (#243 *
   EPow P2 (EVar vMgl) * EPow P4 (EVar vMt)) + #16796 * EConst Cz4 * EPow P2 (EVar vDmglst2) * EPow P4 (EVar vMst1) *
   EPow P4 (EVar vs2t) / (#243 * EPow P2 (EVar vMgl) * EPow P4 (EVar vMt)) + #10 * EPow P2 (EVar vMsq) * EPow P4 (EVar
   vMst1) * EPow P4 (EVar vs2t) / (EPow P2 (EVar vMst2) * EPow P4 (EVar vMt)) - #20 * EConst Cz2 * EPow P2 (EVar vMsq)
   * EPow P4 (EVar vMst1) * EPow P4 (EVar vs2t) / (EPow P2 (EVar vMst2) * EPow P4 (EVar vMt)) + #2953 * EPow P2 (EVar
   vMst2) * EPow P4 (EVar vMst1) * EPow P4 (EVar vs2t) / (#90 * EPow P2 (EVar vMsq) * EPow P4 (EVar vMt)) - #125 *
   EVar vDmglst2 * EPow P2 (EVar vMst2) * EPow P4 (EVar vMst1) * EPow P4 (EVar vs2t) / (#9 * EVar vMgl * EPow P2 (EVar
   vMsq) * EPow P4 (EVar vMt)) - #10 * EConst Cz2 * EPow P2 (EVar vMst2) * EPow P4 (EVar vMst1) * EPow P4 (EVar vs2t)
   / (EPow P2 (EVar vMsq) * EPow P4 (EVar vMt)) - #20 * EVar vDmglst2 * EConst Cz2 * EPow P2 (EVar vMst2) * EPow P4
   (EVar vMst1) * EPow P4 (EVar vs2t) / (EVar vMgl * EPow P2 (EVar vMsq) * EPow P4 (EVar vMt)) - #125 * EPow P2 (EVar
   vDmglst2) * EPow P2 (EVar vMst2) * EPow P4 (EVar vMst1) * EPow P4 (EVar vs2t) / (#9 * EPow P2 (EVar vMgl) * EPow P2
   (EVar vMsq) * EPow P4 (EVar vMt)) - #20 * EConst Cz2 * EPow P2 (EVar vDmglst2) * EPow P2 (EVar vMst2) * EPow P4
   (EVar vMst1) * EPow P4 (EVar vs2t) / (EPow P2 (EVar vMgl) * EPow P2 (EVar vMsq) * EPow P4 (EVar vMt)) - #1945 *
   EPow P2 (EConst Cz2) * EPow P4 (EVar vMst1) * EPow P4 (EVar vs2t) / (#54 * EPow P4 (EVar vMt)) + #8398 * EVar
   vDmglst2 * EPow P2 (EConst Cz2) * EPow P4 (EVar vMst1) * EPow P4 (EVar vs2t) / (#81 * EVar vMgl * EPow P4 (EVar
   vMt)) + #8398 * EPow P2 (EVar vDmglst2) * EPow P2 (EConst Cz2) * EPow P4 (EVar vMst1) * EPow P4 (EVar vs2t) / (#81
   * EPow P2 (EVar vMgl) * EPow P4 (EVar vMt)) + #9403 * EPow P4 (EVar vMst2) * EPow P4 (EVar vs2t) / (#54 * EPow P4
   (EVar vMt)) - #40 * EConst CB4 * EPow P4 (EVar vMst2) * EPow P4 (EVar vs2t) / (#3 * EPow P4 (EVar vMt)) + #4 *
   EConst CD3 * EPow P4 (EVar vMst2) * EPow P4 (EVar vs2t) / (#3 * EPow P4 (EVar vMt)) - #2 * EConst CDN * EPow P4
   (EVar vMst2) * EPow P4 (EVar vs2t) / (#3 * EPow P4 (EVar vMt)) + #7337 * EVar vDmglst2 * EPow P4 (EVar vMst2) *
   EPow P4 (EVar vs2t) / (#54 * EVar vMgl * EPow P4 (EVar vMt)) - #8 * EConst CB4 * EVar vDmglst2 * EPow P4 (EVar
   vMst2) * EPow P4 (EVar vs2t) / (EVar vMgl * EPow P4 (EVar vMt)) + #32 * EConst CD3 * EVar vDmglst2 * EPow P4 (EVar
   vMst2) * EPow P4 (EVar vs2t) / (#3 * EVar vMgl * EPow P4 (EVar vMt)) - #20 * EVar vDmglst2 * EConst CDN * EPow P4
   (EVar vMst2) * EPow P4 (EVar vs2t) / (#3 * EVar vMgl * EPow P4 (EVar vMt)) + #64 * EConst COepS2 * EPow P4 (EVar
   vMst2) * EPow P4 (EVar vs2t) / (#9 * EPow P4 (EVar vMt)) - #112 * EVar vDmglst2 * EConst COepS2 * EPow P4 (EVar
   vMst2) * EPow P4 (EVar vs2t) / (#27 * EVar vMgl * EPow P4 (EVar vMt)) - #3168 * EConst CS2 * EPow P4 (EVar vMst2) *
   EPow P4 (EVar vs2t) / EPow P4 (EVar vMt) - #10062 * EVar vDmglst2 * EConst CS2 * EPow P4 (EVar vMst2) * EPow P4
   (EVar vs2t) / (EVar vMgl * EPow P4 (EVar vMt)) - #32 * EConst CT1ep * EPow P4 (EVar vMst2) * EPow P4 (EVar vs2t) /
   (#3 * EPow P4 (EVar vMt)) + #56 * EVar vDmglst2 * EConst CT1ep * EPow P4 (EVar vMst2) * EPow P4 (EVar vs2t) / (#9 *
   EVar vMgl * EPow P4 (EVar vMt)) - #529 * EConst Cz2 * EPow P4 (EVar vMst2) * EPow P4 (EVar vs2t) / (#9 * EPow P4
   (EVar vMt)) + #3047 * EVar vDmglst2 * EConst Cz2 * EPow P4 (EVar vMst2) * EPow P4 (EVar vs2t) / (#9 * EVar vMgl *
   EPow P4 (EVar vMt)) + #1913 * EConst Cz3 * EPow P4 (EVar vMst2) * EPow P4 (EVar vs2t) / (#3 * EPow P4 (EVar vMt)) +
   #16175 * EVar vDmglst2 * EConst Cz3 * EPow P4 (EVar vMst2) * EPow P4 (EVar vs2t) / (#9 * EVar vMgl * EPow P4 (EVar
   vMt)) - #10 * EConst Cz4 * EPow P4 (EVar vMst2) * EPow P4 (EVar vs2t) / (#3 * EPow P4 (EVar vMt)) + #424 * EVar
   vDmglst2 * EConst Cz4 * EPow P4 (EVar vMst2) * EPow P4 (EVar vs2t) / (#9 * EVar vMgl * EPow P4 (EVar vMt)) +
   #1200149 * EPow P2 (EVar vDmglst2) * EPow P4 (EVar vMst2) * EPow P4 (EVar vs2t) / (#1620 * EPow P2 (EVar vMgl) *
   EPow P4 (EVar vMt)) - #100 * EConst CB4 * EPow P2 (EVar vDmglst2) * EPow P4 (EVar vMst2) * EPow P4 (EVar vs2t) /
   (#3 * EPow P2 (EVar vMgl) * EPow P4 (EVar vMt)) + #112 * EConst CD3 * EPow P2 (EVar vDmglst2) * EPow P4 (EVar
   vMst2) * EPow P4 (EVar vs2t) / (#3 * EPow P2 (EVar vMgl) * EPow P4 (EVar vMt)) - #62 * EConst CDN * EPow P2 (EVar
   vDmglst2) * EPow P4 (EVar vMst2) * EPow P4 (EVar vs2t) / (#3 * EPow P2 (EVar vMgl) * EPow P4 (EVar vMt)) - #280 *
   EConst COepS2 * EPow P2 (EVar vDmglst2) * EPow P4 (EVar vMst2) * EPow P4 (EVar vs2t) / (#81 * EPow P2 (EVar vMgl) *
   EPow P4 (EVar vMt)) - #116129 * EConst CS2 * EPow P2 (EVar vDmglst2) * EPow P4 (EVar vMst2) * EPow P4 (EVar vs2t) /
   (#5 * EPow P2 (EVar vMgl) * EPow P4 (EVar vMt)) + #140 * EConst CT1ep * EPow P2 (EVar vDmglst2) * EPow P4 (EVar
   vMst2) * EPow P4 (EVar vs2t) / (#27 * EPow P2 (EVar vMgl) * EPow P4 (EVar vMt)) + #64091 * EConst Cz2 * EPow P2
   (EVar vDmglst2) * EPow P4 (EVar vMst2) * EPow P4 (EVar vs2t) / (#270 * EPow P2 (EVar vMgl) * EPow P4 (EVar vMt)) +
   #226447 * EConst Cz3 * EPow P2 (EVar vDmglst2) * EPow P4 (EVar vMst2) * EPow P4 (EVar vs2t) / (#54 * EPow P2 (EVar
   vMgl) * EPow P4 (EVar vMt)) + #4444 * EConst Cz4 * EPow P2 (EVar vDmglst2) * EPow P4 (EVar vMst2) * EPow P4 (EVar
   vs2t) / (#27 * EPow P2 (EVar vMgl) * EPow P4 (EVar vMt)) + #10 * EPow P2 (EVar vMsq) * EPow P4 (EVar vMst2) * EPow
   P4 (EVar vs2t) / (EPow P2 (EVar vMst1) * EPow P4 (EVar vMt)) - #20 * EConst Cz2 * EPow P2 (EVar vMsq) * EPow P4
   (EVar vMst2) * EPow P4 (EVar vs2t) / (EPow P2 (EVar vMst1) * EPow P4 (EVar vMt)) - #2636 * EPow P2 (EVar vMst1) *
   EPow P4 (EVar vMst2) * EPow P4 (EVar vs2t) / (#45 * EPow P2 (EVar vMsq) * EPow P4 (EVar vMt)) - #1540 * EVar
   vDmglst2 * EPow P2 (EVar vMst1) * EPow P4 (EVar vMst2) * EPow P4 (EVar vs2t) / (#9 * EVar vMgl * EPow P2 (EVar
   vMsq) * EPow P4 (EVar vMt)) + #100 * EConst Cz2 * EPow P2 (EVar vMst1) * EPow P4 (EVar vMst2) * EPow P4 (EVar vs2t)
   / (#3 * EPow P2 (EVar vMsq) * EPow P4 (EVar vMt)) + #400 * EVar vDmglst2 * EConst Cz2 * EPow P2 (EVar vMst1) * EPow
   P4 (EVar vMst2) * EPow P4 (EVar vs2t) / (#3 * EVar vMgl * EPow P2 (EVar vMsq) * EPow P4 (EVar vMt)) - #3590 * EPow
   P2 (EVar vDmglst2) * EPow P2 (EVar vMst1) * EPow P4 (EVar vMst2) * EPow P4 (EVar vs2t) / (#9 * EPow P2 (EVar vMgl)
   * EPow P2 (EVar vMsq) * EPow P4 (EVar vMt)) + #1000 * EConst Cz2 * EPow P2 (EVar vDmglst2) * EPow P2 (EVar vMst1) *
   EPow P4 (EVar vMst2) * EPow P4 (EVar vs2t) / (#3 * EPow P2 (EVar vMgl) * EPow P2 (EVar vMsq) * EPow P4 (EVar vMt))
   + #16 * EPow P2 (EConst Cz2) * EPow P4 (EVar vMst2) * EPow P4 (EVar vs2t) / EPow P4 (EVar vMt) + #158 * EVar
   vDmglst2 * EPow P2 (EConst Cz2) * EPow P4 (EVar vMst2) * EPow P4 (EVar vs2t) / (#3 * EVar vMgl * EPow P4 (EVar
   vMt)) + #683 * EPow P2 (EVar vDmglst2) * EPow P2 (EConst Cz2) * EPow P4 (EVar vMst2) * EPow P4 (EVar vs2t) / (#9 *
   EPow P2 (EVar vMgl) * EPow P4 (EVar vMt)) + #2024719 * EPow P4 (EVar vMst1) * EPow P4 (EVar vMst2) * EPow P4 (EVar
   vs2t) / (#205800 * EPow P4 (EVar vMsq) * EPow P4 (EVar vMt)) + #565 * EVar vDmglst2 * EPow P4 (EVar vMst1) * EPow
   P4 (EVar vMst2) * EPow P4 (EVar vs2t) / (#36 * EVar vMgl * EPow P4 (EVar vMsq) * EPow P4 (EVar vMt)) - #25 * EConst
   Cz2 * EPow P4 (EVar vMst1) * EPow P4 (EVar vMst2) * EPow P4 (EVar vs2t) / (#6 * EPow P4 (EVar vMsq) * EPow P4 (EVar
   vMt)) - #50 * EVar vDmglst2 * EConst Cz2 * EPow P4 (EVar vMst1) * EPow P4 (EVar vMst2) * EPow P4 (EVar vs2t) / (#3
   * EVar vMgl * EPow P4 (EVar vMsq) * EPow P4 (EVar vMt)) + #565 * EPow P2 (EVar vDmglst2) * EPow P4 (EVar vMst1) *
   EPow P4 (EVar vMst2) * EPow P4 (EVar vs2t) / (#36 * EPow P2 (EVar vMgl) * EPow P4 (EVar vMsq) * EPow P4 (EVar vMt))
   - #50 * EConst Cz2 * EPow P2 (EVar vDmglst2) * EPow P4 (EVar vMst1) * EPow P4 (EVar vMst2) * EPow P4 (EVar vs2t) /
   (#3 * EPow P2 (EVar vMgl) * EPow P4 (EVar vMsq) * EPow P4 (EVar vMt)) + #2 * EPow P3 (ELog (EPow P2 (EVar vMst1) /
   EPow P2 (EVar vMst2))) * (#2 * EVar vDmglst2 * EVar vMgl * (EPow P2 (EVar vMst1) * EPow P2 (EVar vMst2) * (#2312 *
   EPow P2 (EVar vMst2) * EPow P2 (EVar vMt) * EPow P2 (EVar vs2t) + #768 * EVar vMst2 * EVar vs2t * EPow P3 (EVar
   vMt) + #960 * EVar vMt * EPow P3 (EVar vMst2) * EPow P3 (EVar vs2t) - #3824 * EPow P4 (EVar vMt) - #77 * EPow P4
   (EVar vMst2) * EPow P4 (EVar vs2t)) + #24 * EPow P4 (EVar vMst2) * (#32 * EPow P2 (EVar vMst2) * EPow P2 (EVar vMt)
   * EPow P2 (EVar vs2t) - #128 * EVar vMst2 * EVar vs2t * EPow P3 (EVar vMt) + #72 * EVar vMt * EPow P3 (EVar vMst2)
   * EPow P3 (EVar vs2t) - #64 * EPow P4 (EVar vMt) + #19 * EPow P4 (EVar vMst2) * EPow P4 (EVar vs2t)) + EPow P4
   (EVar vMst1) * (#2896 * EPow P2 (EVar vMst2) * EPow P2 (EVar vMt) * EPow P2 (EVar vs2t) - #2304 * EVar vMst2 * EVar
   vs2t * EPow P3 (EVar vMt) + #672 * EVar vMt * EPow P3 (EVar vMst2) * EPow P3 (EVar vs2t) + #5536 * EPow P4 (EVar
   vMt) + #33 * EPow P4 (EVar vMst2) * EPow P4 (EVar vs2t))) + EPow P2 (EVar vDmglst2) * (EPow P2 (EVar vMst1) * EPow
   P2 (EVar vMst2) * (#6904 * EPow P2 (EVar vMst2) * EPow P2 (EVar vMt) * EPow P2 (EVar vs2t) - #1536 * EVar vMst2 *
   EVar vs2t * EPow P3 (EVar vMt) + #1920 * EVar vMt * EPow P3 (EVar vMst2) * EPow P3 (EVar vs2t) - #2320 * EPow P4
   (EVar vMt) - #211 * EPow P4 (EVar vMst2) * EPow P4 (EVar vs2t)) + #2 * EPow P4 (EVar vMst1) * (#2896 * EPow P2
   (EVar vMst2) * EPow P2 (EVar vMt) * EPow P2 (EVar vs2t) - #2304 * EVar vMst2 * EVar vs2t * EPow P3 (EVar vMt) +
   #672 * EVar vMt * EPow P3 (EVar vMst2) * EPow P3 (EVar vs2t) + #5536 * EPow P4 (EVar vMt) + #33 * EPow P4 (EVar
   vMst2) * EPow P4 (EVar vs2t)) + #24 * EPow P4 (EVar vMst2) * (#96 * EPow P2 (EVar vMst2) * EPow P2 (EVar vMt) *
   EPow P2 (EVar vs2t) - #256 * EVar vMst2 * EVar vs2t * EPow P3 (EVar vMt) + #240 * EVar vMt * EPow P3 (EVar vMst2) *
   EPow P3 (EVar vs2t) - #192 * EPow P4 (EVar vMt) + #57 * EPow P4 (EVar vMst2) * EPow P4 (EVar vs2t))) + EPow P2
   (EVar vMgl) * (- #4 * EPow P4 (EVar vMst1) * (- #337 * EPow P2 (EVar vMst2) * EPow P2 (EVar vMt) * EPow P2 (EVar
   vs2t) + #256 * EVar vMst2 * EVar vs2t * EPow P3 (EVar vMt) - #400 * EVar vMt * EPow P3 (EVar vMst2) * EPow P3 (EVar
   vs2t) + #2420 * EPow P4 (EVar vMt) - #68 * EPow P4 (EVar vMst2) * EPow P4 (EVar vs2t)) + #12 * EPow P4 (EVar vMst2)
   * (- #8 * EPow P2 (EVar vMst2) * EPow P2 (EVar vMt) * EPow P2 (EVar vs2t) - #512 * EVar vMst2 * EVar vs2t * EPow P3
   (EVar vMt) + #160 * EVar vMt * EPow P3 (EVar vMst2) * EPow P3 (EVar vs2t) + #74 * EPow P4 (EVar vMt) + #47 * EPow
   P4 (EVar vMst2) * EPow P4 (EVar vs2t)) + EPow P2 (EVar vMst1) * EPow P2 (EVar vMst2) * (#2152 * EPow P2 (EVar
   vMst2) * EPow P2 (EVar vMt) * EPow P2 (EVar vs2t) - #4608 * EVar vMst2 * EVar vs2t * EPow P3 (EVar vMt) + #1920 *
   EVar vMt * EPow P3 (EVar vMst2) * EPow P3 (EVar vs2t) - #2320 * EPow P4 (EVar vMt) + #185 * EPow P4 (EVar vMst2) *
   EPow P4 (EVar vs2t)))) / (#9 * EPow P2 (EVar vMgl) * EPow P4 (EVar vMst2) * EPow P4 (EVar vMt)) - #5680 * EPow P3
   (EVar vs2t) * EPow P5 (EVar vMst2) / (#9 * EPow P2 (EVar vMsq) * EPow P3 (EVar vMt)) - #7600 * EVar vDmglst2 * EPow
   P3 (EVar vs2t) * EPow P5 (EVar vMst2) / (#3 * EVar vMgl * EPow P2 (EVar vMsq) * EPow P3 (EVar vMt)) + #640 * EConst
   Cz2 * EPow P3 (EVar vs2t) * EPow P5 (EVar vMst2) / (#3 * EPow P2 (EVar vMsq) * EPow P3 (EVar vMt)) + #1280 * EVar
   vDmglst2 * EConst Cz2 * EPow P3 (EVar vs2t) * EPow P5 (EVar vMst2) / (EVar vMgl * EPow P2 (EVar vMsq) * EPow P3
   (EVar vMt)) - #63520 * EPow P2 (EVar vDmglst2) * EPow P3 (EVar vs2t) * EPow P5 (EVar vMst2) / (#9 * EPow P2 (EVar
   vMgl) * EPow P2 (EVar vMsq) * EPow P3 (EVar vMt)) + #4160 * EConst Cz2 * EPow P2 (EVar vDmglst2) * EPow P3 (EVar
   vs2t) * EPow P5 (EVar vMst2) / (EPow P2 (EVar vMgl) * EPow P2 (EVar vMsq) * EPow P3 (EVar vMt)) + #256 * EPow P3
   (EVar vs2t) * EPow P5 (EVar vMst2) / (#3 * EPow P2 (EVar vMst1) * EPow P3 (EVar vMt)) - #256 * EVar vDmglst2 * EPow
   P3 (EVar vs2t) * EPow P5 (EVar vMst2) / (#3 * EVar vMgl * EPow P2 (EVar vMst1) * EPow P3 (EVar vMt)) - #1024 * EPow
   P2 (EVar vDmglst2) * EPow P3 (EVar vs2t) * EPow P5 (EVar vMst2) / (#3 * EPow P2 (EVar vMgl) * EPow P2 (EVar vMst1)
   * EPow P3 (EVar vMt)) - #8240 * EVar vs2t * EPow P5 (EVar vMst2) / (#9 * EVar vMt * EPow P4 (EVar vMsq)) - #30160 *
   EVar vDmglst2 * EVar vs2t * EPow P5 (EVar vMst2) / (#9 * EVar vMgl * EVar vMt * EPow P4 (EVar vMsq)) + #640 * EVar
   vs2t * EConst Cz2 * EPow P5 (EVar vMst2) / (EVar vMt * EPow P4 (EVar vMsq)) + #7040 * EVar vDmglst2 * EVar vs2t *
   EConst Cz2 * EPow P5 (EVar vMst2) / (#3 * EVar vMgl * EVar vMt * EPow P4 (EVar vMsq)) - #28000 * EVar vs2t * EPow
   P2 (EVar vDmglst2) * EPow P5 (EVar vMst2) / (#3 * EVar vMt * EPow P2 (EVar vMgl) * EPow P4 (EVar vMsq)) + #18560 *
   EVar vs2t * EConst Cz2 * EPow P2 (EVar vDmglst2) * EPow P5 (EVar vMst2) / (#3 * EVar vMt * EPow P2 (EVar vMgl) *
   EPow P4 (EVar vMsq)) + #1115 * EPow P2 (EVar vMst1) * EPow P3 (EVar vs2t) * EPow P5 (EVar vMst2) / (#9 * EPow P3
   (EVar vMt) * EPow P4 (EVar vMsq)) + #4115 * EVar vDmglst2 * EPow P2 (EVar vMst1) * EPow P3 (EVar vs2t) * EPow P5
   (EVar vMst2) / (#9 * EVar vMgl * EPow P3 (EVar vMt) * EPow P4 (EVar vMsq)) - #40 * EConst Cz2 * EPow P2 (EVar
   vMst1) * EPow P3 (EVar vs2t) * EPow P5 (EVar vMst2) / (EPow P3 (EVar vMt) * EPow P4 (EVar vMsq)) - #200 * EVar
   vDmglst2 * EConst Cz2 * EPow P2 (EVar vMst1) * EPow P3 (EVar vs2t) * EPow P5 (EVar vMst2) / (EVar vMgl * EPow P3
   (EVar vMt) * EPow P4 (EVar vMsq)) + #2965 * EPow P2 (EVar vDmglst2) * EPow P2 (EVar vMst1) * EPow P3 (EVar vs2t) *
   EPow P5 (EVar vMst2) / (#3 * EPow P2 (EVar vMgl) * EPow P3 (EVar vMt) * EPow P4 (EVar vMsq)) - #600 * EConst Cz2 *
   EPow P2 (EVar vDmglst2) * EPow P2 (EVar vMst1) * EPow P3 (EVar vs2t) * EPow P5 (EVar vMst2) / (EPow P2 (EVar vMgl)
   * EPow P3 (EVar vMt) * EPow P4 (EVar vMsq)) + EPow P2 (ELog (EPow P2 (EVar vMst1) / EPow P2 (EVar vMsq))) * (- #105
   * ELog (EPow P2 (EVar vMst1) / EPow P2 (EVar vMst2)) * EPow P2 (EVar vMst1) * EPow P4 (EVar vMsq) * (#2 * EVar
   vMst2 * EVar vs2t * EPow P2 (EVar vDmglst2) * (- #8 * EVar vMt * (EPow P2 (EVar vMst1) + EPow P2 (EVar vMst2)) *
   EPow P2 (EVar vs2t) + #32 * EPow P3 (EVar vMt) + #9 * EVar vMst2 * (EPow P2 (EVar vMst1) - EPow P2 (EVar vMst2)) *
   EPow P3 (EVar vs2t)) - #4 * EVar vDmglst2 * EVar vMgl * EVar vMst2 * EVar vs2t * (#4 * EVar vMt * (EPow P2 (EVar
   vMst1) + EPow P2 (EVar vMst2)) * EPow P2 (EVar vs2t) - #16 * EPow P3 (EVar vMt) + #3 * EVar vMst2 * (- EPow P2
   (EVar vMst1) + EPow P2 (EVar vMst2)) * EPow P3 (EVar vs2t)) + EPow P2 (EVar vMgl) * (#8 * (- EPow P2 (EVar vMst1) +
   EPow P2 (EVar vMst2)) * EPow P2 (EVar vMt) * EPow P2 (EVar vs2t) + #64 * EVar vMst2 * EVar vs2t * EPow P3 (EVar
   vMt) - #16 * EVar vMst2 * EVar vMt * (EPow P2 (EVar vMst1) + EPow P2 (EVar vMst2)) * EPow P3 (EVar vs2t) + #16 *
   EPow P4 (EVar vMt) + (#6 * EPow P2 (EVar vMst1) * EPow P2 (EVar vMst2) + EPow P4 (EVar vMst1) - #7 * EPow P4 (EVar
   vMst2)) * EPow P4 (EVar vs2t))) + #70 * EVar vDmglst2 * EVar vMgl * (- #64 * EVar vMst2 * EPow P2 (EVar vMsq) *
   EPow P2 (EVar vMst1) * (- #3 * EVar vMst2 * EVar vMt + EVar vs2t * EPow P2 (EVar vMst1) - EVar vs2t * EPow P2 (EVar
   vMst2)) * EPow P3 (EVar vMt) - #16 * EVar vMst2 * EPow P2 (EVar vMst1) * EPow P3 (EVar vMt) * (#3 * EVar vMst2 * (-
   EVar vMt + #2 * EVar vMst2 * EVar vs2t) * EPow P2 (EVar vMst1) - (#13 * EVar vMt + #7 * EVar vMst2 * EVar vs2t) *
   EPow P3 (EVar vMst2) + EVar vs2t * EPow P4 (EVar vMst1)) + #3 * EPow P4 (EVar vMsq) * (#3 * EPow P2 (- #4 * EVar
   vMst2 * EPow P2 (EVar vMt) + EPow P2 (EVar vs2t) * EPow P3 (EVar vMst2)) - EPow P2 (EVar vs2t) * (#16 * EVar vMst2
   * EVar vMt * EVar vs2t + #24 * EPow P2 (EVar vMt) + #3 * EPow P2 (EVar vMst2) * EPow P2 (EVar vs2t)) * EPow P4
   (EVar vMst1) + EPow P2 (EVar vMst1) * (#48 * EPow P2 (EVar vMst2) * EPow P2 (EVar vMt) * EPow P2 (EVar vs2t) + #16
   * EVar vMt * EPow P3 (EVar vMst2) * EPow P3 (EVar vs2t) + #48 * EPow P4 (EVar vMt) - #3 * EPow P4 (EVar vMst2) *
   EPow P4 (EVar vs2t)) + #3 * EPow P4 (EVar vs2t) * EPow P6 (EVar vMst1))) + #35 * EPow P2 (EVar vDmglst2) * (- #64 *
   EVar vMst2 * EPow P2 (EVar vMsq) * EPow P2 (EVar vMst1) * (- #9 * EVar vMst2 * EVar vMt + #2 * EVar vs2t * EPow P2
   (EVar vMst1) - #2 * EVar vs2t * EPow P2 (EVar vMst2)) * EPow P3 (EVar vMt) - #16 * EVar vMst2 * EPow P2 (EVar
   vMst1) * EPow P3 (EVar vMt) * (#3 * EVar vMst2 * (- #3 * EVar vMt + #8 * EVar vMst2 * EVar vs2t) * EPow P2 (EVar
   vMst1) - (#59 * EVar vMt + #26 * EVar vMst2 * EVar vs2t) * EPow P3 (EVar vMst2) + #2 * EVar vs2t * EPow P4 (EVar
   vMst1)) + #3 * EPow P4 (EVar vMsq) * (#9 * EPow P2 (- #4 * EVar vMst2 * EPow P2 (EVar vMt) + EPow P2 (EVar vs2t) *
   EPow P3 (EVar vMst2)) - EPow P2 (EVar vs2t) * (#32 * EVar vMst2 * EVar vMt * EVar vs2t + #72 * EPow P2 (EVar vMt) +
   #9 * EPow P2 (EVar vMst2) * EPow P2 (EVar vs2t)) * EPow P4 (EVar vMst1) + EPow P2 (EVar vMst1) * (#144 * EPow P2
   (EVar vMst2) * EPow P2 (EVar vMt) * EPow P2 (EVar vs2t) + #32 * EVar vMt * EPow P3 (EVar vMst2) * EPow P3 (EVar
   vs2t) + #144 * EPow P4 (EVar vMt) - #9 * EPow P4 (EVar vMst2) * EPow P4 (EVar vs2t)) + #6 * EPow P4 (EVar vs2t) *
   EPow P6 (EVar vMst1))) + EPow P2 (EVar vMgl) * (#224 * EPow P2 (EVar vMsq) * EPow P2 (EVar vMst1) * EPow P2 (EVar
   vMt) * (EPow P2 (EVar vMst1) * (- #20 * EVar vMst2 * EVar vMt * EVar vs2t + #7 * EPow P2 (EVar vMt) - #2 * EPow P2
   (EVar vMst2) * EPow P2 (EVar vs2t)) + EPow P2 (EVar vMst2) * (#20 * EVar vMst2 * EVar vMt * EVar vs2t + #37 * EPow
   P2 (EVar vMt) + EPow P2 (EVar vMst2) * EPow P2 (EVar vs2t)) + EPow P2 (EVar vs2t) * EPow P4 (EVar vMst1)) + #4 *
   EPow P2 (EVar vMst1) * EPow P2 (EVar vMt) * (#840 * EVar vMst2 * EVar vMt * EVar vs2t + #1234 * EPow P2 (EVar vMt)
   + #15 * EPow P2 (EVar vMst2) * EPow P2 (EVar vs2t)) * EPow P4 (EVar vMst2) + #4 * EPow P2 (EVar vMst2) * EPow P4
   (EVar vMst1) * (- #15 * EPow P2 (EVar vMst2) * EPow P2 (EVar vMt) * EPow P2 (EVar vs2t) - #560 * EVar vMst2 * EVar
   vs2t * EPow P3 (EVar vMt) + #420 * EPow P4 (EVar vMt) + EPow P4 (EVar vMst2) * EPow P4 (EVar vs2t)) + #2 * (- #30 *
   EPow P2 (EVar vMst2) * EPow P2 (EVar vMt) * EPow P2 (EVar vs2t) - #560 * EVar vMst2 * EVar vs2t * EPow P3 (EVar
   vMt) + #228 * EPow P4 (EVar vMt) - #3 * EPow P4 (EVar vMst2) * EPow P4 (EVar vs2t)) * EPow P6 (EVar vMst1) + #35 *
   EPow P4 (EVar vMsq) * (#9 * EPow P2 (- #4 * EVar vMst2 * EPow P2 (EVar vMt) + EPow P2 (EVar vs2t) * EPow P3 (EVar
   vMst2)) - #3 * EPow P2 (EVar vs2t) * (#32 * EVar vMst2 * EVar vMt * EVar vs2t + #24 * EPow P2 (EVar vMt) + #7 *
   EPow P2 (EVar vMst2) * EPow P2 (EVar vs2t)) * EPow P4 (EVar vMst1) + EPow P2 (EVar vMst1) * (#144 * EPow P2 (EVar
   vMst2) * EPow P2 (EVar vMt) * EPow P2 (EVar vs2t) + #96 * EVar vMt * EPow P3 (EVar vMst2) * EPow P3 (EVar vs2t) +
   #176 * EPow P4 (EVar vMt) - #3 * EPow P4 (EVar vMst2) * EPow P4 (EVar vs2t)) + #15 * EPow P4 (EVar vs2t) * EPow P6
   (EVar vMst1)))) / (#21 * EPow P2 (EVar vMgl) * EPow P2 (EVar vMst1) * EPow P4 (EVar vMsq) * EPow P4 (EVar vMt)) +
   #1720 * EPow P2 (EVar vs2t) * EPow P6 (EVar vMst2) / (#9 * EPow P2 (EVar vMsq) * EPow P2 (EVar vMst1) * EPow P2
   (EVar vMt)) + #4480 * EVar vDmglst2 * EPow P2 (EVar vs2t) * EPow P6 (EVar vMst2) / (#9 * EVar vMgl * EPow P2 (EVar
   vMsq) * EPow P2 (EVar vMst1) * EPow P2 (EVar vMt)) + #6400 * EPow P2 (EVar vDmglst2) * EPow P2 (EVar vs2t) * EPow
   P6 (EVar vMst2) / (#9 * EPow P2 (EVar vMgl) * EPow P2 (EVar vMsq) * EPow P2 (EVar vMst1) * EPow P2 (EVar vMt)) -
   #670 * EPow P6 (EVar vMst2) / (#9 * EPow P2 (EVar vMst1) * EPow P4 (EVar vMsq)) - #260 * EVar vDmglst2 * EPow P6
   (EVar vMst2) / (EVar vMgl * EPow P2 (EVar vMst1) * EPow P4 (EVar vMsq)) - #350 * EPow P2 (EVar vDmglst2) * EPow P6
   (EVar vMst2) / (EPow P2 (EVar vMgl) * EPow P2 (EVar vMst1) * EPow P4 (EVar vMsq)) - #107588 * EPow P2 (EVar vs2t) *
   EPow P6 (EVar vMst2) / (#1715 * EPow P2 (EVar vMt) * EPow P4 (EVar vMsq)) - #2030 * EVar vDmglst2 * EPow P2 (EVar
   vs2t) * EPow P6 (EVar vMst2) / (#9 * EVar vMgl * EPow P2 (EVar vMt) * EPow P4 (EVar vMsq)) - #2405 * EPow P2 (EVar
   vDmglst2) * EPow P2 (EVar vs2t) * EPow P6 (EVar vMst2) / (#9 * EPow P2 (EVar vMgl) * EPow P2 (EVar vMt) * EPow P4
   (EVar vMsq)) + #128 * EPow P2 (EVar vs2t) * EPow P6 (EVar vMst2) / (#3 * EPow P2 (EVar vMt) * EPow P4 (EVar vMst1))
   - #512 * EPow P2 (EVar vDmglst2) * EPow P2 (EVar vs2t) * EPow P6 (EVar vMst2) / (#3 * EPow P2 (EVar vMgl) * EPow P2
   (EVar vMt) * EPow P4 (EVar vMst1)) + #2986 * EPow P4 (EVar vs2t) * EPow P6 (EVar vMst2) / (#45 * EPow P2 (EVar
   vMsq) * EPow P4 (EVar vMt)) + #2300 * EVar vDmglst2 * EPow P4 (EVar vs2t) * EPow P6 (EVar vMst2) / (#9 * EVar vMgl
   * EPow P2 (EVar vMsq) * EPow P4 (EVar vMt)) - #70 * EConst Cz2 * EPow P4 (EVar vs2t) * EPow P6 (EVar vMst2) / (#3 *
   EPow P2 (EVar vMsq) * EPow P4 (EVar vMt)) - #340 * EVar vDmglst2 * EConst Cz2 * EPow P4 (EVar vs2t) * EPow P6 (EVar
   vMst2) / (#3 * EVar vMgl * EPow P2 (EVar vMsq) * EPow P4 (EVar vMt)) + #5020 * EPow P2 (EVar vDmglst2) * EPow P4
   (EVar vs2t) * EPow P6 (EVar vMst2) / (#9 * EPow P2 (EVar vMgl) * EPow P2 (EVar vMsq) * EPow P4 (EVar vMt)) - #910 *
   EConst Cz2 * EPow P2 (EVar vDmglst2) * EPow P4 (EVar vs2t) * EPow P6 (EVar vMst2) / (#3 * EPow P2 (EVar vMgl) *
   EPow P2 (EVar vMsq) * EPow P4 (EVar vMt)) + #135 * EPow P4 (EVar vs2t) * EPow P6 (EVar vMst2) / (#2 * EPow P2 (EVar
   vMst1) * EPow P4 (EVar vMt)) - #115 * EVar vDmglst2 * EPow P4 (EVar vs2t) * EPow P6 (EVar vMst2) / (#3 * EVar vMgl
   * EPow P2 (EVar vMst1) * EPow P4 (EVar vMt)) + #98 * EConst Cz2 * EPow P4 (EVar vs2t) * EPow P6 (EVar vMst2) / (#3
   * EPow P2 (EVar vMst1) * EPow P4 (EVar vMt)) + #184 * EVar vDmglst2 * EConst Cz2 * EPow P4 (EVar vs2t) * EPow P6
   (EVar vMst2) / (#3 * EVar vMgl * EPow P2 (EVar vMst1) * EPow P4 (EVar vMt)) - #1405 * EPow P2 (EVar vDmglst2) *
   EPow P4 (EVar vs2t) * EPow P6 (EVar vMst2) / (#6 * EPow P2 (EVar vMgl) * EPow P2 (EVar vMst1) * EPow P4 (EVar vMt))
   + #96 * EConst Cz2 * EPow P2 (EVar vDmglst2) * EPow P4 (EVar vs2t) * EPow P6 (EVar vMst2) / (EPow P2 (EVar vMgl) *
   EPow P2 (EVar vMst1) * EPow P4 (EVar vMt)) - #45671209 * EPow P2 (EVar vMst1) * EPow P4 (EVar vs2t) * EPow P6 (EVar
   vMst2) / (#1852200 * EPow P4 (EVar vMsq) * EPow P4 (EVar vMt)) - #3965 * EVar vDmglst2 * EPow P2 (EVar vMst1) *
   EPow P4 (EVar vs2t) * EPow P6 (EVar vMst2) / (#36 * EVar vMgl * EPow P4 (EVar vMsq) * EPow P4 (EVar vMt)) + #35 *
   EConst Cz2 * EPow P2 (EVar vMst1) * EPow P4 (EVar vs2t) * EPow P6 (EVar vMst2) / (#3 * EPow P4 (EVar vMsq) * EPow
   P4 (EVar vMt)) + #70 * EVar vDmglst2 * EConst Cz2 * EPow P2 (EVar vMst1) * EPow P4 (EVar vs2t) * EPow P6 (EVar
   vMst2) / (EVar vMgl * EPow P4 (EVar vMsq) * EPow P4 (EVar vMt)) - #2755 * EPow P2 (EVar vDmglst2) * EPow P2 (EVar
   vMst1) * EPow P4 (EVar vs2t) * EPow P6 (EVar vMst2) / (#8 * EPow P2 (EVar vMgl) * EPow P4 (EVar vMsq) * EPow P4
   (EVar vMt)) + #245 * EConst Cz2 * EPow P2 (EVar vDmglst2) * EPow P2 (EVar vMst1) * EPow P4 (EVar vs2t) * EPow P6
   (EVar vMst2) / (EPow P2 (EVar vMgl) * EPow P4 (EVar vMsq) * EPow P4 (EVar vMt)) - #27955 * EVar vDmglst2 * EPow P3
   (EVar vs2t) * EPow P7 (EVar vMst2) / (#27 * EVar vMgl * EPow P3 (EVar vMt) * EPow P4 (EVar vMsq)) + #1640 * EVar
   vDmglst2 * EConst Cz2 * EPow P3 (EVar vs2t) * EPow P7 (EVar vMst2) / (#3 * EVar vMgl * EPow P3 (EVar vMt) * EPow P4
   (EVar vMsq)) - #106375 * EPow P2 (EVar vDmglst2) * EPow P3 (EVar vs2t) * EPow P7 (EVar vMst2) / (#27 * EPow P2
   (EVar vMgl) * EPow P3 (EVar vMt) * EPow P4 (EVar vMsq)) + #7160 * EConst Cz2 * EPow P2 (EVar vDmglst2) * EPow P3
   (EVar vs2t) * EPow P7 (EVar vMst2) / (#3 * EPow P2 (EVar vMgl) * EPow P3 (EVar vMt) * EPow P4 (EVar vMsq)) + #45 *
   EPow P2 (EVar vDmglst2) * EPow P2 (EVar vs2t) * EPow P8 (EVar vMst2) / (EPow P2 (EVar vMgl) * EPow P2 (EVar vMst1)
   * EPow P2 (EVar vMt) * EPow P4 (EVar vMsq)) - #80 * EPow P2 (EVar vDmglst2) * EPow P4 (EVar vs2t) * EPow P8 (EVar
   vMst2) / (#3 * EPow P2 (EVar vMgl) * EPow P2 (EVar vMsq) * EPow P2 (EVar vMst1) * EPow P4 (EVar vMt)) + #16435 *
   EPow P2 (EVar vDmglst2) * EPow P4 (EVar vs2t) * EPow P8 (EVar vMst2) / (#72 * EPow P2 (EVar vMgl) * EPow P4 (EVar
   vMsq) * EPow P4 (EVar vMt)) - #150 * EConst Cz2 * EPow P2 (EVar vDmglst2) * EPow P4 (EVar vs2t) * EPow P8 (EVar
   vMst2) / (EPow P2 (EVar vMgl) * EPow P4 (EVar vMsq) * EPow P4 (EVar vMt)) + #64 * EPow P2 (EVar vDmglst2) * EPow P4
   (EVar vs2t) * EPow P8 (EVar vMst2) / (#3 * EPow P2 (EVar vMgl) * EPow P4 (EVar vMst1) * EPow P4 (EVar vMt)) + EPow
   P2 (ELog (EPow P2 (EVar vMst1) / EPow P2 (EVar vMst2))) * (#4 * EVar vDmglst2 * EVar vMgl * (- #525 * EPow P4 (EVar
   vMst1) * (#20 * EVar vMt * EPow P3 (EVar vMst2) * (- #12 * EVar vMst2 * EVar vs2t * EPow P2 (EVar vMt) + #4 * EPow
   P3 (EVar vMt) + #3 * EPow P3 (EVar vMst2) * EPow P3 (EVar vs2t)) + EPow P4 (EVar vMst1) * (- #16 * EVar vs2t * EPow
   P3 (EVar vMt) + #5 * EPow P3 (EVar vMst2) * EPow P4 (EVar vs2t)) + #3 * EVar vMst2 * EPow P2 (EVar vMst1) * (- #32
   * EVar vMst2 * EVar vs2t * EPow P3 (EVar vMt) + #20 * EVar vMt * EPow P3 (EVar vMst2) * EPow P3 (EVar vs2t) + #16 *
   EPow P4 (EVar vMt) - #7 * EPow P4 (EVar vMst2) * EPow P4 (EVar vs2t))) * EPow P5 (EVar vMst2) - #1050 * EPow P2
   (EVar vMsq) * EPow P2 (EVar vMst2) * EPow P4 (EVar vMst1) * (#3 * EPow P4 (EVar vMst1) * (#16 * EPow P4 (EVar vMt)
   + EPow P4 (EVar vMst2) * EPow P4 (EVar vs2t)) + EPow P4 (EVar vMst2) * (- #192 * EVar vMst2 * EVar vs2t * EPow P3
   (EVar vMt) + #48 * EVar vMt * EPow P3 (EVar vMst2) * EPow P3 (EVar vs2t) + #48 * EPow P4 (EVar vMt) + #17 * EPow P4
   (EVar vMst2) * EPow P4 (EVar vs2t)) - #4 * EPow P2 (EVar vMst1) * (#8 * EVar vs2t * EPow P3 (EVar vMst2) * EPow P3
   (EVar vMt) - #12 * EVar vMt * EPow P3 (EVar vs2t) * EPow P5 (EVar vMst2) + #5 * EPow P4 (EVar vs2t) * EPow P6 (EVar
   vMst2))) + EPow P4 (EVar vMsq) * (#35 * EPow P4 (EVar vMst1) * EPow P4 (EVar vMst2) * (#9384 * EPow P2 (EVar vMst2)
   * EPow P2 (EVar vMt) * EPow P2 (EVar vs2t) + #11168 * EVar vMst2 * EVar vs2t * EPow P3 (EVar vMt) + #4056 * EVar
   vMt * EPow P3 (EVar vMst2) * EPow P3 (EVar vs2t) - #16912 * EPow P4 (EVar vMt) + #717 * EPow P4 (EVar vMst2) * EPow
   P4 (EVar vs2t)) - #28 * EPow P2 (EVar vMst2) * (- #998 * EPow P2 (EVar vMst2) * EPow P2 (EVar vMt) * EPow P2 (EVar
   vs2t) - #36680 * EVar vMst2 * EVar vs2t * EPow P3 (EVar vMt) + #3150 * EVar vMt * EPow P3 (EVar vMst2) * EPow P3
   (EVar vs2t) + #37236 * EPow P4 (EVar vMt) + #1411 * EPow P4 (EVar vMst2) * EPow P4 (EVar vs2t)) * EPow P6 (EVar
   vMst1) + #840 * EPow P2 (EVar vMst1) * (- #136 * EPow P2 (EVar vMst2) * EPow P2 (EVar vMt) * EPow P2 (EVar vs2t) -
   #192 * EVar vMst2 * EVar vs2t * EPow P3 (EVar vMt) + #48 * EVar vMt * EPow P3 (EVar vMst2) * EPow P3 (EVar vs2t) +
   #208 * EPow P4 (EVar vMt) + #29 * EPow P4 (EVar vMst2) * EPow P4 (EVar vs2t)) * EPow P6 (EVar vMst2) + (#294096 *
   EPow P2 (EVar vMst2) * EPow P2 (EVar vMt) * EPow P2 (EVar vs2t) - #394240 * EVar vMst2 * EVar vs2t * EPow P3 (EVar
   vMt) - #31080 * EVar vMt * EPow P3 (EVar vMst2) * EPow P3 (EVar vs2t) + #2542880 * EPow P4 (EVar vMt) - #6102 *
   EPow P4 (EVar vMst2) * EPow P4 (EVar vs2t)) * EPow P8 (EVar vMst1) + #26880 * EPow P2 (EVar vMt) * (- #2 * EPow P2
   (EVar vMt) + EPow P2 (EVar vMst2) * EPow P2 (EVar vs2t)) * EPow P8 (EVar vMst2))) + EPow P2 (EVar vMgl) * (- #840 *
   EPow P2 (EVar vMsq) * EPow P2 (EVar vMst2) * EPow P4 (EVar vMst1) * (EPow P2 (EVar vMst1) * EPow P2 (EVar vMst2) *
   (- #12 * EPow P2 (EVar vMst2) * EPow P2 (EVar vMt) * EPow P2 (EVar vs2t) - #160 * EVar vMst2 * EVar vs2t * EPow P3
   (EVar vMt) + #80 * EVar vMt * EPow P3 (EVar vMst2) * EPow P3 (EVar vs2t) + #80 * EPow P4 (EVar vMt) - #19 * EPow P4
   (EVar vMst2) * EPow P4 (EVar vs2t)) + EPow P4 (EVar vMst1) * (- #120 * EPow P4 (EVar vMt) + #9 * EPow P4 (EVar
   vMst2) * EPow P4 (EVar vs2t)) + #2 * EPow P4 (EVar vMst2) * (- #9 * EPow P2 (EVar vMst2) * EPow P2 (EVar vMt) *
   EPow P2 (EVar vs2t) - #160 * EVar vMst2 * EVar vs2t * EPow P3 (EVar vMt) + #40 * EVar vMt * EPow P3 (EVar vMst2) *
   EPow P3 (EVar vs2t) + #72 * EPow P4 (EVar vMt) + #10 * EPow P4 (EVar vMst2) * EPow P4 (EVar vs2t))) + #30 * (#192 *
   EPow P2 (EVar vMst2) * EPow P2 (EVar vMt) * EPow P2 (EVar vs2t) + #2240 * EVar vMst2 * EVar vs2t * EPow P3 (EVar
   vMt) - #840 * EVar vMt * EPow P3 (EVar vMst2) * EPow P3 (EVar vs2t) - #1680 * EPow P4 (EVar vMt) + #207 * EPow P4
   (EVar vMst2) * EPow P4 (EVar vs2t)) * EPow P6 (EVar vMst1) * EPow P6 (EVar vMst2) - #15 * EPow P4 (EVar vMst2) * (-
   #2240 * EVar vMst2 * EVar vs2t * EPow P3 (EVar vMt) + #1680 * EPow P4 (EVar vMt) + #223 * EPow P4 (EVar vMst2) *
   EPow P4 (EVar vs2t)) * EPow P8 (EVar vMst1) + #240 * EPow P2 (EVar vMt) * (#420 * EVar vMst2 * EVar vMt * EVar vs2t
   - #223 * EPow P2 (EVar vMt) + #11 * EPow P2 (EVar vMst2) * EPow P2 (EVar vs2t)) * EPow P4 (EVar vMst1) * EPow P8
   (EVar vMst2) + EPow P4 (EVar vMsq) * (#280 * EPow P4 (EVar vMst1) * EPow P4 (EVar vMst2) * (#1536 * EPow P2 (EVar
   vMst2) * EPow P2 (EVar vMt) * EPow P2 (EVar vs2t) - #8880 * EVar vMst2 * EVar vs2t * EPow P3 (EVar vMt) + #3372 *
   EVar vMt * EPow P3 (EVar vMst2) * EPow P3 (EVar vs2t) + #3212 * EPow P4 (EVar vMt) + #879 * EPow P4 (EVar vMst2) *
   EPow P4 (EVar vs2t)) - #70 * EPow P2 (EVar vMst2) * (- #9560 * EPow P2 (EVar vMst2) * EPow P2 (EVar vMt) * EPow P2
   (EVar vs2t) + #27648 * EVar vMst2 * EVar vs2t * EPow P3 (EVar vMt) - #5136 * EVar vMt * EPow P3 (EVar vMst2) * EPow
   P3 (EVar vs2t) + #3136 * EPow P4 (EVar vMt) + #289 * EPow P4 (EVar vMst2) * EPow P4 (EVar vs2t)) * EPow P6 (EVar
   vMst1) + #1680 * EPow P2 (EVar vMst1) * (- #120 * EPow P2 (EVar vMst2) * EPow P2 (EVar vMt) * EPow P2 (EVar vs2t) -
   #128 * EVar vMst2 * EVar vs2t * EPow P3 (EVar vMt) + #32 * EVar vMt * EPow P3 (EVar vMst2) * EPow P3 (EVar vs2t) +
   #208 * EPow P4 (EVar vMt) + #21 * EPow P4 (EVar vMst2) * EPow P4 (EVar vs2t)) * EPow P6 (EVar vMst2) + (#669176 *
   EPow P2 (EVar vMst2) * EPow P2 (EVar vMt) * EPow P2 (EVar vs2t) - #313600 * EVar vMst2 * EVar vs2t * EPow P3 (EVar
   vMt) + #229600 * EVar vMt * EPow P3 (EVar vMst2) * EPow P3 (EVar vs2t) - #4378256 * EPow P4 (EVar vMt) + #56822 *
   EPow P4 (EVar vMst2) * EPow P4 (EVar vs2t)) * EPow P8 (EVar vMst1) + #26880 * EPow P2 (EVar vMt) * (- #2 * EPow P2
   (EVar vMt) + EPow P2 (EVar vMst2) * EPow P2 (EVar vs2t)) * EPow P8 (EVar vMst2))) + #2 * EPow P2 (EVar vDmglst2) *
   (- #525 * EPow P4 (EVar vMst1) * (EPow P4 (EVar vMst1) * (- #32 * EVar vs2t * EPow P3 (EVar vMt) + #10 * EPow P3
   (EVar vMst2) * EPow P4 (EVar vs2t)) + #10 * EPow P3 (EVar vMst2) * (- #144 * EVar vMst2 * EVar vs2t * EPow P3 (EVar
   vMt) + #36 * EVar vMt * EPow P3 (EVar vMst2) * EPow P3 (EVar vs2t) + #40 * EPow P4 (EVar vMt) + #9 * EPow P4 (EVar
   vMst2) * EPow P4 (EVar vs2t)) - #3 * EVar vMst2 * EPow P2 (EVar vMst1) * (#128 * EVar vMst2 * EVar vs2t * EPow P3
   (EVar vMt) - #120 * EVar vMt * EPow P3 (EVar vMst2) * EPow P3 (EVar vs2t) - #48 * EPow P4 (EVar vMt) + #49 * EPow
   P4 (EVar vMst2) * EPow P4 (EVar vs2t))) * EPow P5 (EVar vMst2) - #1050 * EPow P2 (EVar vMsq) * EPow P2 (EVar vMst2)
   * EPow P4 (EVar vMst1) * (#6 * EPow P4 (EVar vMst1) * (#16 * EPow P4 (EVar vMt) + EPow P4 (EVar vMst2) * EPow P4
   (EVar vs2t)) + EPow P4 (EVar vMst2) * (- #768 * EVar vMst2 * EVar vs2t * EPow P3 (EVar vMt) + #192 * EVar vMt *
   EPow P3 (EVar vMst2) * EPow P3 (EVar vs2t) + #144 * EPow P4 (EVar vMt) + #91 * EPow P4 (EVar vMst2) * EPow P4 (EVar
   vs2t)) - #4 * EPow P2 (EVar vMst1) * (#16 * EVar vs2t * EPow P3 (EVar vMst2) * EPow P3 (EVar vMt) - #48 * EVar vMt
   * EPow P3 (EVar vs2t) * EPow P5 (EVar vMst2) + #25 * EPow P4 (EVar vs2t) * EPow P6 (EVar vMst2))) + EPow P4 (EVar
   vMsq) * (- #7 * EPow P4 (EVar vMst1) * EPow P4 (EVar vMst2) * (- #89160 * EPow P2 (EVar vMst2) * EPow P2 (EVar vMt)
   * EPow P2 (EVar vs2t) - #264000 * EVar vMst2 * EVar vs2t * EPow P3 (EVar vMt) + #3600 * EVar vMt * EPow P3 (EVar
   vMst2) * EPow P3 (EVar vs2t) + #10064 * EPow P4 (EVar vMt) + #8715 * EPow P4 (EVar vMst2) * EPow P4 (EVar vs2t)) -
   #56 * EPow P2 (EVar vMst2) * (#15049 * EPow P2 (EVar vMst2) * EPow P2 (EVar vMt) * EPow P2 (EVar vs2t) + #5900 *
   EVar vMst2 * EVar vs2t * EPow P3 (EVar vMt) + #7170 * EVar vMt * EPow P3 (EVar vMst2) * EPow P3 (EVar vs2t) -
   #62654 * EPow P4 (EVar vMt) + #1132 * EPow P4 (EVar vMst2) * EPow P4 (EVar vs2t)) * EPow P6 (EVar vMst1) + #840 *
   EPow P2 (EVar vMst1) * (- #472 * EPow P2 (EVar vMst2) * EPow P2 (EVar vMt) * EPow P2 (EVar vs2t) - #768 * EVar
   vMst2 * EVar vs2t * EPow P3 (EVar vMt) + #192 * EVar vMt * EPow P3 (EVar vMst2) * EPow P3 (EVar vs2t) + #624 * EPow
   P4 (EVar vMt) + #119 * EPow P4 (EVar vMst2) * EPow P4 (EVar vs2t)) * EPow P6 (EVar vMst2) + #4 * (#147048 * EPow P2
   (EVar vMst2) * EPow P2 (EVar vMt) * EPow P2 (EVar vs2t) - #197120 * EVar vMst2 * EVar vs2t * EPow P3 (EVar vMt) -
   #15540 * EVar vMt * EPow P3 (EVar vMst2) * EPow P3 (EVar vs2t) + #1271440 * EPow P4 (EVar vMt) - #3051 * EPow P4
   (EVar vMst2) * EPow P4 (EVar vs2t)) * EPow P8 (EVar vMst1) - #3360 * (- #40 * EPow P2 (EVar vMst2) * EPow P2 (EVar
   vMt) * EPow P2 (EVar vs2t) + #80 * EPow P4 (EVar vMt) + #3 * EPow P4 (EVar vMst2) * EPow P4 (EVar vs2t)) * EPow P8
   (EVar vMst2)))) / (#630 * EPow P2 (EVar vMgl) * EPow P4 (EVar vMsq) * EPow P4 (EVar vMst1) * EPow P4 (EVar vMst2) *
   EPow P4 (EVar vMt)) - ELog (EPow P2 (EVar vMst1) / EPow P2 (EVar vMsq)) * (#2450 * EVar vDmglst2 * EVar vMgl * (-
   (EPow P5 (EVar vMst2) * (#4 * EVar vMt * EPow P2 (EVar vMst1) * EPow P3 (EVar vMst2) * (#80 * EVar vMst2 * EVar
   vs2t * EPow P2 (EVar vMt) + #270 * EVar vMt * EPow P2 (EVar vMst2) * EPow P2 (EVar vs2t) + #548 * EPow P3 (EVar
   vMt) + #181 * EPow P3 (EVar vMst2) * EPow P3 (EVar vs2t)) + #3 * EVar vMst2 * EPow P4 (EVar vMst1) * (- #216 * EPow
   P2 (EVar vMst2) * EPow P2 (EVar vMt) * EPow P2 (EVar vs2t) - #64 * EVar vMst2 * EVar vs2t * EPow P3 (EVar vMt) -
   #244 * EVar vMt * EPow P3 (EVar vMst2) * EPow P3 (EVar vs2t) + #128 * EPow P4 (EVar vMt) + #19 * EPow P4 (EVar
   vMst2) * EPow P4 (EVar vs2t)) + #1008 * EPow P4 (EVar vMt) * EPow P5 (EVar vMst2) + EVar vs2t * (#72 * EVar vMst2 *
   EVar vs2t * EPow P2 (EVar vMt) + #12 * EVar vMt * EPow P2 (EVar vMst2) * EPow P2 (EVar vs2t) - #128 * EPow P3 (EVar
   vMt) + #3 * EPow P3 (EVar vMst2) * EPow P3 (EVar vs2t)) * EPow P6 (EVar vMst1))) - #8 * EPow P2 (EVar vMsq) * EPow
   P5 (EVar vMst2) * (- #120 * EPow P2 (EVar vMt) * (- #2 * EPow P2 (EVar vMt) + EPow P2 (EVar vMst2) * EPow P2 (EVar
   vs2t)) * EPow P3 (EVar vMst2) + EVar vs2t * (- #120 * EVar vMst2 * EVar vs2t * EPow P2 (EVar vMt) - #144 * EVar vMt
   * EPow P2 (EVar vMst2) * EPow P2 (EVar vs2t) + #56 * EPow P3 (EVar vMt) + #3 * EPow P3 (EVar vMst2) * EPow P3 (EVar
   vs2t)) * EPow P4 (EVar vMst1) - #8 * EVar vMst2 * EPow P2 (EVar vMst1) * (- #30 * EPow P2 (EVar vMst2) * EPow P2
   (EVar vMt) * EPow P2 (EVar vs2t) + #7 * EVar vMst2 * EVar vs2t * EPow P3 (EVar vMt) - #18 * EVar vMt * EPow P3
   (EVar vMst2) * EPow P3 (EVar vs2t) - #18 * EPow P4 (EVar vMt) + #3 * EPow P4 (EVar vMst2) * EPow P4 (EVar vs2t)) +
   #6 * EVar vMst2 * EPow P4 (EVar vs2t) * EPow P6 (EVar vMst1)) + #2 * EPow P4 (EVar vMsq) * (EPow P2 (EVar vMst1) *
   EPow P4 (EVar vMst2) * (- #120 * EPow P2 (EVar vMst2) * EPow P2 (EVar vMt) * EPow P2 (EVar vs2t) - #16 * EVar vMst2
   * EVar vs2t * (- #161 + #72 * EConst Cz2) * EPow P3 (EVar vMt) - #144 * EVar vMt * (- #15 + #11 * EConst Cz2) *
   EPow P3 (EVar vMst2) * EPow P3 (EVar vs2t) + #368 * EPow P4 (EVar vMt) + #27 * (- #5 + #4 * EConst Cz2) * EPow P4
   (EVar vMst2) * EPow P4 (EVar vs2t)) - #3 * EPow P2 (EVar vMst2) * EPow P4 (EVar vMst1) * (#128 * EPow P2 (EVar
   vMst2) * EPow P2 (EVar vMt) * EPow P2 (EVar vs2t) + #1248 * EVar vMst2 * EVar vs2t * EPow P3 (EVar vMt) - #48 *
   EVar vMt * (#2 + EConst Cz2) * EPow P3 (EVar vMst2) * EPow P3 (EVar vs2t) - #96 * (#27 + #4 * EConst Cz2) * EPow P4
   (EVar vMt) + #9 * (- #3 + #4 * EConst Cz2) * EPow P4 (EVar vMst2) * EPow P4 (EVar vs2t)) + #36 * (- #16 * EPow P2
   (EVar vMst2) * EPow P2 (EVar vMt) * EPow P2 (EVar vs2t) - #32 * EVar vMst2 * EVar vs2t * (#7 + #3 * EConst Cz2) *
   EPow P3 (EVar vMt) + #7 * EVar vMt * EPow P3 (EVar vMst2) * EPow P3 (EVar vs2t) + #24 * (#23 + #12 * EConst Cz2) *
   EPow P4 (EVar vMt) + EPow P4 (EVar vMst2) * EPow P4 (EVar vs2t)) * EPow P6 (EVar vMst1) - #9 * EPow P2 (- #4 * EPow
   P2 (EVar vMt) + EPow P2 (EVar vMst2) * EPow P2 (EVar vs2t)) * EPow P6 (EVar vMst2))) + EPow P2 (EVar vMgl) *
   (#88200 * EPow P2 (EVar vMst2) * EPow P6 (EVar vMsq) * (EPow P2 (- #4 * EVar vMst2 * EPow P2 (EVar vMt) + EPow P2
   (EVar vs2t) * EPow P3 (EVar vMst2)) - EPow P4 (EVar vMst1) * (#8 * EPow P2 (EVar vMt) * EPow P2 (EVar vs2t) + EPow
   P2 (EVar vMst2) * EPow P4 (EVar vs2t)) + EPow P2 (EVar vMst1) * (#16 * EPow P2 (EVar vMst2) * EPow P2 (EVar vMt) *
   EPow P2 (EVar vs2t) + #16 * EPow P4 (EVar vMt) - EPow P4 (EVar vMst2) * EPow P4 (EVar vs2t)) + EPow P4 (EVar vs2t)
   * EPow P6 (EVar vMst1)) - #1225 * EPow P4 (EVar vMsq) * (- #2 * EPow P2 (EVar vMst1) * EPow P4 (EVar vMst2) * (#720
   * EPow P2 (EVar vMst2) * EPow P2 (EVar vMt) * EPow P2 (EVar vs2t) - #288 * EVar vMst2 * EVar vs2t * (- #13 + #8 *
   EConst Cz2) * EPow P3 (EVar vMt) - #864 * EVar vMt * (- #2 + EConst Cz2) * EPow P3 (EVar vMst2) * EPow P3 (EVar
   vs2t) - #32 * (#13 + #18 * EConst Cz2) * EPow P4 (EVar vMt) + #3 * (#7 + #30 * EConst Cz2) * EPow P4 (EVar vMst2) *
   EPow P4 (EVar vs2t)) + #6 * EPow P2 (EVar vMst2) * EPow P4 (EVar vMst1) * (#24 * EPow P2 (EVar vMst2) * EPow P2
   (EVar vMt) * EPow P2 (EVar vs2t) - #960 * EVar vMst2 * EVar vs2t * EPow P3 (EVar vMt) - #96 * EVar vMt * (- #3 +
   EConst Cz2) * EPow P3 (EVar vMst2) * EPow P3 (EVar vs2t) + #384 * (#3 + EConst Cz2) * EPow P4 (EVar vMt) + (#89 +
   #36 * EConst Cz2) * EPow P4 (EVar vMst2) * EPow P4 (EVar vs2t)) + #3 * (- #768 * EVar vMst2 * EVar vs2t * (#1 + #2
   * EConst Cz2) * EPow P3 (EVar vMt) + #48 * EVar vMt * EPow P3 (EVar vMst2) * EPow P3 (EVar vs2t) + #288 * (#7 + #12
   * EConst Cz2) * EPow P4 (EVar vMt) - (#131 + #12 * EConst Cz2) * EPow P4 (EVar vMst2) * EPow P4 (EVar vs2t)) * EPow
   P6 (EVar vMst1) - #90 * EPow P2 (- #4 * EPow P2 (EVar vMt) + EPow P2 (EVar vMst2) * EPow P2 (EVar vs2t)) * EPow P6
   (EVar vMst2)) - EPow P4 (EVar vMst2) * (#8 * EPow P2 (EVar vMst1) * EPow P2 (EVar vMt) * (#58800 * EVar vMst2 *
   EVar vMt * EVar vs2t + #220709 * EPow P2 (EVar vMt) + #58635 * EPow P2 (EVar vMst2) * EPow P2 (EVar vs2t)) * EPow
   P4 (EVar vMst2) + EPow P2 (EVar vMst2) * EPow P4 (EVar vMst1) * (- #351480 * EPow P2 (EVar vMst2) * EPow P2 (EVar
   vMt) * EPow P2 (EVar vs2t) - #156800 * EVar vMst2 * EVar vs2t * EPow P3 (EVar vMt) - #382200 * EVar vMt * EPow P3
   (EVar vMst2) * EPow P3 (EVar vs2t) + #470400 * EPow P4 (EVar vMt) + #51313 * EPow P4 (EVar vMst2) * EPow P4 (EVar
   vs2t)) + #8 * (#14865 * EPow P2 (EVar vMst2) * EPow P2 (EVar vMt) * EPow P2 (EVar vs2t) - #39200 * EVar vMst2 *
   EVar vs2t * EPow P3 (EVar vMt) + #3675 * EVar vMt * EPow P3 (EVar vMst2) * EPow P3 (EVar vs2t) + #49209 * EPow P4
   (EVar vMt) - #3459 * EPow P4 (EVar vMst2) * EPow P4 (EVar vs2t)) * EPow P6 (EVar vMst1) + #411600 * EPow P4 (EVar
   vMt) * EPow P6 (EVar vMst2)) + #196 * EPow P2 (EVar vMsq) * EPow P4 (EVar vMst2) * (EPow P4 (EVar vMst1) * (#1256 *
   EPow P2 (EVar vMst2) * EPow P2 (EVar vMt) * EPow P2 (EVar vs2t) - #5600 * EVar vMst2 * EVar vs2t * EPow P3 (EVar
   vMt) + #4800 * EVar vMt * EPow P3 (EVar vMst2) * EPow P3 (EVar vs2t) - #656 * EPow P4 (EVar vMt) - #345 * EPow P4
   (EVar vMst2) * EPow P4 (EVar vs2t)) + EPow P2 (EVar vMst1) * EPow P2 (EVar vMst2) * (- #5128 * EPow P2 (EVar vMst2)
   * EPow P2 (EVar vMt) * EPow P2 (EVar vs2t) + #5600 * EVar vMst2 * EVar vs2t * EPow P3 (EVar vMt) - #4800 * EVar vMt
   * EPow P3 (EVar vMst2) * EPow P3 (EVar vs2t) - #1856 * EPow P4 (EVar vMt) + #645 * EPow P4 (EVar vMst2) * EPow P4
   (EVar vs2t)) + (#872 * EPow P2 (EVar vMt) * EPow P2 (EVar vs2t) + #255 * EPow P2 (EVar vMst2) * EPow P4 (EVar
   vs2t)) * EPow P6 (EVar vMst1) + #3000 * (- #2 * EPow P4 (EVar vMst2) * EPow P4 (EVar vMt) + EPow P2 (EVar vMt) *
   EPow P2 (EVar vs2t) * EPow P6 (EVar vMst2)))) + #49 * EPow P2 (EVar vDmglst2) * (- #25 * EPow P5 (EVar vMst2) *
   (EPow P2 (EVar vMst1) * EPow P3 (EVar vMst2) * (#7272 * EPow P2 (EVar vMst2) * EPow P2 (EVar vMt) * EPow P2 (EVar
   vs2t) + #1024 * EVar vMst2 * EVar vs2t * EPow P3 (EVar vMt) + #4328 * EVar vMt * EPow P3 (EVar vMst2) * EPow P3
   (EVar vs2t) + #12208 * EPow P4 (EVar vMt) - #495 * EPow P4 (EVar vMst2) * EPow P4 (EVar vs2t)) + #3 * EVar vMst2 *
   EPow P4 (EVar vMst1) * (- #1320 * EPow P2 (EVar vMst2) * EPow P2 (EVar vMt) * EPow P2 (EVar vs2t) - #256 * EVar
   vMst2 * EVar vs2t * EPow P3 (EVar vMt) - #1448 * EVar vMt * EPow P3 (EVar vMst2) * EPow P3 (EVar vs2t) + #384 *
   EPow P4 (EVar vMt) + #53 * EPow P4 (EVar vMst2) * EPow P4 (EVar vs2t)) + #504 * EPow P2 (EVar vMt) * (#14 * EPow P2
   (EVar vMt) - #5 * EPow P2 (EVar vMst2) * EPow P2 (EVar vs2t)) * EPow P5 (EVar vMst2) + #2 * EVar vs2t * (#72 * EVar
   vMst2 * EVar vs2t * EPow P2 (EVar vMt) + #12 * EVar vMt * EPow P2 (EVar vMst2) * EPow P2 (EVar vs2t) - #128 * EPow
   P3 (EVar vMt) + #3 * EPow P3 (EVar vMst2) * EPow P3 (EVar vs2t)) * EPow P6 (EVar vMst1)) + #2 * EPow P4 (EVar vMsq)
   * (- #75 * EPow P2 (EVar vMst2) * EPow P4 (EVar vMst1) * (- #608 * EPow P2 (EVar vMst2) * EPow P2 (EVar vMt) * EPow
   P2 (EVar vs2t) - #768 * EVar vMst2 * EVar vs2t * EPow P3 (EVar vMt) - #16 * EVar vMt * (#19 + #6 * EConst Cz2) *
   EPow P3 (EVar vMst2) * EPow P3 (EVar vs2t) + #96 * (#65 + #4 * EConst Cz2) * EPow P4 (EVar vMt) + (- #221 + #108 *
   EConst Cz2) * EPow P4 (EVar vMst2) * EPow P4 (EVar vs2t)) + EPow P2 (EVar vMst1) * EPow P4 (EVar vMst2) * (- #54600
   * EPow P2 (EVar vMst2) * EPow P2 (EVar vMt) * EPow P2 (EVar vs2t) - #800 * EVar vMst2 * EVar vs2t * (- #131 + #72 *
   EConst Cz2) * EPow P3 (EVar vMt) - #1200 * EVar vMt * (- #197 + #138 * EConst Cz2) * EPow P3 (EVar vMst2) * EPow P3
   (EVar vs2t) + #3904 * EPow P4 (EVar vMt) + #75 * (- #121 + #108 * EConst Cz2) * EPow P4 (EVar vMst2) * EPow P4
   (EVar vs2t)) + #1800 * (- #16 * EPow P2 (EVar vMst2) * EPow P2 (EVar vMt) * EPow P2 (EVar vs2t) - #32 * EVar vMst2
   * EVar vs2t * (#7 + #3 * EConst Cz2) * EPow P3 (EVar vMt) + #7 * EVar vMt * EPow P3 (EVar vMst2) * EPow P3 (EVar
   vs2t) + #24 * (#23 + #12 * EConst Cz2) * EPow P4 (EVar vMt) + EPow P4 (EVar vMst2) * EPow P4 (EVar vs2t)) * EPow P6
   (EVar vMst1) - #3375 * EPow P2 (- #4 * EPow P2 (EVar vMt) + EPow P2 (EVar vMst2) * EPow P2 (EVar vs2t)) * EPow P6
   (EVar vMst2)) - #200 * EPow P2 (EVar vMsq) * EPow P5 (EVar vMst2) * (- (EVar vs2t * (#600 * EVar vMst2 * EVar vs2t
   * EPow P2 (EVar vMt) + #576 * EVar vMt * EPow P2 (EVar vMst2) * EPow P2 (EVar vs2t) - #112 * EPow P3 (EVar vMt) +
   #21 * EPow P3 (EVar vMst2) * EPow P3 (EVar vs2t)) * EPow P4 (EVar vMst1)) - #2 * EVar vMst2 * EPow P2 (EVar vMst1)
   * (- #600 * EPow P2 (EVar vMst2) * EPow P2 (EVar vMt) * EPow P2 (EVar vs2t) + #56 * EVar vMst2 * EVar vs2t * EPow
   P3 (EVar vMt) - #288 * EVar vMt * EPow P3 (EVar vMst2) * EPow P3 (EVar vs2t) - #456 * EPow P4 (EVar vMt) + #51 *
   EPow P4 (EVar vMst2) * EPow P4 (EVar vs2t)) + #12 * EVar vMst2 * EPow P4 (EVar vs2t) * EPow P6 (EVar vMst1) + #15 *
   (#80 * EPow P3 (EVar vMst2) * EPow P4 (EVar vMt) - #40 * EPow P2 (EVar vMt) * EPow P2 (EVar vs2t) * EPow P5 (EVar
   vMst2) + #3 * EPow P4 (EVar vs2t) * EPow P7 (EVar vMst2)))) + #44100 * EPow P2 (EVar vMst1) * EPow P2 (ELog (EPow
   P2 (EVar vMst1) / EPow P2 (EVar vMst2))) * EPow P4 (EVar vMsq) * (EPow P2 (EVar vMgl) * (EPow P4 (EVar vMst1) *
   (#64 * EVar vMst2 * EVar vs2t * EPow P3 (EVar vMt) - #144 * EPow P4 (EVar vMt) + EPow P4 (EVar vMst2) * EPow P4
   (EVar vs2t)) + EPow P4 (EVar vMst2) * (- #8 * EPow P2 (EVar vMst2) * EPow P2 (EVar vMt) * EPow P2 (EVar vs2t) - #64
   * EVar vMst2 * EVar vs2t * EPow P3 (EVar vMt) + #16 * EVar vMt * EPow P3 (EVar vMst2) * EPow P3 (EVar vs2t) + #16 *
   EPow P4 (EVar vMt) + #7 * EPow P4 (EVar vMst2) * EPow P4 (EVar vs2t)) - #4 * EPow P2 (EVar vMst1) * (#8 * EPow P2
   (EVar vMst2) * EPow P4 (EVar vMt) - #4 * EVar vMt * EPow P3 (EVar vs2t) * EPow P5 (EVar vMst2) + EPow P4 (EVar
   vs2t) * EPow P6 (EVar vMst2))) + #4 * EVar vDmglst2 * EVar vMgl * (#48 * (#3 * EVar vMt - EVar vMst2 * EVar vs2t) *
   EPow P3 (EVar vMt) * EPow P4 (EVar vMst1) - #16 * EVar vs2t * EPow P3 (EVar vMt) * EPow P5 (EVar vMst2) + EPow P2
   (EVar vMst1) * (#16 * EPow P2 (EVar vMst2) * EPow P4 (EVar vMt) + #4 * EVar vMt * EPow P3 (EVar vs2t) * EPow P5
   (EVar vMst2) - #3 * EPow P4 (EVar vs2t) * EPow P6 (EVar vMst2)) + #4 * EVar vMt * EPow P3 (EVar vs2t) * EPow P7
   (EVar vMst2) + #3 * EPow P4 (EVar vs2t) * EPow P8 (EVar vMst2)) + #2 * EPow P2 (EVar vDmglst2) * (#96 * (#3 * EVar
   vMt - EVar vMst2 * EVar vs2t) * EPow P3 (EVar vMt) * EPow P4 (EVar vMst1) - #32 * EVar vs2t * EPow P3 (EVar vMt) *
   EPow P5 (EVar vMst2) + EPow P2 (EVar vMst1) * (- #16 * EPow P2 (EVar vMst2) * EPow P4 (EVar vMt) + #8 * EVar vMt *
   EPow P3 (EVar vs2t) * EPow P5 (EVar vMst2) - #9 * EPow P4 (EVar vs2t) * EPow P6 (EVar vMst2)) + #8 * EVar vMt *
   EPow P3 (EVar vs2t) * EPow P7 (EVar vMst2) + #9 * EPow P4 (EVar vs2t) * EPow P8 (EVar vMst2))) + #105 * ELog (EPow
   P2 (EVar vMst1) / EPow P2 (EVar vMst2)) * (EPow P2 (EVar vMgl) * (- #1680 * EPow P2 (EVar vMst1) * (EPow P2 (EVar
   vMst1) - EPow P2 (EVar vMst2)) * EPow P4 (EVar vMst2) * EPow P4 (EVar vs2t) * EPow P6 (EVar vMsq) + EPow P2 (EVar
   vMst1) * (#1680 * EPow P3 (EVar vMst2) * (#8 * EVar vs2t * EPow P3 (EVar vMt) - EVar vMt * EPow P2 (EVar vMst1) *
   EPow P3 (EVar vs2t)) - #504 * EPow P2 (EVar vMt) * EPow P2 (EVar vs2t) * EPow P4 (EVar vMst1) + EPow P4 (EVar
   vMst2) * (#296 * EPow P2 (EVar vMt) * EPow P2 (EVar vs2t) + #422 * EPow P2 (EVar vMst1) * EPow P4 (EVar vs2t)) +
   EPow P2 (EVar vMst2) * (#264 * EPow P2 (EVar vMst1) * EPow P2 (EVar vMt) * EPow P2 (EVar vs2t) + #6304 * EPow P4
   (EVar vMt) - #187 * EPow P4 (EVar vMst1) * EPow P4 (EVar vs2t))) * EPow P6 (EVar vMst2) - #70 * EPow P4 (EVar vMsq)
   * (#2 * EPow P2 (EVar vMst2) * EPow P4 (EVar vMst1) * (- #32 * EPow P2 (EVar vMst2) * EPow P2 (EVar vMt) * EPow P2
   (EVar vs2t) - #384 * EVar vMst2 * EVar vs2t * EPow P3 (EVar vMt) + #72 * EVar vMt * EPow P3 (EVar vMst2) * EPow P3
   (EVar vs2t) + #720 * EPow P4 (EVar vMt) + #21 * EPow P4 (EVar vMst2) * EPow P4 (EVar vs2t)) - EVar vs2t * EPow P2
   (EVar vMst1) * (#128 * EVar vMst2 * EVar vs2t * EPow P2 (EVar vMt) + #240 * EVar vMt * EPow P2 (EVar vMst2) * EPow
   P2 (EVar vs2t) - #384 * EPow P3 (EVar vMt) + #59 * EPow P3 (EVar vMst2) * EPow P3 (EVar vs2t)) * EPow P5 (EVar
   vMst2) + (- #96 * EPow P2 (EVar vMst2) * EPow P2 (EVar vMt) * EPow P2 (EVar vs2t) - #2112 * EVar vMst2 * EVar vs2t
   * EPow P3 (EVar vMt) + #48 * EVar vMt * EPow P3 (EVar vMst2) * EPow P3 (EVar vs2t) + #4608 * EPow P4 (EVar vMt) +
   #26 * EPow P4 (EVar vMst2) * EPow P4 (EVar vs2t)) * EPow P6 (EVar vMst1) - #18 * EPow P2 (- #4 * EPow P2 (EVar vMt)
   + EPow P2 (EVar vMst2) * EPow P2 (EVar vs2t)) * EPow P6 (EVar vMst2)) - #28 * EPow P2 (EVar vMsq) * EPow P2 (EVar
   vMst1) * EPow P4 (EVar vMst2) * (- #160 * EPow P3 (EVar vMst2) * (#6 * EVar vs2t * EPow P3 (EVar vMt) - EVar vMt *
   EPow P2 (EVar vMst1) * EPow P3 (EVar vs2t)) + #20 * EPow P2 (EVar vMt) * EPow P2 (EVar vs2t) * EPow P4 (EVar vMst1)
   - EPow P4 (EVar vMst2) * (#52 * EPow P2 (EVar vMt) * EPow P2 (EVar vs2t) + #41 * EPow P2 (EVar vMst1) * EPow P4
   (EVar vs2t)) + EPow P2 (EVar vMst2) * (#32 * EPow P2 (EVar vMst1) * EPow P2 (EVar vMt) * EPow P2 (EVar vs2t) - #304
   * EPow P4 (EVar vMt) + #6 * EPow P4 (EVar vMst1) * EPow P4 (EVar vs2t)) + #160 * EVar vMt * EPow P3 (EVar vs2t) *
   EPow P5 (EVar vMst2) + #40 * EPow P4 (EVar vs2t) * EPow P6 (EVar vMst2))) + #140 * EVar vDmglst2 * EVar vMgl * (-
   #2 * EPow P2 (EVar vMsq) * EPow P2 (EVar vMst1) * (- #224 * EVar vMst2 * EVar vs2t * EPow P3 (EVar vMt) + #48 *
   EVar vMst2 * EVar vMt * (EPow P2 (EVar vMst1) + EPow P2 (EVar vMst2)) * EPow P3 (EVar vs2t) - #48 * EPow P4 (EVar
   vMt) + (- #20 * EPow P2 (EVar vMst1) * EPow P2 (EVar vMst2) + #3 * EPow P4 (EVar vMst1) + #17 * EPow P4 (EVar
   vMst2)) * EPow P4 (EVar vs2t)) * EPow P6 (EVar vMst2) + #2 * EPow P4 (EVar vMsq) * (EPow P2 (EVar vMst1) * EPow P4
   (EVar vMst2) * (#144 * EPow P2 (EVar vMst2) * EPow P2 (EVar vMt) * EPow P2 (EVar vs2t) + #160 * EVar vMst2 * EVar
   vs2t * EPow P3 (EVar vMt) + #12 * EVar vMt * EPow P3 (EVar vMst2) * EPow P3 (EVar vs2t) + #16 * EPow P4 (EVar vMt)
   - #9 * EPow P4 (EVar vMst2) * EPow P4 (EVar vs2t)) - #3 * EPow P2 (EVar vMst2) * EPow P4 (EVar vMst1) * (#32 * EPow
   P2 (EVar vMst2) * EPow P2 (EVar vMt) * EPow P2 (EVar vs2t) + #64 * EVar vMst2 * EVar vs2t * EPow P3 (EVar vMt) +
   #28 * EVar vMt * EPow P3 (EVar vMst2) * EPow P3 (EVar vs2t) - #304 * EPow P4 (EVar vMt) + #3 * EPow P4 (EVar vMst2)
   * EPow P4 (EVar vs2t)) + #12 * EVar vMt * (- #164 * EVar vMst2 * EVar vs2t * EPow P2 (EVar vMt) - #10 * EVar vMt *
   EPow P2 (EVar vMst2) * EPow P2 (EVar vs2t) + #456 * EPow P3 (EVar vMt) + #3 * EPow P3 (EVar vMst2) * EPow P3 (EVar
   vs2t)) * EPow P6 (EVar vMst1) + #9 * EPow P2 (- #4 * EPow P2 (EVar vMt) + EPow P2 (EVar vMst2) * EPow P2 (EVar
   vs2t)) * EPow P6 (EVar vMst2)) + EPow P2 (EVar vMst1) * (#352 * EVar vMst2 * EVar vs2t * EPow P3 (EVar vMt) - #60 *
   EVar vMst2 * EVar vMt * (EPow P2 (EVar vMst1) + EPow P2 (EVar vMst2)) * EPow P3 (EVar vs2t) + #128 * EPow P4 (EVar
   vMt) + EPow P2 (EVar vMst1) * (- #5 * EPow P2 (EVar vMst1) + #21 * EPow P2 (EVar vMst2)) * EPow P4 (EVar vs2t)) *
   EPow P8 (EVar vMst2)) + #14 * EPow P2 (EVar vDmglst2) * (- #10 * EPow P2 (EVar vMsq) * EPow P2 (EVar vMst1) * (-
   #832 * EVar vMst2 * EVar vs2t * EPow P3 (EVar vMt) + #192 * EVar vMst2 * EVar vMt * (EPow P2 (EVar vMst1) + EPow P2
   (EVar vMst2)) * EPow P3 (EVar vs2t) - #144 * EPow P4 (EVar vMt) + (- #100 * EPow P2 (EVar vMst1) * EPow P2 (EVar
   vMst2) + #6 * EPow P4 (EVar vMst1) + #91 * EPow P4 (EVar vMst2)) * EPow P4 (EVar vs2t)) * EPow P6 (EVar vMst2) + #2
   * EPow P4 (EVar vMsq) * (EPow P2 (EVar vMst1) * EPow P4 (EVar vMst2) * (#2160 * EPow P2 (EVar vMst2) * EPow P2
   (EVar vMt) * EPow P2 (EVar vs2t) + #2560 * EVar vMst2 * EVar vs2t * EPow P3 (EVar vMt) - #120 * EVar vMt * EPow P3
   (EVar vMst2) * EPow P3 (EVar vs2t) + #1408 * EPow P4 (EVar vMt) - #345 * EPow P4 (EVar vMst2) * EPow P4 (EVar
   vs2t)) + #120 * EVar vMt * (- #164 * EVar vMst2 * EVar vs2t * EPow P2 (EVar vMt) - #10 * EVar vMt * EPow P2 (EVar
   vMst2) * EPow P2 (EVar vs2t) + #456 * EPow P3 (EVar vMt) + #3 * EPow P3 (EVar vMst2) * EPow P3 (EVar vs2t)) * EPow
   P6 (EVar vMst1) + #135 * EPow P2 (- #4 * EPow P2 (EVar vMt) + EPow P2 (EVar vMst2) * EPow P2 (EVar vs2t)) * EPow P6
   (EVar vMst2) + #15 * EPow P4 (EVar vMst1) * (- #64 * EPow P2 (EVar vMt) * EPow P2 (EVar vs2t) * EPow P4 (EVar
   vMst2) - #432 * EPow P2 (EVar vMst2) * EPow P4 (EVar vMt) - #72 * EVar vMt * EPow P3 (EVar vs2t) * EPow P5 (EVar
   vMst2) + #7 * EPow P4 (EVar vs2t) * EPow P6 (EVar vMst2))) - #5 * EPow P2 (EVar vMst1) * (- #1856 * EVar vMst2 *
   EVar vs2t * EPow P3 (EVar vMt) + #360 * EVar vMst2 * EVar vMt * (EPow P2 (EVar vMst1) + EPow P2 (EVar vMst2)) *
   EPow P3 (EVar vs2t) - #544 * EPow P4 (EVar vMt) + (- #147 * EPow P2 (EVar vMst1) * EPow P2 (EVar vMst2) + #10 *
   EPow P4 (EVar vMst1) + #90 * EPow P4 (EVar vMst2)) * EPow P4 (EVar vs2t)) * EPow P8 (EVar vMst2)))) / (#4410 * EPow
   P2 (EVar vMgl) * EPow P2 (EVar vMst1) * EPow P4 (EVar vMsq) * EPow P4 (EVar vMst2) * EPow P4 (EVar vMt)) + ELog
   (EPow P2 (EVar vMst1) / EPow P2 (EVar vMst2)) * (#4 * EVar vDmglst2 * EVar vMgl * (- #55125 * EPow P2 (EVar vMst1)
   * EPow P4 (EVar vMst2) * (#4 * EVar vMt * EPow P2 (EVar vMst1) * (- #200 * EVar vMst2 * EVar vs2t * EPow P2 (EVar
   vMt) + #540 * EVar vMt * EPow P2 (EVar vMst2) * EPow P2 (EVar vs2t) + #1088 * EPow P3 (EVar vMt) + #425 * EPow P3
   (EVar vMst2) * EPow P3 (EVar vs2t)) * EPow P4 (EVar vMst2) - #3 * EPow P2 (EVar vMst2) * EPow P4 (EVar vMst1) *
   (#432 * EPow P2 (EVar vMst2) * EPow P2 (EVar vMt) * EPow P2 (EVar vs2t) + #64 * EVar vMst2 * EVar vs2t * EPow P3
   (EVar vMt) + #404 * EVar vMt * EPow P3 (EVar vMst2) * EPow P3 (EVar vs2t) - #32 * EPow P4 (EVar vMt) + EPow P4
   (EVar vMst2) * EPow P4 (EVar vs2t)) + (#144 * EPow P2 (EVar vMst2) * EPow P2 (EVar vMt) * EPow P2 (EVar vs2t) +
   #480 * EVar vMst2 * EVar vs2t * EPow P3 (EVar vMt) + #24 * EVar vMt * EPow P3 (EVar vMst2) * EPow P3 (EVar vs2t) -
   #576 * EPow P4 (EVar vMt) + #17 * EPow P4 (EVar vMst2) * EPow P4 (EVar vs2t)) * EPow P6 (EVar vMst1) + #2016 * EPow
   P4 (EVar vMt) * EPow P6 (EVar vMst2)) + #2 * EPow P4 (EVar vMsq) * (- #7350 * EPow P4 (EVar vMst1) * EPow P4 (EVar
   vMst2) * (#48 * (- #1676 + #891 * EConst Cz2) * EPow P2 (EVar vMst2) * EPow P2 (EVar vMt) * EPow P2 (EVar vs2t) +
   #8 * EVar vMst2 * EVar vs2t * (- #22768 + #2835 * EConst CS2 + #6462 * EConst Cz2) * EPow P3 (EVar vMt) - #18 *
   EVar vMt * (#2990 + #315 * EConst CS2 - #1986 * EConst Cz2) * EPow P3 (EVar vMst2) * EPow P3 (EVar vs2t) + (#90952
   - #18144 * EConst CS2 + #21888 * EConst Cz2) * EPow P4 (EVar vMt) + #9 * (#689 + #126 * EConst CS2 - #580 * EConst
   Cz2) * EPow P4 (EVar vMst2) * EPow P4 (EVar vs2t)) - #294 * EPow P2 (EVar vMst2) * (- #8 * (#59657 + #202500 *
   EConst CS2 - #55800 * EConst Cz2) * EPow P2 (EVar vMst2) * EPow P2 (EVar vMt) * EPow P2 (EVar vs2t) + #200 * EVar
   vMst2 * EVar vs2t * (- #18428 + #37341 * EConst CS2 - #9090 * EConst Cz2) * EPow P3 (EVar vMt) - #300 * EVar vMt *
   (- #818 + #3609 * EConst CS2 - #594 * EConst Cz2) * EPow P3 (EVar vMst2) * EPow P3 (EVar vs2t) - #48 * (#8581 +
   #72450 * EConst CS2 - #92700 * EConst Cz2) * EPow P4 (EVar vMt) + (- #128893 + #291600 * EConst CS2 + #100350 *
   EConst Cz2) * EPow P4 (EVar vMst2) * EPow P4 (EVar vs2t)) * EPow P6 (EVar vMst1) + #66150 * EPow P2 (EVar vMst1) *
   (- #952 * EPow P2 (EVar vMst2) * EPow P2 (EVar vMt) * EPow P2 (EVar vs2t) - #1024 * EVar vMst2 * EVar vs2t * EPow
   P3 (EVar vMt) + #256 * EVar vMt * EPow P3 (EVar vMst2) * EPow P3 (EVar vs2t) + #880 * EPow P4 (EVar vMt) + #247 *
   EPow P4 (EVar vMst2) * EPow P4 (EVar vs2t)) * EPow P6 (EVar vMst2) + (#72 * (- #5217307 + #33912900 * EConst CS2 -
   #73500 * EConst Cz2) * EPow P2 (EVar vMst2) * EPow P2 (EVar vMt) * EPow P2 (EVar vs2t) - #78400 * EVar vMst2 * EVar
   vs2t * (- #3509 + #115785 * EConst CS2 - #18144 * EConst Cz2) * EPow P3 (EVar vMt) + #4900 * EVar vMt * (#24322 +
   #140139 * EConst CS2 - #38826 * EConst Cz2) * EPow P3 (EVar vMst2) * EPow P3 (EVar vs2t) + #80 * (#57911521 +
   #49233240 * EConst CS2 - #40325040 * EConst Cz2) * EPow P4 (EVar vMt) + (#1011403 - #185175900 * EConst CS2 +
   #17463600 * EConst Cz2) * EPow P4 (EVar vMst2) * EPow P4 (EVar vs2t)) * EPow P8 (EVar vMst1) + #16934400 * EPow P2
   (EVar vMt) * (- #2 * EPow P2 (EVar vMt) + EPow P2 (EVar vMst2) * EPow P2 (EVar vs2t)) * EPow P8 (EVar vMst2)) -
   #220500 * EPow P2 (EVar vMsq) * (- #4 * EPow P4 (EVar vMst2) * (#120 * EPow P2 (EVar vMst2) * EPow P2 (EVar vMt) *
   EPow P2 (EVar vs2t) - #168 * EVar vMst2 * EVar vs2t * EPow P3 (EVar vMt) + #96 * EVar vMt * EPow P3 (EVar vMst2) *
   EPow P3 (EVar vs2t) + #96 * EPow P4 (EVar vMt) + #25 * EPow P4 (EVar vMst2) * EPow P4 (EVar vs2t)) * EPow P6 (EVar
   vMst1) + EPow P4 (EVar vMst1) * (#960 * EPow P2 (EVar vMst2) * EPow P2 (EVar vMt) * EPow P2 (EVar vs2t) - #1184 *
   EVar vMst2 * EVar vs2t * EPow P3 (EVar vMt) + #768 * EVar vMt * EPow P3 (EVar vMst2) * EPow P3 (EVar vs2t) + #576 *
   EPow P4 (EVar vMt) + #13 * EPow P4 (EVar vMst2) * EPow P4 (EVar vs2t)) * EPow P6 (EVar vMst2) + #24 * EPow P2 (EVar
   vMst2) * (- #2 * EPow P2 (EVar vMst2) * EPow P2 (EVar vMt) * EPow P2 (EVar vs2t) - #16 * EVar vMst2 * EVar vs2t *
   EPow P3 (EVar vMt) + #120 * EPow P4 (EVar vMt) + EPow P4 (EVar vMst2) * EPow P4 (EVar vs2t)) * EPow P8 (EVar vMst1)
   - #480 * EPow P2 (EVar vMst1) * EPow P2 (EVar vMt) * (- #2 * EPow P2 (EVar vMt) + EPow P2 (EVar vMst2) * EPow P2
   (EVar vs2t)) * EPow P8 (EVar vMst2))) + #3 * EPow P2 (EVar vMgl) * (#5292000 * (- #1 + #2 * EConst Cz2) * (EPow P2
   (EVar vMst1) - EPow P2 (EVar vMst2)) * EPow P4 (EVar vMst1) * EPow P4 (EVar vMst2) * EPow P4 (EVar vs2t) * EPow P6
   (EVar vMsq) + #15 * EPow P2 (EVar vMst1) * EPow P5 (EVar vMst2) * (- #128 * EPow P2 (EVar vMst1) * EPow P2 (EVar
   vMt) * (#3675 * EVar vMst2 * EVar vMt * EVar vs2t + #73246 * EPow P2 (EVar vMt) + #14279 * EPow P2 (EVar vMst2) *
   EPow P2 (EVar vs2t)) * EPow P3 (EVar vMst2) + #2 * EVar vMst2 * EPow P4 (EVar vMst1) * (#851136 * EPow P2 (EVar
   vMst2) * EPow P2 (EVar vMt) * EPow P2 (EVar vs2t) + #1411200 * EVar vMst2 * EVar vs2t * EPow P3 (EVar vMt) +
   #499800 * EVar vMt * EPow P3 (EVar vMst2) * EPow P3 (EVar vs2t) - #1528800 * EPow P4 (EVar vMt) - #45247 * EPow P4
   (EVar vMst2) * EPow P4 (EVar vs2t)) - #1646400 * EPow P4 (EVar vMt) * EPow P5 (EVar vMst2) + EVar vs2t * (- #531552
   * EVar vMst2 * EVar vs2t * EPow P2 (EVar vMt) - #117600 * EVar vMt * EPow P2 (EVar vMst2) * EPow P2 (EVar vs2t) +
   #1411200 * EPow P3 (EVar vMt) + #34519 * EPow P3 (EVar vMst2) * EPow P3 (EVar vs2t)) * EPow P6 (EVar vMst1)) + #2 *
   EPow P4 (EVar vMsq) * (#2450 * EPow P4 (EVar vMst1) * EPow P4 (EVar vMst2) * (- #24 * (- #5434 + #1863 * EConst CS2
   + #1830 * EConst Cz2 - #72 * EConst Cz3) * EPow P2 (EVar vMst2) * EPow P2 (EVar vMt) * EPow P2 (EVar vs2t) + #288 *
   EVar vMst2 * EVar vs2t * (#116 + #189 * EConst CS2 - #878 * EConst Cz2) * EPow P3 (EVar vMt) - #72 * EVar vMt * (-
   #2326 + #189 * EConst CS2 + #346 * EConst Cz2) * EPow P3 (EVar vMst2) * EPow P3 (EVar vs2t) + #32 * (#722 + #1701 *
   EConst CS2 + #3753 * EConst Cz2 + #108 * EConst Cz3) * EPow P4 (EVar vMt) + #3 * (#6377 + #2592 * EConst CS2 +
   #2724 * EConst Cz2 - #72 * EConst Cz3) * EPow P4 (EVar vMst2) * EPow P4 (EVar vs2t)) + #1960 * EPow P2 (EVar vMst2)
   * (- #4 * (- #47993 + #86940 * EConst CS2 + #3060 * EConst Cz2 + #540 * EConst Cz3) * EPow P2 (EVar vMst2) * EPow
   P2 (EVar vMt) * EPow P2 (EVar vs2t) + #1080 * EVar vMst2 * EVar vs2t * (#102 + #377 * EConst CS2 - #330 * EConst
   Cz2) * EPow P3 (EVar vMt) - #180 * EVar vMt * (#326 + #219 * EConst CS2 - #294 * EConst Cz2) * EPow P3 (EVar vMst2)
   * EPow P3 (EVar vs2t) + #8 * (- #37598 + #28215 * EConst CS2 + #30870 * EConst Cz2) * EPow P4 (EVar vMt) + (-
   #18499 + #46305 * EConst CS2 - #15075 * EConst Cz2) * EPow P4 (EVar vMst2) * EPow P4 (EVar vs2t)) * EPow P6 (EVar
   vMst1) + #44100 * EPow P2 (EVar vMst1) * (- #2312 * EPow P2 (EVar vMst2) * EPow P2 (EVar vMt) * EPow P2 (EVar vs2t)
   - #2048 * EVar vMst2 * EVar vs2t * EPow P3 (EVar vMt) + #512 * EVar vMt * EPow P3 (EVar vMst2) * EPow P3 (EVar
   vs2t) + #4112 * EPow P4 (EVar vMt) + #385 * EPow P4 (EVar vMst2) * EPow P4 (EVar vs2t)) * EPow P6 (EVar vMst2) + (-
   #24 * (- #20192173 + #50839950 * EConst CS2 + #2866500 * EConst Cz2) * EPow P2 (EVar vMst2) * EPow P2 (EVar vMt) *
   EPow P2 (EVar vs2t) + #940800 * EVar vMst2 * EVar vs2t * (#302 + #2055 * EConst CS2 - #732 * EConst Cz2) * EPow P3
   (EVar vMt) - #58800 * EVar vMt * (#136 + #1317 * EConst CS2 - #918 * EConst Cz2) * EPow P3 (EVar vMst2) * EPow P3
   (EVar vs2t) + #32 * (- #47778491 + #25754400 * EConst CS2 + #20374200 * EConst Cz2) * EPow P4 (EVar vMt) + #9 * (-
   #5929019 + #9530500 * EConst CS2 + #367500 * EConst Cz2 + #58800 * EConst Cz3) * EPow P4 (EVar vMst2) * EPow P4
   (EVar vs2t)) * EPow P8 (EVar vMst1) + #11289600 * EPow P2 (EVar vMt) * (- #2 * EPow P2 (EVar vMt) + EPow P2 (EVar
   vMst2) * EPow P2 (EVar vs2t)) * EPow P8 (EVar vMst2)) + #5880 * EPow P2 (EVar vMsq) * EPow P2 (EVar vMst1) * EPow
   P2 (EVar vMst2) * (#4 * EPow P2 (EVar vMst2) * EPow P4 (EVar vMst1) * (#1364 * EPow P2 (EVar vMst2) * EPow P2 (EVar
   vMt) * EPow P2 (EVar vs2t) + #1200 * EVar vMst2 * EVar vs2t * EPow P3 (EVar vMt) + #800 * EVar vMt * EPow P3 (EVar
   vMst2) * EPow P3 (EVar vs2t) + #600 * EPow P4 (EVar vMt) + #173 * EPow P4 (EVar vMst2) * EPow P4 (EVar vs2t)) -
   EPow P2 (EVar vMst1) * EPow P4 (EVar vMst2) * (#8656 * EPow P2 (EVar vMst2) * EPow P2 (EVar vMt) * EPow P2 (EVar
   vs2t) - #33600 * EVar vMst2 * EVar vs2t * EPow P3 (EVar vMt) + #16000 * EVar vMt * EPow P3 (EVar vMst2) * EPow P3
   (EVar vs2t) + #27712 * EPow P4 (EVar vMt) + #735 * EPow P4 (EVar vMst2) * EPow P4 (EVar vs2t)) + #2 * (- #2000 *
   EPow P2 (EVar vMst2) * EPow P2 (EVar vMt) * EPow P2 (EVar vs2t) - #9600 * EVar vMst2 * EVar vs2t * EPow P3 (EVar
   vMt) + #28800 * EPow P4 (EVar vMt) + #159 * EPow P4 (EVar vMst2) * EPow P4 (EVar vs2t)) * EPow P6 (EVar vMst1) +
   #6000 * (- #2 * EPow P4 (EVar vMt) * EPow P6 (EVar vMst2) + EPow P2 (EVar vMt) * EPow P2 (EVar vs2t) * EPow P8
   (EVar vMst2)))) + #2 * EPow P2 (EVar vDmglst2) * (#4 * EPow P4 (EVar vMsq) * (- #147 * EPow P4 (EVar vMst1) * EPow
   P4 (EVar vMst2) * (- #1200 * (#5987 + #567 * EConst CS2 - #4935 * EConst Cz2) * EPow P2 (EVar vMst2) * EPow P2
   (EVar vMt) * EPow P2 (EVar vs2t) - #1200 * EVar vMst2 * EVar vs2t * (#5368 + #63 * EConst CS2 - #2274 * EConst Cz2)
   * EPow P3 (EVar vMt) + #300 * EVar vMt * (- #17774 + #63 * EConst CS2 + #12978 * EConst Cz2) * EPow P3 (EVar vMst2)
   * EPow P3 (EVar vs2t) + #16 * (- #350909 + #122850 * EConst CS2 + #66600 * EConst Cz2) * EPow P4 (EVar vMt) + #75 *
   (#8815 + #630 * EConst CS2 - #4944 * EConst Cz2) * EPow P4 (EVar vMst2) * EPow P4 (EVar vs2t)) - #147 * EPow P2
   (EVar vMst2) * (- #8 * (#548953 + #805950 * EConst CS2 - #632700 * EConst Cz2) * EPow P2 (EVar vMst2) * EPow P2
   (EVar vMt) * EPow P2 (EVar vs2t) - #3600 * EVar vMst2 * EVar vs2t * (- #2725 + #4307 * EConst CS2 - #182 * EConst
   Cz2) * EPow P3 (EVar vMt) + #400 * EVar vMt * (- #4672 + #6903 * EConst CS2 + #2466 * EConst Cz2) * EPow P3 (EVar
   vMst2) * EPow P3 (EVar vs2t) + #16 * (- #1633879 + #2116350 * EConst CS2 - #242100 * EConst Cz2) * EPow P4 (EVar
   vMt) + #3 * (- #206449 + #24000 * EConst CS2 + #96750 * EConst Cz2) * EPow P4 (EVar vMst2) * EPow P4 (EVar vs2t)) *
   EPow P6 (EVar vMst1) + #33075 * EPow P2 (EVar vMst1) * (#472 * EPow P2 (EVar vMst2) * EPow P2 (EVar vMt) * EPow P2
   (EVar vs2t) + #2048 * EVar vMst2 * EVar vs2t * EPow P3 (EVar vMt) - #512 * EVar vMt * EPow P3 (EVar vMst2) * EPow
   P3 (EVar vs2t) - #4016 * EPow P4 (EVar vMt) + #197 * EPow P4 (EVar vMst2) * EPow P4 (EVar vs2t)) * EPow P6 (EVar
   vMst2) + (#72 * (- #5217307 + #33912900 * EConst CS2 - #73500 * EConst Cz2) * EPow P2 (EVar vMst2) * EPow P2 (EVar
   vMt) * EPow P2 (EVar vs2t) - #78400 * EVar vMst2 * EVar vs2t * (- #3509 + #115785 * EConst CS2 - #18144 * EConst
   Cz2) * EPow P3 (EVar vMt) + #4900 * EVar vMt * (#24322 + #140139 * EConst CS2 - #38826 * EConst Cz2) * EPow P3
   (EVar vMst2) * EPow P3 (EVar vs2t) + #80 * (#57911521 + #49233240 * EConst CS2 - #40325040 * EConst Cz2) * EPow P4
   (EVar vMt) + (#1011403 - #185175900 * EConst CS2 + #17463600 * EConst Cz2) * EPow P4 (EVar vMst2) * EPow P4 (EVar
   vs2t)) * EPow P8 (EVar vMst1) + #1058400 * (#8 * EPow P2 (EVar vMst2) * EPow P2 (EVar vMt) * EPow P2 (EVar vs2t) -
   #16 * EPow P4 (EVar vMt) + EPow P4 (EVar vMst2) * EPow P4 (EVar vs2t)) * EPow P8 (EVar vMst2)) - #44100 * EPow P2
   (EVar vMsq) * (- #20 * EPow P4 (EVar vMst2) * (#600 * EPow P2 (EVar vMst2) * EPow P2 (EVar vMt) * EPow P2 (EVar
   vs2t) - #528 * EVar vMst2 * EVar vs2t * EPow P3 (EVar vMt) + #528 * EVar vMt * EPow P3 (EVar vMst2) * EPow P3 (EVar
   vs2t) + #96 * EPow P4 (EVar vMt) + #101 * EPow P4 (EVar vMst2) * EPow P4 (EVar vs2t)) * EPow P6 (EVar vMst1) + EPow
   P4 (EVar vMst1) * (#24000 * EPow P2 (EVar vMst2) * EPow P2 (EVar vMt) * EPow P2 (EVar vs2t) - #9920 * EVar vMst2 *
   EVar vs2t * EPow P3 (EVar vMt) + #12480 * EVar vMt * EPow P3 (EVar vMst2) * EPow P3 (EVar vs2t) + #10656 * EPow P4
   (EVar vMt) - #305 * EPow P4 (EVar vMst2) * EPow P4 (EVar vs2t)) * EPow P6 (EVar vMst2) + #240 * EPow P2 (EVar
   vMst2) * (- #2 * EPow P2 (EVar vMst2) * EPow P2 (EVar vMt) * EPow P2 (EVar vs2t) - #16 * EVar vMst2 * EVar vs2t *
   EPow P3 (EVar vMt) + #120 * EPow P4 (EVar vMt) + EPow P4 (EVar vMst2) * EPow P4 (EVar vs2t)) * EPow P8 (EVar vMst1)
   + #300 * EPow P2 (EVar vMst1) * (- #40 * EPow P2 (EVar vMst2) * EPow P2 (EVar vMt) * EPow P2 (EVar vs2t) + #80 *
   EPow P4 (EVar vMt) + #3 * EPow P4 (EVar vMst2) * EPow P4 (EVar vs2t)) * EPow P8 (EVar vMst2)) - #11025 * EPow P2
   (EVar vMst1) * EPow P4 (EVar vMst2) * (#15 * EPow P2 (EVar vMst2) * EPow P4 (EVar vMst1) * (- #2640 * EPow P2 (EVar
   vMst2) * EPow P2 (EVar vMt) * EPow P2 (EVar vs2t) + #1280 * EVar vMst2 * EVar vs2t * EPow P3 (EVar vMt) - #2872 *
   EVar vMt * EPow P3 (EVar vMst2) * EPow P3 (EVar vs2t) - #672 * EPow P4 (EVar vMt) + EPow P4 (EVar vMst2) * EPow P4
   (EVar vs2t)) + #10 * (#144 * EPow P2 (EVar vMst2) * EPow P2 (EVar vMt) * EPow P2 (EVar vs2t) + #480 * EVar vMst2 *
   EVar vs2t * EPow P3 (EVar vMt) + #24 * EVar vMt * EPow P3 (EVar vMst2) * EPow P3 (EVar vs2t) - #576 * EPow P4 (EVar
   vMt) + #17 * EPow P4 (EVar vMst2) * EPow P4 (EVar vs2t)) * EPow P6 (EVar vMst1) - #5040 * (- #14 * EPow P4 (EVar
   vMt) * EPow P6 (EVar vMst2) + #5 * EPow P2 (EVar vMt) * EPow P2 (EVar vs2t) * EPow P8 (EVar vMst2)) + EPow P2 (EVar
   vMst1) * (#94016 * EPow P4 (EVar vMst2) * EPow P4 (EVar vMt) - #9920 * EVar vs2t * EPow P3 (EVar vMt) * EPow P5
   (EVar vMst2) + #72720 * EPow P2 (EVar vMt) * EPow P2 (EVar vs2t) * EPow P6 (EVar vMst2) + #43640 * EVar vMt * EPow
   P3 (EVar vs2t) * EPow P7 (EVar vMst2) - #4110 * EPow P4 (EVar vs2t) * EPow P8 (EVar vMst2))))) / (#793800 * EPow P2
   (EVar vMgl) * EPow P4 (EVar vMsq) * EPow P4 (EVar vMst1) * EPow P4 (EVar vMst2) * EPow P4 (EVar vMt)).

(** H6g2.cpp:5129-5337 *)
Definition H6g2_coef1 : expr :=
  - EDec 4743703703703704 13 - #115472 * EVar vDmglst2 / (#27 * EVar vMgl) + #1472 * EVar vMst2 * EVar vs2t / (#3 * EVar
   vMt) + #204928 * EVar vDmglst2 * EVar vMst2 * EVar vs2t / (#27 * EVar vMgl * EVar vMt) + #4304 * EConst Cz2 / #3 -
   #1536 * EVar vDmglst2 * EConst Cz2 / EVar vMgl - #7552 * EVar vMst2 * EVar vs2t * EConst Cz2 / (#3 * EVar vMt) -
   #6656 * EVar vDmglst2 * EVar vMst2 * EVar vs2t * EConst Cz2 / (#3 * EVar vMgl * EVar vMt) + #128 * EConst Cz3 +
   #3701984 * EPow P2 (EVar vDmglst2) / (#675 * EPow P2 (EVar vMgl)) + #51968 * EVar vMst2 * EVar vs2t * EPow P2 (EVar
   vDmglst2) / (#9 * EVar vMt * EPow P2 (EVar vMgl)) - #5312 * EConst Cz2 * EPow P2 (EVar vDmglst2) / (#3 * EPow P2
   (EVar vMgl)) - #2624 * EVar vMst2 * EVar vs2t * EConst Cz2 * EPow P2 (EVar vDmglst2) / (EVar vMt * EPow P2 (EVar
   vMgl)) - #320 * EPow P2 (EVar vMsq) / EPow P2 (EVar vMst1) + #10496 * EVar vs2t * EPow P2 (EVar vMst1) / (#3 * EVar
   vMst2 * EVar vMt) + #11648 * EVar vDmglst2 * EVar vs2t * EPow P2 (EVar vMst1) / (#3 * EVar vMgl * EVar vMst2 * EVar
   vMt) - #8192 * EVar vs2t * EConst Cz2 * EPow P2 (EVar vMst1) / (#3 * EVar vMst2 * EVar vMt) + #9088 * EVar vDmglst2
   * EVar vs2t * EConst Cz2 * EPow P2 (EVar vMst1) / (#3 * EVar vMgl * EVar vMst2 * EVar vMt) - #67456 * EVar vs2t *
   EPow P2 (EVar vDmglst2) * EPow P2 (EVar vMst1) / (#9 * EVar vMst2 * EVar vMt * EPow P2 (EVar vMgl)) - #960 * EVar
   vs2t * EConst Cz2 * EPow P2 (EVar vDmglst2) * EPow P2 (EVar vMst1) / (EVar vMst2 * EVar vMt * EPow P2 (EVar vMgl))
   + #160 * EPow P2 (EVar vMst1) / (#9 * EPow P2 (EVar vMsq)) + #640 * EVar vDmglst2 * EPow P2 (EVar vMst1) / (#3 *
   EVar vMgl * EPow P2 (EVar vMsq)) + #1600 * EVar vMst2 * EVar vs2t * EPow P2 (EVar vMst1) / (#9 * EVar vMt * EPow P2
   (EVar vMsq)) - #2240 * EVar vDmglst2 * EVar vMst2 * EVar vs2t * EPow P2 (EVar vMst1) / (#9 * EVar vMgl * EVar vMt *
   EPow P2 (EVar vMsq)) + #320 * EPow P2 (EVar vDmglst2) * EPow P2 (EVar vMst1) / (#3 * EPow P2 (EVar vMgl) * EPow P2
   (EVar vMsq)) - #4160 * EVar vMst2 * EVar vs2t * EPow P2 (EVar vDmglst2) * EPow P2 (EVar vMst1) / (#9 * EVar vMt *
   EPow P2 (EVar vMgl) * EPow P2 (EVar vMsq)) - #320 * EPow P2 (EVar vMsq) / EPow P2 (EVar vMst2) - #6208 * EPow P2
   (EVar vMst1) / (#3 * EPow P2 (EVar vMst2)) + #8192 * EVar vDmglst2 * EPow P2 (EVar vMst1) / (#9 * EVar vMgl * EPow
   P2 (EVar vMst2)) + #1600 * EConst Cz2 * EPow P2 (EVar vMst1) / EPow P2 (EVar vMst2) - #8960 * EVar vDmglst2 *
   EConst Cz2 * EPow P2 (EVar vMst1) / (EVar vMgl * EPow P2 (EVar vMst2)) + #612496 * EPow P2 (EVar vDmglst2) * EPow
   P2 (EVar vMst1) / (#27 * EPow P2 (EVar vMgl) * EPow P2 (EVar vMst2)) + #8960 * EConst Cz2 * EPow P2 (EVar vDmglst2)
   * EPow P2 (EVar vMst1) / (#3 * EPow P2 (EVar vMgl) * EPow P2 (EVar vMst2)) - #1040 * EPow P2 (EVar vMst2) / (#3 *
   EPow P2 (EVar vMsq)) + #160 * EVar vDmglst2 * EPow P2 (EVar vMst2) / (#3 * EVar vMgl * EPow P2 (EVar vMsq)) + #1808
   * EPow P2 (EVar vDmglst2) * EPow P2 (EVar vMst2) / (#3 * EPow P2 (EVar vMgl) * EPow P2 (EVar vMsq)) + #3424 * EPow
   P2 (EVar vMst2) / (#3 * EPow P2 (EVar vMst1)) + #2240 * EVar vDmglst2 * EPow P2 (EVar vMst2) / (#3 * EVar vMgl *
   EPow P2 (EVar vMst1)) - #480 * EPow P2 (EVar vDmglst2) * EPow P2 (EVar vMst2) / (EPow P2 (EVar vMgl) * EPow P2
   (EVar vMst1)) - #320 * EPow P2 (EVar vMsq) * EPow P2 (EVar vs2t) / EPow P2 (EVar vMt) + #304 * EPow P2 (EVar vMst1)
   * EPow P2 (EVar vs2t) / EPow P2 (EVar vMt) + #31280 * EVar vDmglst2 * EPow P2 (EVar vMst1) * EPow P2 (EVar vs2t) /
   (#9 * EVar vMgl * EPow P2 (EVar vMt)) - #2048 * EVar vDmglst2 * EConst Cz2 * EPow P2 (EVar vMst1) * EPow P2 (EVar
   vs2t) / (EVar vMgl * EPow P2 (EVar vMt)) + #94504 * EPow P2 (EVar vDmglst2) * EPow P2 (EVar vMst1) * EPow P2 (EVar
   vs2t) / (#9 * EPow P2 (EVar vMgl) * EPow P2 (EVar vMt)) - #7168 * EConst Cz2 * EPow P2 (EVar vDmglst2) * EPow P2
   (EVar vMst1) * EPow P2 (EVar vs2t) / (EPow P2 (EVar vMgl) * EPow P2 (EVar vMt)) + #160 * EPow P2 (EVar vMsq) * EPow
   P2 (EVar vMst1) * EPow P2 (EVar vs2t) / (EPow P2 (EVar vMst2) * EPow P2 (EVar vMt)) + #8080 * EPow P2 (EVar vMst2)
   * EPow P2 (EVar vs2t) / (#3 * EPow P2 (EVar vMt)) + #57040 * EVar vDmglst2 * EPow P2 (EVar vMst2) * EPow P2 (EVar
   vs2t) / (#9 * EVar vMgl * EPow P2 (EVar vMt)) - #512 * EConst Cz2 * EPow P2 (EVar vMst2) * EPow P2 (EVar vs2t) /
   EPow P2 (EVar vMt) - #3072 * EVar vDmglst2 * EConst Cz2 * EPow P2 (EVar vMst2) * EPow P2 (EVar vs2t) / (EVar vMgl *
   EPow P2 (EVar vMt)) + #114008 * EPow P2 (EVar vDmglst2) * EPow P2 (EVar vMst2) * EPow P2 (EVar vs2t) / (#9 * EPow
   P2 (EVar vMgl) * EPow P2 (EVar vMt)) - #8704 * EConst Cz2 * EPow P2 (EVar vDmglst2) * EPow P2 (EVar vMst2) * EPow
   P2 (EVar vs2t) / (EPow P2 (EVar vMgl) * EPow P2 (EVar vMt)) + #160 * EPow P2 (EVar vMsq) * EPow P2 (EVar vMst2) *
   EPow P2 (EVar vs2t) / (EPow P2 (EVar vMst1) * EPow P2 (EVar vMt)) - #640 * EVar vs2t * EPow P3 (EVar vMst2) / (#9 *
   EVar vMt * EPow P2 (EVar vMsq)) + #640 * EVar vDmglst2 * EVar vs2t * EPow P3 (EVar vMst2) / (#3 * EVar vMgl * EVar
   vMt * EPow P2 (EVar vMsq)) + #1280 * EVar vs2t * EPow P2 (EVar vDmglst2) * EPow P3 (EVar vMst2) / (#3 * EVar vMt *
   EPow P2 (EVar vMgl) * EPow P2 (EVar vMsq)) - #2048 * EVar vs2t * EPow P3 (EVar vMst2) / (#3 * EVar vMt * EPow P2
   (EVar vMst1)) - #2048 * EVar vDmglst2 * EVar vs2t * EPow P3 (EVar vMst2) / (#3 * EVar vMgl * EVar vMt * EPow P2
   (EVar vMst1)) + #2048 * EVar vs2t * EPow P2 (EVar vDmglst2) * EPow P3 (EVar vMst2) / (#3 * EVar vMt * EPow P2 (EVar
   vMgl) * EPow P2 (EVar vMst1)) - #4736 * EVar vMst2 * EPow P2 (EVar vMst1) * EPow P3 (EVar vs2t) / (#3 * EPow P3
   (EVar vMt)) - #1184 * EVar vDmglst2 * EVar vMst2 * EPow P2 (EVar vMst1) * EPow P3 (EVar vs2t) / (EVar vMgl * EPow
   P3 (EVar vMt)) + #544 * EVar vMst2 * EConst Cz2 * EPow P2 (EVar vMst1) * EPow P3 (EVar vs2t) / (#3 * EPow P3 (EVar
   vMt)) + #544 * EVar vDmglst2 * EVar vMst2 * EConst Cz2 * EPow P2 (EVar vMst1) * EPow P3 (EVar vs2t) / (#3 * EVar
   vMgl * EPow P3 (EVar vMt)) - #1328 * EVar vMst2 * EPow P2 (EVar vDmglst2) * EPow P2 (EVar vMst1) * EPow P3 (EVar
   vs2t) / (#9 * EPow P2 (EVar vMgl) * EPow P3 (EVar vMt)) + #544 * EVar vMst2 * EConst Cz2 * EPow P2 (EVar vDmglst2)
   * EPow P2 (EVar vMst1) * EPow P3 (EVar vs2t) / (#3 * EPow P2 (EVar vMgl) * EPow P3 (EVar vMt)) + #4832 * EPow P3
   (EVar vMst2) * EPow P3 (EVar vs2t) / (#3 * EPow P3 (EVar vMt)) + #2048 * EVar vDmglst2 * EPow P3 (EVar vMst2) *
   EPow P3 (EVar vs2t) / (EVar vMgl * EPow P3 (EVar vMt)) - #608 * EConst Cz2 * EPow P3 (EVar vMst2) * EPow P3 (EVar
   vs2t) / (#3 * EPow P3 (EVar vMt)) - #2912 * EVar vDmglst2 * EConst Cz2 * EPow P3 (EVar vMst2) * EPow P3 (EVar vs2t)
   / (#3 * EVar vMgl * EPow P3 (EVar vMt)) + #32432 * EPow P2 (EVar vDmglst2) * EPow P3 (EVar vMst2) * EPow P3 (EVar
   vs2t) / (#9 * EPow P2 (EVar vMgl) * EPow P3 (EVar vMt)) - #6368 * EConst Cz2 * EPow P2 (EVar vDmglst2) * EPow P3
   (EVar vMst2) * EPow P3 (EVar vs2t) / (#3 * EPow P2 (EVar vMgl) * EPow P3 (EVar vMt)) - #100 * EPow P2 (EVar vMst1)
   * EPow P2 (EVar vMst2) / (#3 * EPow P4 (EVar vMsq)) + #280 * EVar vDmglst2 * EPow P2 (EVar vMst1) * EPow P2 (EVar
   vMst2) / (#3 * EVar vMgl * EPow P4 (EVar vMsq)) + #300 * EPow P2 (EVar vDmglst2) * EPow P2 (EVar vMst1) * EPow P2
   (EVar vMst2) / (EPow P2 (EVar vMgl) * EPow P4 (EVar vMsq)) + #560 * EVar vs2t * EPow P2 (EVar vMst1) * EPow P3
   (EVar vMst2) / (#9 * EVar vMt * EPow P4 (EVar vMsq)) - #80 * EVar vDmglst2 * EVar vs2t * EPow P2 (EVar vMst1) *
   EPow P3 (EVar vMst2) / (#3 * EVar vMgl * EVar vMt * EPow P4 (EVar vMsq)) - #1120 * EVar vs2t * EPow P2 (EVar
   vDmglst2) * EPow P2 (EVar vMst1) * EPow P3 (EVar vMst2) / (#3 * EVar vMt * EPow P2 (EVar vMgl) * EPow P4 (EVar
   vMsq)) - #640 * EVar vs2t * EPow P4 (EVar vMst1) / (#3 * EVar vMst2 * EVar vMt * EPow P2 (EVar vMsq)) + #640 * EVar
   vDmglst2 * EVar vs2t * EPow P4 (EVar vMst1) / (#3 * EVar vMgl * EVar vMst2 * EVar vMt * EPow P2 (EVar vMsq)) + #640
   * EVar vs2t * EPow P2 (EVar vDmglst2) * EPow P4 (EVar vMst1) / (#3 * EVar vMst2 * EVar vMt * EPow P2 (EVar vMgl) *
   EPow P2 (EVar vMsq)) + #1120 * EPow P4 (EVar vMst1) / (#3 * EPow P2 (EVar vMsq) * EPow P2 (EVar vMst2)) - #3200 *
   EVar vDmglst2 * EPow P4 (EVar vMst1) / (#3 * EVar vMgl * EPow P2 (EVar vMsq) * EPow P2 (EVar vMst2)) - #3200 * EPow
   P2 (EVar vDmglst2) * EPow P4 (EVar vMst1) / (#3 * EPow P2 (EVar vMgl) * EPow P2 (EVar vMsq) * EPow P2 (EVar vMst2))
   + #144 * EPow P2 (EVar vs2t) * EPow P4 (EVar vMst1) / (EPow P2 (EVar vMst2) * EPow P2 (EVar vMt)) + #9856 * EVar
   vDmglst2 * EPow P2 (EVar vs2t) * EPow P4 (EVar vMst1) / (#3 * EVar vMgl * EPow P2 (EVar vMst2) * EPow P2 (EVar
   vMt)) - #2048 * EVar vDmglst2 * EConst Cz2 * EPow P2 (EVar vs2t) * EPow P4 (EVar vMst1) / (EVar vMgl * EPow P2
   (EVar vMst2) * EPow P2 (EVar vMt)) + #9856 * EPow P2 (EVar vDmglst2) * EPow P2 (EVar vs2t) * EPow P4 (EVar vMst1) /
   (#3 * EPow P2 (EVar vMgl) * EPow P2 (EVar vMst2) * EPow P2 (EVar vMt)) - #2048 * EConst Cz2 * EPow P2 (EVar
   vDmglst2) * EPow P2 (EVar vs2t) * EPow P4 (EVar vMst1) / (EPow P2 (EVar vMgl) * EPow P2 (EVar vMst2) * EPow P2
   (EVar vMt)) + #13024 * EVar vs2t * EPow P4 (EVar vMst1) / (#3 * EVar vMt * EPow P3 (EVar vMst2)) - #5248 * EVar
   vDmglst2 * EVar vs2t * EPow P4 (EVar vMst1) / (EVar vMgl * EVar vMt * EPow P3 (EVar vMst2)) - #7936 * EVar vs2t *
   EConst Cz2 * EPow P4 (EVar vMst1) / (#3 * EVar vMt * EPow P3 (EVar vMst2)) + #24704 * EVar vDmglst2 * EVar vs2t *
   EConst Cz2 * EPow P4 (EVar vMst1) / (#3 * EVar vMgl * EVar vMt * EPow P3 (EVar vMst2)) - #5248 * EVar vs2t * EPow
   P2 (EVar vDmglst2) * EPow P4 (EVar vMst1) / (EVar vMt * EPow P2 (EVar vMgl) * EPow P3 (EVar vMst2)) + #24704 * EVar
   vs2t * EConst Cz2 * EPow P2 (EVar vDmglst2) * EPow P4 (EVar vMst1) / (#3 * EVar vMt * EPow P2 (EVar vMgl) * EPow P3
   (EVar vMst2)) - #392 * EPow P3 (EVar vs2t) * EPow P4 (EVar vMst1) / (#3 * EVar vMst2 * EPow P3 (EVar vMt)) + #184 *
   EVar vDmglst2 * EPow P3 (EVar vs2t) * EPow P4 (EVar vMst1) / (#3 * EVar vMgl * EVar vMst2 * EPow P3 (EVar vMt)) +
   #184 * EPow P2 (EVar vDmglst2) * EPow P3 (EVar vs2t) * EPow P4 (EVar vMst1) / (#3 * EVar vMst2 * EPow P2 (EVar
   vMgl) * EPow P3 (EVar vMt)) + #110 * EPow P4 (EVar vMst1) / (#3 * EPow P4 (EVar vMsq)) + #80 * EVar vDmglst2 * EPow
   P4 (EVar vMst1) / (EVar vMgl * EPow P4 (EVar vMsq)) + #40 * EVar vMst2 * EVar vs2t * EPow P4 (EVar vMst1) / (#9 *
   EVar vMt * EPow P4 (EVar vMsq)) - #920 * EVar vDmglst2 * EVar vMst2 * EVar vs2t * EPow P4 (EVar vMst1) / (#9 * EVar
   vMgl * EVar vMt * EPow P4 (EVar vMsq)) + #80 * EPow P2 (EVar vDmglst2) * EPow P4 (EVar vMst1) / (EPow P2 (EVar
   vMgl) * EPow P4 (EVar vMsq)) - #920 * EVar vMst2 * EVar vs2t * EPow P2 (EVar vDmglst2) * EPow P4 (EVar vMst1) / (#9
   * EVar vMt * EPow P2 (EVar vMgl) * EPow P4 (EVar vMsq)) - #11092 * EPow P4 (EVar vMst1) / (#3 * EPow P4 (EVar
   vMst2)) + #158720 * EVar vDmglst2 * EPow P4 (EVar vMst1) / (#9 * EVar vMgl * EPow P4 (EVar vMst2)) + #5632 * EConst
   Cz2 * EPow P4 (EVar vMst1) / (#3 * EPow P4 (EVar vMst2)) - #20224 * EVar vDmglst2 * EConst Cz2 * EPow P4 (EVar
   vMst1) / (EVar vMgl * EPow P4 (EVar vMst2)) + #158720 * EPow P2 (EVar vDmglst2) * EPow P4 (EVar vMst1) / (#9 * EPow
   P2 (EVar vMgl) * EPow P4 (EVar vMst2)) - #20224 * EConst Cz2 * EPow P2 (EVar vDmglst2) * EPow P4 (EVar vMst1) /
   (EPow P2 (EVar vMgl) * EPow P4 (EVar vMst2)) - #656 * EPow P2 (EVar vs2t) * EPow P4 (EVar vMst2) / (EPow P2 (EVar
   vMst1) * EPow P2 (EVar vMt)) - #2144 * EVar vDmglst2 * EPow P2 (EVar vs2t) * EPow P4 (EVar vMst2) / (#3 * EVar vMgl
   * EPow P2 (EVar vMst1) * EPow P2 (EVar vMt)) - #272 * EPow P2 (EVar vDmglst2) * EPow P2 (EVar vs2t) * EPow P4 (EVar
   vMst2) / (EPow P2 (EVar vMgl) * EPow P2 (EVar vMst1) * EPow P2 (EVar vMt)) - #770 * EPow P4 (EVar vMst2) / (#9 *
   EPow P4 (EVar vMsq)) + #520 * EVar vDmglst2 * EPow P4 (EVar vMst2) / (#9 * EVar vMgl * EPow P4 (EVar vMsq)) + #5716
   * EPow P2 (EVar vDmglst2) * EPow P4 (EVar vMst2) / (#9 * EPow P2 (EVar vMgl) * EPow P4 (EVar vMsq)) - #512 * EPow
   P4 (EVar vMst2) / (#3 * EPow P4 (EVar vMst1)) - #1024 * EVar vDmglst2 * EPow P4 (EVar vMst2) / (#3 * EVar vMgl *
   EPow P4 (EVar vMst1)) - #512 * EPow P2 (EVar vDmglst2) * EPow P4 (EVar vMst2) / (#3 * EPow P2 (EVar vMgl) * EPow P4
   (EVar vMst1)) + #20 * EPow P2 (EVar vMsq) * EPow P2 (EVar vMst1) * EPow P4 (EVar vs2t) / EPow P4 (EVar vMt) + #20 *
   EPow P2 (EVar vMsq) * EPow P2 (EVar vMst2) * EPow P4 (EVar vs2t) / EPow P4 (EVar vMt) - #1162 * EPow P2 (EVar
   vMst1) * EPow P2 (EVar vMst2) * EPow P4 (EVar vs2t) / (#3 * EPow P4 (EVar vMt)) + #4 * EVar vDmglst2 * EPow P2
   (EVar vMst1) * EPow P2 (EVar vMst2) * EPow P4 (EVar vs2t) / (#3 * EVar vMgl * EPow P4 (EVar vMt)) - #172 * EConst
   Cz2 * EPow P2 (EVar vMst1) * EPow P2 (EVar vMst2) * EPow P4 (EVar vs2t) / (#3 * EPow P4 (EVar vMt)) - #344 * EVar
   vDmglst2 * EConst Cz2 * EPow P2 (EVar vMst1) * EPow P2 (EVar vMst2) * EPow P4 (EVar vs2t) / (#3 * EVar vMgl * EPow
   P4 (EVar vMt)) + #830 * EPow P2 (EVar vDmglst2) * EPow P2 (EVar vMst1) * EPow P2 (EVar vMst2) * EPow P4 (EVar vs2t)
   / (#9 * EPow P2 (EVar vMgl) * EPow P4 (EVar vMt)) - #172 * EConst Cz2 * EPow P2 (EVar vDmglst2) * EPow P2 (EVar
   vMst1) * EPow P2 (EVar vMst2) * EPow P4 (EVar vs2t) / (EPow P2 (EVar vMgl) * EPow P4 (EVar vMt)) + #1667 * EPow P4
   (EVar vMst1) * EPow P4 (EVar vs2t) / (#6 * EPow P4 (EVar vMt)) + #98 * EVar vDmglst2 * EPow P4 (EVar vMst1) * EPow
   P4 (EVar vs2t) / (EVar vMgl * EPow P4 (EVar vMt)) + #82 * EConst Cz2 * EPow P4 (EVar vMst1) * EPow P4 (EVar vs2t) /
   (#3 * EPow P4 (EVar vMt)) + #98 * EPow P2 (EVar vDmglst2) * EPow P4 (EVar vMst1) * EPow P4 (EVar vs2t) / (EPow P2
   (EVar vMgl) * EPow P4 (EVar vMt)) - #20 * EPow P2 (EVar vMsq) * EPow P4 (EVar vMst1) * EPow P4 (EVar vs2t) / (EPow
   P2 (EVar vMst2) * EPow P4 (EVar vMt)) + #28 * EPow P4 (EVar vMst2) * EPow P4 (EVar vs2t) / EPow P4 (EVar vMt) -
   #844 * EVar vDmglst2 * EPow P4 (EVar vMst2) * EPow P4 (EVar vs2t) / (#3 * EVar vMgl * EPow P4 (EVar vMt)) + #30 *
   EConst Cz2 * EPow P4 (EVar vMst2) * EPow P4 (EVar vs2t) / EPow P4 (EVar vMt) + #344 * EVar vDmglst2 * EConst Cz2 *
   EPow P4 (EVar vMst2) * EPow P4 (EVar vs2t) / (#3 * EVar vMgl * EPow P4 (EVar vMt)) - #3352 * EPow P2 (EVar
   vDmglst2) * EPow P4 (EVar vMst2) * EPow P4 (EVar vs2t) / (#9 * EPow P2 (EVar vMgl) * EPow P4 (EVar vMt)) + #172 *
   EConst Cz2 * EPow P2 (EVar vDmglst2) * EPow P4 (EVar vMst2) * EPow P4 (EVar vs2t) / (EPow P2 (EVar vMgl) * EPow P4
   (EVar vMt)) - #20 * EPow P2 (EVar vMsq) * EPow P4 (EVar vMst2) * EPow P4 (EVar vs2t) / (EPow P2 (EVar vMst1) * EPow
   P4 (EVar vMt)) + EPow P2 (ELog (EPow P2 (EVar vMst1) / EPow P2 (EVar vMst2))) * (- #8 * EVar vDmglst2 * EVar vMgl *
   (#8 * EVar vMt * (- #67 * EVar vMst2 * EVar vs2t * EPow P2 (EVar vMt) - #108 * EVar vMt * EPow P2 (EVar vMst2) *
   EPow P2 (EVar vs2t) + #128 * EPow P3 (EVar vMt) - #16 * EPow P3 (EVar vMst2) * EPow P3 (EVar vs2t)) * EPow P4 (EVar
   vMst1) + EPow P4 (EVar vMst2) * (- #320 * EPow P2 (EVar vMst2) * EPow P2 (EVar vMt) * EPow P2 (EVar vs2t) + #848 *
   EVar vMst2 * EVar vs2t * EPow P3 (EVar vMt) - #532 * EVar vMt * EPow P3 (EVar vMst2) * EPow P3 (EVar vs2t) + #512 *
   EPow P4 (EVar vMt) - #99 * EPow P4 (EVar vMst2) * EPow P4 (EVar vs2t)) + EPow P2 (EVar vMst1) * EPow P2 (EVar
   vMst2) * (- #768 * EPow P2 (EVar vMst2) * EPow P2 (EVar vMt) * EPow P2 (EVar vs2t) - #448 * EVar vMst2 * EVar vs2t
   * EPow P3 (EVar vMt) - #212 * EVar vMt * EPow P3 (EVar vMst2) * EPow P3 (EVar vs2t) + #1656 * EPow P4 (EVar vMt) +
   #35 * EPow P4 (EVar vMst2) * EPow P4 (EVar vs2t))) - #4 * EPow P2 (EVar vDmglst2) * (#16 * EVar vMt * (- #67 * EVar
   vMst2 * EVar vs2t * EPow P2 (EVar vMt) - #108 * EVar vMt * EPow P2 (EVar vMst2) * EPow P2 (EVar vs2t) + #128 * EPow
   P3 (EVar vMt) - #16 * EPow P3 (EVar vMst2) * EPow P3 (EVar vs2t)) * EPow P4 (EVar vMst1) + EPow P4 (EVar vMst2) *
   (- #960 * EPow P2 (EVar vMst2) * EPow P2 (EVar vMt) * EPow P2 (EVar vs2t) + #1696 * EVar vMst2 * EVar vs2t * EPow
   P3 (EVar vMt) - #1832 * EVar vMt * EPow P3 (EVar vMst2) * EPow P3 (EVar vs2t) + #1536 * EPow P4 (EVar vMt) - #297 *
   EPow P4 (EVar vMst2) * EPow P4 (EVar vs2t)) + EPow P2 (EVar vMst1) * EPow P2 (EVar vMst2) * (- #2304 * EPow P2
   (EVar vMst2) * EPow P2 (EVar vMt) * EPow P2 (EVar vs2t) + #256 * EVar vMst2 * EVar vs2t * EPow P3 (EVar vMt) - #424
   * EVar vMt * EPow P3 (EVar vMst2) * EPow P3 (EVar vs2t) + #392 * EPow P4 (EVar vMt) + #105 * EPow P4 (EVar vMst2) *
   EPow P4 (EVar vs2t))) + EPow P2 (EVar vMgl) * (#8 * EPow P2 (EVar vMst1) * EPow P2 (EVar vMst2) * (#425 * EPow P2
   (EVar vMst2) * EPow P2 (EVar vMt) * EPow P2 (EVar vs2t) - #704 * EVar vMst2 * EVar vs2t * EPow P3 (EVar vMt) + #212
   * EVar vMt * EPow P3 (EVar vMst2) * EPow P3 (EVar vs2t) - #196 * EPow P4 (EVar vMt) + #3 * EPow P4 (EVar vMst2) *
   EPow P4 (EVar vs2t)) + EPow P4 (EVar vMst1) * (#2688 * EPow P2 (EVar vMst2) * EPow P2 (EVar vMt) * EPow P2 (EVar
   vs2t) - #3136 * EVar vMst2 * EVar vs2t * EPow P3 (EVar vMt) + #1024 * EVar vMt * EPow P3 (EVar vMst2) * EPow P3
   (EVar vs2t) - #7168 * EPow P4 (EVar vMt) + #41 * EPow P4 (EVar vMst2) * EPow P4 (EVar vs2t)) + EPow P4 (EVar vMst2)
   * (#296 * EPow P2 (EVar vMst2) * EPow P2 (EVar vMt) * EPow P2 (EVar vs2t) - #6784 * EVar vMst2 * EVar vs2t * EPow
   P3 (EVar vMt) + #2208 * EVar vMt * EPow P3 (EVar vMst2) * EPow P3 (EVar vs2t) + #288 * EPow P4 (EVar vMt) + #519 *
   EPow P4 (EVar vMst2) * EPow P4 (EVar vs2t)))) / (#3 * EPow P2 (EVar vMgl) * EPow P4 (EVar vMst2) * EPow P4 (EVar
   vMt)) + #512 * EPow P3 (EVar vs2t) * EPow P5 (EVar vMst2) / (#3 * EPow P2 (EVar vMst1) * EPow P3 (EVar vMt)) + #512
   * EVar vDmglst2 * EPow P3 (EVar vs2t) * EPow P5 (EVar vMst2) / (#3 * EVar vMgl * EPow P2 (EVar vMst1) * EPow P3
   (EVar vMt)) - #512 * EPow P2 (EVar vDmglst2) * EPow P3 (EVar vs2t) * EPow P5 (EVar vMst2) / (#3 * EPow P2 (EVar
   vMgl) * EPow P2 (EVar vMst1) * EPow P3 (EVar vMt)) - #40 * EVar vs2t * EPow P5 (EVar vMst2) / (EVar vMt * EPow P4
   (EVar vMsq)) + #120 * EVar vDmglst2 * EVar vs2t * EPow P5 (EVar vMst2) / (EVar vMgl * EVar vMt * EPow P4 (EVar
   vMsq)) + #520 * EVar vs2t * EPow P2 (EVar vDmglst2) * EPow P5 (EVar vMst2) / (EVar vMt * EPow P2 (EVar vMgl) * EPow
   P4 (EVar vMsq)) + #8 * ELog (EPow P2 (EVar vMst1) / EPow P2 (EVar vMsq)) * (- #60 * ELog (EPow P2 (EVar vMst1) /
   EPow P2 (EVar vMst2)) * EPow P4 (EVar vMsq) * (#4 * EVar vDmglst2 * EVar vMgl * EPow P2 (EVar vMst1) * ((#9 * EVar
   vMt - #3 * EVar vMst2 * EVar vs2t) * EPow P2 (EVar vMst1) + EVar vMt * EPow P2 (EVar vMst2)) - #2 * EPow P2 (EVar
   vDmglst2) * (EVar vMt * EPow P2 (EVar vMst1) * EPow P2 (EVar vMst2) + #6 * (- #3 * EVar vMt + EVar vMst2 * EVar
   vs2t) * EPow P4 (EVar vMst1)) + EPow P2 (EVar vMgl) * (- #2 * EVar vMt * EPow P2 (EVar vMst1) * EPow P2 (EVar
   vMst2) + (- #9 * EVar vMt + #4 * EVar vMst2 * EVar vs2t) * EPow P4 (EVar vMst1) + #2 * EVar vMt * EPow P4 (EVar
   vMst2))) + #5 * EPow P2 (EVar vMgl) * (#8 * EPow P2 (EVar vMsq) * ((EVar vMt - #2 * EVar vMst2 * EVar vs2t) * EPow
   P2 (EVar vMst1) + #2 * (#2 * EVar vMt + EVar vMst2 * EVar vs2t) * EPow P2 (EVar vMst2)) * EPow P4 (EVar vMst2) + #6
   * EPow P4 (EVar vMsq) * (#2 * (#5 * EVar vMt - #4 * EVar vMst2 * EVar vs2t) * EPow P2 (EVar vMst1) * EPow P2 (EVar
   vMst2) + #2 * (#9 * EVar vMt - #4 * EVar vMst2 * EVar vs2t) * EPow P4 (EVar vMst1) + (#9 * EVar vMt + #4 * EVar
   vMst2 * EVar vs2t) * EPow P4 (EVar vMst2)) + EPow P4 (EVar vMst2) * (EPow P2 (EVar vMst1) * (#6 * EVar vMt * EPow
   P2 (EVar vMst2) - #8 * EVar vs2t * EPow P3 (EVar vMst2)) + (#3 * EVar vMt - #4 * EVar vMst2 * EVar vs2t) * EPow P4
   (EVar vMst1) + (#19 * EVar vMt + #12 * EVar vMst2 * EVar vs2t) * EPow P4 (EVar vMst2))) + #2 * EPow P2 (EVar
   vDmglst2) * (EPow P4 (EVar vMsq) * (#330 * EVar vMt * EPow P2 (EVar vMst1) * EPow P2 (EVar vMst2) - #60 * (#27 *
   EVar vMt - #10 * EVar vMst2 * EVar vs2t) * EPow P4 (EVar vMst1) + #4 * (#16 * EVar vMt - #5 * EVar vMst2 * EVar
   vs2t) * EPow P4 (EVar vMst2)) + #20 * EPow P2 (EVar vMsq) * (#9 * EVar vMst2 * EVar vMt - #2 * EVar vs2t * EPow P2
   (EVar vMst1) + #2 * EVar vs2t * EPow P2 (EVar vMst2)) * EPow P5 (EVar vMst2) + #5 * (#3 * EVar vMst2 * (#3 * EVar
   vMt - #8 * EVar vMst2 * EVar vs2t) * EPow P2 (EVar vMst1) + (#59 * EVar vMt + #26 * EVar vMst2 * EVar vs2t) * EPow
   P3 (EVar vMst2) - #2 * EVar vs2t * EPow P4 (EVar vMst1)) * EPow P5 (EVar vMst2)) - #20 * EVar vDmglst2 * EVar vMgl
   * (#2 * EPow P4 (EVar vMsq) * (#3 * (#7 * EVar vMt - #2 * EVar vMst2 * EVar vs2t) * EPow P2 (EVar vMst1) * EPow P2
   (EVar vMst2) + (#81 * EVar vMt - #30 * EVar vMst2 * EVar vs2t) * EPow P4 (EVar vMst1) + (- #5 * EVar vMt + EVar
   vMst2 * EVar vs2t) * EPow P4 (EVar vMst2)) - #4 * EPow P2 (EVar vMsq) * (#3 * EVar vMst2 * EVar vMt - EVar vs2t *
   EPow P2 (EVar vMst1) + EVar vs2t * EPow P2 (EVar vMst2)) * EPow P5 (EVar vMst2) + (#3 * EVar vMst2 * (- EVar vMt +
   #2 * EVar vMst2 * EVar vs2t) * EPow P2 (EVar vMst1) - (#13 * EVar vMt + #7 * EVar vMst2 * EVar vs2t) * EPow P3
   (EVar vMst2) + EVar vs2t * EPow P4 (EVar vMst1)) * EPow P5 (EVar vMst2))) / (#3 * EVar vMt * EPow P2 (EVar vMgl) *
   EPow P4 (EVar vMsq) * EPow P4 (EVar vMst2)) + #256 * EPow P2 (EVar vs2t) * EPow P6 (EVar vMst2) / (#3 * EPow P2
   (EVar vMt) * EPow P4 (EVar vMst1)) + #512 * EVar vDmglst2 * EPow P2 (EVar vs2t) * EPow P6 (EVar vMst2) / (#3 * EVar
   vMgl * EPow P2 (EVar vMt) * EPow P4 (EVar vMst1)) + #256 * EPow P2 (EVar vDmglst2) * EPow P2 (EVar vs2t) * EPow P6
   (EVar vMst2) / (#3 * EPow P2 (EVar vMgl) * EPow P2 (EVar vMt) * EPow P4 (EVar vMst1)) + #114 * EPow P4 (EVar vs2t)
   * EPow P6 (EVar vMst2) / (EPow P2 (EVar vMst1) * EPow P4 (EVar vMt)) + #524 * EVar vDmglst2 * EPow P4 (EVar vs2t) *
   EPow P6 (EVar vMst2) / (#3 * EVar vMgl * EPow P2 (EVar vMst1) * EPow P4 (EVar vMt)) + #358 * EPow P2 (EVar
   vDmglst2) * EPow P4 (EVar vs2t) * EPow P6 (EVar vMst2) / (#3 * EPow P2 (EVar vMgl) * EPow P2 (EVar vMst1) * EPow P4
   (EVar vMt)) + #32 * EPow P2 (EVar vDmglst2) * EPow P4 (EVar vs2t) * EPow P8 (EVar vMst2) / (#3 * EPow P2 (EVar
   vMgl) * EPow P4 (EVar vMst1) * EPow P4 (EVar vMt)) - ELog (EPow P2 (EVar vMst1) / EPow P2 (EVar vMst2)) * (#20 *
   EVar vDmglst2 * EVar vMgl * (#240 * EPow P2 (EVar vMsq) * EPow P2 (EVar vMst2) * EPow P3 (EVar vMt) * EPow P4 (EVar
   vMst1) * (- #2 * EVar vs2t * EPow P2 (EVar vMst1) * EPow P3 (EVar vMst2) + #3 * EVar vMt * EPow P4 (EVar vMst1) +
   #2 * (#3 * EVar vMt + EVar vMst2 * EVar vs2t) * EPow P4 (EVar vMst2)) - #120 * EPow P3 (EVar vMt) * EPow P4 (EVar
   vMst1) * (#3 * EVar vMst2 * (- EVar vMt + #2 * EVar vMst2 * EVar vs2t) * EPow P2 (EVar vMst1) - (#13 * EVar vMt +
   #7 * EVar vMst2 * EVar vs2t) * EPow P3 (EVar vMst2) + EVar vs2t * EPow P4 (EVar vMst1)) * EPow P5 (EVar vMst2) +
   EPow P4 (EVar vMsq) * (- #4 * EPow P4 (EVar vMst1) * EPow P4 (EVar vMst2) * (#1860 * EPow P2 (EVar vMst2) * EPow P2
   (EVar vMt) * EPow P2 (EVar vs2t) + #1532 * EVar vMst2 * EVar vs2t * EPow P3 (EVar vMt) + #774 * EVar vMt * EPow P3
   (EVar vMst2) * EPow P3 (EVar vs2t) - #2764 * EPow P4 (EVar vMt) + #15 * EPow P4 (EVar vMst2) * EPow P4 (EVar vs2t))
   + #2 * EPow P2 (EVar vMst2) * (- #432 * EPow P2 (EVar vMst2) * EPow P2 (EVar vMt) * EPow P2 (EVar vs2t) - #10936 *
   EVar vMst2 * EVar vs2t * EPow P3 (EVar vMt) + #996 * EVar vMt * EPow P3 (EVar vMst2) * EPow P3 (EVar vs2t) + #16228
   * EPow P4 (EVar vMt) + #207 * EPow P4 (EVar vMst2) * EPow P4 (EVar vs2t)) * EPow P6 (EVar vMst1) - #3 * EPow P2
   (EVar vMst1) * (- #856 * EPow P2 (EVar vMst2) * EPow P2 (EVar vMt) * EPow P2 (EVar vs2t) - #1536 * EVar vMst2 *
   EVar vs2t * EPow P3 (EVar vMt) + #384 * EVar vMt * EPow P3 (EVar vMst2) * EPow P3 (EVar vs2t) + #1200 * EPow P4
   (EVar vMt) + #203 * EPow P4 (EVar vMst2) * EPow P4 (EVar vs2t)) * EPow P6 (EVar vMst2) + #4 * (- #738 * EPow P2
   (EVar vMst2) * EPow P2 (EVar vMt) * EPow P2 (EVar vs2t) - #8204 * EVar vMst2 * EVar vs2t * EPow P3 (EVar vMt) +
   #135 * EVar vMt * EPow P3 (EVar vMst2) * EPow P3 (EVar vs2t) + #12492 * EPow P4 (EVar vMt) + #12 * EPow P4 (EVar
   vMst2) * EPow P4 (EVar vs2t)) * EPow P8 (EVar vMst1) - #768 * EPow P2 (EVar vMt) * (- #2 * EPow P2 (EVar vMt) +
   EPow P2 (EVar vMst2) * EPow P2 (EVar vs2t)) * EPow P8 (EVar vMst2))) - #5 * EPow P2 (EVar vMgl) * (#480 * EPow P2
   (EVar vMsq) * EPow P2 (EVar vMst2) * EPow P3 (EVar vMt) * EPow P4 (EVar vMst1) * (#2 * (- EVar vMt + #2 * EVar
   vMst2 * EVar vs2t) * EPow P2 (EVar vMst1) * EPow P2 (EVar vMst2) + #3 * EVar vMt * EPow P4 (EVar vMst1) - #4 * (#2
   * EVar vMt + EVar vMst2 * EVar vs2t) * EPow P4 (EVar vMst2)) + #120 * EPow P3 (EVar vMt) * EPow P4 (EVar vMst1) *
   EPow P4 (EVar vMst2) * (#2 * (- #3 * EVar vMt + #4 * EVar vMst2 * EVar vs2t) * EPow P2 (EVar vMst1) * EPow P2 (EVar
   vMst2) + (- #3 * EVar vMt + #4 * EVar vMst2 * EVar vs2t) * EPow P4 (EVar vMst1) - (#19 * EVar vMt + #12 * EVar
   vMst2 * EVar vs2t) * EPow P4 (EVar vMst2)) + #360 * (EPow P2 (EVar vMst1) - EPow P2 (EVar vMst2)) * EPow P4 (EVar
   vMst1) * EPow P4 (EVar vMst2) * EPow P4 (EVar vs2t) * EPow P6 (EVar vMsq) + EPow P4 (EVar vMsq) * (#4 * EPow P4
   (EVar vMst1) * EPow P4 (EVar vMst2) * (#3372 * EPow P2 (EVar vMst2) * EPow P2 (EVar vMt) * EPow P2 (EVar vs2t) -
   #9744 * EVar vMst2 * EVar vs2t * EPow P3 (EVar vMt) + #3912 * EVar vMt * EPow P3 (EVar vMst2) * EPow P3 (EVar vs2t)
   + #4492 * EPow P4 (EVar vMt) + #669 * EPow P4 (EVar vMst2) * EPow P4 (EVar vs2t)) - #48 * EPow P2 (EVar vMst2) * (-
   #267 * EPow P2 (EVar vMst2) * EPow P2 (EVar vMt) * EPow P2 (EVar vs2t) + #792 * EVar vMst2 * EVar vs2t * EPow P3
   (EVar vMt) - #30 * EVar vMt * EPow P3 (EVar vMst2) * EPow P3 (EVar vs2t) - #317 * EPow P4 (EVar vMt) + #56 * EPow
   P4 (EVar vMst2) * EPow P4 (EVar vs2t)) * EPow P6 (EVar vMst1) + #6 * EPow P2 (EVar vMst1) * (- #728 * EPow P2 (EVar
   vMst2) * EPow P2 (EVar vMt) * EPow P2 (EVar vs2t) - #1024 * EVar vMst2 * EVar vs2t * EPow P3 (EVar vMt) + #256 *
   EVar vMt * EPow P3 (EVar vMst2) * EPow P3 (EVar vs2t) + #1200 * EPow P4 (EVar vMt) + #139 * EPow P4 (EVar vMst2) *
   EPow P4 (EVar vs2t)) * EPow P6 (EVar vMst2) + #3 * (#4640 * EPow P2 (EVar vMst2) * EPow P2 (EVar vMt) * EPow P2
   (EVar vs2t) - #13376 * EVar vMst2 * EVar vs2t * EPow P3 (EVar vMt) + #240 * EVar vMt * EPow P3 (EVar vMst2) * EPow
   P3 (EVar vs2t) + #2328 * EPow P4 (EVar vMt) - #279 * EPow P4 (EVar vMst2) * EPow P4 (EVar vs2t)) * EPow P8 (EVar
   vMst1) + #768 * EPow P2 (EVar vMt) * (- #2 * EPow P2 (EVar vMt) + EPow P2 (EVar vMst2) * EPow P2 (EVar vs2t)) *
   EPow P8 (EVar vMst2))) + #2 * EPow P2 (EVar vDmglst2) * (#2400 * EPow P2 (EVar vMsq) * EPow P2 (EVar vMst2) * EPow
   P3 (EVar vMt) * EPow P4 (EVar vMst1) * (- #2 * EVar vs2t * EPow P2 (EVar vMst1) * EPow P3 (EVar vMst2) + #3 * EVar
   vMt * EPow P4 (EVar vMst1) + (#9 * EVar vMt + #2 * EVar vMst2 * EVar vs2t) * EPow P4 (EVar vMst2)) - #600 * EPow P3
   (EVar vMt) * EPow P4 (EVar vMst1) * (#3 * EVar vMst2 * (- #3 * EVar vMt + #8 * EVar vMst2 * EVar vs2t) * EPow P2
   (EVar vMst1) - (#59 * EVar vMt + #26 * EVar vMst2 * EVar vs2t) * EPow P3 (EVar vMst2) + #2 * EVar vs2t * EPow P4
   (EVar vMst1)) * EPow P5 (EVar vMst2) + EPow P4 (EVar vMsq) * (#2 * EPow P4 (EVar vMst1) * EPow P4 (EVar vMst2) * (-
   #40440 * EPow P2 (EVar vMst2) * EPow P2 (EVar vMt) * EPow P2 (EVar vs2t) - #76560 * EVar vMst2 * EVar vs2t * EPow
   P3 (EVar vMt) - #5760 * EVar vMt * EPow P3 (EVar vMst2) * EPow P3 (EVar vs2t) + #15712 * EPow P4 (EVar vMt) + #4335
   * EPow P4 (EVar vMst2) * EPow P4 (EVar vs2t)) + #2 * EPow P2 (EVar vMst2) * (#29760 * EPow P2 (EVar vMst2) * EPow
   P2 (EVar vMt) * EPow P2 (EVar vs2t) + #31000 * EVar vMst2 * EVar vs2t * EPow P3 (EVar vMt) + #15840 * EVar vMt *
   EPow P3 (EVar vMst2) * EPow P3 (EVar vs2t) - #208652 * EPow P4 (EVar vMt) + #1065 * EPow P4 (EVar vMst2) * EPow P4
   (EVar vs2t)) * EPow P6 (EVar vMst1) - #15 * EPow P2 (EVar vMst1) * (- #3080 * EPow P2 (EVar vMst2) * EPow P2 (EVar
   vMt) * EPow P2 (EVar vs2t) - #6144 * EVar vMst2 * EVar vs2t * EPow P3 (EVar vMt) + #1536 * EVar vMt * EPow P3 (EVar
   vMst2) * EPow P3 (EVar vs2t) + #3600 * EPow P4 (EVar vMt) + #865 * EPow P4 (EVar vMst2) * EPow P4 (EVar vs2t)) *
   EPow P6 (EVar vMst2) + #40 * (- #738 * EPow P2 (EVar vMst2) * EPow P2 (EVar vMt) * EPow P2 (EVar vs2t) - #8204 *
   EVar vMst2 * EVar vs2t * EPow P3 (EVar vMt) + #135 * EVar vMt * EPow P3 (EVar vMst2) * EPow P3 (EVar vs2t) + #12492
   * EPow P4 (EVar vMt) + #12 * EPow P4 (EVar vMst2) * EPow P4 (EVar vs2t)) * EPow P8 (EVar vMst1) + #480 * (- #40 *
   EPow P2 (EVar vMst2) * EPow P2 (EVar vMt) * EPow P2 (EVar vs2t) + #80 * EPow P4 (EVar vMt) + #3 * EPow P4 (EVar
   vMst2) * EPow P4 (EVar vs2t)) * EPow P8 (EVar vMst2)))) / (#45 * EPow P2 (EVar vMgl) * EPow P4 (EVar vMsq) * EPow
   P4 (EVar vMst1) * EPow P4 (EVar vMst2) * EPow P4 (EVar vMt)).

(** H6g2.cpp:5342-5414 *)
Definition H6g2_coef2 : expr :=
  (- #48160 * EVar vDmglst2 * EVar vMgl * EPow P4 (EVar vMst1) * EPow P4 (EVar vMst2) * EPow P4 (EVar vMt) - #29264 *
   EPow P2 (EVar vDmglst2) * EPow P4 (EVar vMst1) * EPow P4 (EVar vMst2) * EPow P4 (EVar vMt) + #21280 * EPow P2 (EVar
   vMgl) * EPow P4 (EVar vMst1) * EPow P4 (EVar vMst2) * EPow P4 (EVar vMt) - #7200 * ELog (EPow P2 (EVar vMst1) /
   EPow P2 (EVar vMsq)) * EPow P2 (EVar vMgl) * EPow P4 (EVar vMst1) * EPow P4 (EVar vMst2) * EPow P4 (EVar vMt) -
   #1440 * EPow P12 (EVar vMst2) * EPow P2 (EVar vDmglst2) * EPow P4 (EVar vs2t) + #46400 * EVar vDmglst2 * EVar vMgl
   * EVar vs2t * EPow P3 (EVar vMt) * EPow P4 (EVar vMst1) * EPow P5 (EVar vMst2) + #98880 * EVar vs2t * EPow P2 (EVar
   vDmglst2) * EPow P3 (EVar vMt) * EPow P4 (EVar vMst1) * EPow P5 (EVar vMst2) - #24000 * EVar vs2t * EPow P2 (EVar
   vMgl) * EPow P3 (EVar vMt) * EPow P4 (EVar vMst1) * EPow P5 (EVar vMst2) + #74880 * EVar vDmglst2 * EVar vMgl *
   EVar vs2t * EPow P3 (EVar vMst2) * EPow P3 (EVar vMt) * EPow P6 (EVar vMst1) - #38400 * EVar vs2t * EPow P2 (EVar
   vDmglst2) * EPow P3 (EVar vMst2) * EPow P3 (EVar vMt) * EPow P6 (EVar vMst1) + #1920 * EVar vs2t * EPow P2 (EVar
   vMgl) * EPow P3 (EVar vMst2) * EPow P3 (EVar vMt) * EPow P6 (EVar vMst1) - #14160 * EVar vDmglst2 * EVar vMgl *
   EPow P2 (EVar vMt) * EPow P2 (EVar vs2t) * EPow P4 (EVar vMst2) * EPow P6 (EVar vMst1) - #13560 * EPow P2 (EVar
   vDmglst2) * EPow P2 (EVar vMt) * EPow P2 (EVar vs2t) * EPow P4 (EVar vMst2) * EPow P6 (EVar vMst1) - #9000 * EPow
   P2 (EVar vMgl) * EPow P2 (EVar vMt) * EPow P2 (EVar vs2t) * EPow P4 (EVar vMst2) * EPow P6 (EVar vMst1) - #100800 *
   EVar vDmglst2 * EVar vMgl * EPow P2 (EVar vMst2) * EPow P4 (EVar vMt) * EPow P6 (EVar vMst1) + #161120 * EPow P2
   (EVar vDmglst2) * EPow P2 (EVar vMst2) * EPow P4 (EVar vMt) * EPow P6 (EVar vMst1) - #10080 * EPow P2 (EVar vMgl) *
   EPow P2 (EVar vMst2) * EPow P4 (EVar vMt) * EPow P6 (EVar vMst1) - #31200 * EVar vDmglst2 * EVar vMgl * EVar vMt *
   EPow P3 (EVar vs2t) * EPow P5 (EVar vMst2) * EPow P6 (EVar vMst1) - #42720 * EVar vMt * EPow P2 (EVar vDmglst2) *
   EPow P3 (EVar vs2t) * EPow P5 (EVar vMst2) * EPow P6 (EVar vMst1) - #23520 * EVar vMt * EPow P2 (EVar vMgl) * EPow
   P3 (EVar vs2t) * EPow P5 (EVar vMst2) * EPow P6 (EVar vMst1) + #82080 * EVar vDmglst2 * EVar vMgl * EPow P2 (EVar
   vMt) * EPow P2 (EVar vs2t) * EPow P4 (EVar vMst1) * EPow P6 (EVar vMst2) + #115440 * EPow P2 (EVar vDmglst2) * EPow
   P2 (EVar vMt) * EPow P2 (EVar vs2t) * EPow P4 (EVar vMst1) * EPow P6 (EVar vMst2) + #42960 * EPow P2 (EVar vMgl) *
   EPow P2 (EVar vMt) * EPow P2 (EVar vs2t) * EPow P4 (EVar vMst1) * EPow P6 (EVar vMst2) + #43680 * EVar vDmglst2 *
   EVar vMgl * EPow P2 (EVar vMst1) * EPow P4 (EVar vMt) * EPow P6 (EVar vMst2) + #65520 * EPow P2 (EVar vDmglst2) *
   EPow P2 (EVar vMst1) * EPow P4 (EVar vMt) * EPow P6 (EVar vMst2) + #21840 * EPow P2 (EVar vMgl) * EPow P2 (EVar
   vMst1) * EPow P4 (EVar vMt) * EPow P6 (EVar vMst2) + #1110 * EVar vDmglst2 * EVar vMgl * EPow P4 (EVar vs2t) * EPow
   P6 (EVar vMst1) * EPow P6 (EVar vMst2) + #5505 * EPow P2 (EVar vDmglst2) * EPow P4 (EVar vs2t) * EPow P6 (EVar
   vMst1) * EPow P6 (EVar vMst2) - #5325 * EPow P2 (EVar vMgl) * EPow P4 (EVar vs2t) * EPow P6 (EVar vMst1) * EPow P6
   (EVar vMst2) - #30 * ELog (EPow P2 (EVar vMst1) / EPow P2 (EVar vMst2)) * EPow P4 (EVar vMst1) * (EPow P2 (EVar
   vMgl) * (- #4 * EPow P4 (EVar vMst2) * (#14 * EPow P2 (EVar vMst2) * EPow P2 (EVar vMt) * EPow P2 (EVar vs2t) -
   #456 * EVar vMst2 * EVar vs2t * EPow P3 (EVar vMt) + #146 * EVar vMt * EPow P3 (EVar vMst2) * EPow P3 (EVar vs2t) -
   #106 * EPow P4 (EVar vMt) + #33 * EPow P4 (EVar vMst2) * EPow P4 (EVar vs2t)) + EPow P4 (EVar vMst1) * (- #768 *
   EPow P2 (EVar vMst2) * EPow P2 (EVar vMt) * EPow P2 (EVar vs2t) + #1216 * EVar vMst2 * EVar vs2t * EPow P3 (EVar
   vMt) + #400 * EPow P4 (EVar vMt) + #41 * EPow P4 (EVar vMst2) * EPow P4 (EVar vs2t)) + EPow P2 (EVar vMst1) * EPow
   P2 (EVar vMst2) * (- #1096 * EPow P2 (EVar vMst2) * EPow P2 (EVar vMt) * EPow P2 (EVar vs2t) + #1280 * EVar vMst2 *
   EVar vs2t * EPow P3 (EVar vMt) - #328 * EVar vMt * EPow P3 (EVar vMst2) * EPow P3 (EVar vs2t) + #32 * EPow P4 (EVar
   vMt) + #91 * EPow P4 (EVar vMst2) * EPow P4 (EVar vs2t))) + #2 * EVar vDmglst2 * EVar vMgl * (#32 * EPow P2 (EVar
   vMt) * (- #57 * EVar vMst2 * EVar vMt * EVar vs2t + #119 * EPow P2 (EVar vMt) - #24 * EPow P2 (EVar vMst2) * EPow
   P2 (EVar vs2t)) * EPow P4 (EVar vMst1) + EPow P4 (EVar vMst2) * (- #384 * EPow P2 (EVar vMst2) * EPow P2 (EVar vMt)
   * EPow P2 (EVar vs2t) + #912 * EVar vMst2 * EVar vs2t * EPow P3 (EVar vMt) - #548 * EVar vMt * EPow P3 (EVar vMst2)
   * EPow P3 (EVar vs2t) + #512 * EPow P4 (EVar vMt) - #91 * EPow P4 (EVar vMst2) * EPow P4 (EVar vs2t)) + EPow P2
   (EVar vMst1) * EPow P2 (EVar vMst2) * (- #768 * EPow P2 (EVar vMst2) * EPow P2 (EVar vMt) * EPow P2 (EVar vs2t) -
   #640 * EVar vMst2 * EVar vs2t * EPow P3 (EVar vMt) - #164 * EVar vMt * EPow P3 (EVar vMst2) * EPow P3 (EVar vs2t) +
   #2016 * EPow P4 (EVar vMt) + #91 * EPow P4 (EVar vMst2) * EPow P4 (EVar vs2t))) + EPow P2 (EVar vDmglst2) * (#64 *
   EPow P2 (EVar vMt) * (- #57 * EVar vMst2 * EVar vMt * EVar vs2t + #119 * EPow P2 (EVar vMt) - #24 * EPow P2 (EVar
   vMst2) * EPow P2 (EVar vs2t)) * EPow P4 (EVar vMst1) + EPow P4 (EVar vMst2) * (- #1152 * EPow P2 (EVar vMst2) *
   EPow P2 (EVar vMt) * EPow P2 (EVar vs2t) + #1824 * EVar vMst2 * EVar vs2t * EPow P3 (EVar vMt) - #1864 * EVar vMt *
   EPow P3 (EVar vMst2) * EPow P3 (EVar vs2t) + #1536 * EPow P4 (EVar vMt) - #273 * EPow P4 (EVar vMst2) * EPow P4
   (EVar vs2t)) + EPow P2 (EVar vMst1) * (- #2304 * EPow P2 (EVar vMt) * EPow P2 (EVar vs2t) * EPow P4 (EVar vMst2) +
   #32 * EPow P2 (EVar vMst2) * EPow P4 (EVar vMt) - #328 * EVar vMt * EPow P3 (EVar vs2t) * EPow P5 (EVar vMst2) +
   #273 * EPow P4 (EVar vs2t) * EPow P6 (EVar vMst2)))) - #46080 * EVar vDmglst2 * EVar vMgl * EVar vs2t * EPow P2
   (EVar vMst1) * EPow P3 (EVar vMt) * EPow P7 (EVar vMst2) - #92160 * EVar vs2t * EPow P2 (EVar vDmglst2) * EPow P2
   (EVar vMst1) * EPow P3 (EVar vMt) * EPow P7 (EVar vMst2) - #15360 * EVar vs2t * EPow P2 (EVar vMgl) * EPow P2 (EVar
   vMst1) * EPow P3 (EVar vMt) * EPow P7 (EVar vMst2) + #19680 * EVar vDmglst2 * EVar vMgl * EVar vMt * EPow P3 (EVar
   vs2t) * EPow P4 (EVar vMst1) * EPow P7 (EVar vMst2) + #19680 * EVar vMt * EPow P2 (EVar vDmglst2) * EPow P3 (EVar
   vs2t) * EPow P4 (EVar vMst1) * EPow P7 (EVar vMst2) + #19680 * EVar vMt * EPow P2 (EVar vMgl) * EPow P3 (EVar vs2t)
   * EPow P4 (EVar vMst1) * EPow P7 (EVar vMst2) + #67200 * EVar vDmglst2 * EVar vMgl * EVar vMst2 * EVar vs2t * EPow
   P3 (EVar vMt) * EPow P8 (EVar vMst1) + #67200 * EVar vMst2 * EVar vs2t * EPow P2 (EVar vDmglst2) * EPow P3 (EVar
   vMt) * EPow P8 (EVar vMst1) + #1920 * EVar vMst2 * EVar vs2t * EPow P2 (EVar vMgl) * EPow P3 (EVar vMt) * EPow P8
   (EVar vMst1) - #112320 * EVar vDmglst2 * EVar vMgl * EPow P4 (EVar vMt) * EPow P8 (EVar vMst1) - #112320 * EPow P2
   (EVar vDmglst2) * EPow P4 (EVar vMt) * EPow P8 (EVar vMst1) - #12000 * EPow P2 (EVar vMgl) * EPow P4 (EVar vMt) *
   EPow P8 (EVar vMst1) + #1770 * EVar vDmglst2 * EVar vMgl * EPow P4 (EVar vMst2) * EPow P4 (EVar vs2t) * EPow P8
   (EVar vMst1) + #1770 * EPow P2 (EVar vDmglst2) * EPow P4 (EVar vMst2) * EPow P4 (EVar vs2t) * EPow P8 (EVar vMst1)
   + #3585 * EPow P2 (EVar vMgl) * EPow P4 (EVar vMst2) * EPow P4 (EVar vs2t) * EPow P8 (EVar vMst1) - #29520 * EVar
   vDmglst2 * EVar vMgl * EPow P2 (EVar vMst1) * EPow P2 (EVar vMt) * EPow P2 (EVar vs2t) * EPow P8 (EVar vMst2) -
   #51960 * EPow P2 (EVar vDmglst2) * EPow P2 (EVar vMst1) * EPow P2 (EVar vMt) * EPow P2 (EVar vs2t) * EPow P8 (EVar
   vMst2) - #12840 * EPow P2 (EVar vMgl) * EPow P2 (EVar vMst1) * EPow P2 (EVar vMt) * EPow P2 (EVar vs2t) * EPow P8
   (EVar vMst2) - #15360 * EVar vDmglst2 * EVar vMgl * EPow P4 (EVar vMt) * EPow P8 (EVar vMst2) - #38400 * EPow P2
   (EVar vDmglst2) * EPow P4 (EVar vMt) * EPow P8 (EVar vMst2) - #3840 * EPow P2 (EVar vMgl) * EPow P4 (EVar vMt) *
   EPow P8 (EVar vMst2) - #8490 * EVar vDmglst2 * EVar vMgl * EPow P4 (EVar vMst1) * EPow P4 (EVar vs2t) * EPow P8
   (EVar vMst2) - #18495 * EPow P2 (EVar vDmglst2) * EPow P4 (EVar vMst1) * EPow P4 (EVar vs2t) * EPow P8 (EVar vMst2)
   - #345 * EPow P2 (EVar vMgl) * EPow P4 (EVar vMst1) * EPow P4 (EVar vs2t) * EPow P8 (EVar vMst2) + #11520 * EVar
   vDmglst2 * EVar vMgl * EVar vMt * EPow P2 (EVar vMst1) * EPow P3 (EVar vs2t) * EPow P9 (EVar vMst2) + #23040 * EVar
   vMt * EPow P2 (EVar vDmglst2) * EPow P2 (EVar vMst1) * EPow P3 (EVar vs2t) * EPow P9 (EVar vMst2) + #3840 * EVar
   vMt * EPow P2 (EVar vMgl) * EPow P2 (EVar vMst1) * EPow P3 (EVar vs2t) * EPow P9 (EVar vMst2) + #7680 * EVar
   vDmglst2 * EVar vMgl * EPow P2 (EVar vMt) * EPow P2 (EVar vs2t) * EPow P10 (EVar vMst2) + #19200 * EPow P2 (EVar
   vDmglst2) * EPow P2 (EVar vMt) * EPow P2 (EVar vs2t) * EPow P10 (EVar vMst2) + #1920 * EPow P2 (EVar vMgl) * EPow
   P2 (EVar vMt) * EPow P2 (EVar vs2t) * EPow P10 (EVar vMst2) + #6570 * EVar vDmglst2 * EVar vMgl * EPow P2 (EVar
   vMst1) * EPow P4 (EVar vs2t) * EPow P10 (EVar vMst2) + #13695 * EPow P2 (EVar vDmglst2) * EPow P2 (EVar vMst1) *
   EPow P4 (EVar vs2t) * EPow P10 (EVar vMst2) + #2325 * EPow P2 (EVar vMgl) * EPow P2 (EVar vMst1) * EPow P4 (EVar
   vs2t) * EPow P10 (EVar vMst2)) / (#45 * EPow P2 (EVar vMgl) * EPow P4 (EVar vMst1) * EPow P4 (EVar vMst2) * EPow P4
   (EVar vMt)).

(** H6g2.cpp:5419-5425 *)
Definition H6g2_coef3 : expr :=
  - EDec 2986666666666667 13.

(** the constructor, H6g2.cpp:39-72: value of each data member (members it does not assign are zero, H6g2.hpp) *)
Definition H6g2_ctor {T : Type} {N : Num T} (d : Depth) (a_Al4p a_beta a_Dmglst2 a_lmMt a_lmMst1 a_lmMst2 a_lmMsq
   a_Mgl a_Mt a_Mst1 a_Mst2 a_Msq a_MuSUSY a_s2t : T) (mdr f1 f2 f3 : Z) (v : hvar) : T :=
  match v with
  | vTbeta => ntan a_beta
  | vSbeta => nsin a_beta
  | vDmglst2 => a_Dmglst2
  | vlmMt => a_lmMt
  | vlmMst1 => a_lmMst1
  | vlmMst2 => a_lmMst2
  | vlmMsq => a_lmMsq
  | vMgl => a_Mgl
  | vMt => a_Mt
  | vMst1 => a_Mst1
  | vMst2 => a_Mst2
  | vMsq => a_Msq
  | vMuSUSY => a_MuSUSY
  | vs2t => a_s2t
  | voneLoopFlag => nint f1
  | vtwoLoopFlag => nint f2
  | vthreeLoopFlag => nint f3
  | vAl4p => a_Al4p
  | vshiftst1 => nint mdr
  | vshiftst2 => nint mdr
  | vshiftst3 => nint mdr
  | vxDR2DRMOD => nint mdr
  | vxDmglst2 => nint (x_Dmglst2 d)
  | vxMsq => nint (x_Msq d)
  | vxMst => nint (x_Mst d)
  | _ => nint 0
  end.
