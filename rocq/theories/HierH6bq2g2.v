(** * Class H6bq2g2
    GENERATED by tools/gen_hier.py from source/himalaya/hierarchies/H6bq2g2.cpp (expressions are transcribed operator by operator;
    no subexpression is an integer division, and integer subexpressions stay below 2^31 when the flags are 0 or 1). *)
From Coq Require Import ZArith List.
From Verif Require Import Num HierExpr HierCalc.
Local Open Scope hx_scope.

(** H6bq2g2.cpp:77-507 *)
Definition H6bq2g2_getS1 : expr :=
  - (EVar vAl4p * EVar vMt * EConst Cz2 * (EVar vMt * EVar vxDmglst2 * EPow P2 (EVar vDmglst2) * (#9720 * EVar vs2t *
   EVar vtwoLoopFlag * EPow P2 (EVar vMuSUSY) * (- #3 * (- #14 * EVar vMt + EVar vMst2 * EVar vs2t) * EPow P2 (EVar
   vMst1) * EPow P2 (EVar vMst2) + (#62 * EVar vMt - #3 * EVar vMst2 * EVar vs2t) * EPow P4 (EVar vMst1) + (#22 * EVar
   vMt - #3 * EVar vMst2 * EVar vs2t) * EPow P4 (EVar vMst2)) + EVar vAl4p * EVar vthreeLoopFlag * (EVar vMt * EPow P2
   (EVar vMuSUSY) * (#388800 * EVar vDmsqst2 * EVar vs2t * EPow P2 (EVar vMst2) * ((#1 - #9 * EVar vlmMst1 + #9 * EVar
   vlmMst2) * EPow P2 (EVar vMst1) + (- #2 - #3 * EVar vlmMst1 + #3 * EVar vlmMst2) * EPow P2 (EVar vMst2)) + EPow P2
   (EVar vMsq) * (#6 * EVar vMst2 * (#6 * (#122051 + #1800 * EVar vlmMst1 + #274680 * EVar vlmMst2) * EVar vMt +
   (#1263161 - #156600 * EVar vlmMst1 + #979560 * EVar vlmMst2) * EVar vMst2 * EVar vs2t) * EPow P2 (EVar vMst1) + #9
   * (#192 * (#617 + #2040 * EVar vlmMst2) * EVar vMt + (#897737 + #47880 * EVar vlmMst1 + #238680 * EVar vlmMst2) *
   EVar vMst2 * EVar vs2t) * EPow P3 (EVar vMst2) + #2 * (#15057833 - #4014360 * EVar vlmMst1 + #5563080 * EVar
   vlmMst2) * EVar vs2t * EPow P4 (EVar vMst1))) - EVar vMst2 * EPow P2 (EVar vs2t) * (- #24300 * EVar vDmsqst2 * EPow
   P2 (EVar vMst2) * (#4 * EPow P2 (EVar vMuSUSY) * (#3 * (#2 + EVar vlmMst1 - EVar vlmMst2) * EPow P2 (EVar vMst1) *
   EPow P2 (EVar vMst2) + (#3 + #8 * EVar vlmMst1 - #8 * EVar vlmMst2) * EPow P4 (EVar vMst1) + EPow P4 (EVar vMst2))
   - (- #93 + #10 * EVar vlmMst1 - #10 * EVar vlmMst2) * (- #1 + EPow P2 (EVar vSbeta)) * EPow P2 (EVar vSbeta) * EPow
   P6 (EVar vMst1)) + EPow P2 (EVar vMsq) * EPow P2 (EVar vMuSUSY) * (#30 * (#21223 + #13230 * EVar vlmMst1 + #702 *
   EVar vlmMst2) * EPow P2 (EVar vMst2) * EPow P4 (EVar vMst1) + #9 * (#88931 + #33120 * EVar vlmMst1 + #13320 * EVar
   vlmMst2) * EPow P2 (EVar vMst1) * EPow P4 (EVar vMst2) + (#8513956 - #1231200 * EVar vlmMst1 + #1509840 * EVar
   vlmMst2) * EPow P6 (EVar vMst1) + #38880 * EPow P6 (EVar vMst2))) / EPow P2 (EVar vMst1)) / EPow P2 (EVar vMsq)) /
   (EPow P2 (EVar vMgl) * EPow P5 (EVar vMst2)) + #4860 * EVar vMt * EVar vs2t * EVar vtwoLoopFlag * EPow P2 (EVar
   vMuSUSY) * (#2 * (#82 * EVar vMt - #3 * EVar vMst2 * EVar vs2t) * EVar vxDmglst2 * EVar vxMst * EPow P2 (EVar
   vDmglst2) * EPow P6 (EVar vMst1) + EPow P2 (EVar vMgl) * (#4 * EVar vMt * EPow P2 (EVar vMst2) * EPow P4 (EVar
   vMst1) + #4 * EVar vMt * EPow P2 (EVar vMst1) * EPow P4 (EVar vMst2) + #4 * EVar vMt * EVar vxMst * EPow P6 (EVar
   vMst1) + (#4 * EVar vMt - EVar vMst2 * EVar vs2t) * EPow P6 (EVar vMst2)) - #4 * EVar vDmglst2 * EVar vMgl * ((-
   #13 * EVar vMt + EVar vMst2 * EVar vs2t) * EPow P2 (EVar vMst2) * EPow P4 (EVar vMst1) + (- #9 * EVar vMt + EVar
   vMst2 * EVar vs2t) * EPow P2 (EVar vMst1) * EPow P4 (EVar vMst2) + (- #17 * EVar vMt * EVar vxMst + EVar vMst2 *
   EVar vs2t * EVar vxMst) * EPow P6 (EVar vMst1) + (- #5 * EVar vMt + EVar vMst2 * EVar vs2t) * EPow P6 (EVar
   vMst2))) / (EPow P2 (EVar vMgl) * EPow P7 (EVar vMst2)) - EVar vAl4p * EVar vthreeLoopFlag * (#7290 * EVar vMt *
   EPow P2 (EVar vs2t) * (#10 * EVar vDmglst2 * EVar vDmsqst2 * (- #93 + #10 * EVar vlmMst1 - #10 * EVar vlmMst2) * (-
   #1 + EPow P2 (EVar vSbeta)) * EPow P2 (EVar vSbeta) * EPow P4 (EVar vMst1) / (#3 * EVar vMgl * EPow P2 (EVar vMsq)
   * EPow P2 (EVar vMst2)) - EPow P2 (EVar vMuSUSY) * (EDec 10364814814814815 14 + #94 * EVar vlmMst1 / #9 - #184 *
   EVar vlmMst2 / #9 + (EVar vDmglst2 * (#24 * EVar vlmMst1 - #7 * (#233 + #240 * EVar vlmMst2) / #27) + #5 * EVar
   vDmsqst2 * (#72 * EVar vDmglst2 * (#2 + EVar vlmMst1 - EVar vlmMst2) + #53 * EVar vMgl) / (#9 * EPow P2 (EVar
   vMsq))) / EVar vMgl + (#10800 * EVar vDmglst2 * EVar vDmsqst2 * (#3 + #8 * EVar vlmMst1 - #8 * EVar vlmMst2) + #150
   * EVar vDmsqst2 * (#1097 - #72 * EVar vlmMst1 + #72 * EVar vlmMst2) * EVar vMgl + #36 * EVar vDmglst2 * (- #6803 +
   #1810 * EVar vlmMst1 - #2670 * EVar vlmMst2) * EPow P2 (EVar vMsq) + (#533629 - #900 * EVar vlmMst1 + #180 * EVar
   vlmMst2) * EVar vMgl * EPow P2 (EVar vMsq)) * EPow P2 (EVar vMst1) / (#810 * EVar vMgl * EPow P2 (EVar vMsq) * EPow
   P2 (EVar vMst2)) - #2 * (#19 + (- #28 * EVar vDmglst2 + #30 * EVar vDmsqst2 * (- #2 * EVar vDmglst2 + EVar vMgl) /
   EPow P2 (EVar vMsq)) / EVar vMgl) * EPow P2 (EVar vMst2) / (#9 * EPow P2 (EVar vMst1)) + (#19947459 - #244620 *
   EVar vlmMst1 + #231660 * EVar vlmMst2 + #8 * EVar vDmglst2 * (- #2128489 + #307800 * EVar vlmMst1 - #377460 * EVar
   vlmMst2) / EVar vMgl + #300 * EVar vDmsqst2 * (#20701 - #648 * EVar vlmMst1 + #648 * EVar vlmMst2) / EPow P2 (EVar
   vMsq)) * EPow P4 (EVar vMst1) / (#14580 * EPow P4 (EVar vMst2)) - #20 * EVar vshiftst1 * (#1 + EVar vDmsqst2 / EPow
   P2 (EVar vMsq)) * (#1 + EPow P2 (EVar vMst2) / EPow P2 (EVar vMst1) - #2 * (EVar vlmMst1 - EVar vlmMst2) * (EPow P2
   (EVar vMst1) * EPow P2 (EVar vMst2) + EPow P4 (EVar vMst1) + EPow P4 (EVar vMst2)) / EPow P4 (EVar vMst2)) / #3 -
   #2 * EVar vshiftst3 * (#2 * (#1 - #2 * EVar vlmMst1 + #2 * EVar vlmMst2) * EPow P2 (EVar vMst2) * EPow P4 (EVar
   vMst1) + #2 * (#1 - EVar vlmMst1 + EVar vlmMst2) * EPow P2 (EVar vMst1) * EPow P4 (EVar vMst2) + (#2 - #6 * EVar
   vlmMst1 + #6 * EVar vlmMst2) * EPow P6 (EVar vMst1) + EPow P6 (EVar vMst2)) / (#3 * EPow P2 (EVar vMst1) * EPow P4
   (EVar vMst2)))) + (- #75 * EVar vs2t * EVar vxDmsqst2 * EPow P2 (EVar vDmsqst2) * (#324 * EVar vMst2 * EVar vMt *
   EVar vxDmglst2 * EPow P2 (EVar vDmglst2) * (EPow P2 (EVar vMuSUSY) * (- #4 * (#4 * (#2 + #3 * EVar vlmMst1 - #3 *
   EVar vlmMst2) * EVar vMt - #3 * (#2 + EVar vlmMst1 - EVar vlmMst2) * EVar vMst2 * EVar vs2t) * EPow P2 (EVar vMst1)
   * EPow P2 (EVar vMst2) + #4 * (#4 * (#1 - #9 * EVar vlmMst1 + #9 * EVar vlmMst2) * EVar vMt + (#3 + #8 * EVar
   vlmMst1 - #8 * EVar vlmMst2) * EVar vMst2 * EVar vs2t) * EPow P4 (EVar vMst1) + #4 * EVar vs2t * EPow P5 (EVar
   vMst2)) - (- #93 + #10 * EVar vlmMst1 - #10 * EVar vlmMst2) * EVar vMst2 * EVar vs2t * (- #1 + EPow P2 (EVar
   vSbeta)) * EPow P2 (EVar vSbeta) * EPow P6 (EVar vMst1)) + EVar vMgl * (EVar vs2t * (#81 * EPow P2 (EVar vMst2) *
   EPow P2 (EVar vSbeta) * (- #2 * (#11 + #10 * EVar vlmMst1 - #10 * EVar vlmMst2) * EVar vMgl * EVar vMst2 * EVar
   vs2t * (- #1 + EPow P2 (EVar vSbeta)) + (EVar vDmglst2 * (#372 - #40 * EVar vlmMst1 + #40 * EVar vlmMst2) + #3 * (-
   #17 + #2 * EVar vlmMst1 - #2 * EVar vlmMst2) * EVar vMgl) * EVar vMt * EPow P2 (EVar vSbeta)) * EPow P6 (EVar
   vMst1) + EVar vMt * (#81 * (#4 * EVar vDmglst2 * (- #93 + #10 * EVar vlmMst1 - #10 * EVar vlmMst2) + #3 * (#17 - #2
   * EVar vlmMst1 + #2 * EVar vlmMst2) * EVar vMgl) * EPow P2 (EVar vMst2) * EPow P2 (EVar vSbeta) * EPow P6 (EVar
   vMst1) + #2 * EPow P2 (EVar vMuSUSY) * (#648 * EVar vDmglst2 * EPow P2 (EVar vMst2) * (#3 * (#2 + EVar vlmMst1 -
   EVar vlmMst2) * EPow P2 (EVar vMst1) * EPow P2 (EVar vMst2) + (#3 + #8 * EVar vlmMst1 - #8 * EVar vlmMst2) * EPow
   P4 (EVar vMst1) + EPow P4 (EVar vMst2)) + EVar vMgl * (#3 * (#1607 - #432 * EVar vlmMst1 + #432 * EVar vlmMst2) *
   EPow P2 (EVar vMst2) * EPow P4 (EVar vMst1) - #18 * (#25 + #9 * EVar vlmMst1 - #9 * EVar vlmMst2) * EPow P2 (EVar
   vMst1) * EPow P4 (EVar vMst2) + (#20701 - #648 * EVar vlmMst1 + #648 * EVar vlmMst2) * EPow P6 (EVar vMst1) - #486
   * EPow P6 (EVar vMst2))))) + #648 * EVar vMt * EPow P2 (EVar vMuSUSY) * (#8 * EVar vDmglst2 * EVar vMst2 * EVar vMt
   * EPow P2 (EVar vMst1) * ((#1 - #9 * EVar vlmMst1 + #9 * EVar vlmMst2) * EPow P2 (EVar vMst1) + (- #2 - #3 * EVar
   vlmMst1 + #3 * EVar vlmMst2) * EPow P2 (EVar vMst2)) + EVar vMgl * ((#4 * (#7 + #3 * EVar vlmMst1 - #3 * EVar
   vlmMst2) * EVar vMt + (- #1 + #2 * EVar vlmMst1 - #2 * EVar vlmMst2) * EVar vMst2 * EVar vs2t * EVar vshiftst1) *
   EPow P2 (EVar vMst1) * EPow P3 (EVar vMst2) + #2 * EVar vMst2 * (#4 * (#5 + #3 * EVar vlmMst1 - #3 * EVar vlmMst2)
   * EVar vMt + (EVar vlmMst1 - EVar vlmMst2) * EVar vMst2 * EVar vs2t * EVar vshiftst1) * EPow P4 (EVar vMst1) + #2 *
   (EVar vlmMst1 - EVar vlmMst2) * EVar vs2t * EVar vshiftst1 * EPow P6 (EVar vMst1) - EVar vs2t * EVar vshiftst1 *
   EPow P6 (EVar vMst2))))) / (EPow P2 (EVar vMst1) * EPow P4 (EVar vMsq) * EPow P4 (EVar vMst2)) + EVar vMt * EPow P2
   (EVar vMuSUSY) * (EVar vMgl * EVar vMt * (#540 * (EVar vDmglst2 * (- #7286 + #240 * EVar vlmMst1 - #6384 * EVar
   vlmMst2) + (#353 - #72 * EVar vlmMst1 - #696 * EVar vlmMst2) * EVar vMgl) * EVar vMt * EPow P2 (EVar vMst1) * EPow
   P2 (EVar vMst2) - #388800 * EVar vDmsqst2 * EVar vs2t * (EVar vDmglst2 * (#1 - #9 * EVar vlmMst1 + #9 * EVar
   vlmMst2) * EPow P2 (EVar vMst1) + (#5 + #3 * EVar vlmMst1 - #3 * EVar vlmMst2) * EVar vMgl * EPow P2 (EVar vMst1) -
   EVar vDmglst2 * (#2 + #3 * EVar vlmMst1 - #3 * EVar vlmMst2) * EPow P2 (EVar vMst2) + (#2 + EVar vlmMst1 - EVar
   vlmMst2) * EVar vMgl * EPow P2 (EVar vMst2)) * EPow P3 (EVar vMst2) / EPow P2 (EVar vMsq) + #90 * (#38401 + #1080 *
   EVar vlmMst1 - #7992 * EVar vlmMst2) * EVar vMgl * EVar vMt * EPow P4 (EVar vMst1) - #8640 * (#24 * EVar vDmglst2 *
   (#5 + #6 * EVar vlmMst2) + (#53 + #24 * EVar vlmMst2) * EVar vMgl) * EVar vMt * EPow P4 (EVar vMst2) - EVar vMst2 *
   EVar vs2t * (#3 * EVar vMgl * (#120 * (#3937 + #2988 * EVar vlmMst1 - #2232 * EVar vlmMst2) * EPow P2 (EVar vMst1)
   * EPow P2 (EVar vMst2) + (#533726 + #792720 * EVar vlmMst1 - #693360 * EVar vlmMst2) * EPow P4 (EVar vMst1) + #135
   * (#2269 + #664 * EVar vlmMst1 - #56 * EVar vlmMst2) * EPow P4 (EVar vMst2)) + EVar vDmglst2 * (#36 * (#364291 -
   #88560 * EVar vlmMst1 + #147960 * EVar vlmMst2) * EPow P2 (EVar vMst1) * EPow P2 (EVar vMst2) + (#30115666 -
   #8028720 * EVar vlmMst1 + #11126160 * EVar vlmMst2) * EPow P4 (EVar vMst1) + #27 * (#173947 - #25080 * EVar vlmMst1
   + #68760 * EVar vlmMst2) * EPow P4 (EVar vMst2)))) - #6480 * EVar vMst2 * EVar vs2t * EVar vxDR2DRMOD * (EVar vMgl
   * (#32 * (EVar vDmglst2 + #3 * EVar vDmglst2 * EVar vlmMst2 + EVar vMgl + EVar vlmMst2 * EVar vMgl) * EVar vMt *
   EPow P2 (EVar vMst1) * (#2 * EPow P2 (EVar vMst1) * EPow P2 (EVar vMst2) + #3 * EPow P4 (EVar vMst1) + EPow P4
   (EVar vMst2)) - EVar vMst2 * EVar vs2t * (- #2 * (EVar vDmglst2 * (#7 * EVar vlmMst1 - #15 * EVar vlmMst2) + (- #4
   - #13 * EVar vlmMst1 + #9 * EVar vlmMst2) * EVar vMgl) * (EPow P2 (EVar vMst1) + EPow P2 (EVar vMst2)) * EPow P4
   (EVar vMst1) + (EVar vDmglst2 * (#7 - #14 * EVar vlmMst1 + #30 * EVar vlmMst2) + (- #5 + #26 * EVar vlmMst1 - #18 *
   EVar vlmMst2) * EVar vMgl) * EPow P2 (EVar vMst1) * EPow P4 (EVar vMst2) + (#7 * EVar vDmglst2 - #13 * EVar vMgl) *
   EPow P6 (EVar vMst2))) - EVar vxDmglst2 * EPow P2 (EVar vDmglst2) * (#2 * (- #32 * (- #1 + #6 * EVar vlmMst2) *
   EVar vMt + (- #8 - #27 * EVar vlmMst1 + #39 * EVar vlmMst2) * EVar vMst2 * EVar vs2t) * EPow P2 (EVar vMst2) * EPow
   P4 (EVar vMst1) + (#32 * (#1 - #6 * EVar vlmMst2) * EVar vMt + (#11 - #54 * EVar vlmMst1 + #78 * EVar vlmMst2) *
   EVar vMst2 * EVar vs2t) * EPow P2 (EVar vMst1) * EPow P4 (EVar vMst2) - #2 * (#48 * (#1 + #3 * EVar vlmMst2) * EVar
   vMt + (#7 * EVar vlmMst1 - #15 * EVar vlmMst2) * EVar vMst2 * EVar vs2t) * EPow P6 (EVar vMst1) + #27 * EVar vs2t *
   EPow P7 (EVar vMst2))) / EPow P2 (EVar vMst1)) / EPow P6 (EVar vMst2)) / EPow P2 (EVar vMgl)))) / #7290 - EVar
   vthreeLoopFlag * EPow P2 (EVar vAl4p) * (EPow P2 (EVar vMt) * EPow P2 (EVar vs2t) * (#5 * EVar vDmglst2 * EVar
   vDmsqst2 * (- #1081 + #165 * EVar vlmMst1 - #165 * EVar vlmMst2) * (- #1 + EPow P2 (EVar vSbeta)) * EPow P2 (EVar
   vSbeta) * EPow P4 (EVar vMst1) / (#9 * EVar vMgl * EPow P2 (EVar vMsq) * EPow P2 (EVar vMst2)) + EPow P2 (EVar
   vMuSUSY) * (EDec 53385802469135804 15 + #40 * EConst CB4 / #9 - #4 * EConst CD3 / #9 + #2 * EConst CDN / #9 + #1672
   * EVar vlmMst1 / #27 + #53 * EPow P2 (EVar vlmMst1) / #9 - EVar vlmMst2 * (EDec 12992592592592592 14 - #72 * EVar
   vlmMst1 + #13 * EPow P2 (EVar vlmMst1) / #3) + #2 * (- #470 + #147 * EVar vlmMst1) * EPow P2 (EVar vlmMst2) / #9 +
   #16 * EPow P3 (EVar vlmMst1) / #9 - #271 * EPow P3 (EVar vlmMst2) / #9 + (- #5 * EVar vDmsqst2 * (#288 * EVar
   vDmglst2 * (#4 + EVar vlmMst1 - EVar vlmMst2) + EVar vMgl * (- #1141 + #264 * EVar vlmMst2 + #48 * EVar vlmMst1 *
   (- #7 + #3 * EVar vlmMst2) - #144 * EPow P2 (EVar vlmMst2))) / (#54 * EPow P2 (EVar vMsq)) - EVar vDmglst2 *
   (#14267 - #432 * EConst CB4 + #576 * EConst CD3 - #360 * EConst CDN + #4752 * EVar vlmMst1 - #1404 * EPow P2 (EVar
   vlmMst1) + #72 * EVar vlmMst2 * (- #63 - #232 * EVar vlmMst1 + #16 * EPow P2 (EVar vlmMst1)) + #72 * (#281 - #123 *
   EVar vlmMst1) * EPow P2 (EVar vlmMst2) + #7704 * EPow P3 (EVar vlmMst2)) / #162) / EVar vMgl + EPow P2 (EVar vMst1)
   * (EDec 434270658436214 12 + #76 * EConst CB4 / #9 - #2 * EConst CDN / #9 + #69088 * EVar vlmMst1 / #405 - #1313 *
   EPow P2 (EVar vlmMst1) / #27 - #4 * EVar vlmMst2 * (#16192 - #26430 * EVar vlmMst1 + #3465 * EPow P2 (EVar
   vlmMst1)) / #405 + (- #5735 + #3072 * EVar vlmMst1) * EPow P2 (EVar vlmMst2) / #27 + EVar vDmsqst2 * (EDec
   20174098765432097 14 + #622 * EVar vlmMst1 / #15 + #2 * (- #311 + #10 * EVar vlmMst1) * EVar vlmMst2 / #15 + #10 *
   EVar vDmglst2 * (#23 - #42 * EVar vlmMst1 + #42 * EVar vlmMst2) / (#3 * EVar vMgl) - #22 * EPow P2 (EVar vlmMst1) /
   #3 + #6 * EPow P2 (EVar vlmMst2)) / EPow P2 (EVar vMsq) - #62 * EPow P3 (EVar vlmMst1) / #27 - #2086 * EPow P3
   (EVar vlmMst2) / #27 - #2 * EVar vDmglst2 * (#2695042 - #40500 * EConst CB4 + #54000 * EConst CD3 - #33750 * EConst
   CDN - #326895 * EVar vlmMst1 - #324900 * EPow P2 (EVar vlmMst1) + #15 * EVar vlmMst2 * (- #19607 - #129030 * EVar
   vlmMst1 + #62550 * EPow P2 (EVar vlmMst1)) - #450 * (- #5023 + #5610 * EVar vlmMst1) * EPow P2 (EVar vlmMst2) +
   #11250 * EPow P3 (EVar vlmMst1) + #1575000 * EPow P3 (EVar vlmMst2)) / (#30375 * EVar vMgl)) / EPow P2 (EVar vMst2)
   + (EDec 6281736268201578 13 + #76 * EConst CB4 / #9 - #2 * EConst CDN / #9 + #6317839 * EVar vlmMst1 / #396900 -
   #66307 * EPow P2 (EVar vlmMst1) / #315 - EVar vlmMst2 * (EDec 1252907281431091 14 - #182909 * EVar vlmMst1 / #315 +
   #274 * EPow P2 (EVar vlmMst1) / #3) + #2 * (- #58301 + #37135 * EVar vlmMst1) * EPow P2 (EVar vlmMst2) / #315 +
   EVar vDmsqst2 * (EDec 23728785508324435 14 + #16526 * EVar vlmMst2 / #3969 + #2 * EVar vlmMst1 * (- #8263 + #71820
   * EVar vlmMst2) / #3969 - #520 * EPow P2 (EVar vlmMst1) / #21 - #80 * EPow P2 (EVar vlmMst2) / #7) / EPow P2 (EVar
   vMsq) - #44 * EPow P3 (EVar vlmMst1) / #9 - #1256 * EPow P3 (EVar vlmMst2) / #9 - EVar vDmglst2 * (EDec
   5851892843532082 13 - #8 * EConst CB4 / #3 + #32 * EConst CD3 / #9 - #20 * EConst CDN / #9 - #20109937 * EVar
   vlmMst1 / #297675 - #15886 * EPow P2 (EVar vlmMst1) / #945 + EVar vlmMst2 * (EDec 17112243218274966 15 - #144628 *
   EVar vlmMst1 / #945 + #1180 * EPow P2 (EVar vlmMst1) / #9) + (EDec 16985608465608465 14 - #2632 * EVar vlmMst1 /
   #9) * EPow P2 (EVar vlmMst2) - #92 * EPow P3 (EVar vlmMst1) / #27 + #4448 * EPow P3 (EVar vlmMst2) / #27) / EVar
   vMgl) * EPow P4 (EVar vMst1) / EPow P4 (EVar vMst2) + (- ((#360 * EVar vDmglst2 * EVar vDmsqst2 + EVar vDmsqst2 *
   (#30 - #60 * EVar vlmMst2) * EVar vMgl + EVar vMgl * (#103 + #186 * EVar vlmMst2 + #32 * EVar vlmMst1 * (#1 + EVar
   vlmMst2) + #91 * EPow P2 (EVar vlmMst2)) * EPow P2 (EVar vMsq) + #2 * EVar vDmglst2 * (- #20 + #2 * (#99 + #16 *
   EVar vlmMst1) * EVar vlmMst2 + #123 * EPow P2 (EVar vlmMst2)) * EPow P2 (EVar vMsq)) * EPow P2 (EVar vMst2)) / (#9
   * EPow P2 (EVar vMsq) * EPow P2 (EVar vMst1)) + #16 * (#1 + EVar vlmMst2) * (#4 * EVar vDmglst2 * EVar vlmMst2 +
   EVar vMgl + EVar vlmMst2 * EVar vMgl) * EPow P4 (EVar vMst2) / (#9 * EPow P4 (EVar vMst1)) + (- #30 * EVar vDmsqst2
   * EVar vMgl * (#9 * (#104 * EConst COepS2 + #27 * (#17 - #78 * EVar vlmMst1 + #78 * EVar vlmMst2) * EConst CS2) *
   EPow P2 (EVar vMst1) * EPow P2 (EVar vMst2) + #13 * (#136 * EConst COepS2 - #27 * (#95 + #102 * EVar vlmMst1 - #102
   * EVar vlmMst2) * EConst CS2) * EPow P4 (EVar vMst1) + #27 * (#8 * EConst COepS2 - #81 * (- #15 + #2 * EVar vlmMst1
   - #2 * EVar vlmMst2) * EConst CS2) * EPow P4 (EVar vMst2)) + EPow P2 (EVar vMsq) * (#3 * EVar vMgl * (- #3 * (#8456
   * EConst COepS2 - #81 * (#11243 + #2114 * EVar vlmMst1 - #2114 * EVar vlmMst2) * EConst CS2) * EPow P2 (EVar vMst1)
   * EPow P2 (EVar vMst2) + (- #52948 * EConst COepS2 + #27 * (#194357 + #39711 * EVar vlmMst1 - #39711 * EVar
   vlmMst2) * EConst CS2) * EPow P4 (EVar vMst1) + #27 * (- #184 * EConst COepS2 + #81 * (#307 + #46 * EVar vlmMst1 -
   #46 * EVar vlmMst2) * EConst CS2) * EPow P4 (EVar vMst2)) + #2 * EVar vDmglst2 * (#54 * (#344 * EConst COepS2 + #9
   * (#15643 - #774 * EVar vlmMst1 + #774 * EVar vlmMst2) * EConst CS2) * EPow P2 (EVar vMst1) * EPow P2 (EVar vMst2)
   + #4 * (#17308 * EConst COepS2 + #27 * (#93919 - #12981 * EVar vlmMst1 + #12981 * EVar vlmMst2) * EConst CS2) *
   EPow P4 (EVar vMst1) + #27 * (#56 * EConst COepS2 - #81 * (- #1677 + #14 * EVar vlmMst1 - #14 * EVar vlmMst2) *
   EConst CS2) * EPow P4 (EVar vMst2)))) / (#2187 * EPow P2 (EVar vMsq) * EPow P4 (EVar vMst2))) / EVar vMgl + (#10 *
   EVar vshiftst1 * (EVar vDmsqst2 * (#3 - #2 * EVar vlmMst2) + (#1 - #2 * EVar vlmMst2) * EPow P2 (EVar vMsq)) *
   ((EPow P2 (EVar vMst1) + EPow P2 (EVar vMst2)) * EPow P4 (EVar vMst2) - #2 * (EVar vlmMst1 - EVar vlmMst2) * EPow
   P2 (EVar vMst1) * (EPow P2 (EVar vMst1) * EPow P2 (EVar vMst2) + EPow P4 (EVar vMst1) + EPow P4 (EVar vMst2))) /
   EPow P2 (EVar vMsq) + (#1 - #2 * EVar vlmMst2) * EVar vshiftst3 * (#2 * (#1 - #2 * EVar vlmMst1 + #2 * EVar
   vlmMst2) * EPow P2 (EVar vMst2) * EPow P4 (EVar vMst1) + #2 * (#1 - EVar vlmMst1 + EVar vlmMst2) * EPow P2 (EVar
   vMst1) * EPow P4 (EVar vMst2) + (#2 - #6 * EVar vlmMst1 + #6 * EVar vlmMst2) * EPow P6 (EVar vMst1) + EPow P6 (EVar
   vMst2))) / (#3 * EPow P2 (EVar vMst1) * EPow P4 (EVar vMst2)))) + EVar vMt * (#3 * EVar vMst2 * EPow P2 (EVar
   vMst1) * (- #1715 * EConst Cz3 * EPow P2 (EVar vMst1) * (- #15 * EVar vMst2 * EVar vs2t * EVar vxDmsqst2 * EPow P2
   (EVar vDmsqst2) * (#2592 * EVar vDmglst2 * EVar vMgl * EVar vMst2 * EVar vMt * (EPow P2 (EVar vMuSUSY) * (#8 * (#5
   * EVar vMt - #2 * EVar vMst2 * EVar vs2t) * EPow P2 (EVar vMst1) + #8 * EVar vMt * EPow P2 (EVar vMst2) - #6 * EVar
   vs2t * EPow P3 (EVar vMst2)) + #5 * EVar vMst2 * EVar vs2t * (- #1 + EPow P2 (EVar vSbeta)) * EPow P2 (EVar vSbeta)
   * EPow P4 (EVar vMst1)) + #2592 * EVar vMst2 * EVar vMt * EVar vxDmglst2 * EPow P2 (EVar vDmglst2) * (EPow P2 (EVar
   vMuSUSY) * (#8 * (#5 * EVar vMt - #2 * EVar vMst2 * EVar vs2t) * EPow P2 (EVar vMst1) + #8 * EVar vMt * EPow P2
   (EVar vMst2) - #6 * EVar vs2t * EPow P3 (EVar vMst2)) + #5 * EVar vMst2 * EVar vs2t * (- #1 + EPow P2 (EVar
   vSbeta)) * EPow P2 (EVar vSbeta) * EPow P4 (EVar vMst1)) - EPow P2 (EVar vMgl) * (EVar vMt * EPow P2 (EVar vMuSUSY)
   * (#48 * EVar vMst2 * (#3024 * EVar vMt - #1783 * EVar vMst2 * EVar vs2t) * EPow P2 (EVar vMst1) + #9 * (#8064 *
   EVar vMt - #5507 * EVar vMst2 * EVar vs2t) * EPow P3 (EVar vMst2)) + #8 * EVar vs2t * (#3542 * EVar vMt * EPow P2
   (EVar vMuSUSY) + #243 * EVar vMt * EPow P2 (EVar vMst2) * (- #1 + EPow P2 (EVar vSbeta)) * EPow P2 (EVar vSbeta) -
   #810 * EVar vs2t * (- #1 + EPow P2 (EVar vSbeta)) * EPow P2 (EVar vSbeta) * EPow P3 (EVar vMst2)) * EPow P4 (EVar
   vMst1))) + EVar vMt * (#240 * EVar vDmsqst2 * EVar vMst2 * EVar vs2t * EPow P2 (EVar vMsq) * (- #162 * EVar vMst2 *
   EVar vxDmglst2 * EPow P2 (EVar vDmglst2) * (EPow P2 (EVar vMuSUSY) * (#8 * (#5 * EVar vMt - #2 * EVar vMst2 * EVar
   vs2t) * EPow P2 (EVar vMst1) + #8 * EVar vMt * EPow P2 (EVar vMst2) - #6 * EVar vs2t * EPow P3 (EVar vMst2)) + #5 *
   EVar vMst2 * EVar vs2t * (- #1 + EPow P2 (EVar vSbeta)) * EPow P2 (EVar vSbeta) * EPow P4 (EVar vMst1)) + EVar vMgl
   * EVar vs2t * (#162 * EVar vDmglst2 * EPow P2 (EVar vMst2) * (#2 * (#8 * EPow P2 (EVar vMst1) + #3 * EPow P2 (EVar
   vMst2)) * EPow P2 (EVar vMuSUSY) - #5 * (- #1 + EPow P2 (EVar vSbeta)) * EPow P2 (EVar vSbeta) * EPow P4 (EVar
   vMst1)) + EVar vMgl * EPow P2 (EVar vMuSUSY) * (#315 * EPow P2 (EVar vMst1) * EPow P2 (EVar vMst2) + #1771 * EPow
   P4 (EVar vMst1) - #621 * EPow P4 (EVar vMst2)))) + #4 * EPow P2 (EVar vMuSUSY) * EPow P4 (EVar vMsq) * (EVar
   vxDmglst2 * EPow P2 (EVar vDmglst2) * (#48 * EVar vMst2 * EPow P2 (EVar vMst1) * (#152143 * EVar vMst2 * EVar vMt *
   EVar vs2t - #40917 * EPow P2 (EVar vMt) + #101147 * EPow P2 (EVar vMst2) * EPow P2 (EVar vs2t)) + #9 * (#443828 *
   EVar vMst2 * EVar vMt * EVar vs2t - #95520 * EPow P2 (EVar vMt) + #228607 * EPow P2 (EVar vMst2) * EPow P2 (EVar
   vs2t)) * EPow P3 (EVar vMst2) + #16 * EVar vs2t * (#395581 * EVar vMt + #176558 * EVar vMst2 * EVar vs2t) * EPow P4
   (EVar vMst1)) + #2 * EVar vMgl * EVar vMst2 * EPow P2 (EVar vs2t) * (EVar vDmglst2 * (#1052676 * EPow P2 (EVar
   vMst1) * EPow P2 (EVar vMst2) + #1412464 * EPow P4 (EVar vMst1) + #475605 * EPow P4 (EVar vMst2)) + #6 * EVar vMgl
   * (#3 * (#35719 + #108 * EVar vlmMst1 - #108 * EVar vlmMst2) * EPow P2 (EVar vMst1) * EPow P2 (EVar vMst2) + #2 *
   (#91963 + #162 * EVar vlmMst1 - #162 * EVar vlmMst2) * EPow P4 (EVar vMst1) + #27 * (#1319 + #6 * EVar vlmMst1 - #6
   * EVar vlmMst2) * EPow P4 (EVar vMst2)))))) + #2 * EVar vMst2 * EVar vs2t * EVar vxDmsqst2 * EPow P2 (EVar
   vDmsqst2) * (- #2778300 * EVar vMst2 * EVar vMt * EVar vxDmglst2 * EPow P2 (EVar vDmglst2) * (EPow P2 (EVar
   vMuSUSY) * (#48 * (- #2 * (#2 + #5 * EVar vlmMst1 - #5 * EVar vlmMst2) * EVar vMt + (#4 + EVar vlmMst1 - EVar
   vlmMst2) * EVar vMst2 * EVar vs2t) * EPow P2 (EVar vMst1) * EPow P2 (EVar vMst2) - #6 * (#16 * (- #8 + #15 * EVar
   vlmMst1 - #15 * EVar vlmMst2) * EVar vMt + (#23 - #42 * EVar vlmMst1 + #42 * EVar vlmMst2) * EVar vMst2 * EVar
   vs2t) * EPow P4 (EVar vMst1) + #72 * EVar vs2t * EPow P5 (EVar vMst2)) - (- #1081 + #165 * EVar vlmMst1 - #165 *
   EVar vlmMst2) * EVar vMst2 * EVar vs2t * (- #1 + EPow P2 (EVar vSbeta)) * EPow P2 (EVar vSbeta) * EPow P6 (EVar
   vMst1)) + EVar vMgl * (- #411600 * EVar vMt * EPow P2 (EVar vMuSUSY) * (#648 * EVar vDmglst2 * EVar vMst2 * EVar
   vMt * EPow P2 (EVar vMst1) * ((#8 - #15 * EVar vlmMst1 + #15 * EVar vlmMst2) * EPow P2 (EVar vMst1) + (- #2 - #5 *
   EVar vlmMst1 + #5 * EVar vlmMst2) * EPow P2 (EVar vMst2)) + EVar vMgl * (#9 * (#36 * (#5 + #4 * EVar vlmMst1 - #4 *
   EVar vlmMst2) * EVar vMt - EVar vMst2 * EVar vs2t * (#9 * (- #1 + #2 * EVar vlmMst1 - #2 * EVar vlmMst2) * (- #2 +
   EVar vlmMst2) * EVar vshiftst1 + #4 * EConst CT1ep)) * EPow P2 (EVar vMst1) * EPow P3 (EVar vMst2) + #6 * EVar
   vMst2 * (#108 * (#1 + #3 * EVar vlmMst1 - #3 * EVar vlmMst2) * EVar vMt + EVar vMst2 * EVar vs2t * (- #27 * (EVar
   vlmMst1 - EVar vlmMst2) * (- #2 + EVar vlmMst2) * EVar vshiftst1 - #25 * EConst CT1ep)) * EPow P4 (EVar vMst1) -
   EVar vs2t * (#81 * (EVar vlmMst1 - EVar vlmMst2) * (- #3 + #2 * EVar vlmMst2) * EVar vshiftst1 + #442 * EConst
   CT1ep) * EPow P6 (EVar vMst1) + #81 * (- #2 + EVar vlmMst2) * EVar vs2t * EVar vshiftst1 * EPow P6 (EVar vMst2))) +
   EVar vs2t * (- #694575 * EPow P2 (EVar vMst2) * EPow P2 (EVar vSbeta) * (- #6 * (#11 + #39 * EVar vlmMst1 - #39 *
   EVar vlmMst2) * EVar vMgl * EVar vMst2 * EVar vs2t * (- #1 + EPow P2 (EVar vSbeta)) + (EVar vDmglst2 * (#4324 -
   #660 * EVar vlmMst1 + #660 * EVar vlmMst2) + #3 * (- #167 + #5 * EVar vlmMst1 - #5 * EVar vlmMst2) * EVar vMgl) *
   EVar vMt * EPow P2 (EVar vSbeta)) * EPow P6 (EVar vMst1) + EVar vMt * (#694575 * (EVar vDmglst2 * (#4324 - #660 *
   EVar vlmMst1 + #660 * EVar vlmMst2) + #3 * (- #167 + #5 * EVar vlmMst1 - #5 * EVar vlmMst2) * EVar vMgl) * EPow P2
   (EVar vMst2) * EPow P2 (EVar vSbeta) * EPow P6 (EVar vMst1) + EPow P2 (EVar vMuSUSY) * (#16669800 * EVar vDmglst2 *
   EPow P2 (EVar vMst2) * (- #8 * (#4 + EVar vlmMst1 - EVar vlmMst2) * EPow P2 (EVar vMst1) * EPow P2 (EVar vMst2) +
   (#23 - #42 * EVar vlmMst1 + #42 * EVar vlmMst2) * EPow P4 (EVar vMst1) - #12 * EPow P4 (EVar vMst2)) + EVar vMgl *
   (- #4116 * (#45 * EVar vlmMst1 * (- #1547 + #180 * EVar vlmMst2 - #4500 * EConst CS2) + #45 * EVar vlmMst2 * (#1547
   + #4500 * EConst CS2) + #2 * (- #106283 + #5000 * EConst COepS2 + #639225 * EConst CS2) + #4050 * EPow P2 (EVar
   vlmMst1) - #12150 * EPow P2 (EVar vlmMst2)) * EPow P2 (EVar vMst2) * EPow P4 (EVar vMst1) + #77175 * (#8771 - #128
   * EConst COepS2 - #57024 * EConst CS2 - #72 * EVar vlmMst2 * (#23 + #36 * EConst CS2) + #72 * EVar vlmMst1 * (#29 -
   #12 * EVar vlmMst2 + #36 * EConst CS2) + #864 * EPow P2 (EVar vlmMst2)) * EPow P2 (EVar vMst1) * EPow P4 (EVar
   vMst2) + #2 * (#593331163 - #60642400 * EConst COepS2 + #1260 * EVar vlmMst2 * (#8263 - #974610 * EConst CS2) +
   #1143733500 * EConst CS2 + #1260 * EVar vlmMst1 * (- #8263 + #71820 * EVar vlmMst2 + #974610 * EConst CS2) -
   #61916400 * EPow P2 (EVar vlmMst1) - #28576800 * EPow P2 (EVar vlmMst2)) * EPow P6 (EVar vMst1) + #16669800 * (#1 +
   #2 * EVar vlmMst2) * EPow P6 (EVar vMst2)))))))) - #686 * EVar vMt * EPow P2 (EVar vMuSUSY) * (#30 * EPow P4 (EVar
   vMst1) * (#2 * EVar vMst2 * EVar vxDmglst2 * EPow P2 (EVar vDmglst2) * EPow P4 (EVar vMsq) * (#6 * EVar vMst2 *
   EPow P2 (EVar vMst1) * (EVar vMst2 * EVar vMt * EVar vs2t * (#12344 * EConst Cz4 - #88647 * EPow P2 (EConst Cz2)) +
   EPow P2 (EVar vMt) * (#5412 * EConst Cz4 - #630 * EPow P2 (EConst Cz2)) + EPow P2 (EVar vMst2) * EPow P2 (EVar
   vs2t) * (#10819 * EConst Cz4 + #3471 * EPow P2 (EConst Cz2))) + #9 * (#1944 * EConst Cz4 * EPow P2 (EVar vMt) +
   EVar vMst2 * EVar vMt * EVar vs2t * (#2498 * EConst Cz4 - #31083 * EPow P2 (EConst Cz2)) + EPow P2 (EVar vMst2) *
   EPow P2 (EVar vs2t) * (#4444 * EConst Cz4 + #2049 * EPow P2 (EConst Cz2))) * EPow P3 (EVar vMst2) + #2 * EVar vs2t
   * (#2636 * EVar vMt * EConst Cz4 + #22654 * EVar vMst2 * EVar vs2t * EConst Cz4 - #259215 * EVar vMt * EPow P2
   (EConst Cz2) + #31794 * EVar vMst2 * EVar vs2t * EPow P2 (EConst Cz2)) * EPow P4 (EVar vMst1)) + #2 * EVar vDmglst2
   * EVar vMgl * EVar vMst2 * EPow P2 (EVar vMsq) * (- #38880 * EVar vDmsqst2 * EVar vMt * EVar vs2t * EConst Cz3 *
   EPow P2 (EVar vMst2) * (#5 * EPow P2 (EVar vMst1) + EPow P2 (EVar vMst2)) + EPow P2 (EVar vMsq) * (#36 * EVar vMst2
   * EPow P2 (EVar vMst1) * (EVar vMst2 * EVar vMt * EVar vs2t * (#47456 * EConst Cz3 + #709 * EConst Cz4 - #8535 *
   EPow P2 (EConst Cz2)) - #6 * EPow P2 (EVar vMt) * (#250 * EConst Cz3 - #94 * EConst Cz4 + #21 * EPow P2 (EConst
   Cz2)) + #3 * EPow P2 (EVar vMst2) * EPow P2 (EVar vs2t) * (#185 * EConst Cz4 + #237 * EPow P2 (EConst Cz2))) + #27
   * (#16 * (- #83 * EConst Cz3 + #27 * EConst Cz4) * EPow P2 (EVar vMt) + EVar vMst2 * EVar vMt * EVar vs2t * (#30274
   * EConst Cz3 + #542 * EConst Cz4 - #5289 * EPow P2 (EConst Cz2)) + #2 * EPow P2 (EVar vMst2) * EPow P2 (EVar vs2t)
   * (#212 * EConst Cz4 + #237 * EPow P2 (EConst Cz2))) * EPow P3 (EVar vMst2) + #2 * EVar vs2t * (#1582324 * EVar vMt
   * EConst Cz3 + #2636 * EVar vMt * EConst Cz4 + #22654 * EVar vMst2 * EVar vs2t * EConst Cz4 - #259215 * EVar vMt *
   EPow P2 (EConst Cz2) + #31794 * EVar vMst2 * EVar vs2t * EPow P2 (EConst Cz2)) * EPow P4 (EVar vMst1))) + #3 * EPow
   P2 (EVar vMgl) * (- #20 * EVar vDmsqst2 * EVar vs2t * EPow P2 (EVar vMsq) * EPow P2 (EVar vMst2) * (#9 * EVar vMst2
   * EPow P2 (EVar vMst1) * (- #1008 * EVar vMt * EConst Cz3 + #26 * EVar vMst2 * EVar vs2t * EConst Cz4 + #39 * EVar
   vMst2 * EVar vs2t * EPow P2 (EConst Cz2)) + #27 * (- #144 * EVar vMt * EConst Cz3 + #2 * EVar vMst2 * EVar vs2t *
   EConst Cz4 + #3 * EVar vMst2 * EVar vs2t * EPow P2 (EConst Cz2)) * EPow P3 (EVar vMst2) + #221 * EVar vs2t * (#2 *
   EConst Cz4 + #3 * EPow P2 (EConst Cz2)) * EPow P4 (EVar vMst1)) - #20 * EVar vxDmsqst2 * EPow P2 (EVar vDmsqst2) *
   EPow P2 (EVar vMst2) * EPow P2 (EVar vs2t) * (#2 * EConst Cz4 + #3 * EPow P2 (EConst Cz2)) * (#75 * EPow P2 (EVar
   vMst1) * EPow P2 (EVar vMst2) + #221 * EPow P4 (EVar vMst1) + #18 * EPow P4 (EVar vMst2)) + EPow P4 (EVar vMsq) *
   (- #6 * EPow P2 (EVar vMst1) * EPow P2 (EVar vMst2) * (- #36 * EPow P2 (EVar vMt) * (#218 * EConst Cz3 + #50 *
   EConst Cz4 + #21 * EPow P2 (EConst Cz2)) + #4 * EVar vMst2 * EVar vMt * EVar vs2t * (- #14636 * EConst Cz3 - #1135
   * EConst Cz4 + #2388 * EPow P2 (EConst Cz2)) + EPow P2 (EVar vMst2) * EPow P2 (EVar vs2t) * (#2276 * EConst Cz4 +
   #2523 * EPow P2 (EConst Cz2))) + (#4 * EVar vMst2 * EVar vMt * EVar vs2t * (#99632 * EConst Cz3 + #11764 * EConst
   Cz4 - #20505 * EPow P2 (EConst Cz2)) + #12 * EPow P2 (EVar vMt) * (#1502 * EConst Cz3 + #2062 * EConst Cz4 + #1635
   * EPow P2 (EConst Cz2)) - EPow P2 (EVar vMst2) * EPow P2 (EVar vs2t) * (#27446 * EConst Cz4 + #35823 * EPow P2
   (EConst Cz2))) * EPow P4 (EVar vMst1) + #18 * (#8 * (#230 * EConst Cz3 + #27 * EConst Cz4) * EPow P2 (EVar vMt) +
   #5 * EVar vMst2 * EVar vMt * EVar vs2t * (#2386 * EConst Cz3 + #102 * EConst Cz4 - #333 * EPow P2 (EConst Cz2)) +
   #3 * EPow P2 (EVar vMst2) * EPow P2 (EVar vs2t) * (- #40 * EConst Cz4 + #3 * EPow P2 (EConst Cz2))) * EPow P4 (EVar
   vMst2)))) + EVar vMgl * EPow P2 (EVar vMsq) * (#180 * EPow P2 (EVar vMsq) * EPow P2 (EVar vMt) * EPow P4 (EVar
   vMst1) * (#9 * EPow P2 (EVar vMst1) * EPow P2 (EVar vMst2) * (EVar vMgl * (#10667 - #96 * EConst CB4 + #96 * EConst
   CD3 - #48 * EConst CDN - #3072 * EVar vlmMst1 - #384 * (- #25 + #9 * EVar vlmMst1) * EVar vlmMst2 - #384 * (- #1 +
   EVar vlmMst1 - EVar vlmMst2) * EVar vlmMt - #384 * (- #13 + #4 * EVar vlmMst1) * EPow P2 (EVar vlmMst2) + #1536 *
   EPow P3 (EVar vlmMst2)) + EVar vDmglst2 * (EDec 18936666666666668 12 - #192 * EConst CB4 + #192 * EConst CD3 - #96
   * EConst CDN + #3648 * EVar vlmMst1 - #192 * (- #89 + #2 * EVar vlmMst1) * EVar vlmMst2 + #384 * (- #2 + EVar
   vlmMst1 - EVar vlmMst2) * EVar vlmMt - #384 * (- #9 + #8 * EVar vlmMst1) * EPow P2 (EVar vlmMst2) + #3072 * EPow P3
   (EVar vlmMst2))) + EVar vMgl * (#383185 - #2592 * EConst CB4 + #2592 * EConst CD3 - #1296 * EConst CDN - #187704 *
   EVar vlmMst1 + #216 * EVar vlmMst2 * (#1733 + #859 * EVar vlmMst2 - #6 * EVar vlmMst1 * (#105 + #41 * EVar vlmMst2)
   - #26 * EPow P2 (EVar vlmMst1)) - #7992 * EPow P2 (EVar vlmMst1) + #3456 * EVar vlmMt * (#3 + #6 * EVar vlmMst2 -
   #2 * EVar vlmMst1 * (#3 + EVar vlmMst2) + EPow P2 (EVar vlmMst1) + EPow P2 (EVar vlmMst2)) + #720 * EPow P3 (EVar
   vlmMst1) + #58032 * EPow P3 (EVar vlmMst2)) * EPow P4 (EVar vMst1) / #2 + EConst COepS2 * (#672 * (#2 * EVar
   vDmglst2 - #3 * EVar vMgl) * EPow P2 (EVar vMst1) * EPow P2 (EVar vMst2) - #8720 * EVar vMgl * EPow P4 (EVar
   vMst1)) + #72 * (#6 * EVar vDmglst2 * (#180 - #2 * EConst CB4 + #2 * EConst CD3 - EConst CDN + #16 * EVar vlmMst1 +
   #144 * EVar vlmMst2 - #16 * (- #2 + EVar vlmMst1) * EPow P2 (EVar vlmMst2) + #16 * EPow P3 (EVar vlmMst2)) + EVar
   vMgl * (#436 - #6 * EConst CB4 + #6 * EConst CD3 - #3 * EConst CDN - #48 * EVar vlmMst1 + (#408 - #96 * EVar
   vlmMst1) * EVar vlmMst2 + #24 * EVar vlmMt - #48 * (- #4 + EVar vlmMst1) * EPow P2 (EVar vlmMst2) + #48 * EPow P3
   (EVar vlmMst2))) * EPow P4 (EVar vMst2) - #243 * EConst CS2 * (#4 * (#2 * EVar vDmglst2 * (#65 + #14 * EVar vlmMst1
   - #14 * EVar vlmMst2) + #3 * (#43 - #14 * EVar vlmMst1 + #14 * EVar vlmMst2) * EVar vMgl) * EPow P2 (EVar vMst1) *
   EPow P2 (EVar vMst2) + #4 * (#57 - #545 * EVar vlmMst1 + #545 * EVar vlmMst2) * EVar vMgl * EPow P4 (EVar vMst1) /
   #3 + #96 * (#4 * EVar vDmglst2 + #3 * EVar vMgl) * EPow P4 (EVar vMst2))) + #120 * EConst CT1ep * EPow P4 (EVar
   vMst1) * (- (EPow P2 (EVar vMst2) * EPow P2 (EVar vs2t) * (#60 * EVar vDmsqst2 * EVar vMgl * (#117 * EPow P2 (EVar
   vMst1) * EPow P2 (EVar vMst2) + #221 * EPow P4 (EVar vMst1) + #27 * EPow P4 (EVar vMst2)) + EPow P2 (EVar vMsq) *
   (- #4 * EVar vDmglst2 * (#2322 * EPow P2 (EVar vMst1) * EPow P2 (EVar vMst2) + #8654 * EPow P4 (EVar vMst1) + #189
   * EPow P4 (EVar vMst2)) + #3 * EVar vMgl * (#6342 * EPow P2 (EVar vMst1) * EPow P2 (EVar vMst2) + #13237 * EPow P4
   (EVar vMst1) + #1242 * EPow P4 (EVar vMst2))))) + EPow P2 (EVar vMsq) * (- #2 * EVar vDmglst2 * EVar vMst2 * EVar
   vMt * (#36 * EVar vMst2 * (#42 * EVar vMt + #253 * EVar vMst2 * EVar vs2t) * EPow P2 (EVar vMst1) + #32842 * EVar
   vs2t * EPow P4 (EVar vMst1) + #945 * EVar vs2t * EPow P4 (EVar vMst2)) + #6 * EVar vMgl * EVar vMt * (#12 * (#63 *
   EVar vMt + #68 * EVar vMst2 * EVar vs2t) * EPow P2 (EVar vMst1) * EPow P2 (EVar vMst2) + #2 * (#1635 * EVar vMt +
   #941 * EVar vMst2 * EVar vs2t) * EPow P4 (EVar vMst1) + #189 * EVar vs2t * EPow P5 (EVar vMst2)))) + EVar vMst2 *
   EVar vMt * EVar vs2t * EPow P2 (EVar vMst1) * (#2332800 * EVar vDmsqst2 * EPow P2 (EVar vMst1) * EPow P2 (EVar
   vMst2) * (EVar vDmglst2 * (#8 - #15 * EVar vlmMst1 + #15 * EVar vlmMst2) * EPow P2 (EVar vMst1) + (#1 + #3 * EVar
   vlmMst1 - #3 * EVar vlmMst2) * EVar vMgl * EPow P2 (EVar vMst1) - EVar vDmglst2 * (#2 + #5 * EVar vlmMst1 - #5 *
   EVar vlmMst2) * EPow P2 (EVar vMst2) + (#1 + EVar vlmMst1 - EVar vlmMst2) * EVar vMgl * EPow P2 (EVar vMst2)) +
   EPow P2 (EVar vMsq) * (EVar vDmglst2 * (#36 * EPow P2 (EVar vMst2) * (#66761 + #301320 * EConst CB4 - #4860 *
   EConst CDN - #205380 * EVar vlmMst1 + #40480 * EConst COepS2 - #216 * (#2489 + #3795 * EVar vlmMst1 - #3795 * EVar
   vlmMst2) * EConst CS2 + #23760 * EPow P2 (EVar vlmMst1) + #180 * EVar vlmMst2 * (#4993 - #1956 * EVar vlmMst1 + #48
   * EPow P2 (EVar vlmMst1)) - #1080 * (- #482 + #331 * EVar vlmMst1) * EPow P2 (EVar vlmMst2) + #348840 * EPow P3
   (EVar vlmMst2)) * EPow P4 (EVar vMst1) + #27 * EPow P2 (EVar vMst1) * (#23917 + #188640 * EConst CB4 - #3600 *
   EConst CDN - #37440 * EVar vlmMst1 + #5600 * EConst COepS2 - #324 * (- #453 + #350 * EVar vlmMst1 - #350 * EVar
   vlmMst2) * EConst CS2 + #11520 * EPow P2 (EVar vlmMst1) - #2880 * EVar vlmMst2 * (- #237 + #55 * EVar vlmMst1 + #4
   * EPow P2 (EVar vlmMst1)) - #1440 * (- #280 + #121 * EVar vlmMst1) * EPow P2 (EVar vlmMst2) + #185760 * EPow P3
   (EVar vlmMst2)) * EPow P4 (EVar vMst2) - #10 * (#2773621 - #1660176 * EConst CB4 + #25272 * EConst CDN + #2004408 *
   EVar vlmMst1 - #525472 * EConst COepS2 + #108 * (#123113 + #98526 * EVar vlmMst1 - #98526 * EVar vlmMst2) * EConst
   CS2 + #3888 * EPow P2 (EVar vlmMst1) - #144 * EVar vlmMst2 * (#36802 - #11421 * EVar vlmMst1 + #1728 * EPow P2
   (EVar vlmMst1)) + #167184 * (- #14 + #15 * EVar vlmMst1) * EPow P2 (EVar vlmMst2) - #31104 * EPow P3 (EVar vlmMst1)
   - #2227824 * EPow P3 (EVar vlmMst2)) * EPow P6 (EVar vMst1) + #622080 * (- #1 + #2 * EVar vlmMst2 + #3 * EPow P2
   (EVar vlmMst2)) * EPow P6 (EVar vMst2)) + #15 * EVar vMgl * (#24 * EPow P2 (EVar vMst2) * (#75569 + #13716 * EConst
   CB4 - #54 * EConst CDN - #33426 * EVar vlmMst1 - #1088 * EConst COepS2 + #162 * (#169 + #136 * EVar vlmMst1 - #136
   * EVar vlmMst2) * EConst CS2 - #2376 * EPow P2 (EVar vlmMst1) + #54 * EVar vlmMst2 * (#1427 - #1012 * EVar vlmMst1
   + #16 * EPow P2 (EVar vlmMst1)) - #108 * (- #642 + #203 * EVar vlmMst1) * EPow P2 (EVar vlmMst2) + #21060 * EPow P3
   (EVar vlmMst2)) * EPow P4 (EVar vMst1) + #27 * EPow P2 (EVar vMst1) * (#28683 + #5280 * EConst CB4 - #48 * EConst
   CDN - #5952 * EVar vlmMst1 - #224 * EConst COepS2 + #324 * (- #1 + #14 * EVar vlmMst1 - #14 * EVar vlmMst2) *
   EConst CS2 - #768 * EPow P2 (EVar vlmMst1) - #192 * EVar vlmMst2 * (- #214 + #73 * EVar vlmMst1 + #4 * EPow P2
   (EVar vlmMst1)) - #96 * (- #268 + #57 * EVar vlmMst1) * EPow P2 (EVar vlmMst2) + #6240 * EPow P3 (EVar vlmMst2)) *
   EPow P4 (EVar vMst2) + #2 * (#1702429 + #257904 * EConst CB4 - #648 * EConst CDN - #748656 * EVar vlmMst1 - #30112
   * EConst COepS2 + #108 * (#9185 + #5646 * EVar vlmMst1 - #5646 * EVar vlmMst2) * EConst CS2 + #41904 * EPow P2
   (EVar vlmMst1) + #216 * EVar vlmMst2 * (#5971 - #6106 * EVar vlmMst1 + #576 * EPow P2 (EVar vlmMst1)) - #41904 * (-
   #34 + #15 * EVar vlmMst1) * EPow P2 (EVar vlmMst2) - #3456 * EPow P3 (EVar vlmMst1) + #507600 * EPow P3 (EVar
   vlmMst2)) * EPow P6 (EVar vMst1) + #41472 * EPow P2 (#1 + EVar vlmMst2) * EPow P6 (EVar vMst2)))) + #4860 * EVar
   vMst2 * EVar vs2t * EVar vxDR2DRMOD * (#64 * EVar vMt * EPow P2 (EVar vMsq) * EPow P2 (EVar vMst1) * (((#1 + EVar
   vlmMst2) * EVar vMgl * (#7 - #32 * EVar vlmMst2 + #4 * EVar vlmMst1 * (#7 + #3 * EVar vlmMst2) - #12 * EPow P2
   (EVar vlmMst2)) + EVar vDmglst2 * (#49 + #103 * EVar vlmMst2 - #36 * (#1 + EVar vlmMst2) * EPow P2 (EVar vlmMst2) +
   #4 * EVar vlmMst1 * (- #11 + #6 * EVar vlmMst2 + #9 * EPow P2 (EVar vlmMst2)))) * EPow P6 (EVar vMst1) + #2 * (EPow
   P2 (EVar vMst2) * ((#1 + EVar vlmMst2) * EVar vMgl * (#1 - #10 * EVar vlmMst2 + #4 * EVar vlmMst1 * (#2 + EVar
   vlmMst2) - #4 * EPow P2 (EVar vlmMst2)) + #2 * EVar vDmglst2 * (#8 + #13 * EVar vlmMst2 - #8 * EPow P2 (EVar
   vlmMst2) + EVar vlmMst1 * (- #5 + #5 * EVar vlmMst2 + #6 * EPow P2 (EVar vlmMst2)) - #6 * EPow P3 (EVar vlmMst2)))
   * EPow P4 (EVar vMst1) + EPow P2 (EVar vMst1) * ((#1 + EVar vlmMst2) * EVar vMgl * (- #1 - #5 * EVar vlmMst2 + EVar
   vlmMst1 * (#3 + #2 * EVar vlmMst2) - #2 * EPow P2 (EVar vlmMst2)) + EVar vDmglst2 * (#8 + #7 * EVar vlmMst2 - #11 *
   EPow P2 (EVar vlmMst2) + EVar vlmMst1 * (- #3 + #5 * EVar vlmMst2 + #6 * EPow P2 (EVar vlmMst2)) - #6 * EPow P3
   (EVar vlmMst2))) * EPow P4 (EVar vMst2) - (#1 + EVar vlmMst2) * (- EVar vDmglst2 + #3 * EVar vDmglst2 * EVar
   vlmMst2 + EVar vMgl + EVar vlmMst2 * EVar vMgl) * EPow P6 (EVar vMst2))) + EVar vMst2 * EVar vs2t * ((#15 * EVar
   vDmsqst2 * (#1 - #2 * EVar vlmMst1 + #2 * EVar vlmMst2) * (#2 * EVar vDmglst2 - #5 * EVar vMgl) + EPow P2 (EVar
   vMsq) * (- #2 * EVar vDmglst2 * (#60 + #206 * EVar vlmMst2 + #32 * EVar vlmMst2 * EPow P2 (EVar vlmMst1) + EVar
   vlmMst1 * (#8 - #460 * EVar vlmMst2 - #246 * EPow P2 (EVar vlmMst2)) + #519 * EPow P2 (EVar vlmMst2) + #214 * EPow
   P3 (EVar vlmMst2)) - EVar vMgl * (#189 + #726 * EVar vlmMst2 + #32 * (#1 + EVar vlmMst2) * EPow P2 (EVar vlmMst1) +
   #707 * EPow P2 (EVar vlmMst2) - #2 * EVar vlmMst1 * (#253 + #332 * EVar vlmMst2 + #123 * EPow P2 (EVar vlmMst2)) +
   #214 * EPow P3 (EVar vlmMst2)))) * EPow P4 (EVar vMst1) * EPow P4 (EVar vMst2) + #9 * EVar vMgl * EVar vshiftst1 *
   (EVar vDmsqst2 + EPow P2 (EVar vMsq)) * EPow P2 (EVar vMst1) * (#15 * (EPow P2 (EVar vMst1) + EPow P2 (EVar vMst2))
   * EPow P4 (EVar vMst2) - #30 * (EVar vlmMst1 - EVar vlmMst2) * EPow P2 (EVar vMst1) * (EPow P2 (EVar vMst1) * EPow
   P2 (EVar vMst2) + EPow P4 (EVar vMst1) + EPow P4 (EVar vMst2))) - EPow P2 (EVar vMst2) * (#30 * EVar vDmsqst2 *
   (EVar vlmMst1 - EVar vlmMst2) * (#2 * EVar vDmglst2 - #5 * EVar vMgl) + EPow P2 (EVar vMsq) * (#4 * EVar vDmglst2 *
   (#48 + #4 * EVar vlmMst2 * (#31 + #36 * EPow P2 (EVar vlmMst1)) + #278 * EPow P2 (EVar vlmMst2) - EVar vlmMst1 *
   (#44 + #278 * EVar vlmMst2 + #379 * EPow P2 (EVar vlmMst2)) + #235 * EPow P3 (EVar vlmMst2)) + #2 * EVar vMgl *
   (#32 + #285 * EVar vlmMst2 + #144 * (#1 + EVar vlmMst2) * EPow P2 (EVar vlmMst1) + #444 * EPow P2 (EVar vlmMst2) -
   EVar vlmMst1 * (#253 + #588 * EVar vlmMst2 + #379 * EPow P2 (EVar vlmMst2)) + #235 * EPow P3 (EVar vlmMst2)))) *
   EPow P6 (EVar vMst1) + (#15 * EVar vDmsqst2 * (#2 * EVar vDmglst2 - #5 * EVar vMgl) + (- (EVar vMgl * (#205 + #252
   * EVar vlmMst2 + #32 * EVar vlmMst1 * (#1 + EVar vlmMst2) + #91 * EPow P2 (EVar vlmMst2))) - #2 * EVar vDmglst2 *
   (- #20 + #2 * (#99 + #16 * EVar vlmMst1) * EVar vlmMst2 + #123 * EPow P2 (EVar vlmMst2))) * EPow P2 (EVar vMsq)) *
   EPow P2 (EVar vMst1) * EPow P6 (EVar vMst2) + (#150 * EVar vDmsqst2 * (EVar vlmMst1 - EVar vlmMst2) * EVar vMgl -
   #2 * EPow P2 (EVar vMsq) * (#2 * EVar vDmglst2 * (#48 + #4 * EVar vlmMst2 * (#45 + #68 * EPow P2 (EVar vlmMst1)) +
   #310 * EPow P2 (EVar vlmMst2) - EVar vlmMst1 * (#92 + #310 * EVar vlmMst2 + #635 * EPow P2 (EVar vlmMst2)) + #363 *
   EPow P3 (EVar vlmMst2)) + EVar vMgl * (#40 + #277 * EVar vlmMst2 + #272 * (#1 + EVar vlmMst2) * EPow P2 (EVar
   vlmMst1) + #556 * EPow P2 (EVar vlmMst2) - EVar vlmMst1 * (#237 + #828 * EVar vlmMst2 + #635 * EPow P2 (EVar
   vlmMst2)) + #363 * EPow P3 (EVar vlmMst2)))) * EPow P8 (EVar vMst1) + #16 * (#1 + EVar vlmMst2) * (#4 * EVar
   vDmglst2 * EVar vlmMst2 + EVar vMgl + EVar vlmMst2 * EVar vMgl) * EPow P2 (EVar vMsq) * EPow P8 (EVar vMst2)))))) /
   (#30005640 * EPow P2 (EVar vMgl) * EPow P4 (EVar vMsq) * EPow P4 (EVar vMst1) * EPow P6 (EVar vMst2))) - EPow P2
   (EVar vMt) * (EVar vAl4p * EVar vxDmglst2 * EPow P2 (EVar vDmglst2) * (EVar vAl4p * EVar vthreeLoopFlag * (#5 *
   EVar vDmsqst2 * (- #1081 + #165 * EVar vlmMst1 - #165 * EVar vlmMst2) * EPow P2 (EVar vs2t) * (- #1 + EPow P2 (EVar
   vSbeta)) * EPow P2 (EVar vSbeta) * EPow P4 (EVar vMst1) / (#9 * EPow P2 (EVar vMsq) * EPow P2 (EVar vMst2)) - EPow
   P2 (EVar vMuSUSY) * (#36 * EPow P2 (EVar vMt) * (#24 * EPow P2 (EVar vMst2) * (#50134 - #270 * EConst CB4 + #270 *
   EConst CD3 - #135 * EConst CDN + #2160 * EVar vlmMst1 + #120 * (#271 + #24 * EVar vlmMst1) * EVar vlmMst2 - #120 *
   EVar vlmMt - #29646 * EConst CS2 - #720 * (- #2 + #3 * EVar vlmMst1) * EPow P2 (EVar vlmMst2) + #2160 * EPow P3
   (EVar vlmMst2)) + EPow P2 (EVar vMst1) * (#3051661 - #12960 * EConst CB4 + #12960 * EConst CD3 - #6480 * EConst CDN
   + #304320 * EVar vlmMst1 + #960 * (#2227 + #285 * EVar vlmMst1) * EVar vlmMst2 + #2880 * (#4 + EVar vlmMst1 - EVar
   vlmMst2) * EVar vlmMt + #5600 * EConst COepS2 - #324 * (#5361 + #350 * EVar vlmMst1 - #350 * EVar vlmMst2) * EConst
   CS2 - #2880 * (#23 + #72 * EVar vlmMst1) * EPow P2 (EVar vlmMst2) + #207360 * EPow P3 (EVar vlmMst2))) / EPow P4
   (EVar vMst2) + #43740 * EPow P2 (EVar vs2t) * (EDec 9077757201646091 14 - #100 * EConst CB4 / #9 + #112 * EConst
   CD3 / #9 - #62 * EConst CDN / #9 + #788 * EVar vlmMst1 / #9 - #103 * EPow P2 (EVar vlmMst1) / #9 + #16 * EVar
   vlmMst2 * (- #241 - #171 * EVar vlmMst1 + #18 * EPow P2 (EVar vlmMst1)) / #27 + (EDec 12533333333333333 14 - #82 *
   EVar vlmMst1) * EPow P2 (EVar vlmMst2) + #80 * EVar vDmsqst2 * (#4 + EVar vlmMst1 - EVar vlmMst2) / (#3 * EPow P2
   (EVar vMsq)) + (#360 * EVar vDmsqst2 + (- #852 + #358 * EVar vlmMst2 + #32 * EVar vlmMst1 * (- #2 + #3 * EVar
   vlmMst2) + #497 * EPow P2 (EVar vlmMst2)) * EPow P2 (EVar vMsq)) * EPow P2 (EVar vMst2) / (#9 * EPow P2 (EVar vMsq)
   * EPow P2 (EVar vMst1)) + #214 * EPow P3 (EVar vlmMst2) / #3 + EPow P2 (EVar vMst1) * (EDec 15538193689986284 14 -
   #164 * EConst CB4 / #9 + #176 * EConst CD3 / #9 - #94 * EConst CDN / #9 - #21449 * EVar vlmMst1 / #675 - #7556 *
   EPow P2 (EVar vlmMst1) / #135 + EVar vlmMst2 * (- #54451 - #22990 * EVar vlmMst1 + #65550 * EPow P2 (EVar vlmMst1))
   / #675 + #2 * (#6077 - #17130 * EVar vlmMst1) * EPow P2 (EVar vlmMst2) / #135 + #10 * EVar vDmsqst2 * (- #23 + #42
   * EVar vlmMst1 - #42 * EVar vlmMst2) / (#3 * EPow P2 (EVar vMsq)) - #10 * EPow P3 (EVar vlmMst1) / #27 + #4240 *
   EPow P3 (EVar vlmMst2) / #27) / EPow P2 (EVar vMst2) + (EDec 5851892843532082 13 - #8 * EConst CB4 / #3 + #32 *
   EConst CD3 / #9 - #20 * EConst CDN / #9 - #20109937 * EVar vlmMst1 / #297675 - #15886 * EPow P2 (EVar vlmMst1) /
   #945 + EVar vlmMst2 * (EDec 17112243218274966 15 - #144628 * EVar vlmMst1 / #945 + #1180 * EPow P2 (EVar vlmMst1) /
   #9) + (EDec 16985608465608465 14 - #2632 * EVar vlmMst1 / #9) * EPow P2 (EVar vlmMst2) - #92 * EPow P3 (EVar
   vlmMst1) / #27 + #4448 * EPow P3 (EVar vlmMst2) / #27) * EPow P4 (EVar vMst1) / EPow P4 (EVar vMst2) - #32 * (- #2
   + EVar vlmMst2 + #5 * EPow P2 (EVar vlmMst2)) * EPow P4 (EVar vMst2) / (#9 * EPow P4 (EVar vMst1)) - (#6 * (#7400 *
   EConst COepS2 + #27 * (#1089707 - #5550 * EVar vlmMst1 + #5550 * EVar vlmMst2) * EConst CS2) * EPow P2 (EVar vMst1)
   * EPow P2 (EVar vMst2) + #40 * (#17308 * EConst COepS2 + #27 * (#93919 - #12981 * EVar vlmMst1 + #12981 * EVar
   vlmMst2) * EConst CS2) * EPow P4 (EVar vMst1) + #9 * (#1400 * EConst COepS2 + #81 * (#116129 - #350 * EVar vlmMst1
   + #350 * EVar vlmMst2) * EConst CS2) * EPow P4 (EVar vMst2)) / (#10935 * EPow P4 (EVar vMst2))) + #240 * EConst
   CT1ep * (#30 * EVar vMst2 * EPow P2 (EVar vMst1) * (#311 * EVar vMst2 * EVar vMt * EVar vs2t - #42 * EPow P2 (EVar
   vMt) + #37 * EPow P2 (EVar vMst2) * EPow P2 (EVar vs2t)) + #2 * EVar vs2t * (- #16421 * EVar vMt + #8654 * EVar
   vMst2 * EVar vs2t) * EPow P4 (EVar vMst1) + #63 * EVar vs2t * (EVar vMt + #5 * EVar vMst2 * EVar vs2t) * EPow P4
   (EVar vMst2)) / EPow P5 (EVar vMst2) - EVar vMt * EVar vs2t * (EPow P2 (EVar vMst2) * (#2332800 * EVar vDmsqst2 *
   ((- #8 + #15 * EVar vlmMst1 - #15 * EVar vlmMst2) * EPow P2 (EVar vMst1) + (#2 + #5 * EVar vlmMst1 - #5 * EVar
   vlmMst2) * EPow P2 (EVar vMst2)) / EPow P2 (EVar vMsq) + #6 * EPow P2 (EVar vMst1) * (#4580489 - #3285360 * EConst
   CB4 + #68040 * EConst CDN - #3918600 * EVar vlmMst1 + #248800 * EConst COepS2 - #108 * (- #20803 + #46650 * EVar
   vlmMst1 - #46650 * EVar vlmMst2) * EConst CS2 + #103680 * EPow P2 (EVar vlmMst1) - #360 * EVar vlmMst2 * (#11213 +
   #1368 * EVar vlmMst1 + #144 * EPow P2 (EVar vlmMst1)) + #6480 * (- #214 + #523 * EVar vlmMst1) * EPow P2 (EVar
   vlmMst2) - #3337200 * EPow P3 (EVar vlmMst2))) + #10 * (#2773621 - #1660176 * EConst CB4 + #25272 * EConst CDN +
   #2004408 * EVar vlmMst1 - #525472 * EConst COepS2 + #108 * (#123113 + #98526 * EVar vlmMst1 - #98526 * EVar
   vlmMst2) * EConst CS2 + #3888 * EPow P2 (EVar vlmMst1) - #144 * EVar vlmMst2 * (#36802 - #11421 * EVar vlmMst1 +
   #1728 * EPow P2 (EVar vlmMst1)) + #167184 * (- #14 + #15 * EVar vlmMst1) * EPow P2 (EVar vlmMst2) - #31104 * EPow
   P3 (EVar vlmMst1) - #2227824 * EPow P3 (EVar vlmMst2)) * EPow P4 (EVar vMst1) + #9 * (#2601353 - #1058400 * EConst
   CB4 + #23760 * EConst CDN - #1779840 * EVar vlmMst1 + #1120 * EConst COepS2 - #324 * (- #1387 + #70 * EVar vlmMst1
   - #70 * EVar vlmMst2) * EConst CS2 - #69120 * EPow P2 (EVar vlmMst1) + #1440 * EVar vlmMst2 * (- #599 - #108 * EVar
   vlmMst1 + #24 * EPow P2 (EVar vlmMst1)) + #4320 * (- #222 + #217 * EVar vlmMst1) * EPow P2 (EVar vlmMst2) - #972000
   * EPow P3 (EVar vlmMst2)) * EPow P4 (EVar vMst2) + #1244160 * (#2 + EVar vlmMst2 - #3 * EPow P2 (EVar vlmMst2)) *
   EPow P6 (EVar vMst2) / EPow P2 (EVar vMst1)) / EPow P5 (EVar vMst2)) / #43740) + EVar vs2t * EVar vtwoLoopFlag *
   EPow P2 (EVar vMuSUSY) * (#2 * (#4 * EVar vMt * (- #31 + #3 * EVar vlmMst1 * (- #2 + EVar vlmMst2) + #4 * EVar
   vlmMst2 - #3 * EPow P2 (EVar vlmMst2)) + #3 * EVar vMst2 * EVar vs2t * (#4 + EVar vlmMst2 + EVar vlmMst1 * (- #1 +
   #2 * EVar vlmMst2) - #2 * EPow P2 (EVar vlmMst2))) * EPow P2 (EVar vMst2) * EPow P4 (EVar vMst1) + #2 * (EVar vMst2
   * EVar vs2t * (#10 + EVar vlmMst1 * (- #3 + #6 * EVar vlmMst2) - #6 * EPow P2 (EVar vlmMst2)) + #4 * EVar vMt * (-
   #14 + EVar vlmMst1 * (- #2 + EVar vlmMst2) - EPow P2 (EVar vlmMst2))) * EPow P2 (EVar vMst1) * EPow P4 (EVar vMst2)
   + (EVar vMt * (- #398 + #52 * EVar vlmMst2 + EVar vlmMst1 * (- #68 + #40 * EVar vlmMst2) - #40 * EPow P2 (EVar
   vlmMst2)) + #3 * EVar vMst2 * EVar vs2t * (#9 + #4 * EVar vlmMst1 * (- #1 + EVar vlmMst2) + #4 * EVar vlmMst2 - #4
   * EPow P2 (EVar vlmMst2))) * EPow P6 (EVar vMst1) + #2 * (#2 - #3 * EVar vlmMst2) * EVar vs2t * EPow P7 (EVar
   vMst2)) / (#3 * EPow P2 (EVar vMst1) * EPow P5 (EVar vMst2))) / EPow P2 (EVar vMgl) + EVar vs2t * (#2 * EVar vxMst
   * (#27 * (EVar vlmMst1 - EVar vlmMst2) * EVar vMst2 * EVar voneLoopFlag * EVar vs2t * EPow P2 (EVar vMuSUSY) - #2 *
   EVar vAl4p * EVar vtwoLoopFlag * (#4 * (#18 * (EVar vlmMst1 - EVar vlmMst2) * (- #2 + #3 * EVar vlmMst2) * EVar
   vMst2 * EVar vs2t * EVar vxDmglst2 * EVar vxDR2DRMOD * EPow P2 (EVar vDmglst2) + EVar vDmglst2 * EVar vMgl * (EVar
   vMt * (#785 + #6 * EVar vlmMst1 * (#85 - #42 * EVar vlmMst2) - #438 * EVar vlmMst2 + #252 * EPow P2 (EVar vlmMst2))
   - EVar vMst2 * EVar vs2t * (#49 - #84 * EVar vlmMst2 + EVar vlmMst1 * (#84 - #36 * EVar vlmMst2 * (- #1 + EVar
   vxDR2DRMOD)) + #36 * (- #1 + EVar vxDR2DRMOD) * EPow P2 (EVar vlmMst2))) + (EVar vMt * (#193 + #474 * EVar vlmMst2
   - #6 * EVar vlmMst1 * (#67 + #42 * EVar vlmMst2) + #252 * EPow P2 (EVar vlmMst2)) - EVar vMst2 * EVar vs2t * (#1 +
   #3 * EVar vlmMst2 * (- #37 + #6 * EVar vxDR2DRMOD) - #3 * EVar vlmMst1 * (- #37 + #6 * EVar vlmMst2 * (- #12 + EVar
   vxDR2DRMOD) + #6 * EVar vxDR2DRMOD) - #81 * EPow P2 (EVar vlmMst1) + #9 * (- #15 + #2 * EVar vxDR2DRMOD) * EPow P2
   (EVar vlmMst2))) * EPow P2 (EVar vMgl)) * EPow P2 (EVar vMuSUSY) - EVar vxDmglst2 * EPow P2 (EVar vDmglst2) * (#4 *
   EVar vMt * EVar vTbeta * (- #2501 + #222 * EVar vlmMst2 + #42 * EVar vlmMst1 * (- #7 + #6 * EVar vlmMst2) - #252 *
   EPow P2 (EVar vlmMst2)) * EPow P2 (EVar vMuSUSY) + #6 * EVar vMst2 * EVar vMuSUSY * (EVar vMuSUSY * EVar vs2t *
   EVar vTbeta * (#85 - #60 * EVar vlmMst1 + #60 * EVar vlmMst2 + #36 * EVar vlmMst1 * EVar vlmMst2 - #36 * EPow P2
   (EVar vlmMst2)) + #10 * (- #43 + #60 * EVar vlmMst1 - #60 * EVar vlmMst2) * EVar vMt * EPow P2 (EVar vSbeta)) + #15
   * (- #43 + #60 * EVar vlmMst1 - #60 * EVar vlmMst2) * EVar vs2t * EVar vTbeta * (- #1 + EPow P2 (EVar vSbeta)) *
   EPow P2 (EVar vSbeta) * EPow P3 (EVar vMst2)) / EVar vTbeta) / EPow P2 (EVar vMgl)) * EPow P6 (EVar vMst1) / EPow
   P7 (EVar vMst2) - EPow P2 (EVar vMuSUSY) * (#27 * EVar voneLoopFlag * EVar vs2t * (#2 - EVar vlmMst1 + EVar vlmMst2
   - #2 * (EVar vlmMst1 - EVar vlmMst2) * EPow P2 (EVar vMst1) * (EPow P2 (EVar vMst1) + EPow P2 (EVar vMst2)) / EPow
   P4 (EVar vMst2)) + EVar vAl4p * (#36 * EVar vtwoLoopFlag * (EVar vMgl * (#4 * (#4 * EVar vMt * (#5 + #6 * EVar
   vlmMst2 - EVar vlmMst1 * (#4 + #3 * EVar vlmMst2) + #3 * EPow P2 (EVar vlmMst2)) + EVar vMst2 * EVar vs2t * (- #1 +
   #13 * EVar vlmMst2 - EVar vlmMst1 * (#13 + #8 * EVar vlmMst2) + EPow P2 (EVar vlmMst1) + #7 * EPow P2 (EVar
   vlmMst2))) * EPow P2 (EVar vMst2) * EPow P4 (EVar vMst1) + #2 * (- (EVar vMst2 * EVar vs2t * (- #14 - #20 * EVar
   vlmMst2 + #2 * EVar vlmMst1 * (#5 + #3 * EVar vlmMst2) + EPow P2 (EVar vlmMst1) - #7 * EPow P2 (EVar vlmMst2))) +
   #8 * EVar vMt * (#4 + #3 * EVar vlmMst2 - EVar vlmMst1 * (#1 + EVar vlmMst2) + EPow P2 (EVar vlmMst2))) * EPow P2
   (EVar vMst1) * EPow P4 (EVar vMst2) + (EVar vMst2 * EVar vs2t * (- #1 + #50 * EVar vlmMst2 - #2 * EVar vlmMst1 *
   (#25 + #32 * EVar vlmMst2) + #20 * EPow P2 (EVar vlmMst1) + #44 * EPow P2 (EVar vlmMst2)) + EVar vMt * (#84 + #152
   * EVar vlmMst2 - #40 * EVar vlmMst1 * (#3 + #2 * EVar vlmMst2) + #80 * EPow P2 (EVar vlmMst2))) * EPow P6 (EVar
   vMst1) + #4 * (#1 + EVar vlmMst2) * EVar vs2t * EPow P7 (EVar vMst2)) + #4 * EVar vDmglst2 * ((EVar vMst2 * EVar
   vs2t * (- #5 + #8 * EVar vlmMst2 - #4 * EVar vlmMst1 * (#2 + EVar vlmMst2) + #4 * EPow P2 (EVar vlmMst2)) + EVar
   vMt * (#65 + EVar vlmMst1 * (#34 - #20 * EVar vlmMst2) - #26 * EVar vlmMst2 + #20 * EPow P2 (EVar vlmMst2))) * EPow
   P6 (EVar vMst1) + #2 * ((EVar vMst2 * EVar vs2t * (- #2 + #3 * EVar vlmMst2 - EVar vlmMst1 * (#3 + #2 * EVar
   vlmMst2) + #2 * EPow P2 (EVar vlmMst2)) + EVar vMt * (#22 + EVar vlmMst1 * (#8 - #6 * EVar vlmMst2) - #4 * EVar
   vlmMst2 + #6 * EPow P2 (EVar vlmMst2))) * EPow P2 (EVar vMst2) * EPow P4 (EVar vMst1) + (- (EVar vMst2 * EVar vs2t
   * (#1 + EVar vlmMst1 - #2 * EVar vlmMst2 + #2 * EVar vlmMst1 * EVar vlmMst2 - #2 * EPow P2 (EVar vlmMst2))) + #2 *
   EVar vMt * (#6 + EVar vlmMst1 + EVar vlmMst2 - EVar vlmMst1 * EVar vlmMst2 + EPow P2 (EVar vlmMst2))) * EPow P2
   (EVar vMst1) * EPow P4 (EVar vMst2) + EVar vlmMst2 * EVar vs2t * EPow P7 (EVar vMst2)))) / (EVar vMgl * EPow P2
   (EVar vMst1) * EPow P5 (EVar vMst2)) - #4 * EVar vxDR2DRMOD * (#9 * EVar vs2t * (#4 * (#2 * EVar vDmglst2 * EVar
   vlmMst2 + EVar vMgl + EVar vlmMst2 * EVar vMgl) * EVar vtwoLoopFlag * ((EPow P2 (EVar vMst1) + EPow P2 (EVar
   vMst2)) * EPow P4 (EVar vMst2) - #2 * (EVar vlmMst1 - EVar vlmMst2) * EPow P2 (EVar vMst1) * (EPow P2 (EVar vMst1)
   * EPow P2 (EVar vMst2) + EPow P4 (EVar vMst1) + EPow P4 (EVar vMst2))) / (EVar vMgl * EPow P2 (EVar vMst1) * EPow
   P4 (EVar vMst2)) + EVar vAl4p * EVar vthreeLoopFlag * EVar vxDmsqst2 * EPow P2 (EVar vDmsqst2) * (#55 - #110 * EVar
   vlmMst1 + #110 * EVar vlmMst2 + #50 * EVar vDmglst2 * (#1 - #2 * EVar vlmMst1 + #2 * EVar vlmMst2) / EVar vMgl + #5
   * (#10 * EVar vDmglst2 + #11 * EVar vMgl) * EPow P2 (EVar vMst2) / (EVar vMgl * EPow P2 (EVar vMst1)) - #6 * EVar
   vxDmglst2 * EPow P2 (EVar vDmglst2) * (#5 * EVar vlmMst1 - #5 * EVar vlmMst2 - #50 * (EVar vlmMst1 - EVar vlmMst2)
   * EPow P2 (EVar vMst1) / EPow P2 (EVar vMst2) - #5 * (#1 + EPow P2 (EVar vMst2) / EPow P2 (EVar vMst1)) / #2) /
   EPow P2 (EVar vMgl) + #10 * (EVar vlmMst1 - EVar vlmMst2) * EPow P2 (EVar vMst1) * (- #10 * EPow P2 (EVar vMst1) +
   (#4 * EVar vDmglst2 - #11 * EVar vMgl) * EPow P2 (EVar vMst2) / EVar vMgl) / EPow P4 (EVar vMst2) - #90 * EVar
   vshiftst1 * (#1 + EPow P2 (EVar vMst2) / EPow P2 (EVar vMst1) - #2 * (EVar vlmMst1 - EVar vlmMst2) * (EPow P2 (EVar
   vMst1) * EPow P2 (EVar vMst2) + EPow P4 (EVar vMst1) + EPow P4 (EVar vMst2)) / EPow P4 (EVar vMst2))) / EPow P4
   (EVar vMsq)) + #2 * EVar vxDmglst2 * EPow P2 (EVar vDmglst2) * (- #18 * (#2 - #3 * EVar vlmMst2) * EVar vMst2 *
   EVar vs2t * EVar vtwoLoopFlag * EPow P2 (EVar vMst1) * ((EPow P2 (EVar vMst1) + EPow P2 (EVar vMst2)) * EPow P4
   (EVar vMst2) - #2 * (EVar vlmMst1 - EVar vlmMst2) * EPow P2 (EVar vMst1) * (EPow P2 (EVar vMst1) * EPow P2 (EVar
   vMst2) + EPow P4 (EVar vMst1) + EPow P4 (EVar vMst2))) + EVar vAl4p * EVar vthreeLoopFlag * (- ((EVar vMst2 * EVar
   vs2t * (#1180 + #1270 * EVar vlmMst2 + #96 * (#2 - #3 * EVar vlmMst2) * EPow P2 (EVar vlmMst1) - #3255 * EPow P2
   (EVar vlmMst2) + #6 * EVar vlmMst1 * (- #468 + #454 * EVar vlmMst2 + #369 * EPow P2 (EVar vlmMst2)) - #1926 * EPow
   P3 (EVar vlmMst2)) + #64 * EVar vMt * (#53 + #191 * EVar vlmMst2 - #54 * EPow P2 (EVar vlmMst2) + #6 * EVar vlmMst1
   * (- #10 - #3 * EVar vlmMst2 + #12 * EPow P2 (EVar vlmMst2)) - #72 * EPow P3 (EVar vlmMst2))) * EPow P4 (EVar
   vMst1) * EPow P4 (EVar vMst2)) - #2 * EPow P2 (EVar vMst2) * (#3 * EVar vMst2 * EVar vs2t * (#240 + #468 * EVar
   vlmMst2 + #144 * (#2 - #3 * EVar vlmMst2) * EPow P2 (EVar vlmMst1) - #310 * EPow P2 (EVar vlmMst2) + EVar vlmMst1 *
   (- #580 + #22 * EVar vlmMst2 + #1137 * EPow P2 (EVar vlmMst2)) - #705 * EPow P3 (EVar vlmMst2)) + #32 * EVar vMt *
   (#11 + #371 * EVar vlmMst2 - #42 * EPow P2 (EVar vlmMst2) + #6 * EVar vlmMst1 * (- #21 - #5 * EVar vlmMst2 + #24 *
   EPow P2 (EVar vlmMst2)) - #144 * EPow P3 (EVar vlmMst2))) * EPow P6 (EVar vMst1) - #3 * (EVar vMst2 * EVar vs2t *
   (#420 + EVar vlmMst1 * (#64 - #96 * EVar vlmMst2) - #358 * EVar vlmMst2 - #497 * EPow P2 (EVar vlmMst2)) + #256 *
   EVar vMt * (#2 + EVar vlmMst2 - #3 * EPow P2 (EVar vlmMst2))) * EPow P2 (EVar vMst1) * EPow P6 (EVar vMst2) - #12 *
   (#16 * EVar vMt * (#49 + #103 * EVar vlmMst2 - #36 * (#1 + EVar vlmMst2) * EPow P2 (EVar vlmMst2) + #4 * EVar
   vlmMst1 * (- #11 + #6 * EVar vlmMst2 + #9 * EPow P2 (EVar vlmMst2))) - EVar vMst2 * EVar vs2t * (#48 + #4 * EVar
   vlmMst2 * (#45 + #68 * EPow P2 (EVar vlmMst1)) + #310 * EPow P2 (EVar vlmMst2) - EVar vlmMst1 * (#92 + #310 * EVar
   vlmMst2 + #635 * EPow P2 (EVar vlmMst2)) + #363 * EPow P3 (EVar vlmMst2))) * EPow P8 (EVar vMst1) + EVar vs2t *
   (#675 * EVar vDmsqst2 * EPow P2 (EVar vMst1) * (#2 * (EVar vlmMst1 - EVar vlmMst2) * EPow P2 (EVar vMst1) - EPow P2
   (EVar vMst2)) * (EPow P2 (EVar vMst1) + EPow P2 (EVar vMst2)) * EPow P3 (EVar vMst2) / EPow P2 (EVar vMsq) - #96 *
   (- #2 + EVar vlmMst2 + #5 * EPow P2 (EVar vlmMst2)) * EPow P9 (EVar vMst2)))) / (EPow P2 (EVar vMgl) * EPow P4
   (EVar vMst1) * EPow P5 (EVar vMst2)))))) / #216).

(** H6bq2g2.cpp:512-2974 *)
Definition H6bq2g2_getS2 : expr :=
  - (EVar voneLoopFlag * (#4 * EVar vMt * EVar vMuSUSY * EVar vs2t * (#4 * (EVar vlmMst1 - EVar vlmMst2) * EPow P2 (EVar
   vMt) + ((- #2 - EVar vlmMst1 + EVar vlmMst2) * EPow P2 (EVar vMst1) + (#2 - EVar vlmMst1 + EVar vlmMst2) * EPow P2
   (EVar vMst2)) * EPow P2 (EVar vs2t)) / EVar vTbeta + #4 * EPow P2 (EVar vMt) * EPow P2 (EVar vs2t) * (#2 * (EVar
   vlmMst1 - EVar vlmMst2) * (EPow P2 (EVar vMst1) - EPow P2 (EVar vMst2)) + EPow P2 (EVar vMuSUSY) * (#2 - EVar
   vlmMst1 + EVar vlmMst2 - #2 * (EVar vlmMst1 - EVar vlmMst2) * EPow P2 (EVar vMst1) * (EPow P2 (EVar vMst1) + EPow
   P2 (EVar vMst2)) / EPow P4 (EVar vMst2))) - #4 * EPow P2 (EVar vMt) * EPow P2 (EVar vMuSUSY) * EPow P2 (EVar vs2t)
   * (#2 - EVar vlmMst1 + EVar vlmMst2 - #2 * (EVar vlmMst1 - EVar vlmMst2) * EPow P2 (EVar vMst1) * (EPow P2 (EVar
   vMst1) + EPow P2 (EVar vMst2)) / EPow P4 (EVar vMst2)) / EPow P2 (EVar vSbeta) + #16 * (EVar vlmMst1 + EVar vlmMst2
   - #2 * EVar vlmMt) * EPow P4 (EVar vMt) - (- #4 * EPow P2 (EVar vMst1) * EPow P2 (EVar vMst2) + (#2 + EVar vlmMst1
   - EVar vlmMst2) * EPow P4 (EVar vMst1) + (#2 - EVar vlmMst1 + EVar vlmMst2) * EPow P4 (EVar vMst2)) * EPow P4 (EVar
   vs2t))) / #32 - EVar vAl4p * EVar vtwoLoopFlag * (- #72 * EVar vMt * EPow P3 (EVar vs2t) * (- (EVar vMgl * (#4 *
   (#3 + EVar vlmMst1 * (#2 + EVar vlmMst2) - EPow P2 (EVar vlmMst2)) * EPow P2 (EVar vMst1) * EPow P2 (EVar vMst2) +
   (#3 + #2 * EVar vlmMst1 - #2 * EVar vlmMst2) * EPow P4 (EVar vMst1) + #4 * (- #4 + EVar vlmMst1 - #3 * EVar vlmMst2
   + EVar vlmMst1 * EVar vlmMst2 - EPow P2 (EVar vlmMst2)) * EPow P4 (EVar vMst2))) + EVar vDmglst2 * (- #4 * (#1 +
   EVar vlmMst1 * (- #2 + EVar vlmMst2) + #4 * EVar vlmMst2 - EPow P2 (EVar vlmMst2)) * EPow P2 (EVar vMst1) * EPow P2
   (EVar vMst2) + (#1 + #6 * EVar vlmMst1 - #6 * EVar vlmMst2) * EPow P4 (EVar vMst1) + #4 * (#6 + EVar vlmMst1 + EVar
   vlmMst2 - EVar vlmMst1 * EVar vlmMst2 + EPow P2 (EVar vlmMst2)) * EPow P4 (EVar vMst2))) / EVar vMst2 + #32 * EPow
   P4 (EVar vMt) * (#2 * EVar vDmglst2 * ((#53 - #18 * EVar vlmMst1 + #24 * EVar vlmMst2 - #24 * EVar vlmMt) * EPow P2
   (EVar vMst1) * EPow P4 (EVar vMst2) + #18 * ((#5 + EVar vlmMst2 * (#11 - #2 * EVar vlmMt) - #2 * EVar vlmMst1 * (#4
   + EVar vlmMst2 - EVar vlmMt) - #3 * EVar vlmMt + #2 * EPow P2 (EVar vlmMst2)) * EPow P2 (EVar vMst2) * EPow P4
   (EVar vMst1) + (#3 - #6 * EVar vlmMst2 * (- #5 + EVar vlmMt) - #5 * EVar vlmMt + EVar vlmMst1 * (- #25 - #6 * EVar
   vlmMst2 + #6 * EVar vlmMt) + #6 * EPow P2 (EVar vlmMst2)) * EPow P6 (EVar vMst1)) - #18 * EVar vlmMst2 * EPow P6
   (EVar vMst2)) + #9 * EVar vMgl * (#2 * (#2 + #2 * EVar vlmMst1 * (#3 + EVar vlmMst2 - EVar vlmMt) + EVar vlmMt +
   EVar vlmMst2 * (- #7 + #2 * EVar vlmMt) - #2 * EPow P2 (EVar vlmMst2)) * EPow P2 (EVar vMst2) * EPow P4 (EVar
   vMst1) + (#3 + #2 * EVar vlmMst1 * (#3 + EVar vlmMst2) + EVar vlmMt + EVar vlmMst2 * (- #5 + #4 * EVar vlmMt) +
   EPow P2 (EVar vlmMst1) - EPow P2 (EVar vlmMst2) - #6 * EPow P2 (EVar vlmMt)) * EPow P2 (EVar vMst1) * EPow P4 (EVar
   vMst2) + (#9 + EVar vlmMst1 * (#22 + #6 * EVar vlmMst2 - #6 * EVar vlmMt) + #6 * EVar vlmMst2 * (- #4 + EVar vlmMt)
   + #2 * EVar vlmMt - #6 * EPow P2 (EVar vlmMst2)) * EPow P6 (EVar vMst1) - #2 * (#1 + EVar vlmMst2) * EPow P6 (EVar
   vMst2))) / (EPow P2 (EVar vMst1) * EPow P4 (EVar vMst2)) - #144 * EVar vs2t * EPow P3 (EVar vMt) * (EVar vDmglst2 *
   (#4 * EPow P2 (EVar vMst1) * EPow P2 (EVar vMst2) * ((#6 + #13 * EVar vlmMst2 - #4 * EVar vlmMt - #2 * EVar vlmMst2
   * EVar vlmMt + EVar vlmMst1 * (- #9 - #2 * EVar vlmMst2 + #2 * EVar vlmMt) + #2 * EPow P2 (EVar vlmMst2)) * EPow P2
   (EVar vMst2) + (- #11 + #2 * EVar vlmMst2 + EVar vlmMst1 * (- #4 + #3 * EVar vlmMst2) - #3 * EPow P2 (EVar
   vlmMst2)) * EPow P2 (EVar vMuSUSY)) - (#4 * (#1 - #29 * EVar vlmMst2 + EVar vlmMst1 * (#25 + #6 * EVar vlmMst2 - #6
   * EVar vlmMt) + #4 * EVar vlmMt + #6 * EVar vlmMst2 * EVar vlmMt - #6 * EPow P2 (EVar vlmMst2)) * EPow P2 (EVar
   vMst2) + (#65 + EVar vlmMst1 * (#34 - #20 * EVar vlmMst2) - #26 * EVar vlmMst2 + #20 * EPow P2 (EVar vlmMst2)) *
   EPow P2 (EVar vMuSUSY)) * EPow P4 (EVar vMst1) - #4 * (#6 + EVar vlmMst1 + EVar vlmMst2 - EVar vlmMst1 * EVar
   vlmMst2 + EPow P2 (EVar vlmMst2)) * EPow P2 (EVar vMuSUSY) * EPow P4 (EVar vMst2) + #8 * (#5 + EVar vlmMst1 * (- #1
   + EVar vlmMst2) + EVar vlmMst2 - EPow P2 (EVar vlmMst2)) * EPow P6 (EVar vMst2)) + EVar vMgl * ((#4 * (#5 - #7 *
   EVar vlmMst2 + EVar vlmMst1 * (#7 + #2 * EVar vlmMst2 - #2 * EVar vlmMt) + #2 * EVar vlmMst2 * EVar vlmMt - #2 *
   EPow P2 (EVar vlmMst2)) * EPow P2 (EVar vMst2) + (- #21 - #38 * EVar vlmMst2 + #10 * EVar vlmMst1 * (#3 + #2 * EVar
   vlmMst2) - #20 * EPow P2 (EVar vlmMst2)) * EPow P2 (EVar vMuSUSY)) * EPow P4 (EVar vMst1) + #4 * ((- #4 + EVar
   vlmMst1 - #3 * EVar vlmMst2 + EVar vlmMst1 * EVar vlmMst2 - EPow P2 (EVar vlmMst2)) * EPow P2 (EVar vMuSUSY) * EPow
   P4 (EVar vMst2) + EPow P2 (EVar vMst1) * ((- #5 - #6 * EVar vlmMst2 + EVar vlmMst1 * (#4 + #3 * EVar vlmMst2) - #3
   * EPow P2 (EVar vlmMst2)) * EPow P2 (EVar vMst2) * EPow P2 (EVar vMuSUSY) + (#4 - #5 * EVar vlmMst2 + EVar vlmMst1
   * (#5 + #2 * EVar vlmMst2 - #2 * EVar vlmMt) + #2 * EVar vlmMst2 * EVar vlmMt - #2 * EPow P2 (EVar vlmMst2)) * EPow
   P4 (EVar vMst2)) + (#3 - #4 * EVar vlmMst2 + #2 * (EVar vlmMst1 + EVar vlmMst1 * EVar vlmMst2 + EVar vlmMt) - #2 *
   EPow P2 (EVar vlmMst2)) * EPow P6 (EVar vMst2)))) / EPow P5 (EVar vMst2) + #36 * EVar vMt * EVar vMuSUSY * (#16 *
   EPow P3 (EVar vMt) * (EVar vMgl * (#13 + #2 * EVar vlmMst1 * (#6 + #3 * EVar vlmMst2 - #2 * EVar vlmMt) + #2 * EVar
   vlmMt + #2 * EVar vlmMst2 * (- #7 + #2 * EVar vlmMt) - #6 * EPow P2 (EVar vlmMst2)) * EPow P4 (EVar vMst1) + EVar
   vDmglst2 * (#11 - #6 * EVar vlmMst1 * EVar vlmMst2 - #8 * EVar vlmMst2 * (- #5 + EVar vlmMt) + #8 * EVar vlmMst1 *
   (- #4 + EVar vlmMt) - #8 * EVar vlmMt + #6 * EPow P2 (EVar vlmMst2)) * EPow P4 (EVar vMst1) + #2 * EVar vDmglst2 *
   ((#7 + #7 * EVar vlmMst2 + EVar vlmMst1 * (- #5 + EVar vlmMt) - #2 * EVar vlmMt - EVar vlmMst2 * EVar vlmMt) * EPow
   P2 (EVar vMst1) * EPow P2 (EVar vMst2) + (#5 + EVar vlmMst1 * (- #1 + EVar vlmMst2) + EVar vlmMst2 - EPow P2 (EVar
   vlmMst2)) * EPow P4 (EVar vMst2)) + #2 * EVar vMgl * ((#4 + EVar vlmMst1 * (#3 + #2 * EVar vlmMst2 - EVar vlmMt) +
   EVar vlmMst2 * (- #4 + EVar vlmMt) + EVar vlmMt - #2 * EPow P2 (EVar vlmMst2)) * EPow P2 (EVar vMst1) * EPow P2
   (EVar vMst2) + (#2 + EVar vlmMst1 + (- #2 + EVar vlmMst1) * EVar vlmMst2 + EVar vlmMt - EPow P2 (EVar vlmMst2)) *
   EPow P4 (EVar vMst2))) + #6 * EVar vMt * EPow P2 (EVar vMst2) * EPow P2 (EVar vs2t) * (EVar vDmglst2 * (#4 * (#5 +
   EVar vlmMst1 * (#3 - #2 * EVar vlmMst2) - #3 * EVar vlmMst2 + #2 * EPow P2 (EVar vlmMst2)) * EPow P2 (EVar vMst1) *
   EPow P2 (EVar vMst2) + (#21 + EVar vlmMst1 * (#18 - #8 * EVar vlmMst2) - #18 * EVar vlmMst2 + #8 * EPow P2 (EVar
   vlmMst2)) * EPow P4 (EVar vMst1) + #4 * (#6 + EVar vlmMst1 + EVar vlmMst2 - EVar vlmMst1 * EVar vlmMst2 + EPow P2
   (EVar vlmMst2)) * EPow P4 (EVar vMst2)) + EVar vMgl * (#4 * (#1 + #3 * EVar vlmMst2 - EVar vlmMst1 * (#3 + #2 *
   EVar vlmMst2) + #2 * EPow P2 (EVar vlmMst2)) * EPow P2 (EVar vMst1) * EPow P2 (EVar vMst2) + (#1 + #14 * EVar
   vlmMst2 - #2 * EVar vlmMst1 * (#7 + #4 * EVar vlmMst2) + #8 * EPow P2 (EVar vlmMst2)) * EPow P4 (EVar vMst1) + #4 *
   (#4 + #3 * EVar vlmMst2 - EVar vlmMst1 * (#1 + EVar vlmMst2) + EPow P2 (EVar vlmMst2)) * EPow P4 (EVar vMst2))) +
   EPow P3 (EVar vMst2) * EPow P3 (EVar vs2t) * (- #4 * EVar vDmglst2 * (#2 * (#1 + #2 * EVar vlmMst1 - EVar vlmMst2)
   * EPow P2 (EVar vMst2) * EPow P4 (EVar vMst1) + #2 * (#1 + EVar vlmMst1 - EVar vlmMst2 + #2 * EVar vlmMst1 * EVar
   vlmMst2 - #2 * EPow P2 (EVar vlmMst2)) * EPow P2 (EVar vMst1) * EPow P4 (EVar vMst2) + (#1 + #2 * EVar vlmMst1 - #2
   * EVar vlmMst2) * EPow P6 (EVar vMst1) - #2 * EVar vlmMst2 * EPow P6 (EVar vMst2)) + EVar vMgl * (#2 * (- #16 + #6
   * EVar vlmMst2 - #2 * EVar vlmMst1 * (#8 + #5 * EVar vlmMst2) + #3 * EPow P2 (EVar vlmMst1) + #7 * EPow P2 (EVar
   vlmMst2)) * EPow P2 (EVar vMst2) * EPow P4 (EVar vMst1) - #2 * (- #12 - #18 * EVar vlmMst2 + #2 * EVar vlmMst1 *
   (#5 + #3 * EVar vlmMst2) + EPow P2 (EVar vlmMst1) - #7 * EPow P2 (EVar vlmMst2)) * EPow P2 (EVar vMst1) * EPow P4
   (EVar vMst2) + (#3 + EVar vlmMst1 * (#2 - #32 * EVar vlmMst2) - #2 * EVar vlmMst2 + #16 * EPow P2 (EVar vlmMst1) +
   #16 * EPow P2 (EVar vlmMst2)) * EPow P6 (EVar vMst1) + #4 * (#1 + EVar vlmMst2) * EPow P6 (EVar vMst2))) / EPow P2
   (EVar vMst1) + #8 * EVar vMst2 * EVar vs2t * EPow P2 (EVar vMt) * (EVar vDmglst2 * (#4 * (#1 - EVar vlmMst1 + EVar
   vlmMst2) * EPow P2 (EVar vMst2) * EPow P4 (EVar vMst1) + #2 * (#1 + #2 * EVar vlmMst2) * EPow P2 (EVar vMst1) *
   EPow P4 (EVar vMst2) + (#4 - #8 * EVar vlmMst1 + #8 * EVar vlmMst2) * EPow P6 (EVar vMst1) - #4 * EVar vlmMst2 *
   EPow P6 (EVar vMst2)) - EVar vMgl * (- #2 * EVar vlmMst1 * ((#1 + #2 * EVar vlmMst2) * (EPow P2 (EVar vMst1) + EPow
   P2 (EVar vMst2)) * EPow P4 (EVar vMst1) + (#3 + EVar vlmMst2) * EPow P2 (EVar vMst1) * EPow P4 (EVar vMst2)) + EPow
   P2 (EVar vlmMst1) * (#2 * EPow P2 (EVar vMst2) * EPow P4 (EVar vMst1) - EPow P2 (EVar vMst1) * EPow P4 (EVar vMst2)
   + #2 * EPow P6 (EVar vMst1)) + EPow P2 (EVar vlmMst2) * (#2 * EPow P2 (EVar vMst2) * EPow P4 (EVar vMst1) + #3 *
   EPow P2 (EVar vMst1) * EPow P4 (EVar vMst2) + #2 * EPow P6 (EVar vMst1)) + #2 * EPow P6 (EVar vMst2) + #2 * EVar
   vlmMst2 * (EPow P2 (EVar vMst2) * EPow P4 (EVar vMst1) + #2 * EPow P2 (EVar vMst1) * EPow P4 (EVar vMst2) + EPow P6
   (EVar vMst1) + EPow P6 (EVar vMst2)))) / EPow P2 (EVar vMst1)) / (EVar vTbeta * EPow P5 (EVar vMst2)) - #36 * EPow
   P2 (EVar vMt) * EPow P2 (EVar vs2t) * (#4 * (EVar vDmglst2 * (#2 - #4 * EVar vlmMst1) + EVar vMgl * (#2 * EVar
   vlmMst1 * (- #2 + EVar vlmMst2) + EVar vlmMst2 * (#2 + EVar vlmMst2) - #3 * EPow P2 (EVar vlmMst1))) * EPow P2
   (EVar vMst1) + #4 * (EVar vDmglst2 * (#2 + #8 * EVar vlmMst2) + EVar vMgl * (#2 - #2 * EVar vlmMst2 + #2 * EVar
   vlmMst1 * (#3 + EVar vlmMst2) + EPow P2 (EVar vlmMst1) - #3 * EPow P2 (EVar vlmMst2))) * EPow P2 (EVar vMst2) - #16
   * EVar vDmglst2 * (EVar vlmMst1 - EVar vlmMst2) * EPow P4 (EVar vMst1) / EPow P2 (EVar vMst2) + (- #8 * (#2 * EVar
   vDmglst2 * EVar vlmMst2 + EVar vMgl + EVar vlmMst2 * EVar vMgl) * EPow P4 (EVar vMst2) + EPow P2 (EVar vMuSUSY) *
   (#4 * EVar vDmglst2 * (#2 * (#2 - #3 * EVar vlmMst2 + EVar vlmMst1 * (#3 + #2 * EVar vlmMst2) - #2 * EPow P2 (EVar
   vlmMst2)) * EPow P2 (EVar vMst2) * EPow P4 (EVar vMst1) + #2 * (#1 + EVar vlmMst1 - #2 * EVar vlmMst2 + #2 * EVar
   vlmMst1 * EVar vlmMst2 - #2 * EPow P2 (EVar vlmMst2)) * EPow P2 (EVar vMst1) * EPow P4 (EVar vMst2) + (#5 - #8 *
   EVar vlmMst2 + #4 * EVar vlmMst1 * (#2 + EVar vlmMst2) - #4 * EPow P2 (EVar vlmMst2)) * EPow P6 (EVar vMst1) - #2 *
   EVar vlmMst2 * EPow P6 (EVar vMst2)) + EVar vMgl * (- #4 * (- #1 - #13 * EVar vlmMst1 + #13 * EVar vlmMst2 - #8 *
   EVar vlmMst1 * EVar vlmMst2 + EPow P2 (EVar vlmMst1) + #7 * EPow P2 (EVar vlmMst2)) * EPow P2 (EVar vMst2) * EPow
   P4 (EVar vMst1) + #2 * (- #14 + #10 * EVar vlmMst1 - #20 * EVar vlmMst2 + #6 * EVar vlmMst1 * EVar vlmMst2 + EPow
   P2 (EVar vlmMst1) - #7 * EPow P2 (EVar vlmMst2)) * EPow P2 (EVar vMst1) * EPow P4 (EVar vMst2) + (#1 + #50 * EVar
   vlmMst1 - #50 * EVar vlmMst2 + #64 * EVar vlmMst1 * EVar vlmMst2 - #20 * EPow P2 (EVar vlmMst1) - #44 * EPow P2
   (EVar vlmMst2)) * EPow P6 (EVar vMst1) - #4 * (#1 + EVar vlmMst2) * EPow P6 (EVar vMst2))) / EPow P4 (EVar vMst2))
   / EPow P2 (EVar vMst1)) + (- #9 * EPow P4 (EVar vs2t) * (#4 * EVar vDmglst2 * (- #2 * (EVar vlmMst1 - #2 * EVar
   vlmMst1 * EVar vlmMst2 + #2 * EPow P2 (EVar vlmMst2)) * EPow P2 (EVar vMst2) * EPow P4 (EVar vMst1) - #2 * (#1 +
   EVar vlmMst1 + #2 * EVar vlmMst1 * EVar vlmMst2 - #2 * EPow P2 (EVar vlmMst2)) * EPow P2 (EVar vMst1) * EPow P4
   (EVar vMst2) + (#1 + #2 * EVar vlmMst1) * EPow P6 (EVar vMst1) + #2 * EVar vlmMst2 * EPow P6 (EVar vMst2)) + EVar
   vMgl * (- #4 * (#14 + #6 * EVar vlmMst2 + EVar vlmMst1 * (#3 + #2 * EVar vlmMst2) - #2 * EPow P2 (EVar vlmMst1)) *
   EPow P2 (EVar vMst2) * EPow P4 (EVar vMst1) - #2 * (- #10 - #16 * EVar vlmMst2 + #2 * EVar vlmMst1 * (#5 + #3 *
   EVar vlmMst2) + EPow P2 (EVar vlmMst1) - #7 * EPow P2 (EVar vlmMst2)) * EPow P2 (EVar vMst1) * EPow P4 (EVar vMst2)
   + (#35 + EVar vlmMst1 * (#34 - #12 * EVar vlmMst2) - #14 * EVar vlmMst2 + #10 * EPow P2 (EVar vlmMst1) + #2 * EPow
   P2 (EVar vlmMst2)) * EPow P6 (EVar vMst1) + #4 * (#1 + EVar vlmMst2) * EPow P6 (EVar vMst2))) - #36 * EVar vs2t *
   EPow P2 (EVar vMt) * EPow P2 (EVar vMuSUSY) * (EVar vMgl * (#4 * (#4 * EVar vMt * (#5 + #6 * EVar vlmMst2 - EVar
   vlmMst1 * (#4 + #3 * EVar vlmMst2) + #3 * EPow P2 (EVar vlmMst2)) + EVar vMst2 * EVar vs2t * (- #1 + #13 * EVar
   vlmMst2 - EVar vlmMst1 * (#13 + #8 * EVar vlmMst2) + EPow P2 (EVar vlmMst1) + #7 * EPow P2 (EVar vlmMst2))) * EPow
   P2 (EVar vMst2) * EPow P4 (EVar vMst1) + #2 * (- (EVar vMst2 * EVar vs2t * (- #14 - #20 * EVar vlmMst2 + #2 * EVar
   vlmMst1 * (#5 + #3 * EVar vlmMst2) + EPow P2 (EVar vlmMst1) - #7 * EPow P2 (EVar vlmMst2))) + #8 * EVar vMt * (#4 +
   #3 * EVar vlmMst2 - EVar vlmMst1 * (#1 + EVar vlmMst2) + EPow P2 (EVar vlmMst2))) * EPow P2 (EVar vMst1) * EPow P4
   (EVar vMst2) + (EVar vMst2 * EVar vs2t * (- #1 + #50 * EVar vlmMst2 - #2 * EVar vlmMst1 * (#25 + #32 * EVar
   vlmMst2) + #20 * EPow P2 (EVar vlmMst1) + #44 * EPow P2 (EVar vlmMst2)) + EVar vMt * (#84 + #152 * EVar vlmMst2 -
   #40 * EVar vlmMst1 * (#3 + #2 * EVar vlmMst2) + #80 * EPow P2 (EVar vlmMst2))) * EPow P6 (EVar vMst1) + #4 * (#1 +
   EVar vlmMst2) * EVar vs2t * EPow P7 (EVar vMst2)) + #4 * EVar vDmglst2 * ((EVar vMst2 * EVar vs2t * (- #5 + #8 *
   EVar vlmMst2 - #4 * EVar vlmMst1 * (#2 + EVar vlmMst2) + #4 * EPow P2 (EVar vlmMst2)) + EVar vMt * (#65 + EVar
   vlmMst1 * (#34 - #20 * EVar vlmMst2) - #26 * EVar vlmMst2 + #20 * EPow P2 (EVar vlmMst2))) * EPow P6 (EVar vMst1) +
   #2 * ((EVar vMst2 * EVar vs2t * (- #2 + #3 * EVar vlmMst2 - EVar vlmMst1 * (#3 + #2 * EVar vlmMst2) + #2 * EPow P2
   (EVar vlmMst2)) + EVar vMt * (#22 + EVar vlmMst1 * (#8 - #6 * EVar vlmMst2) - #4 * EVar vlmMst2 + #6 * EPow P2
   (EVar vlmMst2))) * EPow P2 (EVar vMst2) * EPow P4 (EVar vMst1) + (- (EVar vMst2 * EVar vs2t * (#1 + EVar vlmMst1 -
   #2 * EVar vlmMst2 + #2 * EVar vlmMst1 * EVar vlmMst2 - #2 * EPow P2 (EVar vlmMst2))) + #2 * EVar vMt * (#6 + EVar
   vlmMst1 + EVar vlmMst2 - EVar vlmMst1 * EVar vlmMst2 + EPow P2 (EVar vlmMst2))) * EPow P2 (EVar vMst1) * EPow P4
   (EVar vMst2) + EVar vlmMst2 * EVar vs2t * EPow P7 (EVar vMst2)))) / (EPow P2 (EVar vSbeta) * EPow P5 (EVar vMst2)))
   / EPow P2 (EVar vMst1)) / (#216 * EVar vMgl) + EVar vAl4p * EVar vxDmglst2 * EPow P2 (EVar vDmglst2) * (EVar vAl4p
   * EVar vthreeLoopFlag * ((EDec 21879919341563786 13 + #1360 * EVar vlmMst1 / #9 - #4 * (#50551 + #7200 * EVar
   vlmMst1) * EVar vlmMst2 / #2025 + #16 * (#4997 - #240 * EVar vlmMst1 + #686 * EVar vlmMst2) * EVar vlmMt / #135 -
   #28 * EPow P2 (EVar vlmMst1) / #9 + #16 * (- #311 + #720 * EVar vlmMst1) * EPow P2 (EVar vlmMst2) / #135 + #464 *
   EPow P2 (EVar vlmMt) / #9 + #40 * EVar vDmsqst2 * (#2954 - #864 * EVar vlmMst1 + #1713 * EVar vlmMst2 - #849 * EVar
   vlmMt) / (#81 * EPow P2 (EVar vMsq)) + (#4 * (#360 * EVar vDmsqst2 + (- #788 - #26 * EVar vlmMst2 + #32 * EVar
   vlmMst1 * (- #2 + #3 * EVar vlmMst2) + #177 * EPow P2 (EVar vlmMst2)) * EPow P2 (EVar vMsq)) * EPow P2 (EVar vMst2)
   / (#9 * EPow P2 (EVar vMst1)) + EPow P2 (EVar vMst1) * (#8505000 * EVar vDmsqst2 * (#401 + EVar vlmMst2 * (#274 -
   #4 * EVar vlmMt) - #2 * EVar vlmMst1 * (#71 + #2 * EVar vlmMst2 - #2 * EVar vlmMt) - #132 * EVar vlmMt + #4 * EPow
   P2 (EVar vlmMst2)) + EPow P2 (EVar vMsq) * (- #55610713 + #1448685000 * EVar vlmMt - #37800 * (#1783 + #285 * EVar
   vlmMst2 - #225 * EVar vlmMt) * EPow P2 (EVar vlmMst1) - #18900 * (- #43477 + #930 * EVar vlmMt) * EPow P2 (EVar
   vlmMst2) - #95256000 * EPow P2 (EVar vlmMt) + #3780 * EVar vlmMst1 * (- #75993 + #19265 * EVar vlmMt + #15 * EVar
   vlmMst2 * (- #9947 + #160 * EVar vlmMt) + #5400 * EPow P2 (EVar vlmMst2) + #7200 * EPow P2 (EVar vlmMt)) - #1260 *
   EVar vlmMst2 * (- #297379 + #133245 * EVar vlmMt + #21600 * EPow P2 (EVar vlmMt)) + #756000 * EPow P3 (EVar
   vlmMst1) - #10395000 * EPow P3 (EVar vlmMst2))) / (#637875 * EPow P2 (EVar vMst2))) / EPow P2 (EVar vMsq) - #256 *
   EPow P3 (EVar vlmMst2) / #3 - (EDec 2929938520304849 12 + #55510684 * EVar vlmMst1 / #59535 - #126272 * EPow P2
   (EVar vlmMst1) / #189 - #4 * EVar vlmMst2 * (#42300121 + #12578580 * EVar vlmMst1 + #2487240 * EPow P2 (EVar
   vlmMst1)) / #59535 + #32 * (#10166 - #693 * EVar vlmMst1) * EPow P2 (EVar vlmMst2) / #189 + #8 * EVar vlmMt *
   (#5695 + #1974 * EVar vlmMst2 - #12 * EVar vlmMst1 * (#163 + #47 * EVar vlmMst2) + #468 * EPow P2 (EVar vlmMst1) +
   #96 * EPow P2 (EVar vlmMst2)) / #27 + #128 * (- #5 + #6 * EVar vlmMst1 - #6 * EVar vlmMst2) * EPow P2 (EVar vlmMt)
   / #3 + #256 * EPow P3 (EVar vlmMst1) / #27 + #7424 * EPow P3 (EVar vlmMst2) / #27) * EPow P4 (EVar vMst1) / EPow P4
   (EVar vMst2) - #128 * (- #2 + EVar vlmMst2 + #5 * EPow P2 (EVar vlmMst2)) * EPow P4 (EVar vMst2) / (#9 * EPow P4
   (EVar vMst1)) + (- #63 * EPow P2 (EVar vMuSUSY) * (#24 * EPow P2 (EVar vMst2) * (#50134 - #270 * EConst CB4 + #270
   * EConst CD3 - #135 * EConst CDN + #2160 * EVar vlmMst1 + #120 * (#271 + #24 * EVar vlmMst1) * EVar vlmMst2 - #120
   * EVar vlmMt - #720 * (- #2 + #3 * EVar vlmMst1) * EPow P2 (EVar vlmMst2) + #2160 * EPow P3 (EVar vlmMst2)) + EPow
   P2 (EVar vMst1) * (#3051661 - #12960 * EConst CB4 + #12960 * EConst CD3 - #6480 * EConst CDN + #304320 * EVar
   vlmMst1 + #960 * (#2227 + #285 * EVar vlmMst1) * EVar vlmMst2 + #2880 * (#4 + EVar vlmMst1 - EVar vlmMst2) * EVar
   vlmMt - #2880 * (#23 + #72 * EVar vlmMst1) * EPow P2 (EVar vlmMst2) + #207360 * EPow P3 (EVar vlmMst2))) + #1120 *
   EConst COepS2 * (- #3 * EPow P2 (EVar vMst1) * (#4703 * EPow P2 (EVar vMst2) + #105 * EPow P2 (EVar vMuSUSY)) +
   #11164 * EPow P4 (EVar vMst1) - #819 * EPow P4 (EVar vMst2)) - #54 * EConst CS2 * (#3 * EPow P2 (EVar vMst1) *
   ((#128797 - #1975260 * EVar vlmMst1 + #1975260 * EVar vlmMst2) * EPow P2 (EVar vMst2) - #126 * (#5361 + #350 * EVar
   vlmMst1 - #350 * EVar vlmMst2) * EPow P2 (EVar vMuSUSY)) + (#4002484 + #4688880 * EVar vlmMst1 - #4688880 * EVar
   vlmMst2) * EPow P4 (EVar vMst1) + #189 * (- #4392 * EPow P2 (EVar vMst2) * EPow P2 (EVar vMuSUSY) + (#3869 - #1820
   * EVar vlmMst1 + #1820 * EVar vlmMst2) * EPow P4 (EVar vMst2)))) / (#76545 * EPow P4 (EVar vMst2))) * EPow P4 (EVar
   vMt) + EPow P4 (EVar vs2t) * (- (EPow P2 (EVar vMst1) * EPow P2 (EVar vMst2) * (EDec 30209968449931413 15 - EConst
   CB4 + #4 * EConst CD3 / #3 - #5 * EConst CDN / #6 + #144449 * EVar vlmMst1 / #2700 + #2233 * EPow P2 (EVar vlmMst1)
   / #270 - EVar vlmMst2 * (#165199 + #121010 * EVar vlmMst1 + #51150 * EPow P2 (EVar vlmMst1)) / #2700 + (EDec
   26353703703703705 15 + #202 * EVar vlmMst1 / #9) * EPow P2 (EVar vlmMst2) + #5 * EVar vDmsqst2 * (#75 - #26 * EVar
   vlmMst1 + #26 * EVar vlmMst2) / (#6 * EPow P2 (EVar vMsq)) + #5 * EPow P3 (EVar vlmMst1) / #54 - #97 * EPow P3
   (EVar vlmMst2) / #27)) + (EDec 7958863384550371 14 + #1436147 * EVar vlmMst1 / #1190700 + #1363 * EPow P2 (EVar
   vlmMst1) / #315 + EVar vlmMst2 * (EDec 696052994037121 14 - #101 * EVar vlmMst1 / #315 + #11 * EPow P2 (EVar
   vlmMst1) / #3) - (EDec 7285714285714285 16 + #11 * EVar vlmMst1 / #3) * EPow P2 (EVar vlmMst2) + #5 * EVar vDmsqst2
   * (#76 - #249 * EVar vlmMst1 + #249 * EVar vlmMst2) / (#54 * EPow P2 (EVar vMsq)) - #11 * EPow P3 (EVar vlmMst1) /
   #9 + #11 * EPow P3 (EVar vlmMst2) / #9) * EPow P4 (EVar vMst1) + (EDec 7180550411522634 14 - #25 * EConst CB4 / #9
   + #28 * EConst CD3 / #9 - #31 * EConst CDN / #18 + #229 * EVar vlmMst1 / #9 - #103 * EPow P2 (EVar vlmMst1) / #36 +
   EVar vlmMst2 * (- #1525 - #828 * EVar vlmMst1 + #72 * EPow P2 (EVar vlmMst1)) / #27 - (#13 + #369 * EVar vlmMst1) *
   EPow P2 (EVar vlmMst2) / #18 + #20 * EVar vDmsqst2 * (#1 + EVar vlmMst1 - EVar vlmMst2) / (#3 * EPow P2 (EVar
   vMsq)) + #107 * EPow P3 (EVar vlmMst2) / #6) * EPow P4 (EVar vMst2) - #2 * EConst COepS2 * (#480 * EPow P2 (EVar
   vMst1) * EPow P2 (EVar vMst2) + #8398 * EPow P4 (EVar vMst1) + #315 * EPow P4 (EVar vMst2)) / #2187 + EConst CS2 *
   (#12 * (- #22273 + #1200 * EVar vlmMst1 - #1200 * EVar vlmMst2) * EPow P2 (EVar vMst1) * EPow P2 (EVar vMst2) + #10
   * (#51635 + #25194 * EVar vlmMst1 - #25194 * EVar vlmMst2) * EPow P4 (EVar vMst1) + #27 * (- #116129 + #350 * EVar
   vlmMst1 - #350 * EVar vlmMst2) * EPow P4 (EVar vMst2)) / #1620 + (#360 * EVar vDmsqst2 + (- #980 + #422 * EVar
   vlmMst2 + #32 * EVar vlmMst1 * (- #2 + #3 * EVar vlmMst2) + #817 * EPow P2 (EVar vlmMst2)) * EPow P2 (EVar vMsq)) *
   EPow P6 (EVar vMst2) / (#36 * EPow P2 (EVar vMsq) * EPow P2 (EVar vMst1))) + EVar vMt * EPow P3 (EVar vs2t) *
   (#583200 * EVar vDmsqst2 * (#4 * (#12 - #5 * EVar vlmMst1 + #5 * EVar vlmMst2) * EPow P2 (EVar vMst2) * EPow P4
   (EVar vMst1) - #4 * (#2 + #5 * EVar vlmMst1 - #5 * EVar vlmMst2) * EPow P2 (EVar vMst1) * EPow P4 (EVar vMst2) +
   (#40 - #3 * EVar vlmMst1 + #3 * EVar vlmMst2) * EPow P6 (EVar vMst1)) - EPow P2 (EVar vMsq) * (- #60 * EPow P2
   (EVar vMst2) * (#280885 + #11016 * EConst CB4 + #324 * EConst CDN - #142092 * EVar vlmMst1 - #24544 * EConst COepS2
   + #2808 * (- #32 + #177 * EVar vlmMst1 - #177 * EVar vlmMst2) * EConst CS2 - #31104 * EPow P2 (EVar vlmMst1) + #36
   * EVar vlmMst2 * (#3449 + #72 * EVar vlmMst1 + #432 * EPow P2 (EVar vlmMst1)) - #648 * (#134 + #89 * EVar vlmMst1)
   * EPow P2 (EVar vlmMst2) + #42120 * EPow P3 (EVar vlmMst2)) * EPow P4 (EVar vMst1) + #9 * EPow P2 (EVar vMst1) *
   (#2048393 - #1058400 * EConst CB4 + #23760 * EConst CDN - #1779840 * EVar vlmMst1 + #1120 * EConst COepS2 - #324 *
   (- #1387 + #70 * EVar vlmMst1 - #70 * EVar vlmMst2) * EConst CS2 - #69120 * EPow P2 (EVar vlmMst1) + #1440 * EVar
   vlmMst2 * (- #791 - #108 * EVar vlmMst1 + #24 * EPow P2 (EVar vlmMst1)) + #4320 * (- #30 + #217 * EVar vlmMst1) *
   EPow P2 (EVar vlmMst2) - #972000 * EPow P3 (EVar vlmMst2)) * EPow P4 (EVar vMst2) + (#31897243 - #2491360 * EConst
   COepS2 + #90290268 * EConst CS2 - #360 * EVar vlmMst2 * (#18652 + #140139 * EConst CS2) + #38880 * (#37 - #40 *
   EVar vlmMst2) * EPow P2 (EVar vlmMst1) + #3188160 * EPow P2 (EVar vlmMst2) + #360 * EVar vlmMst1 * (#17410 - #12852
   * EVar vlmMst2 + #140139 * EConst CS2 + #11232 * EPow P2 (EVar vlmMst2)) - #311040 * EPow P3 (EVar vlmMst1) -
   #2177280 * EPow P3 (EVar vlmMst2)) * EPow P6 (EVar vMst1) + #1244160 * (#2 + EVar vlmMst2 - #3 * EPow P2 (EVar
   vlmMst2)) * EPow P6 (EVar vMst2))) / (#87480 * EVar vMst2 * EPow P2 (EVar vMsq) * EPow P2 (EVar vMst1)) + EConst
   CT1ep * (- #2 * EPow P4 (EVar vMst1) * (#8 * EVar vMst2 * EPow P2 (EVar vMt) * EPow P2 (EVar vs2t) * (#4327 * EPow
   P2 (EVar vMuSUSY) * (- #1 + EPow P2 (EVar vSbeta)) + #6921 * EPow P2 (EVar vMst2) * EPow P2 (EVar vSbeta)) - #4 *
   EVar vs2t * (#16421 * EPow P2 (EVar vMuSUSY) * (- #1 + EPow P2 (EVar vSbeta)) + #51460 * EPow P2 (EVar vMst2) *
   EPow P2 (EVar vSbeta)) * EPow P3 (EVar vMt) + #15571 * EVar vMt * EPow P2 (EVar vSbeta) * EPow P3 (EVar vs2t) *
   EPow P4 (EVar vMst2) + #89312 * EVar vMst2 * EPow P2 (EVar vSbeta) * EPow P4 (EVar vMt) - #4199 * EPow P2 (EVar
   vSbeta) * EPow P4 (EVar vs2t) * EPow P5 (EVar vMst2)) + #63 * EPow P4 (EVar vMst2) * (- #4 * EVar vMst2 * EPow P2
   (EVar vMt) * EPow P2 (EVar vs2t) * (#5 * EPow P2 (EVar vMuSUSY) * (- #1 + EPow P2 (EVar vSbeta)) + #18 * EPow P2
   (EVar vMst2) * EPow P2 (EVar vSbeta)) - #4 * EVar vs2t * (EPow P2 (EVar vMuSUSY) * (- #1 + EPow P2 (EVar vSbeta)) +
   #2 * EPow P2 (EVar vMst2) * EPow P2 (EVar vSbeta)) * EPow P3 (EVar vMt) + #2 * EVar vMt * EPow P2 (EVar vSbeta) *
   EPow P3 (EVar vs2t) * EPow P4 (EVar vMst2) + #208 * EVar vMst2 * EPow P2 (EVar vSbeta) * EPow P4 (EVar vMt) + #5 *
   EPow P2 (EVar vSbeta) * EPow P4 (EVar vs2t) * EPow P5 (EVar vMst2)) + #24 * EVar vMst2 * EPow P2 (EVar vMst1) *
   (EPow P2 (EVar vMst2) * EPow P2 (EVar vMt) * EPow P2 (EVar vs2t) * (- #185 * EPow P2 (EVar vMuSUSY) * (- #1 + EPow
   P2 (EVar vSbeta)) - #1791 * EPow P2 (EVar vMst2) * EPow P2 (EVar vSbeta)) + EVar vMst2 * EVar vs2t * (- #1555 *
   EPow P2 (EVar vMuSUSY) * (- #1 + EPow P2 (EVar vSbeta)) - #4307 * EPow P2 (EVar vMst2) * EPow P2 (EVar vSbeta)) *
   EPow P3 (EVar vMt) + (#210 * EPow P2 (EVar vMuSUSY) * (- #1 + EPow P2 (EVar vSbeta)) + #9406 * EPow P2 (EVar vMst2)
   * EPow P2 (EVar vSbeta)) * EPow P4 (EVar vMt) + #767 * EVar vMt * EPow P2 (EVar vSbeta) * EPow P3 (EVar vs2t) *
   EPow P5 (EVar vMst2) + #20 * EPow P2 (EVar vSbeta) * EPow P4 (EVar vs2t) * EPow P6 (EVar vMst2))) / (#729 * EPow P2
   (EVar vSbeta) * EPow P5 (EVar vMst2)) + EPow P2 (EVar vMt) * EPow P2 (EVar vs2t) * (EPow P2 (EVar vMst2) * (EDec
   1491268253968254 12 - #16 * EConst CB4 / #3 + #16 * EConst CD3 / #3 - #8 * EConst CDN / #3 + #608 * EVar vlmMst1 /
   #9 - #32 * EVar vlmMt / #9 + #2 * EVar vlmMst2 * (#13339 + #1206 * EVar vlmMst1 - #288 * EPow P2 (EVar vlmMst1)) /
   #27 + #58 * EPow P2 (EVar vlmMst1) / #3 + #2 * (#473 - #96 * EVar vlmMst1) * EPow P2 (EVar vlmMst2) / #9 - #920 *
   EVar vDmsqst2 / (#9 * EPow P2 (EVar vMsq)) + #128 * EPow P3 (EVar vlmMst2) / #3) + EPow P2 (EVar vMst1) *
   (#273721621 + #420 * EVar vlmMst2 * (#463453 - #3600 * EVar vlmMt) + #9072000 * EVar vlmMt - #6300 * (#289 + #30 *
   EVar vlmMst2) * EPow P2 (EVar vlmMst1) + #840 * EVar vlmMst1 * (#211261 + #90510 * EVar vlmMst2 + #1800 * EVar
   vlmMt - #64575 * EPow P2 (EVar vlmMst2)) - #84886200 * EPow P2 (EVar vlmMst2) + #945000 * EVar vDmsqst2 * (- #113 +
   #6 * EVar vlmMst1 - #6 * EVar vlmMst2) / EPow P2 (EVar vMsq) + #63000 * EPow P3 (EVar vlmMst1) + #54369000 * EPow
   P3 (EVar vlmMst2)) / #425250 - (EDec 17516754355781114 14 - #17578814 * EVar vlmMst1 / #33075 + EVar vlmMst2 *
   (EDec 2577056386999244 13 + #105592 * EVar vlmMst1 / #315 - #208 * EPow P2 (EVar vlmMst1) / #9) - #35576 * EPow P2
   (EVar vlmMst1) / #315 + #16 * (- #4376 + #2555 * EVar vlmMst1) * EPow P2 (EVar vlmMst2) / #315 + #64 * EVar vlmMt *
   (#2 + #5 * EVar vlmMst2 - EVar vlmMst1 * (#5 + #2 * EVar vlmMst2) + EPow P2 (EVar vlmMst1) + EPow P2 (EVar
   vlmMst2)) / #3 + #160 * EVar vDmsqst2 * (#41 - #12 * EVar vlmMst1 + #12 * EVar vlmMst2) / (#27 * EPow P2 (EVar
   vMsq)) + #16 * EPow P3 (EVar vlmMst1) / #27 - #2896 * EPow P3 (EVar vlmMst2) / #27) * EPow P4 (EVar vMst1) / EPow
   P2 (EVar vMst2) - #2 * (#360 * EVar vDmsqst2 + (- #820 + #166 * EVar vlmMst2 + #32 * EVar vlmMst1 * (- #2 + #3 *
   EVar vlmMst2) + #337 * EPow P2 (EVar vlmMst2)) * EPow P2 (EVar vMsq)) * EPow P4 (EVar vMst2) / (#9 * EPow P2 (EVar
   vMsq) * EPow P2 (EVar vMst1)) - EPow P2 (EVar vMuSUSY) * (EDec 9077757201646091 14 - #100 * EConst CB4 / #9 + #112
   * EConst CD3 / #9 - #62 * EConst CDN / #9 + #788 * EVar vlmMst1 / #9 - #103 * EPow P2 (EVar vlmMst1) / #9 + #16 *
   EVar vlmMst2 * (- #241 - #171 * EVar vlmMst1 + #18 * EPow P2 (EVar vlmMst1)) / #27 + (EDec 12533333333333333 14 -
   #82 * EVar vlmMst1) * EPow P2 (EVar vlmMst2) + #80 * EVar vDmsqst2 * (#4 + EVar vlmMst1 - EVar vlmMst2) / (#3 *
   EPow P2 (EVar vMsq)) + (#360 * EVar vDmsqst2 + (- #852 + #358 * EVar vlmMst2 + #32 * EVar vlmMst1 * (- #2 + #3 *
   EVar vlmMst2) + #497 * EPow P2 (EVar vlmMst2)) * EPow P2 (EVar vMsq)) * EPow P2 (EVar vMst2) / (#9 * EPow P2 (EVar
   vMsq) * EPow P2 (EVar vMst1)) + #214 * EPow P3 (EVar vlmMst2) / #3 + EPow P2 (EVar vMst1) * (EDec 15538193689986284
   14 - #164 * EConst CB4 / #9 + #176 * EConst CD3 / #9 - #94 * EConst CDN / #9 - #21449 * EVar vlmMst1 / #675 - #7556
   * EPow P2 (EVar vlmMst1) / #135 + EVar vlmMst2 * (- #54451 - #22990 * EVar vlmMst1 + #65550 * EPow P2 (EVar
   vlmMst1)) / #675 + #2 * (#6077 - #17130 * EVar vlmMst1) * EPow P2 (EVar vlmMst2) / #135 + #10 * EVar vDmsqst2 * (-
   #23 + #42 * EVar vlmMst1 - #42 * EVar vlmMst2) / (#3 * EPow P2 (EVar vMsq)) - #10 * EPow P3 (EVar vlmMst1) / #27 +
   #4240 * EPow P3 (EVar vlmMst2) / #27) / EPow P2 (EVar vMst2) + (EDec 5851892843532082 13 - #8 * EConst CB4 / #3 +
   #32 * EConst CD3 / #9 - #20 * EConst CDN / #9 - #20109937 * EVar vlmMst1 / #297675 - #15886 * EPow P2 (EVar
   vlmMst1) / #945 + EVar vlmMst2 * (EDec 17112243218274966 15 - #144628 * EVar vlmMst1 / #945 + #1180 * EPow P2 (EVar
   vlmMst1) / #9) + (EDec 16985608465608465 14 - #2632 * EVar vlmMst1 / #9) * EPow P2 (EVar vlmMst2) - #92 * EPow P3
   (EVar vlmMst1) / #27 + #4448 * EPow P3 (EVar vlmMst2) / #27) * EPow P4 (EVar vMst1) / EPow P4 (EVar vMst2) - #32 *
   (- #2 + EVar vlmMst2 + #5 * EPow P2 (EVar vlmMst2)) * EPow P4 (EVar vMst2) / (#9 * EPow P4 (EVar vMst1))) - EConst
   CS2 * ((EDec 8072952380952381 13 + #796 * EVar vlmMst1 - #796 * EVar vlmMst2) * EPow P2 (EVar vMst1) + (EDec
   5960571428571428 13 + #84 * EVar vlmMst1 - #84 * EVar vlmMst2) * EPow P2 (EVar vMst2) + #4 * (#28283 + #23070 *
   EVar vlmMst1 - #23070 * EVar vlmMst2) * EPow P4 (EVar vMst1) / (#45 * EPow P2 (EVar vMst2)) - EPow P2 (EVar
   vMuSUSY) * (#6 * (#1089707 - #5550 * EVar vlmMst1 + #5550 * EVar vlmMst2) * EPow P2 (EVar vMst1) * EPow P2 (EVar
   vMst2) + #40 * (#93919 - #12981 * EVar vlmMst1 + #12981 * EVar vlmMst2) * EPow P4 (EVar vMst1) + #27 * (#116129 -
   #350 * EVar vlmMst1 + #350 * EVar vlmMst2) * EPow P4 (EVar vMst2)) / (#405 * EPow P4 (EVar vMst2))) + #64 * (- #2 +
   EVar vlmMst2 + #5 * EPow P2 (EVar vlmMst2)) * EPow P6 (EVar vMst2) / (#9 * EPow P4 (EVar vMst1)) + #8 * EConst
   COepS2 * (#4 * (#6921 * EPow P2 (EVar vMst2) + #4327 * EPow P2 (EVar vMuSUSY)) * EPow P4 (EVar vMst1) + #6 * EPow
   P2 (EVar vMst1) * (#185 * EPow P2 (EVar vMst2) * EPow P2 (EVar vMuSUSY) + #1791 * EPow P4 (EVar vMst2)) + #63 * (#5
   * EPow P2 (EVar vMuSUSY) * EPow P4 (EVar vMst2) + #18 * EPow P6 (EVar vMst2))) / (#2187 * EPow P4 (EVar vMst2))) -
   EVar vMuSUSY * (EVar vs2t * EPow P3 (EVar vMt) * (EDec 3314980952380952 12 - #32 * EConst CB4 / #3 + #32 * EConst
   CD3 / #3 - #16 * EConst CDN / #3 + #1472 * EVar vlmMst1 / #9 - #64 * EVar vlmMt / #9 + EVar vlmMst2 * (EDec
   19165925925925926 13 + #136 * EVar vlmMst1 - #128 * EPow P2 (EVar vlmMst1) / #3) + #116 * EPow P2 (EVar vlmMst1) /
   #3 + #32 * (#37 - #12 * EVar vlmMst1) * EPow P2 (EVar vlmMst2) / #9 - #3280 * EVar vDmsqst2 / (#9 * EPow P2 (EVar
   vMsq)) - #4 * (#360 * EVar vDmsqst2 + (- #756 + #134 * EVar vlmMst2 + #32 * EVar vlmMst1 * (- #2 + #3 * EVar
   vlmMst2) + #177 * EPow P2 (EVar vlmMst2)) * EPow P2 (EVar vMsq)) * EPow P2 (EVar vMst2) / (#9 * EPow P2 (EVar vMsq)
   * EPow P2 (EVar vMst1)) + #256 * EPow P3 (EVar vlmMst2) / #3 + EPow P2 (EVar vMst1) * (EDec 4623658770135215 12 -
   #32 * EConst CB4 / #3 + #32 * EConst CD3 / #3 - #16 * EConst CDN / #3 + #2028488 * EVar vlmMst1 / #2025 + #64 * (#5
   + EVar vlmMst1 - EVar vlmMst2) * EVar vlmMt / #9 + #8 * EVar vlmMst2 * (#715964 + #124935 * EVar vlmMst1 - #11025 *
   EPow P2 (EVar vlmMst1)) / #2025 + #4064 * EPow P2 (EVar vlmMst1) / #135 - #8 * (#4517 + #5025 * EVar vlmMst1) *
   EPow P2 (EVar vlmMst2) / #135 + #40 * EVar vDmsqst2 * (- #65 + #2 * EVar vlmMst1 - #2 * EVar vlmMst2) / (#3 * EPow
   P2 (EVar vMsq)) + #8 * EPow P3 (EVar vlmMst1) / #27 + #9208 * EPow P3 (EVar vlmMst2) / #27) / EPow P2 (EVar vMst2)
   + (EDec 6228225754358181 13 - #64 * EConst CB4 / #9 + #64 * EConst CD3 / #9 - #32 * EConst CDN / #9 + #29853268 *
   EVar vlmMst1 / #19845 + #38704 * EPow P2 (EVar vlmMst1) / #189 + #4 * EVar vlmMst2 * (#2917823 - #3813600 * EVar
   vlmMst1 + #97020 * EPow P2 (EVar vlmMst1)) / #19845 + #16 * (#8677 - #5439 * EVar vlmMst1) * EPow P2 (EVar vlmMst2)
   / #189 - #128 * EVar vlmMt * (#4 + #6 * EVar vlmMst2 - #2 * EVar vlmMst1 * (#3 + EVar vlmMst2) + EPow P2 (EVar
   vlmMst1) + EPow P2 (EVar vlmMst2)) / #3 - #16 * EPow P3 (EVar vlmMst1) / #9 + #1328 * EPow P3 (EVar vlmMst2) / #3)
   * EPow P4 (EVar vMst1) / EPow P4 (EVar vMst2) + #128 * (- #2 + EVar vlmMst2 + #5 * EPow P2 (EVar vlmMst2)) * EPow
   P4 (EVar vMst2) / (#9 * EPow P4 (EVar vMst1)) + (#32 * EConst COepS2 * (#660 * EPow P2 (EVar vMst1) * EPow P2 (EVar
   vMst2) + #1838 * EPow P4 (EVar vMst1) + #63 * EPow P4 (EVar vMst2)) / #243 - #4 * EConst CS2 * (#12 * (#18419 +
   #11550 * EVar vlmMst1 - #11550 * EVar vlmMst2) * EPow P2 (EVar vMst1) * EPow P2 (EVar vMst2) + #28 * (#17269 +
   #13785 * EVar vlmMst1 - #13785 * EVar vlmMst2) * EPow P4 (EVar vMst1) + #27 * (#3477 + #490 * EVar vlmMst1 - #490 *
   EVar vlmMst2) * EPow P4 (EVar vMst2)) / #315) / EPow P4 (EVar vMst2)) - EPow P2 (EVar vMt) * EPow P2 (EVar vs2t) *
   (EPow P2 (EVar vMst1) * (EDec 13960072016460904 14 - #1048 * EConst CB4 / #3 + #20 * EConst CDN / #3 - #6938 * EVar
   vlmMst1 / #27 + #128 * EPow P2 (EVar vlmMst1) / #3 - #2 * EVar vlmMst2 * (#7619 + #720 * EVar vlmMst1 + #288 * EPow
   P2 (EVar vlmMst1)) / #27 + #8 * (#4 + #153 * EVar vlmMst1) * EPow P2 (EVar vlmMst2) / #3 + #800 * EVar vDmsqst2 *
   (- #1 + EVar vlmMst1 - EVar vlmMst2) / EPow P2 (EVar vMsq) - #1160 * EPow P3 (EVar vlmMst2) / #3) / EVar vMst2 +
   EVar vMst2 * (EDec 7175533950617285 13 - #980 * EConst CB4 / #3 + #22 * EConst CDN / #3 - #1648 * EVar vlmMst1 / #3
   - #64 * EPow P2 (EVar vlmMst1) / #3 + #4 * EVar vlmMst2 * (- #695 - #108 * EVar vlmMst1 + #24 * EPow P2 (EVar
   vlmMst1)) / #9 + #28 * (- #18 + #31 * EVar vlmMst1) * EPow P2 (EVar vlmMst2) / #3 + #80 * EVar vDmsqst2 * (#2 + #5
   * EVar vlmMst1 - #5 * EVar vlmMst2) / EPow P2 (EVar vMsq) - #300 * EPow P3 (EVar vlmMst2)) + #128 * (#2 + EVar
   vlmMst2 - #3 * EPow P2 (EVar vlmMst2)) * EPow P3 (EVar vMst2) / (#3 * EPow P2 (EVar vMst1)) + (EDec
   1033594170096022 12 - #592 * EConst CB4 / #3 + #8 * EConst CDN / #3 + #35140 * EVar vlmMst1 / #81 + #92 * EPow P2
   (EVar vlmMst1) / #3 - #2 * EVar vlmMst2 * (#28667 - #5238 * EVar vlmMst1 + #3024 * EPow P2 (EVar vlmMst1)) / #81 +
   #8 * (- #60 + #157 * EVar vlmMst1) * EPow P2 (EVar vlmMst2) / #3 + #20 * EVar vDmsqst2 * (- #80 + #43 * EVar
   vlmMst1 - #43 * EVar vlmMst2) / EPow P2 (EVar vMsq) - #32 * EPow P3 (EVar vlmMst1) / #3 - #1000 * EPow P3 (EVar
   vlmMst2) / #3) * EPow P4 (EVar vMst1) / EPow P3 (EVar vMst2) + (- #4 * EConst COepS2 * (- #9267 * EPow P2 (EVar
   vMst1) * EPow P2 (EVar vMst2) + #23734 * EPow P4 (EVar vMst1) - #63 * EPow P4 (EVar vMst2)) / #729 + EConst CS2 *
   (#3 * (#29123 - #92670 * EVar vlmMst1 + #92670 * EVar vlmMst2) * EPow P2 (EVar vMst1) * EPow P2 (EVar vMst2) + #2 *
   (#525961 + #356010 * EVar vlmMst1 - #356010 * EVar vlmMst2) * EPow P4 (EVar vMst1) + #27 * (#1387 - #70 * EVar
   vlmMst1 + #70 * EVar vlmMst2) * EPow P4 (EVar vMst2)) / #270) / EPow P3 (EVar vMst2)) + EPow P4 (EVar vMt) *
   (#907200 * EVar vDmsqst2 * EPow P2 (EVar vMst2) * ((- #497 + #306 * EVar vlmMst1 - #609 * EVar vlmMst2 + #303 *
   EVar vlmMt) * EPow P2 (EVar vMst1) + (- #101 + #90 * EVar vlmMst1 - #177 * EVar vlmMst2 + #87 * EVar vlmMt) * EPow
   P2 (EVar vMst2)) / EPow P2 (EVar vMsq) + #24 * EPow P2 (EVar vMst1) * EPow P2 (EVar vMst2) * (#2848907 - #10515960
   * EVar vlmMt + #605920 * EConst COepS2 + #11406852 * EConst CS2 + #1890 * EVar vlmMst2 * (#8232 - #203 * EVar vlmMt
   + #6492 * EConst CS2) - #90720 * (- #3 + EVar vlmMst2) * EPow P2 (EVar vlmMst1) - #1890 * EVar vlmMst1 * (#3460 -
   #281 * EVar vlmMt + EVar vlmMst2 * (#689 + #96 * EVar vlmMt) + #6492 * EConst CS2 - #438 * EPow P2 (EVar vlmMst2))
   + #1890 * (#347 + #96 * EVar vlmMt) * EPow P2 (EVar vlmMst2) + #226800 * EPow P2 (EVar vlmMt) - #737100 * EPow P3
   (EVar vlmMst2)) + #140 * (#5659217 + #1592460 * EVar vlmMt - #518816 * EConst COepS2 + #9976392 * EConst CS2 - #972
   * (#569 + #180 * EVar vlmMst2 - #126 * EVar vlmMt) * EPow P2 (EVar vlmMst1) + #324 * (#5353 + #126 * EVar vlmMt) *
   EPow P2 (EVar vlmMst2) - #186624 * EPow P2 (EVar vlmMt) + #72 * EVar vlmMst1 * (- #27653 - #3015 * EVar vlmMt - #18
   * EVar vlmMst2 * (#689 + #126 * EVar vlmMt) + #145917 * EConst CS2 + #2160 * EPow P2 (EVar vlmMst2) + #2592 * EPow
   P2 (EVar vlmMt)) - #36 * EVar vlmMst2 * (- #39031 - #3204 * EVar vlmMt + #291834 * EConst CS2 + #5184 * EPow P2
   (EVar vlmMt)) + #1944 * EPow P3 (EVar vlmMst1) + #17496 * EPow P3 (EVar vlmMst2)) * EPow P4 (EVar vMst1) - #9 *
   (#7152121 + #4616640 * EVar vlmMt - #7840 * EConst COepS2 + #17640 * EVar vlmMst2 * (- #1256 + #60 * EVar vlmMt -
   #9 * EConst CS2) - #3032964 * EConst CS2 - #241920 * (- #2 + EVar vlmMst2) * EPow P2 (EVar vlmMst1) + #7560 * EVar
   vlmMst1 * (#1136 - #128 * EVar vlmMt + #16 * EVar vlmMst2 * (#21 + #4 * EVar vlmMt) + #21 * EConst CS2 - #164 *
   EPow P2 (EVar vlmMst2)) - #30240 * (#107 + #16 * EVar vlmMt) * EPow P2 (EVar vlmMst2) + #120960 * EPow P2 (EVar
   vlmMt) + #1481760 * EPow P3 (EVar vlmMst2)) * EPow P4 (EVar vMst2) + #8709120 * (#2 + EVar vlmMst2 - #3 * EPow P2
   (EVar vlmMst2)) * EPow P6 (EVar vMst2) / EPow P2 (EVar vMst1)) / (#153090 * EPow P5 (EVar vMst2)) + EVar vMt * (#2
   * EConst CT1ep * (#3 * EPow P2 (EVar vMst1) * EPow P2 (EVar vMst2) * (- #15840 * EVar vMst2 * EVar vs2t * EPow P2
   (EVar vMt) + #9267 * EVar vMt * EPow P2 (EVar vMst2) * EPow P2 (EVar vs2t) - #17312 * EPow P3 (EVar vMt) + #530 *
   EPow P3 (EVar vMst2) * EPow P3 (EVar vs2t)) + #2 * (- #66168 * EVar vMst2 * EVar vs2t * EPow P2 (EVar vMt) - #35601
   * EVar vMt * EPow P2 (EVar vMst2) * EPow P2 (EVar vs2t) + #129704 * EPow P3 (EVar vMt) + #12664 * EPow P3 (EVar
   vMst2) * EPow P3 (EVar vs2t)) * EPow P4 (EVar vMst1) + #63 * (- #72 * EVar vMst2 * EVar vs2t * EPow P2 (EVar vMt) +
   #3 * EVar vMt * EPow P2 (EVar vMst2) * EPow P2 (EVar vs2t) - #4 * EPow P3 (EVar vMt) + #10 * EPow P3 (EVar vMst2) *
   EPow P3 (EVar vs2t)) * EPow P4 (EVar vMst2)) / (#729 * EPow P5 (EVar vMst2)) + EPow P3 (EVar vs2t) * (EPow P2 (EVar
   vMst2) * (EDec 18544423868312757 14 - #100 * EConst CB4 / #9 + #112 * EConst CD3 / #9 - #62 * EConst CDN / #9 +
   #284 * EVar vlmMst1 / #3 - #103 * EPow P2 (EVar vlmMst1) / #9 + #2 * EVar vlmMst2 * (- #2465 - #1512 * EVar vlmMst1
   + #144 * EPow P2 (EVar vlmMst1)) / #27 + (EDec 7011111111111111 14 - #82 * EVar vlmMst1) * EPow P2 (EVar vlmMst2) +
   #40 * EVar vDmsqst2 * (#5 + #2 * EVar vlmMst1 - #2 * EVar vlmMst2) / (#3 * EPow P2 (EVar vMsq)) + #214 * EPow P3
   (EVar vlmMst2) / #3) + EPow P2 (EVar vMst1) * (EDec 6460436488340191 14 - #64 * EConst CB4 / #9 + #64 * EConst CD3
   / #9 - #32 * EConst CDN / #9 - #80549 * EVar vlmMst1 / #675 - #6011 * EPow P2 (EVar vlmMst1) / #135 + EVar vlmMst2
   * (#41949 + #45410 * EVar vlmMst1 + #58350 * EPow P2 (EVar vlmMst1)) / #675 - #2 * (#2383 + #11595 * EVar vlmMst1)
   * EPow P2 (EVar vlmMst2) / #135 + #10 * EVar vDmsqst2 * (- #55 + #34 * EVar vlmMst1 - #34 * EVar vlmMst2) / (#3 *
   EPow P2 (EVar vMsq)) - #10 * EPow P3 (EVar vlmMst1) / #27 + #2314 * EPow P3 (EVar vlmMst2) / #27) + (EDec
   4077379592503276 13 - #2740559 * EVar vlmMst1 / #59535 + #866 * EPow P2 (EVar vlmMst1) / #189 + EVar vlmMst2 *
   (EDec 36477181489879904 15 - #4840 * EVar vlmMst1 / #189 + #208 * EPow P2 (EVar vlmMst1) / #3) + (EDec
   21026455026455025 15 - #1136 * EVar vlmMst1 / #9) * EPow P2 (EVar vlmMst2) + #10 * EVar vDmsqst2 * (- #419 + #57 *
   EVar vlmMst1 - #57 * EVar vlmMst2) / (#27 * EPow P2 (EVar vMsq)) - #112 * EPow P3 (EVar vlmMst1) / #27 + #1648 *
   EPow P3 (EVar vlmMst2) / #27) * EPow P4 (EVar vMst1) / EPow P2 (EVar vMst2) - (EDec 10177777777777777 14 + #32 *
   EVar vlmMst1 * (#2 - #3 * EVar vlmMst2) / #9 - #130 * EVar vlmMst2 / #3 - #73 * EPow P2 (EVar vlmMst2) - #40 * EVar
   vDmsqst2 / EPow P2 (EVar vMsq)) * EPow P4 (EVar vMst2) / EPow P2 (EVar vMst1) - (#159 * (#200 * EConst COepS2 + #27
   * (#21401 - #150 * EVar vlmMst1 + #150 * EVar vlmMst2) * EConst CS2) * EPow P2 (EVar vMst1) * EPow P2 (EVar vMst2)
   + #20 * (#25328 * EConst COepS2 + #27 * (#47051 - #18996 * EVar vlmMst1 + #18996 * EVar vlmMst2) * EConst CS2) *
   EPow P4 (EVar vMst1) + #9 * (#1400 * EConst COepS2 + #81 * (#116129 - #350 * EVar vlmMst1 + #350 * EVar vlmMst2) *
   EConst CS2) * EPow P4 (EVar vMst2)) / (#10935 * EPow P2 (EVar vMst2)) - #32 * (- #2 + EVar vlmMst2 + #5 * EPow P2
   (EVar vlmMst2)) * EPow P6 (EVar vMst2) / (#9 * EPow P4 (EVar vMst1))))) / EVar vTbeta - EVar vs2t * EPow P3 (EVar
   vMt) * (#9 * EVar vMst2 * (#6779161 + #4495680 * EVar vlmMt + #5040 * EVar vlmMst2 * (- #4309 + #210 * EVar vlmMt)
   - #241920 * (- #2 + EVar vlmMst2) * EPow P2 (EVar vlmMst1) - #30240 * (#195 + #16 * EVar vlmMt) * EPow P2 (EVar
   vlmMst2) - #30240 * EVar vlmMst1 * (- #4 * (#75 - #8 * EVar vlmMt + EVar vlmMst2 * (#19 + #4 * EVar vlmMt)) + #41 *
   EPow P2 (EVar vlmMst2)) + #120960 * EPow P2 (EVar vlmMt) + #50400 * EVar vDmsqst2 * (#289 - #180 * EVar vlmMst1 +
   #354 * EVar vlmMst2 - #174 * EVar vlmMt) / EPow P2 (EVar vMsq) + #1481760 * EPow P3 (EVar vlmMst2)) - #8709120 *
   (#2 + EVar vlmMst2 - #3 * EPow P2 (EVar vlmMst2)) * EPow P3 (EVar vMst2) / EPow P2 (EVar vMst1) + (- #3 * EPow P2
   (EVar vMst1) * (#21772800 * EVar vDmsqst2 * (- #7 + #3 * EVar vlmMst1 - #6 * EVar vlmMst2 + #3 * EVar vlmMt) + EPow
   P2 (EVar vMsq) * (#79386499 - #72455040 * EVar vlmMt + #52920 * EVar vlmMst2 * (#1095 + #2 * EVar vlmMt) - #725760
   * (- #5 + #2 * EVar vlmMst2) * EPow P2 (EVar vlmMst1) - #4460400 * EPow P2 (EVar vlmMst2) + #7560 * EVar vlmMst1 *
   (- #3601 - #370 * EVar vlmMst2 + #178 * EVar vlmMt + #384 * EPow P2 (EVar vlmMst2)) + #2177280 * EPow P2 (EVar
   vlmMt) - #1451520 * EPow P3 (EVar vlmMst2))) / EVar vMst2 + #28 * (#72900 * EVar vDmsqst2 * (#465 + EVar vlmMst2 *
   (#374 - #12 * EVar vlmMt) - #4 * EVar vlmMst1 * (#52 + #3 * EVar vlmMst2 - #3 * EVar vlmMt) - #166 * EVar vlmMt +
   #12 * EPow P2 (EVar vlmMst2)) - EPow P2 (EVar vMsq) * (#20964397 + #4563540 * EVar vlmMt - #9720 * (#266 + #74 *
   EVar vlmMst2 - #55 * EVar vlmMt) * EPow P2 (EVar vlmMst1) + #3240 * (#1493 + #39 * EVar vlmMt) * EPow P2 (EVar
   vlmMst2) - #180 * EVar vlmMst1 * (#32857 + #11844 * EVar vlmMt + #18 * EVar vlmMst2 * (#485 + #204 * EVar vlmMt) -
   #1674 * EPow P2 (EVar vlmMst2) - #3888 * EPow P2 (EVar vlmMt)) + #1440 * EVar vlmMst2 * (#1181 + #1332 * EVar vlmMt
   - #486 * EPow P2 (EVar vlmMt)) - #466560 * EPow P2 (EVar vlmMt) + #9720 * EPow P3 (EVar vlmMst1) + #408240 * EPow
   P3 (EVar vlmMst2))) * EPow P4 (EVar vMst1) / EPow P3 (EVar vMst2)) / EPow P2 (EVar vMsq) - #153090 * EPow P2 (EVar
   vMuSUSY) * (#256 * EVar vMst2 * (#2 + EVar vlmMst2 - #3 * EPow P2 (EVar vlmMst2)) / (#9 * EPow P2 (EVar vMst1)) +
   (EDec 5352578189300411 13 - #1960 * EConst CB4 / #9 + #44 * EConst CDN / #9 - #3296 * EVar vlmMst1 / #9 - #128 *
   EPow P2 (EVar vlmMst1) / #9 + #8 * EVar vlmMst2 * (- #599 - #108 * EVar vlmMst1 + #24 * EPow P2 (EVar vlmMst1)) /
   #27 + #8 * (- #222 + #217 * EVar vlmMst1) * EPow P2 (EVar vlmMst2) / #9 + #160 * EVar vDmsqst2 * (#2 + #5 * EVar
   vlmMst1 - #5 * EVar vlmMst2) / (#3 * EPow P2 (EVar vMsq)) - #200 * EPow P3 (EVar vlmMst2)) / EVar vMst2 + EPow P2
   (EVar vMst1) * (EDec 6283249657064472 13 - #1352 * EConst CB4 / #3 + #28 * EConst CDN / #3 - #43540 * EVar vlmMst1
   / #81 + #128 * EPow P2 (EVar vlmMst1) / #9 - #4 * EVar vlmMst2 * (#11213 + #1368 * EVar vlmMst1 + #144 * EPow P2
   (EVar vlmMst1)) / #81 + #8 * (- #214 + #523 * EVar vlmMst1) * EPow P2 (EVar vlmMst2) / #9 + #160 * EVar vDmsqst2 *
   (- #8 + #15 * EVar vlmMst1 - #15 * EVar vlmMst2) / (#3 * EPow P2 (EVar vMsq)) - #4120 * EPow P3 (EVar vlmMst2) /
   #9) / EPow P3 (EVar vMst2) + (EDec 634115454961134 12 - #3416 * EConst CB4 / #9 + #52 * EConst CDN / #9 + #111356 *
   EVar vlmMst1 / #243 + #8 * EPow P2 (EVar vlmMst1) / #9 - #8 * EVar vlmMst2 * (#36802 - #11421 * EVar vlmMst1 +
   #1728 * EPow P2 (EVar vlmMst1)) / #243 + #344 * (- #14 + #15 * EVar vlmMst1) * EPow P2 (EVar vlmMst2) / #9 - #64 *
   EPow P3 (EVar vlmMst1) / #9 - #1528 * EPow P3 (EVar vlmMst2) / #3) * EPow P4 (EVar vMst1) / EPow P5 (EVar vMst2)) +
   (- #560 * EConst COepS2 * (- #2 * (#51460 * EPow P2 (EVar vMst2) + #16421 * EPow P2 (EVar vMuSUSY)) * EPow P4 (EVar
   vMst1) + #63 * (#2 * EPow P2 (EVar vMst2) + EPow P2 (EVar vMuSUSY)) * EPow P4 (EVar vMst2) + #6 * EPow P2 (EVar
   vMst1) * (#1555 * EPow P2 (EVar vMst2) * EPow P2 (EVar vMuSUSY) + #4307 * EPow P4 (EVar vMst2))) - #54 * EConst CS2
   * (#14 * (#8 * (#220117 + #192975 * EVar vlmMst1 - #192975 * EVar vlmMst2) * EPow P2 (EVar vMst2) + #5 * (#123113 +
   #98526 * EVar vlmMst1 - #98526 * EVar vlmMst2) * EPow P2 (EVar vMuSUSY)) * EPow P4 (EVar vMst1) + #6 * EPow P2
   (EVar vMst1) * (#7 * (#20803 - #46650 * EVar vlmMst1 + #46650 * EVar vlmMst2) * EPow P2 (EVar vMst2) * EPow P2
   (EVar vMuSUSY) + (#760703 - #904470 * EVar vlmMst1 + #904470 * EVar vlmMst2) * EPow P4 (EVar vMst2)) + #27 * (#7 *
   (#1387 - #70 * EVar vlmMst1 + #70 * EVar vlmMst2) * EPow P2 (EVar vMuSUSY) * EPow P4 (EVar vMst2) + (#18722 - #980
   * EVar vlmMst1 + #980 * EVar vlmMst2) * EPow P6 (EVar vMst2)))) / EPow P5 (EVar vMst2)) / #153090 + EPow P2 (EVar
   vMt) * (#5 * EVar vDmsqst2 * (- #1081 + #165 * EVar vlmMst1 - #165 * EVar vlmMst2) * EPow P2 (EVar vs2t) * (- #2 +
   EPow P2 (EVar vSbeta)) * EPow P2 (EVar vSbeta) * EPow P4 (EVar vMst1) / (#9 * EPow P2 (EVar vMsq) * EPow P2 (EVar
   vMst2)) + EPow P2 (EVar vMuSUSY) * (EPow P2 (EVar vMt) * (#24 * EPow P2 (EVar vMst2) * (#50134 - #270 * EConst CB4
   + #270 * EConst CD3 - #135 * EConst CDN + #2160 * EVar vlmMst1 + #120 * (#271 + #24 * EVar vlmMst1) * EVar vlmMst2
   - #120 * EVar vlmMt - #29646 * EConst CS2 - #720 * (- #2 + #3 * EVar vlmMst1) * EPow P2 (EVar vlmMst2) + #2160 *
   EPow P3 (EVar vlmMst2)) + EPow P2 (EVar vMst1) * (#3051661 - #12960 * EConst CB4 + #12960 * EConst CD3 - #6480 *
   EConst CDN + #304320 * EVar vlmMst1 + #960 * (#2227 + #285 * EVar vlmMst1) * EVar vlmMst2 + #2880 * (#4 + EVar
   vlmMst1 - EVar vlmMst2) * EVar vlmMt + #5600 * EConst COepS2 - #324 * (#5361 + #350 * EVar vlmMst1 - #350 * EVar
   vlmMst2) * EConst CS2 - #2880 * (#23 + #72 * EVar vlmMst1) * EPow P2 (EVar vlmMst2) + #207360 * EPow P3 (EVar
   vlmMst2))) / (#1215 * EPow P4 (EVar vMst2)) + EPow P2 (EVar vs2t) * (EDec 9077757201646091 14 - #100 * EConst CB4 /
   #9 + #112 * EConst CD3 / #9 - #62 * EConst CDN / #9 + #788 * EVar vlmMst1 / #9 - #103 * EPow P2 (EVar vlmMst1) / #9
   + #16 * EVar vlmMst2 * (- #241 - #171 * EVar vlmMst1 + #18 * EPow P2 (EVar vlmMst1)) / #27 + (EDec
   12533333333333333 14 - #82 * EVar vlmMst1) * EPow P2 (EVar vlmMst2) + #80 * EVar vDmsqst2 * (#4 + EVar vlmMst1 -
   EVar vlmMst2) / (#3 * EPow P2 (EVar vMsq)) + (#360 * EVar vDmsqst2 + (- #852 + #358 * EVar vlmMst2 + #32 * EVar
   vlmMst1 * (- #2 + #3 * EVar vlmMst2) + #497 * EPow P2 (EVar vlmMst2)) * EPow P2 (EVar vMsq)) * EPow P2 (EVar vMst2)
   / (#9 * EPow P2 (EVar vMsq) * EPow P2 (EVar vMst1)) + #214 * EPow P3 (EVar vlmMst2) / #3 + EPow P2 (EVar vMst1) *
   (EDec 15538193689986284 14 - #164 * EConst CB4 / #9 + #176 * EConst CD3 / #9 - #94 * EConst CDN / #9 - #21449 *
   EVar vlmMst1 / #675 - #7556 * EPow P2 (EVar vlmMst1) / #135 + EVar vlmMst2 * (- #54451 - #22990 * EVar vlmMst1 +
   #65550 * EPow P2 (EVar vlmMst1)) / #675 + #2 * (#6077 - #17130 * EVar vlmMst1) * EPow P2 (EVar vlmMst2) / #135 +
   #10 * EVar vDmsqst2 * (- #23 + #42 * EVar vlmMst1 - #42 * EVar vlmMst2) / (#3 * EPow P2 (EVar vMsq)) - #10 * EPow
   P3 (EVar vlmMst1) / #27 + #4240 * EPow P3 (EVar vlmMst2) / #27) / EPow P2 (EVar vMst2) + (EDec 5851892843532082 13
   - #8 * EConst CB4 / #3 + #32 * EConst CD3 / #9 - #20 * EConst CDN / #9 - #20109937 * EVar vlmMst1 / #297675 -
   #15886 * EPow P2 (EVar vlmMst1) / #945 + EVar vlmMst2 * (EDec 17112243218274966 15 - #144628 * EVar vlmMst1 / #945
   + #1180 * EPow P2 (EVar vlmMst1) / #9) + #2 * (#80257 - #138180 * EVar vlmMst1) * EPow P2 (EVar vlmMst2) / #945 -
   #92 * EPow P3 (EVar vlmMst1) / #27 + #4448 * EPow P3 (EVar vlmMst2) / #27) * EPow P4 (EVar vMst1) / EPow P4 (EVar
   vMst2) - #32 * (- #2 + EVar vlmMst2 + #5 * EPow P2 (EVar vlmMst2)) * EPow P4 (EVar vMst2) / (#9 * EPow P4 (EVar
   vMst1)) - (#6 * (#7400 * EConst COepS2 + #27 * (#1089707 - #5550 * EVar vlmMst1 + #5550 * EVar vlmMst2) * EConst
   CS2) * EPow P2 (EVar vMst1) * EPow P2 (EVar vMst2) + #40 * (#17308 * EConst COepS2 + #27 * (#93919 - #12981 * EVar
   vlmMst1 + #12981 * EVar vlmMst2) * EConst CS2) * EPow P4 (EVar vMst1) + #9 * (#1400 * EConst COepS2 + #81 *
   (#116129 - #350 * EVar vlmMst1 + #350 * EVar vlmMst2) * EConst CS2) * EPow P4 (EVar vMst2)) / (#10935 * EPow P4
   (EVar vMst2))) + EVar vMt * EVar vs2t * (#160 * EVar vDmsqst2 * ((#8 - #15 * EVar vlmMst1 + #15 * EVar vlmMst2) *
   EPow P2 (EVar vMst1) + (- #2 - #5 * EVar vlmMst1 + #5 * EVar vlmMst2) * EPow P2 (EVar vMst2)) / (#3 * EPow P2 (EVar
   vMsq) * EPow P3 (EVar vMst2)) - (#6 * EPow P2 (EVar vMst2) * (#4580489 - #3285360 * EConst CB4 + #68040 * EConst
   CDN - #3918600 * EVar vlmMst1 + #248800 * EConst COepS2 - #108 * (- #20803 + #46650 * EVar vlmMst1 - #46650 * EVar
   vlmMst2) * EConst CS2 + #103680 * EPow P2 (EVar vlmMst1) - #360 * EVar vlmMst2 * (#11213 + #1368 * EVar vlmMst1 +
   #144 * EPow P2 (EVar vlmMst1)) + #6480 * (- #214 + #523 * EVar vlmMst1) * EPow P2 (EVar vlmMst2) - #3337200 * EPow
   P3 (EVar vlmMst2)) * EPow P4 (EVar vMst1) + #9 * EPow P2 (EVar vMst1) * (#2601353 - #1058400 * EConst CB4 + #23760
   * EConst CDN - #1779840 * EVar vlmMst1 + #1120 * EConst COepS2 - #324 * (- #1387 + #70 * EVar vlmMst1 - #70 * EVar
   vlmMst2) * EConst CS2 - #69120 * EPow P2 (EVar vlmMst1) + #1440 * EVar vlmMst2 * (- #599 - #108 * EVar vlmMst1 +
   #24 * EPow P2 (EVar vlmMst1)) + #4320 * (- #222 + #217 * EVar vlmMst1) * EPow P2 (EVar vlmMst2) - #972000 * EPow P3
   (EVar vlmMst2)) * EPow P4 (EVar vMst2) + #10 * (#2773621 - #1660176 * EConst CB4 + #25272 * EConst CDN + #2004408 *
   EVar vlmMst1 - #525472 * EConst COepS2 + #108 * (#123113 + #98526 * EVar vlmMst1 - #98526 * EVar vlmMst2) * EConst
   CS2 + #3888 * EPow P2 (EVar vlmMst1) - #144 * EVar vlmMst2 * (#36802 - #11421 * EVar vlmMst1 + #1728 * EPow P2
   (EVar vlmMst1)) + #167184 * (- #14 + #15 * EVar vlmMst1) * EPow P2 (EVar vlmMst2) - #31104 * EPow P3 (EVar vlmMst1)
   - #2227824 * EPow P3 (EVar vlmMst2)) * EPow P6 (EVar vMst1) + #1244160 * (#2 + EVar vlmMst2 - #3 * EPow P2 (EVar
   vlmMst2)) * EPow P6 (EVar vMst2)) / (#43740 * EPow P2 (EVar vMst1) * EPow P5 (EVar vMst2)))) / EPow P2 (EVar
   vSbeta))) + EVar vtwoLoopFlag * (#36 * EVar vMt * EPow P3 (EVar vs2t) * (#4 * (#3 - EVar vlmMst1 * (- #2 + EVar
   vlmMst2) - #4 * EVar vlmMst2 + EPow P2 (EVar vlmMst2)) * EPow P2 (EVar vMst1) * EPow P2 (EVar vMst2) + (#7 - #6 *
   EVar vlmMst1 + #6 * EVar vlmMst2) * EPow P4 (EVar vMst1) + #4 * (#14 - EVar vlmMst1 * (- #2 + EVar vlmMst2) + EPow
   P2 (EVar vlmMst2)) * EPow P4 (EVar vMst2)) / EVar vMst2 + #32 * EPow P4 (EVar vMt) * (- #9 * (- #27 - #19 * EVar
   vlmMst2 + #2 * EVar vlmMst1 * (#6 + EVar vlmMst2 - EVar vlmMt) + #7 * EVar vlmMt + #2 * EVar vlmMst2 * EVar vlmMt -
   #2 * EPow P2 (EVar vlmMst2)) * EPow P2 (EVar vMst2) * EPow P4 (EVar vMst1) + (- #2 + #9 * EVar vlmMst1 + #3 * EVar
   vlmMst2 + #15 * EVar vlmMt) * EPow P2 (EVar vMst1) * EPow P4 (EVar vMst2) + #27 * (#23 + #38 * EVar vlmMst2 - #9 *
   EVar vlmMt - #6 * EVar vlmMst2 * EVar vlmMt + EVar vlmMst1 * (- #29 - #6 * EVar vlmMst2 + #6 * EVar vlmMt) + #6 *
   EPow P2 (EVar vlmMst2)) * EPow P6 (EVar vMst1) + #9 * (- #2 + #3 * EVar vlmMst2) * EPow P6 (EVar vMst2)) / (EPow P2
   (EVar vMst1) * EPow P4 (EVar vMst2)) + #8 * EVar vs2t * EPow P3 (EVar vMt) * (#9 * (#4 * (- #28 - #41 * EVar
   vlmMst2 + EVar vlmMst1 * (#31 + #6 * EVar vlmMst2 - #6 * EVar vlmMt) + #10 * EVar vlmMt + #6 * EVar vlmMst2 * EVar
   vlmMt - #6 * EPow P2 (EVar vlmMst2)) * EPow P2 (EVar vMst2) + (- #199 + #26 * EVar vlmMst2 + EVar vlmMst1 * (- #34
   + #20 * EVar vlmMst2) - #20 * EPow P2 (EVar vlmMst2)) * EPow P2 (EVar vMuSUSY)) * EPow P4 (EVar vMst1) + #36 * (-
   #14 + EVar vlmMst1 * (- #2 + EVar vlmMst2) - EPow P2 (EVar vlmMst2)) * EPow P2 (EVar vMuSUSY) * EPow P4 (EVar
   vMst2) + #36 * EPow P2 (EVar vMst1) * ((- #31 + #3 * EVar vlmMst1 * (- #2 + EVar vlmMst2) + #4 * EVar vlmMst2 - #3
   * EPow P2 (EVar vlmMst2)) * EPow P2 (EVar vMst2) * EPow P2 (EVar vMuSUSY) + (- #13 + #2 * EVar vlmMst1 - #4 * EVar
   vlmMst2 + #2 * EVar vlmMt) * EPow P4 (EVar vMst2)) + #2 * (#161 + #36 * EVar vlmMst1 * (- #2 + EVar vlmMst2) + #78
   * EVar vlmMst2 - #6 * EVar vlmMt - #36 * EPow P2 (EVar vlmMst2)) * EPow P6 (EVar vMst2)) / EPow P5 (EVar vMst2) +
   #12 * EPow P2 (EVar vMt) * EPow P2 (EVar vs2t) * (#2 * EPow P4 (EVar vMst1) * (#9 * (#4 - EVar vlmMst1 + EVar
   vlmMst2 + #2 * EVar vlmMst1 * EVar vlmMst2 - #2 * EPow P2 (EVar vlmMst2)) * EPow P2 (EVar vMst2) * EPow P2 (EVar
   vMuSUSY) + (- #7 + #6 * EVar vlmMst1 - #24 * EVar vlmMst2) * EPow P4 (EVar vMst2)) + (#12 * (- #4 + #5 * EVar
   vlmMst1 - #5 * EVar vlmMst2) * EPow P2 (EVar vMst2) + #9 * (#9 + #4 * EVar vlmMst1 * (- #1 + EVar vlmMst2) + #4 *
   EVar vlmMst2 - #4 * EPow P2 (EVar vlmMst2)) * EPow P2 (EVar vMuSUSY)) * EPow P6 (EVar vMst1) - #6 * (- #2 + #3 *
   EVar vlmMst2) * (#2 * EPow P2 (EVar vMst2) + EPow P2 (EVar vMuSUSY)) * EPow P6 (EVar vMst2) + #2 * EPow P2 (EVar
   vMst1) * (#3 * (#10 - #3 * EVar vlmMst1 + #6 * EVar vlmMst1 * EVar vlmMst2 - #6 * EPow P2 (EVar vlmMst2)) * EPow P2
   (EVar vMuSUSY) * EPow P4 (EVar vMst2) + (- #23 + #36 * EVar vlmMst2) * EPow P6 (EVar vMst2))) / (EPow P2 (EVar
   vMst1) * EPow P4 (EVar vMst2)) + (#9 * EPow P4 (EVar vs2t) * (- #6 * (- #2 + EVar vlmMst1 - #2 * EVar vlmMst1 *
   EVar vlmMst2 + #2 * EPow P2 (EVar vlmMst2)) * EPow P2 (EVar vMst2) * EPow P4 (EVar vMst1) + #6 * (- #2 + EVar
   vlmMst1 - #2 * EVar vlmMst2 - #2 * EVar vlmMst1 * EVar vlmMst2 + #2 * EPow P2 (EVar vlmMst2)) * EPow P2 (EVar
   vMst1) * EPow P4 (EVar vMst2) + (#1 + #6 * EVar vlmMst1) * EPow P6 (EVar vMst1) + #2 * (- #2 + #3 * EVar vlmMst2) *
   EPow P6 (EVar vMst2)) + #4 * EVar vMt * EVar vMuSUSY * (#9 * EVar vMt * EVar vMuSUSY * EVar vs2t * (- #2 * (#4 *
   EVar vMt * (- #31 + #3 * EVar vlmMst1 * (- #2 + EVar vlmMst2) + #4 * EVar vlmMst2 - #3 * EPow P2 (EVar vlmMst2)) +
   #3 * EVar vMst2 * EVar vs2t * (#4 + EVar vlmMst2 + EVar vlmMst1 * (- #1 + #2 * EVar vlmMst2) - #2 * EPow P2 (EVar
   vlmMst2))) * EPow P2 (EVar vMst2) * EPow P4 (EVar vMst1) - #2 * (EVar vMst2 * EVar vs2t * (#10 + EVar vlmMst1 * (-
   #3 + #6 * EVar vlmMst2) - #6 * EPow P2 (EVar vlmMst2)) + #4 * EVar vMt * (- #14 + EVar vlmMst1 * (- #2 + EVar
   vlmMst2) - EPow P2 (EVar vlmMst2))) * EPow P2 (EVar vMst1) * EPow P4 (EVar vMst2) + (- #3 * EVar vMst2 * EVar vs2t
   * (#9 + #4 * EVar vlmMst1 * (- #1 + EVar vlmMst2) + #4 * EVar vlmMst2 - #4 * EPow P2 (EVar vlmMst2)) + EVar vMt *
   (#398 + EVar vlmMst1 * (#68 - #40 * EVar vlmMst2) - #52 * EVar vlmMst2 + #40 * EPow P2 (EVar vlmMst2))) * EPow P6
   (EVar vMst1) + #2 * (- #2 + #3 * EVar vlmMst2) * EVar vs2t * EPow P7 (EVar vMst2)) / EPow P2 (EVar vSbeta) - (- #2
   * EPow P2 (EVar vMst2) * (#36 * (#3 - EVar vlmMst1 + EVar vlmMst2) * EVar vMst2 * EVar vs2t * EPow P2 (EVar vMt) +
   #54 * EVar vMt * (- #17 + #2 * EVar vlmMst1 * (- #2 + EVar vlmMst2) + #4 * EVar vlmMst2 - #2 * EPow P2 (EVar
   vlmMst2)) * EPow P2 (EVar vMst2) * EPow P2 (EVar vs2t) + #4 * (#29 - #18 * EVar vlmMst1 * (- #1 + EVar vlmMst2) -
   #3 * EVar vlmMst2 - #15 * EVar vlmMt + #18 * EPow P2 (EVar vlmMst2)) * EPow P3 (EVar vMt) + #9 * (#2 + #3 * EVar
   vlmMst2) * EPow P3 (EVar vMst2) * EPow P3 (EVar vs2t)) * EPow P4 (EVar vMst1) + #2 * EPow P2 (EVar vMst1) * (#6 *
   (- #11 + #18 * EVar vlmMst2) * EVar vMst2 * EVar vs2t * EPow P2 (EVar vMt) + #54 * EVar vMt * (#14 - EVar vlmMst1 *
   (- #2 + EVar vlmMst2) + EPow P2 (EVar vlmMst2)) * EPow P2 (EVar vMst2) * EPow P2 (EVar vs2t) + #4 * (#79 + #18 *
   EVar vlmMst1 * (- #2 + EVar vlmMst2) + #39 * EVar vlmMst2 - #3 * EVar vlmMt - #18 * EPow P2 (EVar vlmMst2)) * EPow
   P3 (EVar vMt) - #9 * (#8 + #3 * EVar vlmMst2 + EVar vlmMst1 * (- #3 + #6 * EVar vlmMst2) - #6 * EPow P2 (EVar
   vlmMst2)) * EPow P3 (EVar vMst2) * EPow P3 (EVar vs2t)) * EPow P4 (EVar vMst2) - (#72 * (#7 - #6 * EVar vlmMst1 +
   #6 * EVar vlmMst2) * EVar vMst2 * EVar vs2t * EPow P2 (EVar vMt) - #27 * EVar vMt * (#75 + EVar vlmMst1 * (#10 - #8
   * EVar vlmMst2) - #10 * EVar vlmMst2 + #8 * EPow P2 (EVar vlmMst2)) * EPow P2 (EVar vMst2) * EPow P2 (EVar vs2t) +
   #8 * (#236 + #339 * EVar vlmMst2 - #18 * EVar vlmMst1 * (#13 + #4 * EVar vlmMst2 - #3 * EVar vlmMt) - #3 * (#35 +
   #18 * EVar vlmMst2) * EVar vlmMt + #72 * EPow P2 (EVar vlmMst2)) * EPow P3 (EVar vMt) + #27 * (#1 - #2 * EVar
   vlmMst1 + #2 * EVar vlmMst2) * EPow P3 (EVar vMst2) * EPow P3 (EVar vs2t)) * EPow P6 (EVar vMst1) + #18 * (- #2 +
   #3 * EVar vlmMst2) * EVar vs2t * (- #4 * EPow P2 (EVar vMt) + EPow P2 (EVar vMst2) * EPow P2 (EVar vs2t)) * EPow P7
   (EVar vMst2)) / EVar vTbeta) / EPow P5 (EVar vMst2)) / EPow P2 (EVar vMst1)) / #108) / EPow P2 (EVar vMgl) + EVar
   vthreeLoopFlag * EPow P2 (EVar vAl4p) * (- (EPow P2 (EVar vMt) * EPow P2 (EVar vs2t) * (- #5 * EVar vDmglst2 * EVar
   vDmsqst2 * (- #1081 + #165 * EVar vlmMst1 - #165 * EVar vlmMst2) * (- #2 + EPow P2 (EVar vSbeta)) * EPow P2 (EVar
   vSbeta) * EPow P4 (EVar vMst1) / (#9 * EVar vMgl * EPow P2 (EVar vMsq) * EPow P2 (EVar vMst2)) + EPow P2 (EVar
   vMuSUSY) * (EDec 53385802469135804 15 + #40 * EConst CB4 / #9 - #4 * EConst CD3 / #9 + #2 * EConst CDN / #9 + #1672
   * EVar vlmMst1 / #27 + #53 * EPow P2 (EVar vlmMst1) / #9 - EVar vlmMst2 * (EDec 12992592592592592 14 - #72 * EVar
   vlmMst1 + #13 * EPow P2 (EVar vlmMst1) / #3) + #2 * (- #470 + #147 * EVar vlmMst1) * EPow P2 (EVar vlmMst2) / #9 +
   #16 * EPow P3 (EVar vlmMst1) / #9 + (- #15 * EVar vDmsqst2 * (#288 * EVar vDmglst2 * (#4 + EVar vlmMst1 - EVar
   vlmMst2) + EVar vMgl * (- #1141 + #264 * EVar vlmMst2 + #48 * EVar vlmMst1 * (- #7 + #3 * EVar vlmMst2) - #144 *
   EPow P2 (EVar vlmMst2))) / EPow P2 (EVar vMsq) + EVar vDmglst2 * (- #14267 + #432 * EConst CB4 - #576 * EConst CD3
   + #360 * EConst CDN - #4752 * EVar vlmMst1 + #4536 * EVar vlmMst2 + #16704 * EVar vlmMst1 * EVar vlmMst2 + #1404 *
   EPow P2 (EVar vlmMst1) - #1152 * EVar vlmMst2 * EPow P2 (EVar vlmMst1) - #20232 * EPow P2 (EVar vlmMst2) + #8856 *
   EVar vlmMst1 * EPow P2 (EVar vlmMst2) - #7704 * EPow P3 (EVar vlmMst2))) / (#162 * EVar vMgl) - #271 * EPow P3
   (EVar vlmMst2) / #9 + EPow P2 (EVar vMst1) * (EDec 434270658436214 12 + #76 * EConst CB4 / #9 - #2 * EConst CDN /
   #9 + #69088 * EVar vlmMst1 / #405 - #1313 * EPow P2 (EVar vlmMst1) / #27 - #4 * EVar vlmMst2 * (#16192 - #26430 *
   EVar vlmMst1 + #3465 * EPow P2 (EVar vlmMst1)) / #405 + (- #5735 + #3072 * EVar vlmMst1) * EPow P2 (EVar vlmMst2) /
   #27 + EVar vDmsqst2 * (EDec 20174098765432097 14 + #622 * EVar vlmMst1 / #15 + #2 * (- #311 + #10 * EVar vlmMst1) *
   EVar vlmMst2 / #15 + EVar vDmglst2 * (EDec 7666666666666667 14 - #140 * EVar vlmMst1 + #140 * EVar vlmMst2) / EVar
   vMgl - #22 * EPow P2 (EVar vlmMst1) / #3 + #6 * EPow P2 (EVar vlmMst2)) / EPow P2 (EVar vMsq) - #62 * EPow P3 (EVar
   vlmMst1) / #27 - #2086 * EPow P3 (EVar vlmMst2) / #27 - #2 * EVar vDmglst2 * (#2695042 - #40500 * EConst CB4 +
   #54000 * EConst CD3 - #33750 * EConst CDN - #326895 * EVar vlmMst1 - #324900 * EPow P2 (EVar vlmMst1) + #15 * EVar
   vlmMst2 * (- #19607 - #129030 * EVar vlmMst1 + #62550 * EPow P2 (EVar vlmMst1)) - #450 * (- #5023 + #5610 * EVar
   vlmMst1) * EPow P2 (EVar vlmMst2) + #11250 * EPow P3 (EVar vlmMst1) + #1575000 * EPow P3 (EVar vlmMst2)) / (#30375
   * EVar vMgl)) / EPow P2 (EVar vMst2) + (EDec 6281736268201578 13 + #76 * EConst CB4 / #9 - #2 * EConst CDN / #9 +
   #6317839 * EVar vlmMst1 / #396900 - #66307 * EPow P2 (EVar vlmMst1) / #315 - EVar vlmMst2 * (EDec 1252907281431091
   14 - #182909 * EVar vlmMst1 / #315 + #274 * EPow P2 (EVar vlmMst1) / #3) + #2 * (- #58301 + #37135 * EVar vlmMst1)
   * EPow P2 (EVar vlmMst2) / #315 + EVar vDmsqst2 * (EDec 23728785508324435 14 + #16526 * EVar vlmMst2 / #3969 + #2 *
   EVar vlmMst1 * (- #8263 + #71820 * EVar vlmMst2) / #3969 - #520 * EPow P2 (EVar vlmMst1) / #21 - #80 * EPow P2
   (EVar vlmMst2) / #7) / EPow P2 (EVar vMsq) - #44 * EPow P3 (EVar vlmMst1) / #9 - #1256 * EPow P3 (EVar vlmMst2) /
   #9 - EVar vDmglst2 * (EDec 5851892843532082 13 - #8 * EConst CB4 / #3 + #32 * EConst CD3 / #9 - #20 * EConst CDN /
   #9 - #20109937 * EVar vlmMst1 / #297675 - #15886 * EPow P2 (EVar vlmMst1) / #945 + EVar vlmMst2 * (EDec
   17112243218274966 15 - #144628 * EVar vlmMst1 / #945 + #1180 * EPow P2 (EVar vlmMst1) / #9) + #2 * (#80257 -
   #138180 * EVar vlmMst1) * EPow P2 (EVar vlmMst2) / #945 - #92 * EPow P3 (EVar vlmMst1) / #27 + #4448 * EPow P3
   (EVar vlmMst2) / #27) / EVar vMgl) * EPow P4 (EVar vMst1) / EPow P4 (EVar vMst2) + (- ((#360 * EVar vDmglst2 * EVar
   vDmsqst2 + EVar vDmsqst2 * (#30 - #60 * EVar vlmMst2) * EVar vMgl + EVar vMgl * (#103 + #186 * EVar vlmMst2 + #32 *
   EVar vlmMst1 * (#1 + EVar vlmMst2) + #91 * EPow P2 (EVar vlmMst2)) * EPow P2 (EVar vMsq) + #2 * EVar vDmglst2 * (-
   #20 + #2 * (#99 + #16 * EVar vlmMst1) * EVar vlmMst2 + #123 * EPow P2 (EVar vlmMst2)) * EPow P2 (EVar vMsq)) * EPow
   P2 (EVar vMst2)) / (#9 * EPow P2 (EVar vMsq) * EPow P2 (EVar vMst1)) + #16 * (#1 + EVar vlmMst2) * (#4 * EVar
   vDmglst2 * EVar vlmMst2 + EVar vMgl + EVar vlmMst2 * EVar vMgl) * EPow P4 (EVar vMst2) / (#9 * EPow P4 (EVar
   vMst1)) + (- #30 * EVar vDmsqst2 * EVar vMgl * (#9 * (#104 * EConst COepS2 + #27 * (#17 - #78 * EVar vlmMst1 + #78
   * EVar vlmMst2) * EConst CS2) * EPow P2 (EVar vMst1) * EPow P2 (EVar vMst2) + #13 * (#136 * EConst COepS2 - #27 *
   (#95 + #102 * EVar vlmMst1 - #102 * EVar vlmMst2) * EConst CS2) * EPow P4 (EVar vMst1) + #27 * (#8 * EConst COepS2
   - #81 * (- #15 + #2 * EVar vlmMst1 - #2 * EVar vlmMst2) * EConst CS2) * EPow P4 (EVar vMst2)) + EPow P2 (EVar vMsq)
   * (#3 * EVar vMgl * (- #3 * (#8456 * EConst COepS2 - #81 * (#11243 + #2114 * EVar vlmMst1 - #2114 * EVar vlmMst2) *
   EConst CS2) * EPow P2 (EVar vMst1) * EPow P2 (EVar vMst2) + (- #52948 * EConst COepS2 + #27 * (#194357 + #39711 *
   EVar vlmMst1 - #39711 * EVar vlmMst2) * EConst CS2) * EPow P4 (EVar vMst1) + #27 * (- #184 * EConst COepS2 + #81 *
   (#307 + #46 * EVar vlmMst1 - #46 * EVar vlmMst2) * EConst CS2) * EPow P4 (EVar vMst2)) + #2 * EVar vDmglst2 * (#54
   * (#344 * EConst COepS2 + #9 * (#15643 - #774 * EVar vlmMst1 + #774 * EVar vlmMst2) * EConst CS2) * EPow P2 (EVar
   vMst1) * EPow P2 (EVar vMst2) + #4 * (#17308 * EConst COepS2 + #27 * (#93919 - #12981 * EVar vlmMst1 + #12981 *
   EVar vlmMst2) * EConst CS2) * EPow P4 (EVar vMst1) + #27 * (#56 * EConst COepS2 - #81 * (- #1677 + #14 * EVar
   vlmMst1 - #14 * EVar vlmMst2) * EConst CS2) * EPow P4 (EVar vMst2)))) / (#2187 * EPow P2 (EVar vMsq) * EPow P4
   (EVar vMst2))) / EVar vMgl) / EPow P2 (EVar vSbeta))) + EPow P4 (EVar vs2t) * (- (EPow P2 (EVar vMst1) * EPow P2
   (EVar vMst2) * (EDec 7901365226337448 14 - EConst CB4 / #9 + #2 * EConst CD3 / #9 - EConst CDN / #6 + #4372 * EVar
   vlmMst1 / #405 + EVar vlmMst2 * (#16051 + #22980 * EVar vlmMst1 - #5175 * EPow P2 (EVar vlmMst1)) / #810 - #1631 *
   EPow P2 (EVar vlmMst1) / #108 + (- #92 + #327 * EVar vlmMst1) * EPow P2 (EVar vlmMst2) / #27 - EVar vDmsqst2 *
   (EDec 32221604938271606 16 + #467 * EVar vlmMst1 / #90 - (EDec 3522222222222222 15 + #7 * EVar vlmMst1) * EVar
   vlmMst2 + #5 * EVar vDmglst2 * (- #75 + #26 * EVar vlmMst1 - #26 * EVar vlmMst2) / (#6 * EVar vMgl) + #11 * EPow P2
   (EVar vlmMst1) / #6 + #31 * EPow P2 (EVar vlmMst2) / #6) / EPow P2 (EVar vMsq) - #79 * EPow P3 (EVar vlmMst1) / #54
   + EVar vDmglst2 * (EDec 7822304526748971 16 - #2 * EConst CB4 / #3 + #8 * EConst CD3 / #9 - #5 * EConst CDN / #9 +
   #81193 * EVar vlmMst1 / #4050 + #137 * EPow P2 (EVar vlmMst1) / #135 - EVar vlmMst2 * (#81643 + #86970 * EVar
   vlmMst1 + #48150 * EPow P2 (EVar vlmMst1)) / #4050 + (#4969 + #3840 * EVar vlmMst1) * EPow P2 (EVar vlmMst2) / #270
   - #5 * EPow P3 (EVar vlmMst1) / #27 - #58 * EPow P3 (EVar vlmMst2) / #27) / EVar vMgl - #115 * EPow P3 (EVar
   vlmMst2) / #27)) + (EDec 46745471895783595 15 + EConst CB4 + EConst CD3 / #9 - EConst CDN / #9 + #34838747 * EVar
   vlmMst1 / #529200 + #50723 * EPow P2 (EVar vlmMst1) / #1890 + EVar vlmMst2 * (- #23468297 - #17276980 * EVar
   vlmMst1 + #3601500 * EPow P2 (EVar vlmMst1)) / #529200 + #4 * (#2941 - #2415 * EVar vlmMst1) * EPow P2 (EVar
   vlmMst2) / #945 + EVar vDmsqst2 * (EDec 1513649301931237 14 + #555521 * EVar vlmMst1 / #39690 - (#621671 + #200340
   * EVar vlmMst1) * EVar vlmMst2 / #39690 + #5 * EVar vDmglst2 * (#76 - #249 * EVar vlmMst1 + #249 * EVar vlmMst2) /
   (#54 * EVar vMgl) + #53 * EPow P2 (EVar vlmMst1) / #21 + #53 * EPow P2 (EVar vlmMst2) / #21) / EPow P2 (EVar vMsq)
   - #10 * EPow P3 (EVar vlmMst1) / #27 + #409 * EPow P3 (EVar vlmMst2) / #108 + EVar vDmglst2 * (EDec
   7958863384550371 14 + #8287903 * EVar vlmMst2 / #1190700 + (EDec 4326984126984127 15 + #11 * EVar vlmMst2 / #3) *
   EPow P2 (EVar vlmMst1) + EVar vlmMst1 * (EDec 12061367262954565 16 - #101 * EVar vlmMst2 / #315 - #11 * EPow P2
   (EVar vlmMst2) / #3) - #51 * EPow P2 (EVar vlmMst2) / #70 - #11 * EPow P3 (EVar vlmMst1) / #9 + #11 * EPow P3 (EVar
   vlmMst2) / #9) / EVar vMgl) * EPow P4 (EVar vMst1) - EConst CS2 * (#3 * (#9 * (#5717 + #1286 * EVar vlmMst1 - #1286
   * EVar vlmMst2) * EPow P2 (EVar vMst1) * EPow P2 (EVar vMst2) + #5 * (#3370 + #1077 * EVar vlmMst1 - #1077 * EVar
   vlmMst2) * EPow P4 (EVar vMst1) + #81 * (#307 + #46 * EVar vlmMst1 - #46 * EVar vlmMst2) * EPow P4 (EVar vMst2)) -
   #2 * EVar vDmglst2 * (#36 * (- #275 + #324 * EVar vlmMst1 - #324 * EVar vlmMst2) * EPow P2 (EVar vMst1) * EPow P2
   (EVar vMst2) + (#51635 + #25194 * EVar vlmMst1 - #25194 * EVar vlmMst2) * EPow P4 (EVar vMst1) + #81 * (- #1677 +
   #14 * EVar vlmMst1 - #14 * EVar vlmMst2) * EPow P4 (EVar vMst2)) / EVar vMgl + #30 * EVar vDmsqst2 * (#9 * (#253 +
   #42 * EVar vlmMst1 - #42 * EVar vlmMst2) * EPow P2 (EVar vMst1) * EPow P2 (EVar vMst2) + (#326 + #84 * EVar vlmMst1
   - #84 * EVar vlmMst2) * EPow P4 (EVar vMst1) + #81 * (- #15 + #2 * EVar vlmMst1 - #2 * EVar vlmMst2) * EPow P4
   (EVar vMst2)) / EPow P2 (EVar vMsq)) / #324 + (#27 * (EVar vDmsqst2 * (#8640 * EVar vDmglst2 * (#1 + EVar vlmMst1 -
   EVar vlmMst2) + #30 * EVar vMgl * (- #1213 + #408 * EVar vlmMst2 + #48 * EVar vlmMst1 * (- #7 + #3 * EVar vlmMst2)
   - #144 * EPow P2 (EVar vlmMst2))) + EPow P2 (EVar vMsq) * (- (EVar vMgl * (#25289 + #1440 * EConst CB4 - #144 *
   EConst CD3 + #72 * EConst CDN + #22368 * EVar vlmMst1 + #1908 * EPow P2 (EVar vlmMst1) - #12 * EVar vlmMst2 *
   (#2296 - #2136 * EVar vlmMst1 + #117 * EPow P2 (EVar vlmMst1)) + #504 * (- #53 + #21 * EVar vlmMst1) * EPow P2
   (EVar vlmMst2) + #576 * EPow P3 (EVar vlmMst1) - #9756 * EPow P3 (EVar vlmMst2))) + #2 * EVar vDmglst2 * (#15707 -
   #432 * EConst CB4 + #576 * EConst CD3 - #360 * EConst CDN + #4752 * EVar vlmMst1 - #1404 * EPow P2 (EVar vlmMst1) +
   #72 * EVar vlmMst2 * (- #277 - #264 * EVar vlmMst1 + #16 * EPow P2 (EVar vlmMst1)) - #72 * (- #142 + #123 * EVar
   vlmMst1) * EPow P2 (EVar vlmMst2) + #7704 * EPow P3 (EVar vlmMst2)))) * EPow P4 (EVar vMst2) + #16 * EConst COepS2
   * (#60 * EVar vDmsqst2 * EVar vMgl * (#63 * EPow P2 (EVar vMst1) * EPow P2 (EVar vMst2) + #14 * EPow P4 (EVar
   vMst1) + #27 * EPow P4 (EVar vMst2)) + EPow P2 (EVar vMsq) * (- #4 * EVar vDmglst2 * (#1944 * EPow P2 (EVar vMst1)
   * EPow P2 (EVar vMst2) + #4199 * EPow P4 (EVar vMst1) + #189 * EPow P4 (EVar vMst2)) + #3 * EVar vMgl * (#3858 *
   EPow P2 (EVar vMst1) * EPow P2 (EVar vMst2) + #1795 * EPow P4 (EVar vMst1) + #1242 * EPow P4 (EVar vMst2)))) + #972
   * (#360 * EVar vDmglst2 * EVar vDmsqst2 + EVar vDmsqst2 * (#30 - #60 * EVar vlmMst2) * EVar vMgl + EVar vMgl *
   (#135 + #250 * EVar vlmMst2 + #32 * EVar vlmMst1 * (#1 + EVar vlmMst2) + #123 * EPow P2 (EVar vlmMst2)) * EPow P2
   (EVar vMsq) + #2 * EVar vDmglst2 * (- #20 + (#262 + #32 * EVar vlmMst1) * EVar vlmMst2 + #187 * EPow P2 (EVar
   vlmMst2)) * EPow P2 (EVar vMsq)) * EPow P6 (EVar vMst2) / EPow P2 (EVar vMst1)) / (#34992 * EVar vMgl * EPow P2
   (EVar vMsq))) - EVar vs2t * EPow P3 (EVar vMt) * ((#622080 * (#1 + EVar vlmMst2) * (- EVar vDmglst2 + #3 * EVar
   vDmglst2 * EVar vlmMst2 + EVar vMgl + EVar vlmMst2 * EVar vMgl) * EPow P3 (EVar vMst2) / EPow P2 (EVar vMst1) +
   (#27 * EVar vMst2 * (#2400 * EVar vDmglst2 * EVar vDmsqst2 * (#289 - #180 * EVar vlmMst1 + #354 * EVar vlmMst2 -
   #174 * EVar vlmMt) + #21600 * EVar vDmsqst2 * (#7 + #4 * EVar vlmMst1 - #10 * EVar vlmMst2 + #6 * EVar vlmMt) *
   EVar vMgl - #5 * EVar vDmglst2 * EPow P2 (EVar vMsq) * (#30183 + EVar vlmMst2 * (#67184 - #4704 * EVar vlmMt) +
   #45408 * EVar vlmMt + #2304 * (- #1 + EVar vlmMst2) * EPow P2 (EVar vlmMst1) + #96 * (#199 + #48 * EVar vlmMt) *
   EPow P2 (EVar vlmMst2) + #288 * EVar vlmMst1 * (- #30 + #16 * EVar vlmMt - #2 * EVar vlmMst2 * (#5 + #8 * EVar
   vlmMt) + #41 * EPow P2 (EVar vlmMst2)) - #14112 * EPow P3 (EVar vlmMst2)) + #9 * EVar vMgl * EPow P2 (EVar vMsq) *
   (#20253 - #4160 * EVar vlmMt - #80 * EVar vlmMst2 * (#13 + #66 * EVar vlmMt) - #1280 * (#1 + EVar vlmMst2) * EPow
   P2 (EVar vlmMst1) + #160 * (#155 - #16 * EVar vlmMt) * EPow P2 (EVar vlmMst2) - #160 * EVar vlmMst1 * (#54 + #2 *
   EVar vlmMst2 * (#61 - #8 * EVar vlmMt) - #16 * EVar vlmMt + #41 * EPow P2 (EVar vlmMst2)) - #3840 * EPow P2 (EVar
   vlmMt) + #7840 * EPow P3 (EVar vlmMst2))) - #9 * EPow P2 (EVar vMst1) * (#1036800 * EVar vDmglst2 * EVar vDmsqst2 *
   (- #7 + #3 * EVar vlmMst1 - #6 * EVar vlmMst2 + #3 * EVar vlmMt) + #259200 * EVar vDmsqst2 * (#3 - #2 * EVar
   vlmMst1 + #4 * EVar vlmMst2 - #2 * EVar vlmMt) * EVar vMgl + #3 * EVar vDmglst2 * EPow P2 (EVar vMsq) * (#322421 +
   #414720 * EVar vlmMt - #2880 * (#21 + #12 * EVar vlmMst2 - #4 * EVar vlmMt) * EPow P2 (EVar vlmMst1) + #480 *
   (#1097 - #24 * EVar vlmMt) * EPow P2 (EVar vlmMst2) - #69120 * EPow P2 (EVar vlmMt) - #160 * EVar vlmMst2 * (-
   #2852 + #231 * EVar vlmMt + #216 * EPow P2 (EVar vlmMt)) + #160 * EVar vlmMst1 * (- #2969 - #2211 * EVar vlmMst2 -
   #39 * EVar vlmMt + #72 * EPow P2 (EVar vlmMst2) + #216 * EPow P2 (EVar vlmMt)) + #23040 * EPow P3 (EVar vlmMst2)) -
   EVar vMgl * EPow P2 (EVar vMsq) * (#1156193 + #198720 * EVar vlmMt - #6480 * EVar vlmMst2 * (#21 + #16 * EVar vlmMt
   * (#1 + EVar vlmMt)) + #8640 * (- #13 + #4 * EVar vlmMst2 + #4 * EVar vlmMt) * EPow P2 (EVar vlmMst1) + #17280 *
   (#51 - #2 * EVar vlmMt) * EPow P2 (EVar vlmMst2) - #2160 * EVar vlmMst1 * (#295 + #360 * EVar vlmMst2 - #52 * EVar
   vlmMt + #112 * EPow P2 (EVar vlmMst2) - #48 * EPow P2 (EVar vlmMt)) + #207360 * EPow P3 (EVar vlmMst2))) / EVar
   vMst2 + #4 * (#72900 * EVar vDmsqst2 * (EVar vMgl * (- #35 - #50 * EVar vlmMst2 + #4 * EVar vlmMst1 * (#8 + EVar
   vlmMst2 - EVar vlmMt) + #18 * EVar vlmMt + #4 * EVar vlmMst2 * EVar vlmMt - #4 * EPow P2 (EVar vlmMst2)) + EVar
   vDmglst2 * (#465 + #374 * EVar vlmMst2 - #4 * EVar vlmMst1 * (#52 + #3 * EVar vlmMst2 - #3 * EVar vlmMt) - #166 *
   EVar vlmMt - #12 * EVar vlmMst2 * EVar vlmMt + #12 * EPow P2 (EVar vlmMst2))) + EPow P2 (EVar vMsq) * (#3 * EVar
   vMgl * (#2016907 + #110160 * EVar vlmMt + #1080 * (#565 - #3 * EVar vlmMt) * EPow P2 (EVar vlmMst2) - #1080 *
   ((#158 - #6 * EVar vlmMst2 - #39 * EVar vlmMt) * EPow P2 (EVar vlmMst1) + EVar vlmMst1 * (#421 + #60 * EVar vlmMt +
   EVar vlmMst2 * (#413 + #36 * EVar vlmMt) + #129 * EPow P2 (EVar vlmMst2) - #72 * EPow P2 (EVar vlmMt)) + EVar
   vlmMst2 * (#167 - #66 * EVar vlmMt + #72 * EPow P2 (EVar vlmMt))) + #1080 * EPow P3 (EVar vlmMst1) + #131760 * EPow
   P3 (EVar vlmMst2)) - EVar vDmglst2 * (#20964397 + #4563540 * EVar vlmMt - #9720 * (#266 + #74 * EVar vlmMst2 - #55
   * EVar vlmMt) * EPow P2 (EVar vlmMst1) + #3240 * (#1493 + #39 * EVar vlmMt) * EPow P2 (EVar vlmMst2) - #180 * EVar
   vlmMst1 * (#32857 + #11844 * EVar vlmMt + #18 * EVar vlmMst2 * (#485 + #204 * EVar vlmMt) - #1674 * EPow P2 (EVar
   vlmMst2) - #3888 * EPow P2 (EVar vlmMt)) + #1440 * EVar vlmMst2 * (#1181 + #1332 * EVar vlmMt - #486 * EPow P2
   (EVar vlmMt)) - #466560 * EPow P2 (EVar vlmMt) + #9720 * EPow P3 (EVar vlmMst1) + #408240 * EPow P3 (EVar
   vlmMst2)))) * EPow P4 (EVar vMst1) / EPow P3 (EVar vMst2)) / EPow P2 (EVar vMsq)) / EVar vMgl + #21870 * EPow P2
   (EVar vMuSUSY) * ((#128 * (#1 + EVar vlmMst2) * (- EVar vDmglst2 + #3 * EVar vDmglst2 * EVar vlmMst2 + EVar vMgl +
   EVar vlmMst2 * EVar vMgl) * EVar vMst2 / (#9 * EPow P2 (EVar vMst1)) - (#86400 * EVar vDmsqst2 * (EVar vDmglst2 *
   (#2 + #5 * EVar vlmMst1 - #5 * EVar vlmMst2) + (- #1 - EVar vlmMst1 + EVar vlmMst2) * EVar vMgl) + EPow P2 (EVar
   vMsq) * (- #45 * EVar vMgl * (#9561 + #1760 * EConst CB4 - #16 * EConst CDN - #1984 * EVar vlmMst1 - #256 * EPow P2
   (EVar vlmMst1) - #64 * EVar vlmMst2 * (- #214 + #73 * EVar vlmMst1 + #4 * EPow P2 (EVar vlmMst1)) - #32 * (- #268 +
   #57 * EVar vlmMst1) * EPow P2 (EVar vlmMst2) + #2080 * EPow P3 (EVar vlmMst2)) - EVar vDmglst2 * (#23917 + #188640
   * EConst CB4 - #3600 * EConst CDN - #37440 * EVar vlmMst1 + #11520 * EPow P2 (EVar vlmMst1) - #2880 * EVar vlmMst2
   * (- #237 + #55 * EVar vlmMst1 + #4 * EPow P2 (EVar vlmMst1)) - #1440 * (- #280 + #121 * EVar vlmMst1) * EPow P2
   (EVar vlmMst2) + #185760 * EPow P3 (EVar vlmMst2)))) / (#1620 * EVar vMst2 * EPow P2 (EVar vMsq))) / EVar vMgl +
   EPow P2 (EVar vMst1) * (EDec 6219670781893004 13 + #1016 * EConst CB4 / #9 - #4 * EConst CDN / #9 - #2476 * EVar
   vlmMst1 / #9 - #176 * EPow P2 (EVar vlmMst1) / #9 + #4 * EVar vlmMst2 * (#1427 - #1012 * EVar vlmMst1 + #16 * EPow
   P2 (EVar vlmMst1)) / #9 + #8 * (#642 - #203 * EVar vlmMst1) * EPow P2 (EVar vlmMst2) / #9 + #520 * EPow P3 (EVar
   vlmMst2) / #3 + (#160 * EVar vDmsqst2 * (EVar vDmglst2 * (#8 - #15 * EVar vlmMst1 + #15 * EVar vlmMst2) + (#1 + #3
   * EVar vlmMst1 - #3 * EVar vlmMst2) * EVar vMgl) / (#3 * EPow P2 (EVar vMsq)) + EVar vDmglst2 * (#248 * EConst CB4
   - #4 * EConst CDN + (#66761 + #898740 * EVar vlmMst2 + #2160 * (#11 + #4 * EVar vlmMst2) * EPow P2 (EVar vlmMst1) +
   #520560 * EPow P2 (EVar vlmMst2) - #180 * EVar vlmMst1 * (#1141 + #1956 * EVar vlmMst2 + #1986 * EPow P2 (EVar
   vlmMst2)) + #348840 * EPow P3 (EVar vlmMst2)) / #1215)) / EVar vMgl) / EPow P3 (EVar vMst2) + (#1702429 + #257904 *
   EConst CB4 - #648 * EConst CDN - #748656 * EVar vlmMst1 + #41904 * EPow P2 (EVar vlmMst1) + #216 * EVar vlmMst2 *
   (#5971 - #6106 * EVar vlmMst1 + #576 * EPow P2 (EVar vlmMst1)) + #41904 * (#34 - #15 * EVar vlmMst1) * EPow P2
   (EVar vlmMst2) - #3456 * EPow P3 (EVar vlmMst1) - #1458 * EVar vDmglst2 * (EDec 634115454961134 12 - #3416 * EConst
   CB4 / #9 + #52 * EConst CDN / #9 + #111356 * EVar vlmMst1 / #243 + #8 * EPow P2 (EVar vlmMst1) / #9 - #8 * EVar
   vlmMst2 * (#36802 - #11421 * EVar vlmMst1 + #1728 * EPow P2 (EVar vlmMst1)) / #243 + #344 * (- #14 + #15 * EVar
   vlmMst1) * EPow P2 (EVar vlmMst2) / #9 - #64 * EPow P3 (EVar vlmMst1) / #9 - #1528 * EPow P3 (EVar vlmMst2) / #3) /
   EVar vMgl + #507600 * EPow P3 (EVar vlmMst2)) * EPow P4 (EVar vMst1) / (#1458 * EPow P5 (EVar vMst2))) + (#2 * EVar
   vDmglst2 * (#2 * (#8 * (#257300 * EConst COepS2 - #27 * (#220117 + #192975 * EVar vlmMst1 - #192975 * EVar vlmMst2)
   * EConst CS2) * EPow P2 (EVar vMst2) + #5 * (#131368 * EConst COepS2 - #27 * (#123113 + #98526 * EVar vlmMst1 -
   #98526 * EVar vlmMst2) * EConst CS2) * EPow P2 (EVar vMuSUSY)) * EPow P4 (EVar vMst1) + #27 * (#50 * (#56 * EConst
   COepS2 - #81 * (- #27 + #14 * EVar vlmMst1 - #14 * EVar vlmMst2) * EConst CS2) * EPow P2 (EVar vMst2) + (#1400 *
   EConst COepS2 - #81 * (- #453 + #350 * EVar vlmMst1 - #350 * EVar vlmMst2) * EConst CS2) * EPow P2 (EVar vMuSUSY))
   * EPow P4 (EVar vMst2) + #18 * EPow P2 (EVar vMst1) * (#4 * (#5060 * EConst COepS2 - #27 * (#2489 + #3795 * EVar
   vlmMst1 - #3795 * EVar vlmMst2) * EConst CS2) * EPow P2 (EVar vMst2) * EPow P2 (EVar vMuSUSY) + #3 * (#18440 *
   EConst COepS2 - #9 * (#15691 + #41490 * EVar vlmMst1 - #41490 * EVar vlmMst2) * EConst CS2) * EPow P4 (EVar
   vMst2))) - #6 * EVar vMgl * (#2 * (#8 * (#13700 * EConst COepS2 - #27 * (#16297 + #10275 * EVar vlmMst1 - #10275 *
   EVar vlmMst2) * EConst CS2) * EPow P2 (EVar vMst2) + #5 * (#7528 * EConst COepS2 - #27 * (#9185 + #5646 * EVar
   vlmMst1 - #5646 * EVar vlmMst2) * EConst CS2) * EPow P2 (EVar vMuSUSY)) * EPow P4 (EVar vMst1) + #135 * (#56 *
   EConst COepS2 + #81 * (#1 - #14 * EVar vlmMst1 + #14 * EVar vlmMst2) * EConst CS2) * EPow P2 (EVar vMuSUSY) * EPow
   P4 (EVar vMst2) + #6 * EPow P2 (EVar vMst1) * (#10 * (#544 * EConst COepS2 - #81 * (#169 + #136 * EVar vlmMst1 -
   #136 * EVar vlmMst2) * EConst CS2) * EPow P2 (EVar vMst2) * EPow P2 (EVar vMuSUSY) + (#15080 * EConst COepS2 - #81
   * (#4367 + #3770 * EVar vlmMst1 - #3770 * EVar vlmMst2) * EConst CS2) * EPow P4 (EVar vMst2)) + #54 * (#280 *
   EConst COepS2 - #81 * (- #79 + #70 * EVar vlmMst1 - #70 * EVar vlmMst2) * EConst CS2) * EPow P6 (EVar vMst2))) /
   (EVar vMgl * EPow P5 (EVar vMst2))) / #21870 + EVar vMt * EPow P3 (EVar vs2t) * (#583200 * EVar vDmsqst2 * EPow P2
   (EVar vMst1) * (EVar vDmglst2 * (#4 * (#12 - #5 * EVar vlmMst1 + #5 * EVar vlmMst2) * EPow P2 (EVar vMst1) * EPow
   P2 (EVar vMst2) + (#40 - #3 * EVar vlmMst1 + #3 * EVar vlmMst2) * EPow P4 (EVar vMst1) - #4 * (#2 + #5 * EVar
   vlmMst1 - #5 * EVar vlmMst2) * EPow P4 (EVar vMst2)) + EVar vMgl * (#4 * (- #1 + EVar vlmMst1 - EVar vlmMst2) *
   EPow P2 (EVar vMst1) * EPow P2 (EVar vMst2) + (- #4 + EVar vlmMst1 - EVar vlmMst2) * EPow P4 (EVar vMst1) + #4 *
   (#1 + EVar vlmMst1 - EVar vlmMst2) * EPow P4 (EVar vMst2))) + EPow P2 (EVar vMsq) * (EVar vDmglst2 * (#18 * EPow P2
   (EVar vMst2) * (#27211 + #36720 * EConst CB4 + #1080 * EConst CDN - #298440 * EVar vlmMst1 + #64160 * EConst COepS2
   - #108 * (#14033 + #12030 * EVar vlmMst1 - #12030 * EVar vlmMst2) * EConst CS2 + #12960 * EPow P2 (EVar vlmMst1) +
   #360 * EVar vlmMst2 * (- #503 - #636 * EVar vlmMst1 + #144 * EPow P2 (EVar vlmMst1)) - #2160 * (#30 + #89 * EVar
   vlmMst1) * EPow P2 (EVar vlmMst2) + #140400 * EPow P3 (EVar vlmMst2)) * EPow P4 (EVar vMst1) + #27 * EPow P2 (EVar
   vMst1) * (#69997 + #188640 * EConst CB4 - #3600 * EConst CDN - #37440 * EVar vlmMst1 + #5600 * EConst COepS2 - #324
   * (- #453 + #350 * EVar vlmMst1 - #350 * EVar vlmMst2) * EConst CS2 + #11520 * EPow P2 (EVar vlmMst1) - #2880 *
   EVar vlmMst2 * (- #205 + #55 * EVar vlmMst1 + #4 * EPow P2 (EVar vlmMst1)) - #1440 * (- #184 + #121 * EVar vlmMst1)
   * EPow P2 (EVar vlmMst2) + #185760 * EPow P3 (EVar vlmMst2)) * EPow P4 (EVar vMst2) - (#31897243 - #2491360 *
   EConst COepS2 + #90290268 * EConst CS2 - #360 * EVar vlmMst2 * (#18652 + #140139 * EConst CS2) + #38880 * (#37 -
   #40 * EVar vlmMst2) * EPow P2 (EVar vlmMst1) + #3188160 * EPow P2 (EVar vlmMst2) + #360 * EVar vlmMst1 * (#17410 -
   #12852 * EVar vlmMst2 + #140139 * EConst CS2 + #11232 * EPow P2 (EVar vlmMst2)) - #311040 * EPow P3 (EVar vlmMst1)
   - #2177280 * EPow P3 (EVar vlmMst2)) * EPow P6 (EVar vMst1) + #622080 * (- #1 + #2 * EVar vlmMst2 + #3 * EPow P2
   (EVar vlmMst2)) * EPow P6 (EVar vMst2)) + #15 * EVar vMgl * (#6 * EPow P2 (EVar vMst2) * (#51041 + #7344 * EConst
   CB4 + #216 * EConst CDN - #80136 * EVar vlmMst1 - #2336 * EConst COepS2 + #324 * (#347 + #146 * EVar vlmMst1 - #146
   * EVar vlmMst2) * EConst CS2 - #2592 * EPow P2 (EVar vlmMst1) + #216 * EVar vlmMst2 * (- #221 - #428 * EVar vlmMst1
   + #48 * EPow P2 (EVar vlmMst1)) - #432 * (- #122 + #89 * EVar vlmMst1) * EPow P2 (EVar vlmMst2) + #28080 * EPow P3
   (EVar vlmMst2)) * EPow P4 (EVar vMst1) + #27 * EPow P2 (EVar vMst1) * (#25611 + #5280 * EConst CB4 - #48 * EConst
   CDN - #5952 * EVar vlmMst1 - #224 * EConst COepS2 + #324 * (- #1 + #14 * EVar vlmMst1 - #14 * EVar vlmMst2) *
   EConst CS2 - #768 * EPow P2 (EVar vlmMst1) - #192 * EVar vlmMst2 * (- #182 + #73 * EVar vlmMst1 + #4 * EPow P2
   (EVar vlmMst1)) - #96 * (- #236 + #57 * EVar vlmMst1) * EPow P2 (EVar vlmMst2) + #6240 * EPow P3 (EVar vlmMst2)) *
   EPow P4 (EVar vMst2) + (#551987 - #14048 * EConst COepS2 + #661068 * EConst CS2 - #216 * EVar vlmMst2 * (#46 +
   #1317 * EConst CS2) + #864 * (#205 + #216 * EVar vlmMst2) * EPow P2 (EVar vlmMst1) + #216000 * EPow P2 (EVar
   vlmMst2) - #216 * EVar vlmMst1 * (#248 + #1820 * EVar vlmMst2 - #1317 * EConst CS2 + #1632 * EPow P2 (EVar
   vlmMst2)) - #6912 * EPow P3 (EVar vlmMst1) + #172800 * EPow P3 (EVar vlmMst2)) * EPow P6 (EVar vMst1) + #41472 *
   EPow P2 (#1 + EVar vlmMst2) * EPow P6 (EVar vMst2)))) / (#87480 * EVar vMgl * EVar vMst2 * EPow P2 (EVar vMsq) *
   EPow P2 (EVar vMst1)) + EPow P2 (EVar vMuSUSY) * EPow P3 (EVar vMt) * (#1080 * EVar vDmglst2 * EVar vMt * EPow P2
   (EVar vMst2) * (#72 * EPow P2 (EVar vMst2) * (#180 - #2 * EConst CB4 + #2 * EConst CD3 - EConst CDN + #16 * EVar
   vlmMst1 + #144 * EVar vlmMst2 - #216 * EConst CS2 - #16 * (- #2 + EVar vlmMst1) * EPow P2 (EVar vlmMst2) + #16 *
   EPow P3 (EVar vlmMst2)) + EPow P2 (EVar vMst1) * (#28405 - #288 * EConst CB4 + #288 * EConst CD3 - #144 * EConst
   CDN + #5472 * EVar vlmMst1 - #288 * (- #89 + #2 * EVar vlmMst1) * EVar vlmMst2 + #576 * (- #2 + EVar vlmMst1 - EVar
   vlmMst2) * EVar vlmMt + #224 * EConst COepS2 - #324 * (#65 + #14 * EVar vlmMst1 - #14 * EVar vlmMst2) * EConst CS2
   - #576 * (- #9 + #8 * EVar vlmMst1) * EPow P2 (EVar vlmMst2) + #4608 * EPow P3 (EVar vlmMst2))) + #2332800 * EVar
   vDmsqst2 * EVar vs2t * (EVar vDmglst2 * (#8 - #15 * EVar vlmMst1 + #15 * EVar vlmMst2) * EPow P2 (EVar vMst1) + (#1
   + #3 * EVar vlmMst1 - #3 * EVar vlmMst2) * EVar vMgl * EPow P2 (EVar vMst1) - EVar vDmglst2 * (#2 + #5 * EVar
   vlmMst1 - #5 * EVar vlmMst2) * EPow P2 (EVar vMst2) + (#1 + EVar vlmMst1 - EVar vlmMst2) * EVar vMgl * EPow P2
   (EVar vMst2)) * EPow P3 (EVar vMst2) / EPow P2 (EVar vMsq) + #90 * EVar vMgl * EVar vMt * (#18 * EPow P2 (EVar
   vMst1) * EPow P2 (EVar vMst2) * (#10667 - #96 * EConst CB4 + #96 * EConst CD3 - #48 * EConst CDN - #3072 * EVar
   vlmMst1 - #384 * (- #25 + #9 * EVar vlmMst1) * EVar vlmMst2 - #384 * (- #1 + EVar vlmMst1 - EVar vlmMst2) * EVar
   vlmMt - #224 * EConst COepS2 + #324 * (- #43 + #14 * EVar vlmMst1 - #14 * EVar vlmMst2) * EConst CS2 - #384 * (-
   #13 + #4 * EVar vlmMst1) * EPow P2 (EVar vlmMst2) + #1536 * EPow P3 (EVar vlmMst2)) + (#383185 - #2592 * EConst CB4
   + #2592 * EConst CD3 - #1296 * EConst CDN - #187704 * EVar vlmMst1 - #17440 * EConst COepS2 + #648 * (- #57 + #545
   * EVar vlmMst1 - #545 * EVar vlmMst2) * EConst CS2 - #7992 * EPow P2 (EVar vlmMst1) - #216 * EVar vlmMst2 * (-
   #1733 + #630 * EVar vlmMst1 + #26 * EPow P2 (EVar vlmMst1)) - #216 * (- #859 + #246 * EVar vlmMst1) * EPow P2 (EVar
   vlmMst2) + #3456 * EVar vlmMt * (#3 + #6 * EVar vlmMst2 - #2 * EVar vlmMst1 * (#3 + EVar vlmMst2) + EPow P2 (EVar
   vlmMst1) + EPow P2 (EVar vlmMst2)) + #720 * EPow P3 (EVar vlmMst1) + #58032 * EPow P3 (EVar vlmMst2)) * EPow P4
   (EVar vMst1) + #144 * (#436 - #6 * EConst CB4 + #6 * EConst CD3 - #3 * EConst CDN - #48 * EVar vlmMst1 + (#408 -
   #96 * EVar vlmMst1) * EVar vlmMst2 + #24 * EVar vlmMt - #972 * EConst CS2 - #48 * (- #4 + EVar vlmMst1) * EPow P2
   (EVar vlmMst2) + #48 * EPow P3 (EVar vlmMst2)) * EPow P4 (EVar vMst2)) + EVar vMst2 * EVar vs2t * (EVar vDmglst2 *
   (#36 * EPow P2 (EVar vMst2) * (#66761 + #301320 * EConst CB4 - #4860 * EConst CDN - #205380 * EVar vlmMst1 + #40480
   * EConst COepS2 - #216 * (#2489 + #3795 * EVar vlmMst1 - #3795 * EVar vlmMst2) * EConst CS2 + #23760 * EPow P2
   (EVar vlmMst1) + #180 * EVar vlmMst2 * (#4993 - #1956 * EVar vlmMst1 + #48 * EPow P2 (EVar vlmMst1)) - #1080 * (-
   #482 + #331 * EVar vlmMst1) * EPow P2 (EVar vlmMst2) + #348840 * EPow P3 (EVar vlmMst2)) * EPow P4 (EVar vMst1) +
   #27 * EPow P2 (EVar vMst1) * (#23917 + #188640 * EConst CB4 - #3600 * EConst CDN - #37440 * EVar vlmMst1 + #5600 *
   EConst COepS2 - #324 * (- #453 + #350 * EVar vlmMst1 - #350 * EVar vlmMst2) * EConst CS2 + #11520 * EPow P2 (EVar
   vlmMst1) - #2880 * EVar vlmMst2 * (- #237 + #55 * EVar vlmMst1 + #4 * EPow P2 (EVar vlmMst1)) - #1440 * (- #280 +
   #121 * EVar vlmMst1) * EPow P2 (EVar vlmMst2) + #185760 * EPow P3 (EVar vlmMst2)) * EPow P4 (EVar vMst2) - #10 *
   (#2773621 - #1660176 * EConst CB4 + #25272 * EConst CDN + #2004408 * EVar vlmMst1 - #525472 * EConst COepS2 + #108
   * (#123113 + #98526 * EVar vlmMst1 - #98526 * EVar vlmMst2) * EConst CS2 + #3888 * EPow P2 (EVar vlmMst1) - #144 *
   EVar vlmMst2 * (#36802 - #11421 * EVar vlmMst1 + #1728 * EPow P2 (EVar vlmMst1)) + #167184 * (- #14 + #15 * EVar
   vlmMst1) * EPow P2 (EVar vlmMst2) - #31104 * EPow P3 (EVar vlmMst1) - #2227824 * EPow P3 (EVar vlmMst2)) * EPow P6
   (EVar vMst1) + #622080 * (- #1 + #2 * EVar vlmMst2 + #3 * EPow P2 (EVar vlmMst2)) * EPow P6 (EVar vMst2)) + #15 *
   EVar vMgl * (#24 * EPow P2 (EVar vMst2) * (#75569 + #13716 * EConst CB4 - #54 * EConst CDN - #33426 * EVar vlmMst1
   - #1088 * EConst COepS2 + #162 * (#169 + #136 * EVar vlmMst1 - #136 * EVar vlmMst2) * EConst CS2 - #2376 * EPow P2
   (EVar vlmMst1) + #54 * EVar vlmMst2 * (#1427 - #1012 * EVar vlmMst1 + #16 * EPow P2 (EVar vlmMst1)) - #108 * (-
   #642 + #203 * EVar vlmMst1) * EPow P2 (EVar vlmMst2) + #21060 * EPow P3 (EVar vlmMst2)) * EPow P4 (EVar vMst1) +
   #27 * EPow P2 (EVar vMst1) * (#28683 + #5280 * EConst CB4 - #48 * EConst CDN - #5952 * EVar vlmMst1 - #224 * EConst
   COepS2 + #324 * (- #1 + #14 * EVar vlmMst1 - #14 * EVar vlmMst2) * EConst CS2 - #768 * EPow P2 (EVar vlmMst1) -
   #192 * EVar vlmMst2 * (- #214 + #73 * EVar vlmMst1 + #4 * EPow P2 (EVar vlmMst1)) - #96 * (- #268 + #57 * EVar
   vlmMst1) * EPow P2 (EVar vlmMst2) + #6240 * EPow P3 (EVar vlmMst2)) * EPow P4 (EVar vMst2) + #2 * (#1702429 +
   #257904 * EConst CB4 - #648 * EConst CDN - #748656 * EVar vlmMst1 - #30112 * EConst COepS2 + #108 * (#9185 + #5646
   * EVar vlmMst1 - #5646 * EVar vlmMst2) * EConst CS2 + #41904 * EPow P2 (EVar vlmMst1) + #216 * EVar vlmMst2 *
   (#5971 - #6106 * EVar vlmMst1 + #576 * EPow P2 (EVar vlmMst1)) - #41904 * (- #34 + #15 * EVar vlmMst1) * EPow P2
   (EVar vlmMst2) - #3456 * EPow P3 (EVar vlmMst1) + #507600 * EPow P3 (EVar vlmMst2)) * EPow P6 (EVar vMst1) + #41472
   * EPow P2 (#1 + EVar vlmMst2) * EPow P6 (EVar vMst2))) / EPow P2 (EVar vMst1)) / (#43740 * EVar vMgl * EPow P2
   (EVar vSbeta) * EPow P6 (EVar vMst2)) + EPow P2 (EVar vMt) * EPow P2 (EVar vs2t) * (EPow P2 (EVar vMst1) * (EDec
   974135390946502 13 - #8 * EConst CD3 / #9 + #8 * EConst CDN / #9 - #88984 * EVar vlmMst1 / #405 - #64 * (EVar
   vlmMst1 - EVar vlmMst2) * EVar vlmMt / #3 - #1738 * EPow P2 (EVar vlmMst1) / #27 + #2 * EVar vlmMst2 * (#52322 -
   #4710 * EVar vlmMst1 + #315 * EPow P2 (EVar vlmMst1)) / #405 + #4 * (#479 - #237 * EVar vlmMst1) * EPow P2 (EVar
   vlmMst2) / #27 - EVar vDmsqst2 * (EDec 17999506172839506 15 + #1468 * EVar vlmMst1 / #45 - #4 * (#517 + #180 * EVar
   vlmMst1) * EVar vlmMst2 / #45 + #20 * EVar vDmglst2 * (#113 - #6 * EVar vlmMst1 + #6 * EVar vlmMst2) / (#9 * EVar
   vMgl) + #8 * EPow P2 (EVar vlmMst1) + #8 * EPow P2 (EVar vlmMst2)) / EPow P2 (EVar vMsq) - #260 * EPow P3 (EVar
   vlmMst1) / #27 - #4 * EVar vDmglst2 * (#15 * EVar vlmMst2 * (- #77657 + #10800 * EVar vlmMt) + #8 * (- #152101 +
   #40500 * EVar vlmMt) - #225 * (- #341 + #30 * EVar vlmMst2) * EPow P2 (EVar vlmMst1) - #365400 * EPow P2 (EVar
   vlmMst2) + #30 * EVar vlmMst1 * (- #34484 + #16260 * EVar vlmMst2 - #5400 * EVar vlmMt + #21825 * EPow P2 (EVar
   vlmMst2)) + #2250 * EPow P3 (EVar vlmMst1) - #650250 * EPow P3 (EVar vlmMst2)) / (#30375 * EVar vMgl) + #1166 *
   EPow P3 (EVar vlmMst2) / #27) + (EDec 19998139767323744 14 - #18614063 * EVar vlmMst1 / #66150 + EVar vlmMst2 *
   (EDec 29339173091458804 14 - #25514 * EVar vlmMst1 / #945 - #286 * EPow P2 (EVar vlmMst1) / #9) - #48143 * EPow P2
   (EVar vlmMst1) / #945 + #32 * EVar vlmMt * (- #2 * EVar vlmMst1 * (#1 + EVar vlmMst2) + EVar vlmMst2 * (#2 + EVar
   vlmMst2) + EPow P2 (EVar vlmMst1)) / #3 + (EDec 7794391534391535 14 - #2 * EVar vlmMst1 / #9) * EPow P2 (EVar
   vlmMst2) + EVar vDmsqst2 * (EDec 35881655848700444 16 - #470824 * EVar vlmMst1 / #19845 + #4 * (#117706 + #34965 *
   EVar vlmMst1) * EVar vlmMst2 / #19845 + #160 * EVar vDmglst2 * (- #41 + #12 * EVar vlmMst1 - #12 * EVar vlmMst2) /
   (#27 * EVar vMgl) - #74 * EPow P2 (EVar vlmMst1) / #21 - #74 * EPow P2 (EVar vlmMst2) / #21) / EPow P2 (EVar vMsq)
   + #190 * EPow P3 (EVar vlmMst1) / #27 - EVar vDmglst2 * (EDec 17516754355781114 14 - #17578814 * EVar vlmMst1 /
   #33075 + EVar vlmMst2 * (EDec 2577056386999244 13 + #105592 * EVar vlmMst1 / #315 - #208 * EPow P2 (EVar vlmMst1) /
   #9) - #35576 * EPow P2 (EVar vlmMst1) / #315 + #16 * (- #4376 + #2555 * EVar vlmMst1) * EPow P2 (EVar vlmMst2) /
   #315 + #64 * EVar vlmMt * (#2 + #5 * EVar vlmMst2 - EVar vlmMst1 * (#5 + #2 * EVar vlmMst2) + EPow P2 (EVar
   vlmMst1) + EPow P2 (EVar vlmMst2)) / #3 + #16 * EPow P3 (EVar vlmMst1) / #27 - #2896 * EPow P3 (EVar vlmMst2) /
   #27) / EVar vMgl + #674 * EPow P3 (EVar vlmMst2) / #27) * EPow P4 (EVar vMst1) / EPow P2 (EVar vMst2) + EPow P2
   (EVar vMuSUSY) * (EDec 53385802469135804 15 + #40 * EConst CB4 / #9 - #4 * EConst CD3 / #9 + #2 * EConst CDN / #9 +
   #1672 * EVar vlmMst1 / #27 + #53 * EPow P2 (EVar vlmMst1) / #9 - EVar vlmMst2 * (EDec 12992592592592592 14 - #72 *
   EVar vlmMst1 + #13 * EPow P2 (EVar vlmMst1) / #3) + #2 * (- #470 + #147 * EVar vlmMst1) * EPow P2 (EVar vlmMst2) /
   #9 + #16 * EPow P3 (EVar vlmMst1) / #9 - #271 * EPow P3 (EVar vlmMst2) / #9 + (- #5 * EVar vDmsqst2 * (#288 * EVar
   vDmglst2 * (#4 + EVar vlmMst1 - EVar vlmMst2) + EVar vMgl * (- #1141 + #264 * EVar vlmMst2 + #48 * EVar vlmMst1 *
   (- #7 + #3 * EVar vlmMst2) - #144 * EPow P2 (EVar vlmMst2))) / (#54 * EPow P2 (EVar vMsq)) - EVar vDmglst2 *
   (#14267 - #432 * EConst CB4 + #576 * EConst CD3 - #360 * EConst CDN + #4752 * EVar vlmMst1 - #1404 * EPow P2 (EVar
   vlmMst1) + #72 * EVar vlmMst2 * (- #63 - #232 * EVar vlmMst1 + #16 * EPow P2 (EVar vlmMst1)) + #72 * (#281 - #123 *
   EVar vlmMst1) * EPow P2 (EVar vlmMst2) + #7704 * EPow P3 (EVar vlmMst2)) / #162) / EVar vMgl + EPow P2 (EVar vMst1)
   * (EDec 434270658436214 12 + #76 * EConst CB4 / #9 - #2 * EConst CDN / #9 + #69088 * EVar vlmMst1 / #405 - #1313 *
   EPow P2 (EVar vlmMst1) / #27 - #4 * EVar vlmMst2 * (#16192 - #26430 * EVar vlmMst1 + #3465 * EPow P2 (EVar
   vlmMst1)) / #405 + (- #5735 + #3072 * EVar vlmMst1) * EPow P2 (EVar vlmMst2) / #27 + EVar vDmsqst2 * (EDec
   20174098765432097 14 + #622 * EVar vlmMst1 / #15 + #2 * (- #311 + #10 * EVar vlmMst1) * EVar vlmMst2 / #15 + #10 *
   EVar vDmglst2 * (#23 - #42 * EVar vlmMst1 + #42 * EVar vlmMst2) / (#3 * EVar vMgl) - #22 * EPow P2 (EVar vlmMst1) /
   #3 + #6 * EPow P2 (EVar vlmMst2)) / EPow P2 (EVar vMsq) - #62 * EPow P3 (EVar vlmMst1) / #27 - #2086 * EPow P3
   (EVar vlmMst2) / #27 - #2 * EVar vDmglst2 * (#2695042 - #40500 * EConst CB4 + #54000 * EConst CD3 - #33750 * EConst
   CDN - #326895 * EVar vlmMst1 - #324900 * EPow P2 (EVar vlmMst1) + #15 * EVar vlmMst2 * (- #19607 - #129030 * EVar
   vlmMst1 + #62550 * EPow P2 (EVar vlmMst1)) - #450 * (- #5023 + #5610 * EVar vlmMst1) * EPow P2 (EVar vlmMst2) +
   #11250 * EPow P3 (EVar vlmMst1) + #1575000 * EPow P3 (EVar vlmMst2)) / (#30375 * EVar vMgl)) / EPow P2 (EVar vMst2)
   + EPow P2 (EVar vMst2) * (- ((#360 * EVar vDmglst2 * EVar vDmsqst2 + EVar vDmsqst2 * (#30 - #60 * EVar vlmMst2) *
   EVar vMgl + EVar vMgl * (#103 + #186 * EVar vlmMst2 + #32 * EVar vlmMst1 * (#1 + EVar vlmMst2) + #91 * EPow P2
   (EVar vlmMst2)) * EPow P2 (EVar vMsq) + #2 * EVar vDmglst2 * (- #20 + #2 * (#99 + #16 * EVar vlmMst1) * EVar
   vlmMst2 + #123 * EPow P2 (EVar vlmMst2)) * EPow P2 (EVar vMsq)) * EPow P2 (EVar vMst1) / EPow P2 (EVar vMsq)) + #16
   * (#1 + EVar vlmMst2) * (#4 * EVar vDmglst2 * EVar vlmMst2 + EVar vMgl + EVar vlmMst2 * EVar vMgl) * EPow P2 (EVar
   vMst2)) / (#9 * EVar vMgl * EPow P4 (EVar vMst1)) + (EDec 6281736268201578 13 + #76 * EConst CB4 / #9 - #2 * EConst
   CDN / #9 + #6317839 * EVar vlmMst1 / #396900 - #66307 * EPow P2 (EVar vlmMst1) / #315 - EVar vlmMst2 * (EDec
   1252907281431091 14 - #182909 * EVar vlmMst1 / #315 + #274 * EPow P2 (EVar vlmMst1) / #3) + #2 * (- #58301 + #37135
   * EVar vlmMst1) * EPow P2 (EVar vlmMst2) / #315 + EVar vDmsqst2 * (EDec 23728785508324435 14 + #16526 * EVar
   vlmMst2 / #3969 + #2 * EVar vlmMst1 * (- #8263 + #71820 * EVar vlmMst2) / #3969 - #520 * EPow P2 (EVar vlmMst1) /
   #21 - #80 * EPow P2 (EVar vlmMst2) / #7) / EPow P2 (EVar vMsq) - #44 * EPow P3 (EVar vlmMst1) / #9 - #1256 * EPow
   P3 (EVar vlmMst2) / #9 - EVar vDmglst2 * (EDec 5851892843532082 13 - #8 * EConst CB4 / #3 + #32 * EConst CD3 / #9 -
   #20 * EConst CDN / #9 - #20109937 * EVar vlmMst1 / #297675 - #15886 * EPow P2 (EVar vlmMst1) / #945 + EVar vlmMst2
   * (EDec 17112243218274966 15 - #144628 * EVar vlmMst1 / #945 + #1180 * EPow P2 (EVar vlmMst1) / #9) + (EDec
   16985608465608465 14 - #2632 * EVar vlmMst1 / #9) * EPow P2 (EVar vlmMst2) - #92 * EPow P3 (EVar vlmMst1) / #27 +
   #4448 * EPow P3 (EVar vlmMst2) / #27) / EVar vMgl) * EPow P4 (EVar vMst1) / EPow P4 (EVar vMst2)) + (EPow P2 (EVar
   vMst2) * (- #720 * (#360 * EVar vDmglst2 * EVar vDmsqst2 + EVar vDmsqst2 * (#30 - #60 * EVar vlmMst2) * EVar vMgl +
   EVar vMgl * (#87 + #154 * EVar vlmMst2 + #32 * EVar vlmMst1 * (#1 + EVar vlmMst2) + #75 * EPow P2 (EVar vlmMst2)) *
   EPow P2 (EVar vMsq) + #2 * EVar vDmglst2 * (- #52 + #2 * (#67 + #16 * EVar vlmMst1) * EVar vlmMst2 + #91 * EPow P2
   (EVar vlmMst2)) * EPow P2 (EVar vMsq)) * EPow P2 (EVar vMst2) / EPow P2 (EVar vMst1) - #96 * EVar vDmglst2 * (#3450
   * EVar vDmsqst2 - EPow P2 (EVar vMsq) * (#11674 - #120 * EConst CB4 + #120 * EConst CD3 - #60 * EConst CDN + #690 *
   EVar vlmMst1 + #345 * EPow P2 (EVar vlmMst1) - #5 * EVar vlmMst2 * (- #3427 - #54 * EVar vlmMst1 + #96 * EPow P2
   (EVar vlmMst1)) + (#4515 - #480 * EVar vlmMst1) * EPow P2 (EVar vlmMst2) + #960 * EPow P3 (EVar vlmMst2))) + EVar
   vMgl * (#900 * EVar vDmsqst2 * (#391 + #32 * EVar vlmMst1 - #128 * EVar vlmMst2) + EPow P2 (EVar vMsq) * (#1013263
   + #2880 * EConst CD3 - #2880 * EConst CDN + #96720 * EVar vlmMst1 + #34560 * EVar vlmMt + #44640 * EPow P2 (EVar
   vlmMst1) - #240 * EVar vlmMst2 * (- #2267 - #90 * EVar vlmMst1 + #117 * EPow P2 (EVar vlmMst1)) + #1440 * (#133 +
   #8 * EVar vlmMst1) * EPow P2 (EVar vlmMst2) + #11520 * EPow P3 (EVar vlmMst1) + #5040 * EPow P3 (EVar vlmMst2)))) /
   (#3240 * EPow P2 (EVar vMsq)) + #32 * (#1 + EVar vlmMst2) * (#4 * EVar vDmglst2 * EVar vlmMst2 + EVar vMgl + EVar
   vlmMst2 * EVar vMgl) * EPow P6 (EVar vMst2) / (#9 * EPow P4 (EVar vMst1))) / EVar vMgl + (- #300 * EVar vDmsqst2 *
   EVar vMgl * ((#4 * (#16 * EConst COepS2 - #27 * (#35 + #12 * EVar vlmMst1 - #12 * EVar vlmMst2) * EConst CS2) *
   EPow P2 (EVar vMst2) + #13 * (#136 * EConst COepS2 - #27 * (#95 + #102 * EVar vlmMst1 - #102 * EVar vlmMst2) *
   EConst CS2) * EPow P2 (EVar vMuSUSY)) * EPow P4 (EVar vMst1) + #27 * ((#8 * EConst COepS2 - #81 * (#9 + #2 * EVar
   vlmMst1 - #2 * EVar vlmMst2) * EConst CS2) * EPow P2 (EVar vMst2) + (#8 * EConst COepS2 - #81 * (- #15 + #2 * EVar
   vlmMst1 - #2 * EVar vlmMst2) * EConst CS2) * EPow P2 (EVar vMuSUSY)) * EPow P4 (EVar vMst2) + #9 * EPow P2 (EVar
   vMst1) * ((#104 * EConst COepS2 + #27 * (#17 - #78 * EVar vlmMst1 + #78 * EVar vlmMst2) * EConst CS2) * EPow P2
   (EVar vMst2) * EPow P2 (EVar vMuSUSY) + #2 * (#8 * EConst COepS2 - #27 * (#23 + #6 * EVar vlmMst1 - #6 * EVar
   vlmMst2) * EConst CS2) * EPow P4 (EVar vMst2))) + EPow P2 (EVar vMsq) * (- #3 * EVar vMgl * (#6 * EPow P2 (EVar
   vMst1) * EPow P2 (EVar vMst2) * ((#25160 * EConst COepS2 - #81 * (#9191 + #6290 * EVar vlmMst1 - #6290 * EVar
   vlmMst2) * EConst CS2) * EPow P2 (EVar vMst2) + #5 * (#8456 * EConst COepS2 - #81 * (#11243 + #2114 * EVar vlmMst1
   - #2114 * EVar vlmMst2) * EConst CS2) * EPow P2 (EVar vMuSUSY)) + ((#274280 * EConst COepS2 - #27 * (#399127 +
   #205710 * EVar vlmMst1 - #205710 * EVar vlmMst2) * EConst CS2) * EPow P2 (EVar vMst2) + #10 * (#52948 * EConst
   COepS2 - #27 * (#194357 + #39711 * EVar vlmMst1 - #39711 * EVar vlmMst2) * EConst CS2) * EPow P2 (EVar vMuSUSY)) *
   EPow P4 (EVar vMst1) + #27 * ((#2120 * EConst COepS2 - #81 * (- #141 + #530 * EVar vlmMst1 - #530 * EVar vlmMst2) *
   EConst CS2) * EPow P2 (EVar vMst2) + #10 * (#184 * EConst COepS2 - #81 * (#307 + #46 * EVar vlmMst1 - #46 * EVar
   vlmMst2) * EConst CS2) * EPow P2 (EVar vMuSUSY)) * EPow P4 (EVar vMst2)) + #4 * EVar vDmglst2 * (#54 * EPow P2
   (EVar vMst1) * EPow P2 (EVar vMst2) * ((#2000 * EConst COepS2 - #162 * (#31 + #250 * EVar vlmMst1 - #250 * EVar
   vlmMst2) * EConst CS2) * EPow P2 (EVar vMst2) + #5 * (#344 * EConst COepS2 + #9 * (#15643 - #774 * EVar vlmMst1 +
   #774 * EVar vlmMst2) * EConst CS2) * EPow P2 (EVar vMuSUSY)) + #2 * (#9 * (#30760 * EConst COepS2 - #27 * (#28283 +
   #23070 * EVar vlmMst1 - #23070 * EVar vlmMst2) * EConst CS2) * EPow P2 (EVar vMst2) + #10 * (#17308 * EConst COepS2
   + #27 * (#93919 - #12981 * EVar vlmMst1 + #12981 * EVar vlmMst2) * EConst CS2) * EPow P2 (EVar vMuSUSY)) * EPow P4
   (EVar vMst1) + #135 * (#56 * EConst COepS2 - #81 * (- #1677 + #14 * EVar vlmMst1 - #14 * EVar vlmMst2) * EConst
   CS2) * EPow P2 (EVar vMuSUSY) * EPow P4 (EVar vMst2) - #2768742 * EConst CS2 * EPow P6 (EVar vMst2)))) / (#21870 *
   EVar vMgl * EPow P2 (EVar vMsq) * EPow P4 (EVar vMst2))) + (#4 * EVar vDmglst2 * EVar vMst2 * EConst CT1ep * EPow
   P2 (EVar vMsq) * (#189 * EPow P4 (EVar vMst2) * (- #4 * EVar vMst2 * EPow P2 (EVar vMt) * EPow P2 (EVar vMuSUSY) *
   EPow P2 (EVar vs2t) * (- #1 + EPow P2 (EVar vSbeta)) + #10 * EVar vs2t * (EPow P2 (EVar vMuSUSY) * (- #1 + EPow P2
   (EVar vSbeta)) + #2 * EPow P2 (EVar vMst2) * EPow P2 (EVar vSbeta)) * EPow P3 (EVar vMt) - #5 * EVar vMt * EPow P2
   (EVar vSbeta) * EPow P3 (EVar vs2t) * EPow P4 (EVar vMst2) - #16 * EVar vMst2 * EPow P2 (EVar vSbeta) * EPow P4
   (EVar vMt) + EPow P2 (EVar vSbeta) * EPow P4 (EVar vs2t) * EPow P5 (EVar vMst2)) + EPow P4 (EVar vMst1) * (- #8 *
   EVar vMst2 * EPow P2 (EVar vMt) * EPow P2 (EVar vs2t) * (#4327 * EPow P2 (EVar vMuSUSY) * (- #1 + EPow P2 (EVar
   vSbeta)) + #6921 * EPow P2 (EVar vMst2) * EPow P2 (EVar vSbeta)) + #4 * EVar vs2t * (#16421 * EPow P2 (EVar
   vMuSUSY) * (- #1 + EPow P2 (EVar vSbeta)) + #51460 * EPow P2 (EVar vMst2) * EPow P2 (EVar vSbeta)) * EPow P3 (EVar
   vMt) - #15571 * EVar vMt * EPow P2 (EVar vSbeta) * EPow P3 (EVar vs2t) * EPow P4 (EVar vMst2) - #89312 * EVar vMst2
   * EPow P2 (EVar vSbeta) * EPow P4 (EVar vMt) + #4199 * EPow P2 (EVar vSbeta) * EPow P4 (EVar vs2t) * EPow P5 (EVar
   vMst2)) + #18 * EVar vMst2 * EPow P2 (EVar vMst1) * (- #12 * EPow P2 (EVar vMst2) * EPow P2 (EVar vMt) * EPow P2
   (EVar vs2t) * (#43 * EPow P2 (EVar vMuSUSY) * (- #1 + EPow P2 (EVar vSbeta)) + #50 * EPow P2 (EVar vMst2) * EPow P2
   (EVar vSbeta)) + #2 * EVar vMst2 * EVar vs2t * (#506 * EPow P2 (EVar vMuSUSY) * (- #1 + EPow P2 (EVar vSbeta)) +
   #1383 * EPow P2 (EVar vMst2) * EPow P2 (EVar vSbeta)) * EPow P3 (EVar vMt) + #56 * (#3 * EPow P2 (EVar vMuSUSY) *
   (- #1 + EPow P2 (EVar vSbeta)) - #23 * EPow P2 (EVar vMst2) * EPow P2 (EVar vSbeta)) * EPow P4 (EVar vMt) - #401 *
   EVar vMt * EPow P2 (EVar vSbeta) * EPow P3 (EVar vs2t) * EPow P5 (EVar vMst2) + #108 * EPow P2 (EVar vSbeta) * EPow
   P4 (EVar vs2t) * EPow P6 (EVar vMst2))) - #3 * EVar vMgl * EConst CT1ep * (#20 * EVar vDmsqst2 * EPow P2 (EVar
   vMst2) * EPow P2 (EVar vs2t) * (#27 * EPow P4 (EVar vMst2) * (- #4 * EPow P2 (EVar vMt) * (EPow P2 (EVar vMuSUSY) *
   (- #1 + EPow P2 (EVar vSbeta)) + EPow P2 (EVar vMst2) * EPow P2 (EVar vSbeta)) + EPow P2 (EVar vs2t) * EPow P2
   (EVar vSbeta) * EPow P4 (EVar vMst2)) + #9 * EPow P2 (EVar vMst1) * EPow P2 (EVar vMst2) * (EPow P2 (EVar vMt) * (-
   #52 * EPow P2 (EVar vMuSUSY) * (- #1 + EPow P2 (EVar vSbeta)) - #8 * EPow P2 (EVar vMst2) * EPow P2 (EVar vSbeta))
   + #7 * EPow P2 (EVar vs2t) * EPow P2 (EVar vSbeta) * EPow P4 (EVar vMst2)) + EPow P4 (EVar vMst1) * (- #4 * EPow P2
   (EVar vMt) * (#221 * EPow P2 (EVar vMuSUSY) * (- #1 + EPow P2 (EVar vSbeta)) + #8 * EPow P2 (EVar vMst2) * EPow P2
   (EVar vSbeta)) + #14 * EPow P2 (EVar vs2t) * EPow P2 (EVar vSbeta) * EPow P4 (EVar vMst2))) + EPow P2 (EVar vMsq) *
   (#54 * EPow P5 (EVar vMst2) * (- #2 * EVar vMst2 * EPow P2 (EVar vMt) * EPow P2 (EVar vs2t) * (#46 * EPow P2 (EVar
   vMuSUSY) * (- #1 + EPow P2 (EVar vSbeta)) + #53 * EPow P2 (EVar vMst2) * EPow P2 (EVar vSbeta)) + #28 * EVar vs2t *
   (EPow P2 (EVar vMuSUSY) * (- #1 + EPow P2 (EVar vSbeta)) + #2 * EPow P2 (EVar vMst2) * EPow P2 (EVar vSbeta)) *
   EPow P3 (EVar vMt) - #14 * EVar vMt * EPow P2 (EVar vSbeta) * EPow P3 (EVar vs2t) * EPow P4 (EVar vMst2) + #56 *
   EVar vMst2 * EPow P2 (EVar vSbeta) * EPow P4 (EVar vMt) + #23 * EPow P2 (EVar vSbeta) * EPow P4 (EVar vs2t) * EPow
   P5 (EVar vMst2)) + #6 * EPow P2 (EVar vMst1) * EPow P2 (EVar vMst2) * (- #4 * EPow P2 (EVar vMst2) * EPow P2 (EVar
   vMt) * EPow P2 (EVar vs2t) * (#1057 * EPow P2 (EVar vMuSUSY) * (- #1 + EPow P2 (EVar vSbeta)) + #629 * EPow P2
   (EVar vMst2) * EPow P2 (EVar vSbeta)) + #8 * EVar vMst2 * EVar vs2t * (#136 * EPow P2 (EVar vMuSUSY) * (- #1 + EPow
   P2 (EVar vSbeta)) + #377 * EPow P2 (EVar vMst2) * EPow P2 (EVar vSbeta)) * EPow P3 (EVar vMt) + #8 * (#126 * EPow
   P2 (EVar vMuSUSY) * (- #1 + EPow P2 (EVar vSbeta)) + #209 * EPow P2 (EVar vMst2) * EPow P2 (EVar vSbeta)) * EPow P4
   (EVar vMt) - #292 * EVar vMt * EPow P2 (EVar vSbeta) * EPow P3 (EVar vs2t) * EPow P5 (EVar vMst2) + #643 * EPow P2
   (EVar vSbeta) * EPow P4 (EVar vs2t) * EPow P6 (EVar vMst2)) + EPow P4 (EVar vMst1) * (- #4 * EPow P2 (EVar vMst2) *
   EPow P2 (EVar vMt) * EPow P2 (EVar vs2t) * (#13237 * EPow P2 (EVar vMuSUSY) * (- #1 + EPow P2 (EVar vSbeta)) +
   #6857 * EPow P2 (EVar vMst2) * EPow P2 (EVar vSbeta)) + #16 * EVar vMst2 * EVar vs2t * (#941 * EPow P2 (EVar
   vMuSUSY) * (- #1 + EPow P2 (EVar vSbeta)) + #2740 * EPow P2 (EVar vMst2) * EPow P2 (EVar vSbeta)) * EPow P3 (EVar
   vMt) + #16 * (#1635 * EPow P2 (EVar vMuSUSY) * (- #1 + EPow P2 (EVar vSbeta)) + #1168 * EPow P2 (EVar vMst2) * EPow
   P2 (EVar vSbeta)) * EPow P4 (EVar vMt) - #1756 * EVar vMt * EPow P2 (EVar vSbeta) * EPow P3 (EVar vs2t) * EPow P5
   (EVar vMst2) + #1795 * EPow P2 (EVar vSbeta) * EPow P4 (EVar vs2t) * EPow P6 (EVar vMst2))))) / (#1458 * EVar vMgl
   * EPow P2 (EVar vMsq) * EPow P2 (EVar vSbeta) * EPow P6 (EVar vMst2)) + EPow P4 (EVar vMt) * (EDec
   48098395061728394 14 - #640 * EVar vlmMst1 / #9 - #392 * EPow P2 (EVar vlmMst1) / #9 + #4 * EVar vlmMst2 * (- #553
   - #1224 * EVar vlmMst1 + #63 * EPow P2 (EVar vlmMst1)) / #81 + #32 * (#121 - #18 * EVar vlmMst1) * EPow P2 (EVar
   vlmMst2) / #27 + #4 * EVar vlmMt * (#926 - #749 * EVar vlmMst2 + #6 * EVar vlmMst1 * (#27 + #32 * EVar vlmMst2) +
   #9 * EPow P2 (EVar vlmMst1) + #57 * EPow P2 (EVar vlmMst2)) / #27 - #4 * (- #12 + EVar vlmMst1 + #55 * EVar
   vlmMst2) * EPow P2 (EVar vlmMt) / #3 - #68 * EPow P3 (EVar vlmMst1) / #9 + #4 * (- #350 * EVar vDmsqst2 * (EVar
   vDmglst2 * (- #2954 + #864 * EVar vlmMst1 - #1713 * EVar vlmMst2 + #849 * EVar vlmMt) - #3 * EVar vMgl * (- #103 +
   #42 * EVar vlmMst1 + #78 * EVar vlmMt - #6 * EVar vlmMst2 * (#23 + #3 * EVar vlmMt) + #9 * EPow P2 (EVar vlmMst2) +
   #9 * EPow P2 (EVar vlmMt))) / EPow P2 (EVar vMsq) + EVar vDmglst2 * (#773533 + #131775 * EVar vlmMt + #35 * EVar
   vlmMst2 * (- #6569 + #2220 * EVar vlmMt) - #4410 * EPow P2 (EVar vlmMst1) - #199920 * EPow P2 (EVar vlmMst2) +
   #5040 * EVar vlmMst1 * (#13 + #28 * EVar vlmMst2 - #8 * EVar vlmMt + #8 * EPow P2 (EVar vlmMst2)) + #63000 * EPow
   P2 (EVar vlmMt) - #40320 * EPow P3 (EVar vlmMst2))) / (#2835 * EVar vMgl) + #8 * EPow P3 (EVar vlmMst2) / #9 + #184
   * EPow P3 (EVar vlmMt) / #3 + (EDec 15000856244066115 13 + #43574647 * EVar vlmMst1 / #99225 - #139432 * EPow P2
   (EVar vlmMst1) / #945 - #2 * EVar vlmMst2 * (#35585111 - #2612085 * EVar vlmMst1 + #2072700 * EPow P2 (EVar
   vlmMst1)) / #99225 + #2 * (#34339 + #46620 * EVar vlmMst1) * EPow P2 (EVar vlmMst2) / #945 + EVar vlmMt * (#3155 +
   #1418 * EVar vlmMst2 - #2 * EVar vlmMst1 * (#513 + #572 * EVar vlmMst2) + #312 * EPow P2 (EVar vlmMst1) + #832 *
   EPow P2 (EVar vlmMst2)) / #9 + #64 * (- #1 + #3 * EVar vlmMst1 - #3 * EVar vlmMst2) * EPow P2 (EVar vlmMt) / #3 +
   #8 * EVar vDmsqst2 * (- #26331136 + #105 * EVar vlmMst1 * (#236317 + #35070 * EVar vlmMst2 - #36750 * EVar vlmMt) +
   #11962125 * EVar vlmMt + #210 * EVar vlmMst2 * (- #175121 + #18375 * EVar vlmMt) + #88200 * EPow P2 (EVar vlmMst1)
   - #3770550 * EPow P2 (EVar vlmMst2)) / (#231525 * EPow P2 (EVar vMsq)) + #64 * EPow P3 (EVar vlmMst1) / #27 - #1600
   * EPow P3 (EVar vlmMst2) / #27 - EVar vDmglst2 * (EDec 2929938520304849 12 + #55510684 * EVar vlmMst1 / #59535 -
   #126272 * EPow P2 (EVar vlmMst1) / #189 - #4 * EVar vlmMst2 * (#42300121 + #12578580 * EVar vlmMst1 + #2487240 *
   EPow P2 (EVar vlmMst1)) / #59535 + #32 * (#10166 - #693 * EVar vlmMst1) * EPow P2 (EVar vlmMst2) / #189 + #8 * EVar
   vlmMt * (#5695 + #1974 * EVar vlmMst2 - #12 * EVar vlmMst1 * (#163 + #47 * EVar vlmMst2) + #468 * EPow P2 (EVar
   vlmMst1) + #96 * EPow P2 (EVar vlmMst2)) / #27 + #128 * (- #5 + #6 * EVar vlmMst1 - #6 * EVar vlmMst2) * EPow P2
   (EVar vlmMt) / #3 + #256 * EPow P3 (EVar vlmMst1) / #27 + #7424 * EPow P3 (EVar vlmMst2) / #27) / EVar vMgl) * EPow
   P4 (EVar vMst1) / EPow P4 (EVar vMst2) + ((#4 * (#360 * EVar vDmglst2 * EVar vDmsqst2 + EVar vDmsqst2 * (#30 - #60
   * EVar vlmMst2) * EVar vMgl + #2 * EVar vDmglst2 * (- #84 + (#70 + #32 * EVar vlmMst1) * EVar vlmMst2 + #59 * EPow
   P2 (EVar vlmMst2)) * EPow P2 (EVar vMsq) + EVar vMgl * (#71 + #122 * EVar vlmMst2 + #32 * EVar vlmMst1 * (#1 + EVar
   vlmMst2) + #59 * EPow P2 (EVar vlmMst2)) * EPow P2 (EVar vMsq)) * EPow P2 (EVar vMst2) / (#9 * EPow P2 (EVar
   vMst1)) + EPow P2 (EVar vMst1) * (#2520 * EVar vDmsqst2 * EVar vMgl * (- #91321 + #30 * EVar vlmMst1 * (#1717 +
   #120 * EVar vlmMst2 - #150 * EVar vlmMt) + #40500 * EVar vlmMt + #30 * EVar vlmMst2 * (- #3067 + #150 * EVar vlmMt)
   + #450 * EPow P2 (EVar vlmMst1) - #4050 * EPow P2 (EVar vlmMst2)) + #5670000 * EVar vDmglst2 * EVar vDmsqst2 *
   (#401 + EVar vlmMst2 * (#274 - #4 * EVar vlmMt) - #2 * EVar vlmMst1 * (#71 + #2 * EVar vlmMst2 - #2 * EVar vlmMt) -
   #132 * EVar vlmMt + #4 * EPow P2 (EVar vlmMst2)) + #4 * EVar vDmglst2 * EPow P2 (EVar vMsq) * (#98884301 -
   #57865500 * EVar vlmMt + #12600 * (#1213 + #285 * EVar vlmMst2 - #225 * EVar vlmMt) * EPow P2 (EVar vlmMst1) +
   #18900 * (- #5953 + #310 * EVar vlmMt) * EPow P2 (EVar vlmMst2) + #13608000 * EPow P2 (EVar vlmMt) + #1260 * (EVar
   vlmMst1 * (#28194 + EVar vlmMst2 * (#61415 - #2400 * EVar vlmMt) - #1075 * EVar vlmMt + #13800 * EPow P2 (EVar
   vlmMst2) - #7200 * EPow P2 (EVar vlmMt)) + EVar vlmMst2 * (#8581 + #6025 * EVar vlmMt + #7200 * EPow P2 (EVar
   vlmMt))) - #252000 * EPow P3 (EVar vlmMst1) - #20727000 * EPow P3 (EVar vlmMst2)) + #35 * EVar vMgl * EPow P2 (EVar
   vMsq) * (#7319011 + #3223800 * EVar vlmMt - #1800 * (#391 + #114 * EVar vlmMst2 - #90 * EVar vlmMt) * EPow P2 (EVar
   vlmMst1) + #3600 * (#568 + #99 * EVar vlmMt) * EPow P2 (EVar vlmMst2) - #259200 * EPow P2 (EVar vlmMt) - #120 *
   EVar vlmMst2 * (#22352 - #2835 * EVar vlmMt + #4320 * EPow P2 (EVar vlmMt)) + #120 * EVar vlmMst1 * (#4217 + #1215
   * EVar vlmMt - #15 * EVar vlmMst2 * (#871 + #288 * EVar vlmMt) + #3240 * EPow P2 (EVar vlmMst2) + #4320 * EPow P2
   (EVar vlmMt)) + #14400 * EPow P3 (EVar vlmMst1) - #198000 * EPow P3 (EVar vlmMst2))) / (#425250 * EPow P2 (EVar
   vMst2))) / EPow P2 (EVar vMsq) - #64 * (#1 + EVar vlmMst2) * (#4 * EVar vDmglst2 * EVar vlmMst2 + EVar vMgl + EVar
   vlmMst2 * EVar vMgl) * EPow P4 (EVar vMst2) / (#9 * EPow P4 (EVar vMst1)) + (- (EPow P2 (EVar vMuSUSY) * (#12 *
   EVar vDmglst2 * EPow P2 (EVar vMst2) * (#72 * EPow P2 (EVar vMst2) * (#180 - #2 * EConst CB4 + #2 * EConst CD3 -
   EConst CDN + #16 * EVar vlmMst1 + #144 * EVar vlmMst2 - #16 * (- #2 + EVar vlmMst1) * EPow P2 (EVar vlmMst2) + #16
   * EPow P3 (EVar vlmMst2)) + EPow P2 (EVar vMst1) * (#28405 - #288 * EConst CB4 + #288 * EConst CD3 - #144 * EConst
   CDN + #5472 * EVar vlmMst1 - #288 * (- #89 + #2 * EVar vlmMst1) * EVar vlmMst2 + #576 * (- #2 + EVar vlmMst1 - EVar
   vlmMst2) * EVar vlmMt - #576 * (- #9 + #8 * EVar vlmMst1) * EPow P2 (EVar vlmMst2) + #4608 * EPow P3 (EVar
   vlmMst2))) + EVar vMgl * (#18 * EPow P2 (EVar vMst1) * EPow P2 (EVar vMst2) * (#10667 - #96 * EConst CB4 + #96 *
   EConst CD3 - #48 * EConst CDN - #3072 * EVar vlmMst1 - #384 * (- #25 + #9 * EVar vlmMst1) * EVar vlmMst2 - #384 *
   (- #1 + EVar vlmMst1 - EVar vlmMst2) * EVar vlmMt - #384 * (- #13 + #4 * EVar vlmMst1) * EPow P2 (EVar vlmMst2) +
   #1536 * EPow P3 (EVar vlmMst2)) + (#383185 - #2592 * EConst CB4 + #2592 * EConst CD3 - #1296 * EConst CDN - #187704
   * EVar vlmMst1 - #7992 * EPow P2 (EVar vlmMst1) - #216 * EVar vlmMst2 * (- #1733 + #630 * EVar vlmMst1 + #26 * EPow
   P2 (EVar vlmMst1)) - #216 * (- #859 + #246 * EVar vlmMst1) * EPow P2 (EVar vlmMst2) + #3456 * EVar vlmMt * (#3 + #6
   * EVar vlmMst2 - #2 * EVar vlmMst1 * (#3 + EVar vlmMst2) + EPow P2 (EVar vlmMst1) + EPow P2 (EVar vlmMst2)) + #720
   * EPow P3 (EVar vlmMst1) + #58032 * EPow P3 (EVar vlmMst2)) * EPow P4 (EVar vMst1) + #144 * (#436 - #6 * EConst CB4
   + #6 * EConst CD3 - #3 * EConst CDN - #48 * EVar vlmMst1 + (#408 - #96 * EVar vlmMst1) * EVar vlmMst2 + #24 * EVar
   vlmMt - #48 * (- #4 + EVar vlmMst1) * EPow P2 (EVar vlmMst2) + #48 * EPow P3 (EVar vlmMst2)) * EPow P4 (EVar
   vMst2)))) / #486 + #16 * EConst COepS2 * (#4 * EVar vDmglst2 * EPow P2 (EVar vMst2) * (#63 * EPow P2 (EVar vMst1) *
   (#23 * EPow P2 (EVar vMst2) - #3 * EPow P2 (EVar vMuSUSY)) + #5582 * EPow P4 (EVar vMst1) + #189 * EPow P4 (EVar
   vMst2)) + #3 * EVar vMgl * ((#1168 * EPow P2 (EVar vMst2) + #1635 * EPow P2 (EVar vMuSUSY)) * EPow P4 (EVar vMst1)
   + EPow P2 (EVar vMst1) * (#378 * EPow P2 (EVar vMst2) * EPow P2 (EVar vMuSUSY) + #627 * EPow P4 (EVar vMst2)) +
   #189 * EPow P6 (EVar vMst2))) / #2187 - EConst CS2 * (#4 * EVar vDmglst2 * EPow P2 (EVar vMst2) * (#45 * EPow P2
   (EVar vMst1) * (#23 * (#115 + #588 * EVar vlmMst1 - #588 * EVar vlmMst2) * EPow P2 (EVar vMst2) - #126 * (#65 + #14
   * EVar vlmMst1 - #14 * EVar vlmMst2) * EPow P2 (EVar vMuSUSY)) + (#2001242 + #2344440 * EVar vlmMst1 - #2344440 *
   EVar vlmMst2) * EPow P4 (EVar vMst1) - #81 * (#3360 * EPow P2 (EVar vMst2) * EPow P2 (EVar vMuSUSY) + (#1593 - #980
   * EVar vlmMst1 + #980 * EVar vlmMst2) * EPow P4 (EVar vMst2))) + #42 * EVar vMgl * ((#8 * (#8653 + #4380 * EVar
   vlmMst1 - #4380 * EVar vlmMst2) * EPow P2 (EVar vMst2) + #90 * (- #57 + #545 * EVar vlmMst1 - #545 * EVar vlmMst2)
   * EPow P2 (EVar vMuSUSY)) * EPow P4 (EVar vMst1) + #9 * EPow P2 (EVar vMst1) * (#90 * (- #43 + #14 * EVar vlmMst1 -
   #14 * EVar vlmMst2) * EPow P2 (EVar vMst2) * EPow P2 (EVar vMuSUSY) + (#4163 + #2090 * EVar vlmMst1 - #2090 * EVar
   vlmMst2) * EPow P4 (EVar vMst2)) + #81 * (- #240 * EPow P2 (EVar vMuSUSY) * EPow P4 (EVar vMst2) + (#109 + #70 *
   EVar vlmMst1 - #70 * EVar vlmMst2) * EPow P6 (EVar vMst2)))) / #2835) / EPow P6 (EVar vMst2)) / EVar vMgl) + EVar
   vMuSUSY * (- (EPow P2 (EVar vMt) * EPow P2 (EVar vs2t) * (EVar vMst2 * (EDec 3770416666666667 13 + #220 * EConst
   CB4 / #3 - #2 * EConst CDN / #3 - #248 * EVar vlmMst1 / #3 - #32 * EPow P2 (EVar vlmMst1) / #3 - #8 * EVar vlmMst2
   * (- #198 + #73 * EVar vlmMst1 + #4 * EPow P2 (EVar vlmMst1)) / #3 + (#336 - #76 * EVar vlmMst1) * EPow P2 (EVar
   vlmMst2) + #260 * EPow P3 (EVar vlmMst2) / #3 + (- #80 * EVar vDmsqst2 * (EVar vDmglst2 * (#2 + #5 * EVar vlmMst1 -
   #5 * EVar vlmMst2) + (- #1 - EVar vlmMst1 + EVar vlmMst2) * EVar vMgl) / EPow P2 (EVar vMsq) + EVar vDmglst2 *
   (EDec 434787037037037 13 + #524 * EConst CB4 / #3 - #10 * EConst CDN / #3 - #104 * EVar vlmMst1 / #3 + #32 * EPow
   P2 (EVar vlmMst1) / #3 - #8 * EVar vlmMst2 * (- #221 + #55 * EVar vlmMst1 + #4 * EPow P2 (EVar vlmMst1)) / #3 + #4
   * (#232 - #121 * EVar vlmMst1) * EPow P2 (EVar vlmMst2) / #3 + #172 * EPow P3 (EVar vlmMst2))) / EVar vMgl) + EPow
   P2 (EVar vMst1) * (EDec 5345756172839506 13 + #96 * EConst CB4 - #330 * EVar vlmMst1 - #56 * EPow P2 (EVar vlmMst1)
   / #3 + #2 * EVar vlmMst2 * (#571 - #720 * EVar vlmMst1 + #32 * EPow P2 (EVar vlmMst1)) / #3 + #8 * (#187 - #73 *
   EVar vlmMst1) * EPow P2 (EVar vlmMst2) / #3 + #520 * EPow P3 (EVar vlmMst2) / #3 + (#160 * EVar vDmsqst2 * (EVar
   vDmglst2 * (#5 - #5 * EVar vlmMst1 + #5 * EVar vlmMst2) + (EVar vlmMst1 - EVar vlmMst2) * EVar vMgl) / EPow P2
   (EVar vMsq) + EVar vDmglst2 * (EDec 60275617283950616 15 + #592 * EConst CB4 / #3 - #8 * EConst CDN / #3 - #1970 *
   EVar vlmMst1 / #9 + #56 * EPow P2 (EVar vlmMst1) / #3 + #2 * EVar vlmMst2 * (#2149 - #1296 * EVar vlmMst1 + #96 *
   EPow P2 (EVar vlmMst1)) / #9 + (EDec 2693333333333333 13 - #280 * EVar vlmMst1) * EPow P2 (EVar vlmMst2) + #776 *
   EPow P3 (EVar vlmMst2) / #3)) / EVar vMgl) / EVar vMst2 + (EDec 8185195473251028 13 + #96 * EConst CB4 - #3218 *
   EVar vlmMst1 / #9 + #652 * EPow P2 (EVar vlmMst1) / #9 + #4 * EVar vlmMst2 * (#845 - #1535 * EVar vlmMst1 + #264 *
   EPow P2 (EVar vlmMst1)) / #9 + (EDec 6097777777777778 13 - #376 * EVar vlmMst1) * EPow P2 (EVar vlmMst2) - #32 *
   EPow P3 (EVar vlmMst1) / #9 + (#20 * EVar vDmsqst2 * (EVar vDmglst2 * (#80 - #43 * EVar vlmMst1 + #43 * EVar
   vlmMst2) + (- #4 + #9 * EVar vlmMst1 - #9 * EVar vlmMst2) * EVar vMgl) / EPow P2 (EVar vMsq) - EVar vDmglst2 *
   (EDec 1033594170096022 12 - #592 * EConst CB4 / #3 + #8 * EConst CDN / #3 + #35140 * EVar vlmMst1 / #81 + #92 *
   EPow P2 (EVar vlmMst1) / #3 - #2 * EVar vlmMst2 * (#28667 - #5238 * EVar vlmMst1 + #3024 * EPow P2 (EVar vlmMst1))
   / #81 + #8 * (- #60 + #157 * EVar vlmMst1) * EPow P2 (EVar vlmMst2) / #3 - #32 * EPow P3 (EVar vlmMst1) / #3 -
   #1000 * EPow P3 (EVar vlmMst2) / #3)) / EVar vMgl + #2360 * EPow P3 (EVar vlmMst2) / #9) * EPow P4 (EVar vMst1) /
   EPow P3 (EVar vMst2) - EConst CS2 * ((EDec 45 1 - #63 * EVar vlmMst1 + #63 * EVar vlmMst2 + #3 * EVar vDmglst2 * (-
   #453 + #350 * EVar vlmMst1 - #350 * EVar vlmMst2) / (#10 * EVar vMgl)) * EVar vMst2 - (EDec 3425 1 + #209 * EVar
   vlmMst1 - #209 * EVar vlmMst2 - EVar vDmglst2 * (EDec 7996333333333333 13 + #907 * EVar vlmMst1 - #907 * EVar
   vlmMst2) / EVar vMgl) * EPow P2 (EVar vMst1) / EVar vMst2 + (EVar vDmglst2 * (#525961 + #356010 * EVar vlmMst1 -
   #356010 * EVar vlmMst2) - #15 * (#6143 + #3198 * EVar vlmMst1 - #3198 * EVar vlmMst2) * EVar vMgl) * EPow P4 (EVar
   vMst1) / (#135 * EVar vMgl * EPow P3 (EVar vMst2))) + (#64 * (#1 + EVar vlmMst2) * (- EVar vDmglst2 + #3 * EVar
   vDmglst2 * EVar vlmMst2 + EVar vMgl + EVar vlmMst2 * EVar vMgl) * EPow P3 (EVar vMst2) / (#3 * EPow P2 (EVar
   vMst1)) + #4 * EConst COepS2 * (- #3 * EVar vMgl * (#627 * EPow P2 (EVar vMst1) * EPow P2 (EVar vMst2) + #1066 *
   EPow P4 (EVar vMst1) + #189 * EPow P4 (EVar vMst2)) + EVar vDmglst2 * (#8163 * EPow P2 (EVar vMst1) * EPow P2 (EVar
   vMst2) + #23734 * EPow P4 (EVar vMst1) + #945 * EPow P4 (EVar vMst2))) / (#729 * EPow P3 (EVar vMst2))) / EVar
   vMgl)) - EVar vs2t * EPow P3 (EVar vMt) * (EDec 6045820987654321 13 + #16 * EConst CD3 / #9 - #16 * EConst CDN / #9
   + #1228 * EVar vlmMst1 / #27 + #64 * EVar vlmMt / #3 + #248 * EPow P2 (EVar vlmMst1) / #9 - #4 * EVar vlmMst2 * (-
   #1901 + #6 * EVar vlmMst1 + #117 * EPow P2 (EVar vlmMst1)) / #27 + (#92 + #64 * EVar vlmMst1 / #9) * EPow P2 (EVar
   vlmMst2) + #64 * EPow P3 (EVar vlmMst1) / #9 + #28 * EPow P3 (EVar vlmMst2) / #9 + (- #5 * EVar vDmsqst2 * (#656 *
   EVar vDmglst2 + (- #367 - #32 * EVar vlmMst1 + #80 * EVar vlmMst2) * EVar vMgl) / (#9 * EPow P2 (EVar vMsq)) + #8 *
   EVar vDmglst2 * (#12454 - #120 * EConst CB4 + #120 * EConst CD3 - #60 * EConst CDN + #690 * EVar vlmMst1 + #345 *
   EPow P2 (EVar vlmMst1) - #5 * EVar vlmMst2 * (- #3121 + #42 * EVar vlmMst1 + #96 * EPow P2 (EVar vlmMst1)) + (#3630
   - #480 * EVar vlmMst1) * EPow P2 (EVar vlmMst2) + #960 * EPow P3 (EVar vlmMst2)) / #135) / EVar vMgl + (EDec
   11993719723012073 13 - #99165049 * EVar vlmMst1 / #99225 + EVar vlmMst2 * (EDec 14278402519526328 13 - #115988 *
   EVar vlmMst1 / #945 - #700 * EPow P2 (EVar vlmMst1) / #9) - #181826 * EPow P2 (EVar vlmMst1) / #945 + (EDec
   4004804232804233 13 - #572 * EVar vlmMst1 / #9) * EPow P2 (EVar vlmMst2) + #64 * EVar vlmMt * (#1 + #4 * EVar
   vlmMst2 - #2 * EVar vlmMst1 * (#2 + EVar vlmMst2) + EPow P2 (EVar vlmMst1) + EPow P2 (EVar vlmMst2)) / #3 + EVar
   vDmsqst2 * (EDec 17506620771294996 14 + #1883624 * EVar vlmMst2 / #19845 + #8 * EVar vlmMst1 * (- #235453 + #114345
   * EVar vlmMst2) / #19845 - #484 * EPow P2 (EVar vlmMst1) / #21 - #484 * EPow P2 (EVar vlmMst2) / #21) / EPow P2
   (EVar vMsq) + #52 * EPow P3 (EVar vlmMst1) / #27 + #3764 * EPow P3 (EVar vlmMst2) / #27 + EVar vDmglst2 * (EDec
   6228225754358181 13 - #64 * EConst CB4 / #9 + #64 * EConst CD3 / #9 - #32 * EConst CDN / #9 + #29853268 * EVar
   vlmMst1 / #19845 + #38704 * EPow P2 (EVar vlmMst1) / #189 + #4 * EVar vlmMst2 * (#2917823 - #3813600 * EVar vlmMst1
   + #97020 * EPow P2 (EVar vlmMst1)) / #19845 + #16 * (#8677 - #5439 * EVar vlmMst1) * EPow P2 (EVar vlmMst2) / #189
   - #128 * EVar vlmMt * (#4 + #6 * EVar vlmMst2 - #2 * EVar vlmMst1 * (#3 + EVar vlmMst2) + EPow P2 (EVar vlmMst1) +
   EPow P2 (EVar vlmMst2)) / #3 - #16 * EPow P3 (EVar vlmMst1) / #9 + #1328 * EPow P3 (EVar vlmMst2) / #3) / EVar
   vMgl) * EPow P4 (EVar vMst1) / EPow P4 (EVar vMst2) + ((- #4 * (#360 * EVar vDmglst2 * EVar vDmsqst2 + EVar
   vDmsqst2 * (#30 - #60 * EVar vlmMst2) * EVar vMgl + #2 * EVar vDmglst2 * (- #52 + #2 * (#51 + #16 * EVar vlmMst1) *
   EVar vlmMst2 + #59 * EPow P2 (EVar vlmMst2)) * EPow P2 (EVar vMsq) + EVar vMgl * (#71 + #122 * EVar vlmMst2 + #32 *
   EVar vlmMst1 * (#1 + EVar vlmMst2) + #59 * EPow P2 (EVar vlmMst2)) * EPow P2 (EVar vMsq)) * EPow P2 (EVar vMst2) /
   (#9 * EPow P2 (EVar vMst1)) - EPow P2 (EVar vMst1) * (#32 * EVar vDmglst2 * (#50625 * EVar vDmsqst2 * (#65 - #2 *
   EVar vlmMst1 + #2 * EVar vlmMst2) - #2 * EPow P2 (EVar vMsq) * (#1928479 - #13500 * EConst CB4 + #13500 * EConst
   CD3 - #6750 * EConst CDN + #635385 * EVar vlmMst1 + #81000 * (- #2 + EVar vlmMst1 - EVar vlmMst2) * EVar vlmMt +
   #450 * EPow P2 (EVar vlmMst1) - #15 * EVar vlmMst2 * (- #153166 + #17835 * EVar vlmMst1 + #3375 * EPow P2 (EVar
   vlmMst1)) - #225 * (- #2627 + #1695 * EVar vlmMst1) * EPow P2 (EVar vlmMst2) - #1125 * EPow P3 (EVar vlmMst1) +
   #433125 * EPow P3 (EVar vlmMst2))) - #5 * EVar vMgl * (#12 * EVar vDmsqst2 * (#339977 + #96120 * EVar vlmMst2 +
   #1080 * EVar vlmMst1 * (- #89 + #60 * EVar vlmMst2) - #32400 * EPow P2 (EVar vlmMst1) - #32400 * EPow P2 (EVar
   vlmMst2)) + EPow P2 (EVar vMsq) * (#19425643 + #518400 * EVar vlmMt + #240 * EVar vlmMst2 * (#82997 + #4320 * EVar
   vlmMt) - #3600 * (#683 + #96 * EVar vlmMst2) * EPow P2 (EVar vlmMst1) + #5684400 * EPow P2 (EVar vlmMst2) - #240 *
   EVar vlmMst1 * (#42047 + #4800 * EVar vlmMst2 + #4320 * EVar vlmMt + #6390 * EPow P2 (EVar vlmMst2)) - #295200 *
   EPow P3 (EVar vlmMst1) + #2174400 * EPow P3 (EVar vlmMst2)))) / (#121500 * EPow P2 (EVar vMst2))) / EPow P2 (EVar
   vMsq) + #64 * (#1 + EVar vlmMst2) * (#4 * EVar vDmglst2 * EVar vlmMst2 + EVar vMgl + EVar vlmMst2 * EVar vMgl) *
   EPow P4 (EVar vMst2) / (#9 * EPow P4 (EVar vMst1)) + (- #100 * EVar vDmsqst2 * EVar vMgl * (#9 * (#40 * EConst
   COepS2 - #27 * (#127 + #30 * EVar vlmMst1 - #30 * EVar vlmMst2) * EConst CS2) * EPow P2 (EVar vMst1) * EPow P2
   (EVar vMst2) + (#424 * EConst COepS2 - #27 * (#1283 + #318 * EVar vlmMst1 - #318 * EVar vlmMst2) * EConst CS2) *
   EPow P4 (EVar vMst1) + #27 * (#8 * EConst COepS2 - #81 * (#9 + #2 * EVar vlmMst1 - #2 * EVar vlmMst2) * EConst CS2)
   * EPow P4 (EVar vMst2)) + EPow P2 (EVar vMsq) * (#24 * EVar vDmglst2 * (#15 * (#400 * EConst COepS2 - #81 * (#139 +
   #100 * EVar vlmMst1 - #100 * EVar vlmMst2) * EConst CS2) * EPow P2 (EVar vMst1) * EPow P2 (EVar vMst2) + (#36760 *
   EConst COepS2 - #54 * (#17269 + #13785 * EVar vlmMst1 - #13785 * EVar vlmMst2) * EConst CS2) * EPow P4 (EVar vMst1)
   - #153819 * EConst CS2 * EPow P4 (EVar vMst2)) - EVar vMgl * (#3 * (#69400 * EConst COepS2 - #81 * (#17113 + #17350
   * EVar vlmMst1 - #17350 * EVar vlmMst2) * EConst CS2) * EPow P2 (EVar vMst1) * EPow P2 (EVar vMst2) + #4 * (#120620
   * EConst COepS2 - #27 * (#138286 + #90465 * EVar vlmMst1 - #90465 * EVar vlmMst2) * EConst CS2) * EPow P4 (EVar
   vMst1) + #27 * (#2120 * EConst COepS2 - #81 * (- #141 + #530 * EVar vlmMst1 - #530 * EVar vlmMst2) * EConst CS2) *
   EPow P4 (EVar vMst2)))) / (#3645 * EPow P2 (EVar vMsq) * EPow P4 (EVar vMst2))) / EVar vMgl) + EPow P4 (EVar vMt) *
   (#129600 * EVar vDmglst2 * EVar vDmsqst2 * EPow P2 (EVar vMst1) * EPow P2 (EVar vMst2) * ((#497 - #306 * EVar
   vlmMst1 + #609 * EVar vlmMst2 - #303 * EVar vlmMt) * EPow P2 (EVar vMst1) + (#101 - #90 * EVar vlmMst1 + #177 *
   EVar vlmMst2 - #87 * EVar vlmMt) * EPow P2 (EVar vMst2)) + #1166400 * EVar vDmsqst2 * EVar vMgl * EPow P2 (EVar
   vMst1) * EPow P2 (EVar vMst2) * ((#1 + #6 * EVar vlmMst1 - #13 * EVar vlmMst2 + #7 * EVar vlmMt) * EPow P2 (EVar
   vMst1) + (#5 + #2 * EVar vlmMst1 - #5 * EVar vlmMst2 + #3 * EVar vlmMt) * EPow P2 (EVar vMst2)) - EVar vDmglst2 *
   EPow P2 (EVar vMsq) * (#216 * EPow P2 (EVar vMst2) * (#97837 + #71580 * EVar vlmMt - #9920 * EConst COepS2 + #43272
   * EConst CS2 - #360 * (#23 + #8 * EVar vlmMst2 - #4 * EVar vlmMt) * EPow P2 (EVar vlmMst1) + #720 * (#97 + #2 *
   EVar vlmMt) * EPow P2 (EVar vlmMst2) - #8640 * EPow P2 (EVar vlmMt) - #30 * EVar vlmMst2 * (- #2911 + #396 * EVar
   vlmMt + #6696 * EConst CS2 + #144 * EPow P2 (EVar vlmMt)) + #10 * EVar vlmMst1 * (- #6157 + #642 * EVar vlmMt - #6
   * EVar vlmMst2 * (#791 + #48 * EVar vlmMt) + #20088 * EConst CS2 + #882 * EPow P2 (EVar vlmMst2) + #432 * EPow P2
   (EVar vlmMt)) - #5940 * EPow P3 (EVar vlmMst2)) * EPow P4 (EVar vMst1) + #135 * EPow P2 (EVar vMst1) * (#57495 +
   #45408 * EVar vlmMt - #1120 * EConst COepS2 - #43740 * EConst CS2 - #8 * EVar vlmMst2 * (- #6952 + #588 * EVar
   vlmMt + #2835 * EConst CS2) + #2304 * (- #1 + EVar vlmMst2) * EPow P2 (EVar vlmMst1) + #96 * (#79 + #48 * EVar
   vlmMt) * EPow P2 (EVar vlmMst2) + #72 * EVar vlmMst1 * (- #88 + #64 * EVar vlmMt - #8 * EVar vlmMst2 * (#9 + #8 *
   EVar vlmMt) + #315 * EConst CS2 + #164 * EPow P2 (EVar vlmMst2)) - #14112 * EPow P3 (EVar vlmMst2)) * EPow P4 (EVar
   vMst2) + #20 * (#5659217 + #1592460 * EVar vlmMt - #518816 * EConst COepS2 + #9976392 * EConst CS2 - #972 * (#569 +
   #180 * EVar vlmMst2 - #126 * EVar vlmMt) * EPow P2 (EVar vlmMst1) + #324 * (#5353 + #126 * EVar vlmMt) * EPow P2
   (EVar vlmMst2) - #186624 * EPow P2 (EVar vlmMt) + #72 * EVar vlmMst1 * (- #27653 - #3015 * EVar vlmMt - #18 * EVar
   vlmMst2 * (#689 + #126 * EVar vlmMt) + #145917 * EConst CS2 + #2160 * EPow P2 (EVar vlmMst2) + #2592 * EPow P2
   (EVar vlmMt)) - #36 * EVar vlmMst2 * (- #39031 - #3204 * EVar vlmMt + #291834 * EConst CS2 + #5184 * EPow P2 (EVar
   vlmMt)) + #1944 * EPow P3 (EVar vlmMst1) + #17496 * EPow P3 (EVar vlmMst2)) * EPow P6 (EVar vMst1) - #622080 * (-
   #1 + #2 * EVar vlmMst2 + #3 * EPow P2 (EVar vlmMst2)) * EPow P6 (EVar vMst2)) + #3 * EVar vMgl * EPow P2 (EVar
   vMsq) * (#48 * EPow P2 (EVar vMst2) * (#110219 - #1080 * EVar vlmMt - #4400 * EConst COepS2 + #74034 * EConst CS2 +
   #540 * (- #15 + #4 * EVar vlmMt) * EPow P2 (EVar vlmMst1) + #810 * (#121 - #8 * EVar vlmMt) * EPow P2 (EVar
   vlmMst2) - #135 * EVar vlmMst1 * (#337 + EVar vlmMst2 * (#588 - #32 * EVar vlmMt) - #132 * EVar vlmMt - #660 *
   EConst CS2 + #194 * EPow P2 (EVar vlmMst2) - #48 * EPow P2 (EVar vlmMt)) - #6480 * EPow P2 (EVar vlmMt) - #405 *
   EVar vlmMst2 * (#31 + #54 * EVar vlmMt + #220 * EConst CS2 + #16 * EPow P2 (EVar vlmMt)) + #26190 * EPow P3 (EVar
   vlmMst2)) * EPow P4 (EVar vMst1) + #27 * EPow P2 (EVar vMst1) * (#56439 - #24000 * EVar vlmMt - #1120 * EConst
   COepS2 - #25596 * EConst CS2 - #360 * EVar vlmMst2 * (- #12 + #44 * EVar vlmMt + #63 * EConst CS2) - #3840 * (#1 +
   EVar vlmMst2) * EPow P2 (EVar vlmMst1) + #480 * (#163 - #16 * EVar vlmMt) * EPow P2 (EVar vlmMst2) - #120 * EVar
   vlmMst1 * (#184 + #8 * EVar vlmMst2 * (#57 - #8 * EVar vlmMt) - #64 * EVar vlmMt - #189 * EConst CS2 + #164 * EPow
   P2 (EVar vlmMst2)) - #11520 * EPow P2 (EVar vlmMt) + #23520 * EPow P3 (EVar vlmMst2)) * EPow P4 (EVar vMst2) + #20
   * (#678923 + #19440 * EVar vlmMt - #32480 * EConst COepS2 + #881712 * EConst CS2 + #108 * (- #457 + #12 * EVar
   vlmMst2 + #126 * EVar vlmMt) * EPow P2 (EVar vlmMst1) + #540 * (#661 - #30 * EVar vlmMt) * EPow P2 (EVar vlmMst2) -
   #108 * EVar vlmMst1 * (#1841 + EVar vlmMst2 * (#2626 - #24 * EVar vlmMt) - #420 * EVar vlmMt - #6090 * EConst CS2 +
   #840 * EPow P2 (EVar vlmMst2) - #288 * EPow P2 (EVar vlmMt)) - #15552 * EPow P2 (EVar vlmMt) - #108 * EVar vlmMst2
   * (#619 + #498 * EVar vlmMt + #6090 * EConst CS2 + #288 * EPow P2 (EVar vlmMt)) + #216 * EPow P3 (EVar vlmMst1) +
   #89208 * EPow P3 (EVar vlmMst2)) * EPow P6 (EVar vMst1) + #207360 * EPow P2 (#1 + EVar vlmMst2) * EPow P6 (EVar
   vMst2))) / (#21870 * EVar vMgl * EPow P2 (EVar vMsq) * EPow P2 (EVar vMst1) * EPow P5 (EVar vMst2)) + EVar vMt * (-
   (EPow P2 (EVar vMst2) * (- #2 * EVar vs2t * (#5 * EVar vDmsqst2 * (#3 - #2 * EVar vlmMst2) * EVar vshiftst1 * EPow
   P2 (EVar vMst2) * EPow P2 (EVar vs2t) + (#1 - #2 * EVar vlmMst2) * EPow P2 (EVar vMsq) * (- #2 * EVar vshiftst3 *
   EPow P2 (EVar vMt) + #5 * EVar vshiftst1 * EPow P2 (EVar vMst2) * EPow P2 (EVar vs2t))) + (#1 - #2 * EVar vlmMst2)
   * EVar vshiftst3 * EPow P2 (EVar vMsq) * ((#1 + EVar vlmMst1 - EVar vlmMst2) * EPow P2 (EVar vMst1) - EPow P2 (EVar
   vMst2)) * EPow P3 (EVar vs2t)) + #10 * EVar vs2t * EVar vshiftst1 * (EVar vDmsqst2 * (#3 - #2 * EVar vlmMst2) + (#1
   - #2 * EVar vlmMst2) * EPow P2 (EVar vMsq)) * (#4 * EPow P2 (EVar vMst2) * EPow P2 (EVar vMt) - #2 * EPow P2 (EVar
   vMst1) * (#2 * EPow P2 (EVar vMt) + (- EVar vlmMst1 + EVar vlmMst2) * EPow P2 (EVar vMst2) * EPow P2 (EVar vs2t)) +
   EPow P2 (EVar vs2t) * EPow P4 (EVar vMst1))) / (#3 * EPow P2 (EVar vMsq) * EPow P2 (EVar vMst1)) + EPow P3 (EVar
   vs2t) * (EPow P2 (EVar vMst1) * (#202500 * EVar vDmglst2 * EVar vDmsqst2 * (#55 - #34 * EVar vlmMst1 + #34 * EVar
   vlmMst2) + #60 * EVar vDmsqst2 * EVar vMgl * (#97294 - #17235 * EVar vlmMst2 + #45 * EVar vlmMst1 * (#233 + #330 *
   EVar vlmMst2) - #7425 * EPow P2 (EVar vlmMst1) - #7425 * EPow P2 (EVar vlmMst2)) + #5 * EVar vMgl * EPow P2 (EVar
   vMsq) * (#4627751 + #48600 * EConst CB4 + #5400 * EConst CD3 - #5400 * EConst CDN + #1320240 * EVar vlmMst1 -
   #662400 * EPow P2 (EVar vlmMst1) - #30 * EVar vlmMst2 * (#12148 - #76560 * EVar vlmMst1 + #12105 * EPow P2 (EVar
   vlmMst1)) + #2250 * (- #583 + #438 * EVar vlmMst1) * EPow P2 (EVar vlmMst2) - #49500 * EPow P3 (EVar vlmMst1) -
   #572850 * EPow P3 (EVar vlmMst2)) - EVar vDmglst2 * EPow P2 (EVar vMsq) * (#5430043 + #524580 * EVar vlmMst2 + #900
   * (- #859 + #3690 * EVar vlmMst2) * EPow P2 (EVar vlmMst1) + #1454400 * EPow P2 (EVar vlmMst2) - #60 * EVar vlmMst1
   * (#51493 + #24630 * EVar vlmMst2 + #112950 * EPow P2 (EVar vlmMst2)) + #45000 * EPow P3 (EVar vlmMst1) + #3411000
   * EPow P3 (EVar vlmMst2))) / (#60750 * EVar vMgl * EPow P2 (EVar vMsq)) + (EDec 19390296838394383 14 - #61388401 *
   EVar vlmMst1 / #396900 + EVar vlmMst2 * (EDec 1473919148400101 13 + #302047 * EVar vlmMst1 / #945 - #514 * EPow P2
   (EVar vlmMst1) / #9) - #152966 * EPow P2 (EVar vlmMst1) / #945 - (EDec 15775767195767196 14 - #122 * EVar vlmMst1)
   * EPow P2 (EVar vlmMst2) + EVar vDmsqst2 * (EDec 3554686742892336 14 - #905536 * EVar vlmMst1 / #19845 + (EDec
   45630435878054925 15 + #244 * EVar vlmMst1 / #7) * EVar vlmMst2 + #10 * EVar vDmglst2 * (#419 - #57 * EVar vlmMst1
   + #57 * EVar vlmMst2) / (#27 * EVar vMgl) - #122 * EPow P2 (EVar vlmMst1) / #7 - #122 * EPow P2 (EVar vlmMst2) /
   #7) / EPow P2 (EVar vMsq) - #70 * EPow P3 (EVar vlmMst1) / #27 - #1682 * EPow P3 (EVar vlmMst2) / #27 - EVar
   vDmglst2 * (EDec 4077379592503276 13 + #2171669 * EVar vlmMst2 / #59535 + #2 * (#433 + #6552 * EVar vlmMst2) * EPow
   P2 (EVar vlmMst1) / #189 + #3974 * EPow P2 (EVar vlmMst2) / #189 - EVar vlmMst1 * (#2740559 + #1524600 * EVar
   vlmMst2 + #7514640 * EPow P2 (EVar vlmMst2)) / #59535 - #112 * EPow P3 (EVar vlmMst1) / #27 + #1648 * EPow P3 (EVar
   vlmMst2) / #27) / EVar vMgl) * EPow P4 (EVar vMst1) / EPow P2 (EVar vMst2) + ((- (EPow P2 (EVar vMst2) * (EVar
   vDmsqst2 * (#4320 * EVar vDmglst2 * (#5 + #2 * EVar vlmMst1 - #2 * EVar vlmMst2) + #30 * EVar vMgl * (- #1177 +
   #336 * EVar vlmMst2 + #48 * EVar vlmMst1 * (- #7 + #3 * EVar vlmMst2) - #144 * EPow P2 (EVar vlmMst2))) + EPow P2
   (EVar vMsq) * (- (EVar vMgl * (#21005 + #1440 * EConst CB4 - #144 * EConst CD3 + #72 * EConst CDN + #21216 * EVar
   vlmMst1 + #1908 * EPow P2 (EVar vlmMst1) - #12 * EVar vlmMst2 * (#2950 - #2040 * EVar vlmMst1 + #117 * EPow P2
   (EVar vlmMst1)) + #108 * (- #283 + #98 * EVar vlmMst1) * EPow P2 (EVar vlmMst2) + #576 * EPow P3 (EVar vlmMst1) -
   #9756 * EPow P3 (EVar vlmMst2))) + #2 * EVar vDmglst2 * (#14987 - #432 * EConst CB4 + #576 * EConst CD3 - #360 *
   EConst CDN + #4752 * EVar vlmMst1 - #1404 * EPow P2 (EVar vlmMst1) + #144 * EVar vlmMst2 * (- #81 - #124 * EVar
   vlmMst1 + #8 * EPow P2 (EVar vlmMst1)) - #36 * (- #439 + #246 * EVar vlmMst1) * EPow P2 (EVar vlmMst2) + #7704 *
   EPow P3 (EVar vlmMst2))))) / #324 - (#360 * EVar vDmglst2 * EVar vDmsqst2 + EVar vDmsqst2 * (#30 - #60 * EVar
   vlmMst2) * EVar vMgl + EVar vMgl * (#119 + #218 * EVar vlmMst2 + #32 * EVar vlmMst1 * (#1 + EVar vlmMst2) + #107 *
   EPow P2 (EVar vlmMst2)) * EPow P2 (EVar vMsq) + #2 * EVar vDmglst2 * (- #20 + (#230 + #32 * EVar vlmMst1) * EVar
   vlmMst2 + #155 * EPow P2 (EVar vlmMst2)) * EPow P2 (EVar vMsq)) * EPow P4 (EVar vMst2) / (#9 * EPow P2 (EVar
   vMst1))) / EPow P2 (EVar vMsq) + (- #30 * EVar vDmsqst2 * EVar vMgl * (#18 * (#40 * EConst COepS2 - #27 * (#59 +
   #30 * EVar vlmMst1 - #30 * EVar vlmMst2) * EConst CS2) * EPow P2 (EVar vMst1) * EPow P2 (EVar vMst2) + #4 * (#208 *
   EConst COepS2 - #27 * (#347 + #156 * EVar vlmMst1 - #156 * EVar vlmMst2) * EConst CS2) * EPow P4 (EVar vMst1) + #27
   * (#8 * EConst COepS2 - #81 * (- #15 + #2 * EVar vlmMst1 - #2 * EVar vlmMst2) * EConst CS2) * EPow P4 (EVar vMst2))
   + EPow P2 (EVar vMsq) * (#3 * EVar vMgl * (- #60 * (#340 * EConst COepS2 - #81 * (#424 + #85 * EVar vlmMst1 - #85 *
   EVar vlmMst2) * EConst CS2) * EPow P2 (EVar vMst1) * EPow P2 (EVar vMst2) - #35 * (#788 * EConst COepS2 - #27 *
   (#2662 + #591 * EVar vlmMst1 - #591 * EVar vlmMst2) * EConst CS2) * EPow P4 (EVar vMst1) + #27 * (- #184 * EConst
   COepS2 + #81 * (#307 + #46 * EVar vlmMst1 - #46 * EVar vlmMst2) * EConst CS2) * EPow P4 (EVar vMst2)) + #2 * EVar
   vDmglst2 * (#27 * (#632 * EConst COepS2 + #9 * (#16193 - #1422 * EVar vlmMst1 + #1422 * EVar vlmMst2) * EConst CS2)
   * EPow P2 (EVar vMst1) * EPow P2 (EVar vMst2) + #2 * (#25328 * EConst COepS2 + #27 * (#47051 - #18996 * EVar
   vlmMst1 + #18996 * EVar vlmMst2) * EConst CS2) * EPow P4 (EVar vMst1) + #27 * (#56 * EConst COepS2 - #81 * (- #1677
   + #14 * EVar vlmMst1 - #14 * EVar vlmMst2) * EConst CS2) * EPow P4 (EVar vMst2)))) / (#2187 * EPow P2 (EVar vMsq) *
   EPow P2 (EVar vMst2)) + #16 * (#1 + EVar vlmMst2) * (#4 * EVar vDmglst2 * EVar vlmMst2 + EVar vMgl + EVar vlmMst2 *
   EVar vMgl) * EPow P6 (EVar vMst2) / (#9 * EPow P4 (EVar vMst1))) / EVar vMgl) - #2 * EConst CT1ep * (- #3 * EVar
   vMgl * EPow P2 (EVar vMsq) * (#3 * EPow P2 (EVar vMst1) * EPow P2 (EVar vMst2) * (- #3470 * EVar vMst2 * EVar vs2t
   * EPow P2 (EVar vMt) - #627 * EVar vMt * EPow P2 (EVar vMst2) * EPow P2 (EVar vs2t) + #1760 * EPow P3 (EVar vMt) +
   #1700 * EPow P3 (EVar vMst2) * EPow P3 (EVar vs2t)) + (- #24124 * EVar vMst2 * EVar vs2t * EPow P2 (EVar vMt) -
   #3198 * EVar vMt * EPow P2 (EVar vMst2) * EPow P2 (EVar vs2t) + #16240 * EPow P3 (EVar vMt) + #6895 * EPow P3 (EVar
   vMst2) * EPow P3 (EVar vs2t)) * EPow P4 (EVar vMst1) + #27 * (- #106 * EVar vMst2 * EVar vs2t * EPow P2 (EVar vMt)
   - #21 * EVar vMt * EPow P2 (EVar vMst2) * EPow P2 (EVar vs2t) + #28 * EPow P3 (EVar vMt) + #46 * EPow P3 (EVar
   vMst2) * EPow P3 (EVar vs2t)) * EPow P4 (EVar vMst2)) + #60 * EVar vDmsqst2 * EVar vMgl * EVar vMst2 * EVar vs2t *
   (#2 * (#53 * EPow P2 (EVar vMt) - #52 * EPow P2 (EVar vMst2) * EPow P2 (EVar vs2t)) * EPow P4 (EVar vMst1) + #54 *
   EPow P2 (EVar vMt) * EPow P4 (EVar vMst2) + #90 * EPow P2 (EVar vMst1) * (EPow P2 (EVar vMst2) * EPow P2 (EVar vMt)
   - EPow P2 (EVar vs2t) * EPow P4 (EVar vMst2)) - #27 * EPow P2 (EVar vs2t) * EPow P6 (EVar vMst2)) + EVar vDmglst2 *
   EPow P2 (EVar vMsq) * (#27 * EPow P2 (EVar vMst1) * EPow P2 (EVar vMst2) * (- #800 * EVar vMst2 * EVar vs2t * EPow
   P2 (EVar vMt) - #907 * EVar vMt * EPow P2 (EVar vMst2) * EPow P2 (EVar vs2t) + #1984 * EPow P3 (EVar vMt) + #316 *
   EPow P3 (EVar vMst2) * EPow P3 (EVar vs2t)) + #2 * (- #66168 * EVar vMst2 * EVar vs2t * EPow P2 (EVar vMt) - #35601
   * EVar vMt * EPow P2 (EVar vMst2) * EPow P2 (EVar vs2t) + #129704 * EPow P3 (EVar vMt) + #12664 * EPow P3 (EVar
   vMst2) * EPow P3 (EVar vs2t)) * EPow P4 (EVar vMst1) + #189 * (#20 * EPow P3 (EVar vMt) * EPow P4 (EVar vMst2) -
   #15 * EVar vMt * EPow P2 (EVar vs2t) * EPow P6 (EVar vMst2) + #4 * EPow P3 (EVar vs2t) * EPow P7 (EVar vMst2)))) /
   (#729 * EVar vMgl * EPow P2 (EVar vMsq) * EPow P5 (EVar vMst2)))) / EVar vTbeta + (#5 * EVar vshiftst1 * (EVar
   vDmsqst2 * (#3 - #2 * EVar vlmMst2) + (#1 - #2 * EVar vlmMst2) * EPow P2 (EVar vMsq)) * (- (EPow P4 (EVar vMst2) *
   (EPow P2 (EVar vs2t) * (- #8 * EPow P2 (EVar vMt) + (EPow P2 (EVar vMst1) - EPow P2 (EVar vMst2)) * EPow P2 (EVar
   vs2t)) * EPow P2 (EVar vSbeta) * EPow P4 (EVar vMst1) + EPow P2 (EVar vMst1) * (#4 * EPow P2 (EVar vMt) * EPow P2
   (EVar vs2t) * (- (EPow P2 (EVar vMuSUSY) * (- #1 + EPow P2 (EVar vSbeta))) + #4 * EPow P2 (EVar vMst2) * EPow P2
   (EVar vSbeta)) + EPow P2 (EVar vSbeta) * (#16 * EPow P4 (EVar vMt) - EPow P4 (EVar vMst2) * EPow P4 (EVar vs2t))) +
   EPow P2 (EVar vMst2) * (- #4 * EPow P2 (EVar vMt) * EPow P2 (EVar vs2t) * (EPow P2 (EVar vMuSUSY) * (- #1 + EPow P2
   (EVar vSbeta)) + #2 * EPow P2 (EVar vMst2) * EPow P2 (EVar vSbeta)) + EPow P2 (EVar vSbeta) * (#16 * EPow P4 (EVar
   vMt) + EPow P4 (EVar vMst2) * EPow P4 (EVar vs2t))))) + #2 * (EVar vlmMst1 - EVar vlmMst2) * EPow P2 (EVar vMst1) *
   EPow P2 (EVar vs2t) * (- #4 * EPow P2 (EVar vMt) * EPow P2 (EVar vMuSUSY) * (- #1 + EPow P2 (EVar vSbeta)) * (EPow
   P4 (EVar vMst1) + EPow P4 (EVar vMst2)) - EPow P2 (EVar vMst1) * EPow P2 (EVar vMst2) * (#4 * EPow P2 (EVar vMt) *
   EPow P2 (EVar vMuSUSY) * (- #1 + EPow P2 (EVar vSbeta)) + EPow P2 (EVar vs2t) * EPow P2 (EVar vSbeta) * EPow P4
   (EVar vMst2)) + EPow P2 (EVar vs2t) * EPow P2 (EVar vSbeta) * EPow P8 (EVar vMst2))) / (#6 * EPow P2 (EVar vMsq) *
   EPow P2 (EVar vSbeta)) + (#1 - #2 * EVar vlmMst2) * EVar vshiftst3 * ((#8 * (- #1 + EVar vlmMst1 - EVar vlmMst2) *
   EPow P2 (EVar vMst1) * EPow P2 (EVar vMt) * EPow P2 (EVar vs2t) - #16 * EPow P4 (EVar vMt) - (- #4 * EPow P2 (EVar
   vMst1) * EPow P2 (EVar vMst2) + (#3 + #2 * EVar vlmMst1 - #2 * EVar vlmMst2) * EPow P4 (EVar vMst1) + EPow P4 (EVar
   vMst2)) * EPow P4 (EVar vs2t)) * EPow P6 (EVar vMst2) - #4 * EPow P2 (EVar vMt) * EPow P2 (EVar vMuSUSY) * EPow P2
   (EVar vs2t) * (#2 * (#1 - #2 * EVar vlmMst1 + #2 * EVar vlmMst2) * EPow P2 (EVar vMst2) * EPow P4 (EVar vMst1) + #2
   * (#1 - EVar vlmMst1 + EVar vlmMst2) * EPow P2 (EVar vMst1) * EPow P4 (EVar vMst2) + (#2 - #6 * EVar vlmMst1 + #6 *
   EVar vlmMst2) * EPow P6 (EVar vMst1) + EPow P6 (EVar vMst2)) / EPow P2 (EVar vSbeta) + #4 * EPow P2 (EVar vMt) *
   EPow P2 (EVar vs2t) * (EPow P2 (EVar vMuSUSY) * EPow P6 (EVar vMst2) + #2 * (EPow P2 (EVar vMuSUSY) * ((#1 - #2 *
   EVar vlmMst1 + #2 * EVar vlmMst2) * EPow P2 (EVar vMst2) * EPow P4 (EVar vMst1) + (#1 - EVar vlmMst1 + EVar
   vlmMst2) * EPow P2 (EVar vMst1) * EPow P4 (EVar vMst2) + (#1 - #3 * EVar vlmMst1 + #3 * EVar vlmMst2) * EPow P6
   (EVar vMst1)) + EPow P8 (EVar vMst2)))) / #12) / (EPow P2 (EVar vMst1) * EPow P4 (EVar vMst2))) - EVar vAl4p * EVar
   vxDR2DRMOD * ((#2 * EVar vDmglst2 * EVar vlmMst2 + EVar vMgl + EVar vlmMst2 * EVar vMgl) * EVar vtwoLoopFlag * (-
   (EPow P2 (EVar vMst2) * EPow P2 (EVar vs2t) * EPow P4 (EVar vMst1) * (- #8 * (EVar vlmMst1 - EVar vlmMst2) * EVar
   vTbeta * EPow P2 (EVar vMt) * EPow P2 (EVar vMuSUSY) * (- #1 + EPow P2 (EVar vSbeta)) + #4 * EVar vMt * (- (EVar
   vMuSUSY * EVar vs2t) + #2 * EVar vMt * EVar vTbeta) * EPow P2 (EVar vMst2) * EPow P2 (EVar vSbeta) + (#1 - #2 *
   EVar vlmMst1 + #2 * EVar vlmMst2) * EVar vTbeta * EPow P2 (EVar vs2t) * EPow P2 (EVar vSbeta) * EPow P4 (EVar
   vMst2))) - EPow P2 (EVar vMst1) * EPow P4 (EVar vMst2) * (- #4 * EVar vTbeta * EPow P2 (EVar vMt) * EPow P2 (EVar
   vs2t) * ((- #1 + #2 * EVar vlmMst1 - #2 * EVar vlmMst2) * EPow P2 (EVar vMuSUSY) * (- #1 + EPow P2 (EVar vSbeta)) +
   #4 * EPow P2 (EVar vMst2) * EPow P2 (EVar vSbeta)) + EPow P2 (EVar vSbeta) * (#16 * EVar vMuSUSY * EVar vs2t * EPow
   P3 (EVar vMt) + #8 * (- EVar vlmMst1 + EVar vlmMst2) * EVar vMt * EVar vMuSUSY * EPow P2 (EVar vMst2) * EPow P3
   (EVar vs2t) - #16 * EVar vTbeta * EPow P4 (EVar vMt) + (#1 + #2 * EVar vlmMst1 - #2 * EVar vlmMst2) * EVar vTbeta *
   EPow P4 (EVar vMst2) * EPow P4 (EVar vs2t))) + EVar vTbeta * EPow P2 (EVar vs2t) * (#8 * (EVar vlmMst1 - EVar
   vlmMst2) * EPow P2 (EVar vMt) * EPow P2 (EVar vMuSUSY) * (- #1 + EPow P2 (EVar vSbeta)) + EPow P2 (EVar vs2t) *
   EPow P2 (EVar vSbeta) * EPow P4 (EVar vMst2)) * EPow P6 (EVar vMst1) + (- #4 * EVar vTbeta * EPow P2 (EVar vMt) *
   EPow P2 (EVar vs2t) * (EPow P2 (EVar vMuSUSY) * (- #1 + EPow P2 (EVar vSbeta)) + #2 * EPow P2 (EVar vMst2) * EPow
   P2 (EVar vSbeta)) + EPow P2 (EVar vSbeta) * (#16 * EVar vMuSUSY * EVar vs2t * EPow P3 (EVar vMt) - #4 * EVar vMt *
   EVar vMuSUSY * EPow P2 (EVar vMst2) * EPow P3 (EVar vs2t) + #16 * EVar vTbeta * EPow P4 (EVar vMt) + EVar vTbeta *
   EPow P4 (EVar vMst2) * EPow P4 (EVar vs2t))) * EPow P6 (EVar vMst2)) / (#6 * EVar vMgl * EVar vTbeta * EPow P2
   (EVar vMst1) * EPow P2 (EVar vSbeta) * EPow P4 (EVar vMst2)) + EVar vAl4p * EVar vthreeLoopFlag * EVar vxDmsqst2 *
   EPow P2 (EVar vDmsqst2) * (#20 * EPow P2 (EVar vMt) * EPow P2 (EVar vMuSUSY) * EPow P2 (EVar vs2t) * (#11 - #22 *
   EVar vlmMst1 + #22 * EVar vlmMst2 + #10 * EVar vDmglst2 * (#1 - #2 * EVar vlmMst1 + #2 * EVar vlmMst2) / EVar vMgl
   + (#10 * EVar vDmglst2 + #11 * EVar vMgl) * EPow P2 (EVar vMst2) / (EVar vMgl * EPow P2 (EVar vMst1)) + (EVar
   vlmMst1 - EVar vlmMst2) * (#2 * (#4 * EVar vDmglst2 - #11 * EVar vMgl) * EPow P2 (EVar vMst1) / (EVar vMgl * EPow
   P2 (EVar vMst2)) - #20 * EPow P4 (EVar vMst1) / EPow P4 (EVar vMst2))) / EPow P2 (EVar vSbeta) + #20 * EVar vMt *
   EVar vMuSUSY * EVar vs2t * (#10 * EVar vDmglst2 + EVar vMgl * (#11 - #18 * EVar vshiftst1)) * (- #4 * EPow P2 (EVar
   vMst1) * EPow P2 (EVar vMt) + #4 * EPow P2 (EVar vMst2) * EPow P2 (EVar vMt) + #2 * (EVar vlmMst1 - EVar vlmMst2) *
   EPow P2 (EVar vMst1) * EPow P2 (EVar vMst2) * EPow P2 (EVar vs2t) + EPow P2 (EVar vs2t) * (EPow P4 (EVar vMst1) -
   EPow P4 (EVar vMst2))) / (EVar vMgl * EVar vTbeta * EPow P2 (EVar vMst1)) + #80 * (#11 + #10 * EVar vDmglst2 / EVar
   vMgl) * (#1 + EPow P2 (EVar vMst2) / EPow P2 (EVar vMst1)) * EPow P4 (EVar vMt) - #90 * EVar vshiftst1 * (#4 * EPow
   P2 (EVar vMt) * EPow P2 (EVar vMuSUSY) * EPow P2 (EVar vs2t) * (#1 + EPow P2 (EVar vMst2) / EPow P2 (EVar vMst1) -
   #2 * (EVar vlmMst1 - EVar vlmMst2) * (EPow P2 (EVar vMst1) * EPow P2 (EVar vMst2) + EPow P4 (EVar vMst1) + EPow P4
   (EVar vMst2)) / EPow P4 (EVar vMst2)) / EPow P2 (EVar vSbeta) - #4 * EPow P2 (EVar vMt) * EPow P2 (EVar vs2t) * (#2
   * EPow P2 (EVar vMst1) - #4 * EPow P2 (EVar vMst2) + #2 * EPow P4 (EVar vMst2) / EPow P2 (EVar vMst1) + EPow P2
   (EVar vMuSUSY) * (#1 + EPow P2 (EVar vMst2) / EPow P2 (EVar vMst1) - #2 * (EVar vlmMst1 - EVar vlmMst2) * (EPow P2
   (EVar vMst1) * EPow P2 (EVar vMst2) + EPow P4 (EVar vMst1) + EPow P4 (EVar vMst2)) / EPow P4 (EVar vMst2))) + #16 *
   (#1 + EPow P2 (EVar vMst2) / EPow P2 (EVar vMst1)) * EPow P4 (EVar vMt) + (EPow P2 (EVar vMst1) - EPow P2 (EVar
   vMst2)) * (#2 * (EVar vlmMst1 - EVar vlmMst2) * EPow P2 (EVar vMst1) * EPow P2 (EVar vMst2) + EPow P4 (EVar vMst1)
   - EPow P4 (EVar vMst2)) * EPow P4 (EVar vs2t) / EPow P2 (EVar vMst1)) + #24 * EVar vxDmglst2 * EPow P2 (EVar
   vDmglst2) * (#5 * (#1 - #2 * EVar vlmMst1 + #2 * EVar vlmMst2 + #20 * (EVar vlmMst1 - EVar vlmMst2) * EPow P2 (EVar
   vMst1) / EPow P2 (EVar vMst2) + EPow P2 (EVar vMst2) / EPow P2 (EVar vMst1)) * EPow P2 (EVar vMt) * EPow P2 (EVar
   vMuSUSY) * EPow P2 (EVar vs2t) / (#2 * EPow P2 (EVar vSbeta)) - #5 * EVar vMuSUSY * (#4 * EVar vs2t * (EPow P2
   (EVar vMst1) - EPow P2 (EVar vMst2)) * EPow P3 (EVar vMt) - EVar vMt * EPow P3 (EVar vs2t) * (#2 * (EVar vlmMst1 -
   EVar vlmMst2) * EPow P2 (EVar vMst1) * EPow P2 (EVar vMst2) + EPow P4 (EVar vMst1) - EPow P4 (EVar vMst2))) / (#2 *
   EVar vTbeta * EPow P2 (EVar vMst1)) - EPow P2 (EVar vMt) * EPow P2 (EVar vs2t) * (#5 * EPow P2 (EVar vMst1) - #10 *
   EPow P2 (EVar vMst2) + #5 * (#1 - #2 * EVar vlmMst1 + #2 * EVar vlmMst2 + #20 * (EVar vlmMst1 - EVar vlmMst2) *
   EPow P2 (EVar vMst1) / EPow P2 (EVar vMst2) + EPow P2 (EVar vMst2) / EPow P2 (EVar vMst1)) * EPow P2 (EVar vMuSUSY)
   / #2 + #5 * EPow P4 (EVar vMst2) / EPow P2 (EVar vMst1)) + #10 * (#1 + EPow P2 (EVar vMst2) / EPow P2 (EVar vMst1))
   * EPow P4 (EVar vMt) + #5 * EPow P4 (EVar vs2t) * (#3 * (- #1 + #2 * EVar vlmMst1 - #2 * EVar vlmMst2) * EPow P2
   (EVar vMst2) * EPow P4 (EVar vMst1) - #3 * (#1 + #2 * EVar vlmMst1 - #2 * EVar vlmMst2) * EPow P2 (EVar vMst1) *
   EPow P4 (EVar vMst2) + #10 * EPow P6 (EVar vMst1) + #3 * EPow P6 (EVar vMst2)) / (#24 * EPow P2 (EVar vMst1))) /
   EPow P2 (EVar vMgl) + #5 * EPow P2 (EVar vs2t) * ((#10 * EVar vDmglst2 + #11 * EVar vMgl) * (EPow P2 (EVar vMst1) -
   EPow P2 (EVar vMst2)) * EPow P2 (EVar vs2t) * (#2 * (EVar vlmMst1 - EVar vlmMst2) * EPow P2 (EVar vMst1) * EPow P2
   (EVar vMst2) + EPow P4 (EVar vMst1) - EPow P4 (EVar vMst2)) - #4 * EPow P2 (EVar vMt) * (#2 * EVar vDmglst2 * (#2 *
   EPow P2 (EVar vMst2) * (#5 * EPow P2 (EVar vMst2) + #2 * (EVar vlmMst1 - EVar vlmMst2) * EPow P2 (EVar vMuSUSY)) *
   EPow P4 (EVar vMst1) - #5 * EPow P2 (EVar vMst1) * (#4 * EPow P2 (EVar vMst2) + (- #1 + #2 * EVar vlmMst1 - #2 *
   EVar vlmMst2) * EPow P2 (EVar vMuSUSY)) * EPow P4 (EVar vMst2) + #5 * (#2 * EPow P2 (EVar vMst2) + EPow P2 (EVar
   vMuSUSY)) * EPow P6 (EVar vMst2)) + EVar vMgl * (#22 * EPow P2 (EVar vMst2) * (EPow P2 (EVar vMst2) + (- EVar
   vlmMst1 + EVar vlmMst2) * EPow P2 (EVar vMuSUSY)) * EPow P4 (EVar vMst1) - #11 * EPow P2 (EVar vMst1) * (#4 * EPow
   P2 (EVar vMst2) + (- #1 + #2 * EVar vlmMst1 - #2 * EVar vlmMst2) * EPow P2 (EVar vMuSUSY)) * EPow P4 (EVar vMst2) -
   #20 * (EVar vlmMst1 - EVar vlmMst2) * EPow P2 (EVar vMuSUSY) * EPow P6 (EVar vMst1) + #11 * (#2 * EPow P2 (EVar
   vMst2) + EPow P2 (EVar vMuSUSY)) * EPow P6 (EVar vMst2))) / EPow P4 (EVar vMst2)) / (EVar vMgl * EPow P2 (EVar
   vMst1))) / (#24 * EPow P4 (EVar vMsq)) + EVar vxDmglst2 * EPow P2 (EVar vDmglst2) * (- ((#2 - #3 * EVar vlmMst2) *
   EVar vtwoLoopFlag * (#4 * EVar vMt * EVar vMuSUSY * EVar vs2t * ((- #4 * EPow P2 (EVar vMst1) * EPow P2 (EVar vMt)
   + #4 * EPow P2 (EVar vMst2) * EPow P2 (EVar vMt) + #2 * (EVar vlmMst1 - EVar vlmMst2) * EPow P2 (EVar vMst1) * EPow
   P2 (EVar vMst2) * EPow P2 (EVar vs2t) + EPow P2 (EVar vs2t) * (EPow P4 (EVar vMst1) - EPow P4 (EVar vMst2))) / EVar
   vTbeta + EVar vMt * EVar vMuSUSY * EVar vs2t * ((EPow P2 (EVar vMst1) + EPow P2 (EVar vMst2)) * EPow P4 (EVar
   vMst2) - #2 * (EVar vlmMst1 - EVar vlmMst2) * EPow P2 (EVar vMst1) * (EPow P2 (EVar vMst1) * EPow P2 (EVar vMst2) +
   EPow P4 (EVar vMst1) + EPow P4 (EVar vMst2))) / (EPow P2 (EVar vSbeta) * EPow P4 (EVar vMst2))) + #16 * (EPow P2
   (EVar vMst1) + EPow P2 (EVar vMst2)) * EPow P4 (EVar vMt) + (EPow P2 (EVar vMst1) - EPow P2 (EVar vMst2)) * (#2 *
   (EVar vlmMst1 - EVar vlmMst2) * EPow P2 (EVar vMst1) * EPow P2 (EVar vMst2) + EPow P4 (EVar vMst1) - EPow P4 (EVar
   vMst2)) * EPow P4 (EVar vs2t) - #4 * EPow P2 (EVar vMt) * EPow P2 (EVar vs2t) * (#2 * EPow P4 (EVar vMst1) * ((-
   EVar vlmMst1 + EVar vlmMst2) * EPow P2 (EVar vMst2) * EPow P2 (EVar vMuSUSY) + EPow P4 (EVar vMst2)) + #2 * (- EVar
   vlmMst1 + EVar vlmMst2) * EPow P2 (EVar vMuSUSY) * EPow P6 (EVar vMst1) + EPow P2 (EVar vMst1) * ((#1 - #2 * EVar
   vlmMst1 + #2 * EVar vlmMst2) * EPow P2 (EVar vMuSUSY) * EPow P4 (EVar vMst2) - #4 * EPow P6 (EVar vMst2)) + (#2 *
   EPow P2 (EVar vMst2) + EPow P2 (EVar vMuSUSY)) * EPow P6 (EVar vMst2)) / EPow P4 (EVar vMst2))) / (#6 * EPow P2
   (EVar vMst1)) + EVar vAl4p * EVar vthreeLoopFlag * (#6400 * EVar vs2t * EPow P3 (EVar vMt) * (- #3 * EPow P4 (EVar
   vMst1) * (EPow P2 (EVar vMst2) * EPow P2 (EVar vMuSUSY) * (- #11 - #371 * EVar vlmMst2 + #42 * EPow P2 (EVar
   vlmMst2) - #6 * EVar vlmMst1 * (- #21 - #5 * EVar vlmMst2 + #24 * EPow P2 (EVar vlmMst2)) + #144 * EPow P3 (EVar
   vlmMst2)) + #6 * (#93 + #88 * EVar vlmMst2 - #22 * EVar vlmMt - #8 * EVar vlmMst2 * EVar vlmMt + EVar vlmMst1 * (-
   #34 - #8 * EVar vlmMst2 + #4 * EVar vlmMt) + #12 * EPow P2 (EVar vlmMst2)) * EPow P4 (EVar vMst2)) + #9 * ((#49 +
   #103 * EVar vlmMst2 - #36 * (#1 + EVar vlmMst2) * EPow P2 (EVar vlmMst2) + #4 * EVar vlmMst1 * (- #11 + #6 * EVar
   vlmMst2 + #9 * EPow P2 (EVar vlmMst2))) * EPow P2 (EVar vMuSUSY) + EPow P2 (EVar vMst2) * (#28 + EVar vlmMst2 *
   (#378 - #96 * EVar vlmMt) - #44 * EVar vlmMt + EVar vlmMst1 * (- #274 + #60 * EVar vlmMt + #18 * EVar vlmMst2 * (-
   #13 + #2 * EVar vlmMt) - #36 * EPow P2 (EVar vlmMst2)) + (#270 - #36 * EVar vlmMt) * EPow P2 (EVar vlmMst2) + #36 *
   EPow P3 (EVar vlmMst2))) * EPow P6 (EVar vMst1) + #36 * (#2 + EVar vlmMst2 - #3 * EPow P2 (EVar vlmMst2)) * (#2 *
   EPow P2 (EVar vMst2) + EPow P2 (EVar vMuSUSY)) * EPow P6 (EVar vMst2) - EPow P2 (EVar vMst1) * (#3 * EPow P2 (EVar
   vMuSUSY) * (- #53 - #191 * EVar vlmMst2 + EVar vlmMst1 * (#60 + #18 * EVar vlmMst2 - #72 * EPow P2 (EVar vlmMst2))
   + #54 * EPow P2 (EVar vlmMst2) + #72 * EPow P3 (EVar vlmMst2)) * EPow P4 (EVar vMst2) + (#300 + #72 * EVar vlmMt +
   EVar vlmMst2 * (- #341 + #78 * EVar vlmMt) + #18 * EVar vlmMst1 * (#8 - #4 * EVar vlmMt + EVar vlmMst2 * (#5 + #2 *
   EVar vlmMt) - #2 * EPow P2 (EVar vlmMst2)) - #12 * (#26 + #3 * EVar vlmMt) * EPow P2 (EVar vlmMst2) + #36 * EPow P3
   (EVar vlmMst2)) * EPow P6 (EVar vMst2))) / (EPow P2 (EVar vMst1) * EPow P5 (EVar vMst2)) + #75 * EPow P3 (EVar
   vs2t) * (#128 * EVar vMt * (- ((- #71 + #6 * EVar vlmMst1 * (- #1 + EVar vlmMst2) + EVar vlmMst2 + #30 * EPow P2
   (EVar vlmMst2)) * EPow P2 (EVar vMst2) * EPow P4 (EVar vMst1)) + EPow P2 (EVar vMst1) * (- #5 - #167 * EVar vlmMst2
   + EVar vlmMst1 * (#60 + #18 * EVar vlmMst2 - #72 * EPow P2 (EVar vlmMst2)) - #18 * EPow P2 (EVar vlmMst2) + #72 *
   EPow P3 (EVar vlmMst2)) * EPow P4 (EVar vMst2) - #3 * (#1 + #13 * EVar vlmMst2 - #2 * EVar vlmMst1 * (#5 + #3 *
   EVar vlmMst2) + #6 * EPow P2 (EVar vlmMst2)) * EPow P6 (EVar vMst1) + #12 * (- #2 - EVar vlmMst2 + #3 * EPow P2
   (EVar vlmMst2)) * EPow P6 (EVar vMst2)) / EVar vMst2 + EVar vs2t * (EPow P2 (EVar vMst2) * (- #340 + #806 * EVar
   vlmMst2 + #672 * (- #2 + #3 * EVar vlmMst2) * EPow P2 (EVar vlmMst1) - #3159 * EPow P2 (EVar vlmMst2) - #6 * EVar
   vlmMst1 * (#388 - #934 * EVar vlmMst2 + #399 * EPow P2 (EVar vlmMst2)) + #378 * EPow P3 (EVar vlmMst2)) * EPow P4
   (EVar vMst1) + EPow P2 (EVar vMst1) * (#1532 - #3514 * EVar vlmMst2 + #96 * (- #2 + #3 * EVar vlmMst2) * EPow P2
   (EVar vlmMst1) - #207 * EPow P2 (EVar vlmMst2) - #6 * EVar vlmMst1 * (- #532 + #550 * EVar vlmMst2 + #369 * EPow P2
   (EVar vlmMst2)) + #1926 * EPow P3 (EVar vlmMst2)) * EPow P4 (EVar vMst2) + #6 * (- #36 + (#70 + #32 * EVar vlmMst1)
   * EVar vlmMst2 + #27 * EPow P2 (EVar vlmMst2)) * EPow P6 (EVar vMst1) + #3 * (- #548 + #422 * EVar vlmMst2 + #32 *
   EVar vlmMst1 * (- #2 + #3 * EVar vlmMst2) + #817 * EPow P2 (EVar vlmMst2)) * EPow P6 (EVar vMst2) - #45 * EVar
   vDmsqst2 * (#15 * (- #1 + #2 * EVar vlmMst1 - #2 * EVar vlmMst2) * EPow P2 (EVar vMst2) * EPow P4 (EVar vMst1) -
   #15 * (#1 + #2 * EVar vlmMst1 - #2 * EVar vlmMst2) * EPow P2 (EVar vMst1) * EPow P4 (EVar vMst2) + #2 * EPow P6
   (EVar vMst1) + #15 * EPow P6 (EVar vMst2)) / EPow P2 (EVar vMsq))) / EPow P2 (EVar vMst1) + #16 * EPow P4 (EVar
   vMt) * (#225 * (- #356 - #26 * EVar vlmMst2 + #32 * EVar vlmMst1 * (- #2 + #3 * EVar vlmMst2) + #177 * EPow P2
   (EVar vlmMst2)) * EPow P2 (EVar vMst1) * EPow P2 (EVar vMst2) - #50625 * EVar vDmsqst2 * EPow P2 (EVar vMst1) *
   (EPow P2 (EVar vMst1) + EPow P2 (EVar vMst2)) / EPow P2 (EVar vMsq) + (#183748 - #240 * (#137 + #60 * EVar vlmMst1)
   * EVar vlmMt + #6 * EVar vlmMst2 * (- #587 + #4800 * EVar vlmMst1 + #6120 * EVar vlmMt) - #25695 * EPow P2 (EVar
   vlmMst2)) * EPow P4 (EVar vMst1) - #7200 * (- #2 + EVar vlmMst2 + #5 * EPow P2 (EVar vlmMst2)) * EPow P4 (EVar
   vMst2) + #7200 * (#221 + EVar vlmMst2 * (#299 - #47 * EVar vlmMt) - #62 * EVar vlmMt + (#87 - #6 * EVar vlmMt) *
   EPow P2 (EVar vlmMst2) - #2 * EVar vlmMst1 * (#65 + EVar vlmMst2 * (#32 - #3 * EVar vlmMt) - #12 * EVar vlmMt + #3
   * EPow P2 (EVar vlmMst2)) + #6 * EPow P3 (EVar vlmMst2)) * EPow P6 (EVar vMst1) / EPow P2 (EVar vMst2) + #14400 *
   (- #42 + #33 * EVar vlmMt + EVar vlmMst2 * (- #242 + #62 * EVar vlmMt) + #6 * (- #29 + #4 * EVar vlmMt) * EPow P2
   (EVar vlmMst2) + #2 * EVar vlmMst1 * (#81 + EVar vlmMst2 * (#74 - #12 * EVar vlmMt) - #18 * EVar vlmMt + #12 * EPow
   P2 (EVar vlmMst2)) - #24 * EPow P3 (EVar vlmMst2)) * EPow P8 (EVar vMst1) / EPow P4 (EVar vMst2)) / EPow P4 (EVar
   vMst1) - #100 * EVar vMt * EVar vMuSUSY * (#128 * EPow P3 (EVar vMt) * (EPow P2 (EVar vMst2) * (- #834 + #162 *
   EVar vlmMt + EVar vlmMst2 * (- #569 + #33 * EVar vlmMt) + #3 * (- #17 + #6 * EVar vlmMt) * EPow P2 (EVar vlmMst2) +
   #18 * EVar vlmMst1 * (#13 + EVar vlmMst2 - EVar vlmMst2 * EVar vlmMt + EPow P2 (EVar vlmMst2)) - #18 * EPow P3
   (EVar vlmMst2)) * EPow P4 (EVar vMst1) + EPow P2 (EVar vMst1) * (EVar vlmMst2 * (#187 - #39 * EVar vlmMt) - #12 *
   (#8 + #3 * EVar vlmMt) + #3 * (#19 + #6 * EVar vlmMt) * EPow P2 (EVar vlmMst2) + #18 * EVar vlmMst1 * (- #3 + #2 *
   EVar vlmMt - EVar vlmMst2 * (#3 + EVar vlmMt) + EPow P2 (EVar vlmMst2)) - #18 * EPow P3 (EVar vlmMst2)) * EPow P4
   (EVar vMst2) + (#290 + EVar vlmMst2 * (#2447 - #645 * EVar vlmMt) - #375 * EVar vlmMt - #3 * (- #509 + #60 * EVar
   vlmMt) * EPow P2 (EVar vlmMst2) - #18 * EVar vlmMst1 * (#87 + EVar vlmMst2 * (#71 - #10 * EVar vlmMt) - #22 * EVar
   vlmMt + #10 * EPow P2 (EVar vlmMst2)) + #180 * EPow P3 (EVar vlmMst2)) * EPow P6 (EVar vMst1) + #36 * (#2 + EVar
   vlmMst2 - #3 * EPow P2 (EVar vlmMst2)) * EPow P6 (EVar vMst2)) / (EPow P2 (EVar vMst1) * EPow P5 (EVar vMst2)) +
   #288 * EVar vMt * EPow P2 (EVar vs2t) * (#6 * EPow P2 (EVar vMst2) * (#7 - #30 * EVar vlmMst2 + EVar vlmMst1 * (#11
   + #2 * EVar vlmMst2 - #12 * EPow P2 (EVar vlmMst2)) - #2 * EPow P2 (EVar vlmMst2) + #12 * EPow P3 (EVar vlmMst2)) *
   EPow P4 (EVar vMst1) + EPow P2 (EVar vMst1) * (- #29 - #179 * EVar vlmMst2 + EVar vlmMst1 * (#60 + #18 * EVar
   vlmMst2 - #72 * EPow P2 (EVar vlmMst2)) + #18 * EPow P2 (EVar vlmMst2) + #72 * EPow P3 (EVar vlmMst2)) * EPow P4
   (EVar vMst2) - #3 * (#17 + #51 * EVar vlmMst2 - #4 * EPow P2 (EVar vlmMst2) + #4 * EVar vlmMst1 * (- #6 + EVar
   vlmMst2 + #3 * EPow P2 (EVar vlmMst2)) - #12 * EPow P3 (EVar vlmMst2)) * EPow P6 (EVar vMst1) + #12 * (- #2 - EVar
   vlmMst2 + #3 * EPow P2 (EVar vlmMst2)) * EPow P6 (EVar vMst2)) / (EPow P2 (EVar vMst1) * EPow P3 (EVar vMst2)) - #3
   * EPow P3 (EVar vs2t) * (EPow P2 (EVar vMst1) * (#260 + #1538 * EVar vlmMst2 + #768 * (#2 - #3 * EVar vlmMst2) *
   EPow P2 (EVar vlmMst1) + #1395 * EPow P2 (EVar vlmMst2) + #96 * EVar vlmMst1 * (- #7 - #27 * EVar vlmMst2 + #48 *
   EPow P2 (EVar vlmMst2)) - #675 * EVar vDmsqst2 / EPow P2 (EVar vMsq) - #2304 * EPow P3 (EVar vlmMst2)) - #2 * EPow
   P2 (EVar vMst2) * (#40 - #1172 * EVar vlmMst2 + #48 * (- #2 + #3 * EVar vlmMst2) * EPow P2 (EVar vlmMst1) + #882 *
   EPow P2 (EVar vlmMst2) - #3 * EVar vlmMst1 * (- #500 + #502 * EVar vlmMst2 + #369 * EPow P2 (EVar vlmMst2)) + #675
   * EVar vDmsqst2 * (EVar vlmMst1 - EVar vlmMst2) / EPow P2 (EVar vMsq) + #963 * EPow P3 (EVar vlmMst2)) - #96 * (#16
   * EVar vlmMst2 * EPow P2 (EVar vlmMst1) - #2 * EVar vlmMst1 * (#3 + #2 * EVar vlmMst2 + #16 * EPow P2 (EVar
   vlmMst2)) + EVar vlmMst2 * (#7 + #4 * EVar vlmMst2 + #16 * EPow P2 (EVar vlmMst2))) * EPow P4 (EVar vMst1) / EPow
   P2 (EVar vMst2) + #27 * (EDec 5377777777777778 14 + #64 * EVar vlmMst1 / #9 - #2 * (#65 + #16 * EVar vlmMst1) *
   EVar vlmMst2 / #3 - #73 * EPow P2 (EVar vlmMst2) + #25 * EVar vDmsqst2 / EPow P2 (EVar vMsq)) * EPow P4 (EVar
   vMst2) / EPow P2 (EVar vMst1) + #96 * (- #2 + EVar vlmMst2 + #5 * EPow P2 (EVar vlmMst2)) * EPow P6 (EVar vMst2) /
   EPow P4 (EVar vMst1)) - #12 * EVar vs2t * EPow P2 (EVar vMt) * (#675 * EVar vDmsqst2 * EPow P2 (EVar vMst1) * (EPow
   P2 (EVar vMst1) - EPow P2 (EVar vMst2)) / EPow P2 (EVar vMsq) + #3 * (- #324 + #134 * EVar vlmMst2 + #32 * EVar
   vlmMst1 * (- #2 + #3 * EVar vlmMst2) + #177 * EPow P2 (EVar vlmMst2)) * EPow P2 (EVar vMst1) * EPow P2 (EVar vMst2)
   + (#860 - #434 * EVar vlmMst2 + #96 * (- #2 + #3 * EVar vlmMst2) * EPow P2 (EVar vlmMst1) + #96 * EVar vlmMst1 *
   (#3 + EVar vlmMst2 - #6 * EPow P2 (EVar vlmMst2)) - #243 * EPow P2 (EVar vlmMst2) + #288 * EPow P3 (EVar vlmMst2))
   * EPow P4 (EVar vMst1) - #96 * (- #2 + EVar vlmMst2 + #5 * EPow P2 (EVar vlmMst2)) * EPow P4 (EVar vMst2) + #96 *
   ((- #2 + #3 * EVar vlmMst2) * EPow P2 (EVar vlmMst1) + EVar vlmMst1 * (- #8 + #2 * EVar vlmMst2 - #6 * EPow P2
   (EVar vlmMst2)) + #3 * (#6 + #5 * EVar vlmMst2 + EPow P3 (EVar vlmMst2))) * EPow P6 (EVar vMst1) / EPow P2 (EVar
   vMst2) + #192 * (- #6 - #14 * EVar vlmMst2 + EVar vlmMst2 * EPow P2 (EVar vlmMst1) + EVar vlmMst1 * (#9 + #6 * EVar
   vlmMst2 - #2 * EPow P2 (EVar vlmMst2)) - #6 * EPow P2 (EVar vlmMst2) + EPow P3 (EVar vlmMst2)) * EPow P8 (EVar
   vMst1) / EPow P4 (EVar vMst2)) / EPow P4 (EVar vMst1)) / EVar vTbeta - #300 * EPow P2 (EVar vMt) * EPow P2 (EVar
   vs2t) * (- #675 * EVar vDmsqst2 * EPow P2 (EVar vMst1) * EPow P2 (EVar vMst2) * (#2 * (EPow P2 (EVar vMst2) + (-
   EVar vlmMst1 + EVar vlmMst2) * EPow P2 (EVar vMuSUSY)) * EPow P4 (EVar vMst1) + EPow P2 (EVar vMst1) * ((#1 - #2 *
   EVar vlmMst1 + #2 * EVar vlmMst2) * EPow P2 (EVar vMst2) * EPow P2 (EVar vMuSUSY) - #4 * EPow P4 (EVar vMst2)) +
   (#2 * EPow P2 (EVar vMst2) + EPow P2 (EVar vMuSUSY)) * EPow P4 (EVar vMst2)) + EPow P2 (EVar vMsq) * ((#4 * EPow P2
   (EVar vMst2) * (#916 - #418 * EVar vlmMst2 + #48 * (- #2 + #3 * EVar vlmMst2) * EPow P2 (EVar vlmMst1) - #387 *
   EPow P2 (EVar vlmMst2) - #48 * EVar vlmMst1 * (- #5 + #2 * EVar vlmMst2 + #6 * EPow P2 (EVar vlmMst2)) + #144 *
   EPow P3 (EVar vlmMst2)) + EPow P2 (EVar vMuSUSY) * (- #1180 - #1270 * EVar vlmMst2 + #96 * (- #2 + #3 * EVar
   vlmMst2) * EPow P2 (EVar vlmMst1) + #3255 * EPow P2 (EVar vlmMst2) - #6 * EVar vlmMst1 * (- #468 + #454 * EVar
   vlmMst2 + #369 * EPow P2 (EVar vlmMst2)) + #1926 * EPow P3 (EVar vlmMst2))) * EPow P4 (EVar vMst1) * EPow P4 (EVar
   vMst2) + #2 * EPow P2 (EVar vMst2) * ((#868 + #96 * EVar vlmMst1 * (- #11 + EVar vlmMst2) + #1874 * EVar vlmMst2 +
   #243 * EPow P2 (EVar vlmMst2)) * EPow P2 (EVar vMst2) + #3 * EPow P2 (EVar vMuSUSY) * (- #240 - #468 * EVar vlmMst2
   + #144 * (- #2 + #3 * EVar vlmMst2) * EPow P2 (EVar vlmMst1) + EVar vlmMst1 * (#580 - #22 * EVar vlmMst2 - #1137 *
   EPow P2 (EVar vlmMst2)) + #310 * EPow P2 (EVar vlmMst2) + #705 * EPow P3 (EVar vlmMst2))) * EPow P6 (EVar vMst1) -
   #3 * EPow P2 (EVar vMst1) * (- #2 * (- #388 + #166 * EVar vlmMst2 + #32 * EVar vlmMst1 * (- #2 + #3 * EVar vlmMst2)
   + #337 * EPow P2 (EVar vlmMst2)) * EPow P2 (EVar vMst2) + (#420 + EVar vlmMst1 * (#64 - #96 * EVar vlmMst2) - #358
   * EVar vlmMst2 - #497 * EPow P2 (EVar vlmMst2)) * EPow P2 (EVar vMuSUSY)) * EPow P6 (EVar vMst2) - #12 * (#32 * (#2
   + #7 * EVar vlmMst2 - EVar vlmMst1 * (#5 + #4 * EVar vlmMst2) + #4 * EPow P2 (EVar vlmMst2)) * EPow P2 (EVar vMst2)
   - EPow P2 (EVar vMuSUSY) * (#48 + #4 * EVar vlmMst2 * (#45 + #68 * EPow P2 (EVar vlmMst1)) + #310 * EPow P2 (EVar
   vlmMst2) - EVar vlmMst1 * (#92 + #310 * EVar vlmMst2 + #635 * EPow P2 (EVar vlmMst2)) + #363 * EPow P3 (EVar
   vlmMst2))) * EPow P8 (EVar vMst1) - #96 * (- #2 + EVar vlmMst2 + #5 * EPow P2 (EVar vlmMst2)) * (#2 * EPow P2 (EVar
   vMst2) + EPow P2 (EVar vMuSUSY)) * EPow P8 (EVar vMst2))) / (EPow P2 (EVar vMsq) * EPow P4 (EVar vMst1) * EPow P4
   (EVar vMst2)) + #300 * EVar vs2t * EPow P2 (EVar vMt) * EPow P2 (EVar vMuSUSY) * (#675 * EVar vDmsqst2 * EVar vs2t
   * EPow P2 (EVar vMst1) * (#2 * (EVar vlmMst1 - EVar vlmMst2) * EPow P2 (EVar vMst1) - EPow P2 (EVar vMst2)) * (EPow
   P2 (EVar vMst1) + EPow P2 (EVar vMst2)) * EPow P3 (EVar vMst2) + EPow P2 (EVar vMsq) * (- ((EVar vMst2 * EVar vs2t
   * (#1180 + #1270 * EVar vlmMst2 + #96 * (#2 - #3 * EVar vlmMst2) * EPow P2 (EVar vlmMst1) - #3255 * EPow P2 (EVar
   vlmMst2) + #6 * EVar vlmMst1 * (- #468 + #454 * EVar vlmMst2 + #369 * EPow P2 (EVar vlmMst2)) - #1926 * EPow P3
   (EVar vlmMst2)) + #64 * EVar vMt * (#53 + #191 * EVar vlmMst2 - #54 * EPow P2 (EVar vlmMst2) + #6 * EVar vlmMst1 *
   (- #10 - #3 * EVar vlmMst2 + #12 * EPow P2 (EVar vlmMst2)) - #72 * EPow P3 (EVar vlmMst2))) * EPow P4 (EVar vMst1)
   * EPow P4 (EVar vMst2)) - #2 * EPow P2 (EVar vMst2) * (#3 * EVar vMst2 * EVar vs2t * (#240 + #468 * EVar vlmMst2 +
   #144 * (#2 - #3 * EVar vlmMst2) * EPow P2 (EVar vlmMst1) - #310 * EPow P2 (EVar vlmMst2) + EVar vlmMst1 * (- #580 +
   #22 * EVar vlmMst2 + #1137 * EPow P2 (EVar vlmMst2)) - #705 * EPow P3 (EVar vlmMst2)) + #32 * EVar vMt * (#11 +
   #371 * EVar vlmMst2 - #42 * EPow P2 (EVar vlmMst2) + #6 * EVar vlmMst1 * (- #21 - #5 * EVar vlmMst2 + #24 * EPow P2
   (EVar vlmMst2)) - #144 * EPow P3 (EVar vlmMst2))) * EPow P6 (EVar vMst1) - #3 * (EVar vMst2 * EVar vs2t * (#420 +
   EVar vlmMst1 * (#64 - #96 * EVar vlmMst2) - #358 * EVar vlmMst2 - #497 * EPow P2 (EVar vlmMst2)) + #256 * EVar vMt
   * (#2 + EVar vlmMst2 - #3 * EPow P2 (EVar vlmMst2))) * EPow P2 (EVar vMst1) * EPow P6 (EVar vMst2) - #12 * (#16 *
   EVar vMt * (#49 + #103 * EVar vlmMst2 - #36 * (#1 + EVar vlmMst2) * EPow P2 (EVar vlmMst2) + #4 * EVar vlmMst1 * (-
   #11 + #6 * EVar vlmMst2 + #9 * EPow P2 (EVar vlmMst2))) - EVar vMst2 * EVar vs2t * (#48 + #4 * EVar vlmMst2 * (#45
   + #68 * EPow P2 (EVar vlmMst1)) + #310 * EPow P2 (EVar vlmMst2) - EVar vlmMst1 * (#92 + #310 * EVar vlmMst2 + #635
   * EPow P2 (EVar vlmMst2)) + #363 * EPow P3 (EVar vlmMst2))) * EPow P8 (EVar vMst1) - #96 * EVar vs2t * (- #2 + EVar
   vlmMst2 + #5 * EPow P2 (EVar vlmMst2)) * EPow P9 (EVar vMst2))) / (EPow P2 (EVar vMsq) * EPow P2 (EVar vSbeta) *
   EPow P4 (EVar vMst1) * EPow P5 (EVar vMst2))) / #8100) / EPow P2 (EVar vMgl)) - (EVar vthreeLoopFlag * EPow P2
   (EVar vAl4p) * (#12 * EPow P2 (EConst Cz2) * (- #4 * EVar vMst2 * EVar vxDmglst2 * EPow P2 (EVar vDmglst2) * EPow
   P4 (EVar vMsq) * (#3 * EVar vMst2 * EPow P2 (EVar vMst1) * (#4 * EPow P2 (EVar vMst2) * EPow P2 (EVar vMt) * (-
   #1157 * EVar vTbeta * EPow P2 (EVar vMuSUSY) * EPow P2 (EVar vs2t) * (- #1 + EPow P2 (EVar vSbeta)) + #2 * EVar vMt
   * (#1980 * EVar vMuSUSY * EVar vs2t + #4703 * EVar vMt * EVar vTbeta) * EPow P2 (EVar vSbeta)) + EVar vs2t *
   (#84045 * EVar vMuSUSY * EVar vs2t - #17228 * EVar vMt * EVar vTbeta) * EPow P2 (EVar vMt) * EPow P2 (EVar vSbeta)
   * EPow P3 (EVar vMst2) + #4 * EVar vMst2 * EVar vMuSUSY * (#29549 * EVar vMuSUSY * EVar vs2t * EVar vTbeta * (- #1
   + EPow P2 (EVar vSbeta)) + #4328 * EVar vMt * EPow P2 (EVar vSbeta)) * EPow P3 (EVar vMt) - #2 * EVar vMt * (#265 *
   EVar vMuSUSY * EVar vs2t + #3582 * EVar vMt * EVar vTbeta) * EPow P2 (EVar vs2t) * EPow P2 (EVar vSbeta) * EPow P4
   (EVar vMst2) + #840 * EVar vTbeta * EPow P2 (EVar vMuSUSY) * (- #1 + EPow P2 (EVar vSbeta)) * EPow P4 (EVar vMt) +
   #4 * (#767 * EVar vMt - #223 * EVar vMst2 * EVar vs2t) * EVar vTbeta * EPow P2 (EVar vSbeta) * EPow P3 (EVar vs2t)
   * EPow P5 (EVar vMst2)) + #9 * EPow P4 (EVar vMst2) * (#2 * EVar vMst2 * EPow P2 (EVar vMt) * EPow P2 (EVar vs2t) *
   (- #1366 * EVar vTbeta * EPow P2 (EVar vMuSUSY) * (- #1 + EPow P2 (EVar vSbeta)) + #3 * EVar vMst2 * (#10361 * EVar
   vMuSUSY - #84 * EVar vMst2 * EVar vTbeta) * EPow P2 (EVar vSbeta)) + #4 * EVar vs2t * (#10361 * EVar vTbeta * EPow
   P2 (EVar vMuSUSY) * (- #1 + EPow P2 (EVar vSbeta)) - #14 * EVar vMst2 * (- #18 * EVar vMuSUSY + EVar vMst2 * EVar
   vTbeta) * EPow P2 (EVar vSbeta)) * EPow P3 (EVar vMt) + EPow P2 (EVar vSbeta) * (- #2 * EVar vMt * (#1366 * EVar
   vMuSUSY + #10361 * EVar vMst2 * EVar vTbeta) * EPow P3 (EVar vMst2) * EPow P3 (EVar vs2t) + #56 * (EVar vMuSUSY +
   #26 * EVar vMst2 * EVar vTbeta) * EPow P4 (EVar vMt) + #683 * EVar vTbeta * EPow P4 (EVar vs2t) * EPow P5 (EVar
   vMst2))) / #2 + EPow P4 (EVar vMst1) * (#2 * EVar vMst2 * EPow P2 (EVar vMt) * EPow P2 (EVar vs2t) * (- #21196 *
   EVar vTbeta * EPow P2 (EVar vMuSUSY) * (- #1 + EPow P2 (EVar vSbeta)) - #3 * EVar vMst2 * (- #35195 * EVar vMuSUSY
   + #9228 * EVar vMst2 * EVar vTbeta) * EPow P2 (EVar vSbeta)) + #4 * EVar vs2t * (#86405 * EVar vTbeta * EPow P2
   (EVar vMuSUSY) * (- #1 + EPow P2 (EVar vSbeta)) + #4 * EVar vMst2 * (#8271 * EVar vMuSUSY + #12865 * EVar vMst2 *
   EVar vTbeta) * EPow P2 (EVar vSbeta)) * EPow P3 (EVar vMt) + EPow P2 (EVar vSbeta) * (- (EVar vMt * (#25328 * EVar
   vMuSUSY + #15571 * EVar vMst2 * EVar vTbeta) * EPow P3 (EVar vMst2) * EPow P3 (EVar vs2t)) - #16 * (#16213 * EVar
   vMuSUSY + #5582 * EVar vMst2 * EVar vTbeta) * EPow P4 (EVar vMt) + #4199 * EVar vTbeta * EPow P4 (EVar vs2t) * EPow
   P5 (EVar vMst2)))) + #60 * EVar vxDmsqst2 * EPow P2 (EVar vDmsqst2) * EPow P2 (EVar vMgl) * EPow P2 (EVar vMst2) *
   (#4 * EVar vMuSUSY * EPow P2 (EVar vSbeta) * (- #3 * EVar vMt * EPow P2 (EVar vMst2) * EPow P3 (EVar vs2t) * (#19 *
   EPow P2 (EVar vMst1) * (EPow P2 (EVar vMst1) + EPow P2 (EVar vMst2)) + #6 * EPow P4 (EVar vMst2)) + #2 * EVar vs2t
   * EPow P3 (EVar vMt) * (#21 * EPow P2 (EVar vMst1) * EPow P2 (EVar vMst2) + #53 * EPow P4 (EVar vMst1) + #18 * EPow
   P4 (EVar vMst2))) + #3 * EVar vTbeta * EPow P2 (EVar vSbeta) * EPow P4 (EVar vMst2) * (#13 * EPow P2 (EVar vMst1) *
   EPow P2 (EVar vMst2) + #6 * EPow P4 (EVar vMst2)) * EPow P4 (EVar vs2t) + #4 * EVar vTbeta * EPow P2 (EVar vMt) *
   EPow P2 (EVar vs2t) * ((- #221 * EPow P2 (EVar vMuSUSY) * (- #1 + EPow P2 (EVar vSbeta)) + #7 * EPow P2 (EVar
   vMst2) * EPow P2 (EVar vSbeta)) * EPow P4 (EVar vMst1) - #3 * EPow P2 (EVar vMst1) * (#25 * EPow P2 (EVar vMst2) *
   EPow P2 (EVar vMuSUSY) * (- #1 + EPow P2 (EVar vSbeta)) + EPow P2 (EVar vSbeta) * EPow P4 (EVar vMst2)) - #18 *
   (EPow P2 (EVar vMuSUSY) * (- #1 + EPow P2 (EVar vSbeta)) * EPow P4 (EVar vMst2) + EPow P2 (EVar vSbeta) * EPow P6
   (EVar vMst2)))) + EVar vMgl * EPow P2 (EVar vMsq) * (#4 * EVar vMt * EVar vMuSUSY * (EVar vMst2 * EPow P2 (EVar
   vSbeta) * (#4 * EPow P2 (EVar vMsq) * EPow P3 (EVar vMt) * (#72 * (#186 * EVar vDmglst2 - #55 * EVar vMgl) * EPow
   P2 (EVar vMst1) * EPow P2 (EVar vMst2) + #4 * (#16213 * EVar vDmglst2 - #3045 * EVar vMgl) * EPow P4 (EVar vMst1) +
   #189 * (#5 * EVar vDmglst2 - #3 * EVar vMgl) * EPow P4 (EVar vMst2)) - #3 * EVar vMt * EPow P2 (EVar vMsq) * EPow
   P2 (EVar vMst2) * EPow P2 (EVar vs2t) * (#9 * (#6091 * EVar vDmglst2 + #1519 * EVar vMgl) * EPow P2 (EVar vMst1) *
   EPow P2 (EVar vMst2) + #2 * (#35195 * EVar vDmglst2 + #6177 * EVar vMgl) * EPow P4 (EVar vMst1) + #27 * (#1763 *
   EVar vDmglst2 + #555 * EVar vMgl) * EPow P4 (EVar vMst2)) + #6 * EVar vMst2 * EVar vs2t * EPow P2 (EVar vMt) * (#15
   * (#60 * EVar vDmsqst2 * EVar vMgl + (- #240 * EVar vDmglst2 + #347 * EVar vMgl) * EPow P2 (EVar vMsq)) * EPow P2
   (EVar vMst1) * EPow P2 (EVar vMst2) + #2 * (#530 * EVar vDmsqst2 * EVar vMgl + (- #11028 * EVar vDmglst2 + #6031 *
   EVar vMgl) * EPow P2 (EVar vMsq)) * EPow P4 (EVar vMst1) + #27 * EVar vMgl * (#20 * EVar vDmsqst2 + #53 * EPow P2
   (EVar vMsq)) * EPow P4 (EVar vMst2)) - EPow P3 (EVar vMst2) * EPow P3 (EVar vs2t) * (#36 * (#150 * EVar vDmsqst2 *
   EVar vMgl + (- #237 * EVar vDmglst2 + #425 * EVar vMgl) * EPow P2 (EVar vMsq)) * EPow P2 (EVar vMst1) * EPow P2
   (EVar vMst2) + (#6240 * EVar vDmsqst2 * EVar vMgl + (- #25328 * EVar vDmglst2 + #20685 * EVar vMgl) * EPow P2 (EVar
   vMsq)) * EPow P4 (EVar vMst1) + #54 * (#30 * EVar vDmsqst2 * EVar vMgl - (#158 * EVar vDmglst2 + #3 * EVar vMgl) *
   EPow P2 (EVar vMsq)) * EPow P4 (EVar vMst2))) - EVar vMt * EVar vMuSUSY * EVar vTbeta * (- (EPow P2 (EVar vMst2) *
   EPow P2 (EVar vs2t) * (#3 * EVar vMgl * EPow P2 (EVar vMsq) * (#5046 * EPow P2 (EVar vMst1) * EPow P2 (EVar vMst2)
   + #11941 * EPow P4 (EVar vMst1) - #54 * EPow P4 (EVar vMst2)) + #60 * EVar vDmsqst2 * EVar vMgl * (#117 * EPow P2
   (EVar vMst1) * EPow P2 (EVar vMst2) + #221 * EPow P4 (EVar vMst1) + #27 * EPow P4 (EVar vMst2)) - #4 * EVar
   vDmglst2 * EPow P2 (EVar vMsq) * (#4266 * EPow P2 (EVar vMst1) * EPow P2 (EVar vMst2) + #10598 * EPow P4 (EVar
   vMst1) + #2133 * EPow P4 (EVar vMst2)))) + EPow P2 (EVar vMsq) * (#36 * EPow P2 (EVar vMt) * (- #42 * (#2 * EVar
   vDmglst2 - #3 * EVar vMgl) * EPow P2 (EVar vMst1) * EPow P2 (EVar vMst2) + #545 * EVar vMgl * EPow P4 (EVar vMst1))
   - #2 * EVar vMst2 * EVar vMt * EVar vs2t * (#36 * (#2845 * EVar vDmglst2 + #796 * EVar vMgl) * EPow P2 (EVar vMst1)
   * EPow P2 (EVar vMst2) + #10 * (#17281 * EVar vDmglst2 + #4101 * EVar vMgl) * EPow P4 (EVar vMst1) + #27 * (#1763 *
   EVar vDmglst2 + #555 * EVar vMgl) * EPow P4 (EVar vMst2))))) + EVar vTbeta * EPow P2 (EVar vSbeta) * (#4 * EVar vMt
   * EPow P2 (EVar vMsq) * EPow P3 (EVar vs2t) * (#18 * (#401 * EVar vDmglst2 - #73 * EVar vMgl) * EPow P2 (EVar
   vMst1) * EPow P2 (EVar vMst2) + (#15571 * EVar vDmglst2 - #1317 * EVar vMgl) * EPow P4 (EVar vMst1) + #27 * (#1763
   * EVar vDmglst2 + #555 * EVar vMgl) * EPow P4 (EVar vMst2)) * EPow P5 (EVar vMst2) + (#18 * EVar vMgl * (#210 *
   EVar vDmsqst2 + #859 * EPow P2 (EVar vMsq)) * EPow P2 (EVar vMst1) * EPow P2 (EVar vMst2) + (#840 * EVar vDmsqst2 *
   EVar vMgl + (- #16796 * EVar vDmglst2 + #5385 * EVar vMgl) * EPow P2 (EVar vMsq)) * EPow P4 (EVar vMst1) + #54 *
   (#30 * EVar vDmsqst2 * EVar vMgl - (#158 * EVar vDmglst2 + #3 * EVar vMgl) * EPow P2 (EVar vMsq)) * EPow P4 (EVar
   vMst2)) * EPow P4 (EVar vs2t) * EPow P6 (EVar vMst2) - #4 * EPow P2 (EVar vMst2) * EPow P2 (EVar vMt) * EPow P2
   (EVar vs2t) * (#3 * (#160 * EVar vDmsqst2 * EVar vMgl + (- #18456 * EVar vDmglst2 + #6857 * EVar vMgl) * EPow P2
   (EVar vMsq)) * EPow P2 (EVar vMst2) * EPow P4 (EVar vMst1) + #18 * (#60 * EVar vDmsqst2 * EVar vMgl + (- #600 *
   EVar vDmglst2 + #629 * EVar vMgl) * EPow P2 (EVar vMsq)) * EPow P2 (EVar vMst1) * EPow P4 (EVar vMst2) + EPow P2
   (EVar vMuSUSY) * (#3 * EVar vMgl * EPow P2 (EVar vMsq) * (#5046 * EPow P2 (EVar vMst1) * EPow P2 (EVar vMst2) +
   #11941 * EPow P4 (EVar vMst1) - #54 * EPow P4 (EVar vMst2)) + #60 * EVar vDmsqst2 * EVar vMgl * (#117 * EPow P2
   (EVar vMst1) * EPow P2 (EVar vMst2) + #221 * EPow P4 (EVar vMst1) + #27 * EPow P4 (EVar vMst2)) - #4 * EVar
   vDmglst2 * EPow P2 (EVar vMsq) * (#4266 * EPow P2 (EVar vMst1) * EPow P2 (EVar vMst2) + #10598 * EPow P4 (EVar
   vMst1) + #2133 * EPow P4 (EVar vMst2))) + #81 * EVar vMgl * (#20 * EVar vDmsqst2 + #53 * EPow P2 (EVar vMsq)) *
   EPow P6 (EVar vMst2)) + #8 * EPow P2 (EVar vMsq) * EPow P3 (EVar vMt) * (- (EVar vMst2 * EVar vs2t * (#40 * (#2573
   * EVar vDmglst2 - #411 * EVar vMgl) * EPow P2 (EVar vMst2) * EPow P4 (EVar vMst1) + #18 * (#1383 * EVar vDmglst2 -
   #377 * EVar vMgl) * EPow P2 (EVar vMst1) * EPow P4 (EVar vMst2) + EPow P2 (EVar vMuSUSY) * (#36 * (#2845 * EVar
   vDmglst2 + #796 * EVar vMgl) * EPow P2 (EVar vMst1) * EPow P2 (EVar vMst2) + #10 * (#17281 * EVar vDmglst2 + #4101
   * EVar vMgl) * EPow P4 (EVar vMst1) + #27 * (#1763 * EVar vDmglst2 + #555 * EVar vMgl) * EPow P4 (EVar vMst2)) +
   #378 * (#5 * EVar vDmglst2 - #3 * EVar vMgl) * EPow P6 (EVar vMst2))) + #2 * EVar vMt * (#8 * (#2791 * EVar
   vDmglst2 + #438 * EVar vMgl) * EPow P2 (EVar vMst2) * EPow P4 (EVar vMst1) + #9 * EPow P2 (EVar vMuSUSY) * (- #42 *
   (#2 * EVar vDmglst2 - #3 * EVar vMgl) * EPow P2 (EVar vMst1) * EPow P2 (EVar vMst2) + #545 * EVar vMgl * EPow P4
   (EVar vMst1)) + #9 * (#644 * EVar vDmglst2 + #209 * EVar vMgl) * EPow P2 (EVar vMst1) * EPow P4 (EVar vMst2) + #189
   * (#4 * EVar vDmglst2 + #3 * EVar vMgl) * EPow P6 (EVar vMst2)))))) + #8 * EConst Cz4 * (- #4 * EVar vMst2 * EVar
   vxDmglst2 * EPow P2 (EVar vDmglst2) * EPow P4 (EVar vMsq) * (#3 * EVar vMst2 * EPow P2 (EVar vMst1) * (#4 * EPow P2
   (EVar vMst2) * EPow P2 (EVar vMt) * (- #10819 * EVar vTbeta * EPow P2 (EVar vMuSUSY) * EPow P2 (EVar vs2t) * (- #1
   + EPow P2 (EVar vSbeta)) + #4 * EVar vMt * (#522 * EVar vMuSUSY * EVar vs2t + #4703 * EVar vMt * EVar vTbeta) *
   EPow P2 (EVar vSbeta)) - #2 * EVar vMt * EVar vs2t * (#3 * EVar vMt * EVar vs2t * (#8597 * EVar vMuSUSY + #2388 *
   EVar vMst2 * EVar vTbeta) + #17228 * EVar vTbeta * EPow P2 (EVar vMt) + #8306 * EVar vMst2 * EVar vMuSUSY * EPow P2
   (EVar vs2t)) * EPow P2 (EVar vSbeta) * EPow P3 (EVar vMst2) + #32 * EVar vMst2 * EVar vMuSUSY * (- #1543 * EVar
   vMuSUSY * EVar vs2t * EVar vTbeta * (- #1 + EPow P2 (EVar vSbeta)) + #1730 * EVar vMt * EPow P2 (EVar vSbeta)) *
   EPow P3 (EVar vMt) + EVar vTbeta * (- #21648 * EPow P2 (EVar vMuSUSY) * (- #1 + EPow P2 (EVar vSbeta)) * EPow P4
   (EVar vMt) + (#9700 * EVar vMt - #2513 * EVar vMst2 * EVar vs2t) * EPow P2 (EVar vSbeta) * EPow P3 (EVar vs2t) *
   EPow P5 (EVar vMst2))) / #2 + #9 * EPow P3 (EVar vMst2) * (- #4 * EPow P2 (EVar vMst2) * EPow P2 (EVar vMt) *
   (#1111 * EVar vTbeta * EPow P2 (EVar vMuSUSY) * EPow P2 (EVar vs2t) * (- #1 + EPow P2 (EVar vSbeta)) + #2 * EVar
   vMt * (#423 * EVar vMuSUSY * EVar vs2t - #91 * EVar vMt * EVar vTbeta) * EPow P2 (EVar vSbeta)) + EVar vMt * EVar
   vs2t * (- #3747 * EVar vMt * EVar vMuSUSY * EVar vs2t + #1692 * EVar vMst2 * EVar vMt * EVar vs2t * EVar vTbeta -
   #3484 * EVar vTbeta * EPow P2 (EVar vMt) - #4444 * EVar vMst2 * EVar vMuSUSY * EPow P2 (EVar vs2t)) * EPow P2 (EVar
   vSbeta) * EPow P3 (EVar vMst2) + #2 * EVar vMst2 * EVar vMuSUSY * (- #1249 * EVar vMuSUSY * EVar vs2t * EVar vTbeta
   * (- #1 + EPow P2 (EVar vSbeta)) + #1742 * EVar vMt * EPow P2 (EVar vSbeta)) * EPow P3 (EVar vMt) + EVar vTbeta *
   (- #1944 * EPow P2 (EVar vMuSUSY) * (- #1 + EPow P2 (EVar vSbeta)) * EPow P4 (EVar vMt) + (#1249 * EVar vMt + #1111
   * EVar vMst2 * EVar vs2t) * EPow P2 (EVar vSbeta) * EPow P3 (EVar vs2t) * EPow P5 (EVar vMst2))) + EPow P4 (EVar
   vMst1) * (#2 * EVar vMst2 * EPow P2 (EVar vMt) * EPow P2 (EVar vs2t) * (- #22654 * EVar vTbeta * EPow P2 (EVar
   vMuSUSY) * (- #1 + EPow P2 (EVar vSbeta)) - #3 * EVar vMst2 * (- #5063 * EVar vMuSUSY + #9228 * EVar vMst2 * EVar
   vTbeta) * EPow P2 (EVar vSbeta)) + #8 * EVar vs2t * (- #659 * EVar vTbeta * EPow P2 (EVar vMuSUSY) * (- #1 + EPow
   P2 (EVar vSbeta)) + #2 * EVar vMst2 * (#6813 * EVar vMuSUSY + #12865 * EVar vMst2 * EVar vTbeta) * EPow P2 (EVar
   vSbeta)) * EPow P3 (EVar vMt) + EPow P2 (EVar vSbeta) * (- (EVar vMt * (#25328 * EVar vMuSUSY + #15571 * EVar vMst2
   * EVar vTbeta) * EPow P3 (EVar vMst2) * EPow P3 (EVar vs2t)) - #16 * (#14269 * EVar vMuSUSY + #5582 * EVar vMst2 *
   EVar vTbeta) * EPow P4 (EVar vMt) + #4199 * EVar vTbeta * EPow P4 (EVar vs2t) * EPow P5 (EVar vMst2)))) + #60 *
   EVar vxDmsqst2 * EPow P2 (EVar vDmsqst2) * EPow P2 (EVar vMgl) * EPow P2 (EVar vMst2) * (#4 * EVar vMuSUSY * EPow
   P2 (EVar vSbeta) * (- #3 * EVar vMt * EPow P2 (EVar vMst2) * EPow P3 (EVar vs2t) * (#19 * EPow P2 (EVar vMst1) *
   (EPow P2 (EVar vMst1) + EPow P2 (EVar vMst2)) + #6 * EPow P4 (EVar vMst2)) + #2 * EVar vs2t * EPow P3 (EVar vMt) *
   (#21 * EPow P2 (EVar vMst1) * EPow P2 (EVar vMst2) + #53 * EPow P4 (EVar vMst1) + #18 * EPow P4 (EVar vMst2))) + #3
   * EVar vTbeta * EPow P2 (EVar vSbeta) * EPow P4 (EVar vMst2) * (#13 * EPow P2 (EVar vMst1) * EPow P2 (EVar vMst2) +
   #6 * EPow P4 (EVar vMst2)) * EPow P4 (EVar vs2t) + #4 * EVar vTbeta * EPow P2 (EVar vMt) * EPow P2 (EVar vs2t) *
   ((- #221 * EPow P2 (EVar vMuSUSY) * (- #1 + EPow P2 (EVar vSbeta)) + #7 * EPow P2 (EVar vMst2) * EPow P2 (EVar
   vSbeta)) * EPow P4 (EVar vMst1) - #3 * EPow P2 (EVar vMst1) * (#25 * EPow P2 (EVar vMst2) * EPow P2 (EVar vMuSUSY)
   * (- #1 + EPow P2 (EVar vSbeta)) + EPow P2 (EVar vSbeta) * EPow P4 (EVar vMst2)) - #18 * (EPow P2 (EVar vMuSUSY) *
   (- #1 + EPow P2 (EVar vSbeta)) * EPow P4 (EVar vMst2) + EPow P2 (EVar vSbeta) * EPow P6 (EVar vMst2)))) + EVar vMgl
   * EPow P2 (EVar vMsq) * (#4 * EVar vMt * EVar vMuSUSY * (EVar vMst2 * EPow P2 (EVar vSbeta) * (- #3 * EVar vMt *
   EPow P2 (EVar vMsq) * EPow P2 (EVar vMst2) * EPow P2 (EVar vs2t) * (- #45 * (#121 * EVar vDmglst2 + #301 * EVar
   vMgl) * EPow P2 (EVar vMst1) * EPow P2 (EVar vMst2) + #2 * (#5063 * EVar vDmglst2 - #7431 * EVar vMgl) * EPow P4
   (EVar vMst1) - #27 * (#271 * EVar vDmglst2 + #255 * EVar vMgl) * EPow P4 (EVar vMst2)) + #4 * EPow P2 (EVar vMsq) *
   EPow P3 (EVar vMt) * (#72 * (#78 * EVar vDmglst2 - #163 * EVar vMgl) * EPow P2 (EVar vMst1) * EPow P2 (EVar vMst2)
   + #4 * (#14269 * EVar vDmglst2 - #4989 * EVar vMgl) * EPow P4 (EVar vMst1) - #27 * (#253 * EVar vDmglst2 + #309 *
   EVar vMgl) * EPow P4 (EVar vMst2)) - EPow P3 (EVar vMst2) * EPow P3 (EVar vs2t) * (#36 * (#150 * EVar vDmsqst2 *
   EVar vMgl + (- #237 * EVar vDmglst2 + #479 * EVar vMgl) * EPow P2 (EVar vMsq)) * EPow P2 (EVar vMst1) * EPow P2
   (EVar vMst2) + (#6240 * EVar vDmsqst2 * EVar vMgl + (- #25328 * EVar vDmglst2 + #20685 * EVar vMgl) * EPow P2 (EVar
   vMsq)) * EPow P4 (EVar vMst1) + #108 * (#15 * EVar vDmsqst2 * EVar vMgl + #2 * (- #53 * EVar vDmglst2 + #15 * EVar
   vMgl) * EPow P2 (EVar vMsq)) * EPow P4 (EVar vMst2)) + #6 * EVar vMst2 * EVar vs2t * EPow P2 (EVar vMt) * (#3 *
   (#300 * EVar vDmsqst2 * EVar vMgl + (#96 * EVar vDmglst2 + #1735 * EVar vMgl) * EPow P2 (EVar vMsq)) * EPow P2
   (EVar vMst1) * EPow P2 (EVar vMst2) + #2 * (#530 * EVar vDmsqst2 * EVar vMgl + (- #9084 * EVar vDmglst2 + #6031 *
   EVar vMgl) * EPow P2 (EVar vMsq)) * EPow P4 (EVar vMst1) + #27 * (#20 * EVar vDmsqst2 * EVar vMgl + (#144 * EVar
   vDmglst2 + #101 * EVar vMgl) * EPow P2 (EVar vMsq)) * EPow P4 (EVar vMst2))) - EVar vMt * EVar vMuSUSY * EVar
   vTbeta * (#2 * EVar vMt * EPow P2 (EVar vMsq) * (#18 * EVar vMt * (#6 * (#94 * EVar vDmglst2 + #75 * EVar vMgl) *
   EPow P2 (EVar vMst1) * EPow P2 (EVar vMst2) + #1031 * EVar vMgl * EPow P4 (EVar vMst1) + #162 * (#2 * EVar vDmglst2
   + EVar vMgl) * EPow P4 (EVar vMst2)) + EVar vMst2 * EVar vs2t * (#18 * (#709 * EVar vDmglst2 + #1135 * EVar vMgl) *
   EPow P2 (EVar vMst1) * EPow P2 (EVar vMst2) + #4 * (#659 * EVar vDmglst2 + #8823 * EVar vMgl) * EPow P4 (EVar
   vMst1) + #27 * (#271 * EVar vDmglst2 + #255 * EVar vMgl) * EPow P4 (EVar vMst2))) - EPow P2 (EVar vMst2) * EPow P2
   (EVar vs2t) * (#60 * EVar vDmsqst2 * EVar vMgl * (#117 * EPow P2 (EVar vMst1) * EPow P2 (EVar vMst2) + #221 * EPow
   P4 (EVar vMst1) + #27 * EPow P4 (EVar vMst2)) + EPow P2 (EVar vMsq) * (#3 * EVar vMgl * (#6828 * EPow P2 (EVar
   vMst1) * EPow P2 (EVar vMst2) + #13723 * EPow P4 (EVar vMst1) + #1080 * EPow P4 (EVar vMst2)) - #4 * EVar vDmglst2
   * (#4995 * EPow P2 (EVar vMst1) * EPow P2 (EVar vMst2) + #11327 * EPow P4 (EVar vMst1) + #2862 * EPow P4 (EVar
   vMst2)))))) + EVar vTbeta * EPow P2 (EVar vSbeta) * (#4 * EVar vMt * EPow P2 (EVar vMsq) * EPow P3 (EVar vs2t) *
   (#36 * (#52 * EVar vDmglst2 - #185 * EVar vMgl) * EPow P2 (EVar vMst1) * EPow P2 (EVar vMst2) + (#15571 * EVar
   vDmglst2 - #1317 * EVar vMgl) * EPow P4 (EVar vMst1) - #27 * (#271 * EVar vDmglst2 + #255 * EVar vMgl) * EPow P4
   (EVar vMst2)) * EPow P5 (EVar vMst2) + (#36 * (#105 * EVar vDmsqst2 * EVar vMgl + (#81 * EVar vDmglst2 + #389 *
   EVar vMgl) * EPow P2 (EVar vMsq)) * EPow P2 (EVar vMst1) * EPow P2 (EVar vMst2) + (#840 * EVar vDmsqst2 * EVar vMgl
   + (- #16796 * EVar vDmglst2 + #3441 * EVar vMgl) * EPow P2 (EVar vMsq)) * EPow P4 (EVar vMst1) + #108 * (#15 * EVar
   vDmsqst2 * EVar vMgl + #2 * (- #53 * EVar vDmglst2 + #15 * EVar vMgl) * EPow P2 (EVar vMsq)) * EPow P4 (EVar
   vMst2)) * EPow P4 (EVar vs2t) * EPow P6 (EVar vMst2) - #4 * EPow P2 (EVar vMst2) * EPow P2 (EVar vMt) * EPow P2
   (EVar vs2t) * (#3 * (#160 * EVar vDmsqst2 * EVar vMgl + (- #18456 * EVar vDmglst2 + #6857 * EVar vMgl) * EPow P2
   (EVar vMsq)) * EPow P2 (EVar vMst2) * EPow P4 (EVar vMst1) + #18 * (#60 * EVar vDmsqst2 * EVar vMgl + (- #600 *
   EVar vDmglst2 + #413 * EVar vMgl) * EPow P2 (EVar vMsq)) * EPow P2 (EVar vMst1) * EPow P4 (EVar vMst2) + EPow P2
   (EVar vMuSUSY) * (#60 * EVar vDmsqst2 * EVar vMgl * (#117 * EPow P2 (EVar vMst1) * EPow P2 (EVar vMst2) + #221 *
   EPow P4 (EVar vMst1) + #27 * EPow P4 (EVar vMst2)) + EPow P2 (EVar vMsq) * (#3 * EVar vMgl * (#6828 * EPow P2 (EVar
   vMst1) * EPow P2 (EVar vMst2) + #13723 * EPow P4 (EVar vMst1) + #1080 * EPow P4 (EVar vMst2)) - #4 * EVar vDmglst2
   * (#4995 * EPow P2 (EVar vMst1) * EPow P2 (EVar vMst2) + #11327 * EPow P4 (EVar vMst1) + #2862 * EPow P4 (EVar
   vMst2)))) + #81 * (#20 * EVar vDmsqst2 * EVar vMgl + (#144 * EVar vDmglst2 + #101 * EVar vMgl) * EPow P2 (EVar
   vMsq)) * EPow P6 (EVar vMst2)) + #8 * EPow P2 (EVar vMsq) * EPow P3 (EVar vMt) * (#2 * EVar vMt * (#8 * (#2791 *
   EVar vDmglst2 + #438 * EVar vMgl) * EPow P2 (EVar vMst2) * EPow P4 (EVar vMst1) + #9 * (#644 * EVar vDmglst2 + #209
   * EVar vMgl) * EPow P2 (EVar vMst1) * EPow P4 (EVar vMst2) + #9 * EPow P2 (EVar vMuSUSY) * (#6 * (#94 * EVar
   vDmglst2 + #75 * EVar vMgl) * EPow P2 (EVar vMst1) * EPow P2 (EVar vMst2) + #1031 * EVar vMgl * EPow P4 (EVar
   vMst1) + #162 * (#2 * EVar vDmglst2 + EVar vMgl) * EPow P4 (EVar vMst2)) + #189 * (#4 * EVar vDmglst2 + #3 * EVar
   vMgl) * EPow P6 (EVar vMst2)) + EVar vMst2 * EVar vs2t * (- #40 * (#2573 * EVar vDmglst2 - #411 * EVar vMgl) * EPow
   P2 (EVar vMst2) * EPow P4 (EVar vMst1) - #18 * (#1383 * EVar vDmglst2 - #377 * EVar vMgl) * EPow P2 (EVar vMst1) *
   EPow P4 (EVar vMst2) + EPow P2 (EVar vMuSUSY) * (#18 * (#709 * EVar vDmglst2 + #1135 * EVar vMgl) * EPow P2 (EVar
   vMst1) * EPow P2 (EVar vMst2) + #4 * (#659 * EVar vDmglst2 + #8823 * EVar vMgl) * EPow P4 (EVar vMst1) + #27 *
   (#271 * EVar vDmglst2 + #255 * EVar vMgl) * EPow P4 (EVar vMst2)) + #54 * (#253 * EVar vDmglst2 + #309 * EVar vMgl)
   * EPow P6 (EVar vMst2)))))) - EConst Cz3 * (#15 * EVar vxDmsqst2 * EPow P2 (EVar vDmsqst2) * EPow P2 (EVar vMst2) *
   (- #5184 * EVar vMst2 * EVar vxDmglst2 * EPow P2 (EVar vDmglst2) * (EVar vs2t * EPow P2 (EVar vSbeta) * (- #2 *
   EVar vs2t * EPow P2 (EVar vMt) * (#48 * EVar vMuSUSY + #5 * EVar vMst2 * EVar vTbeta * (- #2 + EPow P2 (EVar
   vSbeta)) * EPow P2 (EVar vSbeta)) + #704 * EVar vTbeta * EPow P3 (EVar vMt) + #5 * EVar vTbeta * EPow P3 (EVar
   vMst2) * EPow P3 (EVar vs2t)) * EPow P4 (EVar vMst1) - #2 * EPow P2 (EVar vMst1) * (#16 * EVar vMst2 * EVar vMuSUSY
   * EPow P2 (EVar vMt) * EPow P2 (EVar vs2t) * (- (EVar vMuSUSY * EVar vTbeta * (- #1 + EPow P2 (EVar vSbeta))) + #3
   * EVar vMst2 * EPow P2 (EVar vSbeta)) + #8 * EVar vs2t * EVar vTbeta * (#5 * EPow P2 (EVar vMuSUSY) * (- #1 + EPow
   P2 (EVar vSbeta)) - #28 * EPow P2 (EVar vMst2) * EPow P2 (EVar vSbeta)) * EPow P3 (EVar vMt) - #2 * EVar vMt * (#5
   * EVar vMuSUSY + #6 * EVar vMst2 * EVar vTbeta) * EPow P2 (EVar vSbeta) * EPow P3 (EVar vMst2) * EPow P3 (EVar
   vs2t) + #32 * (#10 * EVar vMuSUSY + #9 * EVar vMst2 * EVar vTbeta) * EPow P2 (EVar vSbeta) * EPow P4 (EVar vMt) +
   EVar vTbeta * EPow P2 (EVar vSbeta) * EPow P4 (EVar vs2t) * EPow P5 (EVar vMst2)) - EPow P2 (EVar vMst2) * (#12 *
   EVar vMst2 * EVar vMuSUSY * EPow P2 (EVar vMt) * EPow P2 (EVar vs2t) * (- (EVar vMuSUSY * EVar vTbeta * (- #1 +
   EPow P2 (EVar vSbeta))) + #2 * EVar vMst2 * EPow P2 (EVar vSbeta)) + #16 * EVar vs2t * EVar vTbeta * (EPow P2 (EVar
   vMuSUSY) * (- #1 + EPow P2 (EVar vSbeta)) - #12 * EPow P2 (EVar vMst2) * EPow P2 (EVar vSbeta)) * EPow P3 (EVar
   vMt) - #4 * EVar vMt * (#3 * EVar vMuSUSY + #2 * EVar vMst2 * EVar vTbeta) * EPow P2 (EVar vSbeta) * EPow P3 (EVar
   vMst2) * EPow P3 (EVar vs2t) + #32 * (#6 * EVar vMuSUSY + #5 * EVar vMst2 * EVar vTbeta) * EPow P2 (EVar vSbeta) *
   EPow P4 (EVar vMt) + #3 * EVar vTbeta * EPow P2 (EVar vSbeta) * EPow P4 (EVar vs2t) * EPow P5 (EVar vMst2))) + EVar
   vMgl * (#4 * EVar vMt * EVar vMuSUSY * EPow P2 (EVar vSbeta) * (#41472 * EVar vMst2 * (#4 * (#5 * EVar vDmglst2 -
   EVar vMgl) * EPow P2 (EVar vMst1) + #3 * (#2 * EVar vDmglst2 - EVar vMgl) * EPow P2 (EVar vMst2)) * EPow P3 (EVar
   vMt) + #4 * EVar vMgl * EVar vs2t * EPow P2 (EVar vMt) * (#11856 * EPow P2 (EVar vMst1) * EPow P2 (EVar vMst2) +
   #15440 * EPow P4 (EVar vMst1) + #9819 * EPow P4 (EVar vMst2)) + #15552 * EVar vMst2 * EVar vMt * EPow P2 (EVar
   vs2t) * (#2 * EVar vDmglst2 * EPow P2 (#2 * EPow P2 (EVar vMst1) + EPow P2 (EVar vMst2)) - EVar vMgl * (#10 * EPow
   P2 (EVar vMst1) * EPow P2 (EVar vMst2) + #8 * EPow P4 (EVar vMst1) + #7 * EPow P4 (EVar vMst2))) - #3 * EPow P2
   (EVar vMst2) * EPow P3 (EVar vs2t) * (#1728 * EVar vDmglst2 * EPow P2 (EVar vMst2) * (#5 * EPow P2 (EVar vMst1) +
   #3 * EPow P2 (EVar vMst2)) - EVar vMgl * (#12007 * EPow P2 (EVar vMst1) * EPow P2 (EVar vMst2) + #8416 * EPow P4
   (EVar vMst1) + #16521 * EPow P4 (EVar vMst2)))) + EVar vTbeta * (#41472 * EVar vMst2 * EVar vs2t * (#7 * EVar vMgl
   * (#2 * EPow P2 (EVar vMst1) + EPow P2 (EVar vMst2)) - #2 * EVar vDmglst2 * (#5 * EPow P2 (EVar vMst1) + EPow P2
   (EVar vMst2))) * EPow P2 (EVar vMuSUSY) * EPow P3 (EVar vMt) + #4 * EVar vMt * EPow P2 (EVar vs2t) * (#648 * EPow
   P2 (EVar vMst2) * (#10 * EVar vMgl * EVar vMst2 * EVar vs2t * (- #2 + EPow P2 (EVar vSbeta)) + (#20 * EVar vDmglst2
   - #3 * EVar vMgl) * EVar vMt * EPow P2 (EVar vSbeta)) * EPow P4 (EVar vMst1) * EPow P4 (EVar vSbeta) + EVar vMt *
   (EPow P2 (EVar vMuSUSY) * (#48 * (#864 * EVar vDmglst2 - #1783 * EVar vMgl) * EPow P2 (EVar vMst1) * EPow P2 (EVar
   vMst2) + #28336 * EVar vMgl * EPow P4 (EVar vMst1) + #9 * (#1728 * EVar vDmglst2 - #5507 * EVar vMgl) * EPow P4
   (EVar vMst2)) - #1296 * (#20 * EVar vDmglst2 - #3 * EVar vMgl) * EPow P2 (EVar vMst2) * EPow P4 (EVar vMst1) * EPow
   P4 (EVar vSbeta))) + EPow P2 (EVar vSbeta) * (- #10368 * EVar vMt * EPow P3 (EVar vMst2) * EPow P3 (EVar vs2t) *
   (#6 * (#2 * EVar vDmglst2 - EVar vMgl) * EPow P2 (EVar vMst1) * EPow P2 (EVar vMst2) + #5 * EVar vMgl * EPow P4
   (EVar vMst1) + #2 * (#2 * EVar vDmglst2 - #7 * EVar vMgl) * EPow P4 (EVar vMst2)) - #41472 * EVar vMst2 * EVar vs2t
   * EPow P3 (EVar vMt) * ((#7 * EVar vMgl * (#2 * EPow P2 (EVar vMst1) + EPow P2 (EVar vMst2)) - #2 * EVar vDmglst2 *
   (#5 * EPow P2 (EVar vMst1) + EPow P2 (EVar vMst2))) * EPow P2 (EVar vMuSUSY) + #8 * ((#7 * EVar vDmglst2 - #2 *
   EVar vMgl) * EPow P2 (EVar vMst1) * EPow P2 (EVar vMst2) + (#11 * EVar vDmglst2 - EVar vMgl) * EPow P4 (EVar
   vMst1)) + #12 * (#2 * EVar vDmglst2 - EVar vMgl) * EPow P4 (EVar vMst2)) - #1296 * (- #576 * (#4 * EVar vDmglst2 -
   EVar vMgl) * EPow P2 (EVar vMst1) * EPow P2 (EVar vMst2) + #384 * EVar vMgl * EPow P4 (EVar vMst1) + (- #640 * EVar
   vDmglst2 + #203 * EVar vMgl) * EPow P4 (EVar vMst2)) * EPow P4 (EVar vMt) - #3 * EPow P4 (EVar vMst2) * (#1728 *
   EVar vDmglst2 * (- #2 * EPow P2 (EVar vMst1) * EPow P2 (EVar vMst2) + #5 * EPow P4 (EVar vMst1) - #3 * EPow P4
   (EVar vMst2)) + EVar vMgl * (- #4514 * EPow P2 (EVar vMst1) * EPow P2 (EVar vMst2) - #3591 * EPow P4 (EVar vMst1) +
   #16521 * EPow P4 (EVar vMst2))) * EPow P4 (EVar vs2t) + #4 * EPow P2 (EVar vMt) * EPow P2 (EVar vs2t) * (- (EPow P2
   (EVar vMuSUSY) * (#48 * (#864 * EVar vDmglst2 - #1783 * EVar vMgl) * EPow P2 (EVar vMst1) * EPow P2 (EVar vMst2) +
   #28336 * EVar vMgl * EPow P4 (EVar vMst1) + #9 * (#1728 * EVar vDmglst2 - #5507 * EVar vMgl) * EPow P4 (EVar
   vMst2))) + #2 * EVar vMgl * (#784 * EPow P2 (EVar vMst2) * EPow P4 (EVar vMst1) - #2037 * EPow P2 (EVar vMst1) *
   EPow P4 (EVar vMst2) - #9819 * EPow P6 (EVar vMst2))))))) + EPow P2 (EVar vMsq) * (- #4 * EVar vMst2 * EVar
   vxDmglst2 * EPow P2 (EVar vDmglst2) * (#19440 * EVar vDmsqst2 * EPow P2 (EVar vMst2) * (EVar vs2t * EPow P2 (EVar
   vSbeta) * (- #2 * EVar vs2t * EPow P2 (EVar vMt) * (#48 * EVar vMuSUSY + #5 * EVar vMst2 * EVar vTbeta * (- #2 +
   EPow P2 (EVar vSbeta)) * EPow P2 (EVar vSbeta)) + #704 * EVar vTbeta * EPow P3 (EVar vMt) + #5 * EVar vTbeta * EPow
   P3 (EVar vMst2) * EPow P3 (EVar vs2t)) * EPow P4 (EVar vMst1) - #2 * EPow P2 (EVar vMst1) * (#16 * EVar vMst2 *
   EVar vMuSUSY * EPow P2 (EVar vMt) * EPow P2 (EVar vs2t) * (- (EVar vMuSUSY * EVar vTbeta * (- #1 + EPow P2 (EVar
   vSbeta))) + #3 * EVar vMst2 * EPow P2 (EVar vSbeta)) + #8 * EVar vs2t * EVar vTbeta * (#5 * EPow P2 (EVar vMuSUSY)
   * (- #1 + EPow P2 (EVar vSbeta)) - #28 * EPow P2 (EVar vMst2) * EPow P2 (EVar vSbeta)) * EPow P3 (EVar vMt) - #2 *
   EVar vMt * (#5 * EVar vMuSUSY + #6 * EVar vMst2 * EVar vTbeta) * EPow P2 (EVar vSbeta) * EPow P3 (EVar vMst2) *
   EPow P3 (EVar vs2t) + #32 * (#10 * EVar vMuSUSY + #9 * EVar vMst2 * EVar vTbeta) * EPow P2 (EVar vSbeta) * EPow P4
   (EVar vMt) + EVar vTbeta * EPow P2 (EVar vSbeta) * EPow P4 (EVar vs2t) * EPow P5 (EVar vMst2)) - EPow P2 (EVar
   vMst2) * (#12 * EVar vMst2 * EVar vMuSUSY * EPow P2 (EVar vMt) * EPow P2 (EVar vs2t) * (- (EVar vMuSUSY * EVar
   vTbeta * (- #1 + EPow P2 (EVar vSbeta))) + #2 * EVar vMst2 * EPow P2 (EVar vSbeta)) + #16 * EVar vs2t * EVar vTbeta
   * (EPow P2 (EVar vMuSUSY) * (- #1 + EPow P2 (EVar vSbeta)) - #12 * EPow P2 (EVar vMst2) * EPow P2 (EVar vSbeta)) *
   EPow P3 (EVar vMt) - #4 * EVar vMt * (#3 * EVar vMuSUSY + #2 * EVar vMst2 * EVar vTbeta) * EPow P2 (EVar vSbeta) *
   EPow P3 (EVar vMst2) * EPow P3 (EVar vs2t) + #32 * (#6 * EVar vMuSUSY + #5 * EVar vMst2 * EVar vTbeta) * EPow P2
   (EVar vSbeta) * EPow P4 (EVar vMt) + #3 * EVar vTbeta * EPow P2 (EVar vSbeta) * EPow P4 (EVar vs2t) * EPow P5 (EVar
   vMst2))) + EPow P2 (EVar vMsq) * (#6 * EVar vMst2 * EPow P2 (EVar vMst1) * (- #32 * EPow P2 (EVar vMst2) * EPow P2
   (EVar vMt) * (- #101147 * EVar vTbeta * EPow P2 (EVar vMuSUSY) * EPow P2 (EVar vs2t) * (- #1 + EPow P2 (EVar
   vSbeta)) + EVar vMt * (#56232 * EVar vMuSUSY * EVar vs2t - #223217 * EVar vMt * EVar vTbeta) * EPow P2 (EVar
   vSbeta)) + #2 * EVar vMt * EVar vs2t * (#2 * EVar vMt * (#827103 * EVar vMuSUSY * EVar vs2t - #499172 * EVar vMt *
   EVar vTbeta) + EVar vMst2 * EVar vs2t * (#932531 * EVar vMuSUSY * EVar vs2t - #82125 * EVar vMt * EVar vTbeta)) *
   EPow P2 (EVar vSbeta) * EPow P3 (EVar vMst2) + #16 * EVar vMst2 * EVar vMuSUSY * (#304286 * EVar vMuSUSY * EVar
   vs2t * EVar vTbeta * (- #1 + EPow P2 (EVar vSbeta)) + #221681 * EVar vMt * EPow P2 (EVar vSbeta)) * EPow P3 (EVar
   vMt) + EVar vTbeta * (- #1309344 * EPow P2 (EVar vMuSUSY) * (- #1 + EPow P2 (EVar vSbeta)) * EPow P4 (EVar vMt) -
   #5 * (- #45736 * EVar vMt + #24671 * EVar vMst2 * EVar vs2t) * EPow P2 (EVar vSbeta) * EPow P3 (EVar vs2t) * EPow
   P5 (EVar vMst2))) - #9 * EPow P3 (EVar vMst2) * (#4 * EPow P2 (EVar vMst2) * EPow P2 (EVar vMt) * (- #228607 * EVar
   vTbeta * EPow P2 (EVar vMuSUSY) * EPow P2 (EVar vs2t) * (- #1 + EPow P2 (EVar vSbeta)) + (#354654 * EVar vMt * EVar
   vMuSUSY * EVar vs2t - #520966 * EVar vTbeta * EPow P2 (EVar vMt)) * EPow P2 (EVar vSbeta)) - #4 * EVar vMt * EVar
   vs2t * (#3 * EVar vMt * EVar vs2t * (#221914 * EVar vMuSUSY + #59109 * EVar vMst2 * EVar vTbeta) - #258368 * EVar
   vTbeta * EPow P2 (EVar vMt) + #228607 * EVar vMst2 * EVar vMuSUSY * EPow P2 (EVar vs2t)) * EPow P2 (EVar vSbeta) *
   EPow P3 (EVar vMst2) - #176 * EVar vMst2 * EVar vMuSUSY * (#10087 * EVar vMuSUSY * EVar vs2t * EVar vTbeta * (- #1
   + EPow P2 (EVar vSbeta)) + #5872 * EVar vMt * EPow P2 (EVar vSbeta)) * EPow P3 (EVar vMt) + EVar vTbeta * (#382080
   * EPow P2 (EVar vMuSUSY) * (- #1 + EPow P2 (EVar vSbeta)) * EPow P4 (EVar vMt) + (#887656 * EVar vMt + #228607 *
   EVar vMst2 * EVar vs2t) * EPow P2 (EVar vSbeta) * EPow P3 (EVar vs2t) * EPow P5 (EVar vMst2))) + #2 * EPow P4 (EVar
   vMst1) * (#16 * EVar vMst2 * EPow P2 (EVar vMt) * EPow P2 (EVar vs2t) * (#353116 * EVar vTbeta * EPow P2 (EVar
   vMuSUSY) * (- #1 + EPow P2 (EVar vSbeta)) + (#546087 * EVar vMst2 * EVar vMuSUSY - #6606 * EVar vTbeta * EPow P2
   (EVar vMst2)) * EPow P2 (EVar vSbeta)) - #32 * EVar vs2t * (- #395581 * EVar vTbeta * EPow P2 (EVar vMuSUSY) * (-
   #1 + EPow P2 (EVar vSbeta)) + (#25254 * EVar vMst2 * EVar vMuSUSY - #653582 * EVar vTbeta * EPow P2 (EVar vMst2)) *
   EPow P2 (EVar vSbeta)) * EPow P3 (EVar vMt) + EPow P2 (EVar vSbeta) * (#52 * EVar vMt * (#27676 * EVar vMuSUSY -
   #21739 * EVar vMst2 * EVar vTbeta) * EPow P3 (EVar vMst2) * EPow P3 (EVar vs2t) - #64 * (#417241 * EVar vMuSUSY +
   #591386 * EVar vMst2 * EVar vTbeta) * EPow P4 (EVar vMt) + #217283 * EVar vTbeta * EPow P4 (EVar vs2t) * EPow P5
   (EVar vMst2))))) + EVar vMgl * (#32 * EVar vMst2 * EVar vMt * EVar vMuSUSY * EPow P2 (EVar vSbeta) * (#4 * EPow P3
   (EVar vMt) * (#36 * (#2160 * EVar vDmsqst2 * (#5 * EVar vDmglst2 - EVar vMgl) + (#10050 * EVar vDmglst2 - #8219 *
   EVar vMgl) * EPow P2 (EVar vMsq)) * EPow P2 (EVar vMst1) * EPow P2 (EVar vMst2) + #4 * (#417241 * EVar vDmglst2 -
   #160608 * EVar vMgl) * EPow P2 (EVar vMsq) * EPow P4 (EVar vMst1) + #81 * (#480 * EVar vDmsqst2 * (#3 * EVar
   vDmglst2 - EVar vMgl) + (#3 * EVar vDmglst2 - #961 * EVar vMgl) * EPow P2 (EVar vMsq)) * EPow P4 (EVar vMst2)) + #3
   * EVar vMt * EPow P2 (EVar vMst2) * EPow P2 (EVar vs2t) * (#9 * (#8640 * EVar vDmsqst2 * (EVar vDmglst2 - EVar
   vMgl) - (#49501 * EVar vDmglst2 + #11377 * EVar vMgl) * EPow P2 (EVar vMsq)) * EPow P2 (EVar vMst1) * EPow P2 (EVar
   vMst2) + #4 * (#19440 * EVar vDmsqst2 * (EVar vDmglst2 - EVar vMgl) - (#182029 * EVar vDmglst2 + #8862 * EVar vMgl)
   * EPow P2 (EVar vMsq)) * EPow P4 (EVar vMst1) + #27 * (#720 * EVar vDmsqst2 * (EVar vDmglst2 - #3 * EVar vMgl) -
   (#15137 * EVar vDmglst2 + #5965 * EVar vMgl) * EPow P2 (EVar vMsq)) * EPow P4 (EVar vMst2)) - EPow P3 (EVar vMst2)
   * EPow P3 (EVar vs2t) * (#9 * (EVar vDmglst2 * (#5400 * EVar vDmsqst2 + #64119 * EPow P2 (EVar vMsq)) + #4 * EVar
   vMgl * (#780 * EVar vDmsqst2 + (#11924 + #27 * EVar vlmMst1 - #27 * EVar vlmMst2) * EPow P2 (EVar vMsq))) * EPow P2
   (EVar vMst1) * EPow P2 (EVar vMst2) + #2 * (#21840 * EVar vDmsqst2 * EVar vMgl + #11 * (#16354 * EVar vDmglst2 +
   #20937 * EVar vMgl) * EPow P2 (EVar vMsq)) * EPow P4 (EVar vMst1) - #27 * (#690 * EVar vDmsqst2 * EVar vMgl - #6 *
   (#1319 + #6 * EVar vlmMst1 - #6 * EVar vlmMst2) * EVar vMgl * EPow P2 (EVar vMsq) - #5 * EVar vDmglst2 * (#216 *
   EVar vDmsqst2 + #3523 * EPow P2 (EVar vMsq))) * EPow P4 (EVar vMst2)) + #6 * EVar vMst2 * EVar vs2t * EPow P2 (EVar
   vMt) * (#20 * EVar vDmsqst2 * EVar vMgl * (#909 * EPow P2 (EVar vMst1) * EPow P2 (EVar vMst2) + #965 * EPow P4
   (EVar vMst1) + #783 * EPow P4 (EVar vMst2)) + EPow P2 (EVar vMsq) * (#12 * EVar vDmglst2 * (#3540 * EPow P2 (EVar
   vMst1) * EPow P2 (EVar vMst2) + #2806 * EPow P4 (EVar vMst1) + #1317 * EPow P4 (EVar vMst2)) + EVar vMgl * (- #5577
   * EPow P2 (EVar vMst1) * EPow P2 (EVar vMst2) + #27086 * EPow P4 (EVar vMst1) + #81 * (- #77 + #8 * EVar vlmMst1 -
   #8 * EVar vlmMst2) * EPow P4 (EVar vMst2))))) + #8 * EVar vTbeta * (#4 * EPow P2 (EVar vMst2) * EPow P2 (EVar vMt)
   * EPow P2 (EVar vs2t) * (EPow P2 (EVar vMsq) * EPow P2 (EVar vMuSUSY) * (EVar vDmglst2 * (#1052676 * EPow P2 (EVar
   vMst1) * EPow P2 (EVar vMst2) + #1412464 * EPow P4 (EVar vMst1) + #475605 * EPow P4 (EVar vMst2)) + #6 * EVar vMgl
   * (#3 * (#35719 + #108 * EVar vlmMst1 - #108 * EVar vlmMst2) * EPow P2 (EVar vMst1) * EPow P2 (EVar vMst2) + #2 *
   (#91963 + #162 * EVar vlmMst1 - #162 * EVar vlmMst2) * EPow P4 (EVar vMst1) + #27 * (#1319 + #6 * EVar vlmMst1 - #6
   * EVar vlmMst2) * EPow P4 (EVar vMst2))) + #30 * EVar vDmsqst2 * (EVar vMgl * EPow P2 (EVar vMuSUSY) * (#315 * EPow
   P2 (EVar vMst1) * EPow P2 (EVar vMst2) + #1771 * EPow P4 (EVar vMst1) - #621 * EPow P4 (EVar vMst2)) + #162 * EVar
   vDmglst2 * EPow P2 (EVar vMst2) * (#2 * (#8 * EPow P2 (EVar vMst1) + #3 * EPow P2 (EVar vMst2)) * EPow P2 (EVar
   vMuSUSY) + #5 * (- #2 + EPow P2 (EVar vSbeta)) * EPow P4 (EVar vMst1) * EPow P4 (EVar vSbeta)))) + EVar vMst2 *
   EVar vs2t * EPow P2 (EVar vSbeta) * (#4 * EVar vMt * EPow P2 (EVar vs2t) * EPow P4 (EVar vMst2) * (- #18 * (#1080 *
   EVar vDmsqst2 * (#3 * EVar vDmglst2 - EVar vMgl) + (- #2045 * EVar vDmglst2 + #3259 * EVar vMgl) * EPow P2 (EVar
   vMsq)) * EPow P2 (EVar vMst1) * EPow P2 (EVar vMst2) + (#282607 * EVar vDmglst2 - #66945 * EVar vMgl) * EPow P2
   (EVar vMsq) * EPow P4 (EVar vMst1) - #27 * (#720 * EVar vDmsqst2 * (EVar vDmglst2 - #3 * EVar vMgl) - (#15137 *
   EVar vDmglst2 + #5965 * EVar vMgl) * EPow P2 (EVar vMsq)) * EPow P4 (EVar vMst2)) - EPow P3 (EVar vs2t) * (- #18 *
   (#1080 * EVar vDmglst2 * EVar vDmsqst2 + #2595 * EVar vDmsqst2 * EVar vMgl + #5637 * EVar vDmglst2 * EPow P2 (EVar
   vMsq) + #11977 * EVar vMgl * EPow P2 (EVar vMsq)) * EPow P2 (EVar vMst1) * EPow P2 (EVar vMst2) + (EVar vDmglst2 *
   (#48600 * EVar vDmsqst2 + #217283 * EPow P2 (EVar vMsq)) - #6 * EVar vMgl * (#2600 * EVar vDmsqst2 + (#5225 - #162
   * EVar vlmMst1 + #162 * EVar vlmMst2) * EPow P2 (EVar vMsq))) * EPow P4 (EVar vMst1) + #27 * (#690 * EVar vDmsqst2
   * EVar vMgl - #6 * (#1319 + #6 * EVar vlmMst1 - #6 * EVar vlmMst2) * EVar vMgl * EPow P2 (EVar vMsq) - #5 * EVar
   vDmglst2 * (#216 * EVar vDmsqst2 + #3523 * EPow P2 (EVar vMsq))) * EPow P4 (EVar vMst2)) * EPow P5 (EVar vMst2) -
   #8 * EPow P3 (EVar vMt) * (#8 * (#9720 * EVar vDmsqst2 * (#11 * EVar vDmglst2 - EVar vMgl) + (#326791 * EVar
   vDmglst2 - #86637 * EVar vMgl) * EPow P2 (EVar vMsq)) * EPow P2 (EVar vMst2) * EPow P4 (EVar vMst1) + #18 * (#4320
   * EVar vDmsqst2 * (#7 * EVar vDmglst2 - EVar vMgl) + #7 * (#5739 * EVar vDmglst2 - #3461 * EVar vMgl) * EPow P2
   (EVar vMsq)) * EPow P2 (EVar vMst1) * EPow P4 (EVar vMst2) + EPow P2 (EVar vMuSUSY) * (- #72 * (#270 * EVar
   vDmsqst2 * (#5 * EVar vDmglst2 - #7 * EVar vMgl) - (#11864 * EVar vDmglst2 + #3659 * EVar vMgl) * EPow P2 (EVar
   vMsq)) * EPow P2 (EVar vMst1) * EPow P2 (EVar vMst2) + #4 * (#395581 * EVar vDmglst2 + #74724 * EVar vMgl) * EPow
   P2 (EVar vMsq) * EPow P4 (EVar vMst1) - #27 * (#720 * EVar vDmsqst2 * (EVar vDmglst2 - #3 * EVar vMgl) - (#15137 *
   EVar vDmglst2 + #5965 * EVar vMgl) * EPow P2 (EVar vMsq)) * EPow P4 (EVar vMst2)) + #162 * (#480 * EVar vDmsqst2 *
   (#3 * EVar vDmglst2 - EVar vMgl) + (#3 * EVar vDmglst2 - #961 * EVar vMgl) * EPow P2 (EVar vMsq)) * EPow P6 (EVar
   vMst2)) - #4 * EVar vMst2 * EVar vs2t * EPow P2 (EVar vMt) * (#3 * (#1120 * EVar vDmsqst2 * EVar vMgl + #367 * (-
   #24 * EVar vDmglst2 + #89 * EVar vMgl) * EPow P2 (EVar vMsq)) * EPow P2 (EVar vMst2) * EPow P4 (EVar vMst1) + #36 *
   (#210 * EVar vDmsqst2 * EVar vMgl + (#2223 * EVar vDmglst2 + (#55 - #54 * EVar vlmMst1 + #54 * EVar vlmMst2) * EVar
   vMgl) * EPow P2 (EVar vMsq)) * EPow P2 (EVar vMst1) * EPow P4 (EVar vMst2) + EPow P2 (EVar vMuSUSY) * (#30 * EVar
   vDmsqst2 * (#324 * EVar vDmglst2 * EPow P2 (EVar vMst2) * (#8 * EPow P2 (EVar vMst1) + #3 * EPow P2 (EVar vMst2)) +
   EVar vMgl * (#315 * EPow P2 (EVar vMst1) * EPow P2 (EVar vMst2) + #1771 * EPow P4 (EVar vMst1) - #621 * EPow P4
   (EVar vMst2))) + EPow P2 (EVar vMsq) * (EVar vDmglst2 * (#1052676 * EPow P2 (EVar vMst1) * EPow P2 (EVar vMst2) +
   #1412464 * EPow P4 (EVar vMst1) + #475605 * EPow P4 (EVar vMst2)) + #6 * EVar vMgl * (#3 * (#35719 + #108 * EVar
   vlmMst1 - #108 * EVar vlmMst2) * EPow P2 (EVar vMst1) * EPow P2 (EVar vMst2) + #2 * (#91963 + #162 * EVar vlmMst1 -
   #162 * EVar vlmMst2) * EPow P4 (EVar vMst1) + #27 * (#1319 + #6 * EVar vlmMst1 - #6 * EVar vlmMst2) * EPow P4 (EVar
   vMst2)))) + #27 * (#1740 * EVar vDmsqst2 * EVar vMgl + (#1756 * EVar vDmglst2 + #9 * (- #77 + #8 * EVar vlmMst1 -
   #8 * EVar vlmMst2) * EVar vMgl) * EPow P2 (EVar vMsq)) * EPow P6 (EVar vMst2))) + #8 * EPow P3 (EVar vMt) * (EPow
   P2 (EVar vMuSUSY) * (#18 * EVar vMt * EPow P2 (EVar vMsq) * (- #6 * (#250 * EVar vDmglst2 - #327 * EVar vMgl) *
   EPow P2 (EVar vMst1) * EPow P2 (EVar vMst2) + #751 * EVar vMgl * EPow P4 (EVar vMst1) - #12 * (#83 * EVar vDmglst2
   - #115 * EVar vMgl) * EPow P4 (EVar vMst2)) + EVar vMst2 * EVar vs2t * (- #72 * (#270 * EVar vDmsqst2 * (#5 * EVar
   vDmglst2 - #7 * EVar vMgl) - (#11864 * EVar vDmglst2 + #3659 * EVar vMgl) * EPow P2 (EVar vMsq)) * EPow P2 (EVar
   vMst1) * EPow P2 (EVar vMst2) + #4 * (#395581 * EVar vDmglst2 + #74724 * EVar vMgl) * EPow P2 (EVar vMsq) * EPow P4
   (EVar vMst1) - #27 * (#720 * EVar vDmsqst2 * (EVar vDmglst2 - #3 * EVar vMgl) - (#15137 * EVar vDmglst2 + #5965 *
   EVar vMgl) * EPow P2 (EVar vMsq)) * EPow P4 (EVar vMst2))) + EVar vMt * EPow P2 (EVar vSbeta) * (#38880 * EVar
   vDmsqst2 * (EVar vDmglst2 * (#18 * EPow P2 (EVar vMst1) + #5 * EPow P2 (EVar vMst2)) * EPow P4 (EVar vMst2) - EVar
   vMgl * (#3 * EPow P2 (EVar vMst2) * EPow P4 (EVar vMst1) + #2 * EPow P2 (EVar vMst1) * EPow P4 (EVar vMst2) + EPow
   P6 (EVar vMst2))) + EPow P2 (EVar vMsq) * (EVar vDmglst2 * EPow P2 (EVar vMst2) * (#72 * EPow P2 (EVar vMst1) *
   (#14423 * EPow P2 (EVar vMst2) + #375 * EPow P2 (EVar vMuSUSY)) + #27 * EPow P2 (EVar vMst2) * (- #9017 * EPow P2
   (EVar vMst2) + #664 * EPow P2 (EVar vMuSUSY)) + #4731088 * EPow P4 (EVar vMst1)) - #6 * EVar vMgl * ((#193928 *
   EPow P2 (EVar vMst2) + #2253 * EPow P2 (EVar vMuSUSY)) * EPow P4 (EVar vMst1) + #4140 * EPow P2 (EVar vMuSUSY) *
   EPow P4 (EVar vMst2) + #3 * EPow P2 (EVar vMst1) * (#1962 * EPow P2 (EVar vMst2) * EPow P2 (EVar vMuSUSY) + #34525
   * EPow P4 (EVar vMst2)) + #108 * (#514 - #3 * (EVar vlmMst1 + EVar vlmMst2) + #6 * EVar vlmMt) * EPow P6 (EVar
   vMst2)))))))))) / (#23328 * EVar vTbeta * EPow P2 (EVar vSbeta) * EPow P4 (EVar vMsq) * EPow P6 (EVar vMst2)) -
   EVar vAl4p * EConst Cz2 * (- #8 * EVar vxDmglst2 * EPow P2 (EVar vDmglst2) * (- #17010 * EVar vtwoLoopFlag * (#4 *
   EPow P2 (EVar vMt) * (#8 * (#4 * EVar vMuSUSY + #9 * EVar vMst2 * EVar vTbeta) * EPow P2 (EVar vMt) * EPow P2 (EVar
   vSbeta) + #3 * EVar vMst2 * EVar vMuSUSY * EPow P2 (EVar vs2t) * (- (EVar vMuSUSY * EVar vTbeta * (- #1 + EPow P2
   (EVar vSbeta))) + #10 * EVar vMst2 * EPow P2 (EVar vSbeta)) + #2 * EVar vMt * EVar vs2t * EVar vTbeta * (#31 * EPow
   P2 (EVar vMuSUSY) * (- #1 + EPow P2 (EVar vSbeta)) - #12 * EPow P2 (EVar vMst2) * EPow P2 (EVar vSbeta))) * EPow P4
   (EVar vMst1) + EPow P2 (EVar vMst1) * EPow P2 (EVar vMst2) * (#12 * EVar vMst2 * EVar vMuSUSY * EPow P2 (EVar vMt)
   * EPow P2 (EVar vs2t) * (EVar vMuSUSY * EVar vTbeta + #10 * EVar vMst2 * EPow P2 (EVar vSbeta) - EVar vMuSUSY *
   EVar vTbeta * EPow P2 (EVar vSbeta)) + #168 * EVar vs2t * EVar vTbeta * EPow P2 (EVar vMuSUSY) * (- #1 + EPow P2
   (EVar vSbeta)) * EPow P3 (EVar vMt) + #4 * EVar vMt * EVar vTbeta * EPow P2 (EVar vSbeta) * EPow P3 (EVar vs2t) *
   EPow P4 (EVar vMst2) + #32 * (EVar vMuSUSY + EVar vMst2 * EVar vTbeta) * EPow P2 (EVar vSbeta) * EPow P4 (EVar vMt)
   - #3 * EVar vTbeta * EPow P2 (EVar vSbeta) * EPow P4 (EVar vs2t) * EPow P5 (EVar vMst2)) + EPow P4 (EVar vMst2) *
   (#12 * EVar vMst2 * EVar vMuSUSY * EPow P2 (EVar vMt) * EPow P2 (EVar vs2t) * (- (EVar vMuSUSY * EVar vTbeta * (-
   #1 + EPow P2 (EVar vSbeta))) + #11 * EVar vMst2 * EPow P2 (EVar vSbeta)) + #8 * EVar vs2t * EVar vTbeta * (#11 *
   EPow P2 (EVar vMuSUSY) * (- #1 + EPow P2 (EVar vSbeta)) - #4 * EPow P2 (EVar vMst2) * EPow P2 (EVar vSbeta)) * EPow
   P3 (EVar vMt) - #4 * EVar vMt * (#3 * EVar vMuSUSY + #11 * EVar vMst2 * EVar vTbeta) * EPow P2 (EVar vSbeta) * EPow
   P3 (EVar vMst2) * EPow P3 (EVar vs2t) + #32 * EVar vMuSUSY * EPow P2 (EVar vSbeta) * EPow P4 (EVar vMt) + #3 * EVar
   vTbeta * EPow P2 (EVar vSbeta) * EPow P4 (EVar vs2t) * EPow P5 (EVar vMst2))) / (EVar vTbeta * EPow P2 (EVar
   vSbeta) * EPow P5 (EVar vMst2)) + EVar vAl4p * EVar vthreeLoopFlag * (#7 * EVar vMt * EPow P3 (EVar vs2t) *
   (#194400 * EVar vDmsqst2 * (#2 * (#5 - #3 * EVar vlmMst1 + #3 * EVar vlmMst2) * EPow P2 (EVar vMst1) * EPow P2
   (EVar vMst2) + #11 * EPow P4 (EVar vMst1) - #2 * (#2 + #3 * EVar vlmMst1 - #3 * EVar vlmMst2) * EPow P4 (EVar
   vMst2)) + EPow P2 (EVar vMsq) * (- #60 * (#143005 + #30024 * EVar vlmMst1 - #26352 * EVar vlmMst2) * EPow P2 (EVar
   vMst1) * EPow P2 (EVar vMst2) + (#8583283 - #2329560 * EVar vlmMst1 + #2329560 * EVar vlmMst2) * EPow P4 (EVar
   vMst1) + #9 * (#897737 + #47880 * EVar vlmMst1 + #238680 * EVar vlmMst2) * EPow P4 (EVar vMst2))) / (#2 * EVar
   vMst2 * EPow P2 (EVar vMsq)) + #4 * EPow P4 (EVar vMt) * (#680400 * EVar vDmsqst2 * EPow P2 (EVar vMst2) * ((#23 -
   #5 * EVar vlmMst1 + #10 * EVar vlmMst2 - #5 * EVar vlmMt) * EPow P2 (EVar vMst1) * EPow P2 (EVar vMst2) + (#77 -
   #18 * EVar vlmMst1 + #36 * EVar vlmMst2 - #18 * EVar vlmMt) * EPow P4 (EVar vMst1) + EPow P4 (EVar vMst2)) + EPow
   P2 (EVar vMsq) * (- #63 * EPow P2 (EVar vMst1) * EPow P2 (EVar vMst2) * (#5 * (#66191 - #9288 * EVar vlmMst1 +
   #11952 * EVar vlmMst2 - #16488 * EVar vlmMt) * EPow P2 (EVar vMst2) + #48 * (#617 + #2040 * EVar vlmMst2) * EPow P2
   (EVar vMuSUSY)) - #3 * ((#52628795 - #5738040 * EVar vlmMst1 + #11332440 * EVar vlmMst2 - #5972400 * EVar vlmMt) *
   EPow P2 (EVar vMst2) + #21 * (#122051 + #1800 * EVar vlmMst1 + #274680 * EVar vlmMst2) * EPow P2 (EVar vMuSUSY)) *
   EPow P4 (EVar vMst1) + #8 * (#19152737 - #3674160 * EVar vlmMst1 + #6872040 * EVar vlmMst2 - #850500 * EVar vlmMt)
   * EPow P6 (EVar vMst1) - #272160 * EPow P6 (EVar vMst2))) / (EPow P2 (EVar vMsq) * EPow P2 (EVar vMst1) * EPow P4
   (EVar vMst2)) - EVar vs2t * EPow P3 (EVar vMt) * (#14 * (#4 * (#9908167 - #949320 * EVar vlmMst1 + #1769040 * EVar
   vlmMst2 - #217080 * EVar vlmMt) * EPow P2 (EVar vMst2) + (#15057833 - #4014360 * EVar vlmMst1 + #5563080 * EVar
   vlmMst2) * EPow P2 (EVar vMuSUSY)) * EPow P4 (EVar vMst1) + #63 * (#897737 + #47880 * EVar vlmMst1 + #238680 * EVar
   vlmMst2) * EPow P2 (EVar vMuSUSY) * EPow P4 (EVar vMst2) - #6 * EPow P2 (EVar vMst1) * (#7 * (- #1263161 + #156600
   * EVar vlmMst1 - #979560 * EVar vlmMst2) * EPow P2 (EVar vMst2) * EPow P2 (EVar vMuSUSY) + (#47845349 - #6357960 *
   EVar vlmMst1 + #13388760 * EVar vlmMst2 - #7030800 * EVar vlmMt) * EPow P4 (EVar vMst2)) + #2721600 * EVar vDmsqst2
   * EPow P2 (EVar vMst2) * ((- #2 - #3 * EVar vlmMst1 + #3 * EVar vlmMst2) * EPow P2 (EVar vMst2) * EPow P2 (EVar
   vMuSUSY) + EPow P2 (EVar vMst1) * ((#51 - #14 * EVar vlmMst1 + #28 * EVar vlmMst2 - #14 * EVar vlmMt) * EPow P2
   (EVar vMst2) + (#1 - #9 * EVar vlmMst1 + #9 * EVar vlmMst2) * EPow P2 (EVar vMuSUSY)) + (#87 - #22 * EVar vlmMst1 +
   #44 * EVar vlmMst2 - #22 * EVar vlmMt) * EPow P4 (EVar vMst1) + (#19 - #6 * EVar vlmMst1 + #12 * EVar vlmMst2 - #6
   * EVar vlmMt) * EPow P4 (EVar vMst2)) / EPow P2 (EVar vMsq) + #18 * (- #2661049 + #335160 * EVar vlmMst1 - #1408680
   * EVar vlmMst2 + #408240 * EVar vlmMt) * EPow P6 (EVar vMst2)) / EPow P5 (EVar vMst2) - #51030 * EPow P4 (EVar
   vs2t) * (- ((EDec 3172798353909465 14 + #41 * EVar vlmMst1 / #6 + #15 * EVar vlmMst2 / #2 + #20 * EVar vDmsqst2 *
   (- #4 + EVar vlmMst1 - EVar vlmMst2) / (#3 * EPow P2 (EVar vMsq))) * EPow P2 (EVar vMst1) * EPow P2 (EVar vMst2)) +
   (EDec 15589787379972566 14 - #8 * EVar vlmMst1 + #8 * EVar vlmMst2 + #5 * EVar vDmsqst2 * (#7 + #10 * EVar vlmMst1
   - #10 * EVar vlmMst2) / (#3 * EPow P2 (EVar vMsq))) * EPow P4 (EVar vMst1) + (EDec 24781172839506173 15 + #92 *
   EVar vlmMst1 / #9 + #37 * EVar vlmMst2 / #9 - #10 * EVar vDmsqst2 * (#4 + #3 * EVar vlmMst1 - #3 * EVar vlmMst2) /
   (#3 * EPow P2 (EVar vMsq))) * EPow P4 (EVar vMst2) + #2 * (#2 - #5 * EVar vDmsqst2 / EPow P2 (EVar vMsq)) * EPow P6
   (EVar vMst2) / (#3 * EPow P2 (EVar vMst1))) - EPow P2 (EVar vMt) * EPow P2 (EVar vs2t) * (#680400 * EVar vDmsqst2 *
   EPow P2 (EVar vMst2) * ((#8 * EPow P2 (EVar vMst2) + (#3 + #8 * EVar vlmMst1 - #8 * EVar vlmMst2) * EPow P2 (EVar
   vMuSUSY)) * EPow P4 (EVar vMst1) + (#2 * EPow P2 (EVar vMst2) + EPow P2 (EVar vMuSUSY)) * EPow P4 (EVar vMst2) +
   EPow P2 (EVar vMst1) * (#3 * (#2 + EVar vlmMst1 - EVar vlmMst2) * EPow P2 (EVar vMst2) * EPow P2 (EVar vMuSUSY) +
   #8 * EPow P4 (EVar vMst2)) + #8 * EPow P6 (EVar vMst1)) - EPow P2 (EVar vMsq) * (- #30 * EPow P2 (EVar vMst2) * (#9
   * (#5208 * EVar vlmMst1 - #37 * (#7339 + #3192 * EVar vlmMst2)) * EPow P2 (EVar vMst2) - #7 * (#21223 + #13230 *
   EVar vlmMst1 + #702 * EVar vlmMst2) * EPow P2 (EVar vMuSUSY)) * EPow P4 (EVar vMst1) + #9 * EPow P2 (EVar vMst1) *
   (#18 * (#123227 - #1820 * EVar vlmMst1 + #230300 * EVar vlmMst2) * EPow P2 (EVar vMst2) + #7 * (#88931 + #33120 *
   EVar vlmMst1 + #13320 * EVar vlmMst2) * EPow P2 (EVar vMuSUSY)) * EPow P4 (EVar vMst2) + #28 * (#45 * (#78533 +
   #6732 * EVar vlmMst1 + #180 * EVar vlmMst2) * EPow P2 (EVar vMst2) + (#2128489 - #307800 * EVar vlmMst1 + #377460 *
   EVar vlmMst2) * EPow P2 (EVar vMuSUSY)) * EPow P6 (EVar vMst1) + #272160 * (#2 * EPow P2 (EVar vMst2) + EPow P2
   (EVar vMuSUSY)) * EPow P6 (EVar vMst2))) / (EPow P2 (EVar vMsq) * EPow P2 (EVar vMst1) * EPow P4 (EVar vMst2)) + #7
   * EPow P2 (EVar vMt) * (EVar vMt * EPow P2 (EVar vMuSUSY) * (#388800 * EVar vDmsqst2 * EVar vs2t * EPow P2 (EVar
   vMst2) * ((#1 - #9 * EVar vlmMst1 + #9 * EVar vlmMst2) * EPow P2 (EVar vMst1) + (- #2 - #3 * EVar vlmMst1 + #3 *
   EVar vlmMst2) * EPow P2 (EVar vMst2)) + EPow P2 (EVar vMsq) * (#6 * EVar vMst2 * (#6 * (#122051 + #1800 * EVar
   vlmMst1 + #274680 * EVar vlmMst2) * EVar vMt + (#1263161 - #156600 * EVar vlmMst1 + #979560 * EVar vlmMst2) * EVar
   vMst2 * EVar vs2t) * EPow P2 (EVar vMst1) + #9 * (#192 * (#617 + #2040 * EVar vlmMst2) * EVar vMt + (#897737 +
   #47880 * EVar vlmMst1 + #238680 * EVar vlmMst2) * EVar vMst2 * EVar vs2t) * EPow P3 (EVar vMst2) + #2 * (#15057833
   - #4014360 * EVar vlmMst1 + #5563080 * EVar vlmMst2) * EVar vs2t * EPow P4 (EVar vMst1))) - EVar vMst2 * EPow P2
   (EVar vs2t) * (- #24300 * EVar vDmsqst2 * EPow P2 (EVar vMst2) * (#4 * EPow P2 (EVar vMuSUSY) * (#3 * (#2 + EVar
   vlmMst1 - EVar vlmMst2) * EPow P2 (EVar vMst1) * EPow P2 (EVar vMst2) + (#3 + #8 * EVar vlmMst1 - #8 * EVar
   vlmMst2) * EPow P4 (EVar vMst1) + EPow P4 (EVar vMst2)) + (- #93 + #10 * EVar vlmMst1 - #10 * EVar vlmMst2) * (- #2
   + EPow P2 (EVar vSbeta)) * EPow P4 (EVar vSbeta) * EPow P6 (EVar vMst1)) + EPow P2 (EVar vMsq) * EPow P2 (EVar
   vMuSUSY) * (#30 * (#21223 + #13230 * EVar vlmMst1 + #702 * EVar vlmMst2) * EPow P2 (EVar vMst2) * EPow P4 (EVar
   vMst1) + #9 * (#88931 + #33120 * EVar vlmMst1 + #13320 * EVar vlmMst2) * EPow P2 (EVar vMst1) * EPow P4 (EVar
   vMst2) + #4 * (#2128489 - #307800 * EVar vlmMst1 + #377460 * EVar vlmMst2) * EPow P6 (EVar vMst1) + #38880 * EPow
   P6 (EVar vMst2))) / EPow P2 (EVar vMst1)) / (EPow P2 (EVar vMsq) * EPow P2 (EVar vSbeta) * EPow P5 (EVar vMst2)) +
   #51030 * EVar vMt * EVar vMuSUSY * (- (EVar vMt * EPow P2 (EVar vs2t) * (EVar vMst2 * (EDec 16624759259259258 13 +
   #266 * EVar vlmMst1 / #3 + #442 * EVar vlmMst2 - #80 * EVar vDmsqst2 * (#2 + #3 * EVar vlmMst1 - #3 * EVar vlmMst2)
   / EPow P2 (EVar vMsq)) - (EDec 1030179012345679 13 + #282 * EVar vlmMst1 - #2302 * EVar vlmMst2 / #3 + #240 * EVar
   vDmsqst2 * (- #1 + #2 * EVar vlmMst1 - #2 * EVar vlmMst2) / EPow P2 (EVar vMsq)) * EPow P2 (EVar vMst1) / EVar
   vMst2 + (EDec 3498187242798354 12 - #996 * EVar vlmMst1 + #3580 * EVar vlmMst2 / #3 + #40 * EVar vDmsqst2 * (#17 -
   #12 * EVar vlmMst1 + #12 * EVar vlmMst2) / EPow P2 (EVar vMsq)) * EPow P4 (EVar vMst1) / EPow P3 (EVar vMst2))) -
   EVar vs2t * EPow P2 (EVar vMt) * (EDec 8037269841269841 13 - #104 * EVar vlmMst1 / #9 + #13160 * EVar vlmMst2 / #9
   - #800 * EVar vDmsqst2 / (#3 * EPow P2 (EVar vMsq)) + (EDec 36771978835978834 13 - #200 * EVar vlmMst1 / #3 + #2712
   * EVar vlmMst2 - #480 * EVar vDmsqst2 / EPow P2 (EVar vMsq)) * EPow P2 (EVar vMst1) / EPow P2 (EVar vMst2) + #32 *
   (#2 - #5 * EVar vDmsqst2 / EPow P2 (EVar vMsq)) * EPow P2 (EVar vMst2) / (#3 * EPow P2 (EVar vMst1)) + #4 *
   (#510139 + #44280 * EVar vlmMst1 + #76680 * EVar vlmMst2) * EPow P4 (EVar vMst1) / (#405 * EPow P4 (EVar vMst2))) +
   EPow P3 (EVar vMt) * (#48 * (- #3231296 + #460215 * EVar vlmMst1 - #1100925 * EVar vlmMst2 + #515970 * EVar vlmMt)
   * EPow P2 (EVar vMst1) * EPow P2 (EVar vMst2) - #2721600 * EVar vDmsqst2 * EPow P2 (EVar vMst2) * (#10 * (- #3 +
   EVar vlmMst1 - #2 * EVar vlmMst2 + EVar vlmMt) * EPow P2 (EVar vMst1) + (- #8 + #3 * EVar vlmMst1 - #6 * EVar
   vlmMst2 + #3 * EVar vlmMt) * EPow P2 (EVar vMst2)) / EPow P2 (EVar vMsq) + #28 * (#13463149 - #1492020 * EVar
   vlmMst1 + #2713500 * EVar vlmMst2 - #625320 * EVar vlmMt) * EPow P4 (EVar vMst1) + #9 * (- #2456929 + #335160 *
   EVar vlmMst1 - #1408680 * EVar vlmMst2 + #408240 * EVar vlmMt) * EPow P4 (EVar vMst2)) / (#25515 * EPow P5 (EVar
   vMst2)) + EPow P3 (EVar vs2t) * (EPow P2 (EVar vMsq) * (#3 * (- #54563 + #32940 * EVar vlmMst1 - #32940 * EVar
   vlmMst2) * EPow P2 (EVar vMst2) * EPow P4 (EVar vMst1) + #9 * (#84611 + #33120 * EVar vlmMst1 + #13320 * EVar
   vlmMst2) * EPow P2 (EVar vMst1) * EPow P4 (EVar vMst2) + #8 * (#788723 - #80595 * EVar vlmMst1 + #80595 * EVar
   vlmMst2) * EPow P6 (EVar vMst1) + #38880 * EPow P6 (EVar vMst2)) + #48600 * EVar vDmsqst2 * (#2 * (#3 - #5 * EVar
   vlmMst1 + #5 * EVar vlmMst2) * EPow P2 (EVar vMst2) * EPow P4 (EVar vMst1) + #13 * EPow P6 (EVar vMst1) - #2 * ((#5
   + #3 * EVar vlmMst1 - #3 * EVar vlmMst2) * EPow P2 (EVar vMst1) * EPow P4 (EVar vMst2) + EPow P6 (EVar vMst2)))) /
   (#7290 * EPow P2 (EVar vMsq) * EPow P2 (EVar vMst1) * EPow P2 (EVar vMst2))) / EVar vTbeta)) + #420 * (- #1296 *
   EVar vtwoLoopFlag * EVar vxMst * EPow P2 (EVar vMt) * (- (EVar vxDmglst2 * EPow P2 (EVar vDmglst2) * (#16 * (#7 *
   EVar vMuSUSY + #15 * EVar vMst2 * EVar vTbeta) * EPow P2 (EVar vMt) * EPow P2 (EVar vSbeta) + #3 * EVar vMst2 *
   EVar vMuSUSY * EPow P2 (EVar vs2t) * (- (EVar vMuSUSY * EVar vTbeta * (- #1 + EPow P2 (EVar vSbeta))) + #10 * EVar
   vMst2 * EPow P2 (EVar vSbeta)) + #2 * EVar vMt * EVar vs2t * EVar vTbeta * (#41 * EPow P2 (EVar vMuSUSY) * (- #1 +
   EPow P2 (EVar vSbeta)) - #40 * EPow P2 (EVar vMst2) * EPow P2 (EVar vSbeta)))) + #2 * EVar vDmglst2 * EVar vMgl *
   (#16 * (#2 * EVar vMuSUSY + #3 * EVar vMst2 * EVar vTbeta) * EPow P2 (EVar vMt) * EPow P2 (EVar vSbeta) + EVar
   vMst2 * EVar vMuSUSY * EPow P2 (EVar vs2t) * (EVar vMuSUSY * EVar vTbeta * (- #1 + EPow P2 (EVar vSbeta)) - #6 *
   EVar vMst2 * EPow P2 (EVar vSbeta)) + EVar vMt * EVar vs2t * EVar vTbeta * (- #17 * EPow P2 (EVar vMuSUSY) * (- #1
   + EPow P2 (EVar vSbeta)) - #20 * EPow P2 (EVar vMst2) * EPow P2 (EVar vSbeta))) - #2 * EVar vMt * EPow P2 (EVar
   vMgl) * (#8 * EVar vMt * (#2 * EVar vMuSUSY + EVar vMst2 * EVar vTbeta) * EPow P2 (EVar vSbeta) + EVar vs2t * EVar
   vTbeta * (EPow P2 (EVar vMuSUSY) * (- #1 + EPow P2 (EVar vSbeta)) - #4 * EPow P2 (EVar vMst2) * EPow P2 (EVar
   vSbeta)))) * EPow P8 (EVar vMst1) - EVar vAl4p * EVar vthreeLoopFlag * EPow P2 (EVar vMst2) * (#108 * EVar
   vxDR2DRMOD * EPow P4 (EVar vMsq) * (- (EVar vxDmglst2 * EPow P2 (EVar vDmglst2) * (EVar vMt * EVar vMuSUSY * EPow
   P2 (EVar vSbeta) * (#384 * EVar vMt * EPow P2 (EVar vMst1) * EPow P2 (EVar vMst2) * EPow P2 (EVar vs2t) * ((- #1 +
   #6 * EVar vlmMst2) * EPow P2 (EVar vMst2) * (EPow P2 (EVar vMst1) + EPow P2 (EVar vMst2)) + (#1 + #3 * EVar
   vlmMst2) * EPow P4 (EVar vMst1)) + #512 * EPow P2 (EVar vMst1) * EPow P3 (EVar vMt) * (- (EVar vlmMst2 * EPow P2
   (EVar vMst1) * EPow P2 (EVar vMst2)) + #2 * (#11 + #5 * EVar vlmMst2) * EPow P4 (EVar vMst1) - (- #2 + EVar
   vlmMst2) * EPow P4 (EVar vMst2)) + #864 * EVar vs2t * (- EPow P2 (EVar vMst1) + EPow P2 (EVar vMst2)) * EPow P2
   (EVar vMt) * EPow P5 (EVar vMst2) + #9 * EPow P3 (EVar vs2t) * (#16 * (#8 + #27 * EVar vlmMst1 - #39 * EVar
   vlmMst2) * EPow P2 (EVar vMst1) * EPow P2 (EVar vMst2) / #9 + #24 * EPow P4 (EVar vMst1) - #24 * EPow P4 (EVar
   vMst2)) * EPow P5 (EVar vMst2)) + EVar vTbeta * (#8 * EVar vs2t * EPow P2 (EVar vMt) * EPow P2 (EVar vMuSUSY) * (#2
   * (- #32 * (- #1 + #6 * EVar vlmMst2) * EVar vMt + (- #8 - #27 * EVar vlmMst1 + #39 * EVar vlmMst2) * EVar vMst2 *
   EVar vs2t) * EPow P2 (EVar vMst2) * EPow P4 (EVar vMst1) + (#32 * (#1 - #6 * EVar vlmMst2) * EVar vMt + (#11 - #54
   * EVar vlmMst1 + #78 * EVar vlmMst2) * EVar vMst2 * EVar vs2t) * EPow P2 (EVar vMst1) * EPow P4 (EVar vMst2) - #2 *
   (#48 * (#1 + #3 * EVar vlmMst2) * EVar vMt + (#7 * EVar vlmMst1 - #15 * EVar vlmMst2) * EVar vMst2 * EVar vs2t) *
   EPow P6 (EVar vMst1) + #27 * EVar vs2t * EPow P7 (EVar vMst2)) + EPow P2 (EVar vSbeta) * (#32 * EVar vMst2 * EPow
   P4 (EVar vMt) * (- #48 * (#4 + EVar vlmMst2) * EPow P2 (EVar vMst2) * EPow P4 (EVar vMst1) + #43 * EPow P2 (EVar
   vMst1) * EPow P4 (EVar vMst2) + #192 * (#3 + #2 * EVar vlmMst2) * EPow P6 (EVar vMst1) + #27 * EPow P6 (EVar
   vMst2)) + EPow P4 (EVar vs2t) * EPow P5 (EVar vMst2) * (#2 * (- #11 + #54 * EVar vlmMst1 - #78 * EVar vlmMst2) *
   EPow P2 (EVar vMst2) * EPow P4 (EVar vMst1) - #2 * (#43 + #54 * EVar vlmMst1 - #78 * EVar vlmMst2) * EPow P2 (EVar
   vMst1) * EPow P4 (EVar vMst2) + #14 * EPow P6 (EVar vMst1) + #54 * EPow P6 (EVar vMst2)) - #256 * EVar vs2t * EPow
   P2 (EVar vMst1) * EPow P3 (EVar vMt) * (#3 * (#2 * (#5 + #3 * EVar vlmMst2) * EPow P2 (EVar vMst2) - (#1 + #3 *
   EVar vlmMst2) * EPow P2 (EVar vMuSUSY)) * EPow P4 (EVar vMst1) + (#1 - #6 * EVar vlmMst2) * EPow P2 (EVar vMuSUSY)
   * EPow P4 (EVar vMst2) - #2 * EPow P2 (EVar vMst1) * ((- #1 + #6 * EVar vlmMst2) * EPow P2 (EVar vMst2) * EPow P2
   (EVar vMuSUSY) + #2 * EPow P4 (EVar vMst2)) - #2 * (- #2 + EVar vlmMst2) * EPow P6 (EVar vMst2)) + #8 * EVar vMst2
   * EPow P2 (EVar vMt) * EPow P2 (EVar vs2t) * (EPow P4 (EVar vMst1) * (#2 * (#8 + #27 * EVar vlmMst1 - #39 * EVar
   vlmMst2) * EPow P2 (EVar vMst2) * EPow P2 (EVar vMuSUSY) - #54 * EPow P4 (EVar vMst2)) + #2 * (#7 * EVar vlmMst1 -
   #15 * EVar vlmMst2) * EPow P2 (EVar vMuSUSY) * EPow P6 (EVar vMst1) - #27 * (#2 * EPow P2 (EVar vMst2) + EPow P2
   (EVar vMuSUSY)) * EPow P6 (EVar vMst2) + EPow P2 (EVar vMst1) * ((- #11 + #54 * EVar vlmMst1 - #78 * EVar vlmMst2)
   * EPow P2 (EVar vMuSUSY) * EPow P4 (EVar vMst2) + #108 * EPow P6 (EVar vMst2))) + #128 * (#1 - #6 * EVar vlmMst2) *
   EVar vMt * EPow P2 (EVar vMst1) * EPow P3 (EVar vs2t) * EPow P8 (EVar vMst2))))) + EVar vMgl * (EVar vMt * EVar
   vMuSUSY * EPow P2 (EVar vSbeta) * (- #384 * (EVar vDmglst2 + #3 * EVar vDmglst2 * EVar vlmMst2 + EVar vMgl + EVar
   vlmMst2 * EVar vMgl) * EVar vMt * EPow P2 (EVar vMst1) * EPow P2 (EVar vMst2) * EPow P2 (EVar vs2t) * (EPow P2
   (EVar vMst1) * EPow P2 (EVar vMst2) + EPow P4 (EVar vMst1) + EPow P4 (EVar vMst2)) + #512 * EPow P2 (EVar vMst1) *
   EPow P3 (EVar vMt) * (- (EVar vDmglst2 * (#7 + EVar vlmMst2) * EPow P2 (EVar vMst1) * EPow P2 (EVar vMst2)) - #2 *
   EVar vDmglst2 * (#11 + #5 * EVar vlmMst2) * EPow P4 (EVar vMst1) + EVar vDmglst2 * (- #1 + EVar vlmMst2) * EPow P4
   (EVar vMst2) + (#1 + EVar vlmMst2) * EVar vMgl * (#3 * EPow P2 (EVar vMst1) * EPow P2 (EVar vMst2) + #6 * EPow P4
   (EVar vMst1) + EPow P4 (EVar vMst2))) + #32 * (#7 * EVar vDmglst2 - #13 * EVar vMgl) * EVar vs2t * (EPow P2 (EVar
   vMst1) - EPow P2 (EVar vMst2)) * EPow P2 (EVar vMt) * EPow P5 (EVar vMst2) - EPow P3 (EVar vs2t) * (#16 * (EVar
   vDmglst2 * (#7 * EVar vlmMst1 - #15 * EVar vlmMst2) + (- #4 - #13 * EVar vlmMst1 + #9 * EVar vlmMst2) * EVar vMgl)
   * EPow P2 (EVar vMst1) * EPow P2 (EVar vMst2) + #8 * (#7 * EVar vDmglst2 - #13 * EVar vMgl) * EPow P4 (EVar vMst1)
   - #8 * (#7 * EVar vDmglst2 - #13 * EVar vMgl) * EPow P4 (EVar vMst2)) * EPow P5 (EVar vMst2)) + EVar vTbeta * (EVar
   vs2t * EPow P2 (EVar vMt) * EPow P2 (EVar vMuSUSY) * (#256 * (EVar vDmglst2 + #3 * EVar vDmglst2 * EVar vlmMst2 +
   EVar vMgl + EVar vlmMst2 * EVar vMgl) * EVar vMt * EPow P2 (EVar vMst1) * (#2 * EPow P2 (EVar vMst1) * EPow P2
   (EVar vMst2) + #3 * EPow P4 (EVar vMst1) + EPow P4 (EVar vMst2)) - #8 * EVar vMst2 * EVar vs2t * (- #2 * (EVar
   vDmglst2 * (#7 * EVar vlmMst1 - #15 * EVar vlmMst2) + (- #4 - #13 * EVar vlmMst1 + #9 * EVar vlmMst2) * EVar vMgl)
   * (EPow P2 (EVar vMst1) + EPow P2 (EVar vMst2)) * EPow P4 (EVar vMst1) + (EVar vDmglst2 * (#7 - #14 * EVar vlmMst1
   + #30 * EVar vlmMst2) + (- #5 + #26 * EVar vlmMst1 - #18 * EVar vlmMst2) * EVar vMgl) * EPow P2 (EVar vMst1) * EPow
   P4 (EVar vMst2) + (#7 * EVar vDmglst2 - #13 * EVar vMgl) * EPow P6 (EVar vMst2))) + EPow P2 (EVar vSbeta) * (- #2 *
   (EPow P2 (EVar vMst1) - EPow P2 (EVar vMst2)) * (EVar vDmglst2 * (#2 * (#7 * EVar vlmMst1 - #15 * EVar vlmMst2) *
   EPow P2 (EVar vMst1) * EPow P2 (EVar vMst2) + #7 * EPow P4 (EVar vMst1) - #7 * EPow P4 (EVar vMst2)) + EVar vMgl *
   (- #2 * (#4 + #13 * EVar vlmMst1 - #9 * EVar vlmMst2) * EPow P2 (EVar vMst1) * EPow P2 (EVar vMst2) - #13 * EPow P4
   (EVar vMst1) + #13 * EPow P4 (EVar vMst2))) * EPow P4 (EVar vs2t) * EPow P5 (EVar vMst2) + #256 * EVar vs2t * EPow
   P2 (EVar vMst1) * EPow P3 (EVar vMt) * (#6 * (EVar vDmglst2 * (#5 + #3 * EVar vlmMst2) - (#1 + EVar vlmMst2) * EVar
   vMgl) * EPow P2 (EVar vMst2) * EPow P4 (EVar vMst1) + #4 * (EVar vDmglst2 * (#3 + EVar vlmMst2) - (#1 + EVar
   vlmMst2) * EVar vMgl) * EPow P2 (EVar vMst1) * EPow P4 (EVar vMst2) - (EVar vDmglst2 + #3 * EVar vDmglst2 * EVar
   vlmMst2 + EVar vMgl + EVar vlmMst2 * EVar vMgl) * EPow P2 (EVar vMuSUSY) * (#2 * EPow P2 (EVar vMst1) * EPow P2
   (EVar vMst2) + #3 * EPow P4 (EVar vMst1) + EPow P4 (EVar vMst2)) - #2 * (EVar vDmglst2 * (- #1 + EVar vlmMst2) +
   (#1 + EVar vlmMst2) * EVar vMgl) * EPow P6 (EVar vMst2)) - #32 * EVar vMst2 * EPow P4 (EVar vMt) * (EVar vDmglst2 *
   (#96 * (#2 + EVar vlmMst2) * EPow P2 (EVar vMst2) * EPow P4 (EVar vMst1) + #39 * EPow P2 (EVar vMst1) * EPow P4
   (EVar vMst2) + #192 * (#3 + #2 * EVar vlmMst2) * EPow P6 (EVar vMst1) + #7 * EPow P6 (EVar vMst2)) - EVar vMgl *
   (#48 * (#1 + EVar vlmMst2) * (#2 * EPow P2 (EVar vMst1) + EPow P2 (EVar vMst2)) * EPow P4 (EVar vMst1) + (#29 + #16
   * EVar vlmMst2) * EPow P2 (EVar vMst1) * EPow P4 (EVar vMst2) + #13 * EPow P6 (EVar vMst2))) + #8 * EVar vMst2 *
   EPow P2 (EVar vMt) * EPow P2 (EVar vs2t) * (#2 * (#7 * EVar vDmglst2 - #13 * EVar vMgl) * EPow P2 (EPow P2 (EVar
   vMst1) - EPow P2 (EVar vMst2)) * EPow P4 (EVar vMst2) + EPow P2 (EVar vMuSUSY) * (- #2 * (EVar vDmglst2 * (#7 *
   EVar vlmMst1 - #15 * EVar vlmMst2) + (- #4 - #13 * EVar vlmMst1 + #9 * EVar vlmMst2) * EVar vMgl) * (EPow P2 (EVar
   vMst1) + EPow P2 (EVar vMst2)) * EPow P4 (EVar vMst1) + (EVar vDmglst2 * (#7 - #14 * EVar vlmMst1 + #30 * EVar
   vlmMst2) + (- #5 + #26 * EVar vlmMst1 - #18 * EVar vlmMst2) * EVar vMgl) * EPow P2 (EVar vMst1) * EPow P4 (EVar
   vMst2) + (#7 * EVar vDmglst2 - #13 * EVar vMgl) * EPow P6 (EVar vMst2))) + #128 * (EVar vDmglst2 + #3 * EVar
   vDmglst2 * EVar vlmMst2 + EVar vMgl + EVar vlmMst2 * EVar vMgl) * EVar vMt * EPow P2 (EVar vMst1) * EPow P3 (EVar
   vs2t) * EPow P8 (EVar vMst2))))) + EVar vMst2 * EVar vxDmsqst2 * EPow P2 (EVar vDmsqst2) * (#324 * EVar vMst2 *
   EVar vxDmglst2 * EPow P2 (EVar vDmglst2) * (EVar vMt * EVar vMuSUSY * EPow P2 (EVar vSbeta) * (#320 * EPow P2 (EVar
   vMst1) * (- #10 * (- #3 + EVar vlmMst1 - #2 * EVar vlmMst2 + EVar vlmMt) * EPow P2 (EVar vMst1) + (#8 - #3 * EVar
   vlmMst1 + #6 * EVar vlmMst2 - #3 * EVar vlmMt) * EPow P2 (EVar vMst2)) * EPow P3 (EVar vMt) + #160 * EVar vMst2 *
   EVar vs2t * EPow P2 (EVar vMt) * (#5 * EPow P2 (EVar vMst1) * EPow P2 (EVar vMst2) + #9 * EPow P4 (EVar vMst1) +
   EPow P4 (EVar vMst2)) - #3 * EVar vMt * EPow P2 (EVar vMst1) * EPow P2 (EVar vs2t) * (#240 * (#1 - #2 * EVar
   vlmMst1 + #2 * EVar vlmMst2) * EPow P2 (EVar vMst1) * EPow P2 (EVar vMst2) + (#680 - #480 * EVar vlmMst1 + #480 *
   EVar vlmMst2) * EPow P4 (EVar vMst1) - #80 * (#2 + #3 * EVar vlmMst1 - #3 * EVar vlmMst2) * EPow P4 (EVar vMst2)) +
   #20 * EVar vMst2 * EPow P3 (EVar vs2t) * (#2 * (#3 - #5 * EVar vlmMst1 + #5 * EVar vlmMst2) * EPow P2 (EVar vMst2)
   * EPow P4 (EVar vMst1) + #13 * EPow P6 (EVar vMst1) - #2 * ((#5 + #3 * EVar vlmMst1 - #3 * EVar vlmMst2) * EPow P2
   (EVar vMst1) * EPow P4 (EVar vMst2) + EPow P6 (EVar vMst2)))) + EVar vTbeta * (#160 * EPow P3 (EVar vMt) * (EVar
   vs2t * EPow P2 (EVar vMst1) * ((#1 - #9 * EVar vlmMst1 + #9 * EVar vlmMst2) * EPow P2 (EVar vMst1) + (- #2 - #3 *
   EVar vlmMst1 + #3 * EVar vlmMst2) * EPow P2 (EVar vMst2)) * EPow P2 (EVar vMuSUSY) + EVar vMst2 * EVar vMt * EPow
   P2 (EVar vSbeta) * ((#23 - #5 * EVar vlmMst1 + #10 * EVar vlmMst2 - #5 * EVar vlmMt) * EPow P2 (EVar vMst1) * EPow
   P2 (EVar vMst2) + (#77 - #18 * EVar vlmMst1 + #36 * EVar vlmMst2 - #18 * EVar vlmMt) * EPow P4 (EVar vMst1) + EPow
   P4 (EVar vMst2))) + EVar vMst2 * EPow P2 (EVar vMt) * EPow P2 (EVar vs2t) * (#40 * EPow P2 (EVar vMuSUSY) * (#3 *
   (#2 + EVar vlmMst1 - EVar vlmMst2) * EPow P2 (EVar vMst1) * EPow P2 (EVar vMst2) + (#3 + #8 * EVar vlmMst1 - #8 *
   EVar vlmMst2) * EPow P4 (EVar vMst1) + EPow P4 (EVar vMst2)) + #10 * (- #93 + #10 * EVar vlmMst1 - #10 * EVar
   vlmMst2) * (- #2 + EPow P2 (EVar vSbeta)) * EPow P4 (EVar vSbeta) * EPow P6 (EVar vMst1)) + EVar vs2t * EPow P2
   (EVar vSbeta) * (EVar vMt * EPow P2 (EVar vMst1) * EPow P2 (EVar vMst2) * EPow P2 (EVar vs2t) * (#80 * (#5 - #3 *
   EVar vlmMst1 + #3 * EVar vlmMst2) * EPow P2 (EVar vMst1) * EPow P2 (EVar vMst2) + #440 * EPow P4 (EVar vMst1) - #80
   * (#2 + #3 * EVar vlmMst1 - #3 * EVar vlmMst2) * EPow P4 (EVar vMst2)) - #160 * EPow P2 (EVar vMst1) * EPow P3
   (EVar vMt) * ((- #2 - #3 * EVar vlmMst1 + #3 * EVar vlmMst2) * EPow P2 (EVar vMst2) * EPow P2 (EVar vMuSUSY) + EPow
   P2 (EVar vMst1) * ((#51 - #14 * EVar vlmMst1 + #28 * EVar vlmMst2 - #14 * EVar vlmMt) * EPow P2 (EVar vMst2) + (#1
   - #9 * EVar vlmMst1 + #9 * EVar vlmMst2) * EPow P2 (EVar vMuSUSY)) + (#87 - #22 * EVar vlmMst1 + #44 * EVar vlmMst2
   - #22 * EVar vlmMt) * EPow P4 (EVar vMst1) + (#19 - #6 * EVar vlmMst1 + #12 * EVar vlmMst2 - #6 * EVar vlmMt) *
   EPow P4 (EVar vMst2)) - #40 * EVar vMst2 * EVar vs2t * EPow P2 (EVar vMt) * (#8 * EPow P2 (EVar vMst1) * (EPow P2
   (EVar vMst1) * EPow P2 (EVar vMst2) + EPow P4 (EVar vMst1) + EPow P4 (EVar vMst2)) + EPow P2 (EVar vMuSUSY) * (#3 *
   (#2 + EVar vlmMst1 - EVar vlmMst2) * EPow P2 (EVar vMst1) * EPow P2 (EVar vMst2) + (#3 + #8 * EVar vlmMst1 - #8 *
   EVar vlmMst2) * EPow P4 (EVar vMst1) + EPow P4 (EVar vMst2)) + #2 * EPow P6 (EVar vMst2)) - #5 * EPow P3 (EVar
   vMst2) * EPow P3 (EVar vs2t) * (#4 * (#4 - EVar vlmMst1 + EVar vlmMst2) * EPow P2 (EVar vMst2) * EPow P4 (EVar
   vMst1) + (#7 + #10 * EVar vlmMst1 - #10 * EVar vlmMst2) * EPow P6 (EVar vMst1) - #2 * ((#4 + #3 * EVar vlmMst1 - #3
   * EVar vlmMst2) * EPow P2 (EVar vMst1) * EPow P4 (EVar vMst2) + EPow P6 (EVar vMst2)))))) - #1620 * EVar vshiftst1
   * EVar vTbeta * EPow P2 (EVar vMgl) * (#4 * EPow P2 (EVar vMt) * EPow P2 (EVar vMuSUSY) * EPow P2 (EVar vs2t) *
   (EPow P2 (EVar vMst1) * EPow P4 (EVar vMst2) - #2 * (EVar vlmMst1 - EVar vlmMst2) * EPow P2 (EVar vMst1) * (EPow P2
   (EVar vMst1) * EPow P2 (EVar vMst2) + EPow P4 (EVar vMst1) + EPow P4 (EVar vMst2)) + EPow P6 (EVar vMst2)) + EPow
   P2 (EVar vSbeta) * (#16 * (EPow P2 (EVar vMst1) + EPow P2 (EVar vMst2)) * EPow P4 (EVar vMst2) * EPow P4 (EVar vMt)
   + (EPow P2 (EVar vMst1) - EPow P2 (EVar vMst2)) * (#2 * (EVar vlmMst1 - EVar vlmMst2) * EPow P2 (EVar vMst1) * EPow
   P2 (EVar vMst2) + EPow P4 (EVar vMst1) - EPow P4 (EVar vMst2)) * EPow P4 (EVar vMst2) * EPow P4 (EVar vs2t) - #4 *
   EPow P2 (EVar vMt) * EPow P2 (EVar vs2t) * (#2 * EPow P4 (EVar vMst1) * EPow P4 (EVar vMst2) - #4 * EPow P2 (EVar
   vMst1) * EPow P6 (EVar vMst2) + EPow P2 (EVar vMuSUSY) * (EPow P2 (EVar vMst1) * EPow P4 (EVar vMst2) - #2 * (EVar
   vlmMst1 - EVar vlmMst2) * EPow P2 (EVar vMst1) * (EPow P2 (EVar vMst1) * EPow P2 (EVar vMst2) + EPow P4 (EVar
   vMst1) + EPow P4 (EVar vMst2)) + EPow P6 (EVar vMst2)) + #2 * EPow P8 (EVar vMst2)))) + EVar vMgl * (#4 * EVar
   vMuSUSY * EPow P2 (EVar vSbeta) * (#81 * EVar vMgl * EVar vshiftst1 * (#80 * EVar vs2t * (EPow P2 (EVar vMst1) -
   EPow P2 (EVar vMst2)) * EPow P3 (EVar vMt) - #20 * EVar vMt * EPow P3 (EVar vs2t) * (#2 * (EVar vlmMst1 - EVar
   vlmMst2) * EPow P2 (EVar vMst1) * EPow P2 (EVar vMst2) + EPow P4 (EVar vMst1) - EPow P4 (EVar vMst2))) * EPow P4
   (EVar vMst2) - #9720 * EVar vMst2 * EPow P2 (EVar vMst1) * EPow P2 (EVar vMt) * EPow P2 (EVar vs2t) * (#2 * (EVar
   vDmglst2 * (#3 - #6 * EVar vlmMst1 + #6 * EVar vlmMst2) + (#4 + #3 * EVar vlmMst1 - #3 * EVar vlmMst2) * EVar vMgl)
   * EPow P2 (EVar vMst1) * EPow P2 (EVar vMst2) + (EVar vDmglst2 * (#17 - #12 * EVar vlmMst1 + #12 * EVar vlmMst2) +
   (#5 + #4 * EVar vlmMst1 - #4 * EVar vlmMst2) * EVar vMgl) * EPow P4 (EVar vMst1) - (EVar vDmglst2 * (#4 + #6 * EVar
   vlmMst1 - #6 * EVar vlmMst2) + (- #7 - #3 * EVar vlmMst1 + #3 * EVar vlmMst2) * EVar vMgl) * EPow P4 (EVar vMst2))
   + #12960 * EVar vMst2 * EPow P2 (EVar vMst1) * (#4 * (- #5 * EVar vDmglst2 * (- #3 + EVar vlmMst1 - #2 * EVar
   vlmMst2 + EVar vlmMt) + (- #1 + EVar vlmMst1 - #2 * EVar vlmMst2 + EVar vlmMt) * EVar vMgl) * EPow P2 (EVar vMst1)
   + (#2 * EVar vDmglst2 * (#8 - #3 * EVar vlmMst1 + #6 * EVar vlmMst2 - #3 * EVar vlmMt) + (- #2 + #3 * EVar vlmMst1
   - #6 * EVar vlmMst2 + #3 * EVar vlmMt) * EVar vMgl) * EPow P2 (EVar vMst2)) * EPow P4 (EVar vMt) + #10 * EVar vs2t
   * EPow P3 (EVar vMt) * (#1296 * EVar vDmglst2 * EPow P2 (EVar vMst2) * (#5 * EPow P2 (EVar vMst1) * EPow P2 (EVar
   vMst2) + #9 * EPow P4 (EVar vMst1) + EPow P4 (EVar vMst2)) + EVar vMgl * (- #795 * EPow P2 (EVar vMst2) * EPow P4
   (EVar vMst1) - #450 * EPow P2 (EVar vMst1) * EPow P4 (EVar vMst2) + #4057 * EPow P6 (EVar vMst1) - #972 * EPow P6
   (EVar vMst2))) + #15 * EVar vMt * EPow P2 (EVar vMst2) * EPow P3 (EVar vs2t) * ((#216 * EVar vDmglst2 * (#3 - #5 *
   EVar vlmMst1 + #5 * EVar vlmMst2) + #7 * (- #251 + #54 * EVar vlmMst1 - #54 * EVar vlmMst2) * EVar vMgl) * EPow P2
   (EVar vMst2) * EPow P4 (EVar vMst1) - #6 * (#36 * EVar vDmglst2 * (#5 + #3 * EVar vlmMst1 - #3 * EVar vlmMst2) +
   (#2 - #9 * EVar vlmMst1 + #9 * EVar vlmMst2) * EVar vMgl) * EPow P2 (EVar vMst1) * EPow P4 (EVar vMst2) + #4 *
   (#351 * EVar vDmglst2 - #554 * EVar vMgl) * EPow P6 (EVar vMst1) - #54 * (#4 * EVar vDmglst2 - #3 * EVar vMgl) *
   EPow P6 (EVar vMst2))) + EVar vTbeta * (#324 * EVar vMst2 * EVar vs2t * EPow P2 (EVar vMst1) * (#160 * (EVar
   vDmglst2 * (#1 - #9 * EVar vlmMst1 + #9 * EVar vlmMst2) + (#5 + #3 * EVar vlmMst1 - #3 * EVar vlmMst2) * EVar vMgl)
   * EPow P2 (EVar vMst1) - #80 * (EVar vDmglst2 * (#4 + #6 * EVar vlmMst1 - #6 * EVar vlmMst2) + (- #7 - #3 * EVar
   vlmMst1 + #3 * EVar vlmMst2) * EVar vMgl) * EPow P2 (EVar vMst2)) * EPow P2 (EVar vMuSUSY) * EPow P3 (EVar vMt) +
   #6 * EVar vMt * EPow P2 (EVar vs2t) * (- #135 * EPow P2 (EVar vMst2) * (- #2 * (#11 + #10 * EVar vlmMst1 - #10 *
   EVar vlmMst2) * EVar vMgl * EVar vMst2 * EVar vs2t * (- #2 + EPow P2 (EVar vSbeta)) + (EVar vDmglst2 * (#372 - #40
   * EVar vlmMst1 + #40 * EVar vlmMst2) + #3 * (- #17 + #2 * EVar vlmMst1 - #2 * EVar vlmMst2) * EVar vMgl) * EVar vMt
   * EPow P2 (EVar vSbeta)) * EPow P4 (EVar vSbeta) * EPow P6 (EVar vMst1) + #2 * EVar vMt * (#135 * (EVar vDmglst2 *
   (#372 - #40 * EVar vlmMst1 + #40 * EVar vlmMst2) + #3 * (- #17 + #2 * EVar vlmMst1 - #2 * EVar vlmMst2) * EVar
   vMgl) * EPow P2 (EVar vMst2) * EPow P4 (EVar vSbeta) * EPow P6 (EVar vMst1) + #5 * EPow P2 (EVar vMuSUSY) * (#648 *
   EVar vDmglst2 * EPow P2 (EVar vMst2) * (#3 * (#2 + EVar vlmMst1 - EVar vlmMst2) * EPow P2 (EVar vMst1) * EPow P2
   (EVar vMst2) + (#3 + #8 * EVar vlmMst1 - #8 * EVar vlmMst2) * EPow P4 (EVar vMst1) + EPow P4 (EVar vMst2)) + EVar
   vMgl * (#3 * (#1607 - #432 * EVar vlmMst1 + #432 * EVar vlmMst2) * EPow P2 (EVar vMst2) * EPow P4 (EVar vMst1) -
   #18 * (#25 + #9 * EVar vlmMst1 - #9 * EVar vlmMst2) * EPow P2 (EVar vMst1) * EPow P4 (EVar vMst2) + (#20701 - #648
   * EVar vlmMst1 + #648 * EVar vlmMst2) * EPow P6 (EVar vMst1) - #486 * EPow P6 (EVar vMst2))) / #3)) + EPow P2 (EVar
   vSbeta) * (#3240 * EVar vMt * EPow P2 (EVar vMst1) * EPow P3 (EVar vMst2) * EPow P3 (EVar vs2t) * (#4 * (EVar
   vDmglst2 * (#10 - #6 * EVar vlmMst1 + #6 * EVar vlmMst2) + (#1 + #3 * EVar vlmMst1 - #3 * EVar vlmMst2) * EVar
   vMgl) * EPow P2 (EVar vMst1) * EPow P2 (EVar vMst2) + (#44 * EVar vDmglst2 + (- #21 - #10 * EVar vlmMst1 + #10 *
   EVar vlmMst2) * EVar vMgl) * EPow P4 (EVar vMst1) - #4 * (EVar vDmglst2 * (#4 + #6 * EVar vlmMst1 - #6 * EVar
   vlmMst2) + (- #7 - #3 * EVar vlmMst1 + #3 * EVar vlmMst2) * EVar vMgl) * EPow P4 (EVar vMst2)) - #324 * EVar vMst2
   * EVar vs2t * EPow P2 (EVar vMst1) * EPow P3 (EVar vMt) * ((#160 * (EVar vDmglst2 * (#1 - #9 * EVar vlmMst1 + #9 *
   EVar vlmMst2) + (#5 + #3 * EVar vlmMst1 - #3 * EVar vlmMst2) * EVar vMgl) * EPow P2 (EVar vMst1) - #80 * (EVar
   vDmglst2 * (#4 + #6 * EVar vlmMst1 - #6 * EVar vlmMst2) + (- #7 - #3 * EVar vlmMst1 + #3 * EVar vlmMst2) * EVar
   vMgl) * EPow P2 (EVar vMst2)) * EPow P2 (EVar vMuSUSY) + #160 * ((EVar vDmglst2 * (#51 - #14 * EVar vlmMst1 + #28 *
   EVar vlmMst2 - #14 * EVar vlmMt) + #4 * (- #3 + EVar vlmMst1 - #2 * EVar vlmMst2 + EVar vlmMt) * EVar vMgl) * EPow
   P2 (EVar vMst1) * EPow P2 (EVar vMst2) + (EVar vDmglst2 * (#87 - #22 * EVar vlmMst1 + #44 * EVar vlmMst2 - #22 *
   EVar vlmMt) + (- #5 + #2 * EVar vlmMst1 - #4 * EVar vlmMst2 + #2 * EVar vlmMt) * EVar vMgl) * EPow P4 (EVar vMst1))
   + #80 * (#2 * EVar vDmglst2 * (#19 - #6 * EVar vlmMst1 + #12 * EVar vlmMst2 - #6 * EVar vlmMt) + (- #7 + #6 * EVar
   vlmMst1 - #12 * EVar vlmMst2 + #6 * EVar vlmMt) * EVar vMgl) * EPow P4 (EVar vMst2)) + #12960 * EPow P4 (EVar vMt)
   * (#4 * EVar vDmglst2 * EPow P2 (EVar vMst2) * ((#23 - #5 * EVar vlmMst1 + #10 * EVar vlmMst2 - #5 * EVar vlmMt) *
   EPow P2 (EVar vMst1) * EPow P2 (EVar vMst2) + (#77 - #18 * EVar vlmMst1 + #36 * EVar vlmMst2 - #18 * EVar vlmMt) *
   EPow P4 (EVar vMst1) + EPow P4 (EVar vMst2)) + EVar vMgl * (#3 * (- #23 + #6 * EVar vlmMst1 - #12 * EVar vlmMst2 +
   #6 * EVar vlmMt) * EPow P2 (EVar vMst2) * EPow P4 (EVar vMst1) + (- #25 + #7 * EVar vlmMst1 - #14 * EVar vlmMst2 +
   #7 * EVar vlmMt) * EPow P2 (EVar vMst1) * EPow P4 (EVar vMst2) + #4 * (- #7 + #3 * EVar vlmMst1 - #6 * EVar vlmMst2
   + #3 * EVar vlmMt) * EPow P6 (EVar vMst1) - #3 * EPow P6 (EVar vMst2))) - #15 * EPow P4 (EVar vMst2) * EPow P4
   (EVar vs2t) * ((#432 * EVar vDmglst2 * (#4 - EVar vlmMst1 + EVar vlmMst2) + (- #1745 + #324 * EVar vlmMst1 - #324 *
   EVar vlmMst2) * EVar vMgl) * EPow P2 (EVar vMst2) * EPow P4 (EVar vMst1) - #6 * (#36 * EVar vDmglst2 * (#4 + #3 *
   EVar vlmMst1 - #3 * EVar vlmMst2) + (#29 - #9 * EVar vlmMst1 + #9 * EVar vlmMst2) * EVar vMgl) * EPow P2 (EVar
   vMst1) * EPow P4 (EVar vMst2) + #27 * (#4 * EVar vDmglst2 * (#7 + #10 * EVar vlmMst1 - #10 * EVar vlmMst2) + (- #17
   - #14 * EVar vlmMst1 + #14 * EVar vlmMst2) * EVar vMgl) * EPow P6 (EVar vMst1) - #54 * (#4 * EVar vDmglst2 - #3 *
   EVar vMgl) * EPow P6 (EVar vMst2)) - #20 * EPow P2 (EVar vMt) * EPow P2 (EVar vs2t) * (#3 * (#1728 * EVar vDmglst2
   - #115 * EVar vMgl) * EPow P4 (EVar vMst1) * EPow P4 (EVar vMst2) + (#5184 * EVar vDmglst2 - #1355 * EVar vMgl) *
   EPow P2 (EVar vMst2) * EPow P6 (EVar vMst1) + EPow P2 (EVar vMuSUSY) * (#648 * EVar vDmglst2 * EPow P2 (EVar vMst2)
   * (#3 * (#2 + EVar vlmMst1 - EVar vlmMst2) * EPow P2 (EVar vMst1) * EPow P2 (EVar vMst2) + (#3 + #8 * EVar vlmMst1
   - #8 * EVar vlmMst2) * EPow P4 (EVar vMst1) + EPow P4 (EVar vMst2)) + EVar vMgl * (#3 * (#1607 - #432 * EVar
   vlmMst1 + #432 * EVar vlmMst2) * EPow P2 (EVar vMst2) * EPow P4 (EVar vMst1) - #18 * (#25 + #9 * EVar vlmMst1 - #9
   * EVar vlmMst2) * EPow P2 (EVar vMst1) * EPow P4 (EVar vMst2) + (#20701 - #648 * EVar vlmMst1 + #648 * EVar
   vlmMst2) * EPow P6 (EVar vMst1) - #486 * EPow P6 (EVar vMst2))) + #18 * (#288 * EVar vDmglst2 + #29 * EVar vMgl) *
   EPow P2 (EVar vMst1) * EPow P6 (EVar vMst2) + #324 * (#4 * EVar vDmglst2 - #3 * EVar vMgl) * EPow P8 (EVar
   vMst2))))))) / EPow P4 (EVar vMsq)) / (EVar vTbeta * EPow P2 (EVar vMst1) * EPow P2 (EVar vSbeta) * EPow P7 (EVar
   vMst2)) + EVar vMgl * (#68040 * EVar vMst2 * EVar vtwoLoopFlag * (#4 * EVar vDmglst2 * (#4 * EPow P2 (EVar vMt) *
   (- #12 * (EVar vMuSUSY + #2 * EVar vMst2 * EVar vTbeta) * EPow P2 (EVar vMt) * EPow P2 (EVar vSbeta) + EVar vMst2 *
   EVar vMuSUSY * EPow P2 (EVar vs2t) * (- (EVar vMuSUSY * EVar vTbeta * (- #1 + EPow P2 (EVar vSbeta))) + #6 * EVar
   vMst2 * EPow P2 (EVar vSbeta)) + EVar vMt * EVar vs2t * EVar vTbeta * (#13 * EPow P2 (EVar vMuSUSY) * (- #1 + EPow
   P2 (EVar vSbeta)) + #12 * EPow P2 (EVar vMst2) * EPow P2 (EVar vSbeta))) * EPow P4 (EVar vMst1) + EPow P2 (EVar
   vMst1) * EPow P2 (EVar vMst2) * (#8 * EVar vs2t * (#3 * EVar vMuSUSY * EVar vs2t + #2 * EVar vMt * EVar vTbeta) *
   EPow P2 (EVar vMst2) * EPow P2 (EVar vMt) * EPow P2 (EVar vSbeta) + EVar vTbeta * (- #4 * EVar vMst2 * EPow P2
   (EVar vMt) * EPow P2 (EVar vMuSUSY) * EPow P2 (EVar vs2t) * (- #1 + EPow P2 (EVar vSbeta)) + #36 * EVar vs2t * EPow
   P2 (EVar vMuSUSY) * (- #1 + EPow P2 (EVar vSbeta)) * EPow P3 (EVar vMt) + (#2 * EVar vMt - EVar vMst2 * EVar vs2t)
   * EPow P2 (EVar vSbeta) * EPow P3 (EVar vs2t) * EPow P4 (EVar vMst2) - #32 * EVar vMst2 * EPow P2 (EVar vSbeta) *
   EPow P4 (EVar vMt))) + EPow P4 (EVar vMst2) * (#2 * EVar vMst2 * EVar vMuSUSY * EPow P2 (EVar vMt) * EPow P2 (EVar
   vs2t) * (- #2 * EVar vMuSUSY * EVar vTbeta * (- #1 + EPow P2 (EVar vSbeta)) + #15 * EVar vMst2 * EPow P2 (EVar
   vSbeta)) + #4 * EVar vs2t * EVar vTbeta * (#5 * EPow P2 (EVar vMuSUSY) * (- #1 + EPow P2 (EVar vSbeta)) - #4 * EPow
   P2 (EVar vMst2) * EPow P2 (EVar vSbeta)) * EPow P3 (EVar vMt) - #2 * EVar vMt * (#2 * EVar vMuSUSY + #5 * EVar
   vMst2 * EVar vTbeta) * EPow P2 (EVar vSbeta) * EPow P3 (EVar vMst2) * EPow P3 (EVar vs2t) + #16 * EVar vMuSUSY *
   EPow P2 (EVar vSbeta) * EPow P4 (EVar vMt) + EVar vTbeta * EPow P2 (EVar vSbeta) * EPow P4 (EVar vs2t) * EPow P5
   (EVar vMst2))) + EVar vMgl * (EPow P4 (EVar vMst2) * (#4 * EVar vMst2 * EVar vMuSUSY * EPow P2 (EVar vMt) * EPow P2
   (EVar vs2t) * (- (EVar vMuSUSY * EVar vTbeta * (- #1 + EPow P2 (EVar vSbeta))) + #6 * EVar vMst2 * EPow P2 (EVar
   vSbeta)) + #16 * EVar vs2t * EVar vTbeta * (EPow P2 (EVar vMuSUSY) * (- #1 + EPow P2 (EVar vSbeta)) - #4 * EPow P2
   (EVar vMst2) * EPow P2 (EVar vSbeta)) * EPow P3 (EVar vMt) - #4 * EVar vMt * (EVar vMuSUSY + #2 * EVar vMst2 * EVar
   vTbeta) * EPow P2 (EVar vSbeta) * EPow P3 (EVar vMst2) * EPow P3 (EVar vs2t) + #32 * (#2 * EVar vMuSUSY + EVar
   vMst2 * EVar vTbeta) * EPow P2 (EVar vSbeta) * EPow P4 (EVar vMt) + EVar vTbeta * EPow P2 (EVar vSbeta) * EPow P4
   (EVar vs2t) * EPow P5 (EVar vMst2)) + EPow P4 (EVar vMst1) * (#16 * EVar vs2t * EVar vTbeta * (EPow P2 (EVar
   vMuSUSY) * (- #1 + EPow P2 (EVar vSbeta)) - #4 * EPow P2 (EVar vMst2) * EPow P2 (EVar vSbeta)) * EPow P3 (EVar vMt)
   + #96 * (#2 * EVar vMuSUSY + EVar vMst2 * EVar vTbeta) * EPow P2 (EVar vSbeta) * EPow P4 (EVar vMt) + EVar vTbeta *
   EPow P2 (EVar vSbeta) * EPow P4 (EVar vs2t) * EPow P5 (EVar vMst2)) - #2 * EPow P2 (EVar vMst1) * EPow P2 (EVar
   vMst2) * (EPow P2 (EVar vSbeta) * (- #2 * EVar vMt * (EVar vMuSUSY + #2 * EVar vMst2 * EVar vTbeta) * EPow P3 (EVar
   vMst2) * EPow P3 (EVar vs2t) - #32 * (#2 * EVar vMuSUSY + EVar vMst2 * EVar vTbeta) * EPow P4 (EVar vMt)) + EVar
   vTbeta * (#8 * EVar vs2t * (EPow P2 (EVar vMuSUSY) + (#4 * EPow P2 (EVar vMst2) - EPow P2 (EVar vMuSUSY)) * EPow P2
   (EVar vSbeta)) * EPow P3 (EVar vMt) + EPow P2 (EVar vSbeta) * EPow P4 (EVar vs2t) * EPow P5 (EVar vMst2))))) + EVar
   vAl4p * EVar vthreeLoopFlag * (#28 * EVar vMst2 * EVar vMt * EVar vMuSUSY * EPow P2 (EVar vSbeta) * (#9 * EVar vMt
   * EPow P2 (EVar vMst1) * EPow P2 (EVar vMst2) * EPow P2 (EVar vs2t) * (EPow P2 (EVar vMsq) * (#3 * EVar vDmglst2 *
   (#935323 - #279000 * EVar vlmMst1 + #385560 * EVar vlmMst2) * EPow P2 (EVar vMst1) * EPow P2 (EVar vMst2) + #15 *
   (#11075 + #17928 * EVar vlmMst1 - #17352 * EVar vlmMst2) * EVar vMgl * EPow P2 (EVar vMst1) * EPow P2 (EVar vMst2)
   + #10 * EVar vDmglst2 * (#1700119 - #484056 * EVar vlmMst1 + #579960 * EVar vlmMst2) * EPow P4 (EVar vMst1) / #3 +
   (#61286 + #434160 * EVar vlmMst1 - #425520 * EVar vlmMst2) * EVar vMgl * EPow P4 (EVar vMst1) + #9 * EVar vDmglst2
   * (#173947 - #25080 * EVar vlmMst1 + #68760 * EVar vlmMst2) * EPow P4 (EVar vMst2) + #135 * (#2269 + #664 * EVar
   vlmMst1 - #56 * EVar vlmMst2) * EVar vMgl * EPow P4 (EVar vMst2)) + #64800 * EVar vDmsqst2 * (EVar vDmglst2 * (#6 *
   (#1 - #2 * EVar vlmMst1 + #2 * EVar vlmMst2) * EPow P2 (EVar vMst1) * EPow P2 (EVar vMst2) + (#17 - #12 * EVar
   vlmMst1 + #12 * EVar vlmMst2) * EPow P4 (EVar vMst1) - #2 * (#2 + #3 * EVar vlmMst1 - #3 * EVar vlmMst2) * EPow P4
   (EVar vMst2)) + EVar vMgl * (#2 * (#3 + #2 * EVar vlmMst1 - #2 * EVar vlmMst2) * EPow P2 (EVar vMst1) * EPow P2
   (EVar vMst2) + (#5 + #4 * EVar vlmMst1 - #4 * EVar vlmMst2) * EPow P4 (EVar vMst1) + #2 * (#2 + EVar vlmMst1 - EVar
   vlmMst2) * EPow P4 (EVar vMst2)))) + #4 * EPow P2 (EVar vMst1) * EPow P3 (EVar vMt) * (#388800 * EVar vDmsqst2 *
   EPow P2 (EVar vMst2) * (#10 * EVar vDmglst2 * (- #3 + EVar vlmMst1 - #2 * EVar vlmMst2 + EVar vlmMt) * EPow P2
   (EVar vMst1) - #2 * (- #1 + EVar vlmMst1 - #2 * EVar vlmMst2 + EVar vlmMt) * EVar vMgl * EPow P2 (EVar vMst1) +
   EVar vDmglst2 * (- #8 + #3 * EVar vlmMst1 - #6 * EVar vlmMst2 + #3 * EVar vlmMt) * EPow P2 (EVar vMst2) - (EVar
   vlmMst1 - #2 * EVar vlmMst2 + EVar vlmMt) * EVar vMgl * EPow P2 (EVar vMst2)) + EPow P2 (EVar vMsq) * (EVar
   vDmglst2 * (#216 * (- #67843 + #10050 * EVar vlmMst1 - #17490 * EVar vlmMst2 + #7560 * EVar vlmMt) * EPow P2 (EVar
   vMst1) * EPow P2 (EVar vMst2) + #4 * (- #13463149 + #1492020 * EVar vlmMst1 - #2713500 * EVar vlmMst2 + #625320 *
   EVar vlmMt) * EPow P4 (EVar vMst1) + #405 * (- #3245 + #1672 * EVar vlmMst1 - #1448 * EVar vlmMst2 + #1888 * EVar
   vlmMt) * EPow P4 (EVar vMst2)) - #3 * EVar vMgl * (#48 * (- #41936 + #7245 * EVar vlmMst1 - #19665 * EVar vlmMst2 +
   #720 * EVar vlmMt) * EPow P2 (EVar vMst1) * EPow P2 (EVar vMst2) + #4 * (- #1077991 + #184140 * EVar vlmMst1 -
   #400140 * EVar vlmMst2 + #8640 * EVar vlmMt) * EPow P4 (EVar vMst1) + #9 * (- #66773 + #9960 * EVar vlmMst1 -
   #45480 * EVar vlmMst2 + #3840 * EVar vlmMt) * EPow P4 (EVar vMst2)))) + #9720 * EVar vMgl * EVar vs2t * (EVar
   vshiftst3 * EPow P2 (EVar vMsq) * EPow P2 (EVar vMst2) * (#4 * EPow P2 (EVar vMt) + ((#1 + EVar vlmMst1 - EVar
   vlmMst2) * EPow P2 (EVar vMst1) - EPow P2 (EVar vMst2)) * EPow P2 (EVar vs2t)) + #10 * EVar vshiftst1 * (EVar
   vDmsqst2 + EPow P2 (EVar vMsq)) * (- #4 * EPow P2 (EVar vMst1) * EPow P2 (EVar vMt) + #4 * EPow P2 (EVar vMst2) *
   EPow P2 (EVar vMt) + #2 * (EVar vlmMst1 - EVar vlmMst2) * EPow P2 (EVar vMst1) * EPow P2 (EVar vMst2) * EPow P2
   (EVar vs2t) + EPow P2 (EVar vs2t) * (EPow P4 (EVar vMst1) - EPow P4 (EVar vMst2)))) * EPow P5 (EVar vMst2) - #6 *
   EVar vMst2 * EVar vs2t * EPow P2 (EVar vMt) * (EPow P2 (EVar vMsq) * (EVar vMgl * (#3 * (#623599 + #65160 * EVar
   vlmMst1 - #134280 * EVar vlmMst2) * EPow P2 (EVar vMst2) * EPow P4 (EVar vMst1) + #9 * (#1367 + #13560 * EVar
   vlmMst1 - #36600 * EVar vlmMst2) * EPow P2 (EVar vMst1) * EPow P4 (EVar vMst2) + (#5161826 + #406080 * EVar vlmMst1
   - #613440 * EVar vlmMst2) * EPow P6 (EVar vMst1) - #41040 * EPow P6 (EVar vMst2)) - #24 * EVar vDmglst2 * (#6 *
   (#19579 + #1770 * EVar vlmMst1 + #12630 * EVar vlmMst2) * EPow P2 (EVar vMst2) * EPow P4 (EVar vMst1) + #6 * (#4429
   - #270 * EVar vlmMst1 + #8910 * EVar vlmMst2) * EPow P2 (EVar vMst1) * EPow P4 (EVar vMst2) + (#510139 + #44280 *
   EVar vlmMst1 + #76680 * EVar vlmMst2) * EPow P6 (EVar vMst1) - #2520 * EPow P6 (EVar vMst2))) + #100 * EVar
   vDmsqst2 * (#1296 * EVar vDmglst2 * EPow P2 (EVar vMst2) * (#5 * EPow P2 (EVar vMst1) * EPow P2 (EVar vMst2) + #9 *
   EPow P4 (EVar vMst1) + EPow P4 (EVar vMst2)) + EVar vMgl * (#3249 * EPow P2 (EVar vMst2) * EPow P4 (EVar vMst1) +
   #1431 * EPow P2 (EVar vMst1) * EPow P4 (EVar vMst2) + #4057 * EPow P6 (EVar vMst1) - #648 * EPow P6 (EVar vMst2))))
   + #3 * EPow P3 (EVar vMst2) * EPow P3 (EVar vs2t) * (- #12 * (#150 * EVar vDmsqst2 * (#36 * EVar vDmglst2 * (#3 -
   #5 * EVar vlmMst1 + #5 * EVar vlmMst2) + (- #469 + #36 * EVar vlmMst1 - #36 * EVar vlmMst2) * EVar vMgl) + (#3 *
   EVar vDmglst2 * (#32663 - #7620 * EVar vlmMst1 + #7620 * EVar vlmMst2) + (- #224837 + #4680 * EVar vlmMst1 - #8370
   * EVar vlmMst2) * EVar vMgl) * EPow P2 (EVar vMsq)) * EPow P2 (EVar vMst2) * EPow P4 (EVar vMst1) + #90 * (EVar
   vDmsqst2 * (#720 * EVar vDmglst2 * (#5 + #3 * EVar vlmMst1 - #3 * EVar vlmMst2) + #1950 * EVar vMgl) + (#2 * EVar
   vDmglst2 * (#648 * EVar vlmMst1 - #7 * (#257 + #240 * EVar vlmMst2)) + (#5825 + #564 * EVar vlmMst1 - #1104 * EVar
   vlmMst2) * EVar vMgl) * EPow P2 (EVar vMsq)) * EPow P2 (EVar vMst1) * EPow P4 (EVar vMst2) + (#3 * EVar vMgl *
   (#1082800 * EVar vDmsqst2 + (#3447379 - #76140 * EVar vlmMst1 + #76140 * EVar vlmMst2) * EPow P2 (EVar vMsq)) - #16
   * EVar vDmglst2 * (#78975 * EVar vDmsqst2 + (#788723 - #80595 * EVar vlmMst1 + #80595 * EVar vlmMst2) * EPow P2
   (EVar vMsq))) * EPow P6 (EVar vMst1) / #3 + #1080 * (#60 * EVar vDmglst2 * EVar vDmsqst2 - #30 * EVar vDmsqst2 *
   EVar vMgl + #28 * EVar vDmglst2 * EPow P2 (EVar vMsq) - #19 * EVar vMgl * EPow P2 (EVar vMsq)) * EPow P6 (EVar
   vMst2))) + EVar vTbeta * (- #56 * EPow P2 (EVar vMst1) * EPow P2 (EVar vMuSUSY) * EPow P3 (EVar vMt) * (#388800 *
   EVar vDmsqst2 * EVar vs2t * (EVar vDmglst2 * (#1 - #9 * EVar vlmMst1 + #9 * EVar vlmMst2) * EPow P2 (EVar vMst1) +
   (#5 + #3 * EVar vlmMst1 - #3 * EVar vlmMst2) * EVar vMgl * EPow P2 (EVar vMst1) - EVar vDmglst2 * (#2 + #3 * EVar
   vlmMst1 - #3 * EVar vlmMst2) * EPow P2 (EVar vMst2) + (#2 + EVar vlmMst1 - EVar vlmMst2) * EVar vMgl * EPow P2
   (EVar vMst2)) * EPow P3 (EVar vMst2) + EPow P2 (EVar vMsq) * (EVar vDmglst2 * EVar vMst2 * (#36 * EVar vMst2 * (#30
   * (#3643 - #120 * EVar vlmMst1 + #3192 * EVar vlmMst2) * EVar vMt + (#364291 - #88560 * EVar vlmMst1 + #147960 *
   EVar vlmMst2) * EVar vMst2 * EVar vs2t) * EPow P2 (EVar vMst1) + #27 * (#7680 * (#5 + #6 * EVar vlmMst2) * EVar vMt
   + (#173947 - #25080 * EVar vlmMst1 + #68760 * EVar vlmMst2) * EVar vMst2 * EVar vs2t) * EPow P3 (EVar vMst2) + #2 *
   (#15057833 - #4014360 * EVar vlmMst1 + #5563080 * EVar vlmMst2) * EVar vs2t * EPow P4 (EVar vMst1)) - #3 * EVar
   vMgl * (- #60 * (#3 * (- #353 + #72 * EVar vlmMst1 + #696 * EVar vlmMst2) * EVar vMt + #2 * (#3937 + #2988 * EVar
   vlmMst1 - #2232 * EVar vlmMst2) * EVar vMst2 * EVar vs2t) * EPow P2 (EVar vMst1) * EPow P2 (EVar vMst2) + #2 * (#15
   * (#38401 + #1080 * EVar vlmMst1 - #7992 * EVar vlmMst2) * EVar vMt + (- #266863 - #396360 * EVar vlmMst1 + #346680
   * EVar vlmMst2) * EVar vMst2 * EVar vs2t) * EPow P4 (EVar vMst1) - #45 * (#64 * (#53 + #24 * EVar vlmMst2) * EVar
   vMt + #3 * (#2269 + #664 * EVar vlmMst1 - #56 * EVar vlmMst2) * EVar vMst2 * EVar vs2t) * EPow P4 (EVar vMst2)))) +
   EPow P2 (EVar vSbeta) * (#7 * EPow P4 (EVar vs2t) * EPow P6 (EVar vMst2) * (EPow P2 (EVar vMsq) * (#3 * EVar vMgl *
   (#6 * (- #362299 + #17820 * EVar vlmMst1 - #33300 * EVar vlmMst2) * EPow P2 (EVar vMst2) * EPow P4 (EVar vMst1) -
   #90 * (#6053 + #564 * EVar vlmMst1 - #1104 * EVar vlmMst2) * EPow P2 (EVar vMst1) * EPow P4 (EVar vMst2) + #5 * (-
   #149867 + #3996 * EVar vlmMst1 + #4860 * EVar vlmMst2) * EPow P6 (EVar vMst1) + #20520 * EPow P6 (EVar vMst2)) - #4
   * EVar vDmglst2 * (#108 * (- #5917 + #1095 * EVar vlmMst1 + #195 * EVar vlmMst2) * EPow P2 (EVar vMst2) * EPow P4
   (EVar vMst1) + #135 * (- #1967 + #648 * EVar vlmMst1 - #1680 * EVar vlmMst2) * EPow P2 (EVar vMst1) * EPow P4 (EVar
   vMst2) + (- #2272991 + #116640 * EVar vlmMst1 - #116640 * EVar vlmMst2) * EPow P6 (EVar vMst1) + #22680 * EPow P6
   (EVar vMst2))) + EVar vDmsqst2 * (- #300 * EVar vMgl * (#9 * (#743 - #72 * EVar vlmMst1 + #72 * EVar vlmMst2) *
   EPow P2 (EVar vMst2) * EPow P4 (EVar vMst1) + #2079 * EPow P2 (EVar vMst1) * EPow P4 (EVar vMst2) + (#2386 + #648 *
   EVar vlmMst1 - #648 * EVar vlmMst2) * EPow P6 (EVar vMst1) - #324 * EPow P6 (EVar vMst2)) + #97200 * EVar vDmglst2
   * (#4 * (#4 - EVar vlmMst1 + EVar vlmMst2) * EPow P2 (EVar vMst2) * EPow P4 (EVar vMst1) + (#7 + #10 * EVar vlmMst1
   - #10 * EVar vlmMst2) * EPow P6 (EVar vMst1) - #2 * ((#4 + #3 * EVar vlmMst1 - #3 * EVar vlmMst2) * EPow P2 (EVar
   vMst1) * EPow P4 (EVar vMst2) + EPow P6 (EVar vMst2))))) + #56 * EVar vMst2 * EVar vs2t * EPow P2 (EVar vMst1) *
   EPow P3 (EVar vMt) * (#388800 * EVar vDmsqst2 * EPow P2 (EVar vMst2) * (EVar vDmglst2 * ((- #2 - #3 * EVar vlmMst1
   + #3 * EVar vlmMst2) * EPow P2 (EVar vMst2) * EPow P2 (EVar vMuSUSY) + EPow P2 (EVar vMst1) * ((#51 - #14 * EVar
   vlmMst1 + #28 * EVar vlmMst2 - #14 * EVar vlmMt) * EPow P2 (EVar vMst2) + (#1 - #9 * EVar vlmMst1 + #9 * EVar
   vlmMst2) * EPow P2 (EVar vMuSUSY)) + (#87 - #22 * EVar vlmMst1 + #44 * EVar vlmMst2 - #22 * EVar vlmMt) * EPow P4
   (EVar vMst1) + (#19 - #6 * EVar vlmMst1 + #12 * EVar vlmMst2 - #6 * EVar vlmMt) * EPow P4 (EVar vMst2)) + EVar vMgl
   * ((#2 + EVar vlmMst1 - EVar vlmMst2) * EPow P2 (EVar vMst2) * EPow P2 (EVar vMuSUSY) + EPow P2 (EVar vMst1) * ((-
   #5 + #2 * EVar vlmMst1 - #4 * EVar vlmMst2 + #2 * EVar vlmMt) * EPow P2 (EVar vMst2) + (#5 + #3 * EVar vlmMst1 - #3
   * EVar vlmMst2) * EPow P2 (EVar vMuSUSY)) + (- #5 + #2 * EVar vlmMst1 - #4 * EVar vlmMst2 + #2 * EVar vlmMt) * EPow
   P4 (EVar vMst1) + (- #1 + #2 * EVar vlmMst1 - #4 * EVar vlmMst2 + #2 * EVar vlmMt) * EPow P4 (EVar vMst2))) + EPow
   P2 (EVar vMsq) * (EVar vDmglst2 * (#2 * (#4 * (#9908167 - #949320 * EVar vlmMst1 + #1769040 * EVar vlmMst2 -
   #217080 * EVar vlmMt) * EPow P2 (EVar vMst2) + (#15057833 - #4014360 * EVar vlmMst1 + #5563080 * EVar vlmMst2) *
   EPow P2 (EVar vMuSUSY)) * EPow P4 (EVar vMst1) + #18 * EPow P2 (EVar vMst1) * (#2 * (#364291 - #88560 * EVar
   vlmMst1 + #147960 * EVar vlmMst2) * EPow P2 (EVar vMst2) * EPow P2 (EVar vMuSUSY) + #3 * (#510149 - #55320 * EVar
   vlmMst1 + #118200 * EVar vlmMst2 - #32160 * EVar vlmMt) * EPow P4 (EVar vMst2)) + #27 * ((#173947 - #25080 * EVar
   vlmMst1 + #68760 * EVar vlmMst2) * EPow P2 (EVar vMuSUSY) * EPow P4 (EVar vMst2) + #30 * (- #1672 * EVar vlmMst1 +
   #1448 * EVar vlmMst2 + #59 * (#71 - #32 * EVar vlmMt)) * EPow P6 (EVar vMst2))) - #3 * EVar vMgl * (#2 * ((#2299036
   - #388800 * EVar vlmMst1 + #656640 * EVar vlmMst2) * EPow P2 (EVar vMst2) + (- #266863 - #396360 * EVar vlmMst1 +
   #346680 * EVar vlmMst2) * EPow P2 (EVar vMuSUSY)) * EPow P4 (EVar vMst1) + #6 * EPow P2 (EVar vMst1) * (- #20 *
   (#3937 + #2988 * EVar vlmMst1 - #2232 * EVar vlmMst2) * EPow P2 (EVar vMst2) * EPow P2 (EVar vMuSUSY) + (#470657 -
   #86040 * EVar vlmMst1 + #178200 * EVar vlmMst2) * EPow P4 (EVar vMst2)) + #9 * (- #15 * (#2269 + #664 * EVar
   vlmMst1 - #56 * EVar vlmMst2) * EPow P2 (EVar vMuSUSY) * EPow P4 (EVar vMst2) + #2 * (#68693 - #9960 * EVar vlmMst1
   + #45480 * EVar vlmMst2 - #3840 * EVar vlmMt) * EPow P6 (EVar vMst2))))) + #28 * EVar vMt * EPow P2 (EVar vMst2) *
   EPow P2 (EVar vs2t) * (EVar vs2t * EPow P2 (EVar vMst1) * EPow P3 (EVar vMst2) * (#3 * EVar vMgl * EPow P2 (EVar
   vMsq) * (#30 * (#4673 - #5976 * EVar vlmMst1 + #8424 * EVar vlmMst2) * EPow P2 (EVar vMst1) * EPow P2 (EVar vMst2)
   + #17 * (#6167 - #9720 * EVar vlmMst1 + #9720 * EVar vlmMst2) * EPow P4 (EVar vMst1) - #135 * (#2269 + #664 * EVar
   vlmMst1 - #56 * EVar vlmMst2) * EPow P4 (EVar vMst2)) - EVar vDmglst2 * EPow P2 (EVar vMsq) * (#18 * (#206741 -
   #101880 * EVar vlmMst1 + #89640 * EVar vlmMst2) * EPow P2 (EVar vMst1) * EPow P2 (EVar vMst2) + (#8583283 -
   #2329560 * EVar vlmMst1 + #2329560 * EVar vlmMst2) * EPow P4 (EVar vMst1) + #27 * (#173947 - #25080 * EVar vlmMst1
   + #68760 * EVar vlmMst2) * EPow P4 (EVar vMst2)) + #194400 * EVar vDmsqst2 * (EVar vDmglst2 * (#2 * (- #5 + #3 *
   EVar vlmMst1 - #3 * EVar vlmMst2) * EPow P2 (EVar vMst1) * EPow P2 (EVar vMst2) - #11 * EPow P4 (EVar vMst1) + #2 *
   (#2 + #3 * EVar vlmMst1 - #3 * EVar vlmMst2) * EPow P4 (EVar vMst2)) + EVar vMgl * (- #2 * (#1 + EVar vlmMst1 -
   EVar vlmMst2) * EPow P2 (EVar vMst1) * EPow P2 (EVar vMst2) + EPow P4 (EVar vMst1) - #2 * (#2 + EVar vlmMst1 - EVar
   vlmMst2) * EPow P4 (EVar vMst2)))) + EVar vMt * (EPow P2 (EVar vMsq) * (- #4 * EVar vDmglst2 * (#162 * EPow P2
   (EVar vMst2) * (#20 * (#505 + #68 * EVar vlmMst1 + #124 * EVar vlmMst2) * EPow P2 (EVar vMst2) + (#6803 - #1810 *
   EVar vlmMst1 + #2670 * EVar vlmMst2) * EPow P2 (EVar vMuSUSY)) * EPow P4 (EVar vMst1) - #27 * EPow P2 (EVar vMst1)
   * (#4 * (- #4849 + #270 * EVar vlmMst1 - #8910 * EVar vlmMst2) * EPow P2 (EVar vMst2) + #5 * (- #1631 + #648 * EVar
   vlmMst1 - #1680 * EVar vlmMst2) * EPow P2 (EVar vMuSUSY)) * EPow P4 (EVar vMst2) + #2 * (#45 * (#78533 + #6732 *
   EVar vlmMst1 + #180 * EVar vlmMst2) * EPow P2 (EVar vMst2) + (#2128489 - #307800 * EVar vlmMst1 + #377460 * EVar
   vlmMst2) * EPow P2 (EVar vMuSUSY)) * EPow P6 (EVar vMst1) - #22680 * (#2 * EPow P2 (EVar vMst2) + EPow P2 (EVar
   vMuSUSY)) * EPow P6 (EVar vMst2)) + #3 * EVar vMgl * (#6 * EPow P2 (EVar vMst2) * ((#309749 + #12240 * EVar vlmMst1
   - #12240 * EVar vlmMst2) * EPow P2 (EVar vMst2) + (#533629 - #900 * EVar vlmMst1 + #180 * EVar vlmMst2) * EPow P2
   (EVar vMuSUSY)) * EPow P4 (EVar vMst1) + #9 * EPow P2 (EVar vMst1) * ((#5927 + #13560 * EVar vlmMst1 - #36600 *
   EVar vlmMst2) * EPow P2 (EVar vMst2) + #10 * (#5597 + #564 * EVar vlmMst1 - #1104 * EVar vlmMst2) * EPow P2 (EVar
   vMuSUSY)) * EPow P4 (EVar vMst2) + ((#3291029 + #210600 * EVar vlmMst1 - #210600 * EVar vlmMst2) * EPow P2 (EVar
   vMst2) + (#6649153 - #81540 * EVar vlmMst1 + #77220 * EVar vlmMst2) * EPow P2 (EVar vMuSUSY)) * EPow P6 (EVar
   vMst1) - #20520 * (#2 * EPow P2 (EVar vMst2) + EPow P2 (EVar vMuSUSY)) * EPow P6 (EVar vMst2))) + #300 * EVar
   vDmsqst2 * (#648 * EVar vDmglst2 * EPow P2 (EVar vMst2) * (EPow P2 (EVar vMst1) * EPow P2 (EVar vMst2) * (#8 * EPow
   P2 (EVar vMst2) + #3 * (#2 + EVar vlmMst1 - EVar vlmMst2) * EPow P2 (EVar vMuSUSY)) + (#8 * EPow P2 (EVar vMst2) +
   (#3 + #8 * EVar vlmMst1 - #8 * EVar vlmMst2) * EPow P2 (EVar vMuSUSY)) * EPow P4 (EVar vMst1) + (#2 * EPow P2 (EVar
   vMst2) + EPow P2 (EVar vMuSUSY)) * EPow P4 (EVar vMst2) + #8 * EPow P6 (EVar vMst1)) + EVar vMgl * (#9 * EPow P2
   (EVar vMst2) * (#202 * EPow P2 (EVar vMst2) + (#1097 - #72 * EVar vlmMst1 + #72 * EVar vlmMst2) * EPow P2 (EVar
   vMuSUSY)) * EPow P4 (EVar vMst1) + (#808 * EPow P2 (EVar vMst2) + (#20701 - #648 * EVar vlmMst1 + #648 * EVar
   vlmMst2) * EPow P2 (EVar vMuSUSY)) * EPow P6 (EVar vMst1) - #324 * (#2 * EPow P2 (EVar vMst2) + EPow P2 (EVar
   vMuSUSY)) * EPow P6 (EVar vMst2) + #27 * EPow P2 (EVar vMst1) * (#53 * EPow P2 (EVar vMuSUSY) * EPow P4 (EVar
   vMst2) + #77 * EPow P6 (EVar vMst2)))))) - #16 * EPow P4 (EVar vMt) * (#680400 * EVar vDmsqst2 * (#2 * EVar
   vDmglst2 * EPow P4 (EVar vMst2) * ((#23 - #5 * EVar vlmMst1 + #10 * EVar vlmMst2 - #5 * EVar vlmMt) * EPow P2 (EVar
   vMst1) * EPow P2 (EVar vMst2) + (#77 - #18 * EVar vlmMst1 + #36 * EVar vlmMst2 - #18 * EVar vlmMt) * EPow P4 (EVar
   vMst1) + EPow P4 (EVar vMst2)) - EVar vMgl * (- #2 * (- #3 + EVar vlmMst1 - #2 * EVar vlmMst2 + EVar vlmMt) * EPow
   P2 (EVar vMst1) * (#2 * EPow P2 (EVar vMst1) + EPow P2 (EVar vMst2)) * EPow P4 (EVar vMst2) + #2 * (#7 - #3 * EVar
   vlmMst1 + #6 * EVar vlmMst2 - #3 * EVar vlmMt) * EPow P2 (EVar vMst2) * EPow P6 (EVar vMst1) + EPow P8 (EVar
   vMst2))) - EPow P2 (EVar vMsq) * (- #4 * EVar vDmglst2 * EPow P2 (EVar vMst2) * (#27 * EPow P2 (EVar vMst1) * EPow
   P2 (EVar vMst2) * ((#209341 - #26880 * EVar vlmMst1 + #82320 * EVar vlmMst2 - #1680 * EVar vlmMt) * EPow P2 (EVar
   vMst2) - #6720 * (#5 + #6 * EVar vlmMst2) * EPow P2 (EVar vMuSUSY)) + #9 * ((#3184397 - #476280 * EVar vlmMst1 +
   #1156680 * EVar vlmMst2 - #161280 * EVar vlmMt) * EPow P2 (EVar vMst2) + #105 * (- #3643 + #120 * EVar vlmMst1 -
   #3192 * EVar vlmMst2) * EPow P2 (EVar vMuSUSY)) * EPow P4 (EVar vMst1) + #4 * (#19152737 - #3674160 * EVar vlmMst1
   + #6872040 * EVar vlmMst2 - #850500 * EVar vlmMt) * EPow P6 (EVar vMst1) + #158760 * EPow P6 (EVar vMst2)) + #21 *
   EVar vMgl * (#3 * EPow P2 (EVar vMst2) * ((#310039 - #91080 * EVar vlmMst1 + #145080 * EVar vlmMst2 - #43920 * EVar
   vlmMt) * EPow P2 (EVar vMst2) + #30 * (- #353 + #72 * EVar vlmMst1 + #696 * EVar vlmMst2) * EPow P2 (EVar vMuSUSY))
   * EPow P4 (EVar vMst1) + #9 * EPow P2 (EVar vMst1) * ((#48983 - #12480 * EVar vlmMst1 + #26820 * EVar vlmMst2 -
   #12180 * EVar vlmMt) * EPow P2 (EVar vMst2) + #160 * (#53 + #24 * EVar vlmMst2) * EPow P2 (EVar vMuSUSY)) * EPow P4
   (EVar vMst2) + (#2 * (#626869 - #300240 * EVar vlmMst1 + #395280 * EVar vlmMst2 - #78840 * EVar vlmMt) * EPow P2
   (EVar vMst2) - #15 * (#38401 + #1080 * EVar vlmMst1 - #7992 * EVar vlmMst2) * EPow P2 (EVar vMuSUSY)) * EPow P6
   (EVar vMst1) + #20520 * EPow P8 (EVar vMst2))))) + EPow P2 (EVar vMst2) * (- #28 * EPow P2 (EVar vMt) * EPow P2
   (EVar vs2t) * (EPow P2 (EVar vMsq) * EPow P2 (EVar vMuSUSY) * (- #4 * EVar vDmglst2 * (#162 * (#6803 - #1810 * EVar
   vlmMst1 + #2670 * EVar vlmMst2) * EPow P2 (EVar vMst2) * EPow P4 (EVar vMst1) + #135 * (#1631 - #648 * EVar vlmMst1
   + #1680 * EVar vlmMst2) * EPow P2 (EVar vMst1) * EPow P4 (EVar vMst2) + (#4256978 - #615600 * EVar vlmMst1 +
   #754920 * EVar vlmMst2) * EPow P6 (EVar vMst1) - #22680 * EPow P6 (EVar vMst2)) + #3 * EVar vMgl * (#6 * (#533629 -
   #900 * EVar vlmMst1 + #180 * EVar vlmMst2) * EPow P2 (EVar vMst2) * EPow P4 (EVar vMst1) + #90 * (#5597 + #564 *
   EVar vlmMst1 - #1104 * EVar vlmMst2) * EPow P2 (EVar vMst1) * EPow P4 (EVar vMst2) + (#6649153 - #81540 * EVar
   vlmMst1 + #77220 * EVar vlmMst2) * EPow P6 (EVar vMst1) - #20520 * EPow P6 (EVar vMst2))) + #300 * EVar vDmsqst2 *
   (#162 * EVar vDmglst2 * EPow P2 (EVar vMst2) * (#4 * EPow P2 (EVar vMuSUSY) * (#3 * (#2 + EVar vlmMst1 - EVar
   vlmMst2) * EPow P2 (EVar vMst1) * EPow P2 (EVar vMst2) + (#3 + #8 * EVar vlmMst1 - #8 * EVar vlmMst2) * EPow P4
   (EVar vMst1) + EPow P4 (EVar vMst2)) + (- #93 + #10 * EVar vlmMst1 - #10 * EVar vlmMst2) * (- #2 + EPow P2 (EVar
   vSbeta)) * EPow P4 (EVar vSbeta) * EPow P6 (EVar vMst1)) + EVar vMgl * EPow P2 (EVar vMuSUSY) * (#9 * (#1097 - #72
   * EVar vlmMst1 + #72 * EVar vlmMst2) * EPow P2 (EVar vMst2) * EPow P4 (EVar vMst1) + #1431 * EPow P2 (EVar vMst1) *
   EPow P4 (EVar vMst2) + (#20701 - #648 * EVar vlmMst1 + #648 * EVar vlmMst2) * EPow P6 (EVar vMst1) - #324 * EPow P6
   (EVar vMst2)))) + #68040 * EVar vMgl * (EVar vshiftst3 * EPow P2 (EVar vMsq) * (- #4 * EPow P2 (EVar vMst1) * EPow
   P2 (EVar vs2t) * EPow P4 (EVar vMst2) * (#2 * (- #1 + EVar vlmMst1 - EVar vlmMst2) * EPow P2 (EVar vMt) * (- (EPow
   P2 (EVar vMuSUSY) * (- #1 + EPow P2 (EVar vSbeta))) + EPow P2 (EVar vMst2) * EPow P2 (EVar vSbeta)) + EPow P2 (EVar
   vs2t) * EPow P2 (EVar vSbeta) * EPow P4 (EVar vMst2)) + #8 * (- #1 + #3 * EVar vlmMst1 - #3 * EVar vlmMst2) * EPow
   P2 (EVar vMt) * EPow P2 (EVar vMuSUSY) * EPow P2 (EVar vs2t) * (- #1 + EPow P2 (EVar vSbeta)) * EPow P6 (EVar
   vMst1) + (- #4 * EPow P2 (EVar vMt) * EPow P2 (EVar vs2t) * (EPow P2 (EVar vMuSUSY) * (- #1 + EPow P2 (EVar
   vSbeta)) + #2 * EPow P2 (EVar vMst2) * EPow P2 (EVar vSbeta)) + EPow P2 (EVar vSbeta) * (#16 * EPow P4 (EVar vMt) +
   EPow P4 (EVar vMst2) * EPow P4 (EVar vs2t))) * EPow P6 (EVar vMst2) + EPow P4 (EVar vMst1) * (#8 * (- #1 + #2 *
   EVar vlmMst1 - #2 * EVar vlmMst2) * EPow P2 (EVar vMst2) * EPow P2 (EVar vMt) * EPow P2 (EVar vMuSUSY) * EPow P2
   (EVar vs2t) * (- #1 + EPow P2 (EVar vSbeta)) + (#3 + #2 * EVar vlmMst1 - #2 * EVar vlmMst2) * EPow P2 (EVar vSbeta)
   * EPow P4 (EVar vs2t) * EPow P6 (EVar vMst2))) + #10 * EVar vshiftst1 * (EVar vDmsqst2 + EPow P2 (EVar vMsq)) * (#4
   * EPow P2 (EVar vMt) * EPow P2 (EVar vMuSUSY) * EPow P2 (EVar vs2t) * (EPow P2 (EVar vMst1) * EPow P4 (EVar vMst2)
   - #2 * (EVar vlmMst1 - EVar vlmMst2) * EPow P2 (EVar vMst1) * (EPow P2 (EVar vMst1) * EPow P2 (EVar vMst2) + EPow
   P4 (EVar vMst1) + EPow P4 (EVar vMst2)) + EPow P6 (EVar vMst2)) + EPow P2 (EVar vSbeta) * (#16 * (EPow P2 (EVar
   vMst1) + EPow P2 (EVar vMst2)) * EPow P4 (EVar vMst2) * EPow P4 (EVar vMt) + (EPow P2 (EVar vMst1) - EPow P2 (EVar
   vMst2)) * (#2 * (EVar vlmMst1 - EVar vlmMst2) * EPow P2 (EVar vMst1) * EPow P2 (EVar vMst2) + EPow P4 (EVar vMst1)
   - EPow P4 (EVar vMst2)) * EPow P4 (EVar vMst2) * EPow P4 (EVar vs2t) - #4 * EPow P2 (EVar vMt) * EPow P2 (EVar
   vs2t) * (#2 * EPow P4 (EVar vMst1) * EPow P4 (EVar vMst2) - #4 * EPow P2 (EVar vMst1) * EPow P6 (EVar vMst2) + EPow
   P2 (EVar vMuSUSY) * (EPow P2 (EVar vMst1) * EPow P4 (EVar vMst2) - #2 * (EVar vlmMst1 - EVar vlmMst2) * EPow P2
   (EVar vMst1) * (EPow P2 (EVar vMst1) * EPow P2 (EVar vMst2) + EPow P4 (EVar vMst1) + EPow P4 (EVar vMst2)) + EPow
   P6 (EVar vMst2)) + #2 * EPow P8 (EVar vMst2)))))))) / (EPow P2 (EVar vMsq) * EPow P2 (EVar vMst1))) / (EVar vTbeta
   * EPow P2 (EVar vSbeta) * EPow P6 (EVar vMst2))) / #408240 + (- (EVar vxMst * (EVar vMgl * (#27 * (EVar vlmMst1 -
   EVar vlmMst2) * EVar vMgl * EVar vMst2 * EVar voneLoopFlag * EVar vTbeta * EPow P2 (EVar vMt) * EPow P2 (EVar
   vMuSUSY) * EPow P2 (EVar vs2t) * (- #1 + EPow P2 (EVar vSbeta)) + #2 * EVar vAl4p * EVar vMt * EVar vMuSUSY * EVar
   vtwoLoopFlag * EPow P2 (EVar vSbeta) * (#8 * EVar vDmglst2 * (#36 * (- #1 + #3 * EVar vlmMst1 - #3 * EVar vlmMst2)
   * EVar vMst2 * EVar vs2t * EPow P2 (EVar vMt) - #3 * EVar vMt * (#50 + EVar vlmMst1 * (#51 - #18 * EVar vlmMst2) -
   #51 * EVar vlmMst2 + #18 * EPow P2 (EVar vlmMst2)) * EPow P2 (EVar vMst2) * EPow P2 (EVar vs2t) + #4 * (#7 - #381 *
   EVar vlmMst2 + EVar vlmMst1 * (#327 + #72 * EVar vlmMst2 - #81 * EVar vlmMt) + #54 * EVar vlmMt + #81 * EVar
   vlmMst2 * EVar vlmMt - #72 * EPow P2 (EVar vlmMst2)) * EPow P3 (EVar vMt) + #2 * (#1 + #3 * EVar vlmMst1 - #3 *
   EVar vlmMst2) * EPow P3 (EVar vMst2) * EPow P3 (EVar vs2t)) - EVar vMgl * (- #144 * EVar vMst2 * EVar vs2t * (-
   EVar vlmMst1 + EVar vlmMst2 - #2 * EVar vlmMst1 * EVar vlmMst2 + EPow P2 (EVar vlmMst1) + EPow P2 (EVar vlmMst2)) *
   EPow P2 (EVar vMt) + #24 * EVar vMt * (#1 + #33 * EVar vlmMst2 - #3 * EVar vlmMst1 * (#11 + #6 * EVar vlmMst2) +
   #18 * EPow P2 (EVar vlmMst2)) * EPow P2 (EVar vMst2) * EPow P2 (EVar vs2t) + #32 * (#83 - #96 * EVar vlmMst2 + #3 *
   EVar vlmMst1 * (#29 + #12 * EVar vlmMst2 - #9 * EVar vlmMt) + #9 * EVar vlmMt + #27 * EVar vlmMst2 * EVar vlmMt -
   #36 * EPow P2 (EVar vlmMst2)) * EPow P3 (EVar vMt) + (#5 + EVar vlmMst1 * (#6 - #288 * EVar vlmMst2) - #6 * EVar
   vlmMst2 + #144 * EPow P2 (EVar vlmMst1) + #144 * EPow P2 (EVar vlmMst2)) * EPow P3 (EVar vMst2) * EPow P3 (EVar
   vs2t))) + EVar vAl4p * EVar vs2t * EVar vTbeta * EVar vtwoLoopFlag * (#8 * EPow P2 (EVar vMt) * ((EVar vDmglst2 *
   EVar vMst2 * EVar vs2t * (- #49 + #84 * EVar vlmMst2 - #12 * EVar vlmMst1 * (#7 + #3 * EVar vlmMst2) + #36 * EPow
   P2 (EVar vlmMst2)) + EVar vMgl * EVar vMst2 * EVar vs2t * (- #1 + #111 * EVar vlmMst2 - #3 * EVar vlmMst1 * (#37 +
   #72 * EVar vlmMst2) + #81 * EPow P2 (EVar vlmMst1) + #135 * EPow P2 (EVar vlmMst2)) + EVar vDmglst2 * EVar vMt *
   (#785 - #438 * EVar vlmMst2 - #6 * EVar vlmMst1 * (- #85 + #42 * EVar vlmMst2) + #252 * EPow P2 (EVar vlmMst2)) +
   EVar vMgl * EVar vMt * (#193 + #474 * EVar vlmMst2 - #6 * EVar vlmMst1 * (#67 + #42 * EVar vlmMst2) + #252 * EPow
   P2 (EVar vlmMst2))) * EPow P2 (EVar vMuSUSY) - EVar vMt * ((#4 * EVar vDmglst2 * (#95 - #447 * EVar vlmMst2 + EVar
   vlmMst1 * (#411 + #90 * EVar vlmMst2 - #90 * EVar vlmMt) + #36 * EVar vlmMt + #90 * EVar vlmMst2 * EVar vlmMt - #90
   * EPow P2 (EVar vlmMst2)) - #4 * EVar vMgl * (#49 - #75 * EVar vlmMst2 + #3 * EVar vlmMst1 * (#25 + #6 * EVar
   vlmMst2 - #6 * EVar vlmMt) + #18 * EVar vlmMst2 * EVar vlmMt - #18 * EPow P2 (EVar vlmMst2))) * EPow P2 (EVar
   vMst2) + (EVar vDmglst2 * (#785 + #6 * EVar vlmMst1 * (#85 - #42 * EVar vlmMst2) - #438 * EVar vlmMst2 + #252 *
   EPow P2 (EVar vlmMst2)) + EVar vMgl * (#193 + #474 * EVar vlmMst2 - #6 * EVar vlmMst1 * (#67 + #42 * EVar vlmMst2)
   + #252 * EPow P2 (EVar vlmMst2))) * EPow P2 (EVar vMuSUSY)) * EPow P2 (EVar vSbeta)) + EVar vMst2 * EVar vs2t *
   EPow P2 (EVar vSbeta) * (#8 * EPow P2 (EVar vMt) * (EVar vMgl * (#1 - #111 * EVar vlmMst2 + #3 * EVar vlmMst1 *
   (#37 + #72 * EVar vlmMst2) - #81 * EPow P2 (EVar vlmMst1) - #135 * EPow P2 (EVar vlmMst2)) * EPow P2 (EVar vMuSUSY)
   - EVar vDmglst2 * (#36 * (EVar vlmMst1 - EVar vlmMst2) * EPow P2 (EVar vMst2) + (- #49 + #84 * EVar vlmMst2 - #12 *
   EVar vlmMst1 * (#7 + #3 * EVar vlmMst2) + #36 * EPow P2 (EVar vlmMst2)) * EPow P2 (EVar vMuSUSY))) + #4 * (EVar
   vDmglst2 * (#11 + #42 * EVar vlmMst1 - #42 * EVar vlmMst2) + (- #5 - #6 * EVar vlmMst1 + #6 * EVar vlmMst2) * EVar
   vMgl) * EVar vMt * EVar vs2t * EPow P3 (EVar vMst2) + (#2 * EVar vDmglst2 * (#5 + #6 * EVar vlmMst1 - #6 * EVar
   vlmMst2) + (- #11 - #6 * EVar vlmMst1 + #6 * EVar vlmMst2) * EVar vMgl) * EPow P2 (EVar vs2t) * EPow P4 (EVar
   vMst2))) + #32 * EVar vAl4p * EVar vMst2 * EVar vTbeta * EVar vtwoLoopFlag * (- (EVar vMgl * (#65 - #159 * EVar
   vlmMst2 + #6 * EVar vlmMst1 * (#25 + #6 * EVar vlmMst2 - #6 * EVar vlmMt) + #9 * EVar vlmMt + #36 * EVar vlmMst2 *
   EVar vlmMt - #36 * EPow P2 (EVar vlmMst2))) + #18 * EVar vDmglst2 * (#4 - #61 * EVar vlmMst2 + #6 * EVar vlmMst1 *
   (#9 + #2 * EVar vlmMst2 - #2 * EVar vlmMt) + #7 * EVar vlmMt + #12 * EVar vlmMst2 * EVar vlmMt - #12 * EPow P2
   (EVar vlmMst2))) * EPow P2 (EVar vSbeta) * EPow P4 (EVar vMt)) * EPow P10 (EVar vMst1) + EVar vAl4p * EVar
   vtwoLoopFlag * (- #144 * (EVar vlmMst1 - EVar vlmMst2) * EVar vMgl * (#2 * EVar vDmglst2 * EVar vlmMst2 + EVar vMgl
   + EVar vlmMst2 * EVar vMgl) * EVar vMst2 * EVar vTbeta * EVar vxDR2DRMOD * EPow P2 (EVar vMt) * EPow P2 (EVar
   vMuSUSY) * EPow P2 (EVar vs2t) * (- #1 + EPow P2 (EVar vSbeta)) + EVar vxDmglst2 * EPow P2 (EVar vDmglst2) * (#8 *
   EVar vs2t * (EVar vTbeta * (#2501 + #42 * EVar vlmMst1 * (#7 - #6 * EVar vlmMst2) - #222 * EVar vlmMst2 + #252 *
   EPow P2 (EVar vlmMst2)) * EPow P2 (EVar vMuSUSY) * (#1 - EPow P2 (EVar vSbeta)) + EVar vMst2 * EPow P2 (EVar
   vSbeta) * (- #4 * EVar vMst2 * EVar vTbeta * (#257 + #6 * EVar vlmMst2 * (#179 - #30 * EVar vlmMt) - #12 * EVar
   vlmMst1 * (#76 + #15 * EVar vlmMst2 - #15 * EVar vlmMt) - #162 * EVar vlmMt + #180 * EPow P2 (EVar vlmMst2)) + #3 *
   EVar vMuSUSY * (#132 - #215 * EPow P2 (EVar vSbeta) + #60 * (EVar vlmMst1 - EVar vlmMst2) * (- #3 + #5 * EPow P2
   (EVar vSbeta))))) * EPow P3 (EVar vMt) - #6 * EVar vMst2 * EPow P2 (EVar vMt) * EPow P2 (EVar vs2t) * (#4 * EVar
   vMst2 * EVar vMuSUSY * (#355 + #6 * EVar vlmMst2 - #6 * EVar vlmMst1 * (#1 + #6 * EVar vlmMst2) + #36 * EPow P2
   (EVar vlmMst2)) * EPow P2 (EVar vSbeta) + EVar vTbeta * (- #2 * (#85 + #60 * EVar vlmMst2 + #12 * EVar vlmMst1 * (-
   #5 + #3 * EVar vlmMst2) - #36 * EPow P2 (EVar vlmMst2)) * EPow P2 (EVar vMuSUSY) * (- #1 + EPow P2 (EVar vSbeta)) +
   EPow P2 (EVar vMst2) * EPow P2 (EVar vSbeta) * (#96 - #430 * EPow P2 (EVar vSbeta) + #215 * EPow P4 (EVar vSbeta) -
   #12 * (EVar vlmMst1 - EVar vlmMst2) * (#18 - #50 * EPow P2 (EVar vSbeta) + #25 * EPow P4 (EVar vSbeta))))) + EPow
   P2 (EVar vSbeta) * (#4 * EVar vMt * (#12 * (#1 - #6 * EVar vlmMst1 + #6 * EVar vlmMst2) * EVar vMuSUSY + (#35 -
   #102 * EVar vlmMst1 + #102 * EVar vlmMst2) * EVar vMst2 * EVar vTbeta) * EPow P3 (EVar vMst2) * EPow P3 (EVar vs2t)
   + #32 * (#9 * EVar vMst2 * EVar vTbeta * (#102 + EVar vlmMst2 * (#353 - #60 * EVar vlmMt) - #6 * EVar vlmMst1 *
   (#49 + #10 * EVar vlmMst2 - #10 * EVar vlmMt) - #59 * EVar vlmMt + #60 * EPow P2 (EVar vlmMst2)) + EVar vMuSUSY *
   (#412 - #6 * EVar vlmMst1 * (#176 + #42 * EVar vlmMst2 - #39 * EVar vlmMt) + #9 * EVar vlmMst2 * (#147 - #26 * EVar
   vlmMt) - #267 * EVar vlmMt + #252 * EPow P2 (EVar vlmMst2))) * EPow P4 (EVar vMt) + #3 * (#5 + #6 * EVar vlmMst1 -
   #6 * EVar vlmMst2) * EVar vTbeta * EPow P4 (EVar vs2t) * EPow P5 (EVar vMst2)))) * EPow P10 (EVar vMst1) + #48 *
   EVar vAl4p * EVar vMst2 * EVar vTbeta * EVar vxDmglst2 * EPow P2 (EVar vDmglst2) * EPow P2 (EVar vs2t) * (#2 * EVar
   vAl4p * EVar vthreeLoopFlag * EPow P14 (EVar vMst2) * (#2 + EVar vlmMst2 - #3 * EPow P2 (EVar vlmMst2)) * EPow P2
   (EVar vs2t) * EPow P2 (EVar vSbeta) - #2 * EVar vAl4p * EVar vthreeLoopFlag * EVar vxDR2DRMOD * EPow P14 (EVar
   vMst2) * (#2 + EVar vlmMst2 - #3 * EPow P2 (EVar vlmMst2)) * EPow P2 (EVar vs2t) * EPow P2 (EVar vSbeta) + #3 * (-
   EVar vlmMst1 + EVar vlmMst2) * (- #2 + #3 * EVar vlmMst2) * EVar vtwoLoopFlag * EVar vxDR2DRMOD * EPow P2 (EVar
   vMt) * EPow P2 (EVar vMuSUSY) * (- #1 + EPow P2 (EVar vSbeta)) * EPow P10 (EVar vMst1)))) / (#108 * EPow P7 (EVar
   vMst2)) - EVar vthreeLoopFlag * EPow P2 (EVar vAl4p) * (EVar vMst2 * EVar vxDmsqst2 * EPow P2 (EVar vDmsqst2) *
   EPow P2 (EVar vMst1) * (#2058000 * EVar vTbeta * EPow P2 (EVar vMgl) * (#2 * EPow P2 (EVar vs2t) * (- (EConst CT1ep
   * EPow P2 (EVar vMst1) * (#3 * EPow P2 (EVar vs2t) * EPow P2 (EVar vSbeta) * EPow P4 (EVar vMst2) * (#13 * EPow P2
   (EVar vMst1) * EPow P2 (EVar vMst2) + #6 * EPow P4 (EVar vMst2)) + #4 * EPow P2 (EVar vMt) * EPow P2 (EVar vMuSUSY)
   * (#75 * EPow P2 (EVar vMst1) * EPow P2 (EVar vMst2) + #221 * EPow P4 (EVar vMst1) + #18 * EPow P4 (EVar vMst2))))
   - #2 * EPow P2 (EVar vMt) * (- #2 * EConst CT1ep * EPow P2 (EVar vMst1) * EPow P2 (EVar vSbeta) * ((- #7 * EPow P2
   (EVar vMst2) + #221 * EPow P2 (EVar vMuSUSY)) * EPow P4 (EVar vMst1) + #18 * (EPow P2 (EVar vMst2) + EPow P2 (EVar
   vMuSUSY)) * EPow P4 (EVar vMst2) + #3 * EPow P2 (EVar vMst1) * (#25 * EPow P2 (EVar vMst2) * EPow P2 (EVar vMuSUSY)
   + EPow P4 (EVar vMst2))) + #81 * EVar vshiftst1 * EPow P2 (EVar vMuSUSY) * (#2 * EVar vlmMst1 * (- #2 + EVar
   vlmMst2) * EPow P2 (EVar vMst1) * EPow P2 (EVar vMst2) * (EPow P2 (EVar vMst1) + EPow P2 (EVar vMst2)) + #2 * (EPow
   P2 (EVar vMst1) + EPow P2 (EVar vMst2)) * EPow P4 (EVar vMst2) - #2 * EPow P2 (EVar vlmMst2) * EPow P2 (EVar vMst1)
   * (EPow P2 (EVar vMst1) * EPow P2 (EVar vMst2) + EPow P4 (EVar vMst1) + EPow P4 (EVar vMst2)) + EVar vlmMst1 * (-
   #3 + #2 * EVar vlmMst2) * EPow P6 (EVar vMst1) + EVar vlmMst2 * (#4 * EPow P2 (EVar vMst2) * EPow P4 (EVar vMst1) +
   #3 * EPow P2 (EVar vMst1) * EPow P4 (EVar vMst2) + #3 * EPow P6 (EVar vMst1) - EPow P6 (EVar vMst2))))) + #81 *
   EVar vshiftst1 * EPow P2 (EVar vSbeta) * (EPow P2 (EVar vs2t) * ((#2 - EVar vlmMst2) * EPow P2 (EVar vMst2) * EPow
   P4 (EVar vMst1) * (#8 * EPow P2 (EVar vMt) * (EPow P2 (EVar vMst2) + (- EVar vlmMst1 + EVar vlmMst2) * EPow P2
   (EVar vMuSUSY)) + (#1 - #2 * EVar vlmMst1 + #2 * EVar vlmMst2) * EPow P2 (EVar vs2t) * EPow P4 (EVar vMst2)) + (#4
   * (EVar vlmMst1 - EVar vlmMst2) * (- #3 + #2 * EVar vlmMst2) * EPow P2 (EVar vMt) * EPow P2 (EVar vMuSUSY) + (- #2
   + EVar vlmMst2) * EPow P2 (EVar vs2t) * EPow P4 (EVar vMst2)) * EPow P6 (EVar vMst1)) - (#2 - EVar vlmMst2) * (EPow
   P2 (EVar vMst1) * EPow P4 (EVar vMst2) * (#4 * EPow P2 (EVar vMt) * (#4 * EPow P2 (EVar vMst2) + (- #1 + #2 * EVar
   vlmMst1 - #2 * EVar vlmMst2) * EPow P2 (EVar vMuSUSY)) * EPow P2 (EVar vs2t) + #16 * EPow P4 (EVar vMt) + (- #1 -
   #2 * EVar vlmMst1 + #2 * EVar vlmMst2) * EPow P4 (EVar vMst2) * EPow P4 (EVar vs2t)) + (- #4 * EPow P2 (EVar vMt) *
   (#2 * EPow P2 (EVar vMst2) + EPow P2 (EVar vMuSUSY)) * EPow P2 (EVar vs2t) + #16 * EPow P4 (EVar vMt) + EPow P4
   (EVar vMst2) * EPow P4 (EVar vs2t)) * EPow P6 (EVar vMst2)))) + EVar vMgl * (#4 * EVar vMt * EVar vMuSUSY * EPow P2
   (EVar vSbeta) * (#37044000 * EVar vMst2 * EPow P2 (EVar vMst1) * (#4 * EVar vDmglst2 * ((#497 - #306 * EVar vlmMst1
   + #609 * EVar vlmMst2 - #303 * EVar vlmMt) * EPow P2 (EVar vMst1) + (#101 - #90 * EVar vlmMst1 + #177 * EVar
   vlmMst2 - #87 * EVar vlmMt) * EPow P2 (EVar vMst2)) + #9 * EVar vMgl * (#4 * (#1 + #6 * EVar vlmMst1 - #13 * EVar
   vlmMst2 + #7 * EVar vlmMt) * EPow P2 (EVar vMst1) + (#16 + #16 * EVar vlmMst1 - #35 * EVar vlmMst2 + #19 * EVar
   vlmMt) * EPow P2 (EVar vMst2))) * EPow P3 (EVar vMt) - #500094000 * EVar vMst2 * EVar vMt * EPow P2 (EVar vMst1) *
   EPow P2 (EVar vs2t) * (#40 * EVar vDmglst2 * (#1 - EVar vlmMst1 + EVar vlmMst2) * EPow P2 (EVar vMst1) * EPow P2
   (EVar vMst2) + EVar vDmglst2 * (#80 - #43 * EVar vlmMst1 + #43 * EVar vlmMst2) * EPow P4 (EVar vMst1) + (- #4 + #9
   * EVar vlmMst1 - #9 * EVar vlmMst2) * EVar vMgl * EPow P4 (EVar vMst1) - #4 * EVar vDmglst2 * (#2 + #5 * EVar
   vlmMst1 - #5 * EVar vlmMst2) * EPow P4 (EVar vMst2) + #2 * EVar vMgl * ((#1 + #8 * EVar vlmMst1 - #8 * EVar
   vlmMst2) * EPow P2 (EVar vMst1) * EPow P2 (EVar vMst2) + (#5 + #4 * EVar vlmMst1 - #4 * EVar vlmMst2) * EPow P4
   (EVar vMst2))) + #3 * EPow P2 (EVar vMst2) * EPow P3 (EVar vs2t) * (#3087000 * EVar vDmglst2 * (#9 * (#55 - #34 *
   EVar vlmMst1 + #34 * EVar vlmMst2) * EPow P2 (EVar vMst2) * EPow P4 (EVar vMst1) - #36 * (#5 + #2 * EVar vlmMst1 -
   #2 * EVar vlmMst2) * EPow P2 (EVar vMst1) * EPow P4 (EVar vMst2) + (#419 - #57 * EVar vlmMst1 + #57 * EVar vlmMst2)
   * EPow P6 (EVar vMst1) - #108 * EPow P6 (EVar vMst2)) + EVar vMgl * (#1715 * (#192439 - #30400 * EConst COepS2 -
   #837000 * EConst CS2 - #180 * EVar vlmMst2 * (#857 + #3420 * EConst CS2) + #180 * EVar vlmMst1 * (#677 + #180 *
   EVar vlmMst2 + #3420 * EConst CS2) - #16200 * (EPow P2 (EVar vlmMst1) + EPow P2 (EVar vlmMst2))) * EPow P2 (EVar
   vMst2) * EPow P4 (EVar vMst1) + #128625 * (#8555 - #128 * EConst COepS2 - #57024 * EConst CS2 - #72 * EVar vlmMst2
   * (#29 + #36 * EConst CS2) + #72 * EVar vlmMst1 * (#29 - #12 * EVar vlmMst2 + #36 * EConst CS2) + #864 * EPow P2
   (EVar vlmMst2)) * EPow P2 (EVar vMst1) * EPow P4 (EVar vMst2) - #2 * (#55313478 + #26068000 * EConst COepS2 +
   #563377500 * EConst CS2 + #315 * EVar vlmMst2 * (- #423553 + #1675800 * EConst CS2) - #315 * EVar vlmMst1 * (-
   #423553 + #166320 * EVar vlmMst2 + #1675800 * EConst CS2) + #26195400 * (EPow P2 (EVar vlmMst1) + EPow P2 (EVar
   vlmMst2))) * EPow P6 (EVar vMst1) + #27783000 * (#1 + #2 * EVar vlmMst2) * EPow P6 (EVar vMst2))) + #4 * EVar vs2t
   * EPow P2 (EVar vMt) * (#27783000 * EVar vDmglst2 * EPow P2 (EVar vMst2) * (#82 * EPow P2 (EVar vMst1) * EPow P2
   (EVar vMst2) + (#195 - #6 * EVar vlmMst1 + #6 * EVar vlmMst2) * EPow P4 (EVar vMst1) + #36 * EPow P4 (EVar vMst2))
   - EVar vMgl * (#5145 * (#279089 - #5600 * EConst COepS2 + #1260 * EVar vlmMst2 * (#29 - #90 * EConst CS2) + #812700
   * EConst CS2 + #180 * EVar vlmMst1 * (- #203 + #90 * EVar vlmMst2 + #630 * EConst CS2) - #8100 * (EPow P2 (EVar
   vlmMst1) + EPow P2 (EVar vlmMst2))) * EPow P2 (EVar vMst2) * EPow P4 (EVar vMst1) + #385875 * (#3655 - #64 * EConst
   COepS2 + #8424 * EConst CS2 + #144 * EVar vlmMst1 * (#1 + #9 * EConst CS2) - #144 * EVar vlmMst2 * (#4 + #9 *
   EConst CS2)) * EPow P2 (EVar vMst1) * EPow P4 (EVar vMst2) + (#1094369501 - #72716000 * EConst COepS2 + #2520 *
   EVar vlmMst2 * (#235453 - #584325 * EConst CS2) + #5940931500 * EConst CS2 + #2520 * EVar vlmMst1 * (- #235453 +
   #114345 * EVar vlmMst2 + #584325 * EConst CS2) - #144074700 * (EPow P2 (EVar vlmMst1) + EPow P2 (EVar vlmMst2))) *
   EPow P6 (EVar vMst1) + #83349000 * (#1 + #2 * EVar vlmMst2) * EPow P6 (EVar vMst2))) + #2058000 * EVar vMgl * EVar
   vs2t * (- #81 * (#2 - EVar vlmMst2) * EVar vshiftst1 * (- #4 * EPow P2 (EVar vMst1) * EPow P2 (EVar vMt) + #4 *
   EPow P2 (EVar vMst2) * EPow P2 (EVar vMt) + #2 * (EVar vlmMst1 - EVar vlmMst2) * EPow P2 (EVar vMst1) * EPow P2
   (EVar vMst2) * EPow P2 (EVar vs2t) + EPow P2 (EVar vs2t) * (EPow P4 (EVar vMst1) - EPow P4 (EVar vMst2))) * EPow P4
   (EVar vMst2) - #2 * EConst CT1ep * EPow P2 (EVar vMst1) * ((#106 * EPow P2 (EVar vMt) - #57 * EPow P2 (EVar vMst2)
   * EPow P2 (EVar vs2t)) * EPow P4 (EVar vMst1) + #36 * EPow P2 (EVar vMt) * EPow P4 (EVar vMst2) + EPow P2 (EVar
   vMst1) * (#42 * EPow P2 (EVar vMst2) * EPow P2 (EVar vMt) - #57 * EPow P2 (EVar vs2t) * EPow P4 (EVar vMst2)) - #18
   * EPow P2 (EVar vs2t) * EPow P6 (EVar vMst2)))) + EVar vTbeta * (#2667168000 * EVar vMst2 * EVar vs2t * EPow P2
   (EVar vMst1) * (#2 * EVar vDmglst2 * (#8 - #15 * EVar vlmMst1 + #15 * EVar vlmMst2) * EPow P2 (EVar vMst1) + (#2 +
   #6 * EVar vlmMst1 - #6 * EVar vlmMst2) * EVar vMgl * EPow P2 (EVar vMst1) - #2 * EVar vDmglst2 * (#2 + #5 * EVar
   vlmMst1 - #5 * EVar vlmMst2) * EPow P2 (EVar vMst2) + (#5 + #4 * EVar vlmMst1 - #4 * EVar vlmMst2) * EVar vMgl *
   EPow P2 (EVar vMst2)) * EPow P2 (EVar vMuSUSY) * EPow P3 (EVar vMt) + #20 * EVar vMt * EPow P2 (EVar vs2t) *
   (#1389150 * (EVar vDmglst2 * (#4324 - #660 * EVar vlmMst1 + #660 * EVar vlmMst2) + #3 * (- #167 + #5 * EVar vlmMst1
   - #5 * EVar vlmMst2) * EVar vMgl) * EVar vMt * EPow P2 (EVar vMst2) * EPow P4 (EVar vSbeta) * EPow P6 (EVar vMst1)
   - #694575 * EPow P2 (EVar vMst2) * (- #6 * (#11 + #39 * EVar vlmMst1 - #39 * EVar vlmMst2) * EVar vMgl * EVar vMst2
   * EVar vs2t * (- #2 + EPow P2 (EVar vSbeta)) + (EVar vDmglst2 * (#4324 - #660 * EVar vlmMst1 + #660 * EVar vlmMst2)
   + #3 * (- #167 + #5 * EVar vlmMst1 - #5 * EVar vlmMst2) * EVar vMgl) * EVar vMt * EPow P2 (EVar vSbeta)) * EPow P4
   (EVar vSbeta) * EPow P6 (EVar vMst1) - EVar vMt * EPow P2 (EVar vMuSUSY) * (#16669800 * EVar vDmglst2 * EPow P2
   (EVar vMst2) * (- #8 * (#4 + EVar vlmMst1 - EVar vlmMst2) * EPow P2 (EVar vMst1) * EPow P2 (EVar vMst2) + (#23 -
   #42 * EVar vlmMst1 + #42 * EVar vlmMst2) * EPow P4 (EVar vMst1) - #12 * EPow P4 (EVar vMst2)) + EVar vMgl * (-
   #4116 * (#45 * EVar vlmMst1 * (- #1547 + #180 * EVar vlmMst2 - #4500 * EConst CS2) + #45 * EVar vlmMst2 * (#1547 +
   #4500 * EConst CS2) + #2 * (- #106283 + #5000 * EConst COepS2 + #639225 * EConst CS2) + #4050 * EPow P2 (EVar
   vlmMst1) - #12150 * EPow P2 (EVar vlmMst2)) * EPow P2 (EVar vMst2) * EPow P4 (EVar vMst1) + #77175 * (#8771 - #128
   * EConst COepS2 - #57024 * EConst CS2 - #72 * EVar vlmMst2 * (#23 + #36 * EConst CS2) + #72 * EVar vlmMst1 * (#29 -
   #12 * EVar vlmMst2 + #36 * EConst CS2) + #864 * EPow P2 (EVar vlmMst2)) * EPow P2 (EVar vMst1) * EPow P4 (EVar
   vMst2) + #2 * (#593331163 - #60642400 * EConst COepS2 + #1260 * EVar vlmMst2 * (#8263 - #974610 * EConst CS2) +
   #1143733500 * EConst CS2 + #1260 * EVar vlmMst1 * (- #8263 + #71820 * EVar vlmMst2 + #974610 * EConst CS2) -
   #61916400 * EPow P2 (EVar vlmMst1) - #28576800 * EPow P2 (EVar vlmMst2)) * EPow P6 (EVar vMst1) + #16669800 * (#1 +
   #2 * EVar vlmMst2) * EPow P6 (EVar vMst2)))) + EPow P2 (EVar vSbeta) * (#166698000 * EVar vMt * EPow P2 (EVar
   vMst1) * EPow P3 (EVar vMst2) * EPow P3 (EVar vs2t) * (#4 * EVar vDmglst2 * (#4 * (#12 - #5 * EVar vlmMst1 + #5 *
   EVar vlmMst2) * EPow P2 (EVar vMst1) * EPow P2 (EVar vMst2) + (#40 - #3 * EVar vlmMst1 + #3 * EVar vlmMst2) * EPow
   P4 (EVar vMst1) - #4 * (#2 + #5 * EVar vlmMst1 - #5 * EVar vlmMst2) * EPow P4 (EVar vMst2)) - EVar vMgl * (#32 *
   (#1 - EVar vlmMst1 + EVar vlmMst2) * EPow P2 (EVar vMst1) * EPow P2 (EVar vMst2) + (#45 + #37 * EVar vlmMst1 - #37
   * EVar vlmMst2) * EPow P4 (EVar vMst1) - #8 * (#5 + #4 * EVar vlmMst1 - #4 * EVar vlmMst2) * EPow P4 (EVar vMst2)))
   - #74088000 * EVar vMst2 * EVar vs2t * EPow P2 (EVar vMst1) * EPow P3 (EVar vMt) * (#9 * EVar vMgl * (#4 * (#5 + #4
   * EVar vlmMst1 - #4 * EVar vlmMst2) * EPow P2 (EVar vMst2) * EPow P2 (EVar vMuSUSY) + #4 * EPow P2 (EVar vMst1) *
   ((- #23 + #14 * EVar vlmMst1 - #28 * EVar vlmMst2 + #14 * EVar vlmMt) * EPow P2 (EVar vMst2) + #2 * (#1 + #3 * EVar
   vlmMst1 - #3 * EVar vlmMst2) * EPow P2 (EVar vMuSUSY)) + #2 * (- #35 - #50 * EVar vlmMst2 + #4 * EVar vlmMst1 * (#8
   + EVar vlmMst2 - EVar vlmMt) + #18 * EVar vlmMt + #4 * EVar vlmMst2 * EVar vlmMt - #4 * EPow P2 (EVar vlmMst2)) *
   EPow P4 (EVar vMst1) + (#13 + #32 * EVar vlmMst1 - #70 * EVar vlmMst2 + #38 * EVar vlmMt) * EPow P4 (EVar vMst2)) -
   #2 * EVar vDmglst2 * (#36 * (#2 + #5 * EVar vlmMst1 - #5 * EVar vlmMst2) * EPow P2 (EVar vMst2) * EPow P2 (EVar
   vMuSUSY) + #36 * EPow P2 (EVar vMst1) * (#8 * (- #7 + #3 * EVar vlmMst1 - #6 * EVar vlmMst2 + #3 * EVar vlmMt) *
   EPow P2 (EVar vMst2) + (- #8 + #15 * EVar vlmMst1 - #15 * EVar vlmMst2) * EPow P2 (EVar vMuSUSY)) + #9 * (- #465 -
   #374 * EVar vlmMst2 + #4 * EVar vlmMst1 * (#52 + #3 * EVar vlmMst2 - #3 * EVar vlmMt) + #166 * EVar vlmMt + #12 *
   EVar vlmMst2 * EVar vlmMt - #12 * EPow P2 (EVar vlmMst2)) * EPow P4 (EVar vMst1) + (- #578 + #360 * EVar vlmMst1 -
   #708 * EVar vlmMst2 + #348 * EVar vlmMt) * EPow P4 (EVar vMst2))) + #3 * EPow P4 (EVar vMst2) * EPow P4 (EVar vs2t)
   * (#3087000 * EVar vDmglst2 * (#9 * (- #75 + #26 * EVar vlmMst1 - #26 * EVar vlmMst2) * EPow P2 (EVar vMst2) * EPow
   P4 (EVar vMst1) + #72 * (#1 + EVar vlmMst1 - EVar vlmMst2) * EPow P2 (EVar vMst1) * EPow P4 (EVar vMst2) + (#76 -
   #249 * EVar vlmMst1 + #249 * EVar vlmMst2) * EPow P6 (EVar vMst1) + #108 * EPow P6 (EVar vMst2)) + EVar vMgl *
   (#3430 * (#224593 + #10400 * EConst COepS2 - #1719900 * EConst CS2 + #1170 * EVar vlmMst2 * (- #1 + #180 * EConst
   CS2) - #90 * EVar vlmMst1 * (- #193 + #540 * EVar vlmMst2 + #2340 * EConst CS2) + #8100 * EPow P2 (EVar vlmMst1) +
   #40500 * EPow P2 (EVar vlmMst2)) * EPow P2 (EVar vMst2) * EPow P4 (EVar vMst1) - #128625 * (#8339 - #128 * EConst
   COepS2 - #57024 * EConst CS2 - #72 * EVar vlmMst2 * (#35 + #36 * EConst CS2) + #72 * EVar vlmMst1 * (#29 - #12 *
   EVar vlmMst2 + #36 * EConst CS2) + #864 * EPow P2 (EVar vlmMst2)) * EPow P2 (EVar vMst1) * EPow P4 (EVar vMst2) +
   (#440659841 + #1890 * EVar vlmMst1 * (#251761 - #26040 * EVar vlmMst2) - #531394290 * EVar vlmMst2 - #308700000 *
   EConst CS2 + #24607800 * EPow P2 (EVar vlmMst1) + #24607800 * EPow P2 (EVar vlmMst2)) * EPow P6 (EVar vMst1) -
   #27783000 * (#1 + #2 * EVar vlmMst2) * EPow P6 (EVar vMst2))) + #144 * EPow P4 (EVar vMt) * (#343000 * EVar
   vDmglst2 * EPow P2 (EVar vMst2) * ((#2954 - #864 * EVar vlmMst1 + #1713 * EVar vlmMst2 - #849 * EVar vlmMt) * EPow
   P2 (EVar vMst1) * EPow P2 (EVar vMst2) + #27 * (#401 + #274 * EVar vlmMst2 - #2 * EVar vlmMst1 * (#71 + #2 * EVar
   vlmMst2 - #2 * EVar vlmMt) - #4 * (#33 + EVar vlmMst2) * EVar vlmMt + #4 * EPow P2 (EVar vlmMst2)) * EPow P4 (EVar
   vMst1) + #324 * EPow P4 (EVar vMst2)) - EVar vMgl * (#30870 * (#23941 + #30 * EVar vlmMst2 * (#667 - #10 * EVar
   vlmMt) - #30 * EVar vlmMst1 * (#347 + #10 * EVar vlmMst2 - #10 * EVar vlmMt) - #9600 * EVar vlmMt + #300 * EPow P2
   (EVar vlmMst2)) * EPow P2 (EVar vMst2) * EPow P4 (EVar vMst1) + #42875 * (#5567 - #2232 * EVar vlmMst1 - #2838 *
   EVar vlmMt + #6 * EVar vlmMst2 * (#917 + #36 * EVar vlmMt) - #108 * EPow P2 (EVar vlmMst2) - #108 * EPow P2 (EVar
   vlmMt)) * EPow P2 (EVar vMst1) * EPow P4 (EVar vMst2) + #24 * (#26331136 - #105 * EVar vlmMst1 * (#236317 + #35070
   * EVar vlmMst2 - #36750 * EVar vlmMt) + #210 * EVar vlmMst2 * (#175121 - #18375 * EVar vlmMt) - #11962125 * EVar
   vlmMt - #88200 * EPow P2 (EVar vlmMst1) + #3770550 * EPow P2 (EVar vlmMst2)) * EPow P6 (EVar vMst1) + #9261000 *
   (#1 + #2 * EVar vlmMst2) * EPow P6 (EVar vMst2))) - #4 * EPow P2 (EVar vMt) * EPow P2 (EVar vs2t) * (#9261000 *
   EVar vDmglst2 * EPow P2 (EVar vMst2) * (((#678 - #36 * EVar vlmMst1 + #36 * EVar vlmMst2) * EPow P2 (EVar vMst2) +
   #9 * (- #23 + #42 * EVar vlmMst1 - #42 * EVar vlmMst2) * EPow P2 (EVar vMuSUSY)) * EPow P4 (EVar vMst1) + #108 *
   (#2 * EPow P2 (EVar vMst2) + EPow P2 (EVar vMuSUSY)) * EPow P4 (EVar vMst2) + #12 * EPow P2 (EVar vMst1) * (#6 *
   (#4 + EVar vlmMst1 - EVar vlmMst2) * EPow P2 (EVar vMst2) * EPow P2 (EVar vMuSUSY) + #23 * EPow P4 (EVar vMst2)) +
   (#656 - #192 * EVar vlmMst1 + #192 * EVar vlmMst2) * EPow P6 (EVar vMst1)) - EVar vMgl * (#20580 * EPow P2 (EVar
   vMst2) * ((#2482 - #400 * EConst COepS2 + #90 * EVar vlmMst2 * (#443 - #90 * EConst CS2) + #90450 * EConst CS2 -
   #90 * EVar vlmMst1 * (#263 - #90 * (EVar vlmMst2 + EConst CS2)) - #4050 * (EPow P2 (EVar vlmMst1) + EPow P2 (EVar
   vlmMst2))) * EPow P2 (EVar vMst2) - (#45 * EVar vlmMst1 * (- #1547 + #180 * EVar vlmMst2 - #4500 * EConst CS2) +
   #45 * EVar vlmMst2 * (#1547 + #4500 * EConst CS2) + #2 * (- #106283 + #5000 * EConst COepS2 + #639225 * EConst CS2)
   + #4050 * EPow P2 (EVar vlmMst1) - #12150 * EPow P2 (EVar vlmMst2)) * EPow P2 (EVar vMuSUSY)) * EPow P4 (EVar
   vMst1) + #385875 * EPow P2 (EVar vMst1) * (#2 * (#3439 - #64 * EConst COepS2 + #8424 * EConst CS2 + #144 * EVar
   vlmMst1 * (#1 + #9 * EConst CS2) - #144 * EVar vlmMst2 * (#7 + #9 * EConst CS2)) * EPow P2 (EVar vMst2) + (#8771 -
   #128 * EConst COepS2 - #57024 * EConst CS2 - #72 * EVar vlmMst2 * (#23 + #36 * EConst CS2) + #72 * EVar vlmMst1 *
   (#29 - #12 * EVar vlmMst2 + #36 * EConst CS2) + #864 * EPow P2 (EVar vlmMst2)) * EPow P2 (EVar vMuSUSY)) * EPow P4
   (EVar vMst2) + #2 * ((#194011877 + #9604000 * EConst COepS2 - #319504500 * EConst CS2 + #1260 * EVar vlmMst2 *
   (#60437 + #154350 * EConst CS2) - #1260 * EVar vlmMst1 * (#60437 + #15120 * EVar vlmMst2 + #154350 * EConst CS2) +
   #9525600 * (EPow P2 (EVar vlmMst1) + EPow P2 (EVar vlmMst2))) * EPow P2 (EVar vMst2) + #5 * (#593331163 - #60642400
   * EConst COepS2 + #1260 * EVar vlmMst2 * (#8263 - #974610 * EConst CS2) + #1143733500 * EConst CS2 + #1260 * EVar
   vlmMst1 * (- #8263 + #71820 * EVar vlmMst2 + #974610 * EConst CS2) - #61916400 * EPow P2 (EVar vlmMst1) - #28576800
   * EPow P2 (EVar vlmMst2)) * EPow P2 (EVar vMuSUSY)) * EPow P6 (EVar vMst1) + #83349000 * (#1 + #2 * EVar vlmMst2) *
   (#2 * EPow P2 (EVar vMst2) + EPow P2 (EVar vMuSUSY)) * EPow P6 (EVar vMst2)))))) - #3087000 * EVar vMst2 * EVar
   vxDmglst2 * EPow P2 (EVar vDmglst2) * (EVar vTbeta * (- #1728 * EVar vs2t * EPow P2 (EVar vMst1) * ((#8 - #15 *
   EVar vlmMst1 + #15 * EVar vlmMst2) * EPow P2 (EVar vMst1) + (- #2 - #5 * EVar vlmMst1 + #5 * EVar vlmMst2) * EPow
   P2 (EVar vMst2)) * EPow P2 (EVar vMuSUSY) * EPow P3 (EVar vMt) + #18 * EVar vMst2 * EPow P2 (EVar vMt) * EPow P2
   (EVar vs2t) * (EPow P2 (EVar vMuSUSY) * (- #48 * (#4 + EVar vlmMst1 - EVar vlmMst2) * EPow P2 (EVar vMst1) * EPow
   P2 (EVar vMst2) + #6 * (#23 - #42 * EVar vlmMst1 + #42 * EVar vlmMst2) * EPow P4 (EVar vMst1) - #72 * EPow P4 (EVar
   vMst2)) - (- #1081 + #165 * EVar vlmMst1 - #165 * EVar vlmMst2) * (- #2 + EPow P2 (EVar vSbeta)) * EPow P4 (EVar
   vSbeta) * EPow P6 (EVar vMst1)) + EPow P2 (EVar vSbeta) * (- #216 * EVar vMt * EPow P2 (EVar vMst1) * EPow P2 (EVar
   vMst2) * EPow P3 (EVar vs2t) * (#4 * (#12 - #5 * EVar vlmMst1 + #5 * EVar vlmMst2) * EPow P2 (EVar vMst1) * EPow P2
   (EVar vMst2) + (#40 - #3 * EVar vlmMst1 + #3 * EVar vlmMst2) * EPow P4 (EVar vMst1) - #4 * (#2 + #5 * EVar vlmMst1
   - #5 * EVar vlmMst2) * EPow P4 (EVar vMst2)) + #48 * EVar vs2t * EPow P2 (EVar vMst1) * EPow P3 (EVar vMt) * (- #36
   * (#2 + #5 * EVar vlmMst1 - #5 * EVar vlmMst2) * EPow P2 (EVar vMst2) * EPow P2 (EVar vMuSUSY) + #36 * EPow P2
   (EVar vMst1) * (#8 * (#7 - #3 * EVar vlmMst1 + #6 * EVar vlmMst2 - #3 * EVar vlmMt) * EPow P2 (EVar vMst2) + (#8 -
   #15 * EVar vlmMst1 + #15 * EVar vlmMst2) * EPow P2 (EVar vMuSUSY)) + #9 * (#465 + #374 * EVar vlmMst2 - #4 * EVar
   vlmMst1 * (#52 + #3 * EVar vlmMst2 - #3 * EVar vlmMt) - #2 * (#83 + #6 * EVar vlmMst2) * EVar vlmMt + #12 * EPow P2
   (EVar vlmMst2)) * EPow P4 (EVar vMst1) + (#578 - #360 * EVar vlmMst1 + #708 * EVar vlmMst2 - #348 * EVar vlmMt) *
   EPow P4 (EVar vMst2)) - #16 * EVar vMst2 * ((#2954 - #864 * EVar vlmMst1 + #1713 * EVar vlmMst2 - #849 * EVar
   vlmMt) * EPow P2 (EVar vMst1) * EPow P2 (EVar vMst2) + #27 * (#401 + #274 * EVar vlmMst2 - #2 * EVar vlmMst1 * (#71
   + #2 * EVar vlmMst2 - #2 * EVar vlmMt) - #4 * (#33 + EVar vlmMst2) * EVar vlmMt + #4 * EPow P2 (EVar vlmMst2)) *
   EPow P4 (EVar vMst1) + #324 * EPow P4 (EVar vMst2)) * EPow P4 (EVar vMt) + #12 * EVar vMst2 * EPow P2 (EVar vMt) *
   EPow P2 (EVar vs2t) * (#3 * (#2 * (#113 - #6 * EVar vlmMst1 + #6 * EVar vlmMst2) * EPow P2 (EVar vMst2) + #3 * (-
   #23 + #42 * EVar vlmMst1 - #42 * EVar vlmMst2) * EPow P2 (EVar vMuSUSY)) * EPow P4 (EVar vMst1) + #108 * (#2 * EPow
   P2 (EVar vMst2) + EPow P2 (EVar vMuSUSY)) * EPow P4 (EVar vMst2) + #12 * EPow P2 (EVar vMst1) * (#6 * (#4 + EVar
   vlmMst1 - EVar vlmMst2) * EPow P2 (EVar vMst2) * EPow P2 (EVar vMuSUSY) + #23 * EPow P4 (EVar vMst2)) + #16 * (#41
   - #12 * EVar vlmMst1 + #12 * EVar vlmMst2) * EPow P6 (EVar vMst1)) - #3 * EPow P3 (EVar vMst2) * EPow P4 (EVar
   vs2t) * (#9 * (- #75 + #26 * EVar vlmMst1 - #26 * EVar vlmMst2) * EPow P2 (EVar vMst2) * EPow P4 (EVar vMst1) + #72
   * (#1 + EVar vlmMst1 - EVar vlmMst2) * EPow P2 (EVar vMst1) * EPow P4 (EVar vMst2) + (#76 - #249 * EVar vlmMst1 +
   #249 * EVar vlmMst2) * EPow P6 (EVar vMst1) + #108 * EPow P6 (EVar vMst2)))) + #12 * EVar vMt * EVar vMuSUSY * EPow
   P2 (EVar vSbeta) * (- #4 * EPow P2 (EVar vMst1) * EPow P2 (EVar vMst2) * (#246 * EVar vMst2 * EVar vs2t * EPow P2
   (EVar vMt) + #54 * (#2 + #5 * EVar vlmMst1 - #5 * EVar vlmMst2) * EVar vMt * EPow P2 (EVar vMst2) * EPow P2 (EVar
   vs2t) + #4 * (#101 - #90 * EVar vlmMst1 + #177 * EVar vlmMst2 - #87 * EVar vlmMt) * EPow P3 (EVar vMt) - #9 * (#5 +
   #2 * EVar vlmMst1 - #2 * EVar vlmMst2) * EPow P3 (EVar vMst2) * EPow P3 (EVar vs2t)) - (#36 * (#65 - #2 * EVar
   vlmMst1 + #2 * EVar vlmMst2) * EVar vMst2 * EVar vs2t * EPow P2 (EVar vMt) + #2160 * (- #1 + EVar vlmMst1 - EVar
   vlmMst2) * EVar vMt * EPow P2 (EVar vMst2) * EPow P2 (EVar vs2t) + #16 * (#497 - #306 * EVar vlmMst1 + #609 * EVar
   vlmMst2 - #303 * EVar vlmMt) * EPow P3 (EVar vMt) + #9 * (#55 - #34 * EVar vlmMst1 + #34 * EVar vlmMst2) * EPow P3
   (EVar vMst2) * EPow P3 (EVar vs2t)) * EPow P4 (EVar vMst1) + (#54 * (#80 - #43 * EVar vlmMst1 + #43 * EVar vlmMst2)
   * EVar vMt + (- #419 + #57 * EVar vlmMst1 - #57 * EVar vlmMst2) * EVar vMst2 * EVar vs2t) * EPow P2 (EVar vs2t) *
   EPow P6 (EVar vMst1) + #108 * (- #4 * EVar vs2t * EPow P2 (EVar vMt) * EPow P5 (EVar vMst2) + EPow P3 (EVar vs2t) *
   EPow P7 (EVar vMst2))))) + #308700 * EVar vMgl * EVar vxDR2DRMOD * EPow P2 (EVar vMsq) * (#4 * EVar vMuSUSY * EPow
   P2 (EVar vSbeta) * (- #1215 * EVar vMgl * EVar vshiftst1 * (EVar vDmsqst2 + EPow P2 (EVar vMsq)) * EPow P2 (EVar
   vMst1) * (#4 * EVar vs2t * (EPow P2 (EVar vMst1) - EPow P2 (EVar vMst2)) * EPow P3 (EVar vMt) - EVar vMt * EPow P3
   (EVar vs2t) * (#2 * (EVar vlmMst1 - EVar vlmMst2) * EPow P2 (EVar vMst1) * EPow P2 (EVar vMst2) + EPow P4 (EVar
   vMst1) - EPow P4 (EVar vMst2))) * EPow P5 (EVar vMst2) + #128 * EPow P2 (EVar vMsq) * EPow P2 (EVar vMst1) * EPow
   P4 (EVar vMt) * (#9 * (#1 + EVar vlmMst2) * EVar vMgl * ((#3 - #21 * EVar vlmMst2 + #2 * EVar vlmMst1 * (#8 + #3 *
   EVar vlmMst2 - #3 * EVar vlmMt) + #5 * EVar vlmMt + #6 * EVar vlmMst2 * EVar vlmMt - #6 * EPow P2 (EVar vlmMst2)) *
   EPow P2 (EVar vMst2) * EPow P4 (EVar vMst1) + (- #1 - #7 * EVar vlmMst2 + #2 * EVar vlmMst1 * (#2 + EVar vlmMst2 -
   EVar vlmMt) + #3 * EVar vlmMt + #2 * EVar vlmMst2 * EVar vlmMt - #2 * EPow P2 (EVar vlmMst2)) * EPow P2 (EVar
   vMst1) * EPow P4 (EVar vMst2) + (#12 - #45 * EVar vlmMst2 + #2 * EVar vlmMst1 * (#19 + #6 * EVar vlmMst2 - #6 *
   EVar vlmMt) + #7 * EVar vlmMt + #12 * EVar vlmMst2 * EVar vlmMt - #12 * EPow P2 (EVar vlmMst2)) * EPow P6 (EVar
   vMst1) - #2 * (#1 + EVar vlmMst2) * EPow P6 (EVar vMst2)) + EVar vDmglst2 * (EPow P2 (EVar vMst2) * (#263 + EVar
   vlmMst2 * (#962 - #213 * EVar vlmMt) - #177 * EVar vlmMt + (#393 - #18 * EVar vlmMt) * EPow P2 (EVar vlmMst2) - #18
   * EVar vlmMst1 * (#26 - EVar vlmMst2 * (- #17 + EVar vlmMt) - #7 * EVar vlmMt + EPow P2 (EVar vlmMst2)) + #18 *
   EPow P3 (EVar vlmMst2)) * EPow P4 (EVar vMst1) - EPow P2 (EVar vMst1) * (#17 * (- #7 + #3 * EVar vlmMt) + EVar
   vlmMst2 * (- #224 + #15 * EVar vlmMt) - #3 * (#5 + #6 * EVar vlmMt) * EPow P2 (EVar vlmMst2) - #18 * EVar vlmMst1 *
   (- #4 + EVar vlmMt - EVar vlmMst2 * (#1 + EVar vlmMt) + EPow P2 (EVar vlmMst2)) + #18 * EPow P3 (EVar vlmMst2)) *
   EPow P4 (EVar vMst2) + (#290 + EVar vlmMst2 * (#2447 - #645 * EVar vlmMt) - #375 * EVar vlmMt - #3 * (- #509 + #60
   * EVar vlmMt) * EPow P2 (EVar vlmMst2) - #18 * EVar vlmMst1 * (#87 + EVar vlmMst2 * (#71 - #10 * EVar vlmMt) - #22
   * EVar vlmMt + #10 * EPow P2 (EVar vlmMst2)) + #180 * EPow P3 (EVar vlmMst2)) * EPow P6 (EVar vMst1) - #18 * (- #1
   + #2 * EVar vlmMst2 + #3 * EPow P2 (EVar vlmMst2)) * EPow P6 (EVar vMst2))) - #864 * EPow P2 (EVar vMsq) * EPow P2
   (EVar vMst1) * EPow P2 (EVar vMst2) * EPow P2 (EVar vMt) * EPow P2 (EVar vs2t) * ((#1 + EVar vlmMst2) * EVar vMgl *
   (#2 * (#2 - #5 * EVar vlmMst2 + EVar vlmMst1 * (#5 + #2 * EVar vlmMst2) - #2 * EPow P2 (EVar vlmMst2)) * EPow P2
   (EVar vMst2) * EPow P4 (EVar vMst1) + #2 * (- #2 * EVar vlmMst2 * (#2 + EVar vlmMst2) + EVar vlmMst1 * (#3 + #2 *
   EVar vlmMst2)) * EPow P2 (EVar vMst1) * EPow P4 (EVar vMst2) + (#5 - #12 * EVar vlmMst2 + #4 * EVar vlmMst1 * (#3 +
   EVar vlmMst2) - #4 * EPow P2 (EVar vlmMst2)) * EPow P6 (EVar vMst1) - #2 * (#1 + EVar vlmMst2) * EPow P6 (EVar
   vMst2)) + EVar vDmglst2 * (#2 * EPow P2 (EVar vMst2) * (#8 + #19 * EVar vlmMst2 - #5 * EPow P2 (EVar vlmMst2) +
   EVar vlmMst1 * (- #7 + #5 * EVar vlmMst2 + #6 * EPow P2 (EVar vlmMst2)) - #6 * EPow P3 (EVar vlmMst2)) * EPow P4
   (EVar vMst1) + #2 * EPow P2 (EVar vMst1) * (#7 + #9 * EVar vlmMst2 - #8 * EPow P2 (EVar vlmMst2) + EVar vlmMst1 *
   (- #3 + #5 * EVar vlmMst2 + #6 * EPow P2 (EVar vlmMst2)) - #6 * EPow P3 (EVar vlmMst2)) * EPow P4 (EVar vMst2) +
   (#17 + #51 * EVar vlmMst2 - #4 * EPow P2 (EVar vlmMst2) + #4 * EVar vlmMst1 * (- #6 + EVar vlmMst2 + #3 * EPow P2
   (EVar vlmMst2)) - #12 * EPow P3 (EVar vlmMst2)) * EPow P6 (EVar vMst1) - #2 * (- #1 + #2 * EVar vlmMst2 + #3 * EPow
   P2 (EVar vlmMst2)) * EPow P6 (EVar vMst2))) - #9 * EVar vMt * EPow P3 (EVar vMst2) * EPow P3 (EVar vs2t) * (- #2 *
   EVar vDmglst2 * (EPow P2 (EVar vMst1) * EPow P2 (EVar vMst2) * (#4 * EPow P2 (EVar vMsq) * (#20 * EPow P2 (EVar
   vMst1) * EPow P2 (EVar vMst2) + #9 * EPow P4 (EVar vMst1) - #5 * EPow P4 (EVar vMst2)) + #15 * EVar vDmsqst2 *
   (EPow P4 (EVar vMst1) - EPow P4 (EVar vMst2))) - #30 * EVar vDmsqst2 * EVar vlmMst2 * EPow P4 (EVar vMst1) * EPow
   P4 (EVar vMst2) + EPow P4 (EVar vMst1) * (#30 * EVar vDmsqst2 * EVar vlmMst1 * EPow P4 (EVar vMst2) + EPow P2 (EVar
   vMsq) * (#32 * EVar vlmMst2 * EPow P2 (EVar vlmMst1) * (#8 * EPow P2 (EVar vMst1) * EPow P2 (EVar vMst2) + #8 *
   EPow P4 (EVar vMst1) + EPow P4 (EVar vMst2)) + #2 * EPow P3 (EVar vlmMst2) * (#128 * EPow P2 (EVar vMst1) * (EPow
   P2 (EVar vMst1) + EPow P2 (EVar vMst2)) + #107 * EPow P4 (EVar vMst2)))) + EPow P2 (EVar vMsq) * (- #2 * EVar
   vlmMst1 * ((- #4 + #246 * EVar vlmMst2 + #123 * EPow P2 (EVar vlmMst2)) * EPow P4 (EVar vMst1) * EPow P4 (EVar
   vMst2) + #16 * (#3 + #3 * EVar vlmMst2 + #16 * EPow P2 (EVar vlmMst2)) * EPow P2 (EVar vMst2) * EPow P6 (EVar
   vMst1) - #16 * EVar vlmMst2 * EPow P2 (EVar vMst1) * EPow P6 (EVar vMst2) + #16 * (#3 + #2 * EVar vlmMst2 + #16 *
   EPow P2 (EVar vlmMst2)) * EPow P8 (EVar vMst1)) + EPow P2 (EVar vlmMst2) * (#396 * EPow P4 (EVar vMst1) * EPow P4
   (EVar vMst2) + #37 * EPow P2 (EVar vMst2) * EPow P6 (EVar vMst1) + #155 * EPow P2 (EVar vMst1) * EPow P6 (EVar
   vMst2) + #64 * EPow P8 (EVar vMst1) - #32 * EPow P8 (EVar vMst2))) + #2 * EVar vlmMst2 * EPow P2 (EVar vMsq) * (#4
   * EPow P4 (EVar vMst1) * EPow P4 (EVar vMst2) + #21 * EPow P2 (EVar vMst2) * EPow P6 (EVar vMst1) + #115 * EPow P2
   (EVar vMst1) * EPow P6 (EVar vMst2) + #56 * EPow P8 (EVar vMst1) - #16 * EPow P8 (EVar vMst2))) + EVar vMgl * (#75
   * EVar vDmsqst2 * EPow P2 (EVar vMst1) * EPow P2 (EVar vMst2) * (#2 * (EVar vlmMst1 - EVar vlmMst2) * EPow P2 (EVar
   vMst1) * EPow P2 (EVar vMst2) + EPow P4 (EVar vMst1) - EPow P4 (EVar vMst2)) - EPow P2 (EVar vMsq) * (#2 * (- #8 +
   #237 * EVar vlmMst2 + #16 * (#1 + EVar vlmMst2) * EPow P2 (EVar vlmMst1) + #308 * EPow P2 (EVar vlmMst2) - EVar
   vlmMst1 * (#269 + #348 * EVar vlmMst2 + #123 * EPow P2 (EVar vlmMst2)) + #107 * EPow P3 (EVar vlmMst2)) * EPow P4
   (EVar vMst1) * EPow P4 (EVar vMst2) + EPow P2 (EVar vMst2) * (- #125 - #156 * EVar vlmMst2 - #512 * EVar vlmMst1 *
   EVar vlmMst2 * (#1 + EVar vlmMst2) + #256 * (#1 + EVar vlmMst2) * EPow P2 (EVar vlmMst1) + #181 * EPow P2 (EVar
   vlmMst2) + #256 * EPow P3 (EVar vlmMst2)) * EPow P6 (EVar vMst1) + (#221 + #284 * EVar vlmMst2 + #32 * EVar vlmMst1
   * (#1 + EVar vlmMst2) + #107 * EPow P2 (EVar vlmMst2)) * EPow P2 (EVar vMst1) * EPow P6 (EVar vMst2) + #16 * (#1 +
   EVar vlmMst2) * (#1 + EVar vlmMst1 * (#2 - #32 * EVar vlmMst2) - #2 * EVar vlmMst2 + #16 * EPow P2 (EVar vlmMst1) +
   #16 * EPow P2 (EVar vlmMst2)) * EPow P8 (EVar vMst1) - #16 * EPow P2 (#1 + EVar vlmMst2) * EPow P8 (EVar vMst2))))
   - #12 * EVar vMst2 * EVar vs2t * EPow P3 (EVar vMt) * (#45 * EVar vDmsqst2 * (#2 * EVar vDmglst2 - #5 * EVar vMgl)
   * EPow P2 (EVar vMst1) * (EPow P2 (EVar vMst1) - EPow P2 (EVar vMst2)) * EPow P4 (EVar vMst2) + EPow P2 (EVar vMsq)
   * (- #2 * EVar vDmglst2 * ((#52 + #370 * EVar vlmMst2 - #96 * EVar vlmMst2 * EPow P2 (EVar vlmMst1) + #81 * EPow P2
   (EVar vlmMst2) + #96 * EVar vlmMst1 * (- #1 + EVar vlmMst2 + #2 * EPow P2 (EVar vlmMst2)) - #96 * EPow P3 (EVar
   vlmMst2)) * EPow P4 (EVar vMst1) * EPow P4 (EVar vMst2) - #96 * (EVar vlmMst2 * EPow P2 (EVar vlmMst1) + EVar
   vlmMst1 * (#4 + #2 * EVar vlmMst2 - #2 * EPow P2 (EVar vlmMst2)) + (- #4 + EVar vlmMst2) * EPow P2 (#1 + EVar
   vlmMst2)) * EPow P2 (EVar vMst2) * EPow P6 (EVar vMst1) - #3 * (- #52 + #2 * (#51 + #16 * EVar vlmMst1) * EVar
   vlmMst2 + #59 * EPow P2 (EVar vlmMst2)) * EPow P2 (EVar vMst1) * EPow P6 (EVar vMst2) - #96 * (- #6 - #14 * EVar
   vlmMst2 + EVar vlmMst2 * EPow P2 (EVar vlmMst1) + EVar vlmMst1 * (#9 + #6 * EVar vlmMst2 - #2 * EPow P2 (EVar
   vlmMst2)) - #6 * EPow P2 (EVar vlmMst2) + EPow P3 (EVar vlmMst2)) * EPow P8 (EVar vMst1) + #96 * EVar vlmMst2 * (#1
   + EVar vlmMst2) * EPow P8 (EVar vMst2)) + #3 * EVar vMgl * (- ((#109 + #76 * EVar vlmMst2 - #21 * EPow P2 (EVar
   vlmMst2) + #64 * EVar vlmMst1 * EPow P2 (#1 + EVar vlmMst2) - #32 * ((#1 + EVar vlmMst2) * EPow P2 (EVar vlmMst1) +
   EPow P3 (EVar vlmMst2))) * EPow P4 (EVar vMst1) * EPow P4 (EVar vMst2)) + (#173 + #188 * EVar vlmMst2 + #32 * EVar
   vlmMst1 * (#1 + EVar vlmMst2) + #59 * EPow P2 (EVar vlmMst2)) * EPow P2 (EVar vMst1) * EPow P6 (EVar vMst2) + #32 *
   (#1 + EVar vlmMst2) * (EPow P2 (#1 - EVar vlmMst1 + EVar vlmMst2) * EPow P2 (EVar vMst2) * EPow P6 (EVar vMst1) +
   (#1 + #3 * EVar vlmMst2 - EVar vlmMst1 * (#3 + #2 * EVar vlmMst2) + EPow P2 (EVar vlmMst1) + EPow P2 (EVar
   vlmMst2)) * EPow P8 (EVar vMst1)) - #16 * EPow P2 (#1 + EVar vlmMst2) * EPow P8 (EVar vMst2))))) + EVar vTbeta *
   (#1215 * EVar vMgl * EVar vMst2 * EVar vshiftst1 * (EVar vDmsqst2 + EPow P2 (EVar vMsq)) * EPow P2 (EVar vMst1) *
   (#4 * EPow P2 (EVar vMt) * EPow P2 (EVar vMuSUSY) * EPow P2 (EVar vs2t) * (EPow P2 (EVar vMst1) * EPow P4 (EVar
   vMst2) - #2 * (EVar vlmMst1 - EVar vlmMst2) * EPow P2 (EVar vMst1) * (EPow P2 (EVar vMst1) * EPow P2 (EVar vMst2) +
   EPow P4 (EVar vMst1) + EPow P4 (EVar vMst2)) + EPow P6 (EVar vMst2)) + EPow P2 (EVar vSbeta) * (#16 * (EPow P2
   (EVar vMst1) + EPow P2 (EVar vMst2)) * EPow P4 (EVar vMst2) * EPow P4 (EVar vMt) + (EPow P2 (EVar vMst1) - EPow P2
   (EVar vMst2)) * (#2 * (EVar vlmMst1 - EVar vlmMst2) * EPow P2 (EVar vMst1) * EPow P2 (EVar vMst2) + EPow P4 (EVar
   vMst1) - EPow P4 (EVar vMst2)) * EPow P4 (EVar vMst2) * EPow P4 (EVar vs2t) - #4 * EPow P2 (EVar vMt) * EPow P2
   (EVar vs2t) * (#2 * EPow P4 (EVar vMst1) * EPow P4 (EVar vMst2) - #4 * EPow P2 (EVar vMst1) * EPow P6 (EVar vMst2)
   + EPow P2 (EVar vMuSUSY) * (EPow P2 (EVar vMst1) * EPow P4 (EVar vMst2) - #2 * (EVar vlmMst1 - EVar vlmMst2) * EPow
   P2 (EVar vMst1) * (EPow P2 (EVar vMst1) * EPow P2 (EVar vMst2) + EPow P4 (EVar vMst1) + EPow P4 (EVar vMst2)) +
   EPow P6 (EVar vMst2)) + #2 * EPow P8 (EVar vMst2)))) - #36 * EVar vs2t * EPow P2 (EVar vMt) * EPow P2 (EVar
   vMuSUSY) * (EVar vDmsqst2 * EVar vs2t * EPow P2 (EVar vMst1) * (- #30 * EVar vDmglst2 * (EPow P2 (EVar vMst1) +
   EPow P2 (EVar vMst2)) * (- #2 * EVar vlmMst1 * EPow P2 (EVar vMst1) + #2 * EVar vlmMst2 * EPow P2 (EVar vMst1) +
   EPow P2 (EVar vMst2)) * EPow P3 (EVar vMst2) + #75 * EVar vMgl * EVar vMst2 * ((EPow P2 (EVar vMst1) + EPow P2
   (EVar vMst2)) * EPow P4 (EVar vMst2) - #2 * (EVar vlmMst1 - EVar vlmMst2) * EPow P2 (EVar vMst1) * (EPow P2 (EVar
   vMst1) * EPow P2 (EVar vMst2) + EPow P4 (EVar vMst1) + EPow P4 (EVar vMst2)))) + EPow P2 (EVar vMsq) * (- #2 * EVar
   vDmglst2 * ((#64 * EVar vMt * (#8 + #7 * EVar vlmMst2 - #11 * EPow P2 (EVar vlmMst2) + EVar vlmMst1 * (- #3 + #5 *
   EVar vlmMst2 + #6 * EPow P2 (EVar vlmMst2)) - #6 * EPow P3 (EVar vlmMst2)) - EVar vMst2 * EVar vs2t * (#60 + #206 *
   EVar vlmMst2 + #32 * EVar vlmMst2 * EPow P2 (EVar vlmMst1) + EVar vlmMst1 * (#8 - #460 * EVar vlmMst2 - #246 * EPow
   P2 (EVar vlmMst2)) + #519 * EPow P2 (EVar vlmMst2) + #214 * EPow P3 (EVar vlmMst2))) * EPow P4 (EVar vMst1) * EPow
   P4 (EVar vMst2) + (- #64 * EVar vMt * (- #1 + #2 * EVar vlmMst2 + #3 * EPow P2 (EVar vlmMst2)) - EVar vMst2 * EVar
   vs2t * (- #20 + #2 * (#99 + #16 * EVar vlmMst1) * EVar vlmMst2 + #123 * EPow P2 (EVar vlmMst2))) * EPow P2 (EVar
   vMst1) * EPow P6 (EVar vMst2) + #2 * (EPow P2 (EVar vMst2) * (#64 * EVar vMt * (#8 + #13 * EVar vlmMst2 - #8 * EPow
   P2 (EVar vlmMst2) + EVar vlmMst1 * (- #5 + #5 * EVar vlmMst2 + #6 * EPow P2 (EVar vlmMst2)) - #6 * EPow P3 (EVar
   vlmMst2)) - EVar vMst2 * EVar vs2t * (#48 + #4 * EVar vlmMst2 * (#31 + #36 * EPow P2 (EVar vlmMst1)) + #278 * EPow
   P2 (EVar vlmMst2) - EVar vlmMst1 * (#44 + #278 * EVar vlmMst2 + #379 * EPow P2 (EVar vlmMst2)) + #235 * EPow P3
   (EVar vlmMst2))) * EPow P6 (EVar vMst1) + (#16 * EVar vMt * (#49 + #103 * EVar vlmMst2 - #36 * (#1 + EVar vlmMst2)
   * EPow P2 (EVar vlmMst2) + #4 * EVar vlmMst1 * (- #11 + #6 * EVar vlmMst2 + #9 * EPow P2 (EVar vlmMst2))) - EVar
   vMst2 * EVar vs2t * (#48 + #4 * EVar vlmMst2 * (#45 + #68 * EPow P2 (EVar vlmMst1)) + #310 * EPow P2 (EVar vlmMst2)
   - EVar vlmMst1 * (#92 + #310 * EVar vlmMst2 + #635 * EPow P2 (EVar vlmMst2)) + #363 * EPow P3 (EVar vlmMst2))) *
   EPow P8 (EVar vMst1)) + #32 * EVar vlmMst2 * (#1 + EVar vlmMst2) * EVar vs2t * EPow P9 (EVar vMst2)) + EVar vMgl *
   ((#128 * (#1 + EVar vlmMst2) * EVar vMt * (#1 + #5 * EVar vlmMst2 - EVar vlmMst1 * (#3 + #2 * EVar vlmMst2) + #2 *
   EPow P2 (EVar vlmMst2)) + EVar vMst2 * EVar vs2t * (#189 + #726 * EVar vlmMst2 + #32 * (#1 + EVar vlmMst2) * EPow
   P2 (EVar vlmMst1) + #707 * EPow P2 (EVar vlmMst2) - #2 * EVar vlmMst1 * (#253 + #332 * EVar vlmMst2 + #123 * EPow
   P2 (EVar vlmMst2)) + #214 * EPow P3 (EVar vlmMst2))) * EPow P4 (EVar vMst1) * EPow P4 (EVar vMst2) + (EVar vMst2 *
   EVar vs2t * (#205 + #252 * EVar vlmMst2 + #32 * EVar vlmMst1 * (#1 + EVar vlmMst2) + #91 * EPow P2 (EVar vlmMst2))
   + #128 * EVar vMt * EPow P2 (#1 + EVar vlmMst2)) * EPow P2 (EVar vMst1) * EPow P6 (EVar vMst2) - #2 * (EPow P2
   (EVar vMst2) * (#64 * (#1 + EVar vlmMst2) * EVar vMt * (#1 - #10 * EVar vlmMst2 + #4 * EVar vlmMst1 * (#2 + EVar
   vlmMst2) - #4 * EPow P2 (EVar vlmMst2)) - EVar vMst2 * EVar vs2t * (#32 + #285 * EVar vlmMst2 + #144 * (#1 + EVar
   vlmMst2) * EPow P2 (EVar vlmMst1) + #444 * EPow P2 (EVar vlmMst2) - EVar vlmMst1 * (#253 + #588 * EVar vlmMst2 +
   #379 * EPow P2 (EVar vlmMst2)) + #235 * EPow P3 (EVar vlmMst2))) * EPow P6 (EVar vMst1) + (#32 * (#1 + EVar
   vlmMst2) * EVar vMt * (#7 - #32 * EVar vlmMst2 + #4 * EVar vlmMst1 * (#7 + #3 * EVar vlmMst2) - #12 * EPow P2 (EVar
   vlmMst2)) - EVar vMst2 * EVar vs2t * (#40 + #277 * EVar vlmMst2 + #272 * (#1 + EVar vlmMst2) * EPow P2 (EVar
   vlmMst1) + #556 * EPow P2 (EVar vlmMst2) - EVar vlmMst1 * (#237 + #828 * EVar vlmMst2 + #635 * EPow P2 (EVar
   vlmMst2)) + #363 * EPow P3 (EVar vlmMst2))) * EPow P8 (EVar vMst1)) - #16 * EVar vs2t * EPow P2 (#1 + EVar vlmMst2)
   * EPow P9 (EVar vMst2)))) + EPow P2 (EVar vSbeta) * (#256 * EVar vs2t * EPow P2 (EVar vMsq) * EPow P2 (EVar vMst1)
   * EPow P3 (EVar vMt) * (#9 * (#1 + EVar vlmMst2) * EVar vMgl * (- #2 * EPow P2 (EVar vMst2) * ((#3 + #2 * EVar
   vlmMst1 * (#7 + #2 * EVar vlmMst2 - #2 * EVar vlmMt) + #4 * EVar vlmMst2 * (- #4 + EVar vlmMt) + #2 * EVar vlmMt -
   #4 * EPow P2 (EVar vlmMst2)) * EPow P2 (EVar vMst2) + (#1 - #10 * EVar vlmMst2 + #4 * EVar vlmMst1 * (#2 + EVar
   vlmMst2) - #4 * EPow P2 (EVar vlmMst2)) * EPow P2 (EVar vMuSUSY)) * EPow P4 (EVar vMst1) + EPow P2 (EVar vMst1) *
   ((#1 - #2 * EVar vlmMst1 * (#5 + #2 * EVar vlmMst2 - #2 * EVar vlmMt) - #4 * EVar vlmMst2 * (- #3 + EVar vlmMt) -
   #6 * EVar vlmMt + #4 * EPow P2 (EVar vlmMst2)) * EPow P2 (EVar vMst2) + #2 * (#1 + #5 * EVar vlmMst2 - EVar vlmMst1
   * (#3 + #2 * EVar vlmMst2) + #2 * EPow P2 (EVar vlmMst2)) * EPow P2 (EVar vMuSUSY)) * EPow P4 (EVar vMst2) - (#2 *
   (#8 - #27 * EVar vlmMst2 + EVar vlmMst1 * (#25 + #6 * EVar vlmMst2 - #6 * EVar vlmMt) + #2 * EVar vlmMt + #6 * EVar
   vlmMst2 * EVar vlmMt - #6 * EPow P2 (EVar vlmMst2)) * EPow P2 (EVar vMst2) + (#7 - #32 * EVar vlmMst2 + #4 * EVar
   vlmMst1 * (#7 + #3 * EVar vlmMst2) - #12 * EPow P2 (EVar vlmMst2)) * EPow P2 (EVar vMuSUSY)) * EPow P6 (EVar vMst1)
   + #2 * (#1 + EVar vlmMst2) * (#2 * EPow P2 (EVar vMst2) + EPow P2 (EVar vMuSUSY)) * EPow P6 (EVar vMst2)) - EVar
   vDmglst2 * (EPow P2 (EVar vMst1) * (EPow P2 (EVar vMst2) * (#253 + #5 * EVar vlmMst2 * (#107 - #6 * EVar vlmMt) -
   #102 * EVar vlmMt - #18 * EVar vlmMst1 * (#9 + EVar vlmMst2 - #2 * EVar vlmMt + #2 * EVar vlmMst2 * EVar vlmMt - #2
   * EPow P2 (EVar vlmMst2)) + #12 * (#10 + #3 * EVar vlmMt) * EPow P2 (EVar vlmMst2) - #36 * EPow P3 (EVar vlmMst2))
   + #18 * EPow P2 (EVar vMuSUSY) * (#8 + #7 * EVar vlmMst2 - #11 * EPow P2 (EVar vlmMst2) + EVar vlmMst1 * (- #3 + #5
   * EVar vlmMst2 + #6 * EPow P2 (EVar vlmMst2)) - #6 * EPow P3 (EVar vlmMst2))) * EPow P4 (EVar vMst2) + #9 * ((#49 +
   #103 * EVar vlmMst2 - #36 * (#1 + EVar vlmMst2) * EPow P2 (EVar vlmMst2) + #4 * EVar vlmMst1 * (- #11 + #6 * EVar
   vlmMst2 + #9 * EPow P2 (EVar vlmMst2))) * EPow P2 (EVar vMuSUSY) + EPow P2 (EVar vMst2) * (#28 + EVar vlmMst2 *
   (#378 - #96 * EVar vlmMt) - #44 * EVar vlmMt + EVar vlmMst1 * (- #274 + #60 * EVar vlmMt + #18 * EVar vlmMst2 * (-
   #13 + #2 * EVar vlmMt) - #36 * EPow P2 (EVar vlmMst2)) + (#270 - #36 * EVar vlmMt) * EPow P2 (EVar vlmMst2) + #36 *
   EPow P3 (EVar vlmMst2))) * EPow P6 (EVar vMst1) + #18 * (EPow P2 (EVar vMst2) * (#2 * EPow P2 (EVar vMuSUSY) * (#8
   + #13 * EVar vlmMst2 - #8 * EPow P2 (EVar vlmMst2) + EVar vlmMst1 * (- #5 + #5 * EVar vlmMst2 + #6 * EPow P2 (EVar
   vlmMst2)) - #6 * EPow P3 (EVar vlmMst2)) + EPow P2 (EVar vMst2) * (#23 + EVar vlmMst2 * (#93 - #22 * EVar vlmMt) -
   #14 * EVar vlmMt - #4 * (- #11 + EVar vlmMt) * EPow P2 (EVar vlmMst2) - #2 * EVar vlmMst1 * (#25 + EVar vlmMst2 *
   (#17 - #2 * EVar vlmMt) - #6 * EVar vlmMt + #2 * EPow P2 (EVar vlmMst2)) + #4 * EPow P3 (EVar vlmMst2))) * EPow P4
   (EVar vMst1) + (#1 - #2 * EVar vlmMst2 - #3 * EPow P2 (EVar vlmMst2)) * (#2 * EPow P2 (EVar vMst2) + EPow P2 (EVar
   vMuSUSY)) * EPow P6 (EVar vMst2)))) + #9 * EPow P2 (EVar vMst1) * EPow P3 (EVar vs2t) * EPow P4 (EVar vMst2) *
   (#128 * EVar vMt * EPow P2 (EVar vMsq) * ((#1 + EVar vlmMst2) * EVar vMgl * (#2 * (#2 + #2 * EVar vlmMst1 - EVar
   vlmMst2) * EPow P2 (EVar vMst2) * EPow P4 (EVar vMst1) + #2 * (#1 - #3 * EVar vlmMst2 + EVar vlmMst1 * (#3 + #2 *
   EVar vlmMst2) - #2 * EPow P2 (EVar vlmMst2)) * EPow P2 (EVar vMst1) * EPow P4 (EVar vMst2) + (#1 + #2 * EVar
   vlmMst1 - #2 * EVar vlmMst2) * EPow P6 (EVar vMst1) - #2 * (#1 + EVar vlmMst2) * EPow P6 (EVar vMst2)) + EVar
   vDmglst2 * (#2 * (#1 - #4 * EVar vlmMst1 + #10 * EVar vlmMst2 + #3 * EPow P2 (EVar vlmMst2)) * EPow P2 (EVar vMst2)
   * EPow P4 (EVar vMst1) + #2 * EPow P2 (EVar vMst1) * (#6 + #11 * EVar vlmMst2 - #5 * EPow P2 (EVar vlmMst2) + EVar
   vlmMst1 * (- #3 + #5 * EVar vlmMst2 + #6 * EPow P2 (EVar vlmMst2)) - #6 * EPow P3 (EVar vlmMst2)) * EPow P4 (EVar
   vMst2) + (#1 + #13 * EVar vlmMst2 - #2 * EVar vlmMst1 * (#5 + #3 * EVar vlmMst2) + #6 * EPow P2 (EVar vlmMst2)) *
   EPow P6 (EVar vMst1) - #2 * (- #1 + #2 * EVar vlmMst2 + #3 * EPow P2 (EVar vlmMst2)) * EPow P6 (EVar vMst2))) +
   EVar vMst2 * EVar vs2t * (EVar vDmsqst2 * (#30 * EVar vDmglst2 - #75 * EVar vMgl) * (EPow P2 (EVar vMst1) - EPow P2
   (EVar vMst2)) * (#2 * (EVar vlmMst1 - EVar vlmMst2) * EPow P2 (EVar vMst1) * EPow P2 (EVar vMst2) + EPow P4 (EVar
   vMst1) - EPow P4 (EVar vMst2)) + EPow P2 (EVar vMsq) * (- (EVar vMgl * (EPow P2 (EVar vMst2) * (- #109 - #630 *
   EVar vlmMst2 + #224 * (#1 + EVar vlmMst2) * EPow P2 (EVar vlmMst1) + EVar vlmMst1 * (#538 + #184 * EVar vlmMst2 -
   #266 * EPow P2 (EVar vlmMst2)) - #435 * EPow P2 (EVar vlmMst2) + #42 * EPow P3 (EVar vlmMst2)) * EPow P4 (EVar
   vMst1) + EPow P2 (EVar vMst1) * (- #237 + #190 * EVar vlmMst2 + #32 * (#1 + EVar vlmMst2) * EPow P2 (EVar vlmMst1)
   + #509 * EPow P2 (EVar vlmMst2) - #2 * EVar vlmMst1 * (#285 + #364 * EVar vlmMst2 + #123 * EPow P2 (EVar vlmMst2))
   + #214 * EPow P3 (EVar vlmMst2)) * EPow P4 (EVar vMst2) + (#141 + #140 * EVar vlmMst2 + #32 * EVar vlmMst1 * (#1 +
   EVar vlmMst2) + #43 * EPow P2 (EVar vlmMst2)) * EPow P6 (EVar vMst1) + (#237 + #316 * EVar vlmMst2 + #32 * EVar
   vlmMst1 * (#1 + EVar vlmMst2) + #123 * EPow P2 (EVar vlmMst2)) * EPow P6 (EVar vMst2))) - #2 * EVar vDmglst2 *
   (EPow P2 (EVar vMst2) * (- #44 + #34 * EVar vlmMst2 + #224 * EVar vlmMst2 * EPow P2 (EVar vlmMst1) - #359 * EPow P2
   (EVar vlmMst2) - #2 * EVar vlmMst1 * (#52 - #198 * EVar vlmMst2 + #133 * EPow P2 (EVar vlmMst2)) + #42 * EPow P3
   (EVar vlmMst2)) * EPow P4 (EVar vMst1) + EPow P2 (EVar vMst1) * (#100 - #222 * EVar vlmMst2 + #32 * EVar vlmMst2 *
   EPow P2 (EVar vlmMst1) + EVar vlmMst1 * (#8 - #524 * EVar vlmMst2 - #246 * EPow P2 (EVar vlmMst2)) + #241 * EPow P2
   (EVar vlmMst2) + #214 * EPow P3 (EVar vlmMst2)) * EPow P4 (EVar vMst2) + (- #36 + (#70 + #32 * EVar vlmMst1) * EVar
   vlmMst2 + #27 * EPow P2 (EVar vlmMst2)) * EPow P6 (EVar vMst1) + (- #20 + (#262 + #32 * EVar vlmMst1) * EVar
   vlmMst2 + #187 * EPow P2 (EVar vlmMst2)) * EPow P6 (EVar vMst2))))) + #16 * EVar vMst2 * EPow P4 (EVar vMt) * (#135
   * EVar vDmsqst2 * (#2 * EVar vDmglst2 - #5 * EVar vMgl) * EPow P2 (EVar vMst1) * (EPow P2 (EVar vMst1) + EPow P2
   (EVar vMst2)) * EPow P4 (EVar vMst2) + EPow P2 (EVar vMsq) * (#2 * EVar vDmglst2 * ((#4220 + EVar vlmMst2 * (#6114
   - #1296 * EVar vlmMt) - #576 * EVar vlmMst1 * (#4 + #2 * EVar vlmMst2 - EVar vlmMt) - #1392 * EVar vlmMt + #1341 *
   EPow P2 (EVar vlmMst2)) * EPow P4 (EVar vMst1) * EPow P4 (EVar vMst2) - #9 * (- #84 + (#70 + #32 * EVar vlmMst1) *
   EVar vlmMst2 + #59 * EPow P2 (EVar vlmMst2)) * EPow P2 (EVar vMst1) * EPow P6 (EVar vMst2) + #288 * (EPow P2 (EVar
   vMst2) * (#31 + EVar vlmMst2 * (#95 - #23 * EVar vlmMt) - #16 * EVar vlmMt + (#51 - #6 * EVar vlmMt) * EPow P2
   (EVar vlmMst2) - #2 * EVar vlmMst1 * (#25 + EVar vlmMst2 * (#20 - #3 * EVar vlmMt) - #6 * EVar vlmMt + #3 * EPow P2
   (EVar vlmMst2)) + #6 * EPow P3 (EVar vlmMst2)) * EPow P6 (EVar vMst1) + (#42 + EVar vlmMst2 * (#242 - #62 * EVar
   vlmMt) - #33 * EVar vlmMt + #6 * (#29 - #4 * EVar vlmMt) * EPow P2 (EVar vlmMst2) - #2 * EVar vlmMst1 * (#81 + EVar
   vlmMst2 * (#74 - #12 * EVar vlmMt) - #18 * EVar vlmMt + #12 * EPow P2 (EVar vlmMst2)) + #24 * EPow P3 (EVar
   vlmMst2)) * EPow P8 (EVar vMst1)) + #288 * EVar vlmMst2 * (#1 + EVar vlmMst2) * EPow P8 (EVar vMst2)) + EVar vMgl *
   (- ((#2117 + EVar vlmMst2 * (#4796 - #1248 * EVar vlmMt) - #576 * EVar vlmMst1 * (#1 + EVar vlmMst2) * (#3 + EVar
   vlmMst2 - EVar vlmMt) - #672 * EVar vlmMt + (#3651 - #576 * EVar vlmMt) * EPow P2 (EVar vlmMst2) + #576 * EPow P3
   (EVar vlmMst2)) * EPow P4 (EVar vMst1) * EPow P4 (EVar vMst2)) + #288 * (#1 + EVar vlmMst2) * ((#5 - #57 * EVar
   vlmMst2 + #2 * EVar vlmMst1 * (#25 + #6 * EVar vlmMst2 - #6 * EVar vlmMt) + #7 * EVar vlmMt + #12 * EVar vlmMst2 *
   EVar vlmMt - #12 * EPow P2 (EVar vlmMst2)) * EPow P2 (EVar vMst1) + (- #2 - #27 * EVar vlmMst2 + EVar vlmMst1 *
   (#22 + #6 * EVar vlmMst2 - #6 * EVar vlmMt) + #5 * EVar vlmMt + #6 * EVar vlmMst2 * EVar vlmMt - #6 * EPow P2 (EVar
   vlmMst2)) * EPow P2 (EVar vMst2)) * EPow P6 (EVar vMst1) - #9 * (#173 + #188 * EVar vlmMst2 + #32 * EVar vlmMst1 *
   (#1 + EVar vlmMst2) + #59 * EPow P2 (EVar vlmMst2)) * EPow P2 (EVar vMst1) * EPow P6 (EVar vMst2) + #144 * EPow P2
   (#1 + EVar vlmMst2) * EPow P8 (EVar vMst2)))) - #12 * EVar vMst2 * EPow P2 (EVar vMt) * EPow P2 (EVar vs2t) * (#2 *
   EVar vDmglst2 * (#45 * EVar vDmsqst2 * EPow P2 (EVar vMst1) * EPow P2 (EVar vMst2) * (#2 * (EPow P2 (EVar vMst2) +
   (- EVar vlmMst1 + EVar vlmMst2) * EPow P2 (EVar vMuSUSY)) * EPow P4 (EVar vMst1) + EPow P2 (EVar vMst1) * ((#1 - #2
   * EVar vlmMst1 + #2 * EVar vlmMst2) * EPow P2 (EVar vMst2) * EPow P2 (EVar vMuSUSY) - #4 * EPow P4 (EVar vMst2)) +
   (#2 * EPow P2 (EVar vMst2) + EPow P2 (EVar vMuSUSY)) * EPow P4 (EVar vMst2)) + EPow P2 (EVar vMsq) * (#2 * (- #3 *
   EPow P2 (EVar vMst2) * EPow P2 (EVar vMuSUSY) * (#48 + #4 * EVar vlmMst2 * (#31 + #36 * EPow P2 (EVar vlmMst1)) +
   #278 * EPow P2 (EVar vlmMst2) - EVar vlmMst1 * (#44 + #278 * EVar vlmMst2 + #379 * EPow P2 (EVar vlmMst2)) + #235 *
   EPow P3 (EVar vlmMst2)) + (#332 + #302 * EVar vlmMst2 - #288 * EVar vlmMst1 * (#1 + EVar vlmMst2) + #111 * EPow P2
   (EVar vlmMst2)) * EPow P4 (EVar vMst2)) * EPow P6 (EVar vMst1) - EPow P4 (EVar vMst1) * (#3 * EPow P2 (EVar
   vMuSUSY) * (#60 + #206 * EVar vlmMst2 + #32 * EVar vlmMst2 * EPow P2 (EVar vlmMst1) + EVar vlmMst1 * (#8 - #460 *
   EVar vlmMst2 - #246 * EPow P2 (EVar vlmMst2)) + #519 * EPow P2 (EVar vlmMst2) + #214 * EPow P3 (EVar vlmMst2)) *
   EPow P4 (EVar vMst2) + #4 * (#52 + EVar vlmMst2 * (- #338 + #48 * EPow P2 (EVar vlmMst1)) - #129 * EPow P2 (EVar
   vlmMst2) + #48 * (EVar vlmMst1 - #2 * EVar vlmMst1 * EVar vlmMst2 * (#1 + EVar vlmMst2) + EPow P3 (EVar vlmMst2)))
   * EPow P6 (EVar vMst2)) + #6 * (#32 * (#2 + #7 * EVar vlmMst2 - EVar vlmMst1 * (#5 + #4 * EVar vlmMst2) + #4 * EPow
   P2 (EVar vlmMst2)) * EPow P2 (EVar vMst2) - EPow P2 (EVar vMuSUSY) * (#48 + #4 * EVar vlmMst2 * (#45 + #68 * EPow
   P2 (EVar vlmMst1)) + #310 * EPow P2 (EVar vlmMst2) - EVar vlmMst1 * (#92 + #310 * EVar vlmMst2 + #635 * EPow P2
   (EVar vlmMst2)) + #363 * EPow P3 (EVar vlmMst2))) * EPow P8 (EVar vMst1) + #96 * EVar vlmMst2 * (#1 + EVar vlmMst2)
   * (#2 * EPow P2 (EVar vMst2) + EPow P2 (EVar vMuSUSY)) * EPow P8 (EVar vMst2) + #3 * EPow P2 (EVar vMst1) * (- ((-
   #20 + #2 * (#99 + #16 * EVar vlmMst1) * EVar vlmMst2 + #123 * EPow P2 (EVar vlmMst2)) * EPow P2 (EVar vMuSUSY) *
   EPow P6 (EVar vMst2)) - #2 * (- #52 + #2 * (#67 + #16 * EVar vlmMst1) * EVar vlmMst2 + #91 * EPow P2 (EVar
   vlmMst2)) * EPow P8 (EVar vMst2)))) - #3 * EVar vMgl * (#6 * (#25 * EVar vDmsqst2 + #47 * EPow P2 (EVar vMsq)) *
   EPow P4 (EVar vMst2) * EPow P6 (EVar vMst1) - #12 * (#25 * EVar vDmsqst2 + #47 * EPow P2 (EVar vMsq)) * EPow P4
   (EVar vMst1) * EPow P6 (EVar vMst2) + EPow P2 (EVar vMuSUSY) * (#3 * (#25 * EVar vDmsqst2 + #63 * EPow P2 (EVar
   vMsq)) * EPow P4 (EVar vMst1) * EPow P4 (EVar vMst2) + #5 * (#15 * EVar vDmsqst2 + #41 * EPow P2 (EVar vMsq)) *
   EPow P2 (EVar vMst1) * EPow P6 (EVar vMst2)) - #2 * EVar vlmMst1 * (#75 * EVar vDmsqst2 * EPow P2 (EVar vMuSUSY) *
   EPow P4 (EVar vMst1) * (EPow P2 (EVar vMst1) * EPow P2 (EVar vMst2) + EPow P4 (EVar vMst1) + EPow P4 (EVar vMst2))
   + EPow P2 (EVar vMsq) * ((#32 * (#3 + #5 * EVar vlmMst2 + #2 * EPow P2 (EVar vlmMst2)) * EPow P2 (EVar vMst2) +
   (#253 + #332 * EVar vlmMst2 + #123 * EPow P2 (EVar vlmMst2)) * EPow P2 (EVar vMuSUSY)) * EPow P4 (EVar vMst1) *
   EPow P4 (EVar vMst2) + (#253 + #588 * EVar vlmMst2 + #379 * EPow P2 (EVar vlmMst2)) * EPow P2 (EVar vMst2) * EPow
   P2 (EVar vMuSUSY) * EPow P6 (EVar vMst1) - #16 * (#1 + EVar vlmMst2) * EPow P2 (EVar vMst1) * (#2 * EPow P2 (EVar
   vMst2) + EPow P2 (EVar vMuSUSY)) * EPow P6 (EVar vMst2) + (#32 * (#1 + EVar vlmMst2) * EPow P2 (EVar vMst2) + (#237
   + #828 * EVar vlmMst2 + #635 * EPow P2 (EVar vlmMst2)) * EPow P2 (EVar vMuSUSY)) * EPow P8 (EVar vMst1))) + #6 *
   (#25 * EVar vDmsqst2 + #63 * EPow P2 (EVar vMsq)) * EPow P2 (EVar vMst1) * EPow P8 (EVar vMst2) + #2 * EVar vlmMst2
   * (#75 * EVar vDmsqst2 * EPow P2 (EVar vMuSUSY) * EPow P4 (EVar vMst1) * (EPow P2 (EVar vMst1) * EPow P2 (EVar
   vMst2) + EPow P4 (EVar vMst1) + EPow P4 (EVar vMst2)) + EPow P2 (EVar vMsq) * ((#285 * EPow P2 (EVar vMst2) * EPow
   P2 (EVar vMuSUSY) + #172 * EPow P4 (EVar vMst2)) * EPow P6 (EVar vMst1) - #33 * EPow P4 (EVar vMst1) * (- #11 *
   EPow P2 (EVar vMuSUSY) * EPow P4 (EVar vMst2) + #8 * EPow P6 (EVar vMst2)) + (#32 * EPow P2 (EVar vMst2) + #277 *
   EPow P2 (EVar vMuSUSY)) * EPow P8 (EVar vMst1) - #16 * (#2 * EPow P2 (EVar vMst2) + EPow P2 (EVar vMuSUSY)) * EPow
   P8 (EVar vMst2) + #2 * EPow P2 (EVar vMst1) * (#63 * EPow P2 (EVar vMuSUSY) * EPow P6 (EVar vMst2) + #110 * EPow P8
   (EVar vMst2)))) + EPow P2 (EVar vMsq) * (EPow P4 (EVar vMst1) * (#32 * (#1 + EVar vlmMst2) * EPow P2 (EVar vlmMst1)
   * (EPow P2 (EVar vMuSUSY) * (#9 * EPow P2 (EVar vMst1) * EPow P2 (EVar vMst2) + #17 * EPow P4 (EVar vMst1) + EPow
   P4 (EVar vMst2)) + #2 * EPow P6 (EVar vMst2)) + #2 * EPow P3 (EVar vlmMst2) * (EPow P2 (EVar vMuSUSY) * (#235 *
   EPow P2 (EVar vMst1) * EPow P2 (EVar vMst2) + #363 * EPow P4 (EVar vMst1) + #107 * EPow P4 (EVar vMst2)) + #32 *
   EPow P6 (EVar vMst2))) - #16 * EPow P2 (EVar vMuSUSY) * EPow P8 (EVar vMst2) - EPow P2 (EVar vlmMst2) * (- #6 *
   (#148 * EPow P2 (EVar vMst2) * EPow P2 (EVar vMuSUSY) + #25 * EPow P4 (EVar vMst2)) * EPow P6 (EVar vMst1) + EPow
   P4 (EVar vMst1) * (- #707 * EPow P2 (EVar vMuSUSY) * EPow P4 (EVar vMst2) + #76 * EPow P6 (EVar vMst2)) - #8 * (#8
   * EPow P2 (EVar vMst2) + #139 * EPow P2 (EVar vMuSUSY)) * EPow P8 (EVar vMst1) + #16 * (#2 * EPow P2 (EVar vMst2) +
   EPow P2 (EVar vMuSUSY)) * EPow P8 (EVar vMst2) - EPow P2 (EVar vMst1) * (#91 * EPow P2 (EVar vMuSUSY) * EPow P6
   (EVar vMst2) + #150 * EPow P8 (EVar vMst2)))) + EPow P2 (EVar vMsq) * (#16 * EPow P2 (EVar vMuSUSY) * (#4 * EPow P2
   (EVar vMst2) * EPow P6 (EVar vMst1) + #5 * EPow P8 (EVar vMst1)) - #32 * EPow P10 (EVar vMst2)))))))) / (#100018800
   * EPow P4 (EVar vMsq) * EPow P5 (EVar vMst2))) / (EVar vTbeta * EPow P2 (EVar vSbeta) * EPow P4 (EVar vMst1))) /
   EPow P2 (EVar vMgl).

(** H6bq2g2.cpp:2979-4223 *)
Definition H6bq2g2_getS12 : expr :=
  EVar vMt * (EVar vxMst * (#27 * (EVar vlmMst1 - EVar vlmMst2) * EVar vMst2 * EVar vMt * EVar voneLoopFlag * EPow P2
   (EVar vMgl) * EPow P2 (EVar vMuSUSY) * EPow P2 (EVar vs2t) - EVar vAl4p * EVar vtwoLoopFlag * (#8 * EVar vMt * EVar
   vs2t * (#18 * (EVar vlmMst1 - EVar vlmMst2) * (- #2 + #3 * EVar vlmMst2) * EVar vMst2 * EVar vs2t * EVar vxDmglst2
   * EVar vxDR2DRMOD * EPow P2 (EVar vDmglst2) + EVar vDmglst2 * EVar vMgl * (EVar vMt * (#785 + #6 * EVar vlmMst1 *
   (#85 - #42 * EVar vlmMst2) - #438 * EVar vlmMst2 + #252 * EPow P2 (EVar vlmMst2)) - EVar vMst2 * EVar vs2t * (#49 -
   #84 * EVar vlmMst2 + EVar vlmMst1 * (#84 - #36 * EVar vlmMst2 * (- #1 + EVar vxDR2DRMOD)) + #36 * (- #1 + EVar
   vxDR2DRMOD) * EPow P2 (EVar vlmMst2))) + (EVar vMt * (#193 + #474 * EVar vlmMst2 - #6 * EVar vlmMst1 * (#67 + #42 *
   EVar vlmMst2) + #252 * EPow P2 (EVar vlmMst2)) - EVar vMst2 * EVar vs2t * (#1 + #3 * EVar vlmMst2 * (- #37 + #6 *
   EVar vxDR2DRMOD) - #3 * EVar vlmMst1 * (- #37 + #6 * EVar vlmMst2 * (- #12 + EVar vxDR2DRMOD) + #6 * EVar
   vxDR2DRMOD) - #81 * EPow P2 (EVar vlmMst1) + #9 * (- #15 + #2 * EVar vxDR2DRMOD) * EPow P2 (EVar vlmMst2))) * EPow
   P2 (EVar vMgl)) * EPow P2 (EVar vMuSUSY) + EVar vMgl * EVar vMuSUSY * EVar vTbeta * (#8 * EVar vDmglst2 * (#36 * (-
   #1 + #3 * EVar vlmMst1 - #3 * EVar vlmMst2) * EVar vMst2 * EVar vs2t * EPow P2 (EVar vMt) - #3 * EVar vMt * (#50 +
   EVar vlmMst1 * (#51 - #18 * EVar vlmMst2) - #51 * EVar vlmMst2 + #18 * EPow P2 (EVar vlmMst2)) * EPow P2 (EVar
   vMst2) * EPow P2 (EVar vs2t) + #4 * (#7 - #381 * EVar vlmMst2 + EVar vlmMst1 * (#327 + #72 * EVar vlmMst2 - #81 *
   EVar vlmMt) + #54 * EVar vlmMt + #81 * EVar vlmMst2 * EVar vlmMt - #72 * EPow P2 (EVar vlmMst2)) * EPow P3 (EVar
   vMt) + #2 * (#1 + #3 * EVar vlmMst1 - #3 * EVar vlmMst2) * EPow P3 (EVar vMst2) * EPow P3 (EVar vs2t)) - EVar vMgl
   * (- #144 * EVar vMst2 * EVar vs2t * (- EVar vlmMst1 + EVar vlmMst2 - #2 * EVar vlmMst1 * EVar vlmMst2 + EPow P2
   (EVar vlmMst1) + EPow P2 (EVar vlmMst2)) * EPow P2 (EVar vMt) + #24 * EVar vMt * (#1 + #33 * EVar vlmMst2 - #3 *
   EVar vlmMst1 * (#11 + #6 * EVar vlmMst2) + #18 * EPow P2 (EVar vlmMst2)) * EPow P2 (EVar vMst2) * EPow P2 (EVar
   vs2t) + #32 * (#83 + #3 * EVar vlmMst1 * (#29 + #12 * EVar vlmMst2 - #9 * EVar vlmMt) + #9 * EVar vlmMt + #3 * EVar
   vlmMst2 * (- #32 + #9 * EVar vlmMt) - #36 * EPow P2 (EVar vlmMst2)) * EPow P3 (EVar vMt) + (#5 + EVar vlmMst1 * (#6
   - #288 * EVar vlmMst2) - #6 * EVar vlmMst2 + #144 * (EPow P2 (EVar vlmMst1) + EPow P2 (EVar vlmMst2))) * EPow P3
   (EVar vMst2) * EPow P3 (EVar vs2t))) + #2 * EVar vxDmglst2 * EPow P2 (EVar vDmglst2) * (- #3 * EVar vMst2 * EVar
   vMt * EPow P2 (EVar vs2t) * (#2 * EVar vMst2 * EVar vMuSUSY * EVar vTbeta * (#355 + #6 * EVar vlmMst2 - #6 * EVar
   vlmMst1 * (#1 + #6 * EVar vlmMst2) + #36 * EPow P2 (EVar vlmMst2)) + #2 * (#85 + #60 * EVar vlmMst2 + #12 * EVar
   vlmMst1 * (- #5 + #3 * EVar vlmMst2) - #36 * EPow P2 (EVar vlmMst2)) * EPow P2 (EVar vMuSUSY) + #5 * (- #43 + #60 *
   EVar vlmMst1 - #60 * EVar vlmMst2) * EPow P2 (EVar vMst2) * (- #1 + EPow P2 (EVar vSbeta)) * EPow P2 (EVar vSbeta))
   + EVar vMuSUSY * (#2 * EVar vs2t * EPow P2 (EVar vMt) * (EVar vMuSUSY * (#5002 + #84 * EVar vlmMst1 * (#7 - #6 *
   EVar vlmMst2) - #444 * EVar vlmMst2 + #504 * EPow P2 (EVar vlmMst2)) + #3 * EVar vMst2 * EVar vTbeta * (#347 - #430
   * EPow P2 (EVar vSbeta) + #120 * (EVar vlmMst1 - EVar vlmMst2) * (- #4 + #5 * EPow P2 (EVar vSbeta)))) + EVar
   vTbeta * (#8 * (#412 - #6 * EVar vlmMst1 * (#176 + #42 * EVar vlmMst2 - #39 * EVar vlmMt) + #9 * EVar vlmMst2 *
   (#147 - #26 * EVar vlmMt) - #267 * EVar vlmMt + #252 * EPow P2 (EVar vlmMst2)) * EPow P3 (EVar vMt) + #12 * (#1 -
   #6 * EVar vlmMst1 + #6 * EVar vlmMst2) * EPow P3 (EVar vMst2) * EPow P3 (EVar vs2t)))))) * EPow P6 (EVar vMst1) /
   (#108 * EVar vTbeta * EPow P2 (EVar vMgl) * EPow P7 (EVar vMst2)) + EVar vMuSUSY * (#3 * EVar voneLoopFlag * EVar
   vs2t * (#4 * (EVar vlmMst1 - EVar vlmMst2) * EPow P2 (EVar vMt) - ((#2 + EVar vlmMst1 - EVar vlmMst2) * EPow P2
   (EVar vMst1) + (- #2 + EVar vlmMst1 - EVar vlmMst2) * EPow P2 (EVar vMst2)) * EPow P2 (EVar vs2t) - #2 * EVar vMt *
   EVar vMuSUSY * EVar vs2t * (#2 - EVar vlmMst1 + EVar vlmMst2 - #2 * (EVar vlmMst1 - EVar vlmMst2) * EPow P2 (EVar
   vMst1) * (EPow P2 (EVar vMst1) + EPow P2 (EVar vMst2)) / EPow P4 (EVar vMst2)) / EVar vTbeta) + #4 * EVar vAl4p *
   EVar vtwoLoopFlag * (#12 * EVar vMt * EPow P2 (EVar vs2t) * (#2 * EVar vMst2 * (#4 + #3 * EVar vlmMst2 - EVar
   vlmMst1 * (#1 + EVar vlmMst2) + EPow P2 (EVar vlmMst2) + EVar vDmglst2 * (#6 + EVar vlmMst1 + EVar vlmMst2 - EVar
   vlmMst1 * EVar vlmMst2 + EPow P2 (EVar vlmMst2)) / EVar vMgl) + (#2 - #6 * EVar vlmMst1 + (#6 - #4 * EVar vlmMst1)
   * EVar vlmMst2 + #4 * EPow P2 (EVar vlmMst2) + EVar vDmglst2 * (#10 + EVar vlmMst1 * (#6 - #4 * EVar vlmMst2) - #6
   * EVar vlmMst2 + #4 * EPow P2 (EVar vlmMst2)) / EVar vMgl) * EPow P2 (EVar vMst1) / EVar vMst2 + (EDec 5 1 - #7 *
   EVar vlmMst1 + (#7 - #4 * EVar vlmMst1) * EVar vlmMst2 + #4 * EPow P2 (EVar vlmMst2) + EVar vDmglst2 * (EDec 105 1
   + EVar vlmMst1 * (#9 - #4 * EVar vlmMst2) - #9 * EVar vlmMst2 + #4 * EPow P2 (EVar vlmMst2)) / EVar vMgl) * EPow P4
   (EVar vMst1) / EPow P3 (EVar vMst2)) + #8 * EVar vs2t * EPow P2 (EVar vMt) * (#6 * EVar vlmMst1 + #2 * (- #2 + EVar
   vlmMst1) * EVar vlmMst2 + EPow P2 (EVar vlmMst1) - #3 * EPow P2 (EVar vlmMst2) + #2 * (EVar vDmglst2 + #2 * EVar
   vDmglst2 * EVar vlmMst2 + (#1 - EVar vlmMst1 + EVar vlmMst2) * (#2 * EVar vDmglst2 + (EVar vlmMst1 - EVar vlmMst2)
   * EVar vMgl) * EPow P2 (EVar vMst1) / EPow P2 (EVar vMst2) - (#2 * EVar vDmglst2 * EVar vlmMst2 + EVar vMgl + EVar
   vlmMst2 * EVar vMgl) * EPow P2 (EVar vMst2) / EPow P2 (EVar vMst1) - (EVar vDmglst2 * (- #2 + #4 * EVar vlmMst1 -
   #4 * EVar vlmMst2) + EVar vMgl * (- EVar vlmMst1 + EVar vlmMst2 - #2 * EVar vlmMst1 * EVar vlmMst2 + EPow P2 (EVar
   vlmMst1) + EPow P2 (EVar vlmMst2))) * EPow P4 (EVar vMst1) / EPow P4 (EVar vMst2)) / EVar vMgl) + (#16 * EVar
   vTbeta * EPow P2 (EVar vMst1) * EPow P3 (EVar vMt) * (EVar vMgl * (#13 + #2 * EVar vlmMst1 * (#6 + #3 * EVar
   vlmMst2 - #2 * EVar vlmMt) + #2 * EVar vlmMt + #2 * EVar vlmMst2 * (- #7 + #2 * EVar vlmMt) - #6 * EPow P2 (EVar
   vlmMst2)) * EPow P4 (EVar vMst1) + EVar vDmglst2 * (#11 - #6 * EVar vlmMst1 * EVar vlmMst2 - #8 * EVar vlmMst2 * (-
   #5 + EVar vlmMt) + #8 * EVar vlmMst1 * (- #4 + EVar vlmMt) - #8 * EVar vlmMt + #6 * EPow P2 (EVar vlmMst2)) * EPow
   P4 (EVar vMst1) + #2 * EVar vDmglst2 * ((#7 + #7 * EVar vlmMst2 + EVar vlmMst1 * (- #5 + EVar vlmMt) - #2 * EVar
   vlmMt - EVar vlmMst2 * EVar vlmMt) * EPow P2 (EVar vMst1) * EPow P2 (EVar vMst2) + (#5 + EVar vlmMst1 * (- #1 +
   EVar vlmMst2) + EVar vlmMst2 - EPow P2 (EVar vlmMst2)) * EPow P4 (EVar vMst2)) + #2 * EVar vMgl * ((#4 + EVar
   vlmMst1 * (#3 + #2 * EVar vlmMst2 - EVar vlmMt) + EVar vlmMst2 * (- #4 + EVar vlmMt) + EVar vlmMt - #2 * EPow P2
   (EVar vlmMst2)) * EPow P2 (EVar vMst1) * EPow P2 (EVar vMst2) + (#2 + EVar vlmMst1 + (- #2 + EVar vlmMst1) * EVar
   vlmMst2 + EVar vlmMt - EPow P2 (EVar vlmMst2)) * EPow P4 (EVar vMst2))) + EVar vTbeta * EPow P3 (EVar vMst2) * EPow
   P3 (EVar vs2t) * (- #4 * EVar vDmglst2 * (#2 * (#1 + #2 * EVar vlmMst1 - EVar vlmMst2) * EPow P2 (EVar vMst2) *
   EPow P4 (EVar vMst1) + #2 * (#1 + EVar vlmMst1 - EVar vlmMst2 + #2 * EVar vlmMst1 * EVar vlmMst2 - #2 * EPow P2
   (EVar vlmMst2)) * EPow P2 (EVar vMst1) * EPow P4 (EVar vMst2) + (#1 + #2 * EVar vlmMst1 - #2 * EVar vlmMst2) * EPow
   P6 (EVar vMst1) - #2 * EVar vlmMst2 * EPow P6 (EVar vMst2)) + EVar vMgl * (#2 * (- #16 + #6 * EVar vlmMst2 - #2 *
   EVar vlmMst1 * (#8 + #5 * EVar vlmMst2) + #3 * EPow P2 (EVar vlmMst1) + #7 * EPow P2 (EVar vlmMst2)) * EPow P2
   (EVar vMst2) * EPow P4 (EVar vMst1) - #2 * (- #12 - #18 * EVar vlmMst2 + #2 * EVar vlmMst1 * (#5 + #3 * EVar
   vlmMst2) + EPow P2 (EVar vlmMst1) - #7 * EPow P2 (EVar vlmMst2)) * EPow P2 (EVar vMst1) * EPow P4 (EVar vMst2) +
   (#3 + EVar vlmMst1 * (#2 - #32 * EVar vlmMst2) - #2 * EVar vlmMst2 + #16 * (EPow P2 (EVar vlmMst1) + EPow P2 (EVar
   vlmMst2))) * EPow P6 (EVar vMst1) + #4 * (#1 + EVar vlmMst2) * EPow P6 (EVar vMst2))) - #2 * EVar vMt * EVar
   vMuSUSY * EVar vs2t * (#2 * EVar vMgl * (- (EVar vMst2 * EVar vs2t * (- #14 - #20 * EVar vlmMst2 + #2 * EVar
   vlmMst1 * (#5 + #3 * EVar vlmMst2) + EPow P2 (EVar vlmMst1) - #7 * EPow P2 (EVar vlmMst2))) + #8 * EVar vMt * (#4 +
   #3 * EVar vlmMst2 - EVar vlmMst1 * (#1 + EVar vlmMst2) + EPow P2 (EVar vlmMst2))) * EPow P2 (EVar vMst1) * EPow P4
   (EVar vMst2) + #4 * EVar vDmglst2 * (EVar vMst2 * EVar vs2t * (- #5 + #8 * EVar vlmMst2 - #4 * EVar vlmMst1 * (#2 +
   EVar vlmMst2) + #4 * EPow P2 (EVar vlmMst2)) + EVar vMt * (#65 + EVar vlmMst1 * (#34 - #20 * EVar vlmMst2) - #26 *
   EVar vlmMst2 + #20 * EPow P2 (EVar vlmMst2))) * EPow P6 (EVar vMst1) + EVar vMgl * (EVar vMst2 * EVar vs2t * (- #1
   + #50 * EVar vlmMst2 - #2 * EVar vlmMst1 * (#25 + #32 * EVar vlmMst2) + #20 * EPow P2 (EVar vlmMst1) + #44 * EPow
   P2 (EVar vlmMst2)) + EVar vMt * (#84 + #152 * EVar vlmMst2 - #40 * EVar vlmMst1 * (#3 + #2 * EVar vlmMst2) + #80 *
   EPow P2 (EVar vlmMst2))) * EPow P6 (EVar vMst1) + #8 * EVar vDmglst2 * ((EVar vMst2 * EVar vs2t * (- #2 + #3 * EVar
   vlmMst2 - EVar vlmMst1 * (#3 + #2 * EVar vlmMst2) + #2 * EPow P2 (EVar vlmMst2)) + EVar vMt * (#22 + EVar vlmMst1 *
   (#8 - #6 * EVar vlmMst2) - #4 * EVar vlmMst2 + #6 * EPow P2 (EVar vlmMst2))) * EPow P2 (EVar vMst2) * EPow P4 (EVar
   vMst1) + (- (EVar vMst2 * EVar vs2t * (#1 + EVar vlmMst1 - #2 * EVar vlmMst2 + #2 * EVar vlmMst1 * EVar vlmMst2 -
   #2 * EPow P2 (EVar vlmMst2))) + #2 * EVar vMt * (#6 + EVar vlmMst1 + EVar vlmMst2 - EVar vlmMst1 * EVar vlmMst2 +
   EPow P2 (EVar vlmMst2))) * EPow P2 (EVar vMst1) * EPow P4 (EVar vMst2) + EVar vlmMst2 * EVar vs2t * EPow P7 (EVar
   vMst2)) + #4 * EVar vMgl * ((#4 * EVar vMt * (#5 + #6 * EVar vlmMst2 - EVar vlmMst1 * (#4 + #3 * EVar vlmMst2) + #3
   * EPow P2 (EVar vlmMst2)) + EVar vMst2 * EVar vs2t * (- #1 + #13 * EVar vlmMst2 - EVar vlmMst1 * (#13 + #8 * EVar
   vlmMst2) + EPow P2 (EVar vlmMst1) + #7 * EPow P2 (EVar vlmMst2))) * EPow P2 (EVar vMst2) * EPow P4 (EVar vMst1) +
   (#1 + EVar vlmMst2) * EVar vs2t * EPow P7 (EVar vMst2)))) / (EVar vMgl * EVar vTbeta * EPow P2 (EVar vMst1) * EPow
   P5 (EVar vMst2)))) / #48 + EVar vAl4p * EConst Cz2 * (#9720 * EVar vxDmglst2 * EPow P2 (EVar vDmglst2) * (- #2 *
   EVar vMuSUSY * EVar vtwoLoopFlag * (#2 * EVar vMt * EPow P2 (EVar vMst1) * EPow P2 (EVar vMst2) * (- #42 * EVar vMt
   * EVar vMuSUSY * EVar vs2t + #4 * EVar vTbeta * EPow P2 (EVar vMt) + #3 * EVar vMst2 * (EVar vMuSUSY + #5 * EVar
   vMst2 * EVar vTbeta) * EPow P2 (EVar vs2t)) + #2 * EVar vMt * (- #62 * EVar vMt * EVar vMuSUSY * EVar vs2t + #16 *
   EVar vTbeta * EPow P2 (EVar vMt) + #3 * EVar vMst2 * (EVar vMuSUSY + #5 * EVar vMst2 * EVar vTbeta) * EPow P2 (EVar
   vs2t)) * EPow P4 (EVar vMst1) + (- #44 * EVar vMuSUSY * EVar vs2t * EPow P2 (EVar vMt) + #3 * EVar vMst2 * EVar vMt
   * (#2 * EVar vMuSUSY + #11 * EVar vMst2 * EVar vTbeta) * EPow P2 (EVar vs2t) + #8 * EVar vTbeta * EPow P3 (EVar
   vMt) - #3 * EVar vTbeta * EPow P3 (EVar vMst2) * EPow P3 (EVar vs2t)) * EPow P4 (EVar vMst2)) / (EVar vTbeta * EPow
   P5 (EVar vMst2)) + #3 * EVar vAl4p * EVar vthreeLoopFlag * (EVar vMt * (EVar vMt * EPow P2 (EVar vMuSUSY) * (#2 *
   (#122051 + #1800 * EVar vlmMst1 + #274680 * EVar vlmMst2) * EVar vMst2 * EVar vMt * EPow P2 (EVar vMst1) / #405 +
   #32 * (#617 + #2040 * EVar vlmMst2) * EVar vMt * EPow P3 (EVar vMst2) / #135 + (EDec 4131092729766804 12 - #3304 *
   EVar vlmMst1 / #3 + #13736 * EVar vlmMst2 / #9) * EVar vs2t * EPow P4 (EVar vMst1) + EVar vs2t * EPow P4 (EVar
   vMst2) * (EDec 11083172839506174 13 + #532 * EVar vlmMst1 / #9 + #884 * EVar vlmMst2 / #3 - #160 * EVar vDmsqst2 *
   (#2 + #3 * EVar vlmMst1 - #3 * EVar vlmMst2) * (EPow P3 (EVar vDmsqst2) + EPow P6 (EVar vMsq)) / (#3 * EPow P8
   (EVar vMsq))) + EVar vs2t * EPow P2 (EVar vMst1) * EPow P2 (EVar vMst2) * (EDec 1039638683127572 12 - #1160 * EVar
   vlmMst1 / #9 + #7256 * EVar vlmMst2 / #9 + #160 * EVar vDmsqst2 * (#1 - #9 * EVar vlmMst1 + #9 * EVar vlmMst2) *
   (EPow P3 (EVar vDmsqst2) + EPow P6 (EVar vMsq)) / (#3 * EPow P8 (EVar vMsq)))) / EPow P5 (EVar vMst2) - EPow P2
   (EVar vs2t) * (EPow P2 (EVar vMuSUSY) * (EDec 10979135802469136 14 + #368 * EVar vlmMst1 / #9 + #148 * EVar vlmMst2
   / #9 + (EDec 11678951989026064 13 - #1520 * EVar vlmMst1 / #9 + #1864 * EVar vlmMst2 / #9) * EPow P4 (EVar vMst1) /
   EPow P4 (EVar vMst2) + EPow P2 (EVar vMst1) * (EDec 8733744855967078 14 + #490 * EVar vlmMst1 / #9 + #26 * EVar
   vlmMst2 / #9 - #40 * EVar vDmsqst2 * (#3 + #8 * EVar vlmMst1 - #8 * EVar vlmMst2) * (EPow P3 (EVar vDmsqst2) + EPow
   P6 (EVar vMsq)) / (#3 * EPow P8 (EVar vMsq))) / EPow P2 (EVar vMst2) + (- #40 * EVar vDmsqst2 * (#2 + EVar vlmMst1
   - EVar vlmMst2) * (EPow P3 (EVar vDmsqst2) + EPow P6 (EVar vMsq)) - #8 * EPow P2 (EVar vMst2) * (#5 * EPow P4 (EVar
   vDmsqst2) + #5 * EVar vDmsqst2 * EPow P6 (EVar vMsq) - #2 * EPow P8 (EVar vMsq)) / (#3 * EPow P2 (EVar vMst1))) /
   EPow P8 (EVar vMsq)) + #10 * EVar vDmsqst2 * (- #93 + #10 * EVar vlmMst1 - #10 * EVar vlmMst2) * (- #1 + EPow P2
   (EVar vSbeta)) * EPow P2 (EVar vSbeta) * EPow P4 (EVar vMst1) * (EPow P3 (EVar vDmsqst2) + EPow P6 (EVar vMsq)) /
   (#3 * EPow P2 (EVar vMst2) * EPow P8 (EVar vMsq)))) / EVar vTbeta + EVar vMuSUSY * (- (EPow P3 (EVar vs2t) * (- #4
   * EPow P4 (EVar vMst2) * (#2 - #5 * EVar vDmsqst2 * (EPow P3 (EVar vDmsqst2) + EPow P6 (EVar vMsq)) / EPow P8 (EVar
   vMsq)) / (#3 * EPow P2 (EVar vMst1)) - EPow P4 (EVar vMst1) * (EDec 43276982167352537 14 - #398 * EVar vlmMst1 / #9
   + #398 * EVar vlmMst2 / #9 + #130 * EVar vDmsqst2 * (EPow P3 (EVar vDmsqst2) + EPow P6 (EVar vMsq)) / (#3 * EPow P8
   (EVar vMsq))) / EPow P2 (EVar vMst2) + EPow P2 (EVar vMst1) * (EDec 11226954732510288 15 - #61 * EVar vlmMst1 / #9
   + #61 * EVar vlmMst2 / #9 + #20 * EVar vDmsqst2 * (- #3 + #5 * EVar vlmMst1 - #5 * EVar vlmMst2) * (EPow P3 (EVar
   vDmsqst2) + EPow P6 (EVar vMsq)) / (#3 * EPow P8 (EVar vMsq))) - EPow P2 (EVar vMst2) * (EDec 5222901234567901 14 +
   #184 * EVar vlmMst1 / #9 + #74 * EVar vlmMst2 / #9 - #20 * EVar vDmsqst2 * (#5 + #3 * EVar vlmMst1 - #3 * EVar
   vlmMst2) * (EPow P3 (EVar vDmsqst2) + EPow P6 (EVar vMsq)) / (#3 * EPow P8 (EVar vMsq))))) - EVar vMt * EPow P2
   (EVar vs2t) * (EVar vMst2 * (EDec 8312379629629629 13 + #133 * EVar vlmMst1 / #3 + #221 * EVar vlmMst2 - #40 * EVar
   vDmsqst2 * (#2 + #3 * EVar vlmMst1 - #3 * EVar vlmMst2) * (EPow P3 (EVar vDmsqst2) + EPow P6 (EVar vMsq)) / EPow P8
   (EVar vMsq)) - EPow P2 (EVar vMst1) * (EDec 5150895061728395 14 + #141 * EVar vlmMst1 - #1151 * EVar vlmMst2 / #3 +
   #120 * EVar vDmsqst2 * (- #1 + #2 * EVar vlmMst1 - #2 * EVar vlmMst2) * (EPow P3 (EVar vDmsqst2) + EPow P6 (EVar
   vMsq)) / EPow P8 (EVar vMsq)) / EVar vMst2 + EPow P4 (EVar vMst1) * (EDec 1749093621399177 12 - #498 * EVar vlmMst1
   + #1790 * EVar vlmMst2 / #3 + #20 * EVar vDmsqst2 * (#17 - #12 * EVar vlmMst1 + #12 * EVar vlmMst2) * (EPow P3
   (EVar vDmsqst2) + EPow P6 (EVar vMsq)) / EPow P8 (EVar vMsq)) / EPow P3 (EVar vMst2)) + EPow P3 (EVar vMt) * ((EDec
   7387187379972565 12 - #2456 * EVar vlmMst1 / #3 + #13400 * EVar vlmMst2 / #9 - #3088 * EVar vlmMt / #9) * EPow P4
   (EVar vMst1) - EPow P2 (EVar vMst1) * EPow P2 (EVar vMst2) * (EDec 30394318636096414 13 - #3896 * EVar vlmMst1 / #9
   + #9320 * EVar vlmMst2 / #9 - #1456 * EVar vlmMt / #3 + #1600 * EVar vDmsqst2 * (- #3 + EVar vlmMst1 - #2 * EVar
   vlmMst2 + EVar vlmMt) * (EPow P3 (EVar vDmsqst2) + EPow P6 (EVar vMsq)) / (#3 * EPow P8 (EVar vMsq))) - EPow P4
   (EVar vMst2) * (EDec 43332081128747797 14 - #532 * EVar vlmMst1 / #9 + #2236 * EVar vlmMst2 / #9 - #72 * EVar vlmMt
   + #160 * EVar vDmsqst2 * (- #8 + #3 * EVar vlmMst1 - #6 * EVar vlmMst2 + #3 * EVar vlmMt) * (EPow P3 (EVar
   vDmsqst2) + EPow P6 (EVar vMsq)) / (#3 * EPow P8 (EVar vMsq)))) / EPow P5 (EVar vMst2) - EVar vs2t * EPow P2 (EVar
   vMt) * (EDec 40186349206349206 14 - #52 * EVar vlmMst1 / #9 + #6580 * EVar vlmMst2 / #9 + #2 * (#510139 + #44280 *
   EVar vlmMst1 + #76680 * EVar vlmMst2) * EPow P4 (EVar vMst1) / (#405 * EPow P4 (EVar vMst2)) + EPow P2 (EVar vMst1)
   * (EDec 18385989417989417 13 - #100 * EVar vlmMst1 / #3 + #1356 * EVar vlmMst2 - #240 * EVar vDmsqst2 * (EPow P3
   (EVar vDmsqst2) + EPow P6 (EVar vMsq)) / EPow P8 (EVar vMsq)) / EPow P2 (EVar vMst2) - #400 * EVar vDmsqst2 * (EPow
   P3 (EVar vDmsqst2) + EPow P6 (EVar vMsq)) / (#3 * EPow P8 (EVar vMsq)) + #16 * EPow P2 (EVar vMst2) * (- #5 * EPow
   P4 (EVar vDmsqst2) - #5 * EVar vDmsqst2 * EPow P6 (EVar vMsq) + #2 * EPow P8 (EVar vMsq)) / (#3 * EPow P2 (EVar
   vMst1) * EPow P8 (EVar vMsq)))))) + (#9720 * EVar vMuSUSY * EVar vtwoLoopFlag * (#4 * EVar vMt * EVar vxDmglst2 *
   EVar vxMst * EPow P2 (EVar vDmglst2) * (#82 * EVar vMt * EVar vMuSUSY * EVar vs2t - #56 * EVar vTbeta * EPow P2
   (EVar vMt) - #3 * EVar vMst2 * (EVar vMuSUSY + #5 * EVar vMst2 * EVar vTbeta) * EPow P2 (EVar vs2t)) * EPow P6
   (EVar vMst1) + EPow P2 (EVar vMgl) * (- (EPow P2 (EVar vMst1) * (- #8 * EVar vMuSUSY * EVar vs2t * EPow P2 (EVar
   vMt) + #32 * EVar vTbeta * EPow P3 (EVar vMt) + EVar vTbeta * EPow P3 (EVar vMst2) * EPow P3 (EVar vs2t)) * EPow P4
   (EVar vMst2)) + #8 * EPow P2 (EVar vMt) * ((EVar vMuSUSY * EVar vs2t - #6 * EVar vMt * EVar vTbeta) * EPow P2 (EVar
   vMst2) * EPow P4 (EVar vMst1) + (EVar vMuSUSY * EVar vs2t - #8 * EVar vMt * EVar vTbeta) * EVar vxMst * EPow P6
   (EVar vMst1)) + (#8 * EVar vMuSUSY * EVar vs2t * EPow P2 (EVar vMt) - #2 * EVar vMst2 * EVar vMt * (EVar vMuSUSY +
   #3 * EVar vMst2 * EVar vTbeta) * EPow P2 (EVar vs2t) - #16 * EVar vTbeta * EPow P3 (EVar vMt) + EVar vTbeta * EPow
   P3 (EVar vMst2) * EPow P3 (EVar vs2t)) * EPow P6 (EVar vMst2)) + #2 * EVar vDmglst2 * EVar vMgl * (#4 * EVar vMt *
   (EPow P2 (EVar vMst2) * (#13 * EVar vMt * EVar vMuSUSY * EVar vs2t + #6 * EVar vTbeta * EPow P2 (EVar vMt) - EVar
   vMst2 * (EVar vMuSUSY + #3 * EVar vMst2 * EVar vTbeta) * EPow P2 (EVar vs2t)) * EPow P4 (EVar vMst1) + EVar vs2t *
   (#9 * EVar vMt * EVar vMuSUSY - EVar vMst2 * EVar vs2t * (EVar vMuSUSY + #3 * EVar vMst2 * EVar vTbeta)) * EPow P2
   (EVar vMst1) * EPow P4 (EVar vMst2) + EVar vxMst * (#17 * EVar vMt * EVar vMuSUSY * EVar vs2t + #16 * EVar vTbeta *
   EPow P2 (EVar vMt) - EVar vMst2 * (EVar vMuSUSY + #3 * EVar vMst2 * EVar vTbeta) * EPow P2 (EVar vs2t)) * EPow P6
   (EVar vMst1)) + (#20 * EVar vMuSUSY * EVar vs2t * EPow P2 (EVar vMt) - EVar vMst2 * EVar vMt * (#4 * EVar vMuSUSY +
   #15 * EVar vMst2 * EVar vTbeta) * EPow P2 (EVar vs2t) - #8 * EVar vTbeta * EPow P3 (EVar vMt) + #2 * EVar vTbeta *
   EPow P3 (EVar vMst2) * EPow P3 (EVar vs2t)) * EPow P6 (EVar vMst2))) + EVar vAl4p * EVar vMst2 * EVar
   vthreeLoopFlag * (#300 * EVar vxDmsqst2 * EPow P2 (EVar vDmsqst2) * EPow P2 (EVar vMst2) * EPow P4 (EVar vMsq) * (-
   #324 * EVar vMst2 * EVar vxDmglst2 * EPow P2 (EVar vDmglst2) * (- #2 * EVar vMuSUSY * (EPow P2 (EVar vMst1) * EPow
   P2 (EVar vMst2) * (- #4 * EVar vs2t * ((#4 + #6 * EVar vlmMst1 - #6 * EVar vlmMst2) * EVar vMuSUSY - #5 * EVar
   vMst2 * EVar vTbeta) * EPow P2 (EVar vMt) + #6 * EVar vMst2 * EVar vMt * ((#2 + EVar vlmMst1 - EVar vlmMst2) * EVar
   vMuSUSY + (#2 + #3 * EVar vlmMst1 - #3 * EVar vlmMst2) * EVar vMst2 * EVar vTbeta) * EPow P2 (EVar vs2t) + EVar
   vTbeta * (#8 * (#8 + #6 * EVar vlmMst2 - #3 * (EVar vlmMst1 + EVar vlmMt)) * EPow P3 (EVar vMt) - (#5 + #3 * EVar
   vlmMst1 - #3 * EVar vlmMst2) * EPow P3 (EVar vMst2) * EPow P3 (EVar vs2t))) + (#4 * EVar vs2t * ((#2 - #18 * EVar
   vlmMst1 + #18 * EVar vlmMst2) * EVar vMuSUSY + #9 * EVar vMst2 * EVar vTbeta) * EPow P2 (EVar vMt) + #2 * EVar
   vMst2 * EVar vMt * ((#3 + #8 * EVar vlmMst1 - #8 * EVar vlmMst2) * EVar vMuSUSY + #9 * (- #1 + #2 * EVar vlmMst1 -
   #2 * EVar vlmMst2) * EVar vMst2 * EVar vTbeta) * EPow P2 (EVar vs2t) - #80 * (- #3 + EVar vlmMst1 - #2 * EVar
   vlmMst2 + EVar vlmMt) * EVar vTbeta * EPow P3 (EVar vMt) + (#3 - #5 * EVar vlmMst1 + #5 * EVar vlmMst2) * EVar
   vTbeta * EPow P3 (EVar vMst2) * EPow P3 (EVar vs2t)) * EPow P4 (EVar vMst1) + EVar vs2t * (#2 * EVar vMt * EVar
   vMuSUSY * EVar vs2t + #4 * EVar vTbeta * EPow P2 (EVar vMt) - EVar vTbeta * EPow P2 (EVar vMst2) * EPow P2 (EVar
   vs2t)) * EPow P5 (EVar vMst2)) + EPow P2 (EVar vs2t) * (#6 * (#17 - #12 * EVar vlmMst1 + #12 * EVar vlmMst2) * EVar
   vMt * EVar vMuSUSY * EVar vTbeta - #13 * EVar vMst2 * EVar vMuSUSY * EVar vs2t * EVar vTbeta + (- #93 + #10 * EVar
   vlmMst1 - #10 * EVar vlmMst2) * EVar vMst2 * EVar vMt * (- #1 + EPow P2 (EVar vSbeta)) * EPow P2 (EVar vSbeta)) *
   EPow P6 (EVar vMst1)) + EVar vMgl * (EVar vs2t * (EVar vs2t * (#81 * EPow P2 (EVar vMst2) * EPow P2 (EVar vSbeta) *
   (- #2 * (#11 + #10 * EVar vlmMst1 - #10 * EVar vlmMst2) * EVar vMgl * EVar vMst2 * EVar vs2t * (- #1 + EPow P2
   (EVar vSbeta)) + (EVar vDmglst2 * (#372 - #40 * EVar vlmMst1 + #40 * EVar vlmMst2) + #3 * (- #17 + #2 * EVar
   vlmMst1 - #2 * EVar vlmMst2) * EVar vMgl) * EVar vMt * EPow P2 (EVar vSbeta)) * EPow P6 (EVar vMst1) + EVar vMt *
   (#81 * (#4 * EVar vDmglst2 * (- #93 + #10 * EVar vlmMst1 - #10 * EVar vlmMst2) + #3 * (#17 - #2 * EVar vlmMst1 + #2
   * EVar vlmMst2) * EVar vMgl) * EPow P2 (EVar vMst2) * EPow P2 (EVar vSbeta) * EPow P6 (EVar vMst1) + #2 * EPow P2
   (EVar vMuSUSY) * (#648 * EVar vDmglst2 * EPow P2 (EVar vMst2) * (#3 * (#2 + EVar vlmMst1 - EVar vlmMst2) * EPow P2
   (EVar vMst1) * EPow P2 (EVar vMst2) + (#3 + #8 * EVar vlmMst1 - #8 * EVar vlmMst2) * EPow P4 (EVar vMst1) + EPow P4
   (EVar vMst2)) + EVar vMgl * (#3 * (#1607 - #432 * EVar vlmMst1 + #432 * EVar vlmMst2) * EPow P2 (EVar vMst2) * EPow
   P4 (EVar vMst1) - #18 * (#25 + #9 * EVar vlmMst1 - #9 * EVar vlmMst2) * EPow P2 (EVar vMst1) * EPow P4 (EVar vMst2)
   + (#20701 - #648 * EVar vlmMst1 + #648 * EVar vlmMst2) * EPow P6 (EVar vMst1) - #486 * EPow P6 (EVar vMst2))))) +
   #648 * EVar vMt * EPow P2 (EVar vMuSUSY) * (#8 * EVar vDmglst2 * EVar vMst2 * EVar vMt * EPow P2 (EVar vMst1) *
   ((#1 - #9 * EVar vlmMst1 + #9 * EVar vlmMst2) * EPow P2 (EVar vMst1) + (- #2 - #3 * EVar vlmMst1 + #3 * EVar
   vlmMst2) * EPow P2 (EVar vMst2)) + EVar vMgl * ((#4 * (#7 + #3 * EVar vlmMst1 - #3 * EVar vlmMst2) * EVar vMt + (-
   #1 + #2 * EVar vlmMst1 - #2 * EVar vlmMst2) * EVar vMst2 * EVar vs2t * EVar vshiftst1) * EPow P2 (EVar vMst1) *
   EPow P3 (EVar vMst2) + #2 * EVar vMst2 * (#4 * (#5 + #3 * EVar vlmMst1 - #3 * EVar vlmMst2) * EVar vMt + (EVar
   vlmMst1 - EVar vlmMst2) * EVar vMst2 * EVar vs2t * EVar vshiftst1) * EPow P4 (EVar vMst1) + #2 * (EVar vlmMst1 -
   EVar vlmMst2) * EVar vs2t * EVar vshiftst1 * EPow P6 (EVar vMst1) - EVar vs2t * EVar vshiftst1 * EPow P6 (EVar
   vMst2)))) + EVar vMuSUSY * EVar vTbeta * (EVar vMgl * (- #18 * EPow P2 (EVar vMst1) * EPow P3 (EVar vMst2) * (#2 *
   EVar vMst2 * EVar vs2t * (#25 - #36 * EVar vshiftst1) * EPow P2 (EVar vMt) + #108 * (#7 + #3 * EVar vlmMst1 - #3 *
   EVar vlmMst2) * EVar vMt * EPow P2 (EVar vMst2) * EPow P2 (EVar vs2t) + #144 * (#2 + #6 * EVar vlmMst2 - #3 * (EVar
   vlmMst1 + EVar vlmMt)) * EPow P3 (EVar vMt) + (#2 + EVar vlmMst2 * (#9 - #36 * EVar vshiftst1) + #9 * EVar vlmMst1
   * (- #1 + #4 * EVar vshiftst1)) * EPow P3 (EVar vMst2) * EPow P3 (EVar vs2t)) - #3 * EVar vMst2 * (#530 * EVar
   vMst2 * EVar vs2t * EPow P2 (EVar vMt) + #1296 * (#4 + #3 * EVar vlmMst1 - #3 * EVar vlmMst2) * EVar vMt * EPow P2
   (EVar vMst2) * EPow P2 (EVar vs2t) - #3456 * (- #1 + EVar vlmMst1 - #2 * EVar vlmMst2 + EVar vlmMt) * EPow P3 (EVar
   vMt) + (#1757 - #378 * EVar vlmMst1 + #378 * EVar vlmMst2 + #108 * EVar vshiftst1) * EPow P3 (EVar vMst2) * EPow P3
   (EVar vs2t)) * EPow P4 (EVar vMst1) + EVar vs2t * ((- #1944 * (#5 + #4 * EVar vlmMst1 - #4 * EVar vlmMst2) * EVar
   vMst2 * EVar vMt * EVar vs2t + #8114 * EPow P2 (EVar vMt) - #6648 * EPow P2 (EVar vMst2) * EPow P2 (EVar vs2t)) *
   EPow P6 (EVar vMst1) + #162 * (#3 + #2 * EVar vshiftst1) * (- #4 * EPow P2 (EVar vMt) + EPow P2 (EVar vMst2) * EPow
   P2 (EVar vs2t)) * EPow P6 (EVar vMst2))) + #324 * EVar vDmglst2 * EVar vMst2 * (#2 * (EPow P2 (EVar vMst1) * EPow
   P2 (EVar vMst2) * (#20 * EVar vMst2 * EVar vs2t * EPow P2 (EVar vMt) + #6 * (#2 + #3 * EVar vlmMst1 - #3 * EVar
   vlmMst2) * EVar vMt * EPow P2 (EVar vMst2) * EPow P2 (EVar vs2t) + #8 * (#8 + #6 * EVar vlmMst2 - #3 * (EVar
   vlmMst1 + EVar vlmMt)) * EPow P3 (EVar vMt) - (#5 + #3 * EVar vlmMst1 - #3 * EVar vlmMst2) * EPow P3 (EVar vMst2) *
   EPow P3 (EVar vs2t)) + (#36 * EVar vMst2 * EVar vs2t * EPow P2 (EVar vMt) + #18 * (- #1 + #2 * EVar vlmMst1 - #2 *
   EVar vlmMst2) * EVar vMt * EPow P2 (EVar vMst2) * EPow P2 (EVar vs2t) - #80 * (- #3 + EVar vlmMst1 - #2 * EVar
   vlmMst2 + EVar vlmMt) * EPow P3 (EVar vMt) + (#3 - #5 * EVar vlmMst1 + #5 * EVar vlmMst2) * EPow P3 (EVar vMst2) *
   EPow P3 (EVar vs2t)) * EPow P4 (EVar vMst1)) + #8 * EVar vs2t * EPow P2 (EVar vMt) * EPow P5 (EVar vMst2) + (#6 *
   (- #17 + #12 * EVar vlmMst1 - #12 * EVar vlmMst2) * EVar vMt + #13 * EVar vMst2 * EVar vs2t) * EPow P2 (EVar vs2t)
   * EPow P6 (EVar vMst1) - #2 * EPow P3 (EVar vs2t) * EPow P7 (EVar vMst2))))) + #3240 * EVar vMst2 * EVar vMuSUSY *
   EVar vxDR2DRMOD * (EVar vMgl * (EVar vTbeta * (#64 * EVar vMt * EPow P2 (EVar vMst1) * (- #3 * (EVar vDmglst2 + #3
   * EVar vDmglst2 * EVar vlmMst2 + EVar vMgl + EVar vlmMst2 * EVar vMgl) * EPow P2 (EVar vMst2) * EPow P2 (EVar vs2t)
   * (EPow P2 (EVar vMst1) * EPow P2 (EVar vMst2) + EPow P4 (EVar vMst1) + EPow P4 (EVar vMst2)) + #4 * EPow P2 (EVar
   vMt) * (- (EVar vDmglst2 * (#7 + EVar vlmMst2) * EPow P2 (EVar vMst1) * EPow P2 (EVar vMst2)) - #2 * EVar vDmglst2
   * (#11 + #5 * EVar vlmMst2) * EPow P4 (EVar vMst1) + EVar vDmglst2 * (- #1 + EVar vlmMst2) * EPow P4 (EVar vMst2) +
   (#1 + EVar vlmMst2) * EVar vMgl * (#3 * EPow P2 (EVar vMst1) * EPow P2 (EVar vMst2) + #6 * EPow P4 (EVar vMst1) +
   EPow P4 (EVar vMst2)))) + (#16 * (#7 * EVar vDmglst2 - #13 * EVar vMgl) * EVar vs2t * (EPow P2 (EVar vMst1) - EPow
   P2 (EVar vMst2)) * EPow P2 (EVar vMt) - EPow P3 (EVar vs2t) * (#8 * (EVar vDmglst2 * (#7 * EVar vlmMst1 - #15 *
   EVar vlmMst2) + (- #4 - #13 * EVar vlmMst1 + #9 * EVar vlmMst2) * EVar vMgl) * EPow P2 (EVar vMst1) * EPow P2 (EVar
   vMst2) + #4 * (#7 * EVar vDmglst2 - #13 * EVar vMgl) * (EPow P4 (EVar vMst1) - EPow P4 (EVar vMst2)))) * EPow P5
   (EVar vMst2)) + EVar vMt * EVar vMuSUSY * EVar vs2t * (#256 * (EVar vDmglst2 + #3 * EVar vDmglst2 * EVar vlmMst2 +
   EVar vMgl + EVar vlmMst2 * EVar vMgl) * EVar vMt * EPow P2 (EVar vMst1) * (#2 * EPow P2 (EVar vMst1) * EPow P2
   (EVar vMst2) + #3 * EPow P4 (EVar vMst1) + EPow P4 (EVar vMst2)) - #8 * EVar vMst2 * EVar vs2t * (- #2 * (EVar
   vDmglst2 * (#7 * EVar vlmMst1 - #15 * EVar vlmMst2) + (- #4 - #13 * EVar vlmMst1 + #9 * EVar vlmMst2) * EVar vMgl)
   * (EPow P2 (EVar vMst1) + EPow P2 (EVar vMst2)) * EPow P4 (EVar vMst1) + (EVar vDmglst2 * (#7 - #14 * EVar vlmMst1
   + #30 * EVar vlmMst2) + (- #5 + #26 * EVar vlmMst1 - #18 * EVar vlmMst2) * EVar vMgl) * EPow P2 (EVar vMst1) * EPow
   P4 (EVar vMst2) + (#7 * EVar vDmglst2 - #13 * EVar vMgl) * EPow P6 (EVar vMst2)))) - EVar vxDmglst2 * EPow P2 (EVar
   vDmglst2) * (EVar vTbeta * (#64 * EVar vMt * EPow P2 (EVar vMst1) * (#3 * EPow P2 (EVar vMst2) * EPow P2 (EVar
   vs2t) * ((- #1 + #6 * EVar vlmMst2) * EPow P2 (EVar vMst2) * (EPow P2 (EVar vMst1) + EPow P2 (EVar vMst2)) + (#1 +
   #3 * EVar vlmMst2) * EPow P4 (EVar vMst1)) + #4 * EPow P2 (EVar vMt) * (- (EVar vlmMst2 * EPow P2 (EVar vMst1) *
   EPow P2 (EVar vMst2)) + #2 * (#11 + #5 * EVar vlmMst2) * EPow P4 (EVar vMst1) - (- #2 + EVar vlmMst2) * EPow P4
   (EVar vMst2))) + (- #432 * EVar vs2t * (EPow P2 (EVar vMst1) - EPow P2 (EVar vMst2)) * EPow P2 (EVar vMt) + #9 *
   EPow P3 (EVar vs2t) * (#8 * (#8 + #27 * EVar vlmMst1 - #39 * EVar vlmMst2) * EPow P2 (EVar vMst1) * EPow P2 (EVar
   vMst2) / #9 + #12 * EPow P4 (EVar vMst1) - #12 * EPow P4 (EVar vMst2))) * EPow P5 (EVar vMst2)) + #8 * EVar vMt *
   EVar vMuSUSY * EVar vs2t * (#2 * (- #32 * (- #1 + #6 * EVar vlmMst2) * EVar vMt + (- #8 - #27 * EVar vlmMst1 + #39
   * EVar vlmMst2) * EVar vMst2 * EVar vs2t) * EPow P2 (EVar vMst2) * EPow P4 (EVar vMst1) + (#32 * (#1 - #6 * EVar
   vlmMst2) * EVar vMt + (#11 - #54 * EVar vlmMst1 + #78 * EVar vlmMst2) * EVar vMst2 * EVar vs2t) * EPow P2 (EVar
   vMst1) * EPow P4 (EVar vMst2) - #2 * (#48 * (#1 + #3 * EVar vlmMst2) * EVar vMt + (#7 * EVar vlmMst1 - #15 * EVar
   vlmMst2) * EVar vMst2 * EVar vs2t) * EPow P6 (EVar vMst1) + #27 * EVar vs2t * EPow P7 (EVar vMst2)))) * EPow P8
   (EVar vMsq) + EVar vMgl * (EVar vMst2 * EVar vMuSUSY * EVar vTbeta * (EPow P3 (EVar vMst2) * EPow P3 (EVar vs2t) *
   (- #300 * EVar vDmsqst2 * EVar vMgl * EPow P6 (EVar vMsq) * (#18 * (#469 - #36 * EVar vlmMst1 + #36 * EVar vlmMst2)
   * EPow P2 (EVar vMst2) * EPow P4 (EVar vMst1) + #1755 * EPow P2 (EVar vMst1) * EPow P4 (EVar vMst2) + #10828 * EPow
   P6 (EVar vMst1) - #324 * EPow P6 (EVar vMst2)) + #300 * EVar vMgl * EPow P4 (EVar vDmsqst2) * (#9 * (#119 + #234 *
   EVar vlmMst1 - #234 * EVar vlmMst2) * EPow P2 (EVar vMst2) * EPow P4 (EVar vMst1) + #486 * (#7 + EVar vlmMst1 -
   EVar vlmMst2) * EPow P2 (EVar vMst1) * EPow P4 (EVar vMst2) + #1712 * EPow P6 (EVar vMst1) + #810 * EPow P6 (EVar
   vMst2)) + #97200 * EVar vDmglst2 * EVar vDmsqst2 * (EPow P3 (EVar vDmsqst2) + EPow P6 (EVar vMsq)) * (#2 * (#3 - #5
   * EVar vlmMst1 + #5 * EVar vlmMst2) * EPow P2 (EVar vMst2) * EPow P4 (EVar vMst1) + #13 * EPow P6 (EVar vMst1) - #2
   * ((#5 + #3 * EVar vlmMst1 - #3 * EVar vlmMst2) * EPow P2 (EVar vMst1) * EPow P4 (EVar vMst2) + EPow P6 (EVar
   vMst2))) + #4 * EVar vDmglst2 * (#27 * (#32663 - #7620 * EVar vlmMst1 + #7620 * EVar vlmMst2) * EPow P2 (EVar
   vMst2) * EPow P4 (EVar vMst1) + #135 * (#1799 - #648 * EVar vlmMst1 + #1680 * EVar vlmMst2) * EPow P2 (EVar vMst1)
   * EPow P4 (EVar vMst2) + #4 * (#788723 - #80595 * EVar vlmMst1 + #80595 * EVar vlmMst2) * EPow P6 (EVar vMst1) -
   #22680 * EPow P6 (EVar vMst2)) * EPow P8 (EVar vMsq) - #3 * EVar vMgl * (#12 * (#224837 - #4680 * EVar vlmMst1 +
   #8370 * EVar vlmMst2) * EPow P2 (EVar vMst2) * EPow P4 (EVar vMst1) + #90 * (#5825 + #564 * EVar vlmMst1 - #1104 *
   EVar vlmMst2) * EPow P2 (EVar vMst1) * EPow P4 (EVar vMst2) + (#3447379 - #76140 * EVar vlmMst1 + #76140 * EVar
   vlmMst2) * EPow P6 (EVar vMst1) - #20520 * EPow P6 (EVar vMst2)) * EPow P8 (EVar vMsq)) + EVar vs2t * (#6 * EVar
   vMst2 * EPow P2 (EVar vMt) * (#100 * (EPow P4 (EVar vDmsqst2) * (#1296 * EVar vDmglst2 * EPow P2 (EVar vMst2) * (#5
   * EPow P2 (EVar vMst1) * EPow P2 (EVar vMst2) + #9 * EPow P4 (EVar vMst1) + EPow P4 (EVar vMst2)) + EVar vMgl * (-
   #8883 * EPow P2 (EVar vMst2) * EPow P4 (EVar vMst1) - #4212 * EPow P2 (EVar vMst1) * EPow P4 (EVar vMst2) + #4057 *
   EPow P6 (EVar vMst1) - #1620 * EPow P6 (EVar vMst2))) + EVar vDmsqst2 * EPow P6 (EVar vMsq) * (#1296 * EVar
   vDmglst2 * EPow P2 (EVar vMst2) * (#5 * EPow P2 (EVar vMst1) * EPow P2 (EVar vMst2) + #9 * EPow P4 (EVar vMst1) +
   EPow P4 (EVar vMst2)) + EVar vMgl * (#3249 * EPow P2 (EVar vMst2) * EPow P4 (EVar vMst1) + #1431 * EPow P2 (EVar
   vMst1) * EPow P4 (EVar vMst2) + #4057 * EPow P6 (EVar vMst1) - #648 * EPow P6 (EVar vMst2)))) + (EVar vMgl * (#3 *
   (#623599 + #65160 * EVar vlmMst1 - #134280 * EVar vlmMst2) * EPow P2 (EVar vMst2) * EPow P4 (EVar vMst1) + #9 *
   (#1367 + #13560 * EVar vlmMst1 - #36600 * EVar vlmMst2) * EPow P2 (EVar vMst1) * EPow P4 (EVar vMst2) + (#5161826 +
   #406080 * EVar vlmMst1 - #613440 * EVar vlmMst2) * EPow P6 (EVar vMst1) - #41040 * EPow P6 (EVar vMst2)) - #24 *
   EVar vDmglst2 * (#6 * (#19579 + #1770 * EVar vlmMst1 + #12630 * EVar vlmMst2) * EPow P2 (EVar vMst2) * EPow P4
   (EVar vMst1) + #6 * (#4429 - #270 * EVar vlmMst1 + #8910 * EVar vlmMst2) * EPow P2 (EVar vMst1) * EPow P4 (EVar
   vMst2) + (#510139 + #44280 * EVar vlmMst1 + #76680 * EVar vlmMst2) * EPow P6 (EVar vMst1) - #2520 * EPow P6 (EVar
   vMst2))) * EPow P8 (EVar vMsq)) + #9720 * EVar vMgl * EPow P5 (EVar vMst2) * (- (EVar vshiftst3 * EPow P2 (EVar
   vMst2) * (#4 * EPow P2 (EVar vMt) + ((#1 + EVar vlmMst1 - EVar vlmMst2) * EPow P2 (EVar vMst1) - EPow P2 (EVar
   vMst2)) * EPow P2 (EVar vs2t)) * EPow P8 (EVar vMsq)) - #10 * EVar vshiftst1 * (- #4 * EPow P2 (EVar vMst1) * EPow
   P2 (EVar vMt) + #4 * EPow P2 (EVar vMst2) * EPow P2 (EVar vMt) + #2 * (EVar vlmMst1 - EVar vlmMst2) * EPow P2 (EVar
   vMst1) * EPow P2 (EVar vMst2) * EPow P2 (EVar vs2t) + EPow P2 (EVar vs2t) * (EPow P4 (EVar vMst1) - EPow P4 (EVar
   vMst2))) * (EPow P4 (EVar vDmsqst2) + EVar vDmsqst2 * EPow P6 (EVar vMsq) + EPow P8 (EVar vMsq)))) + EPow P2 (EVar
   vMst1) * (- #9 * EVar vMt * EPow P2 (EVar vMst2) * EPow P2 (EVar vs2t) * (#2 * EPow P4 (EVar vMst1) * (#32400 *
   EVar vDmsqst2 * (EVar vDmglst2 * (#17 - #12 * EVar vlmMst1 + #12 * EVar vlmMst2) + (#5 + #4 * EVar vlmMst1 - #4 *
   EVar vlmMst2) * EVar vMgl) * (EPow P3 (EVar vDmsqst2) + EPow P6 (EVar vMsq)) + (EVar vDmglst2 * (EDec
   28335316666666665 10 - #806760 * EVar vlmMst1 + #966600 * EVar vlmMst2) + (#30643 + #217080 * EVar vlmMst1 -
   #212760 * EVar vlmMst2) * EVar vMgl) * EPow P8 (EVar vMsq)) + #15 * EPow P2 (EVar vMst1) * EPow P2 (EVar vMst2) *
   (#8640 * ((#6 + #5 * EVar vlmMst1 - #5 * EVar vlmMst2) * EVar vMgl * EPow P4 (EVar vDmsqst2) + EVar vDmsqst2 * (#3
   + #2 * EVar vlmMst1 - #2 * EVar vlmMst2) * EVar vMgl * EPow P6 (EVar vMsq) - #3 * EVar vDmglst2 * EVar vDmsqst2 *
   (- #1 + #2 * EVar vlmMst1 - #2 * EVar vlmMst2) * (EPow P3 (EVar vDmsqst2) + EPow P6 (EVar vMsq))) + (EVar vDmglst2
   * (EDec 1870646 1 - #55800 * EVar vlmMst1 + #77112 * EVar vlmMst2) + (#11075 + #17928 * EVar vlmMst1 - #17352 *
   EVar vlmMst2) * EVar vMgl) * EPow P8 (EVar vMsq)) - #135 * EPow P4 (EVar vMst2) * (#480 * (EVar vDmglst2 * (#4 + #6
   * EVar vlmMst1 - #6 * EVar vlmMst2) + (- #13 - #5 * EVar vlmMst1 + #5 * EVar vlmMst2) * EVar vMgl) * EPow P4 (EVar
   vDmsqst2) + #960 * EVar vDmsqst2 * (EVar vDmglst2 * (#2 + #3 * EVar vlmMst1 - #3 * EVar vlmMst2) + (- #2 - EVar
   vlmMst1 + EVar vlmMst2) * EVar vMgl) * EPow P6 (EVar vMsq) + (EVar vDmglst2 * (- EDec 11596466666666667 12 + #1672
   * EVar vlmMst1 - #4584 * EVar vlmMst2) + (- #2269 - #664 * EVar vlmMst1 + #56 * EVar vlmMst2) * EVar vMgl) * EPow
   P8 (EVar vMsq))) + #12 * EPow P3 (EVar vMt) * (#4 * (EVar vDmglst2 * (#13463149 - #1492020 * EVar vlmMst1 +
   #2713500 * EVar vlmMst2 - #625320 * EVar vlmMt) + #3 * (- #1077991 + #184140 * EVar vlmMst1 - #400140 * EVar
   vlmMst2 + #8640 * EVar vlmMt) * EVar vMgl) * EPow P4 (EVar vMst1) * EPow P8 (EVar vMsq) / #3 + #24 * EPow P2 (EVar
   vMst1) * EPow P2 (EVar vMst2) * (#10800 * EVar vDmsqst2 * (- #5 * EVar vDmglst2 * (- #3 + EVar vlmMst1 - #2 * EVar
   vlmMst2 + EVar vlmMt) + (- #1 + EVar vlmMst1 - #2 * EVar vlmMst2 + EVar vlmMt) * EVar vMgl) * (EPow P3 (EVar
   vDmsqst2) + EPow P6 (EVar vMsq)) + (#3 * EVar vDmglst2 * (#67843 - #10050 * EVar vlmMst1 + #17490 * EVar vlmMst2 -
   #7560 * EVar vlmMt) + #2 * (- #41936 + #7245 * EVar vlmMst1 - #19665 * EVar vlmMst2 + #720 * EVar vlmMt) * EVar
   vMgl) * EPow P8 (EVar vMsq)) - #9 * EPow P4 (EVar vMst2) * (- #15 * EVar vDmglst2 * (#960 * EVar vDmsqst2 * (#8 +
   #6 * EVar vlmMst2 - #3 * (EVar vlmMst1 + EVar vlmMt)) * (EPow P3 (EVar vDmsqst2) + EPow P6 (EVar vMsq)) + (- #1672
   * EVar vlmMst1 + #1448 * EVar vlmMst2 + #59 * (#55 - #32 * EVar vlmMt)) * EPow P8 (EVar vMsq)) + EVar vMgl * (#7200
   * (#6 + #10 * EVar vlmMst2 - #5 * (EVar vlmMst1 + EVar vlmMt)) * EPow P4 (EVar vDmsqst2) - #14400 * EVar vDmsqst2 *
   (EVar vlmMst1 - #2 * EVar vlmMst2 + EVar vlmMt) * EPow P6 (EVar vMsq) + (#66773 - #9960 * EVar vlmMst1 + #45480 *
   EVar vlmMst2 - #3840 * EVar vlmMt) * EPow P8 (EVar vMsq)))))) + #2 * (EPow P2 (EVar vs2t) * (#12150 * EVar vDmsqst2
   * EPow P2 (EVar vSbeta) * EPow P4 (EVar vMst2) * ((- #6 * (#11 + #10 * EVar vlmMst1 - #10 * EVar vlmMst2) * EVar
   vMgl * EVar vMst2 * EVar vs2t * (- #1 + EPow P2 (EVar vSbeta)) + (EVar vDmglst2 * (#372 - #40 * EVar vlmMst1 + #40
   * EVar vlmMst2) + #9 * (- #17 + #2 * EVar vlmMst1 - #2 * EVar vlmMst2) * EVar vMgl) * EVar vMt * EPow P2 (EVar
   vSbeta)) * EPow P3 (EVar vDmsqst2) + #4 * EVar vDmglst2 * (#93 - #10 * EVar vlmMst1 + #10 * EVar vlmMst2) * EVar
   vMt * EPow P2 (EVar vSbeta) * EPow P6 (EVar vMsq)) * EPow P6 (EVar vMst1) + EVar vMt * EPow P2 (EVar vMst2) *
   (#12150 * EPow P2 (EVar vMst2) * EPow P2 (EVar vSbeta) * (#9 * (#17 - #2 * EVar vlmMst1 + #2 * EVar vlmMst2) * EVar
   vMgl * EPow P4 (EVar vDmsqst2) + #4 * EVar vDmglst2 * EVar vDmsqst2 * (- #93 + #10 * EVar vlmMst1 - #10 * EVar
   vlmMst2) * (EPow P3 (EVar vDmsqst2) + EPow P6 (EVar vMsq))) * EPow P6 (EVar vMst1) + EPow P2 (EVar vMuSUSY) * (#300
   * (EVar vDmsqst2 * EPow P6 (EVar vMsq) * (#648 * EVar vDmglst2 * EPow P2 (EVar vMst2) * (#3 * (#2 + EVar vlmMst1 -
   EVar vlmMst2) * EPow P2 (EVar vMst1) * EPow P2 (EVar vMst2) + (#3 + #8 * EVar vlmMst1 - #8 * EVar vlmMst2) * EPow
   P4 (EVar vMst1) + EPow P4 (EVar vMst2)) + EVar vMgl * (#9 * (#1097 - #72 * EVar vlmMst1 + #72 * EVar vlmMst2) *
   EPow P2 (EVar vMst2) * EPow P4 (EVar vMst1) + #1431 * EPow P2 (EVar vMst1) * EPow P4 (EVar vMst2) + (#20701 - #648
   * EVar vlmMst1 + #648 * EVar vlmMst2) * EPow P6 (EVar vMst1) - #324 * EPow P6 (EVar vMst2))) + EPow P4 (EVar
   vDmsqst2) * (#648 * EVar vDmglst2 * EPow P2 (EVar vMst2) * (#3 * (#2 + EVar vlmMst1 - EVar vlmMst2) * EPow P2 (EVar
   vMst1) * EPow P2 (EVar vMst2) + (#3 + #8 * EVar vlmMst1 - #8 * EVar vlmMst2) * EPow P4 (EVar vMst1) + EPow P4 (EVar
   vMst2)) - EVar vMgl * (#9 * (#587 + #288 * EVar vlmMst1 - #288 * EVar vlmMst2) * EPow P2 (EVar vMst2) * EPow P4
   (EVar vMst1) + #162 * (#26 + #3 * EVar vlmMst1 - #3 * EVar vlmMst2) * EPow P2 (EVar vMst1) * EPow P4 (EVar vMst2) +
   (- #20701 + #648 * EVar vlmMst1 - #648 * EVar vlmMst2) * EPow P6 (EVar vMst1) + #810 * EPow P6 (EVar vMst2)))) + (-
   #4 * EVar vDmglst2 * (#162 * (#6803 - #1810 * EVar vlmMst1 + #2670 * EVar vlmMst2) * EPow P2 (EVar vMst2) * EPow P4
   (EVar vMst1) + #135 * (#1631 - #648 * EVar vlmMst1 + #1680 * EVar vlmMst2) * EPow P2 (EVar vMst1) * EPow P4 (EVar
   vMst2) + (#4256978 - #615600 * EVar vlmMst1 + #754920 * EVar vlmMst2) * EPow P6 (EVar vMst1) - #22680 * EPow P6
   (EVar vMst2)) + #3 * EVar vMgl * (#6 * (#533629 - #900 * EVar vlmMst1 + #180 * EVar vlmMst2) * EPow P2 (EVar vMst2)
   * EPow P4 (EVar vMst1) + #90 * (#5597 + #564 * EVar vlmMst1 - #1104 * EVar vlmMst2) * EPow P2 (EVar vMst1) * EPow
   P4 (EVar vMst2) + (#6649153 - #81540 * EVar vlmMst1 + #77220 * EVar vlmMst2) * EPow P6 (EVar vMst1) - #20520 * EPow
   P6 (EVar vMst2))) * EPow P8 (EVar vMsq)))) + #6 * EVar vMt * EPow P2 (EVar vMuSUSY) * (- #1620 * EVar vMgl * EPow
   P2 (EVar vMst2) * EPow P2 (EVar vs2t) * (EVar vshiftst3 * (#2 * (#1 - #2 * EVar vlmMst1 + #2 * EVar vlmMst2) * EPow
   P2 (EVar vMst2) * EPow P4 (EVar vMst1) + #2 * (#1 - EVar vlmMst1 + EVar vlmMst2) * EPow P2 (EVar vMst1) * EPow P4
   (EVar vMst2) + (#2 - #6 * EVar vlmMst1 + #6 * EVar vlmMst2) * EPow P6 (EVar vMst1) + EPow P6 (EVar vMst2)) * EPow
   P8 (EVar vMsq) + #10 * EVar vshiftst1 * (EPow P2 (EVar vMst1) * (EPow P4 (EVar vMst2) - #2 * (EVar vlmMst1 - EVar
   vlmMst2) * (EPow P2 (EVar vMst1) * EPow P2 (EVar vMst2) + EPow P4 (EVar vMst1) + EPow P4 (EVar vMst2))) + EPow P6
   (EVar vMst2)) * (EPow P4 (EVar vDmsqst2) + EVar vDmsqst2 * EPow P6 (EVar vMsq) + EPow P8 (EVar vMsq))) + EVar vMt *
   EPow P2 (EVar vMst1) * (#30 * EVar vMt * (#12 * EVar vDmglst2 * EPow P2 (EVar vMst2) * ((#3643 - #120 * EVar
   vlmMst1 + #3192 * EVar vlmMst2) * EPow P2 (EVar vMst1) + #192 * (#5 + #6 * EVar vlmMst2) * EPow P2 (EVar vMst2)) +
   EVar vMgl * (#6 * (- #353 + #72 * EVar vlmMst1 + #696 * EVar vlmMst2) * EPow P2 (EVar vMst1) * EPow P2 (EVar vMst2)
   + (- #38401 - #1080 * EVar vlmMst1 + #7992 * EVar vlmMst2) * EPow P4 (EVar vMst1) + #96 * (#53 + #24 * EVar
   vlmMst2) * EPow P4 (EVar vMst2))) * EPow P8 (EVar vMsq) + EVar vMst2 * EVar vs2t * (#2 * (EVar vDmglst2 *
   (#15057833 - #4014360 * EVar vlmMst1 + #5563080 * EVar vlmMst2) + #3 * (#266863 + #396360 * EVar vlmMst1 - #346680
   * EVar vlmMst2) * EVar vMgl) * EPow P4 (EVar vMst1) * EPow P8 (EVar vMsq) / #3 + #9 * EPow P4 (EVar vMst2) * (#7200
   * (#13 + #5 * EVar vlmMst1 - #5 * EVar vlmMst2) * EVar vMgl * EPow P4 (EVar vDmsqst2) + #14400 * EVar vDmsqst2 *
   (#2 + EVar vlmMst1 - EVar vlmMst2) * EVar vMgl * EPow P6 (EVar vMsq) - #14400 * EVar vDmglst2 * EVar vDmsqst2 * (#2
   + #3 * EVar vlmMst1 - #3 * EVar vlmMst2) * (EPow P3 (EVar vDmsqst2) + EPow P6 (EVar vMsq)) + EVar vDmglst2 *
   (#173947 - #25080 * EVar vlmMst1 + #68760 * EVar vlmMst2) * EPow P8 (EVar vMsq) + #15 * (#2269 + #664 * EVar
   vlmMst1 - #56 * EVar vlmMst2) * EVar vMgl * EPow P8 (EVar vMsq)) + #30 * EPow P2 (EVar vMst1) * EPow P2 (EVar
   vMst2) * (#4320 * EVar vDmsqst2 * (EVar vDmglst2 * (#1 - #9 * EVar vlmMst1 + #9 * EVar vlmMst2) + (#5 + #3 * EVar
   vlmMst1 - #3 * EVar vlmMst2) * EVar vMgl) * (EPow P3 (EVar vDmsqst2) + EPow P6 (EVar vMsq)) + (EVar vDmglst2 *
   (EDec 1457164 1 - #35424 * EVar vlmMst1 + #59184 * EVar vlmMst2) + #4 * (#3937 + #2988 * EVar vlmMst1 - #2232 *
   EVar vlmMst2) * EVar vMgl) * EPow P8 (EVar vMsq)))))))) / (EPow P2 (EVar vMst1) * EPow P8 (EVar vMsq))) / (EVar
   vTbeta * EPow P7 (EVar vMst2))) / (#29160 * EPow P2 (EVar vMgl))) + EVar vthreeLoopFlag * EPow P2 (EVar vAl4p) * (-
   (EVar vxDmsqst2 * EPow P2 (EVar vDmsqst2) * (- #9261000 * EVar vMst2 * EVar vMt * EVar vxDmglst2 * EPow P2 (EVar
   vDmglst2) * (EVar vMuSUSY * (- #4 * EPow P2 (EVar vMst1) * EPow P2 (EVar vMst2) * (- #6 * EVar vs2t * (#12 * (#2 +
   #5 * EVar vlmMst1 - #5 * EVar vlmMst2) * EVar vMuSUSY - #41 * EVar vMst2 * EVar vTbeta) * EPow P2 (EVar vMt) + #18
   * EVar vMst2 * EVar vMt * (#2 * (#4 + EVar vlmMst1 - EVar vlmMst2) * EVar vMuSUSY + #3 * (#2 + #5 * EVar vlmMst1 -
   #5 * EVar vlmMst2) * EVar vMst2 * EVar vTbeta) * EPow P2 (EVar vs2t) - #4 * (- #101 + #90 * EVar vlmMst1 - #177 *
   EVar vlmMst2 + #87 * EVar vlmMt) * EVar vTbeta * EPow P3 (EVar vMt) - #9 * (#5 + #2 * EVar vlmMst1 - #2 * EVar
   vlmMst2) * EVar vTbeta * EPow P3 (EVar vMst2) * EPow P3 (EVar vs2t)) - (#36 * EVar vs2t * (#8 * (#8 - #15 * EVar
   vlmMst1 + #15 * EVar vlmMst2) * EVar vMuSUSY + (#65 - #2 * EVar vlmMst1 + #2 * EVar vlmMst2) * EVar vMst2 * EVar
   vTbeta) * EPow P2 (EVar vMt) - #18 * EVar vMst2 * EVar vMt * ((#23 - #42 * EVar vlmMst1 + #42 * EVar vlmMst2) *
   EVar vMuSUSY + #120 * (#1 - EVar vlmMst1 + EVar vlmMst2) * EVar vMst2 * EVar vTbeta) * EPow P2 (EVar vs2t) + EVar
   vTbeta * (#16 * (#497 - #306 * EVar vlmMst1 + #609 * EVar vlmMst2 - #303 * EVar vlmMt) * EPow P3 (EVar vMt) + #9 *
   (#55 - #34 * EVar vlmMst1 + #34 * EVar vlmMst2) * EPow P3 (EVar vMst2) * EPow P3 (EVar vs2t))) * EPow P4 (EVar
   vMst1) + #108 * EVar vs2t * (- #2 * EVar vMt * EVar vMuSUSY * EVar vs2t - #4 * EVar vTbeta * EPow P2 (EVar vMt) +
   EVar vTbeta * EPow P2 (EVar vMst2) * EPow P2 (EVar vs2t)) * EPow P5 (EVar vMst2)) + EPow P2 (EVar vs2t) * (#54 *
   (#80 - #43 * EVar vlmMst1 + #43 * EVar vlmMst2) * EVar vMt * EVar vMuSUSY * EVar vTbeta + (- #419 + #57 * EVar
   vlmMst1 - #57 * EVar vlmMst2) * EVar vMst2 * EVar vMuSUSY * EVar vs2t * EVar vTbeta + #3 * (- #1081 + #165 * EVar
   vlmMst1 - #165 * EVar vlmMst2) * EVar vMst2 * EVar vMt * (- #1 + EPow P2 (EVar vSbeta)) * EPow P2 (EVar vSbeta)) *
   EPow P6 (EVar vMst1)) / EVar vTbeta + EVar vMgl * (EVar vMt * EVar vMuSUSY * (- #166698000 * (#2 - EVar vlmMst2) *
   EVar vMgl * EVar vs2t * EVar vshiftst1 * (- #4 * EPow P2 (EVar vMst1) * EPow P2 (EVar vMt) + #4 * EPow P2 (EVar
   vMst2) * EPow P2 (EVar vMt) + #2 * (EVar vlmMst1 - EVar vlmMst2) * EPow P2 (EVar vMst1) * EPow P2 (EVar vMst2) *
   EPow P2 (EVar vs2t) + EPow P2 (EVar vs2t) * (EPow P4 (EVar vMst1) - EPow P4 (EVar vMst2))) * EPow P4 (EVar vMst2) +
   #2058000 * EPow P2 (EVar vMst1) * (#18 * EVar vMst2 * (#4 * EVar vDmglst2 * ((#497 - #306 * EVar vlmMst1 + #609 *
   EVar vlmMst2 - #303 * EVar vlmMt) * EPow P2 (EVar vMst1) + (#101 - #90 * EVar vlmMst1 + #177 * EVar vlmMst2 - #87 *
   EVar vlmMt) * EPow P2 (EVar vMst2)) + #9 * EVar vMgl * (#4 * (#1 + #6 * EVar vlmMst1 - #13 * EVar vlmMst2 + #7 *
   EVar vlmMt) * EPow P2 (EVar vMst1) + (#16 + #16 * EVar vlmMst1 - #35 * EVar vlmMst2 + #19 * EVar vlmMt) * EPow P2
   (EVar vMst2))) * EPow P3 (EVar vMt) + #6 * EVar vMgl * EConst CT1ep * EPow P2 (EVar vMst2) * EPow P3 (EVar vs2t) *
   (#19 * EPow P2 (EVar vMst1) * (EPow P2 (EVar vMst1) + EPow P2 (EVar vMst2)) + #6 * EPow P4 (EVar vMst2)) - #4 *
   EVar vMgl * EVar vs2t * EConst CT1ep * EPow P2 (EVar vMt) * (#21 * EPow P2 (EVar vMst1) * EPow P2 (EVar vMst2) +
   #53 * EPow P4 (EVar vMst1) + #18 * EPow P4 (EVar vMst2)) - #243 * EVar vMst2 * EVar vMt * EPow P2 (EVar vs2t) *
   (#40 * EVar vDmglst2 * (#1 - EVar vlmMst1 + EVar vlmMst2) * EPow P2 (EVar vMst1) * EPow P2 (EVar vMst2) + EVar
   vDmglst2 * (#80 - #43 * EVar vlmMst1 + #43 * EVar vlmMst2) * EPow P4 (EVar vMst1) + (- #4 + #9 * EVar vlmMst1 - #9
   * EVar vlmMst2) * EVar vMgl * EPow P4 (EVar vMst1) - #4 * EVar vDmglst2 * (#2 + #5 * EVar vlmMst1 - #5 * EVar
   vlmMst2) * EPow P4 (EVar vMst2) + #2 * EVar vMgl * ((#1 + #8 * EVar vlmMst1 - #8 * EVar vlmMst2) * EPow P2 (EVar
   vMst1) * EPow P2 (EVar vMst2) + (#5 + #4 * EVar vlmMst1 - #4 * EVar vlmMst2) * EPow P4 (EVar vMst2)))) + #3 * EPow
   P2 (EVar vMst2) * EPow P3 (EVar vs2t) * (#3087000 * EVar vDmglst2 * (#9 * (#55 - #34 * EVar vlmMst1 + #34 * EVar
   vlmMst2) * EPow P2 (EVar vMst2) * EPow P4 (EVar vMst1) - #36 * (#5 + #2 * EVar vlmMst1 - #2 * EVar vlmMst2) * EPow
   P2 (EVar vMst1) * EPow P4 (EVar vMst2) + (#419 - #57 * EVar vlmMst1 + #57 * EVar vlmMst2) * EPow P6 (EVar vMst1) -
   #108 * EPow P6 (EVar vMst2)) + EVar vMgl * (#1715 * (#192439 - #30400 * EConst COepS2 - #837000 * EConst CS2 - #180
   * EVar vlmMst2 * (#857 + #3420 * EConst CS2) + #180 * EVar vlmMst1 * (#677 + #180 * EVar vlmMst2 + #3420 * EConst
   CS2) - #16200 * (EPow P2 (EVar vlmMst1) + EPow P2 (EVar vlmMst2))) * EPow P2 (EVar vMst2) * EPow P4 (EVar vMst1) +
   #128625 * (#8555 - #128 * EConst COepS2 - #57024 * EConst CS2 - #72 * EVar vlmMst2 * (#29 + #36 * EConst CS2) + #72
   * EVar vlmMst1 * (#29 - #12 * EVar vlmMst2 + #36 * EConst CS2) + #864 * EPow P2 (EVar vlmMst2)) * EPow P2 (EVar
   vMst1) * EPow P4 (EVar vMst2) - #2 * (#55313478 + #26068000 * EConst COepS2 + #563377500 * EConst CS2 + #315 * EVar
   vlmMst2 * (- #423553 + #1675800 * EConst CS2) - #315 * EVar vlmMst1 * (- #423553 + #166320 * EVar vlmMst2 +
   #1675800 * EConst CS2) + #26195400 * (EPow P2 (EVar vlmMst1) + EPow P2 (EVar vlmMst2))) * EPow P6 (EVar vMst1) +
   #27783000 * (#1 + #2 * EVar vlmMst2) * EPow P6 (EVar vMst2))) + #4 * EVar vs2t * EPow P2 (EVar vMt) * (#27783000 *
   EVar vDmglst2 * EPow P2 (EVar vMst2) * (#82 * EPow P2 (EVar vMst1) * EPow P2 (EVar vMst2) + (#195 - #6 * EVar
   vlmMst1 + #6 * EVar vlmMst2) * EPow P4 (EVar vMst1) + #36 * EPow P4 (EVar vMst2)) - EVar vMgl * (#5145 * (#279089 -
   #5600 * EConst COepS2 + #1260 * EVar vlmMst2 * (#29 - #90 * EConst CS2) + #812700 * EConst CS2 + #180 * EVar
   vlmMst1 * (- #203 + #90 * EVar vlmMst2 + #630 * EConst CS2) - #8100 * (EPow P2 (EVar vlmMst1) + EPow P2 (EVar
   vlmMst2))) * EPow P2 (EVar vMst2) * EPow P4 (EVar vMst1) + #385875 * (#3655 - #64 * EConst COepS2 + #8424 * EConst
   CS2 + #144 * EVar vlmMst1 * (#1 + #9 * EConst CS2) - #144 * EVar vlmMst2 * (#4 + #9 * EConst CS2)) * EPow P2 (EVar
   vMst1) * EPow P4 (EVar vMst2) + (#1094369501 - #72716000 * EConst COepS2 + #2520 * EVar vlmMst2 * (#235453 -
   #584325 * EConst CS2) + #5940931500 * EConst CS2 + #2520 * EVar vlmMst1 * (- #235453 + #114345 * EVar vlmMst2 +
   #584325 * EConst CS2) - #144074700 * (EPow P2 (EVar vlmMst1) + EPow P2 (EVar vlmMst2))) * EPow P6 (EVar vMst1) +
   #83349000 * (#1 + #2 * EVar vlmMst2) * EPow P6 (EVar vMst2)))) - #10 * EVar vMt * EVar vs2t * (- #411600 * EVar vMt
   * EPow P2 (EVar vMuSUSY) * (#648 * EVar vDmglst2 * EVar vMst2 * EVar vMt * EPow P2 (EVar vMst1) * ((#8 - #15 * EVar
   vlmMst1 + #15 * EVar vlmMst2) * EPow P2 (EVar vMst1) + (- #2 - #5 * EVar vlmMst1 + #5 * EVar vlmMst2) * EPow P2
   (EVar vMst2)) + EVar vMgl * (#9 * (#36 * (#5 + #4 * EVar vlmMst1 - #4 * EVar vlmMst2) * EVar vMt - EVar vMst2 *
   EVar vs2t * (#9 * (- #1 + #2 * EVar vlmMst1 - #2 * EVar vlmMst2) * (- #2 + EVar vlmMst2) * EVar vshiftst1 + #4 *
   EConst CT1ep)) * EPow P2 (EVar vMst1) * EPow P3 (EVar vMst2) + #6 * EVar vMst2 * (#108 * (#1 + #3 * EVar vlmMst1 -
   #3 * EVar vlmMst2) * EVar vMt + EVar vMst2 * EVar vs2t * (- #54 * EVar vlmMst2 * EVar vshiftst1 - #25 * EConst
   CT1ep + #27 * EVar vshiftst1 * (- (EVar vlmMst1 * (- #2 + EVar vlmMst2)) + EPow P2 (EVar vlmMst2)))) * EPow P4
   (EVar vMst1) - EVar vs2t * (#81 * (EVar vlmMst1 - EVar vlmMst2) * (- #3 + #2 * EVar vlmMst2) * EVar vshiftst1 +
   #442 * EConst CT1ep) * EPow P6 (EVar vMst1) + #81 * (- #2 + EVar vlmMst2) * EVar vs2t * EVar vshiftst1 * EPow P6
   (EVar vMst2))) + EVar vs2t * (- #694575 * EPow P2 (EVar vMst2) * EPow P2 (EVar vSbeta) * (- #6 * (#11 + #39 * EVar
   vlmMst1 - #39 * EVar vlmMst2) * EVar vMgl * EVar vMst2 * EVar vs2t * (- #1 + EPow P2 (EVar vSbeta)) + (EVar
   vDmglst2 * (#4324 - #660 * EVar vlmMst1 + #660 * EVar vlmMst2) + #3 * (- #167 + #5 * EVar vlmMst1 - #5 * EVar
   vlmMst2) * EVar vMgl) * EVar vMt * EPow P2 (EVar vSbeta)) * EPow P6 (EVar vMst1) + EVar vMt * (#694575 * (EVar
   vDmglst2 * (#4324 - #660 * EVar vlmMst1 + #660 * EVar vlmMst2) + #3 * (- #167 + #5 * EVar vlmMst1 - #5 * EVar
   vlmMst2) * EVar vMgl) * EPow P2 (EVar vMst2) * EPow P2 (EVar vSbeta) * EPow P6 (EVar vMst1) + EPow P2 (EVar
   vMuSUSY) * (#16669800 * EVar vDmglst2 * EPow P2 (EVar vMst2) * (- #8 * (#4 + EVar vlmMst1 - EVar vlmMst2) * EPow P2
   (EVar vMst1) * EPow P2 (EVar vMst2) + (#23 - #42 * EVar vlmMst1 + #42 * EVar vlmMst2) * EPow P4 (EVar vMst1) - #12
   * EPow P4 (EVar vMst2)) + EVar vMgl * (- #4116 * (#45 * EVar vlmMst1 * (- #1547 + #180 * EVar vlmMst2 - #4500 *
   EConst CS2) + #45 * EVar vlmMst2 * (#1547 + #4500 * EConst CS2) + #2 * (- #106283 + #5000 * EConst COepS2 + #639225
   * EConst CS2) + #4050 * EPow P2 (EVar vlmMst1) - #12150 * EPow P2 (EVar vlmMst2)) * EPow P2 (EVar vMst2) * EPow P4
   (EVar vMst1) + #77175 * (#8771 - #128 * EConst COepS2 - #57024 * EConst CS2 - #72 * EVar vlmMst2 * (#23 + #36 *
   EConst CS2) + #72 * EVar vlmMst1 * (#29 - #12 * EVar vlmMst2 + #36 * EConst CS2) + #864 * EPow P2 (EVar vlmMst2)) *
   EPow P2 (EVar vMst1) * EPow P4 (EVar vMst2) + #2 * (#593331163 - #60642400 * EConst COepS2 + #1260 * EVar vlmMst2 *
   (#8263 - #974610 * EConst CS2) + #1143733500 * EConst CS2 + #1260 * EVar vlmMst1 * (- #8263 + #71820 * EVar vlmMst2
   + #974610 * EConst CS2) - #61916400 * EPow P2 (EVar vlmMst1) - #28576800 * EPow P2 (EVar vlmMst2)) * EPow P6 (EVar
   vMst1) + #16669800 * (#1 + #2 * EVar vlmMst2) * EPow P6 (EVar vMst2)))))) / EVar vTbeta))) / (#50009400 * EPow P2
   (EVar vMgl) * EPow P2 (EVar vMst1) * EPow P4 (EVar vMsq) * EPow P4 (EVar vMst2)) + (EVar vMt * (#15 * (#8 * EVar
   vMuSUSY * EConst Cz4 * (EVar vDmglst2 * EVar vMst2 * (EVar vMgl * ((- #16 * EVar vs2t * (#659 * EVar vMuSUSY +
   #6813 * EVar vMst2 * EVar vTbeta) * EPow P2 (EVar vMt) - #2 * EVar vMst2 * EVar vMt * (#45308 * EVar vMuSUSY +
   #15189 * EVar vMst2 * EVar vTbeta) * EPow P2 (EVar vs2t) + #228304 * EVar vTbeta * EPow P3 (EVar vMt) + #25328 *
   EVar vTbeta * EPow P3 (EVar vMst2) * EPow P3 (EVar vs2t)) * EPow P4 (EVar vMst1) + #27 * EPow P3 (EVar vMst2) * (-
   #4 * (EVar vMst2 * EVar vs2t * (#271 * EVar vMuSUSY - #216 * EVar vMst2 * EVar vTbeta) + EVar vMt * (#216 * EVar
   vMuSUSY + #253 * EVar vMst2 * EVar vTbeta)) * EPow P2 (EVar vMt) + EVar vMt * (- #848 * EVar vMuSUSY + #813 * EVar
   vMst2 * EVar vTbeta) * EPow P2 (EVar vMst2) * EPow P2 (EVar vs2t) + #424 * EVar vTbeta * EPow P3 (EVar vs2t) * EPow
   P4 (EVar vMst2)) + #9 * EVar vMst2 * EPow P2 (EVar vMst1) * (#8 * EVar vMst2 * EVar vs2t * (- #709 * EVar vMuSUSY +
   #24 * EVar vMst2 * EVar vTbeta) * EPow P2 (EVar vMt) + #15 * EVar vMt * (- #296 * EVar vMuSUSY + #121 * EVar vMst2
   * EVar vTbeta) * EPow P2 (EVar vMst2) * EPow P2 (EVar vs2t) - #96 * (#47 * EVar vMuSUSY - #26 * EVar vMst2 * EVar
   vTbeta) * EPow P3 (EVar vMt) + #948 * EVar vTbeta * EPow P3 (EVar vs2t) * EPow P4 (EVar vMst2))) + EVar vDmglst2 *
   EVar vxDmglst2 * ((- #16 * EVar vs2t * (#659 * EVar vMuSUSY + #6813 * EVar vMst2 * EVar vTbeta) * EPow P2 (EVar
   vMt) - #2 * EVar vMst2 * EVar vMt * (#45308 * EVar vMuSUSY + #15189 * EVar vMst2 * EVar vTbeta) * EPow P2 (EVar
   vs2t) + #228304 * EVar vTbeta * EPow P3 (EVar vMt) + #25328 * EVar vTbeta * EPow P3 (EVar vMst2) * EPow P3 (EVar
   vs2t)) * EPow P4 (EVar vMst1) + #9 * EPow P3 (EVar vMst2) * (- #4 * (EVar vMst2 * EVar vs2t * (#1249 * EVar vMuSUSY
   - #846 * EVar vMst2 * EVar vTbeta) + EVar vMt * (#972 * EVar vMuSUSY + #871 * EVar vMst2 * EVar vTbeta)) * EPow P2
   (EVar vMt) + EVar vMt * (- #8888 * EVar vMuSUSY + #3747 * EVar vMst2 * EVar vTbeta) * EPow P2 (EVar vMst2) * EPow
   P2 (EVar vs2t) + #4444 * EVar vTbeta * EPow P3 (EVar vs2t) * EPow P4 (EVar vMst2)) + #3 * EVar vMst2 * EPow P2
   (EVar vMst1) * (- #16 * (EVar vMst2 * EVar vs2t * (#3086 * EVar vMuSUSY + #261 * EVar vMst2 * EVar vTbeta) + EVar
   vMt * (#1353 * EVar vMuSUSY + #1730 * EVar vMst2 * EVar vTbeta)) * EPow P2 (EVar vMt) + EVar vMt * (- #43276 * EVar
   vMuSUSY + #25791 * EVar vMst2 * EVar vTbeta) * EPow P2 (EVar vMst2) * EPow P2 (EVar vs2t) + #8306 * EVar vTbeta *
   EPow P3 (EVar vs2t) * EPow P4 (EVar vMst2)))) * EPow P8 (EVar vMsq) + #3 * EPow P2 (EVar vMgl) * (#20 * EVar
   vDmsqst2 * EVar vs2t * EPow P2 (EVar vMst2) * (EPow P2 (EVar vMst1) * (#9 * EPow P2 (EVar vMst2) * (- #2 * EVar vMt
   * EVar vMuSUSY * EVar vs2t - #6 * EVar vTbeta * EPow P2 (EVar vMt) + EVar vTbeta * EPow P2 (EVar vMst2) * EPow P2
   (EVar vs2t)) + EPow P2 (EVar vMst1) * (#442 * EVar vMt * EVar vMuSUSY * EVar vs2t + #106 * EVar vTbeta * EPow P2
   (EVar vMt) + #37 * EVar vTbeta * EPow P2 (EVar vMst2) * EPow P2 (EVar vs2t))) * EPow P3 (EVar vDmsqst2) + EPow P6
   (EVar vMsq) * (#18 * EPow P2 (EVar vMst1) * EPow P2 (EVar vMst2) * (#13 * EVar vMt * EVar vMuSUSY * EVar vs2t + #5
   * EVar vTbeta * EPow P2 (EVar vMt) - #5 * EVar vTbeta * EPow P2 (EVar vMst2) * EPow P2 (EVar vs2t)) + #2 * (#221 *
   EVar vMt * EVar vMuSUSY * EVar vs2t + #53 * EVar vTbeta * EPow P2 (EVar vMt) - #52 * EVar vTbeta * EPow P2 (EVar
   vMst2) * EPow P2 (EVar vs2t)) * EPow P4 (EVar vMst1) + #54 * EVar vMt * (EVar vMuSUSY * EVar vs2t + EVar vMt * EVar
   vTbeta) * EPow P4 (EVar vMst2) - #27 * EVar vTbeta * EPow P2 (EVar vs2t) * EPow P6 (EVar vMst2)) + EVar vDmsqst2 *
   EVar vxDmsqst2 * EPow P4 (EVar vMsq) * (#3 * EPow P2 (EVar vMst1) * EPow P2 (EVar vMst2) * (#50 * EVar vMt * EVar
   vMuSUSY * EVar vs2t + #14 * EVar vTbeta * EPow P2 (EVar vMt) - #19 * EVar vTbeta * EPow P2 (EVar vMst2) * EPow P2
   (EVar vs2t)) + (#442 * EVar vMt * EVar vMuSUSY * EVar vs2t + #106 * EVar vTbeta * EPow P2 (EVar vMt) - #57 * EVar
   vTbeta * EPow P2 (EVar vMst2) * EPow P2 (EVar vs2t)) * EPow P4 (EVar vMst1) + #36 * EVar vMt * (EVar vMuSUSY * EVar
   vs2t + EVar vMt * EVar vTbeta) * EPow P4 (EVar vMst2) - #18 * EVar vTbeta * EPow P2 (EVar vs2t) * EPow P6 (EVar
   vMst2))) - (#27 * EPow P4 (EVar vMst2) * (#2 * EVar vMst2 * EVar vs2t * (#170 * EVar vMuSUSY - #101 * EVar vMst2 *
   EVar vTbeta) * EPow P2 (EVar vMt) - #5 * EVar vMt * (#16 * EVar vMuSUSY + #51 * EVar vMst2 * EVar vTbeta) * EPow P2
   (EVar vMst2) * EPow P2 (EVar vs2t) + #4 * (#36 * EVar vMuSUSY + #103 * EVar vMst2 * EVar vTbeta) * EPow P3 (EVar
   vMt) + #40 * EVar vTbeta * EPow P3 (EVar vs2t) * EPow P4 (EVar vMst2)) + #3 * EPow P2 (EVar vMst1) * EPow P2 (EVar
   vMst2) * (#10 * EVar vMst2 * EVar vs2t * (#908 * EVar vMuSUSY - #347 * EVar vMst2 * EVar vTbeta) * EPow P2 (EVar
   vMt) - EVar vMt * (#4552 * EVar vMuSUSY + #4515 * EVar vMst2 * EVar vTbeta) * EPow P2 (EVar vMst2) * EPow P2 (EVar
   vs2t) + #16 * (#225 * EVar vMuSUSY + #326 * EVar vMst2 * EVar vTbeta) * EPow P3 (EVar vMt) + #1916 * EVar vTbeta *
   EPow P3 (EVar vs2t) * EPow P4 (EVar vMst2)) + EPow P4 (EVar vMst1) * (#4 * EVar vMst2 * EVar vs2t * (#11764 * EVar
   vMuSUSY - #6031 * EVar vMst2 * EVar vTbeta) * EPow P2 (EVar vMt) - #2 * EVar vMt * (#13723 * EVar vMuSUSY + #7431 *
   EVar vMst2 * EVar vTbeta) * EPow P2 (EVar vMst2) * EPow P2 (EVar vs2t) + #8 * (#3093 * EVar vMuSUSY + #3326 * EVar
   vMst2 * EVar vTbeta) * EPow P3 (EVar vMt) + #6895 * EVar vTbeta * EPow P3 (EVar vs2t) * EPow P4 (EVar vMst2))) *
   EPow P8 (EVar vMsq))) - EConst Cz3 * (#3 * EPow P2 (EVar vMgl) * (#5 * EVar vxDmsqst2 * EPow P2 (EVar vDmsqst2) *
   EPow P2 (EVar vMst2) * EPow P4 (EVar vMsq) * (#9 * EVar vMuSUSY * EPow P3 (EVar vMst2) * (#4 * EVar vs2t * (#4032 *
   EVar vMuSUSY + #1091 * EVar vMst2 * EVar vTbeta) * EPow P2 (EVar vMt) - #2 * EVar vMst2 * EVar vMt * (#5507 * EVar
   vMuSUSY + #6048 * EVar vMst2 * EVar vTbeta) * EPow P2 (EVar vs2t) - #13824 * EVar vTbeta * EPow P3 (EVar vMt) +
   #5507 * EVar vTbeta * EPow P3 (EVar vMst2) * EPow P3 (EVar vs2t)) + #3 * EVar vMst2 * EVar vMuSUSY * EPow P2 (EVar
   vMst1) * (#64 * EVar vs2t * (#1512 * EVar vMuSUSY + #247 * EVar vMst2 * EVar vTbeta) * EPow P2 (EVar vMt) - #32 *
   EVar vMst2 * EVar vMt * (#1783 * EVar vMuSUSY + #1620 * EVar vMst2 * EVar vTbeta) * EPow P2 (EVar vs2t) - #55296 *
   EVar vTbeta * EPow P3 (EVar vMt) + #12007 * EVar vTbeta * EPow P3 (EVar vMst2) * EPow P3 (EVar vs2t)) + #16 * EVar
   vs2t * (#3860 * EVar vMuSUSY * EVar vTbeta * EPow P2 (EVar vMt) + #6 * EPow P2 (EVar vMst2) * EPow P2 (EVar vs2t) *
   (#263 * EVar vMuSUSY * EVar vTbeta - #135 * EVar vMst2 * (- #1 + EPow P2 (EVar vSbeta)) * EPow P2 (EVar vSbeta)) +
   EVar vMt * EVar vs2t * (- #7776 * EVar vMst2 * EVar vMuSUSY * EVar vTbeta + #3542 * EPow P2 (EVar vMuSUSY) + #243 *
   EPow P2 (EVar vMst2) * (- #1 + EPow P2 (EVar vSbeta)) * EPow P2 (EVar vSbeta))) * EPow P4 (EVar vMst1)) + #5 * EPow
   P2 (EVar vMst2) * EPow P4 (EVar vDmsqst2) * (#27 * EVar vMuSUSY * EPow P3 (EVar vMst2) * ((#6912 * EVar vMuSUSY *
   EVar vs2t + #652 * EVar vMst2 * EVar vs2t * EVar vTbeta) * EPow P2 (EVar vMt) - #2 * EVar vMst2 * EVar vMt * (#4771
   * EVar vMuSUSY + #2592 * EVar vMst2 * EVar vTbeta) * EPow P2 (EVar vs2t) - #7680 * EVar vTbeta * EPow P3 (EVar vMt)
   + #4771 * EVar vTbeta * EPow P3 (EVar vMst2) * EPow P3 (EVar vs2t)) + #9 * EVar vMst2 * EVar vMuSUSY * EPow P2
   (EVar vMst1) * (#576 * EVar vs2t * (#56 * EVar vMuSUSY + #5 * EVar vMst2 * EVar vTbeta) * EPow P2 (EVar vMt) - #32
   * EVar vMst2 * EVar vMt * (#1853 * EVar vMuSUSY + #756 * EVar vMst2 * EVar vTbeta) * EPow P2 (EVar vs2t) - #18432 *
   EVar vTbeta * EPow P3 (EVar vMt) + #15335 * EVar vTbeta * EPow P3 (EVar vMst2) * EPow P3 (EVar vs2t)) + #16 * EVar
   vs2t * (#3860 * EVar vMuSUSY * EVar vTbeta * EPow P2 (EVar vMt) + #2 * EPow P2 (EVar vMst2) * EPow P2 (EVar vs2t) *
   (#3823 * EVar vMuSUSY * EVar vTbeta - #1215 * EVar vMst2 * (- #1 + EPow P2 (EVar vSbeta)) * EPow P2 (EVar vSbeta))
   + EVar vMt * EVar vs2t * (- #7776 * EVar vMst2 * EVar vMuSUSY * EVar vTbeta + #3542 * EPow P2 (EVar vMuSUSY) + #729
   * EPow P2 (EVar vMst2) * (- #1 + EPow P2 (EVar vSbeta)) * EPow P2 (EVar vSbeta))) * EPow P4 (EVar vMst1)) - #80 *
   EVar vDmsqst2 * EVar vMuSUSY * EPow P2 (EVar vMst2) * (- #27 * EPow P3 (EVar vMst2) * (#4 * EVar vs2t * (#72 * EVar
   vMuSUSY + #29 * EVar vMst2 * EVar vTbeta) * EPow P2 (EVar vMt) - #2 * EVar vMst2 * EVar vMt * (#23 * EVar vMuSUSY +
   #108 * EVar vMst2 * EVar vTbeta) * EPow P2 (EVar vs2t) - #192 * EVar vTbeta * EPow P3 (EVar vMt) + #23 * EVar
   vTbeta * EPow P3 (EVar vMst2) * EPow P3 (EVar vs2t)) + #18 * EVar vMst2 * EPow P2 (EVar vMst1) * (- #2 * EVar vs2t
   * (#504 * EVar vMuSUSY + #101 * EVar vMst2 * EVar vTbeta) * EPow P2 (EVar vMt) + EVar vMst2 * EVar vMt * (- #35 *
   EVar vMuSUSY + #432 * EVar vMst2 * EVar vTbeta) * EPow P2 (EVar vs2t) + #576 * EVar vTbeta * EPow P3 (EVar vMt) +
   #52 * EVar vTbeta * EPow P3 (EVar vMst2) * EPow P3 (EVar vs2t)) + #2 * EVar vs2t * (- #1771 * EVar vMt * EVar
   vMuSUSY * EVar vs2t + #3888 * EVar vMst2 * EVar vMt * EVar vs2t * EVar vTbeta - #1930 * EVar vTbeta * EPow P2 (EVar
   vMt) + #728 * EVar vTbeta * EPow P2 (EVar vMst2) * EPow P2 (EVar vs2t)) * EPow P4 (EVar vMst1)) * EPow P6 (EVar
   vMsq) + #8 * EVar vMuSUSY * (#2 * EPow P4 (EVar vMst1) * (#2 * EVar vMst2 * EVar vs2t * (#99632 * EVar vMuSUSY +
   #13543 * EVar vMst2 * EVar vTbeta) * EPow P2 (EVar vMt) - #4 * EVar vMt * ((- #91963 - #162 * EVar vlmMst1 + #162 *
   EVar vlmMst2) * EVar vMuSUSY + #4431 * EVar vMst2 * EVar vTbeta) * EPow P2 (EVar vMst2) * EPow P2 (EVar vs2t) +
   (#9012 * EVar vMuSUSY - #428288 * EVar vMst2 * EVar vTbeta) * EPow P3 (EVar vMt) - #76769 * EVar vTbeta * EPow P3
   (EVar vs2t) * EPow P4 (EVar vMst2)) - #3 * EPow P2 (EVar vMst1) * EPow P2 (EVar vMst2) * (#2 * EVar vMst2 * EVar
   vs2t * (- #58544 * EVar vMuSUSY + #1859 * EVar vMst2 * EVar vTbeta) * EPow P2 (EVar vMt) + EVar vMt * (- #4 *
   (#35719 + #108 * EVar vlmMst1 - #108 * EVar vlmMst2) * EVar vMuSUSY + #34131 * EVar vMst2 * EVar vTbeta) * EPow P2
   (EVar vMst2) * EPow P2 (EVar vs2t) - #16 * (#981 * EVar vMuSUSY - #8219 * EVar vMst2 * EVar vTbeta) * EPow P3 (EVar
   vMt) + #4 * (#11924 + #27 * EVar vlmMst1 - #27 * EVar vlmMst2) * EVar vTbeta * EPow P3 (EVar vs2t) * EPow P4 (EVar
   vMst2)) - #9 * EPow P4 (EVar vMst2) * (- #2 * EVar vMst2 * EVar vs2t * (#11930 * EVar vMuSUSY + #9 * (- #77 + #8 *
   EVar vlmMst1 - #8 * EVar vlmMst2) * EVar vMst2 * EVar vTbeta) * EPow P2 (EVar vMt) + #3 * EVar vMt * (- #4 * (#1319
   + #6 * EVar vlmMst1 - #6 * EVar vlmMst2) * EVar vMuSUSY + #5965 * EVar vMst2 * EVar vTbeta) * EPow P2 (EVar vMst2)
   * EPow P2 (EVar vs2t) - #4 * (#920 * EVar vMuSUSY - #2883 * EVar vMst2 * EVar vTbeta) * EPow P3 (EVar vMt) + #6 *
   (#1319 + #6 * EVar vlmMst1 - #6 * EVar vlmMst2) * EVar vTbeta * EPow P3 (EVar vs2t) * EPow P4 (EVar vMst2))) * EPow
   P8 (EVar vMsq)) + #4 * EVar vDmglst2 * EVar vMst2 * (#2 * EVar vMgl * (#9720 * EVar vDmsqst2 * EPow P2 (EVar vMst2)
   * (EVar vMuSUSY * EPow P2 (EVar vMst1) * (- #40 * EVar vMuSUSY * EVar vs2t * EPow P2 (EVar vMt) + #8 * EVar vMst2 *
   EVar vMt * (#2 * EVar vMuSUSY + #3 * EVar vMst2 * EVar vTbeta) * EPow P2 (EVar vs2t) + #160 * EVar vTbeta * EPow P3
   (EVar vMt) - #5 * EVar vTbeta * EPow P3 (EVar vMst2) * EPow P3 (EVar vs2t)) + EVar vMuSUSY * EPow P2 (EVar vMst2) *
   (- #8 * EVar vMuSUSY * EVar vs2t * EPow P2 (EVar vMt) + #6 * EVar vMst2 * EVar vMt * (EVar vMuSUSY + EVar vMst2 *
   EVar vTbeta) * EPow P2 (EVar vs2t) + #48 * EVar vTbeta * EPow P3 (EVar vMt) - #3 * EVar vTbeta * EPow P3 (EVar
   vMst2) * EPow P3 (EVar vs2t)) + EVar vMt * EPow P2 (EVar vs2t) * (#24 * EVar vMuSUSY * EVar vTbeta - #5 * EVar
   vMst2 * (- #1 + EPow P2 (EVar vSbeta)) * EPow P2 (EVar vSbeta)) * EPow P4 (EVar vMst1)) * (EPow P3 (EVar vDmsqst2)
   + EVar vDmsqst2 * EVar vxDmsqst2 * EPow P4 (EVar vMsq) + EPow P6 (EVar vMsq)) + EVar vMuSUSY * (#4 * (#4 * EVar
   vs2t * (#395581 * EVar vMuSUSY + #12627 * EVar vMst2 * EVar vTbeta) * EPow P2 (EVar vMt) + EVar vMst2 * EVar vMt *
   (#706232 * EVar vMuSUSY - #546087 * EVar vMst2 * EVar vTbeta) * EPow P2 (EVar vs2t) + #1668964 * EVar vTbeta * EPow
   P3 (EVar vMt) - #89947 * EVar vTbeta * EPow P3 (EVar vMst2) * EPow P3 (EVar vs2t)) * EPow P4 (EVar vMst1) - #27 *
   EPow P3 (EVar vMst2) * (- #4 * EVar vMst2 * EVar vs2t * (#15137 * EVar vMuSUSY + #878 * EVar vMst2 * EVar vTbeta) *
   EPow P2 (EVar vMt) + EVar vMt * (- #35230 * EVar vMuSUSY + #45411 * EVar vMst2 * EVar vTbeta) * EPow P2 (EVar
   vMst2) * EPow P2 (EVar vs2t) + #4 * (#664 * EVar vMuSUSY - #9 * EVar vMst2 * EVar vTbeta) * EPow P3 (EVar vMt) +
   #17615 * EVar vTbeta * EPow P3 (EVar vs2t) * EPow P4 (EVar vMst2)) - #9 * EVar vMst2 * EPow P2 (EVar vMst1) * (-
   #32 * EVar vMst2 * EVar vs2t * (#11864 * EVar vMuSUSY + #885 * EVar vMst2 * EVar vTbeta) * EPow P2 (EVar vMt) + #3
   * EVar vMt * (- #77976 * EVar vMuSUSY + #49501 * EVar vMst2 * EVar vTbeta) * EPow P2 (EVar vMst2) * EPow P2 (EVar
   vs2t) + #2400 * (#5 * EVar vMuSUSY - #67 * EVar vMst2 * EVar vTbeta) * EPow P3 (EVar vMt) + #64119 * EVar vTbeta *
   EPow P3 (EVar vs2t) * EPow P4 (EVar vMst2))) * EPow P8 (EVar vMsq)) + EVar vDmglst2 * EVar vxDmglst2 * (#19440 *
   EVar vDmsqst2 * EPow P2 (EVar vMst2) * (EVar vMuSUSY * EPow P2 (EVar vMst1) * (- #40 * EVar vMuSUSY * EVar vs2t *
   EPow P2 (EVar vMt) + #8 * EVar vMst2 * EVar vMt * (#2 * EVar vMuSUSY + #3 * EVar vMst2 * EVar vTbeta) * EPow P2
   (EVar vs2t) + #160 * EVar vTbeta * EPow P3 (EVar vMt) - #5 * EVar vTbeta * EPow P3 (EVar vMst2) * EPow P3 (EVar
   vs2t)) + EVar vMuSUSY * EPow P2 (EVar vMst2) * (- #8 * EVar vMuSUSY * EVar vs2t * EPow P2 (EVar vMt) + #6 * EVar
   vMst2 * EVar vMt * (EVar vMuSUSY + EVar vMst2 * EVar vTbeta) * EPow P2 (EVar vs2t) + #48 * EVar vTbeta * EPow P3
   (EVar vMt) - #3 * EVar vTbeta * EPow P3 (EVar vMst2) * EPow P3 (EVar vs2t)) + EVar vMt * EPow P2 (EVar vs2t) * (#24
   * EVar vMuSUSY * EVar vTbeta - #5 * EVar vMst2 * (- #1 + EPow P2 (EVar vSbeta)) * EPow P2 (EVar vSbeta)) * EPow P4
   (EVar vMst1)) * (EPow P3 (EVar vDmsqst2) + EVar vDmsqst2 * EVar vxDmsqst2 * EPow P4 (EVar vMsq) + EPow P6 (EVar
   vMsq)) + EVar vMuSUSY * (#8 * (#4 * EVar vs2t * (#395581 * EVar vMuSUSY + #12627 * EVar vMst2 * EVar vTbeta) * EPow
   P2 (EVar vMt) + EVar vMst2 * EVar vMt * (#706232 * EVar vMuSUSY - #546087 * EVar vMst2 * EVar vTbeta) * EPow P2
   (EVar vs2t) + #1668964 * EVar vTbeta * EPow P3 (EVar vMt) - #89947 * EVar vTbeta * EPow P3 (EVar vMst2) * EPow P3
   (EVar vs2t)) * EPow P4 (EVar vMst1) - #9 * EPow P3 (EVar vMst2) * (- #2 * EVar vMst2 * EVar vMt * EVar vs2t * (EVar
   vMst2 * EVar vs2t * (#228607 * EVar vMuSUSY - #332871 * EVar vMst2 * EVar vTbeta) + EVar vMt * (#443828 * EVar
   vMuSUSY + #177327 * EVar vMst2 * EVar vTbeta)) + #64 * (#2985 * EVar vMuSUSY + #4037 * EVar vMst2 * EVar vTbeta) *
   EPow P3 (EVar vMt) + #228607 * EVar vTbeta * EPow P3 (EVar vs2t) * EPow P4 (EVar vMst2)) - #3 * EVar vMst2 * EPow
   P2 (EVar vMst1) * (- #32 * EVar vMst2 * EVar vs2t * (#152143 * EVar vMuSUSY + #28116 * EVar vMst2 * EVar vTbeta) *
   EPow P2 (EVar vMt) + #2 * EVar vMt * (- #1618352 * EVar vMuSUSY + #827103 * EVar vMst2 * EVar vTbeta) * EPow P2
   (EVar vMst2) * EPow P2 (EVar vs2t) + #8 * (#163668 * EVar vMuSUSY + #221681 * EVar vMst2 * EVar vTbeta) * EPow P3
   (EVar vMt) + #932531 * EVar vTbeta * EPow P3 (EVar vs2t) * EPow P4 (EVar vMst2))) * EPow P8 (EVar vMsq))))) / (EPow
   P2 (EVar vMgl) * EPow P8 (EVar vMsq)) - #4 * EVar vMt * EPow P2 (EVar vMuSUSY) * (#90 * EPow P2 (EVar vMt) * (#12 *
   EVar vDmglst2 * EPow P2 (EVar vMst2) * (EPow P2 (EVar vMst1) * (#28405 - #288 * EConst CB4 + #288 * EConst CD3 -
   #144 * EConst CDN + #5472 * EVar vlmMst1 - #288 * (- #89 + #2 * EVar vlmMst1) * EVar vlmMst2 + #576 * (- #2 + EVar
   vlmMst1 - EVar vlmMst2) * EVar vlmMt + #224 * EConst COepS2 - #324 * (#65 + #14 * EVar vlmMst1 - #14 * EVar
   vlmMst2) * EConst CS2 - #576 * (- #9 + #8 * EVar vlmMst1) * EPow P2 (EVar vlmMst2) + #4608 * EPow P3 (EVar
   vlmMst2)) + #72 * EPow P2 (EVar vMst2) * (#180 - #2 * EConst CB4 + #2 * EConst CD3 - EConst CDN + #144 * EVar
   vlmMst2 - #216 * EConst CS2 - #16 * (- #2 + EVar vlmMst1) * EPow P2 (EVar vlmMst2) + #16 * (EVar vlmMst1 + EPow P3
   (EVar vlmMst2)))) + EVar vMgl * (#18 * EPow P2 (EVar vMst1) * EPow P2 (EVar vMst2) * (#10667 - #96 * EConst CB4 +
   #96 * EConst CD3 - #48 * EConst CDN - #3072 * EVar vlmMst1 - #384 * (- #25 + #9 * EVar vlmMst1) * EVar vlmMst2 -
   #384 * EVar vlmMst1 * EVar vlmMt + #384 * (#1 + EVar vlmMst2) * EVar vlmMt - #224 * EConst COepS2 + #324 * (- #43 +
   #14 * EVar vlmMst1 - #14 * EVar vlmMst2) * EConst CS2 - #384 * (- #13 + #4 * EVar vlmMst1) * EPow P2 (EVar vlmMst2)
   + #1536 * EPow P3 (EVar vlmMst2)) + (#383185 - #2592 * EConst CB4 + #2592 * EConst CD3 - #1296 * EConst CDN -
   #187704 * EVar vlmMst1 - #17440 * EConst COepS2 + #648 * (- #57 + #545 * EVar vlmMst1 - #545 * EVar vlmMst2) *
   EConst CS2 - #7992 * EPow P2 (EVar vlmMst1) - #216 * EVar vlmMst2 * (- #1733 + #630 * EVar vlmMst1 + #26 * EPow P2
   (EVar vlmMst1)) - #216 * (- #859 + #246 * EVar vlmMst1) * EPow P2 (EVar vlmMst2) + #3456 * EVar vlmMt * (#3 + #6 *
   EVar vlmMst2 - #2 * EVar vlmMst1 * (#3 + EVar vlmMst2) + EPow P2 (EVar vlmMst1) + EPow P2 (EVar vlmMst2)) + #720 *
   EPow P3 (EVar vlmMst1) + #58032 * EPow P3 (EVar vlmMst2)) * EPow P4 (EVar vMst1) + #144 * (#436 - #6 * EConst CB4 +
   #6 * EConst CD3 - #3 * EConst CDN - #48 * EVar vlmMst1 + (#408 - #96 * EVar vlmMst1) * EVar vlmMst2 + #24 * EVar
   vlmMt - #972 * EConst CS2 - #48 * (- #4 + EVar vlmMst1) * EPow P2 (EVar vlmMst2) + #48 * EPow P3 (EVar vlmMst2)) *
   EPow P4 (EVar vMst2))) / EVar vMgl - #120 * EConst CT1ep * (#2 * EVar vDmglst2 * EVar vMst2 * (#36 * EVar vMst2 *
   EPow P2 (EVar vMst1) * (#253 * EVar vMst2 * EVar vMt * EVar vs2t + #42 * EPow P2 (EVar vMt) - #129 * EPow P2 (EVar
   vMst2) * EPow P2 (EVar vs2t)) + #2 * EVar vs2t * (#16421 * EVar vMt - #8654 * EVar vMst2 * EVar vs2t) * EPow P4
   (EVar vMst1) + #189 * EVar vs2t * (#5 * EVar vMt - #2 * EVar vMst2 * EVar vs2t) * EPow P4 (EVar vMst2)) / EVar vMgl
   - #3 * (#6 * EPow P2 (EVar vMst1) * EPow P2 (EVar vMst2) * (#272 * EVar vMst2 * EVar vMt * EVar vs2t + #252 * EPow
   P2 (EVar vMt) - #1057 * EPow P2 (EVar vMst2) * EPow P2 (EVar vs2t)) + (#3764 * EVar vMst2 * EVar vMt * EVar vs2t +
   #6540 * EPow P2 (EVar vMt) - #13237 * EPow P2 (EVar vMst2) * EPow P2 (EVar vs2t)) * EPow P4 (EVar vMst1) + #54 *
   EVar vs2t * (#7 * EVar vMt - #23 * EVar vMst2 * EVar vs2t) * EPow P5 (EVar vMst2)) + #60 * EPow P2 (EVar vMst2) *
   EPow P2 (EVar vs2t) * (EPow P4 (EVar vDmsqst2) * (- #9 * EPow P2 (EVar vMst1) * EPow P2 (EVar vMst2) + #221 * EPow
   P4 (EVar vMst1)) + EVar vDmsqst2 * (#117 * EPow P2 (EVar vMst1) * EPow P2 (EVar vMst2) + #221 * EPow P4 (EVar
   vMst1) + #27 * EPow P4 (EVar vMst2)) * EPow P6 (EVar vMsq)) / EPow P8 (EVar vMsq)) - #14580 * EPow P2 (EVar vMst2)
   * EPow P2 (EVar vs2t) * ((#1 - #2 * EVar vlmMst2) * EVar vshiftst3 * (#2 * (#1 - #2 * EVar vlmMst1 + #2 * EVar
   vlmMst2) * EPow P2 (EVar vMst2) * EPow P4 (EVar vMst1) + #2 * (#1 - EVar vlmMst1 + EVar vlmMst2) * EPow P2 (EVar
   vMst1) * EPow P4 (EVar vMst2) + (#2 - #6 * EVar vlmMst1 + #6 * EVar vlmMst2) * EPow P6 (EVar vMst1) + EPow P6 (EVar
   vMst2)) + #10 * EVar vshiftst1 * (EPow P4 (EVar vDmsqst2) * (#4 * EVar vlmMst1 * (- #3 + EVar vlmMst2) * EPow P2
   (EVar vMst2) * EPow P4 (EVar vMst1) + #3 * (EPow P2 (EVar vMst1) + EPow P2 (EVar vMst2)) * EPow P4 (EVar vMst2) +
   #2 * EVar vlmMst1 * (- #3 + #2 * EVar vlmMst2) * EPow P2 (EVar vMst1) * (EPow P4 (EVar vMst1) + EPow P4 (EVar
   vMst2)) - #4 * EPow P2 (EVar vlmMst2) * EPow P2 (EVar vMst1) * (EPow P2 (EVar vMst1) * EPow P2 (EVar vMst2) + EPow
   P4 (EVar vMst1) + EPow P4 (EVar vMst2)) + #2 * EVar vlmMst2 * (#6 * EPow P2 (EVar vMst2) * EPow P4 (EVar vMst1) +
   #2 * EPow P2 (EVar vMst1) * EPow P4 (EVar vMst2) + #3 * EPow P6 (EVar vMst1) - EPow P6 (EVar vMst2))) + ((EPow P2
   (EVar vMst1) + EPow P2 (EVar vMst2)) * EPow P4 (EVar vMst2) - #2 * (EVar vlmMst1 - EVar vlmMst2) * EPow P2 (EVar
   vMst1) * (EPow P2 (EVar vMst1) * EPow P2 (EVar vMst2) + EPow P4 (EVar vMst1) + EPow P4 (EVar vMst2))) * (EVar
   vDmsqst2 * (#3 - #2 * EVar vlmMst2) * EPow P6 (EVar vMsq) + (#1 - #2 * EVar vlmMst2) * EPow P8 (EVar vMsq))) / EPow
   P8 (EVar vMsq)) / EPow P2 (EVar vMst1) + EVar vMst2 * EVar vMt * EVar vs2t * (#30 * (#1702429 + #257904 * EConst
   CB4 - #648 * EConst CDN - #748656 * EVar vlmMst1 + #216 * EVar vlmMst2 * (#5971 - #6106 * EVar vlmMst1 + #576 *
   EPow P2 (EVar vlmMst1)) + #41904 * (EPow P2 (EVar vlmMst1) + (#34 - #15 * EVar vlmMst1) * EPow P2 (EVar vlmMst2)) -
   #3456 * EPow P3 (EVar vlmMst1) - #1458 * EVar vDmglst2 * (EDec 634115454961134 12 - #3416 * EConst CB4 / #9 + #52 *
   EConst CDN / #9 + #111356 * EVar vlmMst1 / #243 + #8 * EPow P2 (EVar vlmMst1) / #9 - #8 * EVar vlmMst2 * (#36802 -
   #11421 * EVar vlmMst1 + #1728 * EPow P2 (EVar vlmMst1)) / #243 + #344 * (- #14 + #15 * EVar vlmMst1) * EPow P2
   (EVar vlmMst2) / #9 - #64 * EPow P3 (EVar vlmMst1) / #9 - #1528 * EPow P3 (EVar vlmMst2) / #3) / EVar vMgl +
   #507600 * EPow P3 (EVar vlmMst2)) * EPow P4 (EVar vMst1) + #43740 * EPow P2 (EVar vMst1) * EPow P2 (EVar vMst2) *
   (EDec 6219670781893004 13 + #1016 * EConst CB4 / #9 - #4 * EConst CDN / #9 - #2476 * EVar vlmMst1 / #9 - #176 *
   EPow P2 (EVar vlmMst1) / #9 + #4 * EVar vlmMst2 * (#1427 - #1012 * EVar vlmMst1 + #16 * EPow P2 (EVar vlmMst1)) /
   #9 + #8 * (#642 - #203 * EVar vlmMst1) * EPow P2 (EVar vlmMst2) / #9 + #520 * EPow P3 (EVar vlmMst2) / #3 + (EVar
   vDmglst2 * (#248 * EConst CB4 - #4 * EConst CDN + (#66761 + #898740 * EVar vlmMst2 + #2160 * (#11 + #4 * EVar
   vlmMst2) * EPow P2 (EVar vlmMst1) + #520560 * EPow P2 (EVar vlmMst2) - #180 * EVar vlmMst1 * (#1141 + #1956 * EVar
   vlmMst2 + #1986 * EPow P2 (EVar vlmMst2)) + #348840 * EPow P3 (EVar vlmMst2)) / #1215) + #160 * EVar vDmsqst2 *
   (EVar vDmglst2 * (#8 - #15 * EVar vlmMst1 + #15 * EVar vlmMst2) + (#1 + #3 * EVar vlmMst1 - #3 * EVar vlmMst2) *
   EVar vMgl) * (EPow P3 (EVar vDmsqst2) + EPow P6 (EVar vMsq)) / (#3 * EPow P8 (EVar vMsq))) / EVar vMgl) + (- #160 *
   EConst COepS2 * (#3 * EVar vMgl * (#816 * EPow P2 (EVar vMst1) * EPow P2 (EVar vMst2) + #1882 * EPow P4 (EVar
   vMst1) + #189 * EPow P4 (EVar vMst2)) - EVar vDmglst2 * (#9108 * EPow P2 (EVar vMst1) * EPow P2 (EVar vMst2) +
   #32842 * EPow P4 (EVar vMst1) + #945 * EPow P4 (EVar vMst2))) - #108 * EConst CS2 * (EVar vDmglst2 * (#72 * (#2489
   + #3795 * EVar vlmMst1 - #3795 * EVar vlmMst2) * EPow P2 (EVar vMst1) * EPow P2 (EVar vMst2) + #10 * (#123113 +
   #98526 * EVar vlmMst1 - #98526 * EVar vlmMst2) * EPow P4 (EVar vMst1) + #81 * (- #453 + #350 * EVar vlmMst1 - #350
   * EVar vlmMst2) * EPow P4 (EVar vMst2)) - #15 * EVar vMgl * (#36 * (#169 + #136 * EVar vlmMst1 - #136 * EVar
   vlmMst2) * EPow P2 (EVar vMst1) * EPow P2 (EVar vMst2) + #2 * (#9185 + #5646 * EVar vlmMst1 - #5646 * EVar vlmMst2)
   * EPow P4 (EVar vMst1) + #81 * (- #1 + #14 * EVar vlmMst1 - #14 * EVar vlmMst2) * EPow P4 (EVar vMst2))) + #622080
   * (#1 + EVar vlmMst2) * (- EVar vDmglst2 + #3 * EVar vDmglst2 * EVar vlmMst2 + EVar vMgl + EVar vlmMst2 * EVar
   vMgl) * EPow P6 (EVar vMst2) / EPow P2 (EVar vMst1) - #27 * EPow P4 (EVar vMst2) * (- #45 * EVar vMgl * (#960 *
   (#11 + #8 * EVar vlmMst1 - #8 * EVar vlmMst2) * EPow P4 (EVar vDmsqst2) + #1920 * EVar vDmsqst2 * (#1 + EVar
   vlmMst1 - EVar vlmMst2) * EPow P6 (EVar vMsq) + (#9561 + #1760 * EConst CB4 - #16 * EConst CDN - #1984 * EVar
   vlmMst1 - #256 * EPow P2 (EVar vlmMst1) - #64 * EVar vlmMst2 * (- #214 + #73 * EVar vlmMst1 + #4 * EPow P2 (EVar
   vlmMst1)) - #32 * (- #268 + #57 * EVar vlmMst1) * EPow P2 (EVar vlmMst2) + #2080 * EPow P3 (EVar vlmMst2)) * EPow
   P8 (EVar vMsq)) + EVar vDmglst2 * (#86400 * EVar vDmsqst2 * (#2 + #5 * EVar vlmMst1 - #5 * EVar vlmMst2) * (EPow P3
   (EVar vDmsqst2) + EPow P6 (EVar vMsq)) - (#23917 + #188640 * EConst CB4 - #3600 * EConst CDN - #37440 * EVar
   vlmMst1 + #11520 * EPow P2 (EVar vlmMst1) - #2880 * EVar vlmMst2 * (- #237 + #55 * EVar vlmMst1 + #4 * EPow P2
   (EVar vlmMst1)) - #1440 * (- #280 + #121 * EVar vlmMst1) * EPow P2 (EVar vlmMst2) + #185760 * EPow P3 (EVar
   vlmMst2)) * EPow P8 (EVar vMsq))) / EPow P8 (EVar vMsq)) / EVar vMgl))) / (#174960 * EPow P6 (EVar vMst2)) + EPow
   P2 (EVar vs2t) * (- #5 * EVar vDmsqst2 * EVar vMt * EPow P2 (EVar vSbeta) * EPow P4 (EVar vMst1) * ((#4 * EVar
   vDmglst2 * (#1081 - #165 * EVar vlmMst1 + #165 * EVar vlmMst2) * EVar vMt * EPow P2 (EVar vSbeta) - #9 * EVar vMgl
   * (#2 * (#11 + #39 * EVar vlmMst1 - #39 * EVar vlmMst2) * EVar vMst2 * EVar vs2t * (- #1 + EPow P2 (EVar vSbeta)) +
   (#167 - #5 * EVar vlmMst1 + #5 * EVar vlmMst2) * EVar vMt * EPow P2 (EVar vSbeta))) * EPow P3 (EVar vDmsqst2) + #4
   * EVar vDmglst2 * (#1081 - #165 * EVar vlmMst1 + #165 * EVar vlmMst2) * EVar vMt * EPow P2 (EVar vSbeta) * EPow P6
   (EVar vMsq)) / (#36 * EVar vMgl * EPow P2 (EVar vMst2) * EPow P8 (EVar vMsq)) + EPow P2 (EVar vMt) * (- #5 * EPow
   P2 (EVar vSbeta) * EPow P4 (EVar vMst1) * (#9 * (#167 - #5 * EVar vlmMst1 + #5 * EVar vlmMst2) * EVar vMgl * EPow
   P4 (EVar vDmsqst2) + #4 * EVar vDmglst2 * EVar vDmsqst2 * (- #1081 + #165 * EVar vlmMst1 - #165 * EVar vlmMst2) *
   (EPow P3 (EVar vDmsqst2) + EPow P6 (EVar vMsq))) / (#36 * EVar vMgl * EPow P2 (EVar vMst2) * EPow P8 (EVar vMsq)) +
   EPow P2 (EVar vMuSUSY) * (EDec 53385802469135804 15 + #40 * EConst CB4 / #9 - #4 * EConst CD3 / #9 + #2 * EConst
   CDN / #9 + #1672 * EVar vlmMst1 / #27 + #53 * EPow P2 (EVar vlmMst1) / #9 - EVar vlmMst2 * (EDec 12992592592592592
   14 - #72 * EVar vlmMst1 + #13 * EPow P2 (EVar vlmMst1) / #3) + #2 * (- #470 + #147 * EVar vlmMst1) * EPow P2 (EVar
   vlmMst2) / #9 + #16 * EPow P3 (EVar vlmMst1) / #9 - #271 * EPow P3 (EVar vlmMst2) / #9 + EConst CS2 * (#921 + #138
   * EVar vlmMst1 - #138 * EVar vlmMst2 + EVar vDmglst2 * (#3354 - #28 * EVar vlmMst1 + #28 * EVar vlmMst2) / EVar
   vMgl + #30 * EVar vDmsqst2 * (- #15 + #2 * EVar vlmMst1 - #2 * EVar vlmMst2) / EPow P2 (EVar vMsq) + EPow P4 (EVar
   vMst1) * (#583071 + #119133 * EVar vlmMst1 - #119133 * EVar vlmMst2 + #8 * EVar vDmglst2 * (#93919 - #12981 * EVar
   vlmMst1 + #12981 * EVar vlmMst2) / EVar vMgl + #390 * EVar vDmsqst2 * (#95 + #102 * EVar vlmMst1 - #102 * EVar
   vlmMst2) * (EPow P3 (EVar vDmsqst2) + EPow P6 (EVar vMsq)) / EPow P8 (EVar vMsq)) / (#81 * EPow P4 (EVar vMst2)) +
   EPow P2 (EVar vMst1) * (#11243 + #2114 * EVar vlmMst1 - #2114 * EVar vlmMst2 + #3 * EVar vDmglst2 * (EDec
   6952444444444444 12 - #344 * EVar vlmMst1 + #344 * EVar vlmMst2) / EVar vMgl - #10 * ((#913 + #6 * EVar vlmMst1 -
   #6 * EVar vlmMst2) * EPow P4 (EVar vDmsqst2) + EVar vDmsqst2 * (#17 - #78 * EVar vlmMst1 + #78 * EVar vlmMst2) *
   EPow P6 (EVar vMsq)) / EPow P8 (EVar vMsq)) / (#3 * EPow P2 (EVar vMst2)) - #1740 * EPow P4 (EVar vDmsqst2) / EPow
   P8 (EVar vMsq)) + EPow P2 (EVar vMst1) * (EDec 434270658436214 12 + #76 * EConst CB4 / #9 - #2 * EConst CDN / #9 +
   #69088 * EVar vlmMst1 / #405 - #1313 * EPow P2 (EVar vlmMst1) / #27 - #4 * EVar vlmMst2 * (#16192 - #26430 * EVar
   vlmMst1 + #3465 * EPow P2 (EVar vlmMst1)) / #405 + (- #5735 + #3072 * EVar vlmMst1) * EPow P2 (EVar vlmMst2) / #27
   + EVar vDmsqst2 * (EDec 20174098765432097 14 + #622 * EVar vlmMst1 / #15 + #2 * (- #311 + #10 * EVar vlmMst1) *
   EVar vlmMst2 / #15 + EVar vDmglst2 * (EDec 7666666666666667 14 - #140 * EVar vlmMst1 + #140 * EVar vlmMst2) / EVar
   vMgl - #22 * EPow P2 (EVar vlmMst1) / #3 + #6 * EPow P2 (EVar vlmMst2)) / EPow P2 (EVar vMsq) - #62 * EPow P3 (EVar
   vlmMst1) / #27 - #2086 * EPow P3 (EVar vlmMst2) / #27 - #2 * EVar vDmglst2 * (#2695042 - #40500 * EConst CB4 +
   #54000 * EConst CD3 - #33750 * EConst CDN - #326895 * EVar vlmMst1 - #324900 * EPow P2 (EVar vlmMst1) + #15 * EVar
   vlmMst2 * (- #19607 - #129030 * EVar vlmMst1 + #62550 * EPow P2 (EVar vlmMst1)) - #450 * (- #5023 + #5610 * EVar
   vlmMst1) * EPow P2 (EVar vlmMst2) + #11250 * EPow P3 (EVar vlmMst1) + #1575000 * EPow P3 (EVar vlmMst2)) / (#30375
   * EVar vMgl) + (EDec 12137234567901234 14 + #4003 * EVar vlmMst1 / #45 - (#4003 + #1020 * EVar vlmMst1) * EVar
   vlmMst2 / #45 + EVar vDmglst2 * (EDec 7666666666666667 14 - #140 * EVar vlmMst1 + #140 * EVar vlmMst2) / EVar vMgl
   + #14 * EPow P2 (EVar vlmMst1) / #3 + #18 * EPow P2 (EVar vlmMst2)) * EPow P4 (EVar vDmsqst2) / EPow P8 (EVar
   vMsq)) / EPow P2 (EVar vMst2) + EPow P4 (EVar vMst1) * (EDec 6281736268201578 13 + #76 * EConst CB4 / #9 - #2 *
   EConst CDN / #9 + #6317839 * EVar vlmMst1 / #396900 - #66307 * EPow P2 (EVar vlmMst1) / #315 - EVar vlmMst2 * (EDec
   1252907281431091 14 - #182909 * EVar vlmMst1 / #315 + #274 * EPow P2 (EVar vlmMst1) / #3) + #2 * (- #58301 + #37135
   * EVar vlmMst1) * EPow P2 (EVar vlmMst2) / #315 - #44 * EPow P3 (EVar vlmMst1) / #9 - #1256 * EPow P3 (EVar
   vlmMst2) / #9 - EVar vDmglst2 * (EDec 5851892843532082 13 - #8 * EConst CB4 / #3 + #32 * EConst CD3 / #9 - #20 *
   EConst CDN / #9 - #20109937 * EVar vlmMst1 / #297675 - #15886 * EPow P2 (EVar vlmMst1) / #945 + EVar vlmMst2 *
   (EDec 17112243218274966 15 - #144628 * EVar vlmMst1 / #945 + #1180 * EPow P2 (EVar vlmMst1) / #9) + #2 * (#80257 -
   #138180 * EVar vlmMst1) * EPow P2 (EVar vlmMst2) / #945 - #92 * EPow P3 (EVar vlmMst1) / #27 + #4448 * EPow P3
   (EVar vlmMst2) / #27) / EVar vMgl + EVar vDmsqst2 * (EDec 23728785508324435 14 + #16526 * EVar vlmMst2 / #3969 + #2
   * EVar vlmMst1 * (- #8263 + #71820 * EVar vlmMst2) / #3969 - #520 * EPow P2 (EVar vlmMst1) / #21 - #80 * EPow P2
   (EVar vlmMst2) / #7) * (EPow P3 (EVar vDmsqst2) + EPow P6 (EVar vMsq)) / EPow P8 (EVar vMsq)) / EPow P4 (EVar
   vMst2) + (- #5 * EVar vDmsqst2 * (#288 * EVar vDmglst2 * (#4 + EVar vlmMst1 - EVar vlmMst2) + EVar vMgl * (- #1141
   + #264 * EVar vlmMst2 + #48 * EVar vlmMst1 * (- #7 + #3 * EVar vlmMst2) - #144 * EPow P2 (EVar vlmMst2))) / (#54 *
   EPow P2 (EVar vMsq)) + EVar vDmglst2 * (- #14267 + #432 * EConst CB4 - #576 * EConst CD3 + #360 * EConst CDN -
   #4752 * EVar vlmMst1 + #4536 * EVar vlmMst2 + #16704 * EVar vlmMst1 * EVar vlmMst2 + #1404 * EPow P2 (EVar vlmMst1)
   - #1152 * EVar vlmMst2 * EPow P2 (EVar vlmMst1) - #20232 * EPow P2 (EVar vlmMst2) + #8856 * EVar vlmMst1 * EPow P2
   (EVar vlmMst2) - #7704 * EPow P3 (EVar vlmMst2)) / #162 + #16 * (#1 + EVar vlmMst2) * (#4 * EVar vDmglst2 * EVar
   vlmMst2 + EVar vMgl + EVar vlmMst2 * EVar vMgl) * EPow P4 (EVar vMst2) / (#9 * EPow P4 (EVar vMst1)) - (#5 * (#576
   * EVar vDmglst2 * (#4 + EVar vlmMst1 - EVar vlmMst2) + EVar vMgl * (- #4207 + #600 * EVar vlmMst2 + #24 * EVar
   vlmMst1 * (- #31 + #12 * EVar vlmMst2) - #288 * EPow P2 (EVar vlmMst2))) * EPow P4 (EVar vDmsqst2) / #108 + #4 *
   EConst COepS2 * (#60 * EVar vMgl * EPow P2 (EVar vMst1) * (#221 * EPow P2 (EVar vMst1) - #9 * EPow P2 (EVar vMst2))
   * EPow P4 (EVar vDmsqst2) + #60 * EVar vDmsqst2 * EVar vMgl * (#117 * EPow P2 (EVar vMst1) * EPow P2 (EVar vMst2) +
   #221 * EPow P4 (EVar vMst1) + #27 * EPow P4 (EVar vMst2)) * EPow P6 (EVar vMsq) + (- #4 * EVar vDmglst2 * (#2322 *
   EPow P2 (EVar vMst1) * EPow P2 (EVar vMst2) + #8654 * EPow P4 (EVar vMst1) + #189 * EPow P4 (EVar vMst2)) + #3 *
   EVar vMgl * (#6342 * EPow P2 (EVar vMst1) * EPow P2 (EVar vMst2) + #13237 * EPow P4 (EVar vMst1) + #1242 * EPow P4
   (EVar vMst2))) * EPow P8 (EVar vMsq)) / (#2187 * EPow P4 (EVar vMst2)) + EPow P2 (EVar vMst2) * (EVar vMgl * (- #30
   * (#5 + #2 * EVar vlmMst2) * EPow P4 (EVar vDmsqst2) + #30 * EVar vDmsqst2 * (#1 - #2 * EVar vlmMst2) * EPow P6
   (EVar vMsq) + (#103 + #186 * EVar vlmMst2 + #32 * EVar vlmMst1 * (#1 + EVar vlmMst2) + #91 * EPow P2 (EVar
   vlmMst2)) * EPow P8 (EVar vMsq)) + EVar vDmglst2 * (#360 * EPow P4 (EVar vDmsqst2) + #360 * EVar vDmsqst2 * EPow P6
   (EVar vMsq) + #2 * (- #20 + #198 * EVar vlmMst2 + #32 * EVar vlmMst1 * EVar vlmMst2 + #123 * EPow P2 (EVar
   vlmMst2)) * EPow P8 (EVar vMsq))) / (#9 * EPow P2 (EVar vMst1))) / EPow P8 (EVar vMsq)) / EVar vMgl)))) / EVar
   vTbeta + EVar vMuSUSY * (EPow P2 (EVar vMt) * EPow P2 (EVar vs2t) * ((#32 * (#1 + EVar vlmMst2) * (- EVar vDmglst2
   + #3 * EVar vDmglst2 * EVar vlmMst2 + EVar vMgl + EVar vlmMst2 * EVar vMgl) * EPow P3 (EVar vMst2) / (#3 * EPow P2
   (EVar vMst1)) + (EVar vDmglst2 * (#9 * (#36280 * EConst COepS2 - #27 * (#23989 + #27210 * EVar vlmMst1 - #27210 *
   EVar vlmMst2) * EConst CS2) * EPow P2 (EVar vMst1) * EPow P2 (EVar vMst2) + #2 * (#474680 * EConst COepS2 - #27 *
   (#525961 + #356010 * EVar vlmMst1 - #356010 * EVar vlmMst2) * EConst CS2) * EPow P4 (EVar vMst1) + #27 * (#1400 *
   EConst COepS2 - #81 * (- #453 + #350 * EVar vlmMst1 - #350 * EVar vlmMst2) * EConst CS2) * EPow P4 (EVar vMst2)) -
   #15 * EVar vMgl * (#3 * (#1672 * EConst COepS2 - #81 * (#685 + #418 * EVar vlmMst1 - #418 * EVar vlmMst2) * EConst
   CS2) * EPow P2 (EVar vMst1) * EPow P2 (EVar vMst2) + #2 * (#4264 * EConst COepS2 - #27 * (#6143 + #3198 * EVar
   vlmMst1 - #3198 * EVar vlmMst2) * EConst CS2) * EPow P4 (EVar vMst1) + #27 * (#56 * EConst COepS2 + #81 * (#1 - #14
   * EVar vlmMst1 + #14 * EVar vlmMst2) * EConst CS2) * EPow P4 (EVar vMst2))) / (#14580 * EPow P3 (EVar vMst2))) /
   EVar vMgl + EVar vMst2 * (EDec 18852083333333334 14 + #110 * EConst CB4 / #3 - EConst CDN / #3 - #124 * EVar
   vlmMst1 / #3 - #16 * EPow P2 (EVar vlmMst1) / #3 - #4 * EVar vlmMst2 * (- #198 + #73 * EVar vlmMst1 + #4 * EPow P2
   (EVar vlmMst1)) / #3 + (#168 - #38 * EVar vlmMst1) * EPow P2 (EVar vlmMst2) + #130 * EPow P3 (EVar vlmMst2) / #3 +
   (- #40 * EVar vDmsqst2 * (EVar vDmglst2 * (#2 + #5 * EVar vlmMst1 - #5 * EVar vlmMst2) + (- #1 - EVar vlmMst1 +
   EVar vlmMst2) * EVar vMgl) / EPow P2 (EVar vMsq) + EVar vDmglst2 * (EDec 2173935185185185 14 + #262 * EConst CB4 /
   #3 - #5 * EConst CDN / #3 - #52 * EVar vlmMst1 / #3 + #16 * EPow P2 (EVar vlmMst1) / #3 - #4 * EVar vlmMst2 * (-
   #221 + #55 * EVar vlmMst1 + #4 * EPow P2 (EVar vlmMst1)) / #3 + #2 * (#232 - #121 * EVar vlmMst1) * EPow P2 (EVar
   vlmMst2) / #3 + #86 * EPow P3 (EVar vlmMst2)) - #20 * (#2 * EVar vDmglst2 * (#2 + #5 * EVar vlmMst1 - #5 * EVar
   vlmMst2) + (- #11 - #8 * EVar vlmMst1 + #8 * EVar vlmMst2) * EVar vMgl) * EPow P4 (EVar vDmsqst2) / EPow P8 (EVar
   vMsq)) / EVar vMgl) + EPow P4 (EVar vMst1) * (EDec 4092597736625514 13 + #48 * EConst CB4 - #1609 * EVar vlmMst1 /
   #9 + #326 * EPow P2 (EVar vlmMst1) / #9 + #2 * EVar vlmMst2 * (#845 - #1535 * EVar vlmMst1 + #264 * EPow P2 (EVar
   vlmMst1)) / #9 + (EDec 3048888888888889 13 - #188 * EVar vlmMst1) * EPow P2 (EVar vlmMst2) - #16 * EPow P3 (EVar
   vlmMst1) / #9 + #1180 * EPow P3 (EVar vlmMst2) / #9 + (- (EVar vDmglst2 * (EDec 516797085048011 12 - #296 * EConst
   CB4 / #3 + #4 * EConst CDN / #3 + #17570 * EVar vlmMst1 / #81 + #46 * EPow P2 (EVar vlmMst1) / #3 - EVar vlmMst2 *
   (#28667 - #5238 * EVar vlmMst1 + #3024 * EPow P2 (EVar vlmMst1)) / #81 + #4 * (- #60 + #157 * EVar vlmMst1) * EPow
   P2 (EVar vlmMst2) / #3 - #16 * EPow P3 (EVar vlmMst1) / #3 - #500 * EPow P3 (EVar vlmMst2) / #3)) + #10 * EVar
   vDmsqst2 * (EVar vDmglst2 * (#80 - #43 * EVar vlmMst1 + #43 * EVar vlmMst2) + (- #4 + #9 * EVar vlmMst1 - #9 * EVar
   vlmMst2) * EVar vMgl) * (EPow P3 (EVar vDmsqst2) + EPow P6 (EVar vMsq)) / EPow P8 (EVar vMsq)) / EVar vMgl) / EPow
   P3 (EVar vMst2) + EPow P2 (EVar vMst1) * (EDec 2672878086419753 13 + #48 * EConst CB4 - #165 * EVar vlmMst1 - #28 *
   EPow P2 (EVar vlmMst1) / #3 + EVar vlmMst2 * (#571 - #720 * EVar vlmMst1 + #32 * EPow P2 (EVar vlmMst1)) / #3 + #4
   * (#187 - #73 * EVar vlmMst1) * EPow P2 (EVar vlmMst2) / #3 + #80 * EVar vDmsqst2 * (EVar vDmglst2 * (#5 - #5 *
   EVar vlmMst1 + #5 * EVar vlmMst2) + (EVar vlmMst1 - EVar vlmMst2) * EVar vMgl) / (EVar vMgl * EPow P2 (EVar vMsq))
   + #260 * EPow P3 (EVar vlmMst2) / #3 + EVar vDmglst2 * (EDec 30137808641975308 15 + #296 * EConst CB4 / #3 - #4 *
   EConst CDN / #3 - #985 * EVar vlmMst1 / #9 + #28 * EPow P2 (EVar vlmMst1) / #3 + EVar vlmMst2 * (#2149 - #1296 *
   EVar vlmMst1 + #96 * EPow P2 (EVar vlmMst1)) / #9 + (EDec 13466666666666666 14 - #140 * EVar vlmMst1) * EPow P2
   (EVar vlmMst2) + #388 * EPow P3 (EVar vlmMst2) / #3) / EVar vMgl + #20 * (#3 + #16 * EVar vlmMst1 - #16 * EVar
   vlmMst2 + #20 * EVar vDmglst2 * (#1 - EVar vlmMst1 + EVar vlmMst2) / EVar vMgl) * EPow P4 (EVar vDmsqst2) / EPow P8
   (EVar vMsq)) / EVar vMst2) - (#2 * (- #1 + #2 * EVar vlmMst2) * EVar vs2t * EVar vshiftst3 * EPow P2 (EVar vMst2) *
   EPow P3 (EVar vMt) / #3 + #5 * EVar vMt * EVar vshiftst1 * EPow P3 (EVar vs2t) * EPow P4 (EVar vMst2) * (#1 - #2 *
   EVar vlmMst2 + EVar vDmsqst2 * (#3 - #2 * EVar vlmMst2) * (EPow P3 (EVar vDmsqst2) + EPow P6 (EVar vMsq)) / EPow P8
   (EVar vMsq)) / #3) / EPow P2 (EVar vMst1) + EVar vMt * EPow P2 (EConst Cz2) * (EVar vMst2 * EVar vxDmglst2 * EPow
   P2 (EVar vDmglst2) * (#2 * (#4 * EVar vs2t * (#86405 * EVar vMuSUSY - #16542 * EVar vMst2 * EVar vTbeta) * EPow P2
   (EVar vMt) - EVar vMst2 * EVar vMt * (#42392 * EVar vMuSUSY + #105585 * EVar vMst2 * EVar vTbeta) * EPow P2 (EVar
   vs2t) + #129704 * EVar vTbeta * EPow P3 (EVar vMt) + #12664 * EVar vTbeta * EPow P3 (EVar vMst2) * EPow P3 (EVar
   vs2t)) * EPow P4 (EVar vMst1) + #9 * ((#41444 * EVar vMuSUSY * EVar vs2t - #504 * EVar vMst2 * EVar vs2t * EVar
   vTbeta) * EPow P2 (EVar vMt) - EVar vMst2 * EVar vMt * (#2732 * EVar vMuSUSY + #31083 * EVar vMst2 * EVar vTbeta) *
   EPow P2 (EVar vs2t) - #28 * EVar vTbeta * EPow P3 (EVar vMt) + #1366 * EVar vTbeta * EPow P3 (EVar vMst2) * EPow P3
   (EVar vs2t)) * EPow P4 (EVar vMst2) + #3 * EVar vMst2 * EPow P2 (EVar vMst1) * (- #8 * EVar vMst2 * EVar vs2t * (-
   #29549 * EVar vMuSUSY + #1980 * EVar vMst2 * EVar vTbeta) * EPow P2 (EVar vMt) - #13 * EVar vMt * (#712 * EVar
   vMuSUSY + #6465 * EVar vMst2 * EVar vTbeta) * EPow P2 (EVar vMst2) * EPow P2 (EVar vs2t) + #16 * (#105 * EVar
   vMuSUSY - #1082 * EVar vMst2 * EVar vTbeta) * EPow P3 (EVar vMt) + #530 * EVar vTbeta * EPow P3 (EVar vs2t) * EPow
   P4 (EVar vMst2))) * EPow P8 (EVar vMsq) + EVar vDmglst2 * EVar vMgl * EVar vMst2 * (#2 * (#4 * EVar vs2t * (#86405
   * EVar vMuSUSY - #16542 * EVar vMst2 * EVar vTbeta) * EPow P2 (EVar vMt) - EVar vMst2 * EVar vMt * (#42392 * EVar
   vMuSUSY + #105585 * EVar vMst2 * EVar vTbeta) * EPow P2 (EVar vs2t) + #129704 * EVar vTbeta * EPow P3 (EVar vMt) +
   #12664 * EVar vTbeta * EPow P3 (EVar vMst2) * EPow P3 (EVar vs2t)) * EPow P4 (EVar vMst1) + #27 * (#7052 * EVar
   vMuSUSY * EVar vs2t * EPow P2 (EVar vMt) - EVar vMst2 * EVar vMt * (#632 * EVar vMuSUSY + #5289 * EVar vMst2 * EVar
   vTbeta) * EPow P2 (EVar vs2t) + #140 * EVar vTbeta * EPow P3 (EVar vMt) + #316 * EVar vTbeta * EPow P3 (EVar vMst2)
   * EPow P3 (EVar vs2t)) * EPow P4 (EVar vMst2) + #9 * EVar vMst2 * EPow P2 (EVar vMst1) * (- #80 * EVar vMst2 * EVar
   vs2t * (- #569 * EVar vMuSUSY + #30 * EVar vMst2 * EVar vTbeta) * EPow P2 (EVar vMt) - #3 * EVar vMt * (#1264 *
   EVar vMuSUSY + #6091 * EVar vMst2 * EVar vTbeta) * EPow P2 (EVar vMst2) * EPow P2 (EVar vs2t) + #96 * (#7 * EVar
   vMuSUSY + #62 * EVar vMst2 * EVar vTbeta) * EPow P3 (EVar vMt) + #948 * EVar vTbeta * EPow P3 (EVar vs2t) * EPow P4
   (EVar vMst2))) * EPow P8 (EVar vMsq) - #3 * EPow P2 (EVar vMgl) * (- #20 * EVar vs2t * EPow P2 (EVar vMst1) * EPow
   P2 (EVar vMst2) * (#9 * EPow P2 (EVar vMst2) * (- #2 * EVar vMt * EVar vMuSUSY * EVar vs2t - #6 * EVar vTbeta *
   EPow P2 (EVar vMt) + EVar vTbeta * EPow P2 (EVar vMst2) * EPow P2 (EVar vs2t)) + EPow P2 (EVar vMst1) * (#442 *
   EVar vMt * EVar vMuSUSY * EVar vs2t + #106 * EVar vTbeta * EPow P2 (EVar vMt) + #37 * EVar vTbeta * EPow P2 (EVar
   vMst2) * EPow P2 (EVar vs2t))) * EPow P4 (EVar vDmsqst2) + #20 * EVar vs2t * EVar vxDmsqst2 * EPow P2 (EVar
   vDmsqst2) * EPow P2 (EVar vMst2) * EPow P4 (EVar vMsq) * (#3 * EPow P2 (EVar vMst1) * EPow P2 (EVar vMst2) * (- #50
   * EVar vMt * EVar vMuSUSY * EVar vs2t - #14 * EVar vTbeta * EPow P2 (EVar vMt) + #19 * EVar vTbeta * EPow P2 (EVar
   vMst2) * EPow P2 (EVar vs2t)) + (- #442 * EVar vMt * EVar vMuSUSY * EVar vs2t - #106 * EVar vTbeta * EPow P2 (EVar
   vMt) + #57 * EVar vTbeta * EPow P2 (EVar vMst2) * EPow P2 (EVar vs2t)) * EPow P4 (EVar vMst1) + #18 * (- #2 * EVar
   vMt * EVar vMuSUSY * EVar vs2t - #2 * EVar vTbeta * EPow P2 (EVar vMt) + EVar vTbeta * EPow P2 (EVar vMst2) * EPow
   P2 (EVar vs2t)) * EPow P4 (EVar vMst2)) + #20 * EVar vDmsqst2 * EVar vs2t * EPow P2 (EVar vMst2) * (#18 * EPow P2
   (EVar vMst1) * EPow P2 (EVar vMst2) * (- #13 * EVar vMt * EVar vMuSUSY * EVar vs2t - #5 * EVar vTbeta * EPow P2
   (EVar vMt) + #5 * EVar vTbeta * EPow P2 (EVar vMst2) * EPow P2 (EVar vs2t)) - #2 * (#221 * EVar vMt * EVar vMuSUSY
   * EVar vs2t + #53 * EVar vTbeta * EPow P2 (EVar vMt) - #52 * EVar vTbeta * EPow P2 (EVar vMst2) * EPow P2 (EVar
   vs2t)) * EPow P4 (EVar vMst1) + #27 * (- #2 * EVar vMt * EVar vMuSUSY * EVar vs2t - #2 * EVar vTbeta * EPow P2
   (EVar vMt) + EVar vTbeta * EPow P2 (EVar vMst2) * EPow P2 (EVar vs2t)) * EPow P4 (EVar vMst2)) * EPow P6 (EVar
   vMsq) + (#3 * EPow P2 (EVar vMst1) * EPow P2 (EVar vMst2) * (- #2 * EVar vMst2 * EVar vs2t * (#6368 * EVar vMuSUSY
   + #1735 * EVar vMst2 * EVar vTbeta) * EPow P2 (EVar vMt) + EVar vMt * (- #3364 * EVar vMuSUSY + #4557 * EVar vMst2
   * EVar vTbeta) * EPow P2 (EVar vMst2) * EPow P2 (EVar vs2t) + #16 * (#63 * EVar vMuSUSY + #110 * EVar vMst2 * EVar
   vTbeta) * EPow P3 (EVar vMt) + #1700 * EVar vTbeta * EPow P3 (EVar vs2t) * EPow P4 (EVar vMst2)) + EPow P4 (EVar
   vMst1) * (- #4 * EVar vMst2 * EVar vs2t * (#13670 * EVar vMuSUSY + #6031 * EVar vMst2 * EVar vTbeta) * EPow P2
   (EVar vMt) + #2 * EVar vMt * (- #11941 * EVar vMuSUSY + #6177 * EVar vMst2 * EVar vTbeta) * EPow P2 (EVar vMst2) *
   EPow P2 (EVar vs2t) + #40 * (#327 * EVar vMuSUSY + #406 * EVar vMst2 * EVar vTbeta) * EPow P3 (EVar vMt) + #6895 *
   EVar vTbeta * EPow P3 (EVar vs2t) * EPow P4 (EVar vMst2)) - #27 * (#2 * EVar vs2t * (#370 * EVar vMuSUSY + #53 *
   EVar vMst2 * EVar vTbeta) * EPow P2 (EVar vMt) - EVar vMst2 * EVar vMt * (#4 * EVar vMuSUSY + #555 * EVar vMst2 *
   EVar vTbeta) * EPow P2 (EVar vs2t) - #28 * EVar vTbeta * EPow P3 (EVar vMt) + #2 * EVar vTbeta * EPow P3 (EVar
   vMst2) * EPow P3 (EVar vs2t)) * EPow P5 (EVar vMst2)) * EPow P8 (EVar vMsq))) / (#972 * EVar vTbeta * EPow P2 (EVar
   vMgl) * EPow P6 (EVar vMst2) * EPow P8 (EVar vMsq)) + EVar vMt * (#60 * EConst CT1ep * (- #3 * EVar vMgl * (#3 *
   EPow P2 (EVar vMst1) * EPow P2 (EVar vMst2) * (- #3470 * EVar vMst2 * EVar vs2t * EPow P2 (EVar vMt) - #627 * EVar
   vMt * EPow P2 (EVar vMst2) * EPow P2 (EVar vs2t) + #1760 * EPow P3 (EVar vMt) + #1700 * EPow P3 (EVar vMst2) * EPow
   P3 (EVar vs2t)) + (- #24124 * EVar vMst2 * EVar vs2t * EPow P2 (EVar vMt) - #3198 * EVar vMt * EPow P2 (EVar vMst2)
   * EPow P2 (EVar vs2t) + #16240 * EPow P3 (EVar vMt) + #6895 * EPow P3 (EVar vMst2) * EPow P3 (EVar vs2t)) * EPow P4
   (EVar vMst1) + #27 * (- #106 * EVar vMst2 * EVar vs2t * EPow P2 (EVar vMt) - #21 * EVar vMt * EPow P2 (EVar vMst2)
   * EPow P2 (EVar vs2t) + #28 * EPow P3 (EVar vMt) + #46 * EPow P3 (EVar vMst2) * EPow P3 (EVar vs2t)) * EPow P4
   (EVar vMst2)) - #60 * EVar vDmsqst2 * EVar vMgl * EVar vMst2 * EVar vs2t * (- #2 * (#53 * EPow P2 (EVar vMt) - #52
   * EPow P2 (EVar vMst2) * EPow P2 (EVar vs2t)) * EPow P4 (EVar vMst1) + #27 * (- #2 * EPow P2 (EVar vMt) + EPow P2
   (EVar vMst2) * EPow P2 (EVar vs2t)) * EPow P4 (EVar vMst2) + #90 * EPow P2 (EVar vMst1) * (- (EPow P2 (EVar vMst2)
   * EPow P2 (EVar vMt)) + EPow P2 (EVar vs2t) * EPow P4 (EVar vMst2))) / EPow P2 (EVar vMsq) + EVar vDmglst2 * (#27 *
   EPow P2 (EVar vMst1) * EPow P2 (EVar vMst2) * (- #800 * EVar vMst2 * EVar vs2t * EPow P2 (EVar vMt) - #907 * EVar
   vMt * EPow P2 (EVar vMst2) * EPow P2 (EVar vs2t) + #1984 * EPow P3 (EVar vMt) + #316 * EPow P3 (EVar vMst2) * EPow
   P3 (EVar vs2t)) + #2 * (- #66168 * EVar vMst2 * EVar vs2t * EPow P2 (EVar vMt) - #35601 * EVar vMt * EPow P2 (EVar
   vMst2) * EPow P2 (EVar vs2t) + #129704 * EPow P3 (EVar vMt) + #12664 * EPow P3 (EVar vMst2) * EPow P3 (EVar vs2t))
   * EPow P4 (EVar vMst1) + #189 * (#20 * EPow P3 (EVar vMt) * EPow P4 (EVar vMst2) - #15 * EVar vMt * EPow P2 (EVar
   vs2t) * EPow P6 (EVar vMst2) + #4 * EPow P3 (EVar vs2t) * EPow P7 (EVar vMst2))) + #60 * EVar vMgl * EVar vMst2 *
   EVar vs2t * EPow P2 (EVar vMst1) * (#9 * EPow P2 (EVar vMst2) * (- #6 * EPow P2 (EVar vMt) + EPow P2 (EVar vMst2) *
   EPow P2 (EVar vs2t)) + EPow P2 (EVar vMst1) * (#106 * EPow P2 (EVar vMt) + #37 * EPow P2 (EVar vMst2) * EPow P2
   (EVar vs2t))) * EPow P4 (EVar vDmsqst2) / EPow P8 (EVar vMsq)) + EPow P3 (EVar vMt) * (#20 * (EVar vDmglst2 *
   (#5659217 + #1592460 * EVar vlmMt - #972 * (#569 + #180 * EVar vlmMst2 - #126 * EVar vlmMt) * EPow P2 (EVar
   vlmMst1) + #324 * (#5353 + #126 * EVar vlmMt) * EPow P2 (EVar vlmMst2) + #36 * EVar vlmMst2 * (#39031 + #3204 *
   EVar vlmMt - #5184 * EPow P2 (EVar vlmMt)) - #72 * EVar vlmMst1 * (#27653 + #3015 * EVar vlmMt + #18 * EVar vlmMst2
   * (#689 + #126 * EVar vlmMt) - #2160 * EPow P2 (EVar vlmMst2) - #2592 * EPow P2 (EVar vlmMt)) - #186624 * EPow P2
   (EVar vlmMt) + #1944 * EPow P3 (EVar vlmMst1) + #17496 * EPow P3 (EVar vlmMst2)) - #3 * EVar vMgl * (#678923 +
   #19440 * EVar vlmMt + #540 * (#661 - #30 * EVar vlmMt) * EPow P2 (EVar vlmMst2) - #15552 * EPow P2 (EVar vlmMt) -
   #108 * ((#457 - #12 * EVar vlmMst2 - #126 * EVar vlmMt) * EPow P2 (EVar vlmMst1) + EVar vlmMst1 * (#1841 + EVar
   vlmMst2 * (#2626 - #24 * EVar vlmMt) - #420 * EVar vlmMt + #840 * EPow P2 (EVar vlmMst2) - #288 * EPow P2 (EVar
   vlmMt)) + EVar vlmMst2 * (#619 + #498 * EVar vlmMt + #288 * EPow P2 (EVar vlmMt))) + #216 * EPow P3 (EVar vlmMst1)
   + #89208 * EPow P3 (EVar vlmMst2))) * EPow P4 (EVar vMst1) + #160 * EConst COepS2 * (#3 * EVar vMgl * (#1320 * EPow
   P2 (EVar vMst1) * EPow P2 (EVar vMst2) + #4060 * EPow P4 (EVar vMst1) + #189 * EPow P4 (EVar vMst2)) - EVar
   vDmglst2 * (#13392 * EPow P2 (EVar vMst1) * EPow P2 (EVar vMst2) + #64852 * EPow P4 (EVar vMst1) + #945 * EPow P4
   (EVar vMst2))) - #108 * EConst CS2 * (#3 * EVar vMgl * (#72 * (#457 + #550 * EVar vlmMst1 - #550 * EVar vlmMst2) *
   EPow P2 (EVar vMst1) * EPow P2 (EVar vMst2) + #40 * (#4082 + #3045 * EVar vlmMst1 - #3045 * EVar vlmMst2) * EPow P4
   (EVar vMst1) + #81 * (- #79 + #70 * EVar vlmMst1 - #70 * EVar vlmMst2) * EPow P4 (EVar vMst2)) - EVar vDmglst2 *
   (#144 * (#601 + #2790 * EVar vlmMst1 - #2790 * EVar vlmMst2) * EPow P2 (EVar vMst1) * EPow P2 (EVar vMst2) + #40 *
   (#46187 + #48639 * EVar vlmMst1 - #48639 * EVar vlmMst2) * EPow P4 (EVar vMst1) + #2025 * (- #27 + #14 * EVar
   vlmMst1 - #14 * EVar vlmMst2) * EPow P4 (EVar vMst2))) - #622080 * (#1 + EVar vlmMst2) * (- EVar vDmglst2 + #3 *
   EVar vDmglst2 * EVar vlmMst2 + EVar vMgl + EVar vlmMst2 * EVar vMgl) * EPow P6 (EVar vMst2) / EPow P2 (EVar vMst1)
   + (- #72 * EPow P2 (EVar vMst1) * EPow P2 (EVar vMst2) * (#1800 * EVar vDmglst2 * EVar vDmsqst2 * (#497 - #306 *
   EVar vlmMst1 + #609 * EVar vlmMst2 - #303 * EVar vlmMt) * (EPow P3 (EVar vDmsqst2) + EPow P6 (EVar vMsq)) + #16200
   * EVar vDmsqst2 * (#1 + #6 * EVar vlmMst1 - #13 * EVar vlmMst2 + #7 * EVar vlmMt) * EVar vMgl * (EPow P3 (EVar
   vDmsqst2) + EPow P6 (EVar vMsq)) - #3 * EVar vDmglst2 * (#97837 + #71580 * EVar vlmMt - #360 * (#23 + #8 * EVar
   vlmMst2 - #4 * EVar vlmMt) * EPow P2 (EVar vlmMst1) + #720 * (#97 + #2 * EVar vlmMt) * EPow P2 (EVar vlmMst2) -
   #8640 * EPow P2 (EVar vlmMt) - #30 * EVar vlmMst2 * (- #2911 + #396 * EVar vlmMt + #144 * EPow P2 (EVar vlmMt)) +
   #10 * EVar vlmMst1 * (- #6157 + #642 * EVar vlmMt - #6 * EVar vlmMst2 * (#791 + #48 * EVar vlmMt) + #882 * EPow P2
   (EVar vlmMst2) + #432 * EPow P2 (EVar vlmMt)) - #5940 * EPow P3 (EVar vlmMst2)) * EPow P8 (EVar vMsq) + #2 * EVar
   vMgl * (#110219 - #1080 * EVar vlmMt + #540 * (- #15 + #4 * EVar vlmMt) * EPow P2 (EVar vlmMst1) + #810 * (#121 -
   #8 * EVar vlmMt) * EPow P2 (EVar vlmMst2) - #135 * EVar vlmMst1 * (#337 + EVar vlmMst2 * (#588 - #32 * EVar vlmMt)
   - #132 * EVar vlmMt + #194 * EPow P2 (EVar vlmMst2) - #48 * EPow P2 (EVar vlmMt)) - #6480 * EPow P2 (EVar vlmMt) -
   #405 * EVar vlmMst2 * (#31 + #54 * EVar vlmMt + #16 * EPow P2 (EVar vlmMt)) + #26190 * EPow P3 (EVar vlmMst2)) *
   EPow P8 (EVar vMsq)) - #27 * EPow P4 (EVar vMst2) * (#5 * EVar vDmglst2 * (#960 * EVar vDmsqst2 * (#101 - #90 *
   EVar vlmMst1 + #177 * EVar vlmMst2 - #87 * EVar vlmMt) * (EPow P3 (EVar vDmsqst2) + EPow P6 (EVar vMsq)) - (#57495
   + EVar vlmMst2 * (#55616 - #4704 * EVar vlmMt) + #45408 * EVar vlmMt + #2304 * (- #1 + EVar vlmMst2) * EPow P2
   (EVar vlmMst1) + #96 * (#79 + #48 * EVar vlmMt) * EPow P2 (EVar vlmMst2) + #288 * EVar vlmMst1 * (- #22 + #16 *
   EVar vlmMt - #2 * EVar vlmMst2 * (#9 + #8 * EVar vlmMt) + #41 * EPow P2 (EVar vlmMst2)) - #14112 * EPow P3 (EVar
   vlmMst2)) * EPow P8 (EVar vMsq)) + #9 * EVar vMgl * (#1200 * (#8 + #32 * EVar vlmMst1 - #65 * EVar vlmMst2 + #33 *
   EVar vlmMt) * EPow P4 (EVar vDmsqst2) + #4800 * EVar vDmsqst2 * (#5 + #2 * EVar vlmMst1 - #5 * EVar vlmMst2 + #3 *
   EVar vlmMt) * EPow P6 (EVar vMsq) + (#18813 + #480 * EVar vlmMst2 * (#3 - #11 * EVar vlmMt) - #8000 * EVar vlmMt -
   #1280 * (#1 + EVar vlmMst2) * EPow P2 (EVar vlmMst1) + #160 * (#163 - #16 * EVar vlmMt) * EPow P2 (EVar vlmMst2) -
   #160 * EVar vlmMst1 * (#46 + #2 * EVar vlmMst2 * (#57 - #8 * EVar vlmMt) - #16 * EVar vlmMt + #41 * EPow P2 (EVar
   vlmMst2)) - #3840 * EPow P2 (EVar vlmMt) + #7840 * EPow P3 (EVar vlmMst2)) * EPow P8 (EVar vMsq)))) / EPow P8 (EVar
   vMsq))) / (#43740 * EVar vMgl * EPow P5 (EVar vMst2)) + EVar vs2t * EPow P3 (EVar vMt) * (EDec 30229104938271604 14
   + #8 * EConst CD3 / #9 - #8 * EConst CDN / #9 + #614 * EVar vlmMst1 / #27 + #32 * EVar vlmMt / #3 + #124 * EPow P2
   (EVar vlmMst1) / #9 - #2 * EVar vlmMst2 * (- #1901 + #6 * EVar vlmMst1 + #117 * EPow P2 (EVar vlmMst1)) / #27 +
   (#46 + #32 * EVar vlmMst1 / #9) * EPow P2 (EVar vlmMst2) + #32 * EPow P3 (EVar vlmMst1) / #9 + #14 * EPow P3 (EVar
   vlmMst2) / #9 - EConst CS2 * (EDec 423 1 - #159 * EVar vlmMst1 + #159 * EVar vlmMst2 + #2532 * EVar vDmglst2 / (#5
   * EVar vMgl) - #30 * EVar vDmsqst2 * (#9 + #2 * EVar vlmMst1 - #2 * EVar vlmMst2) / EPow P2 (EVar vMsq) - EPow P2
   (EVar vMst1) * (EDec 5704333333333333 13 + #1735 * EVar vlmMst1 / #3 - #1735 * EVar vlmMst2 / #3 - #4 * EVar
   vDmglst2 * (#139 + #100 * EVar vlmMst1 - #100 * EVar vlmMst2) / EVar vMgl + #10 * EVar vDmsqst2 * (#127 + #30 *
   EVar vlmMst1 - #30 * EVar vlmMst2) / (#3 * EPow P2 (EVar vMsq)) + (EDec 15666666666666666 14 - #60 * EVar vlmMst1 +
   #60 * EVar vlmMst2) * EPow P4 (EVar vDmsqst2) / EPow P8 (EVar vMsq)) / EPow P2 (EVar vMst2) - #2 * EPow P4 (EVar
   vMst1) * (#138286 + #90465 * EVar vlmMst1 - #90465 * EVar vlmMst2 - #12 * EVar vDmglst2 * (#17269 + #13785 * EVar
   vlmMst1 - #13785 * EVar vlmMst2) / EVar vMgl + #25 * EVar vDmsqst2 * (#1283 + #318 * EVar vlmMst1 - #318 * EVar
   vlmMst2) * (EPow P3 (EVar vDmsqst2) + EPow P6 (EVar vMsq)) / EPow P8 (EVar vMsq)) / (#135 * EPow P4 (EVar vMst2)) -
   #240 * EPow P4 (EVar vDmsqst2) / EPow P8 (EVar vMsq)) + (- #75 * EVar vDmsqst2 * (#656 * EVar vDmglst2 + (- #367 -
   #32 * EVar vlmMst1 + #80 * EVar vlmMst2) * EVar vMgl) / EPow P2 (EVar vMsq) + #8 * EVar vDmglst2 * (#12454 - #120 *
   EConst CB4 + #120 * EConst CD3 - #60 * EConst CDN + #690 * EVar vlmMst1 + #345 * EPow P2 (EVar vlmMst1) - #5 * EVar
   vlmMst2 * (- #3121 + #42 * EVar vlmMst1 + #96 * EPow P2 (EVar vlmMst1)) + (#3630 - #480 * EVar vlmMst1) * EPow P2
   (EVar vlmMst2) + #960 * EPow P3 (EVar vlmMst2)) - #25 * (#1968 * EVar vDmglst2 + (- #1453 + #48 * EVar vlmMst1 +
   #96 * EVar vlmMst2) * EVar vMgl) * EPow P4 (EVar vDmsqst2) / EPow P8 (EVar vMsq)) / (#270 * EVar vMgl) + EPow P4
   (EVar vMst1) * (EDec 5996859861506036 13 - #99165049 * EVar vlmMst1 / #198450 + EVar vlmMst2 * (EDec
   7139201259763164 13 - #57994 * EVar vlmMst1 / #945 - #350 * EPow P2 (EVar vlmMst1) / #9) - #90913 * EPow P2 (EVar
   vlmMst1) / #945 + (EDec 20024021164021164 14 - #286 * EVar vlmMst1 / #9) * EPow P2 (EVar vlmMst2) + #32 * EVar
   vlmMt * (#1 + #4 * EVar vlmMst2 - #2 * EVar vlmMst1 * (#2 + EVar vlmMst2) + EPow P2 (EVar vlmMst1) + EPow P2 (EVar
   vlmMst2)) / #3 + #26 * EPow P3 (EVar vlmMst1) / #27 + #1882 * EPow P3 (EVar vlmMst2) / #27 + EVar vDmglst2 * (EDec
   31141128771790903 14 - #32 * EConst CB4 / #9 + #32 * EConst CD3 / #9 - #16 * EConst CDN / #9 + #14926634 * EVar
   vlmMst1 / #19845 + #19352 * EPow P2 (EVar vlmMst1) / #189 + #2 * EVar vlmMst2 * (#2917823 - #3813600 * EVar vlmMst1
   + #97020 * EPow P2 (EVar vlmMst1)) / #19845 + #8 * (#8677 - #5439 * EVar vlmMst1) * EPow P2 (EVar vlmMst2) / #189 -
   #64 * EVar vlmMt * (#4 + #6 * EVar vlmMst2 - #2 * EVar vlmMst1 * (#3 + EVar vlmMst2) + EPow P2 (EVar vlmMst1) +
   EPow P2 (EVar vlmMst2)) / #3 - #8 * EPow P3 (EVar vlmMst1) / #9 + #664 * EPow P3 (EVar vlmMst2) / #3) / EVar vMgl +
   EVar vDmsqst2 * (EDec 8753310385647498 14 - #941812 * EVar vlmMst1 / #19845 + (EDec 4745840262030738 14 + #484 *
   EVar vlmMst1 / #21) * EVar vlmMst2 - #242 * (EPow P2 (EVar vlmMst1) + EPow P2 (EVar vlmMst2)) / #21) * (EPow P3
   (EVar vDmsqst2) + EPow P6 (EVar vMsq)) / EPow P8 (EVar vMsq)) / EPow P4 (EVar vMst2) + (#32 * (#1 + EVar vlmMst2) *
   (#4 * EVar vDmglst2 * EVar vlmMst2 + EVar vMgl + EVar vlmMst2 * EVar vMgl) * EPow P4 (EVar vMst2) / (#9 * EPow P4
   (EVar vMst1)) - #4 * EConst COepS2 * (#20 * EVar vMgl * EPow P2 (EVar vMst1) * (#53 * EPow P2 (EVar vMst1) - #27 *
   EPow P2 (EVar vMst2)) * EPow P4 (EVar vDmsqst2) + #20 * EVar vDmsqst2 * EVar vMgl * (#45 * EPow P2 (EVar vMst1) *
   EPow P2 (EVar vMst2) + #53 * EPow P4 (EVar vMst1) + #27 * EPow P4 (EVar vMst2)) * EPow P6 (EVar vMsq) + (- #24 *
   EVar vDmglst2 * (#150 * EPow P2 (EVar vMst1) * EPow P2 (EVar vMst2) + #919 * EPow P4 (EVar vMst1)) + EVar vMgl *
   (#5205 * EPow P2 (EVar vMst1) * EPow P2 (EVar vMst2) + #12062 * EPow P4 (EVar vMst1) + #1431 * EPow P4 (EVar
   vMst2))) * EPow P8 (EVar vMsq)) / (#729 * EPow P4 (EVar vMst2) * EPow P8 (EVar vMsq)) + (- #2 * EPow P2 (EVar
   vMst2) * (#2 * EVar vDmglst2 * (#180 * EPow P4 (EVar vDmsqst2) + #180 * EVar vDmsqst2 * EPow P6 (EVar vMsq) + (-
   #52 + #102 * EVar vlmMst2 + #32 * EVar vlmMst1 * EVar vlmMst2 + #59 * EPow P2 (EVar vlmMst2)) * EPow P8 (EVar
   vMsq)) + EVar vMgl * (- #30 * (#5 + #2 * EVar vlmMst2) * EPow P4 (EVar vDmsqst2) + #30 * EVar vDmsqst2 * (#1 - #2 *
   EVar vlmMst2) * EPow P6 (EVar vMsq) + (#71 + #122 * EVar vlmMst2 + #32 * EVar vlmMst1 * (#1 + EVar vlmMst2) + #59 *
   EPow P2 (EVar vlmMst2)) * EPow P8 (EVar vMsq))) / (#9 * EPow P2 (EVar vMst1)) - EPow P2 (EVar vMst1) * (#32 * EVar
   vDmglst2 * (#50625 * EVar vDmsqst2 * (#65 - #2 * EVar vlmMst1 + #2 * EVar vlmMst2) * (EPow P3 (EVar vDmsqst2) +
   EPow P6 (EVar vMsq)) - #2 * (#1928479 - #13500 * EConst CB4 + #13500 * EConst CD3 - #6750 * EConst CDN + #635385 *
   EVar vlmMst1 + #81000 * (- #2 + EVar vlmMst1 - EVar vlmMst2) * EVar vlmMt + #450 * EPow P2 (EVar vlmMst1) - #15 *
   EVar vlmMst2 * (- #153166 + #17835 * EVar vlmMst1 + #3375 * EPow P2 (EVar vlmMst1)) - #225 * (- #2627 + #1695 *
   EVar vlmMst1) * EPow P2 (EVar vlmMst2) - #1125 * EPow P3 (EVar vlmMst1) + #433125 * EPow P3 (EVar vlmMst2)) * EPow
   P8 (EVar vMsq)) - #5 * EVar vMgl * (#108 * (#79499 + #20 * EVar vlmMst1 * (#53 - #270 * EVar vlmMst2) - #1060 *
   EVar vlmMst2 + #2700 * EPow P2 (EVar vlmMst1) + #2700 * EPow P2 (EVar vlmMst2)) * EPow P4 (EVar vDmsqst2) + #12 *
   EVar vDmsqst2 * (#339977 + #96120 * EVar vlmMst2 + #1080 * EVar vlmMst1 * (- #89 + #60 * EVar vlmMst2) - #32400 *
   EPow P2 (EVar vlmMst1) - #32400 * EPow P2 (EVar vlmMst2)) * EPow P6 (EVar vMsq) + (#19425643 + #518400 * EVar vlmMt
   + #240 * EVar vlmMst2 * (#82997 + #4320 * EVar vlmMt) - #3600 * (#683 + #96 * EVar vlmMst2) * EPow P2 (EVar
   vlmMst1) + #5684400 * EPow P2 (EVar vlmMst2) - #240 * EVar vlmMst1 * (#42047 + #4800 * EVar vlmMst2 + #4320 * EVar
   vlmMt + #6390 * EPow P2 (EVar vlmMst2)) - #295200 * EPow P3 (EVar vlmMst1) + #2174400 * EPow P3 (EVar vlmMst2)) *
   EPow P8 (EVar vMsq))) / (#243000 * EPow P2 (EVar vMst2))) / EPow P8 (EVar vMsq)) / EVar vMgl) + EVar vMt * (#5 *
   EVar vs2t * EVar vshiftst1 * (#4 * EPow P2 (EVar vMst2) * EPow P2 (EVar vMt) - #2 * EPow P2 (EVar vMst1) * (#2 *
   EPow P2 (EVar vMt) + (- EVar vlmMst1 + EVar vlmMst2) * EPow P2 (EVar vMst2) * EPow P2 (EVar vs2t)) + EPow P2 (EVar
   vs2t) * EPow P4 (EVar vMst1)) * (EVar vDmsqst2 * (#3 - #2 * EVar vlmMst2) * (EPow P3 (EVar vDmsqst2) + EPow P6
   (EVar vMsq)) + (#1 - #2 * EVar vlmMst2) * EPow P8 (EVar vMsq)) / (#3 * EPow P2 (EVar vMst1) * EPow P8 (EVar vMsq))
   + EPow P3 (EVar vs2t) * ((- #1 + #2 * EVar vlmMst2) * EVar vshiftst3 * EPow P2 (EVar vMst2) * ((- #1 - EVar vlmMst1
   + EVar vlmMst2) * EPow P2 (EVar vMst1) + EPow P2 (EVar vMst2)) / (#6 * EPow P2 (EVar vMst1)) - EPow P4 (EVar vMst1)
   * (EDec 9695148419197191 14 - #61388401 * EVar vlmMst1 / #793800 + EVar vlmMst2 * (EDec 7369595742000504 14 +
   #302047 * EVar vlmMst1 / #1890 - #257 * EPow P2 (EVar vlmMst1) / #9) - #76483 * EPow P2 (EVar vlmMst1) / #945 -
   (EDec 7887883597883598 14 - #61 * EVar vlmMst1) * EPow P2 (EVar vlmMst2) + EVar vDmsqst2 * (EDec 1777343371446168
   14 - #452768 * EVar vlmMst1 / #19845 + (EDec 22815217939027463 15 + #122 * EVar vlmMst1 / #7) * EVar vlmMst2 + #5 *
   EVar vDmglst2 * (#419 - #57 * EVar vlmMst1 + #57 * EVar vlmMst2) / (#27 * EVar vMgl) - #61 * (EPow P2 (EVar
   vlmMst1) + EPow P2 (EVar vlmMst2)) / #7) / EPow P2 (EVar vMsq) - #35 * EPow P3 (EVar vlmMst1) / #27 - #841 * EPow
   P3 (EVar vlmMst2) / #27 - EVar vDmglst2 * (EDec 2038689796251638 13 + #2171669 * EVar vlmMst2 / #119070 + (#433 +
   #6552 * EVar vlmMst2) * EPow P2 (EVar vlmMst1) / #189 + #1987 * EPow P2 (EVar vlmMst2) / #189 - EVar vlmMst1 *
   (#2740559 + #1524600 * EVar vlmMst2 + #7514640 * EPow P2 (EVar vlmMst2)) / #119070 - #56 * EPow P3 (EVar vlmMst1) /
   #27 + #824 * EPow P3 (EVar vlmMst2) / #27) / EVar vMgl - (EDec 5545597659639988 14 + #27119 * EVar vlmMst1 / #11340
   + (- EDec 23914462081128747 16 + #16 * EVar vlmMst1) * EVar vlmMst2 + #5 * EVar vDmglst2 * (- #419 + #57 * EVar
   vlmMst1 - #57 * EVar vlmMst2) / (#27 * EVar vMgl) - #8 * (EPow P2 (EVar vlmMst1) + EPow P2 (EVar vlmMst2))) * EPow
   P4 (EVar vDmsqst2) / EPow P8 (EVar vMsq)) / EPow P2 (EVar vMst2) + EPow P2 (EVar vMst1) * (#15 * EVar vMgl *
   (#594509 + #495540 * EVar vlmMst2 + #180 * EVar vlmMst1 * (- #2453 + #420 * EVar vlmMst2) - #37800 * EPow P2 (EVar
   vlmMst1) - #37800 * EPow P2 (EVar vlmMst2)) * EPow P4 (EVar vDmsqst2) - #120 * EVar vDmsqst2 * EVar vMgl * (#97294
   - #17235 * EVar vlmMst2 + #45 * EVar vlmMst1 * (#233 + #330 * EVar vlmMst2) - #7425 * EPow P2 (EVar vlmMst1) -
   #7425 * EPow P2 (EVar vlmMst2)) * EPow P6 (EVar vMsq) + #405000 * EVar vDmglst2 * EVar vDmsqst2 * (- #55 + #34 *
   EVar vlmMst1 - #34 * EVar vlmMst2) * (EPow P3 (EVar vDmsqst2) + EPow P6 (EVar vMsq)) - #10 * EVar vMgl * (#4627751
   + #48600 * EConst CB4 + #5400 * EConst CD3 - #5400 * EConst CDN + #1320240 * EVar vlmMst1 - #662400 * EPow P2 (EVar
   vlmMst1) - #30 * EVar vlmMst2 * (#12148 - #76560 * EVar vlmMst1 + #12105 * EPow P2 (EVar vlmMst1)) + #2250 * (-
   #583 + #438 * EVar vlmMst1) * EPow P2 (EVar vlmMst2) - #49500 * EPow P3 (EVar vlmMst1) - #572850 * EPow P3 (EVar
   vlmMst2)) * EPow P8 (EVar vMsq) + #2 * EVar vDmglst2 * (#5430043 + #524580 * EVar vlmMst2 + #900 * (- #859 + #3690
   * EVar vlmMst2) * EPow P2 (EVar vlmMst1) + #1454400 * EPow P2 (EVar vlmMst2) - #60 * EVar vlmMst1 * (#51493 +
   #24630 * EVar vlmMst2 + #112950 * EPow P2 (EVar vlmMst2)) + #45000 * EPow P3 (EVar vlmMst1) + #3411000 * EPow P3
   (EVar vlmMst2)) * EPow P8 (EVar vMsq)) / (#243000 * EVar vMgl * EPow P8 (EVar vMsq)) + (- #8 * (#1 + EVar vlmMst2)
   * (#4 * EVar vDmglst2 * EVar vlmMst2 + EVar vMgl + EVar vlmMst2 * EVar vMgl) * EPow P6 (EVar vMst2) / (#9 * EPow P4
   (EVar vMst1)) - (#30 * EVar vMgl * EPow P4 (EVar vDmsqst2) * (#9 * (#8 * EConst COepS2 - #27 * (#391 + #6 * EVar
   vlmMst1 - #6 * EVar vlmMst2) * EConst CS2) * EPow P2 (EVar vMst1) * EPow P2 (EVar vMst2) + (#296 * EConst COepS2 -
   #27 * (#3871 + #222 * EVar vlmMst1 - #222 * EVar vlmMst2) * EConst CS2) * EPow P4 (EVar vMst1) - #126846 * EConst
   CS2 * EPow P4 (EVar vMst2)) - #30 * EVar vDmsqst2 * EVar vMgl * (#18 * (#40 * EConst COepS2 - #27 * (#59 + #30 *
   EVar vlmMst1 - #30 * EVar vlmMst2) * EConst CS2) * EPow P2 (EVar vMst1) * EPow P2 (EVar vMst2) + #4 * (#208 *
   EConst COepS2 - #27 * (#347 + #156 * EVar vlmMst1 - #156 * EVar vlmMst2) * EConst CS2) * EPow P4 (EVar vMst1) + #27
   * (#8 * EConst COepS2 - #81 * (- #15 + #2 * EVar vlmMst1 - #2 * EVar vlmMst2) * EConst CS2) * EPow P4 (EVar vMst2))
   * EPow P6 (EVar vMsq) + (#3 * EVar vMgl * (- #60 * (#340 * EConst COepS2 - #81 * (#424 + #85 * EVar vlmMst1 - #85 *
   EVar vlmMst2) * EConst CS2) * EPow P2 (EVar vMst1) * EPow P2 (EVar vMst2) - #35 * (#788 * EConst COepS2 - #27 *
   (#2662 + #591 * EVar vlmMst1 - #591 * EVar vlmMst2) * EConst CS2) * EPow P4 (EVar vMst1) + #27 * (- #184 * EConst
   COepS2 + #81 * (#307 + #46 * EVar vlmMst1 - #46 * EVar vlmMst2) * EConst CS2) * EPow P4 (EVar vMst2)) + #2 * EVar
   vDmglst2 * (#27 * (#632 * EConst COepS2 + #9 * (#16193 - #1422 * EVar vlmMst1 + #1422 * EVar vlmMst2) * EConst CS2)
   * EPow P2 (EVar vMst1) * EPow P2 (EVar vMst2) + #2 * (#25328 * EConst COepS2 + #27 * (#47051 - #18996 * EVar
   vlmMst1 + #18996 * EVar vlmMst2) * EConst CS2) * EPow P4 (EVar vMst1) + #27 * (#56 * EConst COepS2 - #81 * (- #1677
   + #14 * EVar vlmMst1 - #14 * EVar vlmMst2) * EConst CS2) * EPow P4 (EVar vMst2))) * EPow P8 (EVar vMsq)) / (#4374 *
   EPow P2 (EVar vMst2) * EPow P8 (EVar vMsq)) + EPow P2 (EVar vMst2) * (- (EVar vMgl * (#15 * (#3847 + EVar vlmMst1 *
   (#744 - #288 * EVar vlmMst2) - #744 * EVar vlmMst2 + #288 * EPow P2 (EVar vlmMst2)) * EPow P4 (EVar vDmsqst2) + #30
   * EVar vDmsqst2 * (#1177 + #48 * EVar vlmMst1 * (#7 - #3 * EVar vlmMst2) - #336 * EVar vlmMst2 + #144 * EPow P2
   (EVar vlmMst2)) * EPow P6 (EVar vMsq) + (#21005 + #1440 * EConst CB4 - #144 * EConst CD3 + #72 * EConst CDN +
   #21216 * EVar vlmMst1 + #1908 * EPow P2 (EVar vlmMst1) - #12 * EVar vlmMst2 * (#2950 - #2040 * EVar vlmMst1 + #117
   * EPow P2 (EVar vlmMst1)) + #108 * (- #283 + #98 * EVar vlmMst1) * EPow P2 (EVar vlmMst2) + #576 * EPow P3 (EVar
   vlmMst1) - #9756 * EPow P3 (EVar vlmMst2)) * EPow P8 (EVar vMsq))) + #2 * EVar vDmglst2 * (#2160 * EVar vDmsqst2 *
   (#5 + #2 * EVar vlmMst1 - #2 * EVar vlmMst2) * (EPow P3 (EVar vDmsqst2) + EPow P6 (EVar vMsq)) + (#14987 - #432 *
   EConst CB4 + #576 * EConst CD3 - #360 * EConst CDN + #4752 * EVar vlmMst1 - #1404 * EPow P2 (EVar vlmMst1) + #144 *
   EVar vlmMst2 * (- #81 - #124 * EVar vlmMst1 + #8 * EPow P2 (EVar vlmMst1)) - #36 * (- #439 + #246 * EVar vlmMst1) *
   EPow P2 (EVar vlmMst2) + #7704 * EPow P3 (EVar vlmMst2)) * EPow P8 (EVar vMsq)) + #36 * EPow P2 (EVar vMst2) *
   (EVar vMgl * (- #30 * (#5 + #2 * EVar vlmMst2) * EPow P4 (EVar vDmsqst2) + #30 * EVar vDmsqst2 * (#1 - #2 * EVar
   vlmMst2) * EPow P6 (EVar vMsq) + (#119 + #218 * EVar vlmMst2 + #32 * EVar vlmMst1 * (#1 + EVar vlmMst2) + #107 *
   EPow P2 (EVar vlmMst2)) * EPow P8 (EVar vMsq)) + EVar vDmglst2 * (#360 * EPow P4 (EVar vDmsqst2) + #360 * EVar
   vDmsqst2 * EPow P6 (EVar vMsq) + #2 * (- #20 + #230 * EVar vlmMst2 + #32 * EVar vlmMst1 * EVar vlmMst2 + #155 *
   EPow P2 (EVar vlmMst2)) * EPow P8 (EVar vMsq))) / EPow P2 (EVar vMst1)) / (#648 * EPow P8 (EVar vMsq))) / EVar
   vMgl)) - EVar vxDR2DRMOD * (- #15 * EVar vshiftst1 * (#4 * EVar vs2t * (EPow P2 (EVar vMst1) - EPow P2 (EVar
   vMst2)) * EPow P3 (EVar vMt) - EVar vMt * EPow P3 (EVar vs2t) * (#2 * (EVar vlmMst1 - EVar vlmMst2) * EPow P2 (EVar
   vMst1) * EPow P2 (EVar vMst2) + EPow P4 (EVar vMst1) - EPow P4 (EVar vMst2))) * (#1 + EVar vDmsqst2 / EPow P2 (EVar
   vMsq) + EPow P4 (EVar vDmsqst2) / EPow P8 (EVar vMsq)) / (#2 * EPow P2 (EVar vMst1)) + EVar vMuSUSY * EVar vs2t *
   EPow P2 (EVar vMt) * (#64 * EVar vMt * ((#1 + EVar vlmMst2) * EVar vMgl * (#2 * (#1 - #10 * EVar vlmMst2 + #4 *
   EVar vlmMst1 * (#2 + EVar vlmMst2) - #4 * EPow P2 (EVar vlmMst2)) * EPow P2 (EVar vMst2) * EPow P4 (EVar vMst1) -
   #2 * (#1 + #5 * EVar vlmMst2 - EVar vlmMst1 * (#3 + #2 * EVar vlmMst2) + #2 * EPow P2 (EVar vlmMst2)) * EPow P2
   (EVar vMst1) * EPow P4 (EVar vMst2) + (#7 - #32 * EVar vlmMst2 + #4 * EVar vlmMst1 * (#7 + #3 * EVar vlmMst2) - #12
   * EPow P2 (EVar vlmMst2)) * EPow P6 (EVar vMst1) - #2 * (#1 + EVar vlmMst2) * EPow P6 (EVar vMst2)) + EVar vDmglst2
   * (#4 * EPow P2 (EVar vMst2) * (#8 + #13 * EVar vlmMst2 - #8 * EPow P2 (EVar vlmMst2) + EVar vlmMst1 * (- #5 + #5 *
   EVar vlmMst2 + #6 * EPow P2 (EVar vlmMst2)) - #6 * EPow P3 (EVar vlmMst2)) * EPow P4 (EVar vMst1) + (#49 + #103 *
   EVar vlmMst2 - #36 * (#1 + EVar vlmMst2) * EPow P2 (EVar vlmMst2) + #4 * EVar vlmMst1 * (- #11 + #6 * EVar vlmMst2
   + #9 * EPow P2 (EVar vlmMst2))) * EPow P6 (EVar vMst1) + #2 * (EPow P2 (EVar vMst1) * (#8 + #7 * EVar vlmMst2 - #11
   * EPow P2 (EVar vlmMst2) + EVar vlmMst1 * (- #3 + #5 * EVar vlmMst2 + #6 * EPow P2 (EVar vlmMst2)) - #6 * EPow P3
   (EVar vlmMst2)) * EPow P4 (EVar vMst2) + (#1 - #2 * EVar vlmMst2 - #3 * EPow P2 (EVar vlmMst2)) * EPow P6 (EVar
   vMst2)))) / (#9 * EVar vMgl * EPow P2 (EVar vMst1) * EPow P5 (EVar vMst2)) - EVar vs2t * (#756 - #2024 * EVar
   vlmMst1 + #128 * EPow P2 (EVar vlmMst1) + #8 * EVar vlmMst2 * (#363 - #332 * EVar vlmMst1 + #16 * EPow P2 (EVar
   vlmMst1)) + #4 * (#707 - #246 * EVar vlmMst1) * EPow P2 (EVar vlmMst2) + #856 * EPow P3 (EVar vlmMst2) - #540 *
   EVar vshiftst1 * (#1 + EPow P2 (EVar vMst2) / EPow P2 (EVar vMst1) - #2 * (EVar vlmMst1 - EVar vlmMst2) * (EPow P2
   (EVar vMst1) * EPow P2 (EVar vMst2) + EPow P4 (EVar vMst1) + EPow P4 (EVar vMst2)) / EPow P4 (EVar vMst2)) * (#1 +
   EVar vDmsqst2 / EPow P2 (EVar vMsq) + EPow P4 (EVar vDmsqst2) / EPow P8 (EVar vMsq)) + (#8 * EVar vDmglst2 * (#60 +
   #206 * EVar vlmMst2 + #32 * EVar vlmMst2 * EPow P2 (EVar vlmMst1) + EVar vlmMst1 * (#8 - #460 * EVar vlmMst2 - #246
   * EPow P2 (EVar vlmMst2)) + #519 * EPow P2 (EVar vlmMst2) + #214 * EPow P3 (EVar vlmMst2)) - #64 * (#1 + EVar
   vlmMst2) * (#4 * EVar vDmglst2 * EVar vlmMst2 + EVar vMgl + EVar vlmMst2 * EVar vMgl) * EPow P4 (EVar vMst2) / EPow
   P4 (EVar vMst1) + #30 * EVar vDmsqst2 * (#1 - #2 * EVar vlmMst1 + #2 * EVar vlmMst2) * ((#38 * EVar vDmglst2 - #5 *
   EVar vMgl) * EPow P3 (EVar vDmsqst2) - #2 * (#2 * EVar vDmglst2 - #5 * EVar vMgl) * EPow P6 (EVar vMsq)) / EPow P8
   (EVar vMsq) + (#4 * EPow P2 (EVar vMst2) * EPow P4 (EVar vMst1) * (#60 * EVar vDmglst2 * EVar vDmsqst2 * (EVar
   vlmMst1 - EVar vlmMst2) * (EPow P3 (EVar vDmsqst2) + EPow P6 (EVar vMsq)) - #15 * (EVar vlmMst1 - EVar vlmMst2) *
   EVar vMgl * (#13 * EPow P4 (EVar vDmsqst2) + #10 * EVar vDmsqst2 * EPow P6 (EVar vMsq)) + #4 * EVar vDmglst2 * (#48
   + #4 * EVar vlmMst2 * (#31 + #36 * EPow P2 (EVar vlmMst1)) + #278 * EPow P2 (EVar vlmMst2) - EVar vlmMst1 * (#44 +
   #278 * EVar vlmMst2 + #379 * EPow P2 (EVar vlmMst2)) + #235 * EPow P3 (EVar vlmMst2)) * EPow P8 (EVar vMsq) + #2 *
   EVar vMgl * (#32 + #285 * EVar vlmMst2 + #144 * (#1 + EVar vlmMst2) * EPow P2 (EVar vlmMst1) + #444 * EPow P2 (EVar
   vlmMst2) - EVar vlmMst1 * (#253 + #588 * EVar vlmMst2 + #379 * EPow P2 (EVar vlmMst2)) + #235 * EPow P3 (EVar
   vlmMst2)) * EPow P8 (EVar vMsq)) + #8 * EPow P6 (EVar vMst1) * (- #75 * EVar vDmsqst2 * (EVar vlmMst1 - EVar
   vlmMst2) * EVar vMgl * (EPow P3 (EVar vDmsqst2) + EPow P6 (EVar vMsq)) + (#2 * EVar vDmglst2 * (#48 + #4 * EVar
   vlmMst2 * (#45 + #68 * EPow P2 (EVar vlmMst1)) + #310 * EPow P2 (EVar vlmMst2) - EVar vlmMst1 * (#92 + #310 * EVar
   vlmMst2 + #635 * EPow P2 (EVar vlmMst2)) + #363 * EPow P3 (EVar vlmMst2)) + EVar vMgl * (#40 + #277 * EVar vlmMst2
   + #272 * (#1 + EVar vlmMst2) * EPow P2 (EVar vlmMst1) + #556 * EPow P2 (EVar vlmMst2) - EVar vlmMst1 * (#237 + #828
   * EVar vlmMst2 + #635 * EPow P2 (EVar vlmMst2)) + #363 * EPow P3 (EVar vlmMst2))) * EPow P8 (EVar vMsq)) + EPow P6
   (EVar vMst2) * (EVar vMgl * (- #105 * EPow P4 (EVar vDmsqst2) + #300 * EVar vDmsqst2 * EPow P6 (EVar vMsq) + #4 *
   (#205 + #252 * EVar vlmMst2 + #32 * EVar vlmMst1 * (#1 + EVar vlmMst2) + #91 * EPow P2 (EVar vlmMst2)) * EPow P8
   (EVar vMsq)) + #4 * EVar vDmglst2 * (#15 * EPow P4 (EVar vDmsqst2) - #30 * EVar vDmsqst2 * EPow P6 (EVar vMsq) + #2
   * (- #20 + #198 * EVar vlmMst2 + #32 * EVar vlmMst1 * EVar vlmMst2 + #123 * EPow P2 (EVar vlmMst2)) * EPow P8 (EVar
   vMsq)))) / (EPow P2 (EVar vMst1) * EPow P4 (EVar vMst2) * EPow P8 (EVar vMsq))) / EVar vMgl) / #36) / EVar vTbeta +
   EVar vMt * (#512 * EPow P2 (EVar vMst1) * EPow P3 (EVar vMt) * (#9 * (#1 + EVar vlmMst2) * EVar vMgl * ((#3 - #21 *
   EVar vlmMst2 + #2 * EVar vlmMst1 * (#8 + #3 * EVar vlmMst2 - #3 * EVar vlmMt) + #5 * EVar vlmMt + #6 * EVar vlmMst2
   * EVar vlmMt - #6 * EPow P2 (EVar vlmMst2)) * EPow P2 (EVar vMst2) * EPow P4 (EVar vMst1) + (- #1 - #7 * EVar
   vlmMst2 + #2 * EVar vlmMst1 * (#2 + EVar vlmMst2 - EVar vlmMt) + #3 * EVar vlmMt + #2 * EVar vlmMst2 * EVar vlmMt -
   #2 * EPow P2 (EVar vlmMst2)) * EPow P2 (EVar vMst1) * EPow P4 (EVar vMst2) + (#12 - #45 * EVar vlmMst2 + #2 * EVar
   vlmMst1 * (#19 + #6 * EVar vlmMst2 - #6 * EVar vlmMt) + #7 * EVar vlmMt + #12 * EVar vlmMst2 * EVar vlmMt - #12 *
   EPow P2 (EVar vlmMst2)) * EPow P6 (EVar vMst1) - #2 * (#1 + EVar vlmMst2) * EPow P6 (EVar vMst2)) + EVar vDmglst2 *
   (EPow P2 (EVar vMst2) * (#263 + EVar vlmMst2 * (#962 - #213 * EVar vlmMt) - #177 * EVar vlmMt + (#393 - #18 * EVar
   vlmMt) * EPow P2 (EVar vlmMst2) - #18 * EVar vlmMst1 * (#26 - EVar vlmMst2 * (- #17 + EVar vlmMt) - #7 * EVar vlmMt
   + EPow P2 (EVar vlmMst2)) + #18 * EPow P3 (EVar vlmMst2)) * EPow P4 (EVar vMst1) - EPow P2 (EVar vMst1) * (#17 * (-
   #7 + #3 * EVar vlmMt) + EVar vlmMst2 * (- #224 + #15 * EVar vlmMt) - #3 * (#5 + #6 * EVar vlmMt) * EPow P2 (EVar
   vlmMst2) - #18 * EVar vlmMst1 * (- #4 + EVar vlmMt - EVar vlmMst2 * (#1 + EVar vlmMt) + EPow P2 (EVar vlmMst2)) +
   #18 * EPow P3 (EVar vlmMst2)) * EPow P4 (EVar vMst2) + (#290 + EVar vlmMst2 * (#2447 - #645 * EVar vlmMt) - #375 *
   EVar vlmMt - #3 * (- #509 + #60 * EVar vlmMt) * EPow P2 (EVar vlmMst2) - #18 * EVar vlmMst1 * (#87 + EVar vlmMst2 *
   (#71 - #10 * EVar vlmMt) - #22 * EVar vlmMt + #10 * EPow P2 (EVar vlmMst2)) + #180 * EPow P3 (EVar vlmMst2)) * EPow
   P6 (EVar vMst1) - #18 * (- #1 + #2 * EVar vlmMst2 + #3 * EPow P2 (EVar vlmMst2)) * EPow P6 (EVar vMst2))) - #3456 *
   EVar vMt * EPow P2 (EVar vMst1) * EPow P2 (EVar vMst2) * EPow P2 (EVar vs2t) * ((#1 + EVar vlmMst2) * EVar vMgl *
   (#2 * (#2 - #5 * EVar vlmMst2 + EVar vlmMst1 * (#5 + #2 * EVar vlmMst2) - #2 * EPow P2 (EVar vlmMst2)) * EPow P2
   (EVar vMst2) * EPow P4 (EVar vMst1) + #2 * (- #2 * EVar vlmMst2 * (#2 + EVar vlmMst2) + EVar vlmMst1 * (#3 + #2 *
   EVar vlmMst2)) * EPow P2 (EVar vMst1) * EPow P4 (EVar vMst2) + (#5 - #12 * EVar vlmMst2 + #4 * EVar vlmMst1 * (#3 +
   EVar vlmMst2) - #4 * EPow P2 (EVar vlmMst2)) * EPow P6 (EVar vMst1) - #2 * (#1 + EVar vlmMst2) * EPow P6 (EVar
   vMst2)) + EVar vDmglst2 * (#2 * EPow P2 (EVar vMst2) * (#8 + #19 * EVar vlmMst2 - #5 * EPow P2 (EVar vlmMst2) +
   EVar vlmMst1 * (- #7 + #5 * EVar vlmMst2 + #6 * EPow P2 (EVar vlmMst2)) - #6 * EPow P3 (EVar vlmMst2)) * EPow P4
   (EVar vMst1) + #2 * EPow P2 (EVar vMst1) * (#7 + #9 * EVar vlmMst2 - #8 * EPow P2 (EVar vlmMst2) + EVar vlmMst1 *
   (- #3 + #5 * EVar vlmMst2 + #6 * EPow P2 (EVar vlmMst2)) - #6 * EPow P3 (EVar vlmMst2)) * EPow P4 (EVar vMst2) +
   (#17 + #51 * EVar vlmMst2 - #4 * EPow P2 (EVar vlmMst2) + #4 * EVar vlmMst1 * (- #6 + EVar vlmMst2 + #3 * EPow P2
   (EVar vlmMst2)) - #12 * EPow P3 (EVar vlmMst2)) * EPow P6 (EVar vMst1) - #2 * (- #1 + #2 * EVar vlmMst2 + #3 * EPow
   P2 (EVar vlmMst2)) * EPow P6 (EVar vMst2))) - #12 * EVar vMst2 * EVar vs2t * EPow P2 (EVar vMt) * (#3 * EVar vMgl *
   EPow P2 (EVar vMst1) * EPow P4 (EVar vMst2) * (#15 * (#10 * EPow P2 (EVar vMst1) - #7 * EPow P2 (EVar vMst2)) *
   EPow P4 (EVar vDmsqst2) - #300 * EVar vDmsqst2 * (EPow P2 (EVar vMst1) - EPow P2 (EVar vMst2)) * EPow P6 (EVar
   vMsq)) + #4 * EVar vDmglst2 * EPow P2 (EVar vMst1) * EPow P4 (EVar vMst2) * (#45 * (- #19 * EPow P2 (EVar vMst1) +
   EPow P2 (EVar vMst2)) * EPow P4 (EVar vDmsqst2) + #90 * EVar vDmsqst2 * (EPow P2 (EVar vMst1) - EPow P2 (EVar
   vMst2)) * EPow P6 (EVar vMsq)) - #8 * EVar vDmglst2 * EPow P8 (EVar vMsq) * ((#52 + #370 * EVar vlmMst2 - #96 *
   EVar vlmMst2 * EPow P2 (EVar vlmMst1) + #81 * EPow P2 (EVar vlmMst2) + #96 * EVar vlmMst1 * (- #1 + EVar vlmMst2 +
   #2 * EPow P2 (EVar vlmMst2)) - #96 * EPow P3 (EVar vlmMst2)) * EPow P4 (EVar vMst1) * EPow P4 (EVar vMst2) - #96 *
   (EVar vlmMst2 * EPow P2 (EVar vlmMst1) + EVar vlmMst1 * (#4 + #2 * EVar vlmMst2 - #2 * EPow P2 (EVar vlmMst2)) + (-
   #4 + EVar vlmMst2) * EPow P2 (#1 + EVar vlmMst2)) * EPow P2 (EVar vMst2) * EPow P6 (EVar vMst1) - #3 * (- #52 + #2
   * (#51 + #16 * EVar vlmMst1) * EVar vlmMst2 + #59 * EPow P2 (EVar vlmMst2)) * EPow P2 (EVar vMst1) * EPow P6 (EVar
   vMst2) - #96 * (- #6 - #14 * EVar vlmMst2 + EVar vlmMst2 * EPow P2 (EVar vlmMst1) + EVar vlmMst1 * (#9 + #6 * EVar
   vlmMst2 - #2 * EPow P2 (EVar vlmMst2)) - #6 * EPow P2 (EVar vlmMst2) + EPow P3 (EVar vlmMst2)) * EPow P8 (EVar
   vMst1) + #96 * EVar vlmMst2 * (#1 + EVar vlmMst2) * EPow P8 (EVar vMst2)) + #12 * EVar vMgl * EPow P8 (EVar vMsq) *
   (- ((#109 + #76 * EVar vlmMst2 - #21 * EPow P2 (EVar vlmMst2) + #64 * EVar vlmMst1 * EPow P2 (#1 + EVar vlmMst2) -
   #32 * ((#1 + EVar vlmMst2) * EPow P2 (EVar vlmMst1) + EPow P3 (EVar vlmMst2))) * EPow P4 (EVar vMst1) * EPow P4
   (EVar vMst2)) + (#173 + #188 * EVar vlmMst2 + #32 * EVar vlmMst1 * (#1 + EVar vlmMst2) + #59 * EPow P2 (EVar
   vlmMst2)) * EPow P2 (EVar vMst1) * EPow P6 (EVar vMst2) + #32 * (#1 + EVar vlmMst2) * (EPow P2 (#1 - EVar vlmMst1 +
   EVar vlmMst2) * EPow P2 (EVar vMst2) * EPow P6 (EVar vMst1) + (#1 + #3 * EVar vlmMst2 - EVar vlmMst1 * (#3 + #2 *
   EVar vlmMst2) + EPow P2 (EVar vlmMst1) + EPow P2 (EVar vlmMst2)) * EPow P8 (EVar vMst1)) - #16 * EPow P2 (#1 + EVar
   vlmMst2) * EPow P8 (EVar vMst2))) / EPow P8 (EVar vMsq) + #9 * EPow P3 (EVar vMst2) * EPow P3 (EVar vs2t) * (#2 *
   EVar vDmglst2 * (#60 * EVar vlmMst2 * EPow P4 (EVar vMst1) * EPow P4 (EVar vMst2) * (EPow P4 (EVar vDmsqst2) - #2 *
   EVar vDmsqst2 * EPow P6 (EVar vMsq)) + EPow P2 (EVar vMst1) * EPow P2 (EVar vMst2) * (EPow P4 (EVar vDmsqst2) * (-
   #570 * EPow P4 (EVar vMst1) + #75 * EPow P4 (EVar vMst2)) + #60 * EVar vDmsqst2 * (EPow P4 (EVar vMst1) - EPow P4
   (EVar vMst2)) * EPow P6 (EVar vMsq) + #16 * (#20 * EPow P2 (EVar vMst1) * EPow P2 (EVar vMst2) + #9 * EPow P4 (EVar
   vMst1) - #5 * EPow P4 (EVar vMst2)) * EPow P8 (EVar vMsq)) - #4 * EVar vlmMst1 * (#15 * EPow P4 (EVar vMst1) * EPow
   P4 (EVar vMst2) * (EPow P4 (EVar vDmsqst2) - #2 * EVar vDmsqst2 * EPow P6 (EVar vMsq)) + EPow P8 (EVar vMsq) * (#2
   * (- #4 + #246 * EVar vlmMst2 + #123 * EPow P2 (EVar vlmMst2)) * EPow P4 (EVar vMst1) * EPow P4 (EVar vMst2) + #32
   * (#3 + #3 * EVar vlmMst2 + #16 * EPow P2 (EVar vlmMst2)) * EPow P2 (EVar vMst2) * EPow P6 (EVar vMst1) - #32 *
   EVar vlmMst2 * EPow P2 (EVar vMst1) * EPow P6 (EVar vMst2) + #32 * (#3 + #2 * EVar vlmMst2 + #16 * EPow P2 (EVar
   vlmMst2)) * EPow P8 (EVar vMst1))) + #4 * EVar vlmMst2 * EPow P8 (EVar vMsq) * (#32 * EPow P2 (EVar vlmMst1) * EPow
   P4 (EVar vMst1) * (#8 * EPow P2 (EVar vMst1) * EPow P2 (EVar vMst2) + #8 * EPow P4 (EVar vMst1) + EPow P4 (EVar
   vMst2)) + EVar vlmMst2 * (#2 * (#198 + #107 * EVar vlmMst2) * EPow P4 (EVar vMst1) * EPow P4 (EVar vMst2) + (#37 +
   #256 * EVar vlmMst2) * EPow P2 (EVar vMst2) * EPow P6 (EVar vMst1) + #155 * EPow P2 (EVar vMst1) * EPow P6 (EVar
   vMst2) + #64 * (#1 + #4 * EVar vlmMst2) * EPow P8 (EVar vMst1) - #32 * EPow P8 (EVar vMst2))) + #8 * EVar vlmMst2 *
   EPow P8 (EVar vMsq) * (#4 * EPow P4 (EVar vMst1) * EPow P4 (EVar vMst2) + #21 * EPow P2 (EVar vMst2) * EPow P6
   (EVar vMst1) + #115 * EPow P2 (EVar vMst1) * EPow P6 (EVar vMst2) + #56 * EPow P8 (EVar vMst1) - #16 * EPow P8
   (EVar vMst2))) + EVar vMgl * (EPow P2 (EVar vMst1) * EPow P2 (EVar vMst2) * (#15 * EPow P4 (EVar vDmsqst2) * (#14 *
   (EVar vlmMst1 - EVar vlmMst2) * EPow P2 (EVar vMst1) * EPow P2 (EVar vMst2) + #10 * EPow P4 (EVar vMst1) - #7 *
   EPow P4 (EVar vMst2)) - #300 * EVar vDmsqst2 * (#2 * (EVar vlmMst1 - EVar vlmMst2) * EPow P2 (EVar vMst1) * EPow P2
   (EVar vMst2) + EPow P4 (EVar vMst1) - EPow P4 (EVar vMst2)) * EPow P6 (EVar vMsq)) + #4 * EPow P8 (EVar vMsq) * (#2
   * (- #8 + #237 * EVar vlmMst2 + #16 * (#1 + EVar vlmMst2) * EPow P2 (EVar vlmMst1) + #308 * EPow P2 (EVar vlmMst2)
   - EVar vlmMst1 * (#269 + #348 * EVar vlmMst2 + #123 * EPow P2 (EVar vlmMst2)) + #107 * EPow P3 (EVar vlmMst2)) *
   EPow P4 (EVar vMst1) * EPow P4 (EVar vMst2) + EPow P2 (EVar vMst2) * (- #125 - #156 * EVar vlmMst2 - #512 * EVar
   vlmMst1 * EVar vlmMst2 * (#1 + EVar vlmMst2) + #256 * (#1 + EVar vlmMst2) * EPow P2 (EVar vlmMst1) + #181 * EPow P2
   (EVar vlmMst2) + #256 * EPow P3 (EVar vlmMst2)) * EPow P6 (EVar vMst1) + (#221 + #284 * EVar vlmMst2 + #32 * EVar
   vlmMst1 * (#1 + EVar vlmMst2) + #107 * EPow P2 (EVar vlmMst2)) * EPow P2 (EVar vMst1) * EPow P6 (EVar vMst2) + #16
   * (#1 + EVar vlmMst2) * (#1 + EVar vlmMst1 * (#2 - #32 * EVar vlmMst2) - #2 * EVar vlmMst2 + #16 * EPow P2 (EVar
   vlmMst1) + #16 * EPow P2 (EVar vlmMst2)) * EPow P8 (EVar vMst1) - #16 * EPow P2 (#1 + EVar vlmMst2) * EPow P8 (EVar
   vMst2)))) / EPow P8 (EVar vMsq)) / (#648 * EVar vMgl * EPow P4 (EVar vMst1) * EPow P5 (EVar vMst2))))) + EVar vAl4p
   * (EVar vxDmglst2 * EPow P2 (EVar vDmglst2) * (- (EVar vMt * EVar vMuSUSY * EVar vtwoLoopFlag * (- (EVar vMt * EPow
   P2 (EVar vs2t) * (EVar vMst2 * (#28 + #4 * EVar vlmMst1 - #2 * EVar vlmMst1 * EVar vlmMst2 + #2 * EPow P2 (EVar
   vlmMst2)) + (#34 + #8 * EVar vlmMst1 - #4 * (#2 + EVar vlmMst1) * EVar vlmMst2 + #4 * EPow P2 (EVar vlmMst2)) *
   EPow P2 (EVar vMst1) / EVar vMst2 + (EDec 375 1 + EVar vlmMst1 * (#5 - #4 * EVar vlmMst2) - #5 * EVar vlmMst2 + #4
   * EPow P2 (EVar vlmMst2)) * EPow P4 (EVar vMst1) / EPow P3 (EVar vMst2))) + #2 * EVar vs2t * EPow P2 (EVar vMt) *
   (#11 - #18 * EVar vlmMst2 + #6 * (#3 - EVar vlmMst1 + EVar vlmMst2) * EPow P2 (EVar vMst1) / EPow P2 (EVar vMst2) +
   #6 * (- #2 + #3 * EVar vlmMst2) * EPow P2 (EVar vMst2) / EPow P2 (EVar vMst1) + #6 * (#7 - #6 * EVar vlmMst1 + #6 *
   EVar vlmMst2) * EPow P4 (EVar vMst1) / EPow P4 (EVar vMst2)) / #9 + EPow P3 (EVar vs2t) * ((#2 + #3 * EVar vlmMst2)
   * EPow P2 (EVar vMst1) / #3 + (EDec 26666666666666665 16 + EVar vlmMst2 + EVar vlmMst1 * (- #1 + #2 * EVar vlmMst2)
   - #2 * EPow P2 (EVar vlmMst2)) * EPow P2 (EVar vMst2) + (EDec 5 1 - EVar vlmMst1 + EVar vlmMst2) * EPow P4 (EVar
   vMst1) / EPow P2 (EVar vMst2) + (EDec 6666666666666666 16 - EVar vlmMst2) * EPow P4 (EVar vMst2) / EPow P2 (EVar
   vMst1)) + #4 * EPow P3 (EVar vMt) * ((#29 - #18 * EVar vlmMst1 * (- #1 + EVar vlmMst2) - #3 * EVar vlmMst2 - #15 *
   EVar vlmMt + #18 * EPow P2 (EVar vlmMst2)) * EPow P2 (EVar vMst1) * EPow P2 (EVar vMst2) + (#236 + #339 * EVar
   vlmMst2 - #18 * EVar vlmMst1 * (#13 + #4 * EVar vlmMst2 - #3 * EVar vlmMt) - #105 * EVar vlmMt - #54 * EVar vlmMst2
   * EVar vlmMt + #72 * EPow P2 (EVar vlmMst2)) * EPow P4 (EVar vMst1) + (- #79 - #18 * EVar vlmMst1 * (- #2 + EVar
   vlmMst2) - #39 * EVar vlmMst2 + #3 * EVar vlmMt + #18 * EPow P2 (EVar vlmMst2)) * EPow P4 (EVar vMst2)) / (#27 *
   EPow P5 (EVar vMst2)))) + EVar vs2t * EVar vtwoLoopFlag * EPow P2 (EVar vMt) * EPow P2 (EVar vMuSUSY) * (#2 * (#4 *
   EVar vMt * (- #31 + #3 * EVar vlmMst1 * (- #2 + EVar vlmMst2) + #4 * EVar vlmMst2 - #3 * EPow P2 (EVar vlmMst2)) +
   #3 * EVar vMst2 * EVar vs2t * (#4 + EVar vlmMst2 + EVar vlmMst1 * (- #1 + #2 * EVar vlmMst2) - #2 * EPow P2 (EVar
   vlmMst2))) * EPow P2 (EVar vMst2) * EPow P4 (EVar vMst1) + #2 * (EVar vMst2 * EVar vs2t * (#10 + EVar vlmMst1 * (-
   #3 + #6 * EVar vlmMst2) - #6 * EPow P2 (EVar vlmMst2)) + #4 * EVar vMt * (- #14 + EVar vlmMst1 * (- #2 + EVar
   vlmMst2) - EPow P2 (EVar vlmMst2))) * EPow P2 (EVar vMst1) * EPow P4 (EVar vMst2) + (EVar vMt * (- #398 + #52 *
   EVar vlmMst2 + EVar vlmMst1 * (- #68 + #40 * EVar vlmMst2) - #40 * EPow P2 (EVar vlmMst2)) + #3 * EVar vMst2 * EVar
   vs2t * (#9 + #4 * EVar vlmMst1 * (- #1 + EVar vlmMst2) + #4 * EVar vlmMst2 - #4 * EPow P2 (EVar vlmMst2))) * EPow
   P6 (EVar vMst1) + #2 * (#2 - #3 * EVar vlmMst2) * EVar vs2t * EPow P7 (EVar vMst2)) / (#3 * EVar vTbeta * EPow P2
   (EVar vMst1) * EPow P5 (EVar vMst2)) + EVar vAl4p * EVar vMt * EVar vMuSUSY * EVar vthreeLoopFlag * (EConst CT1ep *
   (#3 * EPow P2 (EVar vMst1) * EPow P2 (EVar vMst2) * (- #15840 * EVar vMst2 * EVar vs2t * EPow P2 (EVar vMt) + #9267
   * EVar vMt * EPow P2 (EVar vMst2) * EPow P2 (EVar vs2t) - #17312 * EPow P3 (EVar vMt) + #530 * EPow P3 (EVar vMst2)
   * EPow P3 (EVar vs2t)) + #2 * (- #66168 * EVar vMst2 * EVar vs2t * EPow P2 (EVar vMt) - #35601 * EVar vMt * EPow P2
   (EVar vMst2) * EPow P2 (EVar vs2t) + #129704 * EPow P3 (EVar vMt) + #12664 * EPow P3 (EVar vMst2) * EPow P3 (EVar
   vs2t)) * EPow P4 (EVar vMst1) + #63 * (- #72 * EVar vMst2 * EVar vs2t * EPow P2 (EVar vMt) + #3 * EVar vMt * EPow
   P2 (EVar vMst2) * EPow P2 (EVar vs2t) - #4 * EPow P3 (EVar vMt) + #10 * EPow P3 (EVar vMst2) * EPow P3 (EVar vs2t))
   * EPow P4 (EVar vMst2)) / (#729 * EPow P5 (EVar vMst2)) + EPow P3 (EVar vs2t) * (- #16 * (- #2 + EVar vlmMst2 + #5
   * EPow P2 (EVar vlmMst2)) * EPow P6 (EVar vMst2) / (#9 * EPow P4 (EVar vMst1)) + (- #4 * EConst COepS2 * (#795 *
   EPow P2 (EVar vMst1) * EPow P2 (EVar vMst2) + #12664 * EPow P4 (EVar vMst1) + #315 * EPow P4 (EVar vMst2)) / #2187
   - EConst CS2 * (#159 * (#21401 - #150 * EVar vlmMst1 + #150 * EVar vlmMst2) * EPow P2 (EVar vMst1) * EPow P2 (EVar
   vMst2) + #20 * (#47051 - #18996 * EVar vlmMst1 + #18996 * EVar vlmMst2) * EPow P4 (EVar vMst1) + #27 * (#116129 -
   #350 * EVar vlmMst1 + #350 * EVar vlmMst2) * EPow P4 (EVar vMst2)) / #810 + EPow P4 (EVar vMst1) * (EDec
   2038689796251638 13 - #2740559 * EVar vlmMst1 / #119070 + #433 * EPow P2 (EVar vlmMst1) / #189 + EVar vlmMst2 *
   (EDec 18238590744939952 15 - #2420 * EVar vlmMst1 / #189 + #104 * EPow P2 (EVar vlmMst1) / #3) + (EDec
   10513227513227513 15 - #568 * EVar vlmMst1 / #9) * EPow P2 (EVar vlmMst2) - #56 * EPow P3 (EVar vlmMst1) / #27 +
   #824 * EPow P3 (EVar vlmMst2) / #27 + #5 * EVar vDmsqst2 * (- #419 + #57 * EVar vlmMst1 - #57 * EVar vlmMst2) *
   (EPow P3 (EVar vDmsqst2) + EPow P6 (EVar vMsq)) / (#27 * EPow P8 (EVar vMsq)))) / EPow P2 (EVar vMst2) - EPow P4
   (EVar vMst2) * (#916 + #64 * EVar vlmMst1 - #6 * (#65 + #16 * EVar vlmMst1) * EVar vlmMst2 - #657 * EPow P2 (EVar
   vlmMst2) - #360 * EVar vDmsqst2 * (EPow P3 (EVar vDmsqst2) + EPow P6 (EVar vMsq)) / EPow P8 (EVar vMsq)) / (#18 *
   EPow P2 (EVar vMst1)) + EPow P2 (EVar vMst1) * (EDec 3230218244170096 14 - #32 * EConst CB4 / #9 + #32 * EConst CD3
   / #9 - #16 * EConst CDN / #9 - #80549 * EVar vlmMst1 / #1350 - #6011 * EPow P2 (EVar vlmMst1) / #270 + EVar vlmMst2
   * (#41949 + #45410 * EVar vlmMst1 + #58350 * EPow P2 (EVar vlmMst1)) / #1350 - (#2383 + #11595 * EVar vlmMst1) *
   EPow P2 (EVar vlmMst2) / #135 - #5 * EPow P3 (EVar vlmMst1) / #27 + #1157 * EPow P3 (EVar vlmMst2) / #27 + #5 *
   EVar vDmsqst2 * (- #55 + #34 * EVar vlmMst1 - #34 * EVar vlmMst2) * (EPow P3 (EVar vDmsqst2) + EPow P6 (EVar vMsq))
   / (#3 * EPow P8 (EVar vMsq))) + EPow P2 (EVar vMst2) * (EDec 9272211934156378 14 - #50 * EConst CB4 / #9 + #56 *
   EConst CD3 / #9 - #31 * EConst CDN / #9 + #142 * EVar vlmMst1 / #3 - EVar vlmMst2 * (EDec 9129629629629629 14 + #56
   * EVar vlmMst1 - #16 * EPow P2 (EVar vlmMst1) / #3) - #103 * EPow P2 (EVar vlmMst1) / #18 + (EDec 3505555555555556
   14 - #41 * EVar vlmMst1) * EPow P2 (EVar vlmMst2) + #107 * EPow P3 (EVar vlmMst2) / #3 + #20 * EVar vDmsqst2 * (#5
   + #2 * EVar vlmMst1 - #2 * EVar vlmMst2) * (EPow P3 (EVar vDmsqst2) + EPow P6 (EVar vMsq)) / (#3 * EPow P8 (EVar
   vMsq)))) - EVar vMt * EPow P2 (EVar vs2t) * (#64 * (#2 + EVar vlmMst2 - #3 * EPow P2 (EVar vlmMst2)) * EPow P3
   (EVar vMst2) / (#3 * EPow P2 (EVar vMst1)) + (- #2 * EConst COepS2 * (- #9267 * EPow P2 (EVar vMst1) * EPow P2
   (EVar vMst2) + #23734 * EPow P4 (EVar vMst1) - #63 * EPow P4 (EVar vMst2)) / #729 + EConst CS2 * (#3 * (#29123 -
   #92670 * EVar vlmMst1 + #92670 * EVar vlmMst2) * EPow P2 (EVar vMst1) * EPow P2 (EVar vMst2) + #2 * (#525961 +
   #356010 * EVar vlmMst1 - #356010 * EVar vlmMst2) * EPow P4 (EVar vMst1) + #27 * (#1387 - #70 * EVar vlmMst1 + #70 *
   EVar vlmMst2) * EPow P4 (EVar vMst2)) / #540 + EPow P4 (EVar vMst1) * (EDec 516797085048011 12 - #296 * EConst CB4
   / #3 + #4 * EConst CDN / #3 + #17570 * EVar vlmMst1 / #81 + #46 * EPow P2 (EVar vlmMst1) / #3 - EVar vlmMst2 *
   (#28667 - #5238 * EVar vlmMst1 + #3024 * EPow P2 (EVar vlmMst1)) / #81 + #4 * (- #60 + #157 * EVar vlmMst1) * EPow
   P2 (EVar vlmMst2) / #3 - #16 * EPow P3 (EVar vlmMst1) / #3 - #500 * EPow P3 (EVar vlmMst2) / #3 + #10 * EVar
   vDmsqst2 * (- #80 + #43 * EVar vlmMst1 - #43 * EVar vlmMst2) * (EPow P3 (EVar vDmsqst2) + EPow P6 (EVar vMsq)) /
   EPow P8 (EVar vMsq))) / EPow P3 (EVar vMst2) + EVar vMst2 * (EDec 3587766975308642 13 - #490 * EConst CB4 / #3 +
   #11 * EConst CDN / #3 - #824 * EVar vlmMst1 / #3 - #32 * EPow P2 (EVar vlmMst1) / #3 + #2 * EVar vlmMst2 * (- #695
   - #108 * EVar vlmMst1 + #24 * EPow P2 (EVar vlmMst1)) / #9 + #14 * (- #18 + #31 * EVar vlmMst1) * EPow P2 (EVar
   vlmMst2) / #3 - #150 * EPow P3 (EVar vlmMst2) + #40 * EVar vDmsqst2 * (#2 + #5 * EVar vlmMst1 - #5 * EVar vlmMst2)
   * (EPow P3 (EVar vDmsqst2) + EPow P6 (EVar vMsq)) / EPow P8 (EVar vMsq)) + EPow P2 (EVar vMst1) * (EDec
   6980036008230452 14 - #524 * EConst CB4 / #3 + #10 * EConst CDN / #3 - #3469 * EVar vlmMst1 / #27 + #64 * EPow P2
   (EVar vlmMst1) / #3 - EVar vlmMst2 * (#7619 + #720 * EVar vlmMst1 + #288 * EPow P2 (EVar vlmMst1)) / #27 + #4 * (#4
   + #153 * EVar vlmMst1) * EPow P2 (EVar vlmMst2) / #3 - #580 * EPow P3 (EVar vlmMst2) / #3 + #400 * EVar vDmsqst2 *
   (- #1 + EVar vlmMst1 - EVar vlmMst2) * (EPow P3 (EVar vDmsqst2) + EPow P6 (EVar vMsq)) / EPow P8 (EVar vMsq)) /
   EVar vMst2) + EPow P3 (EVar vMt) * (#256 * EVar vMst2 * (#2 + EVar vlmMst2 - #3 * EPow P2 (EVar vlmMst2)) / (#9 *
   EPow P2 (EVar vMst1)) + (#24 * (#151480 * EConst COepS2 + #27 * (#105619 - #113610 * EVar vlmMst1 + #113610 * EVar
   vlmMst2) * EConst CS2) * EPow P2 (EVar vMst1) * EPow P2 (EVar vMst2) + #35 * (#5659217 + #1592460 * EVar vlmMt -
   #518816 * EConst COepS2 + #9976392 * EConst CS2 - #972 * (#569 + #180 * EVar vlmMst2 - #126 * EVar vlmMt) * EPow P2
   (EVar vlmMst1) + #324 * (#5353 + #126 * EVar vlmMt) * EPow P2 (EVar vlmMst2) - #186624 * EPow P2 (EVar vlmMt) + #72
   * EVar vlmMst1 * (- #27653 - #3015 * EVar vlmMt - #18 * EVar vlmMst2 * (#689 + #126 * EVar vlmMt) + #145917 *
   EConst CS2 + #2160 * EPow P2 (EVar vlmMst2) + #2592 * EPow P2 (EVar vlmMt)) - #36 * EVar vlmMst2 * (- #39031 -
   #3204 * EVar vlmMt + #291834 * EConst CS2 + #5184 * EPow P2 (EVar vlmMt)) + #1944 * EPow P3 (EVar vlmMst1) + #17496
   * EPow P3 (EVar vlmMst2)) * EPow P4 (EVar vMst1) + #9 * (#1960 * EConst COepS2 - #81 * (- #9361 + #490 * EVar
   vlmMst1 - #490 * EVar vlmMst2) * EConst CS2) * EPow P4 (EVar vMst2)) / (#76545 * EPow P5 (EVar vMst2)) - (EDec
   21023283362727807 14 + #2272 * EVar vlmMst1 / #9 + #128 * EPow P2 (EVar vlmMst1) / #9 - #16 * EVar vlmMst2 * (#1099
   - #126 * EVar vlmMst1 + #12 * EPow P2 (EVar vlmMst1)) / #27 + #8 * EVar vlmMt * (#458 + #48 * EVar vlmMst1 * (- #2
   + EVar vlmMst2) + #105 * EVar vlmMst2 - #48 * EPow P2 (EVar vlmMst2)) / #27 - #8 * (#107 + #41 * EVar vlmMst1) *
   EPow P2 (EVar vlmMst2) / #9 + #32 * EPow P2 (EVar vlmMt) / #9 + #392 * EPow P3 (EVar vlmMst2) / #9 + #80 * EVar
   vDmsqst2 * (#101 - #90 * EVar vlmMst1 + #177 * EVar vlmMst2 - #87 * EVar vlmMt) * (EPow P3 (EVar vDmsqst2) + EPow
   P6 (EVar vMsq)) / (#27 * EPow P8 (EVar vMsq))) / EVar vMst2 + EPow P2 (EVar vMst1) * (EDec 22331232608269644 14 -
   #13840 * EVar vlmMst1 / #27 + #4 * EVar vlmMst2 * (#8232 + #347 * EVar vlmMst2 + EVar vlmMst1 * (- #689 + #438 *
   EVar vlmMst2) - #48 * EPow P2 (EVar vlmMst1)) / #27 + #64 * EPow P2 (EVar vlmMst1) / #3 - #4 * EVar vlmMt * (#5564
   + #203 * EVar vlmMst2 + EVar vlmMst1 * (- #281 + #96 * EVar vlmMst2) - #96 * EPow P2 (EVar vlmMst2)) / #27 + #160 *
   EPow P2 (EVar vlmMt) / #9 - #520 * EPow P3 (EVar vlmMst2) / #9 + #80 * EVar vDmsqst2 * (- #497 + #306 * EVar
   vlmMst1 - #609 * EVar vlmMst2 + #303 * EVar vlmMt) * (EPow P3 (EVar vDmsqst2) + EPow P6 (EVar vMsq)) / (#27 * EPow
   P8 (EVar vMsq))) / EPow P3 (EVar vMst2)) + EVar vs2t * EPow P2 (EVar vMt) * (EDec 1657490476190476 12 - #16 *
   EConst CB4 / #3 + #16 * EConst CD3 / #3 - #8 * EConst CDN / #3 + #736 * EVar vlmMst1 / #9 - #32 * EVar vlmMt / #9 +
   EVar vlmMst2 * (EDec 9582962962962963 13 + #68 * EVar vlmMst1 - #64 * EPow P2 (EVar vlmMst1) / #3) + #58 * EPow P2
   (EVar vlmMst1) / #3 + #16 * (#37 - #12 * EVar vlmMst1) * EPow P2 (EVar vlmMst2) / #9 + #128 * EPow P3 (EVar
   vlmMst2) / #3 - EConst CS2 * (EDec 5960571428571428 13 + #84 * EVar vlmMst1 - #84 * EVar vlmMst2 + (EDec
   1403352380952381 12 + #880 * EVar vlmMst1 - #880 * EVar vlmMst2) * EPow P2 (EVar vMst1) / EPow P2 (EVar vMst2) + #8
   * (#17269 + #13785 * EVar vlmMst1 - #13785 * EVar vlmMst2) * EPow P4 (EVar vMst1) / (#45 * EPow P4 (EVar vMst2))) +
   #64 * (- #2 + EVar vlmMst2 + #5 * EPow P2 (EVar vlmMst2)) * EPow P4 (EVar vMst2) / (#9 * EPow P4 (EVar vMst1)) +
   ((EDec 31141128771790903 14 - #32 * EConst CB4 / #9 + #32 * EConst CD3 / #9 - #16 * EConst CDN / #9 + #14926634 *
   EVar vlmMst1 / #19845 + #19352 * EPow P2 (EVar vlmMst1) / #189 + #2 * EVar vlmMst2 * (#2917823 - #3813600 * EVar
   vlmMst1 + #97020 * EPow P2 (EVar vlmMst1)) / #19845 + #8 * (#8677 - #5439 * EVar vlmMst1) * EPow P2 (EVar vlmMst2)
   / #189 - #64 * EVar vlmMt * (#4 + #6 * EVar vlmMst2 - #2 * EVar vlmMst1 * (#3 + EVar vlmMst2) + EPow P2 (EVar
   vlmMst1) + EPow P2 (EVar vlmMst2)) / #3 - #8 * EPow P3 (EVar vlmMst1) / #9 + #664 * EPow P3 (EVar vlmMst2) / #3) *
   EPow P4 (EVar vMst1) + #16 * EConst COepS2 * (#660 * EPow P2 (EVar vMst1) * EPow P2 (EVar vMst2) + #1838 * EPow P4
   (EVar vMst1) + #63 * EPow P4 (EVar vMst2)) / #243) / EPow P4 (EVar vMst2) + EPow P2 (EVar vMst1) * (EDec
   23118293850676073 13 - #16 * EConst CB4 / #3 + #16 * EConst CD3 / #3 - #8 * EConst CDN / #3 + #1014244 * EVar
   vlmMst1 / #2025 + #32 * (#5 + EVar vlmMst1 - EVar vlmMst2) * EVar vlmMt / #9 + #4 * EVar vlmMst2 * (#715964 +
   #124935 * EVar vlmMst1 - #11025 * EPow P2 (EVar vlmMst1)) / #2025 + #2032 * EPow P2 (EVar vlmMst1) / #135 - #4 *
   (#4517 + #5025 * EVar vlmMst1) * EPow P2 (EVar vlmMst2) / #135 + #4 * EPow P3 (EVar vlmMst1) / #27 + #4604 * EPow
   P3 (EVar vlmMst2) / #27 + #20 * EVar vDmsqst2 * (- #65 + #2 * EVar vlmMst1 - #2 * EVar vlmMst2) * (EPow P3 (EVar
   vDmsqst2) + EPow P6 (EVar vMsq)) / (#3 * EPow P8 (EVar vMsq))) / EPow P2 (EVar vMst2) + #2 * (- #820 * EVar
   vDmsqst2 * (EPow P3 (EVar vDmsqst2) + EPow P6 (EVar vMsq)) - EPow P2 (EVar vMst2) * (#360 * EPow P4 (EVar vDmsqst2)
   + #360 * EVar vDmsqst2 * EPow P6 (EVar vMsq) + (- #756 + #134 * EVar vlmMst2 + #32 * EVar vlmMst1 * (- #2 + #3 *
   EVar vlmMst2) + #177 * EPow P2 (EVar vlmMst2)) * EPow P8 (EVar vMsq)) / EPow P2 (EVar vMst1)) / (#9 * EPow P8 (EVar
   vMsq)))) + EVar vAl4p * EVar vthreeLoopFlag * (#5 * EVar vDmsqst2 * (- #1081 + #165 * EVar vlmMst1 - #165 * EVar
   vlmMst2) * EPow P2 (EVar vMt) * EPow P2 (EVar vs2t) * (- #1 + EPow P2 (EVar vSbeta)) * EPow P2 (EVar vSbeta) * EPow
   P4 (EVar vMst1) * (EPow P3 (EVar vDmsqst2) + EPow P6 (EVar vMsq)) / (#9 * EPow P2 (EVar vMst2) * EPow P8 (EVar
   vMsq)) - EPow P2 (EVar vMuSUSY) * ((EPow P2 (EVar vMst1) * (#3051661 - #12960 * EConst CB4 + #12960 * EConst CD3 -
   #6480 * EConst CDN + #304320 * EVar vlmMst1 + #960 * (#2227 + #285 * EVar vlmMst1) * EVar vlmMst2 + #2880 * (#4 +
   EVar vlmMst1 - EVar vlmMst2) * EVar vlmMt + #5600 * EConst COepS2 - #324 * (#5361 + #350 * EVar vlmMst1 - #350 *
   EVar vlmMst2) * EConst CS2 - #2880 * (#23 + #72 * EVar vlmMst1) * EPow P2 (EVar vlmMst2) + #207360 * EPow P3 (EVar
   vlmMst2)) + #24 * EPow P2 (EVar vMst2) * (#50134 - #270 * EConst CB4 + #270 * EConst CD3 - #135 * EConst CDN + #120
   * (#271 + #24 * EVar vlmMst1) * EVar vlmMst2 - #120 * EVar vlmMt - #29646 * EConst CS2 - #720 * (- #2 + #3 * EVar
   vlmMst1) * EPow P2 (EVar vlmMst2) + #2160 * (EVar vlmMst1 + EPow P3 (EVar vlmMst2)))) * EPow P4 (EVar vMt) / (#1215
   * EPow P4 (EVar vMst2)) - EVar vs2t * EPow P3 (EVar vMt) * (#256 * EVar vMst2 * (#2 + EVar vlmMst2 - #3 * EPow P2
   (EVar vlmMst2)) / (#9 * EPow P2 (EVar vMst1)) + ((EDec 634115454961134 12 - #3416 * EConst CB4 / #9 + #52 * EConst
   CDN / #9 + #111356 * EVar vlmMst1 / #243 + #8 * EPow P2 (EVar vlmMst1) / #9 - #8 * EVar vlmMst2 * (#36802 - #11421
   * EVar vlmMst1 + #1728 * EPow P2 (EVar vlmMst1)) / #243 + #344 * (- #14 + #15 * EVar vlmMst1) * EPow P2 (EVar
   vlmMst2) / #9 - #64 * EPow P3 (EVar vlmMst1) / #9 - #1528 * EPow P3 (EVar vlmMst2) / #3) * EPow P4 (EVar vMst1) -
   #8 * EConst COepS2 * (- #9330 * EPow P2 (EVar vMst1) * EPow P2 (EVar vMst2) + #32842 * EPow P4 (EVar vMst1) - #63 *
   EPow P4 (EVar vMst2)) / #2187 + EConst CS2 * (#6 * (#20803 - #46650 * EVar vlmMst1 + #46650 * EVar vlmMst2) * EPow
   P2 (EVar vMst1) * EPow P2 (EVar vMst2) + #10 * (#123113 + #98526 * EVar vlmMst1 - #98526 * EVar vlmMst2) * EPow P4
   (EVar vMst1) + #27 * (#1387 - #70 * EVar vlmMst1 + #70 * EVar vlmMst2) * EPow P4 (EVar vMst2)) / #405) / EPow P5
   (EVar vMst2) + EPow P2 (EVar vMst1) * (EDec 6283249657064472 13 - #1352 * EConst CB4 / #3 + #28 * EConst CDN / #3 -
   #43540 * EVar vlmMst1 / #81 + #128 * EPow P2 (EVar vlmMst1) / #9 - #4 * EVar vlmMst2 * (#11213 + #1368 * EVar
   vlmMst1 + #144 * EPow P2 (EVar vlmMst1)) / #81 + #8 * (- #214 + #523 * EVar vlmMst1) * EPow P2 (EVar vlmMst2) / #9
   - #4120 * EPow P3 (EVar vlmMst2) / #9 + #160 * EVar vDmsqst2 * (- #8 + #15 * EVar vlmMst1 - #15 * EVar vlmMst2) *
   (EPow P3 (EVar vDmsqst2) + EPow P6 (EVar vMsq)) / (#3 * EPow P8 (EVar vMsq))) / EPow P3 (EVar vMst2) + (EDec
   5352578189300411 13 - #1960 * EConst CB4 / #9 + #44 * EConst CDN / #9 - #3296 * EVar vlmMst1 / #9 - #128 * EPow P2
   (EVar vlmMst1) / #9 + #8 * EVar vlmMst2 * (- #599 - #108 * EVar vlmMst1 + #24 * EPow P2 (EVar vlmMst1)) / #27 + #8
   * (- #222 + #217 * EVar vlmMst1) * EPow P2 (EVar vlmMst2) / #9 - #200 * EPow P3 (EVar vlmMst2) + #160 * EVar
   vDmsqst2 * (#2 + #5 * EVar vlmMst1 - #5 * EVar vlmMst2) * (EPow P3 (EVar vDmsqst2) + EPow P6 (EVar vMsq)) / (#3 *
   EPow P8 (EVar vMsq))) / EVar vMst2) + EPow P2 (EVar vMt) * (#4 * EConst CT1ep * (#30 * EVar vMst2 * EPow P2 (EVar
   vMst1) * (#311 * EVar vMst2 * EVar vMt * EVar vs2t - #42 * EPow P2 (EVar vMt) + #37 * EPow P2 (EVar vMst2) * EPow
   P2 (EVar vs2t)) + #2 * EVar vs2t * (- #16421 * EVar vMt + #8654 * EVar vMst2 * EVar vs2t) * EPow P4 (EVar vMst1) +
   #63 * EVar vs2t * (EVar vMt + #5 * EVar vMst2 * EVar vs2t) * EPow P4 (EVar vMst2)) / (#729 * EPow P5 (EVar vMst2))
   + EPow P2 (EVar vs2t) * (EDec 9077757201646091 14 - #100 * EConst CB4 / #9 + #112 * EConst CD3 / #9 - #62 * EConst
   CDN / #9 + #788 * EVar vlmMst1 / #9 - #103 * EPow P2 (EVar vlmMst1) / #9 + #16 * EVar vlmMst2 * (- #241 - #171 *
   EVar vlmMst1 + #18 * EPow P2 (EVar vlmMst1)) / #27 + (EDec 12533333333333333 14 - #82 * EVar vlmMst1) * EPow P2
   (EVar vlmMst2) + #214 * EPow P3 (EVar vlmMst2) / #3 - #32 * (- #2 + EVar vlmMst2 + #5 * EPow P2 (EVar vlmMst2)) *
   EPow P4 (EVar vMst2) / (#9 * EPow P4 (EVar vMst1)) + ((EDec 5851892843532082 13 - #8 * EConst CB4 / #3 + #32 *
   EConst CD3 / #9 - #20 * EConst CDN / #9 - #20109937 * EVar vlmMst1 / #297675 - #15886 * EPow P2 (EVar vlmMst1) /
   #945 + EVar vlmMst2 * (EDec 17112243218274966 15 - #144628 * EVar vlmMst1 / #945 + #1180 * EPow P2 (EVar vlmMst1) /
   #9) + #2 * (#80257 - #138180 * EVar vlmMst1) * EPow P2 (EVar vlmMst2) / #945 - #92 * EPow P3 (EVar vlmMst1) / #27 +
   #4448 * EPow P3 (EVar vlmMst2) / #27) * EPow P4 (EVar vMst1) - #8 * EConst COepS2 * (#1110 * EPow P2 (EVar vMst1) *
   EPow P2 (EVar vMst2) + #17308 * EPow P4 (EVar vMst1) + #315 * EPow P4 (EVar vMst2)) / #2187 - EConst CS2 * (#6 *
   (#1089707 - #5550 * EVar vlmMst1 + #5550 * EVar vlmMst2) * EPow P2 (EVar vMst1) * EPow P2 (EVar vMst2) + #40 *
   (#93919 - #12981 * EVar vlmMst1 + #12981 * EVar vlmMst2) * EPow P4 (EVar vMst1) + #27 * (#116129 - #350 * EVar
   vlmMst1 + #350 * EVar vlmMst2) * EPow P4 (EVar vMst2)) / #405) / EPow P4 (EVar vMst2) + EPow P2 (EVar vMst1) *
   (EDec 15538193689986284 14 - #164 * EConst CB4 / #9 + #176 * EConst CD3 / #9 - #94 * EConst CDN / #9 - #21449 *
   EVar vlmMst1 / #675 - #7556 * EPow P2 (EVar vlmMst1) / #135 + EVar vlmMst2 * (- #54451 - #22990 * EVar vlmMst1 +
   #65550 * EPow P2 (EVar vlmMst1)) / #675 + #2 * (#6077 - #17130 * EVar vlmMst1) * EPow P2 (EVar vlmMst2) / #135 -
   #10 * EPow P3 (EVar vlmMst1) / #27 + #4240 * EPow P3 (EVar vlmMst2) / #27 + #10 * EVar vDmsqst2 * (- #23 + #42 *
   EVar vlmMst1 - #42 * EVar vlmMst2) * (EPow P3 (EVar vDmsqst2) + EPow P6 (EVar vMsq)) / (#3 * EPow P8 (EVar vMsq)))
   / EPow P2 (EVar vMst2) + (#80 * EVar vDmsqst2 * (#4 + EVar vlmMst1 - EVar vlmMst2) * (EPow P3 (EVar vDmsqst2) +
   EPow P6 (EVar vMsq)) / #3 + EPow P2 (EVar vMst2) * (#360 * EPow P4 (EVar vDmsqst2) + #360 * EVar vDmsqst2 * EPow P6
   (EVar vMsq) + (- #852 + #358 * EVar vlmMst2 + #32 * EVar vlmMst1 * (- #2 + #3 * EVar vlmMst2) + #497 * EPow P2
   (EVar vlmMst2)) * EPow P8 (EVar vMsq)) / (#9 * EPow P2 (EVar vMst1))) / EPow P8 (EVar vMsq))))) / EVar vTbeta) -
   EVar vMt * EVar vMuSUSY * EVar vxDR2DRMOD * (#54 * EVar vMst2 * EVar vs2t * EPow P2 (EVar vMst1) * EPow P4 (EVar
   vMsq) * (- #5 * EVar vAl4p * EVar vthreeLoopFlag * EVar vxDmsqst2 * EPow P2 (EVar vDmsqst2) * (#3 * EVar vxDmglst2
   * EPow P2 (EVar vDmglst2) * EPow P2 (EVar vMst2) * (#4 * EVar vTbeta * EPow P2 (EVar vMst2) * (- EPow P2 (EVar
   vMst1) + EPow P2 (EVar vMst2)) * EPow P2 (EVar vMt) + EVar vTbeta * EPow P2 (EVar vMst2) * EPow P2 (EVar vs2t) *
   (#2 * (EVar vlmMst1 - EVar vlmMst2) * EPow P2 (EVar vMst1) * EPow P2 (EVar vMst2) + EPow P4 (EVar vMst1) - EPow P4
   (EVar vMst2)) + #2 * EVar vMt * EVar vMuSUSY * EVar vs2t * (EPow P2 (EVar vMst1) * EPow P2 (EVar vMst2) - #2 * EVar
   vlmMst1 * EPow P2 (EVar vMst1) * EPow P2 (EVar vMst2) + #2 * EVar vlmMst2 * EPow P2 (EVar vMst1) * EPow P2 (EVar
   vMst2) + #20 * (EVar vlmMst1 - EVar vlmMst2) * EPow P4 (EVar vMst1) + EPow P4 (EVar vMst2))) + EVar vMgl * ((#10 *
   EVar vDmglst2 + EVar vMgl * (#11 - #18 * EVar vshiftst1)) * EVar vTbeta * (- #4 * EPow P2 (EVar vMst1) * EPow P2
   (EVar vMt) + #4 * EPow P2 (EVar vMst2) * EPow P2 (EVar vMt) + #2 * (EVar vlmMst1 - EVar vlmMst2) * EPow P2 (EVar
   vMst1) * EPow P2 (EVar vMst2) * EPow P2 (EVar vs2t) + EPow P2 (EVar vs2t) * (EPow P4 (EVar vMst1) - EPow P4 (EVar
   vMst2))) * EPow P4 (EVar vMst2) + #2 * EVar vMt * EVar vMuSUSY * EVar vs2t * ((#10 * EVar vDmglst2 + EVar vMgl *
   (#11 - #18 * EVar vshiftst1)) * (EPow P2 (EVar vMst1) + EPow P2 (EVar vMst2)) * EPow P4 (EVar vMst2) + #2 * (EVar
   vlmMst1 - EVar vlmMst2) * EPow P2 (EVar vMst1) * (#2 * EVar vDmglst2 * (#2 * EPow P2 (EVar vMst1) - #5 * EPow P2
   (EVar vMst2)) * EPow P2 (EVar vMst2) + EVar vMgl * ((- #11 + #18 * EVar vshiftst1) * EPow P2 (EVar vMst1) * EPow P2
   (EVar vMst2) + #2 * (- #5 + #9 * EVar vshiftst1) * EPow P4 (EVar vMst1) + (- #11 + #18 * EVar vshiftst1) * EPow P4
   (EVar vMst2)))))) + #4 * EVar vMgl * (#2 * EVar vDmglst2 * EVar vlmMst2 + EVar vMgl + EVar vlmMst2 * EVar vMgl) *
   EVar vtwoLoopFlag * EPow P4 (EVar vMsq) * (- ((#2 * EVar vMt * (EVar vMuSUSY * EVar vs2t - #2 * EVar vMt * EVar
   vTbeta) * EPow P2 (EVar vMst1) + EPow P2 (EVar vMst2) * (#2 * EVar vMt * EVar vMuSUSY * EVar vs2t + #4 * EVar
   vTbeta * EPow P2 (EVar vMt) - EVar vTbeta * EPow P2 (EVar vMst2) * EPow P2 (EVar vs2t)) + EVar vTbeta * EPow P2
   (EVar vs2t) * EPow P4 (EVar vMst1)) * EPow P4 (EVar vMst2)) + #2 * (EVar vlmMst1 - EVar vlmMst2) * EVar vs2t * EPow
   P2 (EVar vMst1) * (#2 * EVar vMt * EVar vMuSUSY * (EPow P2 (EVar vMst1) * EPow P2 (EVar vMst2) + EPow P4 (EVar
   vMst1) + EPow P4 (EVar vMst2)) - EVar vs2t * EVar vTbeta * EPow P6 (EVar vMst2)))) - EVar vxDmglst2 * EPow P2 (EVar
   vDmglst2) * (- #216 * (#2 - #3 * EVar vlmMst2) * EVar vMst2 * EVar vs2t * EVar vtwoLoopFlag * EPow P2 (EVar vMst1)
   * (EVar vTbeta * (- #4 * EPow P2 (EVar vMst1) * EPow P2 (EVar vMt) + #4 * EPow P2 (EVar vMst2) * EPow P2 (EVar vMt)
   + #2 * (EVar vlmMst1 - EVar vlmMst2) * EPow P2 (EVar vMst1) * EPow P2 (EVar vMst2) * EPow P2 (EVar vs2t) + EPow P2
   (EVar vs2t) * (EPow P4 (EVar vMst1) - EPow P4 (EVar vMst2))) * EPow P4 (EVar vMst2) + #2 * EVar vMt * EVar vMuSUSY
   * EVar vs2t * ((EPow P2 (EVar vMst1) + EPow P2 (EVar vMst2)) * EPow P4 (EVar vMst2) - #2 * (EVar vlmMst1 - EVar
   vlmMst2) * EPow P2 (EVar vMst1) * (EPow P2 (EVar vMst1) * EPow P2 (EVar vMst2) + EPow P4 (EVar vMst1) + EPow P4
   (EVar vMst2)))) * EPow P8 (EVar vMsq) + EVar vAl4p * EVar vthreeLoopFlag * (- #128 * EVar vTbeta * EPow P2 (EVar
   vMst1) * (- #9 * EVar vMt * EPow P2 (EVar vMst2) * EPow P2 (EVar vs2t) * (#6 * EPow P2 (EVar vMst2) * (- #7 + #30 *
   EVar vlmMst2 + #2 * EPow P2 (EVar vlmMst2) + EVar vlmMst1 * (- #11 - #2 * EVar vlmMst2 + #12 * EPow P2 (EVar
   vlmMst2)) - #12 * EPow P3 (EVar vlmMst2)) * EPow P4 (EVar vMst1) + EPow P2 (EVar vMst1) * (#29 + #179 * EVar
   vlmMst2 - #18 * EPow P2 (EVar vlmMst2) + #6 * EVar vlmMst1 * (- #10 - #3 * EVar vlmMst2 + #12 * EPow P2 (EVar
   vlmMst2)) - #72 * EPow P3 (EVar vlmMst2)) * EPow P4 (EVar vMst2) + #3 * (#17 + #51 * EVar vlmMst2 - #4 * EPow P2
   (EVar vlmMst2) + #4 * EVar vlmMst1 * (- #6 + EVar vlmMst2 + #3 * EPow P2 (EVar vlmMst2)) - #12 * EPow P3 (EVar
   vlmMst2)) * EPow P6 (EVar vMst1) + #12 * (#2 + EVar vlmMst2 - #3 * EPow P2 (EVar vlmMst2)) * EPow P6 (EVar vMst2))
   + #4 * EPow P3 (EVar vMt) * (- (EPow P2 (EVar vMst2) * (#834 + EVar vlmMst2 * (#569 - #33 * EVar vlmMt) - #162 *
   EVar vlmMt + (#51 - #18 * EVar vlmMt) * EPow P2 (EVar vlmMst2) - #18 * EVar vlmMst1 * (#13 + EVar vlmMst2 - EVar
   vlmMst2 * EVar vlmMt + EPow P2 (EVar vlmMst2)) + #18 * EPow P3 (EVar vlmMst2)) * EPow P4 (EVar vMst1)) - EPow P2
   (EVar vMst1) * (#96 + #36 * EVar vlmMt + EVar vlmMst2 * (- #187 + #39 * EVar vlmMt) - #3 * (#19 + #6 * EVar vlmMt)
   * EPow P2 (EVar vlmMst2) - #18 * EVar vlmMst1 * (- #3 + #2 * EVar vlmMt - EVar vlmMst2 * (#3 + EVar vlmMt) + EPow
   P2 (EVar vlmMst2)) + #18 * EPow P3 (EVar vlmMst2)) * EPow P4 (EVar vMst2) + (#290 + EVar vlmMst2 * (#2447 - #645 *
   EVar vlmMt) - #375 * EVar vlmMt - #3 * (- #509 + #60 * EVar vlmMt) * EPow P2 (EVar vlmMst2) - #18 * EVar vlmMst1 *
   (#87 + EVar vlmMst2 * (#71 - #10 * EVar vlmMt) - #22 * EVar vlmMt + #10 * EPow P2 (EVar vlmMst2)) + #180 * EPow P3
   (EVar vlmMst2)) * EPow P6 (EVar vMst1) + #36 * (#2 + EVar vlmMst2 - #3 * EPow P2 (EVar vlmMst2)) * EPow P6 (EVar
   vMst2))) * EPow P8 (EVar vMsq) + #3 * EVar vTbeta * EPow P3 (EVar vMst2) * EPow P3 (EVar vs2t) * (- #3 * EPow P2
   (EVar vMst1) * EPow P6 (EVar vMst2) * (#585 * EPow P4 (EVar vDmsqst2) - #900 * EVar vDmsqst2 * EPow P6 (EVar vMsq)
   + #4 * (- #484 + #390 * EVar vlmMst2 + #32 * EVar vlmMst1 * (- #2 + #3 * EVar vlmMst2) + #657 * EPow P2 (EVar
   vlmMst2)) * EPow P8 (EVar vMsq)) + #2 * EPow P2 (EVar vMst2) * EPow P6 (EVar vMst1) * (#3105 * EPow P4 (EVar
   vDmsqst2) - #1350 * EVar vDmsqst2 * EPow P6 (EVar vMsq) + #2 * (#260 + #1538 * EVar vlmMst2 + #768 * (#2 - #3 *
   EVar vlmMst2) * EPow P2 (EVar vlmMst1) + #1395 * EPow P2 (EVar vlmMst2) + #96 * EVar vlmMst1 * (- #7 - #27 * EVar
   vlmMst2 + #48 * EPow P2 (EVar vlmMst2)) - #2304 * EPow P3 (EVar vlmMst2)) * EPow P8 (EVar vMsq)) - #4 * EPow P4
   (EVar vMst1) * EPow P4 (EVar vMst2) * (- #675 * (EVar vlmMst1 - EVar vlmMst2) * (EPow P4 (EVar vDmsqst2) - #2 *
   EVar vDmsqst2 * EPow P6 (EVar vMsq)) + #2 * (#40 - #1172 * EVar vlmMst2 + #48 * (- #2 + #3 * EVar vlmMst2) * EPow
   P2 (EVar vlmMst1) + #882 * EPow P2 (EVar vlmMst2) - #3 * EVar vlmMst1 * (- #500 + #502 * EVar vlmMst2 + #369 * EPow
   P2 (EVar vlmMst2)) + #963 * EPow P3 (EVar vlmMst2)) * EPow P8 (EVar vMsq)) + #384 * EPow P8 (EVar vMsq) * ((#2 *
   EVar vlmMst1 * (#3 + #2 * EVar vlmMst2 + #16 * EPow P2 (EVar vlmMst2)) - EVar vlmMst2 * (#7 + #4 * EVar vlmMst2 +
   #16 * (EPow P2 (EVar vlmMst1) + EPow P2 (EVar vlmMst2)))) * EPow P8 (EVar vMst1) + (- #2 + EVar vlmMst2 + #5 * EPow
   P2 (EVar vlmMst2)) * EPow P8 (EVar vMst2))) + #12 * EVar vMt * EVar vs2t * (- #2 * EVar vMst2 * EVar vMt * EVar
   vTbeta * (- #2 * (#860 - #434 * EVar vlmMst2 + #96 * (- #2 + #3 * EVar vlmMst2) * EPow P2 (EVar vlmMst1) + #96 *
   EVar vlmMst1 * (#3 + EVar vlmMst2 - #6 * EPow P2 (EVar vlmMst2)) - #243 * EPow P2 (EVar vlmMst2) + #288 * EPow P3
   (EVar vlmMst2)) * EPow P4 (EVar vMst1) * EPow P4 (EVar vMst2) * EPow P8 (EVar vMsq) + #192 * EPow P2 (EVar vMst2) *
   ((#2 - #3 * EVar vlmMst2) * EPow P2 (EVar vlmMst1) + EVar vlmMst1 * (#8 - #2 * EVar vlmMst2 + #6 * EPow P2 (EVar
   vlmMst2)) - #3 * (#6 + #5 * EVar vlmMst2 + EPow P3 (EVar vlmMst2))) * EPow P6 (EVar vMst1) * EPow P8 (EVar vMsq) +
   #3 * EPow P2 (EVar vMst1) * EPow P4 (EVar vMst2) * (#45 * (#23 * EPow P2 (EVar vMst1) - #5 * EPow P2 (EVar vMst2))
   * EPow P4 (EVar vDmsqst2) - #450 * EVar vDmsqst2 * (EPow P2 (EVar vMst1) - EPow P2 (EVar vMst2)) * EPow P6 (EVar
   vMsq) - #2 * (- #324 + #134 * EVar vlmMst2 + #32 * EVar vlmMst1 * (- #2 + #3 * EVar vlmMst2) + #177 * EPow P2 (EVar
   vlmMst2)) * EPow P2 (EVar vMst2) * EPow P8 (EVar vMsq)) - #384 * (- #6 - #14 * EVar vlmMst2 + EVar vlmMst2 * EPow
   P2 (EVar vlmMst1) + EVar vlmMst1 * (#9 + #6 * EVar vlmMst2 - #2 * EPow P2 (EVar vlmMst2)) - #6 * EPow P2 (EVar
   vlmMst2) + EPow P3 (EVar vlmMst2)) * EPow P8 (EVar vMsq) * EPow P8 (EVar vMst1) + #192 * (- #2 + EVar vlmMst2 + #5
   * EPow P2 (EVar vlmMst2)) * EPow P8 (EVar vMsq) * EPow P8 (EVar vMst2)) + EVar vMuSUSY * (#135 * EVar vDmsqst2 *
   EVar vs2t * EPow P2 (EVar vMst1) * EPow P3 (EVar vMst2) * (EPow P3 (EVar vDmsqst2) * ((#23 - #46 * EVar vlmMst1 +
   #46 * EVar vlmMst2) * EPow P2 (EVar vMst1) * EPow P2 (EVar vMst2) + #20 * (EVar vlmMst1 - EVar vlmMst2) * EPow P4
   (EVar vMst1) + #5 * EPow P4 (EVar vMst2)) + #10 * (#2 * (EVar vlmMst1 - EVar vlmMst2) * EPow P2 (EVar vMst1) - EPow
   P2 (EVar vMst2)) * (EPow P2 (EVar vMst1) + EPow P2 (EVar vMst2)) * EPow P6 (EVar vMsq)) + #2 * EPow P8 (EVar vMsq)
   * (- ((EVar vMst2 * EVar vs2t * (#1180 + #1270 * EVar vlmMst2 + #96 * (#2 - #3 * EVar vlmMst2) * EPow P2 (EVar
   vlmMst1) - #3255 * EPow P2 (EVar vlmMst2) + #6 * EVar vlmMst1 * (- #468 + #454 * EVar vlmMst2 + #369 * EPow P2
   (EVar vlmMst2)) - #1926 * EPow P3 (EVar vlmMst2)) + #64 * EVar vMt * (#53 + #191 * EVar vlmMst2 - #54 * EPow P2
   (EVar vlmMst2) + #6 * EVar vlmMst1 * (- #10 - #3 * EVar vlmMst2 + #12 * EPow P2 (EVar vlmMst2)) - #72 * EPow P3
   (EVar vlmMst2))) * EPow P4 (EVar vMst1) * EPow P4 (EVar vMst2)) - #2 * EPow P2 (EVar vMst2) * (#3 * EVar vMst2 *
   EVar vs2t * (#240 + #468 * EVar vlmMst2 + #144 * (#2 - #3 * EVar vlmMst2) * EPow P2 (EVar vlmMst1) - #310 * EPow P2
   (EVar vlmMst2) + EVar vlmMst1 * (- #580 + #22 * EVar vlmMst2 + #1137 * EPow P2 (EVar vlmMst2)) - #705 * EPow P3
   (EVar vlmMst2)) + #32 * EVar vMt * (#11 + #371 * EVar vlmMst2 - #42 * EPow P2 (EVar vlmMst2) + #6 * EVar vlmMst1 *
   (- #21 - #5 * EVar vlmMst2 + #24 * EPow P2 (EVar vlmMst2)) - #144 * EPow P3 (EVar vlmMst2))) * EPow P6 (EVar vMst1)
   - #3 * (EVar vMst2 * EVar vs2t * (#420 + EVar vlmMst1 * (#64 - #96 * EVar vlmMst2) - #358 * EVar vlmMst2 - #497 *
   EPow P2 (EVar vlmMst2)) + #256 * EVar vMt * (#2 + EVar vlmMst2 - #3 * EPow P2 (EVar vlmMst2))) * EPow P2 (EVar
   vMst1) * EPow P6 (EVar vMst2) - #12 * (#16 * EVar vMt * (#49 + #103 * EVar vlmMst2 - #36 * (#1 + EVar vlmMst2) *
   EPow P2 (EVar vlmMst2) + #4 * EVar vlmMst1 * (- #11 + #6 * EVar vlmMst2 + #9 * EPow P2 (EVar vlmMst2))) - EVar
   vMst2 * EVar vs2t * (#48 + #4 * EVar vlmMst2 * (#45 + #68 * EPow P2 (EVar vlmMst1)) + #310 * EPow P2 (EVar vlmMst2)
   - EVar vlmMst1 * (#92 + #310 * EVar vlmMst2 + #635 * EPow P2 (EVar vlmMst2)) + #363 * EPow P3 (EVar vlmMst2))) *
   EPow P8 (EVar vMst1) - #96 * EVar vs2t * (- #2 + EVar vlmMst2 + #5 * EPow P2 (EVar vlmMst2)) * EPow P9 (EVar
   vMst2))))))) / (#648 * EVar vTbeta * EPow P4 (EVar vMst1) * EPow P5 (EVar vMst2) * EPow P8 (EVar vMsq))) / EPow P2
   (EVar vMgl).

(** H6bq2g2.cpp:4228-4601 *)
Definition H6bq2g2_coef0 : expr :=
  (- #55566000 * EPow P3 (ELog (EPow P2 (EVar vMst1) / EPow P2 (EVar vMst2))) * EPow P4 (EVar vMsq) * EPow P4 (EVar
   vMst1) * (#4 * EVar vDmglst2 * EVar vMgl * (EPow P4 (EVar vMst1) * (- #2896 * EPow P2 (EVar vMst2) * EPow P2 (EVar
   vMt) * EPow P2 (EVar vs2t) - #2016 * EVar vMst2 * EVar vs2t * EPow P3 (EVar vMt) - #672 * EVar vMt * EPow P3 (EVar
   vMst2) * EPow P3 (EVar vs2t) + #7424 * EPow P4 (EVar vMt) - #33 * EPow P4 (EVar vMst2) * EPow P4 (EVar vs2t)) - #2
   * EPow P2 (EVar vMst1) * EPow P2 (EVar vMst2) * (#1156 * EPow P2 (EVar vMst2) * EPow P2 (EVar vMt) * EPow P2 (EVar
   vs2t) + #384 * EVar vMst2 * EVar vs2t * EPow P3 (EVar vMt) + #390 * EVar vMt * EPow P3 (EVar vMst2) * EPow P3 (EVar
   vs2t) - #2632 * EPow P4 (EVar vMt) + #29 * EPow P4 (EVar vMst2) * EPow P4 (EVar vs2t)) - #3 * EPow P4 (EVar vMst2)
   * (#256 * EPow P2 (EVar vMst2) * EPow P2 (EVar vMt) * EPow P2 (EVar vs2t) - #784 * EVar vMst2 * EVar vs2t * EPow P3
   (EVar vMt) + #516 * EVar vMt * EPow P3 (EVar vMst2) * EPow P3 (EVar vs2t) - #512 * EPow P4 (EVar vMt) + #107 * EPow
   P4 (EVar vMst2) * EPow P4 (EVar vs2t))) + EPow P2 (EVar vMgl) * (EPow P4 (EVar vMst1) * (- #2696 * EPow P2 (EVar
   vMst2) * EPow P2 (EVar vMt) * EPow P2 (EVar vs2t) + #7808 * EVar vMst2 * EVar vs2t * EPow P3 (EVar vMt) - #3200 *
   EVar vMt * EPow P3 (EVar vMst2) * EPow P3 (EVar vs2t) + #6400 * EPow P4 (EVar vMt) - #409 * EPow P4 (EVar vMst2) *
   EPow P4 (EVar vs2t)) - #4 * EPow P2 (EVar vMst1) * EPow P2 (EVar vMst2) * (#1166 * EPow P2 (EVar vMst2) * EPow P2
   (EVar vMt) * EPow P2 (EVar vs2t) - #2304 * EVar vMst2 * EVar vs2t * EPow P3 (EVar vMt) + #780 * EVar vMt * EPow P3
   (EVar vMst2) * EPow P3 (EVar vs2t) - #440 * EPow P4 (EVar vMt) + #115 * EPow P4 (EVar vMst2) * EPow P4 (EVar vs2t))
   - #3 * EPow P4 (EVar vMst2) * (#56 * EPow P2 (EVar vMst2) * EPow P2 (EVar vMt) * EPow P2 (EVar vs2t) - #3136 * EVar
   vMst2 * EVar vs2t * EPow P3 (EVar vMt) + #1040 * EVar vMt * EPow P3 (EVar vMst2) * EPow P3 (EVar vs2t) + #32 * EPow
   P4 (EVar vMt) + #271 * EPow P4 (EVar vMst2) * EPow P4 (EVar vs2t))) + #2 * EPow P2 (EVar vDmglst2) * (#2 * EPow P4
   (EVar vMst1) * (- #2896 * EPow P2 (EVar vMst2) * EPow P2 (EVar vMt) * EPow P2 (EVar vs2t) - #2016 * EVar vMst2 *
   EVar vs2t * EPow P3 (EVar vMt) - #672 * EVar vMt * EPow P3 (EVar vMst2) * EPow P3 (EVar vs2t) + #7424 * EPow P4
   (EVar vMt) - #33 * EPow P4 (EVar vMst2) * EPow P4 (EVar vs2t)) - #2 * EPow P2 (EVar vMst1) * EPow P2 (EVar vMst2) *
   (#3452 * EPow P2 (EVar vMst2) * EPow P2 (EVar vMt) * EPow P2 (EVar vs2t) - #768 * EVar vMst2 * EVar vs2t * EPow P3
   (EVar vMt) + #780 * EVar vMt * EPow P3 (EVar vMst2) * EPow P3 (EVar vs2t) - #440 * EPow P4 (EVar vMt) + #97 * EPow
   P4 (EVar vMst2) * EPow P4 (EVar vs2t)) - #3 * EPow P4 (EVar vMst2) * (#768 * EPow P2 (EVar vMst2) * EPow P2 (EVar
   vMt) * EPow P2 (EVar vs2t) - #1568 * EVar vMst2 * EVar vs2t * EPow P3 (EVar vMt) + #1800 * EVar vMt * EPow P3 (EVar
   vMst2) * EPow P3 (EVar vs2t) - #1536 * EPow P4 (EVar vMt) + #321 * EPow P4 (EVar vMst2) * EPow P4 (EVar vs2t)))) +
   #120 * EVar vDmsqst2 * EPow P2 (EVar vMsq) * EPow P2 (EVar vMst1) * (- #1543500 * EVar vDmglst2 * EVar vMgl * EVar
   vMst2 * (#4 * EPow P2 (EVar vMst1) * EPow P3 (EVar vMst2) * (#36 * (#23 - #24 * EConst Cz2) * EPow P2 (EVar vMst2)
   * EPow P2 (EVar vMt) * EPow P2 (EVar vs2t) + #24 * EVar vMst2 * EVar vs2t * (#289 - #342 * EConst Cz2 + #216 *
   EConst Cz3) * EPow P3 (EVar vMt) - #216 * EVar vMt * (- #2 + #2 * EConst Cz2 - EConst Cz3) * EPow P3 (EVar vMst2) *
   EPow P3 (EVar vs2t) + #8 * (- #1477 + #1242 * EConst Cz2 - #540 * EConst Cz3) * EPow P4 (EVar vMt) + #27 * (- #2 +
   #4 * EConst Cz2 - #3 * EConst Cz3) * EPow P4 (EVar vMst2) * EPow P4 (EVar vs2t)) - #9 * EVar vMst2 * EPow P4 (EVar
   vMst1) * (#8 * (- #113 + #48 * EConst Cz2) * EPow P2 (EVar vMst2) * EPow P2 (EVar vMt) * EPow P2 (EVar vs2t) + #192
   * EVar vMst2 * EVar vs2t * (#51 * EConst Cz2 - #28 * (#2 + EConst Cz3)) * EPow P3 (EVar vMt) - #96 * EVar vMt * (#5
   * EConst Cz2 + #3 * (- #4 + EConst Cz3)) * EPow P3 (EVar vMst2) * EPow P3 (EVar vs2t) - #48 * (- #401 + #308 *
   EConst Cz2 - #144 * EConst Cz3) * EPow P4 (EVar vMt) + #3 * (- #75 + #32 * EConst Cz2 + #8 * EConst Cz3) * EPow P4
   (EVar vMst2) * EPow P4 (EVar vs2t)) + #108 * (- #3 + EConst Cz2) * EPow P2 (- #4 * EPow P2 (EVar vMt) + EPow P2
   (EVar vMst2) * EPow P2 (EVar vs2t)) * EPow P5 (EVar vMst2) - #6 * EVar vs2t * (EVar vMst2 * EVar vs2t * (#1931 -
   #1098 * EConst Cz2 - #180 * EConst Cz3) * EPow P2 (EVar vMt) - #72 * EVar vMt * (- #20 + #11 * EConst Cz2) * EPow
   P2 (EVar vMst2) * EPow P2 (EVar vs2t) + #72 * (- #465 + #348 * EConst Cz2 - #176 * EConst Cz3) * EPow P3 (EVar vMt)
   + (#38 + #63 * EConst Cz2 - #90 * EConst Cz3) * EPow P3 (EVar vMst2) * EPow P3 (EVar vs2t)) * EPow P6 (EVar vMst1))
   - #1543500 * EVar vMst2 * EPow P2 (EVar vDmglst2) * (#4 * EPow P2 (EVar vMst1) * EPow P3 (EVar vMst2) * (#36 * (#23
   - #24 * EConst Cz2) * EPow P2 (EVar vMst2) * EPow P2 (EVar vMt) * EPow P2 (EVar vs2t) + #24 * EVar vMst2 * EVar
   vs2t * (#289 - #342 * EConst Cz2 + #216 * EConst Cz3) * EPow P3 (EVar vMt) - #216 * EVar vMt * (- #2 + #2 * EConst
   Cz2 - EConst Cz3) * EPow P3 (EVar vMst2) * EPow P3 (EVar vs2t) + #8 * (- #1477 + #1242 * EConst Cz2 - #540 * EConst
   Cz3) * EPow P4 (EVar vMt) + #27 * (- #2 + #4 * EConst Cz2 - #3 * EConst Cz3) * EPow P4 (EVar vMst2) * EPow P4 (EVar
   vs2t)) - #9 * EVar vMst2 * EPow P4 (EVar vMst1) * (#8 * (- #113 + #48 * EConst Cz2) * EPow P2 (EVar vMst2) * EPow
   P2 (EVar vMt) * EPow P2 (EVar vs2t) + #192 * EVar vMst2 * EVar vs2t * (#51 * EConst Cz2 - #28 * (#2 + EConst Cz3))
   * EPow P3 (EVar vMt) - #96 * EVar vMt * (#5 * EConst Cz2 + #3 * (- #4 + EConst Cz3)) * EPow P3 (EVar vMst2) * EPow
   P3 (EVar vs2t) - #48 * (- #401 + #308 * EConst Cz2 - #144 * EConst Cz3) * EPow P4 (EVar vMt) + #3 * (- #75 + #32 *
   EConst Cz2 + #8 * EConst Cz3) * EPow P4 (EVar vMst2) * EPow P4 (EVar vs2t)) + #108 * (- #3 + EConst Cz2) * EPow P2
   (- #4 * EPow P2 (EVar vMt) + EPow P2 (EVar vMst2) * EPow P2 (EVar vs2t)) * EPow P5 (EVar vMst2) - #6 * EVar vs2t *
   (EVar vMst2 * EVar vs2t * (#1931 - #1098 * EConst Cz2 - #180 * EConst Cz3) * EPow P2 (EVar vMt) - #72 * EVar vMt *
   (- #20 + #11 * EConst Cz2) * EPow P2 (EVar vMst2) * EPow P2 (EVar vs2t) + #72 * (- #465 + #348 * EConst Cz2 - #176
   * EConst Cz3) * EPow P3 (EVar vMt) + (#38 + #63 * EConst Cz2 - #90 * EConst Cz3) * EPow P3 (EVar vMst2) * EPow P3
   (EVar vs2t)) * EPow P6 (EVar vMst1)) + EPow P2 (EVar vMgl) * (#3087 * EPow P2 (EVar vMst2) * EPow P4 (EVar vMst1) *
   (- #8 * EPow P2 (EVar vMst2) * EPow P2 (EVar vMt) * EPow P2 (EVar vs2t) * (#36449 + #4000 * EConst COepS2 - #310500
   * EConst CS2 - #6000 * EConst CT1ep - #75750 * EConst Cz2 + #21000 * EConst Cz3 - #3000 * EConst Cz4 - #4500 * EPow
   P2 (EConst Cz2)) - #864000 * EVar vMst2 * EVar vs2t * (- #6 + #5 * EConst Cz2 - #4 * EConst Cz3) * EPow P3 (EVar
   vMt) - #432000 * EVar vMt * (#1 + EConst Cz2 - EConst Cz3) * EPow P3 (EVar vMst2) * EPow P3 (EVar vs2t) + #96 * (-
   #91321 + #54000 * EConst Cz2 - #36000 * EConst Cz3) * EPow P4 (EVar vMt) + (#52199 + #28000 * EConst COepS2 -
   #3415500 * EConst CS2 - #42000 * EConst CT1ep - #557250 * EConst Cz2 + #259500 * EConst Cz3 - #21000 * EConst Cz4 -
   #31500 * EPow P2 (EConst Cz2)) * EPow P4 (EVar vMst2) * EPow P4 (EVar vs2t)) + #1157625 * EPow P2 (EVar vMst1) *
   EPow P4 (EVar vMst2) * (- #4 * EPow P2 (EVar vMst2) * EPow P2 (EVar vMt) * EPow P2 (EVar vs2t) * (#32 * EConst
   COepS2 - #3 * (#391 + #972 * EConst CS2 + #16 * EConst CT1ep + #154 * EConst Cz2 - #232 * EConst Cz3 + #8 * EConst
   Cz4 + #12 * EPow P2 (EConst Cz2))) - #1152 * EVar vMst2 * EVar vs2t * (#7 + #2 * EConst Cz2 - #8 * EConst Cz3) *
   EPow P3 (EVar vMt) - #1152 * EVar vMt * (- #1 + #2 * EConst Cz2 - #3 * EConst Cz3) * EPow P3 (EVar vMst2) * EPow P3
   (EVar vs2t) + #64 * (- #103 + #108 * EConst Cz2 - #72 * EConst Cz3) * EPow P4 (EVar vMt) + (- #1213 + #32 * EConst
   COepS2 + #4860 * EConst CS2 - #48 * EConst CT1ep - #462 * EConst Cz2 - #276 * EConst Cz3 - #24 * EConst Cz4 - #36 *
   EPow P2 (EConst Cz2)) * EPow P4 (EVar vMst2) * EPow P4 (EVar vs2t)) + #2 * (- #4 * EPow P2 (EVar vMst2) * EPow P2
   (EVar vMt) * EPow P2 (EVar vs2t) * (- #22430251 + #5488000 * EConst COepS2 - #324135000 * EConst CS2 - #8232000 *
   EConst CT1ep - #103929000 * EConst Cz2 + #28812000 * EConst Cz3 - #4116000 * EConst Cz4 - #6174000 * EPow P2
   (EConst Cz2)) - #333396000 * EVar vMst2 * EVar vs2t * (- #35 + #20 * EConst Cz2 - #16 * EConst Cz3) * EPow P3 (EVar
   vMt) + #333396000 * EVar vMt * (- #2 + EConst Cz2) * EPow P3 (EVar vMst2) * EPow P3 (EVar vs2t) + #3456 * (-
   #6582784 + #2701125 * EConst Cz2 - #2315250 * EConst Cz3) * EPow P4 (EVar vMt) + (#378483467 + #9604000 * EConst
   COepS2 - #754771500 * EConst CS2 - #14406000 * EConst CT1ep - #306899250 * EConst Cz2 + #133770000 * EConst Cz3 -
   #7203000 * EConst Cz4 - #10804500 * EPow P2 (EConst Cz2)) * EPow P4 (EVar vMst2) * EPow P4 (EVar vs2t)) * EPow P6
   (EVar vMst1) + #41674500 * (#1 + #2 * EConst Cz2) * EPow P2 (- #4 * EPow P2 (EVar vMt) + EPow P2 (EVar vMst2) *
   EPow P2 (EVar vs2t)) * EPow P6 (EVar vMst2))) + #30 * EPow P2 (EVar vDmsqst2) * EPow P2 (EVar vMst1) * (- #6174000
   * EVar vDmglst2 * EVar vMgl * EVar vMst2 * (#4 * EPow P2 (EVar vMst1) * EPow P3 (EVar vMst2) * (#36 * (#23 - #24 *
   EConst Cz2) * EPow P2 (EVar vMst2) * EPow P2 (EVar vMt) * EPow P2 (EVar vs2t) + #24 * EVar vMst2 * EVar vs2t *
   (#289 - #342 * EConst Cz2 + #216 * EConst Cz3) * EPow P3 (EVar vMt) - #216 * EVar vMt * (- #2 + #2 * EConst Cz2 -
   EConst Cz3) * EPow P3 (EVar vMst2) * EPow P3 (EVar vs2t) + #8 * (- #1477 + #1242 * EConst Cz2 - #540 * EConst Cz3)
   * EPow P4 (EVar vMt) + #27 * (- #2 + #4 * EConst Cz2 - #3 * EConst Cz3) * EPow P4 (EVar vMst2) * EPow P4 (EVar
   vs2t)) - #9 * EVar vMst2 * EPow P4 (EVar vMst1) * (#8 * (- #113 + #48 * EConst Cz2) * EPow P2 (EVar vMst2) * EPow
   P2 (EVar vMt) * EPow P2 (EVar vs2t) + #192 * EVar vMst2 * EVar vs2t * (#51 * EConst Cz2 - #28 * (#2 + EConst Cz3))
   * EPow P3 (EVar vMt) - #96 * EVar vMt * (#5 * EConst Cz2 + #3 * (- #4 + EConst Cz3)) * EPow P3 (EVar vMst2) * EPow
   P3 (EVar vs2t) - #48 * (- #401 + #308 * EConst Cz2 - #144 * EConst Cz3) * EPow P4 (EVar vMt) + #3 * (- #75 + #32 *
   EConst Cz2 + #8 * EConst Cz3) * EPow P4 (EVar vMst2) * EPow P4 (EVar vs2t)) + #108 * (- #3 + EConst Cz2) * EPow P2
   (- #4 * EPow P2 (EVar vMt) + EPow P2 (EVar vMst2) * EPow P2 (EVar vs2t)) * EPow P5 (EVar vMst2) - #6 * EVar vs2t *
   (EVar vMst2 * EVar vs2t * (#1931 - #1098 * EConst Cz2 - #180 * EConst Cz3) * EPow P2 (EVar vMt) - #72 * EVar vMt *
   (- #20 + #11 * EConst Cz2) * EPow P2 (EVar vMst2) * EPow P2 (EVar vs2t) + #72 * (- #465 + #348 * EConst Cz2 - #176
   * EConst Cz3) * EPow P3 (EVar vMt) + (#38 + #63 * EConst Cz2 - #90 * EConst Cz3) * EPow P3 (EVar vMst2) * EPow P3
   (EVar vs2t)) * EPow P6 (EVar vMst1)) - #6174000 * EVar vMst2 * EPow P2 (EVar vDmglst2) * (#4 * EPow P2 (EVar vMst1)
   * EPow P3 (EVar vMst2) * (#36 * (#23 - #24 * EConst Cz2) * EPow P2 (EVar vMst2) * EPow P2 (EVar vMt) * EPow P2
   (EVar vs2t) + #24 * EVar vMst2 * EVar vs2t * (#289 - #342 * EConst Cz2 + #216 * EConst Cz3) * EPow P3 (EVar vMt) -
   #216 * EVar vMt * (- #2 + #2 * EConst Cz2 - EConst Cz3) * EPow P3 (EVar vMst2) * EPow P3 (EVar vs2t) + #8 * (-
   #1477 + #1242 * EConst Cz2 - #540 * EConst Cz3) * EPow P4 (EVar vMt) + #27 * (- #2 + #4 * EConst Cz2 - #3 * EConst
   Cz3) * EPow P4 (EVar vMst2) * EPow P4 (EVar vs2t)) - #9 * EVar vMst2 * EPow P4 (EVar vMst1) * (#8 * (- #113 + #48 *
   EConst Cz2) * EPow P2 (EVar vMst2) * EPow P2 (EVar vMt) * EPow P2 (EVar vs2t) + #192 * EVar vMst2 * EVar vs2t *
   (#51 * EConst Cz2 - #28 * (#2 + EConst Cz3)) * EPow P3 (EVar vMt) - #96 * EVar vMt * (#5 * EConst Cz2 + #3 * (- #4
   + EConst Cz3)) * EPow P3 (EVar vMst2) * EPow P3 (EVar vs2t) - #48 * (- #401 + #308 * EConst Cz2 - #144 * EConst
   Cz3) * EPow P4 (EVar vMt) + #3 * (- #75 + #32 * EConst Cz2 + #8 * EConst Cz3) * EPow P4 (EVar vMst2) * EPow P4
   (EVar vs2t)) + #108 * (- #3 + EConst Cz2) * EPow P2 (- #4 * EPow P2 (EVar vMt) + EPow P2 (EVar vMst2) * EPow P2
   (EVar vs2t)) * EPow P5 (EVar vMst2) - #6 * EVar vs2t * (EVar vMst2 * EVar vs2t * (#1931 - #1098 * EConst Cz2 - #180
   * EConst Cz3) * EPow P2 (EVar vMt) - #72 * EVar vMt * (- #20 + #11 * EConst Cz2) * EPow P2 (EVar vMst2) * EPow P2
   (EVar vs2t) + #72 * (- #465 + #348 * EConst Cz2 - #176 * EConst Cz3) * EPow P3 (EVar vMt) + (#38 + #63 * EConst Cz2
   - #90 * EConst Cz3) * EPow P3 (EVar vMst2) * EPow P3 (EVar vs2t)) * EPow P6 (EVar vMst1)) + EPow P2 (EVar vMgl) *
   (#10290 * EPow P2 (EVar vMst2) * EPow P4 (EVar vMst1) * (- #4 * EPow P2 (EVar vMst2) * EPow P2 (EVar vMt) * EPow P2
   (EVar vs2t) * (- #9928 + #1600 * EConst COepS2 - #361800 * EConst CS2 - #2400 * EConst CT1ep + #34500 * EConst Cz2
   + #50925 * EConst Cz3 - #1200 * EConst Cz4 - #1800 * EPow P2 (EConst Cz2)) - #518400 * EVar vMst2 * EVar vs2t * (-
   #23 + #24 * EConst Cz2 - #16 * EConst Cz3) * EPow P3 (EVar vMt) - #259200 * EVar vMt * (#4 + EConst Cz2 - #3 *
   EConst Cz3) * EPow P3 (EVar vMst2) * EPow P3 (EVar vs2t) + #864 * (- #23941 + #20700 * EConst Cz2 - #10800 * EConst
   Cz3) * EPow P4 (EVar vMt) + (#449186 + #20800 * EConst COepS2 - #3439800 * EConst CS2 - #31200 * EConst CT1ep -
   #523500 * EConst Cz2 + #169275 * EConst Cz3 - #15600 * EConst Cz4 - #23400 * EPow P2 (EConst Cz2)) * EPow P4 (EVar
   vMst2) * EPow P4 (EVar vs2t)) + #385875 * EPow P2 (EVar vMst1) * EPow P4 (EVar vMst2) * (- #8 * EPow P2 (EVar
   vMst2) * EPow P2 (EVar vMt) * EPow P2 (EVar vs2t) * (- #6878 + #128 * EConst COepS2 - #16848 * EConst CS2 - #192 *
   EConst CT1ep - #696 * EConst Cz2 + #3273 * EConst Cz3 - #96 * EConst Cz4 - #144 * EPow P2 (EConst Cz2)) - #3456 *
   EVar vMst2 * EVar vs2t * (#13 + #28 * EConst Cz2 - #48 * EConst Cz3) * EPow P3 (EVar vMt) - #6912 * EVar vMt * (-
   #5 + #7 * EConst Cz2 - #7 * EConst Cz3) * EPow P3 (EVar vMst2) * EPow P3 (EVar vs2t) + #16 * (- #11134 + #10800 *
   EConst Cz2 - #5481 * EConst Cz3) * EPow P4 (EVar vMt) + (- #16678 + #256 * EConst COepS2 + #114048 * EConst CS2 -
   #384 * EConst CT1ep - #1392 * EConst Cz2 - #16521 * EConst Cz3 - #192 * EConst Cz4 - #288 * EPow P2 (EConst Cz2)) *
   EPow P4 (EVar vMst2) * EPow P4 (EVar vs2t)) + (#8 * EPow P2 (EVar vMst2) * EPow P2 (EVar vMt) * EPow P2 (EVar vs2t)
   * (- #1351886621 + #19208000 * EConst COepS2 - #639009000 * EConst CS2 - #28812000 * EConst CT1ep + #365552250 *
   EConst Cz2 + #225865500 * EConst Cz3 - #14406000 * EConst Cz4 - #21609000 * EPow P2 (EConst Cz2)) - #2667168000 *
   EVar vMst2 * EVar vs2t * (- #35 + #20 * EConst Cz2 - #16 * EConst Cz3) * EPow P3 (EVar vMt) + #166698000 * EVar vMt
   * (- #101 + #106 * EConst Cz2 - #60 * EConst Cz3) * EPow P3 (EVar vMst2) * EPow P3 (EVar vs2t) + #27648 * (-
   #6582784 + #2701125 * EConst Cz2 - #2315250 * EConst Cz3) * EPow P4 (EVar vMt) - #3 * (- #881319682 + #617400000 *
   EConst CS2 + #472311000 * EConst Cz2 - #461892375 * EConst Cz3) * EPow P4 (EVar vMst2) * EPow P4 (EVar vs2t)) *
   EPow P6 (EVar vMst1) + #166698000 * (- #1 + #3 * EConst Cz2) * EPow P2 (- #4 * EPow P2 (EVar vMt) + EPow P2 (EVar
   vMst2) * EPow P2 (EVar vs2t)) * EPow P6 (EVar vMst2))) + EPow P4 (EVar vMsq) * (#4 * EVar vDmglst2 * EVar vMgl *
   EPow P2 (EVar vMst1) * (- #1764 * EPow P2 (EVar vMst2) * EPow P4 (EVar vMst1) * (- #112 * EPow P2 (EVar vMst2) *
   EPow P2 (EVar vMt) * EPow P2 (EVar vs2t) * (#1216808 + #150000 * EConst COepS2 - #376650 * EConst CS2 - #225000 *
   EConst CT1ep - #3408750 * EConst Cz2 - #833625 * EConst Cz3 - #112500 * EConst Cz4 - #168750 * EPow P2 (EConst
   Cz2)) + #1050 * EVar vMst2 * EVar vs2t * (- #322421 + #73760 * EConst COepS2 - #564876 * EConst CS2 - #110640 *
   EConst CT1ep - #3060894 * EConst Cz2 + #1606920 * EConst Cz3 - #55320 * EConst Cz4 - #82980 * EPow P2 (EConst Cz2))
   * EPow P3 (EVar vMt) - #175 * EVar vMt * (#27211 + #36720 * EConst CB4 + #1080 * EConst CDN + #64160 * EConst
   COepS2 - #1515564 * EConst CS2 - #96240 * EConst CT1ep - #1240446 * EConst Cz2 + #245400 * EConst Cz3 - #12480 *
   EConst Cz4 - #72180 * EPow P2 (EConst Cz2)) * EPow P3 (EVar vMst2) * EPow P3 (EVar vs2t) - #8 * (#98884301 +
   #4508000 * EConst COepS2 - #17853750 * EConst CS2 - #6762000 * EConst CT1ep - #477659550 * EConst Cz2 + #302883000
   * EConst Cz3 - #3381000 * EConst Cz4 - #5071500 * EPow P2 (EConst Cz2)) * EPow P4 (EVar vMt) - #7 * (- #95041 +
   #81000 * EConst CB4 - #108000 * EConst CD3 + #67500 * EConst CDN - #432000 * EConst COepS2 - #7425000 * EConst CS2
   + #648000 * EConst CT1ep + #5325300 * EConst Cz2 + #4227750 * EConst Cz3 - #121500 * EConst Cz4) * EPow P4 (EVar
   vMst2) * EPow P4 (EVar vs2t)) - #66150 * EPow P2 (EVar vMst1) * EPow P4 (EVar vMst2) * (#672 * (- #11674 + #120 *
   EConst CB4 - #120 * EConst CD3 + #60 * EConst CDN + #17091 * EConst CS2 + #4849 * EConst Cz2 + #2195 * EConst Cz3 -
   #540 * EConst Cz4) * EPow P2 (EVar vMst2) * EPow P2 (EVar vMt) * EPow P2 (EVar vs2t) + #140 * EVar vMst2 * EVar
   vs2t * (#1120 * EConst COepS2 + #3 * (- #10061 + #14580 * EConst CS2 - #560 * EConst CT1ep - #25134 * EConst Cz2 +
   #72 * EConst Cz3 + #2024 * EConst Cz4 - #420 * EPow P2 (EConst Cz2))) * EPow P3 (EVar vMt) - #7 * EVar vMt *
   (#69997 + #188640 * EConst CB4 - #3600 * EConst CDN + #5600 * EConst COepS2 + #146772 * EConst CS2 - #8400 * EConst
   CT1ep - #1043682 * EConst Cz2 + #1816440 * EConst Cz3 + #32520 * EConst Cz4 - #317340 * EPow P2 (EConst Cz2)) *
   EPow P3 (EVar vMst2) * EPow P3 (EVar vs2t) - #16 * (#1547066 + #7840 * EConst COepS2 + #258066 * EConst CS2 -
   #11760 * EConst CT1ep - #1256046 * EConst Cz2 - #946785 * EConst Cz3 - #5880 * EConst Cz4 - #8820 * EPow P2 (EConst
   Cz2)) * EPow P4 (EVar vMt) + #35 * (- #15707 + #432 * EConst CB4 - #576 * EConst CD3 + #360 * EConst CDN + #224 *
   EConst COepS2 + #543348 * EConst CS2 - #336 * EConst CT1ep - #11802 * EConst Cz2 - #105690 * EConst Cz3 - #2544 *
   EConst Cz4 - #2844 * EPow P2 (EConst Cz2)) * EPow P4 (EVar vMst2) * EPow P4 (EVar vs2t)) + (#72 * EPow P2 (EVar
   vMst2) * EPow P2 (EVar vMt) * EPow P2 (EVar vs2t) * (- #3650009897 + #2110136000 * EConst COepS2 - #52385772600 *
   EConst CS2 - #3165204000 * EConst CT1ep - #40405228500 * EConst Cz2 + #755286000 * EConst Cz3 - #1582602000 *
   EConst Cz4 - #2373903000 * EPow P2 (EConst Cz2)) - #274400 * EVar vMst2 * EVar vs2t * (- #20964397 + #2058400 *
   EConst COepS2 - #47545272 * EConst CS2 - #3087600 * EConst CT1ep - #59449002 * EConst Cz2 + #39214920 * EConst Cz3
   - #1543800 * EConst Cz4 - #2315700 * EPow P2 (EConst Cz2)) * EPow P3 (EVar vMt) + #17150 * EVar vMt * (- #31897243
   + #2491360 * EConst COepS2 - #90290268 * EConst CS2 - #3737040 * EConst CT1ep - #51499698 * EConst Cz2 + #33912840
   * EConst Cz3 - #1868520 * EConst Cz4 - #2802780 * EPow P2 (EConst Cz2)) * EPow P3 (EVar vMst2) * EPow P3 (EVar
   vs2t) + #80 * (- #54946675289 + #3063401600 * EConst COepS2 - #52952863320 * EConst CS2 - #4595102400 * EConst
   CT1ep - #225236187120 * EConst Cz2 + #243414477600 * EConst Cz3 - #2297551200 * EConst Cz4 - #3446326800 * EPow P2
   (EConst Cz2)) * EPow P4 (EVar vMt) + (#119405394763 - #11522056000 * EConst COepS2 + #478191735000 * EConst CS2 +
   #17283084000 * EConst CT1ep + #233890773900 * EConst Cz2 - #111792103500 * EConst Cz3 + #8641542000 * EConst Cz4 +
   #12962313000 * EPow P2 (EConst Cz2)) * EPow P4 (EVar vMst2) * EPow P4 (EVar vs2t)) * EPow P6 (EVar vMst1) -
   #333396000 * (#2 * EVar vMt + EVar vMst2 * EVar vs2t) * (#14 * EVar vMt * (#3 + EConst Cz2) + EVar vMst2 * EVar
   vs2t * (#5 + #7 * EConst Cz2)) * EPow P2 (- #2 * EVar vMt + EVar vMst2 * EVar vs2t) * EPow P6 (EVar vMst2)) + #3 *
   EPow P2 (EVar vMgl) * (#308700 * EPow P4 (EVar vMst1) * EPow P4 (EVar vMst2) * (#2 * EPow P2 (EVar vMst2) * EPow P2
   (EVar vMt) * EPow P2 (EVar vs2t) * (#1013263 + #2880 * EConst CD3 - #2880 * EConst CDN - #25440 * EConst COepS2 -
   #137052 * EConst CS2 + #38160 * EConst CT1ep + #35562 * EConst Cz2 + #83160 * EConst Cz3 + #36360 * EConst Cz4 +
   #28620 * EPow P2 (EConst Cz2)) + #24 * EVar vMst2 * EVar vs2t * (- #60759 + #1120 * EConst COepS2 + #25596 * EConst
   CS2 - #1680 * EConst CT1ep - #137386 * EConst Cz2 + #115320 * EConst Cz3 - #12360 * EConst Cz4 - #1260 * EPow P2
   (EConst Cz2)) * EPow P3 (EVar vMt) + #30 * EVar vMt * (#25611 + #5280 * EConst CB4 - #48 * EConst CDN - #224 *
   EConst COepS2 - #324 * EConst CS2 + #336 * EConst CT1ep - #13614 * EConst Cz2 + #47720 * EConst Cz3 + #2040 *
   EConst Cz4 - #6660 * EPow P2 (EConst Cz2)) * EPow P3 (EVar vMst2) * EPow P3 (EVar vs2t) + #8 * (#389597 + #3360 *
   EConst COepS2 - #105948 * EConst CS2 - #5040 * EConst CT1ep + #293898 * EConst Cz2 - #740160 * EConst Cz3 - #2520 *
   EConst Cz4 - #3780 * EPow P2 (EConst Cz2)) * EPow P4 (EVar vMt) - #5 * (#25289 + #1440 * EConst CB4 - #144 * EConst
   CD3 + #72 * EConst CDN - #2208 * EConst COepS2 + #298404 * EConst CS2 + #3312 * EConst CT1ep + #36318 * EConst Cz2
   - #94968 * EConst Cz3 + #1440 * EConst Cz4 - #108 * EPow P2 (EConst Cz2)) * EPow P4 (EVar vMst2) * EPow P4 (EVar
   vs2t)) + #20580 * EPow P2 (EVar vMst2) * (#4 * EPow P2 (EVar vMst2) * EPow P2 (EVar vMt) * EPow P2 (EVar vs2t) *
   (#2367149 - #21600 * EConst CD3 + #21600 * EConst CDN - #503200 * EConst COepS2 + #14889420 * EConst CS2 + #754800
   * EConst CT1ep + #9292470 * EConst Cz2 - #66000 * EConst Cz3 + #247800 * EConst Cz4 + #566100 * EPow P2 (EConst
   Cz2)) + #40 * EVar vMst2 * EVar vs2t * (- #1156193 + #60320 * EConst COepS2 - #1414908 * EConst CS2 - #90480 *
   EConst CT1ep - #2823942 * EConst Cz2 + #2907240 * EConst Cz3 - #45240 * EConst Cz4 - #67860 * EPow P2 (EConst Cz2))
   * EPow P3 (EVar vMt) + #100 * EVar vMt * (#51041 + #7344 * EConst CB4 + #216 * EConst CDN - #2336 * EConst COepS2 +
   #112428 * EConst CS2 + #3504 * EConst CT1ep + #28038 * EConst Cz2 - #78216 * EConst Cz3 + #8880 * EConst Cz4 +
   #2628 * EPow P2 (EConst Cz2)) * EPow P3 (EVar vMst2) * EPow P3 (EVar vs2t) + #8 * (#7319011 + #167200 * EConst
   COepS2 - #6744060 * EConst CS2 - #250800 * EConst CT1ep + #9301170 * EConst Cz2 - #20715000 * EConst Cz3 - #125400
   * EConst Cz4 - #188100 * EPow P2 (EConst Cz2)) * EPow P4 (EVar vMt) + (- #7680127 + #10800 * EConst CB4 - #21600 *
   EConst CD3 + #16200 * EConst CDN + #514400 * EConst COepS2 - #46307700 * EConst CS2 - #771600 * EConst CT1ep -
   #10868970 * EConst Cz2 + #7186200 * EConst Cz3 - #466800 * EConst Cz4 - #773100 * EPow P2 (EConst Cz2)) * EPow P4
   (EVar vMst2) * EPow P4 (EVar vs2t)) * EPow P6 (EVar vMst1) + #55566000 * EPow P2 (EVar vMst1) * (- #8 * (#87 + #38
   * EConst Cz2) * EPow P2 (EVar vMst2) * EPow P2 (EVar vMt) * EPow P2 (EVar vs2t) - #1024 * EVar vMst2 * EVar vs2t *
   EPow P3 (EVar vMt) + #256 * EVar vMt * EPow P3 (EVar vMst2) * EPow P3 (EVar vs2t) + #16 * (#71 + #38 * EConst Cz2)
   * EPow P4 (EVar vMt) + (#135 + #38 * EConst Cz2) * EPow P4 (EVar vMst2) * EPow P4 (EVar vs2t)) * EPow P6 (EVar
   vMst2) + (- #16 * EPow P2 (EVar vMst2) * EPow P2 (EVar vMt) * EPow P2 (EVar vs2t) * (- #25002374272 + #4703902000 *
   EConst COepS2 - #184815757350 * EConst CS2 - #7055853000 * EConst CT1ep - #84661721025 * EConst Cz2 + #16805113500
   * EConst Cz3 - #3527926500 * EConst Cz4 - #5291889750 * EPow P2 (EConst Cz2)) + #1097600 * EVar vMst2 * EVar vs2t *
   (- #2016907 + #109600 * EConst COepS2 - #3520152 * EConst CS2 - #164400 * EConst CT1ep - #3448554 * EConst Cz2 +
   #3465480 * EConst Cz3 - #82200 * EConst Cz4 - #123300 * EPow P2 (EConst Cz2)) * EPow P3 (EVar vMt) - #68600 * EVar
   vMt * (- #2759935 + #70240 * EConst COepS2 - #3305340 * EConst CS2 - #105360 * EConst CT1ep - #629034 * EConst Cz2
   + #2677800 * EConst Cz3 - #52680 * EConst Cz4 - #79020 * EPow P2 (EConst Cz2)) * EPow P3 (EVar vMst2) * EPow P3
   (EVar vs2t) + #16 * (#187545955063 + #3204992000 * EConst COepS2 - #128216692800 * EConst CS2 - #4807488000 *
   EConst CT1ep + #129009640200 * EConst Cz2 - #399103824000 * EConst Cz3 - #2403744000 * EConst Cz4 - #3605616000 *
   EPow P2 (EConst Cz2)) * EPow P4 (EVar vMt) + (#93508520089 + #2000376000 * EConst CB4 + #222264000 * EConst CD3 -
   #222264000 * EConst CDN + #4925480000 * EConst COepS2 - #312095700000 * EConst CS2 - #7388220000 * EConst CT1ep -
   #77106571500 * EConst Cz2 + #21506100000 * EConst Cz3 - #2360526000 * EConst Cz4 - #5541165000 * EPow P2 (EConst
   Cz2)) * EPow P4 (EVar vMst2) * EPow P4 (EVar vs2t)) * EPow P8 (EVar vMst1) + #7112448000 * EPow P2 (EVar vMt) * (-
   #2 * EPow P2 (EVar vMt) + EPow P2 (EVar vMst2) * EPow P2 (EVar vs2t)) * EPow P8 (EVar vMst2)) + #4 * EPow P2 (EVar
   vDmglst2) * (- #2205 * EPow P4 (EVar vMst1) * EPow P4 (EVar vMst2) * (#360 * EPow P2 (EVar vMst2) * EPow P2 (EVar
   vMt) * EPow P2 (EVar vs2t) * (- #2818497 + #10080 * EConst CB4 - #10080 * EConst CD3 + #5040 * EConst CDN - #7840 *
   EConst COepS2 + #1126548 * EConst CS2 + #11760 * EConst CT1ep + #739362 * EConst Cz2 + #2068815 * EConst Cz3 -
   #39480 * EConst Cz4 + #8820 * EPow P2 (EConst Cz2)) - #40 * EVar vMst2 * EVar vs2t * (- #6779161 + #7840 * EConst
   COepS2 + #3032964 * EConst CS2 - #11760 * EConst CT1ep - #15966294 * EConst Cz2 + #27128640 * EConst Cz3 - #731640
   * EConst Cz4 - #8820 * EPow P2 (EConst Cz2)) * EPow P3 (EVar vMt) - #70 * EVar vMt * (- #2048393 + #1058400 *
   EConst CB4 - #23760 * EConst CDN - #1120 * EConst COepS2 - #449388 * EConst CS2 + #1680 * EConst CT1ep - #5386422 *
   EConst Cz2 + #13314840 * EConst Cz3 + #149880 * EConst Cz4 - #1864980 * EPow P2 (EConst Cz2)) * EPow P3 (EVar
   vMst2) * EPow P3 (EVar vs2t) + #112 * (- #13292051 + #72800 * EConst COepS2 + #3133890 * EConst CS2 - #109200 *
   EConst CT1ep - #9928650 * EConst Cz2 + #19536225 * EConst Cz3 - #54600 * EConst Cz4 - #81900 * EPow P2 (EConst
   Cz2)) * EPow P4 (EVar vMt) + #35 * (- #1395899 + #54000 * EConst CB4 - #60480 * EConst CD3 + #33480 * EConst CDN +
   #5600 * EConst COepS2 + #37625796 * EConst CS2 - #8400 * EConst CT1ep - #481746 * EConst Cz2 - #6858210 * EConst
   Cz3 - #266640 * EConst Cz4 - #122940 * EPow P2 (EConst Cz2)) * EPow P4 (EVar vMst2) * EPow P4 (EVar vs2t)) - #294 *
   EPow P2 (EVar vMst2) * (- #12 * EPow P2 (EVar vMst2) * EPow P2 (EVar vMt) * EPow P2 (EVar vs2t) * (#273721621 +
   #16716000 * EConst COepS2 - #343302300 * EConst CS2 - #25074000 * EConst CT1ep - #610971750 * EConst Cz2 +
   #71859375 * EConst Cz3 - #12537000 * EConst Cz4 - #18805500 * EPow P2 (EConst Cz2)) - #100 * EVar vMst2 * EVar vs2t
   * (#79386499 + #4823840 * EConst COepS2 + #82155924 * EConst CS2 - #7235760 * EConst CT1ep - #287072094 * EConst
   Cz2 + #104826120 * EConst Cz3 - #3617880 * EConst Cz4 - #5426820 * EPow P2 (EConst Cz2)) * EPow P3 (EVar vMt) -
   #3500 * EVar vMt * (#280885 + #11016 * EConst CB4 + #324 * EConst CDN - #24544 * EConst COepS2 - #89856 * EConst
   CS2 + #36816 * EConst CT1ep + #858030 * EConst Cz2 - #343020 * EConst Cz3 + #29100 * EConst Cz4 + #27612 * EPow P2
   (EConst Cz2)) * EPow P3 (EVar vMst2) * EPow P3 (EVar vs2t) + #8 * (#55610713 + #131684000 * EConst COepS2 +
   #173875950 * EConst CS2 - #197526000 * EConst CT1ep - #7894319250 * EConst Cz2 + #4687557000 * EConst Cz3 -
   #98763000 * EConst Cz4 - #148144500 * EPow P2 (EConst Cz2)) * EPow P4 (EVar vMt) - #7 * (- #22023067 + #729000 *
   EConst CB4 - #972000 * EConst CD3 + #607500 * EConst CDN - #320000 * EConst COepS2 - #120274200 * EConst CS2 +
   #480000 * EConst CT1ep - #23129700 * EConst Cz2 + #92516250 * EConst Cz3 - #3769500 * EConst Cz4 - #4014000 * EPow
   P2 (EConst Cz2)) * EPow P4 (EVar vMst2) * EPow P4 (EVar vs2t)) * EPow P6 (EVar vMst1) + #166698000 * EPow P2 (EVar
   vMst1) * (#8 * (#205 - #12 * EConst Cz2) * EPow P2 (EVar vMst2) * EPow P2 (EVar vMt) * EPow P2 (EVar vs2t) + #1024
   * EVar vMst2 * EVar vs2t * EPow P3 (EVar vMt) - #256 * EVar vMt * EPow P3 (EVar vMst2) * EPow P3 (EVar vs2t) + #16
   * (- #197 + #12 * EConst Cz2) * EPow P4 (EVar vMt) + (- #245 + #12 * EConst Cz2) * EPow P4 (EVar vMst2) * EPow P4
   (EVar vs2t)) * EPow P6 (EVar vMst2) + (#72 * EPow P2 (EVar vMst2) * EPow P2 (EVar vMt) * EPow P2 (EVar vs2t) * (-
   #3650009897 + #2110136000 * EConst COepS2 - #52385772600 * EConst CS2 - #3165204000 * EConst CT1ep - #40405228500 *
   EConst Cz2 + #755286000 * EConst Cz3 - #1582602000 * EConst Cz4 - #2373903000 * EPow P2 (EConst Cz2)) - #274400 *
   EVar vMst2 * EVar vs2t * (- #20964397 + #2058400 * EConst COepS2 - #47545272 * EConst CS2 - #3087600 * EConst CT1ep
   - #59449002 * EConst Cz2 + #39214920 * EConst Cz3 - #1543800 * EConst Cz4 - #2315700 * EPow P2 (EConst Cz2)) * EPow
   P3 (EVar vMt) + #17150 * EVar vMt * (- #31897243 + #2491360 * EConst COepS2 - #90290268 * EConst CS2 - #3737040 *
   EConst CT1ep - #51499698 * EConst Cz2 + #33912840 * EConst Cz3 - #1868520 * EConst Cz4 - #2802780 * EPow P2 (EConst
   Cz2)) * EPow P3 (EVar vMst2) * EPow P3 (EVar vs2t) + #80 * (- #54946675289 + #3063401600 * EConst COepS2 -
   #52952863320 * EConst CS2 - #4595102400 * EConst CT1ep - #225236187120 * EConst Cz2 + #243414477600 * EConst Cz3 -
   #2297551200 * EConst Cz4 - #3446326800 * EPow P2 (EConst Cz2)) * EPow P4 (EVar vMt) + (#119405394763 - #11522056000
   * EConst COepS2 + #478191735000 * EConst CS2 + #17283084000 * EConst CT1ep + #233890773900 * EConst Cz2 -
   #111792103500 * EConst Cz3 + #8641542000 * EConst Cz4 + #12962313000 * EPow P2 (EConst Cz2)) * EPow P4 (EVar vMst2)
   * EPow P4 (EVar vs2t)) * EPow P8 (EVar vMst1) + #2667168000 * EPow P2 (- #4 * EPow P2 (EVar vMt) + EPow P2 (EVar
   vMst2) * EPow P2 (EVar vs2t)) * EPow P8 (EVar vMst2))) + #1260 * ELog (EPow P2 (EVar vMst1) / EPow P2 (EVar vMst2))
   * (#30 * EPow P2 (EVar vDmsqst2) * EPow P2 (EVar vMst1) * (- #14700 * EVar vDmglst2 * EVar vMgl * EVar vMst2 * EPow
   P2 (EVar vMst1) * (- #3 * EVar vs2t * (#2 * EVar vMst2 * EVar vs2t * (#37 - #60 * EConst Cz2) * EPow P2 (EVar vMt)
   + #72 * EVar vMt * EPow P2 (EVar vMst2) * EPow P2 (EVar vs2t) + #1056 * (- #17 + #8 * EConst Cz2) * EPow P3 (EVar
   vMt) + (#83 - #60 * EConst Cz2) * EPow P3 (EVar vMst2) * EPow P3 (EVar vs2t)) * EPow P4 (EVar vMst1) + #4 * EPow P3
   (EVar vMst2) * (- #48 * EVar vMst2 * EVar vs2t * (- #59 + #36 * EConst Cz2) * EPow P3 (EVar vMt) + #72 * EVar vMt *
   (- #5 + #3 * EConst Cz2) * EPow P3 (EVar vMst2) * EPow P3 (EVar vs2t) + #4 * (- #571 + #360 * EConst Cz2) * EPow P4
   (EVar vMt) + #9 * (#2 - #3 * EConst Cz2) * EPow P4 (EVar vMst2) * EPow P4 (EVar vs2t)) - #18 * EVar vMst2 * EPow P2
   (EVar vMst1) * (- #8 * EPow P2 (EVar vMst2) * EPow P2 (EVar vMt) * EPow P2 (EVar vs2t) + #128 * EVar vMst2 * EVar
   vs2t * (- #12 + #7 * EConst Cz2) * EPow P3 (EVar vMt) + #16 * EVar vMt * (#5 - #3 * EConst Cz2) * EPow P3 (EVar
   vMst2) * EPow P3 (EVar vs2t) - #16 * (- #137 + #72 * EConst Cz2) * EPow P4 (EVar vMt) + (- #13 + #4 * EConst Cz2) *
   EPow P4 (EVar vMst2) * EPow P4 (EVar vs2t))) - #14700 * EVar vMst2 * EPow P2 (EVar vDmglst2) * EPow P2 (EVar vMst1)
   * (- #3 * EVar vs2t * (#2 * EVar vMst2 * EVar vs2t * (#37 - #60 * EConst Cz2) * EPow P2 (EVar vMt) + #72 * EVar vMt
   * EPow P2 (EVar vMst2) * EPow P2 (EVar vs2t) + #1056 * (- #17 + #8 * EConst Cz2) * EPow P3 (EVar vMt) + (#83 - #60
   * EConst Cz2) * EPow P3 (EVar vMst2) * EPow P3 (EVar vs2t)) * EPow P4 (EVar vMst1) + #4 * EPow P3 (EVar vMst2) * (-
   #48 * EVar vMst2 * EVar vs2t * (- #59 + #36 * EConst Cz2) * EPow P3 (EVar vMt) + #72 * EVar vMt * (- #5 + #3 *
   EConst Cz2) * EPow P3 (EVar vMst2) * EPow P3 (EVar vs2t) + #4 * (- #571 + #360 * EConst Cz2) * EPow P4 (EVar vMt) +
   #9 * (#2 - #3 * EConst Cz2) * EPow P4 (EVar vMst2) * EPow P4 (EVar vs2t)) - #18 * EVar vMst2 * EPow P2 (EVar vMst1)
   * (- #8 * EPow P2 (EVar vMst2) * EPow P2 (EVar vMt) * EPow P2 (EVar vs2t) + #128 * EVar vMst2 * EVar vs2t * (- #12
   + #7 * EConst Cz2) * EPow P3 (EVar vMt) + #16 * EVar vMt * (#5 - #3 * EConst Cz2) * EPow P3 (EVar vMst2) * EPow P3
   (EVar vs2t) - #16 * (- #137 + #72 * EConst Cz2) * EPow P4 (EVar vMt) + (- #13 + #4 * EConst Cz2) * EPow P4 (EVar
   vMst2) * EPow P4 (EVar vs2t))) + EPow P2 (EVar vMgl) * (#1470 * EPow P2 (EVar vMst2) * EPow P4 (EVar vMst1) * (- #8
   * (- #443 + #90 * EConst CS2) * EPow P2 (EVar vMst2) * EPow P2 (EVar vMt) * EPow P2 (EVar vs2t) - #11520 * EVar
   vMst2 * EVar vs2t * (- #7 + #4 * EConst Cz2) * EPow P3 (EVar vMt) + #1440 * EVar vMt * (- #4 + #3 * EConst Cz2) *
   EPow P3 (EVar vMst2) * EPow P3 (EVar vs2t) + #144 * (- #667 + #360 * EConst Cz2) * EPow P4 (EVar vMt) + (- #13 +
   #2340 * EConst CS2 - #540 * EConst Cz2) * EPow P4 (EVar vMst2) * EPow P4 (EVar vs2t)) + #14700 * EPow P2 (EVar
   vMst1) * EPow P4 (EVar vMst2) * (- #48 * (#7 + #9 * EConst CS2) * EPow P2 (EVar vMst2) * EPow P2 (EVar vMt) * EPow
   P2 (EVar vs2t) - #144 * EVar vMst2 * EVar vs2t * (- #35 + #24 * EConst Cz2) * EPow P3 (EVar vMt) + #144 * EVar vMt
   * (- #4 + #3 * EConst Cz2) * EPow P3 (EVar vMst2) * EPow P3 (EVar vs2t) + #28 * (- #131 + #72 * EConst Cz2) * EPow
   P4 (EVar vMt) + #3 * (#35 + #36 * EConst CS2 - #3 * EConst Cz2) * EPow P4 (EVar vMst2) * EPow P4 (EVar vs2t)) + (#2
   * (#318121 + #1234800 * EConst CS2 + #396900 * EConst Cz2) * EPow P2 (EVar vMst2) * EPow P2 (EVar vMt) * EPow P2
   (EVar vs2t) - #4233600 * EVar vMst2 * EVar vs2t * (- #25 + #8 * EConst Cz2) * EPow P3 (EVar vMt) - #132300 * EVar
   vMt * (- #113 + #60 * EConst Cz2) * EPow P3 (EVar vMst2) * EPow P3 (EVar vs2t) + #1152 * (- #175121 + #44100 *
   EConst Cz2) * EPow P4 (EVar vMt) + #9 * (- #281161 + #102900 * EConst Cz2) * EPow P4 (EVar vMst2) * EPow P4 (EVar
   vs2t)) * EPow P6 (EVar vMst1) - #264600 * EPow P2 (- #4 * EPow P2 (EVar vMt) + EPow P2 (EVar vMst2) * EPow P2 (EVar
   vs2t)) * EPow P6 (EVar vMst2))) + #120 * EVar vDmsqst2 * EPow P2 (EVar vMsq) * EPow P2 (EVar vMst1) * (- #3675 *
   EVar vDmglst2 * EVar vMgl * EVar vMst2 * EPow P2 (EVar vMst1) * (- #3 * EVar vs2t * (#2 * EVar vMst2 * EVar vs2t *
   (#37 - #60 * EConst Cz2) * EPow P2 (EVar vMt) + #72 * EVar vMt * EPow P2 (EVar vMst2) * EPow P2 (EVar vs2t) + #1056
   * (- #17 + #8 * EConst Cz2) * EPow P3 (EVar vMt) + (#83 - #60 * EConst Cz2) * EPow P3 (EVar vMst2) * EPow P3 (EVar
   vs2t)) * EPow P4 (EVar vMst1) + #4 * EPow P3 (EVar vMst2) * (- #48 * EVar vMst2 * EVar vs2t * (- #59 + #36 * EConst
   Cz2) * EPow P3 (EVar vMt) + #72 * EVar vMt * (- #5 + #3 * EConst Cz2) * EPow P3 (EVar vMst2) * EPow P3 (EVar vs2t)
   + #4 * (- #571 + #360 * EConst Cz2) * EPow P4 (EVar vMt) + #9 * (#2 - #3 * EConst Cz2) * EPow P4 (EVar vMst2) *
   EPow P4 (EVar vs2t)) - #18 * EVar vMst2 * EPow P2 (EVar vMst1) * (- #8 * EPow P2 (EVar vMst2) * EPow P2 (EVar vMt)
   * EPow P2 (EVar vs2t) + #128 * EVar vMst2 * EVar vs2t * (- #12 + #7 * EConst Cz2) * EPow P3 (EVar vMt) + #16 * EVar
   vMt * (#5 - #3 * EConst Cz2) * EPow P3 (EVar vMst2) * EPow P3 (EVar vs2t) - #16 * (- #137 + #72 * EConst Cz2) *
   EPow P4 (EVar vMt) + (- #13 + #4 * EConst Cz2) * EPow P4 (EVar vMst2) * EPow P4 (EVar vs2t))) - #3675 * EVar vMst2
   * EPow P2 (EVar vDmglst2) * EPow P2 (EVar vMst1) * (- #3 * EVar vs2t * (#2 * EVar vMst2 * EVar vs2t * (#37 - #60 *
   EConst Cz2) * EPow P2 (EVar vMt) + #72 * EVar vMt * EPow P2 (EVar vMst2) * EPow P2 (EVar vs2t) + #1056 * (- #17 +
   #8 * EConst Cz2) * EPow P3 (EVar vMt) + (#83 - #60 * EConst Cz2) * EPow P3 (EVar vMst2) * EPow P3 (EVar vs2t)) *
   EPow P4 (EVar vMst1) + #4 * EPow P3 (EVar vMst2) * (- #48 * EVar vMst2 * EVar vs2t * (- #59 + #36 * EConst Cz2) *
   EPow P3 (EVar vMt) + #72 * EVar vMt * (- #5 + #3 * EConst Cz2) * EPow P3 (EVar vMst2) * EPow P3 (EVar vs2t) + #4 *
   (- #571 + #360 * EConst Cz2) * EPow P4 (EVar vMt) + #9 * (#2 - #3 * EConst Cz2) * EPow P4 (EVar vMst2) * EPow P4
   (EVar vs2t)) - #18 * EVar vMst2 * EPow P2 (EVar vMst1) * (- #8 * EPow P2 (EVar vMst2) * EPow P2 (EVar vMt) * EPow
   P2 (EVar vs2t) + #128 * EVar vMst2 * EVar vs2t * (- #12 + #7 * EConst Cz2) * EPow P3 (EVar vMt) + #16 * EVar vMt *
   (#5 - #3 * EConst Cz2) * EPow P3 (EVar vMst2) * EPow P3 (EVar vs2t) - #16 * (- #137 + #72 * EConst Cz2) * EPow P4
   (EVar vMt) + (- #13 + #4 * EConst Cz2) * EPow P4 (EVar vMst2) * EPow P4 (EVar vs2t))) + EPow P2 (EVar vMgl) *
   (#22050 * EPow P2 (EVar vMst1) * EPow P4 (EVar vMst2) * (- #4 * (#16 + #27 * EConst CS2) * EPow P2 (EVar vMst2) *
   EPow P2 (EVar vMt) * EPow P2 (EVar vs2t) - #96 * EVar vMst2 * EVar vs2t * (- #5 + #4 * EConst Cz2) * EPow P3 (EVar
   vMt) + #48 * EVar vMt * (- #1 + EConst Cz2) * EPow P3 (EVar vMst2) * EPow P3 (EVar vs2t) + #16 * (- #23 + #12 *
   EConst Cz2) * EPow P4 (EVar vMt) + (#17 + #27 * EConst CS2) * EPow P4 (EVar vMst2) * EPow P4 (EVar vs2t)) + #441 *
   EPow P2 (EVar vMst2) * EPow P4 (EVar vMst1) * (- #8 * (- #517 + #450 * EConst CS2) * EPow P2 (EVar vMst2) * EPow P2
   (EVar vMt) * EPow P2 (EVar vs2t) - #19200 * EVar vMst2 * EVar vs2t * (- #2 + EConst Cz2) * EPow P3 (EVar vMt) +
   #2400 * EVar vMt * (- #1 + EConst Cz2) * EPow P3 (EVar vMst2) * EPow P3 (EVar vs2t) + #16 * (- #3067 + #1200 *
   EConst Cz2) * EPow P4 (EVar vMt) + (- #317 + #3150 * EConst CS2 - #300 * EConst Cz2) * EPow P4 (EVar vMst2) * EPow
   P4 (EVar vs2t)) + (#16 * (#58853 - #44100 * EConst CS2) * EPow P2 (EVar vMst2) * EPow P2 (EVar vMt) * EPow P2 (EVar
   vs2t) - #1058400 * EVar vMst2 * EVar vs2t * (- #25 + #8 * EConst Cz2) * EPow P3 (EVar vMt) - #264600 * EVar vMt *
   EPow P3 (EVar vMst2) * EPow P3 (EVar vs2t) + #288 * (- #175121 + #44100 * EConst Cz2) * EPow P4 (EVar vMt) + (-
   #621671 + #308700 * EConst CS2 + #132300 * EConst Cz2) * EPow P4 (EVar vMst2) * EPow P4 (EVar vs2t)) * EPow P6
   (EVar vMst1) - #66150 * EPow P2 (- #4 * EPow P2 (EVar vMt) + EPow P2 (EVar vMst2) * EPow P2 (EVar vs2t)) * EPow P6
   (EVar vMst2))) + EPow P4 (EVar vMsq) * (#3 * EPow P2 (EVar vMgl) * (#9800 * EPow P4 (EVar vMst1) * EPow P4 (EVar
   vMst2) * (- #6 * (- #4534 + #4293 * EConst CS2 + #1830 * EConst Cz2 - #72 * EConst Cz3) * EPow P2 (EVar vMst2) *
   EPow P2 (EVar vMt) * EPow P2 (EVar vs2t) + #72 * EVar vMst2 * EVar vs2t * (#26 + #189 * EConst CS2 - #758 * EConst
   Cz2) * EPow P3 (EVar vMt) - #126 * EVar vMt * (- #208 + #27 * EConst CS2 - #2 * EConst Cz2) * EPow P3 (EVar vMst2)
   * EPow P3 (EVar vs2t) + #8 * (- #553 + #1701 * EConst CS2 + #4023 * EConst Cz2 + #108 * EConst Cz3) * EPow P4 (EVar
   vMt) + #3 * (#1148 + #1863 * EConst CS2 + #276 * EConst Cz2 - #18 * EConst Cz3) * EPow P4 (EVar vMst2) * EPow P4
   (EVar vs2t)) + #1960 * EPow P2 (EVar vMst2) * (- #4 * (- #52322 + #84915 * EConst CS2 + #3060 * EConst Cz2 + #540 *
   EConst Cz3) * EPow P2 (EVar vMst2) * EPow P2 (EVar vMt) * EPow P2 (EVar vs2t) + #1080 * EVar vMst2 * EVar vs2t *
   (#42 + #377 * EConst CS2 - #330 * EConst Cz2) * EPow P3 (EVar vMt) - #180 * EVar vMt * (#221 + #219 * EConst CS2 -
   #234 * EConst Cz2) * EPow P3 (EVar vMst2) * EPow P3 (EVar vs2t) + #8 * (- #22352 + #28215 * EConst CS2 + #36270 *
   EConst Cz2) * EPow P4 (EVar vMt) + (- #16051 + #86805 * EConst CS2 - #8325 * EConst Cz2) * EPow P4 (EVar vMst2) *
   EPow P4 (EVar vs2t)) * EPow P6 (EVar vMst1) + #88200 * EPow P2 (EVar vMst1) * (- #616 * EPow P2 (EVar vMst2) * EPow
   P2 (EVar vMt) * EPow P2 (EVar vs2t) - #1024 * EVar vMst2 * EVar vs2t * EPow P3 (EVar vMt) + #256 * EVar vMt * EPow
   P3 (EVar vMst2) * EPow P3 (EVar vs2t) + #976 * EPow P4 (EVar vMt) + #125 * EPow P4 (EVar vMst2) * EPow P4 (EVar
   vs2t)) * EPow P6 (EVar vMst2) + (- #24 * (- #19407863 + #50398950 * EConst CS2 + #2866500 * EConst Cz2) * EPow P2
   (EVar vMst2) * EPow P2 (EVar vMt) * EPow P2 (EVar vs2t) + #940800 * EVar vMst2 * EVar vs2t * (#167 + #2055 * EConst
   CS2 - #912 * EConst Cz2) * EPow P3 (EVar vMt) - #58800 * EVar vMt * (#46 + #1317 * EConst CS2 - #918 * EConst Cz2)
   * EPow P3 (EVar vMst2) * EPow P3 (EVar vs2t) + #32 * (- #35585111 + #25754400 * EConst CS2 + #32281200 * EConst
   Cz2) * EPow P4 (EVar vMt) + #3 * (- #23468297 + #26386500 * EConst CS2 + #661500 * EConst Cz2 + #176400 * EConst
   Cz3) * EPow P4 (EVar vMst2) * EPow P4 (EVar vs2t)) * EPow P8 (EVar vMst1) + #11289600 * EPow P2 (EVar vMt) * (- #2
   * EPow P2 (EVar vMt) + EPow P2 (EVar vMst2) * EPow P2 (EVar vs2t)) * EPow P8 (EVar vMst2)) + #4 * EVar vDmglst2 *
   EVar vMgl * (- #14700 * EPow P4 (EVar vMst1) * EPow P4 (EVar vMst2) * (#12 * (- #3427 + #1782 * EConst Cz2) * EPow
   P2 (EVar vMst2) * EPow P2 (EVar vMt) * EPow P2 (EVar vs2t) + #4 * EVar vMst2 * EVar vs2t * (- #8398 + #2835 *
   EConst CS2 - #3258 * EConst Cz2) * EPow P3 (EVar vMt) - #9 * EVar vMt * (#1640 + #315 * EConst CS2 - #1146 * EConst
   Cz2) * EPow P3 (EVar vMst2) * EPow P3 (EVar vs2t) + (#26276 - #9072 * EConst CS2 + #28224 * EConst Cz2) * EPow P4
   (EVar vMt) + #9 * (#277 + #63 * EConst CS2 - #140 * EConst Cz2) * EPow P4 (EVar vMst2) * EPow P4 (EVar vs2t)) -
   #294 * EPow P2 (EVar vMst2) * (- #8 * (#77657 + #202500 * EConst CS2 - #55800 * EConst Cz2) * EPow P2 (EVar vMst2)
   * EPow P2 (EVar vMt) * EPow P2 (EVar vs2t) + #200 * EVar vMst2 * EVar vs2t * (- #11408 + #37341 * EConst CS2 -
   #17730 * EConst Cz2) * EPow P3 (EVar vMt) - #300 * EVar vMt * (- #503 + #3609 * EConst CS2 - #1494 * EConst Cz2) *
   EPow P3 (EVar vMst2) * EPow P3 (EVar vs2t) - #48 * (#8581 + #72450 * EConst CS2 - #137700 * EConst Cz2) * EPow P4
   (EVar vMt) + (- #81643 + #291600 * EConst CS2 + #5850 * EConst Cz2) * EPow P4 (EVar vMst2) * EPow P4 (EVar vs2t)) *
   EPow P6 (EVar vMst1) + #132300 * EPow P2 (EVar vMst1) * (- #536 * EPow P2 (EVar vMst2) * EPow P2 (EVar vMt) * EPow
   P2 (EVar vs2t) - #512 * EVar vMst2 * EVar vs2t * EPow P3 (EVar vMt) + #128 * EVar vMt * EPow P3 (EVar vMst2) * EPow
   P3 (EVar vs2t) + #560 * EPow P4 (EVar vMt) + #131 * EPow P4 (EVar vMst2) * EPow P4 (EVar vs2t)) * EPow P6 (EVar
   vMst2) + (#72 * (- #4261807 + #33912900 * EConst CS2 - #73500 * EConst Cz2) * EPow P2 (EVar vMst2) * EPow P2 (EVar
   vMt) * EPow P2 (EVar vs2t) - #78400 * EVar vMst2 * EVar vs2t * (- #4724 + #115785 * EConst CS2 - #29484 * EConst
   Cz2) * EPow P3 (EVar vMt) + #4900 * EVar vMt * (#18652 + #140139 * EConst CS2 - #38826 * EConst Cz2) * EPow P3
   (EVar vMst2) * EPow P3 (EVar vs2t) + #80 * (#42300121 + #49233240 * EConst CS2 - #64139040 * EConst Cz2) * EPow P4
   (EVar vMt) + (#8287903 - #185175900 * EConst CS2 + #9525600 * EConst Cz2) * EPow P4 (EVar vMst2) * EPow P4 (EVar
   vs2t)) * EPow P8 (EVar vMst1) + #16934400 * EPow P2 (EVar vMt) * (- #2 * EPow P2 (EVar vMt) + EPow P2 (EVar vMst2)
   * EPow P2 (EVar vs2t)) * EPow P8 (EVar vMst2)) + #4 * EPow P2 (EVar vDmglst2) * (- #294 * EPow P4 (EVar vMst1) *
   EPow P4 (EVar vMst2) * (- #300 * (#13339 + #1134 * EConst CS2 - #9870 * EConst Cz2) * EPow P2 (EVar vMst2) * EPow
   P2 (EVar vMt) * EPow P2 (EVar vs2t) - #600 * EVar vMst2 * EVar vs2t * (#8618 + #63 * EConst CS2 - #3354 * EConst
   Cz2) * EPow P3 (EVar vMt) + #150 * EVar vMt * (- #3164 + #63 * EConst CS2 + #3978 * EConst Cz2) * EPow P3 (EVar
   vMst2) * EPow P3 (EVar vs2t) + #8 * (#50551 + #122850 * EConst CS2 - #149400 * EConst Cz2) * EPow P4 (EVar vMt) +
   #75 * (#3050 + #315 * EConst CS2 - #222 * EConst Cz2) * EPow P4 (EVar vMst2) * EPow P4 (EVar vs2t)) - #147 * EPow
   P2 (EVar vMst2) * (- #8 * (#463453 + #805950 * EConst CS2 - #632700 * EConst Cz2) * EPow P2 (EVar vMst2) * EPow P2
   (EVar vMt) * EPow P2 (EVar vs2t) - #3600 * EVar vMst2 * EVar vs2t * (#2555 + #4307 * EConst CS2 - #3542 * EConst
   Cz2) * EPow P3 (EVar vMt) + #200 * EVar vMt * (- #3449 + #13806 * EConst CS2 + #4392 * EConst Cz2) * EPow P3 (EVar
   vMst2) * EPow P3 (EVar vs2t) + #16 * (- #297379 + #2116350 * EConst CS2 - #1349100 * EConst Cz2) * EPow P4 (EVar
   vMt) + #3 * (- #165199 + #24000 * EConst CS2 + #20250 * EConst Cz2) * EPow P4 (EVar vMst2) * EPow P4 (EVar vs2t)) *
   EPow P6 (EVar vMst1) + #66150 * EPow P2 (EVar vMst1) * (- #664 * EPow P2 (EVar vMst2) * EPow P2 (EVar vMt) * EPow
   P2 (EVar vs2t) + #1024 * EVar vMst2 * EVar vs2t * EPow P3 (EVar vMt) - #256 * EVar vMt * EPow P3 (EVar vMst2) *
   EPow P3 (EVar vs2t) - #208 * EPow P4 (EVar vMt) + #211 * EPow P4 (EVar vMst2) * EPow P4 (EVar vs2t)) * EPow P6
   (EVar vMst2) + (#72 * (- #4261807 + #33912900 * EConst CS2 - #73500 * EConst Cz2) * EPow P2 (EVar vMst2) * EPow P2
   (EVar vMt) * EPow P2 (EVar vs2t) - #78400 * EVar vMst2 * EVar vs2t * (- #4724 + #115785 * EConst CS2 - #29484 *
   EConst Cz2) * EPow P3 (EVar vMt) + #4900 * EVar vMt * (#18652 + #140139 * EConst CS2 - #38826 * EConst Cz2) * EPow
   P3 (EVar vMst2) * EPow P3 (EVar vs2t) + #80 * (#42300121 + #49233240 * EConst CS2 - #64139040 * EConst Cz2) * EPow
   P4 (EVar vMt) + (#8287903 - #185175900 * EConst CS2 + #9525600 * EConst Cz2) * EPow P4 (EVar vMst2) * EPow P4 (EVar
   vs2t)) * EPow P8 (EVar vMst1) + #1058400 * (#8 * EPow P2 (EVar vMst2) * EPow P2 (EVar vMt) * EPow P2 (EVar vs2t) -
   #16 * EPow P4 (EVar vMt) + EPow P4 (EVar vMst2) * EPow P4 (EVar vs2t)) * EPow P8 (EVar vMst2)))) - #1587600 * EPow
   P2 (ELog (EPow P2 (EVar vMst1) / EPow P2 (EVar vMst2))) * (EPow P4 (EVar vMsq) * (#2 * EVar vDmglst2 * EVar vMgl *
   (- #140 * EPow P4 (EVar vMst1) * EPow P4 (EVar vMst2) * (#1806 * EPow P2 (EVar vMst2) * EPow P2 (EVar vMt) * EPow
   P2 (EVar vs2t) + #1592 * EVar vMst2 * EVar vs2t * EPow P3 (EVar vMt) + #1104 * EVar vMt * EPow P3 (EVar vMst2) *
   EPow P3 (EVar vs2t) - #3808 * EPow P4 (EVar vMt) + #213 * EPow P4 (EVar vMst2) * EPow P4 (EVar vs2t)) + #7 * EPow
   P2 (EVar vMst2) * (- #12992 * EPow P2 (EVar vMst2) * EPow P2 (EVar vMt) * EPow P2 (EVar vs2t) - #175520 * EVar
   vMst2 * EVar vs2t * EPow P3 (EVar vMt) + #3600 * EVar vMt * EPow P3 (EVar vMst2) * EPow P3 (EVar vs2t) + #285744 *
   EPow P4 (EVar vMt) + #4969 * EPow P4 (EVar vMst2) * EPow P4 (EVar vs2t)) * EPow P6 (EVar vMst1) - #105 * EPow P2
   (EVar vMst1) * (- #728 * EPow P2 (EVar vMst2) * EPow P2 (EVar vMt) * EPow P2 (EVar vs2t) - #1536 * EVar vMst2 *
   EVar vs2t * EPow P3 (EVar vMt) + #384 * EVar vMt * EPow P3 (EVar vMst2) * EPow P3 (EVar vs2t) + #944 * EPow P4
   (EVar vMt) + #187 * EPow P4 (EVar vMst2) * EPow P4 (EVar vs2t)) * EPow P6 (EVar vMst2) + (- #420096 * EPow P2 (EVar
   vMst2) * EPow P2 (EVar vMt) * EPow P2 (EVar vs2t) - #1672160 * EVar vMst2 * EVar vs2t * EPow P3 (EVar vMt) + #68880
   * EVar vMt * EPow P3 (EVar vMst2) * EPow P3 (EVar vs2t) + #3253120 * EPow P4 (EVar vMt) + #1377 * EPow P4 (EVar
   vMst2) * EPow P4 (EVar vs2t)) * EPow P8 (EVar vMst1) - #26880 * EPow P2 (EVar vMt) * (- #2 * EPow P2 (EVar vMt) +
   EPow P2 (EVar vMst2) * EPow P2 (EVar vs2t)) * EPow P8 (EVar vMst2)) - EPow P2 (EVar vMgl) * (#70 * EPow P4 (EVar
   vMst1) * EPow P4 (EVar vMst2) * (#3192 * EPow P2 (EVar vMst2) * EPow P2 (EVar vMt) * EPow P2 (EVar vs2t) - #14880 *
   EVar vMst2 * EVar vs2t * EPow P3 (EVar vMt) + #5664 * EVar vMt * EPow P3 (EVar vMst2) * EPow P3 (EVar vs2t) + #7744
   * EPow P4 (EVar vMt) + #1113 * EPow P4 (EVar vMst2) * EPow P4 (EVar vs2t)) + #560 * EPow P2 (EVar vMst2) * (#479 *
   EPow P2 (EVar vMst2) * EPow P2 (EVar vMt) * EPow P2 (EVar vs2t) - #2448 * EVar vMst2 * EVar vs2t * EPow P3 (EVar
   vMt) + #366 * EVar vMt * EPow P3 (EVar vMst2) * EPow P3 (EVar vs2t) + #1136 * EPow P4 (EVar vMt) + #23 * EPow P4
   (EVar vMst2) * EPow P4 (EVar vs2t)) * EPow P6 (EVar vMst1) + #105 * EPow P2 (EVar vMst1) * (- #600 * EPow P2 (EVar
   vMst2) * EPow P2 (EVar vMt) * EPow P2 (EVar vs2t) - #1024 * EVar vMst2 * EVar vs2t * EPow P3 (EVar vMt) + #256 *
   EVar vMt * EPow P3 (EVar vMst2) * EPow P3 (EVar vs2t) + #944 * EPow P4 (EVar vMt) + #123 * EPow P4 (EVar vMst2) *
   EPow P4 (EVar vs2t)) * EPow P6 (EVar vMst2) + #4 * (#73657 * EPow P2 (EVar vMst2) * EPow P2 (EVar vMt) * EPow P2
   (EVar vs2t) - #316400 * EVar vMst2 * EVar vs2t * EPow P3 (EVar vMt) + #35000 * EVar vMt * EPow P3 (EVar vMst2) *
   EPow P3 (EVar vs2t) + #68678 * EPow P4 (EVar vMt) + #11764 * EPow P4 (EVar vMst2) * EPow P4 (EVar vs2t)) * EPow P8
   (EVar vMst1) + #13440 * EPow P2 (EVar vMt) * (- #2 * EPow P2 (EVar vMt) + EPow P2 (EVar vMst2) * EPow P2 (EVar
   vs2t)) * EPow P8 (EVar vMst2)) + EPow P2 (EVar vDmglst2) * (#14 * EPow P4 (EVar vMst1) * EPow P4 (EVar vMst2) * (-
   #28380 * EPow P2 (EVar vMst2) * EPow P2 (EVar vMt) * EPow P2 (EVar vs2t) - #93600 * EVar vMst2 * EVar vs2t * EPow
   P3 (EVar vMt) - #3600 * EVar vMt * EPow P3 (EVar vMst2) * EPow P3 (EVar vs2t) + #9952 * EPow P4 (EVar vMt) + #195 *
   EPow P4 (EVar vMst2) * EPow P4 (EVar vs2t)) + #7 * EPow P2 (EVar vMst2) * (#107792 * EPow P2 (EVar vMst2) * EPow P2
   (EVar vMt) * EPow P2 (EVar vs2t) + #47200 * EVar vMst2 * EVar vs2t * EPow P3 (EVar vMt) + #32160 * EVar vMt * EPow
   P3 (EVar vMst2) * EPow P3 (EVar vs2t) - #695632 * EPow P4 (EVar vMt) + #14231 * EPow P4 (EVar vMst2) * EPow P4
   (EVar vs2t)) * EPow P6 (EVar vMst1) - #105 * EPow P2 (EVar vMst1) * (- #2696 * EPow P2 (EVar vMst2) * EPow P2 (EVar
   vMt) * EPow P2 (EVar vs2t) - #6144 * EVar vMst2 * EVar vs2t * EPow P3 (EVar vMt) + #1536 * EVar vMt * EPow P3 (EVar
   vMst2) * EPow P3 (EVar vs2t) + #2832 * EPow P4 (EVar vMt) + #817 * EPow P4 (EVar vMst2) * EPow P4 (EVar vs2t)) *
   EPow P6 (EVar vMst2) + #2 * (- #420096 * EPow P2 (EVar vMst2) * EPow P2 (EVar vMt) * EPow P2 (EVar vs2t) - #1672160
   * EVar vMst2 * EVar vs2t * EPow P3 (EVar vMt) + #68880 * EVar vMt * EPow P3 (EVar vMst2) * EPow P3 (EVar vs2t) +
   #3253120 * EPow P4 (EVar vMt) + #1377 * EPow P4 (EVar vMst2) * EPow P4 (EVar vs2t)) * EPow P8 (EVar vMst1) + #3360
   * (- #40 * EPow P2 (EVar vMst2) * EPow P2 (EVar vMt) * EPow P2 (EVar vs2t) + #80 * EPow P4 (EVar vMt) + #3 * EPow
   P4 (EVar vMst2) * EPow P4 (EVar vs2t)) * EPow P8 (EVar vMst2))) + #90 * EVar vDmsqst2 * EPow P2 (EVar vMsq) * EPow
   P4 (EVar vMst1) * (#2240 * EVar vDmglst2 * EVar vMgl * EVar vMst2 * EPow P2 (EVar vMst1) * (- (EVar vMst2 * EVar
   vMt) + #3 * EVar vs2t * EPow P2 (EVar vMst1)) * EPow P3 (EVar vMt) + #2240 * EVar vMst2 * EPow P2 (EVar vDmglst2) *
   EPow P2 (EVar vMst1) * (- (EVar vMst2 * EVar vMt) + #3 * EVar vs2t * EPow P2 (EVar vMst1)) * EPow P3 (EVar vMt) +
   EPow P2 (EVar vMgl) * (#2 * EPow P4 (EVar vMst1) * (#74 * EPow P2 (EVar vMst2) * EPow P2 (EVar vMt) * EPow P2 (EVar
   vs2t) - #1120 * EVar vMst2 * EVar vs2t * EPow P3 (EVar vMt) + #2736 * EPow P4 (EVar vMt) - #53 * EPow P4 (EVar
   vMst2) * EPow P4 (EVar vs2t)) - #7 * EPow P2 (EVar vMst1) * (- #48 * EPow P2 (EVar vMt) * EPow P2 (EVar vs2t) *
   EPow P4 (EVar vMst2) - #144 * EPow P2 (EVar vMst2) * EPow P4 (EVar vMt) + #31 * EPow P4 (EVar vs2t) * EPow P6 (EVar
   vMst2)) + #140 * (- #4 * EPow P4 (EVar vMst2) * EPow P4 (EVar vMt) + EPow P4 (EVar vs2t) * EPow P8 (EVar vMst2))))
   + #90 * EPow P2 (EVar vDmsqst2) * (#2240 * EVar vDmglst2 * EVar vMgl * EVar vMst2 * (- (EVar vMst2 * EVar vMt) + #3
   * EVar vs2t * EPow P2 (EVar vMst1)) * EPow P3 (EVar vMt) * EPow P6 (EVar vMst1) + #2240 * EVar vMst2 * EPow P2
   (EVar vDmglst2) * (- (EVar vMst2 * EVar vMt) + #3 * EVar vs2t * EPow P2 (EVar vMst1)) * EPow P3 (EVar vMt) * EPow
   P6 (EVar vMst1) + EPow P2 (EVar vMgl) * EPow P4 (EVar vMst1) * (EPow P4 (EVar vMst1) * (- #32 * EPow P2 (EVar
   vMst2) * EPow P2 (EVar vMt) * EPow P2 (EVar vs2t) - #2240 * EVar vMst2 * EVar vs2t * EPow P3 (EVar vMt) + #5472 *
   EPow P4 (EVar vMt) - #31 * EPow P4 (EVar vMst2) * EPow P4 (EVar vs2t)) - #35 * EPow P2 (EVar vMst1) * (- #4 * EPow
   P2 (EVar vMt) * EPow P2 (EVar vs2t) * EPow P4 (EVar vMst2) - #16 * EPow P2 (EVar vMst2) * EPow P4 (EVar vMt) + #5 *
   EPow P4 (EVar vs2t) * EPow P6 (EVar vMst2)) + #140 * (- #2 * EPow P4 (EVar vMst2) * EPow P4 (EVar vMt) + EPow P4
   (EVar vs2t) * EPow P8 (EVar vMst2)))))) / (#500094000 * EPow P2 (EVar vMgl) * EPow P4 (EVar vMsq) * EPow P4 (EVar
   vMst1) * EPow P4 (EVar vMst2) * EPow P4 (EVar vMt)).

(** H6bq2g2.cpp:4606-4740 *)
Definition H6bq2g2_coef1 : expr :=
  (- #450 * EPow P2 (ELog (EPow P2 (EVar vMst1) / EPow P2 (EVar vMst2))) * EPow P4 (EVar vMsq) * EPow P4 (EVar vMst1) *
   (EPow P2 (EVar vMgl) * (EPow P4 (EVar vMst2) * (- #296 * EPow P2 (EVar vMst2) * EPow P2 (EVar vMt) * EPow P2 (EVar
   vs2t) + #6784 * EVar vMst2 * EVar vs2t * EPow P3 (EVar vMt) - #2208 * EVar vMt * EPow P3 (EVar vMst2) * EPow P3
   (EVar vs2t) + #672 * EPow P4 (EVar vMt) - #519 * EPow P4 (EVar vMst2) * EPow P4 (EVar vs2t)) + EPow P4 (EVar vMst1)
   * (- #2688 * EPow P2 (EVar vMst2) * EPow P2 (EVar vMt) * EPow P2 (EVar vs2t) + #5056 * EVar vMst2 * EVar vs2t *
   EPow P3 (EVar vMt) - #1024 * EVar vMt * EPow P3 (EVar vMst2) * EPow P3 (EVar vs2t) + #2848 * EPow P4 (EVar vMt) -
   #41 * EPow P4 (EVar vMst2) * EPow P4 (EVar vs2t)) - #8 * EPow P2 (EVar vMst1) * EPow P2 (EVar vMst2) * (#425 * EPow
   P2 (EVar vMst2) * EPow P2 (EVar vMt) * EPow P2 (EVar vs2t) - #704 * EVar vMst2 * EVar vs2t * EPow P3 (EVar vMt) +
   #212 * EVar vMt * EPow P3 (EVar vMst2) * EPow P3 (EVar vs2t) - #76 * EPow P4 (EVar vMt) + #3 * EPow P4 (EVar vMst2)
   * EPow P4 (EVar vs2t))) + #8 * EVar vDmglst2 * EVar vMgl * (#8 * EVar vMt * (- #157 * EVar vMst2 * EVar vs2t * EPow
   P2 (EVar vMt) - #108 * EVar vMt * EPow P2 (EVar vMst2) * EPow P2 (EVar vs2t) + #398 * EPow P3 (EVar vMt) - #16 *
   EPow P3 (EVar vMst2) * EPow P3 (EVar vs2t)) * EPow P4 (EVar vMst1) + EPow P4 (EVar vMst2) * (- #320 * EPow P2 (EVar
   vMst2) * EPow P2 (EVar vMt) * EPow P2 (EVar vs2t) + #848 * EVar vMst2 * EVar vs2t * EPow P3 (EVar vMt) - #532 *
   EVar vMt * EPow P3 (EVar vMst2) * EPow P3 (EVar vs2t) + #512 * EPow P4 (EVar vMt) - #99 * EPow P4 (EVar vMst2) *
   EPow P4 (EVar vs2t)) + EPow P2 (EVar vMst1) * EPow P2 (EVar vMst2) * (- #768 * EPow P2 (EVar vMst2) * EPow P2 (EVar
   vMt) * EPow P2 (EVar vs2t) - #448 * EVar vMst2 * EVar vs2t * EPow P3 (EVar vMt) - #212 * EVar vMt * EPow P3 (EVar
   vMst2) * EPow P3 (EVar vs2t) + #1896 * EPow P4 (EVar vMt) + #35 * EPow P4 (EVar vMst2) * EPow P4 (EVar vs2t))) + #4
   * EPow P2 (EVar vDmglst2) * (#16 * EVar vMt * (- #157 * EVar vMst2 * EVar vs2t * EPow P2 (EVar vMt) - #108 * EVar
   vMt * EPow P2 (EVar vMst2) * EPow P2 (EVar vs2t) + #398 * EPow P3 (EVar vMt) - #16 * EPow P3 (EVar vMst2) * EPow P3
   (EVar vs2t)) * EPow P4 (EVar vMst1) + EPow P4 (EVar vMst2) * (- #960 * EPow P2 (EVar vMst2) * EPow P2 (EVar vMt) *
   EPow P2 (EVar vs2t) + #1696 * EVar vMst2 * EVar vs2t * EPow P3 (EVar vMt) - #1832 * EVar vMt * EPow P3 (EVar vMst2)
   * EPow P3 (EVar vs2t) + #1536 * EPow P4 (EVar vMt) - #297 * EPow P4 (EVar vMst2) * EPow P4 (EVar vs2t)) + EPow P2
   (EVar vMst1) * EPow P2 (EVar vMst2) * (- #2304 * EPow P2 (EVar vMst2) * EPow P2 (EVar vMt) * EPow P2 (EVar vs2t) +
   #256 * EVar vMst2 * EVar vs2t * EPow P3 (EVar vMt) - #424 * EVar vMt * EPow P3 (EVar vMst2) * EPow P3 (EVar vs2t) +
   #152 * EPow P4 (EVar vMt) + #105 * EPow P4 (EVar vMst2) * EPow P4 (EVar vs2t)))) + #3000 * EPow P2 (EVar vDmsqst2)
   * EPow P2 (EVar vMst1) * (#8 * EVar vDmglst2 * EVar vMgl * EVar vMst2 * EPow P2 (EVar vMst1) * EPow P3 (EVar vMt) *
   (#36 * EVar vMst2 * (EVar vMt * (#33 - #18 * EConst Cz2) + #2 * EVar vMst2 * EVar vs2t * (- #12 + #7 * EConst Cz2))
   * EPow P2 (EVar vMst1) + (EVar vMt * (#283 - #180 * EConst Cz2) + #12 * EVar vMst2 * EVar vs2t * (- #29 + #18 *
   EConst Cz2)) * EPow P3 (EVar vMst2) + #18 * EVar vs2t * (- #83 + #44 * EConst Cz2) * EPow P4 (EVar vMst1)) + #8 *
   EVar vMst2 * EPow P2 (EVar vDmglst2) * EPow P2 (EVar vMst1) * EPow P3 (EVar vMt) * (#36 * EVar vMst2 * (EVar vMt *
   (#33 - #18 * EConst Cz2) + #2 * EVar vMst2 * EVar vs2t * (- #12 + #7 * EConst Cz2)) * EPow P2 (EVar vMst1) + (EVar
   vMt * (#283 - #180 * EConst Cz2) + #12 * EVar vMst2 * EVar vs2t * (- #29 + #18 * EConst Cz2)) * EPow P3 (EVar
   vMst2) + #18 * EVar vs2t * (- #83 + #44 * EConst Cz2) * EPow P4 (EVar vMst1)) + EPow P2 (EVar vMgl) * (#9 * EPow P2
   (EVar vMst2) * EPow P4 (EVar vMst1) * (#8 * EPow P2 (EVar vMst2) * EPow P2 (EVar vMt) * EPow P2 (EVar vs2t) - #32 *
   EVar vMst2 * EVar vs2t * (- #7 + #4 * EConst Cz2) * EPow P3 (EVar vMt) + #16 * (- #16 + #9 * EConst Cz2) * EPow P4
   (EVar vMt) + EPow P4 (EVar vMst2) * EPow P4 (EVar vs2t)) + EPow P2 (EVar vMst1) * EPow P4 (EVar vMst2) * (- #144 *
   EPow P2 (EVar vMst2) * EPow P2 (EVar vMt) * EPow P2 (EVar vs2t) - #72 * EVar vMst2 * EVar vs2t * (- #19 + #12 *
   EConst Cz2) * EPow P3 (EVar vMt) + #2 * (- #545 + #252 * EConst Cz2) * EPow P4 (EVar vMt) + #9 * EPow P4 (EVar
   vMst2) * EPow P4 (EVar vs2t)) + #9 * (- #16 * EVar vMst2 * EVar vs2t * (- #9 + #4 * EConst Cz2) * EPow P3 (EVar
   vMt) + #8 * (- #31 + #12 * EConst Cz2) * EPow P4 (EVar vMt) - EPow P4 (EVar vMst2) * EPow P4 (EVar vs2t)) * EPow P6
   (EVar vMst1) - #9 * EPow P2 (- #4 * EPow P2 (EVar vMt) + EPow P2 (EVar vMst2) * EPow P2 (EVar vs2t)) * EPow P6
   (EVar vMst2))) + #3000 * EVar vDmsqst2 * EPow P2 (EVar vMsq) * EPow P2 (EVar vMst1) * (#8 * EVar vDmglst2 * EVar
   vMgl * EVar vMst2 * EPow P2 (EVar vMst1) * EPow P3 (EVar vMt) * (#36 * EVar vMst2 * (EVar vMt * (#33 - #18 * EConst
   Cz2) + #2 * EVar vMst2 * EVar vs2t * (- #12 + #7 * EConst Cz2)) * EPow P2 (EVar vMst1) + (EVar vMt * (#283 - #180 *
   EConst Cz2) + #12 * EVar vMst2 * EVar vs2t * (- #29 + #18 * EConst Cz2)) * EPow P3 (EVar vMst2) + #18 * EVar vs2t *
   (- #83 + #44 * EConst Cz2) * EPow P4 (EVar vMst1)) + #8 * EVar vMst2 * EPow P2 (EVar vDmglst2) * EPow P2 (EVar
   vMst1) * EPow P3 (EVar vMt) * (#36 * EVar vMst2 * (EVar vMt * (#33 - #18 * EConst Cz2) + #2 * EVar vMst2 * EVar
   vs2t * (- #12 + #7 * EConst Cz2)) * EPow P2 (EVar vMst1) + (EVar vMt * (#283 - #180 * EConst Cz2) + #12 * EVar
   vMst2 * EVar vs2t * (- #29 + #18 * EConst Cz2)) * EPow P3 (EVar vMst2) + #18 * EVar vs2t * (- #83 + #44 * EConst
   Cz2) * EPow P4 (EVar vMst1)) + #3 * EPow P2 (EVar vMgl) * (#3 * EPow P2 (EVar vMst2) * EPow P4 (EVar vMst1) * (#8 *
   EPow P2 (EVar vMst2) * EPow P2 (EVar vMt) * EPow P2 (EVar vs2t) - #64 * EVar vMst2 * EVar vs2t * (- #2 + EConst
   Cz2) * EPow P3 (EVar vMt) + #16 * (- #9 + #4 * EConst Cz2) * EPow P4 (EVar vMt) + EPow P4 (EVar vMst2) * EPow P4
   (EVar vs2t)) + EPow P2 (EVar vMst1) * EPow P4 (EVar vMst2) * (- #48 * EPow P2 (EVar vMst2) * EPow P2 (EVar vMt) *
   EPow P2 (EVar vs2t) - #96 * EVar vMst2 * EVar vs2t * (- #3 + #2 * EConst Cz2) * EPow P3 (EVar vMt) + #32 * (- #8 +
   #3 * EConst Cz2) * EPow P4 (EVar vMt) + #3 * EPow P4 (EVar vMst2) * EPow P4 (EVar vs2t)) + #3 * (- #16 * EVar vMst2
   * EVar vs2t * (- #9 + #4 * EConst Cz2) * EPow P3 (EVar vMt) + #8 * (- #31 + #12 * EConst Cz2) * EPow P4 (EVar vMt)
   - EPow P4 (EVar vMst2) * EPow P4 (EVar vs2t)) * EPow P6 (EVar vMst1) - #3 * EPow P2 (- #4 * EPow P2 (EVar vMt) +
   EPow P2 (EVar vMst2) * EPow P2 (EVar vs2t)) * EPow P6 (EVar vMst2))) + EPow P4 (EVar vMsq) * (- #100 * EVar
   vDmglst2 * EVar vMgl * (#2 * EPow P4 (EVar vMst1) * EPow P4 (EVar vMst2) * (#12 * (- #3565 + #1728 * EConst Cz2) *
   EPow P2 (EVar vMst2) * EPow P2 (EVar vMt) * EPow P2 (EVar vs2t) + #8 * EVar vMst2 * EVar vs2t * (- #3659 + #252 *
   EConst Cz2) * EPow P3 (EVar vMt) + #72 * EVar vMt * (- #192 + #91 * EConst Cz2) * EPow P3 (EVar vMst2) * EPow P3
   (EVar vs2t) + #44 * (#427 + #432 * EConst Cz2) * EPow P4 (EVar vMt) + #9 * (#211 - #86 * EConst Cz2) * EPow P4
   (EVar vMst2) * EPow P4 (EVar vs2t)) + #6 * EPow P2 (EVar vMst2) * (#4 * (- #1955 + #1152 * EConst Cz2) * EPow P2
   (EVar vMst2) * EPow P2 (EVar vMt) * EPow P2 (EVar vs2t) - #48 * EVar vMst2 * EVar vs2t * (- #13 + #262 * EConst
   Cz2) * EPow P3 (EVar vMt) + #24 * EVar vMt * (#111 - #17 * EConst Cz2) * EPow P3 (EVar vMst2) * EPow P3 (EVar vs2t)
   + #8 * (- #1471 + #3240 * EConst Cz2) * EPow P4 (EVar vMt) + #3 * (- #1 + #86 * EConst Cz2) * EPow P4 (EVar vMst2)
   * EPow P4 (EVar vs2t)) * EPow P6 (EVar vMst1) - #18 * EPow P2 (EVar vMst1) * (- #536 * EPow P2 (EVar vMst2) * EPow
   P2 (EVar vMt) * EPow P2 (EVar vs2t) - #512 * EVar vMst2 * EVar vs2t * EPow P3 (EVar vMt) + #128 * EVar vMt * EPow
   P3 (EVar vMst2) * EPow P3 (EVar vs2t) + #560 * EPow P4 (EVar vMt) + #131 * EPow P4 (EVar vMst2) * EPow P4 (EVar
   vs2t)) * EPow P6 (EVar vMst2) + #3 * (#192 * (- #77 + #48 * EConst Cz2) * EPow P2 (EVar vMst2) * EPow P2 (EVar vMt)
   * EPow P2 (EVar vs2t) - #48 * EVar vMst2 * EVar vs2t * (- #867 + #1012 * EConst Cz2) * EPow P3 (EVar vMt) - #276 *
   EVar vMt * EPow P3 (EVar vMst2) * EPow P3 (EVar vs2t) + #16 * (- #6445 + #6768 * EConst Cz2) * EPow P4 (EVar vMt) -
   #441 * EPow P4 (EVar vMst2) * EPow P4 (EVar vs2t)) * EPow P8 (EVar vMst1) - #2304 * EPow P2 (EVar vMt) * (- #2 *
   EPow P2 (EVar vMt) + EPow P2 (EVar vMst2) * EPow P2 (EVar vs2t)) * EPow P8 (EVar vMst2)) + #25 * EPow P2 (EVar
   vMgl) * (#4 * EPow P4 (EVar vMst1) * EPow P4 (EVar vMst2) * (- #72 * (- #445 + #96 * EConst Cz2) * EPow P2 (EVar
   vMst2) * EPow P2 (EVar vMt) * EPow P2 (EVar vs2t) - #144 * EVar vMst2 * EVar vs2t * (- #121 + #296 * EConst Cz2) *
   EPow P3 (EVar vMt) - #144 * EVar vMt * (- #151 + #19 * EConst Cz2) * EPow P3 (EVar vMst2) * EPow P3 (EVar vs2t) +
   #8 * (- #1993 + #2151 * EConst Cz2 + #216 * EConst Cz3) * EPow P4 (EVar vMt) + #81 * (#8 + #5 * EConst Cz2) * EPow
   P4 (EVar vMst2) * EPow P4 (EVar vs2t)) - #36 * EPow P2 (EVar vMst2) * (- #696 * EPow P2 (EVar vMst2) * EPow P2
   (EVar vMt) * EPow P2 (EVar vs2t) + #32 * EVar vMst2 * EVar vs2t * (- #179 + #128 * EConst Cz2) * EPow P3 (EVar vMt)
   + #16 * EVar vMt * (#148 - #17 * EConst Cz2) * EPow P3 (EVar vMst2) * EPow P3 (EVar vs2t) - #8 * (- #403 + #300 *
   EConst Cz2) * EPow P4 (EVar vMt) + (#551 + #86 * EConst Cz2) * EPow P4 (EVar vMst2) * EPow P4 (EVar vs2t)) * EPow
   P6 (EVar vMst1) + #36 * EPow P2 (EVar vMst1) * (- #744 * EPow P2 (EVar vMst2) * EPow P2 (EVar vMt) * EPow P2 (EVar
   vs2t) - #1024 * EVar vMst2 * EVar vs2t * EPow P3 (EVar vMt) + #256 * EVar vMt * EPow P3 (EVar vMst2) * EPow P3
   (EVar vs2t) + #1232 * EPow P4 (EVar vMt) + #141 * EPow P4 (EVar vMst2) * EPow P4 (EVar vs2t)) * EPow P6 (EVar
   vMst2) + #9 * (#864 * EPow P2 (EVar vMst2) * EPow P2 (EVar vMt) * EPow P2 (EVar vs2t) - #512 * EVar vMst2 * EVar
   vs2t * (- #49 + #31 * EConst Cz2) * EPow P3 (EVar vMt) - #784 * EVar vMt * EPow P3 (EVar vMst2) * EPow P3 (EVar
   vs2t) + #8 * (- #2503 + #1408 * EConst Cz2) * EPow P4 (EVar vMt) + (#1547 + #164 * EConst Cz2) * EPow P4 (EVar
   vMst2) * EPow P4 (EVar vs2t)) * EPow P8 (EVar vMst1) + #4608 * EPow P2 (EVar vMt) * (- #2 * EPow P2 (EVar vMt) +
   EPow P2 (EVar vMst2) * EPow P2 (EVar vs2t)) * EPow P8 (EVar vMst2)) - #4 * EPow P2 (EVar vDmglst2) * (- #2 * EPow
   P4 (EVar vMst1) * EPow P4 (EVar vMst2) * (- #150 * (- #14251 + #9792 * EConst Cz2) * EPow P2 (EVar vMst2) * EPow P2
   (EVar vMt) * EPow P2 (EVar vs2t) - #600 * EVar vMst2 * EVar vs2t * (- #2509 + #1278 * EConst Cz2) * EPow P3 (EVar
   vMt) - #300 * EVar vMt * (- #2027 + #1194 * EConst Cz2) * EPow P3 (EVar vMst2) * EPow P3 (EVar vs2t) + #4 * (#25949
   + #33300 * EConst Cz2) * EPow P4 (EVar vMt) + #75 * (- #838 + #387 * EConst Cz2) * EPow P4 (EVar vMst2) * EPow P4
   (EVar vs2t)) + #25 * EPow P2 (EVar vMst2) * (#12 * (- #11813 + #8064 * EConst Cz2) * EPow P2 (EVar vMst2) * EPow P2
   (EVar vMt) * EPow P2 (EVar vs2t) + #96 * EVar vMst2 * EVar vs2t * (- #1016 + #1395 * EConst Cz2) * EPow P3 (EVar
   vMt) - #24 * EVar vMt * (- #83 + #102 * EConst Cz2) * EPow P3 (EVar vMst2) * EPow P3 (EVar vs2t) - #64 * (#347 +
   #3330 * EConst Cz2) * EPow P4 (EVar vMt) + #3 * (- #415 + #774 * EConst Cz2) * EPow P4 (EVar vMst2) * EPow P4 (EVar
   vs2t)) * EPow P6 (EVar vMst1) - #225 * EPow P2 (EVar vMst1) * (- #408 * EPow P2 (EVar vMst2) * EPow P2 (EVar vMt) *
   EPow P2 (EVar vs2t) + #1024 * EVar vMst2 * EVar vs2t * EPow P3 (EVar vMt) - #256 * EVar vMt * EPow P3 (EVar vMst2)
   * EPow P3 (EVar vs2t) - #720 * EPow P4 (EVar vMt) + #179 * EPow P4 (EVar vMst2) * EPow P4 (EVar vs2t)) * EPow P6
   (EVar vMst2) + #75 * (#192 * (- #77 + #48 * EConst Cz2) * EPow P2 (EVar vMst2) * EPow P2 (EVar vMt) * EPow P2 (EVar
   vs2t) - #48 * EVar vMst2 * EVar vs2t * (- #867 + #1012 * EConst Cz2) * EPow P3 (EVar vMt) - #276 * EVar vMt * EPow
   P3 (EVar vMst2) * EPow P3 (EVar vs2t) + #16 * (- #6445 + #6768 * EConst Cz2) * EPow P4 (EVar vMt) - #441 * EPow P4
   (EVar vMst2) * EPow P4 (EVar vs2t)) * EPow P8 (EVar vMst1) - #3600 * (#8 * EPow P2 (EVar vMst2) * EPow P2 (EVar
   vMt) * EPow P2 (EVar vs2t) - #16 * EPow P4 (EVar vMt) + EPow P4 (EVar vMst2) * EPow P4 (EVar vs2t)) * EPow P8 (EVar
   vMst2))) - #30 * ELog (EPow P2 (EVar vMst1) / EPow P2 (EVar vMst2)) * (#1800 * EPow P2 (EVar vDmsqst2) * (#16 *
   EVar vDmglst2 * EVar vMgl * EVar vMst2 * (- (EVar vMst2 * EVar vMt) + #3 * EVar vs2t * EPow P2 (EVar vMst1)) * EPow
   P3 (EVar vMt) * EPow P6 (EVar vMst1) + #16 * EVar vMst2 * EPow P2 (EVar vDmglst2) * (- (EVar vMst2 * EVar vMt) + #3
   * EVar vs2t * EPow P2 (EVar vMst1)) * EPow P3 (EVar vMt) * EPow P6 (EVar vMst1) + EPow P2 (EVar vMgl) * EPow P4
   (EVar vMst1) * (#8 * (#5 * EVar vMt - #2 * EVar vMst2 * EVar vs2t) * EPow P3 (EVar vMt) * EPow P4 (EVar vMst1) - #4
   * EPow P4 (EVar vMst2) * EPow P4 (EVar vMt) + EPow P2 (EVar vMst1) * (#4 * EPow P2 (EVar vMst2) * EPow P4 (EVar
   vMt) - EPow P4 (EVar vs2t) * EPow P6 (EVar vMst2)) + EPow P4 (EVar vs2t) * EPow P8 (EVar vMst2))) + #1800 * EVar
   vDmsqst2 * EPow P2 (EVar vMsq) * EPow P4 (EVar vMst1) * (#16 * EVar vDmglst2 * EVar vMgl * EVar vMst2 * EPow P2
   (EVar vMst1) * (- (EVar vMst2 * EVar vMt) + #3 * EVar vs2t * EPow P2 (EVar vMst1)) * EPow P3 (EVar vMt) + #16 *
   EVar vMst2 * EPow P2 (EVar vDmglst2) * EPow P2 (EVar vMst1) * (- (EVar vMst2 * EVar vMt) + #3 * EVar vs2t * EPow P2
   (EVar vMst1)) * EPow P3 (EVar vMt) + EPow P2 (EVar vMgl) * (#8 * (#5 * EVar vMt - #2 * EVar vMst2 * EVar vs2t) *
   EPow P3 (EVar vMt) * EPow P4 (EVar vMst1) - #8 * EPow P4 (EVar vMst2) * EPow P4 (EVar vMt) + EPow P2 (EVar vMst1) *
   (#8 * EPow P2 (EVar vMst2) * EPow P4 (EVar vMt) - EPow P4 (EVar vs2t) * EPow P6 (EVar vMst2)) + EPow P4 (EVar vs2t)
   * EPow P8 (EVar vMst2))) + EPow P4 (EVar vMsq) * (#20 * EVar vDmglst2 * EVar vMgl * (- #4 * EPow P4 (EVar vMst1) *
   EPow P4 (EVar vMst2) * (#1860 * EPow P2 (EVar vMst2) * EPow P2 (EVar vMt) * EPow P2 (EVar vs2t) + #1472 * EVar
   vMst2 * EVar vs2t * EPow P3 (EVar vMt) + #774 * EVar vMt * EPow P3 (EVar vMst2) * EPow P3 (EVar vs2t) - #2464 *
   EPow P4 (EVar vMt) + #15 * EPow P4 (EVar vMst2) * EPow P4 (EVar vs2t)) + #2 * EPow P2 (EVar vMst2) * (- #432 * EPow
   P2 (EVar vMst2) * EPow P2 (EVar vMt) * EPow P2 (EVar vs2t) - #11656 * EVar vMst2 * EVar vs2t * EPow P3 (EVar vMt) +
   #996 * EVar vMt * EPow P3 (EVar vMst2) * EPow P3 (EVar vs2t) + #18748 * EPow P4 (EVar vMt) + #207 * EPow P4 (EVar
   vMst2) * EPow P4 (EVar vs2t)) * EPow P6 (EVar vMst1) - #3 * EPow P2 (EVar vMst1) * (- #856 * EPow P2 (EVar vMst2) *
   EPow P2 (EVar vMt) * EPow P2 (EVar vs2t) - #1536 * EVar vMst2 * EVar vs2t * EPow P3 (EVar vMt) + #384 * EVar vMt *
   EPow P3 (EVar vMst2) * EPow P3 (EVar vs2t) + #1200 * EPow P4 (EVar vMt) + #203 * EPow P4 (EVar vMst2) * EPow P4
   (EVar vs2t)) * EPow P6 (EVar vMst2) + #4 * (- #738 * EPow P2 (EVar vMst2) * EPow P2 (EVar vMt) * EPow P2 (EVar
   vs2t) - #10004 * EVar vMst2 * EVar vs2t * EPow P3 (EVar vMt) + #135 * EVar vMt * EPow P3 (EVar vMst2) * EPow P3
   (EVar vs2t) + #17532 * EPow P4 (EVar vMt) + #12 * EPow P4 (EVar vMst2) * EPow P4 (EVar vs2t)) * EPow P8 (EVar
   vMst1) - #768 * EPow P2 (EVar vMt) * (- #2 * EPow P2 (EVar vMt) + EPow P2 (EVar vMst2) * EPow P2 (EVar vs2t)) *
   EPow P8 (EVar vMst2)) - #5 * EPow P2 (EVar vMgl) * (#4 * EPow P4 (EVar vMst1) * EPow P4 (EVar vMst2) * (#3372 *
   EPow P2 (EVar vMst2) * EPow P2 (EVar vMt) * EPow P2 (EVar vs2t) - #9024 * EVar vMst2 * EVar vs2t * EPow P3 (EVar
   vMt) + #3912 * EVar vMt * EPow P3 (EVar vMst2) * EPow P3 (EVar vs2t) + #6112 * EPow P4 (EVar vMt) + #579 * EPow P4
   (EVar vMst2) * EPow P4 (EVar vs2t)) - #24 * EPow P2 (EVar vMst2) * (- #534 * EPow P2 (EVar vMst2) * EPow P2 (EVar
   vMt) * EPow P2 (EVar vs2t) + #1824 * EVar vMst2 * EVar vs2t * EPow P3 (EVar vMt) - #60 * EVar vMt * EPow P3 (EVar
   vMst2) * EPow P3 (EVar vs2t) - #934 * EPow P4 (EVar vMt) + #97 * EPow P4 (EVar vMst2) * EPow P4 (EVar vs2t)) * EPow
   P6 (EVar vMst1) + #6 * EPow P2 (EVar vMst1) * (- #728 * EPow P2 (EVar vMst2) * EPow P2 (EVar vMt) * EPow P2 (EVar
   vs2t) - #1024 * EVar vMst2 * EVar vs2t * EPow P3 (EVar vMt) + #256 * EVar vMt * EPow P3 (EVar vMst2) * EPow P3
   (EVar vs2t) + #1200 * EPow P4 (EVar vMt) + #139 * EPow P4 (EVar vMst2) * EPow P4 (EVar vs2t)) * EPow P6 (EVar
   vMst2) + #3 * (#4640 * EPow P2 (EVar vMst2) * EPow P2 (EVar vMt) * EPow P2 (EVar vs2t) - #15296 * EVar vMst2 * EVar
   vs2t * EPow P3 (EVar vMt) + #240 * EVar vMt * EPow P3 (EVar vMst2) * EPow P3 (EVar vs2t) + #7128 * EPow P4 (EVar
   vMt) - #279 * EPow P4 (EVar vMst2) * EPow P4 (EVar vs2t)) * EPow P8 (EVar vMst1) + #768 * EPow P2 (EVar vMt) * (-
   #2 * EPow P2 (EVar vMt) + EPow P2 (EVar vMst2) * EPow P2 (EVar vs2t)) * EPow P8 (EVar vMst2)) + #2 * EPow P2 (EVar
   vDmglst2) * (#2 * EPow P4 (EVar vMst1) * EPow P4 (EVar vMst2) * (- #40440 * EPow P2 (EVar vMst2) * EPow P2 (EVar
   vMt) * EPow P2 (EVar vs2t) - #75360 * EVar vMst2 * EVar vs2t * EPow P3 (EVar vMt) - #5760 * EVar vMt * EPow P3
   (EVar vMst2) * EPow P3 (EVar vs2t) + #11872 * EPow P4 (EVar vMt) + #4335 * EPow P4 (EVar vMst2) * EPow P4 (EVar
   vs2t)) + #2 * EPow P2 (EVar vMst2) * (#29760 * EPow P2 (EVar vMst2) * EPow P2 (EVar vMt) * EPow P2 (EVar vs2t) +
   #31000 * EVar vMst2 * EVar vs2t * EPow P3 (EVar vMt) + #15840 * EVar vMt * EPow P3 (EVar vMst2) * EPow P3 (EVar
   vs2t) - #228452 * EPow P4 (EVar vMt) + #1065 * EPow P4 (EVar vMst2) * EPow P4 (EVar vs2t)) * EPow P6 (EVar vMst1) -
   #15 * EPow P2 (EVar vMst1) * (- #3080 * EPow P2 (EVar vMst2) * EPow P2 (EVar vMt) * EPow P2 (EVar vs2t) - #6144 *
   EVar vMst2 * EVar vs2t * EPow P3 (EVar vMt) + #1536 * EVar vMt * EPow P3 (EVar vMst2) * EPow P3 (EVar vs2t) + #3600
   * EPow P4 (EVar vMt) + #865 * EPow P4 (EVar vMst2) * EPow P4 (EVar vs2t)) * EPow P6 (EVar vMst2) + #40 * (- #738 *
   EPow P2 (EVar vMst2) * EPow P2 (EVar vMt) * EPow P2 (EVar vs2t) - #10004 * EVar vMst2 * EVar vs2t * EPow P3 (EVar
   vMt) + #135 * EVar vMt * EPow P3 (EVar vMst2) * EPow P3 (EVar vs2t) + #17532 * EPow P4 (EVar vMt) + #12 * EPow P4
   (EVar vMst2) * EPow P4 (EVar vs2t)) * EPow P8 (EVar vMst1) + #480 * (- #40 * EPow P2 (EVar vMst2) * EPow P2 (EVar
   vMt) * EPow P2 (EVar vs2t) + #80 * EPow P4 (EVar vMt) + #3 * EPow P4 (EVar vMst2) * EPow P4 (EVar vs2t)) * EPow P8
   (EVar vMst2))))) / (#1350 * EPow P2 (EVar vMgl) * EPow P4 (EVar vMsq) * EPow P4 (EVar vMst1) * EPow P4 (EVar vMst2)
   * EPow P4 (EVar vMt)).

(** H6bq2g2.cpp:4745-4800 *)
Definition H6bq2g2_coef2 : expr :=
  (- #30 * ELog (EPow P2 (EVar vMst1) / EPow P2 (EVar vMst2)) * EPow P4 (EVar vMsq) * EPow P4 (EVar vMst1) * (EPow P2
   (EVar vMgl) * (- #4 * EPow P4 (EVar vMst2) * (#14 * EPow P2 (EVar vMst2) * EPow P2 (EVar vMt) * EPow P2 (EVar vs2t)
   - #456 * EVar vMst2 * EVar vs2t * EPow P3 (EVar vMt) + #146 * EVar vMt * EPow P3 (EVar vMst2) * EPow P3 (EVar vs2t)
   - #166 * EPow P4 (EVar vMt) + #33 * EPow P4 (EVar vMst2) * EPow P4 (EVar vs2t)) + EPow P4 (EVar vMst1) * (- #768 *
   EPow P2 (EVar vMst2) * EPow P2 (EVar vMt) * EPow P2 (EVar vs2t) + #1216 * EVar vMst2 * EVar vs2t * EPow P3 (EVar
   vMt) + #400 * EPow P4 (EVar vMt) + #41 * EPow P4 (EVar vMst2) * EPow P4 (EVar vs2t)) + EPow P2 (EVar vMst1) * EPow
   P2 (EVar vMst2) * (- #1096 * EPow P2 (EVar vMst2) * EPow P2 (EVar vMt) * EPow P2 (EVar vs2t) + #1280 * EVar vMst2 *
   EVar vs2t * EPow P3 (EVar vMt) - #328 * EVar vMt * EPow P3 (EVar vMst2) * EPow P3 (EVar vs2t) + #32 * EPow P4 (EVar
   vMt) + #91 * EPow P4 (EVar vMst2) * EPow P4 (EVar vs2t))) + #2 * EVar vDmglst2 * EVar vMgl * (#32 * EPow P2 (EVar
   vMt) * (- #57 * EVar vMst2 * EVar vMt * EVar vs2t + #119 * EPow P2 (EVar vMt) - #24 * EPow P2 (EVar vMst2) * EPow
   P2 (EVar vs2t)) * EPow P4 (EVar vMst1) + EPow P4 (EVar vMst2) * (- #384 * EPow P2 (EVar vMst2) * EPow P2 (EVar vMt)
   * EPow P2 (EVar vs2t) + #912 * EVar vMst2 * EVar vs2t * EPow P3 (EVar vMt) - #548 * EVar vMt * EPow P3 (EVar vMst2)
   * EPow P3 (EVar vs2t) + #512 * EPow P4 (EVar vMt) - #91 * EPow P4 (EVar vMst2) * EPow P4 (EVar vs2t)) + EPow P2
   (EVar vMst1) * EPow P2 (EVar vMst2) * (- #768 * EPow P2 (EVar vMst2) * EPow P2 (EVar vMt) * EPow P2 (EVar vs2t) -
   #640 * EVar vMst2 * EVar vs2t * EPow P3 (EVar vMt) - #164 * EVar vMt * EPow P3 (EVar vMst2) * EPow P3 (EVar vs2t) +
   #2016 * EPow P4 (EVar vMt) + #91 * EPow P4 (EVar vMst2) * EPow P4 (EVar vs2t))) + EPow P2 (EVar vDmglst2) * (#64 *
   EPow P2 (EVar vMt) * (- #57 * EVar vMst2 * EVar vMt * EVar vs2t + #119 * EPow P2 (EVar vMt) - #24 * EPow P2 (EVar
   vMst2) * EPow P2 (EVar vs2t)) * EPow P4 (EVar vMst1) + EPow P4 (EVar vMst2) * (- #1152 * EPow P2 (EVar vMst2) *
   EPow P2 (EVar vMt) * EPow P2 (EVar vs2t) + #1824 * EVar vMst2 * EVar vs2t * EPow P3 (EVar vMt) - #1864 * EVar vMt *
   EPow P3 (EVar vMst2) * EPow P3 (EVar vs2t) + #1536 * EPow P4 (EVar vMt) - #273 * EPow P4 (EVar vMst2) * EPow P4
   (EVar vs2t)) + EPow P2 (EVar vMst1) * (- #2304 * EPow P2 (EVar vMt) * EPow P2 (EVar vs2t) * EPow P4 (EVar vMst2) +
   #32 * EPow P2 (EVar vMst2) * EPow P4 (EVar vMt) - #328 * EVar vMt * EPow P3 (EVar vs2t) * EPow P5 (EVar vMst2) +
   #273 * EPow P4 (EVar vs2t) * EPow P6 (EVar vMst2)))) - #10 * EVar vDmglst2 * EVar vMgl * EPow P4 (EVar vMsq) *
   (EPow P4 (EVar vMst1) * EPow P4 (EVar vMst2) * (- #8208 * EPow P2 (EVar vMst2) * EPow P2 (EVar vMt) * EPow P2 (EVar
   vs2t) - #4640 * EVar vMst2 * EVar vs2t * EPow P3 (EVar vMt) - #1968 * EVar vMt * EPow P3 (EVar vMst2) * EPow P3
   (EVar vs2t) + #4816 * EPow P4 (EVar vMt) + #849 * EPow P4 (EVar vMst2) * EPow P4 (EVar vs2t)) - #3 * EPow P2 (EVar
   vMst2) * (- #472 * EPow P2 (EVar vMst2) * EPow P2 (EVar vMt) * EPow P2 (EVar vs2t) + #2496 * EVar vMst2 * EVar vs2t
   * EPow P3 (EVar vMt) - #1040 * EVar vMt * EPow P3 (EVar vMst2) * EPow P3 (EVar vs2t) - #3360 * EPow P4 (EVar vMt) +
   #37 * EPow P4 (EVar vMst2) * EPow P4 (EVar vs2t)) * EPow P6 (EVar vMst1) - #3 * EPow P2 (EVar vMst1) * (- #984 *
   EPow P2 (EVar vMst2) * EPow P2 (EVar vMt) * EPow P2 (EVar vs2t) - #1536 * EVar vMst2 * EVar vs2t * EPow P3 (EVar
   vMt) + #384 * EVar vMt * EPow P3 (EVar vMst2) * EPow P3 (EVar vs2t) + #1456 * EPow P4 (EVar vMt) + #219 * EPow P4
   (EVar vMst2) * EPow P4 (EVar vs2t)) * EPow P6 (EVar vMst2) + #3 * (- #2240 * EVar vMst2 * EVar vs2t * EPow P3 (EVar
   vMt) + #3744 * EPow P4 (EVar vMt) - #59 * EPow P4 (EVar vMst2) * EPow P4 (EVar vs2t)) * EPow P8 (EVar vMst1) - #768
   * EPow P2 (EVar vMt) * (- #2 * EPow P2 (EVar vMt) + EPow P2 (EVar vMst2) * EPow P2 (EVar vs2t)) * EPow P8 (EVar
   vMst2)) + EPow P2 (EVar vDmglst2) * EPow P4 (EVar vMsq) * (EPow P4 (EVar vMst1) * EPow P4 (EVar vMst2) * (#115440 *
   EPow P2 (EVar vMst2) * EPow P2 (EVar vMt) * EPow P2 (EVar vs2t) + #98880 * EVar vMst2 * EVar vs2t * EPow P3 (EVar
   vMt) + #19680 * EVar vMt * EPow P3 (EVar vMst2) * EPow P3 (EVar vs2t) - #29264 * EPow P4 (EVar vMt) - #18495 * EPow
   P4 (EVar vMst2) * EPow P4 (EVar vs2t)) + #5 * EPow P2 (EVar vMst2) * (- #2712 * EPow P2 (EVar vMst2) * EPow P2
   (EVar vMt) * EPow P2 (EVar vs2t) - #7680 * EVar vMst2 * EVar vs2t * EPow P3 (EVar vMt) - #8544 * EVar vMt * EPow P3
   (EVar vMst2) * EPow P3 (EVar vs2t) + #32224 * EPow P4 (EVar vMt) + #1101 * EPow P4 (EVar vMst2) * EPow P4 (EVar
   vs2t)) * EPow P6 (EVar vMst1) + #15 * EPow P2 (EVar vMst1) * (- #3464 * EPow P2 (EVar vMst2) * EPow P2 (EVar vMt) *
   EPow P2 (EVar vs2t) - #6144 * EVar vMst2 * EVar vs2t * EPow P3 (EVar vMt) + #1536 * EVar vMt * EPow P3 (EVar vMst2)
   * EPow P3 (EVar vs2t) + #4368 * EPow P4 (EVar vMt) + #913 * EPow P4 (EVar vMst2) * EPow P4 (EVar vs2t)) * EPow P6
   (EVar vMst2) - #30 * (- #2240 * EVar vMst2 * EVar vs2t * EPow P3 (EVar vMt) + #3744 * EPow P4 (EVar vMt) - #59 *
   EPow P4 (EVar vMst2) * EPow P4 (EVar vs2t)) * EPow P8 (EVar vMst1) - #480 * (- #40 * EPow P2 (EVar vMst2) * EPow P2
   (EVar vMt) * EPow P2 (EVar vs2t) + #80 * EPow P4 (EVar vMt) + #3 * EPow P4 (EVar vMst2) * EPow P4 (EVar vs2t)) *
   EPow P8 (EVar vMst2)) + #5 * EPow P2 (EVar vMgl) * (#720 * EPow P2 (EVar vDmsqst2) * EPow P4 (EVar vMst1) * EPow P4
   (EVar vMst2) * EPow P4 (EVar vMt) + #1440 * EVar vDmsqst2 * EPow P2 (EVar vMsq) * EPow P4 (EVar vMst1) * EPow P4
   (EVar vMst2) * EPow P4 (EVar vMt) + EPow P4 (EVar vMsq) * (EPow P4 (EVar vMst1) * EPow P4 (EVar vMst2) * (#8592 *
   EPow P2 (EVar vMst2) * EPow P2 (EVar vMt) * EPow P2 (EVar vs2t) - #4800 * EVar vMst2 * EVar vs2t * EPow P3 (EVar
   vMt) + #3936 * EVar vMt * EPow P3 (EVar vMst2) * EPow P3 (EVar vs2t) + #4256 * EPow P4 (EVar vMt) - #69 * EPow P4
   (EVar vMst2) * EPow P4 (EVar vs2t)) - #3 * EPow P2 (EVar vMst2) * (#600 * EPow P2 (EVar vMst2) * EPow P2 (EVar vMt)
   * EPow P2 (EVar vs2t) - #128 * EVar vMst2 * EVar vs2t * EPow P3 (EVar vMt) + #1568 * EVar vMt * EPow P3 (EVar
   vMst2) * EPow P3 (EVar vs2t) + #672 * EPow P4 (EVar vMt) + #355 * EPow P4 (EVar vMst2) * EPow P4 (EVar vs2t)) *
   EPow P6 (EVar vMst1) + #3 * EPow P2 (EVar vMst1) * (- #856 * EPow P2 (EVar vMst2) * EPow P2 (EVar vMt) * EPow P2
   (EVar vs2t) - #1024 * EVar vMst2 * EVar vs2t * EPow P3 (EVar vMt) + #256 * EVar vMt * EPow P3 (EVar vMst2) * EPow
   P3 (EVar vs2t) + #1456 * EPow P4 (EVar vMt) + #155 * EPow P4 (EVar vMst2) * EPow P4 (EVar vs2t)) * EPow P6 (EVar
   vMst2) + (#384 * EVar vMst2 * EVar vs2t * EPow P3 (EVar vMt) - #2400 * EPow P4 (EVar vMt) + #717 * EPow P4 (EVar
   vMst2) * EPow P4 (EVar vs2t)) * EPow P8 (EVar vMst1) + #384 * EPow P2 (EVar vMt) * (- #2 * EPow P2 (EVar vMt) +
   EPow P2 (EVar vMst2) * EPow P2 (EVar vs2t)) * EPow P8 (EVar vMst2)))) / (#45 * EPow P2 (EVar vMgl) * EPow P4 (EVar
   vMsq) * EPow P4 (EVar vMst1) * EPow P4 (EVar vMst2) * EPow P4 (EVar vMt)).

(** H6bq2g2.cpp:4805-4811 *)
Definition H6bq2g2_coef3 : expr :=
  - EDec 2986666666666667 13.

(** the constructor, H6bq2g2.cpp:39-72: value of each data member (members it does not assign are zero, H6bq2g2.hpp) *)
Definition H6bq2g2_ctor {T : Type} {N : Num T} (d : Depth) (a_Al4p a_beta a_Dmglst2 a_Dmsqst2 a_lmMt a_lmMst1 a_lmMst2
   a_Mgl a_Mt a_Mst1 a_Mst2 a_Msq a_MuSUSY a_s2t : T) (mdr f1 f2 f3 : Z) (v : hvar) : T :=
  match v with
  | vTbeta => ntan a_beta
  | vSbeta => nsin a_beta
  | vDmglst2 => a_Dmglst2
  | vDmsqst2 => a_Dmsqst2
  | vlmMt => a_lmMt
  | vlmMst1 => a_lmMst1
  | vlmMst2 => a_lmMst2
  | vMgl => a_Mgl
  | vMt => a_Mt
  | vMst1 => a_Mst1
  | vMst2 => a_Mst2
  | vMsq => a_Msq
  | vMuSUSY => a_MuSUSY
  | vs2t => a_s2t
  | voneLoopFlag => nint f1
  | vtwoLoopFlag => nint f2
  | vthreeLoopFlag => nint f3
  | vAl4p => a_Al4p
  | vshiftst1 => nint mdr
  | vshiftst2 => nint mdr
  | vshiftst3 => nint mdr
  | vxDR2DRMOD => nint mdr
  | vxDmglst2 => nint (x_Dmglst2 d)
  | vxDmsqst2 => nint (x_Dmsqst2 d)
  | vxMst => nint (x_Mst d)
  | _ => nint 0
  end.
