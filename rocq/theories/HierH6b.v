(** * Class H6b
    GENERATED by tools/gen_hier.py from source/himalaya/hierarchies/H6b.cpp (expressions are transcribed operator by operator;
    no subexpression is an integer division, and integer subexpressions stay below 2^31 when the flags are 0 or 1). *)
From Coq Require Import ZArith List.
From Verif Require Import Num HierExpr HierCalc.
Local Open Scope hx_scope.

(** H6b.cpp:73-410 *)
Definition H6b_getS1 : expr :=
  (EVar vTbeta * (#324 * EConst Cz2 * EPow P2 (EVar vMst1) * (#6 * EVar vAl4p * EPow P2 (EVar vMt) * EPow P2 (EVar
   vMuSUSY) * (- #6 * EVar vs2t * EVar vtwoLoopFlag * EPow P2 (EVar vMst1) * (#4 * EVar vMt * EPow P3 (EVar vMst2) *
   ((#9 * EVar vDmglst2 + EVar vMst2) * EPow P2 (EVar vMst1) * EPow P2 (EVar vMst2) + (#13 * EVar vDmglst2 + EVar
   vMst2) * EPow P4 (EVar vMst1) + #5 * EVar vDmglst2 * EPow P4 (EVar vMst2) + EPow P5 (EVar vMst2)) - EVar vs2t *
   EPow P4 (EVar vMst2) * (#4 * EVar vDmglst2 * (EPow P2 (EVar vMst1) * EPow P2 (EVar vMst2) + EPow P4 (EVar vMst1) +
   EPow P4 (EVar vMst2)) + EPow P5 (EVar vMst2)) + #2 * EVar vxMst * (- #2 * EVar vDmglst2 * EVar vMst2 * (- #17 *
   EVar vMt + EVar vMst2 * EVar vs2t) + (#48 * EVar vMt - EVar vMst2 * EVar vs2t) * EVar vxDmglst2 * EPow P2 (EVar
   vDmglst2) + #2 * EVar vMt * EPow P2 (EVar vMst2)) * EPow P6 (EVar vMst1)) + EVar vxDmglst2 * EPow P2 (EVar
   vDmglst2) * EPow P2 (EVar vMst2) * (#3240 * EVar vs2t * EVar vtwoLoopFlag * EPow P2 (EVar vMst1) * ((- #24 * EVar
   vMt + EVar vMst2 * EVar vs2t) * EPow P2 (EVar vMst1) * EPow P2 (EVar vMst2) + (- #36 * EVar vMt + EVar vMst2 * EVar
   vs2t) * EPow P4 (EVar vMst1) + (- #12 * EVar vMt + EVar vMst2 * EVar vs2t) * EPow P4 (EVar vMst2)) + EVar vAl4p *
   EVar vMst2 * EVar vthreeLoopFlag * (- #3 * EPow P2 (EVar vMst1) * EPow P2 (EVar vMst2) * (#8 * (#46987 + #15390 *
   EVar vlmMst1 + #4050 * EVar vlmMst2) * EVar vMst2 * EVar vMt * EVar vs2t + #192 * (#17 + #1320 * EVar vlmMst2) *
   EPow P2 (EVar vMt) + (- #40001 - #52560 * EVar vlmMst1 + #37080 * EVar vlmMst2) * EPow P2 (EVar vMst2) * EPow P2
   (EVar vs2t)) - #2 * (#5 * (- #184517 + #74952 * EVar vlmMst1 + #18360 * EVar vlmMst2) * EVar vMst2 * EVar vMt *
   EVar vs2t + #6 * (#12761 + #5400 * EVar vlmMst1 + #178920 * EVar vlmMst2) * EPow P2 (EVar vMt) + (#261247 - #163890
   * EVar vlmMst1 + #140670 * EVar vlmMst2) * EPow P2 (EVar vMst2) * EPow P2 (EVar vs2t)) * EPow P4 (EVar vMst1) +
   #28080 * EPow P2 (EVar vs2t) * EPow P6 (EVar vMst2))) / #270) + EVar vMt * EVar vthreeLoopFlag * EPow P2 (EVar
   vAl4p) * EPow P3 (EVar vMst2) * (#450 * EVar vs2t * EVar vxDmsqst2 * EPow P2 (EVar vDmsqst2) * (EVar vMt * EPow P2
   (EVar vMuSUSY) * (#6 * EVar vMst2 * (- #144 * (#3 + EVar vlmMst1 - EVar vlmMst2) * EVar vMt + (#209 + #18 * EVar
   vlmMst1 - #18 * EVar vlmMst2) * EVar vMst2 * EVar vs2t) * EPow P2 (EVar vMst1) + #8 * (#421 + #54 * EVar vlmMst1 -
   #54 * EVar vlmMst2) * EVar vs2t * EPow P4 (EVar vMst1) + #108 * EVar vs2t * EPow P4 (EVar vMst2)) + #27 * EVar vs2t
   * ((#51 - #6 * EVar vlmMst1 + #6 * EVar vlmMst2) * EVar vMt + #2 * (#11 + #10 * EVar vlmMst1 - #10 * EVar vlmMst2)
   * EVar vMst2 * EVar vs2t) * (- #1 + EPow P2 (EVar vSbeta)) * EPow P2 (EVar vSbeta) * EPow P6 (EVar vMst1)) + EVar
   vMt * (#2 * EPow P2 (EVar vMuSUSY) * (#27 * EPow P2 (EVar vMst1) * EPow P2 (EVar vMst2) * (#960 * EVar vMst2 * EVar
   vs2t * (#8 * (#2 - #3 * EVar vlmMst2) * EVar vMt + (#1 - #10 * EVar vlmMst1 + #12 * EVar vlmMst2) * EVar vMst2 *
   EVar vs2t) * EVar vxDmglst2 * EVar vxDR2DRMOD * EPow P2 (EVar vDmglst2) - EVar vDmglst2 * EVar vMt * EVar vs2t * (-
   #14400 * EVar vDmsqst2 * (#2 + #3 * EVar vlmMst1 - #3 * EVar vlmMst2) + (#173947 - #25080 * EVar vlmMst1 + #7680 *
   EVar vxDR2DRMOD + #360 * EVar vlmMst2 * (#191 + #64 * EVar vxDR2DRMOD)) * EPow P2 (EVar vMst2)) - #7680 * EVar
   vDmglst2 * (#5 + #6 * EVar vlmMst2) * EVar vMst2 * EPow P2 (EVar vMt) + #240 * EVar vDmglst2 * (#7 - #14 * EVar
   vlmMst1 + #30 * EVar vlmMst2) * EVar vxDR2DRMOD * EPow P2 (EVar vs2t) * EPow P3 (EVar vMst2) - #5 * EVar vMst2 *
   (EVar vMt * EVar vs2t * (#2880 * EVar vDmsqst2 * (#2 + EVar vlmMst1 - EVar vlmMst2) + #3 * (#2269 + #664 * EVar
   vlmMst1 + #512 * EVar vxDR2DRMOD + #8 * EVar vlmMst2 * (- #7 + #64 * EVar vxDR2DRMOD)) * EPow P2 (EVar vMst2)) +
   #64 * (#53 + #24 * EVar vlmMst2) * EVar vMst2 * EPow P2 (EVar vMt) + #48 * (#5 - #26 * EVar vlmMst1 + #18 * EVar
   vlmMst2) * EVar vxDR2DRMOD * EPow P2 (EVar vs2t) * EPow P3 (EVar vMst2))) + #36 * (- (EVar vDmglst2 * (EVar vMt *
   EVar vs2t * (#10800 * EVar vDmsqst2 * (#1 - #9 * EVar vlmMst1 + #9 * EVar vlmMst2) + (#364291 - #88560 * EVar
   vlmMst1 + #11520 * EVar vxDR2DRMOD + #1080 * EVar vlmMst2 * (#137 + #32 * EVar vxDR2DRMOD)) * EPow P2 (EVar vMst2))
   + #30 * (#3643 - #120 * EVar vlmMst1 + #3192 * EVar vlmMst2) * EVar vMst2 * EPow P2 (EVar vMt) + #360 * (#7 * EVar
   vlmMst1 - #15 * EVar vlmMst2) * EVar vxDR2DRMOD * EPow P2 (EVar vs2t) * EPow P3 (EVar vMst2))) + #5 * EVar vMst2 *
   (#288 * EVar vs2t * (- #8 * (- #2 + #3 * EVar vlmMst2) * EVar vMt + (- #2 - #5 * EVar vlmMst1 + #6 * EVar vlmMst2)
   * EVar vMst2 * EVar vs2t) * EVar vxDmglst2 * EVar vxDR2DRMOD * EPow P2 (EVar vDmglst2) + EVar vMt * EVar vs2t * (-
   #2160 * EVar vDmsqst2 * (#5 + #3 * EVar vlmMst1 - #3 * EVar vlmMst2) - #2 * (#3937 + #2988 * EVar vlmMst1 + #1152 *
   EVar vxDR2DRMOD + #72 * EVar vlmMst2 * (- #31 + #16 * EVar vxDR2DRMOD)) * EPow P2 (EVar vMst2)) - #3 * (- #353 +
   #72 * EVar vlmMst1 + #696 * EVar vlmMst2) * EVar vMst2 * EPow P2 (EVar vMt) + #72 * (#4 + #13 * EVar vlmMst1 - #9 *
   EVar vlmMst2) * EVar vxDR2DRMOD * EPow P2 (EVar vs2t) * EPow P3 (EVar vMst2))) * EPow P4 (EVar vMst1) + #2 * (-
   (EVar vMt * EVar vs2t * (#3 * EVar vMst2 * (#266863 + #396360 * EVar vlmMst1 + #103680 * EVar vxDR2DRMOD + #3240 *
   EVar vlmMst2 * (- #107 + #32 * EVar vxDR2DRMOD)) + EVar vDmglst2 * (#15057833 - #4014360 * EVar vlmMst1 + #311040 *
   EVar vxDR2DRMOD + #3240 * EVar vlmMst2 * (#1717 + #288 * EVar vxDR2DRMOD)))) + #45 * (#38401 + #1080 * EVar vlmMst1
   - #7992 * EVar vlmMst2) * EPow P2 (EVar vMt) + #6480 * EVar vMst2 * (EVar vDmglst2 * (- #7 * EVar vlmMst1 + #15 *
   EVar vlmMst2) + (#4 + #13 * EVar vlmMst1 - #9 * EVar vlmMst2) * EVar vMst2) * EVar vxDR2DRMOD * EPow P2 (EVar
   vs2t)) * EPow P6 (EVar vMst1) + #6480 * EVar vxDR2DRMOD * (#7 * EVar vDmglst2 * EVar vMst2 + #20 * EVar vxDmglst2 *
   EPow P2 (EVar vDmglst2) - #13 * EPow P2 (EVar vMst2)) * EPow P2 (EVar vs2t) * EPow P6 (EVar vMst2)) + EPow P2 (EVar
   vs2t) * (#300 * EVar vDmsqst2 * (EPow P2 (EVar vMuSUSY) * (- #27 * (#72 * EVar vDmglst2 * (#2 + EVar vlmMst1 - EVar
   vlmMst2) + EVar vMst2 * (#53 + #12 * (- #1 + #2 * EVar vlmMst1 - #2 * EVar vlmMst2) * EVar vshiftst1)) * EPow P2
   (EVar vMst1) * EPow P3 (EVar vMst2) - #9 * EVar vMst2 * (#72 * EVar vDmglst2 * (#3 + #8 * EVar vlmMst1 - #8 * EVar
   vlmMst2) + EVar vMst2 * (#1097 + #72 * (EVar vlmMst1 - EVar vlmMst2) * (- #1 + EVar vshiftst1))) * EPow P4 (EVar
   vMst1) + #324 * (- #2 * EVar vDmglst2 + EVar vMst2 + EVar vMst2 * EVar vshiftst1) * EPow P5 (EVar vMst2)) + (-
   ((#20701 + #648 * (EVar vlmMst1 - EVar vlmMst2) * (- #1 + EVar vshiftst1)) * EPow P2 (EVar vMuSUSY)) + #162 * EVar
   vDmglst2 * (- #93 + #10 * EVar vlmMst1 - #10 * EVar vlmMst2) * EVar vMst2 * (- #1 + EPow P2 (EVar vSbeta)) * EPow
   P2 (EVar vSbeta)) * EPow P6 (EVar vMst1)) + EVar vMst2 * EPow P2 (EVar vMuSUSY) * (#4 * EVar vDmglst2 * (#162 *
   (#6803 - #1810 * EVar vlmMst1 + #2670 * EVar vlmMst2) * EPow P2 (EVar vMst2) * EPow P4 (EVar vMst1) - #135 * (#648
   * EVar vlmMst1 - #7 * (#233 + #240 * EVar vlmMst2)) * EPow P2 (EVar vMst1) * EPow P4 (EVar vMst2) + (#4256978 -
   #615600 * EVar vlmMst1 + #754920 * EVar vlmMst2) * EPow P6 (EVar vMst1) - #22680 * EPow P6 (EVar vMst2)) + #3 *
   EVar vMst2 * (- #6 * (#533629 - #1080 * EVar vshiftst3 + #180 * EVar vlmMst1 * (- #5 + #60 * EVar vshiftst1 + #12 *
   EVar vshiftst3) - #180 * EVar vlmMst2 * (- #1 + #60 * EVar vshiftst1 + #12 * EVar vshiftst3)) * EPow P2 (EVar
   vMst2) * EPow P4 (EVar vMst1) - #90 * (#5597 - #360 * EVar vshiftst1 - #72 * EVar vshiftst3 - #24 * EVar vlmMst2 *
   (#46 + #30 * EVar vshiftst1 + #3 * EVar vshiftst3) + #12 * EVar vlmMst1 * (#47 + #60 * EVar vshiftst1 + #6 * EVar
   vshiftst3)) * EPow P2 (EVar vMst1) * EPow P4 (EVar vMst2) - (#6649153 - #6480 * EVar vshiftst3 + #540 * EVar
   vlmMst1 * (- #151 + #120 * EVar vshiftst1 + #36 * EVar vshiftst3) - #540 * EVar vlmMst2 * (- #143 + #120 * EVar
   vshiftst1 + #36 * EVar vshiftst3)) * EPow P6 (EVar vMst1) + #1080 * (#19 + #30 * EVar vshiftst1 + #3 * EVar
   vshiftst3) * EPow P6 (EVar vMst2)))))) / #270) - EVar vMt * EVar vthreeLoopFlag * EPow P2 (EVar vAl4p) * EPow P3
   (EVar vMst2) * (- #75 * EConst Cz3 * EPow P4 (EVar vMst1) * (#45 * EVar vs2t * EVar vxDmsqst2 * EPow P2 (EVar
   vDmsqst2) * (EVar vMt * (#3456 * EVar vMst2 * EVar vMt - #30208 * EVar vs2t * EPow P2 (EVar vMst1) - #13209 * EVar
   vs2t * EPow P2 (EVar vMst2)) * EPow P2 (EVar vMuSUSY) - #216 * EVar vs2t * (- #3 * EVar vMt + #10 * EVar vMst2 *
   EVar vs2t) * (- #1 + EPow P2 (EVar vSbeta)) * EPow P2 (EVar vSbeta) * EPow P4 (EVar vMst1)) + EVar vMt * (- #12 *
   EVar vxDmglst2 * EPow P2 (EVar vDmglst2) * EPow P2 (EVar vMuSUSY) * (#8 * EPow P2 (EVar vMst1) * (- #161918 * EVar
   vMst2 * EVar vMt * EVar vs2t + #77334 * EPow P2 (EVar vMt) - #114571 * EPow P2 (EVar vMst2) * EPow P2 (EVar vs2t))
   - #3 * EPow P2 (EVar vMst2) * (#262184 * EVar vMst2 * EVar vMt * EVar vs2t - #87552 * EPow P2 (EVar vMt) + #122917
   * EPow P2 (EVar vMst2) * EPow P2 (EVar vs2t))) + #8 * EPow P2 (EVar vs2t) * (- #24300 * EVar vDmglst2 * EVar
   vDmsqst2 * EVar vMst2 * (- #1 + EPow P2 (EVar vSbeta)) * EPow P2 (EVar vSbeta) * EPow P4 (EVar vMst1) + EPow P2
   (EVar vMuSUSY) * (#30 * EVar vDmsqst2 * (#9 * EVar vMst2 * (#288 * EVar vDmglst2 + #35 * EVar vMst2) * EPow P2
   (EVar vMst1) + #27 * (#36 * EVar vDmglst2 - #23 * EVar vMst2) * EPow P3 (EVar vMst2) + #1771 * EPow P4 (EVar
   vMst1)) + EVar vMst2 * (EVar vDmglst2 * (#1052676 * EPow P2 (EVar vMst1) * EPow P2 (EVar vMst2) + #1412464 * EPow
   P4 (EVar vMst1) + #475605 * EPow P4 (EVar vMst2)) + #6 * EVar vMst2 * (#3 * (#35719 + #108 * EVar vlmMst1 - #108 *
   EVar vlmMst2) * EPow P2 (EVar vMst1) * EPow P2 (EVar vMst2) + #2 * (#91963 + #162 * EVar vlmMst1 - #162 * EVar
   vlmMst2) * EPow P4 (EVar vMst1) + #27 * (#1319 + #6 * EVar vlmMst1 - #6 * EVar vlmMst2) * EPow P4 (EVar
   vMst2))))))) + #18 * EVar vs2t * EVar vxDmsqst2 * EPow P2 (EVar vDmsqst2) * EPow P2 (EVar vMst1) * (- #300 * EVar
   vMt * (#2160 * (#3 + #2 * EVar vlmMst1 - #2 * EVar vlmMst2) * EVar vMst2 * EVar vMt * EPow P2 (EVar vMst1) + #270 *
   EVar vs2t * EVar vshiftst1 * (#2 * (EVar vlmMst1 - EVar vlmMst2) * EPow P2 (EVar vMst1) - EPow P2 (EVar vMst2)) *
   (EPow P2 (EVar vMst1) + EPow P2 (EVar vMst2)) + #40 * EVar vs2t * EConst CT1ep * EPow P2 (EVar vMst1) * (#14 * EPow
   P2 (EVar vMst1) + #3 * EPow P2 (EVar vMst2))) * EPow P2 (EVar vMuSUSY) + EVar vs2t * (#10125 * EPow P2 (EVar
   vSbeta) * (#2 * (#11 + #39 * EVar vlmMst1 - #39 * EVar vlmMst2) * EVar vMst2 * EVar vs2t * (- #1 + EPow P2 (EVar
   vSbeta)) + (#167 - #5 * EVar vlmMst1 + #5 * EVar vlmMst2) * EVar vMt * EPow P2 (EVar vSbeta)) * EPow P6 (EVar
   vMst1) + EVar vMt * (EPow P2 (EVar vMuSUSY) * (#375 * (#1925 + #64 * EConst COepS2 - #27864 * EConst CS2 - #72 *
   (EVar vlmMst1 - EVar vlmMst2) * (- #1 + #18 * EConst CS2)) * EPow P2 (EVar vMst1) * EPow P2 (EVar vMst2) + #2 * (#7
   * (- #46499 + #8000 * EConst COepS2 - #1728000 * EConst CS2) + #90 * EVar vlmMst2 * (- #2137 + #12600 * EConst CS2)
   - #90 * EVar vlmMst1 * (- #2137 + #1080 * EVar vlmMst2 + #12600 * EConst CS2) + #48600 * (EPow P2 (EVar vlmMst1) +
   EPow P2 (EVar vlmMst2))) * EPow P4 (EVar vMst1) + #162000 * EPow P4 (EVar vMst2)) + #10125 * (- #167 + #5 * EVar
   vlmMst1 - #5 * EVar vlmMst2) * EPow P2 (EVar vSbeta) * EPow P6 (EVar vMst1)))) + EVar vMt * (#50 * EPow P2 (EVar
   vs2t) * (#4860 * EVar vDmglst2 * EVar vDmsqst2 * (- #1081 + #165 * EVar vlmMst1 - #165 * EVar vlmMst2) * EVar vMst2
   * (- #1 + EPow P2 (EVar vSbeta)) * EPow P2 (EVar vSbeta) * EPow P8 (EVar vMst1) - EPow P2 (EVar vMuSUSY) * (#120 *
   EVar vDmsqst2 * (#1157625 * (#288 * EVar vDmglst2 * (#4 + EVar vlmMst1 - EVar vlmMst2) - EVar vMst2 * (#1141 - #32
   * EConst COepS2 - #4860 * EConst CS2 + #24 * EVar vlmMst1 * (#14 + #27 * EConst CS2 + #6 * EVar vlmMst2 * (- #1 +
   EVar vshiftst1) - #9 * EVar vshiftst1) - #24 * EVar vlmMst2 * (#11 + #27 * EConst CS2 - #6 * EVar vshiftst1) + #108
   * EVar vshiftst1 - #144 * (- #1 + EVar vshiftst1) * EPow P2 (EVar vlmMst2))) * EPow P3 (EVar vMst2) * EPow P4 (EVar
   vMst1) + #41674500 * (#12 * EVar vDmglst2 + EVar vMst2 + #2 * EVar vlmMst2 * EVar vMst2 * (- #1 + EVar vshiftst1) -
   #3 * EVar vMst2 * EVar vshiftst1) * EPow P2 (EVar vMst1) * EPow P5 (EVar vMst2) - #3087 * EVar vMst2 * (#13500 *
   EVar vDmglst2 * (#23 - #42 * EVar vlmMst1 + #42 * EVar vlmMst2) + EVar vMst2 * (#817051 - #52000 * EConst COepS2 -
   #229500 * EConst CS2 - #540 * EVar vlmMst2 * (#311 + #1950 * EConst CS2 - #150 * EVar vshiftst1) + #540 * EVar
   vlmMst1 * (#311 + #1950 * EConst CS2 - #150 * EVar vshiftst1 + #10 * EVar vlmMst2 * (#1 + #10 * EVar vshiftst1)) -
   #29700 * EPow P2 (EVar vlmMst1) + #2700 * (#9 - #20 * EVar vshiftst1) * EPow P2 (EVar vlmMst2))) * EPow P6 (EVar
   vMst1) - #5 * (#593331163 - #60642400 * EConst COepS2 + #1143733500 * EConst CS2 + #1260 * EVar vlmMst2 * (#8263 -
   #974610 * EConst CS2 + #39690 * EVar vshiftst1) - #1260 * EVar vlmMst1 * (#8263 - #974610 * EConst CS2 + #39690 *
   EVar vshiftst1 - #3780 * EVar vlmMst2 * (#19 + #7 * EVar vshiftst1)) - #61916400 * EPow P2 (EVar vlmMst1) -
   #4762800 * (#6 + #7 * EVar vshiftst1) * EPow P2 (EVar vlmMst2)) * EPow P8 (EVar vMst1)) - EVar vMst2 * (#4 * EVar
   vDmglst2 * (- #2315250 * (#14267 - #432 * EConst CB4 + #576 * EConst CD3 - #360 * EConst CDN + #4752 * EVar vlmMst1
   - #224 * EConst COepS2 + #324 * (- #1677 + #14 * EVar vlmMst1 - #14 * EVar vlmMst2) * EConst CS2 - #1404 * EPow P2
   (EVar vlmMst1) + #72 * EVar vlmMst2 * (- #63 - #232 * EVar vlmMst1 + #16 * EPow P2 (EVar vlmMst1)) - #72 * (- #281
   + #123 * EVar vlmMst1) * EPow P2 (EVar vlmMst2) + #7704 * EPow P3 (EVar vlmMst2)) * EPow P4 (EVar vMst1) * EPow P4
   (EVar vMst2) + #24696 * EPow P2 (EVar vMst2) * (- #2695042 + #40500 * EConst CB4 - #54000 * EConst CD3 + #33750 *
   EConst CDN + #326895 * EVar vlmMst1 + #294105 * EVar vlmMst2 + #1935450 * EVar vlmMst1 * EVar vlmMst2 + #258000 *
   EConst COepS2 + #105590250 * EConst CS2 - #5224500 * EVar vlmMst1 * EConst CS2 + #5224500 * EVar vlmMst2 * EConst
   CS2 + #324900 * EPow P2 (EVar vlmMst1) - #938250 * EVar vlmMst2 * EPow P2 (EVar vlmMst1) - #2260350 * EPow P2 (EVar
   vlmMst2) + #2524500 * EVar vlmMst1 * EPow P2 (EVar vlmMst2) - #11250 * EPow P3 (EVar vlmMst1) - #1575000 * EPow P3
   (EVar vlmMst2)) * EPow P6 (EVar vMst1) - #83349000 * (- #20 + #2 * (#99 + #16 * EVar vlmMst1) * EVar vlmMst2 + #123
   * EPow P2 (EVar vlmMst2)) * EPow P2 (EVar vMst1) * EPow P6 (EVar vMst2) + (- #219487237477 + #1000188000 * EConst
   CB4 - #1333584000 * EConst CD3 + #833490000 * EConst CDN + #25338520620 * EVar vlmMst1 - #6418297620 * EVar vlmMst2
   + #57402853200 * EVar vlmMst1 * EVar vlmMst2 + #23746576000 * EConst COepS2 + #3479135436000 * EConst CS2 -
   #480868164000 * EVar vlmMst1 * EConst CS2 + #480868164000 * EVar vlmMst2 * EConst CS2 + #6305153400 * EPow P2 (EVar
   vlmMst1) - #49175910000 * EVar vlmMst2 * EPow P2 (EVar vlmMst1) - #63708006600 * EPow P2 (EVar vlmMst2) +
   #109687284000 * EVar vlmMst1 * EPow P2 (EVar vlmMst2) + #1278018000 * EPow P3 (EVar vlmMst1) - #61789392000 * EPow
   P3 (EVar vlmMst2)) * EPow P8 (EVar vMst1) + #2667168000 * EVar vlmMst2 * (#1 + EVar vlmMst2) * EPow P8 (EVar
   vMst2)) + #3 * EVar vMst2 * (#1543500 * (#17297 + #1440 * EConst CB4 - #144 * EConst CD3 + #72 * EConst CDN +
   #20064 * EVar vlmMst1 - #2208 * EConst COepS2 + #972 * (#307 + #46 * EVar vlmMst1 - #46 * EVar vlmMst2) * EConst
   CS2 + #216 * (- #1 + EVar vlmMst1 - EVar vlmMst2) * (- #1 + #2 * EVar vlmMst2) * EVar vshiftst3 + #1908 * EPow P2
   (EVar vlmMst1) - #12 * EVar vlmMst2 * (#3508 - #1944 * EVar vlmMst1 + #117 * EPow P2 (EVar vlmMst1)) + #1080 * EVar
   vshiftst1 * (#1 + EVar vlmMst1 * (- #2 + #4 * EVar vlmMst2) - #4 * EPow P2 (EVar vlmMst2)) + #72 * (- #470 + #147 *
   EVar vlmMst1) * EPow P2 (EVar vlmMst2) + #576 * EPow P3 (EVar vlmMst1) - #9756 * EPow P3 (EVar vlmMst2)) * EPow P4
   (EVar vMst1) * EPow P4 (EVar vMst2) + #20580 * EPow P2 (EVar vMst2) * (#10552777 + #205200 * EConst CB4 - #5400 *
   EConst CDN + #4145280 * EVar vlmMst1 - #845600 * EConst COepS2 + #8100 * (#11243 + #2114 * EVar vlmMst1 - #2114 *
   EVar vlmMst2) * EConst CS2 + #162000 * (EVar vlmMst1 - EVar vlmMst2) * (- #1 + #2 * EVar vlmMst2) * EVar vshiftst1
   - #1181700 * EPow P2 (EVar vlmMst1) - #240 * EVar vlmMst2 * (#16192 - #26430 * EVar vlmMst1 + #3465 * EPow P2 (EVar
   vlmMst1)) + #16200 * EVar vshiftst3 * (#1 + EVar vlmMst1 * (- #2 + #4 * EVar vlmMst2) - #4 * EPow P2 (EVar
   vlmMst2)) + #900 * (- #5735 + #3072 * EVar vlmMst1) * EPow P2 (EVar vlmMst2) - #55800 * EPow P3 (EVar vlmMst1) -
   #1877400 * EPow P3 (EVar vlmMst2)) * EPow P6 (EVar vMst1) - #55566000 * (#103 + #32 * EVar vlmMst1 * (#1 + EVar
   vlmMst2) - #30 * EVar vshiftst1 - #3 * EVar vshiftst3 + #6 * EVar vlmMst2 * (#31 + #10 * EVar vshiftst1 + EVar
   vshiftst3) + #91 * EPow P2 (EVar vlmMst2)) * EPow P2 (EVar vMst1) * EPow P6 (EVar vMst2) + (#314145861731 +
   #4223016000 * EConst CB4 - #111132000 * EConst CDN + #7960477140 * EVar vlmMst1 - #36322328000 * EConst COepS2 +
   #18522000 * (#194357 + #39711 * EVar vlmMst1 - #39711 * EVar vlmMst2) * EConst CS2 + #3333960000 * (EVar vlmMst1 -
   EVar vlmMst2) * (- #1 + #2 * EVar vlmMst2) * EVar vshiftst1 + #333396000 * (- #1 + #3 * EVar vlmMst1 - #3 * EVar
   vlmMst2) * (- #1 + #2 * EVar vlmMst2) * EVar vshiftst3 - #105268993200 * EPow P2 (EVar vlmMst1) - #1260 * EVar
   vlmMst2 * (#4972789 - #230465340 * EVar vlmMst1 + #36250200 * EPow P2 (EVar vlmMst1)) + #3175200 * (- #58301 +
   #37135 * EVar vlmMst1) * EPow P2 (EVar vlmMst2) - #2444904000 * EPow P3 (EVar vlmMst1) - #69790896000 * EPow P3
   (EVar vlmMst2)) * EPow P8 (EVar vMst1) + #889056000 * EPow P2 (#1 + EVar vlmMst2) * EPow P8 (EVar vMst2)))) /
   #171500) - #10 * EPow P2 (EVar vMuSUSY) * (#30 * EPow P4 (EVar vMst1) * ((- #4 * EVar vMt * EVar vs2t * (- #3 *
   EVar vMst2 * (#3764 * EConst CT1ep + #99632 * EConst Cz3 + #11764 * EConst Cz4 - #20505 * EPow P2 (EConst Cz2)) +
   EVar vDmglst2 * (#65684 * EConst CT1ep - #1582324 * EConst Cz3 - #2636 * EConst Cz4 + #259215 * EPow P2 (EConst
   Cz2))) - EPow P2 (EVar vs2t) * (#13260 * EVar vDmsqst2 * (#4 * EConst CT1ep + #2 * EConst Cz4 + #3 * EPow P2
   (EConst Cz2)) + EVar vMst2 * (- #8 * EVar vDmglst2 * (#17308 * EConst CT1ep + #11327 * EConst Cz4 + #15897 * EPow
   P2 (EConst Cz2)) + #3 * EVar vMst2 * (#52948 * EConst CT1ep + #27446 * EConst Cz4 + #35823 * EPow P2 (EConst
   Cz2)))) - #3 * EPow P2 (EVar vMt) * (- #383185 + #2592 * EConst CB4 - #2592 * EConst CD3 + #1296 * EConst CDN +
   #187704 * EVar vlmMst1 - #374328 * EVar vlmMst2 + #136080 * EVar vlmMst1 * EVar vlmMst2 - #10368 * EVar vlmMt +
   #20736 * EVar vlmMst1 * EVar vlmMt - #20736 * EVar vlmMst2 * EVar vlmMt + #6912 * EVar vlmMst1 * EVar vlmMst2 *
   EVar vlmMt + #17440 * EConst COepS2 + #36936 * EConst CS2 - #353160 * EVar vlmMst1 * EConst CS2 + #353160 * EVar
   vlmMst2 * EConst CS2 - #26160 * EConst CT1ep - #18024 * EConst Cz3 - #24744 * EConst Cz4 + #7992 * EPow P2 (EVar
   vlmMst1) + #5616 * EVar vlmMst2 * EPow P2 (EVar vlmMst1) - #3456 * EVar vlmMt * EPow P2 (EVar vlmMst1) - #185544 *
   EPow P2 (EVar vlmMst2) + #53136 * EVar vlmMst1 * EPow P2 (EVar vlmMst2) - #3456 * EVar vlmMt * EPow P2 (EVar
   vlmMst2) - #19620 * EPow P2 (EConst Cz2) - #720 * EPow P3 (EVar vlmMst1) - #58032 * EPow P3 (EVar vlmMst2))) * EPow
   P4 (EVar vMst1) - #18 * EPow P2 (EVar vMst2) * (- #12960 * EVar vDmsqst2 * EVar vMst2 * EVar vMt * EVar vs2t *
   EConst Cz3 - #30 * EVar vxDmsqst2 * EPow P2 (EVar vDmsqst2) * EPow P2 (EVar vs2t) * (#2 * EConst Cz4 + #3 * EPow P2
   (EConst Cz2)) - EVar vxDmglst2 * EPow P2 (EVar vDmglst2) * (#648 * EConst Cz4 * EPow P2 (EVar vMt) + #8 * EVar
   vMst2 * EVar vMt * EVar vs2t * (#109 * EConst Cz4 - #1902 * EPow P2 (EConst Cz2)) + EPow P2 (EVar vMst2) * EPow P2
   (EVar vs2t) * (#3172 * EConst Cz4 + #627 * EPow P2 (EConst Cz2))) + #6 * EPow P2 (EVar vMst2) * (#15 * EVar
   vDmsqst2 * EPow P2 (EVar vs2t) * (#4 * EConst CT1ep + #2 * EConst Cz4 + #3 * EPow P2 (EConst Cz2)) + #4 * EPow P2
   (EVar vMt) * (- #436 + #6 * EConst CB4 - #6 * EConst CD3 + #3 * EConst CDN + #48 * EVar vlmMst1 - #408 * EVar
   vlmMst2 + #96 * EVar vlmMst1 * EVar vlmMst2 - #24 * EVar vlmMt + #972 * EConst CS2 - #230 * EConst Cz3 - #27 *
   EConst Cz4 - #192 * EPow P2 (EVar vlmMst2) + #48 * EVar vlmMst1 * EPow P2 (EVar vlmMst2) - #48 * EPow P3 (EVar
   vlmMst2))) - #3 * EVar vMt * EVar vs2t * (#84 * EConst CT1ep + #11930 * EConst Cz3 + #510 * EConst Cz4 - #1665 *
   EPow P2 (EConst Cz2)) * EPow P3 (EVar vMst2) - #3 * EVar vDmglst2 * (- #1440 * EVar vDmsqst2 * EVar vMt * EVar vs2t
   * EConst Cz3 + EVar vMt * EVar vs2t * EPow P2 (EVar vMst2) * (- #140 * EConst CT1ep + #30274 * EConst Cz3 + #542 *
   EConst Cz4 - #5289 * EPow P2 (EConst Cz2)) - #16 * EVar vMst2 * EPow P2 (EVar vMt) * (- #540 + #6 * EConst CB4 - #6
   * EConst CD3 + #3 * EConst CDN - #48 * EVar vlmMst1 - #432 * EVar vlmMst2 + #648 * EConst CS2 + #83 * EConst Cz3 -
   #27 * EConst Cz4 - #96 * EPow P2 (EVar vlmMst2) + #48 * EVar vlmMst1 * EPow P2 (EVar vlmMst2) - #48 * EPow P3 (EVar
   vlmMst2)) + #2 * EPow P2 (EVar vs2t) * (#28 * EConst CT1ep + #212 * EConst Cz4 + #237 * EPow P2 (EConst Cz2)) *
   EPow P3 (EVar vMst2)) + #9 * EPow P2 (EVar vs2t) * (#92 * EConst CT1ep + #40 * EConst Cz4 - #3 * EPow P2 (EConst
   Cz2)) * EPow P4 (EVar vMst2)) - #6 * EPow P2 (EVar vMst1) * (- #2 * EVar vxDmglst2 * EPow P2 (EVar vDmglst2) *
   (EVar vMst2 * EVar vMt * EVar vs2t * (#8090 * EConst Cz4 - #37437 * EPow P2 (EConst Cz2)) + EPow P2 (EVar vMst2) *
   EPow P2 (EVar vs2t) * (#7489 * EConst Cz4 - #795 * EPow P2 (EConst Cz2)) + #6 * EPow P2 (EVar vMt) * (#338 * EConst
   Cz4 + #21 * EPow P2 (EConst Cz2))) - #6 * EVar vDmglst2 * (- #10800 * EVar vDmsqst2 * EVar vMt * EVar vs2t * EConst
   Cz3 - #2 * EVar vMt * EVar vs2t * EPow P2 (EVar vMst2) * (#1012 * EConst CT1ep - #47456 * EConst Cz3 - #709 *
   EConst Cz4 + #8535 * EPow P2 (EConst Cz2)) + EVar vMst2 * EPow P2 (EVar vMt) * (#28405 - #288 * EConst CB4 + #288 *
   EConst CD3 - #144 * EConst CDN + #5472 * EVar vlmMst1 + #25632 * EVar vlmMst2 - #576 * EVar vlmMst1 * EVar vlmMst2
   - #1152 * EVar vlmMt + #576 * EVar vlmMst1 * EVar vlmMt - #576 * EVar vlmMst2 * EVar vlmMt + #224 * EConst COepS2 -
   #21060 * EConst CS2 - #4536 * EVar vlmMst1 * EConst CS2 + #4536 * EVar vlmMst2 * EConst CS2 - #336 * EConst CT1ep -
   #3000 * EConst Cz3 + #1128 * EConst Cz4 + #5184 * EPow P2 (EVar vlmMst2) - #4608 * EVar vlmMst1 * EPow P2 (EVar
   vlmMst2) - #252 * EPow P2 (EConst Cz2) + #4608 * EPow P3 (EVar vlmMst2)) + #6 * EPow P2 (EVar vs2t) * (#172 *
   EConst CT1ep + #185 * EConst Cz4 + #237 * EPow P2 (EConst Cz2)) * EPow P3 (EVar vMst2)) + #3 * (- #30240 * EVar
   vDmsqst2 * EVar vMst2 * EVar vMt * EVar vs2t * EConst Cz3 - #140 * EVar vxDmsqst2 * EPow P2 (EVar vDmsqst2) * EPow
   P2 (EVar vs2t) * (#2 * EConst Cz4 + #3 * EPow P2 (EConst Cz2)) + #3 * EPow P2 (EVar vMst2) * (#130 * EVar vDmsqst2
   * EPow P2 (EVar vs2t) * (#4 * EConst CT1ep + #2 * EConst Cz4 + #3 * EPow P2 (EConst Cz2)) + EPow P2 (EVar vMt) * (-
   #10667 + #96 * EConst CB4 - #96 * EConst CD3 + #48 * EConst CDN + #3072 * EVar vlmMst1 - #9600 * EVar vlmMst2 +
   #3456 * EVar vlmMst1 * EVar vlmMst2 - #384 * EVar vlmMt + #384 * EVar vlmMst1 * EVar vlmMt - #384 * EVar vlmMst2 *
   EVar vlmMt + #224 * EConst COepS2 + #13932 * EConst CS2 - #4536 * EVar vlmMst1 * EConst CS2 + #4536 * EVar vlmMst2
   * EConst CS2 - #336 * EConst CT1ep - #2616 * EConst Cz3 - #600 * EConst Cz4 - #4992 * EPow P2 (EVar vlmMst2) +
   #1536 * EVar vlmMst1 * EPow P2 (EVar vlmMst2) - #252 * EPow P2 (EConst Cz2) - #1536 * EPow P3 (EVar vlmMst2))) - #4
   * EVar vMt * EVar vs2t * (#272 * EConst CT1ep + #14636 * EConst Cz3 + #1135 * EConst Cz4 - #2388 * EPow P2 (EConst
   Cz2)) * EPow P3 (EVar vMst2) + EPow P2 (EVar vs2t) * (#4228 * EConst CT1ep + #2276 * EConst Cz4 + #2523 * EPow P2
   (EConst Cz2)) * EPow P4 (EVar vMst2)))) + EVar vs2t * (EVar vMt * EPow P2 (EVar vMst1) * (EVar vDmglst2 * (#36 *
   EPow P2 (EVar vMst2) * (#66761 + #301320 * EConst CB4 - #4860 * EConst CDN - #205380 * EVar vlmMst1 + #40480 *
   EConst COepS2 - #216 * (#2489 + #3795 * EVar vlmMst1 - #3795 * EVar vlmMst2) * EConst CS2 + #23760 * EPow P2 (EVar
   vlmMst1) + #180 * EVar vlmMst2 * (#4993 - #1956 * EVar vlmMst1 + #48 * EPow P2 (EVar vlmMst1)) - #1080 * (- #482 +
   #331 * EVar vlmMst1) * EPow P2 (EVar vlmMst2) + #348840 * EPow P3 (EVar vlmMst2)) * EPow P4 (EVar vMst1) + #2332800
   * EVar vDmsqst2 * ((- #2 - #5 * EVar vlmMst1 + #5 * EVar vlmMst2) * EPow P2 (EVar vMst1) * EPow P2 (EVar vMst2) +
   (#8 - #15 * EVar vlmMst1 + #15 * EVar vlmMst2) * EPow P4 (EVar vMst1)) + #27 * EPow P2 (EVar vMst1) * (#23917 +
   #188640 * EConst CB4 - #3600 * EConst CDN - #37440 * EVar vlmMst1 + #5600 * EConst COepS2 - #324 * (- #453 + #350 *
   EVar vlmMst1 - #350 * EVar vlmMst2) * EConst CS2 + #11520 * EPow P2 (EVar vlmMst1) - #2880 * EVar vlmMst2 * (- #237
   + #55 * EVar vlmMst1 + #4 * EPow P2 (EVar vlmMst1)) - #1440 * (- #280 + #121 * EVar vlmMst1) * EPow P2 (EVar
   vlmMst2) + #185760 * EPow P3 (EVar vlmMst2)) * EPow P4 (EVar vMst2) - #10 * (#2773621 - #1660176 * EConst CB4 +
   #25272 * EConst CDN + #2004408 * EVar vlmMst1 - #525472 * EConst COepS2 + #108 * (#123113 + #98526 * EVar vlmMst1 -
   #98526 * EVar vlmMst2) * EConst CS2 + #3888 * EPow P2 (EVar vlmMst1) - #144 * EVar vlmMst2 * (#36802 - #11421 *
   EVar vlmMst1 + #1728 * EPow P2 (EVar vlmMst1)) + #167184 * (- #14 + #15 * EVar vlmMst1) * EPow P2 (EVar vlmMst2) -
   #31104 * EPow P3 (EVar vlmMst1) - #2227824 * EPow P3 (EVar vlmMst2)) * EPow P6 (EVar vMst1) + #622080 * (- #1 + #2
   * EVar vlmMst2 + #3 * EPow P2 (EVar vlmMst2)) * EPow P6 (EVar vMst2)) + #15 * EVar vMst2 * (#24 * EPow P2 (EVar
   vMst2) * (#75569 + #13716 * EConst CB4 - #54 * EConst CDN - #33426 * EVar vlmMst1 - #1088 * EConst COepS2 + #162 *
   (#169 + #136 * EVar vlmMst1 - #136 * EVar vlmMst2) * EConst CS2 - #2376 * EPow P2 (EVar vlmMst1) + #54 * EVar
   vlmMst2 * (#1427 - #1012 * EVar vlmMst1 + #16 * EPow P2 (EVar vlmMst1)) - #108 * (- #642 + #203 * EVar vlmMst1) *
   EPow P2 (EVar vlmMst2) + #21060 * EPow P3 (EVar vlmMst2)) * EPow P4 (EVar vMst1) + #155520 * EVar vDmsqst2 * ((#1 +
   EVar vlmMst1 - EVar vlmMst2) * EPow P2 (EVar vMst1) * EPow P2 (EVar vMst2) + (#1 + #3 * EVar vlmMst1 - #3 * EVar
   vlmMst2) * EPow P4 (EVar vMst1)) + #27 * EPow P2 (EVar vMst1) * (#28683 + #5280 * EConst CB4 - #48 * EConst CDN -
   #5952 * EVar vlmMst1 - #224 * EConst COepS2 + #324 * (- #1 + #14 * EVar vlmMst1 - #14 * EVar vlmMst2) * EConst CS2
   - #768 * EPow P2 (EVar vlmMst1) - #192 * EVar vlmMst2 * (- #214 + #73 * EVar vlmMst1 + #4 * EPow P2 (EVar vlmMst1))
   - #96 * (- #268 + #57 * EVar vlmMst1) * EPow P2 (EVar vlmMst2) + #6240 * EPow P3 (EVar vlmMst2)) * EPow P4 (EVar
   vMst2) + #2 * (#1702429 + #257904 * EConst CB4 - #648 * EConst CDN - #748656 * EVar vlmMst1 - #30112 * EConst
   COepS2 + #108 * (#9185 + #5646 * EVar vlmMst1 - #5646 * EVar vlmMst2) * EConst CS2 + #41904 * EPow P2 (EVar
   vlmMst1) + #216 * EVar vlmMst2 * (#5971 - #6106 * EVar vlmMst1 + #576 * EPow P2 (EVar vlmMst1)) - #41904 * (- #34 +
   #15 * EVar vlmMst1) * EPow P2 (EVar vlmMst2) - #3456 * EPow P3 (EVar vlmMst1) + #507600 * EPow P3 (EVar vlmMst2)) *
   EPow P6 (EVar vMst1) + #41472 * EPow P2 (#1 + EVar vlmMst2) * EPow P6 (EVar vMst2))) + #4860 * EVar vxDR2DRMOD *
   (#64 * EVar vMt * EPow P2 (EVar vMst1) * (#2 * EPow P2 (EVar vMst2) * ((#1 + EVar vlmMst2) * EVar vMst2 * (#1 - #10
   * EVar vlmMst2 + #4 * EVar vlmMst1 * (#2 + EVar vlmMst2) - #4 * EPow P2 (EVar vlmMst2)) + #2 * EVar vDmglst2 * (#8
   + #13 * EVar vlmMst2 - #8 * EPow P2 (EVar vlmMst2) + EVar vlmMst1 * (- #5 + #5 * EVar vlmMst2 + #6 * EPow P2 (EVar
   vlmMst2)) - #6 * EPow P3 (EVar vlmMst2))) * EPow P4 (EVar vMst1) + (#1 + EVar vlmMst2) * (- #2 * (#1 + #5 * EVar
   vlmMst2 - EVar vlmMst1 * (#3 + #2 * EVar vlmMst2) + #2 * EPow P2 (EVar vlmMst2)) * EPow P2 (EVar vMst1) * EPow P5
   (EVar vMst2) + EVar vMst2 * (#7 - #32 * EVar vlmMst2 + #4 * EVar vlmMst1 * (#7 + #3 * EVar vlmMst2) - #12 * EPow P2
   (EVar vlmMst2)) * EPow P6 (EVar vMst1)) + EVar vDmglst2 * ((#49 + #103 * EVar vlmMst2 - #36 * (#1 + EVar vlmMst2) *
   EPow P2 (EVar vlmMst2) + #4 * EVar vlmMst1 * (- #11 + #6 * EVar vlmMst2 + #9 * EPow P2 (EVar vlmMst2))) * EPow P6
   (EVar vMst1) + #2 * (EPow P2 (EVar vMst1) * (#8 + #7 * EVar vlmMst2 - #11 * EPow P2 (EVar vlmMst2) + EVar vlmMst1 *
   (- #3 + #5 * EVar vlmMst2 + #6 * EPow P2 (EVar vlmMst2)) - #6 * EPow P3 (EVar vlmMst2)) * EPow P4 (EVar vMst2) +
   (#1 - #2 * EVar vlmMst2 - #3 * EPow P2 (EVar vlmMst2)) * EPow P6 (EVar vMst2))) - #2 * EPow P2 (#1 + EVar vlmMst2)
   * EPow P7 (EVar vMst2)) + EVar vs2t * ((#75 * EVar vDmsqst2 * (- #1 + #2 * EVar vlmMst1 - #2 * EVar vlmMst2) - EPow
   P2 (EVar vMst2) * (#189 + #726 * EVar vlmMst2 + #32 * (#1 + EVar vlmMst2) * EPow P2 (EVar vlmMst1) + #707 * EPow P2
   (EVar vlmMst2) - #2 * EVar vlmMst1 * (#253 + #332 * EVar vlmMst2 + #123 * EPow P2 (EVar vlmMst2)) + #214 * EPow P3
   (EVar vlmMst2)) - #2 * EPow P2 (EVar vMst1) * (#32 + #285 * EVar vlmMst2 + #144 * (#1 + EVar vlmMst2) * EPow P2
   (EVar vlmMst1) + #444 * EPow P2 (EVar vlmMst2) - EVar vlmMst1 * (#253 + #588 * EVar vlmMst2 + #379 * EPow P2 (EVar
   vlmMst2)) + #235 * EPow P3 (EVar vlmMst2))) * EPow P4 (EVar vMst1) * EPow P4 (EVar vMst2) + #2 * EPow P2 (EVar
   vMst2) * (#75 * EVar vDmsqst2 * (EVar vlmMst1 - EVar vlmMst2) - EPow P2 (EVar vMst1) * (#40 + #277 * EVar vlmMst2 +
   #272 * (#1 + EVar vlmMst2) * EPow P2 (EVar vlmMst1) + #556 * EPow P2 (EVar vlmMst2) - EVar vlmMst1 * (#237 + #828 *
   EVar vlmMst2 + #635 * EPow P2 (EVar vlmMst2)) + #363 * EPow P3 (EVar vlmMst2))) * EPow P6 (EVar vMst1) + EPow P2
   (EVar vMst1) * (#135 * EVar vshiftst1 * (EVar vDmsqst2 + EPow P2 (EVar vMst2)) * ((EPow P2 (EVar vMst1) + EPow P2
   (EVar vMst2)) * EPow P4 (EVar vMst2) - #2 * (EVar vlmMst1 - EVar vlmMst2) * EPow P2 (EVar vMst1) * (EPow P2 (EVar
   vMst1) * EPow P2 (EVar vMst2) + EPow P4 (EVar vMst1) + EPow P4 (EVar vMst2))) + #15 * EVar vDmsqst2 * (- #4 * EVar
   vDmglst2 * (EVar vlmMst1 - EVar vlmMst2) * EVar vMst2 * EPow P4 (EVar vMst1) + #10 * (EVar vlmMst1 - EVar vlmMst2)
   * EPow P6 (EVar vMst1) - #5 * EPow P6 (EVar vMst2)) + #2 * EVar vDmglst2 * EVar vMst2 * (#15 * EVar vDmsqst2 * EPow
   P4 (EVar vMst2) + EPow P2 (EVar vMst1) * (#15 * EVar vDmsqst2 * (#1 - #2 * EVar vlmMst1 + #2 * EVar vlmMst2) * EPow
   P2 (EVar vMst2) - (#60 + #206 * EVar vlmMst2 + #32 * EVar vlmMst2 * EPow P2 (EVar vlmMst1) + EVar vlmMst1 * (#8 -
   #460 * EVar vlmMst2 - #246 * EPow P2 (EVar vlmMst2)) + #519 * EPow P2 (EVar vlmMst2) + #214 * EPow P3 (EVar
   vlmMst2)) * EPow P4 (EVar vMst2)) - #2 * (EPow P2 (EVar vMst2) * (#48 + #4 * EVar vlmMst2 * (#31 + #36 * EPow P2
   (EVar vlmMst1)) + #278 * EPow P2 (EVar vlmMst2) - EVar vlmMst1 * (#44 + #278 * EVar vlmMst2 + #379 * EPow P2 (EVar
   vlmMst2)) + #235 * EPow P3 (EVar vlmMst2)) * EPow P4 (EVar vMst1) + (#48 + #4 * EVar vlmMst2 * (#45 + #68 * EPow P2
   (EVar vlmMst1)) + #310 * EPow P2 (EVar vlmMst2) - EVar vlmMst1 * (#92 + #310 * EVar vlmMst2 + #635 * EPow P2 (EVar
   vlmMst2)) + #363 * EPow P3 (EVar vlmMst2)) * EPow P6 (EVar vMst1)) - (- #20 + #2 * (#99 + #16 * EVar vlmMst1) *
   EVar vlmMst2 + #123 * EPow P2 (EVar vlmMst2)) * EPow P6 (EVar vMst2)) - (#205 + #252 * EVar vlmMst2 + #32 * EVar
   vlmMst1 * (#1 + EVar vlmMst2) + #91 * EPow P2 (EVar vlmMst2)) * EPow P8 (EVar vMst2)) + #16 * (#1 + EVar vlmMst2) *
   (#4 * EVar vDmglst2 * EVar vlmMst2 + EVar vMst2 + EVar vlmMst2 * EVar vMst2) * EPow P9 (EVar vMst2))))))) / #25) +
   EPow P2 (EVar vMt) * (#3 * EVar vTbeta * EPow P2 (EVar vMst2) * EPow P2 (EVar vMuSUSY) * (#729 * EVar voneLoopFlag
   * EPow P2 (EVar vs2t) * EPow P3 (EVar vMst2) * EPow P4 (EVar vMst1) * (- #2 * (EVar vlmMst1 - EVar vlmMst2) * EPow
   P2 (EVar vMst1) * (EPow P2 (EVar vMst1) + EPow P2 (EVar vMst2)) + (#2 - EVar vlmMst1 + EVar vlmMst2) * EPow P4
   (EVar vMst2)) + EVar vAl4p * (#8 * EVar vxDmglst2 * EPow P2 (EVar vDmglst2) * (- #243 * EVar vs2t * EVar
   vtwoLoopFlag * EPow P2 (EVar vMst1) * (#2 * (- #8 * (#10 + EVar vlmMst1 - EVar vlmMst2) * EVar vMt + EVar vMst2 *
   EVar vs2t * (#8 - #9 * EVar vlmMst1 + #9 * EVar vlmMst2 + #2 * EVar vlmMst1 * EVar vlmMst2 - #2 * EPow P2 (EVar
   vlmMst2))) * EPow P2 (EVar vMst2) * EPow P4 (EVar vMst1) + #2 * (- #4 * (#8 + EVar vlmMst1 - EVar vlmMst2) * EVar
   vMt + EVar vMst2 * EVar vs2t * (#8 - #5 * EVar vlmMst1 + #4 * EVar vlmMst2 + #2 * EVar vlmMst1 * EVar vlmMst2 - #2
   * EPow P2 (EVar vlmMst2))) * EPow P2 (EVar vMst1) * EPow P4 (EVar vMst2) + (- #268 * EVar vMt + EVar vMst2 * EVar
   vs2t * (#17 + #4 * EVar vlmMst1 * (- #7 + EVar vlmMst2) + #28 * EVar vlmMst2 - #4 * EPow P2 (EVar vlmMst2))) * EPow
   P6 (EVar vMst1) - #2 * (- #2 + EVar vlmMst2) * EVar vs2t * EPow P7 (EVar vMst2)) + EVar vAl4p * EVar vMst2 * EVar
   vthreeLoopFlag * (#75 * EPow P2 (EVar vMst2) * (- #8 * EVar vMst2 * EVar vMt * EVar vs2t * (#334138 - #61560 *
   EConst CB4 + #1620 * EConst CDN - #236520 * EVar vlmMst1 - #180 * (- #823 + #438 * EVar vlmMst1) * EVar vlmMst2 +
   #2240 * EConst COepS2 - #81 * (- #1373 + #560 * EVar vlmMst1 - #560 * EVar vlmMst2) * EConst CS2 - #3360 * EConst
   CT1ep - #4320 * EPow P2 (EVar vlmMst1) + #1080 * (#29 + #48 * EVar vlmMst1) * EPow P2 (EVar vlmMst2) - #51840 *
   EPow P3 (EVar vlmMst2)) + EPow P2 (EVar vMst2) * EPow P2 (EVar vs2t) * (#13169 - #41040 * EConst CB4 + #43200 *
   EConst CD3 - #22680 * EConst CDN + #282960 * EVar vlmMst1 + #1120 * EConst COepS2 - #324 * (#65819 + #70 * EVar
   vlmMst1 - #70 * EVar vlmMst2) * EConst CS2 - #1680 * EConst CT1ep - #13500 * EPow P2 (EVar vlmMst1) + #720 * EVar
   vlmMst2 * (- #775 + #12 * EVar vlmMst1 + #24 * EPow P2 (EVar vlmMst1)) - #1080 * (- #2 + #123 * EVar vlmMst1) *
   EPow P2 (EVar vlmMst2) + #115560 * EPow P3 (EVar vlmMst2)) + #96 * EPow P2 (EVar vMt) * (#33934 - #90 * EConst CB4
   + #90 * EConst CD3 - #45 * EConst CDN + #120 * (#163 + #24 * EVar vlmMst1) * EVar vlmMst2 - #120 * EVar vlmMt -
   #10206 * EConst CS2 - #720 * (#2 + EVar vlmMst1) * EPow P2 (EVar vlmMst2) + #720 * (EVar vlmMst1 + EPow P3 (EVar
   vlmMst2)))) * EPow P4 (EVar vMst1) - #40500 * EVar vs2t * (EVar vMst2 * EVar vs2t * (#812 - #32 * EVar vlmMst1 * (-
   #2 + EVar vlmMst2) + #38 * EVar vlmMst2 - #251 * EPow P2 (EVar vlmMst2)) + #128 * EVar vMt * (#3 + #4 * EVar
   vlmMst2 - #3 * EPow P2 (EVar vlmMst2))) * EPow P2 (EVar vMst1) * EPow P5 (EVar vMst2) + #2 * (- #2 * EPow P2 (EVar
   vMst2) * EPow P2 (EVar vs2t) * (#2011073 + #1417500 * EConst CB4 - #1458000 * EConst CD3 + #749250 * EConst CDN +
   #934245 * EVar vlmMst1 - #1178000 * EConst COepS2 + #1350 * (#620417 + #17670 * EVar vlmMst1 - #17670 * EVar
   vlmMst2) * EConst CS2 + #1767000 * EConst CT1ep + #3150900 * EPow P2 (EVar vlmMst1) - #45 * EVar vlmMst2 * (-
   #124139 + #189090 * EVar vlmMst1 + #71550 * EPow P2 (EVar vlmMst1)) + #4050 * (#1323 + #1970 * EVar vlmMst1) * EPow
   P2 (EVar vlmMst2) + #101250 * EPow P3 (EVar vlmMst1) - #4860000 * EPow P3 (EVar vlmMst2)) - #125 * EVar vMst2 *
   EVar vMt * EVar vs2t * (#996211 - #295488 * EConst CB4 + #7776 * EConst CDN - #1030176 * EVar vlmMst1 - #144 * (-
   #1883 + #3618 * EVar vlmMst1) * EVar vlmMst2 + #98336 * EConst COepS2 - #756 * (#259 + #2634 * EVar vlmMst1 - #2634
   * EVar vlmMst2) * EConst CS2 - #147504 * EConst CT1ep + #49248 * EPow P2 (EVar vlmMst1) + #5184 * (#67 + #48 * EVar
   vlmMst1) * EPow P2 (EVar vlmMst2) - #248832 * EPow P3 (EVar vlmMst2)) + #150 * EPow P2 (EVar vMt) * (#2199511 -
   #4320 * EConst CB4 + #4320 * EConst CD3 - #2160 * EConst CDN + #140160 * EVar vlmMst1 + #960 * (#1426 + #303 * EVar
   vlmMst1) * EVar vlmMst2 - #2880 * (- #16 + #5 * EVar vlmMst1 - #5 * EVar vlmMst2) * EVar vlmMt - #1120 * EConst
   COepS2 + #324 * (- #3411 + #70 * EVar vlmMst1 - #70 * EVar vlmMst2) * EConst CS2 + #1680 * EConst CT1ep - #2880 *
   (#77 + #24 * EVar vlmMst1) * EPow P2 (EVar vlmMst2) + #69120 * EPow P3 (EVar vlmMst2))) * EPow P6 (EVar vMst1) +
   #1296000 * (#2 + EVar vlmMst2 - #3 * EPow P2 (EVar vlmMst2)) * EPow P2 (EVar vs2t) * EPow P8 (EVar vMst2)) / #500)
   + EVar vMst2 * EVar vs2t * (#972 * EVar vtwoLoopFlag * EPow P2 (EVar vMst1) * (#4 * (#4 * EVar vMt * (#5 + #6 *
   EVar vlmMst2 - EVar vlmMst1 * (#4 + #3 * EVar vlmMst2) + #3 * EPow P2 (EVar vlmMst2)) + EVar vMst2 * EVar vs2t * (-
   #1 + #13 * EVar vlmMst2 - EVar vlmMst1 * (#13 + #8 * EVar vlmMst2) + EPow P2 (EVar vlmMst1) + #7 * EPow P2 (EVar
   vlmMst2))) * EPow P3 (EVar vMst2) * EPow P4 (EVar vMst1) + #2 * (- (EVar vMst2 * EVar vs2t * (- #14 - #20 * EVar
   vlmMst2 + #2 * EVar vlmMst1 * (#5 + #3 * EVar vlmMst2) + EPow P2 (EVar vlmMst1) - #7 * EPow P2 (EVar vlmMst2))) +
   #8 * EVar vMt * (#4 + #3 * EVar vlmMst2 - EVar vlmMst1 * (#1 + EVar vlmMst2) + EPow P2 (EVar vlmMst2))) * EPow P2
   (EVar vMst1) * EPow P5 (EVar vMst2) + #4 * EVar vDmglst2 * (EVar vMst2 * EVar vs2t * (- #5 + #8 * EVar vlmMst2 - #4
   * EVar vlmMst1 * (#2 + EVar vlmMst2) + #4 * EPow P2 (EVar vlmMst2)) + EVar vMt * (#65 + EVar vlmMst1 * (#34 - #20 *
   EVar vlmMst2) - #26 * EVar vlmMst2 + #20 * EPow P2 (EVar vlmMst2))) * EPow P6 (EVar vMst1) + EVar vMst2 * (EVar
   vMst2 * EVar vs2t * (- #1 + #50 * EVar vlmMst2 - #2 * EVar vlmMst1 * (#25 + #32 * EVar vlmMst2) + #20 * EPow P2
   (EVar vlmMst1) + #44 * EPow P2 (EVar vlmMst2)) + EVar vMt * (#84 + #152 * EVar vlmMst2 - #40 * EVar vlmMst1 * (#3 +
   #2 * EVar vlmMst2) + #80 * EPow P2 (EVar vlmMst2))) * EPow P6 (EVar vMst1) + #8 * EVar vDmglst2 * ((EVar vMst2 *
   EVar vs2t * (- #2 + #3 * EVar vlmMst2 - EVar vlmMst1 * (#3 + #2 * EVar vlmMst2) + #2 * EPow P2 (EVar vlmMst2)) +
   EVar vMt * (#22 + EVar vlmMst1 * (#8 - #6 * EVar vlmMst2) - #4 * EVar vlmMst2 + #6 * EPow P2 (EVar vlmMst2))) *
   EPow P2 (EVar vMst2) * EPow P4 (EVar vMst1) + (- (EVar vMst2 * EVar vs2t * (#1 + EVar vlmMst1 - #2 * EVar vlmMst2 +
   #2 * EVar vlmMst1 * EVar vlmMst2 - #2 * EPow P2 (EVar vlmMst2))) + #2 * EVar vMt * (#6 + EVar vlmMst1 + EVar
   vlmMst2 - EVar vlmMst1 * EVar vlmMst2 + EPow P2 (EVar vlmMst2))) * EPow P2 (EVar vMst1) * EPow P4 (EVar vMst2) +
   EVar vlmMst2 * EVar vs2t * EPow P7 (EVar vMst2)) + #4 * (#1 + EVar vlmMst2) * EVar vs2t * EPow P8 (EVar vMst2)) -
   #108 * EVar vxDR2DRMOD * (#9 * EVar vs2t * EPow P2 (EVar vMst1) * (- (EVar vAl4p * EVar vthreeLoopFlag * EVar
   vxDmsqst2 * EPow P2 (EVar vDmsqst2) * (#10 * EVar vlmMst1 * EPow P2 (EVar vMst1) * (#14 * EVar vDmglst2 * EVar
   vMst2 + #19 * EVar vxDmglst2 * EPow P2 (EVar vDmglst2) + EPow P2 (EVar vMst1) + EPow P2 (EVar vMst2)) - #5 * ((#14
   * EVar vDmglst2 * EVar vMst2 + #19 * EVar vxDmglst2 * EPow P2 (EVar vDmglst2) + EPow P2 (EVar vMst2)) * (EPow P2
   (EVar vMst1) + EPow P2 (EVar vMst2)) + #2 * EVar vlmMst2 * EPow P2 (EVar vMst1) * (#14 * EVar vDmglst2 * EVar vMst2
   + #19 * EVar vxDmglst2 * EPow P2 (EVar vDmglst2) + EPow P2 (EVar vMst1) + EPow P2 (EVar vMst2))))) + #4 * EVar
   vtwoLoopFlag * (#2 * EVar vDmglst2 * EVar vlmMst2 * EVar vMst2 + (- #2 + EVar vlmMst2) * EVar vxDmglst2 * EPow P2
   (EVar vDmglst2) + (#1 + EVar vlmMst2) * EPow P2 (EVar vMst2)) * ((EPow P2 (EVar vMst1) + EPow P2 (EVar vMst2)) *
   EPow P4 (EVar vMst2) - #2 * (EVar vlmMst1 - EVar vlmMst2) * EPow P2 (EVar vMst1) * (EPow P2 (EVar vMst1) * EPow P2
   (EVar vMst2) + EPow P4 (EVar vMst1) + EPow P4 (EVar vMst2)))) + #2 * EVar vAl4p * EVar vthreeLoopFlag * EVar
   vxDmglst2 * EPow P2 (EVar vDmglst2) * (EPow P2 (EVar vMst2) * (#585 * EVar vDmsqst2 * (- #1 + #2 * EVar vlmMst1 -
   #2 * EVar vlmMst2) * EVar vs2t - #64 * EVar vMst2 * EVar vMt * (#5 + #149 * EVar vlmMst2 + #12 * EPow P2 (EVar
   vlmMst2) + #6 * EVar vlmMst1 * (- #7 - #8 * EVar vlmMst2 + #6 * EPow P2 (EVar vlmMst2)) - #36 * EPow P3 (EVar
   vlmMst2)) + EVar vs2t * EPow P2 (EVar vMst2) * (- #1540 - #2506 * EVar vlmMst2 + #96 * (- #2 + EVar vlmMst2) * EPow
   P2 (EVar vlmMst1) + EVar vlmMst1 * (#2760 + #36 * EVar vlmMst2 - #738 * EPow P2 (EVar vlmMst2)) + #141 * EPow P2
   (EVar vlmMst2) + #642 * EPow P3 (EVar vlmMst2))) * EPow P4 (EVar vMst1) + #3 * EPow P2 (EVar vMst1) * (- #195 *
   EVar vDmsqst2 * EVar vs2t + #128 * EVar vMst2 * EVar vMt * (- #3 - #4 * EVar vlmMst2 + #3 * EPow P2 (EVar vlmMst2))
   + EVar vs2t * (- #380 + #32 * EVar vlmMst1 * (- #2 + EVar vlmMst2) - #38 * EVar vlmMst2 + #251 * EPow P2 (EVar
   vlmMst2)) * EPow P2 (EVar vMst2)) * EPow P4 (EVar vMst2) + #2 * (#585 * EVar vDmsqst2 * (EVar vlmMst1 - EVar
   vlmMst2) * EVar vs2t + #32 * EVar vMst2 * EVar vMt * (#85 - #215 * EVar vlmMst2 + EVar vlmMst1 * (#66 + #90 * EVar
   vlmMst2 - #72 * EPow P2 (EVar vlmMst2)) - #54 * EPow P2 (EVar vlmMst2) + #72 * EPow P3 (EVar vlmMst2)) + #3 * EVar
   vs2t * EPow P2 (EVar vMst2) * (- #336 - #716 * EVar vlmMst2 + #144 * (- #2 + EVar vlmMst2) * EPow P2 (EVar vlmMst1)
   + EVar vlmMst1 * (#668 + #534 * EVar vlmMst2 - #379 * EPow P2 (EVar vlmMst2)) - #246 * EPow P2 (EVar vlmMst2) +
   #235 * EPow P3 (EVar vlmMst2))) * EPow P6 (EVar vMst1) + #96 * EVar vs2t * (#2 + EVar vlmMst2 - #3 * EPow P2 (EVar
   vlmMst2)) * EPow P8 (EVar vMst2)))))) - #162 * EVar vs2t * EVar vxMst * (#27 * (EVar vlmMst1 - EVar vlmMst2) * EVar
   voneLoopFlag * EVar vs2t * EVar vTbeta * EPow P2 (EVar vMuSUSY) * EPow P3 (EVar vMst2) - #2 * EVar vAl4p * EVar
   vtwoLoopFlag * (#4 * EVar vMst2 * EVar vTbeta * (- #18 * (- #2 + EVar vlmMst2) * (- EVar vlmMst1 + EVar vlmMst2) *
   EVar vs2t * EVar vxDmglst2 * EVar vxDR2DRMOD * EPow P2 (EVar vDmglst2) + EVar vDmglst2 * EVar vMt * (#785 + #6 *
   EVar vlmMst1 * (#85 - #42 * EVar vlmMst2) - #438 * EVar vlmMst2 + #252 * EPow P2 (EVar vlmMst2)) + EVar vMst2 *
   EVar vMt * (#193 + #474 * EVar vlmMst2 - #6 * EVar vlmMst1 * (#67 + #42 * EVar vlmMst2) + #252 * EPow P2 (EVar
   vlmMst2)) - EVar vDmglst2 * EVar vMst2 * EVar vs2t * (#49 - #84 * EVar vlmMst2 + EVar vlmMst1 * (#84 - #36 * EVar
   vlmMst2 * (- #1 + EVar vxDR2DRMOD)) + #36 * (- #1 + EVar vxDR2DRMOD) * EPow P2 (EVar vlmMst2)) - EVar vs2t * (#1 +
   #3 * EVar vlmMst2 * (- #37 + #6 * EVar vxDR2DRMOD) - #3 * EVar vlmMst1 * (- #37 + #6 * EVar vlmMst2 * (- #12 + EVar
   vxDR2DRMOD) + #6 * EVar vxDR2DRMOD) - #81 * EPow P2 (EVar vlmMst1) + #9 * (- #15 + #2 * EVar vxDR2DRMOD) * EPow P2
   (EVar vlmMst2)) * EPow P2 (EVar vMst2)) * EPow P2 (EVar vMuSUSY) + EVar vxDmglst2 * EPow P2 (EVar vDmglst2) * (#48
   * (#143 - #18 * EVar vlmMst1 + #18 * EVar vlmMst2) * EVar vMt * EVar vTbeta * EPow P2 (EVar vMuSUSY) - #2 * EVar
   vMst2 * EVar vs2t * EVar vTbeta * (#157 + #348 * EVar vlmMst2 + #12 * EVar vlmMst1 * (- #29 + #3 * EVar vlmMst2) -
   #36 * EPow P2 (EVar vlmMst2)) * EPow P2 (EVar vMuSUSY) + #60 * (#43 - #60 * EVar vlmMst1 + #60 * EVar vlmMst2) *
   EVar vMst2 * EVar vMt * EVar vMuSUSY * EPow P2 (EVar vSbeta) - #15 * (- #43 + #60 * EVar vlmMst1 - #60 * EVar
   vlmMst2) * EVar vs2t * EVar vTbeta * (- #1 + EPow P2 (EVar vSbeta)) * EPow P2 (EVar vSbeta) * EPow P3 (EVar
   vMst2)))) * EPow P10 (EVar vMst1))) / (#17496 * EVar vTbeta * EPow P4 (EVar vMst1) * EPow P9 (EVar vMst2)).

(** H6b.cpp:415-2338 *)
Definition H6b_getS2 : expr :=
  - (EVar voneLoopFlag * (#4 * EVar vMt * EVar vMuSUSY * EVar vs2t * (#4 * (EVar vlmMst1 - EVar vlmMst2) * EPow P2 (EVar
   vMt) + ((- #2 - EVar vlmMst1 + EVar vlmMst2) * EPow P2 (EVar vMst1) + (#2 - EVar vlmMst1 + EVar vlmMst2) * EPow P2
   (EVar vMst2)) * EPow P2 (EVar vs2t)) / EVar vTbeta + #4 * EPow P2 (EVar vMt) * EPow P2 (EVar vs2t) * (#2 * (EVar
   vlmMst1 - EVar vlmMst2) * (EPow P2 (EVar vMst1) - EPow P2 (EVar vMst2)) + EPow P2 (EVar vMuSUSY) * (#2 - EVar
   vlmMst1 + EVar vlmMst2 - #2 * (EVar vlmMst1 - EVar vlmMst2) * EPow P2 (EVar vMst1) * (EPow P2 (EVar vMst1) + EPow
   P2 (EVar vMst2)) / EPow P4 (EVar vMst2))) - #4 * EPow P2 (EVar vMt) * EPow P2 (EVar vMuSUSY) * EPow P2 (EVar vs2t)
   * (#2 - EVar vlmMst1 + EVar vlmMst2 - #2 * (EVar vlmMst1 - EVar vlmMst2) * EPow P2 (EVar vMst1) * (EPow P2 (EVar
   vMst1) + EPow P2 (EVar vMst2)) / EPow P4 (EVar vMst2)) / EPow P2 (EVar vSbeta) + #16 * (EVar vlmMst1 + EVar vlmMst2
   - #2 * EVar vlmMt) * EPow P4 (EVar vMt) - (- #4 * EPow P2 (EVar vMst1) * EPow P2 (EVar vMst2) + (#2 + EVar vlmMst1
   - EVar vlmMst2) * EPow P4 (EVar vMst1) + (#2 - EVar vlmMst1 + EVar vlmMst2) * EPow P4 (EVar vMst2)) * EPow P4 (EVar
   vs2t))) / #32 - EVar vthreeLoopFlag * EPow P2 (EVar vAl4p) * (#12 * EVar vxDmglst2 * EPow P2 (EVar vDmglst2) * (-
   #2 * EPow P2 (EVar vMst1) * (- #8 * EPow P2 (EVar vMst2) * EPow P2 (EVar vMt) * (- (EVar vTbeta * EPow P2 (EVar
   vMuSUSY) * EPow P2 (EVar vs2t) * (- #1 + EPow P2 (EVar vSbeta)) * (- #229142 * EConst Cz3 - #7489 * EConst Cz4 +
   #795 * EPow P2 (EConst Cz2))) + EPow P2 (EVar vSbeta) * (- #72 * EVar vMt * EVar vMuSUSY * EVar vs2t * (#2534 *
   EConst Cz3 + #33 * EConst Cz4 + #90 * EPow P2 (EConst Cz2)) - #2 * EVar vTbeta * EPow P2 (EVar vMt) * (- #619510 *
   EConst Cz3 + #11338 * EConst Cz4 + #17007 * EPow P2 (EConst Cz2)))) - #4 * EVar vs2t * EPow P2 (EVar vMt) * EPow P2
   (EVar vSbeta) * (#3 * EVar vMuSUSY * EVar vs2t * (#127198 * EConst Cz3 + #6782 * EConst Cz4 - #14613 * EPow P2
   (EConst Cz2)) + #16 * EVar vMt * EVar vTbeta * (- #61328 * EConst Cz3 + #2114 * EConst Cz4 + #3171 * EPow P2
   (EConst Cz2))) * EPow P3 (EVar vMst2) - #8 * EVar vMst2 * EVar vMuSUSY * (- #2 * EVar vMt * EPow P2 (EVar vSbeta) *
   (- #342281 * EConst Cz3 + #8792 * EConst Cz4 + #13188 * EPow P2 (EConst Cz2)) - EVar vMuSUSY * EVar vs2t * EVar
   vTbeta * (- #1 + EPow P2 (EVar vSbeta)) * (- #323836 * EConst Cz3 - #8090 * EConst Cz4 + #37437 * EPow P2 (EConst
   Cz2))) * EPow P3 (EVar vMt) - #2 * EVar vMt * EPow P2 (EVar vs2t) * EPow P2 (EVar vSbeta) * (EVar vMuSUSY * EVar
   vs2t * (#547817 * EConst Cz3 + #10924 * EConst Cz4 - #6942 * EPow P2 (EConst Cz2)) + #9 * EVar vMt * EVar vTbeta *
   (- #15053 * EConst Cz3 + #792 * EConst Cz4 + #1188 * EPow P2 (EConst Cz2))) * EPow P4 (EVar vMst2) + EVar vTbeta *
   (- #48 * EPow P2 (EVar vMuSUSY) * (- #1 + EPow P2 (EVar vSbeta)) * (- #25778 * EConst Cz3 + #338 * EConst Cz4 + #21
   * EPow P2 (EConst Cz2)) * EPow P4 (EVar vMt) + EPow P2 (EVar vSbeta) * (EVar vMst2 * EVar vs2t * (#89533 * EConst
   Cz3 - #4054 * EConst Cz4 - #5352 * EPow P2 (EConst Cz2)) + #28 * EVar vMt * (- #9920 * EConst Cz3 + #782 * EConst
   Cz4 + #1173 * EPow P2 (EConst Cz2))) * EPow P3 (EVar vs2t) * EPow P5 (EVar vMst2))) + #3 * EPow P2 (EVar vMst2) *
   (- #4 * EPow P2 (EVar vMst2) * EPow P2 (EVar vMt) * (- (EVar vTbeta * EPow P2 (EVar vMuSUSY) * EPow P2 (EVar vs2t)
   * (- #1 + EPow P2 (EVar vSbeta)) * (#122917 * EConst Cz3 + #6344 * EConst Cz4 + #1254 * EPow P2 (EConst Cz2))) + #2
   * EVar vMt * EPow P2 (EVar vSbeta) * (#7 * EVar vMt * EVar vTbeta * (- #29483 * EConst Cz3 + #152 * EConst Cz4 +
   #228 * EPow P2 (EConst Cz2)) + #3 * EVar vMuSUSY * EVar vs2t * (#55597 * EConst Cz3 - #264 * EConst Cz4 + #252 *
   EPow P2 (EConst Cz2)))) + #4 * EVar vMt * EVar vs2t * EPow P2 (EVar vSbeta) * (#4 * EVar vMt * (#3 * EVar vMuSUSY *
   EVar vs2t * (#32773 * EConst Cz3 + #218 * EConst Cz4 - #3804 * EPow P2 (EConst Cz2)) + #2 * EVar vMt * EVar vTbeta
   * (- #32323 * EConst Cz3 + #112 * EConst Cz4 + #168 * EPow P2 (EConst Cz2))) + EVar vMst2 * EVar vs2t * (#3 * EVar
   vMt * EVar vTbeta * (#55597 * EConst Cz3 - #264 * EConst Cz4 + #252 * EPow P2 (EConst Cz2)) + EVar vMuSUSY * EVar
   vs2t * (#122917 * EConst Cz3 + #6344 * EConst Cz4 + #1254 * EPow P2 (EConst Cz2)))) * EPow P3 (EVar vMst2) + #32 *
   EVar vMst2 * EVar vMuSUSY * (EVar vMt * EPow P2 (EVar vSbeta) * (#32323 * EConst Cz3 - #112 * EConst Cz4 - #168 *
   EPow P2 (EConst Cz2)) - EVar vMuSUSY * EVar vs2t * EVar vTbeta * (- #1 + EPow P2 (EVar vSbeta)) * (- #32773 *
   EConst Cz3 - #218 * EConst Cz4 + #3804 * EPow P2 (EConst Cz2))) * EPow P3 (EVar vMt) + EVar vTbeta * (- #576 *
   (#608 * EConst Cz3 - #9 * EConst Cz4) * EPow P2 (EVar vMuSUSY) * (- #1 + EPow P2 (EVar vSbeta)) * EPow P4 (EVar
   vMt) + EPow P2 (EVar vSbeta) * (- (EVar vMst2 * EVar vs2t * (#122917 * EConst Cz3 + #6344 * EConst Cz4 + #1254 *
   EPow P2 (EConst Cz2))) + #16 * EVar vMt * (- #32773 * EConst Cz3 - #218 * EConst Cz4 + #3804 * EPow P2 (EConst
   Cz2))) * EPow P3 (EVar vs2t) * EPow P5 (EVar vMst2)))) - #8 * EVar vDmglst2 * (#27 * EPow P2 (EVar vMst2) * (#4 *
   EVar vMst2 * EPow P2 (EVar vMt) * (#8 * EVar vTbeta * (- #135 * EVar vDmsqst2 * EConst Cz3 * EPow P2 (EVar vMuSUSY)
   * EPow P2 (EVar vs2t) * (- #1 + EPow P2 (EVar vSbeta)) + #2 * EPow P2 (EVar vMt) * ((#83 * EConst Cz3 - #27 *
   EConst Cz4) * EPow P2 (EVar vMuSUSY) * (- #1 + EPow P2 (EVar vSbeta)) + #900 * EVar vDmsqst2 * EConst Cz3 * EPow P2
   (EVar vSbeta))) + EVar vMst2 * (#2160 * EVar vDmsqst2 * EVar vMuSUSY * EConst Cz3 * EPow P2 (EVar vs2t) * EPow P2
   (EVar vSbeta) + #2 * EVar vMuSUSY * EPow P2 (EVar vMt) * EPow P2 (EVar vSbeta) * (#18 * EConst Cz3 + #506 * EConst
   Cz4 - #105 * EPow P2 (EConst Cz2)) + EVar vMt * EVar vs2t * EVar vTbeta * (- #17280 * EVar vDmsqst2 * EConst Cz3 *
   EPow P2 (EVar vSbeta) + EPow P2 (EVar vMuSUSY) * (- #1 + EPow P2 (EVar vSbeta)) * (- #30274 * EConst Cz3 - #542 *
   EConst Cz4 + #5289 * EPow P2 (EConst Cz2))))) + #5760 * EVar vDmsqst2 * EVar vMuSUSY * EConst Cz3 * (EVar vMuSUSY *
   EVar vs2t * EVar vTbeta * (- #1 + EPow P2 (EVar vSbeta)) + #12 * EVar vMt * EPow P2 (EVar vSbeta)) * EPow P3 (EVar
   vMt) - #4 * EVar vMt * EPow P3 (EVar vMst2) * (EVar vMt * EVar vTbeta * EPow P2 (EVar vMuSUSY) * EPow P2 (EVar
   vs2t) * (- #1 + EPow P2 (EVar vSbeta)) * (#17615 * EConst Cz3 + #424 * EConst Cz4 + #474 * EPow P2 (EConst Cz2)) +
   EPow P2 (EVar vSbeta) * (#8 * EVar vMuSUSY * EVar vs2t * (- #439 * EConst Cz3 + #108 * EConst Cz4) * EPow P2 (EVar
   vMt) + #2 * EVar vTbeta * (#9017 * EConst Cz3 + #56 * EConst Cz4 + #84 * EPow P2 (EConst Cz2)) * EPow P3 (EVar vMt)
   + #1080 * EVar vDmsqst2 * EVar vMuSUSY * EConst Cz3 * EPow P3 (EVar vs2t))) + EVar vs2t * EPow P2 (EVar vSbeta) *
   (#2 * EVar vs2t * EPow P2 (EVar vMt) * (#8 * EVar vMst2 * EVar vTbeta * (- #439 * EConst Cz3 + #108 * EConst Cz4) +
   #3 * EVar vMuSUSY * (- #30274 * EConst Cz3 - #542 * EConst Cz4 + #5289 * EPow P2 (EConst Cz2))) - #2 * EVar vMt *
   EPow P2 (EVar vs2t) * (#1440 * EVar vDmsqst2 * EVar vTbeta * EConst Cz3 + #2 * EVar vMst2 * EVar vMuSUSY * (#17615
   * EConst Cz3 + #424 * EConst Cz4 + #474 * EPow P2 (EConst Cz2)) + EVar vTbeta * EPow P2 (EVar vMst2) * (- #30274 *
   EConst Cz3 - #542 * EConst Cz4 + #5289 * EPow P2 (EConst Cz2))) + #8 * EVar vTbeta * (- #18 * EConst Cz3 - #506 *
   EConst Cz4 + #105 * EPow P2 (EConst Cz2)) * EPow P3 (EVar vMt) + EVar vMst2 * EVar vTbeta * (#1080 * EVar vDmsqst2
   * EConst Cz3 + EPow P2 (EVar vMst2) * (#17615 * EConst Cz3 + #424 * EConst Cz4 + #474 * EPow P2 (EConst Cz2))) *
   EPow P3 (EVar vs2t)) * EPow P4 (EVar vMst2)) - EPow P4 (EVar vMst1) * (#8 * EVar vs2t * (- (EVar vTbeta * EPow P2
   (EVar vMuSUSY) * (- #1 + EPow P2 (EVar vSbeta)) * (- #4 * (#395581 * EConst Cz3 + #659 * EConst Cz4) + #259215 *
   EPow P2 (EConst Cz2))) + EPow P2 (EVar vSbeta) * (#855360 * EVar vDmsqst2 * EVar vTbeta * EConst Cz3 - #36 * EVar
   vMst2 * EVar vMuSUSY * (#2806 * EConst Cz3 + #1514 * EConst Cz4 + #2757 * EPow P2 (EConst Cz2)) - #4 * EVar vTbeta
   * EPow P2 (EVar vMst2) * (- #653582 * EConst Cz3 + #25730 * EConst Cz4 + #38595 * EPow P2 (EConst Cz2)))) * EPow P3
   (EVar vMt) + EPow P2 (EVar vSbeta) * (#2 * EVar vMt * (#8 * EVar vMuSUSY * (#89947 * EConst Cz3 + #6332 * EConst
   Cz4 + #9498 * EPow P2 (EConst Cz2)) + EVar vMst2 * EVar vTbeta * (- #565214 * EConst Cz3 + #31142 * EConst Cz4 +
   #46713 * EPow P2 (EConst Cz2))) * EPow P3 (EVar vMst2) * EPow P3 (EVar vs2t) + #32 * (#2 * EVar vMst2 * EVar vTbeta
   * (- #591386 * EConst Cz3 + #5582 * EConst Cz4 + #8373 * EPow P2 (EConst Cz2)) + EVar vMuSUSY * (- #834482 * EConst
   Cz3 + #28538 * EConst Cz4 + #48639 * EPow P2 (EConst Cz2))) * EPow P4 (EVar vMt) + EVar vTbeta * (#48600 * EVar
   vDmsqst2 * EConst Cz3 + EPow P2 (EVar vMst2) * (#217283 * EConst Cz3 - #16796 * EConst Cz4 - #25194 * EPow P2
   (EConst Cz2))) * EPow P3 (EVar vMst2) * EPow P4 (EVar vs2t)) - #4 * EPow P2 (EVar vMt) * EPow P2 (EVar vs2t) *
   (EPow P2 (EVar vSbeta) * (#233280 * EVar vDmsqst2 * EVar vMuSUSY * EConst Cz3 + #3 * EVar vMuSUSY * EPow P2 (EVar
   vMst2) * (- #728116 * EConst Cz3 + #10126 * EConst Cz4 + #105585 * EPow P2 (EConst Cz2)) - #36 * EVar vTbeta * (-
   #734 * EConst Cz3 + #1538 * EConst Cz4 + #2307 * EPow P2 (EConst Cz2)) * EPow P3 (EVar vMst2)) - #4 * EVar vMst2 *
   EVar vTbeta * (EPow P2 (EVar vMuSUSY) * (- #1 + EPow P2 (EVar vSbeta)) * (#353116 * EConst Cz3 + #11327 * EConst
   Cz4 + #15897 * EPow P2 (EConst Cz2)) - #6075 * EVar vDmsqst2 * EConst Cz3 * (- #2 + EPow P2 (EVar vSbeta)) * EPow
   P4 (EVar vSbeta)))) + #18 * EPow P2 (EVar vMst1) * (#8 * EPow P2 (EVar vMst2) * EPow P2 (EVar vMt) * (#6480 * EVar
   vDmsqst2 * EVar vMuSUSY * EConst Cz3 * EPow P2 (EVar vs2t) * EPow P2 (EVar vSbeta) - #24 * EVar vMuSUSY * EPow P2
   (EVar vMt) * EPow P2 (EVar vSbeta) * (- #1675 * EConst Cz3 + #26 * EConst Cz4 + #93 * EPow P2 (EConst Cz2)) + EVar
   vMt * EVar vs2t * EVar vTbeta * (- #30240 * EVar vDmsqst2 * EConst Cz3 * EPow P2 (EVar vSbeta) + EPow P2 (EVar
   vMuSUSY) * (- #1 + EPow P2 (EVar vSbeta)) * (- #47456 * EConst Cz3 - #709 * EConst Cz4 + #8535 * EPow P2 (EConst
   Cz2)))) + #43200 * EVar vDmsqst2 * EVar vMuSUSY * EConst Cz3 * (EVar vMuSUSY * EVar vs2t * EVar vTbeta * (- #1 +
   EPow P2 (EVar vSbeta)) + #8 * EVar vMt * EPow P2 (EVar vSbeta)) * EPow P3 (EVar vMt) + EVar vMt * EPow P3 (EVar
   vMst2) * (#12 * EVar vs2t * EPow P2 (EVar vMt) * EPow P2 (EVar vSbeta) * (#8 * EVar vMuSUSY * (#590 * EConst Cz3 -
   #4 * EConst Cz4 + #75 * EPow P2 (EConst Cz2)) + EVar vMst2 * EVar vTbeta * (- #26782 * EConst Cz3 + #922 * EConst
   Cz4 + #1383 * EPow P2 (EConst Cz2))) + #3 * EVar vMt * EVar vMuSUSY * EPow P2 (EVar vs2t) * (- #8 * EVar vMuSUSY *
   EVar vTbeta * (- #1 + EPow P2 (EVar vSbeta)) * (#9747 * EConst Cz3 + #185 * EConst Cz4 + #237 * EPow P2 (EConst
   Cz2)) + EVar vMst2 * EPow P2 (EVar vSbeta) * (- #99002 * EConst Cz3 - #1210 * EConst Cz4 + #18273 * EPow P2 (EConst
   Cz2))) - #16 * EVar vTbeta * EPow P2 (EVar vSbeta) * (- #28846 * EConst Cz3 + #322 * EConst Cz4 + #483 * EPow P2
   (EConst Cz2)) * EPow P3 (EVar vMt) - #2160 * EVar vDmsqst2 * (#5 * EVar vMuSUSY + #6 * EVar vMst2 * EVar vTbeta) *
   EConst Cz3 * EPow P2 (EVar vSbeta) * EPow P3 (EVar vs2t)) + #6 * EPow P2 (EVar vs2t) * EPow P2 (EVar vSbeta) *
   (#180 * EVar vDmsqst2 * EVar vTbeta * EConst Cz3 * EPow P2 (EVar vs2t) - #4 * EVar vTbeta * EPow P2 (EVar vMt) *
   (#741 * EConst Cz3 + #100 * EConst Cz4 + #150 * EPow P2 (EConst Cz2)) - EVar vMt * EVar vMuSUSY * EVar vs2t *
   (#21373 * EConst Cz3 + #316 * EConst Cz4 + #474 * EPow P2 (EConst Cz2))) * EPow P5 (EVar vMst2) + EVar vTbeta *
   (#48 * EVar vMst2 * EPow P2 (EVar vMt) * (- #360 * EVar vDmsqst2 * EConst Cz3 * EPow P2 (EVar vMuSUSY) * EPow P2
   (EVar vs2t) * (- #1 + EPow P2 (EVar vSbeta)) + EPow P2 (EVar vMt) * (#6480 * EVar vDmsqst2 * EConst Cz3 * EPow P2
   (EVar vSbeta) + EPow P2 (EVar vMuSUSY) * (- #1 + EPow P2 (EVar vSbeta)) * (#250 * EConst Cz3 - #94 * EConst Cz4 +
   #21 * EPow P2 (EConst Cz2)))) + EPow P2 (EVar vSbeta) * (#3 * EVar vMst2 * EVar vs2t * (#1879 * EConst Cz3 - #54 *
   EConst Cz4) + EVar vMt * (#8180 * EConst Cz3 - #416 * EConst Cz4 - #2406 * EPow P2 (EConst Cz2))) * EPow P3 (EVar
   vs2t) * EPow P6 (EVar vMst2)))) + #3 * (- (EPow P4 (EVar vMst1) * (- #32 * EVar vs2t * EPow P2 (EVar vMt) * EPow P2
   (EVar vSbeta) * (#3 * EVar vMuSUSY * EVar vs2t * (#11816 * EConst Cz3 + #4954 * EConst Cz4 - #6177 * EPow P2
   (EConst Cz2)) + #8 * EVar vMt * EVar vTbeta * (- #57758 * EConst Cz3 + #1370 * EConst Cz4 + #2055 * EPow P2 (EConst
   Cz2))) * EPow P3 (EVar vMst2) + #4 * EPow P2 (EVar vs2t) * EPow P2 (EVar vSbeta) * (#4 * EVar vTbeta * EPow P2
   (EVar vMt) * (- #65326 * EConst Cz3 + #13714 * EConst Cz4 + #20571 * EPow P2 (EConst Cz2)) + #4 * EVar vMt * EVar
   vs2t * (EVar vMst2 * EVar vTbeta * (- #44630 * EConst Cz3 + #878 * EConst Cz4 + #1317 * EPow P2 (EConst Cz2)) + #7
   * EVar vMuSUSY * (- #43868 * EConst Cz3 + #1970 * EConst Cz4 + #2955 * EPow P2 (EConst Cz2))) - EVar vTbeta * EPow
   P2 (EVar vs2t) * (#40 * EVar vDmsqst2 * (- #260 * EConst Cz3 + #14 * EConst Cz4 + #21 * EPow P2 (EConst Cz2)) +
   EPow P2 (EVar vMst2) * (#4 * (- #5225 + #162 * EVar vlmMst1 - #162 * EVar vlmMst2) * EConst Cz3 + #2294 * EConst
   Cz4 + #5385 * EPow P2 (EConst Cz2)))) * EPow P4 (EVar vMst2) - EPow P2 (EVar vMst2) * (#16 * EVar vTbeta * EPow P2
   (EVar vMt) * EPow P2 (EVar vs2t) * (- #160 * EVar vDmsqst2 * EPow P2 (EVar vSbeta) * (#2 * (- #7 * EConst Cz3 +
   EConst Cz4) + #3 * EPow P2 (EConst Cz2)) + EPow P2 (EVar vMuSUSY) * (#1 - EPow P2 (EVar vSbeta)) * (- #8 * (#91963
   + #162 * EVar vlmMst1 - #162 * EVar vlmMst2) * EConst Cz3 + #27446 * EConst Cz4 + #35823 * EPow P2 (EConst Cz2))) +
   EPow P2 (EVar vSbeta) * (#64 * EVar vMuSUSY * EVar vs2t * (- #27086 * EConst Cz3 + #12062 * EConst Cz4 + #18093 *
   EPow P2 (EConst Cz2)) * EPow P3 (EVar vMt) - #33280 * EVar vDmsqst2 * EVar vMt * EVar vMuSUSY * (#2 * (- #7 *
   EConst Cz3 + EConst Cz4) + #3 * EPow P2 (EConst Cz2)) * EPow P3 (EVar vs2t) + #1024 * EVar vTbeta * (#24241 *
   EConst Cz3 + #146 * EConst Cz4 + #219 * EPow P2 (EConst Cz2)) * EPow P4 (EVar vMt) - #5 * EVar vTbeta * EVar
   vxDmsqst2 * EPow P2 (EVar vDmsqst2) * (#2453 * EConst Cz3 + #448 * EConst Cz4 + #672 * EPow P2 (EConst Cz2)) * EPow
   P4 (EVar vs2t))) - #64 * EVar vMst2 * EVar vMt * (- (EVar vs2t * EVar vTbeta * EPow P2 (EVar vMt) * (#25920 * EVar
   vDmsqst2 * EConst Cz3 * EPow P2 (EVar vSbeta) + EPow P2 (EVar vMuSUSY) * (- #1 + EPow P2 (EVar vSbeta)) * (- #99632
   * EConst Cz3 - #11764 * EConst Cz4 + #20505 * EPow P2 (EConst Cz2)))) - #4 * EVar vMuSUSY * EPow P2 (EVar vSbeta) *
   (- #107072 * EConst Cz3 + #3326 * EConst Cz4 + #3045 * EPow P2 (EConst Cz2)) * EPow P3 (EVar vMt) + #405 * EVar
   vDmsqst2 * EConst Cz3 * EPow P2 (EVar vs2t) * EPow P2 (EVar vSbeta) * (#96 * EVar vMt * EVar vMuSUSY - #5 * EVar
   vDmsqst2 * EVar vs2t * EVar vTbeta * EVar vxDmsqst2 * (- #2 - #2 * EPow P2 (EVar vSbeta) + EPow P4 (EVar vSbeta))))
   + #32 * EVar vMt * (- #10 * EVar vDmsqst2 * EVar vMt * (- (EVar vTbeta * EPow P2 (EVar vMuSUSY) * EPow P2 (EVar
   vs2t) * (- #1 + EPow P2 (EVar vSbeta)) * (- #1771 * EConst Cz3 + #442 * EConst Cz4 + #663 * EPow P2 (EConst Cz2)))
   + #2 * EVar vMt * EPow P2 (EVar vSbeta) * (#3888 * EVar vMt * EVar vTbeta * EConst Cz3 + EVar vMuSUSY * EVar vs2t *
   (- #1930 * EConst Cz3 + #106 * EConst Cz4 + #159 * EPow P2 (EConst Cz2)))) - #6 * EVar vTbeta * EPow P2 (EVar
   vMuSUSY) * (- #1 + EPow P2 (EVar vSbeta)) * (#1502 * EConst Cz3 + #2062 * EConst Cz4 + #1635 * EPow P2 (EConst
   Cz2)) * EPow P3 (EVar vMt) - #5 * EVar vxDmsqst2 * EPow P2 (EVar vDmsqst2) * EPow P2 (EVar vs2t) * EPow P2 (EVar
   vSbeta) * (#2 * EVar vMuSUSY * EVar vs2t * (- #3034 * EConst Cz3 + #94 * EConst Cz4 + #141 * EPow P2 (EConst Cz2))
   + #3 * EVar vMt * EVar vTbeta * (#20 * EConst Cz4 + #30 * EPow P2 (EConst Cz2) + EConst Cz3 * (- #140 - #162 * EPow
   P2 (EVar vSbeta) + #81 * EPow P4 (EVar vSbeta))))))) + #6 * EPow P2 (EVar vMst1) * (#34560 * EVar vDmsqst2 * EVar
   vMst2 * EConst Cz3 * EPow P2 (EVar vMt) * (EVar vMuSUSY * (#16 * EPow P2 (EVar vMt) + #3 * EVar vDmsqst2 * EVar
   vxDmsqst2 * EPow P2 (EVar vs2t)) * EPow P2 (EVar vSbeta) - #2 * EVar vMt * EVar vs2t * EVar vTbeta * (- #7 * EPow
   P2 (EVar vMuSUSY) * (- #1 + EPow P2 (EVar vSbeta)) + #4 * EVar vDmsqst2 * EVar vxDmsqst2 * EPow P2 (EVar vSbeta)))
   + #320 * EVar vxDmsqst2 * EPow P2 (EVar vDmsqst2) * EPow P2 (EVar vMt) * (#1080 * EVar vTbeta * EConst Cz3 * EPow
   P2 (EVar vMt) * EPow P2 (EVar vSbeta) - #8 * EVar vMt * EVar vMuSUSY * EVar vs2t * EPow P2 (EVar vSbeta) * (#2 * (-
   #7 * EConst Cz3 + EConst Cz4) + #3 * EPow P2 (EConst Cz2)) + EVar vTbeta * EPow P2 (EVar vMuSUSY) * EPow P2 (EVar
   vs2t) * (- #1 + EPow P2 (EVar vSbeta)) * (- #944 * EConst Cz3 + #14 * EConst Cz4 + #21 * EPow P2 (EConst Cz2))) -
   #2 * EVar vMt * EPow P2 (EVar vMst2) * (- #5 * EVar vxDmsqst2 * EPow P2 (EVar vDmsqst2) * EPow P2 (EVar vs2t) *
   EPow P2 (EVar vSbeta) * (#2 * EVar vMt * EVar vTbeta * (#7 * EConst Cz3 + #80 * EConst Cz4 + #120 * EPow P2 (EConst
   Cz2)) + EVar vMuSUSY * EVar vs2t * (- #16999 * EConst Cz3 + #352 * EConst Cz4 + #528 * EPow P2 (EConst Cz2))) -
   #240 * EVar vDmsqst2 * EVar vMt * (- (EVar vTbeta * EPow P2 (EVar vMuSUSY) * EPow P2 (EVar vs2t) * (- #1 + EPow P2
   (EVar vSbeta)) * (- #35 * EConst Cz3 + #26 * EConst Cz4 + #39 * EPow P2 (EConst Cz2))) + #2 * EVar vMt * EPow P2
   (EVar vSbeta) * (#288 * EVar vMt * EVar vTbeta * EConst Cz3 + EVar vMuSUSY * EVar vs2t * (- #202 * EConst Cz3 + #10
   * EConst Cz4 + #15 * EPow P2 (EConst Cz2)))) - #288 * EVar vTbeta * EPow P2 (EVar vMuSUSY) * (- #1 + EPow P2 (EVar
   vSbeta)) * (#218 * EConst Cz3 + #50 * EConst Cz4 + #21 * EPow P2 (EConst Cz2)) * EPow P3 (EVar vMt)) + #64 * EVar
   vMt * EPow P3 (EVar vMst2) * (- #270 * EVar vDmsqst2 * (- #24 * EVar vMt * EVar vMuSUSY + EVar vDmsqst2 * EVar vs2t
   * EVar vTbeta * EVar vxDmsqst2) * EConst Cz3 * EPow P2 (EVar vs2t) * EPow P2 (EVar vSbeta) - EVar vs2t * EVar
   vTbeta * EPow P2 (EVar vMt) * (#4320 * EVar vDmsqst2 * EConst Cz3 * EPow P2 (EVar vSbeta) + EPow P2 (EVar vMuSUSY)
   * (- #1 + EPow P2 (EVar vSbeta)) * (- #14636 * EConst Cz3 - #1135 * EConst Cz4 + #2388 * EPow P2 (EConst Cz2))) -
   #4 * EVar vMuSUSY * EPow P2 (EVar vSbeta) * (- #8219 * EConst Cz3 + #326 * EConst Cz4 + #165 * EPow P2 (EConst
   Cz2)) * EPow P3 (EVar vMt)) - EPow P4 (EVar vMst2) * (- #16 * EVar vTbeta * EPow P2 (EVar vMt) * EPow P2 (EVar
   vs2t) * (- #60 * EVar vDmsqst2 * EPow P2 (EVar vSbeta) * (#2 * (- #7 * EConst Cz3 + EConst Cz4) + #3 * EPow P2
   (EConst Cz2)) - EPow P2 (EVar vMuSUSY) * (- #1 + EPow P2 (EVar vSbeta)) * ((- #71438 - #216 * EVar vlmMst1 + #216 *
   EVar vlmMst2) * EConst Cz3 + #2276 * EConst Cz4 + #2523 * EPow P2 (EConst Cz2))) + EPow P2 (EVar vSbeta) * (- #16 *
   EVar vMuSUSY * EVar vs2t * (#3718 * EConst Cz3 + #3470 * EConst Cz4 + #5205 * EPow P2 (EConst Cz2)) * EPow P3 (EVar
   vMt) + #960 * EVar vDmsqst2 * EVar vMt * EVar vMuSUSY * (- #52 * EConst Cz3 + #10 * EConst Cz4 + #15 * EPow P2
   (EConst Cz2)) * EPow P3 (EVar vs2t) - #32 * EVar vTbeta * (#69050 * EConst Cz3 + #418 * EConst Cz4 + #627 * EPow P2
   (EConst Cz2)) * EPow P4 (EVar vMt) + #5 * EVar vTbeta * EVar vxDmsqst2 * EPow P2 (EVar vDmsqst2) * (- #1895 *
   EConst Cz3 + #128 * EConst Cz4 + #192 * EPow P2 (EConst Cz2)) * EPow P4 (EVar vs2t))) + #8 * EVar vs2t * EPow P2
   (EVar vSbeta) * (- #4 * EVar vMt * EPow P2 (EVar vs2t) * (#1080 * EVar vDmsqst2 * EVar vTbeta * EConst Cz3 + EVar
   vMst2 * EVar vMuSUSY * ((- #23848 - #54 * EVar vlmMst1 + #54 * EVar vlmMst2) * EConst Cz3 + #958 * EConst Cz4 +
   #1275 * EPow P2 (EConst Cz2))) + EVar vs2t * EPow P2 (EVar vMt) * (EVar vMuSUSY * (#68262 * EConst Cz3 + #9030 *
   EConst Cz4 - #13671 * EPow P2 (EConst Cz2)) - #2 * EVar vMst2 * EVar vTbeta * (#4 * (- #55 + #54 * EVar vlmMst1 -
   #54 * EVar vlmMst2) * EConst Cz3 + #826 * EConst Cz4 + #1887 * EPow P2 (EConst Cz2))) + #4 * EVar vTbeta * (-
   #48454 * EConst Cz3 + #754 * EConst Cz4 + #1131 * EPow P2 (EConst Cz2)) * EPow P3 (EVar vMt) + #15 * EVar vDmsqst2
   * EVar vMst2 * EVar vTbeta * (- #173 * EConst Cz3 + #14 * EConst Cz4 + #21 * EPow P2 (EConst Cz2)) * EPow P3 (EVar
   vs2t)) * EPow P5 (EVar vMst2) + #4 * EVar vTbeta * EPow P2 (EVar vSbeta) * (- #4 * EVar vMt * (- #6518 * EConst Cz3
   + #740 * EConst Cz4 + #219 * EPow P2 (EConst Cz2)) + EVar vMst2 * EVar vs2t * (- #23954 * EConst Cz3 + #1556 *
   EConst Cz4 + #2577 * EPow P2 (EConst Cz2))) * EPow P3 (EVar vs2t) * EPow P7 (EVar vMst2)) + #9 * EVar vMst2 *
   (#11520 * EVar vDmsqst2 * EConst Cz3 * EPow P2 (EVar vMt) * (#2 * EVar vDmsqst2 * EVar vMt * EVar vMuSUSY * EVar
   vxDmsqst2 * (EVar vMuSUSY * EVar vs2t * EVar vTbeta * (- #1 + EPow P2 (EVar vSbeta)) + #4 * EVar vMt * EPow P2
   (EVar vSbeta)) + EPow P2 (EVar vMst2) * (EVar vMuSUSY * (#16 * EPow P2 (EVar vMt) + #3 * EVar vDmsqst2 * EVar
   vxDmsqst2 * EPow P2 (EVar vs2t)) * EPow P2 (EVar vSbeta) - #4 * EVar vMt * EVar vs2t * EVar vTbeta * (- #3 * EPow
   P2 (EVar vMuSUSY) * (- #1 + EPow P2 (EVar vSbeta)) + #2 * EVar vDmsqst2 * EVar vxDmsqst2 * EPow P2 (EVar vSbeta))))
   + #20 * EVar vMst2 * EVar vxDmsqst2 * EPow P2 (EVar vDmsqst2) * EPow P2 (EVar vMt) * (#4 * EVar vMt * EPow P2 (EVar
   vSbeta) * (#675 * EVar vMt * EVar vTbeta * EConst Cz3 + EVar vMuSUSY * EVar vs2t * (#301 * EConst Cz3 - #16 *
   EConst Cz4 - #24 * EPow P2 (EConst Cz2))) + EVar vTbeta * EPow P2 (EVar vMuSUSY) * EPow P2 (EVar vs2t) * (- #1 +
   EPow P2 (EVar vSbeta)) * (- #4403 * EConst Cz3 + #32 * EConst Cz4 + #48 * EPow P2 (EConst Cz2))) - #4 * EVar vMt *
   EPow P3 (EVar vMst2) * (- #5 * EVar vxDmsqst2 * EPow P2 (EVar vDmsqst2) * EPow P2 (EVar vs2t) * EPow P2 (EVar
   vSbeta) * (#2 * EVar vMt * EVar vTbeta * (- #301 * EConst Cz3 + #16 * EConst Cz4 + #24 * EPow P2 (EConst Cz2)) +
   EVar vMuSUSY * EVar vs2t * (- #4403 * EConst Cz3 + #32 * EConst Cz4 + #48 * EPow P2 (EConst Cz2))) - #240 * EVar
   vDmsqst2 * EVar vMt * (- (EVar vTbeta * EPow P2 (EVar vMuSUSY) * EPow P2 (EVar vs2t) * (- #1 + EPow P2 (EVar
   vSbeta)) * (#23 * EConst Cz3 + #2 * EConst Cz4 + #3 * EPow P2 (EConst Cz2))) + #2 * EVar vMt * EPow P2 (EVar
   vSbeta) * (#48 * EVar vMt * EVar vTbeta * EConst Cz3 + EVar vMuSUSY * EVar vs2t * (- #58 * EConst Cz3 + #2 * EConst
   Cz4 + #3 * EPow P2 (EConst Cz2)))) - #64 * EVar vTbeta * (#230 * EConst Cz3 + #27 * EConst Cz4) * EPow P2 (EVar
   vMuSUSY) * (- #1 + EPow P2 (EVar vSbeta)) * EPow P3 (EVar vMt)) - (#96 * EVar vTbeta * EPow P2 (EVar vMt) * EPow P2
   (EVar vs2t) * (EPow P2 (EVar vMuSUSY) * (#1 - EPow P2 (EVar vSbeta)) * (#2 * (#1319 + #6 * EVar vlmMst1 - #6 * EVar
   vlmMst2) * EConst Cz3 - #40 * EConst Cz4 + #3 * EPow P2 (EConst Cz2)) + #10 * EVar vDmsqst2 * EPow P2 (EVar vSbeta)
   * (- #58 * EConst Cz3 + #2 * EConst Cz4 + #3 * EPow P2 (EConst Cz2))) + EPow P2 (EVar vSbeta) * (- #96 * EVar
   vMuSUSY * EVar vs2t * (#6 * (#77 - #8 * EVar vlmMst1 + #8 * EVar vlmMst2) * EConst Cz3 + #202 * EConst Cz4 + #159 *
   EPow P2 (EConst Cz2)) * EPow P3 (EVar vMt) + #960 * EVar vDmsqst2 * EVar vMt * EVar vMuSUSY * (#23 * EConst Cz3 +
   #2 * EConst Cz4 + #3 * EPow P2 (EConst Cz2)) * EPow P3 (EVar vs2t) + EVar vTbeta * (- #192 * (#8 * (#514 - #3 *
   (EVar vlmMst1 + EVar vlmMst2) + #6 * EVar vlmMt) * EConst Cz3 + #14 * EConst Cz4 + #21 * EPow P2 (EConst Cz2)) *
   EPow P4 (EVar vMt) + #5 * EVar vxDmsqst2 * EPow P2 (EVar vDmsqst2) * (- #4403 * EConst Cz3 + #32 * EConst Cz4 + #48
   * EPow P2 (EConst Cz2)) * EPow P4 (EVar vs2t)))) * EPow P5 (EVar vMst2) + EVar vMt * (#32 * (- #360 * EVar vDmsqst2
   * (- #18 * EVar vMt * EVar vMuSUSY + EVar vDmsqst2 * EVar vs2t * EVar vTbeta * EVar vxDmsqst2) * EConst Cz3 * EPow
   P2 (EVar vs2t) * EPow P2 (EVar vSbeta) - #5 * EVar vs2t * EVar vTbeta * EPow P2 (EVar vMt) * (#1152 * EVar vDmsqst2
   * EConst Cz3 * EPow P2 (EVar vSbeta) + EPow P2 (EVar vMuSUSY) * (- #1 + EPow P2 (EVar vSbeta)) * (- #2386 * EConst
   Cz3 - #102 * EConst Cz4 + #333 * EPow P2 (EConst Cz2))) - #6 * EVar vMuSUSY * EPow P2 (EVar vSbeta) * (- #1922 *
   EConst Cz3 + #206 * EConst Cz4 + #21 * EPow P2 (EConst Cz2)) * EPow P3 (EVar vMt)) * EPow P4 (EVar vMst2) - #48 *
   EVar vs2t * EPow P2 (EVar vSbeta) * (#1440 * EVar vDmsqst2 * EVar vTbeta * EConst Cz3 * EPow P2 (EVar vs2t) - #4 *
   EVar vTbeta * EPow P2 (EVar vMt) * (- #1922 * EConst Cz3 + #206 * EConst Cz4 + #21 * EPow P2 (EConst Cz2)) + #5 *
   EVar vMt * EVar vMuSUSY * EVar vs2t * (- #2386 * EConst Cz3 - #102 * EConst Cz4 + #333 * EPow P2 (EConst Cz2))) *
   EPow P6 (EVar vMst2)) + #48 * EPow P2 (EVar vs2t) * EPow P2 (EVar vSbeta) * (#2 * EVar vMt * EVar vMuSUSY * EVar
   vs2t * (#2 * (#1319 + #6 * EVar vlmMst1 - #6 * EVar vlmMst2) * EConst Cz3 - #40 * EConst Cz4 + #3 * EPow P2 (EConst
   Cz2)) + EVar vTbeta * (#5 * EVar vDmsqst2 * EPow P2 (EVar vs2t) * (#23 * EConst Cz3 + #2 * EConst Cz4 + #3 * EPow
   P2 (EConst Cz2)) - EPow P2 (EVar vMt) * (#6 * (#77 - #8 * EVar vlmMst1 + #8 * EVar vlmMst2) * EConst Cz3 + #202 *
   EConst Cz4 + #159 * EPow P2 (EConst Cz2)))) * EPow P7 (EVar vMst2) + #8 * EVar vTbeta * EPow P2 (EVar vSbeta) * (-
   #3 * EVar vMst2 * EVar vs2t * (#2 * (#1319 + #6 * EVar vlmMst1 - #6 * EVar vlmMst2) * EConst Cz3 - #40 * EConst Cz4
   + #3 * EPow P2 (EConst Cz2)) + #10 * EVar vMt * (- #2386 * EConst Cz3 - #102 * EConst Cz4 + #333 * EPow P2 (EConst
   Cz2))) * EPow P3 (EVar vs2t) * EPow P8 (EVar vMst2)))) / (#23328 * EVar vTbeta * EPow P2 (EVar vSbeta) * EPow P6
   (EVar vMst2)) - EVar vAl4p * (EVar vtwoLoopFlag * (- #72 * EVar vMt * EPow P3 (EVar vs2t) * (- (EVar vMst2 * (#4 *
   (#3 + EVar vlmMst1 * (#2 + EVar vlmMst2) - EPow P2 (EVar vlmMst2)) * EPow P2 (EVar vMst1) * EPow P2 (EVar vMst2) +
   (#3 + #2 * EVar vlmMst1 - #2 * EVar vlmMst2) * EPow P4 (EVar vMst1) + #4 * (- #4 + EVar vlmMst1 - #3 * EVar vlmMst2
   + EVar vlmMst1 * EVar vlmMst2 - EPow P2 (EVar vlmMst2)) * EPow P4 (EVar vMst2))) + EVar vDmglst2 * (- #4 * (#1 +
   EVar vlmMst1 * (- #2 + EVar vlmMst2) + #4 * EVar vlmMst2 - EPow P2 (EVar vlmMst2)) * EPow P2 (EVar vMst1) * EPow P2
   (EVar vMst2) + (#1 + #6 * EVar vlmMst1 - #6 * EVar vlmMst2) * EPow P4 (EVar vMst1) + #4 * (#6 + EVar vlmMst1 + EVar
   vlmMst2 - EVar vlmMst1 * EVar vlmMst2 + EPow P2 (EVar vlmMst2)) * EPow P4 (EVar vMst2))) / EPow P2 (EVar vMst2) -
   #144 * EVar vs2t * EPow P3 (EVar vMt) * (#4 * EPow P2 (EVar vMst1) * ((#4 - #5 * EVar vlmMst2 + EVar vlmMst1 * (#5
   + #2 * EVar vlmMst2 - #2 * EVar vlmMt) + #2 * EVar vlmMst2 * EVar vlmMt - #2 * EPow P2 (EVar vlmMst2)) * EPow P2
   (EVar vMst2) + (- #5 - #6 * EVar vlmMst2 + EVar vlmMst1 * (#4 + #3 * EVar vlmMst2) - #3 * EPow P2 (EVar vlmMst2)) *
   EPow P2 (EVar vMuSUSY)) * EPow P3 (EVar vMst2) + EVar vMst2 * (#4 * (#5 - #7 * EVar vlmMst2 + EVar vlmMst1 * (#7 +
   #2 * EVar vlmMst2 - #2 * EVar vlmMt) + #2 * EVar vlmMst2 * EVar vlmMt - #2 * EPow P2 (EVar vlmMst2)) * EPow P2
   (EVar vMst2) + (- #21 - #38 * EVar vlmMst2 + #10 * EVar vlmMst1 * (#3 + #2 * EVar vlmMst2) - #20 * EPow P2 (EVar
   vlmMst2)) * EPow P2 (EVar vMuSUSY)) * EPow P4 (EVar vMst1) + #4 * (- #4 + EVar vlmMst1 - #3 * EVar vlmMst2 + EVar
   vlmMst1 * EVar vlmMst2 - EPow P2 (EVar vlmMst2)) * EPow P2 (EVar vMuSUSY) * EPow P5 (EVar vMst2) + EVar vDmglst2 *
   (#4 * EPow P2 (EVar vMst1) * EPow P2 (EVar vMst2) * ((#6 + #13 * EVar vlmMst2 - #4 * EVar vlmMt - #2 * EVar vlmMst2
   * EVar vlmMt + EVar vlmMst1 * (- #9 - #2 * EVar vlmMst2 + #2 * EVar vlmMt) + #2 * EPow P2 (EVar vlmMst2)) * EPow P2
   (EVar vMst2) + (- #11 + #2 * EVar vlmMst2 + EVar vlmMst1 * (- #4 + #3 * EVar vlmMst2) - #3 * EPow P2 (EVar
   vlmMst2)) * EPow P2 (EVar vMuSUSY)) - (#4 * (#1 - #29 * EVar vlmMst2 + EVar vlmMst1 * (#25 + #6 * EVar vlmMst2 - #6
   * EVar vlmMt) + #4 * EVar vlmMt + #6 * EVar vlmMst2 * EVar vlmMt - #6 * EPow P2 (EVar vlmMst2)) * EPow P2 (EVar
   vMst2) + (#65 + EVar vlmMst1 * (#34 - #20 * EVar vlmMst2) - #26 * EVar vlmMst2 + #20 * EPow P2 (EVar vlmMst2)) *
   EPow P2 (EVar vMuSUSY)) * EPow P4 (EVar vMst1) - #4 * (#6 + EVar vlmMst1 + EVar vlmMst2 - EVar vlmMst1 * EVar
   vlmMst2 + EPow P2 (EVar vlmMst2)) * EPow P2 (EVar vMuSUSY) * EPow P4 (EVar vMst2) + #8 * (#5 + EVar vlmMst1 * (- #1
   + EVar vlmMst2) + EVar vlmMst2 - EPow P2 (EVar vlmMst2)) * EPow P6 (EVar vMst2)) + #4 * (#3 - #4 * EVar vlmMst2 +
   #2 * (EVar vlmMst1 + EVar vlmMst1 * EVar vlmMst2 + EVar vlmMt) - #2 * EPow P2 (EVar vlmMst2)) * EPow P7 (EVar
   vMst2)) / EPow P6 (EVar vMst2) + #32 * EPow P4 (EVar vMt) * (#2 * EVar vDmglst2 * ((#53 - #18 * EVar vlmMst1 + #24
   * EVar vlmMst2 - #24 * EVar vlmMt) * EPow P2 (EVar vMst1) * EPow P4 (EVar vMst2) + #18 * ((#5 + EVar vlmMst2 * (#11
   - #2 * EVar vlmMt) - #2 * EVar vlmMst1 * (#4 + EVar vlmMst2 - EVar vlmMt) - #3 * EVar vlmMt + #2 * EPow P2 (EVar
   vlmMst2)) * EPow P2 (EVar vMst2) * EPow P4 (EVar vMst1) + (#3 - #6 * EVar vlmMst2 * (- #5 + EVar vlmMt) - #5 * EVar
   vlmMt + EVar vlmMst1 * (- #25 - #6 * EVar vlmMst2 + #6 * EVar vlmMt) + #6 * EPow P2 (EVar vlmMst2)) * EPow P6 (EVar
   vMst1)) - #18 * EVar vlmMst2 * EPow P6 (EVar vMst2)) + #9 * (#2 * (#2 + #2 * EVar vlmMst1 * (#3 + EVar vlmMst2 -
   EVar vlmMt) + EVar vlmMt + EVar vlmMst2 * (- #7 + #2 * EVar vlmMt) - #2 * EPow P2 (EVar vlmMst2)) * EPow P3 (EVar
   vMst2) * EPow P4 (EVar vMst1) + (#3 + #2 * EVar vlmMst1 * (#3 + EVar vlmMst2) + EVar vlmMt + EVar vlmMst2 * (- #5 +
   #4 * EVar vlmMt) + EPow P2 (EVar vlmMst1) - EPow P2 (EVar vlmMst2) - #6 * EPow P2 (EVar vlmMt)) * EPow P2 (EVar
   vMst1) * EPow P5 (EVar vMst2) + EVar vMst2 * (#9 + EVar vlmMst1 * (#22 + #6 * EVar vlmMst2 - #6 * EVar vlmMt) + #6
   * EVar vlmMst2 * (- #4 + EVar vlmMt) + #2 * EVar vlmMt - #6 * EPow P2 (EVar vlmMst2)) * EPow P6 (EVar vMst1) - #2 *
   (#1 + EVar vlmMst2) * EPow P7 (EVar vMst2))) / (EPow P2 (EVar vMst1) * EPow P5 (EVar vMst2)) + #36 * EVar vMt *
   EVar vMuSUSY * (#16 * EPow P3 (EVar vMt) * (#2 * (#4 + EVar vlmMst1 * (#3 + #2 * EVar vlmMst2 - EVar vlmMt) + EVar
   vlmMst2 * (- #4 + EVar vlmMt) + EVar vlmMt - #2 * EPow P2 (EVar vlmMst2)) * EPow P2 (EVar vMst1) * EPow P3 (EVar
   vMst2) + EVar vMst2 * (#13 + #2 * EVar vlmMst1 * (#6 + #3 * EVar vlmMst2 - #2 * EVar vlmMt) + #2 * EVar vlmMt + #2
   * EVar vlmMst2 * (- #7 + #2 * EVar vlmMt) - #6 * EPow P2 (EVar vlmMst2)) * EPow P4 (EVar vMst1) + EVar vDmglst2 *
   (#11 - #6 * EVar vlmMst1 * EVar vlmMst2 - #8 * EVar vlmMst2 * (- #5 + EVar vlmMt) + #8 * EVar vlmMst1 * (- #4 +
   EVar vlmMt) - #8 * EVar vlmMt + #6 * EPow P2 (EVar vlmMst2)) * EPow P4 (EVar vMst1) + #2 * EVar vDmglst2 * ((#7 +
   #7 * EVar vlmMst2 + EVar vlmMst1 * (- #5 + EVar vlmMt) - #2 * EVar vlmMt - EVar vlmMst2 * EVar vlmMt) * EPow P2
   (EVar vMst1) * EPow P2 (EVar vMst2) + (#5 + EVar vlmMst1 * (- #1 + EVar vlmMst2) + EVar vlmMst2 - EPow P2 (EVar
   vlmMst2)) * EPow P4 (EVar vMst2)) + #2 * (#2 + EVar vlmMst1 + (- #2 + EVar vlmMst1) * EVar vlmMst2 + EVar vlmMt -
   EPow P2 (EVar vlmMst2)) * EPow P5 (EVar vMst2)) + #6 * EVar vMt * EPow P2 (EVar vMst2) * EPow P2 (EVar vs2t) * (#4
   * (#1 + #3 * EVar vlmMst2 - EVar vlmMst1 * (#3 + #2 * EVar vlmMst2) + #2 * EPow P2 (EVar vlmMst2)) * EPow P2 (EVar
   vMst1) * EPow P3 (EVar vMst2) + EVar vMst2 * (#1 + #14 * EVar vlmMst2 - #2 * EVar vlmMst1 * (#7 + #4 * EVar
   vlmMst2) + #8 * EPow P2 (EVar vlmMst2)) * EPow P4 (EVar vMst1) + EVar vDmglst2 * (#4 * (#5 + EVar vlmMst1 * (#3 -
   #2 * EVar vlmMst2) - #3 * EVar vlmMst2 + #2 * EPow P2 (EVar vlmMst2)) * EPow P2 (EVar vMst1) * EPow P2 (EVar vMst2)
   + (#21 + EVar vlmMst1 * (#18 - #8 * EVar vlmMst2) - #18 * EVar vlmMst2 + #8 * EPow P2 (EVar vlmMst2)) * EPow P4
   (EVar vMst1) + #4 * (#6 + EVar vlmMst1 + EVar vlmMst2 - EVar vlmMst1 * EVar vlmMst2 + EPow P2 (EVar vlmMst2)) *
   EPow P4 (EVar vMst2)) + #4 * (#4 + #3 * EVar vlmMst2 - EVar vlmMst1 * (#1 + EVar vlmMst2) + EPow P2 (EVar vlmMst2))
   * EPow P5 (EVar vMst2)) + #8 * EVar vMst2 * EVar vs2t * EPow P2 (EVar vMt) * (EVar vDmglst2 * (#4 * (#1 - EVar
   vlmMst1 + EVar vlmMst2) * EPow P2 (EVar vMst2) * EPow P4 (EVar vMst1) + #2 * (#1 + #2 * EVar vlmMst2) * EPow P2
   (EVar vMst1) * EPow P4 (EVar vMst2) + (#4 - #8 * EVar vlmMst1 + #8 * EVar vlmMst2) * EPow P6 (EVar vMst1) - #4 *
   EVar vlmMst2 * EPow P6 (EVar vMst2)) - EVar vMst2 * (- #2 * EVar vlmMst1 * ((#1 + #2 * EVar vlmMst2) * (EPow P2
   (EVar vMst1) + EPow P2 (EVar vMst2)) * EPow P4 (EVar vMst1) + (#3 + EVar vlmMst2) * EPow P2 (EVar vMst1) * EPow P4
   (EVar vMst2)) + EPow P2 (EVar vlmMst1) * (#2 * EPow P2 (EVar vMst2) * EPow P4 (EVar vMst1) - EPow P2 (EVar vMst1) *
   EPow P4 (EVar vMst2) + #2 * EPow P6 (EVar vMst1)) + EPow P2 (EVar vlmMst2) * (#2 * EPow P2 (EVar vMst2) * EPow P4
   (EVar vMst1) + #3 * EPow P2 (EVar vMst1) * EPow P4 (EVar vMst2) + #2 * EPow P6 (EVar vMst1)) + #2 * EPow P6 (EVar
   vMst2) + #2 * EVar vlmMst2 * (EPow P2 (EVar vMst2) * EPow P4 (EVar vMst1) + #2 * EPow P2 (EVar vMst1) * EPow P4
   (EVar vMst2) + EPow P6 (EVar vMst1) + EPow P6 (EVar vMst2)))) / EPow P2 (EVar vMst1) + EPow P3 (EVar vMst2) * EPow
   P3 (EVar vs2t) * (#2 * (- #16 + #6 * EVar vlmMst2 - #2 * EVar vlmMst1 * (#8 + #5 * EVar vlmMst2) + #3 * EPow P2
   (EVar vlmMst1) + #7 * EPow P2 (EVar vlmMst2)) * EPow P3 (EVar vMst2) * EPow P4 (EVar vMst1) - #2 * (- #12 - #18 *
   EVar vlmMst2 + #2 * EVar vlmMst1 * (#5 + #3 * EVar vlmMst2) + EPow P2 (EVar vlmMst1) - #7 * EPow P2 (EVar vlmMst2))
   * EPow P2 (EVar vMst1) * EPow P5 (EVar vMst2) + EVar vMst2 * (#3 + EVar vlmMst1 * (#2 - #32 * EVar vlmMst2) - #2 *
   EVar vlmMst2 + #16 * EPow P2 (EVar vlmMst1) + #16 * EPow P2 (EVar vlmMst2)) * EPow P6 (EVar vMst1) - #4 * EVar
   vDmglst2 * (#2 * (#1 + #2 * EVar vlmMst1 - EVar vlmMst2) * EPow P2 (EVar vMst2) * EPow P4 (EVar vMst1) + #2 * (#1 +
   EVar vlmMst1 - EVar vlmMst2 + #2 * EVar vlmMst1 * EVar vlmMst2 - #2 * EPow P2 (EVar vlmMst2)) * EPow P2 (EVar
   vMst1) * EPow P4 (EVar vMst2) + (#1 + #2 * EVar vlmMst1 - #2 * EVar vlmMst2) * EPow P6 (EVar vMst1) - #2 * EVar
   vlmMst2 * EPow P6 (EVar vMst2)) + #4 * (#1 + EVar vlmMst2) * EPow P7 (EVar vMst2)) / EPow P2 (EVar vMst1)) / (EVar
   vTbeta * EPow P6 (EVar vMst2)) + #36 * EPow P2 (EVar vMt) * EPow P2 (EVar vs2t) * (#4 * (- #2 * EVar vlmMst1 * (-
   #2 + EVar vlmMst2) - EVar vlmMst2 * (#2 + EVar vlmMst2) + #3 * EPow P2 (EVar vlmMst1)) * EPow P2 (EVar vMst1) - #4
   * (#2 - #2 * EVar vlmMst2 + #2 * EVar vlmMst1 * (#3 + EVar vlmMst2) + EPow P2 (EVar vlmMst1) - #3 * EPow P2 (EVar
   vlmMst2)) * EPow P2 (EVar vMst2) + #8 * (#2 * EVar vDmglst2 * EVar vlmMst2 + EVar vMst2 + EVar vlmMst2 * EVar
   vMst2) * EPow P3 (EVar vMst2) / EPow P2 (EVar vMst1) - #8 * EVar vDmglst2 * (EPow P2 (EVar vMst1) * EPow P2 (EVar
   vMst2) - #2 * EVar vlmMst1 * EPow P2 (EVar vMst1) * (EPow P2 (EVar vMst1) + EPow P2 (EVar vMst2)) + #2 * EVar
   vlmMst2 * EPow P4 (EVar vMst1) + EPow P4 (EVar vMst2) + #4 * EVar vlmMst2 * EPow P4 (EVar vMst2)) / EPow P3 (EVar
   vMst2) + EPow P2 (EVar vMuSUSY) * (#4 * (- #1 - #13 * EVar vlmMst1 + #13 * EVar vlmMst2 - #8 * EVar vlmMst1 * EVar
   vlmMst2 + EPow P2 (EVar vlmMst1) + #7 * EPow P2 (EVar vlmMst2)) * EPow P3 (EVar vMst2) * EPow P4 (EVar vMst1) - #2
   * (- #14 + #10 * EVar vlmMst1 - #20 * EVar vlmMst2 + #6 * EVar vlmMst1 * EVar vlmMst2 + EPow P2 (EVar vlmMst1) - #7
   * EPow P2 (EVar vlmMst2)) * EPow P2 (EVar vMst1) * EPow P5 (EVar vMst2) + EVar vMst2 * (- #1 - #50 * EVar vlmMst1 +
   #50 * EVar vlmMst2 - #64 * EVar vlmMst1 * EVar vlmMst2 + #20 * EPow P2 (EVar vlmMst1) + #44 * EPow P2 (EVar
   vlmMst2)) * EPow P6 (EVar vMst1) - #4 * EVar vDmglst2 * (#2 * (#2 - #3 * EVar vlmMst2 + EVar vlmMst1 * (#3 + #2 *
   EVar vlmMst2) - #2 * EPow P2 (EVar vlmMst2)) * EPow P2 (EVar vMst2) * EPow P4 (EVar vMst1) + #2 * (#1 + EVar
   vlmMst1 - #2 * EVar vlmMst2 + #2 * EVar vlmMst1 * EVar vlmMst2 - #2 * EPow P2 (EVar vlmMst2)) * EPow P2 (EVar
   vMst1) * EPow P4 (EVar vMst2) + (#5 - #8 * EVar vlmMst2 + #4 * EVar vlmMst1 * (#2 + EVar vlmMst2) - #4 * EPow P2
   (EVar vlmMst2)) * EPow P6 (EVar vMst1) - #2 * EVar vlmMst2 * EPow P6 (EVar vMst2)) + #4 * (#1 + EVar vlmMst2) *
   EPow P7 (EVar vMst2)) / (EPow P2 (EVar vMst1) * EPow P5 (EVar vMst2))) + (- #9 * EPow P4 (EVar vs2t) * (#4 * (- #14
   - #3 * EVar vlmMst1 - #6 * EVar vlmMst2 - #2 * EVar vlmMst1 * EVar vlmMst2 + #2 * EPow P2 (EVar vlmMst1)) * EPow P3
   (EVar vMst2) * EPow P4 (EVar vMst1) - #2 * (- #10 + #10 * EVar vlmMst1 - #16 * EVar vlmMst2 + #6 * EVar vlmMst1 *
   EVar vlmMst2 + EPow P2 (EVar vlmMst1) - #7 * EPow P2 (EVar vlmMst2)) * EPow P2 (EVar vMst1) * EPow P5 (EVar vMst2)
   + EVar vMst2 * (#35 + #34 * EVar vlmMst1 - #14 * EVar vlmMst2 - #12 * EVar vlmMst1 * EVar vlmMst2 + #10 * EPow P2
   (EVar vlmMst1) + #2 * EPow P2 (EVar vlmMst2)) * EPow P6 (EVar vMst1) + #4 * EVar vDmglst2 * (- #2 * (EVar vlmMst1 -
   #2 * EVar vlmMst1 * EVar vlmMst2 + #2 * EPow P2 (EVar vlmMst2)) * EPow P2 (EVar vMst2) * EPow P4 (EVar vMst1) - #2
   * (#1 + EVar vlmMst1 + #2 * EVar vlmMst1 * EVar vlmMst2 - #2 * EPow P2 (EVar vlmMst2)) * EPow P2 (EVar vMst1) *
   EPow P4 (EVar vMst2) + (#1 + #2 * EVar vlmMst1) * EPow P6 (EVar vMst1) + #2 * EVar vlmMst2 * EPow P6 (EVar vMst2))
   + #4 * (#1 + EVar vlmMst2) * EPow P7 (EVar vMst2)) / EVar vMst2 - #36 * EVar vs2t * EPow P2 (EVar vMt) * EPow P2
   (EVar vMuSUSY) * (#4 * (#4 * EVar vMt * (#5 + #6 * EVar vlmMst2 - EVar vlmMst1 * (#4 + #3 * EVar vlmMst2) + #3 *
   EPow P2 (EVar vlmMst2)) + EVar vMst2 * EVar vs2t * (- #1 + #13 * EVar vlmMst2 - EVar vlmMst1 * (#13 + #8 * EVar
   vlmMst2) + EPow P2 (EVar vlmMst1) + #7 * EPow P2 (EVar vlmMst2))) * EPow P3 (EVar vMst2) * EPow P4 (EVar vMst1) +
   #2 * (- (EVar vMst2 * EVar vs2t * (- #14 - #20 * EVar vlmMst2 + #2 * EVar vlmMst1 * (#5 + #3 * EVar vlmMst2) + EPow
   P2 (EVar vlmMst1) - #7 * EPow P2 (EVar vlmMst2))) + #8 * EVar vMt * (#4 + #3 * EVar vlmMst2 - EVar vlmMst1 * (#1 +
   EVar vlmMst2) + EPow P2 (EVar vlmMst2))) * EPow P2 (EVar vMst1) * EPow P5 (EVar vMst2) + #4 * EVar vDmglst2 * (EVar
   vMst2 * EVar vs2t * (- #5 + #8 * EVar vlmMst2 - #4 * EVar vlmMst1 * (#2 + EVar vlmMst2) + #4 * EPow P2 (EVar
   vlmMst2)) + EVar vMt * (#65 + EVar vlmMst1 * (#34 - #20 * EVar vlmMst2) - #26 * EVar vlmMst2 + #20 * EPow P2 (EVar
   vlmMst2))) * EPow P6 (EVar vMst1) + EVar vMst2 * (EVar vMst2 * EVar vs2t * (- #1 + #50 * EVar vlmMst2 - #2 * EVar
   vlmMst1 * (#25 + #32 * EVar vlmMst2) + #20 * EPow P2 (EVar vlmMst1) + #44 * EPow P2 (EVar vlmMst2)) + EVar vMt *
   (#84 + #152 * EVar vlmMst2 - #40 * EVar vlmMst1 * (#3 + #2 * EVar vlmMst2) + #80 * EPow P2 (EVar vlmMst2))) * EPow
   P6 (EVar vMst1) + #8 * EVar vDmglst2 * ((EVar vMst2 * EVar vs2t * (- #2 + #3 * EVar vlmMst2 - EVar vlmMst1 * (#3 +
   #2 * EVar vlmMst2) + #2 * EPow P2 (EVar vlmMst2)) + EVar vMt * (#22 + EVar vlmMst1 * (#8 - #6 * EVar vlmMst2) - #4
   * EVar vlmMst2 + #6 * EPow P2 (EVar vlmMst2))) * EPow P2 (EVar vMst2) * EPow P4 (EVar vMst1) + (- (EVar vMst2 *
   EVar vs2t * (#1 + EVar vlmMst1 - #2 * EVar vlmMst2 + #2 * EVar vlmMst1 * EVar vlmMst2 - #2 * EPow P2 (EVar
   vlmMst2))) + #2 * EVar vMt * (#6 + EVar vlmMst1 + EVar vlmMst2 - EVar vlmMst1 * EVar vlmMst2 + EPow P2 (EVar
   vlmMst2))) * EPow P2 (EVar vMst1) * EPow P4 (EVar vMst2) + EVar vlmMst2 * EVar vs2t * EPow P7 (EVar vMst2)) + #4 *
   (#1 + EVar vlmMst2) * EVar vs2t * EPow P8 (EVar vMst2)) / (EPow P2 (EVar vSbeta) * EPow P6 (EVar vMst2))) / EPow P2
   (EVar vMst1)) / #216 + EVar vxDR2DRMOD * (#3375 * EVar vAl4p * EVar vthreeLoopFlag * EVar vxDmsqst2 * EPow P2 (EVar
   vDmsqst2) * EPow P2 (EVar vMst1) * (- (EPow P2 (EVar vs2t) * EPow P4 (EVar vMst1) * (- #8 * (EVar vlmMst1 - EVar
   vlmMst2) * EVar vTbeta * EPow P2 (EVar vMt) * EPow P2 (EVar vMuSUSY) * (- #1 + EPow P2 (EVar vSbeta)) + #4 * EVar
   vMt * (- (EVar vMuSUSY * EVar vs2t) + #2 * EVar vMt * EVar vTbeta) * EPow P2 (EVar vMst2) * EPow P2 (EVar vSbeta) +
   (#1 - #2 * EVar vlmMst1 + #2 * EVar vlmMst2) * EVar vTbeta * EPow P2 (EVar vs2t) * EPow P2 (EVar vSbeta) * EPow P4
   (EVar vMst2))) + EPow P4 (EVar vMst2) * (- #4 * EVar vTbeta * EPow P2 (EVar vMt) * EPow P2 (EVar vs2t) * (EPow P2
   (EVar vMuSUSY) * (- #1 + EPow P2 (EVar vSbeta)) + #2 * EPow P2 (EVar vMst2) * EPow P2 (EVar vSbeta)) + EPow P2
   (EVar vSbeta) * (#16 * EVar vMuSUSY * EVar vs2t * EPow P3 (EVar vMt) - #4 * EVar vMt * EVar vMuSUSY * EPow P2 (EVar
   vMst2) * EPow P3 (EVar vs2t) + #16 * EVar vTbeta * EPow P4 (EVar vMt) + EVar vTbeta * EPow P4 (EVar vMst2) * EPow
   P4 (EVar vs2t))) - EPow P2 (EVar vMst1) * EPow P2 (EVar vMst2) * (- #4 * EVar vTbeta * EPow P2 (EVar vMt) * EPow P2
   (EVar vs2t) * ((- #1 + #2 * EVar vlmMst1 - #2 * EVar vlmMst2) * EPow P2 (EVar vMuSUSY) * (- #1 + EPow P2 (EVar
   vSbeta)) + #4 * EPow P2 (EVar vMst2) * EPow P2 (EVar vSbeta)) + EPow P2 (EVar vSbeta) * (#16 * EVar vMuSUSY * EVar
   vs2t * EPow P3 (EVar vMt) + #8 * (- EVar vlmMst1 + EVar vlmMst2) * EVar vMt * EVar vMuSUSY * EPow P2 (EVar vMst2) *
   EPow P3 (EVar vs2t) - #16 * EVar vTbeta * EPow P4 (EVar vMt) + (#1 + #2 * EVar vlmMst1 - #2 * EVar vlmMst2) * EVar
   vTbeta * EPow P4 (EVar vMst2) * EPow P4 (EVar vs2t))) + #19 * EVar vxDmglst2 * EPow P2 (EVar vDmglst2) * (EPow P2
   (EVar vs2t) * (#4 * EVar vMt * EVar vMuSUSY * EVar vs2t - #8 * EVar vTbeta * EPow P2 (EVar vMt) + (- #1 + #2 * EVar
   vlmMst1 - #2 * EVar vlmMst2) * EVar vTbeta * EPow P2 (EVar vMst2) * EPow P2 (EVar vs2t)) * EPow P2 (EVar vSbeta) *
   EPow P4 (EVar vMst1) + EPow P2 (EVar vMst2) * (- #4 * EVar vTbeta * EPow P2 (EVar vMt) * EPow P2 (EVar vs2t) *
   (EPow P2 (EVar vMuSUSY) * (- #1 + EPow P2 (EVar vSbeta)) + #2 * EPow P2 (EVar vMst2) * EPow P2 (EVar vSbeta)) +
   EPow P2 (EVar vSbeta) * (#16 * EVar vMuSUSY * EVar vs2t * EPow P3 (EVar vMt) - #4 * EVar vMt * EVar vMuSUSY * EPow
   P2 (EVar vMst2) * EPow P3 (EVar vs2t) + #16 * EVar vTbeta * EPow P4 (EVar vMt) + EVar vTbeta * EPow P4 (EVar vMst2)
   * EPow P4 (EVar vs2t))) - EPow P2 (EVar vMst1) * (- #4 * EVar vTbeta * EPow P2 (EVar vMt) * EPow P2 (EVar vs2t) *
   ((- #1 + #2 * EVar vlmMst1 - #2 * EVar vlmMst2) * EPow P2 (EVar vMuSUSY) * (- #1 + EPow P2 (EVar vSbeta)) + #4 *
   EPow P2 (EVar vMst2) * EPow P2 (EVar vSbeta)) + EPow P2 (EVar vSbeta) * (#16 * EVar vMuSUSY * EVar vs2t * EPow P3
   (EVar vMt) + #8 * (- EVar vlmMst1 + EVar vlmMst2) * EVar vMt * EVar vMuSUSY * EPow P2 (EVar vMst2) * EPow P3 (EVar
   vs2t) - #16 * EVar vTbeta * EPow P4 (EVar vMt) + (#1 + #2 * EVar vlmMst1 - #2 * EVar vlmMst2) * EVar vTbeta * EPow
   P4 (EVar vMst2) * EPow P4 (EVar vs2t)))) + #14 * EVar vDmglst2 * EVar vMst2 * (EPow P2 (EVar vs2t) * (#4 * EVar vMt
   * EVar vMuSUSY * EVar vs2t - #8 * EVar vTbeta * EPow P2 (EVar vMt) + EVar vTbeta * (EPow P2 (EVar vMst1) + (- #1 +
   #2 * EVar vlmMst1 - #2 * EVar vlmMst2) * EPow P2 (EVar vMst2)) * EPow P2 (EVar vs2t)) * EPow P2 (EVar vSbeta) *
   EPow P4 (EVar vMst1) + EPow P2 (EVar vMst2) * (- #4 * EVar vTbeta * EPow P2 (EVar vMt) * EPow P2 (EVar vs2t) *
   (EPow P2 (EVar vMuSUSY) * (- #1 + EPow P2 (EVar vSbeta)) + #2 * EPow P2 (EVar vMst2) * EPow P2 (EVar vSbeta)) +
   EPow P2 (EVar vSbeta) * (#16 * EVar vMuSUSY * EVar vs2t * EPow P3 (EVar vMt) - #4 * EVar vMt * EVar vMuSUSY * EPow
   P2 (EVar vMst2) * EPow P3 (EVar vs2t) + #16 * EVar vTbeta * EPow P4 (EVar vMt) + EVar vTbeta * EPow P4 (EVar vMst2)
   * EPow P4 (EVar vs2t))) - EPow P2 (EVar vMst1) * (- #4 * EVar vTbeta * EPow P2 (EVar vMt) * EPow P2 (EVar vs2t) *
   ((- #1 + #2 * EVar vlmMst1 - #2 * EVar vlmMst2) * EPow P2 (EVar vMuSUSY) * (- #1 + EPow P2 (EVar vSbeta)) + #4 *
   EPow P2 (EVar vMst2) * EPow P2 (EVar vSbeta)) + EPow P2 (EVar vSbeta) * (#16 * EVar vMuSUSY * EVar vs2t * EPow P3
   (EVar vMt) + #8 * (- EVar vlmMst1 + EVar vlmMst2) * EVar vMt * EVar vMuSUSY * EPow P2 (EVar vMst2) * EPow P3 (EVar
   vs2t) - #16 * EVar vTbeta * EPow P4 (EVar vMt) + (#1 + #2 * EVar vlmMst1 - #2 * EVar vlmMst2) * EVar vTbeta * EPow
   P4 (EVar vMst2) * EPow P4 (EVar vs2t)))) + EVar vTbeta * EPow P2 (EVar vMst2) * EPow P2 (EVar vSbeta) * EPow P4
   (EVar vs2t) * EPow P6 (EVar vMst1)) / (EVar vTbeta * EPow P2 (EVar vSbeta)) + #2700 * EVar vMst2 * (#2 * EVar
   vDmglst2 * EVar vlmMst2 + EVar vMst2 + EVar vlmMst2 * EVar vMst2) * EVar vtwoLoopFlag * EPow P2 (EVar vMst1) * (-
   (EPow P2 (EVar vMst2) * EPow P2 (EVar vs2t) * EPow P4 (EVar vMst1) * (- #8 * (EVar vlmMst1 - EVar vlmMst2) * EVar
   vTbeta * EPow P2 (EVar vMt) * EPow P2 (EVar vMuSUSY) * (- #1 + EPow P2 (EVar vSbeta)) + #4 * EVar vMt * (- (EVar
   vMuSUSY * EVar vs2t) + #2 * EVar vMt * EVar vTbeta) * EPow P2 (EVar vMst2) * EPow P2 (EVar vSbeta) + (#1 - #2 *
   EVar vlmMst1 + #2 * EVar vlmMst2) * EVar vTbeta * EPow P2 (EVar vs2t) * EPow P2 (EVar vSbeta) * EPow P4 (EVar
   vMst2))) - EPow P2 (EVar vMst1) * EPow P4 (EVar vMst2) * (- #4 * EVar vTbeta * EPow P2 (EVar vMt) * EPow P2 (EVar
   vs2t) * ((- #1 + #2 * EVar vlmMst1 - #2 * EVar vlmMst2) * EPow P2 (EVar vMuSUSY) * (- #1 + EPow P2 (EVar vSbeta)) +
   #4 * EPow P2 (EVar vMst2) * EPow P2 (EVar vSbeta)) + EPow P2 (EVar vSbeta) * (#16 * EVar vMuSUSY * EVar vs2t * EPow
   P3 (EVar vMt) + #8 * (- EVar vlmMst1 + EVar vlmMst2) * EVar vMt * EVar vMuSUSY * EPow P2 (EVar vMst2) * EPow P3
   (EVar vs2t) - #16 * EVar vTbeta * EPow P4 (EVar vMt) + (#1 + #2 * EVar vlmMst1 - #2 * EVar vlmMst2) * EVar vTbeta *
   EPow P4 (EVar vMst2) * EPow P4 (EVar vs2t))) + EVar vTbeta * EPow P2 (EVar vs2t) * (#8 * (EVar vlmMst1 - EVar
   vlmMst2) * EPow P2 (EVar vMt) * EPow P2 (EVar vMuSUSY) * (- #1 + EPow P2 (EVar vSbeta)) + EPow P2 (EVar vs2t) *
   EPow P2 (EVar vSbeta) * EPow P4 (EVar vMst2)) * EPow P6 (EVar vMst1) + (- #4 * EVar vTbeta * EPow P2 (EVar vMt) *
   EPow P2 (EVar vs2t) * (EPow P2 (EVar vMuSUSY) * (- #1 + EPow P2 (EVar vSbeta)) + #2 * EPow P2 (EVar vMst2) * EPow
   P2 (EVar vSbeta)) + EPow P2 (EVar vSbeta) * (#16 * EVar vMuSUSY * EVar vs2t * EPow P3 (EVar vMt) - #4 * EVar vMt *
   EVar vMuSUSY * EPow P2 (EVar vMst2) * EPow P3 (EVar vs2t) + #16 * EVar vTbeta * EPow P4 (EVar vMt) + EVar vTbeta *
   EPow P4 (EVar vMst2) * EPow P4 (EVar vs2t))) * EPow P6 (EVar vMst2)) / (EVar vTbeta * EPow P2 (EVar vSbeta)) + #2 *
   EVar vxDmglst2 * EPow P2 (EVar vDmglst2) * (- #1350 * (#2 - EVar vlmMst2) * EVar vtwoLoopFlag * EPow P2 (EVar
   vMst1) * (- (EPow P2 (EVar vMst2) * EPow P2 (EVar vs2t) * EPow P4 (EVar vMst1) * (- #8 * (EVar vlmMst1 - EVar
   vlmMst2) * EVar vTbeta * EPow P2 (EVar vMt) * EPow P2 (EVar vMuSUSY) * (- #1 + EPow P2 (EVar vSbeta)) + #4 * EVar
   vMt * (- (EVar vMuSUSY * EVar vs2t) + #2 * EVar vMt * EVar vTbeta) * EPow P2 (EVar vMst2) * EPow P2 (EVar vSbeta) +
   (#1 - #2 * EVar vlmMst1 + #2 * EVar vlmMst2) * EVar vTbeta * EPow P2 (EVar vs2t) * EPow P2 (EVar vSbeta) * EPow P4
   (EVar vMst2))) - EPow P2 (EVar vMst1) * EPow P4 (EVar vMst2) * (- #4 * EVar vTbeta * EPow P2 (EVar vMt) * EPow P2
   (EVar vs2t) * ((- #1 + #2 * EVar vlmMst1 - #2 * EVar vlmMst2) * EPow P2 (EVar vMuSUSY) * (- #1 + EPow P2 (EVar
   vSbeta)) + #4 * EPow P2 (EVar vMst2) * EPow P2 (EVar vSbeta)) + EPow P2 (EVar vSbeta) * (#16 * EVar vMuSUSY * EVar
   vs2t * EPow P3 (EVar vMt) + #8 * (- EVar vlmMst1 + EVar vlmMst2) * EVar vMt * EVar vMuSUSY * EPow P2 (EVar vMst2) *
   EPow P3 (EVar vs2t) - #16 * EVar vTbeta * EPow P4 (EVar vMt) + (#1 + #2 * EVar vlmMst1 - #2 * EVar vlmMst2) * EVar
   vTbeta * EPow P4 (EVar vMst2) * EPow P4 (EVar vs2t))) + EVar vTbeta * EPow P2 (EVar vs2t) * (#8 * (EVar vlmMst1 -
   EVar vlmMst2) * EPow P2 (EVar vMt) * EPow P2 (EVar vMuSUSY) * (- #1 + EPow P2 (EVar vSbeta)) + EPow P2 (EVar vs2t)
   * EPow P2 (EVar vSbeta) * EPow P4 (EVar vMst2)) * EPow P6 (EVar vMst1) + (- #4 * EVar vTbeta * EPow P2 (EVar vMt) *
   EPow P2 (EVar vs2t) * (EPow P2 (EVar vMuSUSY) * (- #1 + EPow P2 (EVar vSbeta)) + #2 * EPow P2 (EVar vMst2) * EPow
   P2 (EVar vSbeta)) + EPow P2 (EVar vSbeta) * (#16 * EVar vMuSUSY * EVar vs2t * EPow P3 (EVar vMt) - #4 * EVar vMt *
   EVar vMuSUSY * EPow P2 (EVar vMst2) * EPow P3 (EVar vs2t) + #16 * EVar vTbeta * EPow P4 (EVar vMt) + EVar vTbeta *
   EPow P4 (EVar vMst2) * EPow P4 (EVar vs2t))) * EPow P6 (EVar vMst2)) / (EVar vTbeta * EPow P2 (EVar vSbeta)) + EVar
   vAl4p * EVar vthreeLoopFlag * (#6400 * EVar vMst2 * EVar vs2t * EPow P2 (EVar vMst1) * EPow P3 (EVar vMt) * (- #3 *
   (#6 * EPow P2 (EVar vMst2) * (#116 + EVar vlmMst2 * (#181 - #30 * EVar vlmMt) - #36 * EVar vlmMt - #4 * (- #14 +
   EVar vlmMt) * EPow P2 (EVar vlmMst2) - #2 * EVar vlmMst1 * (#42 + EVar vlmMst2 * (#21 - #2 * EVar vlmMt) - #8 *
   EVar vlmMt + #2 * EPow P2 (EVar vlmMst2)) + #4 * EPow P3 (EVar vlmMst2)) + EPow P2 (EVar vMuSUSY) * (#85 - #215 *
   EVar vlmMst2 + EVar vlmMst1 * (#66 + #90 * EVar vlmMst2 - #72 * EPow P2 (EVar vlmMst2)) - #54 * EPow P2 (EVar
   vlmMst2) + #72 * EPow P3 (EVar vlmMst2))) * EPow P4 (EVar vMst1) + #18 * (#3 + #4 * EVar vlmMst2 - #3 * EPow P2
   (EVar vlmMst2)) * (#2 * EPow P2 (EVar vMst2) + EPow P2 (EVar vMuSUSY)) * EPow P4 (EVar vMst2) - EPow P2 (EVar
   vMst1) * (- #3 * EPow P2 (EVar vMst2) * EPow P2 (EVar vMuSUSY) * (#5 + #149 * EVar vlmMst2 + #12 * EPow P2 (EVar
   vlmMst2) + #6 * EVar vlmMst1 * (- #7 - #8 * EVar vlmMst2 + #6 * EPow P2 (EVar vlmMst2)) - #36 * EPow P3 (EVar
   vlmMst2)) + (#553 + #194 * EVar vlmMst2 + #18 * EVar vlmMst1 * (- #1 + #4 * EVar vlmMst2 - #2 * EVar vlmMt) - #30 *
   EVar vlmMt + #48 * EVar vlmMst2 * EVar vlmMt - #192 * EPow P2 (EVar vlmMst2)) * EPow P4 (EVar vMst2))) + #9600 *
   EVar vMt * EPow P2 (EVar vMst1) * EPow P3 (EVar vs2t) * (EPow P2 (EVar vMst1) * EPow P2 (EVar vMst2) * (#31 - #101
   * EVar vlmMst2 + #6 * EVar vlmMst1 * (#7 + #8 * EVar vlmMst2 - #6 * EPow P2 (EVar vlmMst2)) - #48 * EPow P2 (EVar
   vlmMst2) + #36 * EPow P3 (EVar vlmMst2)) + (#77 + #59 * EVar vlmMst2 - #6 * EVar vlmMst1 * (#3 + EVar vlmMst2) -
   #12 * EPow P2 (EVar vlmMst2)) * EPow P4 (EVar vMst1) + #6 * (- #3 - #4 * EVar vlmMst2 + #3 * EPow P2 (EVar
   vlmMst2)) * EPow P4 (EVar vMst2)) * EPow P5 (EVar vMst2) + #16 * EPow P2 (EVar vMst2) * EPow P4 (EVar vMt) * (-
   #43875 * EVar vDmsqst2 * EPow P2 (EVar vMst1) * (EPow P2 (EVar vMst1) + EPow P2 (EVar vMst2)) + (#394748 - #14400 *
   EVar vlmMst1 * (#8 + #2 * EVar vlmMst2 - EVar vlmMt) - #102480 * EVar vlmMt - #6 * EVar vlmMst2 * (- #50363 + #4680
   * EVar vlmMt) + #41355 * EPow P2 (EVar vlmMst2)) * EPow P2 (EVar vMst2) * EPow P4 (EVar vMst1) + #225 * (- #188 +
   #32 * EVar vlmMst1 * (- #2 + EVar vlmMst2) - #166 * EVar vlmMst2 + #59 * EPow P2 (EVar vlmMst2)) * EPow P2 (EVar
   vMst1) * EPow P4 (EVar vMst2) + #7200 * (#283 + EVar vlmMst2 * (#489 - #93 * EVar vlmMt) - #94 * EVar vlmMt + #9 *
   (#21 - #2 * EVar vlmMt) * EPow P2 (EVar vlmMst2) - #2 * EVar vlmMst1 * (#115 - #9 * EVar vlmMst2 * (- #8 + EVar
   vlmMt) - #24 * EVar vlmMt + #9 * EPow P2 (EVar vlmMst2)) + #18 * EPow P3 (EVar vlmMst2)) * EPow P6 (EVar vMst1) +
   #7200 * (#2 + EVar vlmMst2 - #3 * EPow P2 (EVar vlmMst2)) * EPow P6 (EVar vMst2)) + #100 * EVar vMst2 * EVar vMt *
   EVar vMuSUSY * (#2 * EVar vMst2 * (#3510 * EVar vDmsqst2 * EVar vs2t * EPow P2 (EVar vMt) - #144 * EVar vMt * EPow
   P2 (EVar vs2t) * (#13 - #125 * EVar vlmMst2 + #6 * EVar vlmMst1 * (#7 + #8 * EVar vlmMst2 - #6 * EPow P2 (EVar
   vlmMst2)) - #30 * EPow P2 (EVar vlmMst2) + #36 * EPow P3 (EVar vlmMst2)) * EPow P3 (EVar vMst2) + #64 * EVar vMst2
   * (#215 + #37 * EVar vlmMst2 + #3 * (- #5 + #8 * EVar vlmMst2) * EVar vlmMt - #18 * EVar vlmMst1 * (#1 - #2 * EVar
   vlmMst2 + EVar vlmMt) - #42 * EPow P2 (EVar vlmMst2)) * EPow P3 (EVar vMt) + #3 * EPow P2 (EVar vMst2) * (#2 * EVar
   vs2t * EPow P2 (EVar vMt) * (#964 + #306 * EVar vlmMst2 + #96 * (- #2 + EVar vlmMst2) * EPow P2 (EVar vlmMst1) -
   #81 * EPow P2 (EVar vlmMst2) + #96 * (EVar vlmMst1 + #3 * EVar vlmMst1 * EVar vlmMst2 - #2 * EVar vlmMst1 * EPow P2
   (EVar vlmMst2) + EPow P3 (EVar vlmMst2))) - #585 * EVar vDmsqst2 * (EVar vlmMst1 - EVar vlmMst2) * EPow P3 (EVar
   vs2t) + EPow P2 (EVar vMst2) * (#200 + #1196 * EVar vlmMst2 - #48 * (- #2 + EVar vlmMst2) * EPow P2 (EVar vlmMst1)
   + #306 * EPow P2 (EVar vlmMst2) + #3 * EVar vlmMst1 * (- #492 + #10 * EVar vlmMst2 + #123 * EPow P2 (EVar vlmMst2))
   - #321 * EPow P3 (EVar vlmMst2)) * EPow P3 (EVar vs2t))) * EPow P4 (EVar vMst1) - #9 * EPow P2 (EVar vMst1) * EPow
   P3 (EVar vMst2) * (#780 * EVar vDmsqst2 * EVar vs2t * EPow P2 (EVar vMt) + #192 * EVar vMt * (- #3 - #4 * EVar
   vlmMst2 + #3 * EPow P2 (EVar vlmMst2)) * EPow P2 (EVar vs2t) * EPow P3 (EVar vMst2) + #256 * EVar vMst2 * (#3 + #4
   * EVar vlmMst2 - #3 * EPow P2 (EVar vlmMst2)) * EPow P3 (EVar vMt) + EPow P2 (EVar vMst2) * (#4 * EVar vs2t * (#220
   - #32 * EVar vlmMst1 * (- #2 + EVar vlmMst2) + #70 * EVar vlmMst2 - #59 * EPow P2 (EVar vlmMst2)) * EPow P2 (EVar
   vMt) - #195 * EVar vDmsqst2 * EPow P3 (EVar vs2t)) + (- #444 + #32 * EVar vlmMst1 * (- #2 + EVar vlmMst2) - #70 *
   EVar vlmMst2 + #347 * EPow P2 (EVar vlmMst2)) * EPow P3 (EVar vs2t) * EPow P4 (EVar vMst2)) + (#1152 * EVar vMst2 *
   EVar vs2t * EPow P2 (EVar vMt) * (#26 + #29 * EVar vlmMst2 + (- #2 + EVar vlmMst2) * EPow P2 (EVar vlmMst1) + #4 *
   EPow P2 (EVar vlmMst2) - #2 * EVar vlmMst1 * (#8 + EVar vlmMst2 + EPow P2 (EVar vlmMst2)) + EPow P3 (EVar vlmMst2))
   - #1728 * EVar vMt * EPow P2 (EVar vMst2) * EPow P2 (EVar vs2t) * (#15 - #11 * EVar vlmMst2 + EVar vlmMst1 * (#4 +
   #7 * EVar vlmMst2 - #6 * EPow P2 (EVar vlmMst2)) - #7 * EPow P2 (EVar vlmMst2) + #6 * EPow P3 (EVar vlmMst2)) +
   #128 * (#1097 + EVar vlmMst2 * (#1531 - #246 * EVar vlmMt) - #339 * EVar vlmMt + (#444 - #36 * EVar vlmMt) * EPow
   P2 (EVar vlmMst2) - #18 * EVar vlmMst1 * (#39 - #2 * EVar vlmMst2 * (- #9 + EVar vlmMt) - #7 * EVar vlmMt + #2 *
   EPow P2 (EVar vlmMst2)) + #36 * EPow P3 (EVar vlmMst2)) * EPow P3 (EVar vMt) - #3 * EVar vMst2 * (#585 * EVar
   vDmsqst2 + EPow P2 (EVar vMst2) * (- #476 - #1790 * EVar vlmMst2 + #768 * (- #2 + EVar vlmMst2) * EPow P2 (EVar
   vlmMst1) - #1617 * EPow P2 (EVar vlmMst2) - #96 * EVar vlmMst1 * (- #13 - #33 * EVar vlmMst2 + #16 * EPow P2 (EVar
   vlmMst2)) + #768 * EPow P3 (EVar vlmMst2))) * EPow P3 (EVar vs2t)) * EPow P6 (EVar vMst1) + #288 * EVar vs2t * (#2
   + EVar vlmMst2 - #3 * EPow P2 (EVar vlmMst2)) * (#4 * EPow P2 (EVar vMt) - EPow P2 (EVar vMst2) * EPow P2 (EVar
   vs2t)) * EPow P7 (EVar vMst2)) / EVar vTbeta - #75 * EPow P4 (EVar vMst2) * EPow P4 (EVar vs2t) * ((- #932 + #2182
   * EVar vlmMst2 - #96 * (- #2 + EVar vlmMst2) * EPow P2 (EVar vlmMst1) + #1653 * EPow P2 (EVar vlmMst2) + #6 * EVar
   vlmMst1 * (- #524 + #26 * EVar vlmMst2 + #123 * EPow P2 (EVar vlmMst2)) - #642 * EPow P3 (EVar vlmMst2)) * EPow P4
   (EVar vMst1) * EPow P4 (EVar vMst2) + #585 * EVar vDmsqst2 * EPow P2 (EVar vMst1) * (- ((#1 + #2 * EVar vlmMst1 -
   #2 * EVar vlmMst2) * EPow P2 (EVar vMst1) * EPow P2 (EVar vMst2)) + (- #1 + #2 * EVar vlmMst1 - #2 * EVar vlmMst2)
   * EPow P4 (EVar vMst1) + EPow P4 (EVar vMst2)) + EPow P2 (EVar vMst2) * (#76 - #602 * EVar vlmMst2 - #672 * (- #2 +
   EVar vlmMst2) * EPow P2 (EVar vlmMst1) + #1005 * EPow P2 (EVar vlmMst2) + #6 * EVar vlmMst1 * (#284 - #538 * EVar
   vlmMst2 + #133 * EPow P2 (EVar vlmMst2)) - #126 * EPow P3 (EVar vlmMst2)) * EPow P6 (EVar vMst1) - #3 * (- #508 +
   #32 * EVar vlmMst1 * (- #2 + EVar vlmMst2) - #102 * EVar vlmMst2 + #443 * EPow P2 (EVar vlmMst2)) * EPow P2 (EVar
   vMst1) * EPow P6 (EVar vMst2) + #96 * (- #2 - EVar vlmMst2 + #3 * EPow P2 (EVar vlmMst2)) * EPow P8 (EVar vMst2)) -
   #300 * EVar vs2t * EPow P2 (EVar vMt) * EPow P2 (EVar vMuSUSY) * (EPow P2 (EVar vMst2) * (- #585 * EVar vDmsqst2 *
   (- #1 + #2 * EVar vlmMst1 - #2 * EVar vlmMst2) * EVar vs2t + EVar vs2t * EPow P2 (EVar vMst2) * (#1540 + #2506 *
   EVar vlmMst2 - #96 * (- #2 + EVar vlmMst2) * EPow P2 (EVar vlmMst1) - #141 * EPow P2 (EVar vlmMst2) + #6 * EVar
   vlmMst1 * (- #460 - #6 * EVar vlmMst2 + #123 * EPow P2 (EVar vlmMst2)) - #642 * EPow P3 (EVar vlmMst2)) + #64 *
   EVar vMst2 * EVar vMt * (#5 + #149 * EVar vlmMst2 + #12 * EPow P2 (EVar vlmMst2) + #6 * EVar vlmMst1 * (- #7 - #8 *
   EVar vlmMst2 + #6 * EPow P2 (EVar vlmMst2)) - #36 * EPow P3 (EVar vlmMst2))) * EPow P4 (EVar vMst1) - #3 * EPow P2
   (EVar vMst1) * (- #195 * EVar vDmsqst2 * EVar vs2t + #128 * EVar vMst2 * EVar vMt * (- #3 - #4 * EVar vlmMst2 + #3
   * EPow P2 (EVar vlmMst2)) + EVar vs2t * (- #380 + #32 * EVar vlmMst1 * (- #2 + EVar vlmMst2) - #38 * EVar vlmMst2 +
   #251 * EPow P2 (EVar vlmMst2)) * EPow P2 (EVar vMst2)) * EPow P4 (EVar vMst2) - #2 * (#585 * EVar vDmsqst2 * (EVar
   vlmMst1 - EVar vlmMst2) * EVar vs2t + #32 * EVar vMst2 * EVar vMt * (#85 - #215 * EVar vlmMst2 + EVar vlmMst1 *
   (#66 + #90 * EVar vlmMst2 - #72 * EPow P2 (EVar vlmMst2)) - #54 * EPow P2 (EVar vlmMst2) + #72 * EPow P3 (EVar
   vlmMst2)) + #3 * EVar vs2t * EPow P2 (EVar vMst2) * (- #336 - #716 * EVar vlmMst2 + #144 * (- #2 + EVar vlmMst2) *
   EPow P2 (EVar vlmMst1) + EVar vlmMst1 * (#668 + #534 * EVar vlmMst2 - #379 * EPow P2 (EVar vlmMst2)) - #246 * EPow
   P2 (EVar vlmMst2) + #235 * EPow P3 (EVar vlmMst2))) * EPow P6 (EVar vMst1) + #96 * EVar vs2t * (- #2 - EVar vlmMst2
   + #3 * EPow P2 (EVar vlmMst2)) * EPow P8 (EVar vMst2)) / EPow P2 (EVar vSbeta) - #300 * EPow P2 (EVar vMt) * EPow
   P2 (EVar vs2t) * ((EPow P2 (EVar vMuSUSY) * (- #1540 - #2506 * EVar vlmMst2 + #96 * (- #2 + EVar vlmMst2) * EPow P2
   (EVar vlmMst1) + EVar vlmMst1 * (#2760 + #36 * EVar vlmMst2 - #738 * EPow P2 (EVar vlmMst2)) + #141 * EPow P2 (EVar
   vlmMst2) + #642 * EPow P3 (EVar vlmMst2)) + #4 * EPow P2 (EVar vMst2) * (#812 + #258 * EVar vlmMst2 + #48 * (- #2 +
   EVar vlmMst2) * EPow P2 (EVar vlmMst1) - #129 * EPow P2 (EVar vlmMst2) + #48 * (EVar vlmMst1 * (#3 + #2 * EVar
   vlmMst2 - #2 * EPow P2 (EVar vlmMst2)) + EPow P3 (EVar vlmMst2)))) * EPow P4 (EVar vMst1) * EPow P4 (EVar vMst2) +
   #2 * EPow P2 (EVar vMst2) * ((#1532 + #2478 * EVar vlmMst2 - #96 * EVar vlmMst1 * (#17 + #5 * EVar vlmMst2) + #465
   * EPow P2 (EVar vlmMst2)) * EPow P2 (EVar vMst2) + #3 * EPow P2 (EVar vMuSUSY) * (- #336 - #716 * EVar vlmMst2 +
   #144 * (- #2 + EVar vlmMst2) * EPow P2 (EVar vlmMst1) + EVar vlmMst1 * (#668 + #534 * EVar vlmMst2 - #379 * EPow P2
   (EVar vlmMst2)) - #246 * EPow P2 (EVar vlmMst2) + #235 * EPow P3 (EVar vlmMst2))) * EPow P6 (EVar vMst1) - #585 *
   EVar vDmsqst2 * (EPow P4 (EVar vMst1) * ((#1 - #2 * EVar vlmMst1 + #2 * EVar vlmMst2) * EPow P2 (EVar vMst2) * EPow
   P2 (EVar vMuSUSY) - #4 * EPow P4 (EVar vMst2)) + EPow P2 (EVar vMst1) * (#2 * EPow P2 (EVar vMst2) + EPow P2 (EVar
   vMuSUSY)) * EPow P4 (EVar vMst2) + #2 * (EPow P2 (EVar vMst2) + (- EVar vlmMst1 + EVar vlmMst2) * EPow P2 (EVar
   vMuSUSY)) * EPow P6 (EVar vMst1)) - #3 * EPow P2 (EVar vMst1) * ((#568 - #64 * EVar vlmMst1 * (- #2 + EVar vlmMst2)
   + #204 * EVar vlmMst2 - #310 * EPow P2 (EVar vlmMst2)) * EPow P2 (EVar vMst2) + (#380 - #32 * EVar vlmMst1 * (- #2
   + EVar vlmMst2) + #38 * EVar vlmMst2 - #251 * EPow P2 (EVar vlmMst2)) * EPow P2 (EVar vMuSUSY)) * EPow P6 (EVar
   vMst2) + #96 * (#2 + EVar vlmMst2 - #3 * EPow P2 (EVar vlmMst2)) * (#2 * EPow P2 (EVar vMst2) + EPow P2 (EVar
   vMuSUSY)) * EPow P8 (EVar vMst2))))) / (#16200 * EPow P4 (EVar vMst1) * EPow P6 (EVar vMst2)) + EVar vxDmglst2 *
   EPow P2 (EVar vDmglst2) * (- (EVar vtwoLoopFlag * (#72 * EVar vMt * EPow P3 (EVar vs2t) * EPow P4 (EVar vMst2) *
   (#8 * EPow P2 (EVar vMst1) * EPow P2 (EVar vMst2) + (#3 - #6 * EVar vlmMst1 + #6 * EVar vlmMst2) * EPow P4 (EVar
   vMst1) + #2 * (#8 + EVar vlmMst1 - EVar vlmMst2) * EPow P4 (EVar vMst2)) + #96 * EVar vMst2 * EPow P4 (EVar vMt) *
   (#3 * (#37 + #41 * EVar vlmMst2 - #13 * EVar vlmMt - #6 * EVar vlmMst2 * EVar vlmMt + EVar vlmMst1 * (- #28 - #6 *
   EVar vlmMst2 + #6 * EVar vlmMt) + #6 * EPow P2 (EVar vlmMst2)) * EPow P2 (EVar vMst2) * EPow P4 (EVar vMst1) + (#17
   - #3 * EVar vlmMst1 + #9 * EVar vlmMst2 - #3 * EVar vlmMt) * EPow P2 (EVar vMst1) * EPow P4 (EVar vMst2) + #3 *
   (#75 + #174 * EVar vlmMst2 - #37 * EVar vlmMt - #30 * EVar vlmMst2 * EVar vlmMt + EVar vlmMst1 * (- #137 - #30 *
   EVar vlmMst2 + #30 * EVar vlmMt) + #30 * EPow P2 (EVar vlmMst2)) * EPow P6 (EVar vMst1) + #3 * (- #2 + EVar
   vlmMst2) * EPow P6 (EVar vMst2)) / EPow P2 (EVar vMst1) - #16 * EVar vs2t * EPow P3 (EVar vMt) * (#9 * (#2 * (#27 +
   #70 * EVar vlmMst2 - #4 * EVar vlmMst1 * (#14 + #3 * EVar vlmMst2 - #3 * EVar vlmMt) - #2 * (#7 + #6 * EVar
   vlmMst2) * EVar vlmMt + #12 * EPow P2 (EVar vlmMst2)) * EPow P2 (EVar vMst2) + #67 * EPow P2 (EVar vMuSUSY)) * EPow
   P4 (EVar vMst1) + #18 * (#8 + EVar vlmMst1 - EVar vlmMst2) * EPow P2 (EVar vMuSUSY) * EPow P4 (EVar vMst2) + #18 *
   EPow P2 (EVar vMst1) * (#2 * (#10 + EVar vlmMst1 - EVar vlmMst2) * EPow P2 (EVar vMst2) * EPow P2 (EVar vMuSUSY) +
   (#19 + #17 * EVar vlmMst2 - #6 * EVar vlmMt - #2 * EVar vlmMst2 * EVar vlmMt + EVar vlmMst1 * (- #11 - #2 * EVar
   vlmMst2 + #2 * EVar vlmMt) + #2 * EPow P2 (EVar vlmMst2)) * EPow P4 (EVar vMst2)) + (#19 + #36 * EVar vlmMst1 - #42
   * EVar vlmMst2 + #6 * EVar vlmMt) * EPow P6 (EVar vMst2)) - #12 * EVar vMst2 * EPow P2 (EVar vMt) * EPow P2 (EVar
   vs2t) * (- #2 * EPow P4 (EVar vMst1) * (#3 * (#8 - #9 * EVar vlmMst1 + #9 * EVar vlmMst2 + #2 * EVar vlmMst1 * EVar
   vlmMst2 - #2 * EPow P2 (EVar vlmMst2)) * EPow P2 (EVar vMst2) * EPow P2 (EVar vMuSUSY) + (- #13 + #18 * EVar
   vlmMst1 - #24 * EVar vlmMst2) * EPow P4 (EVar vMst2)) - #3 * (#4 * (- #4 + #7 * EVar vlmMst1 - #7 * EVar vlmMst2) *
   EPow P2 (EVar vMst2) + (#17 + #4 * EVar vlmMst1 * (- #7 + EVar vlmMst2) + #28 * EVar vlmMst2 - #4 * EPow P2 (EVar
   vlmMst2)) * EPow P2 (EVar vMuSUSY)) * EPow P6 (EVar vMst1) + #6 * (- #2 + EVar vlmMst2) * (#2 * EPow P2 (EVar
   vMst2) + EPow P2 (EVar vMuSUSY)) * EPow P6 (EVar vMst2) - #2 * EPow P2 (EVar vMst1) * (#3 * (#8 - #5 * EVar vlmMst1
   + #4 * EVar vlmMst2 + #2 * EVar vlmMst1 * EVar vlmMst2 - #2 * EPow P2 (EVar vlmMst2)) * EPow P2 (EVar vMuSUSY) *
   EPow P4 (EVar vMst2) + (- #29 + #12 * EVar vlmMst2) * EPow P6 (EVar vMst2))) / EPow P2 (EVar vMst1) + (- #9 * EPow
   P4 (EVar vs2t) * EPow P5 (EVar vMst2) * (#2 * (- #6 + EVar vlmMst1 - #2 * EVar vlmMst1 * EVar vlmMst2 + #2 * EPow
   P2 (EVar vlmMst2)) * EPow P2 (EVar vMst2) * EPow P4 (EVar vMst1) + #2 * (#4 + #6 * EVar vlmMst2 + EVar vlmMst1 * (-
   #5 + #2 * EVar vlmMst2) - #2 * EPow P2 (EVar vlmMst2)) * EPow P2 (EVar vMst1) * EPow P4 (EVar vMst2) + (#1 - #2 *
   EVar vlmMst1) * EPow P6 (EVar vMst1) - #2 * (- #2 + EVar vlmMst2) * EPow P6 (EVar vMst2)) + #36 * EVar vs2t * EPow
   P2 (EVar vMt) * EPow P2 (EVar vMuSUSY) * (- #2 * (- #8 * (#10 + EVar vlmMst1 - EVar vlmMst2) * EVar vMt + EVar
   vMst2 * EVar vs2t * (#8 - #9 * EVar vlmMst1 + #9 * EVar vlmMst2 + #2 * EVar vlmMst1 * EVar vlmMst2 - #2 * EPow P2
   (EVar vlmMst2))) * EPow P2 (EVar vMst2) * EPow P4 (EVar vMst1) - #2 * (- #4 * (#8 + EVar vlmMst1 - EVar vlmMst2) *
   EVar vMt + EVar vMst2 * EVar vs2t * (#8 - #5 * EVar vlmMst1 + #4 * EVar vlmMst2 + #2 * EVar vlmMst1 * EVar vlmMst2
   - #2 * EPow P2 (EVar vlmMst2))) * EPow P2 (EVar vMst1) * EPow P4 (EVar vMst2) + (#268 * EVar vMt + EVar vMst2 *
   EVar vs2t * (- #17 - #4 * EVar vlmMst1 * (- #7 + EVar vlmMst2) - #28 * EVar vlmMst2 + #4 * EPow P2 (EVar vlmMst2)))
   * EPow P6 (EVar vMst1) + #2 * (- #2 + EVar vlmMst2) * EVar vs2t * EPow P7 (EVar vMst2)) / EPow P2 (EVar vSbeta) -
   #4 * EVar vMt * EVar vMuSUSY * (- #2 * (EPow P2 (EVar vMst2) * (#36 * (#5 - #3 * EVar vlmMst1 + #3 * EVar vlmMst2)
   * EVar vMst2 * EVar vs2t * EPow P2 (EVar vMt) - #54 * (#12 + EVar vlmMst1 - EVar vlmMst2) * EVar vMt * EPow P2
   (EVar vMst2) * EPow P2 (EVar vs2t) + #4 * (#155 + #3 * EVar vlmMst2 * (#41 - #6 * EVar vlmMt) - #18 * EVar vlmMst1
   * (#4 + EVar vlmMst2 - EVar vlmMt) - #51 * EVar vlmMt + #18 * EPow P2 (EVar vlmMst2)) * EPow P3 (EVar vMt) - #9 *
   (#4 * EVar vlmMst1 - #5 * EVar vlmMst2) * EPow P3 (EVar vMst2) * EPow P3 (EVar vs2t)) * EPow P4 (EVar vMst1) + EPow
   P2 (EVar vMst1) * (#6 * (#17 - #6 * EVar vlmMst2) * EVar vMst2 * EVar vs2t * EPow P2 (EVar vMt) - #54 * (#8 + EVar
   vlmMst1 - EVar vlmMst2) * EVar vMt * EPow P2 (EVar vMst2) * EPow P2 (EVar vs2t) + #4 * (#11 + #18 * EVar vlmMst1 -
   #21 * EVar vlmMst2 + #3 * EVar vlmMt) * EPow P3 (EVar vMt) + #9 * (#6 + #5 * EVar vlmMst2 + EVar vlmMst1 * (- #5 +
   #2 * EVar vlmMst2) - #2 * EPow P2 (EVar vlmMst2)) * EPow P3 (EVar vMst2) * EPow P3 (EVar vs2t)) * EPow P4 (EVar
   vMst2)) - (#72 * (#9 - #10 * EVar vlmMst1 + #10 * EVar vlmMst2) * EVar vMst2 * EVar vs2t * EPow P2 (EVar vMt) + #54
   * (- #27 + #4 * EVar vlmMst1 - #4 * EVar vlmMst2) * EVar vMt * EPow P2 (EVar vMst2) * EPow P2 (EVar vs2t) + #8 *
   (#335 + #699 * EVar vlmMst2 - #18 * EVar vlmMst1 * (#29 + #7 * EVar vlmMst2 - #7 * EVar vlmMt) - #3 * (#59 + #42 *
   EVar vlmMst2) * EVar vlmMt + #126 * EPow P2 (EVar vlmMst2)) * EPow P3 (EVar vMt) + #9 * (#1 - #10 * EVar vlmMst1 +
   #10 * EVar vlmMst2) * EPow P3 (EVar vMst2) * EPow P3 (EVar vs2t)) * EPow P6 (EVar vMst1) + #18 * (- #2 + EVar
   vlmMst2) * EVar vs2t * (- #4 * EPow P2 (EVar vMt) + EPow P2 (EVar vMst2) * EPow P2 (EVar vs2t)) * EPow P7 (EVar
   vMst2)) / EVar vTbeta) / EPow P2 (EVar vMst1))) / (#108 * EPow P7 (EVar vMst2)) + EVar vAl4p * EVar vthreeLoopFlag
   * (#175 * EVar vMt * EPow P3 (EVar vs2t) * (#12 * EPow P2 (EVar vMst1) * EPow P2 (EVar vMst2) * (#282298 - #61560 *
   EConst CB4 + #1620 * EConst CDN - #236520 * EVar vlmMst1 - #180 * (- #439 + #438 * EVar vlmMst1) * EVar vlmMst2 +
   #2240 * EConst COepS2 - #81 * (- #1373 + #560 * EVar vlmMst1 - #560 * EVar vlmMst2) * EConst CS2 - #4320 * EPow P2
   (EVar vlmMst1) + #1080 * (#77 + #48 * EVar vlmMst1) * EPow P2 (EVar vlmMst2) - #51840 * EPow P3 (EVar vlmMst2)) -
   (#2727217 - #437920 * EConst COepS2 + #360 * EVar vlmMst2 * (#4958 - #24633 * EConst CS2) + #3648132 * EConst CS2 +
   #360 * EVar vlmMst1 * (- #1460 + #1980 * EVar vlmMst2 + #24633 * EConst CS2) - #349920 * EPow P2 (EVar vlmMst1) -
   #673920 * EPow P2 (EVar vlmMst2)) * EPow P4 (EVar vMst1) + #103680 * (#3 + #4 * EVar vlmMst2 - #3 * EPow P2 (EVar
   vlmMst2)) * EPow P4 (EVar vMst2)) / (EVar vMst2 * EPow P2 (EVar vMst1)) - #50 * EVar vs2t * EPow P3 (EVar vMt) *
   ((#8 * EPow P2 (EVar vMst2) * (#7384247 - #12322800 * EVar vlmMt + #1183840 * EConst COepS2 + #5821092 * EConst CS2
   + #22680 * (#41 + #4 * EVar vlmMst2 - #4 * EVar vlmMt) * EPow P2 (EVar vlmMst1) + #1890 * (- #2489 + #48 * EVar
   vlmMt) * EPow P2 (EVar vlmMst2) + #315 * EVar vlmMst1 * (#1073 + #7734 * EVar vlmMst2 + #690 * EVar vlmMt - #76104
   * EConst CS2 + #864 * EPow P2 (EVar vlmMst2) - #864 * EPow P2 (EVar vlmMt)) + #816480 * EPow P2 (EVar vlmMt) + #315
   * EVar vlmMst2 * (#11587 + #966 * EVar vlmMt + #76104 * EConst CS2 + #864 * EPow P2 (EVar vlmMt)) - #362880 * EPow
   P3 (EVar vlmMst2)) + #35 * EPow P2 (EVar vMuSUSY) * (#996211 - #295488 * EConst CB4 + #7776 * EConst CDN - #1030176
   * EVar vlmMst1 - #144 * (- #1883 + #3618 * EVar vlmMst1) * EVar vlmMst2 + #98336 * EConst COepS2 - #756 * (#259 +
   #2634 * EVar vlmMst1 - #2634 * EVar vlmMst2) * EConst CS2 + #49248 * EPow P2 (EVar vlmMst1) + #5184 * (#67 + #48 *
   EVar vlmMst1) * EPow P2 (EVar vlmMst2) - #248832 * EPow P3 (EVar vlmMst2))) * EPow P4 (EVar vMst1) + #725760 * (#3
   + #4 * EVar vlmMst2 - #3 * EPow P2 (EVar vlmMst2)) * (#2 * EPow P2 (EVar vMst2) + EPow P2 (EVar vMuSUSY)) * EPow P4
   (EVar vMst2) + #12 * EPow P2 (EVar vMst1) * (#7 * EPow P2 (EVar vMst2) * EPow P2 (EVar vMuSUSY) * (#334138 - #61560
   * EConst CB4 + #1620 * EConst CDN - #236520 * EVar vlmMst1 - #180 * (- #823 + #438 * EVar vlmMst1) * EVar vlmMst2 +
   #2240 * EConst COepS2 - #81 * (- #1373 + #560 * EVar vlmMst1 - #560 * EVar vlmMst2) * EConst CS2 - #4320 * EPow P2
   (EVar vlmMst1) + #1080 * (#29 + #48 * EVar vlmMst1) * EPow P2 (EVar vlmMst2) - #51840 * EPow P3 (EVar vlmMst2)) -
   #2 * (#1243547 + #1157940 * EVar vlmMt - #15680 * EConst COepS2 + #1680 * EVar vlmMst2 * (- #1091 + #42 * EVar
   vlmMt - #189 * EConst CS2) - #953208 * EConst CS2 + #7560 * EVar vlmMst1 * (#135 + #33 * EVar vlmMst2 - #8 * EVar
   vlmMt + #42 * EConst CS2) + #30240 * EPow P2 (EVar vlmMst1) - #486360 * EPow P2 (EVar vlmMst2) + #15120 * EPow P2
   (EVar vlmMt)) * EPow P4 (EVar vMst2))) / (EPow P2 (EVar vMst1) * EPow P5 (EVar vMst2)) + #2551500 * EPow P4 (EVar
   vs2t) * (- #2 * EConst COepS2 * (#1136 * EPow P2 (EVar vMst1) + #21 * EPow P2 (EVar vMst2)) / #729 + EConst CS2 *
   (#4 * (#14023 + #8520 * EVar vlmMst1 - #8520 * EVar vlmMst2) * EPow P2 (EVar vMst1) + #9 * (#65819 + #70 * EVar
   vlmMst1 - #70 * EVar vlmMst2) * EPow P2 (EVar vMst2)) / #540 + EPow P2 (EVar vMst1) * (EDec 29427737997256514 15 -
   EConst CB4 / #3 + #4 * EConst CD3 / #9 - #5 * EConst CDN / #18 + #270961 * EVar vlmMst1 / #8100 + #653 * EPow P2
   (EVar vlmMst1) / #90 - EVar vlmMst2 * (#332311 + #189090 * EVar vlmMst1 + #57150 * EPow P2 (EVar vlmMst1)) / #8100
   + (EDec 795 2 + #74 * EVar vlmMst1 / #9) * EPow P2 (EVar vlmMst2) + #5 * EPow P3 (EVar vlmMst1) / #18 - #13 * EPow
   P3 (EVar vlmMst2) / #9) - EPow P2 (EVar vMst2) * (EDec 4756630658436214 14 - #19 * EConst CB4 / #9 + #20 * EConst
   CD3 / #9 - #7 * EConst CDN / #6 + #163 * EVar vlmMst1 / #9 - #25 * EPow P2 (EVar vlmMst1) / #36 + #2 * EVar vlmMst2
   * (- #347 - #18 * EVar vlmMst1 + #12 * EPow P2 (EVar vlmMst1)) / #27 - (#99 + #41 * EVar vlmMst1) * EPow P2 (EVar
   vlmMst2) / #6 + #107 * EPow P3 (EVar vlmMst2) / #18) + (#940 - #32 * EVar vlmMst1 * (- #2 + EVar vlmMst2) + #102 *
   EVar vlmMst2 - #443 * EPow P2 (EVar vlmMst2)) * EPow P4 (EVar vMst2) / (#36 * EPow P2 (EVar vMst1)) - #8 * (#2 +
   EVar vlmMst2 - #3 * EPow P2 (EVar vlmMst2)) * EPow P6 (EVar vMst2) / (#9 * EPow P4 (EVar vMst1))) + EPow P2 (EVar
   vMt) * EPow P2 (EVar vs2t) * (- #75 * EPow P4 (EVar vMst1) * (- #7 * EPow P2 (EVar vMst2) * EPow P2 (EVar vMuSUSY)
   * (#13169 - #41040 * EConst CB4 + #43200 * EConst CD3 - #22680 * EConst CDN + #282960 * EVar vlmMst1 + #1120 *
   EConst COepS2 - #324 * (#65819 + #70 * EVar vlmMst1 - #70 * EVar vlmMst2) * EConst CS2 - #13500 * EPow P2 (EVar
   vlmMst1) + #720 * EVar vlmMst2 * (- #775 + #12 * EVar vlmMst1 + #24 * EPow P2 (EVar vlmMst1)) - #1080 * (- #2 +
   #123 * EVar vlmMst1) * EPow P2 (EVar vlmMst2) + #115560 * EPow P3 (EVar vlmMst2)) + #18 * (#2164753 - #3360 *
   EConst CB4 + #3360 * EConst CD3 - #1680 * EConst CDN + #89040 * EVar vlmMst1 - #6720 * EVar vlmMt + #7840 * EConst
   COepS2 - #324 * (#523 + #490 * EVar vlmMst1 - #490 * EVar vlmMst2) * EConst CS2 + #17220 * EPow P2 (EVar vlmMst1) -
   #140 * EVar vlmMst2 * (- #6485 - #1098 * EVar vlmMst1 + #96 * EPow P2 (EVar vlmMst1)) - #420 * (#129 + #32 * EVar
   vlmMst1) * EPow P2 (EVar vlmMst2) + #26880 * EPow P3 (EVar vlmMst2)) * EPow P4 (EVar vMst2)) - #2 * (#14 * EPow P2
   (EVar vMuSUSY) * (#2011073 + #1417500 * EConst CB4 - #1458000 * EConst CD3 + #749250 * EConst CDN + #934245 * EVar
   vlmMst1 - #1178000 * EConst COepS2 + #1350 * (#620417 + #17670 * EVar vlmMst1 - #17670 * EVar vlmMst2) * EConst CS2
   + #3150900 * EPow P2 (EVar vlmMst1) - #45 * EVar vlmMst2 * (- #124139 + #189090 * EVar vlmMst1 + #71550 * EPow P2
   (EVar vlmMst1)) + #4050 * (#1323 + #1970 * EVar vlmMst1) * EPow P2 (EVar vlmMst2) + #101250 * EPow P3 (EVar
   vlmMst1) - #4860000 * EPow P3 (EVar vlmMst2)) + #9 * EPow P2 (EVar vMst2) * (#68526791 + #9072000 * EVar vlmMt +
   #2772000 * EConst COepS2 - #107403300 * EConst CS2 + #420 * EVar vlmMst2 * (#102713 + #6000 * EVar vlmMt + #133650
   * EConst CS2) + #6300 * (#131 - #30 * EVar vlmMst2) * EPow P2 (EVar vlmMst1) - #35116200 * EPow P2 (EVar vlmMst2) -
   #840 * EVar vlmMst1 * (- #47431 - #41010 * EVar vlmMst2 + #3000 * EVar vlmMt + #66825 * EConst CS2 + #6975 * EPow
   P2 (EVar vlmMst2)) + #63000 * EPow P3 (EVar vlmMst1) + #5985000 * EPow P3 (EVar vlmMst2))) * EPow P6 (EVar vMst1) +
   #9072000 * (#2 + EVar vlmMst2 - #3 * EPow P2 (EVar vlmMst2)) * (#2 * EPow P2 (EVar vMst2) + EPow P2 (EVar vMuSUSY))
   * EPow P6 (EVar vMst2) - #283500 * EPow P2 (EVar vMst1) * ((#812 - #32 * EVar vlmMst1 * (- #2 + EVar vlmMst2) + #38
   * EVar vlmMst2 - #251 * EPow P2 (EVar vlmMst2)) * EPow P2 (EVar vMuSUSY) * EPow P4 (EVar vMst2) + (#1432 - #64 *
   EVar vlmMst1 * (- #2 + EVar vlmMst2) + #204 * EVar vlmMst2 - #310 * EPow P2 (EVar vlmMst2)) * EPow P6 (EVar
   vMst2))) / (EPow P4 (EVar vMst1) * EPow P4 (EVar vMst2)) + #2551500 * EVar vMuSUSY * (- (EPow P2 (EVar vMt) * EPow
   P2 (EVar vs2t) * (#64 * EVar vMst2 * (#3 + #4 * EVar vlmMst2 - #3 * EPow P2 (EVar vlmMst2)) / (#3 * EPow P2 (EVar
   vMst1)) + (EDec 7610320987654321 13 - #152 * EConst CB4 + #4 * EConst CDN - #584 * EVar vlmMst1 + #4 * (#631 - #438
   * EVar vlmMst1) * EVar vlmMst2 / #9 - #32 * EPow P2 (EVar vlmMst1) / #3 + #8 * (#53 + #48 * EVar vlmMst1) * EPow P2
   (EVar vlmMst2) / #3 - #128 * EPow P3 (EVar vlmMst2)) / EVar vMst2 + (#56 * EConst COepS2 * (#415 * EPow P2 (EVar
   vMst1) + #24 * EPow P2 (EVar vMst2)) / #243 - EConst CS2 * ((#21422 + #87150 * EVar vlmMst1 - #87150 * EVar
   vlmMst2) * EPow P2 (EVar vMst1) + #9 * (- #1373 + #560 * EVar vlmMst1 - #560 * EVar vlmMst2) * EPow P2 (EVar
   vMst2)) / #45) / EPow P3 (EVar vMst2) + EPow P2 (EVar vMst1) * (EDec 19987633744855967 14 - #152 * EConst CB4 + #4
   * EConst CDN - #12848 * EVar vlmMst1 / #27 - #8 * (#293 + #1152 * EVar vlmMst1) * EVar vlmMst2 / #27 + #184 * EPow
   P2 (EVar vlmMst1) / #3 + #8 * (#35 + #16 * EVar vlmMst1) * EPow P2 (EVar vlmMst2) - #128 * EPow P3 (EVar vlmMst2))
   / EPow P3 (EVar vMst2))) + EVar vMt * (EPow P3 (EVar vs2t) * (EDec 9293189300411522 14 - #76 * EConst CB4 / #9 +
   #80 * EConst CD3 / #9 - #14 * EConst CDN / #3 + #196 * EVar vlmMst1 / #3 - #25 * EPow P2 (EVar vlmMst1) / #9 + #2 *
   EVar vlmMst2 * (- #1493 - #24 * EVar vlmMst1 + #48 * EPow P2 (EVar vlmMst1)) / #27 - (#247 + #246 * EVar vlmMst1) *
   EPow P2 (EVar vlmMst2) / #9 + #8 * EConst COepS2 * (#21 + #1157 * EPow P2 (EVar vMst1) / EPow P2 (EVar vMst2)) /
   #729 + (- #876 + #32 * EVar vlmMst1 * (- #2 + EVar vlmMst2) - #70 * EVar vlmMst2 + #347 * EPow P2 (EVar vlmMst2)) *
   EPow P2 (EVar vMst2) / (#9 * EPow P2 (EVar vMst1)) - EConst CS2 * ((#648463 + #34710 * EVar vlmMst1 - #34710 * EVar
   vlmMst2) * EPow P2 (EVar vMst1) + #9 * (#65819 + #70 * EVar vlmMst1 - #70 * EVar vlmMst2) * EPow P2 (EVar vMst2)) /
   (#135 * EPow P2 (EVar vMst2)) - EPow P2 (EVar vMst1) * (EDec 24779058984910836 15 + #64 * EConst CB4 / #9 - #64 *
   EConst CD3 / #9 + #32 * EConst CDN / #9 + #138661 * EVar vlmMst1 / #2025 + #159 * EPow P2 (EVar vlmMst1) / #5 -
   EVar vlmMst2 * (EDec 535116049382716 13 + #458 * EVar vlmMst1 / #5 + #286 * EPow P2 (EVar vlmMst1) / #9) + #2 *
   (#1333 + #1355 * EVar vlmMst1) * EPow P2 (EVar vlmMst2) / #45 + #10 * EPow P3 (EVar vlmMst1) / #9 - #266 * EPow P3
   (EVar vlmMst2) / #9) / EPow P2 (EVar vMst2) + #214 * EPow P3 (EVar vlmMst2) / #9 + #32 * (#2 + EVar vlmMst2 - #3 *
   EPow P2 (EVar vlmMst2)) * EPow P4 (EVar vMst2) / (#9 * EPow P4 (EVar vMst1))) - #4 * EConst CT1ep * (#21 * EPow P2
   (EVar vMst2) * (#36 * EVar vMst2 * EVar vs2t * EPow P2 (EVar vMt) - #24 * EVar vMt * EPow P2 (EVar vMst2) * EPow P2
   (EVar vs2t) + #32 * EPow P3 (EVar vMt) + EPow P3 (EVar vMst2) * EPow P3 (EVar vs2t)) + EPow P2 (EVar vMst1) *
   (#4320 * EVar vMst2 * EVar vs2t * EPow P2 (EVar vMt) - #8715 * EVar vMt * EPow P2 (EVar vMst2) * EPow P2 (EVar
   vs2t) + #17584 * EPow P3 (EVar vMt) + #1157 * EPow P3 (EVar vMst2) * EPow P3 (EVar vs2t))) / (#243 * EPow P5 (EVar
   vMst2))) + #4 * (- #3 * (#1648637 + #1173060 * EVar vlmMt - #15680 * EConst COepS2 + #1680 * EVar vlmMst2 * (-
   #1214 + #42 * EVar vlmMt - #189 * EConst CS2) - #953208 * EConst CS2 + #7560 * EVar vlmMst1 * (#131 + #33 * EVar
   vlmMst2 - #8 * EVar vlmMt + #42 * EConst CS2) + #30240 * EPow P2 (EVar vlmMst1) - #304920 * EPow P2 (EVar vlmMst2)
   + #15120 * EPow P2 (EVar vlmMt)) * EPow P2 (EVar vMst1) * EPow P2 (EVar vMst2) + #2 * (- #1657412 - #7512750 * EVar
   vlmMt + #615440 * EConst COepS2 + #4340358 * EConst CS2 + #11340 * (#35 + #4 * EVar vlmMst2 - #4 * EVar vlmMt) *
   EPow P2 (EVar vlmMst1) + #945 * (- #1981 + #48 * EVar vlmMt) * EPow P2 (EVar vlmMst2) + #315 * EVar vlmMst1 * (-
   #4223 + #2679 * EVar vlmMst2 + #201 * EVar vlmMt - #39564 * EConst CS2 + #432 * EPow P2 (EVar vlmMst2) - #432 *
   EPow P2 (EVar vlmMt)) + #385560 * EPow P2 (EVar vlmMt) + #945 * EVar vlmMst2 * (#5321 + #193 * EVar vlmMt + #13188
   * EConst CS2 + #144 * EPow P2 (EVar vlmMt)) - #181440 * EPow P3 (EVar vlmMst2)) * EPow P4 (EVar vMst1) - #181440 *
   (- #3 - #4 * EVar vlmMst2 + #3 * EPow P2 (EVar vlmMst2)) * EPow P4 (EVar vMst2)) * EPow P4 (EVar vMt) / (#25515 *
   EPow P2 (EVar vMst1) * EPow P5 (EVar vMst2)) + EVar vs2t * EPow P3 (EVar vMt) * (#75 * EPow P2 (EVar vMst2) *
   (#2435233 - #3360 * EConst CB4 + #3360 * EConst CD3 - #1680 * EConst CDN + #115920 * EVar vlmMst1 - #6720 * EVar
   vlmMt + #7840 * EConst COepS2 - #324 * (#523 + #490 * EVar vlmMst1 - #490 * EVar vlmMst2) * EConst CS2 + #17220 *
   EPow P2 (EVar vlmMst1) - #140 * EVar vlmMst2 * (- #6695 - #1002 * EVar vlmMst1 + #96 * EPow P2 (EVar vlmMst1)) -
   #1680 * (#47 + #8 * EVar vlmMst1) * EPow P2 (EVar vlmMst2) + #26880 * EPow P3 (EVar vlmMst2)) * EPow P4 (EVar
   vMst1) + #31500 * (#652 - #32 * EVar vlmMst1 * (- #2 + EVar vlmMst2) + #70 * EVar vlmMst2 - #59 * EPow P2 (EVar
   vlmMst2)) * EPow P2 (EVar vMst1) * EPow P4 (EVar vMst2) + #2 * (#127852633 - #126000 * EConst CB4 + #126000 *
   EConst CD3 - #63000 * EConst CDN + #23638020 * EVar vlmMst1 - #252000 * (- #17 + #5 * EVar vlmMst1 - #5 * EVar
   vlmMst2) * EVar vlmMt + #1680000 * EConst COepS2 - #2700 * (#22243 + #12600 * EVar vlmMst1 - #12600 * EVar vlmMst2)
   * EConst CS2 + #1058400 * EPow P2 (EVar vlmMst1) - #420 * EVar vlmMst2 * (- #136544 - #53535 * EVar vlmMst1 + #1425
   * EPow P2 (EVar vlmMst1)) - #6300 * (#3257 + #545 * EVar vlmMst1) * EPow P2 (EVar vlmMst2) + #31500 * EPow P3 (EVar
   vlmMst1) + #4000500 * EPow P3 (EVar vlmMst2)) * EPow P6 (EVar vMst1) - #1008000 * (#2 + EVar vlmMst2 - #3 * EPow P2
   (EVar vlmMst2)) * EPow P6 (EVar vMst2)) / (#70875 * EPow P4 (EVar vMst1) * EPow P4 (EVar vMst2))) / EVar vTbeta +
   #4 * EPow P4 (EVar vMt) * (#15 * EPow P4 (EVar vMst1) * (#840 * EPow P2 (EVar vMst2) * EPow P2 (EVar vMuSUSY) *
   (#33934 - #90 * EConst CB4 + #90 * EConst CD3 - #45 * EConst CDN + #720 * EVar vlmMst1 + #120 * (#163 + #24 * EVar
   vlmMst1) * EVar vlmMst2 - #120 * EVar vlmMt - #10206 * EConst CS2 - #720 * (#2 + EVar vlmMst1) * EPow P2 (EVar
   vlmMst2) + #720 * EPow P3 (EVar vlmMst2)) - (#46632377 + #17278380 * EVar vlmMt - #744800 * EConst COepS2 -
   #29679210 * EConst CS2 - #168 * EVar vlmMst2 * (- #56837 + #7170 * EVar vlmMt + #89775 * EConst CS2) + #132300 *
   EPow P2 (EVar vlmMst1) + #10427760 * EPow P2 (EVar vlmMst2) + #37800 * EVar vlmMst1 * (#66 - #240 * EVar vlmMst2 +
   #399 * EConst CS2 + #32 * (EVar vlmMt + EPow P2 (EVar vlmMst2))) - #1587600 * EPow P2 (EVar vlmMt) - #1209600 *
   EPow P3 (EVar vlmMst2)) * EPow P4 (EVar vMst2)) + (EPow P2 (EVar vMst2) * (#648916519 - #1795878000 * EVar vlmMt +
   #158732000 * EConst COepS2 + #66753450 * EConst CS2 + #113400 * (#1403 + #285 * EVar vlmMst2 - #225 * EVar vlmMt) *
   EPow P2 (EVar vlmMst1) + #94500 * (- #15839 + #558 * EVar vlmMt) * EPow P2 (EVar vlmMst2) + #3780 * EVar vlmMst1 *
   (#132381 + EVar vlmMst2 * (#272035 - #7200 * EVar vlmMt) - #21415 * EVar vlmMt - #850350 * EConst CS2 + #22200 *
   EPow P2 (EVar vlmMst2) - #21600 * EPow P2 (EVar vlmMt)) + #176904000 * EPow P2 (EVar vlmMt) + #1260 * EVar vlmMst2
   * (- #245893 + #169395 * EVar vlmMt + #2551050 * EConst CS2 + #64800 * EPow P2 (EVar vlmMt)) - #2268000 * EPow P3
   (EVar vlmMst1) - #113967000 * EPow P3 (EVar vlmMst2)) + #525 * EPow P2 (EVar vMuSUSY) * (#2199511 - #4320 * EConst
   CB4 + #4320 * EConst CD3 - #2160 * EConst CDN + #140160 * EVar vlmMst1 + #960 * (#1426 + #303 * EVar vlmMst1) *
   EVar vlmMst2 - #2880 * (- #16 + #5 * EVar vlmMst1 - #5 * EVar vlmMst2) * EVar vlmMt - #1120 * EConst COepS2 + #324
   * (- #3411 + #70 * EVar vlmMst1 - #70 * EVar vlmMst2) * EConst CS2 - #2880 * (#77 + #24 * EVar vlmMst1) * EPow P2
   (EVar vlmMst2) + #69120 * EPow P3 (EVar vlmMst2))) * EPow P6 (EVar vMst1) + #283500 * (#620 - #32 * EVar vlmMst1 *
   (- #2 + EVar vlmMst2) + #166 * EVar vlmMst2 - #59 * EPow P2 (EVar vlmMst2)) * EPow P2 (EVar vMst1) * EPow P6 (EVar
   vMst2) - #9072000 * (#2 + EVar vlmMst2 - #3 * EPow P2 (EVar vlmMst2)) * EPow P8 (EVar vMst2)) / (EPow P4 (EVar
   vMst1) * EPow P6 (EVar vMst2)) + (- #10500 * EConst CT1ep * (#4 * EPow P2 (EVar vMst1) * (- #2 * EPow P2 (EVar
   vMst2) * EPow P2 (EVar vMt) * EPow P2 (EVar vs2t) * (- #589 * EPow P2 (EVar vMuSUSY) * (- #1 + EPow P2 (EVar
   vSbeta)) + #891 * EPow P2 (EVar vMst2) * EPow P2 (EVar vSbeta)) - #14 * EVar vMst2 * EVar vs2t * (#439 * EPow P2
   (EVar vMuSUSY) * (- #1 + EPow P2 (EVar vSbeta)) + #1208 * EPow P2 (EVar vMst2) * EPow P2 (EVar vSbeta)) * EPow P3
   (EVar vMt) + #4 * (- #21 * EPow P2 (EVar vMuSUSY) * (- #1 + EPow P2 (EVar vSbeta)) + #5669 * EPow P2 (EVar vMst2) *
   EPow P2 (EVar vSbeta)) * EPow P4 (EVar vMt) + (#2737 * EVar vMt - #284 * EVar vMst2 * EVar vs2t) * EPow P2 (EVar
   vSbeta) * EPow P3 (EVar vs2t) * EPow P5 (EVar vMst2)) + #21 * EPow P3 (EVar vMst2) * (- #4 * EVar vMst2 * EPow P2
   (EVar vMt) * EPow P2 (EVar vs2t) * (- (EPow P2 (EVar vMuSUSY) * (- #1 + EPow P2 (EVar vSbeta))) + #18 * EPow P2
   (EVar vMst2) * EPow P2 (EVar vSbeta)) - #64 * EVar vs2t * (EPow P2 (EVar vMuSUSY) * (- #1 + EPow P2 (EVar vSbeta))
   + #2 * EPow P2 (EVar vMst2) * EPow P2 (EVar vSbeta)) * EPow P3 (EVar vMt) + EPow P2 (EVar vSbeta) * (#32 * EVar vMt
   * EPow P3 (EVar vs2t) * EPow P4 (EVar vMst2) + #304 * EVar vMst2 * EPow P4 (EVar vMt) - EPow P4 (EVar vs2t) * EPow
   P5 (EVar vMst2)))) - #7 * EPow P2 (EVar vMt) * EPow P2 (EVar vMuSUSY) * (#75 * EPow P2 (EVar vMst2) * (- #8 * EVar
   vMst2 * EVar vMt * EVar vs2t * (#334138 - #61560 * EConst CB4 + #1620 * EConst CDN - #236520 * EVar vlmMst1 - #180
   * (- #823 + #438 * EVar vlmMst1) * EVar vlmMst2 + #2240 * EConst COepS2 - #81 * (- #1373 + #560 * EVar vlmMst1 -
   #560 * EVar vlmMst2) * EConst CS2 - #4320 * EPow P2 (EVar vlmMst1) + #1080 * (#29 + #48 * EVar vlmMst1) * EPow P2
   (EVar vlmMst2) - #51840 * EPow P3 (EVar vlmMst2)) + #96 * EPow P2 (EVar vMt) * (#33934 - #90 * EConst CB4 + #90 *
   EConst CD3 - #45 * EConst CDN + #720 * EVar vlmMst1 + #120 * (#163 + #24 * EVar vlmMst1) * EVar vlmMst2 - #120 *
   EVar vlmMt - #10206 * EConst CS2 - #720 * (#2 + EVar vlmMst1) * EPow P2 (EVar vlmMst2) + #720 * EPow P3 (EVar
   vlmMst2)) + EPow P2 (EVar vMst2) * EPow P2 (EVar vs2t) * (#13169 - #41040 * EConst CB4 + #43200 * EConst CD3 -
   #22680 * EConst CDN + #282960 * EVar vlmMst1 + #1120 * EConst COepS2 - #324 * (#65819 + #70 * EVar vlmMst1 - #70 *
   EVar vlmMst2) * EConst CS2 - #13500 * EPow P2 (EVar vlmMst1) + #720 * EVar vlmMst2 * (- #775 + #12 * EVar vlmMst1 +
   #24 * EPow P2 (EVar vlmMst1)) - #1080 * (- #2 + #123 * EVar vlmMst1) * EPow P2 (EVar vlmMst2) + #115560 * EPow P3
   (EVar vlmMst2))) * EPow P4 (EVar vMst1) - #40500 * EVar vs2t * (EVar vMst2 * EVar vs2t * (#812 - #32 * EVar vlmMst1
   * (- #2 + EVar vlmMst2) + #38 * EVar vlmMst2 - #251 * EPow P2 (EVar vlmMst2)) + #128 * EVar vMt * (#3 + #4 * EVar
   vlmMst2 - #3 * EPow P2 (EVar vlmMst2))) * EPow P2 (EVar vMst1) * EPow P5 (EVar vMst2) + #2 * (- #2 * EPow P2 (EVar
   vMst2) * EPow P2 (EVar vs2t) * (#2011073 + #1417500 * EConst CB4 - #1458000 * EConst CD3 + #749250 * EConst CDN +
   #934245 * EVar vlmMst1 - #1178000 * EConst COepS2 + #1350 * (#620417 + #17670 * EVar vlmMst1 - #17670 * EVar
   vlmMst2) * EConst CS2 + #3150900 * EPow P2 (EVar vlmMst1) - #45 * EVar vlmMst2 * (- #124139 + #189090 * EVar
   vlmMst1 + #71550 * EPow P2 (EVar vlmMst1)) + #4050 * (#1323 + #1970 * EVar vlmMst1) * EPow P2 (EVar vlmMst2) +
   #101250 * EPow P3 (EVar vlmMst1) - #4860000 * EPow P3 (EVar vlmMst2)) - #125 * EVar vMst2 * EVar vMt * EVar vs2t *
   (#996211 - #295488 * EConst CB4 + #7776 * EConst CDN - #1030176 * EVar vlmMst1 - #144 * (- #1883 + #3618 * EVar
   vlmMst1) * EVar vlmMst2 + #98336 * EConst COepS2 - #756 * (#259 + #2634 * EVar vlmMst1 - #2634 * EVar vlmMst2) *
   EConst CS2 + #49248 * EPow P2 (EVar vlmMst1) + #5184 * (#67 + #48 * EVar vlmMst1) * EPow P2 (EVar vlmMst2) -
   #248832 * EPow P3 (EVar vlmMst2)) + #150 * EPow P2 (EVar vMt) * (#2199511 - #4320 * EConst CB4 + #4320 * EConst CD3
   - #2160 * EConst CDN + #140160 * EVar vlmMst1 + #960 * (#1426 + #303 * EVar vlmMst1) * EVar vlmMst2 - #2880 * (-
   #16 + #5 * EVar vlmMst1 - #5 * EVar vlmMst2) * EVar vlmMt - #1120 * EConst COepS2 + #324 * (- #3411 + #70 * EVar
   vlmMst1 - #70 * EVar vlmMst2) * EConst CS2 - #2880 * (#77 + #24 * EVar vlmMst1) * EPow P2 (EVar vlmMst2) + #69120 *
   EPow P3 (EVar vlmMst2))) * EPow P6 (EVar vMst1) + #1296000 * (#2 + EVar vlmMst2 - #3 * EPow P2 (EVar vlmMst2)) *
   EPow P2 (EVar vs2t) * EPow P8 (EVar vMst2)) / EPow P4 (EVar vMst1)) / (EPow P2 (EVar vSbeta) * EPow P6 (EVar
   vMst2))) / #2551500)) - (EVar vxMst * EPow P6 (EVar vMst1) * (- #27 * (EVar vlmMst1 - EVar vlmMst2) * EVar
   voneLoopFlag * EPow P2 (EVar vMt) * EPow P2 (EVar vMuSUSY) * EPow P2 (EVar vs2t) * (- #1 + EPow P2 (EVar vSbeta)) *
   EPow P3 (EVar vMst2) / EPow P2 (EVar vSbeta) - EVar vAl4p * EVar vtwoLoopFlag * (#8 * EVar vMst2 * EVar vs2t * EPow
   P2 (EVar vMt) * (EVar vMst2 * (EVar vMt * (- #193 - #474 * EVar vlmMst2 + #6 * EVar vlmMst1 * (#67 + #42 * EVar
   vlmMst2) - #252 * EPow P2 (EVar vlmMst2)) + EVar vDmglst2 * EVar vs2t * (#49 - #84 * EVar vlmMst2 + #12 * EVar
   vlmMst1 * (#7 + #3 * EVar vlmMst2) - #36 * EPow P2 (EVar vlmMst2))) * EPow P2 (EVar vMuSUSY) + EVar vDmglst2 * EVar
   vMt * (- #785 + #438 * EVar vlmMst2 + #6 * EVar vlmMst1 * (- #85 + #42 * EVar vlmMst2) - #252 * EPow P2 (EVar
   vlmMst2)) * EPow P2 (EVar vMuSUSY) + EVar vs2t * (#1 - #111 * EVar vlmMst2 + #3 * EVar vlmMst1 * (#37 + #72 * EVar
   vlmMst2) - #81 * EPow P2 (EVar vlmMst1) - #135 * EPow P2 (EVar vlmMst2)) * EPow P2 (EVar vMst2) * EPow P2 (EVar
   vMuSUSY) + #4 * (#9 * EVar vDmglst2 * (- EVar vlmMst1 + EVar vlmMst2) * EVar vs2t + EVar vMt * (#49 - #75 * EVar
   vlmMst2 + #3 * EVar vlmMst1 * (#25 + #6 * EVar vlmMst2 - #6 * EVar vlmMt) + #18 * EVar vlmMst2 * EVar vlmMt - #18 *
   EPow P2 (EVar vlmMst2))) * EPow P3 (EVar vMst2)) - #32 * (EVar vDmglst2 * EVar vs2t * (#95 - #447 * EVar vlmMst2 +
   EVar vlmMst1 * (#411 + #90 * EVar vlmMst2 - #90 * EVar vlmMt) + #36 * EVar vlmMt + #90 * EVar vlmMst2 * EVar vlmMt
   - #90 * EPow P2 (EVar vlmMst2)) + EVar vMt * (#65 - #159 * EVar vlmMst2 + #6 * EVar vlmMst1 * (#25 + #6 * EVar
   vlmMst2 - #6 * EVar vlmMt) + #9 * EVar vlmMt + #36 * EVar vlmMst2 * EVar vlmMt - #36 * EPow P2 (EVar vlmMst2))) *
   EPow P3 (EVar vMst2) * EPow P3 (EVar vMt) + #2 * EVar vMst2 * EVar vMt * EVar vMuSUSY * (#4 * EVar vMt * EVar
   vMuSUSY * EVar vs2t * (EVar vDmglst2 * EVar vMst2 * EVar vs2t * (- #49 + #84 * EVar vlmMst2 - #12 * EVar vlmMst1 *
   (#7 + #3 * EVar vlmMst2) + #36 * EPow P2 (EVar vlmMst2)) + EVar vDmglst2 * EVar vMt * (#785 - #438 * EVar vlmMst2 -
   #6 * EVar vlmMst1 * (- #85 + #42 * EVar vlmMst2) + #252 * EPow P2 (EVar vlmMst2)) + EVar vMst2 * EVar vMt * (#193 +
   #474 * EVar vlmMst2 - #6 * EVar vlmMst1 * (#67 + #42 * EVar vlmMst2) + #252 * EPow P2 (EVar vlmMst2)) + EVar vs2t *
   (- #1 + #111 * EVar vlmMst2 - #3 * EVar vlmMst1 * (#37 + #72 * EVar vlmMst2) + #81 * EPow P2 (EVar vlmMst1) + #135
   * EPow P2 (EVar vlmMst2)) * EPow P2 (EVar vMst2)) / EPow P2 (EVar vSbeta) + (#8 * EVar vDmglst2 * (#36 * (- #1 + #3
   * EVar vlmMst1 - #3 * EVar vlmMst2) * EVar vMst2 * EVar vs2t * EPow P2 (EVar vMt) + #3 * EVar vMt * (- #50 + #51 *
   EVar vlmMst2 + #3 * EVar vlmMst1 * (- #17 + #6 * EVar vlmMst2) - #18 * EPow P2 (EVar vlmMst2)) * EPow P2 (EVar
   vMst2) * EPow P2 (EVar vs2t) + #4 * (#7 - #381 * EVar vlmMst2 + EVar vlmMst1 * (#327 + #72 * EVar vlmMst2 - #81 *
   EVar vlmMt) + #54 * EVar vlmMt + #81 * EVar vlmMst2 * EVar vlmMt - #72 * EPow P2 (EVar vlmMst2)) * EPow P3 (EVar
   vMt) + #2 * (#1 + #3 * EVar vlmMst1 - #3 * EVar vlmMst2) * EPow P3 (EVar vMst2) * EPow P3 (EVar vs2t)) - EVar vMst2
   * (- #144 * EVar vMst2 * EVar vs2t * (- EVar vlmMst1 + EVar vlmMst2 - #2 * EVar vlmMst1 * EVar vlmMst2 + EPow P2
   (EVar vlmMst1) + EPow P2 (EVar vlmMst2)) * EPow P2 (EVar vMt) + #24 * EVar vMt * (#1 + #33 * EVar vlmMst2 - #3 *
   EVar vlmMst1 * (#11 + #6 * EVar vlmMst2) + #18 * EPow P2 (EVar vlmMst2)) * EPow P2 (EVar vMst2) * EPow P2 (EVar
   vs2t) + #32 * (#83 - #96 * EVar vlmMst2 + #3 * EVar vlmMst1 * (#29 + #12 * EVar vlmMst2 - #9 * EVar vlmMt) + #9 *
   EVar vlmMt + #27 * EVar vlmMst2 * EVar vlmMt - #36 * EPow P2 (EVar vlmMst2)) * EPow P3 (EVar vMt) + (#5 + EVar
   vlmMst1 * (#6 - #288 * EVar vlmMst2) - #6 * EVar vlmMst2 + #144 * EPow P2 (EVar vlmMst1) + #144 * EPow P2 (EVar
   vlmMst2)) * EPow P3 (EVar vMst2) * EPow P3 (EVar vs2t))) / EVar vTbeta) + #576 * EVar vDmglst2 * (#4 + #6 * EVar
   vlmMst1 * (#9 + #2 * EVar vlmMst2 - #2 * EVar vlmMt) + #7 * EVar vlmMt + EVar vlmMst2 * (- #61 + #12 * EVar vlmMt)
   - #12 * EPow P2 (EVar vlmMst2)) * EPow P2 (EVar vMst2) * EPow P4 (EVar vMt) + #4 * EVar vDmglst2 * (#11 + #42 *
   EVar vlmMst1 - #42 * EVar vlmMst2) * EVar vMt * EPow P3 (EVar vs2t) * EPow P5 (EVar vMst2) + (- #144 * (EVar
   vlmMst1 - EVar vlmMst2) * EVar vMst2 * EVar vxDR2DRMOD * (#2 * EVar vDmglst2 * EVar vlmMst2 * EVar vMst2 + (- #2 +
   EVar vlmMst2) * EVar vxDmglst2 * EPow P2 (EVar vDmglst2) + (#1 + EVar vlmMst2) * EPow P2 (EVar vMst2)) * EPow P2
   (EVar vMt) * EPow P2 (EVar vMuSUSY) * EPow P2 (EVar vs2t) * (- #1 + EPow P2 (EVar vSbeta)) + EVar vxDmglst2 * EPow
   P2 (EVar vDmglst2) * (#24 * EVar vs2t * (#4 * (- #143 + #18 * EVar vlmMst1 - #18 * EVar vlmMst2) * EVar vTbeta *
   EPow P2 (EVar vMuSUSY) * (- #1 + EPow P2 (EVar vSbeta)) + EVar vMst2 * EPow P2 (EVar vSbeta) * (- #12 * EVar vMst2
   * EVar vTbeta * (#18 + EVar vlmMst2 * (#169 - #30 * EVar vlmMt) - #3 * EVar vlmMst1 * (#49 + #10 * EVar vlmMst2 -
   #10 * EVar vlmMt) - #22 * EVar vlmMt + #30 * EPow P2 (EVar vlmMst2)) + EVar vMuSUSY * (#156 + #252 * EVar vlmMst2 -
   #5 * (#43 + #60 * EVar vlmMst2) * EPow P2 (EVar vSbeta) + #12 * EVar vlmMst1 * (- #21 + #25 * EPow P2 (EVar
   vSbeta))))) * EPow P3 (EVar vMt) - #2 * EVar vMst2 * EPow P2 (EVar vMt) * EPow P2 (EVar vs2t) * (- #2 * EVar vTbeta
   * (#157 + #348 * EVar vlmMst2 + #12 * EVar vlmMst1 * (- #29 + #3 * EVar vlmMst2) - #36 * EPow P2 (EVar vlmMst2)) *
   EPow P2 (EVar vMuSUSY) * (- #1 + EPow P2 (EVar vSbeta)) + #36 * (#85 - #36 * EVar vlmMst1 + #36 * EVar vlmMst2) *
   EVar vMst2 * EVar vMuSUSY * EPow P2 (EVar vSbeta) + #3 * EVar vTbeta * EPow P2 (EVar vMst2) * EPow P2 (EVar vSbeta)
   * (#96 - #430 * EPow P2 (EVar vSbeta) + #215 * EPow P4 (EVar vSbeta) - #12 * (EVar vlmMst1 - EVar vlmMst2) * (#22 -
   #50 * EPow P2 (EVar vSbeta) + #25 * EPow P4 (EVar vSbeta)))) + EPow P2 (EVar vSbeta) * (#16 * EVar vMt * ((#1 - #24
   * EVar vlmMst1 + #24 * EVar vlmMst2) * EVar vMuSUSY + #6 * (#1 - #6 * EVar vlmMst1 + #6 * EVar vlmMst2) * EVar
   vMst2 * EVar vTbeta) * EPow P3 (EVar vMst2) * EPow P3 (EVar vs2t) + #32 * (#9 * EVar vMst2 * EVar vTbeta * (#94 +
   #475 * EVar vlmMst2 - #6 * EVar vlmMst1 * (#67 + #14 * EVar vlmMst2 - #14 * EVar vlmMt) - #73 * EVar vlmMt - #84 *
   EVar vlmMst2 * EVar vlmMt + #84 * EPow P2 (EVar vlmMst2)) + EVar vMuSUSY * (#398 + #2085 * EVar vlmMst2 - #18 *
   EVar vlmMst1 * (#95 + #22 * EVar vlmMst2 - #22 * EVar vlmMt) - #375 * EVar vlmMt - #396 * EVar vlmMst2 * EVar vlmMt
   + #396 * EPow P2 (EVar vlmMst2))) * EPow P4 (EVar vMt) + (#5 + #6 * EVar vlmMst1 - #6 * EVar vlmMst2) * EVar vTbeta
   * EPow P4 (EVar vs2t) * EPow P5 (EVar vMst2))) / EVar vTbeta) / EPow P2 (EVar vSbeta) + #2 * (#5 + #6 * EVar
   vlmMst1 - #6 * EVar vlmMst2) * (- #2 * EVar vMt + EVar vDmglst2 * EVar vs2t) * EPow P3 (EVar vs2t) * EPow P6 (EVar
   vMst2) - (#11 + #6 * EVar vlmMst1 - #6 * EVar vlmMst2) * EPow P4 (EVar vs2t) * EPow P7 (EVar vMst2))) / #108 + EVar
   vAl4p * EConst Cz2 * (- #6 * EVar vxDmglst2 * EPow P2 (EVar vDmglst2) * EPow P2 (EVar vMst2) * (#22680 * EVar
   vtwoLoopFlag * EPow P2 (EVar vMst1) * (- #4 * EPow P2 (EVar vMt) * (- #8 * (#7 * EVar vMuSUSY + #15 * EVar vMst2 *
   EVar vTbeta) * EPow P2 (EVar vMt) * EPow P2 (EVar vSbeta) + EVar vMst2 * EVar vMuSUSY * EPow P2 (EVar vs2t) * (EVar
   vMuSUSY * EVar vTbeta * (- #1 + EPow P2 (EVar vSbeta)) - #18 * EVar vMst2 * EPow P2 (EVar vSbeta)) + #12 * EVar vMt
   * EVar vs2t * EVar vTbeta * (- #3 * EPow P2 (EVar vMuSUSY) * (- #1 + EPow P2 (EVar vSbeta)) + #4 * EPow P2 (EVar
   vMst2) * EPow P2 (EVar vSbeta))) * EPow P4 (EVar vMst1) + EVar vs2t * (#4 * (#12 * EVar vMt - EVar vMst2 * EVar
   vs2t) * EVar vTbeta * EPow P2 (EVar vMt) * EPow P2 (EVar vMuSUSY) * (- #1 + EPow P2 (EVar vSbeta)) + EVar vs2t *
   EPow P2 (EVar vMst2) * EPow P2 (EVar vSbeta) * (- #4 * EVar vMst2 * EVar vMt * EVar vs2t * (EVar vMuSUSY + #6 *
   EVar vMst2 * EVar vTbeta) + #72 * EVar vMuSUSY * EPow P2 (EVar vMt) + EVar vTbeta * EPow P2 (EVar vs2t) * EPow P3
   (EVar vMst2))) * EPow P4 (EVar vMst2) - EPow P2 (EVar vMst1) * EPow P2 (EVar vMst2) * (- #4 * EVar vMst2 * EVar
   vMuSUSY * EPow P2 (EVar vMt) * EPow P2 (EVar vs2t) * (- (EVar vMuSUSY * EVar vTbeta * (- #1 + EPow P2 (EVar
   vSbeta))) + #18 * EVar vMst2 * EPow P2 (EVar vSbeta)) + #32 * EVar vs2t * EVar vTbeta * (- #3 * EPow P2 (EVar
   vMuSUSY) * (- #1 + EPow P2 (EVar vSbeta)) + EPow P2 (EVar vMst2) * EPow P2 (EVar vSbeta)) * EPow P3 (EVar vMt) -
   #32 * (EVar vMuSUSY + #3 * EVar vMst2 * EVar vTbeta) * EPow P2 (EVar vSbeta) * EPow P4 (EVar vMt) + EVar vTbeta *
   EPow P2 (EVar vSbeta) * EPow P4 (EVar vs2t) * EPow P5 (EVar vMst2))) + EVar vAl4p * EVar vMst2 * EVar
   vthreeLoopFlag * (#4 * EPow P4 (EVar vMst1) * (#2 * EPow P2 (EVar vMst2) * EPow P2 (EVar vMt) * (- #7 * (- #261247
   + #163890 * EVar vlmMst1 - #140670 * EVar vlmMst2) * EVar vTbeta * EPow P2 (EVar vMuSUSY) * EPow P2 (EVar vs2t) *
   (- #1 + EPow P2 (EVar vSbeta)) + #2 * EVar vMt * (#36 * (#297316 - #20265 * EVar vlmMst1 + #231945 * EVar vlmMst2)
   * EVar vMuSUSY * EVar vs2t + (#71735177 - #8595720 * EVar vlmMst1 + #18272520 * EVar vlmMst2 - #6940080 * EVar
   vlmMt) * EVar vMt * EVar vTbeta) * EPow P2 (EVar vSbeta)) - EVar vs2t * (- #21 * (- #1486429 + #190080 * EVar
   vlmMst1 + #43200 * EVar vlmMst2) * EVar vMuSUSY * EVar vs2t + #32 * (#4999046 - #615195 * EVar vlmMst1 + #1302210 *
   EVar vlmMst2 - #566055 * EVar vlmMt) * EVar vMt * EVar vTbeta) * EPow P2 (EVar vMt) * EPow P2 (EVar vSbeta) * EPow
   P3 (EVar vMst2) + #2 * EVar vMst2 * EVar vMuSUSY * (#35 * (- #184517 + #74952 * EVar vlmMst1 + #18360 * EVar
   vlmMst2) * EVar vMuSUSY * EVar vs2t * EVar vTbeta * (- #1 + EPow P2 (EVar vSbeta)) + #8 * (#10736701 - #1553580 *
   EVar vlmMst1 + #3303720 * EVar vlmMst2 - #1508220 * EVar vlmMt) * EVar vMt * EPow P2 (EVar vSbeta)) * EPow P3 (EVar
   vMt) + EVar vMt * (#7 * (#642497 - #170100 * EVar vlmMst1 + #170100 * EVar vlmMst2) * EVar vMuSUSY * EVar vs2t +
   #90 * (- #186703 + #16632 * EVar vlmMst1 - #97272 * EVar vlmMst2) * EVar vMt * EVar vTbeta) * EPow P2 (EVar vs2t) *
   EPow P2 (EVar vSbeta) * EPow P4 (EVar vMst2) + #84 * (#12761 + #5400 * EVar vlmMst1 + #178920 * EVar vlmMst2) *
   EVar vTbeta * EPow P2 (EVar vMuSUSY) * (- #1 + EPow P2 (EVar vSbeta)) * EPow P4 (EVar vMt) + #7 * ((#2050273 -
   #5400 * EVar vlmMst1 + #5400 * EVar vlmMst2) * EVar vMt + #5 * (- #36721 + #621 * EVar vlmMst1 - #2943 * EVar
   vlmMst2) * EVar vMst2 * EVar vs2t) * EVar vTbeta * EPow P2 (EVar vSbeta) * EPow P3 (EVar vs2t) * EPow P5 (EVar
   vMst2)) - #3 * EPow P2 (EVar vMst1) * EPow P2 (EVar vMst2) * (- #4 * EPow P2 (EVar vMst2) * EPow P2 (EVar vMt) * (-
   #7 * (#40001 + #52560 * EVar vlmMst1 - #37080 * EVar vlmMst2) * EVar vTbeta * EPow P2 (EVar vMuSUSY) * EPow P2
   (EVar vs2t) * (- #1 + EPow P2 (EVar vSbeta)) + #4 * EVar vMt * (#3 * (#255749 + #2100 * EVar vlmMst1 + #441420 *
   EVar vlmMst2) * EVar vMuSUSY * EVar vs2t + (#3572731 - #486360 * EVar vlmMst1 + #912240 * EVar vlmMst2 - #587160 *
   EVar vlmMt) * EVar vMt * EVar vTbeta) * EPow P2 (EVar vSbeta)) + #4 * EVar vMt * EVar vs2t * (EVar vMst2 * EVar
   vs2t * (#7 * (#30641 + #52560 * EVar vlmMst1 - #37080 * EVar vlmMst2) * EVar vMuSUSY * EVar vs2t + #6 * (#233909 +
   #2100 * EVar vlmMst1 + #441420 * EVar vlmMst2) * EVar vMt * EVar vTbeta) - #4 * EVar vMt * (#21 * (#46987 + #15390
   * EVar vlmMst1 + #4050 * EVar vlmMst2) * EVar vMuSUSY * EVar vs2t + #4 * (- #497573 + #107730 * EVar vlmMst1 -
   #233100 * EVar vlmMst2 + #125370 * EVar vlmMt) * EVar vMt * EVar vTbeta)) * EPow P2 (EVar vSbeta) * EPow P3 (EVar
   vMst2) - #32 * EVar vMst2 * EVar vMuSUSY * (#7 * (#46987 + #15390 * EVar vlmMst1 + #4050 * EVar vlmMst2) * EVar
   vMuSUSY * EVar vs2t * EVar vTbeta * (- #1 + EPow P2 (EVar vSbeta)) + #4 * (#217444 - #53865 * EVar vlmMst1 +
   #116550 * EVar vlmMst2 - #62685 * EVar vlmMt) * EVar vMt * EPow P2 (EVar vSbeta)) * EPow P3 (EVar vMt) + EVar
   vTbeta * (- #5376 * (#17 + #1320 * EVar vlmMst2) * EPow P2 (EVar vMuSUSY) * (- #1 + EPow P2 (EVar vSbeta)) * EPow
   P4 (EVar vMt) + #7 * (#16 * (#46987 + #15390 * EVar vlmMst1 + #4050 * EVar vlmMst2) * EVar vMt + (- #21281 - #52560
   * EVar vlmMst1 + #37080 * EVar vlmMst2) * EVar vMst2 * EVar vs2t) * EPow P2 (EVar vSbeta) * EPow P3 (EVar vs2t) *
   EPow P5 (EVar vMst2))) + #196560 * (- #4 * EVar vTbeta * EPow P2 (EVar vMt) * EPow P2 (EVar vs2t) * (EPow P2 (EVar
   vMuSUSY) * (- #1 + EPow P2 (EVar vSbeta)) + #2 * EPow P2 (EVar vMst2) * EPow P2 (EVar vSbeta)) + EPow P2 (EVar
   vSbeta) * (#16 * EVar vMuSUSY * EVar vs2t * EPow P3 (EVar vMt) - #4 * EVar vMt * EVar vMuSUSY * EPow P2 (EVar
   vMst2) * EPow P3 (EVar vs2t) + #16 * EVar vTbeta * EPow P4 (EVar vMt) + EVar vTbeta * EPow P4 (EVar vMst2) * EPow
   P4 (EVar vs2t))) * EPow P6 (EVar vMst2))) + #544320 * EVar vtwoLoopFlag * EVar vxMst * EPow P2 (EVar vMt) * (EVar
   vxDmglst2 * EPow P2 (EVar vDmglst2) * (- #16 * (#11 * EVar vMuSUSY + #21 * EVar vMst2 * EVar vTbeta) * EPow P2
   (EVar vMt) * EPow P2 (EVar vSbeta) + EVar vMst2 * EVar vMuSUSY * EPow P2 (EVar vs2t) * (EVar vMuSUSY * EVar vTbeta
   * (- #1 + EPow P2 (EVar vSbeta)) - #18 * EVar vMst2 * EPow P2 (EVar vSbeta)) - #24 * EVar vMt * EVar vs2t * EVar
   vTbeta * (#2 * EPow P2 (EVar vMuSUSY) * (- #1 + EPow P2 (EVar vSbeta)) - #5 * EPow P2 (EVar vMst2) * EPow P2 (EVar
   vSbeta))) + #2 * EVar vMt * EPow P2 (EVar vMst2) * (- #8 * EVar vMt * (#2 * EVar vMuSUSY + EVar vMst2 * EVar
   vTbeta) * EPow P2 (EVar vSbeta) + EVar vs2t * EVar vTbeta * (- (EPow P2 (EVar vMuSUSY) * (- #1 + EPow P2 (EVar
   vSbeta))) + #4 * EPow P2 (EVar vMst2) * EPow P2 (EVar vSbeta))) - #2 * EVar vDmglst2 * EVar vMst2 * (- #16 * (#2 *
   EVar vMuSUSY + #3 * EVar vMst2 * EVar vTbeta) * EPow P2 (EVar vMt) * EPow P2 (EVar vSbeta) + EVar vMst2 * EVar
   vMuSUSY * EPow P2 (EVar vs2t) * (- (EVar vMuSUSY * EVar vTbeta * (- #1 + EPow P2 (EVar vSbeta))) + #6 * EVar vMst2
   * EPow P2 (EVar vSbeta)) + EVar vMt * EVar vs2t * EVar vTbeta * (#17 * EPow P2 (EVar vMuSUSY) * (- #1 + EPow P2
   (EVar vSbeta)) + #20 * EPow P2 (EVar vMst2) * EPow P2 (EVar vSbeta)))) * EPow P8 (EVar vMst1) - #420 * EVar vAl4p *
   EVar vthreeLoopFlag * EPow P3 (EVar vMst2) * (EVar vxDmsqst2 * EPow P2 (EVar vDmsqst2) * (#4 * EVar vMt * EVar
   vMuSUSY * EPow P2 (EVar vSbeta) * (#243 * EVar vMst2 * EVar vMt * EPow P2 (EVar vMst1) * (#80 * (#1 + EVar vlmMst1
   - EVar vlmMst2) * EPow P2 (EVar vMst1) + #40 * (#3 + EVar vlmMst1 - EVar vlmMst2) * EPow P2 (EVar vMst2)) * EPow P2
   (EVar vs2t) - #12960 * (- #2 + EVar vlmMst1 - #2 * EVar vlmMst2 + EVar vlmMt) * EVar vMst2 * EPow P2 (EVar vMst1) *
   EPow P3 (EVar vMt) + #30 * EVar vs2t * EPow P2 (EVar vMt) * (#627 * EPow P2 (EVar vMst1) * EPow P2 (EVar vMst2) +
   #1348 * EPow P4 (EVar vMst1) + #108 * EPow P4 (EVar vMst2)) - #5 * EPow P3 (EVar vs2t) * (#3 * (#1057 + #162 * EVar
   vlmMst1 - #162 * EVar vlmMst2) * EPow P2 (EVar vMst2) * EPow P4 (EVar vMst1) + #9 * (#191 + #18 * EVar vlmMst1 -
   #18 * EVar vlmMst2) * EPow P2 (EVar vMst1) * EPow P4 (EVar vMst2) + #4180 * EPow P6 (EVar vMst1) + #162 * EPow P6
   (EVar vMst2))) + EVar vTbeta * (- #25920 * (#3 + EVar vlmMst1 - EVar vlmMst2) * EVar vMst2 * EVar vs2t * EPow P2
   (EVar vMst1) * EPow P2 (EVar vMuSUSY) * EPow P3 (EVar vMt) + #162 * EVar vMt * EPow P2 (EVar vs2t) * (#10 * (#209 +
   #18 * EVar vlmMst1 - #18 * EVar vlmMst2) * EVar vMt * EPow P2 (EVar vMst1) * EPow P2 (EVar vMst2) * EPow P2 (EVar
   vMuSUSY) / #9 + #40 * (#421 + #54 * EVar vlmMst1 - #54 * EVar vlmMst2) * EVar vMt * EPow P2 (EVar vMuSUSY) * EPow
   P4 (EVar vMst1) / #27 + #20 * EVar vMt * EPow P2 (EVar vMuSUSY) * EPow P4 (EVar vMst2) + #5 * ((- #51 + #6 * EVar
   vlmMst1 - #6 * EVar vlmMst2) * EVar vMt - #2 * (#11 + #10 * EVar vlmMst1 - #10 * EVar vlmMst2) * EVar vMst2 * EVar
   vs2t) * (- #2 + EPow P2 (EVar vSbeta)) * EPow P4 (EVar vSbeta) * EPow P6 (EVar vMst1)) + EPow P2 (EVar vSbeta) * (-
   #25920 * EVar vMst2 * EVar vs2t * EPow P2 (EVar vMst1) * ((#14 - #4 * EVar vlmMst1 + #8 * EVar vlmMst2 - #4 * EVar
   vlmMt) * EPow P2 (EVar vMst1) + (#5 - #2 * EVar vlmMst1 + #4 * EVar vlmMst2 - #2 * EVar vlmMt) * EPow P2 (EVar
   vMst2) + (- #3 - EVar vlmMst1 + EVar vlmMst2) * EPow P2 (EVar vMuSUSY)) * EPow P3 (EVar vMt) + #3240 * EVar vMst2 *
   EVar vMt * EPow P2 (EVar vMst1) * EPow P3 (EVar vs2t) * (#4 * (#1 - EVar vlmMst1 + EVar vlmMst2) * EPow P2 (EVar
   vMst1) * EPow P2 (EVar vMst2) + (#17 + #10 * EVar vlmMst1 - #10 * EVar vlmMst2) * EPow P4 (EVar vMst1) - #4 * (#3 +
   EVar vlmMst1 - EVar vlmMst2) * EPow P4 (EVar vMst2)) + #12960 * ((#13 - #3 * EVar vlmMst1 + #6 * EVar vlmMst2 - #3
   * EVar vlmMt) * EPow P2 (EVar vMst1) * EPow P2 (EVar vMst2) + #5 * (#9 - #2 * EVar vlmMst1 + #4 * EVar vlmMst2 - #2
   * EVar vlmMt) * EPow P4 (EVar vMst1) + EPow P4 (EVar vMst2)) * EPow P4 (EVar vMt) + #9 * EPow P2 (EVar vMst2) *
   EPow P4 (EVar vs2t) * (#20 * (#121 + #27 * EVar vlmMst1 - #27 * EVar vlmMst2) * EPow P2 (EVar vMst2) * EPow P4
   (EVar vMst1) / #3 + #5 * (#173 + #18 * EVar vlmMst1 - #18 * EVar vlmMst2) * EPow P2 (EVar vMst1) * EPow P4 (EVar
   vMst2) + (EDec 5605555555555555 13 - #270 * EVar vlmMst1 + #270 * EVar vlmMst2) * EPow P6 (EVar vMst1) + #90 * EPow
   P6 (EVar vMst2)) - #60 * EPow P2 (EVar vMt) * EPow P2 (EVar vs2t) * (#721 * (EPow P2 (EVar vMst1) + EPow P2 (EVar
   vMst2)) * EPow P4 (EVar vMst1) + #519 * EPow P2 (EVar vMst1) * EPow P4 (EVar vMst2) + EPow P2 (EVar vMuSUSY) * (#3
   * (#209 + #18 * EVar vlmMst1 - #18 * EVar vlmMst2) * EPow P2 (EVar vMst1) * EPow P2 (EVar vMst2) + #4 * (#421 + #54
   * EVar vlmMst1 - #54 * EVar vlmMst2) * EPow P4 (EVar vMst1) + #54 * EPow P4 (EVar vMst2)) + #108 * EPow P6 (EVar
   vMst2))))) - #108 * EVar vxDR2DRMOD * (#8 * EVar vMt * EVar vMuSUSY * EPow P2 (EVar vSbeta) * (EPow P2 (EVar vMst1)
   * EPow P2 (EVar vMst2) * EPow P2 (EVar vs2t) * (- (EVar vs2t * EPow P3 (EVar vMst2) * ((#7 * EVar vDmglst2 - #13 *
   EVar vMst2) * EPow P2 (EVar vMst1) + #2 * EVar vDmglst2 * (#7 * EVar vlmMst1 - #15 * EVar vlmMst2) * EPow P2 (EVar
   vMst2) - #2 * (#4 + #13 * EVar vlmMst1 - #9 * EVar vlmMst2) * EPow P3 (EVar vMst2))) - #48 * (EVar vDmglst2 + #3 *
   EVar vDmglst2 * EVar vlmMst2 + EVar vMst2 + EVar vlmMst2 * EVar vMst2) * EVar vMt * (EPow P2 (EVar vMst1) * EPow P2
   (EVar vMst2) + EPow P4 (EVar vMst1) + EPow P4 (EVar vMst2))) + #64 * EPow P2 (EVar vMst1) * EPow P3 (EVar vMt) * (-
   (EVar vDmglst2 * (#7 + EVar vlmMst2) * EPow P2 (EVar vMst1) * EPow P2 (EVar vMst2)) - #2 * EVar vDmglst2 * (#11 +
   #5 * EVar vlmMst2) * EPow P4 (EVar vMst1) + EVar vDmglst2 * (- #1 + EVar vlmMst2) * EPow P4 (EVar vMst2) + (#1 +
   EVar vlmMst2) * EVar vMst2 * (#3 * EPow P2 (EVar vMst1) * EPow P2 (EVar vMst2) + #6 * EPow P4 (EVar vMst1) + EPow
   P4 (EVar vMst2))) + #4 * (#7 * EVar vDmglst2 - #13 * EVar vMst2) * EVar vs2t * (EPow P2 (EVar vMst1) - EPow P2
   (EVar vMst2)) * EPow P2 (EVar vMt) * EPow P5 (EVar vMst2)) + #8 * EVar vMt * EPow P2 (EVar vSbeta) * (- #80 * EVar
   vTbeta * EVar vxDmglst2 * EPow P2 (EVar vDmglst2) * EPow P3 (EVar vMt) + (#7 * EVar vDmglst2 - #13 * EVar vMst2) *
   EVar vMuSUSY * EPow P3 (EVar vMst2) * EPow P3 (EVar vs2t)) * EPow P6 (EVar vMst2) + EVar vMst2 * EVar vxDmglst2 *
   EPow P2 (EVar vDmglst2) * (#32 * EVar vMt * EVar vMuSUSY * EPow P2 (EVar vSbeta) * (#12 * (#2 - #3 * EVar vlmMst2)
   * EVar vMt * EPow P2 (EVar vMst1) * EPow P2 (EVar vMst2) * (EPow P2 (EVar vMst1) + EPow P2 (EVar vMst2)) * EPow P2
   (EVar vs2t) + #20 * EVar vs2t * (EPow P2 (EVar vMst1) - EPow P2 (EVar vMst2)) * EPow P2 (EVar vMt) * EPow P3 (EVar
   vMst2) + #16 * EPow P2 (EVar vMst1) * ((#7 + #2 * EVar vlmMst2) * EPow P2 (EVar vMst1) - EPow P2 (EVar vMst2)) *
   EPow P3 (EVar vMt) - EPow P3 (EVar vMst2) * EPow P3 (EVar vs2t) * (#2 * (#2 + #5 * EVar vlmMst1 - #6 * EVar
   vlmMst2) * EPow P2 (EVar vMst1) * EPow P2 (EVar vMst2) + #5 * EPow P4 (EVar vMst1) - #5 * EPow P4 (EVar vMst2))) +
   EVar vTbeta * (- #32 * EVar vs2t * EPow P2 (EVar vMt) * EPow P2 (EVar vMuSUSY) * ((- #8 * (- #2 + #3 * EVar
   vlmMst2) * EVar vMt + (#1 - #10 * EVar vlmMst1 + #12 * EVar vlmMst2) * EVar vMst2 * EVar vs2t) * EPow P2 (EVar
   vMst1) * EPow P2 (EVar vMst2) - #2 * (#8 * (- #2 + #3 * EVar vlmMst2) * EVar vMt + (#2 + #5 * EVar vlmMst1 - #6 *
   EVar vlmMst2) * EVar vMst2 * EVar vs2t) * EPow P4 (EVar vMst1) + #5 * EVar vs2t * EPow P5 (EVar vMst2)) + EPow P2
   (EVar vSbeta) * (#128 * EPow P2 (EVar vMst1) * (EPow P2 (EVar vMst2) * (- (EVar vMst2 * EVar vMt) + #4 * EVar vs2t
   * EPow P2 (EVar vMst2) + #2 * (#2 - #3 * EVar vlmMst2) * EVar vs2t * EPow P2 (EVar vMuSUSY)) - #4 * EPow P2 (EVar
   vMst1) * (- #3 * (#8 + #3 * EVar vlmMst2) * EVar vMst2 * EVar vMt + #2 * (#4 + EVar vlmMst2) * EVar vs2t * EPow P2
   (EVar vMst2) + (- #2 + #3 * EVar vlmMst2) * EVar vs2t * EPow P2 (EVar vMuSUSY))) * EPow P3 (EVar vMt) - #32 * EVar
   vMst2 * EPow P2 (EVar vMt) * EPow P2 (EVar vs2t) * ((#2 * (#2 + #5 * EVar vlmMst1 - #6 * EVar vlmMst2) * EPow P2
   (EVar vMst1) - #5 * EPow P2 (EVar vMst2)) * (EPow P2 (EVar vMst1) + EPow P2 (EVar vMst2)) * EPow P2 (EVar vMuSUSY)
   + #20 * EPow P2 (EVar vMst1) * EPow P4 (EVar vMst2) - #10 * EPow P2 (EVar vMst2) * (EPow P4 (EVar vMst1) + EPow P4
   (EVar vMst2))) + (#8 * (#9 + #10 * EVar vlmMst1 - #12 * EVar vlmMst2) * EPow P2 (EVar vMst1) * EPow P2 (EVar vMst2)
   + (#8 - #80 * EVar vlmMst1 + #96 * EVar vlmMst2) * EPow P4 (EVar vMst1) - #40 * EPow P4 (EVar vMst2)) * EPow P4
   (EVar vs2t) * EPow P5 (EVar vMst2) + #128 * (- #2 + #3 * EVar vlmMst2) * EVar vMt * EPow P2 (EVar vMst1) * EPow P3
   (EVar vs2t) * EPow P6 (EVar vMst2)))) + EVar vTbeta * (EVar vs2t * EPow P2 (EVar vMt) * EPow P2 (EVar vMuSUSY) *
   (#256 * (EVar vDmglst2 + #3 * EVar vDmglst2 * EVar vlmMst2 + EVar vMst2 + EVar vlmMst2 * EVar vMst2) * EVar vMt *
   EPow P2 (EVar vMst1) * (#2 * EPow P2 (EVar vMst1) * EPow P2 (EVar vMst2) + #3 * EPow P4 (EVar vMst1) + EPow P4
   (EVar vMst2)) + #8 * EVar vMst2 * EVar vs2t * (#2 * (EVar vDmglst2 * (#7 * EVar vlmMst1 - #15 * EVar vlmMst2) + (-
   #4 - #13 * EVar vlmMst1 + #9 * EVar vlmMst2) * EVar vMst2) * (EPow P2 (EVar vMst1) + EPow P2 (EVar vMst2)) * EPow
   P4 (EVar vMst1) - EVar vDmglst2 * ((#7 - #14 * EVar vlmMst1 + #30 * EVar vlmMst2) * EPow P2 (EVar vMst1) + #7 *
   EPow P2 (EVar vMst2)) * EPow P4 (EVar vMst2) + (#5 - #26 * EVar vlmMst1 + #18 * EVar vlmMst2) * EPow P2 (EVar
   vMst1) * EPow P5 (EVar vMst2) + #13 * EPow P7 (EVar vMst2))) + EPow P2 (EVar vSbeta) * (#2 * (EPow P2 (EVar vMst1)
   - EPow P2 (EVar vMst2)) * EPow P4 (EVar vs2t) * (#2 * (#4 + #13 * EVar vlmMst1 - #9 * EVar vlmMst2) * EPow P2 (EVar
   vMst1) * EPow P3 (EVar vMst2) + #13 * EVar vMst2 * EPow P4 (EVar vMst1) + EVar vDmglst2 * (#2 * (- #7 * EVar
   vlmMst1 + #15 * EVar vlmMst2) * EPow P2 (EVar vMst1) * EPow P2 (EVar vMst2) - #7 * EPow P4 (EVar vMst1) + #7 * EPow
   P4 (EVar vMst2)) - #13 * EPow P5 (EVar vMst2)) * EPow P5 (EVar vMst2) + #32 * EVar vMst2 * EPow P4 (EVar vMt) *
   (#48 * (#1 + EVar vlmMst2) * EVar vMst2 * (#2 * EPow P2 (EVar vMst1) + EPow P2 (EVar vMst2)) * EPow P4 (EVar vMst1)
   + (#29 + #16 * EVar vlmMst2) * EPow P2 (EVar vMst1) * EPow P5 (EVar vMst2) - EVar vDmglst2 * (#96 * (#2 + EVar
   vlmMst2) * EPow P2 (EVar vMst2) * EPow P4 (EVar vMst1) + #39 * EPow P2 (EVar vMst1) * EPow P4 (EVar vMst2) + #192 *
   (#3 + #2 * EVar vlmMst2) * EPow P6 (EVar vMst1) + #7 * EPow P6 (EVar vMst2)) + #13 * EPow P7 (EVar vMst2)) - #256 *
   EVar vs2t * EPow P2 (EVar vMst1) * EPow P3 (EVar vMt) * (- #6 * EVar vDmglst2 * (#5 + #3 * EVar vlmMst2) * EPow P2
   (EVar vMst2) * EPow P4 (EVar vMst1) + #4 * (- (EVar vDmglst2 * (#3 + EVar vlmMst2)) + (#1 + EVar vlmMst2) * EVar
   vMst2) * EPow P2 (EVar vMst1) * EPow P4 (EVar vMst2) + (EVar vDmglst2 + #3 * EVar vDmglst2 * EVar vlmMst2 + EVar
   vMst2 + EVar vlmMst2 * EVar vMst2) * EPow P2 (EVar vMuSUSY) * (#2 * EPow P2 (EVar vMst1) * EPow P2 (EVar vMst2) +
   #3 * EPow P4 (EVar vMst1) + EPow P4 (EVar vMst2)) + #2 * EVar vDmglst2 * (- #1 + EVar vlmMst2) * EPow P6 (EVar
   vMst2) + #2 * (#1 + EVar vlmMst2) * (#3 * EPow P3 (EVar vMst2) * EPow P4 (EVar vMst1) + EPow P7 (EVar vMst2))) +
   #128 * (EVar vDmglst2 + #3 * EVar vDmglst2 * EVar vlmMst2 + EVar vMst2 + EVar vlmMst2 * EVar vMst2) * EVar vMt *
   EPow P2 (EVar vMst1) * EPow P3 (EVar vs2t) * EPow P8 (EVar vMst2) + #8 * EVar vMst2 * EPow P2 (EVar vMt) * EPow P2
   (EVar vs2t) * (#2 * (#7 * EVar vDmglst2 - #13 * EVar vMst2) * EPow P4 (EVar vMst1) * EPow P4 (EVar vMst2) + #4 * (-
   #7 * EVar vDmglst2 + #13 * EVar vMst2) * EPow P2 (EVar vMst1) * EPow P6 (EVar vMst2) + EPow P2 (EVar vMuSUSY) * (#2
   * (#4 + #13 * EVar vlmMst1 - #9 * EVar vlmMst2) * EVar vMst2 * (EPow P2 (EVar vMst1) + EPow P2 (EVar vMst2)) * EPow
   P4 (EVar vMst1) + #7 * EVar vDmglst2 * (EPow P2 (EVar vMst1) + EPow P2 (EVar vMst2)) * EPow P4 (EVar vMst2) + EVar
   vDmglst2 * (- #14 * EVar vlmMst1 + #30 * EVar vlmMst2) * EPow P2 (EVar vMst1) * (EPow P2 (EVar vMst1) * EPow P2
   (EVar vMst2) + EPow P4 (EVar vMst1) + EPow P4 (EVar vMst2)) + (- #5 + #26 * EVar vlmMst1 - #18 * EVar vlmMst2) *
   EPow P2 (EVar vMst1) * EPow P5 (EVar vMst2) - #13 * EPow P7 (EVar vMst2)) + #2 * (#7 * EVar vDmglst2 - #13 * EVar
   vMst2) * EPow P8 (EVar vMst2)))))) + EPow P3 (EVar vMst2) * (- #68040 * EVar vtwoLoopFlag * EPow P2 (EVar vMst1) *
   (EPow P5 (EVar vMst2) * (#4 * EVar vMst2 * EVar vMuSUSY * EPow P2 (EVar vMt) * EPow P2 (EVar vs2t) * (- (EVar
   vMuSUSY * EVar vTbeta * (- #1 + EPow P2 (EVar vSbeta))) + #6 * EVar vMst2 * EPow P2 (EVar vSbeta)) + #16 * EVar
   vs2t * EVar vTbeta * (EPow P2 (EVar vMuSUSY) * (- #1 + EPow P2 (EVar vSbeta)) - #4 * EPow P2 (EVar vMst2) * EPow P2
   (EVar vSbeta)) * EPow P3 (EVar vMt) - #4 * EVar vMt * (EVar vMuSUSY + #2 * EVar vMst2 * EVar vTbeta) * EPow P2
   (EVar vSbeta) * EPow P3 (EVar vMst2) * EPow P3 (EVar vs2t) + #32 * (#2 * EVar vMuSUSY + EVar vMst2 * EVar vTbeta) *
   EPow P2 (EVar vSbeta) * EPow P4 (EVar vMt) + EVar vTbeta * EPow P2 (EVar vSbeta) * EPow P4 (EVar vs2t) * EPow P5
   (EVar vMst2)) + EVar vMst2 * EPow P4 (EVar vMst1) * (#16 * EVar vs2t * EVar vTbeta * (EPow P2 (EVar vMuSUSY) * (-
   #1 + EPow P2 (EVar vSbeta)) - #4 * EPow P2 (EVar vMst2) * EPow P2 (EVar vSbeta)) * EPow P3 (EVar vMt) + #96 * (#2 *
   EVar vMuSUSY + EVar vMst2 * EVar vTbeta) * EPow P2 (EVar vSbeta) * EPow P4 (EVar vMt) + EVar vTbeta * EPow P2 (EVar
   vSbeta) * EPow P4 (EVar vs2t) * EPow P5 (EVar vMst2)) - #2 * EPow P2 (EVar vMst1) * EPow P3 (EVar vMst2) * (EPow P2
   (EVar vSbeta) * (- #2 * EVar vMt * (EVar vMuSUSY + #2 * EVar vMst2 * EVar vTbeta) * EPow P3 (EVar vMst2) * EPow P3
   (EVar vs2t) - #32 * (#2 * EVar vMuSUSY + EVar vMst2 * EVar vTbeta) * EPow P4 (EVar vMt)) + EVar vTbeta * (#8 * EVar
   vs2t * (EPow P2 (EVar vMuSUSY) + (#4 * EPow P2 (EVar vMst2) - EPow P2 (EVar vMuSUSY)) * EPow P2 (EVar vSbeta)) *
   EPow P3 (EVar vMt) + EPow P2 (EVar vSbeta) * EPow P4 (EVar vs2t) * EPow P5 (EVar vMst2))) + #4 * EVar vDmglst2 *
   (#4 * EPow P2 (EVar vMt) * (- #12 * (EVar vMuSUSY + #2 * EVar vMst2 * EVar vTbeta) * EPow P2 (EVar vMt) * EPow P2
   (EVar vSbeta) + EVar vMst2 * EVar vMuSUSY * EPow P2 (EVar vs2t) * (- (EVar vMuSUSY * EVar vTbeta * (- #1 + EPow P2
   (EVar vSbeta))) + #6 * EVar vMst2 * EPow P2 (EVar vSbeta)) + EVar vMt * EVar vs2t * EVar vTbeta * (#13 * EPow P2
   (EVar vMuSUSY) * (- #1 + EPow P2 (EVar vSbeta)) + #12 * EPow P2 (EVar vMst2) * EPow P2 (EVar vSbeta))) * EPow P4
   (EVar vMst1) + EPow P2 (EVar vMst1) * EPow P2 (EVar vMst2) * (#8 * EVar vs2t * (#3 * EVar vMuSUSY * EVar vs2t + #2
   * EVar vMt * EVar vTbeta) * EPow P2 (EVar vMst2) * EPow P2 (EVar vMt) * EPow P2 (EVar vSbeta) + EVar vTbeta * (- #4
   * EVar vMst2 * EPow P2 (EVar vMt) * EPow P2 (EVar vMuSUSY) * EPow P2 (EVar vs2t) * (- #1 + EPow P2 (EVar vSbeta)) +
   #36 * EVar vs2t * EPow P2 (EVar vMuSUSY) * (- #1 + EPow P2 (EVar vSbeta)) * EPow P3 (EVar vMt) + (#2 * EVar vMt -
   EVar vMst2 * EVar vs2t) * EPow P2 (EVar vSbeta) * EPow P3 (EVar vs2t) * EPow P4 (EVar vMst2) - #32 * EVar vMst2 *
   EPow P2 (EVar vSbeta) * EPow P4 (EVar vMt))) + EPow P4 (EVar vMst2) * (#2 * EVar vMst2 * EVar vMuSUSY * EPow P2
   (EVar vMt) * EPow P2 (EVar vs2t) * (- #2 * EVar vMuSUSY * EVar vTbeta * (- #1 + EPow P2 (EVar vSbeta)) + #15 * EVar
   vMst2 * EPow P2 (EVar vSbeta)) + #4 * EVar vs2t * EVar vTbeta * (#5 * EPow P2 (EVar vMuSUSY) * (- #1 + EPow P2
   (EVar vSbeta)) - #4 * EPow P2 (EVar vMst2) * EPow P2 (EVar vSbeta)) * EPow P3 (EVar vMt) - #2 * EVar vMt * (#2 *
   EVar vMuSUSY + #5 * EVar vMst2 * EVar vTbeta) * EPow P2 (EVar vSbeta) * EPow P3 (EVar vMst2) * EPow P3 (EVar vs2t)
   + #16 * EVar vMuSUSY * EPow P2 (EVar vSbeta) * EPow P4 (EVar vMt) + EVar vTbeta * EPow P2 (EVar vSbeta) * EPow P4
   (EVar vs2t) * EPow P5 (EVar vMst2)))) + EVar vAl4p * EVar vthreeLoopFlag * (EVar vTbeta * (- #56 * EPow P2 (EVar
   vMst1) * EPow P2 (EVar vMuSUSY) * EPow P3 (EVar vMt) * (- #27 * EPow P2 (EVar vMst2) * (#5 * EVar vMst2 * (#64 *
   (#53 + #24 * EVar vlmMst2) * EVar vMst2 * EVar vMt + #2880 * EVar vDmsqst2 * (#2 + EVar vlmMst1 - EVar vlmMst2) *
   EVar vs2t + #3 * (#2269 + #664 * EVar vlmMst1 - #56 * EVar vlmMst2) * EVar vs2t * EPow P2 (EVar vMst2)) + EVar
   vDmglst2 * (#7680 * (#5 + #6 * EVar vlmMst2) * EVar vMst2 * EVar vMt - #14400 * EVar vDmsqst2 * (#2 + #3 * EVar
   vlmMst1 - #3 * EVar vlmMst2) * EVar vs2t + (#173947 - #25080 * EVar vlmMst1 + #68760 * EVar vlmMst2) * EVar vs2t *
   EPow P2 (EVar vMst2))) - #36 * EPow P2 (EVar vMst1) * (#5 * EVar vMst2 * (#3 * (- #353 + #72 * EVar vlmMst1 + #696
   * EVar vlmMst2) * EVar vMst2 * EVar vMt + #2160 * EVar vDmsqst2 * (#5 + #3 * EVar vlmMst1 - #3 * EVar vlmMst2) *
   EVar vs2t + #2 * (#3937 + #2988 * EVar vlmMst1 - #2232 * EVar vlmMst2) * EVar vs2t * EPow P2 (EVar vMst2)) + EVar
   vDmglst2 * (#30 * (#3643 - #120 * EVar vlmMst1 + #3192 * EVar vlmMst2) * EVar vMst2 * EVar vMt + #10800 * EVar
   vDmsqst2 * (#1 - #9 * EVar vlmMst1 + #9 * EVar vlmMst2) * EVar vs2t + (#364291 - #88560 * EVar vlmMst1 + #147960 *
   EVar vlmMst2) * EVar vs2t * EPow P2 (EVar vMst2))) + (#90 * (#38401 + #1080 * EVar vlmMst1 - #7992 * EVar vlmMst2)
   * EVar vMt + #2 * EVar vDmglst2 * (- #15057833 + #4014360 * EVar vlmMst1 - #5563080 * EVar vlmMst2) * EVar vs2t -
   #6 * (#266863 + #396360 * EVar vlmMst1 - #346680 * EVar vlmMst2) * EVar vMst2 * EVar vs2t) * EPow P4 (EVar vMst1))
   - #68040 * EVar vshiftst3 * EPow P2 (EVar vMst2) * (- #4 * EPow P2 (EVar vMst1) * EPow P2 (EVar vs2t) * EPow P4
   (EVar vMst2) * (#2 * (- #1 + EVar vlmMst1 - EVar vlmMst2) * EPow P2 (EVar vMt) * (- (EPow P2 (EVar vMuSUSY) * (- #1
   + EPow P2 (EVar vSbeta))) + EPow P2 (EVar vMst2) * EPow P2 (EVar vSbeta)) + EPow P2 (EVar vs2t) * EPow P2 (EVar
   vSbeta) * EPow P4 (EVar vMst2)) + #8 * (- #1 + #3 * EVar vlmMst1 - #3 * EVar vlmMst2) * EPow P2 (EVar vMt) * EPow
   P2 (EVar vMuSUSY) * EPow P2 (EVar vs2t) * (- #1 + EPow P2 (EVar vSbeta)) * EPow P6 (EVar vMst1) + (- #4 * EPow P2
   (EVar vMt) * EPow P2 (EVar vs2t) * (EPow P2 (EVar vMuSUSY) * (- #1 + EPow P2 (EVar vSbeta)) + #2 * EPow P2 (EVar
   vMst2) * EPow P2 (EVar vSbeta)) + EPow P2 (EVar vSbeta) * (#16 * EPow P4 (EVar vMt) + EPow P4 (EVar vMst2) * EPow
   P4 (EVar vs2t))) * EPow P6 (EVar vMst2) + EPow P4 (EVar vMst1) * (#8 * (- #1 + #2 * EVar vlmMst1 - #2 * EVar
   vlmMst2) * EPow P2 (EVar vMst2) * EPow P2 (EVar vMt) * EPow P2 (EVar vMuSUSY) * EPow P2 (EVar vs2t) * (- #1 + EPow
   P2 (EVar vSbeta)) + (#3 + #2 * EVar vlmMst1 - #2 * EVar vlmMst2) * EPow P2 (EVar vSbeta) * EPow P4 (EVar vs2t) *
   EPow P6 (EVar vMst2))) - #28 * EPow P2 (EVar vMt) * EPow P2 (EVar vs2t) * (- #300 * EVar vDmsqst2 * (#9 * EVar
   vMst2 * EPow P2 (EVar vMuSUSY) * (#159 * EPow P2 (EVar vMst1) * EPow P3 (EVar vMst2) + (#1097 - #72 * EVar vlmMst1
   + #72 * EVar vlmMst2) * EVar vMst2 * EPow P4 (EVar vMst1) + #72 * EVar vDmglst2 * (#3 * (#2 + EVar vlmMst1 - EVar
   vlmMst2) * EPow P2 (EVar vMst1) * EPow P2 (EVar vMst2) + (#3 + #8 * EVar vlmMst1 - #8 * EVar vlmMst2) * EPow P4
   (EVar vMst1) + EPow P4 (EVar vMst2)) - #36 * EPow P5 (EVar vMst2)) + ((#20701 - #648 * EVar vlmMst1 + #648 * EVar
   vlmMst2) * EPow P2 (EVar vMuSUSY) + #162 * EVar vDmglst2 * (- #93 + #10 * EVar vlmMst1 - #10 * EVar vlmMst2) * EVar
   vMst2 * (- #2 + EPow P2 (EVar vSbeta)) * EPow P4 (EVar vSbeta)) * EPow P6 (EVar vMst1)) + EVar vMst2 * EPow P2
   (EVar vMuSUSY) * (#4 * EVar vDmglst2 * (#162 * (#6803 - #1810 * EVar vlmMst1 + #2670 * EVar vlmMst2) * EPow P2
   (EVar vMst2) * EPow P4 (EVar vMst1) + #135 * (#1631 - #648 * EVar vlmMst1 + #1680 * EVar vlmMst2) * EPow P2 (EVar
   vMst1) * EPow P4 (EVar vMst2) + (#4256978 - #615600 * EVar vlmMst1 + #754920 * EVar vlmMst2) * EPow P6 (EVar vMst1)
   - #22680 * EPow P6 (EVar vMst2)) - #3 * (#6 * (#533629 - #900 * EVar vlmMst1 + #180 * EVar vlmMst2) * EPow P3 (EVar
   vMst2) * EPow P4 (EVar vMst1) + #90 * (#5597 + #564 * EVar vlmMst1 - #1104 * EVar vlmMst2) * EPow P2 (EVar vMst1) *
   EPow P5 (EVar vMst2) + (#6649153 - #81540 * EVar vlmMst1 + #77220 * EVar vlmMst2) * EVar vMst2 * EPow P6 (EVar
   vMst1) - #20520 * EPow P7 (EVar vMst2)))) - #680400 * EVar vshiftst1 * (EVar vDmsqst2 + EPow P2 (EVar vMst2)) *
   (EPow P4 (EVar vMst2) * (EPow P2 (EVar vs2t) * (- #8 * EPow P2 (EVar vMt) + (EPow P2 (EVar vMst1) - EPow P2 (EVar
   vMst2)) * EPow P2 (EVar vs2t)) * EPow P2 (EVar vSbeta) * EPow P4 (EVar vMst1) + EPow P2 (EVar vMst1) * (#4 * EPow
   P2 (EVar vMt) * EPow P2 (EVar vs2t) * (EPow P2 (EVar vMuSUSY) + (#4 * EPow P2 (EVar vMst2) - EPow P2 (EVar
   vMuSUSY)) * EPow P2 (EVar vSbeta)) + EPow P2 (EVar vSbeta) * (#16 * EPow P4 (EVar vMt) - EPow P4 (EVar vMst2) *
   EPow P4 (EVar vs2t))) + EPow P2 (EVar vMst2) * (- #4 * EPow P2 (EVar vMt) * EPow P2 (EVar vs2t) * (EPow P2 (EVar
   vMuSUSY) * (- #1 + EPow P2 (EVar vSbeta)) + #2 * EPow P2 (EVar vMst2) * EPow P2 (EVar vSbeta)) + EPow P2 (EVar
   vSbeta) * (#16 * EPow P4 (EVar vMt) + EPow P4 (EVar vMst2) * EPow P4 (EVar vs2t)))) + (- #2 * EVar vlmMst1 + #2 *
   EVar vlmMst2) * EPow P2 (EVar vMst1) * EPow P2 (EVar vs2t) * (- #4 * EPow P2 (EVar vMt) * EPow P2 (EVar vMuSUSY) *
   (- #1 + EPow P2 (EVar vSbeta)) * (EPow P4 (EVar vMst1) + EPow P4 (EVar vMst2)) - EPow P2 (EVar vMst1) * EPow P2
   (EVar vMst2) * (#4 * EPow P2 (EVar vMt) * EPow P2 (EVar vMuSUSY) * (- #1 + EPow P2 (EVar vSbeta)) + EPow P2 (EVar
   vs2t) * EPow P2 (EVar vSbeta) * EPow P4 (EVar vMst2)) + EPow P2 (EVar vs2t) * EPow P2 (EVar vSbeta) * EPow P8 (EVar
   vMst2))) + EPow P2 (EVar vSbeta) * (- #56 * EVar vs2t * EPow P2 (EVar vMst1) * EPow P3 (EVar vMt) * (EVar vDmglst2
   * (#18 * EPow P2 (EVar vMst1) * EPow P2 (EVar vMst2) * (#3 * (#510149 - #55320 * EVar vlmMst1 + #118200 * EVar
   vlmMst2 - #32160 * EVar vlmMt) * EPow P2 (EVar vMst2) + #2 * (#364291 - #88560 * EVar vlmMst1 + #147960 * EVar
   vlmMst2) * EPow P2 (EVar vMuSUSY)) + #2 * (#4 * (#9908167 - #949320 * EVar vlmMst1 + #1769040 * EVar vlmMst2 -
   #217080 * EVar vlmMt) * EPow P2 (EVar vMst2) + (#15057833 - #4014360 * EVar vlmMst1 + #5563080 * EVar vlmMst2) *
   EPow P2 (EVar vMuSUSY)) * EPow P4 (EVar vMst1) + #27 * (#30 * (- #1672 * EVar vlmMst1 + #1448 * EVar vlmMst2 + #59
   * (#71 - #32 * EVar vlmMt)) * EPow P2 (EVar vMst2) + (#173947 - #25080 * EVar vlmMst1 + #68760 * EVar vlmMst2) *
   EPow P2 (EVar vMuSUSY)) * EPow P4 (EVar vMst2) + #388800 * EVar vDmsqst2 * ((- #2 - #3 * EVar vlmMst1 + #3 * EVar
   vlmMst2) * EPow P2 (EVar vMst2) * EPow P2 (EVar vMuSUSY) + EPow P2 (EVar vMst1) * ((#51 - #14 * EVar vlmMst1 + #28
   * EVar vlmMst2 - #14 * EVar vlmMt) * EPow P2 (EVar vMst2) + (#1 - #9 * EVar vlmMst1 + #9 * EVar vlmMst2) * EPow P2
   (EVar vMuSUSY)) + (#87 - #22 * EVar vlmMst1 + #44 * EVar vlmMst2 - #22 * EVar vlmMt) * EPow P4 (EVar vMst1) + (#19
   - #6 * EVar vlmMst1 + #12 * EVar vlmMst2 - #6 * EVar vlmMt) * EPow P4 (EVar vMst2))) - #3 * EVar vMst2 * (#6 * EPow
   P2 (EVar vMst1) * EPow P2 (EVar vMst2) * ((#470657 - #86040 * EVar vlmMst1 + #178200 * EVar vlmMst2) * EPow P2
   (EVar vMst2) - #20 * (#3937 + #2988 * EVar vlmMst1 - #2232 * EVar vlmMst2) * EPow P2 (EVar vMuSUSY)) + #2 *
   ((#2299036 - #388800 * EVar vlmMst1 + #656640 * EVar vlmMst2) * EPow P2 (EVar vMst2) + (- #266863 - #396360 * EVar
   vlmMst1 + #346680 * EVar vlmMst2) * EPow P2 (EVar vMuSUSY)) * EPow P4 (EVar vMst1) + #9 * (#2 * (#68693 - #9960 *
   EVar vlmMst1 + #45480 * EVar vlmMst2 - #3840 * EVar vlmMt) * EPow P2 (EVar vMst2) - #15 * (#2269 + #664 * EVar
   vlmMst1 - #56 * EVar vlmMst2) * EPow P2 (EVar vMuSUSY)) * EPow P4 (EVar vMst2) + #129600 * EVar vDmsqst2 * ((- #2 -
   EVar vlmMst1 + EVar vlmMst2) * EPow P2 (EVar vMst2) * EPow P2 (EVar vMuSUSY) + EPow P2 (EVar vMst1) * ((#5 - #2 *
   EVar vlmMst1 + #4 * EVar vlmMst2 - #2 * EVar vlmMt) * EPow P2 (EVar vMst2) + (- #5 - #3 * EVar vlmMst1 + #3 * EVar
   vlmMst2) * EPow P2 (EVar vMuSUSY)) + (#5 - #2 * EVar vlmMst1 + #4 * EVar vlmMst2 - #2 * EVar vlmMt) * EPow P4 (EVar
   vMst1) + (#1 - #2 * EVar vlmMst1 + #4 * EVar vlmMst2 - #2 * EVar vlmMt) * EPow P4 (EVar vMst2)))) + #7 * EPow P3
   (EVar vMst2) * EPow P4 (EVar vs2t) * (- #4 * EVar vDmglst2 * (- #108 * (- #5917 + #1095 * EVar vlmMst1 + #195 *
   EVar vlmMst2) * EPow P4 (EVar vMst1) * EPow P4 (EVar vMst2) + (#2272991 - #116640 * EVar vlmMst1 + #116640 * EVar
   vlmMst2) * EPow P2 (EVar vMst2) * EPow P6 (EVar vMst1) - #135 * (#648 * EVar vlmMst1 - #7 * (#281 + #240 * EVar
   vlmMst2)) * EPow P2 (EVar vMst1) * EPow P6 (EVar vMst2) + #24300 * EVar vDmsqst2 * (#4 * (#4 - EVar vlmMst1 + EVar
   vlmMst2) * EPow P2 (EVar vMst2) * EPow P4 (EVar vMst1) + (#7 + #10 * EVar vlmMst1 - #10 * EVar vlmMst2) * EPow P6
   (EVar vMst1) - #2 * ((#4 + #3 * EVar vlmMst1 - #3 * EVar vlmMst2) * EPow P2 (EVar vMst1) * EPow P4 (EVar vMst2) +
   EPow P6 (EVar vMst2))) - #22680 * EPow P8 (EVar vMst2)) + #3 * EVar vMst2 * (#6 * (#362299 - #17820 * EVar vlmMst1
   + #33300 * EVar vlmMst2) * EPow P4 (EVar vMst1) * EPow P4 (EVar vMst2) - #5 * (- #149867 + #3996 * EVar vlmMst1 +
   #4860 * EVar vlmMst2) * EPow P2 (EVar vMst2) * EPow P6 (EVar vMst1) + #100 * EVar vDmsqst2 * (#9 * (#743 - #72 *
   EVar vlmMst1 + #72 * EVar vlmMst2) * EPow P2 (EVar vMst2) * EPow P4 (EVar vMst1) + #2079 * EPow P2 (EVar vMst1) *
   EPow P4 (EVar vMst2) + (#2386 + #648 * EVar vlmMst1 - #648 * EVar vlmMst2) * EPow P6 (EVar vMst1) - #324 * EPow P6
   (EVar vMst2)) + #90 * (#6053 + #564 * EVar vlmMst1 - #1104 * EVar vlmMst2) * EPow P2 (EVar vMst1) * EPow P6 (EVar
   vMst2) - #20520 * EPow P8 (EVar vMst2))) - #16 * EPow P4 (EVar vMt) * (#680400 * EVar vDmsqst2 * (- #2 * ((EVar
   vDmglst2 * (#23 - #5 * EVar vlmMst1 + #10 * EVar vlmMst2 - #5 * EVar vlmMt) + (- #3 + EVar vlmMst1 - #2 * EVar
   vlmMst2 + EVar vlmMt) * EVar vMst2) * EPow P2 (EVar vMst1) * EPow P3 (EVar vMst2) + EVar vMst2 * (EVar vDmglst2 *
   (#77 - #18 * EVar vlmMst1 + #36 * EVar vlmMst2 - #18 * EVar vlmMt) + #2 * (- #3 + EVar vlmMst1 - #2 * EVar vlmMst2
   + EVar vlmMt) * EVar vMst2) * EPow P4 (EVar vMst1)) + (- #2 * EVar vDmglst2 + EVar vMst2) * EPow P5 (EVar vMst2) +
   #2 * (#7 - #3 * EVar vlmMst1 + #6 * EVar vlmMst2 - #3 * EVar vlmMt) * EPow P6 (EVar vMst1)) - #4 * EVar vDmglst2 *
   EVar vMst2 * (#27 * EPow P2 (EVar vMst1) * EPow P2 (EVar vMst2) * ((#209341 - #26880 * EVar vlmMst1 + #82320 * EVar
   vlmMst2 - #1680 * EVar vlmMt) * EPow P2 (EVar vMst2) - #6720 * (#5 + #6 * EVar vlmMst2) * EPow P2 (EVar vMuSUSY)) +
   #9 * ((#3184397 - #476280 * EVar vlmMst1 + #1156680 * EVar vlmMst2 - #161280 * EVar vlmMt) * EPow P2 (EVar vMst2) +
   #105 * (- #3643 + #120 * EVar vlmMst1 - #3192 * EVar vlmMst2) * EPow P2 (EVar vMuSUSY)) * EPow P4 (EVar vMst1) + #4
   * (#19152737 - #3674160 * EVar vlmMst1 + #6872040 * EVar vlmMst2 - #850500 * EVar vlmMt) * EPow P6 (EVar vMst1) +
   #158760 * EPow P6 (EVar vMst2)) + #21 * (#3 * EPow P2 (EVar vMst2) * ((#310039 - #91080 * EVar vlmMst1 + #145080 *
   EVar vlmMst2 - #43920 * EVar vlmMt) * EPow P2 (EVar vMst2) + #30 * (- #353 + #72 * EVar vlmMst1 + #696 * EVar
   vlmMst2) * EPow P2 (EVar vMuSUSY)) * EPow P4 (EVar vMst1) + #9 * EPow P2 (EVar vMst1) * ((#48983 - #12480 * EVar
   vlmMst1 + #26820 * EVar vlmMst2 - #12180 * EVar vlmMt) * EPow P2 (EVar vMst2) + #160 * (#53 + #24 * EVar vlmMst2) *
   EPow P2 (EVar vMuSUSY)) * EPow P4 (EVar vMst2) + (#2 * (#626869 - #300240 * EVar vlmMst1 + #395280 * EVar vlmMst2 -
   #78840 * EVar vlmMt) * EPow P2 (EVar vMst2) - #15 * (#38401 + #1080 * EVar vlmMst1 - #7992 * EVar vlmMst2) * EPow
   P2 (EVar vMuSUSY)) * EPow P6 (EVar vMst1) + #20520 * EPow P8 (EVar vMst2))) - #28 * EVar vMt * EPow P2 (EVar vs2t)
   * (EVar vs2t * EPow P2 (EVar vMst1) * EPow P2 (EVar vMst2) * (#51 * (#6167 - #9720 * EVar vlmMst1 + #9720 * EVar
   vlmMst2) * EPow P3 (EVar vMst2) * EPow P4 (EVar vMst1) + #194400 * EVar vDmsqst2 * EVar vMst2 * (- #2 * (#1 + EVar
   vlmMst1 - EVar vlmMst2) * EPow P2 (EVar vMst1) * EPow P2 (EVar vMst2) + EPow P4 (EVar vMst1) - #2 * (#2 + EVar
   vlmMst1 - EVar vlmMst2) * EPow P4 (EVar vMst2)) + #90 * (#4673 - #5976 * EVar vlmMst1 + #8424 * EVar vlmMst2) *
   EPow P2 (EVar vMst1) * EPow P5 (EVar vMst2) - EVar vDmglst2 * ((#8583283 - #2329560 * EVar vlmMst1 + #2329560 *
   EVar vlmMst2) * EPow P2 (EVar vMst2) * EPow P4 (EVar vMst1) + #18 * (#206741 - #101880 * EVar vlmMst1 + #89640 *
   EVar vlmMst2) * EPow P2 (EVar vMst1) * EPow P4 (EVar vMst2) + #194400 * EVar vDmsqst2 * (#2 * (#5 - #3 * EVar
   vlmMst1 + #3 * EVar vlmMst2) * EPow P2 (EVar vMst1) * EPow P2 (EVar vMst2) + #11 * EPow P4 (EVar vMst1) - #2 * (#2
   + #3 * EVar vlmMst1 - #3 * EVar vlmMst2) * EPow P4 (EVar vMst2)) + #27 * (#173947 - #25080 * EVar vlmMst1 + #68760
   * EVar vlmMst2) * EPow P6 (EVar vMst2)) - #405 * (#2269 + #664 * EVar vlmMst1 - #56 * EVar vlmMst2) * EPow P7 (EVar
   vMst2)) + EVar vMt * (#4 * EVar vDmglst2 * EVar vMst2 * (- #162 * EPow P2 (EVar vMst2) * (#20 * (#505 + #68 * EVar
   vlmMst1 + #124 * EVar vlmMst2) * EPow P2 (EVar vMst2) + (#6803 - #1810 * EVar vlmMst1 + #2670 * EVar vlmMst2) *
   EPow P2 (EVar vMuSUSY)) * EPow P4 (EVar vMst1) - #27 * EPow P2 (EVar vMst1) * (#4 * (#4849 - #270 * EVar vlmMst1 +
   #8910 * EVar vlmMst2) * EPow P2 (EVar vMst2) + #5 * (#1631 - #648 * EVar vlmMst1 + #1680 * EVar vlmMst2) * EPow P2
   (EVar vMuSUSY)) * EPow P4 (EVar vMst2) - #2 * (#45 * (#78533 + #6732 * EVar vlmMst1 + #180 * EVar vlmMst2) * EPow
   P2 (EVar vMst2) + (#2128489 - #307800 * EVar vlmMst1 + #377460 * EVar vlmMst2) * EPow P2 (EVar vMuSUSY)) * EPow P6
   (EVar vMst1) + #48600 * EVar vDmsqst2 * ((#8 * EPow P2 (EVar vMst2) + (#3 + #8 * EVar vlmMst1 - #8 * EVar vlmMst2)
   * EPow P2 (EVar vMuSUSY)) * EPow P4 (EVar vMst1) + (#2 * EPow P2 (EVar vMst2) + EPow P2 (EVar vMuSUSY)) * EPow P4
   (EVar vMst2) + EPow P2 (EVar vMst1) * (#3 * (#2 + EVar vlmMst1 - EVar vlmMst2) * EPow P2 (EVar vMst2) * EPow P2
   (EVar vMuSUSY) + #8 * EPow P4 (EVar vMst2)) + #8 * EPow P6 (EVar vMst1)) + #22680 * (#2 * EPow P2 (EVar vMst2) +
   EPow P2 (EVar vMuSUSY)) * EPow P6 (EVar vMst2)) + #3 * (#6 * ((#309749 + #12240 * EVar vlmMst1 - #12240 * EVar
   vlmMst2) * EPow P2 (EVar vMst2) + (#533629 - #900 * EVar vlmMst1 + #180 * EVar vlmMst2) * EPow P2 (EVar vMuSUSY)) *
   EPow P4 (EVar vMst1) * EPow P4 (EVar vMst2) + EPow P2 (EVar vMst2) * ((#3291029 + #210600 * EVar vlmMst1 - #210600
   * EVar vlmMst2) * EPow P2 (EVar vMst2) + (#6649153 - #81540 * EVar vlmMst1 + #77220 * EVar vlmMst2) * EPow P2 (EVar
   vMuSUSY)) * EPow P6 (EVar vMst1) + #9 * EPow P2 (EVar vMst1) * ((#5927 + #13560 * EVar vlmMst1 - #36600 * EVar
   vlmMst2) * EPow P2 (EVar vMst2) + #10 * (#5597 + #564 * EVar vlmMst1 - #1104 * EVar vlmMst2) * EPow P2 (EVar
   vMuSUSY)) * EPow P6 (EVar vMst2) + #100 * EVar vDmsqst2 * (#9 * EPow P2 (EVar vMst2) * (#202 * EPow P2 (EVar vMst2)
   + (#1097 - #72 * EVar vlmMst1 + #72 * EVar vlmMst2) * EPow P2 (EVar vMuSUSY)) * EPow P4 (EVar vMst1) + (#808 * EPow
   P2 (EVar vMst2) + (#20701 - #648 * EVar vlmMst1 + #648 * EVar vlmMst2) * EPow P2 (EVar vMuSUSY)) * EPow P6 (EVar
   vMst1) - #324 * (#2 * EPow P2 (EVar vMst2) + EPow P2 (EVar vMuSUSY)) * EPow P6 (EVar vMst2) + #27 * EPow P2 (EVar
   vMst1) * (#53 * EPow P2 (EVar vMuSUSY) * EPow P4 (EVar vMst2) + #77 * EPow P6 (EVar vMst2))) - #20520 * (#2 * EPow
   P2 (EVar vMst2) + EPow P2 (EVar vMuSUSY)) * EPow P8 (EVar vMst2)))))) + #28 * EVar vMt * EVar vMuSUSY * EPow P2
   (EVar vSbeta) * (- #3 * (#3 * EPow P3 (EVar vMst2) * (- #2 * (#623599 + #65160 * EVar vlmMst1 - #134280 * EVar
   vlmMst2) * EVar vMst2 * EVar vs2t * EPow P2 (EVar vMt) + #15 * (#11075 + #17928 * EVar vlmMst1 - #17352 * EVar
   vlmMst2) * EVar vMt * EPow P2 (EVar vMst2) * EPow P2 (EVar vs2t) + #64 * (#41936 - #7245 * EVar vlmMst1 + #19665 *
   EVar vlmMst2 - #720 * EVar vlmMt) * EPow P3 (EVar vMt) + #4 * (#224837 - #4680 * EVar vlmMst1 + #8370 * EVar
   vlmMst2 + #2700 * EVar vshiftst1) * EPow P3 (EVar vMst2) * EPow P3 (EVar vs2t)) * EPow P4 (EVar vMst1) + #9 * EPow
   P2 (EVar vMst1) * (- #2 * EVar vMst2 * EVar vs2t * (#1367 + #13560 * EVar vlmMst1 - #36600 * EVar vlmMst2 + #7200 *
   EVar vshiftst1) * EPow P2 (EVar vMt) + #45 * (#2269 + #664 * EVar vlmMst1 - #56 * EVar vlmMst2) * EVar vMt * EPow
   P2 (EVar vMst2) * EPow P2 (EVar vs2t) + #4 * (#66773 - #9960 * EVar vlmMst1 + #45480 * EVar vlmMst2 - #3840 * EVar
   vlmMt) * EPow P3 (EVar vMt) + #10 * (#5825 + #36 * EVar vshiftst3 + #12 * EVar vlmMst1 * (#47 + #60 * EVar
   vshiftst1 + #3 * EVar vshiftst3) - #12 * EVar vlmMst2 * (#92 + #60 * EVar vshiftst1 + #3 * EVar vshiftst3)) * EPow
   P3 (EVar vMst2) * EPow P3 (EVar vs2t)) * EPow P5 (EVar vMst2) + EVar vMst2 * (- #4 * (#2580913 + #203040 * EVar
   vlmMst1 - #306720 * EVar vlmMst2) * EVar vMst2 * EVar vs2t * EPow P2 (EVar vMt) + #6 * (#30643 + #217080 * EVar
   vlmMst1 - #212760 * EVar vlmMst2) * EVar vMt * EPow P2 (EVar vMst2) * EPow P2 (EVar vs2t) + #16 * (#1077991 -
   #184140 * EVar vlmMst1 + #400140 * EVar vlmMst2 - #8640 * EVar vlmMt) * EPow P3 (EVar vMt) + (#3447379 - #76140 *
   EVar vlmMst1 + #76140 * EVar vlmMst2) * EPow P3 (EVar vMst2) * EPow P3 (EVar vs2t)) * EPow P6 (EVar vMst1) - #100 *
   EVar vDmsqst2 * (#27 * EPow P2 (EVar vMst1) * EPow P3 (EVar vMst2) * (#106 * EVar vMst2 * EVar vs2t * EPow P2 (EVar
   vMt) + #48 * EVar vMst2 * EVar vs2t * EVar vshiftst1 * EPow P2 (EVar vMt) - #288 * EVar vMt * EPow P2 (EVar vMst2)
   * EPow P2 (EVar vs2t) + #144 * EVar vlmMst2 * EVar vMt * EPow P2 (EVar vMst2) * EPow P2 (EVar vs2t) - #384 * EVar
   vlmMst2 * EPow P3 (EVar vMt) + #192 * EVar vlmMt * EPow P3 (EVar vMt) - #65 * EPow P3 (EVar vMst2) * EPow P3 (EVar
   vs2t) + #24 * EVar vlmMst2 * EVar vshiftst1 * EPow P3 (EVar vMst2) * EPow P3 (EVar vs2t) + #24 * EVar vlmMst1 * (-
   #6 * EVar vMt * EPow P2 (EVar vMst2) * EPow P2 (EVar vs2t) + #8 * EPow P3 (EVar vMt) - EVar vshiftst1 * EPow P3
   (EVar vMst2) * EPow P3 (EVar vs2t))) + #18 * EVar vMst2 * (#361 * EVar vMst2 * EVar vs2t * EPow P2 (EVar vMt) -
   #216 * (#3 + #2 * EVar vlmMst1 - #2 * EVar vlmMst2) * EVar vMt * EPow P2 (EVar vMst2) * EPow P2 (EVar vs2t) + #576
   * (- #1 + EVar vlmMst1 - #2 * EVar vlmMst2 + EVar vlmMt) * EPow P3 (EVar vMt) + (- #469 + #36 * EVar vlmMst1 - #36
   * EVar vlmMst2 - #18 * EVar vshiftst1) * EPow P3 (EVar vMst2) * EPow P3 (EVar vs2t)) * EPow P4 (EVar vMst1) + #2 *
   EVar vs2t * (- #972 * (#5 + #4 * EVar vlmMst1 - #4 * EVar vlmMst2) * EVar vMst2 * EVar vMt * EVar vs2t + #4057 *
   EPow P2 (EVar vMt) - #5414 * EPow P2 (EVar vMst2) * EPow P2 (EVar vs2t)) * EPow P6 (EVar vMst1) + #324 * EVar vs2t
   * (#1 + EVar vshiftst1) * (- #4 * EPow P2 (EVar vMt) + EPow P2 (EVar vMst2) * EPow P2 (EVar vs2t)) * EPow P6 (EVar
   vMst2)) - #1080 * EVar vs2t * (#19 + #30 * EVar vshiftst1 + #3 * EVar vshiftst3) * (- #4 * EPow P2 (EVar vMt) +
   EPow P2 (EVar vMst2) * EPow P2 (EVar vs2t)) * EPow P8 (EVar vMst2)) + EVar vDmglst2 * (#27 * (EPow P2 (EVar vMst2)
   * (- #32 * (#19579 + #1770 * EVar vlmMst1 + #12630 * EVar vlmMst2) * EVar vMst2 * EVar vs2t * EPow P2 (EVar vMt) +
   (- #935323 + #279000 * EVar vlmMst1 - #385560 * EVar vlmMst2) * EVar vMt * EPow P2 (EVar vMst2) * EPow P2 (EVar
   vs2t) + #32 * (#67843 - #10050 * EVar vlmMst1 + #17490 * EVar vlmMst2 - #7560 * EVar vlmMt) * EPow P3 (EVar vMt) +
   #4 * (#32663 - #7620 * EVar vlmMst1 + #7620 * EVar vlmMst2) * EPow P3 (EVar vMst2) * EPow P3 (EVar vs2t)) * EPow P4
   (EVar vMst1) + EPow P2 (EVar vMst1) * (#32 * (- #4429 + #270 * EVar vlmMst1 - #8910 * EVar vlmMst2) * EVar vMst2 *
   EVar vs2t * EPow P2 (EVar vMt) + #3 * (- #173947 + #25080 * EVar vlmMst1 - #68760 * EVar vlmMst2) * EVar vMt * EPow
   P2 (EVar vMst2) * EPow P2 (EVar vs2t) - #60 * (- #3245 + #1672 * EVar vlmMst1 - #1448 * EVar vlmMst2 + #1888 * EVar
   vlmMt) * EPow P3 (EVar vMt) + #20 * (#1799 - #648 * EVar vlmMst1 + #1680 * EVar vlmMst2) * EPow P3 (EVar vMst2) *
   EPow P3 (EVar vs2t)) * EPow P4 (EVar vMst2)) + #2 * (- #72 * (#510139 + #44280 * EVar vlmMst1 + #76680 * EVar
   vlmMst2) * EVar vMst2 * EVar vs2t * EPow P2 (EVar vMt) + #15 * (- #1700119 + #484056 * EVar vlmMst1 - #579960 *
   EVar vlmMst2) * EVar vMt * EPow P2 (EVar vMst2) * EPow P2 (EVar vs2t) + #8 * (#13463149 - #1492020 * EVar vlmMst1 +
   #2713500 * EVar vlmMst2 - #625320 * EVar vlmMt) * EPow P3 (EVar vMt) + #8 * (#788723 - #80595 * EVar vlmMst1 +
   #80595 * EVar vlmMst2) * EPow P3 (EVar vMst2) * EPow P3 (EVar vs2t)) * EPow P6 (EVar vMst1) + #97200 * EVar
   vDmsqst2 * (#2 * EPow P2 (EVar vMst1) * EPow P2 (EVar vMst2) * (#20 * EVar vMst2 * EVar vs2t * EPow P2 (EVar vMt) +
   #6 * (#2 + #3 * EVar vlmMst1 - #3 * EVar vlmMst2) * EVar vMt * EPow P2 (EVar vMst2) * EPow P2 (EVar vs2t) - #8 * (-
   #8 + #3 * EVar vlmMst1 - #6 * EVar vlmMst2 + #3 * EVar vlmMt) * EPow P3 (EVar vMt) + (- #5 - #3 * EVar vlmMst1 + #3
   * EVar vlmMst2) * EPow P3 (EVar vMst2) * EPow P3 (EVar vs2t)) - #2 * (- #36 * EVar vMst2 * EVar vs2t * EPow P2
   (EVar vMt) + #18 * (#1 - #2 * EVar vlmMst1 + #2 * EVar vlmMst2) * EVar vMt * EPow P2 (EVar vMst2) * EPow P2 (EVar
   vs2t) + #80 * (- #3 + EVar vlmMst1 - #2 * EVar vlmMst2 + EVar vlmMt) * EPow P3 (EVar vMt) + (- #3 + #5 * EVar
   vlmMst1 - #5 * EVar vlmMst2) * EPow P3 (EVar vMst2) * EPow P3 (EVar vs2t)) * EPow P4 (EVar vMst1) + #8 * EVar vs2t
   * EPow P2 (EVar vMt) * EPow P5 (EVar vMst2) + (#6 * (- #17 + #12 * EVar vlmMst1 - #12 * EVar vlmMst2) * EVar vMt +
   #13 * EVar vMst2 * EVar vs2t) * EPow P2 (EVar vs2t) * EPow P6 (EVar vMst1) - #2 * EPow P3 (EVar vs2t) * EPow P7
   (EVar vMst2)) - #90720 * (- #4 * EVar vs2t * EPow P2 (EVar vMt) * EPow P7 (EVar vMst2) + EPow P3 (EVar vs2t) * EPow
   P9 (EVar vMst2))))))) / (#408240 * EVar vTbeta * EPow P2 (EVar vMst1) * EPow P2 (EVar vSbeta))) / EPow P9 (EVar
   vMst2) + EPow P2 (EVar vAl4p) * (- (EVar vthreeLoopFlag * (EVar vxDmsqst2 * EPow P2 (EVar vDmsqst2) * EPow P2 (EVar
   vMst1) * (#16 * EVar vMt * EVar vMuSUSY * EPow P2 (EVar vSbeta) * (#45 * EVar vMst2 * EPow P2 (EVar vMst1) * (#16 *
   EVar vMst2 * EVar vs2t * (#88 + #8 * EConst COepS2 - #81 * EConst CS2 - #18 * (EVar vlmMst1 - EVar vlmMst2) * (#2 +
   #9 * EConst CS2) - #54 * EVar vshiftst1 - #12 * EConst CT1ep) * EPow P2 (EVar vMt) + #2592 * (#3 + #2 * EVar
   vlmMst1 - #2 * EVar vlmMst2) * EVar vMt * EPow P2 (EVar vMst2) * EPow P2 (EVar vs2t) + #864 * (#4 - #8 * EVar
   vlmMst1 + #15 * EVar vlmMst2 - #7 * EVar vlmMt) * EPow P3 (EVar vMt) - (#1493 + #64 * EConst COepS2 - #27864 *
   EConst CS2 - #72 * (EVar vlmMst1 - EVar vlmMst2) * (- #1 + #18 * EConst CS2 + #6 * EVar vshiftst1) - #96 * EConst
   CT1ep) * EPow P3 (EVar vMst2) * EPow P3 (EVar vs2t)) / #4 + #3 * EVar vs2t * (#972000 * (#1 + #4 * EVar vlmMst1 -
   #4 * EVar vlmMst2) * EVar vMst2 * EVar vMt * EVar vs2t + #8 * (#187757 + #16000 * EConst COepS2 - #540000 * EConst
   CS2 + #90 * EVar vlmMst2 * (- #587 + #3600 * EConst CS2) - #90 * EVar vlmMst1 * (- #587 + #630 * EVar vlmMst2 +
   #3600 * EConst CS2) - #24000 * EConst CT1ep + #28350 * (EPow P2 (EVar vlmMst1) + EPow P2 (EVar vlmMst2))) * EPow P2
   (EVar vMt) + (#1372861 - #88000 * EConst COepS2 + #180 * EVar vlmMst2 * (#1987 - #9900 * EConst CS2) + #13743000 *
   EConst CS2 + #180 * EVar vlmMst1 * (- #1987 + #1080 * EVar vlmMst2 + #9900 * EConst CS2) + #81000 * EVar vshiftst1
   + #132000 * EConst CT1ep - #97200 * (EPow P2 (EVar vlmMst1) + EPow P2 (EVar vlmMst2))) * EPow P2 (EVar vMst2) *
   EPow P2 (EVar vs2t)) * EPow P4 (EVar vMst1) / #100 - #2430 * EVar vs2t * (#2 + EVar vshiftst1) * (- #4 * EPow P2
   (EVar vMt) + EPow P2 (EVar vMst2) * EPow P2 (EVar vs2t)) * EPow P4 (EVar vMst2) + (#610359812 - #64484000 * EConst
   COepS2 + #315 * EVar vlmMst2 * (#540413 - #4145400 * EConst CS2) + #8117266500 * EConst CS2 + #315 * EVar vlmMst1 *
   (- #540413 + #884520 * EVar vlmMst2 + #4145400 * EConst CS2) + #96726000 * EConst CT1ep - #139311900 * (EPow P2
   (EVar vlmMst1) + EPow P2 (EVar vlmMst2))) * EPow P3 (EVar vs2t) * EPow P6 (EVar vMst1) / #17150) + EVar vTbeta * (-
   #311040 * (#3 + #2 * EVar vlmMst1 - #2 * EVar vlmMst2) * EVar vMst2 * EVar vs2t * EPow P2 (EVar vMst1) * EPow P2
   (EVar vMuSUSY) * EPow P3 (EVar vMt) - #144 * EPow P2 (EVar vMt) * EPow P2 (EVar vs2t) * (#270 * EVar vshiftst1 *
   (#2 * (EVar vlmMst1 - EVar vlmMst2) * EPow P2 (EVar vMst1) - EPow P2 (EVar vMst2)) * (EPow P2 (EVar vMst1) + EPow
   P2 (EVar vMst2)) * EPow P2 (EVar vMuSUSY) - #40 * EConst CT1ep * EPow P2 (EVar vMst1) * EPow P2 (EVar vSbeta) * (#3
   * EPow P2 (EVar vMst2) * (EPow P2 (EVar vMst2) + EPow P2 (EVar vMuSUSY)) + EPow P2 (EVar vMst1) * (#5 * EPow P2
   (EVar vMst2) + #14 * EPow P2 (EVar vMuSUSY)) + #5 * EPow P4 (EVar vMst1))) + #1944 * EVar vshiftst1 * EPow P2 (EVar
   vSbeta) * (#20 * EPow P2 (EVar vMt) * EPow P2 (EVar vs2t) * ((#2 * (EVar vlmMst1 - EVar vlmMst2) * EPow P2 (EVar
   vMst1) - EPow P2 (EVar vMst2)) * (EPow P2 (EVar vMst1) + EPow P2 (EVar vMst2)) * EPow P2 (EVar vMuSUSY) + #4 * EPow
   P2 (EVar vMst1) * EPow P4 (EVar vMst2) - #2 * EPow P2 (EVar vMst2) * (EPow P4 (EVar vMst1) + EPow P4 (EVar vMst2)))
   + #80 * EPow P2 (EVar vMst2) * (EPow P2 (EVar vMst1) + EPow P2 (EVar vMst2)) * EPow P4 (EVar vMt) + #5 * (EPow P2
   (EVar vMst1) - EPow P2 (EVar vMst2)) * EPow P2 (EVar vMst2) * (#2 * (EVar vlmMst1 - EVar vlmMst2) * EPow P2 (EVar
   vMst1) * EPow P2 (EVar vMst2) + EPow P4 (EVar vMst1) - EPow P4 (EVar vMst2)) * EPow P4 (EVar vs2t)) - #480 * EConst
   CT1ep * EPow P2 (EVar vMst1) * (#12 * (#14 * EPow P2 (EVar vMst1) + #3 * EPow P2 (EVar vMst2)) * EPow P2 (EVar vMt)
   * EPow P2 (EVar vMuSUSY) * EPow P2 (EVar vs2t) + EPow P2 (EVar vMst2) * EPow P2 (EVar vSbeta) * (#24 * EPow P2
   (EVar vMst1) * EPow P2 (EVar vMst2) + #14 * EPow P4 (EVar vMst1) + #9 * EPow P4 (EVar vMst2)) * EPow P4 (EVar
   vs2t)) + EPow P2 (EVar vs2t) * (- #4860 * EVar vMt * (#2 * (#11 + #39 * EVar vlmMst1 - #39 * EVar vlmMst2) * EVar
   vMst2 * EVar vs2t * (- #2 + EPow P2 (EVar vSbeta)) + (#167 - #5 * EVar vlmMst1 + #5 * EVar vlmMst2) * EVar vMt *
   EPow P2 (EVar vSbeta)) * EPow P4 (EVar vSbeta) * EPow P6 (EVar vMst1) + #12 * EPow P2 (EVar vMt) * (EPow P2 (EVar
   vMuSUSY) * (#375 * (#1925 + #64 * EConst COepS2 - #27864 * EConst CS2 - #72 * (EVar vlmMst1 - EVar vlmMst2) * (- #1
   + #18 * EConst CS2)) * EPow P2 (EVar vMst1) * EPow P2 (EVar vMst2) + #2 * (#7 * (- #46499 + #8000 * EConst COepS2 -
   #1728000 * EConst CS2) + #90 * EVar vlmMst2 * (- #2137 + #12600 * EConst CS2) - #90 * EVar vlmMst1 * (- #2137 +
   #1080 * EVar vlmMst2 + #12600 * EConst CS2) + #48600 * (EPow P2 (EVar vlmMst1) + EPow P2 (EVar vlmMst2))) * EPow P4
   (EVar vMst1) + #162000 * EPow P4 (EVar vMst2)) + #20250 * (#167 - #5 * EVar vlmMst1 + #5 * EVar vlmMst2) * EPow P4
   (EVar vSbeta) * EPow P6 (EVar vMst1)) / #25) + EPow P2 (EVar vSbeta) * (- #77760 * EVar vMst2 * EVar vs2t * EPow P2
   (EVar vMst1) * (#4 * (#11 - #6 * EVar vlmMst1 + #12 * EVar vlmMst2 - #6 * EVar vlmMt) * EPow P2 (EVar vMst1) + (#15
   - #16 * EVar vlmMst1 + #30 * EVar vlmMst2 - #14 * EVar vlmMt) * EPow P2 (EVar vMst2) - #4 * (#3 + #2 * EVar vlmMst1
   - #2 * EVar vlmMst2) * EPow P2 (EVar vMuSUSY)) * EPow P3 (EVar vMt) + #19440 * EVar vMst2 * EVar vMt * EPow P2
   (EVar vMst1) * EPow P3 (EVar vs2t) * (#16 * (#1 - EVar vlmMst1 + EVar vlmMst2) * EPow P2 (EVar vMst1) * EPow P2
   (EVar vMst2) + (#29 + #41 * EVar vlmMst1 - #41 * EVar vlmMst2) * EPow P4 (EVar vMst1) - #8 * (#3 + #2 * EVar
   vlmMst1 - #2 * EVar vlmMst2) * EPow P4 (EVar vMst2)) + #144 * (#125 * (#3095 - #1224 * EVar vlmMst1 + #6 * EVar
   vlmMst2 * (#365 - #36 * EVar vlmMt) - #966 * EVar vlmMt + #108 * EPow P2 (EVar vlmMst2) + #108 * EPow P2 (EVar
   vlmMt)) * EPow P2 (EVar vMst1) * EPow P2 (EVar vMst2) + #6 * (#176473 + #30 * EVar vlmMst1 * (- #1771 + #90 * EVar
   vlmMst2 - #150 * EVar vlmMt) - #63000 * EVar vlmMt + #30 * EVar vlmMst2 * (#3871 + #150 * EVar vlmMt) + #900 * EPow
   P2 (EVar vlmMst1) - #3600 * EPow P2 (EVar vlmMst2)) * EPow P4 (EVar vMst1) + #54000 * EPow P4 (EVar vMst2)) * EPow
   P4 (EVar vMt) / #25 - #12 * EPow P2 (EVar vMt) * EPow P2 (EVar vs2t) * (#686 * (#2 * (#121757 + #10000 * EConst
   COepS2 - #479250 * EConst CS2 + #90 * EVar vlmMst2 * (- #887 + #2250 * EConst CS2) - #90 * EVar vlmMst1 * (- #887 +
   #630 * EVar vlmMst2 + #2250 * EConst CS2) + #28350 * (EPow P2 (EVar vlmMst1) + EPow P2 (EVar vlmMst2))) * EPow P2
   (EVar vMst2) + (#7 * (- #46499 + #8000 * EConst COepS2 - #1728000 * EConst CS2) + #90 * EVar vlmMst2 * (- #2137 +
   #12600 * EConst CS2) - #90 * EVar vlmMst1 * (- #2137 + #1080 * EVar vlmMst2 + #12600 * EConst CS2) + #48600 * (EPow
   P2 (EVar vlmMst1) + EPow P2 (EVar vlmMst2))) * EPow P2 (EVar vMuSUSY)) * EPow P4 (EVar vMst1) + #55566000 * (#2 *
   EPow P2 (EVar vMst2) + EPow P2 (EVar vMuSUSY)) * EPow P4 (EVar vMst2) - #128625 * EPow P2 (EVar vMst1) * (- ((#1925
   + #64 * EConst COepS2 - #27864 * EConst CS2 - #72 * (EVar vlmMst1 - EVar vlmMst2) * (- #1 + #18 * EConst CS2)) *
   EPow P2 (EVar vMst2) * EPow P2 (EVar vMuSUSY)) + #8 * (#20 - #8 * EConst COepS2 + #81 * EConst CS2 + #18 * (EVar
   vlmMst1 - EVar vlmMst2) * (#2 + #9 * EConst CS2)) * EPow P4 (EVar vMst2)) + #250 * (#397737 + #54880 * EConst
   COepS2 - #2580732 * EConst CS2 + #252 * EVar vlmMst2 * (- #2333 + #4410 * EConst CS2) - #252 * EVar vlmMst1 * (-
   #2333 + #1134 * EVar vlmMst2 + #4410 * EConst CS2) + #142884 * (EPow P2 (EVar vlmMst1) + EPow P2 (EVar vlmMst2))) *
   EPow P6 (EVar vMst1)) / #8575 + EPow P2 (EVar vMst2) * EPow P4 (EVar vs2t) * (- #4116 * (#483184 - #16000 * EConst
   COepS2 + #45 * EVar vlmMst2 * (#1837 - #7200 * EConst CS2) + #823500 * EConst CS2 + #45 * EVar vlmMst1 * (- #1837 +
   #1080 * EVar vlmMst2 + #7200 * EConst CS2) - #24300 * (EPow P2 (EVar vlmMst1) + EPow P2 (EVar vlmMst2))) * EPow P2
   (EVar vMst2) * EPow P4 (EVar vMst1) + #385875 * (#1061 + #64 * EConst COepS2 - #27864 * EConst CS2 - #72 * (EVar
   vlmMst1 - EVar vlmMst2) * (- #1 + #18 * EConst CS2)) * EPow P2 (EVar vMst1) * EPow P4 (EVar vMst2) + #5 *
   (#38390869 + #7683200 * EConst COepS2 - #418597200 * EConst CS2 + #630 * EVar vlmMst2 * (#8753 + #246960 * EConst
   CS2) - #630 * EVar vlmMst1 * (#8753 + #113400 * EVar vlmMst2 + #246960 * EConst CS2) + #35721000 * (EPow P2 (EVar
   vlmMst1) + EPow P2 (EVar vlmMst2))) * EPow P6 (EVar vMst1) + #166698000 * EPow P6 (EVar vMst2)) / #8575))) - #36 *
   EVar vxDR2DRMOD * (#4 * EVar vMt * EVar vMuSUSY * EPow P2 (EVar vSbeta) * (#2 * EVar vDmglst2 * (#2 * EPow P3 (EVar
   vMst2) * EPow P4 (EVar vMst1) * (- #270 * EVar vDmsqst2 * EVar vs2t * EPow P2 (EVar vMt) + #3 * EVar vs2t * EPow P2
   (EVar vMst2) * (#45 * EVar vDmsqst2 * (EVar vlmMst1 - EVar vlmMst2) * EPow P2 (EVar vs2t) + #2 * EPow P2 (EVar vMt)
   * (#52 + #370 * EVar vlmMst2 - #96 * EVar vlmMst2 * EPow P2 (EVar vlmMst1) + #81 * EPow P2 (EVar vlmMst2) + #96 *
   EVar vlmMst1 * (- #1 + EVar vlmMst2 + #2 * EPow P2 (EVar vlmMst2)) - #96 * EPow P3 (EVar vlmMst2))) - #432 * EVar
   vMt * EPow P2 (EVar vs2t) * (#7 + #9 * EVar vlmMst2 - #8 * EPow P2 (EVar vlmMst2) + EVar vlmMst1 * (- #3 + #5 *
   EVar vlmMst2 + #6 * EPow P2 (EVar vlmMst2)) - #6 * EPow P3 (EVar vlmMst2)) * EPow P3 (EVar vMst2) + #32 * EVar
   vMst2 * (#119 + EVar vlmMst2 * (#224 - #15 * EVar vlmMt) - #51 * EVar vlmMt + #3 * (#5 + #6 * EVar vlmMt) * EPow P2
   (EVar vlmMst2) + #18 * EVar vlmMst1 * (- #4 + EVar vlmMt - EVar vlmMst2 * (#1 + EVar vlmMt) + EPow P2 (EVar
   vlmMst2)) - #18 * EPow P3 (EVar vlmMst2)) * EPow P3 (EVar vMt) + #9 * (#40 + #4 * EVar vlmMst2 + #16 * EVar vlmMst2
   * EPow P2 (EVar vlmMst1) + EVar vlmMst1 * (#4 - #246 * EVar vlmMst2 - #123 * EPow P2 (EVar vlmMst2)) + #198 * EPow
   P2 (EVar vlmMst2) + #107 * EPow P3 (EVar vlmMst2)) * EPow P3 (EVar vs2t) * EPow P4 (EVar vMst2)) + #9 * EPow P2
   (EVar vMst1) * (#60 * EVar vDmsqst2 * EVar vs2t * EPow P2 (EVar vMt) + #96 * EVar vMt * (- #1 + #2 * EVar vlmMst2 +
   #3 * EPow P2 (EVar vlmMst2)) * EPow P2 (EVar vs2t) * EPow P3 (EVar vMst2) - #128 * EVar vMst2 * (- #1 + #2 * EVar
   vlmMst2 + #3 * EPow P2 (EVar vlmMst2)) * EPow P3 (EVar vMt) - EPow P2 (EVar vMst2) * (#4 * EVar vs2t * (- #52 +
   #102 * EVar vlmMst2 + #32 * EVar vlmMst1 * EVar vlmMst2 + #59 * EPow P2 (EVar vlmMst2)) * EPow P2 (EVar vMt) + #15
   * EVar vDmsqst2 * EPow P3 (EVar vs2t)) + (- #20 + (#230 + #32 * EVar vlmMst1) * EVar vlmMst2 + #155 * EPow P2 (EVar
   vlmMst2)) * EPow P3 (EVar vs2t) * EPow P4 (EVar vMst2)) * EPow P5 (EVar vMst2) + EPow P2 (EVar vMst2) * (- #1152 *
   EVar vMst2 * EVar vs2t * (EVar vlmMst2 * EPow P2 (EVar vlmMst1) + EVar vlmMst1 * (#4 + #2 * EVar vlmMst2 - #2 *
   EPow P2 (EVar vlmMst2)) + (- #4 + EVar vlmMst2) * EPow P2 (#1 + EVar vlmMst2)) * EPow P2 (EVar vMt) - #864 * EVar
   vMt * EPow P2 (EVar vMst2) * EPow P2 (EVar vs2t) * (#8 + #19 * EVar vlmMst2 - #5 * EPow P2 (EVar vlmMst2) + EVar
   vlmMst1 * (- #7 + #5 * EVar vlmMst2 + #6 * EPow P2 (EVar vlmMst2)) - #6 * EPow P3 (EVar vlmMst2)) + #64 * (#263 +
   EVar vlmMst2 * (#962 - #213 * EVar vlmMt) - #177 * EVar vlmMt + (#393 - #18 * EVar vlmMt) * EPow P2 (EVar vlmMst2)
   - #18 * EVar vlmMst1 * (#26 - EVar vlmMst2 * (- #17 + EVar vlmMt) - #7 * EVar vlmMt + EPow P2 (EVar vlmMst2)) + #18
   * EPow P3 (EVar vlmMst2)) * EPow P3 (EVar vMt) + #9 * EVar vMst2 * (#15 * EVar vDmsqst2 + EPow P2 (EVar vMst2) *
   (#36 + #42 * EVar vlmMst2 + #256 * EVar vlmMst2 * EPow P2 (EVar vlmMst1) + #37 * EPow P2 (EVar vlmMst2) - #32 *
   EVar vlmMst1 * (#3 + #3 * EVar vlmMst2 + #16 * EPow P2 (EVar vlmMst2)) + #256 * EPow P3 (EVar vlmMst2))) * EPow P3
   (EVar vs2t)) * EPow P6 (EVar vMst1) + #16 * (- #72 * EVar vMst2 * EVar vs2t * EPow P2 (EVar vMt) * (- #6 - #14 *
   EVar vlmMst2 + EVar vlmMst2 * EPow P2 (EVar vlmMst1) + EVar vlmMst1 * (#9 + #6 * EVar vlmMst2 - #2 * EPow P2 (EVar
   vlmMst2)) - #6 * EPow P2 (EVar vlmMst2) + EPow P3 (EVar vlmMst2)) + #27 * EVar vMt * EPow P2 (EVar vMst2) * EPow P2
   (EVar vs2t) * (- #17 - #51 * EVar vlmMst2 + #4 * EPow P2 (EVar vlmMst2) - #4 * EVar vlmMst1 * (- #6 + EVar vlmMst2
   + #3 * EPow P2 (EVar vlmMst2)) + #12 * EPow P3 (EVar vlmMst2)) + #4 * (#290 + EVar vlmMst2 * (#2447 - #645 * EVar
   vlmMt) - #375 * EVar vlmMt - #3 * (- #509 + #60 * EVar vlmMt) * EPow P2 (EVar vlmMst2) - #18 * EVar vlmMst1 * (#87
   + EVar vlmMst2 * (#71 - #10 * EVar vlmMt) - #22 * EVar vlmMt + #10 * EPow P2 (EVar vlmMst2)) + #180 * EPow P3 (EVar
   vlmMst2)) * EPow P3 (EVar vMt) + #9 * (#16 * EVar vlmMst2 * EPow P2 (EVar vlmMst1) - #2 * EVar vlmMst1 * (#3 + #2 *
   EVar vlmMst2 + #16 * EPow P2 (EVar vlmMst2)) + EVar vlmMst2 * (#7 + #4 * EVar vlmMst2 + #16 * EPow P2 (EVar
   vlmMst2))) * EPow P3 (EVar vMst2) * EPow P3 (EVar vs2t)) * EPow P8 (EVar vMst1) - #288 * EVar vlmMst2 * (#1 + EVar
   vlmMst2) * EVar vs2t * (- #4 * EPow P2 (EVar vMt) + EPow P2 (EVar vMst2) * EPow P2 (EVar vs2t)) * EPow P9 (EVar
   vMst2)) + #9 * EVar vMst2 * (- #2 * EPow P3 (EVar vMst2) * EPow P4 (EVar vMst1) * (#30 * EVar vDmsqst2 * EVar vs2t
   * (- #5 + #9 * EVar vshiftst1) * EPow P2 (EVar vMt) + EVar vs2t * EPow P2 (EVar vMst2) * (#15 * EVar vDmsqst2 *
   (EVar vlmMst1 - EVar vlmMst2) * (#5 - #9 * EVar vshiftst1) * EPow P2 (EVar vs2t) - #2 * EPow P2 (EVar vMt) * (#109
   + #76 * EVar vlmMst2 - #135 * EVar vshiftst1 - #21 * EPow P2 (EVar vlmMst2) + #64 * EVar vlmMst1 * EPow P2 (#1 +
   EVar vlmMst2) - #32 * ((#1 + EVar vlmMst2) * EPow P2 (EVar vlmMst1) + EPow P3 (EVar vlmMst2)))) + (#1 + EVar
   vlmMst2) * (- #96 * (#2 * EVar vlmMst2 * (#2 + EVar vlmMst2) - EVar vlmMst1 * (#3 + #2 * EVar vlmMst2)) * EVar vMt
   * EPow P2 (EVar vs2t) * EPow P3 (EVar vMst2) + #64 * EVar vMst2 * (#1 + EVar vlmMst2 * (#7 - #2 * EVar vlmMt) - #2
   * EVar vlmMst1 * (#2 + EVar vlmMst2 - EVar vlmMt) - #3 * EVar vlmMt + #2 * EPow P2 (EVar vlmMst2)) * EPow P3 (EVar
   vMt)) + (#8 + #3 * EVar vlmMst2 * (- #79 + #45 * EVar vshiftst1) - #16 * (#1 + EVar vlmMst2) * EPow P2 (EVar
   vlmMst1) - #308 * EPow P2 (EVar vlmMst2) + EVar vlmMst1 * (#269 + #348 * EVar vlmMst2 - #135 * EVar vshiftst1 +
   #123 * EPow P2 (EVar vlmMst2)) - #107 * EPow P3 (EVar vlmMst2)) * EPow P3 (EVar vs2t) * EPow P4 (EVar vMst2)) -
   EPow P2 (EVar vMst1) * (#60 * EVar vDmsqst2 * EVar vs2t * (#5 - #9 * EVar vshiftst1) * EPow P2 (EVar vMt) - #64 *
   EPow P2 (#1 + EVar vlmMst2) * (#3 * EVar vMt * EPow P2 (EVar vs2t) * EPow P3 (EVar vMst2) - #4 * EVar vMst2 * EPow
   P3 (EVar vMt)) + EPow P2 (EVar vMst2) * (#4 * EVar vs2t * (#173 + #188 * EVar vlmMst2 + #32 * EVar vlmMst1 * (#1 +
   EVar vlmMst2) - #135 * EVar vshiftst1 + #59 * EPow P2 (EVar vlmMst2)) * EPow P2 (EVar vMt) + #15 * EVar vDmsqst2 *
   (- #5 + #9 * EVar vshiftst1) * EPow P3 (EVar vs2t)) - (#221 + #284 * EVar vlmMst2 + #32 * EVar vlmMst1 * (#1 + EVar
   vlmMst2) - #135 * EVar vshiftst1 + #107 * EPow P2 (EVar vlmMst2)) * EPow P3 (EVar vs2t) * EPow P4 (EVar vMst2)) *
   EPow P5 (EVar vMst2) + EPow P2 (EVar vMst2) * (#64 * (#1 + EVar vlmMst2) * EVar vMt * (- #2 * EVar vMst2 * EVar vMt
   * EVar vs2t * EPow P2 (#1 - EVar vlmMst1 + EVar vlmMst2) + #2 * (#3 - #21 * EVar vlmMst2 + #2 * EVar vlmMst1 * (#8
   + #3 * EVar vlmMst2 - #3 * EVar vlmMt) + #5 * EVar vlmMt + #6 * EVar vlmMst2 * EVar vlmMt - #6 * EPow P2 (EVar
   vlmMst2)) * EPow P2 (EVar vMt) + #3 * (- #2 + #5 * EVar vlmMst2 - EVar vlmMst1 * (#5 + #2 * EVar vlmMst2) + #2 *
   EPow P2 (EVar vlmMst2)) * EPow P2 (EVar vMst2) * EPow P2 (EVar vs2t)) - EVar vMst2 * (#15 * EVar vDmsqst2 * (#5 -
   #9 * EVar vshiftst1) + EPow P2 (EVar vMst2) * (#125 + #156 * EVar vlmMst2 + #512 * EVar vlmMst1 * EVar vlmMst2 *
   (#1 + EVar vlmMst2) - #135 * EVar vshiftst1 - #181 * EPow P2 (EVar vlmMst2) - #256 * ((#1 + EVar vlmMst2) * EPow P2
   (EVar vlmMst1) + EPow P3 (EVar vlmMst2)))) * EPow P3 (EVar vs2t)) * EPow P6 (EVar vMst1) + #16 * (#1 + EVar
   vlmMst2) * ((- #8 * EVar vMst2 * EVar vs2t * (#1 + #3 * EVar vlmMst2 - EVar vlmMst1 * (#3 + #2 * EVar vlmMst2) +
   EPow P2 (EVar vlmMst1) + EPow P2 (EVar vlmMst2)) * EPow P2 (EVar vMt) - #6 * EVar vMt * (#5 - #12 * EVar vlmMst2 +
   #4 * EVar vlmMst1 * (#3 + EVar vlmMst2) - #4 * EPow P2 (EVar vlmMst2)) * EPow P2 (EVar vMst2) * EPow P2 (EVar vs2t)
   + #8 * (#12 - #45 * EVar vlmMst2 + #2 * EVar vlmMst1 * (#19 + #6 * EVar vlmMst2 - #6 * EVar vlmMt) + #7 * EVar
   vlmMt + #12 * EVar vlmMst2 * EVar vlmMt - #12 * EPow P2 (EVar vlmMst2)) * EPow P3 (EVar vMt) + (#1 + EVar vlmMst1 *
   (#2 - #32 * EVar vlmMst2) - #2 * EVar vlmMst2 + #16 * EPow P2 (EVar vlmMst1) + #16 * EPow P2 (EVar vlmMst2)) * EPow
   P3 (EVar vMst2) * EPow P3 (EVar vs2t)) * EPow P8 (EVar vMst1) + (#1 + EVar vlmMst2) * EVar vs2t * (#4 * EPow P2
   (EVar vMt) - EPow P2 (EVar vMst2) * EPow P2 (EVar vs2t)) * EPow P9 (EVar vMst2)))) + EVar vTbeta * (EPow P2 (EVar
   vMst1) * (- #9 * EPow P6 (EVar vMst2) * (#512 * EVar vDmglst2 * EVar vs2t * (- #1 + #2 * EVar vlmMst2 + #3 * EPow
   P2 (EVar vlmMst2)) * EPow P2 (EVar vMuSUSY) * EPow P3 (EVar vMt) + #2 * EVar vDmglst2 * (- #20 + (#262 + #32 * EVar
   vlmMst1) * EVar vlmMst2 + #187 * EPow P2 (EVar vlmMst2)) * EPow P2 (EVar vSbeta) * EPow P4 (EVar vs2t) * EPow P5
   (EVar vMst2) + (#237 + #316 * EVar vlmMst2 + #32 * EVar vlmMst1 * (#1 + EVar vlmMst2) + #123 * EPow P2 (EVar
   vlmMst2)) * EPow P2 (EVar vSbeta) * EPow P4 (EVar vs2t) * EPow P6 (EVar vMst2)) + #1215 * EVar vshiftst1 * (EPow P2
   (EVar vSbeta) * EPow P4 (EVar vMst2) * (#16 * (EVar vDmsqst2 * EPow P2 (EVar vMst1) * EPow P2 (EVar vMst2) * EPow
   P2 (EVar vMt) * EPow P2 (EVar vs2t) + (EVar vDmsqst2 + EPow P2 (EVar vMst2)) * (EPow P2 (EVar vMst1) + EPow P2
   (EVar vMst2)) * EPow P4 (EVar vMt)) + (EPow P2 (EVar vMst1) - EPow P2 (EVar vMst2)) * (EVar vDmsqst2 + EPow P2
   (EVar vMst2)) * (#2 * (EVar vlmMst1 - EVar vlmMst2) * EPow P2 (EVar vMst1) * EPow P2 (EVar vMst2) + EPow P4 (EVar
   vMst1) - EPow P4 (EVar vMst2)) * EPow P4 (EVar vs2t)) + EPow P2 (EVar vMt) * EPow P2 (EVar vs2t) * (#4 * (EVar
   vDmsqst2 + EPow P2 (EVar vMst2)) * EPow P2 (EVar vMuSUSY) * ((EPow P2 (EVar vMst1) + EPow P2 (EVar vMst2)) * EPow
   P4 (EVar vMst2) - #2 * (EVar vlmMst1 - EVar vlmMst2) * EPow P2 (EVar vMst1) * (EPow P2 (EVar vMst1) * EPow P2 (EVar
   vMst2) + EPow P4 (EVar vMst1) + EPow P4 (EVar vMst2))) - #4 * EPow P2 (EVar vSbeta) * ((EVar vDmsqst2 + EPow P2
   (EVar vMst2)) * EPow P2 (EVar vMuSUSY) * ((EPow P2 (EVar vMst1) + EPow P2 (EVar vMst2)) * EPow P4 (EVar vMst2) - #2
   * (EVar vlmMst1 - EVar vlmMst2) * EPow P2 (EVar vMst1) * (EPow P2 (EVar vMst1) * EPow P2 (EVar vMst2) + EPow P4
   (EVar vMst1) + EPow P4 (EVar vMst2))) + #2 * (EVar vDmsqst2 * EPow P4 (EVar vMst2) * (EPow P4 (EVar vMst1) + EPow
   P4 (EVar vMst2)) + EPow P2 (EPow P2 (EVar vMst1) - EPow P2 (EVar vMst2)) * EPow P6 (EVar vMst2)))))) + EPow P2
   (EVar vSbeta) * (#256 * EVar vs2t * EPow P2 (EVar vMst1) * EPow P3 (EVar vMt) * (#9 * (#1 + EVar vlmMst2) * EVar
   vMst2 * (- #2 * EPow P2 (EVar vMst2) * ((#3 + #2 * EVar vlmMst1 * (#7 + #2 * EVar vlmMst2 - #2 * EVar vlmMt) + #4 *
   EVar vlmMst2 * (- #4 + EVar vlmMt) + #2 * EVar vlmMt - #4 * EPow P2 (EVar vlmMst2)) * EPow P2 (EVar vMst2) + (#1 -
   #10 * EVar vlmMst2 + #4 * EVar vlmMst1 * (#2 + EVar vlmMst2) - #4 * EPow P2 (EVar vlmMst2)) * EPow P2 (EVar
   vMuSUSY)) * EPow P4 (EVar vMst1) + EPow P2 (EVar vMst1) * ((#1 - #2 * EVar vlmMst1 * (#5 + #2 * EVar vlmMst2 - #2 *
   EVar vlmMt) - #4 * EVar vlmMst2 * (- #3 + EVar vlmMt) - #6 * EVar vlmMt + #4 * EPow P2 (EVar vlmMst2)) * EPow P2
   (EVar vMst2) + #2 * (#1 + #5 * EVar vlmMst2 - EVar vlmMst1 * (#3 + #2 * EVar vlmMst2) + #2 * EPow P2 (EVar
   vlmMst2)) * EPow P2 (EVar vMuSUSY)) * EPow P4 (EVar vMst2) - (#2 * (#8 - #27 * EVar vlmMst2 + EVar vlmMst1 * (#25 +
   #6 * EVar vlmMst2 - #6 * EVar vlmMt) + #2 * EVar vlmMt + #6 * EVar vlmMst2 * EVar vlmMt - #6 * EPow P2 (EVar
   vlmMst2)) * EPow P2 (EVar vMst2) + (#7 - #32 * EVar vlmMst2 + #4 * EVar vlmMst1 * (#7 + #3 * EVar vlmMst2) - #12 *
   EPow P2 (EVar vlmMst2)) * EPow P2 (EVar vMuSUSY)) * EPow P6 (EVar vMst1) + #2 * (#1 + EVar vlmMst2) * (#2 * EPow P2
   (EVar vMst2) + EPow P2 (EVar vMuSUSY)) * EPow P6 (EVar vMst2)) - EVar vDmglst2 * (EPow P2 (EVar vMst1) * (EPow P2
   (EVar vMst2) * (#253 + #5 * EVar vlmMst2 * (#107 - #6 * EVar vlmMt) - #102 * EVar vlmMt - #18 * EVar vlmMst1 * (#9
   + EVar vlmMst2 - #2 * EVar vlmMt + #2 * EVar vlmMst2 * EVar vlmMt - #2 * EPow P2 (EVar vlmMst2)) + #12 * (#10 + #3
   * EVar vlmMt) * EPow P2 (EVar vlmMst2) - #36 * EPow P3 (EVar vlmMst2)) + #18 * EPow P2 (EVar vMuSUSY) * (#8 + #7 *
   EVar vlmMst2 - #11 * EPow P2 (EVar vlmMst2) + EVar vlmMst1 * (- #3 + #5 * EVar vlmMst2 + #6 * EPow P2 (EVar
   vlmMst2)) - #6 * EPow P3 (EVar vlmMst2))) * EPow P4 (EVar vMst2) + #9 * ((#49 + #103 * EVar vlmMst2 - #36 * (#1 +
   EVar vlmMst2) * EPow P2 (EVar vlmMst2) + #4 * EVar vlmMst1 * (- #11 + #6 * EVar vlmMst2 + #9 * EPow P2 (EVar
   vlmMst2))) * EPow P2 (EVar vMuSUSY) + EPow P2 (EVar vMst2) * (#28 + EVar vlmMst2 * (#378 - #96 * EVar vlmMt) - #44
   * EVar vlmMt + EVar vlmMst1 * (- #274 + #60 * EVar vlmMt + #18 * EVar vlmMst2 * (- #13 + #2 * EVar vlmMt) - #36 *
   EPow P2 (EVar vlmMst2)) + (#270 - #36 * EVar vlmMt) * EPow P2 (EVar vlmMst2) + #36 * EPow P3 (EVar vlmMst2))) *
   EPow P6 (EVar vMst1) + #18 * (EPow P2 (EVar vMst2) * (#2 * EPow P2 (EVar vMuSUSY) * (#8 + #13 * EVar vlmMst2 - #8 *
   EPow P2 (EVar vlmMst2) + EVar vlmMst1 * (- #5 + #5 * EVar vlmMst2 + #6 * EPow P2 (EVar vlmMst2)) - #6 * EPow P3
   (EVar vlmMst2)) + EPow P2 (EVar vMst2) * (#23 + EVar vlmMst2 * (#93 - #22 * EVar vlmMt) - #14 * EVar vlmMt - #4 *
   (- #11 + EVar vlmMt) * EPow P2 (EVar vlmMst2) - #2 * EVar vlmMst1 * (#25 + EVar vlmMst2 * (#17 - #2 * EVar vlmMt) -
   #6 * EVar vlmMt + #2 * EPow P2 (EVar vlmMst2)) + #4 * EPow P3 (EVar vlmMst2))) * EPow P4 (EVar vMst1) + (#1 - #2 *
   EVar vlmMst2 - #3 * EPow P2 (EVar vlmMst2)) * (#2 * EPow P2 (EVar vMst2) + EPow P2 (EVar vMuSUSY)) * EPow P6 (EVar
   vMst2)))) + #9 * EPow P2 (EVar vMst1) * EPow P3 (EVar vMst2) * EPow P3 (EVar vs2t) * (#128 * EVar vMst2 * EVar vMt
   * ((#1 + EVar vlmMst2) * EVar vMst2 * (#2 * (#2 + #2 * EVar vlmMst1 - EVar vlmMst2) * EPow P2 (EVar vMst2) * EPow
   P4 (EVar vMst1) + #2 * (#1 - #3 * EVar vlmMst2 + EVar vlmMst1 * (#3 + #2 * EVar vlmMst2) - #2 * EPow P2 (EVar
   vlmMst2)) * EPow P2 (EVar vMst1) * EPow P4 (EVar vMst2) + (#1 + #2 * EVar vlmMst1 - #2 * EVar vlmMst2) * EPow P6
   (EVar vMst1) - #2 * (#1 + EVar vlmMst2) * EPow P6 (EVar vMst2)) + EVar vDmglst2 * (#2 * (#1 - #4 * EVar vlmMst1 +
   #10 * EVar vlmMst2 + #3 * EPow P2 (EVar vlmMst2)) * EPow P2 (EVar vMst2) * EPow P4 (EVar vMst1) + #2 * EPow P2
   (EVar vMst1) * (#6 + #11 * EVar vlmMst2 - #5 * EPow P2 (EVar vlmMst2) + EVar vlmMst1 * (- #3 + #5 * EVar vlmMst2 +
   #6 * EPow P2 (EVar vlmMst2)) - #6 * EPow P3 (EVar vlmMst2)) * EPow P4 (EVar vMst2) + (#1 + #13 * EVar vlmMst2 - #2
   * EVar vlmMst1 * (#5 + #3 * EVar vlmMst2) + #6 * EPow P2 (EVar vlmMst2)) * EPow P6 (EVar vMst1) - #2 * (- #1 + #2 *
   EVar vlmMst2 + #3 * EPow P2 (EVar vlmMst2)) * EPow P6 (EVar vMst2))) + EVar vs2t * (#30 * EVar vDmglst2 * EVar
   vDmsqst2 * (EPow P2 (EVar vMst1) - EPow P2 (EVar vMst2)) * (#2 * (EVar vlmMst1 - EVar vlmMst2) * EPow P2 (EVar
   vMst1) * EPow P2 (EVar vMst2) + EPow P4 (EVar vMst1) - EPow P4 (EVar vMst2)) - #2 * EVar vDmglst2 * EPow P2 (EVar
   vMst1) * EPow P2 (EVar vMst2) * (EPow P2 (EVar vMst1) * EPow P2 (EVar vMst2) * (- #44 + #34 * EVar vlmMst2 + #224 *
   EVar vlmMst2 * EPow P2 (EVar vlmMst1) - #359 * EPow P2 (EVar vlmMst2) - #2 * EVar vlmMst1 * (#52 - #198 * EVar
   vlmMst2 + #133 * EPow P2 (EVar vlmMst2)) + #42 * EPow P3 (EVar vlmMst2)) + (- #36 + (#70 + #32 * EVar vlmMst1) *
   EVar vlmMst2 + #27 * EPow P2 (EVar vlmMst2)) * EPow P4 (EVar vMst1) + (#100 - #222 * EVar vlmMst2 + #32 * EVar
   vlmMst2 * EPow P2 (EVar vlmMst1) + EVar vlmMst1 * (#8 - #524 * EVar vlmMst2 - #246 * EPow P2 (EVar vlmMst2)) + #241
   * EPow P2 (EVar vlmMst2) + #214 * EPow P3 (EVar vlmMst2)) * EPow P4 (EVar vMst2)) - EVar vMst2 * (#75 * EVar
   vDmsqst2 * (EPow P2 (EVar vMst1) - EPow P2 (EVar vMst2)) * (#2 * (EVar vlmMst1 - EVar vlmMst2) * EPow P2 (EVar
   vMst1) * EPow P2 (EVar vMst2) + EPow P4 (EVar vMst1) - EPow P4 (EVar vMst2)) + (- #109 - #630 * EVar vlmMst2 + #224
   * (#1 + EVar vlmMst2) * EPow P2 (EVar vlmMst1) + EVar vlmMst1 * (#538 + #184 * EVar vlmMst2 - #266 * EPow P2 (EVar
   vlmMst2)) - #435 * EPow P2 (EVar vlmMst2) + #42 * EPow P3 (EVar vlmMst2)) * EPow P4 (EVar vMst1) * EPow P4 (EVar
   vMst2) + (#141 + #140 * EVar vlmMst2 + #32 * EVar vlmMst1 * (#1 + EVar vlmMst2) + #43 * EPow P2 (EVar vlmMst2)) *
   EPow P2 (EVar vMst2) * EPow P6 (EVar vMst1) + EPow P2 (EVar vMst1) * (- #237 + #190 * EVar vlmMst2 + #32 * (#1 +
   EVar vlmMst2) * EPow P2 (EVar vlmMst1) + #509 * EPow P2 (EVar vlmMst2) - #2 * EVar vlmMst1 * (#285 + #364 * EVar
   vlmMst2 + #123 * EPow P2 (EVar vlmMst2)) + #214 * EPow P3 (EVar vlmMst2)) * EPow P6 (EVar vMst2)))) + #16 * EVar
   vMst2 * EPow P4 (EVar vMt) * (EVar vMst2 * (- (EPow P4 (EVar vMst1) * (#675 * EVar vDmsqst2 * EPow P2 (EVar vMst2)
   + (#2117 + EVar vlmMst2 * (#4796 - #1248 * EVar vlmMt) - #576 * EVar vlmMst1 * (#1 + EVar vlmMst2) * (#3 + EVar
   vlmMst2 - EVar vlmMt) - #672 * EVar vlmMt + (#3651 - #576 * EVar vlmMt) * EPow P2 (EVar vlmMst2) + #576 * EPow P3
   (EVar vlmMst2)) * EPow P4 (EVar vMst2))) + #288 * (#1 + EVar vlmMst2) * ((#5 - #57 * EVar vlmMst2 + #2 * EVar
   vlmMst1 * (#25 + #6 * EVar vlmMst2 - #6 * EVar vlmMt) + #7 * EVar vlmMt + #12 * EVar vlmMst2 * EVar vlmMt - #12 *
   EPow P2 (EVar vlmMst2)) * EPow P2 (EVar vMst1) + (- #2 - #27 * EVar vlmMst2 + EVar vlmMst1 * (#22 + #6 * EVar
   vlmMst2 - #6 * EVar vlmMt) + #5 * EVar vlmMt + #6 * EVar vlmMst2 * EVar vlmMt - #6 * EPow P2 (EVar vlmMst2)) * EPow
   P2 (EVar vMst2)) * EPow P6 (EVar vMst1) - #9 * EPow P2 (EVar vMst1) * (#75 * EVar vDmsqst2 * EPow P4 (EVar vMst2) +
   (#173 + #188 * EVar vlmMst2 + #32 * EVar vlmMst1 * (#1 + EVar vlmMst2) + #59 * EPow P2 (EVar vlmMst2)) * EPow P6
   (EVar vMst2)) + #144 * EPow P2 (#1 + EVar vlmMst2) * EPow P8 (EVar vMst2)) + #2 * EVar vDmglst2 * (EPow P4 (EVar
   vMst1) * (#135 * EVar vDmsqst2 * EPow P2 (EVar vMst2) + (#4220 + #6114 * EVar vlmMst2 - #576 * EVar vlmMst1 * (#4 +
   #2 * EVar vlmMst2 - EVar vlmMt) - #48 * (#29 + #27 * EVar vlmMst2) * EVar vlmMt + #1341 * EPow P2 (EVar vlmMst2)) *
   EPow P4 (EVar vMst2)) + #9 * EPow P2 (EVar vMst1) * (#15 * EVar vDmsqst2 * EPow P4 (EVar vMst2) - (- #84 + (#70 +
   #32 * EVar vlmMst1) * EVar vlmMst2 + #59 * EPow P2 (EVar vlmMst2)) * EPow P6 (EVar vMst2)) + #288 * (EPow P2 (EVar
   vMst2) * (#31 + EVar vlmMst2 * (#95 - #23 * EVar vlmMt) - #16 * EVar vlmMt + (#51 - #6 * EVar vlmMt) * EPow P2
   (EVar vlmMst2) - #2 * EVar vlmMst1 * (#25 + EVar vlmMst2 * (#20 - #3 * EVar vlmMt) - #6 * EVar vlmMt + #3 * EPow P2
   (EVar vlmMst2)) + #6 * EPow P3 (EVar vlmMst2)) * EPow P6 (EVar vMst1) + (#42 + EVar vlmMst2 * (#242 - #62 * EVar
   vlmMt) - #33 * EVar vlmMt + #6 * (#29 - #4 * EVar vlmMt) * EPow P2 (EVar vlmMst2) - #2 * EVar vlmMst1 * (#81 + EVar
   vlmMst2 * (#74 - #12 * EVar vlmMt) - #18 * EVar vlmMt + #12 * EPow P2 (EVar vlmMst2)) + #24 * EPow P3 (EVar
   vlmMst2)) * EPow P8 (EVar vMst1) + EVar vlmMst2 * (#1 + EVar vlmMst2) * EPow P8 (EVar vMst2)))) - #12 * EPow P2
   (EVar vMt) * EPow P2 (EVar vs2t) * (#225 * EVar vDmsqst2 * EPow P2 (EVar vMst1) * (- #2 * EPow P4 (EVar vMst1) *
   ((- EVar vlmMst1 + EVar vlmMst2) * EPow P2 (EVar vMst2) * EPow P2 (EVar vMuSUSY) + EPow P4 (EVar vMst2)) + #2 *
   (EVar vlmMst1 - EVar vlmMst2) * EPow P2 (EVar vMuSUSY) * EPow P6 (EVar vMst1) - (#2 * EPow P2 (EVar vMst2) + EPow
   P2 (EVar vMuSUSY)) * EPow P6 (EVar vMst2) + EPow P2 (EVar vMst1) * ((- #1 + #2 * EVar vlmMst1 - #2 * EVar vlmMst2)
   * EPow P2 (EVar vMuSUSY) * EPow P4 (EVar vMst2) + #4 * EPow P6 (EVar vMst2))) + #2 * EVar vDmglst2 * EVar vMst2 *
   (- ((#3 * EPow P2 (EVar vMuSUSY) * (#60 + #206 * EVar vlmMst2 + #32 * EVar vlmMst2 * EPow P2 (EVar vlmMst1) + EVar
   vlmMst1 * (#8 - #460 * EVar vlmMst2 - #246 * EPow P2 (EVar vlmMst2)) + #519 * EPow P2 (EVar vlmMst2) + #214 * EPow
   P3 (EVar vlmMst2)) + #4 * EPow P2 (EVar vMst2) * (#52 + EVar vlmMst2 * (- #338 + #48 * EPow P2 (EVar vlmMst1)) -
   #129 * EPow P2 (EVar vlmMst2) + #48 * (EVar vlmMst1 - #2 * EVar vlmMst1 * EVar vlmMst2 * (#1 + EVar vlmMst2) + EPow
   P3 (EVar vlmMst2)))) * EPow P4 (EVar vMst1) * EPow P4 (EVar vMst2)) + #2 * EPow P2 (EVar vMst2) * ((#332 + #302 *
   EVar vlmMst2 - #288 * EVar vlmMst1 * (#1 + EVar vlmMst2) + #111 * EPow P2 (EVar vlmMst2)) * EPow P2 (EVar vMst2) -
   #3 * EPow P2 (EVar vMuSUSY) * (#48 + #4 * EVar vlmMst2 * (#31 + #36 * EPow P2 (EVar vlmMst1)) + #278 * EPow P2
   (EVar vlmMst2) - EVar vlmMst1 * (#44 + #278 * EVar vlmMst2 + #379 * EPow P2 (EVar vlmMst2)) + #235 * EPow P3 (EVar
   vlmMst2))) * EPow P6 (EVar vMst1) + #45 * EVar vDmsqst2 * (EPow P4 (EVar vMst1) * ((#1 - #2 * EVar vlmMst1 + #2 *
   EVar vlmMst2) * EPow P2 (EVar vMst2) * EPow P2 (EVar vMuSUSY) - #4 * EPow P4 (EVar vMst2)) + EPow P2 (EVar vMst1) *
   (#2 * EPow P2 (EVar vMst2) + EPow P2 (EVar vMuSUSY)) * EPow P4 (EVar vMst2) + #2 * (EPow P2 (EVar vMst2) + (- EVar
   vlmMst1 + EVar vlmMst2) * EPow P2 (EVar vMuSUSY)) * EPow P6 (EVar vMst1)) + #3 * EPow P2 (EVar vMst1) * (- #2 * (-
   #52 + #2 * (#67 + #16 * EVar vlmMst1) * EVar vlmMst2 + #91 * EPow P2 (EVar vlmMst2)) * EPow P2 (EVar vMst2) - (-
   #20 + #2 * (#99 + #16 * EVar vlmMst1) * EVar vlmMst2 + #123 * EPow P2 (EVar vlmMst2)) * EPow P2 (EVar vMuSUSY)) *
   EPow P6 (EVar vMst2) + #6 * (#32 * (#2 + #7 * EVar vlmMst2 - EVar vlmMst1 * (#5 + #4 * EVar vlmMst2) + #4 * EPow P2
   (EVar vlmMst2)) * EPow P2 (EVar vMst2) - EPow P2 (EVar vMuSUSY) * (#48 + #4 * EVar vlmMst2 * (#45 + #68 * EPow P2
   (EVar vlmMst1)) + #310 * EPow P2 (EVar vlmMst2) - EVar vlmMst1 * (#92 + #310 * EVar vlmMst2 + #635 * EPow P2 (EVar
   vlmMst2)) + #363 * EPow P3 (EVar vlmMst2))) * EPow P8 (EVar vMst1) + #96 * EVar vlmMst2 * (#1 + EVar vlmMst2) * (#2
   * EPow P2 (EVar vMst2) + EPow P2 (EVar vMuSUSY)) * EPow P8 (EVar vMst2)) - #3 * EPow P2 (EVar vMst2) * (#282 * EPow
   P4 (EVar vMst2) * EPow P6 (EVar vMst1) - #564 * EPow P4 (EVar vMst1) * EPow P6 (EVar vMst2) + EPow P4 (EVar vMst1)
   * (#32 * (#1 + EVar vlmMst2) * EPow P2 (EVar vlmMst1) * (EPow P2 (EVar vMuSUSY) * (#9 * EPow P2 (EVar vMst1) * EPow
   P2 (EVar vMst2) + #17 * EPow P4 (EVar vMst1) + EPow P4 (EVar vMst2)) + #2 * EPow P6 (EVar vMst2)) + #2 * EPow P3
   (EVar vlmMst2) * (EPow P2 (EVar vMuSUSY) * (#235 * EPow P2 (EVar vMst1) * EPow P2 (EVar vMst2) + #363 * EPow P4
   (EVar vMst1) + #107 * EPow P4 (EVar vMst2)) + #32 * EPow P6 (EVar vMst2))) - #2 * EVar vlmMst1 * ((#253 + #588 *
   EVar vlmMst2 + #379 * EPow P2 (EVar vlmMst2)) * EPow P2 (EVar vMst2) * EPow P2 (EVar vMuSUSY) * EPow P6 (EVar
   vMst1) - #16 * (#1 + EVar vlmMst2) * EPow P2 (EVar vMst1) * (#2 * EPow P2 (EVar vMst2) + EPow P2 (EVar vMuSUSY)) *
   EPow P6 (EVar vMst2) + EPow P4 (EVar vMst1) * ((#253 + #332 * EVar vlmMst2 + #123 * EPow P2 (EVar vlmMst2)) * EPow
   P2 (EVar vMuSUSY) * EPow P4 (EVar vMst2) + #32 * (#3 + #5 * EVar vlmMst2 + #2 * EPow P2 (EVar vlmMst2)) * EPow P6
   (EVar vMst2)) + (#32 * (#1 + EVar vlmMst2) * EPow P2 (EVar vMst2) + (#237 + #828 * EVar vlmMst2 + #635 * EPow P2
   (EVar vlmMst2)) * EPow P2 (EVar vMuSUSY)) * EPow P8 (EVar vMst1)) + EPow P2 (EVar vMuSUSY) * (#189 * EPow P4 (EVar
   vMst1) * EPow P4 (EVar vMst2) + #64 * EPow P2 (EVar vMst2) * EPow P6 (EVar vMst1) + #205 * EPow P2 (EVar vMst1) *
   EPow P6 (EVar vMst2) + #80 * EPow P8 (EVar vMst1) - #16 * EPow P8 (EVar vMst2)) + #378 * EPow P2 (EVar vMst1) *
   EPow P8 (EVar vMst2) + #2 * EVar vlmMst2 * ((#285 * EPow P2 (EVar vMst2) * EPow P2 (EVar vMuSUSY) + #172 * EPow P4
   (EVar vMst2)) * EPow P6 (EVar vMst1) - #33 * EPow P4 (EVar vMst1) * (- #11 * EPow P2 (EVar vMuSUSY) * EPow P4 (EVar
   vMst2) + #8 * EPow P6 (EVar vMst2)) + (#32 * EPow P2 (EVar vMst2) + #277 * EPow P2 (EVar vMuSUSY)) * EPow P8 (EVar
   vMst1) - #16 * (#2 * EPow P2 (EVar vMst2) + EPow P2 (EVar vMuSUSY)) * EPow P8 (EVar vMst2) + #2 * EPow P2 (EVar
   vMst1) * (#63 * EPow P2 (EVar vMuSUSY) * EPow P6 (EVar vMst2) + #110 * EPow P8 (EVar vMst2))) - EPow P2 (EVar
   vlmMst2) * (- #6 * (#148 * EPow P2 (EVar vMst2) * EPow P2 (EVar vMuSUSY) + #25 * EPow P4 (EVar vMst2)) * EPow P6
   (EVar vMst1) + EPow P4 (EVar vMst1) * (- #707 * EPow P2 (EVar vMuSUSY) * EPow P4 (EVar vMst2) + #76 * EPow P6 (EVar
   vMst2)) - #8 * (#8 * EPow P2 (EVar vMst2) + #139 * EPow P2 (EVar vMuSUSY)) * EPow P8 (EVar vMst1) + #16 * (#2 *
   EPow P2 (EVar vMst2) + EPow P2 (EVar vMuSUSY)) * EPow P8 (EVar vMst2) - EPow P2 (EVar vMst1) * (#91 * EPow P2 (EVar
   vMuSUSY) * EPow P6 (EVar vMst2) + #150 * EPow P8 (EVar vMst2))) - #32 * EPow P10 (EVar vMst2)))) + #36 * EVar vs2t
   * EPow P2 (EVar vMt) * EPow P2 (EVar vMuSUSY) * (- ((#75 * EVar vDmsqst2 * (#1 - #2 * EVar vlmMst1 + #2 * EVar
   vlmMst2) * EVar vs2t + #128 * (#1 + EVar vlmMst2) * EVar vMst2 * EVar vMt * (#1 + #5 * EVar vlmMst2 - EVar vlmMst1
   * (#3 + #2 * EVar vlmMst2) + #2 * EPow P2 (EVar vlmMst2)) + EVar vs2t * EPow P2 (EVar vMst2) * (#189 + #726 * EVar
   vlmMst2 + #32 * (#1 + EVar vlmMst2) * EPow P2 (EVar vlmMst1) + #707 * EPow P2 (EVar vlmMst2) - #2 * EVar vlmMst1 *
   (#253 + #332 * EVar vlmMst2 + #123 * EPow P2 (EVar vlmMst2)) + #214 * EPow P3 (EVar vlmMst2))) * EPow P4 (EVar
   vMst1) * EPow P4 (EVar vMst2)) - EPow P2 (EVar vMst1) * (#75 * EVar vDmsqst2 * EVar vs2t + #128 * EVar vMst2 * EVar
   vMt * EPow P2 (#1 + EVar vlmMst2) + EVar vs2t * (#205 + #252 * EVar vlmMst2 + #32 * EVar vlmMst1 * (#1 + EVar
   vlmMst2) + #91 * EPow P2 (EVar vlmMst2)) * EPow P2 (EVar vMst2)) * EPow P6 (EVar vMst2) + #2 * (EPow P2 (EVar
   vMst2) * (#75 * EVar vDmsqst2 * (EVar vlmMst1 - EVar vlmMst2) * EVar vs2t + #64 * (#1 + EVar vlmMst2) * EVar vMst2
   * EVar vMt * (#1 - #10 * EVar vlmMst2 + #4 * EVar vlmMst1 * (#2 + EVar vlmMst2) - #4 * EPow P2 (EVar vlmMst2)) -
   EVar vs2t * EPow P2 (EVar vMst2) * (#32 + #285 * EVar vlmMst2 + #144 * (#1 + EVar vlmMst2) * EPow P2 (EVar vlmMst1)
   + #444 * EPow P2 (EVar vlmMst2) - EVar vlmMst1 * (#253 + #588 * EVar vlmMst2 + #379 * EPow P2 (EVar vlmMst2)) +
   #235 * EPow P3 (EVar vlmMst2))) * EPow P6 (EVar vMst1) + (#75 * EVar vDmsqst2 * (EVar vlmMst1 - EVar vlmMst2) *
   EVar vs2t + #32 * (#1 + EVar vlmMst2) * EVar vMst2 * EVar vMt * (#7 - #32 * EVar vlmMst2 + #4 * EVar vlmMst1 * (#7
   + #3 * EVar vlmMst2) - #12 * EPow P2 (EVar vlmMst2)) - EVar vs2t * EPow P2 (EVar vMst2) * (#40 + #277 * EVar
   vlmMst2 + #272 * (#1 + EVar vlmMst2) * EPow P2 (EVar vlmMst1) + #556 * EPow P2 (EVar vlmMst2) - EVar vlmMst1 *
   (#237 + #828 * EVar vlmMst2 + #635 * EPow P2 (EVar vlmMst2)) + #363 * EPow P3 (EVar vlmMst2))) * EPow P8 (EVar
   vMst1) + EVar vDmglst2 * ((#15 * EVar vDmsqst2 * (#1 - #2 * EVar vlmMst1 + #2 * EVar vlmMst2) * EVar vs2t + #64 *
   EVar vMst2 * EVar vMt * (#8 + #7 * EVar vlmMst2 - #11 * EPow P2 (EVar vlmMst2) + EVar vlmMst1 * (- #3 + #5 * EVar
   vlmMst2 + #6 * EPow P2 (EVar vlmMst2)) - #6 * EPow P3 (EVar vlmMst2)) - EVar vs2t * EPow P2 (EVar vMst2) * (#60 +
   #206 * EVar vlmMst2 + #32 * EVar vlmMst2 * EPow P2 (EVar vlmMst1) + EVar vlmMst1 * (#8 - #460 * EVar vlmMst2 - #246
   * EPow P2 (EVar vlmMst2)) + #519 * EPow P2 (EVar vlmMst2) + #214 * EPow P3 (EVar vlmMst2))) * EPow P3 (EVar vMst2)
   * EPow P4 (EVar vMst1) + #2 * EVar vMst2 * (#15 * EVar vDmsqst2 * (- EVar vlmMst1 + EVar vlmMst2) * EVar vs2t + #64
   * EVar vMst2 * EVar vMt * (#8 + #13 * EVar vlmMst2 - #8 * EPow P2 (EVar vlmMst2) + EVar vlmMst1 * (- #5 + #5 * EVar
   vlmMst2 + #6 * EPow P2 (EVar vlmMst2)) - #6 * EPow P3 (EVar vlmMst2)) - EVar vs2t * EPow P2 (EVar vMst2) * (#48 +
   #124 * EVar vlmMst2 + #144 * EVar vlmMst2 * EPow P2 (EVar vlmMst1) + #278 * EPow P2 (EVar vlmMst2) - EVar vlmMst1 *
   (#44 + #278 * EVar vlmMst2 + #379 * EPow P2 (EVar vlmMst2)) + #235 * EPow P3 (EVar vlmMst2))) * EPow P6 (EVar
   vMst1) + #2 * (#16 * EVar vMt * (#49 + #103 * EVar vlmMst2 - #36 * (#1 + EVar vlmMst2) * EPow P2 (EVar vlmMst2) +
   #4 * EVar vlmMst1 * (- #11 + #6 * EVar vlmMst2 + #9 * EPow P2 (EVar vlmMst2))) - EVar vMst2 * EVar vs2t * (#48 + #4
   * EVar vlmMst2 * (#45 + #68 * EPow P2 (EVar vlmMst1)) + #310 * EPow P2 (EVar vlmMst2) - EVar vlmMst1 * (#92 + #310
   * EVar vlmMst2 + #635 * EPow P2 (EVar vlmMst2)) + #363 * EPow P3 (EVar vlmMst2))) * EPow P8 (EVar vMst1) + EVar
   vs2t * (EPow P2 (EVar vMst1) * (#15 * EVar vDmsqst2 - (- #20 + #2 * (#99 + #16 * EVar vlmMst1) * EVar vlmMst2 +
   #123 * EPow P2 (EVar vlmMst2)) * EPow P2 (EVar vMst2)) * EPow P5 (EVar vMst2) + #32 * EVar vlmMst2 * (#1 + EVar
   vlmMst2) * EPow P9 (EVar vMst2)))) + #16 * EVar vs2t * EPow P2 (#1 + EVar vlmMst2) * EPow P10 (EVar vMst2)))))) /
   (#11664 * EVar vTbeta * EPow P2 (EVar vSbeta) * EPow P4 (EVar vMst1) * EPow P6 (EVar vMst2)) + EVar vthreeLoopFlag
   * (EPow P4 (EVar vs2t) * (EVar vDmsqst2 * (EDec 32221604938271606 16 + EVar vlmMst1 * (EDec 5188888888888889 15 -
   #7 * EVar vlmMst2) - #317 * EVar vlmMst2 / #90 + #11 * EPow P2 (EVar vlmMst1) / #6 + #31 * EPow P2 (EVar vlmMst2) /
   #6) * EPow P2 (EVar vMst1) - EPow P2 (EVar vMst2) * (#5 * EVar vDmsqst2 * (#1213 + #48 * EVar vlmMst1 * (#7 - #3 *
   EVar vlmMst2) - #408 * EVar vlmMst2 + #144 * EPow P2 (EVar vlmMst2)) / #216 + EPow P2 (EVar vMst1) * (EDec
   7901365226337448 14 - EConst CB4 / #9 + #2 * EConst CD3 / #9 - EConst CDN / #6 + #4372 * EVar vlmMst1 / #405 + EVar
   vlmMst2 * (#16051 + #22980 * EVar vlmMst1 - #5175 * EPow P2 (EVar vlmMst1)) / #810 - #1631 * EPow P2 (EVar vlmMst1)
   / #108 + (- #92 + #327 * EVar vlmMst1) * EPow P2 (EVar vlmMst2) / #27 - #79 * EPow P3 (EVar vlmMst1) / #54 - #115 *
   EPow P3 (EVar vlmMst2) / #27)) + EVar vDmglst2 * (EDec 24239197530864196 15 - #2 * EConst CB4 / #3 + #8 * EConst
   CD3 / #9 - #5 * EConst CDN / #9 + #22 * EVar vlmMst1 / #3 - #13 * EPow P2 (EVar vlmMst1) / #6 + EVar vlmMst2 * (-
   #277 - #264 * EVar vlmMst1 + #16 * EPow P2 (EVar vlmMst1)) / #9 + (#142 - #123 * EVar vlmMst1) * EPow P2 (EVar
   vlmMst2) / #9 + #10 * EVar vDmsqst2 / EPow P2 (EVar vMst1) + #107 * EPow P3 (EVar vlmMst2) / #9) * EPow P3 (EVar
   vMst2) + (EDec 46745471895783595 15 + EConst CB4 + EConst CD3 / #9 - EConst CDN / #9 + #34838747 * EVar vlmMst1 /
   #529200 + #50723 * EPow P2 (EVar vlmMst1) / #1890 + EVar vlmMst2 * (- #23468297 - #17276980 * EVar vlmMst1 +
   #3601500 * EPow P2 (EVar vlmMst1)) / #529200 + #4 * (#2941 - #2415 * EVar vlmMst1) * EPow P2 (EVar vlmMst2) / #945
   + EVar vDmsqst2 * (EDec 1513649301931237 14 + EVar vlmMst1 * (EDec 1399649785840262 14 - #106 * EVar vlmMst2 / #21)
   - #621671 * EVar vlmMst2 / #39690 + #53 * EPow P2 (EVar vlmMst1) / #21 + #53 * EPow P2 (EVar vlmMst2) / #21) / EPow
   P2 (EVar vMst2) - #10 * EPow P3 (EVar vlmMst1) / #27 + #409 * EPow P3 (EVar vlmMst2) / #108 + #5 * EVar vDmglst2 *
   EVar vDmsqst2 * (#76 - #249 * EVar vlmMst1 + #249 * EVar vlmMst2) / (#54 * EPow P3 (EVar vMst2))) * EPow P4 (EVar
   vMst1) + EVar vDmglst2 * (#5 * EVar vDmsqst2 * (- #75 + #26 * EVar vlmMst1 - #26 * EVar vlmMst2) * EPow P2 (EVar
   vMst1) / #6 + EPow P2 (EVar vMst2) * (#20 * EVar vDmsqst2 * (#1 + EVar vlmMst1 - EVar vlmMst2) / #3 - EPow P2 (EVar
   vMst1) * (EDec 7822304526748971 16 - #2 * EConst CB4 / #3 + #8 * EConst CD3 / #9 - #5 * EConst CDN / #9 + #81193 *
   EVar vlmMst1 / #4050 + #137 * EPow P2 (EVar vlmMst1) / #135 - EVar vlmMst2 * (#81643 + #86970 * EVar vlmMst1 +
   #48150 * EPow P2 (EVar vlmMst1)) / #4050 + (#4969 + #3840 * EVar vlmMst1) * EPow P2 (EVar vlmMst2) / #270 - #5 *
   EPow P3 (EVar vlmMst1) / #27 - #58 * EPow P3 (EVar vlmMst2) / #27)) + (EDec 7958863384550371 14 + #8287903 * EVar
   vlmMst2 / #1190700 + (EDec 4326984126984127 15 + #11 * EVar vlmMst2 / #3) * EPow P2 (EVar vlmMst1) + EVar vlmMst1 *
   (EDec 12061367262954565 16 - #101 * EVar vlmMst2 / #315 - #11 * EPow P2 (EVar vlmMst2) / #3) - #51 * EPow P2 (EVar
   vlmMst2) / #70 - #11 * EPow P3 (EVar vlmMst1) / #9 + #11 * EPow P3 (EVar vlmMst2) / #9) * EPow P4 (EVar vMst1)) /
   EVar vMst2 - (#25289 + #1440 * EConst CB4 - #144 * EConst CD3 + #72 * EConst CDN + #22368 * EVar vlmMst1 + #1908 *
   EPow P2 (EVar vlmMst1) - #12 * EVar vlmMst2 * (#2296 - #2136 * EVar vlmMst1 + #117 * EPow P2 (EVar vlmMst1)) + #504
   * (- #53 + #21 * EVar vlmMst1) * EPow P2 (EVar vlmMst2) + #1080 * EVar vDmsqst2 * (- #1 + #2 * EVar vlmMst2) / EPow
   P2 (EVar vMst1) + #576 * EPow P3 (EVar vlmMst1) - #9756 * EPow P3 (EVar vlmMst2)) * EPow P4 (EVar vMst2) / #1296 +
   (EVar vMst2 * (#135 + #250 * EVar vlmMst2 + #32 * EVar vlmMst1 * (#1 + EVar vlmMst2) + #123 * EPow P2 (EVar
   vlmMst2)) + EVar vDmglst2 * (- #40 + (#524 + #64 * EVar vlmMst1) * EVar vlmMst2 + #374 * EPow P2 (EVar vlmMst2))) *
   EPow P5 (EVar vMst2) / (#36 * EPow P2 (EVar vMst1)) + (#30 * EVar vDmsqst2 * (#9 * (#56 * EConst COepS2 - #27 *
   (#253 + #42 * EVar vlmMst1 - #42 * EVar vlmMst2) * EConst CS2) * EPow P2 (EVar vMst1) * EPow P2 (EVar vMst2) + #2 *
   (#56 * EConst COepS2 - #27 * (#163 + #42 * EVar vlmMst1 - #42 * EVar vlmMst2) * EConst CS2) * EPow P4 (EVar vMst1)
   + #27 * (#8 * EConst COepS2 - #81 * (- #15 + #2 * EVar vlmMst1 - #2 * EVar vlmMst2) * EConst CS2) * EPow P4 (EVar
   vMst2)) + EVar vMst2 * (#9 * (#5144 * EConst COepS2 - #81 * (#5717 + #1286 * EVar vlmMst1 - #1286 * EVar vlmMst2) *
   EConst CS2) * EPow P2 (EVar vMst1) * EPow P3 (EVar vMst2) + #15 * EVar vMst2 * (#1436 * EConst COepS2 - #27 *
   (#3370 + #1077 * EVar vlmMst1 - #1077 * EVar vlmMst2) * EConst CS2) * EPow P4 (EVar vMst1) - #2 * EVar vDmglst2 *
   (#972 * (#16 * EConst COepS2 + (#275 - #324 * EVar vlmMst1 + #324 * EVar vlmMst2) * EConst CS2) * EPow P2 (EVar
   vMst1) * EPow P2 (EVar vMst2) + (#33592 * EConst COepS2 - #27 * (#51635 + #25194 * EVar vlmMst1 - #25194 * EVar
   vlmMst2) * EConst CS2) * EPow P4 (EVar vMst1) + #27 * (#56 * EConst COepS2 - #81 * (- #1677 + #14 * EVar vlmMst1 -
   #14 * EVar vlmMst2) * EConst CS2) * EPow P4 (EVar vMst2)) + #81 * (#184 * EConst COepS2 - #81 * (#307 + #46 * EVar
   vlmMst1 - #46 * EVar vlmMst2) * EConst CS2) * EPow P5 (EVar vMst2))) / (#8748 * EPow P2 (EVar vMst2))) - EPow P2
   (EVar vMt) * EPow P2 (EVar vs2t) * (- #5 * EVar vDmglst2 * EVar vDmsqst2 * (- #1081 + #165 * EVar vlmMst1 - #165 *
   EVar vlmMst2) * (- #2 + EPow P2 (EVar vSbeta)) * EPow P2 (EVar vSbeta) * EPow P4 (EVar vMst1) / (#9 * EPow P5 (EVar
   vMst2)) + EPow P2 (EVar vMuSUSY) * (EDec 53385802469135804 15 + #40 * EConst CB4 / #9 - #4 * EConst CD3 / #9 + #2 *
   EConst CDN / #9 + #1672 * EVar vlmMst1 / #27 + #53 * EPow P2 (EVar vlmMst1) / #9 - EVar vlmMst2 * (EDec
   12992592592592592 14 - #72 * EVar vlmMst1 + #13 * EPow P2 (EVar vlmMst1) / #3) + #2 * (- #470 + #147 * EVar
   vlmMst1) * EPow P2 (EVar vlmMst2) / #9 - #2 * EVar vDmglst2 * EVar vMst2 * (- #20 + #2 * (#99 + #16 * EVar vlmMst1)
   * EVar vlmMst2 + #123 * EPow P2 (EVar vlmMst2)) / (#9 * EPow P2 (EVar vMst1)) - (#103 + #186 * EVar vlmMst2 + #32 *
   EVar vlmMst1 * (#1 + EVar vlmMst2) + #91 * EPow P2 (EVar vlmMst2)) * EPow P2 (EVar vMst2) / (#9 * EPow P2 (EVar
   vMst1)) + #16 * EPow P3 (EVar vlmMst1) / #9 + (#2250 * EVar vDmsqst2 * (#1141 + #48 * EVar vlmMst1 * (#7 - #3 *
   EVar vlmMst2) - #264 * EVar vlmMst2 + #144 * EPow P2 (EVar vlmMst2)) + EPow P2 (EVar vMst1) * (#10552777 + #205200
   * EConst CB4 - #5400 * EConst CDN + #4145280 * EVar vlmMst1 - #1181700 * EPow P2 (EVar vlmMst1) - #240 * EVar
   vlmMst2 * (#16192 - #26430 * EVar vlmMst1 + #3465 * EPow P2 (EVar vlmMst1)) + #900 * (- #5735 + #3072 * EVar
   vlmMst1) * EPow P2 (EVar vlmMst2) - #55800 * EPow P3 (EVar vlmMst1) - #1877400 * EPow P3 (EVar vlmMst2))) / (#24300
   * EPow P2 (EVar vMst2)) - #271 * EPow P3 (EVar vlmMst2) / #9 - EVar vDmglst2 * (#14267 - #432 * EConst CB4 + #576 *
   EConst CD3 - #360 * EConst CDN + #4752 * EVar vlmMst1 - #1404 * EPow P2 (EVar vlmMst1) + #72 * EVar vlmMst2 * (-
   #63 - #232 * EVar vlmMst1 + #16 * EPow P2 (EVar vlmMst1)) + #72 * (#281 - #123 * EVar vlmMst1) * EPow P2 (EVar
   vlmMst2) + #6480 * EVar vDmsqst2 / EPow P2 (EVar vMst1) + #7704 * EPow P3 (EVar vlmMst2)) / (#162 * EVar vMst2) -
   #2 * EVar vDmglst2 * (#405000 * EVar vDmsqst2 * (#4 + EVar vlmMst1 - EVar vlmMst2) + EPow P2 (EVar vMst1) *
   (#2695042 - #40500 * EConst CB4 + #54000 * EConst CD3 - #33750 * EConst CDN - #326895 * EVar vlmMst1 - #324900 *
   EPow P2 (EVar vlmMst1) + #15 * EVar vlmMst2 * (- #19607 - #129030 * EVar vlmMst1 + #62550 * EPow P2 (EVar vlmMst1))
   - #450 * (- #5023 + #5610 * EVar vlmMst1) * EPow P2 (EVar vlmMst2) + #11250 * EPow P3 (EVar vlmMst1) + #1575000 *
   EPow P3 (EVar vlmMst2))) / (#30375 * EPow P3 (EVar vMst2)) + #16 * (#1 + EVar vlmMst2) * (#4 * EVar vDmglst2 * EVar
   vlmMst2 + EVar vMst2 + EVar vlmMst2 * EVar vMst2) * EPow P3 (EVar vMst2) / (#9 * EPow P4 (EVar vMst1)) + (EVar
   vDmsqst2 * (EDec 20174098765432097 14 - #622 * EVar vlmMst2 / #15 + #2 * EVar vlmMst1 * (#311 + #10 * EVar vlmMst2)
   / #15 - #22 * EPow P2 (EVar vlmMst1) / #3 + #6 * EPow P2 (EVar vlmMst2)) * EPow P2 (EVar vMst1) + (EDec
   6281736268201578 13 + #76 * EConst CB4 / #9 - #2 * EConst CDN / #9 + #6317839 * EVar vlmMst1 / #396900 - #66307 *
   EPow P2 (EVar vlmMst1) / #315 - EVar vlmMst2 * (EDec 1252907281431091 14 - #182909 * EVar vlmMst1 / #315 + #274 *
   EPow P2 (EVar vlmMst1) / #3) + #2 * (- #58301 + #37135 * EVar vlmMst1) * EPow P2 (EVar vlmMst2) / #315 - #44 * EPow
   P3 (EVar vlmMst1) / #9 - #1256 * EPow P3 (EVar vlmMst2) / #9) * EPow P4 (EVar vMst1)) / EPow P4 (EVar vMst2) - EVar
   vDmglst2 * (EDec 5851892843532082 13 - #8 * EConst CB4 / #3 + #32 * EConst CD3 / #9 - #20 * EConst CDN / #9 -
   #20109937 * EVar vlmMst1 / #297675 - #15886 * EPow P2 (EVar vlmMst1) / #945 + EVar vlmMst2 * (EDec
   17112243218274966 15 - #144628 * EVar vlmMst1 / #945 + #1180 * EPow P2 (EVar vlmMst1) / #9) + #2 * (#80257 -
   #138180 * EVar vlmMst1) * EPow P2 (EVar vlmMst2) / #945 - #92 * EPow P3 (EVar vlmMst1) / #27 + #4448 * EPow P3
   (EVar vlmMst2) / #27) * EPow P4 (EVar vMst1) / EPow P5 (EVar vMst2) - EVar vDmsqst2 * (#10 - #20 * EVar vlmMst2 +
   #10 * EVar vDmglst2 * (- #23 + #42 * EVar vlmMst1 - #42 * EVar vlmMst2) * EPow P4 (EVar vMst1) / EPow P5 (EVar
   vMst2) - #3 * (EDec 23728785508324435 14 + #16526 * EVar vlmMst2 / #3969 + #2 * EVar vlmMst1 * (- #8263 + #71820 *
   EVar vlmMst2) / #3969 - #520 * EPow P2 (EVar vlmMst1) / #21 - #80 * EPow P2 (EVar vlmMst2) / #7) * EPow P6 (EVar
   vMst1) / EPow P6 (EVar vMst2)) / (#3 * EPow P2 (EVar vMst1)) + (- #30 * EVar vDmsqst2 * (#9 * (#104 * EConst COepS2
   + #27 * (#17 - #78 * EVar vlmMst1 + #78 * EVar vlmMst2) * EConst CS2) * EPow P2 (EVar vMst1) * EPow P2 (EVar vMst2)
   + #13 * (#136 * EConst COepS2 - #27 * (#95 + #102 * EVar vlmMst1 - #102 * EVar vlmMst2) * EConst CS2) * EPow P4
   (EVar vMst1) + #27 * (#8 * EConst COepS2 - #81 * (- #15 + #2 * EVar vlmMst1 - #2 * EVar vlmMst2) * EConst CS2) *
   EPow P4 (EVar vMst2)) + EVar vMst2 * (- #9 * (#8456 * EConst COepS2 - #81 * (#11243 + #2114 * EVar vlmMst1 - #2114
   * EVar vlmMst2) * EConst CS2) * EPow P2 (EVar vMst1) * EPow P3 (EVar vMst2) + #3 * EVar vMst2 * (- #52948 * EConst
   COepS2 + #27 * (#194357 + #39711 * EVar vlmMst1 - #39711 * EVar vlmMst2) * EConst CS2) * EPow P4 (EVar vMst1) + #2
   * EVar vDmglst2 * (#54 * (#344 * EConst COepS2 + #9 * (#15643 - #774 * EVar vlmMst1 + #774 * EVar vlmMst2) * EConst
   CS2) * EPow P2 (EVar vMst1) * EPow P2 (EVar vMst2) + #4 * (#17308 * EConst COepS2 + #27 * (#93919 - #12981 * EVar
   vlmMst1 + #12981 * EVar vlmMst2) * EConst CS2) * EPow P4 (EVar vMst1) + #27 * (#56 * EConst COepS2 - #81 * (- #1677
   + #14 * EVar vlmMst1 - #14 * EVar vlmMst2) * EConst CS2) * EPow P4 (EVar vMst2)) + #81 * (- #184 * EConst COepS2 +
   #81 * (#307 + #46 * EVar vlmMst1 - #46 * EVar vlmMst2) * EConst CS2) * EPow P5 (EVar vMst2))) / (#2187 * EPow P6
   (EVar vMst2))) / EPow P2 (EVar vSbeta)) - EPow P2 (EVar vMuSUSY) * EPow P3 (EVar vMt) * (- #27 * EPow P2 (EVar
   vMst1) * EPow P2 (EVar vMst2) * (#15 * EVar vMst2 * (#32 * EVar vMst2 * EVar vMt * (#436 - #6 * EConst CB4 + #6 *
   EConst CD3 - #3 * EConst CDN - #48 * EVar vlmMst1 + (#408 - #96 * EVar vlmMst1) * EVar vlmMst2 + #24 * EVar vlmMt -
   #972 * EConst CS2 - #48 * (- #4 + EVar vlmMst1) * EPow P2 (EVar vlmMst2) + #48 * EPow P3 (EVar vlmMst2)) + EVar
   vs2t * (#5760 * EVar vDmsqst2 * (#1 + EVar vlmMst1 - EVar vlmMst2) + EPow P2 (EVar vMst2) * (#28683 + #5280 *
   EConst CB4 - #48 * EConst CDN - #5952 * EVar vlmMst1 - #224 * EConst COepS2 + #324 * (- #1 + #14 * EVar vlmMst1 -
   #14 * EVar vlmMst2) * EConst CS2 - #768 * EPow P2 (EVar vlmMst1) - #192 * EVar vlmMst2 * (- #214 + #73 * EVar
   vlmMst1 + #4 * EPow P2 (EVar vlmMst1)) - #96 * (- #268 + #57 * EVar vlmMst1) * EPow P2 (EVar vlmMst2) + #6240 *
   EPow P3 (EVar vlmMst2)))) + EVar vDmglst2 * (#2880 * EVar vMst2 * EVar vMt * (#180 - #2 * EConst CB4 + #2 * EConst
   CD3 - EConst CDN + #16 * EVar vlmMst1 + #144 * EVar vlmMst2 - #216 * EConst CS2 - #16 * (- #2 + EVar vlmMst1) *
   EPow P2 (EVar vlmMst2) + #16 * EPow P3 (EVar vlmMst2)) + EVar vs2t * (- #86400 * EVar vDmsqst2 * (#2 + #5 * EVar
   vlmMst1 - #5 * EVar vlmMst2) + EPow P2 (EVar vMst2) * (#23917 + #188640 * EConst CB4 - #3600 * EConst CDN - #37440
   * EVar vlmMst1 + #5600 * EConst COepS2 - #324 * (- #453 + #350 * EVar vlmMst1 - #350 * EVar vlmMst2) * EConst CS2 +
   #11520 * EPow P2 (EVar vlmMst1) - #2880 * EVar vlmMst2 * (- #237 + #55 * EVar vlmMst1 + #4 * EPow P2 (EVar
   vlmMst1)) - #1440 * (- #280 + #121 * EVar vlmMst1) * EPow P2 (EVar vlmMst2) + #185760 * EPow P3 (EVar vlmMst2)))))
   - #36 * (#5 * EVar vMst2 * (#9 * EVar vMst2 * EVar vMt * (#10667 - #96 * EConst CB4 + #96 * EConst CD3 - #48 *
   EConst CDN - #3072 * EVar vlmMst1 - #384 * (- #25 + #9 * EVar vlmMst1) * EVar vlmMst2 - #384 * (- #1 + EVar vlmMst1
   - EVar vlmMst2) * EVar vlmMt - #224 * EConst COepS2 + #324 * (- #43 + #14 * EVar vlmMst1 - #14 * EVar vlmMst2) *
   EConst CS2 - #384 * (- #13 + #4 * EVar vlmMst1) * EPow P2 (EVar vlmMst2) + #1536 * EPow P3 (EVar vlmMst2)) + EVar
   vs2t * (#12960 * EVar vDmsqst2 * (#1 + #3 * EVar vlmMst1 - #3 * EVar vlmMst2) + #2 * EPow P2 (EVar vMst2) * (#75569
   + #13716 * EConst CB4 - #54 * EConst CDN - #33426 * EVar vlmMst1 - #1088 * EConst COepS2 + #162 * (#169 + #136 *
   EVar vlmMst1 - #136 * EVar vlmMst2) * EConst CS2 - #2376 * EPow P2 (EVar vlmMst1) + #54 * EVar vlmMst2 * (#1427 -
   #1012 * EVar vlmMst1 + #16 * EPow P2 (EVar vlmMst1)) - #108 * (- #642 + #203 * EVar vlmMst1) * EPow P2 (EVar
   vlmMst2) + #21060 * EPow P3 (EVar vlmMst2)))) + EVar vDmglst2 * (#30 * EVar vMst2 * EVar vMt * (#28405 - #288 *
   EConst CB4 + #288 * EConst CD3 - #144 * EConst CDN + #5472 * EVar vlmMst1 - #288 * (- #89 + #2 * EVar vlmMst1) *
   EVar vlmMst2 + #576 * (- #2 + EVar vlmMst1 - EVar vlmMst2) * EVar vlmMt + #224 * EConst COepS2 - #324 * (#65 + #14
   * EVar vlmMst1 - #14 * EVar vlmMst2) * EConst CS2 - #576 * (- #9 + #8 * EVar vlmMst1) * EPow P2 (EVar vlmMst2) +
   #4608 * EPow P3 (EVar vlmMst2)) + EVar vs2t * (#64800 * EVar vDmsqst2 * (#8 - #15 * EVar vlmMst1 + #15 * EVar
   vlmMst2) + EPow P2 (EVar vMst2) * (#66761 + #301320 * EConst CB4 - #4860 * EConst CDN - #205380 * EVar vlmMst1 +
   #40480 * EConst COepS2 - #216 * (#2489 + #3795 * EVar vlmMst1 - #3795 * EVar vlmMst2) * EConst CS2 + #23760 * EPow
   P2 (EVar vlmMst1) + #180 * EVar vlmMst2 * (#4993 - #1956 * EVar vlmMst1 + #48 * EPow P2 (EVar vlmMst1)) - #1080 *
   (- #482 + #331 * EVar vlmMst1) * EPow P2 (EVar vlmMst2) + #348840 * EPow P3 (EVar vlmMst2))))) * EPow P4 (EVar
   vMst1) - #10 * (#9 * EVar vMt * (#383185 - #2592 * EConst CB4 + #2592 * EConst CD3 - #1296 * EConst CDN - #187704 *
   EVar vlmMst1 - #17440 * EConst COepS2 + #648 * (- #57 + #545 * EVar vlmMst1 - #545 * EVar vlmMst2) * EConst CS2 -
   #7992 * EPow P2 (EVar vlmMst1) - #216 * EVar vlmMst2 * (- #1733 + #630 * EVar vlmMst1 + #26 * EPow P2 (EVar
   vlmMst1)) - #216 * (- #859 + #246 * EVar vlmMst1) * EPow P2 (EVar vlmMst2) + #3456 * EVar vlmMt * (#3 + #6 * EVar
   vlmMst2 - #2 * EVar vlmMst1 * (#3 + EVar vlmMst2) + EPow P2 (EVar vlmMst1) + EPow P2 (EVar vlmMst2)) + #720 * EPow
   P3 (EVar vlmMst1) + #58032 * EPow P3 (EVar vlmMst2)) + EVar vs2t * (- (EVar vDmglst2 * (#2773621 - #1660176 *
   EConst CB4 + #25272 * EConst CDN + #2004408 * EVar vlmMst1 - #525472 * EConst COepS2 + #108 * (#123113 + #98526 *
   EVar vlmMst1 - #98526 * EVar vlmMst2) * EConst CS2 + #3888 * EPow P2 (EVar vlmMst1) - #144 * EVar vlmMst2 * (#36802
   - #11421 * EVar vlmMst1 + #1728 * EPow P2 (EVar vlmMst1)) + #167184 * (- #14 + #15 * EVar vlmMst1) * EPow P2 (EVar
   vlmMst2) - #31104 * EPow P3 (EVar vlmMst1) - #2227824 * EPow P3 (EVar vlmMst2))) + #3 * EVar vMst2 * (#1702429 +
   #257904 * EConst CB4 - #648 * EConst CDN - #748656 * EVar vlmMst1 - #30112 * EConst COepS2 + #108 * (#9185 + #5646
   * EVar vlmMst1 - #5646 * EVar vlmMst2) * EConst CS2 + #41904 * EPow P2 (EVar vlmMst1) + #216 * EVar vlmMst2 *
   (#5971 - #6106 * EVar vlmMst1 + #576 * EPow P2 (EVar vlmMst1)) - #41904 * (- #34 + #15 * EVar vlmMst1) * EPow P2
   (EVar vlmMst2) - #3456 * EPow P3 (EVar vlmMst1) + #507600 * EPow P3 (EVar vlmMst2)))) * EPow P6 (EVar vMst1) -
   #622080 * (#1 + EVar vlmMst2) * (- EVar vDmglst2 + #3 * EVar vDmglst2 * EVar vlmMst2 + EVar vMst2 + EVar vlmMst2 *
   EVar vMst2) * EVar vs2t * EPow P6 (EVar vMst2)) / (#43740 * EPow P2 (EVar vMst1) * EPow P2 (EVar vSbeta) * EPow P6
   (EVar vMst2)) + EPow P2 (EVar vMt) * EPow P2 (EVar vs2t) * (#5 * EVar vDmsqst2 * (#391 + #32 * EVar vlmMst1 - #128
   * EVar vlmMst2) / #18 + EPow P2 (EVar vMst2) * (EDec 3127354938271605 13 + #8 * EConst CD3 / #9 - #8 * EConst CDN /
   #9 + #806 * EVar vlmMst1 / #27 + #32 * EVar vlmMt / #3 + #2 * EVar vlmMst2 * (#2267 + #90 * EVar vlmMst1 - #117 *
   EPow P2 (EVar vlmMst1)) / #27 + #124 * EPow P2 (EVar vlmMst1) / #9 + #4 * (#133 + #8 * EVar vlmMst1) * EPow P2
   (EVar vlmMst2) / #9 + #20 * EVar vDmsqst2 * (- #1 + #2 * EVar vlmMst2) / (#3 * EPow P2 (EVar vMst1)) + #32 * EPow
   P3 (EVar vlmMst1) / #9 + #14 * EPow P3 (EVar vlmMst2) / #9) + EPow P2 (EVar vMst1) * (EDec 974135390946502 13 - #8
   * EConst CD3 / #9 + #8 * EConst CDN / #9 - #88984 * EVar vlmMst1 / #405 - #64 * (EVar vlmMst1 - EVar vlmMst2) *
   EVar vlmMt / #3 - #1738 * EPow P2 (EVar vlmMst1) / #27 + #2 * EVar vlmMst2 * (#52322 - #4710 * EVar vlmMst1 + #315
   * EPow P2 (EVar vlmMst1)) / #405 + #4 * (#479 - #237 * EVar vlmMst1) * EPow P2 (EVar vlmMst2) / #27 - #260 * EPow
   P3 (EVar vlmMst1) / #27 + #1166 * EPow P3 (EVar vlmMst2) / #27) - EVar vDmglst2 * (EDec 17516754355781114 14 -
   #17578814 * EVar vlmMst1 / #33075 + EVar vlmMst2 * (EDec 2577056386999244 13 + #105592 * EVar vlmMst1 / #315 - #208
   * EPow P2 (EVar vlmMst1) / #9) - #35576 * EPow P2 (EVar vlmMst1) / #315 + #16 * (- #4376 + #2555 * EVar vlmMst1) *
   EPow P2 (EVar vlmMst2) / #315 + #64 * EVar vlmMt * (#2 + #5 * EVar vlmMst2 - EVar vlmMst1 * (#5 + #2 * EVar
   vlmMst2) + EPow P2 (EVar vlmMst1) + EPow P2 (EVar vlmMst2)) / #3 + #16 * EPow P3 (EVar vlmMst1) / #27 - #2896 *
   EPow P3 (EVar vlmMst2) / #27) * EPow P4 (EVar vMst1) / EPow P3 (EVar vMst2) - (EVar vDmsqst2 * (EDec
   17999506172839506 15 + EVar vlmMst1 * (EDec 3262222222222222 14 - #16 * EVar vlmMst2) - #2068 * EVar vlmMst2 / #45
   + #8 * EPow P2 (EVar vlmMst1) + #8 * EPow P2 (EVar vlmMst2)) * EPow P2 (EVar vMst1) - (EDec 19998139767323744 14 -
   #18614063 * EVar vlmMst1 / #66150 + EVar vlmMst2 * (EDec 29339173091458804 14 - #25514 * EVar vlmMst1 / #945 - #286
   * EPow P2 (EVar vlmMst1) / #9) - #48143 * EPow P2 (EVar vlmMst1) / #945 + #32 * EVar vlmMt * (- #2 * EVar vlmMst1 *
   (#1 + EVar vlmMst2) + EVar vlmMst2 * (#2 + EVar vlmMst2) + EPow P2 (EVar vlmMst1)) / #3 + (EDec 7794391534391535 14
   - #2 * EVar vlmMst1 / #9) * EPow P2 (EVar vlmMst2) + #190 * EPow P3 (EVar vlmMst1) / #27 + #674 * EPow P3 (EVar
   vlmMst2) / #27) * EPow P4 (EVar vMst1)) / EPow P2 (EVar vMst2) + (- #2 * (EVar vMst2 * (#87 + #154 * EVar vlmMst2 +
   #32 * EVar vlmMst1 * (#1 + EVar vlmMst2) + #75 * EPow P2 (EVar vlmMst2)) + #2 * EVar vDmglst2 * (- #52 + #2 * (#67
   + #16 * EVar vlmMst1) * EVar vlmMst2 + #91 * EPow P2 (EVar vlmMst2))) * EPow P3 (EVar vMst2) / #9 + #4 * EVar
   vDmglst2 * (- #33750 * EVar vDmsqst2 * (#23 * EPow P2 (EVar vMst1) + #18 * EPow P2 (EVar vMst2)) + #225 * EPow P2
   (EVar vMst1) * EPow P2 (EVar vMst2) * (#11674 - #120 * EConst CB4 + #120 * EConst CD3 - #60 * EConst CDN + #690 *
   EVar vlmMst1 + #345 * EPow P2 (EVar vlmMst1) - #5 * EVar vlmMst2 * (- #3427 - #54 * EVar vlmMst1 + #96 * EPow P2
   (EVar vlmMst1)) + (#4515 - #480 * EVar vlmMst1) * EPow P2 (EVar vlmMst2) + #960 * EPow P3 (EVar vlmMst2)) +
   (#1216808 + #1164855 * EVar vlmMst2 - #162000 * (#2 + EVar vlmMst2) * EVar vlmMt + #225 * (- #341 + #30 * EVar
   vlmMst2) * EPow P2 (EVar vlmMst1) + #30 * EVar vlmMst1 * (#34484 - #16260 * EVar vlmMst2 + #5400 * EVar vlmMt -
   #21825 * EPow P2 (EVar vlmMst2)) + #365400 * EPow P2 (EVar vlmMst2) - #2250 * EPow P3 (EVar vlmMst1) + #650250 *
   EPow P3 (EVar vlmMst2)) * EPow P4 (EVar vMst1)) / (#30375 * EVar vMst2)) / EPow P2 (EVar vMst1) + EVar vDmsqst2 *
   (EVar vMst2 * (#22430251 + #148309560 * EVar vlmMst2 + #1260 * EVar vlmMst1 * (- #117706 + #34965 * EVar vlmMst2) -
   #22027950 * EPow P2 (EVar vlmMst1) - #22027950 * EPow P2 (EVar vlmMst2)) * EPow P4 (EVar vMst1) - #4630500 * EVar
   vDmglst2 * (#3 * (#113 - #6 * EVar vlmMst1 + #6 * EVar vlmMst2) * EPow P2 (EVar vMst1) * EPow P2 (EVar vMst2) +
   (#328 - #96 * EVar vlmMst1 + #96 * EVar vlmMst2) * EPow P4 (EVar vMst1))) / (#6251175 * EPow P5 (EVar vMst2)) + #32
   * (#1 + EVar vlmMst2) * (#4 * EVar vDmglst2 * EVar vlmMst2 + EVar vMst2 + EVar vlmMst2 * EVar vMst2) * EPow P5
   (EVar vMst2) / (#9 * EPow P4 (EVar vMst1)) + EPow P2 (EVar vMuSUSY) * (EDec 53385802469135804 15 + #40 * EConst CB4
   / #9 - #4 * EConst CD3 / #9 + #2 * EConst CDN / #9 + #1672 * EVar vlmMst1 / #27 + #53 * EPow P2 (EVar vlmMst1) / #9
   - EVar vlmMst2 * (EDec 12992592592592592 14 - #72 * EVar vlmMst1 + #13 * EPow P2 (EVar vlmMst1) / #3) + #2 * (-
   #470 + #147 * EVar vlmMst1) * EPow P2 (EVar vlmMst2) / #9 - #2 * EVar vDmglst2 * EVar vMst2 * (- #20 + #2 * (#99 +
   #16 * EVar vlmMst1) * EVar vlmMst2 + #123 * EPow P2 (EVar vlmMst2)) / (#9 * EPow P2 (EVar vMst1)) - (#103 + #186 *
   EVar vlmMst2 + #32 * EVar vlmMst1 * (#1 + EVar vlmMst2) + #91 * EPow P2 (EVar vlmMst2)) * EPow P2 (EVar vMst2) /
   (#9 * EPow P2 (EVar vMst1)) + #16 * EPow P3 (EVar vlmMst1) / #9 + (#2250 * EVar vDmsqst2 * (#1141 + #48 * EVar
   vlmMst1 * (#7 - #3 * EVar vlmMst2) - #264 * EVar vlmMst2 + #144 * EPow P2 (EVar vlmMst2)) + EPow P2 (EVar vMst1) *
   (#10552777 + #205200 * EConst CB4 - #5400 * EConst CDN + #4145280 * EVar vlmMst1 - #1181700 * EPow P2 (EVar
   vlmMst1) - #240 * EVar vlmMst2 * (#16192 - #26430 * EVar vlmMst1 + #3465 * EPow P2 (EVar vlmMst1)) + #900 * (-
   #5735 + #3072 * EVar vlmMst1) * EPow P2 (EVar vlmMst2) - #55800 * EPow P3 (EVar vlmMst1) - #1877400 * EPow P3 (EVar
   vlmMst2))) / (#24300 * EPow P2 (EVar vMst2)) - #271 * EPow P3 (EVar vlmMst2) / #9 - EVar vDmglst2 * (#14267 - #432
   * EConst CB4 + #576 * EConst CD3 - #360 * EConst CDN + #4752 * EVar vlmMst1 - #1404 * EPow P2 (EVar vlmMst1) + #72
   * EVar vlmMst2 * (- #63 - #232 * EVar vlmMst1 + #16 * EPow P2 (EVar vlmMst1)) + #72 * (#281 - #123 * EVar vlmMst1)
   * EPow P2 (EVar vlmMst2) + #6480 * EVar vDmsqst2 / EPow P2 (EVar vMst1) + #7704 * EPow P3 (EVar vlmMst2)) / (#162 *
   EVar vMst2) - #2 * EVar vDmglst2 * (#405000 * EVar vDmsqst2 * (#4 + EVar vlmMst1 - EVar vlmMst2) + EPow P2 (EVar
   vMst1) * (#2695042 - #40500 * EConst CB4 + #54000 * EConst CD3 - #33750 * EConst CDN - #326895 * EVar vlmMst1 -
   #324900 * EPow P2 (EVar vlmMst1) + #15 * EVar vlmMst2 * (- #19607 - #129030 * EVar vlmMst1 + #62550 * EPow P2 (EVar
   vlmMst1)) - #450 * (- #5023 + #5610 * EVar vlmMst1) * EPow P2 (EVar vlmMst2) + #11250 * EPow P3 (EVar vlmMst1) +
   #1575000 * EPow P3 (EVar vlmMst2))) / (#30375 * EPow P3 (EVar vMst2)) + #16 * (#1 + EVar vlmMst2) * (#4 * EVar
   vDmglst2 * EVar vlmMst2 + EVar vMst2 + EVar vlmMst2 * EVar vMst2) * EPow P3 (EVar vMst2) / (#9 * EPow P4 (EVar
   vMst1)) + (EVar vDmsqst2 * (EDec 20174098765432097 14 - #622 * EVar vlmMst2 / #15 + #2 * EVar vlmMst1 * (#311 + #10
   * EVar vlmMst2) / #15 - #22 * EPow P2 (EVar vlmMst1) / #3 + #6 * EPow P2 (EVar vlmMst2)) * EPow P2 (EVar vMst1) +
   (EDec 6281736268201578 13 + #76 * EConst CB4 / #9 - #2 * EConst CDN / #9 + #6317839 * EVar vlmMst1 / #396900 -
   #66307 * EPow P2 (EVar vlmMst1) / #315 - EVar vlmMst2 * (EDec 1252907281431091 14 - #182909 * EVar vlmMst1 / #315 +
   #274 * EPow P2 (EVar vlmMst1) / #3) + #2 * (- #58301 + #37135 * EVar vlmMst1) * EPow P2 (EVar vlmMst2) / #315 - #44
   * EPow P3 (EVar vlmMst1) / #9 - #1256 * EPow P3 (EVar vlmMst2) / #9) * EPow P4 (EVar vMst1)) / EPow P4 (EVar vMst2)
   - EVar vDmglst2 * (EDec 5851892843532082 13 - #8 * EConst CB4 / #3 + #32 * EConst CD3 / #9 - #20 * EConst CDN / #9
   - #20109937 * EVar vlmMst1 / #297675 - #15886 * EPow P2 (EVar vlmMst1) / #945 + EVar vlmMst2 * (EDec
   17112243218274966 15 - #144628 * EVar vlmMst1 / #945 + #1180 * EPow P2 (EVar vlmMst1) / #9) + (EDec
   16985608465608465 14 - #2632 * EVar vlmMst1 / #9) * EPow P2 (EVar vlmMst2) - #92 * EPow P3 (EVar vlmMst1) / #27 +
   #4448 * EPow P3 (EVar vlmMst2) / #27) * EPow P4 (EVar vMst1) / EPow P5 (EVar vMst2) - EVar vDmsqst2 * (#10 - #20 *
   EVar vlmMst2 + #10 * EVar vDmglst2 * (- #23 + #42 * EVar vlmMst1 - #42 * EVar vlmMst2) * EPow P4 (EVar vMst1) /
   EPow P5 (EVar vMst2) - #3 * (EDec 23728785508324435 14 + #16526 * EVar vlmMst2 / #3969 + #2 * EVar vlmMst1 * (-
   #8263 + #71820 * EVar vlmMst2) / #3969 - #520 * EPow P2 (EVar vlmMst1) / #21 - #80 * EPow P2 (EVar vlmMst2) / #7) *
   EPow P6 (EVar vMst1) / EPow P6 (EVar vMst2)) / (#3 * EPow P2 (EVar vMst1))) + (- #300 * EVar vDmsqst2 * (#9 * EPow
   P2 (EVar vMst1) * EPow P2 (EVar vMst2) * (#2 * (#8 * EConst COepS2 - #27 * (#23 + #6 * EVar vlmMst1 - #6 * EVar
   vlmMst2) * EConst CS2) * EPow P2 (EVar vMst2) + (#104 * EConst COepS2 + #27 * (#17 - #78 * EVar vlmMst1 + #78 *
   EVar vlmMst2) * EConst CS2) * EPow P2 (EVar vMuSUSY)) + (#4 * (#16 * EConst COepS2 - #27 * (#35 + #12 * EVar
   vlmMst1 - #12 * EVar vlmMst2) * EConst CS2) * EPow P2 (EVar vMst2) + #13 * (#136 * EConst COepS2 - #27 * (#95 +
   #102 * EVar vlmMst1 - #102 * EVar vlmMst2) * EConst CS2) * EPow P2 (EVar vMuSUSY)) * EPow P4 (EVar vMst1) + #27 *
   ((#8 * EConst COepS2 - #81 * (#9 + #2 * EVar vlmMst1 - #2 * EVar vlmMst2) * EConst CS2) * EPow P2 (EVar vMst2) +
   (#8 * EConst COepS2 - #81 * (- #15 + #2 * EVar vlmMst1 - #2 * EVar vlmMst2) * EConst CS2) * EPow P2 (EVar vMuSUSY))
   * EPow P4 (EVar vMst2)) + EVar vMst2 * (- #3 * EVar vMst2 * (#6 * EPow P2 (EVar vMst1) * EPow P2 (EVar vMst2) *
   ((#25160 * EConst COepS2 - #81 * (#9191 + #6290 * EVar vlmMst1 - #6290 * EVar vlmMst2) * EConst CS2) * EPow P2
   (EVar vMst2) + #5 * (#8456 * EConst COepS2 - #81 * (#11243 + #2114 * EVar vlmMst1 - #2114 * EVar vlmMst2) * EConst
   CS2) * EPow P2 (EVar vMuSUSY)) + ((#274280 * EConst COepS2 - #27 * (#399127 + #205710 * EVar vlmMst1 - #205710 *
   EVar vlmMst2) * EConst CS2) * EPow P2 (EVar vMst2) + #10 * (#52948 * EConst COepS2 - #27 * (#194357 + #39711 * EVar
   vlmMst1 - #39711 * EVar vlmMst2) * EConst CS2) * EPow P2 (EVar vMuSUSY)) * EPow P4 (EVar vMst1) + #27 * ((#2120 *
   EConst COepS2 - #81 * (- #141 + #530 * EVar vlmMst1 - #530 * EVar vlmMst2) * EConst CS2) * EPow P2 (EVar vMst2) +
   #10 * (#184 * EConst COepS2 - #81 * (#307 + #46 * EVar vlmMst1 - #46 * EVar vlmMst2) * EConst CS2) * EPow P2 (EVar
   vMuSUSY)) * EPow P4 (EVar vMst2)) + #4 * EVar vDmglst2 * (#54 * EPow P2 (EVar vMst1) * EPow P2 (EVar vMst2) *
   ((#2000 * EConst COepS2 - #162 * (#31 + #250 * EVar vlmMst1 - #250 * EVar vlmMst2) * EConst CS2) * EPow P2 (EVar
   vMst2) + #5 * (#344 * EConst COepS2 + #9 * (#15643 - #774 * EVar vlmMst1 + #774 * EVar vlmMst2) * EConst CS2) *
   EPow P2 (EVar vMuSUSY)) + #2 * (#9 * (#30760 * EConst COepS2 - #27 * (#28283 + #23070 * EVar vlmMst1 - #23070 *
   EVar vlmMst2) * EConst CS2) * EPow P2 (EVar vMst2) + #10 * (#17308 * EConst COepS2 + #27 * (#93919 - #12981 * EVar
   vlmMst1 + #12981 * EVar vlmMst2) * EConst CS2) * EPow P2 (EVar vMuSUSY)) * EPow P4 (EVar vMst1) + #135 * (#56 *
   EConst COepS2 - #81 * (- #1677 + #14 * EVar vlmMst1 - #14 * EVar vlmMst2) * EConst CS2) * EPow P2 (EVar vMuSUSY) *
   EPow P4 (EVar vMst2) - #2768742 * EConst CS2 * EPow P6 (EVar vMst2)))) / (#21870 * EPow P6 (EVar vMst2))) + EPow P4
   (EVar vMt) * (EDec 48098395061728394 14 - #640 * EVar vlmMst1 / #9 - #392 * EPow P2 (EVar vlmMst1) / #9 + #4 * EVar
   vlmMst2 * (- #553 - #1224 * EVar vlmMst1 + #63 * EPow P2 (EVar vlmMst1)) / #81 + #32 * (#121 - #18 * EVar vlmMst1)
   * EPow P2 (EVar vlmMst2) / #27 + #4 * EVar vlmMt * (#926 - #749 * EVar vlmMst2 + #6 * EVar vlmMst1 * (#27 + #32 *
   EVar vlmMst2) + #9 * EPow P2 (EVar vlmMst1) + #57 * EPow P2 (EVar vlmMst2)) / #27 - #4 * (- #12 + EVar vlmMst1 +
   #55 * EVar vlmMst2) * EPow P2 (EVar vlmMt) / #3 + #4 * (#71 + #122 * EVar vlmMst2 + #32 * EVar vlmMst1 * (#1 + EVar
   vlmMst2) + #59 * EPow P2 (EVar vlmMst2)) * EPow P2 (EVar vMst2) / (#9 * EPow P2 (EVar vMst1)) - #68 * EPow P3 (EVar
   vlmMst1) / #9 + (#18000 * EVar vDmsqst2 * (- #103 + #42 * EVar vlmMst1 + #78 * EVar vlmMt - #6 * EVar vlmMst2 *
   (#23 + #3 * EVar vlmMt) + #9 * EPow P2 (EVar vlmMst2) + #9 * EPow P2 (EVar vlmMt)) + EPow P2 (EVar vMst1) *
   (#7319011 + #3223800 * EVar vlmMt - #1800 * (#391 + #114 * EVar vlmMst2 - #90 * EVar vlmMt) * EPow P2 (EVar
   vlmMst1) + #3600 * (#568 + #99 * EVar vlmMt) * EPow P2 (EVar vlmMst2) - #259200 * EPow P2 (EVar vlmMt) - #120 *
   EVar vlmMst2 * (#22352 - #2835 * EVar vlmMt + #4320 * EPow P2 (EVar vlmMt)) + #120 * EVar vlmMst1 * (#4217 + #1215
   * EVar vlmMt - #15 * EVar vlmMst2 * (#871 + #288 * EVar vlmMt) + #3240 * EPow P2 (EVar vlmMst2) + #4320 * EPow P2
   (EVar vlmMt)) + #14400 * EPow P3 (EVar vlmMst1) - #198000 * EPow P3 (EVar vlmMst2))) / (#12150 * EPow P2 (EVar
   vMst2)) + #4 * EVar vDmglst2 * (#113400 * EVar vDmsqst2 + #630 * (- #84 + (#70 + #32 * EVar vlmMst1) * EVar vlmMst2
   + #59 * EPow P2 (EVar vlmMst2)) * EPow P2 (EVar vMst2) + EPow P2 (EVar vMst1) * (#773533 + #131775 * EVar vlmMt +
   #35 * EVar vlmMst2 * (- #6569 + #2220 * EVar vlmMt) - #4410 * EPow P2 (EVar vlmMst1) - #199920 * EPow P2 (EVar
   vlmMst2) + #5040 * EVar vlmMst1 * (#13 + #28 * EVar vlmMst2 - #8 * EVar vlmMt + #8 * EPow P2 (EVar vlmMst2)) +
   #63000 * EPow P2 (EVar vlmMt) - #40320 * EPow P3 (EVar vlmMst2))) / (#2835 * EVar vMst2 * EPow P2 (EVar vMst1)) +
   #8 * EPow P3 (EVar vlmMst2) / #9 + #184 * EPow P3 (EVar vlmMt) / #3 + #2 * EVar vDmglst2 * (#52500 * EVar vDmsqst2
   * (#2954 - #864 * EVar vlmMst1 + #1713 * EVar vlmMst2 - #849 * EVar vlmMt) + EPow P2 (EVar vMst1) * (#98884301 -
   #57865500 * EVar vlmMt + #12600 * (#1213 + #285 * EVar vlmMst2 - #225 * EVar vlmMt) * EPow P2 (EVar vlmMst1) +
   #18900 * (- #5953 + #310 * EVar vlmMt) * EPow P2 (EVar vlmMst2) + #13608000 * EPow P2 (EVar vlmMt) + #1260 * (EVar
   vlmMst1 * (#28194 + EVar vlmMst2 * (#61415 - #2400 * EVar vlmMt) - #1075 * EVar vlmMt + #13800 * EPow P2 (EVar
   vlmMst2) - #7200 * EPow P2 (EVar vlmMt)) + EVar vlmMst2 * (#8581 + #6025 * EVar vlmMt + #7200 * EPow P2 (EVar
   vlmMt))) - #252000 * EPow P3 (EVar vlmMst1) - #20727000 * EPow P3 (EVar vlmMst2))) / (#212625 * EPow P3 (EVar
   vMst2)) - #64 * (#1 + EVar vlmMst2) * (#4 * EVar vDmglst2 * EVar vlmMst2 + EVar vMst2 + EVar vlmMst2 * EVar vMst2)
   * EPow P3 (EVar vMst2) / (#9 * EPow P4 (EVar vMst1)) - (#4 * EVar vDmsqst2 * (#91321 + EVar vlmMst2 * (#92010 -
   #4500 * EVar vlmMt) - #30 * EVar vlmMst1 * (#1717 + #120 * EVar vlmMst2 - #150 * EVar vlmMt) - #40500 * EVar vlmMt
   - #450 * EPow P2 (EVar vlmMst1) + #4050 * EPow P2 (EVar vlmMst2)) * EPow P2 (EVar vMst1) / #675 - (EDec
   15000856244066115 13 + #43574647 * EVar vlmMst1 / #99225 - #139432 * EPow P2 (EVar vlmMst1) / #945 - #2 * EVar
   vlmMst2 * (#35585111 - #2612085 * EVar vlmMst1 + #2072700 * EPow P2 (EVar vlmMst1)) / #99225 + #2 * (#34339 +
   #46620 * EVar vlmMst1) * EPow P2 (EVar vlmMst2) / #945 + EVar vlmMt * (#3155 + #1418 * EVar vlmMst2 - #2 * EVar
   vlmMst1 * (#513 + #572 * EVar vlmMst2) + #312 * EPow P2 (EVar vlmMst1) + #832 * EPow P2 (EVar vlmMst2)) / #9 + #64
   * (- #1 + #3 * EVar vlmMst1 - #3 * EVar vlmMst2) * EPow P2 (EVar vlmMt) / #3 + #64 * EPow P3 (EVar vlmMst1) / #27 -
   #1600 * EPow P3 (EVar vlmMst2) / #27) * EPow P4 (EVar vMst1)) / EPow P4 (EVar vMst2) - EVar vDmglst2 * (EDec
   2929938520304849 12 + #55510684 * EVar vlmMst1 / #59535 - #126272 * EPow P2 (EVar vlmMst1) / #189 - #4 * EVar
   vlmMst2 * (#42300121 + #12578580 * EVar vlmMst1 + #2487240 * EPow P2 (EVar vlmMst1)) / #59535 + #32 * (#10166 -
   #693 * EVar vlmMst1) * EPow P2 (EVar vlmMst2) / #189 + #8 * EVar vlmMt * (#5695 + #1974 * EVar vlmMst2 - #12 * EVar
   vlmMst1 * (#163 + #47 * EVar vlmMst2) + #468 * EPow P2 (EVar vlmMst1) + #96 * EPow P2 (EVar vlmMst2)) / #27 + #128
   * (- #5 + #6 * EVar vlmMst1 - #6 * EVar vlmMst2) * EPow P2 (EVar vlmMt) / #3 + #256 * EPow P3 (EVar vlmMst1) / #27
   + #7424 * EPow P3 (EVar vlmMst2) / #27) * EPow P4 (EVar vMst1) / EPow P5 (EVar vMst2) + EVar vDmsqst2 * (#40 * (#1
   - #2 * EVar vlmMst2) / (#3 * EPow P2 (EVar vMst1)) + #40 * EVar vDmglst2 * (#401 + EVar vlmMst2 * (#274 - #4 * EVar
   vlmMt) - #2 * EVar vlmMst1 * (#71 + #2 * EVar vlmMst2 - #2 * EVar vlmMt) - #132 * EVar vlmMt + #4 * EPow P2 (EVar
   vlmMst2)) * EPow P2 (EVar vMst1) / (#3 * EPow P5 (EVar vMst2)) + #8 * (- #26331136 + #105 * EVar vlmMst1 * (#236317
   + #35070 * EVar vlmMst2 - #36750 * EVar vlmMt) + #11962125 * EVar vlmMt + #210 * EVar vlmMst2 * (- #175121 + #18375
   * EVar vlmMt) + #88200 * EPow P2 (EVar vlmMst1) - #3770550 * EPow P2 (EVar vlmMst2)) * EPow P4 (EVar vMst1) /
   (#231525 * EPow P6 (EVar vMst2))) + (- (EPow P2 (EVar vMuSUSY) * (#6 * EVar vMst2 * EPow P2 (EVar vMst1) * (#3 *
   EVar vMst2 * (#10667 - #96 * EConst CB4 + #96 * EConst CD3 - #48 * EConst CDN - #3072 * EVar vlmMst1 - #384 * (-
   #25 + #9 * EVar vlmMst1) * EVar vlmMst2 - #384 * (- #1 + EVar vlmMst1 - EVar vlmMst2) * EVar vlmMt - #384 * (- #13
   + #4 * EVar vlmMst1) * EPow P2 (EVar vlmMst2) + #1536 * EPow P3 (EVar vlmMst2)) + #2 * EVar vDmglst2 * (#28405 -
   #288 * EConst CB4 + #288 * EConst CD3 - #144 * EConst CDN + #5472 * EVar vlmMst1 - #288 * (- #89 + #2 * EVar
   vlmMst1) * EVar vlmMst2 + #576 * (- #2 + EVar vlmMst1 - EVar vlmMst2) * EVar vlmMt - #576 * (- #9 + #8 * EVar
   vlmMst1) * EPow P2 (EVar vlmMst2) + #4608 * EPow P3 (EVar vlmMst2))) + #144 * (#6 * EVar vDmglst2 * (#180 - #2 *
   EConst CB4 + #2 * EConst CD3 - EConst CDN + #16 * EVar vlmMst1 + #144 * EVar vlmMst2 - #16 * (- #2 + EVar vlmMst1)
   * EPow P2 (EVar vlmMst2) + #16 * EPow P3 (EVar vlmMst2)) + EVar vMst2 * (#436 - #6 * EConst CB4 + #6 * EConst CD3 -
   #3 * EConst CDN - #48 * EVar vlmMst1 + (#408 - #96 * EVar vlmMst1) * EVar vlmMst2 + #24 * EVar vlmMt - #48 * (- #4
   + EVar vlmMst1) * EPow P2 (EVar vlmMst2) + #48 * EPow P3 (EVar vlmMst2))) * EPow P3 (EVar vMst2) + (#383185 - #2592
   * EConst CB4 + #2592 * EConst CD3 - #1296 * EConst CDN - #187704 * EVar vlmMst1 - #7992 * EPow P2 (EVar vlmMst1) -
   #216 * EVar vlmMst2 * (- #1733 + #630 * EVar vlmMst1 + #26 * EPow P2 (EVar vlmMst1)) - #216 * (- #859 + #246 * EVar
   vlmMst1) * EPow P2 (EVar vlmMst2) + #3456 * EVar vlmMt * (#3 + #6 * EVar vlmMst2 - #2 * EVar vlmMst1 * (#3 + EVar
   vlmMst2) + EPow P2 (EVar vlmMst1) + EPow P2 (EVar vlmMst2)) + #720 * EPow P3 (EVar vlmMst1) + #58032 * EPow P3
   (EVar vlmMst2)) * EPow P4 (EVar vMst1))) / #486 + #16 * EConst COepS2 * (#4 * EVar vDmglst2 * EVar vMst2 * (#63 *
   EPow P2 (EVar vMst1) * (#23 * EPow P2 (EVar vMst2) - #3 * EPow P2 (EVar vMuSUSY)) + #5582 * EPow P4 (EVar vMst1) +
   #189 * EPow P4 (EVar vMst2)) + #3 * ((#1168 * EPow P2 (EVar vMst2) + #1635 * EPow P2 (EVar vMuSUSY)) * EPow P4
   (EVar vMst1) + EPow P2 (EVar vMst1) * (#378 * EPow P2 (EVar vMst2) * EPow P2 (EVar vMuSUSY) + #627 * EPow P4 (EVar
   vMst2)) + #189 * EPow P6 (EVar vMst2))) / #2187 - EConst CS2 * (#4 * EVar vDmglst2 * EVar vMst2 * (#45 * EPow P2
   (EVar vMst1) * (#23 * (#115 + #588 * EVar vlmMst1 - #588 * EVar vlmMst2) * EPow P2 (EVar vMst2) - #126 * (#65 + #14
   * EVar vlmMst1 - #14 * EVar vlmMst2) * EPow P2 (EVar vMuSUSY)) + (#2001242 + #2344440 * EVar vlmMst1 - #2344440 *
   EVar vlmMst2) * EPow P4 (EVar vMst1) - #81 * (#3360 * EPow P2 (EVar vMst2) * EPow P2 (EVar vMuSUSY) + (#1593 - #980
   * EVar vlmMst1 + #980 * EVar vlmMst2) * EPow P4 (EVar vMst2))) + #42 * ((#8 * (#8653 + #4380 * EVar vlmMst1 - #4380
   * EVar vlmMst2) * EPow P2 (EVar vMst2) + #90 * (- #57 + #545 * EVar vlmMst1 - #545 * EVar vlmMst2) * EPow P2 (EVar
   vMuSUSY)) * EPow P4 (EVar vMst1) + #9 * EPow P2 (EVar vMst1) * (#90 * (- #43 + #14 * EVar vlmMst1 - #14 * EVar
   vlmMst2) * EPow P2 (EVar vMst2) * EPow P2 (EVar vMuSUSY) + (#4163 + #2090 * EVar vlmMst1 - #2090 * EVar vlmMst2) *
   EPow P4 (EVar vMst2)) + #81 * (- #240 * EPow P2 (EVar vMuSUSY) * EPow P4 (EVar vMst2) + (#109 + #70 * EVar vlmMst1
   - #70 * EVar vlmMst2) * EPow P6 (EVar vMst2)))) / #2835) / EPow P6 (EVar vMst2)) - EVar vs2t * EPow P3 (EVar vMt) *
   (#18 * EVar vDmglst2 * EPow P2 (EVar vMst2) * (- #3 * EPow P2 (EVar vMst2) * (#322421 + #414720 * EVar vlmMt -
   #73760 * EConst COepS2 + #564876 * EConst CS2 - #2880 * (#21 + #12 * EVar vlmMst2 - #4 * EVar vlmMt) * EPow P2
   (EVar vlmMst1) + #480 * (#1097 - #24 * EVar vlmMt) * EPow P2 (EVar vlmMst2) - #69120 * EPow P2 (EVar vlmMt) - #40 *
   EVar vlmMst2 * (- #11408 + #924 * EVar vlmMt + #37341 * EConst CS2 + #864 * EPow P2 (EVar vlmMt)) + #40 * EVar
   vlmMst1 * (- #11876 - #8844 * EVar vlmMst2 - #156 * EVar vlmMt + #37341 * EConst CS2 + #288 * EPow P2 (EVar
   vlmMst2) + #864 * EPow P2 (EVar vlmMt)) + #23040 * EPow P3 (EVar vlmMst2)) + #2 * EPow P2 (EVar vMuSUSY) * (#66761
   + #301320 * EConst CB4 - #4860 * EConst CDN - #205380 * EVar vlmMst1 + #40480 * EConst COepS2 - #216 * (#2489 +
   #3795 * EVar vlmMst1 - #3795 * EVar vlmMst2) * EConst CS2 + #23760 * EPow P2 (EVar vlmMst1) + #180 * EVar vlmMst2 *
   (#4993 - #1956 * EVar vlmMst1 + #48 * EPow P2 (EVar vlmMst1)) - #1080 * (- #482 + #331 * EVar vlmMst1) * EPow P2
   (EVar vlmMst2) + #348840 * EPow P3 (EVar vlmMst2))) * EPow P4 (EVar vMst1) + #18 * (#20 * EPow P2 (EVar vMuSUSY) *
   (#75569 + #13716 * EConst CB4 - #54 * EConst CDN - #33426 * EVar vlmMst1 - #1088 * EConst COepS2 + #162 * (#169 +
   #136 * EVar vlmMst1 - #136 * EVar vlmMst2) * EConst CS2 - #2376 * EPow P2 (EVar vlmMst1) + #54 * EVar vlmMst2 *
   (#1427 - #1012 * EVar vlmMst1 + #16 * EPow P2 (EVar vlmMst1)) - #108 * (- #642 + #203 * EVar vlmMst1) * EPow P2
   (EVar vlmMst2) + #21060 * EPow P3 (EVar vlmMst2)) + EPow P2 (EVar vMst2) * (#1156193 + #198720 * EVar vlmMt -
   #60320 * EConst COepS2 + #1414908 * EConst CS2 - #3240 * EVar vlmMst2 * (#42 + #32 * EVar vlmMt * (#1 + EVar vlmMt)
   + #377 * EConst CS2) + #8640 * (- #13 + #4 * EVar vlmMst2 + #4 * EVar vlmMt) * EPow P2 (EVar vlmMst1) + #17280 *
   (#51 - #2 * EVar vlmMt) * EPow P2 (EVar vlmMst2) - #1080 * EVar vlmMst1 * (#590 + #720 * EVar vlmMst2 - #104 * EVar
   vlmMt - #1131 * EConst CS2 + #224 * EPow P2 (EVar vlmMst2) - #96 * EPow P2 (EVar vlmMt)) + #207360 * EPow P3 (EVar
   vlmMst2))) * EPow P3 (EVar vMst2) * EPow P4 (EVar vMst1) - #2 * EVar vDmglst2 * (#5 * EPow P2 (EVar vMuSUSY) *
   (#2773621 - #1660176 * EConst CB4 + #25272 * EConst CDN + #2004408 * EVar vlmMst1 - #525472 * EConst COepS2 + #108
   * (#123113 + #98526 * EVar vlmMst1 - #98526 * EVar vlmMst2) * EConst CS2 + #3888 * EPow P2 (EVar vlmMst1) - #144 *
   EVar vlmMst2 * (#36802 - #11421 * EVar vlmMst1 + #1728 * EPow P2 (EVar vlmMst1)) + #167184 * (- #14 + #15 * EVar
   vlmMst1) * EPow P2 (EVar vlmMst2) - #31104 * EPow P3 (EVar vlmMst1) - #2227824 * EPow P3 (EVar vlmMst2)) + #4 *
   EPow P2 (EVar vMst2) * (#20964397 + #4563540 * EVar vlmMt - #2058400 * EConst COepS2 + #47545272 * EConst CS2 -
   #9720 * (#266 + #74 * EVar vlmMst2 - #55 * EVar vlmMt) * EPow P2 (EVar vlmMst1) + #3240 * (#1493 + #39 * EVar
   vlmMt) * EPow P2 (EVar vlmMst2) + #360 * EVar vlmMst2 * (#4724 + #5328 * EVar vlmMt - #115785 * EConst CS2 - #1944
   * EPow P2 (EVar vlmMt)) - #466560 * EPow P2 (EVar vlmMt) + #180 * EVar vlmMst1 * (- #32857 - #11844 * EVar vlmMt -
   #18 * EVar vlmMst2 * (#485 + #204 * EVar vlmMt) + #231570 * EConst CS2 + #1674 * EPow P2 (EVar vlmMst2) + #3888 *
   EPow P2 (EVar vlmMt)) + #9720 * EPow P3 (EVar vlmMst1) + #408240 * EPow P3 (EVar vlmMst2))) * EPow P6 (EVar vMst1)
   + #6 * EVar vMst2 * (#4 * EPow P2 (EVar vMst2) * (#2016907 + #110160 * EVar vlmMt - #109600 * EConst COepS2 +
   #3520152 * EConst CS2 + #1080 * (- #158 + #6 * EVar vlmMst2 + #39 * EVar vlmMt) * EPow P2 (EVar vlmMst1) + #1080 *
   (#565 - #3 * EVar vlmMt) * EPow P2 (EVar vlmMst2) - #1080 * EVar vlmMst1 * (#421 + #60 * EVar vlmMt + EVar vlmMst2
   * (#413 + #36 * EVar vlmMt) - #2055 * EConst CS2 + #129 * EPow P2 (EVar vlmMst2) - #72 * EPow P2 (EVar vlmMt)) -
   #1080 * EVar vlmMst2 * (#167 - #66 * EVar vlmMt + #2055 * EConst CS2 + #72 * EPow P2 (EVar vlmMt)) + #1080 * EPow
   P3 (EVar vlmMst1) + #131760 * EPow P3 (EVar vlmMst2)) + #5 * EPow P2 (EVar vMuSUSY) * (#1702429 + #257904 * EConst
   CB4 - #648 * EConst CDN - #748656 * EVar vlmMst1 - #30112 * EConst COepS2 + #108 * (#9185 + #5646 * EVar vlmMst1 -
   #5646 * EVar vlmMst2) * EConst CS2 + #41904 * EPow P2 (EVar vlmMst1) + #216 * EVar vlmMst2 * (#5971 - #6106 * EVar
   vlmMst1 + #576 * EPow P2 (EVar vlmMst1)) - #41904 * (- #34 + #15 * EVar vlmMst1) * EPow P2 (EVar vlmMst2) - #3456 *
   EPow P3 (EVar vlmMst1) + #507600 * EPow P3 (EVar vlmMst2))) * EPow P6 (EVar vMst1) + #622080 * EVar vDmglst2 * (-
   #1 + #2 * EVar vlmMst2 + #3 * EPow P2 (EVar vlmMst2)) * (#2 * EPow P2 (EVar vMst2) + EPow P2 (EVar vMuSUSY)) * EPow
   P6 (EVar vMst2) - EVar vDmglst2 * EPow P2 (EVar vMst1) * (- #27 * EPow P2 (EVar vMuSUSY) * (#23917 + #188640 *
   EConst CB4 - #3600 * EConst CDN - #37440 * EVar vlmMst1 + #5600 * EConst COepS2 - #324 * (- #453 + #350 * EVar
   vlmMst1 - #350 * EVar vlmMst2) * EConst CS2 + #11520 * EPow P2 (EVar vlmMst1) - #2880 * EVar vlmMst2 * (- #237 +
   #55 * EVar vlmMst1 + #4 * EPow P2 (EVar vlmMst1)) - #1440 * (- #280 + #121 * EVar vlmMst1) * EPow P2 (EVar vlmMst2)
   + #185760 * EPow P3 (EVar vlmMst2)) * EPow P4 (EVar vMst2) - #64800 * EVar vDmsqst2 * (- #36 * (#2 + #5 * EVar
   vlmMst1 - #5 * EVar vlmMst2) * EPow P2 (EVar vMst2) * EPow P2 (EVar vMuSUSY) + #36 * EPow P2 (EVar vMst1) * (#8 *
   (#7 - #3 * EVar vlmMst1 + #6 * EVar vlmMst2 - #3 * EVar vlmMt) * EPow P2 (EVar vMst2) + (#8 - #15 * EVar vlmMst1 +
   #15 * EVar vlmMst2) * EPow P2 (EVar vMuSUSY)) + #9 * (#465 + #374 * EVar vlmMst2 - #4 * EVar vlmMst1 * (#52 + #3 *
   EVar vlmMst2 - #3 * EVar vlmMt) - #2 * (#83 + #6 * EVar vlmMst2) * EVar vlmMt + #12 * EPow P2 (EVar vlmMst2)) *
   EPow P4 (EVar vMst1) + (#578 - #360 * EVar vlmMst1 + #708 * EVar vlmMst2 - #348 * EVar vlmMt) * EPow P4 (EVar
   vMst2)) + #270 * (#30183 + #45408 * EVar vlmMt - #1120 * EConst COepS2 - #43740 * EConst CS2 - #8 * EVar vlmMst2 *
   (- #8398 + #588 * EVar vlmMt + #2835 * EConst CS2) + #2304 * (- #1 + EVar vlmMst2) * EPow P2 (EVar vlmMst1) + #96 *
   (#199 + #48 * EVar vlmMt) * EPow P2 (EVar vlmMst2) + #72 * EVar vlmMst1 * (- #120 + #64 * EVar vlmMt - #8 * EVar
   vlmMst2 * (#5 + #8 * EVar vlmMt) + #315 * EConst CS2 + #164 * EPow P2 (EVar vlmMst2)) - #14112 * EPow P3 (EVar
   vlmMst2)) * EPow P6 (EVar vMst2)) + #81 * EVar vMst2 * EPow P2 (EVar vMst1) * (#5 * EPow P2 (EVar vMuSUSY) *
   (#28683 + #5280 * EConst CB4 - #48 * EConst CDN - #5952 * EVar vlmMst1 - #224 * EConst COepS2 + #324 * (- #1 + #14
   * EVar vlmMst1 - #14 * EVar vlmMst2) * EConst CS2 - #768 * EPow P2 (EVar vlmMst1) - #192 * EVar vlmMst2 * (- #214 +
   #73 * EVar vlmMst1 + #4 * EPow P2 (EVar vlmMst1)) - #96 * (- #268 + #57 * EVar vlmMst1) * EPow P2 (EVar vlmMst2) +
   #6240 * EPow P3 (EVar vlmMst2)) * EPow P4 (EVar vMst2) - #7200 * EVar vDmsqst2 * (- #4 * (#1 + EVar vlmMst1 - EVar
   vlmMst2) * EPow P2 (EVar vMst2) * EPow P2 (EVar vMuSUSY) + #4 * EPow P2 (EVar vMst1) * ((#6 - #4 * EVar vlmMst1 +
   #8 * EVar vlmMst2 - #4 * EVar vlmMt) * EPow P2 (EVar vMst2) + (- #1 - #3 * EVar vlmMst1 + #3 * EVar vlmMst2) * EPow
   P2 (EVar vMuSUSY)) + (#35 + #50 * EVar vlmMst2 - #4 * EVar vlmMst1 * (#8 + EVar vlmMst2 - EVar vlmMt) - #2 * (#9 +
   #2 * EVar vlmMst2) * EVar vlmMt + #4 * EPow P2 (EVar vlmMst2)) * EPow P4 (EVar vMst1) - #2 * (#7 + #4 * EVar
   vlmMst1 - #10 * EVar vlmMst2 + #6 * EVar vlmMt) * EPow P4 (EVar vMst2)) + #2 * (#60759 - #12480 * EVar vlmMt -
   #1120 * EConst COepS2 - #25596 * EConst CS2 - #120 * EVar vlmMst2 * (#26 + #132 * EVar vlmMt + #189 * EConst CS2) -
   #3840 * (#1 + EVar vlmMst2) * EPow P2 (EVar vlmMst1) + #480 * (#155 - #16 * EVar vlmMt) * EPow P2 (EVar vlmMst2) -
   #120 * EVar vlmMst1 * (#216 + #8 * EVar vlmMst2 * (#61 - #8 * EVar vlmMt) - #64 * EVar vlmMt - #189 * EConst CS2 +
   #164 * EPow P2 (EVar vlmMst2)) - #11520 * EPow P2 (EVar vlmMt) + #23520 * EPow P3 (EVar vlmMst2)) * EPow P6 (EVar
   vMst2)) + #622080 * EPow P2 (#1 + EVar vlmMst2) * (#2 * EPow P2 (EVar vMst2) + EPow P2 (EVar vMuSUSY)) * EPow P7
   (EVar vMst2)) / (#43740 * EPow P2 (EVar vMst1) * EPow P6 (EVar vMst2)) + (- #10 * EVar vshiftst1 * (EVar vDmsqst2 *
   (#3 - #2 * EVar vlmMst2) + (#1 - #2 * EVar vlmMst2) * EPow P2 (EVar vMst2)) * (EPow P4 (EVar vMst2) * (EPow P2
   (EVar vs2t) * (- #8 * EPow P2 (EVar vMt) + (EPow P2 (EVar vMst1) - EPow P2 (EVar vMst2)) * EPow P2 (EVar vs2t)) *
   EPow P2 (EVar vSbeta) * EPow P4 (EVar vMst1) + EPow P2 (EVar vMst1) * (#4 * EPow P2 (EVar vMt) * EPow P2 (EVar
   vs2t) * (EPow P2 (EVar vMuSUSY) + (#4 * EPow P2 (EVar vMst2) - EPow P2 (EVar vMuSUSY)) * EPow P2 (EVar vSbeta)) +
   EPow P2 (EVar vSbeta) * (#16 * EPow P4 (EVar vMt) - EPow P4 (EVar vMst2) * EPow P4 (EVar vs2t))) + EPow P2 (EVar
   vMst2) * (- #4 * EPow P2 (EVar vMt) * EPow P2 (EVar vs2t) * (EPow P2 (EVar vMuSUSY) * (- #1 + EPow P2 (EVar
   vSbeta)) + #2 * EPow P2 (EVar vMst2) * EPow P2 (EVar vSbeta)) + EPow P2 (EVar vSbeta) * (#16 * EPow P4 (EVar vMt) +
   EPow P4 (EVar vMst2) * EPow P4 (EVar vs2t)))) + (- #2 * EVar vlmMst1 + #2 * EVar vlmMst2) * EPow P2 (EVar vMst1) *
   EPow P2 (EVar vs2t) * (- #4 * EPow P2 (EVar vMt) * EPow P2 (EVar vMuSUSY) * (- #1 + EPow P2 (EVar vSbeta)) * (EPow
   P4 (EVar vMst1) + EPow P4 (EVar vMst2)) - EPow P2 (EVar vMst1) * EPow P2 (EVar vMst2) * (#4 * EPow P2 (EVar vMt) *
   EPow P2 (EVar vMuSUSY) * (- #1 + EPow P2 (EVar vSbeta)) + EPow P2 (EVar vs2t) * EPow P2 (EVar vSbeta) * EPow P4
   (EVar vMst2)) + EPow P2 (EVar vs2t) * EPow P2 (EVar vSbeta) * EPow P8 (EVar vMst2))) / EPow P2 (EVar vSbeta) + (#1
   - #2 * EVar vlmMst2) * EVar vshiftst3 * EPow P2 (EVar vMst2) * ((#8 * (- #1 + EVar vlmMst1 - EVar vlmMst2) * EPow
   P2 (EVar vMst1) * EPow P2 (EVar vMt) * EPow P2 (EVar vs2t) - #16 * EPow P4 (EVar vMt) - (- #4 * EPow P2 (EVar
   vMst1) * EPow P2 (EVar vMst2) + (#3 + #2 * EVar vlmMst1 - #2 * EVar vlmMst2) * EPow P4 (EVar vMst1) + EPow P4 (EVar
   vMst2)) * EPow P4 (EVar vs2t)) * EPow P6 (EVar vMst2) - #4 * EPow P2 (EVar vMt) * EPow P2 (EVar vMuSUSY) * EPow P2
   (EVar vs2t) * (#2 * (#1 - #2 * EVar vlmMst1 + #2 * EVar vlmMst2) * EPow P2 (EVar vMst2) * EPow P4 (EVar vMst1) + #2
   * (#1 - EVar vlmMst1 + EVar vlmMst2) * EPow P2 (EVar vMst1) * EPow P4 (EVar vMst2) + (#2 - #6 * EVar vlmMst1 + #6 *
   EVar vlmMst2) * EPow P6 (EVar vMst1) + EPow P6 (EVar vMst2)) / EPow P2 (EVar vSbeta) + #4 * EPow P2 (EVar vMt) *
   EPow P2 (EVar vs2t) * (EPow P2 (EVar vMuSUSY) * EPow P6 (EVar vMst2) + #2 * (EPow P2 (EVar vMuSUSY) * ((#1 - #2 *
   EVar vlmMst1 + #2 * EVar vlmMst2) * EPow P2 (EVar vMst2) * EPow P4 (EVar vMst1) + (#1 - EVar vlmMst1 + EVar
   vlmMst2) * EPow P2 (EVar vMst1) * EPow P4 (EVar vMst2) + (#1 - #3 * EVar vlmMst1 + #3 * EVar vlmMst2) * EPow P6
   (EVar vMst1)) + EPow P8 (EVar vMst2))))) / (#12 * EPow P2 (EVar vMst1) * EPow P6 (EVar vMst2)) + EVar vMt * EPow P3
   (EVar vs2t) * (- (EVar vDmglst2 * (- #18 * (#27211 + #36720 * EConst CB4 + #1080 * EConst CDN - #298440 * EVar
   vlmMst1 + #64160 * EConst COepS2 - #108 * (#14033 + #12030 * EVar vlmMst1 - #12030 * EVar vlmMst2) * EConst CS2 +
   #12960 * EPow P2 (EVar vlmMst1) + #360 * EVar vlmMst2 * (- #503 - #636 * EVar vlmMst1 + #144 * EPow P2 (EVar
   vlmMst1)) - #2160 * (#30 + #89 * EVar vlmMst1) * EPow P2 (EVar vlmMst2) + #140400 * EPow P3 (EVar vlmMst2)) * EPow
   P4 (EVar vMst1) * EPow P4 (EVar vMst2) + EPow P2 (EVar vMst2) * (#31897243 - #2491360 * EConst COepS2 + #90290268 *
   EConst CS2 - #360 * EVar vlmMst2 * (#18652 + #140139 * EConst CS2) + #38880 * (#37 - #40 * EVar vlmMst2) * EPow P2
   (EVar vlmMst1) + #3188160 * EPow P2 (EVar vlmMst2) + #360 * EVar vlmMst1 * (#17410 - #12852 * EVar vlmMst2 +
   #140139 * EConst CS2 + #11232 * EPow P2 (EVar vlmMst2)) - #311040 * EPow P3 (EVar vlmMst1) - #2177280 * EPow P3
   (EVar vlmMst2)) * EPow P6 (EVar vMst1) + EPow P2 (EVar vMst1) * (- #583200 * EVar vDmsqst2 * (#4 * (#12 - #5 * EVar
   vlmMst1 + #5 * EVar vlmMst2) * EPow P2 (EVar vMst1) * EPow P2 (EVar vMst2) + (#40 - #3 * EVar vlmMst1 + #3 * EVar
   vlmMst2) * EPow P4 (EVar vMst1) - #4 * (#2 + #5 * EVar vlmMst1 - #5 * EVar vlmMst2) * EPow P4 (EVar vMst2)) - #27 *
   (#69997 + #188640 * EConst CB4 - #3600 * EConst CDN - #37440 * EVar vlmMst1 + #5600 * EConst COepS2 - #324 * (-
   #453 + #350 * EVar vlmMst1 - #350 * EVar vlmMst2) * EConst CS2 + #11520 * EPow P2 (EVar vlmMst1) - #2880 * EVar
   vlmMst2 * (- #205 + #55 * EVar vlmMst1 + #4 * EPow P2 (EVar vlmMst1)) - #1440 * (- #184 + #121 * EVar vlmMst1) *
   EPow P2 (EVar vlmMst2) + #185760 * EPow P3 (EVar vlmMst2)) * EPow P6 (EVar vMst2)) - #622080 * (- #1 + #2 * EVar
   vlmMst2 + #3 * EPow P2 (EVar vlmMst2)) * EPow P8 (EVar vMst2))) + #15 * (- #38880 * EVar vDmsqst2 * EVar vMst2 *
   EPow P2 (EVar vMst1) * (#4 * (#1 - EVar vlmMst1 + EVar vlmMst2) * EPow P2 (EVar vMst1) * EPow P2 (EVar vMst2) + (#4
   - EVar vlmMst1 + EVar vlmMst2) * EPow P4 (EVar vMst1) - #4 * (#1 + EVar vlmMst1 - EVar vlmMst2) * EPow P4 (EVar
   vMst2)) + #6 * (#51041 + #7344 * EConst CB4 + #216 * EConst CDN - #80136 * EVar vlmMst1 - #2336 * EConst COepS2 +
   #324 * (#347 + #146 * EVar vlmMst1 - #146 * EVar vlmMst2) * EConst CS2 - #2592 * EPow P2 (EVar vlmMst1) + #216 *
   EVar vlmMst2 * (- #221 - #428 * EVar vlmMst1 + #48 * EPow P2 (EVar vlmMst1)) - #432 * (- #122 + #89 * EVar vlmMst1)
   * EPow P2 (EVar vlmMst2) + #28080 * EPow P3 (EVar vlmMst2)) * EPow P4 (EVar vMst1) * EPow P5 (EVar vMst2) +
   (#551987 - #14048 * EConst COepS2 + #661068 * EConst CS2 - #216 * EVar vlmMst2 * (#46 + #1317 * EConst CS2) + #864
   * (#205 + #216 * EVar vlmMst2) * EPow P2 (EVar vlmMst1) + #216000 * EPow P2 (EVar vlmMst2) - #216 * EVar vlmMst1 *
   (#248 + #1820 * EVar vlmMst2 - #1317 * EConst CS2 + #1632 * EPow P2 (EVar vlmMst2)) - #6912 * EPow P3 (EVar
   vlmMst1) + #172800 * EPow P3 (EVar vlmMst2)) * EPow P3 (EVar vMst2) * EPow P6 (EVar vMst1) + #27 * EPow P2 (EVar
   vMst1) * (#25611 + #5280 * EConst CB4 - #48 * EConst CDN - #5952 * EVar vlmMst1 - #224 * EConst COepS2 + #324 * (-
   #1 + #14 * EVar vlmMst1 - #14 * EVar vlmMst2) * EConst CS2 - #768 * EPow P2 (EVar vlmMst1) - #192 * EVar vlmMst2 *
   (- #182 + #73 * EVar vlmMst1 + #4 * EPow P2 (EVar vlmMst1)) - #96 * (- #236 + #57 * EVar vlmMst1) * EPow P2 (EVar
   vlmMst2) + #6240 * EPow P3 (EVar vlmMst2)) * EPow P7 (EVar vMst2) + #41472 * EPow P2 (#1 + EVar vlmMst2) * EPow P9
   (EVar vMst2))) / (#87480 * EPow P2 (EVar vMst1) * EPow P4 (EVar vMst2)) + (- (EConst CT1ep * (EPow P4 (EVar vMst1)
   * (- #4 * EPow P2 (EVar vMt) * EPow P2 (EVar vs2t) * (#60 * EVar vDmsqst2 * (#221 * EPow P2 (EVar vMuSUSY) * (- #1
   + EPow P2 (EVar vSbeta)) + #8 * EPow P2 (EVar vMst2) * EPow P2 (EVar vSbeta)) + EVar vMst2 * (#39711 * EVar vMst2 *
   EPow P2 (EVar vMuSUSY) * (- #1 + EPow P2 (EVar vSbeta)) - #8 * EVar vDmglst2 * (#4327 * EPow P2 (EVar vMuSUSY) * (-
   #1 + EPow P2 (EVar vSbeta)) + #6921 * EPow P2 (EVar vMst2) * EPow P2 (EVar vSbeta)) + #20571 * EPow P2 (EVar
   vSbeta) * EPow P3 (EVar vMst2))) + #16 * EVar vs2t * (- #16421 * EVar vDmglst2 * EPow P2 (EVar vMuSUSY) * (- #1 +
   EPow P2 (EVar vSbeta)) + #2823 * EVar vMst2 * EPow P2 (EVar vMuSUSY) * (- #1 + EPow P2 (EVar vSbeta)) - #51460 *
   EVar vDmglst2 * EPow P2 (EVar vMst2) * EPow P2 (EVar vSbeta) + #8220 * EPow P2 (EVar vSbeta) * EPow P3 (EVar
   vMst2)) * EPow P3 (EVar vMt) + #4 * (#15571 * EVar vDmglst2 - #1317 * EVar vMst2) * EVar vMt * EPow P2 (EVar
   vSbeta) * EPow P3 (EVar vs2t) * EPow P4 (EVar vMst2) + #16 * (#4905 * EPow P2 (EVar vMuSUSY) * (- #1 + EPow P2
   (EVar vSbeta)) + #8 * EVar vMst2 * (#2791 * EVar vDmglst2 + #438 * EVar vMst2) * EPow P2 (EVar vSbeta)) * EPow P4
   (EVar vMt) + (#840 * EVar vDmsqst2 + EVar vMst2 * (- #16796 * EVar vDmglst2 + #5385 * EVar vMst2)) * EPow P2 (EVar
   vSbeta) * EPow P4 (EVar vMst2) * EPow P4 (EVar vs2t)) - #54 * EPow P4 (EVar vMst2) * (- #14 * EVar vDmglst2 * (#4 *
   EVar vMst2 * EPow P2 (EVar vMt) * EPow P2 (EVar vMuSUSY) * EPow P2 (EVar vs2t) * (- #1 + EPow P2 (EVar vSbeta)) -
   #10 * EVar vs2t * (EPow P2 (EVar vMuSUSY) * (- #1 + EPow P2 (EVar vSbeta)) + #2 * EPow P2 (EVar vMst2) * EPow P2
   (EVar vSbeta)) * EPow P3 (EVar vMt) + #5 * EVar vMt * EPow P2 (EVar vSbeta) * EPow P3 (EVar vs2t) * EPow P4 (EVar
   vMst2) + #16 * EVar vMst2 * EPow P2 (EVar vSbeta) * EPow P4 (EVar vMt) - EPow P2 (EVar vSbeta) * EPow P4 (EVar
   vs2t) * EPow P5 (EVar vMst2)) - #3 * (- #40 * EVar vDmsqst2 * EPow P2 (EVar vMt) * EPow P2 (EVar vMuSUSY) * EPow P2
   (EVar vs2t) * (- #1 + EPow P2 (EVar vSbeta)) + #4 * EPow P2 (EVar vMst2) * EPow P2 (EVar vMt) * (- #23 * EPow P2
   (EVar vMuSUSY) * EPow P2 (EVar vs2t) * (- #1 + EPow P2 (EVar vSbeta)) + #2 * (#7 * EPow P2 (EVar vMt) - #5 * EVar
   vDmsqst2 * EPow P2 (EVar vs2t)) * EPow P2 (EVar vSbeta)) + #28 * EVar vMst2 * EVar vs2t * EPow P2 (EVar vMuSUSY) *
   (- #1 + EPow P2 (EVar vSbeta)) * EPow P3 (EVar vMt) + #56 * EVar vs2t * EPow P2 (EVar vSbeta) * EPow P3 (EVar
   vMst2) * EPow P3 (EVar vMt) + #2 * EPow P2 (EVar vs2t) * (- #53 * EPow P2 (EVar vMt) + #5 * EVar vDmsqst2 * EPow P2
   (EVar vs2t)) * EPow P2 (EVar vSbeta) * EPow P4 (EVar vMst2) - #14 * EVar vMt * EPow P2 (EVar vSbeta) * EPow P3
   (EVar vs2t) * EPow P5 (EVar vMst2) + #23 * EPow P2 (EVar vSbeta) * EPow P4 (EVar vs2t) * EPow P6 (EVar vMst2))) +
   #18 * EVar vMst2 * EPow P2 (EVar vMst1) * (EVar vMst2 * (#8 * EVar vMst2 * EVar vs2t * (#136 * EPow P2 (EVar
   vMuSUSY) * (- #1 + EPow P2 (EVar vSbeta)) + #377 * EPow P2 (EVar vMst2) * EPow P2 (EVar vSbeta)) * EPow P3 (EVar
   vMt) - #4 * EPow P2 (EVar vMt) * EPow P2 (EVar vs2t) * (#390 * EVar vDmsqst2 * EPow P2 (EVar vMuSUSY) * (- #1 +
   EPow P2 (EVar vSbeta)) + #1057 * EPow P2 (EVar vMst2) * EPow P2 (EVar vMuSUSY) * (- #1 + EPow P2 (EVar vSbeta)) +
   #60 * EVar vDmsqst2 * EPow P2 (EVar vMst2) * EPow P2 (EVar vSbeta) + #629 * EPow P2 (EVar vSbeta) * EPow P4 (EVar
   vMst2)) + #8 * (#126 * EPow P2 (EVar vMuSUSY) * (- #1 + EPow P2 (EVar vSbeta)) + #209 * EPow P2 (EVar vMst2) * EPow
   P2 (EVar vSbeta)) * EPow P4 (EVar vMt) + (#210 * EVar vDmsqst2 + #643 * EPow P2 (EVar vMst2)) * EPow P2 (EVar
   vSbeta) * EPow P4 (EVar vMst2) * EPow P4 (EVar vs2t) - #292 * EVar vMt * EPow P2 (EVar vSbeta) * EPow P3 (EVar
   vs2t) * EPow P5 (EVar vMst2)) - #4 * EVar vDmglst2 * (- #12 * EPow P2 (EVar vMst2) * EPow P2 (EVar vMt) * EPow P2
   (EVar vs2t) * (#43 * EPow P2 (EVar vMuSUSY) * (- #1 + EPow P2 (EVar vSbeta)) + #50 * EPow P2 (EVar vMst2) * EPow P2
   (EVar vSbeta)) + #2 * EVar vMst2 * EVar vs2t * (#506 * EPow P2 (EVar vMuSUSY) * (- #1 + EPow P2 (EVar vSbeta)) +
   #1383 * EPow P2 (EVar vMst2) * EPow P2 (EVar vSbeta)) * EPow P3 (EVar vMt) + #56 * (#3 * EPow P2 (EVar vMuSUSY) *
   (- #1 + EPow P2 (EVar vSbeta)) - #23 * EPow P2 (EVar vMst2) * EPow P2 (EVar vSbeta)) * EPow P4 (EVar vMt) - #401 *
   EVar vMt * EPow P2 (EVar vSbeta) * EPow P3 (EVar vs2t) * EPow P5 (EVar vMst2) + #108 * EPow P2 (EVar vSbeta) * EPow
   P4 (EVar vs2t) * EPow P6 (EVar vMst2))))) / (#1458 * EPow P2 (EVar vSbeta)) + EVar vMt * EVar vMuSUSY * (#500094000
   * EVar vs2t * EPow P2 (EVar vMst1) * EPow P4 (EVar vMst2) * (- #10 * EVar vshiftst1 * ((#1 - #2 * EVar vlmMst2) *
   EPow P2 (EVar vMst2) * (#4 * EPow P2 (EVar vMst2) * EPow P2 (EVar vMt) - #2 * EPow P2 (EVar vMst1) * (#2 * EPow P2
   (EVar vMt) + (- EVar vlmMst1 + EVar vlmMst2) * EPow P2 (EVar vMst2) * EPow P2 (EVar vs2t)) + EPow P2 (EVar vs2t) *
   EPow P4 (EVar vMst1)) + EVar vDmsqst2 * (#3 - #2 * EVar vlmMst2) * (- #4 * EPow P2 (EVar vMst1) * EPow P2 (EVar
   vMt) + #4 * EPow P2 (EVar vMst2) * EPow P2 (EVar vMt) + #2 * (EVar vlmMst1 - EVar vlmMst2) * EPow P2 (EVar vMst1) *
   EPow P2 (EVar vMst2) * EPow P2 (EVar vs2t) + EPow P2 (EVar vs2t) * (EPow P4 (EVar vMst1) - EPow P4 (EVar vMst2))))
   + (#1 - #2 * EVar vlmMst2) * ((#10 * EVar vshiftst1 + EVar vshiftst3) * EPow P2 (EVar vMst2) * EPow P2 (EVar vs2t)
   - EVar vshiftst3 * (#4 * EPow P2 (EVar vMt) + (#1 + EVar vlmMst1 - EVar vlmMst2) * EPow P2 (EVar vMst1) * EPow P2
   (EVar vs2t))) * EPow P4 (EVar vMst2)) + #68600 * EPow P2 (EVar vMst1) * EPow P3 (EVar vMt) * (- (EVar vDmglst2 *
   (#216 * EPow P2 (EVar vMst2) * (#97837 + #71580 * EVar vlmMt - #9920 * EConst COepS2 + #43272 * EConst CS2 - #360 *
   (#23 + #8 * EVar vlmMst2 - #4 * EVar vlmMt) * EPow P2 (EVar vlmMst1) + #720 * (#97 + #2 * EVar vlmMt) * EPow P2
   (EVar vlmMst2) - #8640 * EPow P2 (EVar vlmMt) - #30 * EVar vlmMst2 * (- #2911 + #396 * EVar vlmMt + #6696 * EConst
   CS2 + #144 * EPow P2 (EVar vlmMt)) + #10 * EVar vlmMst1 * (- #6157 + #642 * EVar vlmMt - #6 * EVar vlmMst2 * (#791
   + #48 * EVar vlmMt) + #20088 * EConst CS2 + #882 * EPow P2 (EVar vlmMst2) + #432 * EPow P2 (EVar vlmMt)) - #5940 *
   EPow P3 (EVar vlmMst2)) * EPow P4 (EVar vMst1) - #129600 * EVar vDmsqst2 * ((#101 - #90 * EVar vlmMst1 + #177 *
   EVar vlmMst2 - #87 * EVar vlmMt) * EPow P2 (EVar vMst1) * EPow P2 (EVar vMst2) + (#497 - #306 * EVar vlmMst1 + #609
   * EVar vlmMst2 - #303 * EVar vlmMt) * EPow P4 (EVar vMst1)) + #135 * EPow P2 (EVar vMst1) * (#57495 + #45408 * EVar
   vlmMt - #1120 * EConst COepS2 - #43740 * EConst CS2 - #8 * EVar vlmMst2 * (- #6952 + #588 * EVar vlmMt + #2835 *
   EConst CS2) + #2304 * (- #1 + EVar vlmMst2) * EPow P2 (EVar vlmMst1) + #96 * (#79 + #48 * EVar vlmMt) * EPow P2
   (EVar vlmMst2) + #72 * EVar vlmMst1 * (- #88 + #64 * EVar vlmMt - #8 * EVar vlmMst2 * (#9 + #8 * EVar vlmMt) + #315
   * EConst CS2 + #164 * EPow P2 (EVar vlmMst2)) - #14112 * EPow P3 (EVar vlmMst2)) * EPow P4 (EVar vMst2) + #20 *
   (#5659217 + #1592460 * EVar vlmMt - #518816 * EConst COepS2 + #9976392 * EConst CS2 - #972 * (#569 + #180 * EVar
   vlmMst2 - #126 * EVar vlmMt) * EPow P2 (EVar vlmMst1) + #324 * (#5353 + #126 * EVar vlmMt) * EPow P2 (EVar vlmMst2)
   - #186624 * EPow P2 (EVar vlmMt) + #72 * EVar vlmMst1 * (- #27653 - #3015 * EVar vlmMt - #18 * EVar vlmMst2 * (#689
   + #126 * EVar vlmMt) + #145917 * EConst CS2 + #2160 * EPow P2 (EVar vlmMst2) + #2592 * EPow P2 (EVar vlmMt)) - #36
   * EVar vlmMst2 * (- #39031 - #3204 * EVar vlmMt + #291834 * EConst CS2 + #5184 * EPow P2 (EVar vlmMt)) + #1944 *
   EPow P3 (EVar vlmMst1) + #17496 * EPow P3 (EVar vlmMst2)) * EPow P6 (EVar vMst1) - #622080 * (- #1 + #2 * EVar
   vlmMst2 + #3 * EPow P2 (EVar vlmMst2)) * EPow P6 (EVar vMst2))) + #3 * EVar vMst2 * (#48 * EPow P2 (EVar vMst2) *
   (#110219 - #1080 * EVar vlmMt - #4400 * EConst COepS2 + #74034 * EConst CS2 + #540 * (- #15 + #4 * EVar vlmMt) *
   EPow P2 (EVar vlmMst1) + #810 * (#121 - #8 * EVar vlmMt) * EPow P2 (EVar vlmMst2) - #135 * EVar vlmMst1 * (#337 +
   EVar vlmMst2 * (#588 - #32 * EVar vlmMt) - #132 * EVar vlmMt - #660 * EConst CS2 + #194 * EPow P2 (EVar vlmMst2) -
   #48 * EPow P2 (EVar vlmMt)) - #6480 * EPow P2 (EVar vlmMt) - #405 * EVar vlmMst2 * (#31 + #54 * EVar vlmMt + #220 *
   EConst CS2 + #16 * EPow P2 (EVar vlmMt)) + #26190 * EPow P3 (EVar vlmMst2)) * EPow P4 (EVar vMst1) + #388800 * EVar
   vDmsqst2 * ((#5 + #2 * EVar vlmMst1 - #5 * EVar vlmMst2 + #3 * EVar vlmMt) * EPow P2 (EVar vMst1) * EPow P2 (EVar
   vMst2) + (#1 + #6 * EVar vlmMst1 - #13 * EVar vlmMst2 + #7 * EVar vlmMt) * EPow P4 (EVar vMst1)) + #27 * EPow P2
   (EVar vMst1) * (#56439 - #24000 * EVar vlmMt - #1120 * EConst COepS2 - #25596 * EConst CS2 - #360 * EVar vlmMst2 *
   (- #12 + #44 * EVar vlmMt + #63 * EConst CS2) - #3840 * (#1 + EVar vlmMst2) * EPow P2 (EVar vlmMst1) + #480 * (#163
   - #16 * EVar vlmMt) * EPow P2 (EVar vlmMst2) - #120 * EVar vlmMst1 * (#184 + #8 * EVar vlmMst2 * (#57 - #8 * EVar
   vlmMt) - #64 * EVar vlmMt - #189 * EConst CS2 + #164 * EPow P2 (EVar vlmMst2)) - #11520 * EPow P2 (EVar vlmMt) +
   #23520 * EPow P3 (EVar vlmMst2)) * EPow P4 (EVar vMst2) + #20 * (#678923 + #19440 * EVar vlmMt - #32480 * EConst
   COepS2 + #881712 * EConst CS2 + #108 * (- #457 + #12 * EVar vlmMst2 + #126 * EVar vlmMt) * EPow P2 (EVar vlmMst1) +
   #540 * (#661 - #30 * EVar vlmMt) * EPow P2 (EVar vlmMst2) - #108 * EVar vlmMst1 * (#1841 + EVar vlmMst2 * (#2626 -
   #24 * EVar vlmMt) - #420 * EVar vlmMt - #6090 * EConst CS2 + #840 * EPow P2 (EVar vlmMst2) - #288 * EPow P2 (EVar
   vlmMt)) - #15552 * EPow P2 (EVar vlmMt) - #108 * EVar vlmMst2 * (#619 + #498 * EVar vlmMt + #6090 * EConst CS2 +
   #288 * EPow P2 (EVar vlmMt)) + #216 * EPow P3 (EVar vlmMst1) + #89208 * EPow P3 (EVar vlmMst2)) * EPow P6 (EVar
   vMst1) + #207360 * EPow P2 (#1 + EVar vlmMst2) * EPow P6 (EVar vMst2))) - #4116000 * EConst CT1ep * EPow P4 (EVar
   vMst1) * (- #3 * (#27 * EPow P4 (EVar vMst2) * (- #40 * EVar vDmsqst2 * EVar vs2t * EPow P2 (EVar vMt) - #21 * EVar
   vMt * EPow P2 (EVar vs2t) * EPow P3 (EVar vMst2) + #28 * EVar vMst2 * EPow P3 (EVar vMt) + EPow P2 (EVar vMst2) *
   (- #106 * EVar vs2t * EPow P2 (EVar vMt) + #20 * EVar vDmsqst2 * EPow P3 (EVar vs2t)) + #46 * EPow P3 (EVar vs2t) *
   EPow P4 (EVar vMst2)) + #3 * EPow P2 (EVar vMst1) * EPow P2 (EVar vMst2) * (- #600 * EVar vDmsqst2 * EVar vs2t *
   EPow P2 (EVar vMt) - #627 * EVar vMt * EPow P2 (EVar vs2t) * EPow P3 (EVar vMst2) + #1760 * EVar vMst2 * EPow P3
   (EVar vMt) + EPow P2 (EVar vMst2) * (- #3470 * EVar vs2t * EPow P2 (EVar vMt) + #600 * EVar vDmsqst2 * EPow P3
   (EVar vs2t)) + #1700 * EPow P3 (EVar vs2t) * EPow P4 (EVar vMst2)) + EPow P4 (EVar vMst1) * (- #2120 * EVar
   vDmsqst2 * EVar vs2t * EPow P2 (EVar vMt) - #3198 * EVar vMt * EPow P2 (EVar vs2t) * EPow P3 (EVar vMst2) + #16240
   * EVar vMst2 * EPow P3 (EVar vMt) - #4 * EPow P2 (EVar vMst2) * (#6031 * EVar vs2t * EPow P2 (EVar vMt) - #520 *
   EVar vDmsqst2 * EPow P3 (EVar vs2t)) + #6895 * EPow P3 (EVar vs2t) * EPow P4 (EVar vMst2))) + EVar vDmglst2 * (#27
   * EPow P2 (EVar vMst1) * EPow P2 (EVar vMst2) * (- #800 * EVar vMst2 * EVar vs2t * EPow P2 (EVar vMt) - #907 * EVar
   vMt * EPow P2 (EVar vMst2) * EPow P2 (EVar vs2t) + #1984 * EPow P3 (EVar vMt) + #316 * EPow P3 (EVar vMst2) * EPow
   P3 (EVar vs2t)) + #2 * (- #66168 * EVar vMst2 * EVar vs2t * EPow P2 (EVar vMt) - #35601 * EVar vMt * EPow P2 (EVar
   vMst2) * EPow P2 (EVar vs2t) + #129704 * EPow P3 (EVar vMt) + #12664 * EPow P3 (EVar vMst2) * EPow P3 (EVar vs2t))
   * EPow P4 (EVar vMst1) + #189 * (#20 * EPow P3 (EVar vMt) * EPow P4 (EVar vMst2) - #15 * EVar vMt * EPow P2 (EVar
   vs2t) * EPow P6 (EVar vMst2) + #4 * EPow P3 (EVar vs2t) * EPow P7 (EVar vMst2)))) + #12 * EVar vs2t * EPow P2 (EVar
   vMt) * (#20 * EVar vDmsqst2 * (#1157625 * (#1968 * EVar vDmglst2 + EVar vMst2 * (- #1101 + #240 * EVar vlmMst2 +
   #32 * EConst COepS2 - #2916 * EConst CS2 + #648 * EVar vlmMst2 * EConst CS2 - #24 * EVar vlmMst1 * (#4 + #27 *
   EConst CS2))) * EPow P3 (EVar vMst2) * EPow P4 (EVar vMst1) + #83349000 * (#12 * EVar vDmglst2 + EVar vMst2 - #2 *
   EVar vlmMst2 * EVar vMst2) * EPow P2 (EVar vMst1) * EPow P5 (EVar vMst2) + #3087 * EVar vMst2 * (#27000 * EVar
   vDmglst2 * (#65 - #2 * EVar vlmMst1 + #2 * EVar vlmMst2) - EVar vMst2 * (#339977 - #20000 * EConst COepS2 + #1080 *
   EVar vlmMst2 * (#89 - #375 * EConst CS2) + #1714500 * EConst CS2 + #1080 * EVar vlmMst1 * (- #89 + #60 * EVar
   vlmMst2 + #375 * EConst CS2) - #32400 * (EPow P2 (EVar vlmMst1) + EPow P2 (EVar vlmMst2)))) * EPow P6 (EVar vMst1)
   - (#1094369501 - #72716000 * EConst COepS2 + #2520 * EVar vlmMst2 * (#235453 - #584325 * EConst CS2) + #5940931500
   * EConst CS2 + #2520 * EVar vlmMst1 * (- #235453 + #114345 * EVar vlmMst2 + #584325 * EConst CS2) - #144074700 *
   (EPow P2 (EVar vlmMst1) + EPow P2 (EVar vlmMst2))) * EPow P8 (EVar vMst1)) + EVar vMst2 * (- #77175 * (#979423 +
   #2880 * EConst CD3 - #2880 * EConst CDN + #73680 * EVar vlmMst1 + #34560 * EVar vlmMt - #25440 * EConst COepS2 +
   #972 * (- #141 + #530 * EVar vlmMst1 - #530 * EVar vlmMst2) * EConst CS2 + #44640 * EPow P2 (EVar vlmMst1) - #240 *
   EVar vlmMst2 * (- #1901 + #6 * EVar vlmMst1 + #117 * EPow P2 (EVar vlmMst1)) + #720 * (#207 + #16 * EVar vlmMst1) *
   EPow P2 (EVar vlmMst2) + #11520 * EPow P3 (EVar vlmMst1) + #5040 * EPow P3 (EVar vlmMst2)) * EPow P4 (EVar vMst1) *
   EPow P5 (EVar vMst2) - #5145 * (#19425643 + #518400 * EVar vlmMt - #1388000 * EConst COepS2 + #120 * EVar vlmMst2 *
   (#165994 + #8640 * EVar vlmMt - #234225 * EConst CS2) + #27723060 * EConst CS2 - #3600 * (#683 + #96 * EVar
   vlmMst2) * EPow P2 (EVar vlmMst1) + #5684400 * EPow P2 (EVar vlmMst2) - #120 * EVar vlmMst1 * (#84094 + #9600 *
   EVar vlmMst2 + #8640 * EVar vlmMt - #234225 * EConst CS2 + #12780 * EPow P2 (EVar vlmMst2)) - #295200 * EPow P3
   (EVar vlmMst1) + #2174400 * EPow P3 (EVar vlmMst2)) * EPow P3 (EVar vMst2) * EPow P6 (EVar vMst1) + #55566000 *
   (#71 + #122 * EVar vlmMst2 + #32 * EVar vlmMst1 * (#1 + EVar vlmMst2) + #59 * EPow P2 (EVar vlmMst2)) * EPow P2
   (EVar vMst1) * EPow P7 (EVar vMst2) - EVar vMst2 * (#149949681779 + #2667168000 * EVar vlmMt - #16549064000 *
   EConst COepS2 + #1260 * EVar vlmMst2 * (#141677449 + #8467200 * EVar vlmMt - #265967100 * EConst CS2) +
   #512266658400 * EConst CS2 - #264600 * (#90913 + #36750 * EVar vlmMst2 - #10080 * EVar vlmMt) * EPow P2 (EVar
   vlmMst1) + #264600 * (#189227 + #10080 * EVar vlmMt) * EPow P2 (EVar vlmMst2) - #1260 * EVar vlmMst1 * (#99165049 +
   #8467200 * EVar vlmMt + #420 * EVar vlmMst2 * (#28997 + #10080 * EVar vlmMt) - #265967100 * EConst CS2 + #6306300 *
   EPow P2 (EVar vlmMst2)) + #240786000 * EPow P3 (EVar vlmMst1) + #17429202000 * EPow P3 (EVar vlmMst2)) * EPow P8
   (EVar vMst1) - #12 * EVar vDmglst2 * (#617400 * (#12454 - #120 * EConst CB4 + #120 * EConst CD3 - #60 * EConst CDN
   + #690 * EVar vlmMst1 - #17091 * EConst CS2 + #345 * EPow P2 (EVar vlmMst1) - #5 * EVar vlmMst2 * (- #3121 + #42 *
   EVar vlmMst1 + #96 * EPow P2 (EVar vlmMst1)) + (#3630 - #480 * EVar vlmMst1) * EPow P2 (EVar vlmMst2) + #960 * EPow
   P3 (EVar vlmMst2)) * EPow P4 (EVar vMst1) * EPow P4 (EVar vMst2) + #2744 * EPow P2 (EVar vMst2) * (#3856958 -
   #27000 * EConst CB4 + #27000 * EConst CD3 - #13500 * EConst CDN + #1270770 * EVar vlmMst1 + #162000 * (- #2 + EVar
   vlmMst1 - EVar vlmMst2) * EVar vlmMt + #150000 * EConst COepS2 - #30375 * (#139 + #100 * EVar vlmMst1 - #100 * EVar
   vlmMst2) * EConst CS2 + #900 * EPow P2 (EVar vlmMst1) - #30 * EVar vlmMst2 * (- #153166 + #17835 * EVar vlmMst1 +
   #3375 * EPow P2 (EVar vlmMst1)) - #450 * (- #2627 + #1695 * EVar vlmMst1) * EPow P2 (EVar vlmMst2) - #2250 * EPow
   P3 (EVar vlmMst1) + #866250 * EPow P3 (EVar vlmMst2)) * EPow P6 (EVar vMst1) - #9261000 * (- #52 + #2 * (#51 + #16
   * EVar vlmMst1) * EVar vlmMst2 + #59 * EPow P2 (EVar vlmMst2)) * EPow P2 (EVar vMst1) * EPow P6 (EVar vMst2) + #5 *
   (#1297790971 - #14817600 * EConst CB4 + #14817600 * EConst CD3 - #7408800 * EConst CDN + #3134593140 * EVar vlmMst1
   + #504347200 * EConst COepS2 - #740880 * (#17269 + #13785 * EVar vlmMst1 - #13785 * EVar vlmMst2) * EConst CS2 +
   #426711600 * EPow P2 (EVar vlmMst1) + #420 * EVar vlmMst2 * (#2917823 - #3813600 * EVar vlmMst1 + #97020 * EPow P2
   (EVar vlmMst1)) - #176400 * (- #8677 + #5439 * EVar vlmMst1) * EPow P2 (EVar vlmMst2) - #88905600 * EVar vlmMt *
   (#4 + #6 * EVar vlmMst2 - #2 * EVar vlmMst1 * (#3 + EVar vlmMst2) + EPow P2 (EVar vlmMst1) + EPow P2 (EVar
   vlmMst2)) - #3704400 * EPow P3 (EVar vlmMst1) + #922395600 * EPow P3 (EVar vlmMst2)) * EPow P8 (EVar vMst1) +
   #296352000 * EVar vlmMst2 * (#1 + EVar vlmMst2) * EPow P8 (EVar vMst2)) - #889056000 * EPow P2 (#1 + EVar vlmMst2)
   * EPow P9 (EVar vMst2))) - #51450 * EVar vMt * EPow P2 (EVar vMst1) * EPow P2 (EVar vs2t) * (EVar vDmglst2 * (#9 *
   (#195293 + #639360 * EConst CB4 - #8640 * EConst CDN - #709200 * EVar vlmMst1 + #145120 * EConst COepS2 - #108 *
   (#23989 + #27210 * EVar vlmMst1 - #27210 * EVar vlmMst2) * EConst CS2 + #60480 * EPow P2 (EVar vlmMst1) + #720 *
   EVar vlmMst2 * (#2149 - #1296 * EVar vlmMst1 + #96 * EPow P2 (EVar vlmMst1)) - #8640 * (- #101 + #105 * EVar
   vlmMst1) * EPow P2 (EVar vlmMst2) + #838080 * EPow P3 (EVar vlmMst2)) * EPow P4 (EVar vMst1) * EPow P4 (EVar vMst2)
   - #2 * EPow P2 (EVar vMst2) * (#15069803 - #2877120 * EConst CB4 + #38880 * EConst CDN + #6325200 * EVar vlmMst1 -
   #1898720 * EConst COepS2 + #108 * (#525961 + #356010 * EVar vlmMst1 - #356010 * EVar vlmMst2) * EConst CS2 +
   #447120 * EPow P2 (EVar vlmMst1) - #360 * EVar vlmMst2 * (#28667 - #5238 * EVar vlmMst1 + #3024 * EPow P2 (EVar
   vlmMst1)) + #38880 * (- #60 + #157 * EVar vlmMst1) * EPow P2 (EVar vlmMst2) - #155520 * EPow P3 (EVar vlmMst1) -
   #4860000 * EPow P3 (EVar vlmMst2)) * EPow P6 (EVar vMst1) + #583200 * EVar vDmsqst2 * (#40 * (#1 - EVar vlmMst1 +
   EVar vlmMst2) * EPow P2 (EVar vMst2) * EPow P4 (EVar vMst1) - #4 * (#2 + #5 * EVar vlmMst1 - #5 * EVar vlmMst2) *
   EPow P2 (EVar vMst1) * EPow P4 (EVar vMst2) + (#80 - #43 * EVar vlmMst1 + #43 * EVar vlmMst2) * EPow P6 (EVar
   vMst1)) + #27 * EPow P2 (EVar vMst1) * (#46957 + #188640 * EConst CB4 - #3600 * EConst CDN - #37440 * EVar vlmMst1
   + #5600 * EConst COepS2 - #324 * (- #453 + #350 * EVar vlmMst1 - #350 * EVar vlmMst2) * EConst CS2 + #11520 * EPow
   P2 (EVar vlmMst1) - #2880 * EVar vlmMst2 * (- #221 + #55 * EVar vlmMst1 + #4 * EPow P2 (EVar vlmMst1)) - #1440 * (-
   #232 + #121 * EVar vlmMst1) * EPow P2 (EVar vlmMst2) + #185760 * EPow P3 (EVar vlmMst2)) * EPow P6 (EVar vMst2) +
   #622080 * (- #1 + #2 * EVar vlmMst2 + #3 * EPow P2 (EVar vlmMst2)) * EPow P8 (EVar vMst2)) + #15 * (- #38880 * EVar
   vDmsqst2 * EVar vMst2 * EPow P2 (EVar vMst1) * (#8 * (- EVar vlmMst1 + EVar vlmMst2) * EPow P2 (EVar vMst1) * EPow
   P2 (EVar vMst2) + (#4 - #9 * EVar vlmMst1 + #9 * EVar vlmMst2) * EPow P4 (EVar vMst1) - #4 * (#1 + EVar vlmMst1 -
   EVar vlmMst2) * EPow P4 (EVar vMst2)) + #3 * (#346405 + #62208 * EConst CB4 + #246672 * EVar vlmMst2 - #6688 *
   EConst COepS2 - #324 * (- #685 + #418 * EVar vlmMst2) * EConst CS2 + #1728 * (- #7 + #8 * EVar vlmMst2) * EPow P2
   (EVar vlmMst1) + #323136 * EPow P2 (EVar vlmMst2) - #216 * EVar vlmMst1 * (#990 + #1440 * EVar vlmMst2 - #627 *
   EConst CS2 + #584 * EPow P2 (EVar vlmMst2)) + #112320 * EPow P3 (EVar vlmMst2)) * EPow P4 (EVar vMst1) * EPow P5
   (EVar vMst2) + #2 * (#795601 + #93312 * EConst CB4 + #365040 * EVar vlmMst2 - #17056 * EConst COepS2 + #663444 *
   EConst CS2 - #345384 * EVar vlmMst2 * EConst CS2 + #432 * (#163 + #264 * EVar vlmMst2) * EPow P2 (EVar vlmMst1) +
   #592704 * EPow P2 (EVar vlmMst2) - #216 * EVar vlmMst1 * (#1609 + #3070 * EVar vlmMst2 - #1599 * EConst CS2 + #1692
   * EPow P2 (EVar vlmMst2)) - #3456 * EPow P3 (EVar vlmMst1) + #254880 * EPow P3 (EVar vlmMst2)) * EPow P3 (EVar
   vMst2) * EPow P6 (EVar vMst1) + #27 * EPow P2 (EVar vMst1) * (#27147 + #5280 * EConst CB4 - #48 * EConst CDN -
   #5952 * EVar vlmMst1 - #224 * EConst COepS2 + #324 * (- #1 + #14 * EVar vlmMst1 - #14 * EVar vlmMst2) * EConst CS2
   - #768 * EPow P2 (EVar vlmMst1) - #192 * EVar vlmMst2 * (- #198 + #73 * EVar vlmMst1 + #4 * EPow P2 (EVar vlmMst1))
   - #288 * (- #84 + #19 * EVar vlmMst1) * EPow P2 (EVar vlmMst2) + #6240 * EPow P3 (EVar vlmMst2)) * EPow P7 (EVar
   vMst2) + #41472 * EPow P2 (#1 + EVar vlmMst2) * EPow P9 (EVar vMst2))) - EVar vMst2 * EPow P3 (EVar vs2t) * (#120 *
   EVar vDmsqst2 * EVar vMst2 * EPow P2 (EVar vMst1) * (- #12348 * (#97294 - #10000 * EConst COepS2 + #398250 * EConst
   CS2 - #45 * EVar vlmMst2 * (#383 + #4500 * EConst CS2) + #45 * EVar vlmMst1 * (#233 + #330 * EVar vlmMst2 + #4500 *
   EConst CS2) - #7425 * (EPow P2 (EVar vlmMst1) + EPow P2 (EVar vlmMst2))) * EPow P2 (EVar vMst2) * EPow P4 (EVar
   vMst1) - #1157625 * (#1177 - #32 * EConst COepS2 - #4860 * EConst CS2 - #24 * EVar vlmMst2 * (#14 + #27 * EConst
   CS2) + #24 * EVar vlmMst1 * (#14 - #6 * EVar vlmMst2 + #27 * EConst CS2) + #144 * EPow P2 (EVar vlmMst2)) * EPow P2
   (EVar vMst1) * EPow P4 (EVar vMst2) - #2 * (#222209689 - #71344000 * EConst COepS2 + #10080 * EVar vlmMst2 *
   (#28298 - #143325 * EConst CS2) + #3213567000 * EConst CS2 + #1260 * EVar vlmMst1 * (- #226384 + #172935 * EVar
   vlmMst2 + #1146600 * EConst CS2) - #108949050 * (EPow P2 (EVar vlmMst1) + EPow P2 (EVar vlmMst2))) * EPow P6 (EVar
   vMst1) + #41674500 * (#1 - #2 * EVar vlmMst2) * EPow P6 (EVar vMst2)) + #3 * EPow P3 (EVar vMst2) * (- #1543500 *
   (#21005 + #1440 * EConst CB4 - #144 * EConst CD3 + #72 * EConst CDN + #21216 * EVar vlmMst1 - #2208 * EConst COepS2
   + #972 * (#307 + #46 * EVar vlmMst1 - #46 * EVar vlmMst2) * EConst CS2 + #1908 * EPow P2 (EVar vlmMst1) - #12 *
   EVar vlmMst2 * (#2950 - #2040 * EVar vlmMst1 + #117 * EPow P2 (EVar vlmMst1)) + #108 * (- #283 + #98 * EVar
   vlmMst1) * EPow P2 (EVar vlmMst2) + #576 * EPow P3 (EVar vlmMst1) - #9756 * EPow P3 (EVar vlmMst2)) * EPow P4 (EVar
   vMst1) * EPow P4 (EVar vMst2) - #41160 * EPow P2 (EVar vMst2) * (#4627751 + #48600 * EConst CB4 + #5400 * EConst
   CD3 - #5400 * EConst CDN + #1320240 * EVar vlmMst1 - #340000 * EConst COepS2 + #81000 * (#424 + #85 * EVar vlmMst1
   - #85 * EVar vlmMst2) * EConst CS2 - #662400 * EPow P2 (EVar vlmMst1) - #30 * EVar vlmMst2 * (#12148 - #76560 *
   EVar vlmMst1 + #12105 * EPow P2 (EVar vlmMst1)) + #2250 * (- #583 + #438 * EVar vlmMst1) * EPow P2 (EVar vlmMst2) -
   #49500 * EPow P3 (EVar vlmMst1) - #572850 * EPow P3 (EVar vlmMst2)) * EPow P6 (EVar vMst1) + #55566000 * (#119 +
   #218 * EVar vlmMst2 + #32 * EVar vlmMst1 * (#1 + EVar vlmMst2) + #107 * EPow P2 (EVar vlmMst2)) * EPow P2 (EVar
   vMst1) * EPow P6 (EVar vMst2) - (#96969711071 - #18919880000 * EConst COepS2 + #1260 * EVar vlmMst2 * (#58499851 -
   #304069500 * EConst CS2) + #1725694740000 * EConst CS2 - #1058400 * (#76483 + #26985 * EVar vlmMst2) * EPow P2
   (EVar vlmMst1) - #78893665200 * EPow P2 (EVar vlmMst2) + #1260 * EVar vlmMst1 * (- #61388401 + #126859740 * EVar
   vlmMst2 + #304069500 * EConst CS2 + #48421800 * EPow P2 (EVar vlmMst2)) - #1296540000 * EPow P3 (EVar vlmMst1) -
   #31154004000 * EPow P3 (EVar vlmMst2)) * EPow P8 (EVar vMst1) - #889056000 * EPow P2 (#1 + EVar vlmMst2) * EPow P8
   (EVar vMst2)) - #4 * EVar vDmglst2 * (- #6174 * (#5430043 - #948000 * EConst COepS2 + #60 * EVar vlmMst2 * (#8743 -
   #319950 * EConst CS2) - #218605500 * EConst CS2 + #900 * (- #859 + #3690 * EVar vlmMst2) * EPow P2 (EVar vlmMst1) +
   #1454400 * EPow P2 (EVar vlmMst2) - #60 * EVar vlmMst1 * (#51493 + #24630 * EVar vlmMst2 - #319950 * EConst CS2 +
   #112950 * EPow P2 (EVar vlmMst2)) + #45000 * EPow P3 (EVar vlmMst1) + #3411000 * EPow P3 (EVar vlmMst2)) * EPow P4
   (EVar vMst2) * EPow P6 (EVar vMst1) - #2315250 * (#14987 - #432 * EConst CB4 + #576 * EConst CD3 - #360 * EConst
   CDN + #4752 * EVar vlmMst1 - #224 * EConst COepS2 + #324 * (- #1677 + #14 * EVar vlmMst1 - #14 * EVar vlmMst2) *
   EConst CS2 - #1404 * EPow P2 (EVar vlmMst1) + #144 * EVar vlmMst2 * (- #81 - #124 * EVar vlmMst1 + #8 * EPow P2
   (EVar vlmMst1)) - #36 * (- #439 + #246 * EVar vlmMst1) * EPow P2 (EVar vlmMst2) + #7704 * EPow P3 (EVar vlmMst2)) *
   EPow P4 (EVar vMst1) * EPow P6 (EVar vMst2) - #5 * EPow P2 (EVar vMst2) * (#30586096049 - #3475001600 * EConst
   COepS2 + #1260 * EVar vlmMst2 * (#2171669 - #55848240 * EConst CS2) - #174295724400 * EConst CS2 + #793800 * (#433
   + #6552 * EVar vlmMst2) * EPow P2 (EVar vlmMst1) + #1577280600 * EPow P2 (EVar vlmMst2) - #1260 * EVar vlmMst1 *
   (#2740559 + #1524600 * EVar vlmMst2 - #55848240 * EConst CS2 + #7514640 * EPow P2 (EVar vlmMst2)) - #311169600 *
   EPow P3 (EVar vlmMst1) + #4578638400 * EPow P3 (EVar vlmMst2)) * EPow P8 (EVar vMst1) + #138915000 * EVar vDmsqst2
   * (- #36 * (#5 + #2 * EVar vlmMst1 - #2 * EVar vlmMst2) * EPow P4 (EVar vMst1) * EPow P4 (EVar vMst2) + #9 * (#55 -
   #34 * EVar vlmMst1 + #34 * EVar vlmMst2) * EPow P2 (EVar vMst2) * EPow P6 (EVar vMst1) - #108 * EPow P2 (EVar
   vMst1) * EPow P6 (EVar vMst2) + (#419 - #57 * EVar vlmMst1 + #57 * EVar vlmMst2) * EPow P8 (EVar vMst1)) -
   #83349000 * (- #20 + (#230 + #32 * EVar vlmMst1) * EVar vlmMst2 + #155 * EPow P2 (EVar vlmMst2)) * EPow P2 (EVar
   vMst1) * EPow P8 (EVar vMst2) + #2667168000 * EVar vlmMst2 * (#1 + EVar vlmMst2) * EPow P10 (EVar vMst2)))) /
   (#1500282000 * EVar vTbeta * EPow P4 (EVar vMst1))) / EPow P6 (EVar vMst2))).

(** H6b.cpp:2343-3242 *)
Definition H6b_getS12 : expr :=
  EVar vMuSUSY * (EVar vMt * EVar voneLoopFlag * EVar vs2t * (#4 * (EVar vlmMst1 - EVar vlmMst2) * EPow P2 (EVar vMt) -
   ((#2 + EVar vlmMst1 - EVar vlmMst2) * EPow P2 (EVar vMst1) + (- #2 + EVar vlmMst1 - EVar vlmMst2) * EPow P2 (EVar
   vMst2)) * EPow P2 (EVar vs2t) - #2 * EVar vMt * EVar vMuSUSY * EVar vs2t * (#2 - EVar vlmMst1 + EVar vlmMst2 - #2 *
   (EVar vlmMst1 - EVar vlmMst2) * EPow P2 (EVar vMst1) * (EPow P2 (EVar vMst1) + EPow P2 (EVar vMst2)) / EPow P4
   (EVar vMst2)) / EVar vTbeta) / #16 + EVar vAl4p * EVar vMt * EVar vtwoLoopFlag * (#12 * EVar vMt * EPow P2 (EVar
   vs2t) * (#2 * (EVar vMst2 * (#4 + #3 * EVar vlmMst2 - EVar vlmMst1 * (#1 + EVar vlmMst2) + EPow P2 (EVar vlmMst2))
   + (EVar vDmglst2 * (#5 + EVar vlmMst1 * (#3 - #2 * EVar vlmMst2) - #3 * EVar vlmMst2 + #2 * EPow P2 (EVar vlmMst2))
   + EVar vMst2 * (#1 + #3 * EVar vlmMst2 - EVar vlmMst1 * (#3 + #2 * EVar vlmMst2) + #2 * EPow P2 (EVar vlmMst2))) *
   EPow P2 (EVar vMst1) / EPow P2 (EVar vMst2)) + (EDec 5 1 + #7 * EVar vlmMst2 - EVar vlmMst1 * (#7 + #4 * EVar
   vlmMst2) + #4 * EPow P2 (EVar vlmMst2)) * EPow P4 (EVar vMst1) / EPow P3 (EVar vMst2) + EVar vDmglst2 * (#12 - #2 *
   EVar vlmMst1 * EVar vlmMst2 + #2 * (EVar vlmMst1 + EVar vlmMst2 + EPow P2 (EVar vlmMst2)) + (EDec 105 1 + EVar
   vlmMst1 * (#9 - #4 * EVar vlmMst2) - #9 * EVar vlmMst2 + #4 * EPow P2 (EVar vlmMst2)) * EPow P4 (EVar vMst1) / EPow
   P4 (EVar vMst2))) + #4 * EVar vs2t * EPow P2 (EVar vMt) * (#12 * EVar vlmMst1 + #4 * (- #2 + EVar vlmMst1) * EVar
   vlmMst2 + #2 * EPow P2 (EVar vlmMst1) - #6 * EPow P2 (EVar vlmMst2) - #4 * (#1 + EVar vlmMst2) * EPow P2 (EVar
   vMst2) / EPow P2 (EVar vMst1) + EVar vDmglst2 * (#4 + EVar vlmMst2 * (#8 - #8 * EPow P2 (EVar vMst2) / EPow P2
   (EVar vMst1))) / EVar vMst2 + #4 * (#1 - EVar vlmMst1 + EVar vlmMst2) * (#2 * EVar vDmglst2 + (EVar vlmMst1 - EVar
   vlmMst2) * EVar vMst2) * EPow P2 (EVar vMst1) / EPow P3 (EVar vMst2) - #4 * (EVar vDmglst2 * (- #2 + #4 * EVar
   vlmMst1 - #4 * EVar vlmMst2) + EVar vMst2 * (- EVar vlmMst1 + EVar vlmMst2 - #2 * EVar vlmMst1 * EVar vlmMst2 +
   EPow P2 (EVar vlmMst1) + EPow P2 (EVar vlmMst2))) * EPow P4 (EVar vMst1) / EPow P5 (EVar vMst2)) - #16 * EPow P3
   (EVar vMt) * (EVar vDmglst2 * (#2 * (- #7 + EVar vlmMst2 * (- #7 + EVar vlmMt) - EVar vlmMst1 * (- #5 + EVar vlmMt)
   + #2 * EVar vlmMt) * EPow P2 (EVar vMst1) * EPow P2 (EVar vMst2) + (- #11 + EVar vlmMst1 * (#32 + #6 * EVar vlmMst2
   - #8 * EVar vlmMt) + #8 * EVar vlmMst2 * (- #5 + EVar vlmMt) + #8 * EVar vlmMt - #6 * EPow P2 (EVar vlmMst2)) *
   EPow P4 (EVar vMst1) - #2 * (#5 + EVar vlmMst1 * (- #1 + EVar vlmMst2) + EVar vlmMst2 - EPow P2 (EVar vlmMst2)) *
   EPow P4 (EVar vMst2)) - EVar vMst2 * (#2 * (#4 + EVar vlmMst1 * (#3 + #2 * EVar vlmMst2 - EVar vlmMt) + EVar
   vlmMst2 * (- #4 + EVar vlmMt) + EVar vlmMt - #2 * EPow P2 (EVar vlmMst2)) * EPow P2 (EVar vMst1) * EPow P2 (EVar
   vMst2) + (#13 + #2 * EVar vlmMst1 * (#6 + #3 * EVar vlmMst2 - #2 * EVar vlmMt) + #2 * EVar vlmMt + #2 * EVar
   vlmMst2 * (- #7 + #2 * EVar vlmMt) - #6 * EPow P2 (EVar vlmMst2)) * EPow P4 (EVar vMst1) + #2 * (#2 + EVar vlmMst1
   - #2 * EVar vlmMst2 + EVar vlmMst1 * EVar vlmMst2 + EVar vlmMt - EPow P2 (EVar vlmMst2)) * EPow P4 (EVar vMst2))) /
   EPow P6 (EVar vMst2) + (EPow P3 (EVar vs2t) * (#2 * (- #16 + #6 * EVar vlmMst2 - #2 * EVar vlmMst1 * (#8 + #5 *
   EVar vlmMst2) + #3 * EPow P2 (EVar vlmMst1) + #7 * EPow P2 (EVar vlmMst2)) * EPow P3 (EVar vMst2) * EPow P4 (EVar
   vMst1) - #2 * (- #12 - #18 * EVar vlmMst2 + #2 * EVar vlmMst1 * (#5 + #3 * EVar vlmMst2) + EPow P2 (EVar vlmMst1) -
   #7 * EPow P2 (EVar vlmMst2)) * EPow P2 (EVar vMst1) * EPow P5 (EVar vMst2) + EVar vMst2 * (#3 + EVar vlmMst1 * (#2
   - #32 * EVar vlmMst2) - #2 * EVar vlmMst2 + #16 * EPow P2 (EVar vlmMst1) + #16 * EPow P2 (EVar vlmMst2)) * EPow P6
   (EVar vMst1) - #4 * EVar vDmglst2 * (#2 * (#1 + #2 * EVar vlmMst1 - EVar vlmMst2) * EPow P2 (EVar vMst2) * EPow P4
   (EVar vMst1) + #2 * (#1 + EVar vlmMst1 - EVar vlmMst2 + #2 * EVar vlmMst1 * EVar vlmMst2 - #2 * EPow P2 (EVar
   vlmMst2)) * EPow P2 (EVar vMst1) * EPow P4 (EVar vMst2) + (#1 + #2 * EVar vlmMst1 - #2 * EVar vlmMst2) * EPow P6
   (EVar vMst1) - #2 * EVar vlmMst2 * EPow P6 (EVar vMst2)) + #4 * (#1 + EVar vlmMst2) * EPow P7 (EVar vMst2)) / EPow
   P3 (EVar vMst2) - #2 * EVar vMt * EVar vMuSUSY * EVar vs2t * (#4 * (#4 * EVar vMt * (#5 + #6 * EVar vlmMst2 - EVar
   vlmMst1 * (#4 + #3 * EVar vlmMst2) + #3 * EPow P2 (EVar vlmMst2)) + EVar vMst2 * EVar vs2t * (- #1 + #13 * EVar
   vlmMst2 - EVar vlmMst1 * (#13 + #8 * EVar vlmMst2) + EPow P2 (EVar vlmMst1) + #7 * EPow P2 (EVar vlmMst2))) * EPow
   P3 (EVar vMst2) * EPow P4 (EVar vMst1) + #2 * (- (EVar vMst2 * EVar vs2t * (- #14 - #20 * EVar vlmMst2 + #2 * EVar
   vlmMst1 * (#5 + #3 * EVar vlmMst2) + EPow P2 (EVar vlmMst1) - #7 * EPow P2 (EVar vlmMst2))) + #8 * EVar vMt * (#4 +
   #3 * EVar vlmMst2 - EVar vlmMst1 * (#1 + EVar vlmMst2) + EPow P2 (EVar vlmMst2))) * EPow P2 (EVar vMst1) * EPow P5
   (EVar vMst2) + #4 * EVar vDmglst2 * (EVar vMst2 * EVar vs2t * (- #5 + #8 * EVar vlmMst2 - #4 * EVar vlmMst1 * (#2 +
   EVar vlmMst2) + #4 * EPow P2 (EVar vlmMst2)) + EVar vMt * (#65 + EVar vlmMst1 * (#34 - #20 * EVar vlmMst2) - #26 *
   EVar vlmMst2 + #20 * EPow P2 (EVar vlmMst2))) * EPow P6 (EVar vMst1) + EVar vMst2 * (EVar vMst2 * EVar vs2t * (- #1
   + #50 * EVar vlmMst2 - #2 * EVar vlmMst1 * (#25 + #32 * EVar vlmMst2) + #20 * EPow P2 (EVar vlmMst1) + #44 * EPow
   P2 (EVar vlmMst2)) + EVar vMt * (#84 + #152 * EVar vlmMst2 - #40 * EVar vlmMst1 * (#3 + #2 * EVar vlmMst2) + #80 *
   EPow P2 (EVar vlmMst2))) * EPow P6 (EVar vMst1) + #8 * EVar vDmglst2 * ((EVar vMst2 * EVar vs2t * (- #2 + #3 * EVar
   vlmMst2 - EVar vlmMst1 * (#3 + #2 * EVar vlmMst2) + #2 * EPow P2 (EVar vlmMst2)) + EVar vMt * (#22 + EVar vlmMst1 *
   (#8 - #6 * EVar vlmMst2) - #4 * EVar vlmMst2 + #6 * EPow P2 (EVar vlmMst2))) * EPow P2 (EVar vMst2) * EPow P4 (EVar
   vMst1) + (- (EVar vMst2 * EVar vs2t * (#1 + EVar vlmMst1 - #2 * EVar vlmMst2 + #2 * EVar vlmMst1 * EVar vlmMst2 -
   #2 * EPow P2 (EVar vlmMst2))) + #2 * EVar vMt * (#6 + EVar vlmMst1 + EVar vlmMst2 - EVar vlmMst1 * EVar vlmMst2 +
   EPow P2 (EVar vlmMst2))) * EPow P2 (EVar vMst1) * EPow P4 (EVar vMst2) + EVar vlmMst2 * EVar vs2t * EPow P7 (EVar
   vMst2)) + #4 * (#1 + EVar vlmMst2) * EVar vs2t * EPow P8 (EVar vMst2)) / (EVar vTbeta * EPow P6 (EVar vMst2))) /
   EPow P2 (EVar vMst1)) / #12 + EVar vAl4p * EVar vxDmglst2 * EPow P2 (EVar vDmglst2) * (EVar vMt * EVar vtwoLoopFlag
   * (- #2 * (EPow P2 (EVar vMst2) * (#36 * (#5 - #3 * EVar vlmMst1 + #3 * EVar vlmMst2) * EVar vMst2 * EVar vs2t *
   EPow P2 (EVar vMt) - #54 * (#12 + EVar vlmMst1 - EVar vlmMst2) * EVar vMt * EPow P2 (EVar vMst2) * EPow P2 (EVar
   vs2t) + #4 * (#155 + #3 * EVar vlmMst2 * (#41 - #6 * EVar vlmMt) - #18 * EVar vlmMst1 * (#4 + EVar vlmMst2 - EVar
   vlmMt) - #51 * EVar vlmMt + #18 * EPow P2 (EVar vlmMst2)) * EPow P3 (EVar vMt) - #9 * (#4 * EVar vlmMst1 - #5 *
   EVar vlmMst2) * EPow P3 (EVar vMst2) * EPow P3 (EVar vs2t)) * EPow P4 (EVar vMst1) + EPow P2 (EVar vMst1) * (#6 *
   (#17 - #6 * EVar vlmMst2) * EVar vMst2 * EVar vs2t * EPow P2 (EVar vMt) - #54 * (#8 + EVar vlmMst1 - EVar vlmMst2)
   * EVar vMt * EPow P2 (EVar vMst2) * EPow P2 (EVar vs2t) + #4 * (#11 + #18 * EVar vlmMst1 - #21 * EVar vlmMst2 + #3
   * EVar vlmMt) * EPow P3 (EVar vMt) + #9 * (#6 + #5 * EVar vlmMst2 + EVar vlmMst1 * (- #5 + #2 * EVar vlmMst2) - #2
   * EPow P2 (EVar vlmMst2)) * EPow P3 (EVar vMst2) * EPow P3 (EVar vs2t)) * EPow P4 (EVar vMst2)) - (#72 * (#9 - #10
   * EVar vlmMst1 + #10 * EVar vlmMst2) * EVar vMst2 * EVar vs2t * EPow P2 (EVar vMt) + #54 * (- #27 + #4 * EVar
   vlmMst1 - #4 * EVar vlmMst2) * EVar vMt * EPow P2 (EVar vMst2) * EPow P2 (EVar vs2t) + #8 * (#335 + #699 * EVar
   vlmMst2 - #18 * EVar vlmMst1 * (#29 + #7 * EVar vlmMst2 - #7 * EVar vlmMt) - #3 * (#59 + #42 * EVar vlmMst2) * EVar
   vlmMt + #126 * EPow P2 (EVar vlmMst2)) * EPow P3 (EVar vMt) + #9 * (#1 - #10 * EVar vlmMst1 + #10 * EVar vlmMst2) *
   EPow P3 (EVar vMst2) * EPow P3 (EVar vs2t)) * EPow P6 (EVar vMst1) + #18 * (- #2 + EVar vlmMst2) * EVar vs2t * (-
   #4 * EPow P2 (EVar vMt) + EPow P2 (EVar vMst2) * EPow P2 (EVar vs2t)) * EPow P7 (EVar vMst2) + #18 * EVar vMt *
   EVar vMuSUSY * EVar vs2t * (#2 * (- #8 * (#10 + EVar vlmMst1 - EVar vlmMst2) * EVar vMt + EVar vMst2 * EVar vs2t *
   (#8 - #9 * EVar vlmMst1 + #9 * EVar vlmMst2 + #2 * EVar vlmMst1 * EVar vlmMst2 - #2 * EPow P2 (EVar vlmMst2))) *
   EPow P2 (EVar vMst2) * EPow P4 (EVar vMst1) + #2 * (- #4 * (#8 + EVar vlmMst1 - EVar vlmMst2) * EVar vMt + EVar
   vMst2 * EVar vs2t * (#8 - #5 * EVar vlmMst1 + #4 * EVar vlmMst2 + #2 * EVar vlmMst1 * EVar vlmMst2 - #2 * EPow P2
   (EVar vlmMst2))) * EPow P2 (EVar vMst1) * EPow P4 (EVar vMst2) + (- #268 * EVar vMt + EVar vMst2 * EVar vs2t * (#17
   + #4 * EVar vlmMst1 * (- #7 + EVar vlmMst2) + #28 * EVar vlmMst2 - #4 * EPow P2 (EVar vlmMst2))) * EPow P6 (EVar
   vMst1) - #2 * (- #2 + EVar vlmMst2) * EVar vs2t * EPow P7 (EVar vMst2)) / EVar vTbeta) / (#54 * EPow P2 (EVar
   vMst1) * EPow P7 (EVar vMst2)) + EVar vAl4p * EVar vthreeLoopFlag * (EVar vs2t * EPow P3 (EVar vMt) * (#2 * (#652 -
   #32 * EVar vlmMst1 * (- #2 + EVar vlmMst2) + #70 * EVar vlmMst2 - #59 * EPow P2 (EVar vlmMst2)) / (#9 * EPow P2
   (EVar vMst1)) + (EDec 12884830687830688 13 - #16 * EConst CB4 / #9 + #16 * EConst CD3 / #9 + #184 * EVar vlmMst1 /
   #3 - #32 * EVar vlmMt / #9 + #2 * EVar vlmMst2 * (#6695 + #1002 * EVar vlmMst1 - #96 * EPow P2 (EVar vlmMst1)) /
   #27 + #82 * EPow P2 (EVar vlmMst1) / #9 - #8 * (EConst CDN + (#47 + #8 * EVar vlmMst1) * EPow P2 (EVar vlmMst2)) /
   #9 + #128 * EPow P3 (EVar vlmMst2) / #9) / EPow P2 (EVar vMst2) - #64 * (#2 + EVar vlmMst2 - #3 * EPow P2 (EVar
   vlmMst2)) * EPow P2 (EVar vMst2) / (#9 * EPow P4 (EVar vMst1)) - EConst CS2 * ((EDec 8965714285714286 14 + #84 *
   EVar vlmMst1 - #84 * EVar vlmMst2) / EPow P2 (EVar vMst2) + (EDec 8473523809523809 13 + #480 * EVar vlmMst1 - #480
   * EVar vlmMst2) * EPow P2 (EVar vMst1) / EPow P4 (EVar vMst2)) + (#16 * EConst COepS2 * (#40 * EPow P2 (EVar vMst1)
   + #7 * EPow P2 (EVar vMst2)) / #27 + EPow P2 (EVar vMst1) * (EDec 18039172204585539 13 - #16 * EConst CB4 / #9 +
   #16 * EConst CD3 / #9 - #8 * EConst CDN / #9 + #225124 * EVar vlmMst1 / #675 + #32 * (#17 - #5 * EVar vlmMst1 + #5
   * EVar vlmMst2) * EVar vlmMt / #9 + #4 * EVar vlmMst2 * (#136544 + #53535 * EVar vlmMst1 - #1425 * EPow P2 (EVar
   vlmMst1)) / #675 + #224 * EPow P2 (EVar vlmMst1) / #15 - #4 * (#3257 + #545 * EVar vlmMst1) * EPow P2 (EVar
   vlmMst2) / #45 + #4 * EPow P3 (EVar vlmMst1) / #9 + #508 * EPow P3 (EVar vlmMst2) / #9)) / EPow P4 (EVar vMst2)) +
   EVar vMt * (EPow P3 (EVar vs2t) * (EDec 4646594650205761 14 - #38 * EConst CB4 / #9 + #40 * EConst CD3 / #9 - #7 *
   EConst CDN / #3 + #98 * EVar vlmMst1 / #3 - #25 * EPow P2 (EVar vlmMst1) / #18 + EVar vlmMst2 * (- #1493 - #24 *
   EVar vlmMst1 + #48 * EPow P2 (EVar vlmMst1)) / #27 + #4 * EConst COepS2 * (#21 + #1157 * EPow P2 (EVar vMst1) /
   EPow P2 (EVar vMst2)) / #729 + (- ((#247 + #246 * EVar vlmMst1) * EPow P2 (EVar vlmMst2)) + (- #876 + #32 * EVar
   vlmMst1 * (- #2 + EVar vlmMst2) - #70 * EVar vlmMst2 + #347 * EPow P2 (EVar vlmMst2)) * EPow P2 (EVar vMst2) / EPow
   P2 (EVar vMst1)) / #18 - (EConst CS2 * ((#648463 + #34710 * EVar vlmMst1 - #34710 * EVar vlmMst2) * EPow P2 (EVar
   vMst1) + #9 * (#65819 + #70 * EVar vlmMst1 - #70 * EVar vlmMst2) * EPow P2 (EVar vMst2)) / #270 + EPow P2 (EVar
   vMst1) * (EDec 12389529492455418 15 + #32 * EConst CB4 / #9 - #32 * EConst CD3 / #9 + #16 * EConst CDN / #9 +
   #138661 * EVar vlmMst1 / #4050 + #159 * EPow P2 (EVar vlmMst1) / #10 - EVar vlmMst2 * (EDec 267558024691358 13 +
   #229 * EVar vlmMst1 / #5 + #143 * EPow P2 (EVar vlmMst1) / #9) + (#1333 + #1355 * EVar vlmMst1) * EPow P2 (EVar
   vlmMst2) / #45 + #5 * EPow P3 (EVar vlmMst1) / #9 - #133 * EPow P3 (EVar vlmMst2) / #9)) / EPow P2 (EVar vMst2) +
   #107 * EPow P3 (EVar vlmMst2) / #9 + #16 * (#2 + EVar vlmMst2 - #3 * EPow P2 (EVar vlmMst2)) * EPow P4 (EVar vMst2)
   / (#9 * EPow P4 (EVar vMst1))) - #2 * EConst CT1ep * (#21 * EPow P2 (EVar vMst2) * (#36 * EVar vMst2 * EVar vs2t *
   EPow P2 (EVar vMt) - #24 * EVar vMt * EPow P2 (EVar vMst2) * EPow P2 (EVar vs2t) + #32 * EPow P3 (EVar vMt) + EPow
   P3 (EVar vMst2) * EPow P3 (EVar vs2t)) + EPow P2 (EVar vMst1) * (#4320 * EVar vMst2 * EVar vs2t * EPow P2 (EVar
   vMt) - #8715 * EVar vMt * EPow P2 (EVar vMst2) * EPow P2 (EVar vs2t) + #17584 * EPow P3 (EVar vMt) + #1157 * EPow
   P3 (EVar vMst2) * EPow P3 (EVar vs2t))) / (#243 * EPow P5 (EVar vMst2))) + #2 * (- #3 * (#1648637 + #1173060 * EVar
   vlmMt - #15680 * EConst COepS2 + #1680 * EVar vlmMst2 * (- #1214 + #42 * EVar vlmMt - #189 * EConst CS2) - #953208
   * EConst CS2 + #7560 * EVar vlmMst1 * (#131 + #33 * EVar vlmMst2 - #8 * EVar vlmMt + #42 * EConst CS2) + #30240 *
   EPow P2 (EVar vlmMst1) - #304920 * EPow P2 (EVar vlmMst2) + #15120 * EPow P2 (EVar vlmMt)) * EPow P2 (EVar vMst1) *
   EPow P2 (EVar vMst2) + #2 * (- #1657412 - #7512750 * EVar vlmMt + #615440 * EConst COepS2 + #4340358 * EConst CS2 +
   #11340 * (#35 + #4 * EVar vlmMst2 - #4 * EVar vlmMt) * EPow P2 (EVar vlmMst1) + #945 * (- #1981 + #48 * EVar vlmMt)
   * EPow P2 (EVar vlmMst2) + #315 * EVar vlmMst1 * (- #4223 + #2679 * EVar vlmMst2 + #201 * EVar vlmMt - #39564 *
   EConst CS2 + #432 * EPow P2 (EVar vlmMst2) - #432 * EPow P2 (EVar vlmMt)) + #385560 * EPow P2 (EVar vlmMt) + #945 *
   EVar vlmMst2 * (#5321 + #193 * EVar vlmMt + #13188 * EConst CS2 + #144 * EPow P2 (EVar vlmMt)) - #181440 * EPow P3
   (EVar vlmMst2)) * EPow P4 (EVar vMst1) - #181440 * (- #3 - #4 * EVar vlmMst2 + #3 * EPow P2 (EVar vlmMst2)) * EPow
   P4 (EVar vMst2)) * EPow P4 (EVar vMt) / (#25515 * EPow P2 (EVar vMst1) * EPow P5 (EVar vMst2)) + EPow P2 (EVar vMt)
   * (- (EPow P2 (EVar vs2t) * (#32 * EVar vMst2 * (#3 + #4 * EVar vlmMst2 - #3 * EPow P2 (EVar vlmMst2)) / (#3 * EPow
   P2 (EVar vMst1)) + (EDec 38051604938271606 14 - #76 * EConst CB4 + #2 * EConst CDN - #292 * EVar vlmMst1 + #2 *
   (#631 - #438 * EVar vlmMst1) * EVar vlmMst2 / #9 - #16 * EPow P2 (EVar vlmMst1) / #3 + #4 * (#53 + #48 * EVar
   vlmMst1) * EPow P2 (EVar vlmMst2) / #3 - #64 * EPow P3 (EVar vlmMst2)) / EVar vMst2 + (#28 * EConst COepS2 * (#415
   * EPow P2 (EVar vMst1) + #24 * EPow P2 (EVar vMst2)) / #243 - EConst CS2 * ((#21422 + #87150 * EVar vlmMst1 -
   #87150 * EVar vlmMst2) * EPow P2 (EVar vMst1) + #9 * (- #1373 + #560 * EVar vlmMst1 - #560 * EVar vlmMst2) * EPow
   P2 (EVar vMst2)) / #90 + EPow P2 (EVar vMst1) * (EDec 9993816872427983 14 - #76 * EConst CB4 + #2 * EConst CDN -
   #6424 * EVar vlmMst1 / #27 - #4 * (#293 + #1152 * EVar vlmMst1) * EVar vlmMst2 / #27 + #92 * EPow P2 (EVar vlmMst1)
   / #3 + #4 * (#35 + #16 * EVar vlmMst1) * EPow P2 (EVar vlmMst2) - #64 * EPow P3 (EVar vlmMst2))) / EPow P3 (EVar
   vMst2))) - EVar vMuSUSY * (#75 * EPow P2 (EVar vMst2) * (- #8 * EVar vMst2 * EVar vMt * EVar vs2t * (#334138 -
   #61560 * EConst CB4 + #1620 * EConst CDN - #236520 * EVar vlmMst1 - #180 * (- #823 + #438 * EVar vlmMst1) * EVar
   vlmMst2 + #2240 * EConst COepS2 - #81 * (- #1373 + #560 * EVar vlmMst1 - #560 * EVar vlmMst2) * EConst CS2 - #3360
   * EConst CT1ep - #4320 * EPow P2 (EVar vlmMst1) + #1080 * (#29 + #48 * EVar vlmMst1) * EPow P2 (EVar vlmMst2) -
   #51840 * EPow P3 (EVar vlmMst2)) + EPow P2 (EVar vMst2) * EPow P2 (EVar vs2t) * (#13169 - #41040 * EConst CB4 +
   #43200 * EConst CD3 - #22680 * EConst CDN + #282960 * EVar vlmMst1 + #1120 * EConst COepS2 - #324 * (#65819 + #70 *
   EVar vlmMst1 - #70 * EVar vlmMst2) * EConst CS2 - #1680 * EConst CT1ep - #13500 * EPow P2 (EVar vlmMst1) + #720 *
   EVar vlmMst2 * (- #775 + #12 * EVar vlmMst1 + #24 * EPow P2 (EVar vlmMst1)) - #1080 * (- #2 + #123 * EVar vlmMst1)
   * EPow P2 (EVar vlmMst2) + #115560 * EPow P3 (EVar vlmMst2)) + #96 * EPow P2 (EVar vMt) * (#33934 - #90 * EConst
   CB4 + #90 * EConst CD3 - #45 * EConst CDN + #120 * (#163 + #24 * EVar vlmMst1) * EVar vlmMst2 - #120 * EVar vlmMt -
   #10206 * EConst CS2 - #720 * (#2 + EVar vlmMst1) * EPow P2 (EVar vlmMst2) + #720 * (EVar vlmMst1 + EPow P3 (EVar
   vlmMst2)))) * EPow P4 (EVar vMst1) - #40500 * EVar vs2t * (EVar vMst2 * EVar vs2t * (#812 - #32 * EVar vlmMst1 * (-
   #2 + EVar vlmMst2) + #38 * EVar vlmMst2 - #251 * EPow P2 (EVar vlmMst2)) + #128 * EVar vMt * (#3 + #4 * EVar
   vlmMst2 - #3 * EPow P2 (EVar vlmMst2))) * EPow P2 (EVar vMst1) * EPow P5 (EVar vMst2) + #2 * (- #2 * EPow P2 (EVar
   vMst2) * EPow P2 (EVar vs2t) * (#2011073 + #1417500 * EConst CB4 - #1458000 * EConst CD3 + #749250 * EConst CDN +
   #934245 * EVar vlmMst1 - #1178000 * EConst COepS2 + #1350 * (#620417 + #17670 * EVar vlmMst1 - #17670 * EVar
   vlmMst2) * EConst CS2 + #1767000 * EConst CT1ep + #3150900 * EPow P2 (EVar vlmMst1) - #45 * EVar vlmMst2 * (-
   #124139 + #189090 * EVar vlmMst1 + #71550 * EPow P2 (EVar vlmMst1)) + #4050 * (#1323 + #1970 * EVar vlmMst1) * EPow
   P2 (EVar vlmMst2) + #101250 * EPow P3 (EVar vlmMst1) - #4860000 * EPow P3 (EVar vlmMst2)) - #125 * EVar vMst2 *
   EVar vMt * EVar vs2t * (#996211 - #295488 * EConst CB4 + #7776 * EConst CDN - #1030176 * EVar vlmMst1 - #144 * (-
   #1883 + #3618 * EVar vlmMst1) * EVar vlmMst2 + #98336 * EConst COepS2 - #756 * (#259 + #2634 * EVar vlmMst1 - #2634
   * EVar vlmMst2) * EConst CS2 - #147504 * EConst CT1ep + #49248 * EPow P2 (EVar vlmMst1) + #5184 * (#67 + #48 * EVar
   vlmMst1) * EPow P2 (EVar vlmMst2) - #248832 * EPow P3 (EVar vlmMst2)) + #150 * EPow P2 (EVar vMt) * (#2199511 -
   #4320 * EConst CB4 + #4320 * EConst CD3 - #2160 * EConst CDN + #140160 * EVar vlmMst1 + #960 * (#1426 + #303 * EVar
   vlmMst1) * EVar vlmMst2 - #2880 * (- #16 + #5 * EVar vlmMst1 - #5 * EVar vlmMst2) * EVar vlmMt - #1120 * EConst
   COepS2 + #324 * (- #3411 + #70 * EVar vlmMst1 - #70 * EVar vlmMst2) * EConst CS2 + #1680 * EConst CT1ep - #2880 *
   (#77 + #24 * EVar vlmMst1) * EPow P2 (EVar vlmMst2) + #69120 * EPow P3 (EVar vlmMst2))) * EPow P6 (EVar vMst1) +
   #1296000 * (#2 + EVar vlmMst2 - #3 * EPow P2 (EVar vlmMst2)) * EPow P2 (EVar vs2t) * EPow P8 (EVar vMst2)) /
   (#364500 * EVar vTbeta * EPow P4 (EVar vMst1) * EPow P6 (EVar vMst2))))) - EVar vAl4p * EVar vMt * EVar vxDR2DRMOD
   * (#54 * EVar vs2t * EPow P2 (EVar vMst1) * (- #5 * EVar vAl4p * EVar vthreeLoopFlag * EVar vxDmsqst2 * EPow P2
   (EVar vDmsqst2) * ((- #2 * EVar vlmMst1 + #2 * EVar vlmMst2) * EVar vs2t * EPow P2 (EVar vMst1) * (#2 * EVar vMt *
   EVar vMuSUSY * EPow P2 (EVar vMst1) + (#14 * EVar vDmglst2 * EVar vMst2 + #19 * EVar vxDmglst2 * EPow P2 (EVar
   vDmglst2) + EPow P2 (EVar vMst2)) * (#2 * EVar vMt * EVar vMuSUSY - EVar vs2t * EVar vTbeta * EPow P2 (EVar
   vMst2))) + (#14 * EVar vDmglst2 * EVar vMst2 + #19 * EVar vxDmglst2 * EPow P2 (EVar vDmglst2) + EPow P2 (EVar
   vMst2)) * (#2 * EVar vMt * (EVar vMuSUSY * EVar vs2t - #2 * EVar vMt * EVar vTbeta) * EPow P2 (EVar vMst1) + EPow
   P2 (EVar vMst2) * (#2 * EVar vMt * EVar vMuSUSY * EVar vs2t + #4 * EVar vTbeta * EPow P2 (EVar vMt) - EVar vTbeta *
   EPow P2 (EVar vMst2) * EPow P2 (EVar vs2t)) + EVar vTbeta * EPow P2 (EVar vs2t) * EPow P4 (EVar vMst1))) + #4 *
   EVar vMst2 * (#2 * EVar vDmglst2 * EVar vlmMst2 + EVar vMst2 + EVar vlmMst2 * EVar vMst2) * EVar vtwoLoopFlag * (-
   ((#2 * EVar vMt * (EVar vMuSUSY * EVar vs2t - #2 * EVar vMt * EVar vTbeta) * EPow P2 (EVar vMst1) + EPow P2 (EVar
   vMst2) * (#2 * EVar vMt * EVar vMuSUSY * EVar vs2t + #4 * EVar vTbeta * EPow P2 (EVar vMt) - EVar vTbeta * EPow P2
   (EVar vMst2) * EPow P2 (EVar vs2t)) + EVar vTbeta * EPow P2 (EVar vs2t) * EPow P4 (EVar vMst1)) * EPow P4 (EVar
   vMst2)) + #2 * (EVar vlmMst1 - EVar vlmMst2) * EVar vs2t * EPow P2 (EVar vMst1) * (#2 * EVar vMt * EVar vMuSUSY *
   (EPow P2 (EVar vMst1) * EPow P2 (EVar vMst2) + EPow P4 (EVar vMst1) + EPow P4 (EVar vMst2)) - EVar vs2t * EVar
   vTbeta * EPow P6 (EVar vMst2)))) + EVar vxDmglst2 * EPow P2 (EVar vDmglst2) * (#216 * (#2 - EVar vlmMst2) * EVar
   vs2t * EVar vtwoLoopFlag * EPow P2 (EVar vMst1) * (EVar vTbeta * (- #4 * EPow P2 (EVar vMst1) * EPow P2 (EVar vMt)
   + #4 * EPow P2 (EVar vMst2) * EPow P2 (EVar vMt) + #2 * (EVar vlmMst1 - EVar vlmMst2) * EPow P2 (EVar vMst1) * EPow
   P2 (EVar vMst2) * EPow P2 (EVar vs2t) + EPow P2 (EVar vs2t) * (EPow P4 (EVar vMst1) - EPow P4 (EVar vMst2))) * EPow
   P4 (EVar vMst2) + #2 * EVar vMt * EVar vMuSUSY * EVar vs2t * ((EPow P2 (EVar vMst1) + EPow P2 (EVar vMst2)) * EPow
   P4 (EVar vMst2) - #2 * (EVar vlmMst1 - EVar vlmMst2) * EPow P2 (EVar vMst1) * (EPow P2 (EVar vMst1) * EPow P2 (EVar
   vMst2) + EPow P4 (EVar vMst1) + EPow P4 (EVar vMst2)))) + EVar vAl4p * EVar vthreeLoopFlag * (- #8 * EVar vTbeta *
   EPow P2 (EVar vMst2) * (#3510 * EVar vDmsqst2 * EVar vs2t * EPow P2 (EVar vMt) - #144 * EVar vMt * EPow P2 (EVar
   vs2t) * (#13 - #125 * EVar vlmMst2 + #6 * EVar vlmMst1 * (#7 + #8 * EVar vlmMst2 - #6 * EPow P2 (EVar vlmMst2)) -
   #30 * EPow P2 (EVar vlmMst2) + #36 * EPow P3 (EVar vlmMst2)) * EPow P3 (EVar vMst2) + #64 * EVar vMst2 * (#215 +
   #37 * EVar vlmMst2 + #3 * (- #5 + #8 * EVar vlmMst2) * EVar vlmMt - #18 * EVar vlmMst1 * (#1 - #2 * EVar vlmMst2 +
   EVar vlmMt) - #42 * EPow P2 (EVar vlmMst2)) * EPow P3 (EVar vMt) + #3 * EPow P2 (EVar vMst2) * (#2 * EVar vs2t *
   EPow P2 (EVar vMt) * (#964 + #306 * EVar vlmMst2 + #96 * (- #2 + EVar vlmMst2) * EPow P2 (EVar vlmMst1) - #81 *
   EPow P2 (EVar vlmMst2) + #96 * (EVar vlmMst1 + #3 * EVar vlmMst1 * EVar vlmMst2 - #2 * EVar vlmMst1 * EPow P2 (EVar
   vlmMst2) + EPow P3 (EVar vlmMst2))) - #585 * EVar vDmsqst2 * (EVar vlmMst1 - EVar vlmMst2) * EPow P3 (EVar vs2t) +
   EPow P2 (EVar vMst2) * (#200 + #1196 * EVar vlmMst2 - #48 * (- #2 + EVar vlmMst2) * EPow P2 (EVar vlmMst1) + #306 *
   EPow P2 (EVar vlmMst2) + #3 * EVar vlmMst1 * (- #492 + #10 * EVar vlmMst2 + #123 * EPow P2 (EVar vlmMst2)) - #321 *
   EPow P3 (EVar vlmMst2)) * EPow P3 (EVar vs2t))) * EPow P4 (EVar vMst1) - #4 * EVar vMst2 * EVar vTbeta * (- #1728 *
   EVar vMt * EPow P2 (EVar vMst2) * EPow P2 (EVar vs2t) * (#15 - #11 * EVar vlmMst2 + EVar vlmMst1 * (#4 + #7 * EVar
   vlmMst2 - #6 * EPow P2 (EVar vlmMst2)) - #7 * EPow P2 (EVar vlmMst2) + #6 * EPow P3 (EVar vlmMst2)) + #128 * (#1097
   + EVar vlmMst2 * (#1531 - #246 * EVar vlmMt) - #339 * EVar vlmMt + (#444 - #36 * EVar vlmMt) * EPow P2 (EVar
   vlmMst2) - #18 * EVar vlmMst1 * (#39 - #2 * EVar vlmMst2 * (- #9 + EVar vlmMt) - #7 * EVar vlmMt + #2 * EPow P2
   (EVar vlmMst2)) + #36 * EPow P3 (EVar vlmMst2)) * EPow P3 (EVar vMt) + EVar vMst2 * (#1152 * EVar vs2t * EPow P2
   (EVar vMt) * (#26 + #29 * EVar vlmMst2 + (- #2 + EVar vlmMst2) * EPow P2 (EVar vlmMst1) + #4 * EPow P2 (EVar
   vlmMst2) - #2 * EVar vlmMst1 * (#8 + EVar vlmMst2 + EPow P2 (EVar vlmMst2)) + EPow P3 (EVar vlmMst2)) - #3 * (#585
   * EVar vDmsqst2 + EPow P2 (EVar vMst2) * (- #476 - #1790 * EVar vlmMst2 + #768 * (- #2 + EVar vlmMst2) * EPow P2
   (EVar vlmMst1) - #1617 * EPow P2 (EVar vlmMst2) - #96 * EVar vlmMst1 * (- #13 - #33 * EVar vlmMst2 + #16 * EPow P2
   (EVar vlmMst2)) + #768 * EPow P3 (EVar vlmMst2))) * EPow P3 (EVar vs2t))) * EPow P6 (EVar vMst1) - #24 * EVar vs2t
   * (#48 * EVar vTbeta * (#2 + EVar vlmMst2 - #3 * EPow P2 (EVar vlmMst2)) * (#4 * EPow P2 (EVar vMt) - EPow P2 (EVar
   vMst2) * EPow P2 (EVar vs2t)) * EPow P8 (EVar vMst2) + EVar vMt * EVar vMuSUSY * (EPow P2 (EVar vMst2) * (#585 *
   EVar vDmsqst2 * (- #1 + #2 * EVar vlmMst1 - #2 * EVar vlmMst2) * EVar vs2t - #64 * EVar vMst2 * EVar vMt * (#5 +
   #149 * EVar vlmMst2 + #12 * EPow P2 (EVar vlmMst2) + #6 * EVar vlmMst1 * (- #7 - #8 * EVar vlmMst2 + #6 * EPow P2
   (EVar vlmMst2)) - #36 * EPow P3 (EVar vlmMst2)) + EVar vs2t * EPow P2 (EVar vMst2) * (- #1540 - #2506 * EVar
   vlmMst2 + #96 * (- #2 + EVar vlmMst2) * EPow P2 (EVar vlmMst1) + EVar vlmMst1 * (#2760 + #36 * EVar vlmMst2 - #738
   * EPow P2 (EVar vlmMst2)) + #141 * EPow P2 (EVar vlmMst2) + #642 * EPow P3 (EVar vlmMst2))) * EPow P4 (EVar vMst1)
   + #3 * EPow P2 (EVar vMst1) * (- #195 * EVar vDmsqst2 * EVar vs2t + #128 * EVar vMst2 * EVar vMt * (- #3 - #4 *
   EVar vlmMst2 + #3 * EPow P2 (EVar vlmMst2)) + EVar vs2t * (- #380 + #32 * EVar vlmMst1 * (- #2 + EVar vlmMst2) -
   #38 * EVar vlmMst2 + #251 * EPow P2 (EVar vlmMst2)) * EPow P2 (EVar vMst2)) * EPow P4 (EVar vMst2) + #2 * (#585 *
   EVar vDmsqst2 * (EVar vlmMst1 - EVar vlmMst2) * EVar vs2t + #32 * EVar vMst2 * EVar vMt * (#85 - #215 * EVar
   vlmMst2 + EVar vlmMst1 * (#66 + #90 * EVar vlmMst2 - #72 * EPow P2 (EVar vlmMst2)) - #54 * EPow P2 (EVar vlmMst2) +
   #72 * EPow P3 (EVar vlmMst2)) + #3 * EVar vs2t * EPow P2 (EVar vMst2) * (- #336 - #716 * EVar vlmMst2 + #144 * (-
   #2 + EVar vlmMst2) * EPow P2 (EVar vlmMst1) + EVar vlmMst1 * (#668 + #534 * EVar vlmMst2 - #379 * EPow P2 (EVar
   vlmMst2)) - #246 * EPow P2 (EVar vlmMst2) + #235 * EPow P3 (EVar vlmMst2))) * EPow P6 (EVar vMst1) + #96 * EVar
   vs2t * (#2 + EVar vlmMst2 - #3 * EPow P2 (EVar vlmMst2)) * EPow P8 (EVar vMst2))) + #9 * EVar vTbeta * EPow P2
   (EVar vMst1) * (#3120 * EVar vDmsqst2 * EVar vs2t * EPow P2 (EVar vMt) * EPow P4 (EVar vMst2) + #4 * (#4 * EVar
   vs2t * (#220 - #32 * EVar vlmMst1 * (- #2 + EVar vlmMst2) + #70 * EVar vlmMst2 - #59 * EPow P2 (EVar vlmMst2)) *
   EPow P2 (EVar vMt) - #195 * EVar vDmsqst2 * EPow P3 (EVar vs2t)) * EPow P6 (EVar vMst2) + #256 * (- #3 - #4 * EVar
   vlmMst2 + #3 * EPow P2 (EVar vlmMst2)) * (- #4 * EPow P3 (EVar vMt) * EPow P5 (EVar vMst2) + #3 * EVar vMt * EPow
   P2 (EVar vs2t) * EPow P7 (EVar vMst2)) + EPow P3 (EVar vs2t) * (#45 * EPow P4 (EVar vDmsqst2) + #4 * (- #444 + #32
   * EVar vlmMst1 * (- #2 + EVar vlmMst2) - #70 * EVar vlmMst2 + #347 * EPow P2 (EVar vlmMst2)) * EPow P8 (EVar
   vMst2)))))) / (#648 * EVar vTbeta * EPow P4 (EVar vMst1) * EPow P6 (EVar vMst2))) + EVar vMt * (EVar vxMst * (#27 *
   (EVar vlmMst1 - EVar vlmMst2) * EVar vMt * EVar voneLoopFlag * EPow P2 (EVar vMuSUSY) * EPow P2 (EVar vs2t) * EPow
   P3 (EVar vMst2) - EVar vAl4p * EVar vtwoLoopFlag * (#2 * EVar vxDmglst2 * EPow P2 (EVar vDmglst2) * (- (EVar vMst2
   * EVar vMt * EPow P2 (EVar vs2t) * (#18 * (#85 - #36 * EVar vlmMst1 + #36 * EVar vlmMst2) * EVar vMst2 * EVar
   vMuSUSY * EVar vTbeta + (#314 + #24 * EVar vlmMst2 * (#29 - #6 * EVar vxDR2DRMOD) - #24 * EVar vlmMst1 * (#29 + #3
   * EVar vlmMst2 * (- #1 + EVar vxDR2DRMOD) - #6 * EVar vxDR2DRMOD) + #72 * (- #1 + EVar vxDR2DRMOD) * EPow P2 (EVar
   vlmMst2)) * EPow P2 (EVar vMuSUSY) + #15 * (- #43 + #60 * EVar vlmMst1 - #60 * EVar vlmMst2) * EPow P2 (EVar vMst2)
   * (- #1 + EPow P2 (EVar vSbeta)) * EPow P2 (EVar vSbeta))) + EVar vMuSUSY * (#6 * EVar vs2t * EPow P2 (EVar vMt) *
   (#8 * (#143 - #18 * EVar vlmMst1 + #18 * EVar vlmMst2) * EVar vMuSUSY + EVar vMst2 * EVar vTbeta * (#371 + EVar
   vlmMst2 * (#552 - #600 * EPow P2 (EVar vSbeta)) - #430 * EPow P2 (EVar vSbeta) + #24 * EVar vlmMst1 * (- #23 + #25
   * EPow P2 (EVar vSbeta)))) + EVar vTbeta * (#8 * (#398 + EVar vlmMst2 * (#2085 - #396 * EVar vlmMt) - #18 * EVar
   vlmMst1 * (#95 + #22 * EVar vlmMst2 - #22 * EVar vlmMt) - #375 * EVar vlmMt + #396 * EPow P2 (EVar vlmMst2)) * EPow
   P3 (EVar vMt) + #4 * (#1 - #24 * EVar vlmMst1 + #24 * EVar vlmMst2) * EPow P3 (EVar vMst2) * EPow P3 (EVar vs2t))))
   + EVar vMst2 * EVar vMuSUSY * (#8 * EVar vDmglst2 * (EVar vs2t * (#36 * (- #1 + #3 * EVar vlmMst1 - #3 * EVar
   vlmMst2) * EVar vMst2 * EVar vTbeta + EVar vMuSUSY * (#785 + #6 * EVar vlmMst1 * (#85 - #42 * EVar vlmMst2) - #438
   * EVar vlmMst2 + #252 * EPow P2 (EVar vlmMst2))) * EPow P2 (EVar vMt) - EVar vMst2 * EVar vMt * (#3 * EVar vMst2 *
   EVar vTbeta * (#50 + EVar vlmMst1 * (#51 - #18 * EVar vlmMst2) - #51 * EVar vlmMst2 + #18 * EPow P2 (EVar vlmMst2))
   + EVar vMuSUSY * (#49 - #84 * EVar vlmMst2 + EVar vlmMst1 * (#84 - #36 * EVar vlmMst2 * (- #1 + EVar vxDR2DRMOD)) +
   #36 * (- #1 + EVar vxDR2DRMOD) * EPow P2 (EVar vlmMst2))) * EPow P2 (EVar vs2t) + EVar vTbeta * (#4 * (#7 - #381 *
   EVar vlmMst2 + EVar vlmMst1 * (#327 + #72 * EVar vlmMst2 - #81 * EVar vlmMt) + #54 * EVar vlmMt + #81 * EVar
   vlmMst2 * EVar vlmMt - #72 * EPow P2 (EVar vlmMst2)) * EPow P3 (EVar vMt) + #2 * (#1 + #3 * EVar vlmMst1 - #3 *
   EVar vlmMst2) * EPow P3 (EVar vMst2) * EPow P3 (EVar vs2t))) - EVar vMst2 * (- #8 * EVar vs2t * (#18 * EVar vMst2 *
   EVar vTbeta * (- EVar vlmMst1 + EVar vlmMst2 - #2 * EVar vlmMst1 * EVar vlmMst2 + EPow P2 (EVar vlmMst1) + EPow P2
   (EVar vlmMst2)) + EVar vMuSUSY * (#193 + #474 * EVar vlmMst2 - #6 * EVar vlmMst1 * (#67 + #42 * EVar vlmMst2) +
   #252 * EPow P2 (EVar vlmMst2))) * EPow P2 (EVar vMt) + #8 * EVar vMst2 * EVar vMt * (#3 * EVar vMst2 * EVar vTbeta
   * (#1 + #33 * EVar vlmMst2 - #3 * EVar vlmMst1 * (#11 + #6 * EVar vlmMst2) + #18 * EPow P2 (EVar vlmMst2)) + EVar
   vMuSUSY * (#1 + #3 * EVar vlmMst2 * (- #37 + #6 * EVar vxDR2DRMOD) - #3 * EVar vlmMst1 * (- #37 + #6 * EVar vlmMst2
   * (- #12 + EVar vxDR2DRMOD) + #6 * EVar vxDR2DRMOD) - #81 * EPow P2 (EVar vlmMst1) + #9 * (- #15 + #2 * EVar
   vxDR2DRMOD) * EPow P2 (EVar vlmMst2))) * EPow P2 (EVar vs2t) + EVar vTbeta * (#32 * (#83 + #3 * EVar vlmMst1 * (#29
   + #12 * EVar vlmMst2 - #9 * EVar vlmMt) + #9 * EVar vlmMt + #3 * EVar vlmMst2 * (- #32 + #9 * EVar vlmMt) - #36 *
   EPow P2 (EVar vlmMst2)) * EPow P3 (EVar vMt) + (#5 + EVar vlmMst1 * (#6 - #288 * EVar vlmMst2) - #6 * EVar vlmMst2
   + #144 * (EPow P2 (EVar vlmMst1) + EPow P2 (EVar vlmMst2))) * EPow P3 (EVar vMst2) * EPow P3 (EVar vs2t)))))) *
   EPow P6 (EVar vMst1) / #108 - EVar vAl4p * EConst Cz2 * (EVar vMuSUSY * (#6 * EVar vxDmglst2 * EPow P2 (EVar
   vDmglst2) * EPow P2 (EVar vMst2) * (- #22680 * EVar vtwoLoopFlag * EPow P2 (EVar vMst1) * (- #2 * EVar vMt * EPow
   P2 (EVar vMst1) * EPow P2 (EVar vMst2) * (- #24 * EVar vMt * EVar vMuSUSY * EVar vs2t + #4 * EVar vTbeta * EPow P2
   (EVar vMt) + EVar vMst2 * (EVar vMuSUSY + #9 * EVar vMst2 * EVar vTbeta) * EPow P2 (EVar vs2t)) - #2 * EVar vMt *
   (- #36 * EVar vMt * EVar vMuSUSY * EVar vs2t + #28 * EVar vTbeta * EPow P2 (EVar vMt) + EVar vMst2 * (EVar vMuSUSY
   + #9 * EVar vMst2 * EVar vTbeta) * EPow P2 (EVar vs2t)) * EPow P4 (EVar vMst1) + EVar vs2t * (- #2 * EVar vMst2 *
   EVar vMt * EVar vs2t * (EVar vMuSUSY + #9 * EVar vMst2 * EVar vTbeta) + #24 * EVar vMuSUSY * EPow P2 (EVar vMt) +
   EVar vTbeta * EPow P2 (EVar vs2t) * EPow P3 (EVar vMst2)) * EPow P4 (EVar vMst2)) + EVar vAl4p * EVar vMst2 * EVar
   vthreeLoopFlag * (- #3 * EPow P2 (EVar vMst1) * EPow P2 (EVar vMst2) * (#4 * EVar vMst2 * EVar vs2t * (#28 *
   (#46987 + #15390 * EVar vlmMst1 + #4050 * EVar vlmMst2) * EVar vMuSUSY - #3 * (#255749 + #2100 * EVar vlmMst1 +
   #441420 * EVar vlmMst2) * EVar vMst2 * EVar vTbeta) * EPow P2 (EVar vMt) - #14 * EVar vMt * ((#40001 + #52560 *
   EVar vlmMst1 - #37080 * EVar vlmMst2) * EVar vMuSUSY + #6 * (#46987 + #15390 * EVar vlmMst1 + #4050 * EVar vlmMst2)
   * EVar vMst2 * EVar vTbeta) * EPow P2 (EVar vMst2) * EPow P2 (EVar vs2t) + #32 * (#84 * (#17 + #1320 * EVar
   vlmMst2) * EVar vMuSUSY + (- #217444 + #53865 * EVar vlmMst1 - #116550 * EVar vlmMst2 + #62685 * EVar vlmMt) * EVar
   vMst2 * EVar vTbeta) * EPow P3 (EVar vMt) + #7 * (#30641 + #52560 * EVar vlmMst1 - #37080 * EVar vlmMst2) * EVar
   vTbeta * EPow P3 (EVar vs2t) * EPow P4 (EVar vMst2)) + EPow P4 (EVar vMst1) * (- #4 * EVar vMst2 * EVar vs2t * (#35
   * (- #184517 + #74952 * EVar vlmMst1 + #18360 * EVar vlmMst2) * EVar vMuSUSY + #36 * (- #297316 + #20265 * EVar
   vlmMst1 - #231945 * EVar vlmMst2) * EVar vMst2 * EVar vTbeta) * EPow P2 (EVar vMt) + #7 * EVar vMt * (#4 * (-
   #261247 + #163890 * EVar vlmMst1 - #140670 * EVar vlmMst2) * EVar vMuSUSY + #3 * (- #1486429 + #190080 * EVar
   vlmMst1 + #43200 * EVar vlmMst2) * EVar vMst2 * EVar vTbeta) * EPow P2 (EVar vMst2) * EPow P2 (EVar vs2t) - #8 *
   (#21 * (#12761 + #5400 * EVar vlmMst1 + #178920 * EVar vlmMst2) * EVar vMuSUSY + #2 * (- #10736701 + #1553580 *
   EVar vlmMst1 - #3303720 * EVar vlmMst2 + #1508220 * EVar vlmMt) * EVar vMst2 * EVar vTbeta) * EPow P3 (EVar vMt) +
   #7 * (#642497 - #170100 * EVar vlmMst1 + #170100 * EVar vlmMst2) * EVar vTbeta * EPow P3 (EVar vs2t) * EPow P4
   (EVar vMst2)) - #196560 * EVar vs2t * (- #2 * EVar vMt * EVar vMuSUSY * EVar vs2t - #4 * EVar vTbeta * EPow P2
   (EVar vMt) + EVar vTbeta * EPow P2 (EVar vMst2) * EPow P2 (EVar vs2t)) * EPow P6 (EVar vMst2))) - #68040 * EVar
   vtwoLoopFlag * EPow P2 (EVar vMst1) * (#4 * EVar vMt * EVar vxMst * (EVar vxDmglst2 * EPow P2 (EVar vDmglst2) *
   (#48 * EVar vMt * EVar vMuSUSY * EVar vs2t - #88 * EVar vTbeta * EPow P2 (EVar vMt) - EVar vMst2 * (EVar vMuSUSY +
   #9 * EVar vMst2 * EVar vTbeta) * EPow P2 (EVar vs2t)) + #2 * EVar vMst2 * (EVar vMst2 * EVar vMt * (EVar vMuSUSY *
   EVar vs2t - #8 * EVar vMt * EVar vTbeta) + EVar vDmglst2 * (#17 * EVar vMt * EVar vMuSUSY * EVar vs2t + #16 * EVar
   vTbeta * EPow P2 (EVar vMt) - EVar vMst2 * (EVar vMuSUSY + #3 * EVar vMst2 * EVar vTbeta) * EPow P2 (EVar vs2t))))
   * EPow P6 (EVar vMst1) + EPow P3 (EVar vMst2) * (#2 * EVar vMt * EVar vMuSUSY * EVar vs2t * (#4 * EVar vMt * ((#9 *
   EVar vDmglst2 + EVar vMst2) * EPow P2 (EVar vMst1) * EPow P2 (EVar vMst2) + (#13 * EVar vDmglst2 + EVar vMst2) *
   EPow P4 (EVar vMst1) + #5 * EVar vDmglst2 * EPow P4 (EVar vMst2) + EPow P5 (EVar vMst2)) - EVar vMst2 * EVar vs2t *
   (#4 * EVar vDmglst2 * (EPow P2 (EVar vMst1) * EPow P2 (EVar vMst2) + EPow P4 (EVar vMst1) + EPow P4 (EVar vMst2)) +
   EPow P5 (EVar vMst2))) + EVar vTbeta * (#16 * EPow P3 (EVar vMt) * (- #2 * EPow P2 (EVar vMst1) * EPow P3 (EVar
   vMst2) + #3 * (EVar vDmglst2 - EVar vMst2) * EPow P4 (EVar vMst1) - (EVar vDmglst2 + EVar vMst2) * EPow P4 (EVar
   vMst2)) - #6 * EVar vMt * EPow P2 (EVar vMst2) * EPow P2 (EVar vs2t) * (EVar vDmglst2 * (#4 * EPow P2 (EVar vMst1)
   * EPow P2 (EVar vMst2) + #4 * EPow P4 (EVar vMst1) + #5 * EPow P4 (EVar vMst2)) + EPow P5 (EVar vMst2)) + (EVar
   vMst2 * (#4 * EVar vDmglst2 + EVar vMst2) - EPow P2 (EVar vMst1)) * EPow P3 (EVar vs2t) * EPow P6 (EVar vMst2)))))
   + #7 * EVar vAl4p * EVar vthreeLoopFlag * EPow P3 (EVar vMst2) * (#300 * EVar vxDmsqst2 * EPow P2 (EVar vDmsqst2) *
   (#3 * EVar vs2t * (EVar vMt * EPow P2 (EVar vMuSUSY) * (#6 * EVar vMst2 * (- #144 * (#3 + EVar vlmMst1 - EVar
   vlmMst2) * EVar vMt + (#209 + #18 * EVar vlmMst1 - #18 * EVar vlmMst2) * EVar vMst2 * EVar vs2t) * EPow P2 (EVar
   vMst1) + #8 * (#421 + #54 * EVar vlmMst1 - #54 * EVar vlmMst2) * EVar vs2t * EPow P4 (EVar vMst1) + #108 * EVar
   vs2t * EPow P4 (EVar vMst2)) + #27 * EVar vs2t * ((#51 - #6 * EVar vlmMst1 + #6 * EVar vlmMst2) * EVar vMt + #2 *
   (#11 + #10 * EVar vlmMst1 - #10 * EVar vlmMst2) * EVar vMst2 * EVar vs2t) * (- #1 + EPow P2 (EVar vSbeta)) * EPow
   P2 (EVar vSbeta) * EPow P6 (EVar vMst1)) - EVar vMuSUSY * EVar vTbeta * (#9 * EVar vMst2 * EPow P2 (EVar vMst1) *
   (- #418 * EVar vMst2 * EVar vs2t * EPow P2 (EVar vMt) - #216 * (#3 + EVar vlmMst1 - EVar vlmMst2) * EVar vMt * EPow
   P2 (EVar vMst2) * EPow P2 (EVar vs2t) + #288 * (- #2 + EVar vlmMst1 - #2 * EVar vlmMst2 + EVar vlmMt) * EPow P3
   (EVar vMt) + (#191 + #18 * EVar vlmMst1 - #18 * EVar vlmMst2) * EPow P3 (EVar vMst2) * EPow P3 (EVar vs2t)) + #3 *
   EVar vs2t * (- #1296 * (#1 + EVar vlmMst1 - EVar vlmMst2) * EVar vMst2 * EVar vMt * EVar vs2t - #2696 * EPow P2
   (EVar vMt) + (#1057 + #162 * EVar vlmMst1 - #162 * EVar vlmMst2) * EPow P2 (EVar vMst2) * EPow P2 (EVar vs2t)) *
   EPow P4 (EVar vMst1) + #4180 * EPow P3 (EVar vs2t) * EPow P6 (EVar vMst1) + #162 * (- #4 * EVar vs2t * EPow P2
   (EVar vMt) * EPow P4 (EVar vMst2) + EPow P3 (EVar vs2t) * EPow P6 (EVar vMst2)))) + #2 * EVar vMt * (#2 * EVar vMt
   * EPow P2 (EVar vMst1) * EPow P2 (EVar vMuSUSY) * (- #27 * EPow P2 (EVar vMst2) * (#5 * EVar vMst2 * (#64 * (#53 +
   #24 * EVar vlmMst2) * EVar vMst2 * EVar vMt + #2880 * EVar vDmsqst2 * (#2 + EVar vlmMst1 - EVar vlmMst2) * EVar
   vs2t + #3 * (#2269 + #664 * EVar vlmMst1 - #56 * EVar vlmMst2) * EVar vs2t * EPow P2 (EVar vMst2)) + EVar vDmglst2
   * (#7680 * (#5 + #6 * EVar vlmMst2) * EVar vMst2 * EVar vMt - #14400 * EVar vDmsqst2 * (#2 + #3 * EVar vlmMst1 - #3
   * EVar vlmMst2) * EVar vs2t + (#173947 - #25080 * EVar vlmMst1 + #68760 * EVar vlmMst2) * EVar vs2t * EPow P2 (EVar
   vMst2))) - #36 * EPow P2 (EVar vMst1) * (#5 * EVar vMst2 * (#3 * (- #353 + #72 * EVar vlmMst1 + #696 * EVar
   vlmMst2) * EVar vMst2 * EVar vMt + #2160 * EVar vDmsqst2 * (#5 + #3 * EVar vlmMst1 - #3 * EVar vlmMst2) * EVar vs2t
   + #2 * (#3937 + #2988 * EVar vlmMst1 - #2232 * EVar vlmMst2) * EVar vs2t * EPow P2 (EVar vMst2)) + EVar vDmglst2 *
   (#30 * (#3643 - #120 * EVar vlmMst1 + #3192 * EVar vlmMst2) * EVar vMst2 * EVar vMt + #10800 * EVar vDmsqst2 * (#1
   - #9 * EVar vlmMst1 + #9 * EVar vlmMst2) * EVar vs2t + (#364291 - #88560 * EVar vlmMst1 + #147960 * EVar vlmMst2) *
   EVar vs2t * EPow P2 (EVar vMst2))) + #2 * (#45 * (#38401 + #1080 * EVar vlmMst1 - #7992 * EVar vlmMst2) * EVar vMt
   + EVar vDmglst2 * (- #15057833 + #4014360 * EVar vlmMst1 - #5563080 * EVar vlmMst2) * EVar vs2t - #3 * (#266863 +
   #396360 * EVar vlmMst1 - #346680 * EVar vlmMst2) * EVar vMst2 * EVar vs2t) * EPow P4 (EVar vMst1)) + EPow P2 (EVar
   vs2t) * (#300 * EVar vDmsqst2 * (EPow P2 (EVar vMuSUSY) * (- #27 * (#72 * EVar vDmglst2 * (#2 + EVar vlmMst1 - EVar
   vlmMst2) + EVar vMst2 * (#53 + #12 * (- #1 + #2 * EVar vlmMst1 - #2 * EVar vlmMst2) * EVar vshiftst1)) * EPow P2
   (EVar vMst1) * EPow P3 (EVar vMst2) - #9 * EVar vMst2 * (#72 * EVar vDmglst2 * (#3 + #8 * EVar vlmMst1 - #8 * EVar
   vlmMst2) + EVar vMst2 * (#1097 + #72 * (EVar vlmMst1 - EVar vlmMst2) * (- #1 + EVar vshiftst1))) * EPow P4 (EVar
   vMst1) + #324 * (- #2 * EVar vDmglst2 + EVar vMst2 + EVar vMst2 * EVar vshiftst1) * EPow P5 (EVar vMst2)) + (-
   ((#20701 + #648 * (EVar vlmMst1 - EVar vlmMst2) * (- #1 + EVar vshiftst1)) * EPow P2 (EVar vMuSUSY)) + #162 * EVar
   vDmglst2 * (- #93 + #10 * EVar vlmMst1 - #10 * EVar vlmMst2) * EVar vMst2 * (- #1 + EPow P2 (EVar vSbeta)) * EPow
   P2 (EVar vSbeta)) * EPow P6 (EVar vMst1)) + EVar vMst2 * EPow P2 (EVar vMuSUSY) * (#4 * EVar vDmglst2 * (#162 *
   (#6803 - #1810 * EVar vlmMst1 + #2670 * EVar vlmMst2) * EPow P2 (EVar vMst2) * EPow P4 (EVar vMst1) - #135 * (#648
   * EVar vlmMst1 - #7 * (#233 + #240 * EVar vlmMst2)) * EPow P2 (EVar vMst1) * EPow P4 (EVar vMst2) + (#4256978 -
   #615600 * EVar vlmMst1 + #754920 * EVar vlmMst2) * EPow P6 (EVar vMst1) - #22680 * EPow P6 (EVar vMst2)) + #3 *
   EVar vMst2 * (- #6 * (#533629 - #1080 * EVar vshiftst3 + #180 * EVar vlmMst1 * (- #5 + #60 * EVar vshiftst1 + #12 *
   EVar vshiftst3) - #180 * EVar vlmMst2 * (- #1 + #60 * EVar vshiftst1 + #12 * EVar vshiftst3)) * EPow P2 (EVar
   vMst2) * EPow P4 (EVar vMst1) - #90 * (#5597 - #360 * EVar vshiftst1 - #72 * EVar vshiftst3 - #24 * EVar vlmMst2 *
   (#46 + #30 * EVar vshiftst1 + #3 * EVar vshiftst3) + #12 * EVar vlmMst1 * (#47 + #60 * EVar vshiftst1 + #6 * EVar
   vshiftst3)) * EPow P2 (EVar vMst1) * EPow P4 (EVar vMst2) - (#6649153 - #6480 * EVar vshiftst3 + #540 * EVar
   vlmMst1 * (- #151 + #120 * EVar vshiftst1 + #36 * EVar vshiftst3) - #540 * EVar vlmMst2 * (- #143 + #120 * EVar
   vshiftst1 + #36 * EVar vshiftst3)) * EPow P6 (EVar vMst1) + #1080 * (#19 + #30 * EVar vshiftst1 + #3 * EVar
   vshiftst3) * EPow P6 (EVar vMst2))))) + EVar vMuSUSY * (- #3240 * EVar vxDR2DRMOD * (- #16 * EVar vMst2 * EVar
   vxDmglst2 * EPow P2 (EVar vDmglst2) * (#2 * EPow P2 (EVar vMst1) * EPow P2 (EVar vMst2) * (- #2 * EVar vs2t * (#4 *
   (- #2 + #3 * EVar vlmMst2) * EVar vMuSUSY + #5 * EVar vMst2 * EVar vTbeta) * EPow P2 (EVar vMt) + EVar vMst2 * EVar
   vMt * ((#1 - #10 * EVar vlmMst1 + #12 * EVar vlmMst2) * EVar vMuSUSY + #6 * (- #2 + #3 * EVar vlmMst2) * EVar vMst2
   * EVar vTbeta) * EPow P2 (EVar vs2t) + #8 * EVar vTbeta * EPow P3 (EVar vMt) + (#2 + #5 * EVar vlmMst1 - #6 * EVar
   vlmMst2) * EVar vTbeta * EPow P3 (EVar vMst2) * EPow P3 (EVar vs2t)) + (#32 * (#2 - #3 * EVar vlmMst2) * EVar
   vMuSUSY * EVar vs2t * EPow P2 (EVar vMt) + #4 * EVar vMst2 * EVar vMt * ((- #2 - #5 * EVar vlmMst1 + #6 * EVar
   vlmMst2) * EVar vMuSUSY + #3 * (- #2 + #3 * EVar vlmMst2) * EVar vMst2 * EVar vTbeta) * EPow P2 (EVar vs2t) - #16 *
   (#7 + #2 * EVar vlmMst2) * EVar vTbeta * EPow P3 (EVar vMt) + #5 * EVar vTbeta * EPow P3 (EVar vMst2) * EPow P3
   (EVar vs2t)) * EPow P4 (EVar vMst1) - #5 * EVar vs2t * (- #2 * EVar vMt * EVar vMuSUSY * EVar vs2t - #4 * EVar
   vTbeta * EPow P2 (EVar vMt) + EVar vTbeta * EPow P2 (EVar vMst2) * EPow P2 (EVar vs2t)) * EPow P5 (EVar vMst2)) +
   #4 * EVar vTbeta * (EPow P2 (EVar vMst1) * (- #48 * (EVar vDmglst2 + #3 * EVar vDmglst2 * EVar vlmMst2 + EVar vMst2
   + EVar vlmMst2 * EVar vMst2) * EVar vMt * EPow P2 (EVar vMst2) * EPow P2 (EVar vs2t) * (EPow P2 (EVar vMst1) * EPow
   P2 (EVar vMst2) + EPow P4 (EVar vMst1) + EPow P4 (EVar vMst2)) + #64 * EPow P3 (EVar vMt) * (- (EVar vDmglst2 * (#7
   + EVar vlmMst2) * EPow P2 (EVar vMst1) * EPow P2 (EVar vMst2)) - #2 * EVar vDmglst2 * (#11 + #5 * EVar vlmMst2) *
   EPow P4 (EVar vMst1) + EVar vDmglst2 * (- #1 + EVar vlmMst2) * EPow P4 (EVar vMst2) + (#1 + EVar vlmMst2) * EVar
   vMst2 * (#3 * EPow P2 (EVar vMst1) * EPow P2 (EVar vMst2) + #6 * EPow P4 (EVar vMst1) + EPow P4 (EVar vMst2)))) +
   (#4 * (#7 * EVar vDmglst2 - #13 * EVar vMst2) * EVar vs2t * (EPow P2 (EVar vMst1) - EPow P2 (EVar vMst2)) * EPow P2
   (EVar vMt) + EPow P3 (EVar vs2t) * (#2 * (#4 + #13 * EVar vlmMst1 - #9 * EVar vlmMst2) * EPow P2 (EVar vMst1) *
   EPow P3 (EVar vMst2) + #13 * EVar vMst2 * EPow P4 (EVar vMst1) + EVar vDmglst2 * (#2 * (- #7 * EVar vlmMst1 + #15 *
   EVar vlmMst2) * EPow P2 (EVar vMst1) * EPow P2 (EVar vMst2) - #7 * EPow P4 (EVar vMst1) + #7 * EPow P4 (EVar
   vMst2)) - #13 * EPow P5 (EVar vMst2))) * EPow P5 (EVar vMst2)) + EVar vMt * EVar vMuSUSY * EVar vs2t * (#256 *
   (EVar vDmglst2 + #3 * EVar vDmglst2 * EVar vlmMst2 + EVar vMst2 + EVar vlmMst2 * EVar vMst2) * EVar vMt * EPow P2
   (EVar vMst1) * (#2 * EPow P2 (EVar vMst1) * EPow P2 (EVar vMst2) + #3 * EPow P4 (EVar vMst1) + EPow P4 (EVar
   vMst2)) + #8 * EVar vMst2 * EVar vs2t * (#2 * (EVar vDmglst2 * (#7 * EVar vlmMst1 - #15 * EVar vlmMst2) + (- #4 -
   #13 * EVar vlmMst1 + #9 * EVar vlmMst2) * EVar vMst2) * (EPow P2 (EVar vMst1) + EPow P2 (EVar vMst2)) * EPow P4
   (EVar vMst1) - EVar vDmglst2 * ((#7 - #14 * EVar vlmMst1 + #30 * EVar vlmMst2) * EPow P2 (EVar vMst1) + #7 * EPow
   P2 (EVar vMst2)) * EPow P4 (EVar vMst2) + (#5 - #26 * EVar vlmMst1 + #18 * EVar vlmMst2) * EPow P2 (EVar vMst1) *
   EPow P5 (EVar vMst2) + #13 * EPow P7 (EVar vMst2)))) + #3 * EVar vTbeta * (#3 * EPow P3 (EVar vMst2) * (- #2 *
   (#623599 + #65160 * EVar vlmMst1 - #134280 * EVar vlmMst2) * EVar vMst2 * EVar vs2t * EPow P2 (EVar vMt) + #15 *
   (#11075 + #17928 * EVar vlmMst1 - #17352 * EVar vlmMst2) * EVar vMt * EPow P2 (EVar vMst2) * EPow P2 (EVar vs2t) +
   #64 * (#41936 - #7245 * EVar vlmMst1 + #19665 * EVar vlmMst2 - #720 * EVar vlmMt) * EPow P3 (EVar vMt) + #4 *
   (#224837 - #4680 * EVar vlmMst1 + #8370 * EVar vlmMst2 + #2700 * EVar vshiftst1) * EPow P3 (EVar vMst2) * EPow P3
   (EVar vs2t)) * EPow P4 (EVar vMst1) + #9 * EPow P2 (EVar vMst1) * (- #2 * EVar vMst2 * EVar vs2t * (#1367 + #13560
   * EVar vlmMst1 - #36600 * EVar vlmMst2 + #7200 * EVar vshiftst1) * EPow P2 (EVar vMt) + #45 * (#2269 + #664 * EVar
   vlmMst1 - #56 * EVar vlmMst2) * EVar vMt * EPow P2 (EVar vMst2) * EPow P2 (EVar vs2t) + #4 * (#66773 - #9960 * EVar
   vlmMst1 + #45480 * EVar vlmMst2 - #3840 * EVar vlmMt) * EPow P3 (EVar vMt) + #10 * (#5825 + #36 * EVar vshiftst3 +
   #12 * EVar vlmMst1 * (#47 + #60 * EVar vshiftst1 + #3 * EVar vshiftst3) - #12 * EVar vlmMst2 * (#92 + #60 * EVar
   vshiftst1 + #3 * EVar vshiftst3)) * EPow P3 (EVar vMst2) * EPow P3 (EVar vs2t)) * EPow P5 (EVar vMst2) + EVar vMst2
   * (- #4 * (#2580913 + #203040 * EVar vlmMst1 - #306720 * EVar vlmMst2) * EVar vMst2 * EVar vs2t * EPow P2 (EVar
   vMt) + #6 * (#30643 + #217080 * EVar vlmMst1 - #212760 * EVar vlmMst2) * EVar vMt * EPow P2 (EVar vMst2) * EPow P2
   (EVar vs2t) + #16 * (#1077991 - #184140 * EVar vlmMst1 + #400140 * EVar vlmMst2 - #8640 * EVar vlmMt) * EPow P3
   (EVar vMt) + (#3447379 - #76140 * EVar vlmMst1 + #76140 * EVar vlmMst2) * EPow P3 (EVar vMst2) * EPow P3 (EVar
   vs2t)) * EPow P6 (EVar vMst1) - #100 * EVar vDmsqst2 * (#27 * EPow P2 (EVar vMst1) * EPow P3 (EVar vMst2) * (#2 *
   EVar vMst2 * EVar vs2t * (#53 + #24 * EVar vshiftst1) * EPow P2 (EVar vMt) - #288 * EVar vMt * EPow P2 (EVar vMst2)
   * EPow P2 (EVar vs2t) + #192 * EVar vlmMt * EPow P3 (EVar vMt) - #65 * EPow P3 (EVar vMst2) * EPow P3 (EVar vs2t) +
   #24 * EVar vlmMst1 * (- #6 * EVar vMt * EPow P2 (EVar vMst2) * EPow P2 (EVar vs2t) + #8 * EPow P3 (EVar vMt) - EVar
   vshiftst1 * EPow P3 (EVar vMst2) * EPow P3 (EVar vs2t)) - #24 * EVar vlmMst2 * (- #6 * EVar vMt * EPow P2 (EVar
   vMst2) * EPow P2 (EVar vs2t) + #16 * EPow P3 (EVar vMt) - EVar vshiftst1 * EPow P3 (EVar vMst2) * EPow P3 (EVar
   vs2t))) - #18 * EVar vMst2 * (- #361 * EVar vMst2 * EVar vs2t * EPow P2 (EVar vMt) + #216 * (#3 + #2 * EVar vlmMst1
   - #2 * EVar vlmMst2) * EVar vMt * EPow P2 (EVar vMst2) * EPow P2 (EVar vs2t) - #576 * (- #1 + EVar vlmMst1 - #2 *
   EVar vlmMst2 + EVar vlmMt) * EPow P3 (EVar vMt) + (#469 - #36 * EVar vlmMst1 + #36 * EVar vlmMst2 + #18 * EVar
   vshiftst1) * EPow P3 (EVar vMst2) * EPow P3 (EVar vs2t)) * EPow P4 (EVar vMst1) + EVar vs2t * (#2 * (- #972 * (#5 +
   #4 * EVar vlmMst1 - #4 * EVar vlmMst2) * EVar vMst2 * EVar vMt * EVar vs2t + #4057 * EPow P2 (EVar vMt) - #5414 *
   EPow P2 (EVar vMst2) * EPow P2 (EVar vs2t)) * EPow P6 (EVar vMst1) + #324 * (#1 + EVar vshiftst1) * (- #4 * EPow P2
   (EVar vMt) + EPow P2 (EVar vMst2) * EPow P2 (EVar vs2t)) * EPow P6 (EVar vMst2))) - #1080 * EVar vs2t * (#19 + #30
   * EVar vshiftst1 + #3 * EVar vshiftst3) * (- #4 * EPow P2 (EVar vMt) + EPow P2 (EVar vMst2) * EPow P2 (EVar vs2t))
   * EPow P8 (EVar vMst2)) - EVar vDmglst2 * EVar vTbeta * (#27 * (EPow P2 (EVar vMst2) * (- #32 * (#19579 + #1770 *
   EVar vlmMst1 + #12630 * EVar vlmMst2) * EVar vMst2 * EVar vs2t * EPow P2 (EVar vMt) + (- #935323 + #279000 * EVar
   vlmMst1 - #385560 * EVar vlmMst2) * EVar vMt * EPow P2 (EVar vMst2) * EPow P2 (EVar vs2t) + #32 * (#67843 - #10050
   * EVar vlmMst1 + #17490 * EVar vlmMst2 - #7560 * EVar vlmMt) * EPow P3 (EVar vMt) + #4 * (#32663 - #7620 * EVar
   vlmMst1 + #7620 * EVar vlmMst2) * EPow P3 (EVar vMst2) * EPow P3 (EVar vs2t)) * EPow P4 (EVar vMst1) + EPow P2
   (EVar vMst1) * (#32 * (- #4429 + #270 * EVar vlmMst1 - #8910 * EVar vlmMst2) * EVar vMst2 * EVar vs2t * EPow P2
   (EVar vMt) + #3 * (- #173947 + #25080 * EVar vlmMst1 - #68760 * EVar vlmMst2) * EVar vMt * EPow P2 (EVar vMst2) *
   EPow P2 (EVar vs2t) - #60 * (- #3245 + #1672 * EVar vlmMst1 - #1448 * EVar vlmMst2 + #1888 * EVar vlmMt) * EPow P3
   (EVar vMt) + #20 * (#1799 - #648 * EVar vlmMst1 + #1680 * EVar vlmMst2) * EPow P3 (EVar vMst2) * EPow P3 (EVar
   vs2t)) * EPow P4 (EVar vMst2)) + #2 * (- #72 * (#510139 + #44280 * EVar vlmMst1 + #76680 * EVar vlmMst2) * EVar
   vMst2 * EVar vs2t * EPow P2 (EVar vMt) + #15 * (- #1700119 + #484056 * EVar vlmMst1 - #579960 * EVar vlmMst2) *
   EVar vMt * EPow P2 (EVar vMst2) * EPow P2 (EVar vs2t) + #8 * (#13463149 - #1492020 * EVar vlmMst1 + #2713500 * EVar
   vlmMst2 - #625320 * EVar vlmMt) * EPow P3 (EVar vMt) + #8 * (#788723 - #80595 * EVar vlmMst1 + #80595 * EVar
   vlmMst2) * EPow P3 (EVar vMst2) * EPow P3 (EVar vs2t)) * EPow P6 (EVar vMst1) + #97200 * EVar vDmsqst2 * (#2 *
   (EPow P2 (EVar vMst1) * EPow P2 (EVar vMst2) * (#20 * EVar vMst2 * EVar vs2t * EPow P2 (EVar vMt) + #6 * (#2 + #3 *
   EVar vlmMst1 - #3 * EVar vlmMst2) * EVar vMt * EPow P2 (EVar vMst2) * EPow P2 (EVar vs2t) + #8 * (#8 + #6 * EVar
   vlmMst2 - #3 * (EVar vlmMst1 + EVar vlmMt)) * EPow P3 (EVar vMt) - (#5 + #3 * EVar vlmMst1 - #3 * EVar vlmMst2) *
   EPow P3 (EVar vMst2) * EPow P3 (EVar vs2t)) + (#36 * EVar vMst2 * EVar vs2t * EPow P2 (EVar vMt) + #18 * (- #1 + #2
   * EVar vlmMst1 - #2 * EVar vlmMst2) * EVar vMt * EPow P2 (EVar vMst2) * EPow P2 (EVar vs2t) - #80 * (- #3 + EVar
   vlmMst1 - #2 * EVar vlmMst2 + EVar vlmMt) * EPow P3 (EVar vMt) + (#3 - #5 * EVar vlmMst1 + #5 * EVar vlmMst2) *
   EPow P3 (EVar vMst2) * EPow P3 (EVar vs2t)) * EPow P4 (EVar vMst1)) + #8 * EVar vs2t * EPow P2 (EVar vMt) * EPow P5
   (EVar vMst2) + (#6 * (- #17 + #12 * EVar vlmMst1 - #12 * EVar vlmMst2) * EVar vMt + #13 * EVar vMst2 * EVar vs2t) *
   EPow P2 (EVar vs2t) * EPow P6 (EVar vMst1) - #2 * EPow P3 (EVar vs2t) * EPow P7 (EVar vMst2)) - #90720 * (- #4 *
   EVar vs2t * EPow P2 (EVar vMt) * EPow P7 (EVar vMst2) + EPow P3 (EVar vs2t) * EPow P9 (EVar vMst2)))))) / (#204120
   * EPow P2 (EVar vMst1))) / (EVar vTbeta * EPow P9 (EVar vMst2)) - EVar vthreeLoopFlag * EPow P2 (EVar vAl4p) *
   (EVar vMt * (- #4 * EVar vMt * EPow P2 (EVar vMuSUSY) * (- #27 * EPow P2 (EVar vMst1) * EPow P2 (EVar vMst2) * (#15
   * EVar vMst2 * (#32 * EVar vMst2 * (- #15 * EVar vDmsqst2 * EConst CT1ep * EPow P2 (EVar vs2t) + EPow P2 (EVar vMt)
   * (#436 - #6 * EConst CB4 + #6 * EConst CD3 - #3 * EConst CDN - #48 * EVar vlmMst1 + (#408 - #96 * EVar vlmMst1) *
   EVar vlmMst2 + #24 * EVar vlmMt - #972 * EConst CS2 - #48 * (- #4 + EVar vlmMst1) * EPow P2 (EVar vlmMst2) + #48 *
   EPow P3 (EVar vlmMst2))) + EVar vMt * EVar vs2t * (#5760 * EVar vDmsqst2 * (#1 + EVar vlmMst1 - EVar vlmMst2) +
   EPow P2 (EVar vMst2) * (#28683 + #5280 * EConst CB4 - #48 * EConst CDN - #5952 * EVar vlmMst1 - #224 * EConst
   COepS2 + #324 * (- #1 + #14 * EVar vlmMst1 - #14 * EVar vlmMst2) * EConst CS2 + #336 * EConst CT1ep - #768 * EPow
   P2 (EVar vlmMst1) - #192 * EVar vlmMst2 * (- #214 + #73 * EVar vlmMst1 + #4 * EPow P2 (EVar vlmMst1)) - #96 * (-
   #268 + #57 * EVar vlmMst1) * EPow P2 (EVar vlmMst2) + #6240 * EPow P3 (EVar vlmMst2))) - #1104 * EConst CT1ep *
   EPow P2 (EVar vs2t) * EPow P3 (EVar vMst2)) + EVar vDmglst2 * (#2880 * EVar vMst2 * EPow P2 (EVar vMt) * (#180 - #2
   * EConst CB4 + #2 * EConst CD3 - EConst CDN + #144 * EVar vlmMst2 - #216 * EConst CS2 - #16 * (- #2 + EVar vlmMst1)
   * EPow P2 (EVar vlmMst2) + #16 * (EVar vlmMst1 + EPow P3 (EVar vlmMst2))) + EVar vMt * EVar vs2t * (- #86400 * EVar
   vDmsqst2 * (#2 + #5 * EVar vlmMst1 - #5 * EVar vlmMst2) + EPow P2 (EVar vMst2) * (#23917 + #188640 * EConst CB4 -
   #3600 * EConst CDN - #37440 * EVar vlmMst1 + #5600 * EConst COepS2 - #324 * (- #453 + #350 * EVar vlmMst1 - #350 *
   EVar vlmMst2) * EConst CS2 - #8400 * EConst CT1ep + #11520 * EPow P2 (EVar vlmMst1) - #2880 * EVar vlmMst2 * (-
   #237 + #55 * EVar vlmMst1 + #4 * EPow P2 (EVar vlmMst1)) - #1440 * (- #280 + #121 * EVar vlmMst1) * EPow P2 (EVar
   vlmMst2) + #185760 * EPow P3 (EVar vlmMst2))) + #3360 * EConst CT1ep * EPow P2 (EVar vs2t) * EPow P3 (EVar vMst2)))
   - #36 * (#5 * EVar vMst2 * (#9 * EVar vMst2 * (- #520 * EVar vDmsqst2 * EConst CT1ep * EPow P2 (EVar vs2t) + EPow
   P2 (EVar vMt) * (#10667 - #96 * EConst CB4 + #96 * EConst CD3 - #48 * EConst CDN - #3072 * EVar vlmMst1 - #384 * (-
   #25 + #9 * EVar vlmMst1) * EVar vlmMst2 - #384 * EVar vlmMst1 * EVar vlmMt + #384 * (#1 + EVar vlmMst2) * EVar
   vlmMt - #224 * EConst COepS2 + #324 * (- #43 + #14 * EVar vlmMst1 - #14 * EVar vlmMst2) * EConst CS2 + #336 *
   EConst CT1ep - #384 * (- #13 + #4 * EVar vlmMst1) * EPow P2 (EVar vlmMst2) + #1536 * EPow P3 (EVar vlmMst2))) +
   EVar vMt * EVar vs2t * (#12960 * EVar vDmsqst2 * (#1 + #3 * EVar vlmMst1 - #3 * EVar vlmMst2) + #2 * EPow P2 (EVar
   vMst2) * (#75569 + #13716 * EConst CB4 - #54 * EConst CDN - #33426 * EVar vlmMst1 - #1088 * EConst COepS2 + #162 *
   (#169 + #136 * EVar vlmMst1 - #136 * EVar vlmMst2) * EConst CS2 + #1632 * EConst CT1ep - #2376 * EPow P2 (EVar
   vlmMst1) + #54 * EVar vlmMst2 * (#1427 - #1012 * EVar vlmMst1 + #16 * EPow P2 (EVar vlmMst1)) - #108 * (- #642 +
   #203 * EVar vlmMst1) * EPow P2 (EVar vlmMst2) + #21060 * EPow P3 (EVar vlmMst2))) - #12684 * EConst CT1ep * EPow P2
   (EVar vs2t) * EPow P3 (EVar vMst2)) + EVar vDmglst2 * (#30 * EVar vMst2 * EPow P2 (EVar vMt) * (#28405 - #288 *
   EConst CB4 + #288 * EConst CD3 - #144 * EConst CDN + #5472 * EVar vlmMst1 - #288 * (- #89 + #2 * EVar vlmMst1) *
   EVar vlmMst2 + #576 * (- #2 + EVar vlmMst1 - EVar vlmMst2) * EVar vlmMt + #224 * EConst COepS2 - #324 * (#65 + #14
   * EVar vlmMst1 - #14 * EVar vlmMst2) * EConst CS2 - #336 * EConst CT1ep - #576 * (- #9 + #8 * EVar vlmMst1) * EPow
   P2 (EVar vlmMst2) + #4608 * EPow P3 (EVar vlmMst2)) + EVar vMt * EVar vs2t * (#64800 * EVar vDmsqst2 * (#8 - #15 *
   EVar vlmMst1 + #15 * EVar vlmMst2) + EPow P2 (EVar vMst2) * (#66761 + #301320 * EConst CB4 - #4860 * EConst CDN -
   #205380 * EVar vlmMst1 + #40480 * EConst COepS2 - #216 * (#2489 + #3795 * EVar vlmMst1 - #3795 * EVar vlmMst2) *
   EConst CS2 - #60720 * EConst CT1ep + #23760 * EPow P2 (EVar vlmMst1) + #180 * EVar vlmMst2 * (#4993 - #1956 * EVar
   vlmMst1 + #48 * EPow P2 (EVar vlmMst1)) - #1080 * (- #482 + #331 * EVar vlmMst1) * EPow P2 (EVar vlmMst2) + #348840
   * EPow P3 (EVar vlmMst2))) + #30960 * EConst CT1ep * EPow P2 (EVar vs2t) * EPow P3 (EVar vMst2))) * EPow P4 (EVar
   vMst1) - #10 * (- #12 * (#13260 * EVar vDmsqst2 + EVar vMst2 * (- #34616 * EVar vDmglst2 + #39711 * EVar vMst2)) *
   EConst CT1ep * EPow P2 (EVar vs2t) + #9 * EPow P2 (EVar vMt) * (#383185 - #2592 * EConst CB4 + #2592 * EConst CD3 -
   #1296 * EConst CDN - #187704 * EVar vlmMst1 - #17440 * EConst COepS2 + #648 * (- #57 + #545 * EVar vlmMst1 - #545 *
   EVar vlmMst2) * EConst CS2 + #26160 * EConst CT1ep - #7992 * EPow P2 (EVar vlmMst1) - #216 * EVar vlmMst2 * (-
   #1733 + #630 * EVar vlmMst1 + #26 * EPow P2 (EVar vlmMst1)) - #216 * (- #859 + #246 * EVar vlmMst1) * EPow P2 (EVar
   vlmMst2) + #3456 * EVar vlmMt * (#3 + #6 * EVar vlmMst2 - #2 * EVar vlmMst1 * (#3 + EVar vlmMst2) + EPow P2 (EVar
   vlmMst1) + EPow P2 (EVar vlmMst2)) + #720 * EPow P3 (EVar vlmMst1) + #58032 * EPow P3 (EVar vlmMst2)) - EVar vMt *
   EVar vs2t * (EVar vDmglst2 * (#2773621 - #1660176 * EConst CB4 + #25272 * EConst CDN + #2004408 * EVar vlmMst1 -
   #525472 * EConst COepS2 + #108 * (#123113 + #98526 * EVar vlmMst1 - #98526 * EVar vlmMst2) * EConst CS2 + #788208 *
   EConst CT1ep + #3888 * EPow P2 (EVar vlmMst1) - #144 * EVar vlmMst2 * (#36802 - #11421 * EVar vlmMst1 + #1728 *
   EPow P2 (EVar vlmMst1)) + #167184 * (- #14 + #15 * EVar vlmMst1) * EPow P2 (EVar vlmMst2) - #31104 * EPow P3 (EVar
   vlmMst1) - #2227824 * EPow P3 (EVar vlmMst2)) - #3 * EVar vMst2 * (#1702429 + #257904 * EConst CB4 - #648 * EConst
   CDN - #748656 * EVar vlmMst1 - #30112 * EConst COepS2 + #108 * (#9185 + #5646 * EVar vlmMst1 - #5646 * EVar
   vlmMst2) * EConst CS2 + #45168 * EConst CT1ep + #41904 * EPow P2 (EVar vlmMst1) + #216 * EVar vlmMst2 * (#5971 -
   #6106 * EVar vlmMst1 + #576 * EPow P2 (EVar vlmMst1)) - #41904 * (- #34 + #15 * EVar vlmMst1) * EPow P2 (EVar
   vlmMst2) - #3456 * EPow P3 (EVar vlmMst1) + #507600 * EPow P3 (EVar vlmMst2)))) * EPow P6 (EVar vMst1) - #622080 *
   (#1 + EVar vlmMst2) * (- EVar vDmglst2 + #3 * EVar vDmglst2 * EVar vlmMst2 + EVar vMst2 + EVar vlmMst2 * EVar
   vMst2) * EVar vMt * EVar vs2t * EPow P6 (EVar vMst2)) / (#15 * EPow P2 (EVar vMst1) * EPow P6 (EVar vMst2)) -
   #11664 * EVar vMt * EPow P2 (EVar vs2t) * (#5 * EVar vDmglst2 * EVar vDmsqst2 * (- #1081 + #165 * EVar vlmMst1 -
   #165 * EVar vlmMst2) * (- #1 + EPow P2 (EVar vSbeta)) * EPow P2 (EVar vSbeta) * EPow P4 (EVar vMst1) / (#9 * EPow
   P5 (EVar vMst2)) + EPow P2 (EVar vMuSUSY) * (EDec 53385802469135804 15 + #40 * EConst CB4 / #9 - #4 * EConst CD3 /
   #9 + #2 * EConst CDN / #9 + #1672 * EVar vlmMst1 / #27 + #53 * EPow P2 (EVar vlmMst1) / #9 - EVar vlmMst2 * (EDec
   12992592592592592 14 - #72 * EVar vlmMst1 + #13 * EPow P2 (EVar vlmMst1) / #3) + #2 * (- #470 + #147 * EVar
   vlmMst1) * EPow P2 (EVar vlmMst2) / #9 - (#103 + #186 * EVar vlmMst2 + #32 * EVar vlmMst1 * (#1 + EVar vlmMst2) +
   #91 * EPow P2 (EVar vlmMst2)) * EPow P2 (EVar vMst2) / (#9 * EPow P2 (EVar vMst1)) + (#2250 * EVar vDmsqst2 *
   (#1141 + #48 * EVar vlmMst1 * (#7 - #3 * EVar vlmMst2) - #264 * EVar vlmMst2 + #144 * EPow P2 (EVar vlmMst2)) +
   EPow P2 (EVar vMst1) * (#10552777 + #205200 * EConst CB4 - #5400 * EConst CDN + #4145280 * EVar vlmMst1 - #1181700
   * EPow P2 (EVar vlmMst1) - #240 * EVar vlmMst2 * (#16192 - #26430 * EVar vlmMst1 + #3465 * EPow P2 (EVar vlmMst1))
   + #900 * (- #5735 + #3072 * EVar vlmMst1) * EPow P2 (EVar vlmMst2) - #55800 * EPow P3 (EVar vlmMst1) - #1877400 *
   EPow P3 (EVar vlmMst2))) / (#24300 * EPow P2 (EVar vMst2)) - #271 * EPow P3 (EVar vlmMst2) / #9 + #16 * (EPow P3
   (EVar vlmMst1) + (#1 + EVar vlmMst2) * (#4 * EVar vDmglst2 * EVar vlmMst2 + EVar vMst2 + EVar vlmMst2 * EVar vMst2)
   * EPow P3 (EVar vMst2) / EPow P4 (EVar vMst1)) / #9 + (EVar vDmsqst2 * (EDec 20174098765432097 14 - #622 * EVar
   vlmMst2 / #15 + #2 * EVar vlmMst1 * (#311 + #10 * EVar vlmMst2) / #15 - #22 * EPow P2 (EVar vlmMst1) / #3 + #6 *
   EPow P2 (EVar vlmMst2)) * EPow P2 (EVar vMst1) + (EDec 6281736268201578 13 + #76 * EConst CB4 / #9 - #2 * EConst
   CDN / #9 + #6317839 * EVar vlmMst1 / #396900 - #66307 * EPow P2 (EVar vlmMst1) / #315 - EVar vlmMst2 * (EDec
   1252907281431091 14 - #182909 * EVar vlmMst1 / #315 + #274 * EPow P2 (EVar vlmMst1) / #3) + #2 * (- #58301 + #37135
   * EVar vlmMst1) * EPow P2 (EVar vlmMst2) / #315 - #44 * EPow P3 (EVar vlmMst1) / #9 - #1256 * EPow P3 (EVar
   vlmMst2) / #9) * EPow P4 (EVar vMst1)) / EPow P4 (EVar vMst2) - EVar vDmglst2 * (#2 * EVar vMst2 * (- #20 + #2 *
   (#99 + #16 * EVar vlmMst1) * EVar vlmMst2 + #123 * EPow P2 (EVar vlmMst2)) / (#9 * EPow P2 (EVar vMst1)) + (#14267
   - #432 * EConst CB4 + #576 * EConst CD3 - #360 * EConst CDN + #4752 * EVar vlmMst1 - #1404 * EPow P2 (EVar vlmMst1)
   + #72 * EVar vlmMst2 * (- #63 - #232 * EVar vlmMst1 + #16 * EPow P2 (EVar vlmMst1)) + #72 * (#281 - #123 * EVar
   vlmMst1) * EPow P2 (EVar vlmMst2) + #6480 * EVar vDmsqst2 / EPow P2 (EVar vMst1) + #7704 * EPow P3 (EVar vlmMst2))
   / (#162 * EVar vMst2) + (#810000 * EVar vDmsqst2 * (#4 + EVar vlmMst1 - EVar vlmMst2) + #2 * EPow P2 (EVar vMst1) *
   (#2695042 - #40500 * EConst CB4 + #54000 * EConst CD3 - #33750 * EConst CDN - #326895 * EVar vlmMst1 - #324900 *
   EPow P2 (EVar vlmMst1) + #15 * EVar vlmMst2 * (- #19607 - #129030 * EVar vlmMst1 + #62550 * EPow P2 (EVar vlmMst1))
   - #450 * (- #5023 + #5610 * EVar vlmMst1) * EPow P2 (EVar vlmMst2) + #11250 * EPow P3 (EVar vlmMst1) + #1575000 *
   EPow P3 (EVar vlmMst2))) / (#30375 * EPow P3 (EVar vMst2)) + (EDec 5851892843532082 13 - #8 * EConst CB4 / #3 + #32
   * EConst CD3 / #9 - #20 * EConst CDN / #9 - #20109937 * EVar vlmMst1 / #297675 - #15886 * EPow P2 (EVar vlmMst1) /
   #945 + EVar vlmMst2 * (EDec 17112243218274966 15 - #144628 * EVar vlmMst1 / #945 + #1180 * EPow P2 (EVar vlmMst1) /
   #9) + #2 * (#80257 - #138180 * EVar vlmMst1) * EPow P2 (EVar vlmMst2) / #945 - #92 * EPow P3 (EVar vlmMst1) / #27 +
   #4448 * EPow P3 (EVar vlmMst2) / #27) * EPow P4 (EVar vMst1) / EPow P5 (EVar vMst2)) - EVar vDmsqst2 * (#10 - #20 *
   EVar vlmMst2 + #10 * EVar vDmglst2 * (- #23 + #42 * EVar vlmMst1 - #42 * EVar vlmMst2) * EPow P4 (EVar vMst1) /
   EPow P5 (EVar vMst2) - #3 * (EDec 23728785508324435 14 + #16526 * EVar vlmMst2 / #3969 + #2 * EVar vlmMst1 * (-
   #8263 + #71820 * EVar vlmMst2) / #3969 - #520 * EPow P2 (EVar vlmMst1) / #21 - #80 * EPow P2 (EVar vlmMst2) / #7) *
   EPow P6 (EVar vMst1) / EPow P6 (EVar vMst2)) / (#3 * EPow P2 (EVar vMst1)) + (#10 * EVar vshiftst1 * (EVar vDmsqst2
   * (#3 - #2 * EVar vlmMst2) + (#1 - #2 * EVar vlmMst2) * EPow P2 (EVar vMst2)) * ((EPow P2 (EVar vMst1) + EPow P2
   (EVar vMst2)) * EPow P4 (EVar vMst2) - #2 * (EVar vlmMst1 - EVar vlmMst2) * EPow P2 (EVar vMst1) * (EPow P2 (EVar
   vMst1) * EPow P2 (EVar vMst2) + EPow P4 (EVar vMst1) + EPow P4 (EVar vMst2))) / (#3 * EPow P2 (EVar vMst1)) +
   EConst CS2 * (#30 * EVar vDmsqst2 * (#9 * (- #17 + #78 * EVar vlmMst1 - #78 * EVar vlmMst2) * EPow P2 (EVar vMst1)
   * EPow P2 (EVar vMst2) + #13 * (#95 + #102 * EVar vlmMst1 - #102 * EVar vlmMst2) * EPow P4 (EVar vMst1) + #81 * (-
   #15 + #2 * EVar vlmMst1 - #2 * EVar vlmMst2) * EPow P4 (EVar vMst2)) + EVar vMst2 * (#3 * EVar vMst2 * (#9 *
   (#11243 + #2114 * EVar vlmMst1 - #2114 * EVar vlmMst2) * EPow P2 (EVar vMst1) * EPow P2 (EVar vMst2) + (#194357 +
   #39711 * EVar vlmMst1 - #39711 * EVar vlmMst2) * EPow P4 (EVar vMst1) + #81 * (#307 + #46 * EVar vlmMst1 - #46 *
   EVar vlmMst2) * EPow P4 (EVar vMst2)) + EVar vDmglst2 * (#36 * (#15643 - #774 * EVar vlmMst1 + #774 * EVar vlmMst2)
   * EPow P2 (EVar vMst1) * EPow P2 (EVar vMst2) + #8 * (#93919 - #12981 * EVar vlmMst1 + #12981 * EVar vlmMst2) *
   EPow P4 (EVar vMst1) + #162 * (#1677 - #14 * EVar vlmMst1 + #14 * EVar vlmMst2) * EPow P4 (EVar vMst2)))) / #81 -
   #4 * EConst COepS2 * (#60 * EVar vDmsqst2 * (#117 * EPow P2 (EVar vMst1) * EPow P2 (EVar vMst2) + #221 * EPow P4
   (EVar vMst1) + #27 * EPow P4 (EVar vMst2)) + EVar vMst2 * (#19026 * EPow P2 (EVar vMst1) * EPow P3 (EVar vMst2) +
   #39711 * EVar vMst2 * EPow P4 (EVar vMst1) - #4 * EVar vDmglst2 * (#2322 * EPow P2 (EVar vMst1) * EPow P2 (EVar
   vMst2) + #8654 * EPow P4 (EVar vMst1) + #189 * EPow P4 (EVar vMst2)) + #3726 * EPow P5 (EVar vMst2))) / #2187) /
   EPow P6 (EVar vMst2) + (#1 - #2 * EVar vlmMst2) * EVar vshiftst3 * (#2 * (#1 - #2 * EVar vlmMst1 + #2 * EVar
   vlmMst2) * EPow P2 (EVar vMst2) * EPow P4 (EVar vMst1) + #2 * (#1 - EVar vlmMst1 + EVar vlmMst2) * EPow P2 (EVar
   vMst1) * EPow P4 (EVar vMst2) + (#2 - #6 * EVar vlmMst1 + #6 * EVar vlmMst2) * EPow P6 (EVar vMst1) + EPow P6 (EVar
   vMst2)) / (#3 * EPow P2 (EVar vMst1) * EPow P4 (EVar vMst2)))) + (#16 * EConst Cz3 * (#2 * EVar vMuSUSY * (#2 *
   EVar vMt * (#6759 * EVar vMuSUSY + #834482 * EVar vDmglst2 * EVar vTbeta - #321216 * EVar vMst2 * EVar vTbeta) +
   EVar vs2t * (#1582324 * EVar vDmglst2 * EVar vMuSUSY + #298896 * EVar vMst2 * EVar vMuSUSY + #28950 * EVar vDmsqst2
   * EVar vTbeta + #50508 * EVar vDmglst2 * EVar vMst2 * EVar vTbeta + #40629 * EVar vTbeta * EPow P2 (EVar vMst2))) *
   EPow P2 (EVar vMt) + EVar vMt * EPow P2 (EVar vs2t) * (#2 * EVar vMst2 * EVar vMuSUSY * (EVar vDmglst2 * (#706232 *
   EVar vMuSUSY - #546087 * EVar vMst2 * EVar vTbeta) + #6 * EVar vMst2 * ((#91963 + #162 * EVar vlmMst1 - #162 * EVar
   vlmMst2) * EVar vMuSUSY - #4431 * EVar vMst2 * EVar vTbeta)) + #3645 * EVar vxDmsqst2 * EPow P2 (EVar vDmsqst2) *
   (- #1 + EPow P2 (EVar vSbeta)) * EPow P2 (EVar vSbeta) + #30 * EVar vDmsqst2 * (#3888 * (EVar vDmglst2 - EVar
   vMst2) * EVar vMuSUSY * EVar vTbeta + #1771 * EPow P2 (EVar vMuSUSY) - #810 * EVar vDmglst2 * EVar vMst2 * (- #1 +
   EPow P2 (EVar vSbeta)) * EPow P2 (EVar vSbeta))) - ((#21840 * EVar vDmsqst2 + #11 * EVar vMst2 * (#16354 * EVar
   vDmglst2 + #20937 * EVar vMst2)) * EVar vMuSUSY * EVar vTbeta * EPow P2 (EVar vMst2) - #30 * EVar vxDmsqst2 * EPow
   P2 (EVar vDmsqst2) * (#1517 * EVar vMuSUSY * EVar vTbeta - #405 * EVar vMst2 * (- #1 + EPow P2 (EVar vSbeta)) *
   EPow P2 (EVar vSbeta))) * EPow P3 (EVar vs2t)) * EPow P4 (EVar vMst1) + #8 * EVar vMuSUSY * EConst Cz4 * ((#4 *
   EVar vs2t * (#2636 * EVar vDmglst2 * EVar vMuSUSY + #35292 * EVar vMst2 * EVar vMuSUSY - #1590 * EVar vDmsqst2 *
   EVar vTbeta + #27252 * EVar vDmglst2 * EVar vMst2 * EVar vTbeta - #18093 * EVar vTbeta * EPow P2 (EVar vMst2)) *
   EPow P2 (EVar vMt) - #2 * EVar vMt * (#13260 * EVar vDmsqst2 * EVar vMuSUSY + EVar vMst2 * (- #45308 * EVar
   vDmglst2 * EVar vMuSUSY + #41169 * EVar vMst2 * EVar vMuSUSY - #15189 * EVar vDmglst2 * EVar vMst2 * EVar vTbeta +
   #22293 * EVar vTbeta * EPow P2 (EVar vMst2))) * EPow P2 (EVar vs2t) + #8 * (#9279 * EVar vMuSUSY - #28538 * EVar
   vDmglst2 * EVar vTbeta + #9978 * EVar vMst2 * EVar vTbeta) * EPow P3 (EVar vMt) + EVar vTbeta * (- #2820 * EVar
   vxDmsqst2 * EPow P2 (EVar vDmsqst2) + #6240 * EVar vDmsqst2 * EPow P2 (EVar vMst2) + (- #25328 * EVar vDmglst2 +
   #20685 * EVar vMst2) * EPow P3 (EVar vMst2)) * EPow P3 (EVar vs2t)) * EPow P4 (EVar vMst1) - #3 * EPow P2 (EVar
   vMst1) * (#2 * EVar vxDmglst2 * EPow P2 (EVar vDmglst2) * (- #4 * EVar vMst2 * EVar vs2t * (#4045 * EVar vMuSUSY +
   #594 * EVar vMst2 * EVar vTbeta) * EPow P2 (EVar vMt) + EVar vMt * (- #14978 * EVar vMuSUSY + #10173 * EVar vMst2 *
   EVar vTbeta) * EPow P2 (EVar vMst2) * EPow P2 (EVar vs2t) - #8 * (#507 * EVar vMuSUSY + #2198 * EVar vMst2 * EVar
   vTbeta) * EPow P3 (EVar vMt) + #2731 * EVar vTbeta * EPow P3 (EVar vs2t) * EPow P4 (EVar vMst2)) + #3 * (- #8 *
   (#1135 * EVar vMuSUSY * EVar vs2t + #652 * EVar vMt * EVar vTbeta) * EPow P2 (EVar vMt) * EPow P3 (EVar vMst2) -
   #20 * EPow P2 (EVar vMst2) * (- #30 * EVar vDmsqst2 * EVar vs2t * EVar vTbeta * EPow P2 (EVar vMt) - #78 * EVar
   vDmsqst2 * EVar vMt * EVar vMuSUSY * EPow P2 (EVar vs2t) + #180 * EVar vMuSUSY * EPow P3 (EVar vMt) - #11 * EVar
   vTbeta * EVar vxDmsqst2 * EPow P2 (EVar vDmsqst2) * EPow P3 (EVar vs2t)) + EVar vs2t * (- #80 * EVar vMt * (#7 *
   EVar vMuSUSY * EVar vs2t + #4 * EVar vMt * EVar vTbeta) * EVar vxDmsqst2 * EPow P2 (EVar vDmsqst2) + (#4552 * EVar
   vMt * EVar vMuSUSY * EVar vs2t + #3470 * EVar vTbeta * EPow P2 (EVar vMt) - #600 * EVar vDmsqst2 * EVar vTbeta *
   EPow P2 (EVar vs2t)) * EPow P4 (EVar vMst2)) + EVar vDmglst2 * EVar vMst2 * (#8 * EVar vMst2 * EVar vs2t * (- #709
   * EVar vMuSUSY + #24 * EVar vMst2 * EVar vTbeta) * EPow P2 (EVar vMt) + #15 * EVar vMt * (- #296 * EVar vMuSUSY +
   #121 * EVar vMst2 * EVar vTbeta) * EPow P2 (EVar vMst2) * EPow P2 (EVar vs2t) - #96 * (#47 * EVar vMuSUSY - #26 *
   EVar vMst2 * EVar vTbeta) * EPow P3 (EVar vMt) + #948 * EVar vTbeta * EPow P3 (EVar vs2t) * EPow P4 (EVar vMst2)) +
   (#4515 * EVar vMt - #1916 * EVar vMst2 * EVar vs2t) * EVar vTbeta * EPow P2 (EVar vs2t) * EPow P5 (EVar vMst2))) -
   #9 * EPow P2 (EVar vMst2) * (#4 * EVar vxDmglst2 * EPow P2 (EVar vDmglst2) * (#2 * EVar vMst2 * EVar vs2t * (- #218
   * EVar vMuSUSY + #99 * EVar vMst2 * EVar vTbeta) * EPow P2 (EVar vMt) + EVar vMt * (- #1586 * EVar vMuSUSY + #327 *
   EVar vMst2 * EVar vTbeta) * EPow P2 (EVar vMst2) * EPow P2 (EVar vs2t) - #4 * (#81 * EVar vMuSUSY + #28 * EVar
   vMst2 * EVar vTbeta) * EPow P3 (EVar vMt) + #793 * EVar vTbeta * EPow P3 (EVar vs2t) * EPow P4 (EVar vMst2)) + #3 *
   (- #40 * EVar vMt * EVar vs2t * (EVar vMuSUSY * EVar vs2t + EVar vMt * EVar vTbeta) * EVar vxDmsqst2 * EPow P2
   (EVar vDmsqst2) - #4 * EVar vDmglst2 * EVar vMst2 * (EVar vMst2 * EVar vs2t * (#271 * EVar vMuSUSY - #216 * EVar
   vMst2 * EVar vTbeta) + EVar vMt * (#216 * EVar vMuSUSY + #253 * EVar vMst2 * EVar vTbeta)) * EPow P2 (EVar vMt) -
   #12 * (#85 * EVar vMuSUSY * EVar vs2t + #103 * EVar vMt * EVar vTbeta) * EPow P2 (EVar vMt) * EPow P3 (EVar vMst2)
   + EVar vDmglst2 * EVar vMt * (- #848 * EVar vMuSUSY + #813 * EVar vMst2 * EVar vTbeta) * EPow P2 (EVar vs2t) * EPow
   P3 (EVar vMst2) - #4 * EPow P2 (EVar vMst2) * (- #30 * EVar vDmsqst2 * EVar vs2t * EVar vTbeta * EPow P2 (EVar vMt)
   - #30 * EVar vDmsqst2 * EVar vMt * EVar vMuSUSY * EPow P2 (EVar vs2t) + #108 * EVar vMuSUSY * EPow P3 (EVar vMt) -
   #5 * EVar vTbeta * EVar vxDmsqst2 * EPow P2 (EVar vDmsqst2) * EPow P3 (EVar vs2t)) + #6 * EVar vs2t * (#40 * EVar
   vMt * EVar vMuSUSY * EVar vs2t + #101 * EVar vTbeta * EPow P2 (EVar vMt) - #10 * EVar vDmsqst2 * EVar vTbeta * EPow
   P2 (EVar vs2t)) * EPow P4 (EVar vMst2) - #15 * (- #51 * EVar vMt + #8 * EVar vMst2 * EVar vs2t) * EVar vTbeta *
   EPow P2 (EVar vs2t) * EPow P5 (EVar vMst2) + #424 * EVar vDmglst2 * EVar vTbeta * EPow P3 (EVar vs2t) * EPow P5
   (EVar vMst2)))) - #16 * EVar vxDmsqst2 * EPow P2 (EVar vDmsqst2) * (- #9 * EVar vMt * EVar vs2t * (#2160 * (#3 + #2
   * EVar vlmMst1 - #2 * EVar vlmMst2) * EVar vMst2 * EVar vMt * EPow P2 (EVar vMst1) + #270 * EVar vs2t * EVar
   vshiftst1 * (#2 * (EVar vlmMst1 - EVar vlmMst2) * EPow P2 (EVar vMst1) - EPow P2 (EVar vMst2)) * (EPow P2 (EVar
   vMst1) + EPow P2 (EVar vMst2)) + #40 * EVar vs2t * EConst CT1ep * EPow P2 (EVar vMst1) * (#14 * EPow P2 (EVar
   vMst1) + #3 * EPow P2 (EVar vMst2))) * EPow P2 (EVar vMuSUSY) + EVar vMuSUSY * EVar vTbeta * (#45 * EVar vMst2 *
   EPow P2 (EVar vMst1) * (#16 * EVar vMst2 * EVar vs2t * (#88 + #8 * EConst COepS2 - #81 * EConst CS2 - #18 * (EVar
   vlmMst1 - EVar vlmMst2) * (#2 + #9 * EConst CS2) - #54 * EVar vshiftst1 - #12 * EConst CT1ep) * EPow P2 (EVar vMt)
   + #2592 * (#3 + #2 * EVar vlmMst1 - #2 * EVar vlmMst2) * EVar vMt * EPow P2 (EVar vMst2) * EPow P2 (EVar vs2t) +
   #864 * (#4 - #8 * EVar vlmMst1 + #15 * EVar vlmMst2 - #7 * EVar vlmMt) * EPow P3 (EVar vMt) - (#1493 + #64 * EConst
   COepS2 - #27864 * EConst CS2 - #72 * (EVar vlmMst1 - EVar vlmMst2) * (- #1 + #18 * EConst CS2 + #6 * EVar
   vshiftst1) - #96 * EConst CT1ep) * EPow P3 (EVar vMst2) * EPow P3 (EVar vs2t)) / #8 + EVar vs2t * (#3 * (#972000 *
   (#1 + #4 * EVar vlmMst1 - #4 * EVar vlmMst2) * EVar vMst2 * EVar vMt * EVar vs2t + #8 * (#187757 + #16000 * EConst
   COepS2 - #540000 * EConst CS2 + #90 * EVar vlmMst2 * (- #587 + #3600 * EConst CS2) - #90 * EVar vlmMst1 * (- #587 +
   #630 * EVar vlmMst2 + #3600 * EConst CS2) - #24000 * EConst CT1ep + #28350 * (EPow P2 (EVar vlmMst1) + EPow P2
   (EVar vlmMst2))) * EPow P2 (EVar vMt) + (#1372861 - #88000 * EConst COepS2 + #180 * EVar vlmMst2 * (#1987 - #9900 *
   EConst CS2) + #13743000 * EConst CS2 + #180 * EVar vlmMst1 * (- #1987 + #1080 * EVar vlmMst2 + #9900 * EConst CS2)
   + #81000 * EVar vshiftst1 + #132000 * EConst CT1ep - #97200 * (EPow P2 (EVar vlmMst1) + EPow P2 (EVar vlmMst2))) *
   EPow P2 (EVar vMst2) * EPow P2 (EVar vs2t)) * EPow P4 (EVar vMst1) / #200 - #1215 * (#2 + EVar vshiftst1) * (- #4 *
   EPow P2 (EVar vMt) + EPow P2 (EVar vMst2) * EPow P2 (EVar vs2t)) * EPow P4 (EVar vMst2)) + (#610359812 - #64484000
   * EConst COepS2 + #315 * EVar vlmMst2 * (#540413 - #4145400 * EConst CS2) + #8117266500 * EConst CS2 + #315 * EVar
   vlmMst1 * (- #540413 + #884520 * EVar vlmMst2 + #4145400 * EConst CS2) + #96726000 * EConst CT1ep - #139311900 *
   (EPow P2 (EVar vlmMst1) + EPow P2 (EVar vlmMst2))) * EPow P3 (EVar vs2t) * EPow P6 (EVar vMst1) / #34300) + #3 *
   EPow P2 (EVar vs2t) * (#10125 * EPow P2 (EVar vSbeta) * (#2 * (#11 + #39 * EVar vlmMst1 - #39 * EVar vlmMst2) *
   EVar vMst2 * EVar vs2t * (- #1 + EPow P2 (EVar vSbeta)) + (#167 - #5 * EVar vlmMst1 + #5 * EVar vlmMst2) * EVar vMt
   * EPow P2 (EVar vSbeta)) * EPow P6 (EVar vMst1) + EVar vMt * (EPow P2 (EVar vMuSUSY) * (#375 * (#1925 + #64 *
   EConst COepS2 - #27864 * EConst CS2 - #72 * (EVar vlmMst1 - EVar vlmMst2) * (- #1 + #18 * EConst CS2)) * EPow P2
   (EVar vMst1) * EPow P2 (EVar vMst2) + #2 * (#7 * (- #46499 + #8000 * EConst COepS2 - #1728000 * EConst CS2) + #90 *
   EVar vlmMst2 * (- #2137 + #12600 * EConst CS2) - #90 * EVar vlmMst1 * (- #2137 + #1080 * EVar vlmMst2 + #12600 *
   EConst CS2) + #48600 * (EPow P2 (EVar vlmMst1) + EPow P2 (EVar vlmMst2))) * EPow P4 (EVar vMst1) + #162000 * EPow
   P4 (EVar vMst2)) + #10125 * (- #167 + #5 * EVar vlmMst1 - #5 * EVar vlmMst2) * EPow P2 (EVar vSbeta) * EPow P6
   (EVar vMst1))) / #100) / EPow P2 (EVar vMst1) - EVar vMuSUSY * EConst Cz3 * (#3 * EPow P2 (EVar vMst1) * (#384 *
   EVar vMt * (#5 * EVar vs2t * (#472 * EVar vMuSUSY * EVar vs2t + #28 * EVar vMt * EVar vTbeta + #81 * EVar vMst2 *
   EVar vs2t * EVar vTbeta) * EVar vxDmsqst2 * EPow P2 (EVar vDmsqst2) + #540 * EVar vDmsqst2 * EVar vMst2 * (- #7 *
   EVar vMt * EVar vMuSUSY * EVar vs2t + #4 * EVar vTbeta * EPow P2 (EVar vMt) + #3 * EVar vTbeta * EPow P2 (EVar
   vMst2) * EPow P2 (EVar vs2t)) + EVar vMt * (- #7318 * EVar vMuSUSY * EVar vs2t + #8219 * EVar vMt * EVar vTbeta) *
   EPow P3 (EVar vMst2)) - #3 * EPow P2 (EVar vMst2) * (#96960 * EVar vDmsqst2 * EVar vs2t * EVar vTbeta * EPow P2
   (EVar vMt) + #16800 * EVar vDmsqst2 * EVar vMt * EVar vMuSUSY * EPow P2 (EVar vs2t) + #125568 * EVar vMuSUSY * EPow
   P3 (EVar vMt) + #84995 * EVar vTbeta * EVar vxDmsqst2 * EPow P2 (EVar vDmsqst2) * EPow P3 (EVar vs2t)) - #48 * EVar
   vs2t * (#2 * (#35719 + #108 * EVar vlmMst1 - #108 * EVar vlmMst2) * EVar vMt * EVar vMuSUSY * EVar vs2t - #1859 *
   EVar vTbeta * EPow P2 (EVar vMt) - #1560 * EVar vDmsqst2 * EVar vTbeta * EPow P2 (EVar vs2t)) * EPow P4 (EVar
   vMst2) + #4 * EVar vxDmglst2 * EPow P2 (EVar vDmglst2) * (- #32 * EVar vMst2 * EVar vs2t * (#80959 * EVar vMuSUSY +
   #22806 * EVar vMst2 * EVar vTbeta) * EPow P2 (EVar vMt) + #4 * EVar vMt * (- #458284 * EVar vMuSUSY + #190797 *
   EVar vMst2 * EVar vTbeta) * EPow P2 (EVar vMst2) * EPow P2 (EVar vs2t) + #8 * (#154668 * EVar vMuSUSY + #342281 *
   EVar vMst2 * EVar vTbeta) * EPow P3 (EVar vMt) + #547817 * EVar vTbeta * EPow P3 (EVar vs2t) * EPow P4 (EVar
   vMst2)) + #24 * (#34131 * EVar vMt + #4 * (#11924 + #27 * EVar vlmMst1 - #27 * EVar vlmMst2) * EVar vMst2 * EVar
   vs2t) * EVar vTbeta * EPow P2 (EVar vs2t) * EPow P5 (EVar vMst2) + #24 * EVar vDmglst2 * (#43200 * EVar vDmsqst2 *
   (EVar vMuSUSY * EVar vs2t - #4 * EVar vMt * EVar vTbeta) * EPow P2 (EVar vMt) + #24 * EVar vs2t * (- #9747 * EVar
   vMt * EVar vMuSUSY * EVar vs2t - #1180 * EVar vTbeta * EPow P2 (EVar vMt) + #225 * EVar vDmsqst2 * EVar vTbeta *
   EPow P2 (EVar vs2t)) * EPow P3 (EVar vMst2) + EVar vMst2 * EVar vMt * (- #379648 * EVar vMst2 * EVar vMt * EVar
   vMuSUSY * EVar vs2t + #2400 * (#5 * EVar vMuSUSY - #67 * EVar vMst2 * EVar vTbeta) * EPow P2 (EVar vMt) - #3 * EPow
   P2 (EVar vs2t) * (#2880 * EVar vDmsqst2 * (#2 * EVar vMuSUSY + #3 * EVar vMst2 * EVar vTbeta) - #49501 * EVar
   vTbeta * EPow P3 (EVar vMst2))) + #64119 * EVar vTbeta * EPow P3 (EVar vs2t) * EPow P5 (EVar vMst2))) + #9 * EVar
   vMst2 * (#4 * EVar vDmglst2 * EVar vMst2 * (EVar vDmglst2 * EVar vxDmglst2 * (- #2 * EVar vMst2 * EVar vMt * EVar
   vs2t * (EVar vMst2 * EVar vs2t * (#122917 * EVar vMuSUSY - #196638 * EVar vMst2 * EVar vTbeta) + EVar vMt *
   (#262184 * EVar vMuSUSY + #166791 * EVar vMst2 * EVar vTbeta)) + #8 * (#21888 * EVar vMuSUSY + #32323 * EVar vMst2
   * EVar vTbeta) * EPow P3 (EVar vMt) + #122917 * EVar vTbeta * EPow P3 (EVar vs2t) * EPow P4 (EVar vMst2)) + #6 *
   (#2880 * EVar vDmsqst2 * (EVar vMuSUSY * EVar vs2t - #6 * EVar vMt * EVar vTbeta) * EPow P2 (EVar vMt) + #2 * EVar
   vs2t * (- #17615 * EVar vMt * EVar vMuSUSY * EVar vs2t - #1756 * EVar vTbeta * EPow P2 (EVar vMt) + #540 * EVar
   vDmsqst2 * EVar vTbeta * EPow P2 (EVar vs2t)) * EPow P3 (EVar vMst2) + EVar vMst2 * EVar vMt * (- #60548 * EVar
   vMst2 * EVar vMt * EVar vMuSUSY * EVar vs2t + #4 * (#664 * EVar vMuSUSY - #9 * EVar vMst2 * EVar vTbeta) * EPow P2
   (EVar vMt) - #3 * EPow P2 (EVar vs2t) * (#720 * EVar vDmsqst2 * (EVar vMuSUSY + EVar vMst2 * EVar vTbeta) - #15137
   * EVar vTbeta * EPow P3 (EVar vMst2))) + #17615 * EVar vTbeta * EPow P3 (EVar vs2t) * EPow P5 (EVar vMst2))) + #3 *
   (#10 * EVar vMt * (#1152 * EVar vMt * (- (EVar vMuSUSY * EVar vs2t) + #2 * EVar vMt * EVar vTbeta) + #7 * EVar
   vMst2 * EVar vs2t * (#629 * EVar vMuSUSY * EVar vs2t + #86 * EVar vMt * EVar vTbeta)) * EVar vxDmsqst2 * EPow P2
   (EVar vDmsqst2) + #32 * EVar vMt * EPow P2 (EVar vMst2) * (EPow P2 (EVar vMst2) * (- #5965 * EVar vMt * EVar
   vMuSUSY * EVar vs2t + #2883 * EVar vTbeta * EPow P2 (EVar vMt) + #1620 * EVar vDmsqst2 * EVar vTbeta * EPow P2
   (EVar vs2t)) + #90 * EVar vDmsqst2 * (- #24 * EVar vMt * EVar vMuSUSY * EVar vs2t + #16 * EVar vTbeta * EPow P2
   (EVar vMt) + #3 * EVar vDmsqst2 * EVar vTbeta * EVar vxDmsqst2 * EPow P2 (EVar vs2t))) - #5 * EPow P3 (EVar vMst2)
   * (#5568 * EVar vDmsqst2 * EVar vs2t * EVar vTbeta * EPow P2 (EVar vMt) - #2208 * EVar vDmsqst2 * EVar vMt * EVar
   vMuSUSY * EPow P2 (EVar vs2t) + #5888 * EVar vMuSUSY * EPow P3 (EVar vMt) + #4403 * EVar vTbeta * EVar vxDmsqst2 *
   EPow P2 (EVar vDmsqst2) * EPow P3 (EVar vs2t)) - #48 * EVar vs2t * (#2 * (#1319 + #6 * EVar vlmMst1 - #6 * EVar
   vlmMst2) * EVar vMt * EVar vMuSUSY * EVar vs2t + #3 * (- #77 + #8 * EVar vlmMst1 - #8 * EVar vlmMst2) * EVar vTbeta
   * EPow P2 (EVar vMt) + #115 * EVar vDmsqst2 * EVar vTbeta * EPow P2 (EVar vs2t)) * EPow P5 (EVar vMst2) + #24 *
   (#5965 * EVar vMt + #2 * (#1319 + #6 * EVar vlmMst1 - #6 * EVar vlmMst2) * EVar vMst2 * EVar vs2t) * EVar vTbeta *
   EPow P2 (EVar vs2t) * EPow P6 (EVar vMst2))))) / EPow P6 (EVar vMst2)) / EVar vTbeta + #6 * EVar vMuSUSY * (#2 *
   EVar vMt * EPow P2 (EConst Cz2) * ((- #4 * EVar vs2t * (#172810 * EVar vDmglst2 * EVar vMuSUSY + #41010 * EVar
   vMst2 * EVar vMuSUSY + #1590 * EVar vDmsqst2 * EVar vTbeta - #33084 * EVar vDmglst2 * EVar vMst2 * EVar vTbeta +
   #18093 * EVar vTbeta * EPow P2 (EVar vMst2)) * EPow P2 (EVar vMt) + #2 * EVar vMt * (- #13260 * EVar vDmsqst2 *
   EVar vMuSUSY + EVar vMst2 * (#42392 * EVar vDmglst2 * EVar vMuSUSY - #35823 * EVar vMst2 * EVar vMuSUSY + #105585 *
   EVar vDmglst2 * EVar vMst2 * EVar vTbeta + #18531 * EVar vTbeta * EPow P2 (EVar vMst2))) * EPow P2 (EVar vs2t) + #8
   * (#4905 * EVar vMuSUSY - #32426 * EVar vDmglst2 * EVar vTbeta + #6090 * EVar vMst2 * EVar vTbeta) * EPow P3 (EVar
   vMt) + EVar vTbeta * (- #2820 * EVar vxDmsqst2 * EPow P2 (EVar vDmsqst2) + #6240 * EVar vDmsqst2 * EPow P2 (EVar
   vMst2) + (- #25328 * EVar vDmglst2 + #20685 * EVar vMst2) * EPow P3 (EVar vMst2)) * EPow P3 (EVar vs2t)) * EPow P4
   (EVar vMst1) - #9 * EPow P2 (EVar vMst2) * (#2 * EVar vMst2 * EVar vxDmglst2 * EPow P2 (EVar vDmglst2) * (#4 * EVar
   vs2t * (#2536 * EVar vMuSUSY - #63 * EVar vMst2 * EVar vTbeta) * EPow P2 (EVar vMt) - #2 * EVar vMst2 * EVar vMt *
   (#209 * EVar vMuSUSY + #3804 * EVar vMst2 * EVar vTbeta) * EPow P2 (EVar vs2t) - #224 * EVar vTbeta * EPow P3 (EVar
   vMt) + #209 * EVar vTbeta * EPow P3 (EVar vMst2) * EPow P3 (EVar vs2t)) + #3 * EVar vDmglst2 * EPow P2 (EVar vMst2)
   * (#7052 * EVar vMuSUSY * EVar vs2t * EPow P2 (EVar vMt) - EVar vMst2 * EVar vMt * (#632 * EVar vMuSUSY + #5289 *
   EVar vMst2 * EVar vTbeta) * EPow P2 (EVar vs2t) + #140 * EVar vTbeta * EPow P3 (EVar vMt) + #316 * EVar vTbeta *
   EPow P3 (EVar vMst2) * EPow P3 (EVar vs2t)) + #3 * (- #40 * EVar vMt * EVar vs2t * (EVar vMuSUSY * EVar vs2t + EVar
   vMt * EVar vTbeta) * EVar vxDmsqst2 * EPow P2 (EVar vDmsqst2) + #20 * EVar vDmsqst2 * EVar vs2t * EPow P2 (EVar
   vMst2) * (#6 * EVar vMt * EVar vMuSUSY * EVar vs2t + #6 * EVar vTbeta * EPow P2 (EVar vMt) + EVar vDmsqst2 * EVar
   vTbeta * EVar vxDmsqst2 * EPow P2 (EVar vs2t)) + #12 * (#185 * EVar vMuSUSY * EVar vs2t - #7 * EVar vMt * EVar
   vTbeta) * EPow P2 (EVar vMt) * EPow P3 (EVar vMst2) - #6 * EVar vs2t * (#2 * EVar vMt * EVar vMuSUSY * EVar vs2t -
   #53 * EVar vTbeta * EPow P2 (EVar vMt) + #10 * EVar vDmsqst2 * EVar vTbeta * EPow P2 (EVar vs2t)) * EPow P4 (EVar
   vMst2) - #1665 * EVar vMt * EVar vTbeta * EPow P2 (EVar vs2t) * EPow P5 (EVar vMst2) + #6 * EVar vTbeta * EPow P3
   (EVar vs2t) * EPow P6 (EVar vMst2))) + #3 * EPow P2 (EVar vMst1) * (- #3 * EVar vDmglst2 * EVar vMst2 * (- #80 *
   EVar vMst2 * EVar vs2t * (- #569 * EVar vMuSUSY + #30 * EVar vMst2 * EVar vTbeta) * EPow P2 (EVar vMt) - #3 * EVar
   vMt * (#1264 * EVar vMuSUSY + #6091 * EVar vMst2 * EVar vTbeta) * EPow P2 (EVar vMst2) * EPow P2 (EVar vs2t) + #96
   * (#7 * EVar vMuSUSY + #62 * EVar vMst2 * EVar vTbeta) * EPow P3 (EVar vMt) + #948 * EVar vTbeta * EPow P3 (EVar
   vs2t) * EPow P4 (EVar vMst2)) + #2 * EVar vxDmglst2 * EPow P2 (EVar vDmglst2) * (#4 * EVar vMst2 * EVar vs2t * (-
   #12479 * EVar vMuSUSY + #1080 * EVar vMst2 * EVar vTbeta) * EPow P2 (EVar vMt) + EVar vMt * (- #1060 * EVar vMuSUSY
   + #14613 * EVar vMst2 * EVar vTbeta) * EPow P2 (EVar vMst2) * EPow P2 (EVar vs2t) + #56 * (#3 * EVar vMuSUSY + #314
   * EVar vMst2 * EVar vTbeta) * EPow P3 (EVar vMt) + #1157 * EVar vTbeta * EPow P3 (EVar vs2t) * EPow P4 (EVar
   vMst2)) + #3 * (#80 * EVar vMt * EVar vs2t * (#7 * EVar vMuSUSY * EVar vs2t + #4 * EVar vMt * EVar vTbeta) * EVar
   vxDmsqst2 * EPow P2 (EVar vDmsqst2) + #32 * (- #398 * EVar vMuSUSY * EVar vs2t + #55 * EVar vMt * EVar vTbeta) *
   EPow P2 (EVar vMt) * EPow P3 (EVar vMst2) - #4 * EPow P2 (EVar vMst2) * (#150 * EVar vDmsqst2 * EVar vs2t * EVar
   vTbeta * EPow P2 (EVar vMt) + #390 * EVar vDmsqst2 * EVar vMt * EVar vMuSUSY * EPow P2 (EVar vs2t) - #252 * EVar
   vMuSUSY * EPow P3 (EVar vMt) + #55 * EVar vTbeta * EVar vxDmsqst2 * EPow P2 (EVar vDmsqst2) * EPow P3 (EVar vs2t))
   + #2 * EVar vs2t * (- #1682 * EVar vMt * EVar vMuSUSY * EVar vs2t - #1735 * EVar vTbeta * EPow P2 (EVar vMt) + #300
   * EVar vDmsqst2 * EVar vTbeta * EPow P2 (EVar vs2t)) * EPow P4 (EVar vMst2) + #4557 * EVar vMt * EVar vTbeta * EPow
   P2 (EVar vs2t) * EPow P5 (EVar vMst2) + #1700 * EVar vTbeta * EPow P3 (EVar vs2t) * EPow P6 (EVar vMst2)))) / (EVar
   vTbeta * EPow P6 (EVar vMst2)) + #1944 * (- (EVar vs2t * EPow P3 (EVar vMt) * (EDec 30229104938271604 14 + #8 *
   EConst CD3 / #9 - #8 * EConst CDN / #9 + #614 * EVar vlmMst1 / #27 + #32 * EVar vlmMt / #3 + #124 * EPow P2 (EVar
   vlmMst1) / #9 - #2 * EVar vlmMst2 * (- #1901 + #6 * EVar vlmMst1 + #117 * EPow P2 (EVar vlmMst1)) / #27 + (#46 +
   #32 * EVar vlmMst1 / #9) * EPow P2 (EVar vlmMst2) + #14 * EPow P3 (EVar vlmMst2) / #9 + (#13500 * EVar vDmsqst2 *
   (#367 + #32 * EVar vlmMst1 - #80 * EVar vlmMst2) + EPow P2 (EVar vMst1) * (#19425643 + #518400 * EVar vlmMt + #240
   * EVar vlmMst2 * (#82997 + #4320 * EVar vlmMt) - #3600 * (#683 + #96 * EVar vlmMst2) * EPow P2 (EVar vlmMst1) +
   #5684400 * EPow P2 (EVar vlmMst2) - #240 * EVar vlmMst1 * (#42047 + #4800 * EVar vlmMst2 + #4320 * EVar vlmMt +
   #6390 * EPow P2 (EVar vlmMst2)) - #295200 * EPow P3 (EVar vlmMst1) + #2174400 * EPow P3 (EVar vlmMst2))) / (#48600
   * EPow P2 (EVar vMst2)) + #32 * (EPow P3 (EVar vlmMst1) + (#1 + EVar vlmMst2) * (#4 * EVar vDmglst2 * EVar vlmMst2
   + EVar vMst2 + EVar vlmMst2 * EVar vMst2) * EPow P3 (EVar vMst2) / EPow P4 (EVar vMst1)) / #9 + (EVar vDmsqst2 *
   (EDec 8394493827160494 14 - #356 * EVar vlmMst1 / #15 + #4 * (#89 + #60 * EVar vlmMst1) * EVar vlmMst2 / #15 - #8 *
   (EPow P2 (EVar vlmMst1) + EPow P2 (EVar vlmMst2))) * EPow P2 (EVar vMst1) + (EDec 5996859861506036 13 - #99165049 *
   EVar vlmMst1 / #198450 + EVar vlmMst2 * (EDec 7139201259763164 13 - #57994 * EVar vlmMst1 / #945 - #350 * EPow P2
   (EVar vlmMst1) / #9) - #90913 * EPow P2 (EVar vlmMst1) / #945 + (EDec 20024021164021164 14 - #286 * EVar vlmMst1 /
   #9) * EPow P2 (EVar vlmMst2) + #32 * EVar vlmMt * (#1 + #4 * EVar vlmMst2 - #2 * EVar vlmMst1 * (#2 + EVar vlmMst2)
   + EPow P2 (EVar vlmMst1) + EPow P2 (EVar vlmMst2)) / #3 + #26 * EPow P3 (EVar vlmMst1) / #27 + #1882 * EPow P3
   (EVar vlmMst2) / #27) * EPow P4 (EVar vMst1)) / EPow P4 (EVar vMst2) + EVar vDmglst2 * (- #4 * EVar vMst2 * (- #52
   + #2 * (#51 + #16 * EVar vlmMst1) * EVar vlmMst2 + #59 * EPow P2 (EVar vlmMst2)) / (#9 * EPow P2 (EVar vMst1)) + #4
   * (#12454 - #120 * EConst CB4 + #120 * EConst CD3 - #60 * EConst CDN + #690 * EVar vlmMst1 + #345 * EPow P2 (EVar
   vlmMst1) - #5 * EVar vlmMst2 * (- #3121 + #42 * EVar vlmMst1 + #96 * EPow P2 (EVar vlmMst1)) + (#3630 - #480 * EVar
   vlmMst1) * EPow P2 (EVar vlmMst2) - #2700 * EVar vDmsqst2 / EPow P2 (EVar vMst1) + #960 * EPow P3 (EVar vlmMst2)) /
   (#135 * EVar vMst2) - #8 * (#691875 * EVar vDmsqst2 - EPow P2 (EVar vMst1) * (#1928479 - #13500 * EConst CB4 +
   #13500 * EConst CD3 - #6750 * EConst CDN + #635385 * EVar vlmMst1 + #81000 * (- #2 + EVar vlmMst1 - EVar vlmMst2) *
   EVar vlmMt + #450 * EPow P2 (EVar vlmMst1) - #15 * EVar vlmMst2 * (- #153166 + #17835 * EVar vlmMst1 + #3375 * EPow
   P2 (EVar vlmMst1)) - #225 * (- #2627 + #1695 * EVar vlmMst1) * EPow P2 (EVar vlmMst2) - #1125 * EPow P3 (EVar
   vlmMst1) + #433125 * EPow P3 (EVar vlmMst2))) / (#30375 * EPow P3 (EVar vMst2)) + (EDec 31141128771790903 14 - #32
   * EConst CB4 / #9 + #32 * EConst CD3 / #9 - #16 * EConst CDN / #9 + #14926634 * EVar vlmMst1 / #19845 + #19352 *
   EPow P2 (EVar vlmMst1) / #189 + #2 * EVar vlmMst2 * (#2917823 - #3813600 * EVar vlmMst1 + #97020 * EPow P2 (EVar
   vlmMst1)) / #19845 + #8 * (#8677 - #5439 * EVar vlmMst1) * EPow P2 (EVar vlmMst2) / #189 - #64 * EVar vlmMt * (#4 +
   #6 * EVar vlmMst2 - #2 * EVar vlmMst1 * (#3 + EVar vlmMst2) + EPow P2 (EVar vlmMst1) + EPow P2 (EVar vlmMst2)) / #3
   - #8 * EPow P3 (EVar vlmMst1) / #9 + #664 * EPow P3 (EVar vlmMst2) / #3) * EPow P4 (EVar vMst1) / EPow P5 (EVar
   vMst2)) + (- #2 * (#71 + #122 * EVar vlmMst2 + #32 * EVar vlmMst1 * (#1 + EVar vlmMst2) + #59 * EPow P2 (EVar
   vlmMst2)) * EPow P2 (EVar vMst2) / #9 + EVar vDmsqst2 * (#40 * EVar vlmMst2 - #20 * (#1 + EVar vDmglst2 * (#65 - #2
   * EVar vlmMst1 + #2 * EVar vlmMst2) * EPow P4 (EVar vMst1) / EPow P5 (EVar vMst2)) + #3 * (EDec 8753310385647498 14
   - #941812 * EVar vlmMst1 / #19845 + (EDec 4745840262030738 14 + #484 * EVar vlmMst1 / #21) * EVar vlmMst2 - #242 *
   (EPow P2 (EVar vlmMst1) + EPow P2 (EVar vlmMst2)) / #21) * EPow P6 (EVar vMst1) / EPow P6 (EVar vMst2)) / #3) /
   EPow P2 (EVar vMst1) + (- #4 * EConst COepS2 * (#20 * EVar vDmsqst2 * (#45 * EPow P2 (EVar vMst1) * EPow P2 (EVar
   vMst2) + #53 * EPow P4 (EVar vMst1) + #27 * EPow P4 (EVar vMst2)) + EVar vMst2 * (#5205 * EPow P2 (EVar vMst1) *
   EPow P3 (EVar vMst2) + #12062 * EVar vMst2 * EPow P4 (EVar vMst1) - #24 * EVar vDmglst2 * (#150 * EPow P2 (EVar
   vMst1) * EPow P2 (EVar vMst2) + #919 * EPow P4 (EVar vMst1)) + #1431 * EPow P5 (EVar vMst2))) / #729 + EConst CS2 *
   (#100 * EVar vDmsqst2 * (#9 * (#127 + #30 * EVar vlmMst1 - #30 * EVar vlmMst2) * EPow P2 (EVar vMst1) * EPow P2
   (EVar vMst2) + (#1283 + #318 * EVar vlmMst1 - #318 * EVar vlmMst2) * EPow P4 (EVar vMst1) + #81 * (#9 + #2 * EVar
   vlmMst1 - #2 * EVar vlmMst2) * EPow P4 (EVar vMst2)) + EVar vMst2 * (#9 * (#17113 + #17350 * EVar vlmMst1 - #17350
   * EVar vlmMst2) * EPow P2 (EVar vMst1) * EPow P3 (EVar vMst2) + #4 * (#138286 + #90465 * EVar vlmMst1 - #90465 *
   EVar vlmMst2) * EVar vMst2 * EPow P4 (EVar vMst1) - #24 * EVar vDmglst2 * (#45 * (#139 + #100 * EVar vlmMst1 - #100
   * EVar vlmMst2) * EPow P2 (EVar vMst1) * EPow P2 (EVar vMst2) + (#34538 + #27570 * EVar vlmMst1 - #27570 * EVar
   vlmMst2) * EPow P4 (EVar vMst1) + #5697 * EPow P4 (EVar vMst2)) + #81 * (- #141 + #530 * EVar vlmMst1 - #530 * EVar
   vlmMst2) * EPow P5 (EVar vMst2))) / #270) / EPow P6 (EVar vMst2))) + EVar vMt * ((#1 - #2 * EVar vlmMst2) * EVar
   vs2t * EPow P2 (EVar vMst2) * (- #2 * EVar vshiftst3 * EPow P2 (EVar vMt) + #5 * EVar vshiftst1 * EPow P2 (EVar
   vMst2) * EPow P2 (EVar vs2t)) / (#3 * EPow P2 (EVar vMst1)) + EPow P3 (EVar vs2t) * (EPow P2 (EVar vMst2) * (#21005
   + #1440 * EConst CB4 - #144 * EConst CD3 + #72 * EConst CDN + #21216 * EVar vlmMst1 + #1908 * EPow P2 (EVar
   vlmMst1) - #12 * EVar vlmMst2 * (#2950 - #2040 * EVar vlmMst1 + #117 * EPow P2 (EVar vlmMst1)) + #108 * (- #283 +
   #98 * EVar vlmMst1) * EPow P2 (EVar vlmMst2) + #1080 * EVar vDmsqst2 * (- #1 + #2 * EVar vlmMst2) / EPow P2 (EVar
   vMst1) - #108 * (- #1 + #2 * EVar vlmMst2) * EVar vshiftst3 * ((- #1 - EVar vlmMst1 + EVar vlmMst2) * EPow P2 (EVar
   vMst1) + EPow P2 (EVar vMst2)) / EPow P2 (EVar vMst1) + #576 * EPow P3 (EVar vlmMst1) - #9756 * EPow P3 (EVar
   vlmMst2)) / #648 + EPow P2 (EVar vMst1) * (EDec 1904424279835391 13 + #2 * EConst CB4 + #2 * EConst CD3 / #9 - #2 *
   EConst CDN / #9 + #22004 * EVar vlmMst1 / #405 - #736 * EPow P2 (EVar vlmMst1) / #27 - EVar vlmMst2 * (#12148 -
   #76560 * EVar vlmMst1 + #12105 * EPow P2 (EVar vlmMst1)) / #810 + #5 * (- #583 + #438 * EVar vlmMst1) * EPow P2
   (EVar vlmMst2) / #54 - #55 * EPow P3 (EVar vlmMst1) / #27 - #1273 * EPow P3 (EVar vlmMst2) / #54) - (EVar vMst2 *
   (#119 + #218 * EVar vlmMst2 + #32 * EVar vlmMst1 * (#1 + EVar vlmMst2) + #107 * EPow P2 (EVar vlmMst2)) + EVar
   vDmglst2 * (- #40 + (#460 + #64 * EVar vlmMst1) * EVar vlmMst2 + #310 * EPow P2 (EVar vlmMst2))) * EPow P3 (EVar
   vMst2) / (#18 * EPow P2 (EVar vMst1)) + (EVar vDmsqst2 * (#97294 + #10485 * EVar vlmMst1 + #45 * (- #383 + #330 *
   EVar vlmMst1) * EVar vlmMst2 - #7425 * (EPow P2 (EVar vlmMst1) + EPow P2 (EVar vlmMst2))) * EPow P2 (EVar vMst1) /
   #2025 + (EDec 9695148419197191 14 + #58499851 * EVar vlmMst2 / #793800 - (#76483 + #26985 * EVar vlmMst2) * EPow P2
   (EVar vlmMst1) / #945 - #149081 * EPow P2 (EVar vlmMst2) / #1890 + EVar vlmMst1 * (- EDec 7733484630889393 14 +
   #302047 * EVar vlmMst2 / #1890 + #61 * EPow P2 (EVar vlmMst2)) - #35 * EPow P3 (EVar vlmMst1) / #27 - #841 * EPow
   P3 (EVar vlmMst2) / #27) * EPow P4 (EVar vMst1)) / EPow P2 (EVar vMst2) - EVar vDmglst2 * (EVar vMst2 * (EDec
   4625617283950617 14 - #4 * EConst CB4 / #3 + #16 * EConst CD3 / #9 - #10 * EConst CDN / #9 + #44 * EVar vlmMst1 /
   #3 - #13 * EPow P2 (EVar vlmMst1) / #3 + #4 * EVar vlmMst2 * (- #81 - #124 * EVar vlmMst1 + #8 * EPow P2 (EVar
   vlmMst1)) / #9 + (EDec 4877777777777778 14 - #82 * EVar vlmMst1 / #3) * EPow P2 (EVar vlmMst2) + #20 * EVar
   vDmsqst2 / EPow P2 (EVar vMst1) + #214 * EPow P3 (EVar vlmMst2) / #9) + (#810000 * EVar vDmsqst2 * (#5 + #2 * EVar
   vlmMst1 - #2 * EVar vlmMst2) + EPow P2 (EVar vMst1) * (#5430043 + #524580 * EVar vlmMst2 + #900 * (- #859 + #3690 *
   EVar vlmMst2) * EPow P2 (EVar vlmMst1) + #1454400 * EPow P2 (EVar vlmMst2) - #60 * EVar vlmMst1 * (#51493 + #24630
   * EVar vlmMst2 + #112950 * EPow P2 (EVar vlmMst2)) + #45000 * EPow P3 (EVar vlmMst1) + #3411000 * EPow P3 (EVar
   vlmMst2))) / (#121500 * EVar vMst2) + (EDec 2038689796251638 13 + #2171669 * EVar vlmMst2 / #119070 + (#433 + #6552
   * EVar vlmMst2) * EPow P2 (EVar vlmMst1) / #189 + #1987 * EPow P2 (EVar vlmMst2) / #189 - EVar vlmMst1 * (#2740559
   + #1524600 * EVar vlmMst2 + #7514640 * EPow P2 (EVar vlmMst2)) / #119070 - #56 * EPow P3 (EVar vlmMst1) / #27 +
   #824 * EPow P3 (EVar vlmMst2) / #27) * EPow P4 (EVar vMst1) / EPow P3 (EVar vMst2)) + EVar vDmsqst2 * (EDec
   5449074074074074 14 + #140 * EVar vlmMst1 / #9 - #20 * (#7 + #3 * EVar vlmMst1) * EVar vlmMst2 / #9 + #20 * EPow P2
   (EVar vlmMst2) / #3 + #5 * EVar vDmglst2 * (#55 - #34 * EVar vlmMst1 + #34 * EVar vlmMst2) * EPow P2 (EVar vMst1) /
   (#3 * EPow P3 (EVar vMst2)) + (#5 * EVar vDmglst2 * (#419 - #57 * EVar vlmMst1 + #57 * EVar vlmMst2) / #27 + EVar
   vMst2 * (EDec 1777343371446168 14 - #452768 * EVar vlmMst1 / #19845 + (EDec 22815217939027463 15 + #122 * EVar
   vlmMst1 / #7) * EVar vlmMst2 - #61 * (EPow P2 (EVar vlmMst1) + EPow P2 (EVar vlmMst2)) / #7)) * EPow P4 (EVar
   vMst1) / EPow P5 (EVar vMst2)) + #8 * (#1 + EVar vlmMst2) * (#4 * EVar vDmglst2 * EVar vlmMst2 + EVar vMst2 + EVar
   vlmMst2 * EVar vMst2) * EPow P5 (EVar vMst2) / (#9 * EPow P4 (EVar vMst1)) + (- #30 * EVar vDmsqst2 * (#18 * (#40 *
   EConst COepS2 - #27 * (#59 + #30 * EVar vlmMst1 - #30 * EVar vlmMst2) * EConst CS2) * EPow P2 (EVar vMst1) * EPow
   P2 (EVar vMst2) + #4 * (#208 * EConst COepS2 - #27 * (#347 + #156 * EVar vlmMst1 - #156 * EVar vlmMst2) * EConst
   CS2) * EPow P4 (EVar vMst1) + #27 * (#8 * EConst COepS2 - #81 * (- #15 + #2 * EVar vlmMst1 - #2 * EVar vlmMst2) *
   EConst CS2) * EPow P4 (EVar vMst2)) + EVar vMst2 * (#54 * EVar vDmglst2 * (#632 * EConst COepS2 + #9 * (#16193 -
   #1422 * EVar vlmMst1 + #1422 * EVar vlmMst2) * EConst CS2) * EPow P2 (EVar vMst1) * EPow P2 (EVar vMst2) - #180 *
   (#340 * EConst COepS2 - #81 * (#424 + #85 * EVar vlmMst1 - #85 * EVar vlmMst2) * EConst CS2) * EPow P2 (EVar vMst1)
   * EPow P3 (EVar vMst2) - #105 * EVar vMst2 * (#788 * EConst COepS2 - #27 * (#2662 + #591 * EVar vlmMst1 - #591 *
   EVar vlmMst2) * EConst CS2) * EPow P4 (EVar vMst1) + #4 * EVar vDmglst2 * (#25328 * EConst COepS2 + #27 * (#47051 -
   #18996 * EVar vlmMst1 + #18996 * EVar vlmMst2) * EConst CS2) * EPow P4 (EVar vMst1) + #54 * EVar vDmglst2 * (#56 *
   EConst COepS2 - #81 * (- #1677 + #14 * EVar vlmMst1 - #14 * EVar vlmMst2) * EConst CS2) * EPow P4 (EVar vMst2) +
   #81 * (- #184 * EConst COepS2 + #81 * (#307 + #46 * EVar vlmMst1 - #46 * EVar vlmMst2) * EConst CS2) * EPow P5
   (EVar vMst2))) / (#4374 * EPow P4 (EVar vMst2))) + EConst CT1ep * (#81 * EPow P4 (EVar vMst2) * (- #40 * EVar
   vDmsqst2 * EVar vs2t * EPow P2 (EVar vMt) - #21 * EVar vMt * EPow P2 (EVar vs2t) * EPow P3 (EVar vMst2) + #28 *
   EVar vMst2 * EPow P3 (EVar vMt) + EPow P2 (EVar vMst2) * (- #106 * EVar vs2t * EPow P2 (EVar vMt) + #20 * EVar
   vDmsqst2 * EPow P3 (EVar vs2t)) + #46 * EPow P3 (EVar vs2t) * EPow P4 (EVar vMst2)) + #9 * EPow P2 (EVar vMst1) *
   EPow P2 (EVar vMst2) * (- #600 * EVar vDmsqst2 * EVar vs2t * EPow P2 (EVar vMt) - #627 * EVar vMt * EPow P2 (EVar
   vs2t) * EPow P3 (EVar vMst2) + #1760 * EVar vMst2 * EPow P3 (EVar vMt) + EPow P2 (EVar vMst2) * (- #3470 * EVar
   vs2t * EPow P2 (EVar vMt) + #600 * EVar vDmsqst2 * EPow P3 (EVar vs2t)) + #1700 * EPow P3 (EVar vs2t) * EPow P4
   (EVar vMst2)) + #3 * EPow P4 (EVar vMst1) * (- #2120 * EVar vDmsqst2 * EVar vs2t * EPow P2 (EVar vMt) - #3198 *
   EVar vMt * EPow P2 (EVar vs2t) * EPow P3 (EVar vMst2) + #16240 * EVar vMst2 * EPow P3 (EVar vMt) - #4 * EPow P2
   (EVar vMst2) * (#6031 * EVar vs2t * EPow P2 (EVar vMt) - #520 * EVar vDmsqst2 * EPow P3 (EVar vs2t)) + #6895 * EPow
   P3 (EVar vs2t) * EPow P4 (EVar vMst2)) + EVar vDmglst2 * (- #27 * EPow P2 (EVar vMst1) * EPow P2 (EVar vMst2) * (-
   #800 * EVar vMst2 * EVar vs2t * EPow P2 (EVar vMt) - #907 * EVar vMt * EPow P2 (EVar vMst2) * EPow P2 (EVar vs2t) +
   #1984 * EPow P3 (EVar vMt) + #316 * EPow P3 (EVar vMst2) * EPow P3 (EVar vs2t)) + (#132336 * EVar vMst2 * EVar vs2t
   * EPow P2 (EVar vMt) + #71202 * EVar vMt * EPow P2 (EVar vMst2) * EPow P2 (EVar vs2t) - #259408 * EPow P3 (EVar
   vMt) - #25328 * EPow P3 (EVar vMst2) * EPow P3 (EVar vs2t)) * EPow P4 (EVar vMst1) - #189 * (#20 * EPow P3 (EVar
   vMt) * EPow P4 (EVar vMst2) - #15 * EVar vMt * EPow P2 (EVar vs2t) * EPow P6 (EVar vMst2) + #4 * EPow P3 (EVar
   vs2t) * EPow P7 (EVar vMst2)))) / (#729 * EPow P6 (EVar vMst2))) + (- #5 * EVar vMt * EVar vs2t * EVar vshiftst1 *
   ((#1 - #2 * EVar vlmMst2) * EPow P2 (EVar vMst2) * (#4 * EPow P2 (EVar vMst2) * EPow P2 (EVar vMt) - #2 * EPow P2
   (EVar vMst1) * (#2 * EPow P2 (EVar vMt) + (- EVar vlmMst1 + EVar vlmMst2) * EPow P2 (EVar vMst2) * EPow P2 (EVar
   vs2t)) + EPow P2 (EVar vs2t) * EPow P4 (EVar vMst1)) + EVar vDmsqst2 * (#3 - #2 * EVar vlmMst2) * (- #4 * EPow P2
   (EVar vMst1) * EPow P2 (EVar vMt) + #4 * EPow P2 (EVar vMst2) * EPow P2 (EVar vMt) + #2 * (EVar vlmMst1 - EVar
   vlmMst2) * EPow P2 (EVar vMst1) * EPow P2 (EVar vMst2) * EPow P2 (EVar vs2t) + EPow P2 (EVar vs2t) * (EPow P4 (EVar
   vMst1) - EPow P4 (EVar vMst2)))) / (#3 * EPow P2 (EVar vMst2)) + EPow P2 (EVar vMt) * (#4 * EPow P2 (EVar vMt) * (-
   (EVar vDmglst2 * (#216 * EPow P2 (EVar vMst2) * (#97837 + #71580 * EVar vlmMt - #9920 * EConst COepS2 + #43272 *
   EConst CS2 - #360 * (#23 + #8 * EVar vlmMst2 - #4 * EVar vlmMt) * EPow P2 (EVar vlmMst1) + #720 * (#97 + #2 * EVar
   vlmMt) * EPow P2 (EVar vlmMst2) - #8640 * EPow P2 (EVar vlmMt) - #30 * EVar vlmMst2 * (- #2911 + #396 * EVar vlmMt
   + #6696 * EConst CS2 + #144 * EPow P2 (EVar vlmMt)) + #10 * EVar vlmMst1 * (- #6157 + #642 * EVar vlmMt - #6 * EVar
   vlmMst2 * (#791 + #48 * EVar vlmMt) + #20088 * EConst CS2 + #882 * EPow P2 (EVar vlmMst2) + #432 * EPow P2 (EVar
   vlmMt)) - #5940 * EPow P3 (EVar vlmMst2)) * EPow P4 (EVar vMst1) - #129600 * EVar vDmsqst2 * ((#101 - #90 * EVar
   vlmMst1 + #177 * EVar vlmMst2 - #87 * EVar vlmMt) * EPow P2 (EVar vMst1) * EPow P2 (EVar vMst2) + (#497 - #306 *
   EVar vlmMst1 + #609 * EVar vlmMst2 - #303 * EVar vlmMt) * EPow P4 (EVar vMst1)) + #135 * EPow P2 (EVar vMst1) *
   (#57495 + #45408 * EVar vlmMt - #1120 * EConst COepS2 - #43740 * EConst CS2 - #8 * EVar vlmMst2 * (- #6952 + #588 *
   EVar vlmMt + #2835 * EConst CS2) + #2304 * (- #1 + EVar vlmMst2) * EPow P2 (EVar vlmMst1) + #96 * (#79 + #48 * EVar
   vlmMt) * EPow P2 (EVar vlmMst2) + #72 * EVar vlmMst1 * (- #88 + #64 * EVar vlmMt - #8 * EVar vlmMst2 * (#9 + #8 *
   EVar vlmMt) + #315 * EConst CS2 + #164 * EPow P2 (EVar vlmMst2)) - #14112 * EPow P3 (EVar vlmMst2)) * EPow P4 (EVar
   vMst2) + #20 * (#5659217 + #1592460 * EVar vlmMt - #518816 * EConst COepS2 + #9976392 * EConst CS2 - #972 * (#569 +
   #180 * EVar vlmMst2 - #126 * EVar vlmMt) * EPow P2 (EVar vlmMst1) + #324 * (#5353 + #126 * EVar vlmMt) * EPow P2
   (EVar vlmMst2) - #186624 * EPow P2 (EVar vlmMt) + #72 * EVar vlmMst1 * (- #27653 - #3015 * EVar vlmMt - #18 * EVar
   vlmMst2 * (#689 + #126 * EVar vlmMt) + #145917 * EConst CS2 + #2160 * EPow P2 (EVar vlmMst2) + #2592 * EPow P2
   (EVar vlmMt)) - #36 * EVar vlmMst2 * (- #39031 - #3204 * EVar vlmMt + #291834 * EConst CS2 + #5184 * EPow P2 (EVar
   vlmMt)) + #1944 * EPow P3 (EVar vlmMst1) + #17496 * EPow P3 (EVar vlmMst2)) * EPow P6 (EVar vMst1) - #622080 * (-
   #1 + #2 * EVar vlmMst2 + #3 * EPow P2 (EVar vlmMst2)) * EPow P6 (EVar vMst2))) + #3 * EVar vMst2 * (#48 * EPow P2
   (EVar vMst2) * (#110219 - #1080 * EVar vlmMt - #4400 * EConst COepS2 + #74034 * EConst CS2 + #540 * (- #15 + #4 *
   EVar vlmMt) * EPow P2 (EVar vlmMst1) + #810 * (#121 - #8 * EVar vlmMt) * EPow P2 (EVar vlmMst2) - #135 * EVar
   vlmMst1 * (#337 + EVar vlmMst2 * (#588 - #32 * EVar vlmMt) - #132 * EVar vlmMt - #660 * EConst CS2 + #194 * EPow P2
   (EVar vlmMst2) - #48 * EPow P2 (EVar vlmMt)) - #6480 * EPow P2 (EVar vlmMt) - #405 * EVar vlmMst2 * (#31 + #54 *
   EVar vlmMt + #220 * EConst CS2 + #16 * EPow P2 (EVar vlmMt)) + #26190 * EPow P3 (EVar vlmMst2)) * EPow P4 (EVar
   vMst1) + #388800 * EVar vDmsqst2 * ((#5 + #2 * EVar vlmMst1 - #5 * EVar vlmMst2 + #3 * EVar vlmMt) * EPow P2 (EVar
   vMst1) * EPow P2 (EVar vMst2) + (#1 + #6 * EVar vlmMst1 - #13 * EVar vlmMst2 + #7 * EVar vlmMt) * EPow P4 (EVar
   vMst1)) + #27 * EPow P2 (EVar vMst1) * (#56439 - #24000 * EVar vlmMt - #1120 * EConst COepS2 - #25596 * EConst CS2
   - #360 * EVar vlmMst2 * (- #12 + #44 * EVar vlmMt + #63 * EConst CS2) - #3840 * (#1 + EVar vlmMst2) * EPow P2 (EVar
   vlmMst1) + #480 * (#163 - #16 * EVar vlmMt) * EPow P2 (EVar vlmMst2) - #120 * EVar vlmMst1 * (#184 + #8 * EVar
   vlmMst2 * (#57 - #8 * EVar vlmMt) - #64 * EVar vlmMt - #189 * EConst CS2 + #164 * EPow P2 (EVar vlmMst2)) - #11520
   * EPow P2 (EVar vlmMt) + #23520 * EPow P3 (EVar vlmMst2)) * EPow P4 (EVar vMst2) + #20 * (#678923 + #19440 * EVar
   vlmMt - #32480 * EConst COepS2 + #881712 * EConst CS2 + #540 * (#661 - #30 * EVar vlmMt) * EPow P2 (EVar vlmMst2) -
   #15552 * EPow P2 (EVar vlmMt) - #108 * ((#457 - #12 * EVar vlmMst2 - #126 * EVar vlmMt) * EPow P2 (EVar vlmMst1) +
   EVar vlmMst1 * (#1841 + EVar vlmMst2 * (#2626 - #24 * EVar vlmMt) - #420 * EVar vlmMt - #6090 * EConst CS2 + #840 *
   EPow P2 (EVar vlmMst2) - #288 * EPow P2 (EVar vlmMt)) + EVar vlmMst2 * (#619 + #498 * EVar vlmMt + #6090 * EConst
   CS2 + #288 * EPow P2 (EVar vlmMt))) + #216 * EPow P3 (EVar vlmMst1) + #89208 * EPow P3 (EVar vlmMst2)) * EPow P6
   (EVar vMst1) + #207360 * EPow P2 (#1 + EVar vlmMst2) * EPow P6 (EVar vMst2))) - #3 * EPow P2 (EVar vs2t) * (EVar
   vDmglst2 * (#9 * (#195293 + #639360 * EConst CB4 - #8640 * EConst CDN - #709200 * EVar vlmMst1 + #145120 * EConst
   COepS2 - #108 * (#23989 + #27210 * EVar vlmMst1 - #27210 * EVar vlmMst2) * EConst CS2 + #60480 * EPow P2 (EVar
   vlmMst1) + #720 * EVar vlmMst2 * (#2149 - #1296 * EVar vlmMst1 + #96 * EPow P2 (EVar vlmMst1)) - #8640 * (- #101 +
   #105 * EVar vlmMst1) * EPow P2 (EVar vlmMst2) + #838080 * EPow P3 (EVar vlmMst2)) * EPow P4 (EVar vMst1) * EPow P4
   (EVar vMst2) - #2 * EPow P2 (EVar vMst2) * (#15069803 - #2877120 * EConst CB4 + #38880 * EConst CDN + #6325200 *
   EVar vlmMst1 - #1898720 * EConst COepS2 + #108 * (#525961 + #356010 * EVar vlmMst1 - #356010 * EVar vlmMst2) *
   EConst CS2 + #447120 * EPow P2 (EVar vlmMst1) - #360 * EVar vlmMst2 * (#28667 - #5238 * EVar vlmMst1 + #3024 * EPow
   P2 (EVar vlmMst1)) + #38880 * (- #60 + #157 * EVar vlmMst1) * EPow P2 (EVar vlmMst2) - #155520 * EPow P3 (EVar
   vlmMst1) - #4860000 * EPow P3 (EVar vlmMst2)) * EPow P6 (EVar vMst1) + #583200 * EVar vDmsqst2 * (#40 * (#1 - EVar
   vlmMst1 + EVar vlmMst2) * EPow P2 (EVar vMst2) * EPow P4 (EVar vMst1) - #4 * (#2 + #5 * EVar vlmMst1 - #5 * EVar
   vlmMst2) * EPow P2 (EVar vMst1) * EPow P4 (EVar vMst2) + (#80 - #43 * EVar vlmMst1 + #43 * EVar vlmMst2) * EPow P6
   (EVar vMst1)) + #27 * EPow P2 (EVar vMst1) * (#46957 + #188640 * EConst CB4 - #3600 * EConst CDN - #37440 * EVar
   vlmMst1 + #5600 * EConst COepS2 - #324 * (- #453 + #350 * EVar vlmMst1 - #350 * EVar vlmMst2) * EConst CS2 + #11520
   * EPow P2 (EVar vlmMst1) - #2880 * EVar vlmMst2 * (- #221 + #55 * EVar vlmMst1 + #4 * EPow P2 (EVar vlmMst1)) -
   #1440 * (- #232 + #121 * EVar vlmMst1) * EPow P2 (EVar vlmMst2) + #185760 * EPow P3 (EVar vlmMst2)) * EPow P6 (EVar
   vMst2) + #622080 * (- #1 + #2 * EVar vlmMst2 + #3 * EPow P2 (EVar vlmMst2)) * EPow P8 (EVar vMst2)) + #15 * (#3 *
   (#346405 + #62208 * EConst CB4 + #246672 * EVar vlmMst2 - #6688 * EConst COepS2 - #324 * (- #685 + #418 * EVar
   vlmMst2) * EConst CS2 + #1728 * (- #7 + #8 * EVar vlmMst2) * EPow P2 (EVar vlmMst1) + #323136 * EPow P2 (EVar
   vlmMst2) - #216 * EVar vlmMst1 * (#990 + #1440 * EVar vlmMst2 - #627 * EConst CS2 + #584 * EPow P2 (EVar vlmMst2))
   + #112320 * EPow P3 (EVar vlmMst2)) * EPow P4 (EVar vMst1) * EPow P5 (EVar vMst2) + #2 * (#795601 + #93312 * EConst
   CB4 + #365040 * EVar vlmMst2 - #17056 * EConst COepS2 + #663444 * EConst CS2 - #345384 * EVar vlmMst2 * EConst CS2
   + #432 * (#163 + #264 * EVar vlmMst2) * EPow P2 (EVar vlmMst1) + #592704 * EPow P2 (EVar vlmMst2) - #216 * EVar
   vlmMst1 * (#1609 + #3070 * EVar vlmMst2 - #1599 * EConst CS2 + #1692 * EPow P2 (EVar vlmMst2)) - #3456 * EPow P3
   (EVar vlmMst1) + #254880 * EPow P3 (EVar vlmMst2)) * EPow P3 (EVar vMst2) * EPow P6 (EVar vMst1) + EPow P2 (EVar
   vMst1) * (- #38880 * EVar vDmsqst2 * EVar vMst2 * (#8 * (- EVar vlmMst1 + EVar vlmMst2) * EPow P2 (EVar vMst1) *
   EPow P2 (EVar vMst2) + (#4 - #9 * EVar vlmMst1 + #9 * EVar vlmMst2) * EPow P4 (EVar vMst1) - #4 * (#1 + EVar
   vlmMst1 - EVar vlmMst2) * EPow P4 (EVar vMst2)) + #27 * (#27147 + #5280 * EConst CB4 - #48 * EConst CDN - #5952 *
   EVar vlmMst1 - #224 * EConst COepS2 + #324 * (- #1 + #14 * EVar vlmMst1 - #14 * EVar vlmMst2) * EConst CS2 - #768 *
   EPow P2 (EVar vlmMst1) - #192 * EVar vlmMst2 * (- #198 + #73 * EVar vlmMst1 + #4 * EPow P2 (EVar vlmMst1)) - #288 *
   (- #84 + #19 * EVar vlmMst1) * EPow P2 (EVar vlmMst2) + #6240 * EPow P3 (EVar vlmMst2)) * EPow P7 (EVar vMst2)) +
   #41472 * EPow P2 (#1 + EVar vlmMst2) * EPow P9 (EVar vMst2)))) / (#174960 * EPow P6 (EVar vMst2))) / EPow P2 (EVar
   vMst1)) + #3 * EVar vxDR2DRMOD * (- #36 * EVar vMt * EVar vs2t * EPow P2 (EVar vMst1) * (#256 * EVar vDmglst2 *
   EVar vMuSUSY * (- #1 + #2 * EVar vlmMst2 + #3 * EPow P2 (EVar vlmMst2)) * EPow P2 (EVar vMt) + #135 * EVar
   vshiftst1 * EVar vTbeta * EPow P2 (EVar vs2t) * EPow P4 (EVar vMst2)) / EVar vTbeta + (EPow P2 (EVar vMst1) * (-
   #4860 * EVar vshiftst1 * EPow P4 (EVar vMst2) * (#4 * EVar vs2t * (EPow P2 (EVar vMst1) - EPow P2 (EVar vMst2)) *
   (EVar vDmsqst2 + EPow P2 (EVar vMst2)) * EPow P3 (EVar vMt) - EVar vMt * EPow P3 (EVar vs2t) * (#2 * EVar vDmsqst2
   * (EVar vlmMst1 - EVar vlmMst2) * EPow P2 (EVar vMst1) * EPow P2 (EVar vMst2) + (EVar vDmsqst2 + EPow P2 (EVar
   vMst2)) * EPow P4 (EVar vMst1) - (EVar vDmsqst2 + #2 * (- EVar vlmMst1 + EVar vlmMst2) * EPow P2 (EVar vMst1)) *
   EPow P4 (EVar vMst2))) + #512 * EPow P4 (EVar vMt) * (#9 * (#1 + EVar vlmMst2) * EVar vMst2 * ((#3 - #21 * EVar
   vlmMst2 + #2 * EVar vlmMst1 * (#8 + #3 * EVar vlmMst2 - #3 * EVar vlmMt) + #5 * EVar vlmMt + #6 * EVar vlmMst2 *
   EVar vlmMt - #6 * EPow P2 (EVar vlmMst2)) * EPow P2 (EVar vMst2) * EPow P4 (EVar vMst1) + (- #1 - #7 * EVar vlmMst2
   + #2 * EVar vlmMst1 * (#2 + EVar vlmMst2 - EVar vlmMt) + #3 * EVar vlmMt + #2 * EVar vlmMst2 * EVar vlmMt - #2 *
   EPow P2 (EVar vlmMst2)) * EPow P2 (EVar vMst1) * EPow P4 (EVar vMst2) + (#12 - #45 * EVar vlmMst2 + #2 * EVar
   vlmMst1 * (#19 + #6 * EVar vlmMst2 - #6 * EVar vlmMt) + #7 * EVar vlmMt + #12 * EVar vlmMst2 * EVar vlmMt - #12 *
   EPow P2 (EVar vlmMst2)) * EPow P6 (EVar vMst1) - #2 * (#1 + EVar vlmMst2) * EPow P6 (EVar vMst2)) + EVar vDmglst2 *
   (EPow P2 (EVar vMst2) * (#263 + EVar vlmMst2 * (#962 - #213 * EVar vlmMt) - #177 * EVar vlmMt + (#393 - #18 * EVar
   vlmMt) * EPow P2 (EVar vlmMst2) - #18 * EVar vlmMst1 * (#26 - EVar vlmMst2 * (- #17 + EVar vlmMt) - #7 * EVar vlmMt
   + EPow P2 (EVar vlmMst2)) + #18 * EPow P3 (EVar vlmMst2)) * EPow P4 (EVar vMst1) - EPow P2 (EVar vMst1) * (#17 * (-
   #7 + #3 * EVar vlmMt) + EVar vlmMst2 * (- #224 + #15 * EVar vlmMt) - #3 * (#5 + #6 * EVar vlmMt) * EPow P2 (EVar
   vlmMst2) - #18 * EVar vlmMst1 * (- #4 + EVar vlmMt - EVar vlmMst2 * (#1 + EVar vlmMt) + EPow P2 (EVar vlmMst2)) +
   #18 * EPow P3 (EVar vlmMst2)) * EPow P4 (EVar vMst2) + (#290 + EVar vlmMst2 * (#2447 - #645 * EVar vlmMt) - #375 *
   EVar vlmMt - #3 * (- #509 + #60 * EVar vlmMt) * EPow P2 (EVar vlmMst2) - #18 * EVar vlmMst1 * (#87 + EVar vlmMst2 *
   (#71 - #10 * EVar vlmMt) - #22 * EVar vlmMt + #10 * EPow P2 (EVar vlmMst2)) + #180 * EPow P3 (EVar vlmMst2)) * EPow
   P6 (EVar vMst1) - #18 * (- #1 + #2 * EVar vlmMst2 + #3 * EPow P2 (EVar vlmMst2)) * EPow P6 (EVar vMst2))) - #3456 *
   EPow P2 (EVar vMst2) * EPow P2 (EVar vMt) * EPow P2 (EVar vs2t) * ((#1 + EVar vlmMst2) * EVar vMst2 * (#2 * (#2 -
   #5 * EVar vlmMst2 + EVar vlmMst1 * (#5 + #2 * EVar vlmMst2) - #2 * EPow P2 (EVar vlmMst2)) * EPow P2 (EVar vMst2) *
   EPow P4 (EVar vMst1) + #2 * (- #2 * EVar vlmMst2 * (#2 + EVar vlmMst2) + EVar vlmMst1 * (#3 + #2 * EVar vlmMst2)) *
   EPow P2 (EVar vMst1) * EPow P4 (EVar vMst2) + (#5 - #12 * EVar vlmMst2 + #4 * EVar vlmMst1 * (#3 + EVar vlmMst2) -
   #4 * EPow P2 (EVar vlmMst2)) * EPow P6 (EVar vMst1) - #2 * (#1 + EVar vlmMst2) * EPow P6 (EVar vMst2)) + EVar
   vDmglst2 * (#2 * EPow P2 (EVar vMst2) * (#8 + #19 * EVar vlmMst2 - #5 * EPow P2 (EVar vlmMst2) + EVar vlmMst1 * (-
   #7 + #5 * EVar vlmMst2 + #6 * EPow P2 (EVar vlmMst2)) - #6 * EPow P3 (EVar vlmMst2)) * EPow P4 (EVar vMst1) + #2 *
   EPow P2 (EVar vMst1) * (#7 + #9 * EVar vlmMst2 - #8 * EPow P2 (EVar vlmMst2) + EVar vlmMst1 * (- #3 + #5 * EVar
   vlmMst2 + #6 * EPow P2 (EVar vlmMst2)) - #6 * EPow P3 (EVar vlmMst2)) * EPow P4 (EVar vMst2) + (#17 + #51 * EVar
   vlmMst2 - #4 * EPow P2 (EVar vlmMst2) + #4 * EVar vlmMst1 * (- #6 + EVar vlmMst2 + #3 * EPow P2 (EVar vlmMst2)) -
   #12 * EPow P3 (EVar vlmMst2)) * EPow P6 (EVar vMst1) - #2 * (- #1 + #2 * EVar vlmMst2 + #3 * EPow P2 (EVar
   vlmMst2)) * EPow P6 (EVar vMst2)))) + #9 * EVar vMt * EPow P3 (EVar vs2t) * (EPow P2 (EVar vMst1) * (#45 * (#2 *
   EVar vDmglst2 * EVar vMst2 - #2 * EVar vlmMst1 * EPow P2 (EVar vMst1) + #2 * EVar vlmMst2 * EPow P2 (EVar vMst1) +
   EPow P2 (EVar vMst2)) * EPow P4 (EVar vDmsqst2) + #60 * EVar vDmsqst2 * (#2 * EVar vDmglst2 - #5 * EVar vMst2) *
   EPow P3 (EVar vMst2) * (#2 * (EVar vlmMst1 - EVar vlmMst2) * EPow P2 (EVar vMst1) * EPow P2 (EVar vMst2) + EPow P4
   (EVar vMst1) - EPow P4 (EVar vMst2))) + #4 * EPow P3 (EVar vMst2) * (- #2 * (#8 - #237 * EVar vlmMst2 - #16 * (#1 +
   EVar vlmMst2) * EPow P2 (EVar vlmMst1) - #308 * EPow P2 (EVar vlmMst2) + EVar vlmMst1 * (#269 + #348 * EVar vlmMst2
   + #123 * EPow P2 (EVar vlmMst2)) - #107 * EPow P3 (EVar vlmMst2)) * EPow P4 (EVar vMst1) * EPow P5 (EVar vMst2) -
   (#125 + EVar vlmMst2 * (#156 + #512 * EVar vlmMst1 * (#1 + EVar vlmMst2)) - #181 * EPow P2 (EVar vlmMst2) - #256 *
   ((#1 + EVar vlmMst2) * EPow P2 (EVar vlmMst1) + EPow P3 (EVar vlmMst2))) * EPow P3 (EVar vMst2) * EPow P6 (EVar
   vMst1) + (#221 + #284 * EVar vlmMst2 + #32 * EVar vlmMst1 * (#1 + EVar vlmMst2) + #107 * EPow P2 (EVar vlmMst2)) *
   EPow P2 (EVar vMst1) * EPow P7 (EVar vMst2) + #16 * (#1 + EVar vlmMst2) * EVar vMst2 * (#1 + EVar vlmMst1 * (#2 -
   #32 * EVar vlmMst2) - #2 * EVar vlmMst2 + #16 * (EPow P2 (EVar vlmMst1) + EPow P2 (EVar vlmMst2))) * EPow P8 (EVar
   vMst1) + #2 * EVar vDmglst2 * (#4 * EPow P2 (EVar vMst1) * EPow P2 (EVar vMst2) * (#20 * EPow P2 (EVar vMst1) *
   EPow P2 (EVar vMst2) + #9 * EPow P4 (EVar vMst1) - #5 * EPow P4 (EVar vMst2)) - #2 * EVar vlmMst1 * (- #4 + #246 *
   EVar vlmMst2 + #123 * EPow P2 (EVar vlmMst2)) * EPow P4 (EVar vMst1) * EPow P4 (EVar vMst2) + #214 * EPow P3 (EVar
   vlmMst2) * EPow P4 (EVar vMst1) * EPow P4 (EVar vMst2) + #32 * EVar vlmMst2 * EPow P2 (EVar vlmMst1) * EPow P4
   (EVar vMst1) * (#8 * EPow P2 (EVar vMst1) * EPow P2 (EVar vMst2) + #8 * EPow P4 (EVar vMst1) + EPow P4 (EVar
   vMst2)) + #256 * (EPow P2 (EVar vMst1) + EPow P2 (EVar vMst2)) * EPow P3 (EVar vlmMst2) * EPow P6 (EVar vMst1) +
   #32 * EVar vlmMst1 * EVar vlmMst2 * EPow P2 (EVar vMst1) * EPow P6 (EVar vMst2) - #32 * EVar vlmMst1 * ((#3 + #3 *
   EVar vlmMst2 + #16 * EPow P2 (EVar vlmMst2)) * EPow P2 (EVar vMst2) * EPow P6 (EVar vMst1) + (#3 + #2 * EVar
   vlmMst2 + #16 * EPow P2 (EVar vlmMst2)) * EPow P8 (EVar vMst1)) + EPow P2 (EVar vlmMst2) * (#396 * EPow P4 (EVar
   vMst1) * EPow P4 (EVar vMst2) + #37 * EPow P2 (EVar vMst2) * EPow P6 (EVar vMst1) + #155 * EPow P2 (EVar vMst1) *
   EPow P6 (EVar vMst2) + #64 * EPow P8 (EVar vMst1) - #32 * EPow P8 (EVar vMst2)) + #2 * EVar vlmMst2 * (#4 * EPow P4
   (EVar vMst1) * EPow P4 (EVar vMst2) + #21 * EPow P2 (EVar vMst2) * EPow P6 (EVar vMst1) + #115 * EPow P2 (EVar
   vMst1) * EPow P6 (EVar vMst2) + #56 * EPow P8 (EVar vMst1) - #16 * EPow P8 (EVar vMst2))) - #16 * EPow P2 (#1 +
   EVar vlmMst2) * EPow P9 (EVar vMst2))) + #6 * EVar vs2t * EPow P2 (EVar vMt) * (- #90 * EVar vDmsqst2 * EVar vMt *
   EPow P2 (EVar vMst1) * (#3 * EPow P3 (EVar vDmsqst2) + #4 * (#2 * EVar vDmglst2 - #5 * EVar vMst2) * (EPow P2 (EVar
   vMst1) - EPow P2 (EVar vMst2)) * EPow P3 (EVar vMst2)) + #8 * EVar vMst2 * EVar vMt * (#3 * (#109 + #76 * EVar
   vlmMst2 - #21 * EPow P2 (EVar vlmMst2) + #64 * EVar vlmMst1 * EPow P2 (#1 + EVar vlmMst2) - #32 * ((#1 + EVar
   vlmMst2) * EPow P2 (EVar vlmMst1) + EPow P3 (EVar vlmMst2))) * EPow P4 (EVar vMst1) * EPow P5 (EVar vMst2) - #3 *
   (#173 + #188 * EVar vlmMst2 + #32 * EVar vlmMst1 * (#1 + EVar vlmMst2) + #59 * EPow P2 (EVar vlmMst2)) * EPow P2
   (EVar vMst1) * EPow P7 (EVar vMst2) - #96 * (#1 + EVar vlmMst2) * EVar vMst2 * (EPow P2 (#1 - EVar vlmMst1 + EVar
   vlmMst2) * EPow P2 (EVar vMst2) * EPow P6 (EVar vMst1) + (#1 + #3 * EVar vlmMst2 - EVar vlmMst1 * (#3 + #2 * EVar
   vlmMst2) + EPow P2 (EVar vlmMst1) + EPow P2 (EVar vlmMst2)) * EPow P8 (EVar vMst1)) + #2 * EVar vDmglst2 * ((#52 +
   #370 * EVar vlmMst2 - #96 * EVar vlmMst2 * EPow P2 (EVar vlmMst1) + #81 * EPow P2 (EVar vlmMst2) + #96 * EVar
   vlmMst1 * (- #1 + EVar vlmMst2 + #2 * EPow P2 (EVar vlmMst2)) - #96 * EPow P3 (EVar vlmMst2)) * EPow P4 (EVar
   vMst1) * EPow P4 (EVar vMst2) - #96 * (EVar vlmMst2 * EPow P2 (EVar vlmMst1) + EVar vlmMst1 * (#4 + #2 * EVar
   vlmMst2 - #2 * EPow P2 (EVar vlmMst2)) + (- #4 + EVar vlmMst2) * EPow P2 (#1 + EVar vlmMst2)) * EPow P2 (EVar
   vMst2) * EPow P6 (EVar vMst1) - #3 * (- #52 + #2 * (#51 + #16 * EVar vlmMst1) * EVar vlmMst2 + #59 * EPow P2 (EVar
   vlmMst2)) * EPow P2 (EVar vMst1) * EPow P6 (EVar vMst2) - #96 * (- #6 - #14 * EVar vlmMst2 + EVar vlmMst2 * EPow P2
   (EVar vlmMst1) + EVar vlmMst1 * (#9 + #6 * EVar vlmMst2 - #2 * EPow P2 (EVar vlmMst2)) - #6 * EPow P2 (EVar
   vlmMst2) + EPow P3 (EVar vlmMst2)) * EPow P8 (EVar vMst1) + #96 * EVar vlmMst2 * (#1 + EVar vlmMst2) * EPow P8
   (EVar vMst2)) + #48 * EPow P2 (#1 + EVar vlmMst2) * EPow P9 (EVar vMst2)) + #3 * EVar vMuSUSY * (- #4 * (#128 * (#1
   + EVar vlmMst2) * EVar vMst2 * EVar vMt * (#1 + #5 * EVar vlmMst2 - EVar vlmMst1 * (#3 + #2 * EVar vlmMst2) + #2 *
   EPow P2 (EVar vlmMst2)) + EVar vs2t * (#15 * EVar vDmsqst2 * (#1 - #2 * EVar vlmMst1 + #2 * EVar vlmMst2) * (#5 -
   #9 * EVar vshiftst1) + EPow P2 (EVar vMst2) * (#189 + #726 * EVar vlmMst2 - #135 * (#1 + #2 * EVar vlmMst2) * EVar
   vshiftst1 + #32 * (#1 + EVar vlmMst2) * EPow P2 (EVar vlmMst1) + #707 * EPow P2 (EVar vlmMst2) - #2 * EVar vlmMst1
   * (#253 + #332 * EVar vlmMst2 - #135 * EVar vshiftst1 + #123 * EPow P2 (EVar vlmMst2)) + #214 * EPow P3 (EVar
   vlmMst2)))) * EPow P4 (EVar vMst1) * EPow P4 (EVar vMst2) - EPow P2 (EVar vMst1) * (#512 * EVar vMt * EPow P2 (#1 +
   EVar vlmMst2) * EPow P7 (EVar vMst2) + EVar vs2t * (#45 * EPow P4 (EVar vDmsqst2) + #60 * EVar vDmsqst2 * (#5 - #9
   * EVar vshiftst1) * EPow P6 (EVar vMst2) + #4 * (#205 + #252 * EVar vlmMst2 + #32 * EVar vlmMst1 * (#1 + EVar
   vlmMst2) - #135 * EVar vshiftst1 + #91 * EPow P2 (EVar vlmMst2)) * EPow P8 (EVar vMst2))) + #8 * (EPow P2 (EVar
   vMst2) * (#64 * (#1 + EVar vlmMst2) * EVar vMst2 * EVar vMt * (#1 - #10 * EVar vlmMst2 + #4 * EVar vlmMst1 * (#2 +
   EVar vlmMst2) - #4 * EPow P2 (EVar vlmMst2)) + EVar vs2t * (#15 * EVar vDmsqst2 * (EVar vlmMst1 - EVar vlmMst2) *
   (#5 - #9 * EVar vshiftst1) - EPow P2 (EVar vMst2) * (#32 + #15 * EVar vlmMst2 * (#19 - #9 * EVar vshiftst1) + #144
   * (#1 + EVar vlmMst2) * EPow P2 (EVar vlmMst1) + #444 * EPow P2 (EVar vlmMst2) - EVar vlmMst1 * (#253 + #588 * EVar
   vlmMst2 - #135 * EVar vshiftst1 + #379 * EPow P2 (EVar vlmMst2)) + #235 * EPow P3 (EVar vlmMst2)))) * EPow P6 (EVar
   vMst1) + (- #15 * EVar vDmsqst2 * (EVar vlmMst1 - EVar vlmMst2) * EVar vs2t * (- #5 + #9 * EVar vshiftst1) + #32 *
   (#1 + EVar vlmMst2) * EVar vMst2 * EVar vMt * (#7 - #32 * EVar vlmMst2 + #4 * EVar vlmMst1 * (#7 + #3 * EVar
   vlmMst2) - #12 * EPow P2 (EVar vlmMst2)) - EVar vs2t * EPow P2 (EVar vMst2) * (#40 + #277 * EVar vlmMst2 - #135 *
   EVar vlmMst2 * EVar vshiftst1 + #272 * (#1 + EVar vlmMst2) * EPow P2 (EVar vlmMst1) + #556 * EPow P2 (EVar vlmMst2)
   - EVar vlmMst1 * (#237 + #828 * EVar vlmMst2 - #135 * EVar vshiftst1 + #635 * EPow P2 (EVar vlmMst2)) + #363 * EPow
   P3 (EVar vlmMst2))) * EPow P8 (EVar vMst1) + EVar vDmglst2 * ((#15 * EVar vDmsqst2 * (#1 - #2 * EVar vlmMst1 + #2 *
   EVar vlmMst2) * EVar vs2t + #64 * EVar vMst2 * EVar vMt * (#8 + #7 * EVar vlmMst2 - #11 * EPow P2 (EVar vlmMst2) +
   EVar vlmMst1 * (- #3 + #5 * EVar vlmMst2 + #6 * EPow P2 (EVar vlmMst2)) - #6 * EPow P3 (EVar vlmMst2)) - EVar vs2t
   * EPow P2 (EVar vMst2) * (#60 + #206 * EVar vlmMst2 + #32 * EVar vlmMst2 * EPow P2 (EVar vlmMst1) + EVar vlmMst1 *
   (#8 - #460 * EVar vlmMst2 - #246 * EPow P2 (EVar vlmMst2)) + #519 * EPow P2 (EVar vlmMst2) + #214 * EPow P3 (EVar
   vlmMst2))) * EPow P3 (EVar vMst2) * EPow P4 (EVar vMst1) + #2 * (EVar vMst2 * (#15 * EVar vDmsqst2 * (- EVar
   vlmMst1 + EVar vlmMst2) * EVar vs2t + #64 * EVar vMst2 * EVar vMt * (#8 + #13 * EVar vlmMst2 - #8 * EPow P2 (EVar
   vlmMst2) + EVar vlmMst1 * (- #5 + #5 * EVar vlmMst2 + #6 * EPow P2 (EVar vlmMst2)) - #6 * EPow P3 (EVar vlmMst2)) -
   EVar vs2t * EPow P2 (EVar vMst2) * (#48 + #124 * EVar vlmMst2 + #144 * EVar vlmMst2 * EPow P2 (EVar vlmMst1) + #278
   * EPow P2 (EVar vlmMst2) - EVar vlmMst1 * (#44 + #278 * EVar vlmMst2 + #379 * EPow P2 (EVar vlmMst2)) + #235 * EPow
   P3 (EVar vlmMst2))) * EPow P6 (EVar vMst1) + (#16 * EVar vMt * (#49 + #103 * EVar vlmMst2 - #36 * (#1 + EVar
   vlmMst2) * EPow P2 (EVar vlmMst2) + #4 * EVar vlmMst1 * (- #11 + #6 * EVar vlmMst2 + #9 * EPow P2 (EVar vlmMst2)))
   - EVar vMst2 * EVar vs2t * (#48 + #4 * EVar vlmMst2 * (#45 + #68 * EPow P2 (EVar vlmMst1)) + #310 * EPow P2 (EVar
   vlmMst2) - EVar vlmMst1 * (#92 + #310 * EVar vlmMst2 + #635 * EPow P2 (EVar vlmMst2)) + #363 * EPow P3 (EVar
   vlmMst2))) * EPow P8 (EVar vMst1)) + EVar vs2t * (EPow P2 (EVar vMst1) * (#15 * EVar vDmsqst2 - (- #20 + #2 * (#99
   + #16 * EVar vlmMst1) * EVar vlmMst2 + #123 * EPow P2 (EVar vlmMst2)) * EPow P2 (EVar vMst2)) * EPow P5 (EVar
   vMst2) + #32 * EVar vlmMst2 * (#1 + EVar vlmMst2) * EPow P9 (EVar vMst2)))) + #64 * EVar vs2t * EPow P2 (#1 + EVar
   vlmMst2) * EPow P10 (EVar vMst2)) / EVar vTbeta)) / EPow P6 (EVar vMst2)) / EPow P4 (EVar vMst1))) / #11664.

(** H6b.cpp:3247-3526 *)
Definition H6b_coef0 : expr :=
  (#30 * EPow P2 (EVar vDmsqst2) * EPow P2 (EVar vMst1) * (#166698000 * (- #2 + EConst Cz2) * EPow P2 (- #4 * EPow P2
   (EVar vMt) + EPow P2 (EVar vMst2) * EPow P2 (EVar vs2t)) * EPow P4 (EVar vMst2) - #385875 * EPow P2 (EVar vMst1) *
   EPow P2 (EVar vMst2) * (- #8 * EPow P2 (EVar vMst2) * EPow P2 (EVar vMt) * EPow P2 (EVar vs2t) * (- #160 + #64 *
   EConst COepS2 - #648 * EConst CS2 - #96 * EConst CT1ep - #2076 * EConst Cz2 + #903 * EConst Cz3 - #48 * EConst Cz4
   - #72 * EPow P2 (EConst Cz2)) + #3456 * EVar vMst2 * EVar vs2t * (- #15 + #20 * EConst Cz2 - #16 * EConst Cz3) *
   EPow P3 (EVar vMt) + #6912 * EVar vMt * (- #3 + #3 * EConst Cz2 - EConst Cz3) * EPow P3 (EVar vMst2) * EPow P3
   (EVar vs2t) + (#99040 - #89856 * EConst Cz2 + #32400 * EConst Cz3) * EPow P4 (EVar vMt) + (#2122 + #128 * EConst
   COepS2 - #55728 * EConst CS2 - #192 * EConst CT1ep - #4152 * EConst Cz2 + #13209 * EConst Cz3 - #96 * EConst Cz4 -
   #144 * EPow P2 (EConst Cz2)) * EPow P4 (EVar vMst2) * EPow P4 (EVar vs2t)) + #2058 * EPow P4 (EVar vMst1) * (#4 *
   EPow P2 (EVar vMst2) * EPow P2 (EVar vMt) * EPow P2 (EVar vs2t) * (#487028 + #40000 * EConst COepS2 - #1917000 *
   EConst CS2 - #60000 * EConst CT1ep - #1081500 * EConst Cz2 - #2625 * EConst Cz3 - #30000 * EConst Cz4 - #45000 *
   EPow P2 (EConst Cz2)) - #2592000 * EVar vMst2 * EVar vs2t * (- #11 + #14 * EConst Cz2 - #8 * EConst Cz3) * EPow P3
   (EVar vMt) + #1296000 * EVar vMt * (- #2 + EConst Cz2 + EConst Cz3) * EPow P3 (EVar vMst2) * EPow P3 (EVar vs2t) +
   #288 * (- #176473 + #202500 * EConst Cz2 - #90000 * EConst Cz3) * EPow P4 (EVar vMt) + (#1932736 - #64000 * EConst
   COepS2 + #3294000 * EConst CS2 + #96000 * EConst CT1ep + #726000 * EConst Cz2 - #710625 * EConst Cz3 + #48000 *
   EConst Cz4 + #72000 * EPow P2 (EConst Cz2)) * EPow P4 (EVar vMst2) * EPow P4 (EVar vs2t)) - #5 * EPow P2 (EVar
   vs2t) * (- #100018800 * EVar vMst2 * EVar vMt * EVar vs2t * (- #23 + #30 * EConst Cz2 - #20 * EConst Cz3) + EPow P2
   (EVar vMst2) * EPow P2 (EVar vs2t) * (#76781738 + #15366400 * EConst COepS2 - #837194400 * EConst CS2 - #23049600 *
   EConst CT1ep - #207652200 * EConst Cz2 - #63103425 * EConst Cz3 - #11524800 * EConst Cz4 - #17287200 * EPow P2
   (EConst Cz2)) - #600 * EPow P2 (EVar vMt) * (#109760 * EConst COepS2 - #3 * (#1281429 + #1720488 * EConst CS2 +
   #54880 * EConst CT1ep + #44590 * EConst Cz2 - #303212 * EConst Cz3 + #27440 * EConst Cz4 + #41160 * EPow P2 (EConst
   Cz2)))) * EPow P6 (EVar vMst1)) + #120 * EVar vDmsqst2 * EPow P2 (EVar vMst1) * (#3087 * EVar vMst2 * EPow P4 (EVar
   vMst1) * (- #4500 * EVar vDmglst2 * (#8 * (#113 - #48 * EConst Cz2) * EPow P2 (EVar vMst2) * EPow P2 (EVar vMt) *
   EPow P2 (EVar vs2t) - #192 * EVar vMst2 * EVar vs2t * (#51 * EConst Cz2 - #28 * (#2 + EConst Cz3)) * EPow P3 (EVar
   vMt) + #96 * EVar vMt * (#5 * EConst Cz2 + #3 * (- #4 + EConst Cz3)) * EPow P3 (EVar vMst2) * EPow P3 (EVar vs2t) +
   #48 * (- #401 + #308 * EConst Cz2 - #144 * EConst Cz3) * EPow P4 (EVar vMt) - #3 * (- #75 + #32 * EConst Cz2 + #8 *
   EConst Cz3) * EPow P4 (EVar vMst2) * EPow P4 (EVar vs2t)) + EVar vMst2 * (- #8 * EPow P2 (EVar vMst2) * EPow P2
   (EVar vMt) * EPow P2 (EVar vs2t) * (#36449 + #4000 * EConst COepS2 - #310500 * EConst CS2 - #6000 * EConst CT1ep -
   #75750 * EConst Cz2 + #21000 * EConst Cz3 - #3000 * EConst Cz4 - #4500 * EPow P2 (EConst Cz2)) - #864000 * EVar
   vMst2 * EVar vs2t * (- #6 + #5 * EConst Cz2 - #4 * EConst Cz3) * EPow P3 (EVar vMt) - #432000 * EVar vMt * (#1 +
   EConst Cz2 - EConst Cz3) * EPow P3 (EVar vMst2) * EPow P3 (EVar vs2t) + #96 * (- #91321 + #54000 * EConst Cz2 -
   #36000 * EConst Cz3) * EPow P4 (EVar vMt) + (#52199 + #28000 * EConst COepS2 - #3415500 * EConst CS2 - #42000 *
   EConst CT1ep - #557250 * EConst Cz2 + #259500 * EConst Cz3 - #21000 * EConst Cz4 - #31500 * EPow P2 (EConst Cz2)) *
   EPow P4 (EVar vMst2) * EPow P4 (EVar vs2t))) + #385875 * EPow P2 (EVar vMst1) * EPow P3 (EVar vMst2) * (- #16 *
   EVar vDmglst2 * (#36 * (#23 - #24 * EConst Cz2) * EPow P2 (EVar vMst2) * EPow P2 (EVar vMt) * EPow P2 (EVar vs2t) +
   #24 * EVar vMst2 * EVar vs2t * (#289 - #342 * EConst Cz2 + #216 * EConst Cz3) * EPow P3 (EVar vMt) - #216 * EVar
   vMt * (- #2 + #2 * EConst Cz2 - EConst Cz3) * EPow P3 (EVar vMst2) * EPow P3 (EVar vs2t) + #8 * (- #1477 + #1242 *
   EConst Cz2 - #540 * EConst Cz3) * EPow P4 (EVar vMt) + #27 * (- #2 + #4 * EConst Cz2 - #3 * EConst Cz3) * EPow P4
   (EVar vMst2) * EPow P4 (EVar vs2t)) + #3 * EVar vMst2 * (- #4 * EPow P2 (EVar vMst2) * EPow P2 (EVar vMt) * EPow P2
   (EVar vs2t) * (#32 * EConst COepS2 - #3 * (#391 + #972 * EConst CS2 + #16 * EConst CT1ep + #154 * EConst Cz2 - #232
   * EConst Cz3 + #8 * EConst Cz4 + #12 * EPow P2 (EConst Cz2))) - #1152 * EVar vMst2 * EVar vs2t * (#7 + #2 * EConst
   Cz2 - #8 * EConst Cz3) * EPow P3 (EVar vMt) - #1152 * EVar vMt * (- #1 + #2 * EConst Cz2 - #3 * EConst Cz3) * EPow
   P3 (EVar vMst2) * EPow P3 (EVar vs2t) + #64 * (- #103 + #108 * EConst Cz2 - #72 * EConst Cz3) * EPow P4 (EVar vMt)
   + (- #1213 + #32 * EConst COepS2 + #4860 * EConst CS2 - #48 * EConst CT1ep - #462 * EConst Cz2 - #276 * EConst Cz3
   - #24 * EConst Cz4 - #36 * EPow P2 (EConst Cz2)) * EPow P4 (EVar vMst2) * EPow P4 (EVar vs2t))) + #41674500 * (EVar
   vMst2 - #4 * EVar vDmglst2 * (- #3 + EConst Cz2) + #2 * EVar vMst2 * EConst Cz2) * EPow P2 (- #4 * EPow P2 (EVar
   vMt) + EPow P2 (EVar vMst2) * EPow P2 (EVar vs2t)) * EPow P5 (EVar vMst2) + #2 * (- #4 * EVar vMst2 * EPow P2 (EVar
   vMt) * EPow P2 (EVar vs2t) * (#1157625 * EVar vDmglst2 * (- #1931 + #1098 * EConst Cz2 + #180 * EConst Cz3) + EVar
   vMst2 * (- #22430251 + #5488000 * EConst COepS2 - #324135000 * EConst CS2 - #8232000 * EConst CT1ep - #103929000 *
   EConst Cz2 + #28812000 * EConst Cz3 - #4116000 * EConst Cz4 - #6174000 * EPow P2 (EConst Cz2))) + #333396000 * EVar
   vs2t * (EVar vDmglst2 * (- #465 + #348 * EConst Cz2 - #176 * EConst Cz3) + EVar vMst2 * (#35 - #20 * EConst Cz2 +
   #16 * EConst Cz3)) * EPow P3 (EVar vMt) + #333396000 * EVar vMt * (EVar vDmglst2 * (#20 - #11 * EConst Cz2) + EVar
   vMst2 * (- #2 + EConst Cz2)) * EPow P2 (EVar vMst2) * EPow P3 (EVar vs2t) + #3456 * (- #6582784 + #2701125 * EConst
   Cz2 - #2315250 * EConst Cz3) * EPow P4 (EVar vMt) + (#4630500 * EVar vDmglst2 * (#38 + #63 * EConst Cz2 - #90 *
   EConst Cz3) + EVar vMst2 * (#378483467 + #9604000 * EConst COepS2 - #754771500 * EConst CS2 - #14406000 * EConst
   CT1ep - #306899250 * EConst Cz2 + #133770000 * EConst Cz3 - #7203000 * EConst Cz4 - #10804500 * EPow P2 (EConst
   Cz2))) * EPow P3 (EVar vMst2) * EPow P4 (EVar vs2t)) * EPow P6 (EVar vMst1)) + #55566000 * EVar vMst2 * EPow P3
   (ELog (EPow P2 (EVar vMst1) / EPow P2 (EVar vMst2))) * EPow P4 (EVar vMst1) * (#4 * EPow P2 (EVar vMst1) * EPow P3
   (EVar vMst2) * (#1166 * EPow P2 (EVar vMst2) * EPow P2 (EVar vMt) * EPow P2 (EVar vs2t) - #2304 * EVar vMst2 * EVar
   vs2t * EPow P3 (EVar vMt) + #780 * EVar vMt * EPow P3 (EVar vMst2) * EPow P3 (EVar vs2t) - #440 * EPow P4 (EVar
   vMt) + #115 * EPow P4 (EVar vMst2) * EPow P4 (EVar vs2t)) + EVar vMst2 * EPow P4 (EVar vMst1) * (#2696 * EPow P2
   (EVar vMst2) * EPow P2 (EVar vMt) * EPow P2 (EVar vs2t) - #7808 * EVar vMst2 * EVar vs2t * EPow P3 (EVar vMt) +
   #3200 * EVar vMt * EPow P3 (EVar vMst2) * EPow P3 (EVar vs2t) - #6400 * EPow P4 (EVar vMt) + #409 * EPow P4 (EVar
   vMst2) * EPow P4 (EVar vs2t)) - #4 * EVar vDmglst2 * (EPow P4 (EVar vMst1) * (- #2896 * EPow P2 (EVar vMst2) * EPow
   P2 (EVar vMt) * EPow P2 (EVar vs2t) - #2016 * EVar vMst2 * EVar vs2t * EPow P3 (EVar vMt) - #672 * EVar vMt * EPow
   P3 (EVar vMst2) * EPow P3 (EVar vs2t) + #7424 * EPow P4 (EVar vMt) - #33 * EPow P4 (EVar vMst2) * EPow P4 (EVar
   vs2t)) - #2 * EPow P2 (EVar vMst1) * EPow P2 (EVar vMst2) * (#1156 * EPow P2 (EVar vMst2) * EPow P2 (EVar vMt) *
   EPow P2 (EVar vs2t) + #384 * EVar vMst2 * EVar vs2t * EPow P3 (EVar vMt) + #390 * EVar vMt * EPow P3 (EVar vMst2) *
   EPow P3 (EVar vs2t) - #2632 * EPow P4 (EVar vMt) + #29 * EPow P4 (EVar vMst2) * EPow P4 (EVar vs2t)) - #3 * EPow P4
   (EVar vMst2) * (#256 * EPow P2 (EVar vMst2) * EPow P2 (EVar vMt) * EPow P2 (EVar vs2t) - #784 * EVar vMst2 * EVar
   vs2t * EPow P3 (EVar vMt) + #516 * EVar vMt * EPow P3 (EVar vMst2) * EPow P3 (EVar vs2t) - #512 * EPow P4 (EVar
   vMt) + #107 * EPow P4 (EVar vMst2) * EPow P4 (EVar vs2t))) + #3 * (#56 * EPow P2 (EVar vMst2) * EPow P2 (EVar vMt)
   * EPow P2 (EVar vs2t) - #3136 * EVar vMst2 * EVar vs2t * EPow P3 (EVar vMt) + #1040 * EVar vMt * EPow P3 (EVar
   vMst2) * EPow P3 (EVar vs2t) + #32 * EPow P4 (EVar vMt) + #271 * EPow P4 (EVar vMst2) * EPow P4 (EVar vs2t)) * EPow
   P5 (EVar vMst2) + #6 * EPow P2 (EVar vDmglst2) * (- #512 * EPow P3 (EVar vMst2) * EPow P4 (EVar vMt) + #2 * EVar
   vMst2 * EPow P2 (EVar vMst1) * (#380 * EPow P2 (EVar vMst2) * EPow P2 (EVar vMt) * EPow P2 (EVar vs2t) - #512 *
   EVar vMst2 * EVar vs2t * EPow P3 (EVar vMt) + #1608 * EPow P4 (EVar vMt) + #13 * EPow P4 (EVar vMst2) * EPow P4
   (EVar vs2t)) + #256 * EPow P2 (EVar vMt) * EPow P2 (EVar vs2t) * EPow P5 (EVar vMst2) + #768 * EVar vMt * EPow P3
   (EVar vs2t) * EPow P6 (EVar vMst2) + #107 * EPow P4 (EVar vs2t) * EPow P7 (EVar vMst2))) + EVar vMst2 * (#4 * EVar
   vDmglst2 * EPow P2 (EVar vMst1) * (- #1764 * EPow P2 (EVar vMst2) * EPow P4 (EVar vMst1) * (- #112 * EPow P2 (EVar
   vMst2) * EPow P2 (EVar vMt) * EPow P2 (EVar vs2t) * (#1216808 + #150000 * EConst COepS2 - #376650 * EConst CS2 -
   #225000 * EConst CT1ep - #3408750 * EConst Cz2 - #833625 * EConst Cz3 - #112500 * EConst Cz4 - #168750 * EPow P2
   (EConst Cz2)) + #1050 * EVar vMst2 * EVar vs2t * (- #322421 + #73760 * EConst COepS2 - #564876 * EConst CS2 -
   #110640 * EConst CT1ep - #3060894 * EConst Cz2 + #1606920 * EConst Cz3 - #55320 * EConst Cz4 - #82980 * EPow P2
   (EConst Cz2)) * EPow P3 (EVar vMt) - #175 * EVar vMt * (#27211 + #36720 * EConst CB4 + #1080 * EConst CDN + #64160
   * EConst COepS2 - #1515564 * EConst CS2 - #96240 * EConst CT1ep - #1240446 * EConst Cz2 + #245400 * EConst Cz3 -
   #12480 * EConst Cz4 - #72180 * EPow P2 (EConst Cz2)) * EPow P3 (EVar vMst2) * EPow P3 (EVar vs2t) - #8 * (#98884301
   + #4508000 * EConst COepS2 - #17853750 * EConst CS2 - #6762000 * EConst CT1ep - #477659550 * EConst Cz2 +
   #302883000 * EConst Cz3 - #3381000 * EConst Cz4 - #5071500 * EPow P2 (EConst Cz2)) * EPow P4 (EVar vMt) - #7 * (-
   #95041 + #81000 * EConst CB4 - #108000 * EConst CD3 + #67500 * EConst CDN - #432000 * EConst COepS2 - #7425000 *
   EConst CS2 + #648000 * EConst CT1ep + #5325300 * EConst Cz2 + #4227750 * EConst Cz3 - #121500 * EConst Cz4) * EPow
   P4 (EVar vMst2) * EPow P4 (EVar vs2t)) - #66150 * EPow P2 (EVar vMst1) * EPow P4 (EVar vMst2) * (#672 * (- #11674 +
   #120 * EConst CB4 - #120 * EConst CD3 + #60 * EConst CDN + #17091 * EConst CS2 + #4849 * EConst Cz2 + #2195 *
   EConst Cz3 - #540 * EConst Cz4) * EPow P2 (EVar vMst2) * EPow P2 (EVar vMt) * EPow P2 (EVar vs2t) + #140 * EVar
   vMst2 * EVar vs2t * (#1120 * EConst COepS2 + #3 * (- #10061 + #14580 * EConst CS2 - #560 * EConst CT1ep - #25134 *
   EConst Cz2 + #72 * EConst Cz3 + #2024 * EConst Cz4 - #420 * EPow P2 (EConst Cz2))) * EPow P3 (EVar vMt) - #7 * EVar
   vMt * (#69997 + #188640 * EConst CB4 - #3600 * EConst CDN + #5600 * EConst COepS2 + #146772 * EConst CS2 - #8400 *
   EConst CT1ep - #1043682 * EConst Cz2 + #1816440 * EConst Cz3 + #32520 * EConst Cz4 - #317340 * EPow P2 (EConst
   Cz2)) * EPow P3 (EVar vMst2) * EPow P3 (EVar vs2t) - #16 * (#1547066 + #7840 * EConst COepS2 + #258066 * EConst CS2
   - #11760 * EConst CT1ep - #1256046 * EConst Cz2 - #946785 * EConst Cz3 - #5880 * EConst Cz4 - #8820 * EPow P2
   (EConst Cz2)) * EPow P4 (EVar vMt) + #35 * (- #15707 + #432 * EConst CB4 - #576 * EConst CD3 + #360 * EConst CDN +
   #224 * EConst COepS2 + #543348 * EConst CS2 - #336 * EConst CT1ep - #11802 * EConst Cz2 - #105690 * EConst Cz3 -
   #2544 * EConst Cz4 - #2844 * EPow P2 (EConst Cz2)) * EPow P4 (EVar vMst2) * EPow P4 (EVar vs2t)) + (#72 * EPow P2
   (EVar vMst2) * EPow P2 (EVar vMt) * EPow P2 (EVar vs2t) * (- #3650009897 + #2110136000 * EConst COepS2 -
   #52385772600 * EConst CS2 - #3165204000 * EConst CT1ep - #40405228500 * EConst Cz2 + #755286000 * EConst Cz3 -
   #1582602000 * EConst Cz4 - #2373903000 * EPow P2 (EConst Cz2)) - #274400 * EVar vMst2 * EVar vs2t * (- #20964397 +
   #2058400 * EConst COepS2 - #47545272 * EConst CS2 - #3087600 * EConst CT1ep - #59449002 * EConst Cz2 + #39214920 *
   EConst Cz3 - #1543800 * EConst Cz4 - #2315700 * EPow P2 (EConst Cz2)) * EPow P3 (EVar vMt) + #17150 * EVar vMt * (-
   #31897243 + #2491360 * EConst COepS2 - #90290268 * EConst CS2 - #3737040 * EConst CT1ep - #51499698 * EConst Cz2 +
   #33912840 * EConst Cz3 - #1868520 * EConst Cz4 - #2802780 * EPow P2 (EConst Cz2)) * EPow P3 (EVar vMst2) * EPow P3
   (EVar vs2t) + #80 * (- #54946675289 + #3063401600 * EConst COepS2 - #52952863320 * EConst CS2 - #4595102400 *
   EConst CT1ep - #225236187120 * EConst Cz2 + #243414477600 * EConst Cz3 - #2297551200 * EConst Cz4 - #3446326800 *
   EPow P2 (EConst Cz2)) * EPow P4 (EVar vMt) + (#119405394763 - #11522056000 * EConst COepS2 + #478191735000 * EConst
   CS2 + #17283084000 * EConst CT1ep + #233890773900 * EConst Cz2 - #111792103500 * EConst Cz3 + #8641542000 * EConst
   Cz4 + #12962313000 * EPow P2 (EConst Cz2)) * EPow P4 (EVar vMst2) * EPow P4 (EVar vs2t)) * EPow P6 (EVar vMst1) -
   #333396000 * (#2 * EVar vMt + EVar vMst2 * EVar vs2t) * (#14 * EVar vMt * (#3 + EConst Cz2) + EVar vMst2 * EVar
   vs2t * (#5 + #7 * EConst Cz2)) * EPow P2 (- #2 * EVar vMt + EVar vMst2 * EVar vs2t) * EPow P6 (EVar vMst2)) + #588
   * EVar vMst2 * EPow P2 (EVar vDmglst2) * (#1134000 * EPow P2 (EVar vMst1) * EPow P4 (EVar vMst2) * (- #8 * (- #179
   + #26 * EConst Cz2) * EPow P2 (EVar vMst2) * EPow P2 (EVar vMt) * EPow P2 (EVar vs2t) + #768 * EVar vMst2 * EVar
   vs2t * EPow P3 (EVar vMt) - #192 * EVar vMt * EPow P3 (EVar vMst2) * EPow P3 (EVar vs2t) + #16 * (- #155 + #26 *
   EConst Cz2) * EPow P4 (EVar vMt) + (- #235 + #26 * EConst Cz2) * EPow P4 (EVar vMst2) * EPow P4 (EVar vs2t)) + #15
   * EPow P2 (EVar vMst2) * EPow P4 (EVar vMst1) * (- #360 * EPow P2 (EVar vMst2) * EPow P2 (EVar vMt) * EPow P2 (EVar
   vs2t) * (- #2164753 + #3360 * EConst CB4 - #3360 * EConst CD3 + #1680 * EConst CDN - #7840 * EConst COepS2 +
   #169452 * EConst CS2 + #11760 * EConst CT1ep + #467818 * EConst Cz2 + #1945895 * EConst Cz3 - #9240 * EConst Cz4 +
   #8820 * EPow P2 (EConst Cz2)) + #320 * EVar vMst2 * EVar vs2t * (- #1243547 + #15680 * EConst COepS2 + #953208 *
   EConst CS2 - #23520 * EConst CT1ep - #2985438 * EConst Cz2 + #3393915 * EConst Cz3 - #11760 * EConst Cz4 - #17640 *
   EPow P2 (EConst Cz2)) * EPow P3 (EVar vMt) + #560 * EVar vMt * (- #282298 + #61560 * EConst CB4 - #1620 * EConst
   CDN - #2240 * EConst COepS2 - #111213 * EConst CS2 + #3360 * EConst CT1ep - #281922 * EConst Cz2 + #983190 * EConst
   Cz3 + #6540 * EConst Cz4 - #114120 * EPow P2 (EConst Cz2)) * EPow P3 (EVar vMst2) * EPow P3 (EVar vs2t) - #16 * (-
   #46632377 + #744800 * EConst COepS2 + #29679210 * EConst CS2 - #1117200 * EConst CT1ep - #107181930 * EConst Cz2 +
   #108350025 * EConst Cz3 - #558600 * EConst Cz4 - #837900 * EPow P2 (EConst Cz2)) * EPow P4 (EVar vMt) - #35 * (-
   #924689 + #41040 * EConst CB4 - #43200 * EConst CD3 + #22680 * EConst CDN - #1120 * EConst COepS2 + #21325356 *
   EConst CS2 + #1680 * EConst CT1ep - #127686 * EConst Cz2 - #3687510 * EConst Cz3 - #190320 * EConst Cz4 - #37620 *
   EPow P2 (EConst Cz2)) * EPow P4 (EVar vMst2) * EPow P4 (EVar vs2t)) - #2 * (- #36 * EPow P2 (EVar vMst2) * EPow P2
   (EVar vMt) * EPow P2 (EVar vs2t) * (#68526791 + #2772000 * EConst COepS2 - #107403300 * EConst CS2 - #4158000 *
   EConst CT1ep - #140027250 * EConst Cz2 + #39514125 * EConst Cz3 - #2079000 * EConst Cz4 - #3118500 * EPow P2
   (EConst Cz2)) - #800 * EVar vMst2 * EVar vs2t * (#7384247 + #1183840 * EConst COepS2 + #5821092 * EConst CS2 -
   #1775760 * EConst CT1ep - #59988552 * EConst Cz2 + #25757760 * EConst Cz3 - #887880 * EConst Cz4 - #1331820 * EPow
   P2 (EConst Cz2)) * EPow P3 (EVar vMt) + #350 * EVar vMt * (- #2727217 + #437920 * EConst COepS2 - #3648132 * EConst
   CS2 - #656880 * EConst CT1ep - #12301638 * EConst Cz2 + #4166400 * EConst Cz3 - #328440 * EConst Cz4 - #492660 *
   EPow P2 (EConst Cz2)) * EPow P3 (EVar vMst2) * EPow P3 (EVar vs2t) + #8 * (#648916519 + #158732000 * EConst COepS2
   + #66753450 * EConst CS2 - #238098000 * EConst CT1ep - #10760276550 * EConst Cz2 + #6504855000 * EConst Cz3 -
   #119049000 * EConst Cz4 - #178573500 * EPow P2 (EConst Cz2)) * EPow P4 (EVar vMt) - #7 * (- #21452821 + #243000 *
   EConst CB4 - #324000 * EConst CD3 + #202500 * EConst CDN + #2272000 * EConst COepS2 - #75724200 * EConst CS2 -
   #3408000 * EConst CT1ep - #55081500 * EConst Cz2 + #67149750 * EConst Cz3 - #3040500 * EConst Cz4 - #4014000 * EPow
   P2 (EConst Cz2)) * EPow P4 (EVar vMst2) * EPow P4 (EVar vs2t)) * EPow P6 (EVar vMst1) + #18144000 * EPow P2 (- #4 *
   EPow P2 (EVar vMt) + EPow P2 (EVar vMst2) * EPow P2 (EVar vs2t)) * EPow P6 (EVar vMst2)) + #3 * EVar vMst2 *
   (#308700 * EPow P4 (EVar vMst1) * EPow P4 (EVar vMst2) * (#2 * EPow P2 (EVar vMst2) * EPow P2 (EVar vMt) * EPow P2
   (EVar vs2t) * (#1013263 + #2880 * EConst CD3 - #2880 * EConst CDN - #25440 * EConst COepS2 - #137052 * EConst CS2 +
   #38160 * EConst CT1ep + #35562 * EConst Cz2 + #83160 * EConst Cz3 + #36360 * EConst Cz4 + #28620 * EPow P2 (EConst
   Cz2)) + #24 * EVar vMst2 * EVar vs2t * (- #60759 + #1120 * EConst COepS2 + #25596 * EConst CS2 - #1680 * EConst
   CT1ep - #137386 * EConst Cz2 + #115320 * EConst Cz3 - #12360 * EConst Cz4 - #1260 * EPow P2 (EConst Cz2)) * EPow P3
   (EVar vMt) + #30 * EVar vMt * (#25611 + #5280 * EConst CB4 - #48 * EConst CDN - #224 * EConst COepS2 - #324 *
   EConst CS2 + #336 * EConst CT1ep - #13614 * EConst Cz2 + #47720 * EConst Cz3 + #2040 * EConst Cz4 - #6660 * EPow P2
   (EConst Cz2)) * EPow P3 (EVar vMst2) * EPow P3 (EVar vs2t) + #8 * (#389597 + #3360 * EConst COepS2 - #105948 *
   EConst CS2 - #5040 * EConst CT1ep + #293898 * EConst Cz2 - #740160 * EConst Cz3 - #2520 * EConst Cz4 - #3780 * EPow
   P2 (EConst Cz2)) * EPow P4 (EVar vMt) - #5 * (#25289 + #1440 * EConst CB4 - #144 * EConst CD3 + #72 * EConst CDN -
   #2208 * EConst COepS2 + #298404 * EConst CS2 + #3312 * EConst CT1ep + #36318 * EConst Cz2 - #94968 * EConst Cz3 +
   #1440 * EConst Cz4 - #108 * EPow P2 (EConst Cz2)) * EPow P4 (EVar vMst2) * EPow P4 (EVar vs2t)) + #20580 * EPow P2
   (EVar vMst2) * (#4 * EPow P2 (EVar vMst2) * EPow P2 (EVar vMt) * EPow P2 (EVar vs2t) * (#2367149 - #21600 * EConst
   CD3 + #21600 * EConst CDN - #503200 * EConst COepS2 + #14889420 * EConst CS2 + #754800 * EConst CT1ep + #9292470 *
   EConst Cz2 - #66000 * EConst Cz3 + #247800 * EConst Cz4 + #566100 * EPow P2 (EConst Cz2)) + #40 * EVar vMst2 * EVar
   vs2t * (- #1156193 + #60320 * EConst COepS2 - #1414908 * EConst CS2 - #90480 * EConst CT1ep - #2823942 * EConst Cz2
   + #2907240 * EConst Cz3 - #45240 * EConst Cz4 - #67860 * EPow P2 (EConst Cz2)) * EPow P3 (EVar vMt) + #100 * EVar
   vMt * (#51041 + #7344 * EConst CB4 + #216 * EConst CDN - #2336 * EConst COepS2 + #112428 * EConst CS2 + #3504 *
   EConst CT1ep + #28038 * EConst Cz2 - #78216 * EConst Cz3 + #8880 * EConst Cz4 + #2628 * EPow P2 (EConst Cz2)) *
   EPow P3 (EVar vMst2) * EPow P3 (EVar vs2t) + #8 * (#7319011 + #167200 * EConst COepS2 - #6744060 * EConst CS2 -
   #250800 * EConst CT1ep + #9301170 * EConst Cz2 - #20715000 * EConst Cz3 - #125400 * EConst Cz4 - #188100 * EPow P2
   (EConst Cz2)) * EPow P4 (EVar vMt) + (- #7680127 + #10800 * EConst CB4 - #21600 * EConst CD3 + #16200 * EConst CDN
   + #514400 * EConst COepS2 - #46307700 * EConst CS2 - #771600 * EConst CT1ep - #10868970 * EConst Cz2 + #7186200 *
   EConst Cz3 - #466800 * EConst Cz4 - #773100 * EPow P2 (EConst Cz2)) * EPow P4 (EVar vMst2) * EPow P4 (EVar vs2t)) *
   EPow P6 (EVar vMst1) + #55566000 * EPow P2 (EVar vMst1) * (- #8 * (#87 + #38 * EConst Cz2) * EPow P2 (EVar vMst2) *
   EPow P2 (EVar vMt) * EPow P2 (EVar vs2t) - #1024 * EVar vMst2 * EVar vs2t * EPow P3 (EVar vMt) + #256 * EVar vMt *
   EPow P3 (EVar vMst2) * EPow P3 (EVar vs2t) + #16 * (#71 + #38 * EConst Cz2) * EPow P4 (EVar vMt) + (#135 + #38 *
   EConst Cz2) * EPow P4 (EVar vMst2) * EPow P4 (EVar vs2t)) * EPow P6 (EVar vMst2) + (- #16 * EPow P2 (EVar vMst2) *
   EPow P2 (EVar vMt) * EPow P2 (EVar vs2t) * (- #25002374272 + #4703902000 * EConst COepS2 - #184815757350 * EConst
   CS2 - #7055853000 * EConst CT1ep - #84661721025 * EConst Cz2 + #16805113500 * EConst Cz3 - #3527926500 * EConst Cz4
   - #5291889750 * EPow P2 (EConst Cz2)) + #1097600 * EVar vMst2 * EVar vs2t * (- #2016907 + #109600 * EConst COepS2 -
   #3520152 * EConst CS2 - #164400 * EConst CT1ep - #3448554 * EConst Cz2 + #3465480 * EConst Cz3 - #82200 * EConst
   Cz4 - #123300 * EPow P2 (EConst Cz2)) * EPow P3 (EVar vMt) - #68600 * EVar vMt * (- #2759935 + #70240 * EConst
   COepS2 - #3305340 * EConst CS2 - #105360 * EConst CT1ep - #629034 * EConst Cz2 + #2677800 * EConst Cz3 - #52680 *
   EConst Cz4 - #79020 * EPow P2 (EConst Cz2)) * EPow P3 (EVar vMst2) * EPow P3 (EVar vs2t) + #16 * (#187545955063 +
   #3204992000 * EConst COepS2 - #128216692800 * EConst CS2 - #4807488000 * EConst CT1ep + #129009640200 * EConst Cz2
   - #399103824000 * EConst Cz3 - #2403744000 * EConst Cz4 - #3605616000 * EPow P2 (EConst Cz2)) * EPow P4 (EVar vMt)
   + (#93508520089 + #2000376000 * EConst CB4 + #222264000 * EConst CD3 - #222264000 * EConst CDN + #4925480000 *
   EConst COepS2 - #312095700000 * EConst CS2 - #7388220000 * EConst CT1ep - #77106571500 * EConst Cz2 + #21506100000
   * EConst Cz3 - #2360526000 * EConst Cz4 - #5541165000 * EPow P2 (EConst Cz2)) * EPow P4 (EVar vMst2) * EPow P4
   (EVar vs2t)) * EPow P8 (EVar vMst1) + #7112448000 * EPow P2 (EVar vMt) * (- #2 * EPow P2 (EVar vMt) + EPow P2 (EVar
   vMst2) * EPow P2 (EVar vs2t)) * EPow P8 (EVar vMst2))) + #1260 * ELog (EPow P2 (EVar vMst1) / EPow P2 (EVar vMst2))
   * (#30 * EPow P2 (EVar vDmsqst2) * EPow P4 (EVar vMst1) * (#5 * EPow P2 (EVar vs2t) * (- #26460 * EVar vMst2 * EVar
   vMt * EVar vs2t * (- #121 + #60 * EConst Cz2) + #30 * (- #20869 + #35280 * EConst CS2 + #5292 * EConst Cz2) * EPow
   P2 (EVar vMt) + (- #8753 - #246960 * EConst CS2 + #79380 * EConst Cz2) * EPow P2 (EVar vMst2) * EPow P2 (EVar
   vs2t)) * EPow P4 (EVar vMst1) + #294 * EPow P2 (EVar vMst1) * (#8 * (- #887 + #2250 * EConst CS2) * EPow P2 (EVar
   vMst2) * EPow P2 (EVar vMt) * EPow P2 (EVar vs2t) - #57600 * EVar vMst2 * EVar vs2t * (- #3 + #2 * EConst Cz2) *
   EPow P3 (EVar vMt) + #7200 * EVar vMt * (- #2 + EConst Cz2) * EPow P3 (EVar vMst2) * EPow P3 (EVar vs2t) + #48 * (-
   #3871 + #3000 * EConst Cz2) * EPow P4 (EVar vMt) + (#1837 - #7200 * EConst CS2 - #900 * EConst Cz2) * EPow P4 (EVar
   vMst2) * EPow P4 (EVar vs2t)) - #14700 * EPow P2 (EVar vMst2) * (- #24 * (#2 + #9 * EConst CS2) * EPow P2 (EVar
   vMst2) * EPow P2 (EVar vMt) * EPow P2 (EVar vs2t) + #144 * EVar vMst2 * EVar vs2t * (- #15 + #8 * EConst Cz2) *
   EPow P3 (EVar vMt) - #144 * EVar vMt * (- #2 + EConst Cz2) * EPow P3 (EVar vMst2) * EPow P3 (EVar vs2t) + (#1460 -
   #864 * EConst Cz2) * EPow P4 (EVar vMt) + #3 * (- #1 + #18 * EConst CS2 + #3 * EConst Cz2) * EPow P4 (EVar vMst2) *
   EPow P4 (EVar vs2t))) + #120 * EVar vDmsqst2 * EPow P2 (EVar vMst1) * (#441 * EVar vMst2 * EPow P4 (EVar vMst1) *
   (EVar vMst2 * (- #8 * (- #517 + #450 * EConst CS2) * EPow P2 (EVar vMst2) * EPow P2 (EVar vMt) * EPow P2 (EVar
   vs2t) - #19200 * EVar vMst2 * EVar vs2t * (- #2 + EConst Cz2) * EPow P3 (EVar vMt) + #2400 * EVar vMt * (- #1 +
   EConst Cz2) * EPow P3 (EVar vMst2) * EPow P3 (EVar vs2t) + #16 * (- #3067 + #1200 * EConst Cz2) * EPow P4 (EVar
   vMt) + (- #317 + #3150 * EConst CS2 - #300 * EConst Cz2) * EPow P4 (EVar vMst2) * EPow P4 (EVar vs2t)) - #150 *
   EVar vDmglst2 * (#8 * EPow P2 (EVar vMst2) * EPow P2 (EVar vMt) * EPow P2 (EVar vs2t) - #128 * EVar vMst2 * EVar
   vs2t * (- #12 + #7 * EConst Cz2) * EPow P3 (EVar vMt) + #16 * EVar vMt * (- #5 + #3 * EConst Cz2) * EPow P3 (EVar
   vMst2) * EPow P3 (EVar vs2t) + #16 * (- #137 + #72 * EConst Cz2) * EPow P4 (EVar vMt) + (#13 - #4 * EConst Cz2) *
   EPow P4 (EVar vMst2) * EPow P4 (EVar vs2t))) + #7350 * EPow P2 (EVar vMst1) * EPow P3 (EVar vMst2) * (#3 * EVar
   vMst2 * (- #4 * (#16 + #27 * EConst CS2) * EPow P2 (EVar vMst2) * EPow P2 (EVar vMt) * EPow P2 (EVar vs2t) - #96 *
   EVar vMst2 * EVar vs2t * (- #5 + #4 * EConst Cz2) * EPow P3 (EVar vMt) + #48 * EVar vMt * (- #1 + EConst Cz2) *
   EPow P3 (EVar vMst2) * EPow P3 (EVar vs2t) + #16 * (- #23 + #12 * EConst Cz2) * EPow P4 (EVar vMt) + (#17 + #27 *
   EConst CS2) * EPow P4 (EVar vMst2) * EPow P4 (EVar vs2t)) + EVar vDmglst2 * (#96 * EVar vMst2 * EVar vs2t * (- #59
   + #36 * EConst Cz2) * EPow P3 (EVar vMt) - #144 * EVar vMt * (- #5 + #3 * EConst Cz2) * EPow P3 (EVar vMst2) * EPow
   P3 (EVar vs2t) - #8 * (- #571 + #360 * EConst Cz2) * EPow P4 (EVar vMt) + #18 * (- #2 + #3 * EConst Cz2) * EPow P4
   (EVar vMst2) * EPow P4 (EVar vs2t))) + (#2 * EVar vMst2 * (#8 * EVar vMst2 * (#58853 - #44100 * EConst CS2) -
   #11025 * EVar vDmglst2 * (- #37 + #60 * EConst Cz2)) * EPow P2 (EVar vMt) * EPow P2 (EVar vs2t) + #1058400 * EVar
   vs2t * (EVar vMst2 * (#25 - #8 * EConst Cz2) + #11 * EVar vDmglst2 * (- #17 + #8 * EConst Cz2)) * EPow P3 (EVar
   vMt) + #264600 * (#3 * EVar vDmglst2 - EVar vMst2) * EVar vMt * EPow P2 (EVar vMst2) * EPow P3 (EVar vs2t) + #288 *
   (- #175121 + #44100 * EConst Cz2) * EPow P4 (EVar vMt) + (- #11025 * EVar vDmglst2 * (- #83 + #60 * EConst Cz2) +
   EVar vMst2 * (- #621671 + #308700 * EConst CS2 + #132300 * EConst Cz2)) * EPow P3 (EVar vMst2) * EPow P4 (EVar
   vs2t)) * EPow P6 (EVar vMst1) - #66150 * EPow P2 (- #4 * EPow P2 (EVar vMt) + EPow P2 (EVar vMst2) * EPow P2 (EVar
   vs2t)) * EPow P6 (EVar vMst2)) + EVar vMst2 * (#588 * EVar vMst2 * EPow P2 (EVar vDmglst2) * (- #450 * EPow P2
   (EVar vMst1) * EPow P4 (EVar vMst2) * (- #408 * EPow P2 (EVar vMst2) * EPow P2 (EVar vMt) * EPow P2 (EVar vs2t) -
   #2048 * EVar vMst2 * EVar vs2t * EPow P3 (EVar vMt) + #512 * EVar vMt * EPow P3 (EVar vMst2) * EPow P3 (EVar vs2t)
   + #1328 * EPow P4 (EVar vMt) + #51 * EPow P4 (EVar vMst2) * EPow P4 (EVar vs2t)) + #2 * EPow P2 (EVar vMst2) * EPow
   P4 (EVar vMst1) * (#300 * (#6485 + #1134 * EConst CS2 - #6306 * EConst Cz2) * EPow P2 (EVar vMst2) * EPow P2 (EVar
   vMt) * EPow P2 (EVar vs2t) + #1600 * EVar vMst2 * EVar vs2t * (#2182 + #378 * EConst CS2 - #1665 * EConst Cz2) *
   EPow P3 (EVar vMt) - #600 * EVar vMt * (#439 + #252 * EConst CS2 + #135 * EConst Cz2) * EPow P3 (EVar vMst2) * EPow
   P3 (EVar vs2t) - #16 * (- #56837 + #89775 * EConst CS2 - #162900 * EConst Cz2) * EPow P4 (EVar vMt) + #75 * (-
   #1388 + #63 * EConst CS2 - #618 * EConst Cz2) * EPow P4 (EVar vMst2) * EPow P4 (EVar vs2t)) + (#24 * (#102713 +
   #133650 * EConst CS2 - #173700 * EConst Cz2) * EPow P2 (EVar vMst2) * EPow P2 (EVar vMt) * EPow P2 (EVar vs2t) +
   #400 * EVar vMst2 * EVar vs2t * (#11587 + #76104 * EConst CS2 - #49608 * EConst Cz2) * EPow P3 (EVar vMt) - #200 *
   EVar vMt * (- #4958 + #24633 * EConst CS2 - #90 * EConst Cz2) * EPow P3 (EVar vMst2) * EPow P3 (EVar vs2t) +
   (#3934288 - #40816800 * EConst CS2 + #34804800 * EConst Cz2) * EPow P4 (EVar vMt) + (#332311 + #511200 * EConst CS2
   - #49050 * EConst Cz2) * EPow P4 (EVar vMst2) * EPow P4 (EVar vs2t)) * EPow P6 (EVar vMst1) + #7200 * EPow P2 (- #4
   * EPow P2 (EVar vMt) + EPow P2 (EVar vMst2) * EPow P2 (EVar vs2t)) * EPow P6 (EVar vMst2)) + #3 * EVar vMst2 *
   (#9800 * EPow P4 (EVar vMst1) * EPow P4 (EVar vMst2) * (- #6 * (- #4534 + #4293 * EConst CS2 + #1830 * EConst Cz2 -
   #72 * EConst Cz3) * EPow P2 (EVar vMst2) * EPow P2 (EVar vMt) * EPow P2 (EVar vs2t) + #72 * EVar vMst2 * EVar vs2t
   * (#26 + #189 * EConst CS2 - #758 * EConst Cz2) * EPow P3 (EVar vMt) - #126 * EVar vMt * (- #208 + #27 * EConst CS2
   - #2 * EConst Cz2) * EPow P3 (EVar vMst2) * EPow P3 (EVar vs2t) + #8 * (- #553 + #1701 * EConst CS2 + #4023 *
   EConst Cz2 + #108 * EConst Cz3) * EPow P4 (EVar vMt) + #3 * (#1148 + #1863 * EConst CS2 + #276 * EConst Cz2 - #18 *
   EConst Cz3) * EPow P4 (EVar vMst2) * EPow P4 (EVar vs2t)) + #1960 * EPow P2 (EVar vMst2) * (- #4 * (- #52322 +
   #84915 * EConst CS2 + #3060 * EConst Cz2 + #540 * EConst Cz3) * EPow P2 (EVar vMst2) * EPow P2 (EVar vMt) * EPow P2
   (EVar vs2t) + #1080 * EVar vMst2 * EVar vs2t * (#42 + #377 * EConst CS2 - #330 * EConst Cz2) * EPow P3 (EVar vMt) -
   #180 * EVar vMt * (#221 + #219 * EConst CS2 - #234 * EConst Cz2) * EPow P3 (EVar vMst2) * EPow P3 (EVar vs2t) + #8
   * (- #22352 + #28215 * EConst CS2 + #36270 * EConst Cz2) * EPow P4 (EVar vMt) + (- #16051 + #86805 * EConst CS2 -
   #8325 * EConst Cz2) * EPow P4 (EVar vMst2) * EPow P4 (EVar vs2t)) * EPow P6 (EVar vMst1) + #88200 * EPow P2 (EVar
   vMst1) * (- #616 * EPow P2 (EVar vMst2) * EPow P2 (EVar vMt) * EPow P2 (EVar vs2t) - #1024 * EVar vMst2 * EVar vs2t
   * EPow P3 (EVar vMt) + #256 * EVar vMt * EPow P3 (EVar vMst2) * EPow P3 (EVar vs2t) + #976 * EPow P4 (EVar vMt) +
   #125 * EPow P4 (EVar vMst2) * EPow P4 (EVar vs2t)) * EPow P6 (EVar vMst2) + (- #24 * (- #19407863 + #50398950 *
   EConst CS2 + #2866500 * EConst Cz2) * EPow P2 (EVar vMst2) * EPow P2 (EVar vMt) * EPow P2 (EVar vs2t) + #940800 *
   EVar vMst2 * EVar vs2t * (#167 + #2055 * EConst CS2 - #912 * EConst Cz2) * EPow P3 (EVar vMt) - #58800 * EVar vMt *
   (#46 + #1317 * EConst CS2 - #918 * EConst Cz2) * EPow P3 (EVar vMst2) * EPow P3 (EVar vs2t) + #32 * (- #35585111 +
   #25754400 * EConst CS2 + #32281200 * EConst Cz2) * EPow P4 (EVar vMt) + #3 * (- #23468297 + #26386500 * EConst CS2
   + #661500 * EConst Cz2 + #176400 * EConst Cz3) * EPow P4 (EVar vMst2) * EPow P4 (EVar vs2t)) * EPow P8 (EVar vMst1)
   + #11289600 * EPow P2 (EVar vMt) * (- #2 * EPow P2 (EVar vMt) + EPow P2 (EVar vMst2) * EPow P2 (EVar vs2t)) * EPow
   P8 (EVar vMst2)) + #4 * EVar vDmglst2 * (- #14700 * EPow P4 (EVar vMst1) * EPow P4 (EVar vMst2) * (#12 * (- #3427 +
   #1782 * EConst Cz2) * EPow P2 (EVar vMst2) * EPow P2 (EVar vMt) * EPow P2 (EVar vs2t) + #4 * EVar vMst2 * EVar vs2t
   * (- #8398 + #2835 * EConst CS2 - #3258 * EConst Cz2) * EPow P3 (EVar vMt) - #9 * EVar vMt * (#1640 + #315 * EConst
   CS2 - #1146 * EConst Cz2) * EPow P3 (EVar vMst2) * EPow P3 (EVar vs2t) + (#26276 - #9072 * EConst CS2 + #28224 *
   EConst Cz2) * EPow P4 (EVar vMt) + #9 * (#277 + #63 * EConst CS2 - #140 * EConst Cz2) * EPow P4 (EVar vMst2) * EPow
   P4 (EVar vs2t)) - #294 * EPow P2 (EVar vMst2) * (- #8 * (#77657 + #202500 * EConst CS2 - #55800 * EConst Cz2) *
   EPow P2 (EVar vMst2) * EPow P2 (EVar vMt) * EPow P2 (EVar vs2t) + #200 * EVar vMst2 * EVar vs2t * (- #11408 +
   #37341 * EConst CS2 - #17730 * EConst Cz2) * EPow P3 (EVar vMt) - #300 * EVar vMt * (- #503 + #3609 * EConst CS2 -
   #1494 * EConst Cz2) * EPow P3 (EVar vMst2) * EPow P3 (EVar vs2t) - #48 * (#8581 + #72450 * EConst CS2 - #137700 *
   EConst Cz2) * EPow P4 (EVar vMt) + (- #81643 + #291600 * EConst CS2 + #5850 * EConst Cz2) * EPow P4 (EVar vMst2) *
   EPow P4 (EVar vs2t)) * EPow P6 (EVar vMst1) + #132300 * EPow P2 (EVar vMst1) * (- #536 * EPow P2 (EVar vMst2) *
   EPow P2 (EVar vMt) * EPow P2 (EVar vs2t) - #512 * EVar vMst2 * EVar vs2t * EPow P3 (EVar vMt) + #128 * EVar vMt *
   EPow P3 (EVar vMst2) * EPow P3 (EVar vs2t) + #560 * EPow P4 (EVar vMt) + #131 * EPow P4 (EVar vMst2) * EPow P4
   (EVar vs2t)) * EPow P6 (EVar vMst2) + (#72 * (- #4261807 + #33912900 * EConst CS2 - #73500 * EConst Cz2) * EPow P2
   (EVar vMst2) * EPow P2 (EVar vMt) * EPow P2 (EVar vs2t) - #78400 * EVar vMst2 * EVar vs2t * (- #4724 + #115785 *
   EConst CS2 - #29484 * EConst Cz2) * EPow P3 (EVar vMt) + #4900 * EVar vMt * (#18652 + #140139 * EConst CS2 - #38826
   * EConst Cz2) * EPow P3 (EVar vMst2) * EPow P3 (EVar vs2t) + #80 * (#42300121 + #49233240 * EConst CS2 - #64139040
   * EConst Cz2) * EPow P4 (EVar vMt) + (#8287903 - #185175900 * EConst CS2 + #9525600 * EConst Cz2) * EPow P4 (EVar
   vMst2) * EPow P4 (EVar vs2t)) * EPow P8 (EVar vMst1) + #16934400 * EPow P2 (EVar vMt) * (- #2 * EPow P2 (EVar vMt)
   + EPow P2 (EVar vMst2) * EPow P2 (EVar vs2t)) * EPow P8 (EVar vMst2)))) + #1587600 * EPow P2 (ELog (EPow P2 (EVar
   vMst1) / EPow P2 (EVar vMst2))) * (#90 * EPow P2 (EVar vDmsqst2) * (- #280 * EPow P2 (EVar vMst2) * EPow P4 (EVar
   vMst1) * EPow P4 (EVar vMt) + #14 * (#14 * EPow P2 (EVar vMst2) * EPow P2 (EVar vMt) * EPow P2 (EVar vs2t) + #32 *
   EPow P4 (EVar vMt) - #3 * EPow P4 (EVar vMst2) * EPow P4 (EVar vs2t)) * EPow P6 (EVar vMst1) + #15 * (#12 * EPow P2
   (EVar vMt) * EPow P2 (EVar vs2t) - #5 * EPow P2 (EVar vMst2) * EPow P4 (EVar vs2t)) * EPow P8 (EVar vMst1)) - #90 *
   EVar vDmsqst2 * (- #7 * EVar vMst2 * (- #48 * EPow P2 (EVar vMt) * EPow P2 (EVar vs2t) * EPow P3 (EVar vMst2) +
   #320 * EVar vDmglst2 * EPow P4 (EVar vMt) - #144 * EVar vMst2 * EPow P4 (EVar vMt) + #31 * EPow P4 (EVar vs2t) *
   EPow P5 (EVar vMst2)) * EPow P6 (EVar vMst1) + #2 * (#74 * EPow P2 (EVar vMst2) * EPow P2 (EVar vMt) * EPow P2
   (EVar vs2t) + #1120 * (#3 * EVar vDmglst2 - EVar vMst2) * EVar vs2t * EPow P3 (EVar vMt) + #2736 * EPow P4 (EVar
   vMt) - #53 * EPow P4 (EVar vMst2) * EPow P4 (EVar vs2t)) * EPow P8 (EVar vMst1) + #140 * EPow P4 (EVar vMst1) * (-
   #4 * EPow P4 (EVar vMst2) * EPow P4 (EVar vMt) + EPow P4 (EVar vs2t) * EPow P8 (EVar vMst2))) + EVar vMst2 * (#70 *
   EPow P4 (EVar vMst1) * (#3192 * EPow P2 (EVar vMst2) * EPow P2 (EVar vMt) * EPow P2 (EVar vs2t) - #14880 * EVar
   vMst2 * EVar vs2t * EPow P3 (EVar vMt) + #5664 * EVar vMt * EPow P3 (EVar vMst2) * EPow P3 (EVar vs2t) + #7744 *
   EPow P4 (EVar vMt) + #1113 * EPow P4 (EVar vMst2) * EPow P4 (EVar vs2t)) * EPow P5 (EVar vMst2) + #560 * EPow P3
   (EVar vMst2) * (#479 * EPow P2 (EVar vMst2) * EPow P2 (EVar vMt) * EPow P2 (EVar vs2t) - #2448 * EVar vMst2 * EVar
   vs2t * EPow P3 (EVar vMt) + #366 * EVar vMt * EPow P3 (EVar vMst2) * EPow P3 (EVar vs2t) + #1136 * EPow P4 (EVar
   vMt) + #23 * EPow P4 (EVar vMst2) * EPow P4 (EVar vs2t)) * EPow P6 (EVar vMst1) - #7 * EVar vMst2 * EPow P2 (EVar
   vDmglst2) * (- #15 * EPow P2 (EVar vMst1) * EPow P4 (EVar vMst2) * (- #1240 * EPow P2 (EVar vMst2) * EPow P2 (EVar
   vMt) * EPow P2 (EVar vs2t) - #3072 * EVar vMst2 * EVar vs2t * EPow P3 (EVar vMt) + #768 * EVar vMt * EPow P3 (EVar
   vMst2) * EPow P3 (EVar vs2t) + #944 * EPow P4 (EVar vMt) + #443 * EPow P4 (EVar vMst2) * EPow P4 (EVar vs2t)) + #2
   * EPow P2 (EVar vMst2) * EPow P4 (EVar vMst1) * (#7740 * EPow P2 (EVar vMst2) * EPow P2 (EVar vMt) * EPow P2 (EVar
   vs2t) - #61760 * EVar vMst2 * EVar vs2t * EPow P3 (EVar vMt) + #18480 * EVar vMt * EPow P3 (EVar vMst2) * EPow P3
   (EVar vs2t) - #66208 * EPow P4 (EVar vMt) + #4455 * EPow P4 (EVar vMst2) * EPow P4 (EVar vs2t)) + (#133776 * EPow
   P2 (EVar vMst2) * EPow P2 (EVar vMt) * EPow P2 (EVar vs2t) + #398240 * EVar vMst2 * EVar vs2t * EPow P3 (EVar vMt)
   + #24960 * EVar vMt * EPow P3 (EVar vMst2) * EPow P3 (EVar vs2t) - #1267120 * EPow P4 (EVar vMt) + #4293 * EPow P4
   (EVar vMst2) * EPow P4 (EVar vs2t)) * EPow P6 (EVar vMst1) + #1440 * EPow P2 (- #4 * EPow P2 (EVar vMt) + EPow P2
   (EVar vMst2) * EPow P2 (EVar vs2t)) * EPow P6 (EVar vMst2)) + #105 * EPow P2 (EVar vMst1) * (- #600 * EPow P2 (EVar
   vMst2) * EPow P2 (EVar vMt) * EPow P2 (EVar vs2t) - #1024 * EVar vMst2 * EVar vs2t * EPow P3 (EVar vMt) + #256 *
   EVar vMt * EPow P3 (EVar vMst2) * EPow P3 (EVar vs2t) + #944 * EPow P4 (EVar vMt) + #123 * EPow P4 (EVar vMst2) *
   EPow P4 (EVar vs2t)) * EPow P7 (EVar vMst2) + #4 * EVar vMst2 * (#73657 * EPow P2 (EVar vMst2) * EPow P2 (EVar vMt)
   * EPow P2 (EVar vs2t) - #316400 * EVar vMst2 * EVar vs2t * EPow P3 (EVar vMt) + #35000 * EVar vMt * EPow P3 (EVar
   vMst2) * EPow P3 (EVar vs2t) + #68678 * EPow P4 (EVar vMt) + #11764 * EPow P4 (EVar vMst2) * EPow P4 (EVar vs2t)) *
   EPow P8 (EVar vMst1) - #2 * EVar vDmglst2 * (- #140 * EPow P4 (EVar vMst1) * EPow P4 (EVar vMst2) * (#1806 * EPow
   P2 (EVar vMst2) * EPow P2 (EVar vMt) * EPow P2 (EVar vs2t) + #1592 * EVar vMst2 * EVar vs2t * EPow P3 (EVar vMt) +
   #1104 * EVar vMt * EPow P3 (EVar vMst2) * EPow P3 (EVar vs2t) - #3808 * EPow P4 (EVar vMt) + #213 * EPow P4 (EVar
   vMst2) * EPow P4 (EVar vs2t)) + #7 * EPow P2 (EVar vMst2) * (- #12992 * EPow P2 (EVar vMst2) * EPow P2 (EVar vMt) *
   EPow P2 (EVar vs2t) - #175520 * EVar vMst2 * EVar vs2t * EPow P3 (EVar vMt) + #3600 * EVar vMt * EPow P3 (EVar
   vMst2) * EPow P3 (EVar vs2t) + #285744 * EPow P4 (EVar vMt) + #4969 * EPow P4 (EVar vMst2) * EPow P4 (EVar vs2t)) *
   EPow P6 (EVar vMst1) - #105 * EPow P2 (EVar vMst1) * (- #728 * EPow P2 (EVar vMst2) * EPow P2 (EVar vMt) * EPow P2
   (EVar vs2t) - #1536 * EVar vMst2 * EVar vs2t * EPow P3 (EVar vMt) + #384 * EVar vMt * EPow P3 (EVar vMst2) * EPow
   P3 (EVar vs2t) + #944 * EPow P4 (EVar vMt) + #187 * EPow P4 (EVar vMst2) * EPow P4 (EVar vs2t)) * EPow P6 (EVar
   vMst2) + (- #420096 * EPow P2 (EVar vMst2) * EPow P2 (EVar vMt) * EPow P2 (EVar vs2t) - #1672160 * EVar vMst2 *
   EVar vs2t * EPow P3 (EVar vMt) + #68880 * EVar vMt * EPow P3 (EVar vMst2) * EPow P3 (EVar vs2t) + #3253120 * EPow
   P4 (EVar vMt) + #1377 * EPow P4 (EVar vMst2) * EPow P4 (EVar vs2t)) * EPow P8 (EVar vMst1) - #26880 * EPow P2 (EVar
   vMt) * (- #2 * EPow P2 (EVar vMt) + EPow P2 (EVar vMst2) * EPow P2 (EVar vs2t)) * EPow P8 (EVar vMst2)) + #13440 *
   EPow P2 (EVar vMt) * (- #2 * EPow P2 (EVar vMt) + EPow P2 (EVar vMst2) * EPow P2 (EVar vs2t)) * EPow P9 (EVar
   vMst2)))) / (#500094000 * EPow P4 (EVar vMst1) * EPow P4 (EVar vMt) * EPow P6 (EVar vMst2)).

(** H6b.cpp:3531-3634 *)
Definition H6b_coef1 : expr :=
  (#6000 * EPow P2 (EVar vDmsqst2) * (#72 * (#2 * EVar vMst2 * EVar vs2t * (#3 - #2 * EConst Cz2) + EVar vMt * (- #7 +
   #5 * EConst Cz2)) * EPow P2 (EVar vMst1) + (#36 * EVar vMst2 * EVar vs2t * (#7 - #4 * EConst Cz2) + EVar vMt * (-
   #161 + #108 * EConst Cz2)) * EPow P2 (EVar vMst2)) * EPow P3 (EVar vMt) * EPow P4 (EVar vMst1) + #3000 * EVar
   vDmsqst2 * EPow P2 (EVar vMst1) * (#9 * EVar vMst2 * EPow P4 (EVar vMst1) * (- #32 * EVar vDmglst2 * (#2 * EVar
   vMst2 * EVar vs2t * (#12 - #7 * EConst Cz2) + #3 * EVar vMt * (- #11 + #6 * EConst Cz2)) * EPow P3 (EVar vMt) +
   EVar vMst2 * (#8 * EPow P2 (EVar vMst2) * EPow P2 (EVar vMt) * EPow P2 (EVar vs2t) - #64 * EVar vMst2 * EVar vs2t *
   (- #2 + EConst Cz2) * EPow P3 (EVar vMt) + #16 * (- #9 + #4 * EConst Cz2) * EPow P4 (EVar vMt) + EPow P4 (EVar
   vMst2) * EPow P4 (EVar vs2t))) + EPow P2 (EVar vMst1) * EPow P3 (EVar vMst2) * (- #8 * EVar vDmglst2 * (#12 * EVar
   vMst2 * EVar vs2t * (#29 - #18 * EConst Cz2) + EVar vMt * (- #283 + #180 * EConst Cz2)) * EPow P3 (EVar vMt) + #3 *
   EVar vMst2 * (- #48 * EPow P2 (EVar vMst2) * EPow P2 (EVar vMt) * EPow P2 (EVar vs2t) - #96 * EVar vMst2 * EVar
   vs2t * (- #3 + #2 * EConst Cz2) * EPow P3 (EVar vMt) + #32 * (- #8 + #3 * EConst Cz2) * EPow P4 (EVar vMt) + #3 *
   EPow P4 (EVar vMst2) * EPow P4 (EVar vs2t))) + #9 * (#16 * EVar vs2t * (- #83 * EVar vDmglst2 + #9 * EVar vMst2 +
   #44 * EVar vDmglst2 * EConst Cz2 - #4 * EVar vMst2 * EConst Cz2) * EPow P3 (EVar vMt) + #8 * (- #31 + #12 * EConst
   Cz2) * EPow P4 (EVar vMt) - EPow P4 (EVar vMst2) * EPow P4 (EVar vs2t)) * EPow P6 (EVar vMst1) - #9 * EPow P2 (- #4
   * EPow P2 (EVar vMt) + EPow P2 (EVar vMst2) * EPow P2 (EVar vs2t)) * EPow P6 (EVar vMst2)) + #450 * EVar vMst2 *
   EPow P2 (ELog (EPow P2 (EVar vMst1) / EPow P2 (EVar vMst2))) * EPow P4 (EVar vMst1) * (#8 * EPow P2 (EVar vMst1) *
   EPow P3 (EVar vMst2) * (#425 * EPow P2 (EVar vMst2) * EPow P2 (EVar vMt) * EPow P2 (EVar vs2t) - #704 * EVar vMst2
   * EVar vs2t * EPow P3 (EVar vMt) + #212 * EVar vMt * EPow P3 (EVar vMst2) * EPow P3 (EVar vs2t) - #76 * EPow P4
   (EVar vMt) + #3 * EPow P4 (EVar vMst2) * EPow P4 (EVar vs2t)) + EVar vMst2 * EPow P4 (EVar vMst1) * (#2688 * EPow
   P2 (EVar vMst2) * EPow P2 (EVar vMt) * EPow P2 (EVar vs2t) - #5056 * EVar vMst2 * EVar vs2t * EPow P3 (EVar vMt) +
   #1024 * EVar vMt * EPow P3 (EVar vMst2) * EPow P3 (EVar vs2t) - #2848 * EPow P4 (EVar vMt) + #41 * EPow P4 (EVar
   vMst2) * EPow P4 (EVar vs2t)) - #8 * EVar vDmglst2 * (#8 * EVar vMt * (- #157 * EVar vMst2 * EVar vs2t * EPow P2
   (EVar vMt) - #108 * EVar vMt * EPow P2 (EVar vMst2) * EPow P2 (EVar vs2t) + #398 * EPow P3 (EVar vMt) - #16 * EPow
   P3 (EVar vMst2) * EPow P3 (EVar vs2t)) * EPow P4 (EVar vMst1) + EPow P4 (EVar vMst2) * (- #320 * EPow P2 (EVar
   vMst2) * EPow P2 (EVar vMt) * EPow P2 (EVar vs2t) + #848 * EVar vMst2 * EVar vs2t * EPow P3 (EVar vMt) - #532 *
   EVar vMt * EPow P3 (EVar vMst2) * EPow P3 (EVar vs2t) + #512 * EPow P4 (EVar vMt) - #99 * EPow P4 (EVar vMst2) *
   EPow P4 (EVar vs2t)) + EPow P2 (EVar vMst1) * EPow P2 (EVar vMst2) * (- #768 * EPow P2 (EVar vMst2) * EPow P2 (EVar
   vMt) * EPow P2 (EVar vs2t) - #448 * EVar vMst2 * EVar vs2t * EPow P3 (EVar vMt) - #212 * EVar vMt * EPow P3 (EVar
   vMst2) * EPow P3 (EVar vs2t) + #1896 * EPow P4 (EVar vMt) + #35 * EPow P4 (EVar vMst2) * EPow P4 (EVar vs2t))) +
   (#296 * EPow P2 (EVar vMst2) * EPow P2 (EVar vMt) * EPow P2 (EVar vs2t) - #6784 * EVar vMst2 * EVar vs2t * EPow P3
   (EVar vMt) + #2208 * EVar vMt * EPow P3 (EVar vMst2) * EPow P3 (EVar vs2t) - #672 * EPow P4 (EVar vMt) + #519 *
   EPow P4 (EVar vMst2) * EPow P4 (EVar vs2t)) * EPow P5 (EVar vMst2) + #4 * EVar vMst2 * EPow P2 (EVar vDmglst2) *
   (#320 * EPow P2 (EVar vMt) * EPow P2 (EVar vs2t) * EPow P4 (EVar vMst2) - #512 * EPow P2 (EVar vMst2) * EPow P4
   (EVar vMt) + EPow P2 (EVar vMst1) * (#768 * EPow P2 (EVar vMst2) * EPow P2 (EVar vMt) * EPow P2 (EVar vs2t) - #1152
   * EVar vMst2 * EVar vs2t * EPow P3 (EVar vMt) + #3640 * EPow P4 (EVar vMt) - #35 * EPow P4 (EVar vMst2) * EPow P4
   (EVar vs2t)) + #768 * EVar vMt * EPow P3 (EVar vs2t) * EPow P5 (EVar vMst2) + #99 * EPow P4 (EVar vs2t) * EPow P6
   (EVar vMst2))) + EVar vMst2 * (#4 * EVar vMst2 * EPow P2 (EVar vDmglst2) * (- #225 * EPow P2 (EVar vMst1) * EPow P4
   (EVar vMst2) * (- #664 * EPow P2 (EVar vMst2) * EPow P2 (EVar vMt) * EPow P2 (EVar vs2t) - #2048 * EVar vMst2 *
   EVar vs2t * EPow P3 (EVar vMt) + #512 * EVar vMt * EPow P3 (EVar vMst2) * EPow P3 (EVar vs2t) + #1840 * EPow P4
   (EVar vMt) + #83 * EPow P4 (EVar vMst2) * EPow P4 (EVar vs2t)) + #2 * EPow P2 (EVar vMst2) * EPow P4 (EVar vMst1) *
   (- #150 * (- #7121 + #6336 * EConst Cz2) * EPow P2 (EVar vMst2) * EPow P2 (EVar vMt) * EPow P2 (EVar vs2t) - #400 *
   EVar vMst2 * EVar vs2t * (- #1934 + #1791 * EConst Cz2) * EPow P3 (EVar vMt) - #300 * EVar vMt * (- #875 + #648 *
   EConst Cz2) * EPow P3 (EVar vMst2) * EPow P3 (EVar vs2t) + #8 * (#71687 + #76050 * EConst Cz2) * EPow P4 (EVar vMt)
   + #75 * (- #205 + #129 * EConst Cz2) * EPow P4 (EVar vMst2) * EPow P4 (EVar vs2t)) + #25 * (#12 * (#7903 - #5760 *
   EConst Cz2) * EPow P2 (EVar vMst2) * EPow P2 (EVar vMt) * EPow P2 (EVar vs2t) - #96 * EVar vMst2 * EVar vs2t * (-
   #1055 + #2181 * EConst Cz2) * EPow P3 (EVar vMt) + #13992 * EVar vMt * EPow P3 (EVar vMst2) * EPow P3 (EVar vs2t) +
   #80 * (- #605 + #4608 * EConst Cz2) * EPow P4 (EVar vMt) + #3 * (#409 - #258 * EConst Cz2) * EPow P4 (EVar vMst2) *
   EPow P4 (EVar vs2t)) * EPow P6 (EVar vMst1) + #3600 * EPow P2 (- #4 * EPow P2 (EVar vMt) + EPow P2 (EVar vMst2) *
   EPow P2 (EVar vs2t)) * EPow P6 (EVar vMst2)) - #100 * EVar vDmglst2 * (#2 * EPow P4 (EVar vMst1) * EPow P4 (EVar
   vMst2) * (#12 * (- #3565 + #1728 * EConst Cz2) * EPow P2 (EVar vMst2) * EPow P2 (EVar vMt) * EPow P2 (EVar vs2t) +
   #8 * EVar vMst2 * EVar vs2t * (- #3659 + #252 * EConst Cz2) * EPow P3 (EVar vMt) + #72 * EVar vMt * (- #192 + #91 *
   EConst Cz2) * EPow P3 (EVar vMst2) * EPow P3 (EVar vs2t) + #44 * (#427 + #432 * EConst Cz2) * EPow P4 (EVar vMt) +
   #9 * (#211 - #86 * EConst Cz2) * EPow P4 (EVar vMst2) * EPow P4 (EVar vs2t)) + #6 * EPow P2 (EVar vMst2) * (#4 * (-
   #1955 + #1152 * EConst Cz2) * EPow P2 (EVar vMst2) * EPow P2 (EVar vMt) * EPow P2 (EVar vs2t) - #48 * EVar vMst2 *
   EVar vs2t * (- #13 + #262 * EConst Cz2) * EPow P3 (EVar vMt) + #24 * EVar vMt * (#111 - #17 * EConst Cz2) * EPow P3
   (EVar vMst2) * EPow P3 (EVar vs2t) + #8 * (- #1471 + #3240 * EConst Cz2) * EPow P4 (EVar vMt) + #3 * (- #1 + #86 *
   EConst Cz2) * EPow P4 (EVar vMst2) * EPow P4 (EVar vs2t)) * EPow P6 (EVar vMst1) - #18 * EPow P2 (EVar vMst1) * (-
   #536 * EPow P2 (EVar vMst2) * EPow P2 (EVar vMt) * EPow P2 (EVar vs2t) - #512 * EVar vMst2 * EVar vs2t * EPow P3
   (EVar vMt) + #128 * EVar vMt * EPow P3 (EVar vMst2) * EPow P3 (EVar vs2t) + #560 * EPow P4 (EVar vMt) + #131 * EPow
   P4 (EVar vMst2) * EPow P4 (EVar vs2t)) * EPow P6 (EVar vMst2) + #3 * (#192 * (- #77 + #48 * EConst Cz2) * EPow P2
   (EVar vMst2) * EPow P2 (EVar vMt) * EPow P2 (EVar vs2t) - #48 * EVar vMst2 * EVar vs2t * (- #867 + #1012 * EConst
   Cz2) * EPow P3 (EVar vMt) - #276 * EVar vMt * EPow P3 (EVar vMst2) * EPow P3 (EVar vs2t) + #16 * (- #6445 + #6768 *
   EConst Cz2) * EPow P4 (EVar vMt) - #441 * EPow P4 (EVar vMst2) * EPow P4 (EVar vs2t)) * EPow P8 (EVar vMst1) -
   #2304 * EPow P2 (EVar vMt) * (- #2 * EPow P2 (EVar vMt) + EPow P2 (EVar vMst2) * EPow P2 (EVar vs2t)) * EPow P8
   (EVar vMst2)) + #25 * EVar vMst2 * (#4 * EPow P4 (EVar vMst1) * EPow P4 (EVar vMst2) * (- #72 * (- #445 + #96 *
   EConst Cz2) * EPow P2 (EVar vMst2) * EPow P2 (EVar vMt) * EPow P2 (EVar vs2t) - #144 * EVar vMst2 * EVar vs2t * (-
   #121 + #296 * EConst Cz2) * EPow P3 (EVar vMt) - #144 * EVar vMt * (- #151 + #19 * EConst Cz2) * EPow P3 (EVar
   vMst2) * EPow P3 (EVar vs2t) + #8 * (- #1993 + #2151 * EConst Cz2 + #216 * EConst Cz3) * EPow P4 (EVar vMt) + #81 *
   (#8 + #5 * EConst Cz2) * EPow P4 (EVar vMst2) * EPow P4 (EVar vs2t)) - #36 * EPow P2 (EVar vMst2) * (- #696 * EPow
   P2 (EVar vMst2) * EPow P2 (EVar vMt) * EPow P2 (EVar vs2t) + #32 * EVar vMst2 * EVar vs2t * (- #179 + #128 * EConst
   Cz2) * EPow P3 (EVar vMt) + #16 * EVar vMt * (#148 - #17 * EConst Cz2) * EPow P3 (EVar vMst2) * EPow P3 (EVar vs2t)
   - #8 * (- #403 + #300 * EConst Cz2) * EPow P4 (EVar vMt) + (#551 + #86 * EConst Cz2) * EPow P4 (EVar vMst2) * EPow
   P4 (EVar vs2t)) * EPow P6 (EVar vMst1) + #36 * EPow P2 (EVar vMst1) * (- #744 * EPow P2 (EVar vMst2) * EPow P2
   (EVar vMt) * EPow P2 (EVar vs2t) - #1024 * EVar vMst2 * EVar vs2t * EPow P3 (EVar vMt) + #256 * EVar vMt * EPow P3
   (EVar vMst2) * EPow P3 (EVar vs2t) + #1232 * EPow P4 (EVar vMt) + #141 * EPow P4 (EVar vMst2) * EPow P4 (EVar
   vs2t)) * EPow P6 (EVar vMst2) + #9 * (#864 * EPow P2 (EVar vMst2) * EPow P2 (EVar vMt) * EPow P2 (EVar vs2t) - #512
   * EVar vMst2 * EVar vs2t * (- #49 + #31 * EConst Cz2) * EPow P3 (EVar vMt) - #784 * EVar vMt * EPow P3 (EVar vMst2)
   * EPow P3 (EVar vs2t) + #8 * (- #2503 + #1408 * EConst Cz2) * EPow P4 (EVar vMt) + (#1547 + #164 * EConst Cz2) *
   EPow P4 (EVar vMst2) * EPow P4 (EVar vs2t)) * EPow P8 (EVar vMst1) + #4608 * EPow P2 (EVar vMt) * (- #2 * EPow P2
   (EVar vMt) + EPow P2 (EVar vMst2) * EPow P2 (EVar vs2t)) * EPow P8 (EVar vMst2))) + #30 * ELog (EPow P2 (EVar
   vMst1) / EPow P2 (EVar vMst2)) * (#7200 * EPow P2 (EVar vDmsqst2) * (EPow P2 (EVar vMst1) - EPow P2 (EVar vMst2)) *
   EPow P4 (EVar vMst1) * EPow P4 (EVar vMt) - #1800 * EVar vDmsqst2 * EPow P4 (EVar vMst1) * (#8 * (#5 * EVar vMt +
   #6 * EVar vDmglst2 * EVar vs2t - #2 * EVar vMst2 * EVar vs2t) * EPow P3 (EVar vMt) * EPow P4 (EVar vMst1) - #8 *
   EPow P4 (EVar vMst2) * EPow P4 (EVar vMt) - EVar vMst2 * EPow P2 (EVar vMst1) * (#16 * EVar vDmglst2 * EPow P4
   (EVar vMt) - #8 * EVar vMst2 * EPow P4 (EVar vMt) + EPow P4 (EVar vs2t) * EPow P5 (EVar vMst2)) + EPow P4 (EVar
   vs2t) * EPow P8 (EVar vMst2)) + EVar vMst2 * (#2 * EVar vMst2 * EPow P2 (EVar vDmglst2) * (#2 * EPow P2 (EVar
   vMst2) * EPow P4 (EVar vMst1) * (#3240 * EPow P2 (EVar vMst2) * EPow P2 (EVar vMt) * EPow P2 (EVar vs2t) + #45920 *
   EVar vMst2 * EVar vs2t * EPow P3 (EVar vMt) - #9720 * EVar vMt * EPow P3 (EVar vMst2) * EPow P3 (EVar vs2t) +
   #37408 * EPow P4 (EVar vMt) - #4635 * EPow P4 (EVar vMst2) * EPow P4 (EVar vs2t)) + #45 * EPow P2 (EVar vMst1) *
   EPow P4 (EVar vMst2) * (- #456 * EPow P2 (EVar vMst2) * EPow P2 (EVar vMt) * EPow P2 (EVar vs2t) - #1024 * EVar
   vMst2 * EVar vs2t * EPow P3 (EVar vMt) + #256 * EVar vMt * EPow P3 (EVar vMst2) * EPow P3 (EVar vs2t) + #400 * EPow
   P4 (EVar vMt) + #153 * EPow P4 (EVar vMst2) * EPow P4 (EVar vs2t)) + #2 * (- #34080 * EPow P2 (EVar vMst2) * EPow
   P2 (EVar vMt) * EPow P2 (EVar vs2t) - #147560 * EVar vMst2 * EVar vs2t * EPow P3 (EVar vMt) - #5880 * EVar vMt *
   EPow P3 (EVar vMst2) * EPow P3 (EVar vs2t) + #415932 * EPow P4 (EVar vMt) + #1005 * EPow P4 (EVar vMst2) * EPow P4
   (EVar vs2t)) * EPow P6 (EVar vMst1) - #1440 * EPow P2 (- #4 * EPow P2 (EVar vMt) + EPow P2 (EVar vMst2) * EPow P2
   (EVar vs2t)) * EPow P6 (EVar vMst2)) - #20 * EVar vDmglst2 * (- #4 * EPow P4 (EVar vMst1) * EPow P4 (EVar vMst2) *
   (#1860 * EPow P2 (EVar vMst2) * EPow P2 (EVar vMt) * EPow P2 (EVar vs2t) + #1472 * EVar vMst2 * EVar vs2t * EPow P3
   (EVar vMt) + #774 * EVar vMt * EPow P3 (EVar vMst2) * EPow P3 (EVar vs2t) - #2464 * EPow P4 (EVar vMt) + #15 * EPow
   P4 (EVar vMst2) * EPow P4 (EVar vs2t)) + #2 * EPow P2 (EVar vMst2) * (- #432 * EPow P2 (EVar vMst2) * EPow P2 (EVar
   vMt) * EPow P2 (EVar vs2t) - #11656 * EVar vMst2 * EVar vs2t * EPow P3 (EVar vMt) + #996 * EVar vMt * EPow P3 (EVar
   vMst2) * EPow P3 (EVar vs2t) + #18748 * EPow P4 (EVar vMt) + #207 * EPow P4 (EVar vMst2) * EPow P4 (EVar vs2t)) *
   EPow P6 (EVar vMst1) - #3 * EPow P2 (EVar vMst1) * (- #856 * EPow P2 (EVar vMst2) * EPow P2 (EVar vMt) * EPow P2
   (EVar vs2t) - #1536 * EVar vMst2 * EVar vs2t * EPow P3 (EVar vMt) + #384 * EVar vMt * EPow P3 (EVar vMst2) * EPow
   P3 (EVar vs2t) + #1200 * EPow P4 (EVar vMt) + #203 * EPow P4 (EVar vMst2) * EPow P4 (EVar vs2t)) * EPow P6 (EVar
   vMst2) + #4 * (- #738 * EPow P2 (EVar vMst2) * EPow P2 (EVar vMt) * EPow P2 (EVar vs2t) - #10004 * EVar vMst2 *
   EVar vs2t * EPow P3 (EVar vMt) + #135 * EVar vMt * EPow P3 (EVar vMst2) * EPow P3 (EVar vs2t) + #17532 * EPow P4
   (EVar vMt) + #12 * EPow P4 (EVar vMst2) * EPow P4 (EVar vs2t)) * EPow P8 (EVar vMst1) - #768 * EPow P2 (EVar vMt) *
   (- #2 * EPow P2 (EVar vMt) + EPow P2 (EVar vMst2) * EPow P2 (EVar vs2t)) * EPow P8 (EVar vMst2)) + #5 * EVar vMst2
   * (#4 * EPow P4 (EVar vMst1) * EPow P4 (EVar vMst2) * (#3372 * EPow P2 (EVar vMst2) * EPow P2 (EVar vMt) * EPow P2
   (EVar vs2t) - #9024 * EVar vMst2 * EVar vs2t * EPow P3 (EVar vMt) + #3912 * EVar vMt * EPow P3 (EVar vMst2) * EPow
   P3 (EVar vs2t) + #6112 * EPow P4 (EVar vMt) + #579 * EPow P4 (EVar vMst2) * EPow P4 (EVar vs2t)) - #24 * EPow P2
   (EVar vMst2) * (- #534 * EPow P2 (EVar vMst2) * EPow P2 (EVar vMt) * EPow P2 (EVar vs2t) + #1824 * EVar vMst2 *
   EVar vs2t * EPow P3 (EVar vMt) - #60 * EVar vMt * EPow P3 (EVar vMst2) * EPow P3 (EVar vs2t) - #934 * EPow P4 (EVar
   vMt) + #97 * EPow P4 (EVar vMst2) * EPow P4 (EVar vs2t)) * EPow P6 (EVar vMst1) + #6 * EPow P2 (EVar vMst1) * (-
   #728 * EPow P2 (EVar vMst2) * EPow P2 (EVar vMt) * EPow P2 (EVar vs2t) - #1024 * EVar vMst2 * EVar vs2t * EPow P3
   (EVar vMt) + #256 * EVar vMt * EPow P3 (EVar vMst2) * EPow P3 (EVar vs2t) + #1200 * EPow P4 (EVar vMt) + #139 *
   EPow P4 (EVar vMst2) * EPow P4 (EVar vs2t)) * EPow P6 (EVar vMst2) + #3 * (#4640 * EPow P2 (EVar vMst2) * EPow P2
   (EVar vMt) * EPow P2 (EVar vs2t) - #15296 * EVar vMst2 * EVar vs2t * EPow P3 (EVar vMt) + #240 * EVar vMt * EPow P3
   (EVar vMst2) * EPow P3 (EVar vs2t) + #7128 * EPow P4 (EVar vMt) - #279 * EPow P4 (EVar vMst2) * EPow P4 (EVar
   vs2t)) * EPow P8 (EVar vMst1) + #768 * EPow P2 (EVar vMt) * (- #2 * EPow P2 (EVar vMt) + EPow P2 (EVar vMst2) *
   EPow P2 (EVar vs2t)) * EPow P8 (EVar vMst2))))) / (#1350 * EPow P4 (EVar vMst1) * EPow P4 (EVar vMt) * EPow P6
   (EVar vMst2)).

(** H6b.cpp:3639-3688 *)
Definition H6b_coef2 : expr :=
  (EVar vMst2 * EPow P2 (EVar vDmglst2) * (EPow P2 (EVar vMst2) * EPow P4 (EVar vMst1) * (#33360 * EPow P2 (EVar vMst2)
   * EPow P2 (EVar vMt) * EPow P2 (EVar vs2t) + #52480 * EVar vMst2 * EVar vs2t * EPow P3 (EVar vMt) + #18896 * EPow
   P4 (EVar vMt) - #10005 * EPow P4 (EVar vMst2) * EPow P4 (EVar vs2t)) + #15 * EPow P2 (EVar vMst1) * EPow P4 (EVar
   vMst2) * (- #1496 * EPow P2 (EVar vMst2) * EPow P2 (EVar vMt) * EPow P2 (EVar vs2t) - #3072 * EVar vMst2 * EVar
   vs2t * EPow P3 (EVar vMt) + #768 * EVar vMt * EPow P3 (EVar vMst2) * EPow P3 (EVar vs2t) + #1456 * EPow P4 (EVar
   vMt) + #475 * EPow P4 (EVar vMst2) * EPow P4 (EVar vs2t)) + #5 * (#120 * EPow P2 (EVar vMst2) * EPow P2 (EVar vMt)
   * EPow P2 (EVar vs2t) - #22656 * EVar vMst2 * EVar vs2t * EPow P3 (EVar vMt) - #2304 * EVar vMt * EPow P3 (EVar
   vMst2) * EPow P3 (EVar vs2t) + #52384 * EPow P4 (EVar vMt) + #879 * EPow P4 (EVar vMst2) * EPow P4 (EVar vs2t)) *
   EPow P6 (EVar vMst1) - #1440 * EPow P2 (- #4 * EPow P2 (EVar vMt) + EPow P2 (EVar vMst2) * EPow P2 (EVar vs2t)) *
   EPow P6 (EVar vMst2)) + #30 * ELog (EPow P2 (EVar vMst1) / EPow P2 (EVar vMst2)) * EPow P4 (EVar vMst1) * (EPow P2
   (EVar vMst1) * EPow P3 (EVar vMst2) * (#1096 * EPow P2 (EVar vMst2) * EPow P2 (EVar vMt) * EPow P2 (EVar vs2t) -
   #1280 * EVar vMst2 * EVar vs2t * EPow P3 (EVar vMt) + #328 * EVar vMt * EPow P3 (EVar vMst2) * EPow P3 (EVar vs2t)
   - #32 * EPow P4 (EVar vMt) - #91 * EPow P4 (EVar vMst2) * EPow P4 (EVar vs2t)) - EVar vMst2 * EPow P4 (EVar vMst1)
   * (- #768 * EPow P2 (EVar vMst2) * EPow P2 (EVar vMt) * EPow P2 (EVar vs2t) + #1216 * EVar vMst2 * EVar vs2t * EPow
   P3 (EVar vMt) + #400 * EPow P4 (EVar vMt) + #41 * EPow P4 (EVar vMst2) * EPow P4 (EVar vs2t)) - #2 * EVar vDmglst2
   * (#32 * EPow P2 (EVar vMt) * (- #57 * EVar vMst2 * EVar vMt * EVar vs2t + #119 * EPow P2 (EVar vMt) - #24 * EPow
   P2 (EVar vMst2) * EPow P2 (EVar vs2t)) * EPow P4 (EVar vMst1) + EPow P4 (EVar vMst2) * (- #384 * EPow P2 (EVar
   vMst2) * EPow P2 (EVar vMt) * EPow P2 (EVar vs2t) + #912 * EVar vMst2 * EVar vs2t * EPow P3 (EVar vMt) - #548 *
   EVar vMt * EPow P3 (EVar vMst2) * EPow P3 (EVar vs2t) + #512 * EPow P4 (EVar vMt) - #91 * EPow P4 (EVar vMst2) *
   EPow P4 (EVar vs2t)) + EPow P2 (EVar vMst1) * EPow P2 (EVar vMst2) * (- #768 * EPow P2 (EVar vMst2) * EPow P2 (EVar
   vMt) * EPow P2 (EVar vs2t) - #640 * EVar vMst2 * EVar vs2t * EPow P3 (EVar vMt) - #164 * EVar vMt * EPow P3 (EVar
   vMst2) * EPow P3 (EVar vs2t) + #2016 * EPow P4 (EVar vMt) + #91 * EPow P4 (EVar vMst2) * EPow P4 (EVar vs2t))) + #4
   * (#14 * EPow P2 (EVar vMst2) * EPow P2 (EVar vMt) * EPow P2 (EVar vs2t) - #456 * EVar vMst2 * EVar vs2t * EPow P3
   (EVar vMt) + #146 * EVar vMt * EPow P3 (EVar vMst2) * EPow P3 (EVar vs2t) - #166 * EPow P4 (EVar vMt) + #33 * EPow
   P4 (EVar vMst2) * EPow P4 (EVar vs2t)) * EPow P5 (EVar vMst2) + EPow P2 (EVar vDmglst2) * (- #512 * EPow P3 (EVar
   vMst2) * EPow P4 (EVar vMt) + EVar vMst2 * EPow P2 (EVar vMst1) * (#768 * EPow P2 (EVar vMst2) * EPow P2 (EVar vMt)
   * EPow P2 (EVar vs2t) - #1280 * EVar vMst2 * EVar vs2t * EPow P3 (EVar vMt) + #4000 * EPow P4 (EVar vMt) - #91 *
   EPow P4 (EVar vMst2) * EPow P4 (EVar vs2t)) + #384 * EPow P2 (EVar vMt) * EPow P2 (EVar vs2t) * EPow P5 (EVar
   vMst2) + #768 * EVar vMt * EPow P3 (EVar vs2t) * EPow P6 (EVar vMst2) + #91 * EPow P4 (EVar vs2t) * EPow P7 (EVar
   vMst2))) - #10 * EVar vDmglst2 * (EPow P4 (EVar vMst1) * EPow P4 (EVar vMst2) * (- #8208 * EPow P2 (EVar vMst2) *
   EPow P2 (EVar vMt) * EPow P2 (EVar vs2t) - #4640 * EVar vMst2 * EVar vs2t * EPow P3 (EVar vMt) - #1968 * EVar vMt *
   EPow P3 (EVar vMst2) * EPow P3 (EVar vs2t) + #4816 * EPow P4 (EVar vMt) + #849 * EPow P4 (EVar vMst2) * EPow P4
   (EVar vs2t)) - #3 * EPow P2 (EVar vMst2) * (- #472 * EPow P2 (EVar vMst2) * EPow P2 (EVar vMt) * EPow P2 (EVar
   vs2t) + #2496 * EVar vMst2 * EVar vs2t * EPow P3 (EVar vMt) - #1040 * EVar vMt * EPow P3 (EVar vMst2) * EPow P3
   (EVar vs2t) - #3360 * EPow P4 (EVar vMt) + #37 * EPow P4 (EVar vMst2) * EPow P4 (EVar vs2t)) * EPow P6 (EVar vMst1)
   - #3 * EPow P2 (EVar vMst1) * (- #984 * EPow P2 (EVar vMst2) * EPow P2 (EVar vMt) * EPow P2 (EVar vs2t) - #1536 *
   EVar vMst2 * EVar vs2t * EPow P3 (EVar vMt) + #384 * EVar vMt * EPow P3 (EVar vMst2) * EPow P3 (EVar vs2t) + #1456
   * EPow P4 (EVar vMt) + #219 * EPow P4 (EVar vMst2) * EPow P4 (EVar vs2t)) * EPow P6 (EVar vMst2) + #3 * (- #2240 *
   EVar vMst2 * EVar vs2t * EPow P3 (EVar vMt) + #3744 * EPow P4 (EVar vMt) - #59 * EPow P4 (EVar vMst2) * EPow P4
   (EVar vs2t)) * EPow P8 (EVar vMst1) - #768 * EPow P2 (EVar vMt) * (- #2 * EPow P2 (EVar vMt) + EPow P2 (EVar vMst2)
   * EPow P2 (EVar vs2t)) * EPow P8 (EVar vMst2)) + #5 * EVar vMst2 * (- #720 * EPow P2 (EVar vDmsqst2) * EPow P4
   (EVar vMst1) * EPow P4 (EVar vMt) + #1440 * EVar vDmsqst2 * EPow P2 (EVar vMst2) * EPow P4 (EVar vMst1) * EPow P4
   (EVar vMt) + EPow P4 (EVar vMst1) * EPow P4 (EVar vMst2) * (#8592 * EPow P2 (EVar vMst2) * EPow P2 (EVar vMt) *
   EPow P2 (EVar vs2t) - #4800 * EVar vMst2 * EVar vs2t * EPow P3 (EVar vMt) + #3936 * EVar vMt * EPow P3 (EVar vMst2)
   * EPow P3 (EVar vs2t) + #4256 * EPow P4 (EVar vMt) - #69 * EPow P4 (EVar vMst2) * EPow P4 (EVar vs2t)) - #3 * EPow
   P2 (EVar vMst2) * (#600 * EPow P2 (EVar vMst2) * EPow P2 (EVar vMt) * EPow P2 (EVar vs2t) - #128 * EVar vMst2 *
   EVar vs2t * EPow P3 (EVar vMt) + #1568 * EVar vMt * EPow P3 (EVar vMst2) * EPow P3 (EVar vs2t) + #672 * EPow P4
   (EVar vMt) + #355 * EPow P4 (EVar vMst2) * EPow P4 (EVar vs2t)) * EPow P6 (EVar vMst1) + #3 * EPow P2 (EVar vMst1)
   * (- #856 * EPow P2 (EVar vMst2) * EPow P2 (EVar vMt) * EPow P2 (EVar vs2t) - #1024 * EVar vMst2 * EVar vs2t * EPow
   P3 (EVar vMt) + #256 * EVar vMt * EPow P3 (EVar vMst2) * EPow P3 (EVar vs2t) + #1456 * EPow P4 (EVar vMt) + #155 *
   EPow P4 (EVar vMst2) * EPow P4 (EVar vs2t)) * EPow P6 (EVar vMst2) + (#384 * EVar vMst2 * EVar vs2t * EPow P3 (EVar
   vMt) - #2400 * EPow P4 (EVar vMt) + #717 * EPow P4 (EVar vMst2) * EPow P4 (EVar vs2t)) * EPow P8 (EVar vMst1) +
   #384 * EPow P2 (EVar vMt) * (- #2 * EPow P2 (EVar vMt) + EPow P2 (EVar vMst2) * EPow P2 (EVar vs2t)) * EPow P8
   (EVar vMst2))) / (#45 * EPow P4 (EVar vMst1) * EPow P4 (EVar vMt) * EPow P5 (EVar vMst2)).

(** H6b.cpp:3693-3699 *)
Definition H6b_coef3 : expr :=
  - EDec 2986666666666667 13.

(** the constructor, H6b.cpp:37-68: value of each data member (members it does not assign are zero, H6b.hpp) *)
Definition H6b_ctor {T : Type} {N : Num T} (d : Depth) (a_Al4p a_beta a_Dmglst2 a_Dmsqst2 a_lmMt a_lmMst1 a_lmMst2
   a_Mt a_Mst1 a_Mst2 a_MuSUSY a_s2t : T) (mdr f1 f2 f3 : Z) (v : hvar) : T :=
  match v with
  | vTbeta => ntan a_beta
  | vSbeta => nsin a_beta
  | vDmglst2 => a_Dmglst2
  | vDmsqst2 => a_Dmsqst2
  | vlmMt => a_lmMt
  | vlmMst1 => a_lmMst1
  | vlmMst2 => a_lmMst2
  | vMt => a_Mt
  | vMst1 => a_Mst1
  | vMst2 => a_Mst2
  | vMuSUSY => a_MuSUSY
  | vs2t => a_s2t
  | voneLoopFlag => nint f1
  | vtwoLoopFlag => nint f2
  | vthreeLoopFlag => nint f3
  | vAl4p => a_Al4p
  | vshiftst1 => nint mdr
  | vshiftst2 => nint mdr
  | vshiftst3 => nint mdr
  | vxDR2DRMOD => nint mdr
  | vxDmglst2 => nint (x_Dmglst2 d)
  | vxDmsqst2 => nint (x_Dmsqst2 d)
  | vxMst => nint (x_Mst d)
  | _ => nint 0
  end.
