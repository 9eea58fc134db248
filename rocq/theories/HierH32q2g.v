(** * Class H32q2g
    GENERATED by tools/gen_hier.py from source/himalaya/hierarchies/H32q2g.cpp (expressions are transcribed operator by operator;
    no subexpression is an integer division, and integer subexpressions stay below 2^31 when the flags are 0 or 1). *)
From Coq Require Import ZArith List.
From Verif Require Import Num HierExpr HierCalc.
Local Open Scope hx_scope.

(** H32q2g.cpp:72-143 *)
Definition H32q2g_getS1 : expr :=
  - (EPow P2 (EVar vMt) * EPow P2 (EVar vMuSUSY) * (#360 * EVar vDmst12 * EVar vMst1 * EVar vs2t * EPow P2 (EVar vMst2)
   * (#40 * EVar vAl4p * EVar vMst1 * EVar vtwoLoopFlag * (EVar vDmst12 * EVar vMst1 * EVar vs2t * (#8 * EVar vDmglst1
   * (#1 - #3 * EVar vlmMst1) * EVar vMst1 + (#22 - #12 * EVar vlmMst1) * EPow P2 (EVar vDmglst1) + #3 * EPow P2 (EVar
   vMst1)) + #4 * EVar vMt * (- #6 * EPow P2 (EVar vDmglst1) * (EVar vDmst12 - EPow P2 (EVar vMst2)) + EVar vDmglst1 *
   (#5 - #6 * EVar vlmMst1) * EVar vMst1 * EPow P2 (EVar vMst2) - EPow P2 (EVar vMst1) * (EVar vDmst12 + #3 * (#1 + #2
   * EVar vlmMst1) * EPow P2 (EVar vMst2)))) + #32 * EVar vAl4p * (EVar vDmst12 - EPow P2 (EVar vMst2)) * (#75 * EVar
   vAl4p * EVar vs2t * (EVar vshiftst1 - EVar vshiftst2) * EVar vthreeLoopFlag * EVar vxDmsqst1 * EPow P2 (EVar
   vDmsqst1) + #8 * EVar vMt * EVar vtwoLoopFlag * EVar vxDmglst1 * EPow P3 (EVar vDmglst1)) + #45 * EVar vDmst12 *
   EVar voneLoopFlag * EVar vs2t * EPow P4 (EVar vMst1)) - #4 * EVar vMst1 * EVar vxDmst12 * EPow P3 (EVar vDmst12) *
   (EVar vAl4p * (#40 * EVar vMst1 * EVar vMt * (- #2160 * EVar vs2t * EVar vtwoLoopFlag * EPow P2 (EVar vDmglst1) +
   EVar vAl4p * EVar vthreeLoopFlag * (EVar vs2t * (#25200 * EVar vDmsqst1 + EPow P2 (EVar vDmglst1) * (#5725086 +
   #67536 * EVar vlmMst1 - #69120 * EPow P2 (EVar vlmMst1))) + #5 * EVar vDmglst1 * EVar vMt * (#403559 + #384 * (EVar
   vlmMst1 + EVar vlmMt) - #4608 * EPow P2 (EVar vlmMst1)))) - #15 * EPow P2 (EVar vMst1) * (#960 * EVar vDmglst1 *
   EVar vs2t * ((- #5 + #6 * EVar vlmMst1) * EVar vMt + EVar vDmglst1 * (- #11 + #6 * EVar vlmMst1) * EVar vs2t) *
   EVar vtwoLoopFlag + EVar vAl4p * EVar vthreeLoopFlag * (#16 * EVar vs2t * (#150 * EVar vDmsqst1 * EVar vs2t * (- #7
   + #24 * EVar vlmMst1 * (- #1 + EVar vshiftst2) - #36 * EVar vshiftst2) + EVar vDmglst1 * EVar vMt * (#1282471 -
   #7264 * EVar vlmMst1 - #18120 * EPow P2 (EVar vlmMst1)) + EVar vs2t * EPow P2 (EVar vDmglst1) * (#655743 + #5288 *
   EVar vlmMst1 - #11820 * EPow P2 (EVar vlmMst1))) + (#1763661 - #47104 * EVar vlmMst1 + #5120 * EVar vlmMt - #24576
   * EPow P2 (EVar vlmMst1)) * EPow P2 (EVar vMt))) + #32 * (#720 * EVar vMt * EVar vs2t * EVar vtwoLoopFlag * EVar
   vxDmglst1 * EPow P3 (EVar vDmglst1) + EVar vAl4p * EVar vthreeLoopFlag * (#7500 * EVar vDmglst1 * EVar vDmsqst1 *
   EVar vMt * EVar vs2t + EPow P2 (EVar vDmglst1) * (#6233611 + #58800 * EVar vlmMst1 - #4560 * EVar vlmMt - #14400 *
   EPow P2 (EVar vlmMst1)) * EPow P2 (EVar vMt) + #6750 * (EVar vshiftst1 - EVar vshiftst2) * EVar vxDmsqst1 * EPow P2
   (EVar vDmsqst1) * EPow P2 (EVar vs2t) + EVar vMt * EVar vs2t * EVar vxDmglst1 * (#14217821 + #161940 * EVar vlmMst1
   - #28800 * EPow P2 (EVar vlmMst1)) * EPow P3 (EVar vDmglst1))) - #600 * EVar vs2t * (#24 * ((#5 + #6 * EVar
   vlmMst1) * EVar vMt + #4 * EVar vDmglst1 * (- #1 + #3 * EVar vlmMst1) * EVar vs2t) * EVar vtwoLoopFlag + EVar vAl4p
   * EVar vthreeLoopFlag * (EVar vDmglst1 * EVar vs2t * (#84209 + #1264 * EVar vlmMst1 - #240 * EPow P2 (EVar
   vlmMst1)) - #2 * EVar vMt * (- #36863 + #80 * EVar vlmMst1 + #552 * EPow P2 (EVar vlmMst1)))) * EPow P3 (EVar
   vMst1)) + #15 * (#270 * EVar voneLoopFlag + EVar vAl4p * (#240 * (EVar vtwoLoopFlag + #6 * EVar vlmMst1 * EVar
   vtwoLoopFlag) + EVar vAl4p * EVar vthreeLoopFlag * (#350605 + #4320 * EVar vshiftst1 + #2880 * EVar vshiftst2 +
   #8352 * EVar vshiftst3 - #96 * EVar vlmMst1 * (- #115 + #90 * EVar vshiftst1 + #60 * EVar vshiftst2 + #54 * EVar
   vshiftst3) - #2160 * EPow P2 (EVar vlmMst1)))) * EPow P2 (EVar vs2t) * EPow P4 (EVar vMst1)) - EVar vthreeLoopFlag
   * EPow P2 (EVar vAl4p) * (#128 * EVar vMt * EVar vxDmglst1 * EPow P3 (EVar vDmglst1) * (EVar vMst1 * EVar vs2t *
   (EVar vDmst12 * (- #14217821 - #161940 * EVar vlmMst1 + #11852775 * EConst Cz3 + #28800 * EPow P2 (EVar vlmMst1)) *
   (EVar vDmst12 - EPow P2 (EVar vMst2)) * EPow P2 (EVar vMst2) - #11852775 * EVar vxDmst12 * EConst Cz3 * EPow P3
   (EVar vDmst12)) + EVar vMt * (#4438798 + #19200 * EVar vlmMst1 + #1920 * EVar vlmMt - #3719925 * EConst Cz3) * EPow
   P6 (EVar vMst2)) + #15 * EPow P2 (EVar vMst1) * (- (EPow P2 (EVar vDmst12) * EPow P2 (EVar vMst2) * (#240 * EVar
   vMt * EVar vs2t * (#1120 * EVar vDmsqst1 + (- #20946 + #80 * EVar vlmMst1 + #17285 * EConst Cz3 + #512 * EPow P2
   (EVar vlmMst1)) * EPow P2 (EVar vMst1)) - EVar vMst1 * (#1705082 + #18432 * EVar vlmMst1 - #20480 * EVar vlmMt -
   #1438335 * EConst Cz3 + #12288 * EPow P2 (EVar vlmMst1)) * EPow P2 (EVar vMt) + #2400 * EVar vDmsqst1 * EVar vMst1
   * (#14 - #24 * EVar vlmMst1 * (- #2 + EVar vshiftst1 + EVar vshiftst2) + (EVar vshiftst1 + EVar vshiftst2) * (#36 -
   #24 * EConst Cz2) - #63 * EConst Cz3) * EPow P2 (EVar vs2t) - #80 * (#2858 - #908 * EVar vlmMst1 + #720 * EVar
   vlmMst1 * (EVar vshiftst1 + EVar vshiftst2) - #252 * EVar vshiftst3 + #216 * EVar vlmMst1 * EVar vshiftst3 + #72 *
   (#10 * EVar vshiftst2 + #3 * EVar vshiftst3) * EConst Cz2 - #360 * (EVar vshiftst1 + EVar vshiftst2 - #2 * EVar
   vshiftst1 * EConst Cz2) - #3861 * EConst Cz3 + #48 * EPow P2 (EVar vlmMst1)) * EPow P2 (EVar vs2t) * EPow P3 (EVar
   vMst1))) + #160 * EVar vDmst12 * (#120 * EVar vDmsqst1 * EVar vs2t * (#14 * EVar vMt + #3 * EVar vMst1 * EVar vs2t
   * (EVar vshiftst1 - EVar vshiftst2) * (#3 - #2 * (EVar vlmMst1 + EConst Cz2))) + #4 * EVar vMt * EVar vs2t * (#2722
   + #20 * EVar vlmMst1 - #2259 * EConst Cz3 + #108 * EPow P2 (EVar vlmMst1)) * EPow P2 (EVar vMst1) + EVar vMst1 *
   (#22778 - #1408 * EVar vlmMst1 + #384 * EVar vlmMt - #19125 * EConst Cz3 - #768 * EPow P2 (EVar vlmMst1)) * EPow P2
   (EVar vMt) + #36 * (#10 * EVar vshiftst1 - #10 * EVar vshiftst2 + EVar vshiftst3) * (#1 - #2 * (EVar vlmMst1 +
   EConst Cz2)) * EPow P2 (EVar vs2t) * EPow P3 (EVar vMst1)) * EPow P4 (EVar vMst2) + EVar vMst1 * (#6 * EVar
   vxDmst12 * (#5 * EVar vMt * (#197889 * EVar vMt + #324752 * EVar vMst1 * EVar vs2t) * EConst Cz3 + (- #2400 * EVar
   vDmsqst1 * (#16 * EVar vshiftst2 * EConst Cz2 + #21 * EConst Cz3) - (#5760 * EVar vshiftst1 * EConst Cz2 + #3840 *
   EVar vshiftst2 * EConst Cz2 + #3456 * EVar vshiftst3 * EConst Cz2 + #188345 * EConst Cz3) * EPow P2 (EVar vMst1)) *
   EPow P2 (EVar vs2t)) * EPow P3 (EVar vDmst12) - #3840 * (- #349 + #56 * EVar vlmMst1 - #24 * EVar vlmMt + #282 *
   EConst Cz3 + #32 * EPow P2 (EVar vlmMst1)) * EPow P2 (EVar vMt) * EPow P6 (EVar vMst2))) + #8 * EVar vDmglst1 *
   EVar vMst1 * (#2 * EVar vDmglst1 * EPow P2 (EVar vDmst12) * EPow P2 (EVar vMst2) * (#30 * EVar vMst1 * EVar vMt *
   EVar vs2t * (- #1908362 - #22512 * EVar vlmMst1 + #1581075 * EConst Cz3 + #23040 * EPow P2 (EVar vlmMst1)) + #4 *
   (- #12467222 - #117600 * EVar vlmMst1 + #9120 * EVar vlmMt + #10353825 * EConst Cz3 + #28800 * EPow P2 (EVar
   vlmMst1)) * EPow P2 (EVar vMt) + #15 * (#1311486 + #10576 * EVar vlmMst1 - #1122225 * EConst Cz3 - #23640 * EPow P2
   (EVar vlmMst1)) * EPow P2 (EVar vMst1) * EPow P2 (EVar vs2t)) - #900 * EVar vDmglst1 * EVar vxDmst12 * EConst Cz3 *
   (#105405 * EVar vMst1 * EVar vMt * EVar vs2t + #92034 * EPow P2 (EVar vMt) - #74815 * EPow P2 (EVar vMst1) * EPow
   P2 (EVar vs2t)) * EPow P3 (EVar vDmst12) - #5 * EPow P2 (EVar vDmst12) * EPow P2 (EVar vMst2) * (EVar vMt * EVar
   vs2t * (#24000 * EVar vDmsqst1 + #6 * (- #1899722 + #3888 * EVar vlmMst1 + #1581075 * EConst Cz3 + #23040 * EPow P2
   (EVar vlmMst1)) * EPow P2 (EVar vMst1)) + #10 * EVar vMst1 * (#807118 + #768 * (EVar vlmMst1 + EVar vlmMt) -
   #665253 * EConst Cz3 - #9216 * EPow P2 (EVar vlmMst1)) * EPow P2 (EVar vMt) + #15 * (- #168418 - #2528 * EVar
   vlmMst1 + #151455 * EConst Cz3 + #480 * EPow P2 (EVar vlmMst1)) * EPow P2 (EVar vs2t) * EPow P3 (EVar vMst1)) + #4
   * EVar vDmglst1 * EVar vDmst12 * EVar vMt * (#15 * EVar vMst1 * EVar vs2t * (#1908362 + #22512 * EVar vlmMst1 -
   #1581075 * EConst Cz3 - #23040 * EPow P2 (EVar vlmMst1)) - #2 * EVar vMt * (- #12467222 - #117600 * EVar vlmMst1 +
   #9120 * EVar vlmMt + #10353825 * EConst Cz3 + #28800 * EPow P2 (EVar vlmMst1))) * EPow P4 (EVar vMst2) + #50 * EVar
   vDmst12 * EVar vMt * (EVar vMst1 * EVar vMt * (#807118 + #768 * (EVar vlmMst1 + EVar vlmMt) - #665253 * EConst Cz3
   - #9216 * EPow P2 (EVar vlmMst1)) + EVar vs2t * (#2400 * EVar vDmsqst1 - #12 * (- #66522 + #1064 * EVar vlmMst1 +
   #56373 * EConst Cz3 + #1320 * EPow P2 (EVar vlmMst1)) * EPow P2 (EVar vMst1))) * EPow P4 (EVar vMst2) - #100 * EVar
   vDmglst1 * (- #460018 - #9408 * EVar vlmMst1 + #960 * EVar vlmMt + #381915 * EConst Cz3 + #2304 * EPow P2 (EVar
   vlmMst1)) * EPow P2 (EVar vMt) * EPow P6 (EVar vMst2) - #5 * EVar vMst1 * (#90 * EVar vxDmst12 * EConst Cz3 * (-
   #285974 * EVar vMst1 * EVar vMt * EVar vs2t + #73917 * EPow P2 (EVar vMt) - #50485 * EPow P2 (EVar vMst1) * EPow P2
   (EVar vs2t)) * EPow P3 (EVar vDmst12) + #240 * (- #19262 - #32 * EVar vlmMst1 - #96 * EVar vlmMt + #15741 * EConst
   Cz3 + #384 * EPow P2 (EVar vlmMst1)) * EPow P2 (EVar vMt) * EPow P6 (EVar vMst2)))))) / (#777600 * EPow P5 (EVar
   vMst1) * EPow P6 (EVar vMst2)).

(** H32q2g.cpp:148-606 *)
Definition H32q2g_getS2 : expr :=
  - (- #4 * EVar vxDmst12 * EPow P2 (EVar vMst1) * EPow P3 (EVar vDmst12) * (EVar vMt * (#20250 * EVar voneLoopFlag * (-
   (EVar vMt * EVar vTbeta * EPow P2 (EVar vs2t) * (EPow P2 (EVar vMuSUSY) * (- #1 + EPow P2 (EVar vSbeta)) + #18 *
   EPow P2 (EVar vMst1) * EPow P2 (EVar vSbeta))) - #8 * EVar vTbeta * EPow P2 (EVar vSbeta) * EPow P3 (EVar vMt) +
   EVar vMuSUSY * EPow P2 (EVar vSbeta) * (#8 * EVar vs2t * EPow P2 (EVar vMt) - EPow P2 (EVar vMst1) * EPow P3 (EVar
   vs2t))) * EPow P4 (EVar vMst1) + EVar vAl4p * (#16 * EVar vxDmglst1 * EPow P3 (EVar vDmglst1) * (#8820 * EVar
   vtwoLoopFlag * (#10 * EVar vs2t * EPow P2 (EVar vMt) * (- #4 * EVar vTbeta * EPow P2 (EVar vMuSUSY) * (- #1 + EPow
   P2 (EVar vSbeta)) + EVar vMst1 * (#66 * EVar vMuSUSY + #17 * EVar vMst1 * EVar vTbeta) * EPow P2 (EVar vSbeta)) +
   EPow P2 (EVar vSbeta) * (- #60 * EVar vMt * (#2 * EVar vMuSUSY + #11 * EVar vMst1 * EVar vTbeta) * EPow P2 (EVar
   vMst1) * EPow P2 (EVar vs2t) + ((- #181 + #90 * EVar vlmMst1 - #90 * EVar vlmMt) * EVar vMuSUSY - #800 * EVar vMst1
   * EVar vTbeta) * EPow P3 (EVar vMt) + #20 * EVar vTbeta * EPow P3 (EVar vs2t) * EPow P4 (EVar vMst1))) + EVar vAl4p
   * EVar vthreeLoopFlag * (- #2 * EVar vs2t * EPow P2 (EVar vMt) * (#2 * EVar vMst1 * (#3675 * EVar vMuSUSY *
   (#520781 + #17172 * EVar vlmMst1 - #192 * EVar vlmMt - #11520 * EPow P2 (EVar vlmMst1)) + EVar vMst1 * EVar vTbeta
   * (- #15951337379 + #10326120 * EVar vlmMt + #120 * EVar vlmMst1 * (- #1097288 + #945 * EVar vlmMt) + #21054600 *
   EPow P2 (EVar vlmMst1))) * EPow P2 (EVar vSbeta) + #245 * EVar vTbeta * (- ((- #14217821 - #161940 * EVar vlmMst1 +
   #28800 * EPow P2 (EVar vlmMst1)) * EPow P2 (EVar vMuSUSY) * (- #1 + EPow P2 (EVar vSbeta))) + #48 * EVar vDmsqst1 *
   (#1331 - #420 * EVar vlmMst1 + #420 * EVar vlmMt) * EPow P2 (EVar vSbeta))) + #5 * EPow P2 (EVar vSbeta) * (- #294
   * EVar vMt * (EVar vMuSUSY * (#14217821 + #161940 * EVar vlmMst1 - #28800 * EPow P2 (EVar vlmMst1)) + #10 * EVar
   vMst1 * EVar vTbeta * (- #520877 - #17172 * EVar vlmMst1 + #192 * EVar vlmMt + #11520 * EPow P2 (EVar vlmMst1))) *
   EPow P2 (EVar vMst1) * EPow P2 (EVar vs2t) + #2 * (#4 * EVar vMst1 * EVar vTbeta * (- #16826654 + #1921395 * EVar
   vlmMt + #3 * EVar vlmMst1 * (#555463 + #2520 * EVar vlmMt) - #4241160 * EPow P2 (EVar vlmMst1)) + #3 * EVar vMuSUSY
   * (- #1417174939 + #401268 * EVar vlmMt - #4 * EVar vlmMst1 * (#4061413 + #37800 * EVar vlmMt) + #3185280 * EPow P2
   (EVar vlmMst1) - #211680 * EPow P2 (EVar vlmMt))) * EPow P3 (EVar vMt) + #49 * EVar vTbeta * (#14217821 + #161940 *
   EVar vlmMst1 - #28800 * EPow P2 (EVar vlmMst1)) * EPow P3 (EVar vs2t) * EPow P4 (EVar vMst1)))) / #49 + #720 * EVar
   vMst1 * EVar vtwoLoopFlag * (EVar vMuSUSY * EPow P2 (EVar vSbeta) * (#25 * EPow P2 (EVar vMst1) * (#96 * (- #1 +
   EVar vlmMst1) * EVar vMst1 * EVar vs2t * EPow P2 (EVar vMt) - #12 * (#1 + #3 * EVar vlmMst1) * EVar vMt * EPow P2
   (EVar vMst1) * EPow P2 (EVar vs2t) + #8 * (#5 + #6 * EVar vlmMst1) * EPow P3 (EVar vMt) - #3 * EPow P3 (EVar vMst1)
   * EPow P3 (EVar vs2t)) - #2 * EVar vDmglst1 * EVar vMst1 * (- #3600 * EVar vlmMst1 * EVar vMst1 * EVar vs2t * EPow
   P2 (EVar vMt) + #75 * (- #5 + #6 * EVar vlmMst1) * EVar vMt * EPow P2 (EVar vMst1) * EPow P2 (EVar vs2t) + #24 *
   (#17 - #30 * EVar vlmMst1 + #5 * EVar vlmMt) * EPow P3 (EVar vMt) + #100 * (#1 - #3 * EVar vlmMst1) * EPow P3 (EVar
   vMst1) * EPow P3 (EVar vs2t)) + EPow P2 (EVar vDmglst1) * (#240 * (- #29 + #15 * EVar vlmMst1) * EVar vMst1 * EVar
   vs2t * EPow P2 (EVar vMt) + #1800 * EVar vMt * EPow P2 (EVar vMst1) * EPow P2 (EVar vs2t) + (#3924 - #360 * EVar
   vlmMst1 + #360 * EVar vlmMt) * EPow P3 (EVar vMt) + #50 * (- #11 + #6 * EVar vlmMst1) * EPow P3 (EVar vMst1) * EPow
   P3 (EVar vs2t))) + EVar vTbeta * (#25 * EVar vMt * EVar vs2t * (- #4 * EVar vDmglst1 * EVar vMst1 * ((- #5 + #6 *
   EVar vlmMst1) * EVar vMt + #4 * (- #1 + #3 * EVar vlmMst1) * EVar vMst1 * EVar vs2t) - #4 * (#6 * EVar vMt + (- #11
   + #6 * EVar vlmMst1) * EVar vMst1 * EVar vs2t) * EPow P2 (EVar vDmglst1) + (- #4 * (#5 + #6 * EVar vlmMst1) * EVar
   vMt + (#1 + #6 * EVar vlmMst1) * EVar vMst1 * EVar vs2t) * EPow P2 (EVar vMst1)) * EPow P2 (EVar vMuSUSY) + EPow P2
   (EVar vSbeta) * (- #50 * (EVar vDmglst1 * (#5 - #6 * EVar vlmMst1) * EVar vMst1 + #6 * EPow P2 (EVar vDmglst1) - #3
   * (#1 + #2 * EVar vlmMst1) * EPow P2 (EVar vMst1)) * EPow P3 (EVar vs2t) * EPow P4 (EVar vMst1) - #4 * EVar vs2t *
   EPow P2 (EVar vMt) * (#2 * (#161 + #60 * EVar vlmMst1 - #60 * EVar vlmMt) * EPow P2 (EVar vDmglst1) * EPow P2 (EVar
   vMst1) - #25 * (EVar vDmglst1 * (- #5 + #6 * EVar vlmMst1) * EVar vMst1 + #6 * EPow P2 (EVar vDmglst1) + (#5 + #6 *
   EVar vlmMst1) * EPow P2 (EVar vMst1)) * EPow P2 (EVar vMuSUSY) + #2 * EVar vDmglst1 * (- #131 + #165 * EVar vlmMst1
   + #135 * EVar vlmMt) * EPow P3 (EVar vMst1) + #50 * (#1 + #3 * EVar vlmMst1 + #9 * EVar vlmMt) * EPow P4 (EVar
   vMst1)) + EVar vMst1 * (#4 * (- #2 * EVar vDmglst1 * (#47 + #870 * EVar vlmMst1 + #30 * EVar vlmMt) * EVar vMst1 +
   (#1641 - #990 * EVar vlmMst1 + #90 * EVar vlmMt) * EPow P2 (EVar vDmglst1) + (#137 - #330 * EVar vlmMst1 - #270 *
   EVar vlmMt) * EPow P2 (EVar vMst1)) * EPow P3 (EVar vMt) - #25 * EVar vMt * EPow P2 (EVar vs2t) * ((#1 + #6 * EVar
   vlmMst1) * EPow P2 (EVar vMst1) * EPow P2 (EVar vMuSUSY) + EPow P2 (EVar vDmglst1) * ((EDec 1284 1 - #72 * EVar
   vlmMst1) * EPow P2 (EVar vMst1) + #4 * (#11 - #6 * EVar vlmMst1) * EPow P2 (EVar vMuSUSY)) + #4 * EVar vDmglst1 *
   (#4 * (#1 - #3 * EVar vlmMst1) * EVar vMst1 * EPow P2 (EVar vMuSUSY) + (#9 - #36 * EVar vlmMst1) * EPow P3 (EVar
   vMst1)) + #12 * (#1 + #12 * EVar vlmMst1) * EPow P4 (EVar vMst1)))))))) + EVar vthreeLoopFlag * EPow P2 (EVar
   vAl4p) * (#8 * EVar vMt * EPow P2 (EVar vDmglst1) * (#2 * EVar vMt * EPow P2 (EVar vMst1) * (EVar vMt * (#44100 *
   EVar vMuSUSY * EVar vs2t * (#274009 + #964 * EVar vlmMst1 + #104 * EVar vlmMt - #8310 * EPow P2 (EVar vlmMst1)) +
   EVar vMt * EVar vTbeta * (- #6321826673 + #4506600 * EVar vlmMt + #60 * EVar vlmMst1 * (#1009697 + #158550 * EVar
   vlmMt) + #357663600 * EPow P2 (EVar vlmMst1) + #6350400 * EPow P2 (EVar vlmMt))) * EPow P2 (EVar vSbeta) + #3675 *
   EVar vTbeta * EPow P2 (EVar vs2t) * (- ((- #655743 - #5288 * EVar vlmMst1 + #11820 * EPow P2 (EVar vlmMst1)) * EPow
   P2 (EVar vMuSUSY) * (- #1 + EPow P2 (EVar vSbeta))) + #1080 * EVar vDmsqst1 * EPow P2 (EVar vSbeta))) + EPow P2
   (EVar vMt) * (#980 * (EVar vMt * EVar vTbeta * (- #6233611 - #58800 * EVar vlmMst1 + #4560 * EVar vlmMt + #14400 *
   EPow P2 (EVar vlmMst1)) * EPow P2 (EVar vMuSUSY) * (- #1 + EPow P2 (EVar vSbeta)) - #36 * EVar vDmsqst1 * (#225 *
   EVar vMuSUSY * EVar vs2t + (- #457 - #510 * EVar vlmMst1 + #510 * EVar vlmMt) * EVar vMt * EVar vTbeta) * EPow P2
   (EVar vSbeta)) - #294 * EVar vMst1 * (#2 * EVar vMt * EVar vMuSUSY * (#84334067 + #120 * EVar vlmMst1 * (#2843 -
   #120 * EVar vlmMt) + #202200 * EVar vlmMt - #828000 * EPow P2 (EVar vlmMst1) - #21600 * EPow P2 (EVar vlmMt)) *
   EPow P2 (EVar vSbeta) - #25 * EVar vs2t * EVar vTbeta * ((- #954181 - #11256 * EVar vlmMst1 + #11520 * EPow P2
   (EVar vlmMst1)) * EPow P2 (EVar vMuSUSY) * (- #1 + EPow P2 (EVar vSbeta)) + #48 * EVar vDmsqst1 * (#397 - #30 *
   EVar vlmMst1 + #30 * EVar vlmMt) * EPow P2 (EVar vSbeta)))) + #49 * EVar vs2t * (#450 * EVar vMt * EVar vMuSUSY *
   EVar vs2t * (- #954181 - #11256 * EVar vlmMst1 + #11520 * EPow P2 (EVar vlmMst1)) + #75 * EVar vMst1 * EVar vs2t *
   (EVar vMuSUSY * EVar vs2t * (#655743 + #5288 * EVar vlmMst1 - #11820 * EPow P2 (EVar vlmMst1)) + EVar vMst1 * EVar
   vs2t * EVar vTbeta * (#954181 + #11256 * EVar vlmMst1 - #11520 * EPow P2 (EVar vlmMst1)) + #3 * EVar vMt * EVar
   vTbeta * (- #452211 - #17060 * EVar vlmMst1 + #992 * EVar vlmMt + #1320 * EPow P2 (EVar vlmMst1))) + #8 * EVar
   vTbeta * (#192278911 + #177300 * EVar vlmMt + #60 * EVar vlmMst1 * (#19139 + #570 * EVar vlmMt) - #1373400 * EPow
   P2 (EVar vlmMst1) + #43200 * EPow P2 (EVar vlmMt)) * EPow P2 (EVar vMt)) * EPow P2 (EVar vSbeta) * EPow P3 (EVar
   vMst1)) / #49 - #30000 * EVar vxDmsqst1 * EPow P2 (EVar vDmsqst1) * (- #3 * EVar vTbeta * EPow P2 (EVar vMt) * EPow
   P2 (EVar vs2t) * (- #12 * (EVar vshiftst1 - EVar vshiftst2) * EPow P2 (EVar vMuSUSY) * (- #1 + EPow P2 (EVar
   vSbeta)) - (#205 + #72 * (EVar vshiftst1 + EVar vshiftst2)) * EPow P2 (EVar vMst1) * EPow P2 (EVar vSbeta)) + EPow
   P2 (EVar vSbeta) * (- (EVar vs2t * (EVar vMuSUSY * (#615 + #432 * EVar vshiftst2) + #8 * (EVar vDmglst1 * (#19 + #6
   * EVar vlmMst1 - #6 * EVar vlmMt) + #4 * (#13 - #3 * EVar vlmMst1 + #3 * EVar vlmMt) * EVar vMst1) * EVar vTbeta) *
   EPow P3 (EVar vMt)) - #18 * (EVar vshiftst1 - EVar vshiftst2) * EPow P2 (EVar vMst1) * (- #6 * EVar vMt * EVar
   vMuSUSY + EVar vs2t * EVar vTbeta * EPow P2 (EVar vMst1)) * EPow P3 (EVar vs2t) + #2 * (#283 + #6 * EVar vlmMst1 -
   #6 * EVar vlmMt + #216 * EVar vshiftst2) * EVar vTbeta * EPow P4 (EVar vMt))) + EPow P2 (EVar vMst1) * (- (EPow P2
   (EVar vMst1) * EPow P2 (EVar vMt) * (- #75 * EVar vTbeta * (#350605 + #4320 * EVar vshiftst1 + #2880 * EVar
   vshiftst2 + #8352 * EVar vshiftst3 - #96 * EVar vlmMst1 * (- #115 + #90 * EVar vshiftst1 + #60 * EVar vshiftst2 +
   #54 * EVar vshiftst3) - #2160 * EPow P2 (EVar vlmMst1)) * EPow P2 (EVar vMuSUSY) * EPow P2 (EVar vs2t) * (#1 - EPow
   P2 (EVar vSbeta)) + #4 * EVar vMt * (- #225 * EVar vMuSUSY * EVar vs2t * (- #102747 + #640 * EVar vlmMt + #6720 *
   EVar vshiftst3 - #32 * EVar vlmMst1 * (#331 + #90 * EVar vshiftst3) + #13888 * EPow P2 (EVar vlmMst1)) + EVar vMt *
   EVar vTbeta * (- #20857591 + #2151960 * EVar vlmMt - #120 * EVar vlmMst1 * (#36107 + #13380 * EVar vlmMt - #5400 *
   EVar vshiftst3) - #1512000 * EVar vshiftst3 + #2318400 * EPow P2 (EVar vlmMst1) + #1663200 * EPow P2 (EVar vlmMt)))
   * EPow P2 (EVar vSbeta))) + #60 * EVar vMt * EVar vs2t * (- #75 * EVar vMt * EVar vs2t * (#2 * EVar vMst1 * EVar
   vTbeta * (#2785 + #384 * EVar vlmMt + #960 * EVar vshiftst1 - #240 * EVar vshiftst2 + #996 * EVar vshiftst3 - #8 *
   EVar vlmMst1 * (#38 + #240 * EVar vshiftst1 - #60 * EVar vshiftst2 + #87 * EVar vshiftst3) + #768 * EPow P2 (EVar
   vlmMst1)) + EVar vMuSUSY * (- #20531 + #200 * EVar vlmMst1 + #1200 * EPow P2 (EVar vlmMst1))) - #2 * EVar vTbeta *
   (#558619 + #76160 * EVar vlmMt - #224 * EVar vlmMst1 * (#1219 + #60 * EVar vlmMt) + #123840 * EPow P2 (EVar
   vlmMst1) + #86400 * EPow P2 (EVar vlmMt)) * EPow P2 (EVar vMt) + #50 * EVar vMst1 * EVar vMuSUSY * (#1429 - #720 *
   EVar vshiftst1 + #360 * EVar vshiftst2 - #234 * EVar vshiftst3 + #2 * EVar vlmMst1 * (- #227 + #720 * EVar
   vshiftst1 - #360 * EVar vshiftst2 + #126 * EVar vshiftst3) + #24 * EPow P2 (EVar vlmMst1)) * EPow P2 (EVar vs2t)) *
   EPow P2 (EVar vSbeta) * EPow P3 (EVar vMst1) + #240 * EVar vMst1 * EVar vMuSUSY * (- #25 * EVar vMuSUSY * EVar vs2t
   * EVar vTbeta * (- #36863 + #80 * EVar vlmMst1 + #552 * EPow P2 (EVar vlmMst1)) * (- #1 + EPow P2 (EVar vSbeta)) -
   EVar vMt * (- #3454599 + #16840 * EVar vlmMt + #48 * EVar vlmMst1 * (#262 + #405 * EVar vlmMt) + #46560 * EPow P2
   (EVar vlmMst1)) * EPow P2 (EVar vSbeta)) * EPow P3 (EVar vMt) + EVar vTbeta * (- #75 * (- #1763661 + #47104 * EVar
   vlmMst1 - #5120 * EVar vlmMt + #24576 * EPow P2 (EVar vlmMst1)) * EPow P2 (EVar vMuSUSY) * (- #1 + EPow P2 (EVar
   vSbeta)) * EPow P4 (EVar vMt) + #6000 * (#9 * (#1 - #2 * EVar vlmMst1) * EVar vMst1 * EVar vs2t * (#10 * EVar
   vshiftst1 - #10 * EVar vshiftst2 + EVar vshiftst3) + #2 * EVar vMt * (#1361 + #10 * EVar vlmMst1 + #54 * EPow P2
   (EVar vlmMst1))) * EPow P2 (EVar vSbeta) * EPow P3 (EVar vs2t) * EPow P5 (EVar vMst1))) + #600 * EVar vDmsqst1 *
   EVar vMst1 * (- #75 * EVar vMst1 * EPow P2 (EVar vMt) * EPow P2 (EVar vs2t) * (- #4 * (- #7 + #24 * EVar vlmMst1 *
   (- #1 + EVar vshiftst2) - #36 * EVar vshiftst2) * EVar vTbeta * EPow P2 (EVar vMuSUSY) * (- #1 + EPow P2 (EVar
   vSbeta)) + #336 * EVar vMst1 * EVar vMuSUSY * EPow P2 (EVar vSbeta) - (#137 - #576 * EVar vshiftst1 + #144 * EVar
   vshiftst2 - #96 * EVar vlmMst1 * (#3 - #4 * EVar vshiftst1 + EVar vshiftst2)) * EVar vTbeta * EPow P2 (EVar vMst1)
   * EPow P2 (EVar vSbeta)) - #100 * EVar vs2t * (#84 * EVar vTbeta * EPow P2 (EVar vMuSUSY) * (- #1 + EPow P2 (EVar
   vSbeta)) + EVar vMst1 * (EVar vMuSUSY * (#519 - #432 * EVar vlmMst1 * (- #1 + EVar vshiftst2) + #648 * EVar
   vshiftst2) - #8 * (#13 + #6 * EVar vlmMst1 - #6 * EVar vlmMt) * EVar vMst1 * EVar vTbeta) * EPow P2 (EVar vSbeta))
   * EPow P3 (EVar vMt) + EPow P2 (EVar vSbeta) * (- #150 * EVar vMt * (EVar vMuSUSY * (#7 + #72 * EVar vshiftst1 -
   #36 * EVar vshiftst2 + #24 * EVar vlmMst1 * (#1 - #2 * EVar vshiftst1 + EVar vshiftst2)) - #28 * EVar vMst1 * EVar
   vTbeta) * EPow P3 (EVar vMst1) * EPow P3 (EVar vs2t) - #16 * (#50 * (#65 - #6 * EVar vlmMst1 + #6 * EVar vlmMt) *
   EVar vMuSUSY + EVar vMst1 * (- #3268 + #105 * EVar vlmMt - #4050 * EVar vshiftst2 + #15 * EVar vlmMst1 * (- #187 +
   #180 * EVar vshiftst2)) * EVar vTbeta) * EPow P4 (EVar vMt) + #900 * (#3 - #2 * EVar vlmMst1) * (EVar vshiftst1 -
   EVar vshiftst2) * EVar vTbeta * EPow P4 (EVar vs2t) * EPow P5 (EVar vMst1))) + #4 * EVar vDmglst1 * EVar vMt *
   (#1200 * EVar vDmsqst1 * (- #2 * EVar vs2t * EPow P2 (EVar vMt) * (#125 * EVar vTbeta * EPow P2 (EVar vMuSUSY) * (-
   #1 + EPow P2 (EVar vSbeta)) + #6 * EVar vMst1 * (#1175 * EVar vMuSUSY + (#47 - #30 * EVar vlmMst1 + #30 * EVar
   vlmMt) * EVar vMst1 * EVar vTbeta) * EPow P2 (EVar vSbeta)) + EPow P2 (EVar vSbeta) * (#150 * EVar vMt * (- #5 *
   EVar vMuSUSY + #94 * EVar vMst1 * EVar vTbeta) * EPow P2 (EVar vMst1) * EPow P2 (EVar vs2t) - #4 * ((#557 + #120 *
   EVar vlmMst1 - #120 * EVar vlmMt) * EVar vMuSUSY + #9 * (- #423 + #20 * EVar vlmMst1 - #20 * EVar vlmMt) * EVar
   vMst1 * EVar vTbeta) * EPow P3 (EVar vMt) + #125 * EVar vTbeta * EPow P3 (EVar vs2t) * EPow P4 (EVar vMst1))) +
   EVar vMst1 * (#6 * EVar vMt * EPow P2 (EVar vMst1) * (- #125 * EVar vTbeta * (- #84209 - #1264 * EVar vlmMst1 +
   #240 * EPow P2 (EVar vlmMst1)) * EPow P2 (EVar vMuSUSY) * EPow P2 (EVar vs2t) * (- #1 + EPow P2 (EVar vSbeta)) + #4
   * EVar vMt * (#150 * EVar vMuSUSY * EVar vs2t * (#12383 + #4128 * EVar vlmMst1 + #80 * EVar vlmMt - #1260 * EPow P2
   (EVar vlmMst1)) + EVar vMt * EVar vTbeta * (#9598037 + #92280 * EVar vlmMt + #20 * EVar vlmMst1 * (- #11207 + #270
   * EVar vlmMt) + #246000 * EPow P2 (EVar vlmMst1) - #14400 * EPow P2 (EVar vlmMt))) * EPow P2 (EVar vSbeta)) + #4 *
   EVar vMst1 * EVar vMuSUSY * EPow P2 (EVar vMt) * (- #75 * EVar vMuSUSY * EVar vs2t * EVar vTbeta * (- #1282471 +
   #7264 * EVar vlmMst1 + #18120 * EPow P2 (EVar vlmMst1)) * (- #1 + EPow P2 (EVar vSbeta)) - #2 * EVar vMt * (-
   #193364399 - #90000 * EVar vlmMt + #300 * EVar vlmMst1 * (#3781 + #582 * EVar vlmMt) + #2005200 * EPow P2 (EVar
   vlmMst1) + #43200 * EPow P2 (EVar vlmMt)) * EPow P2 (EVar vSbeta)) + EVar vs2t * (#75 * EVar vMst1 * EVar vs2t *
   (#5 * EVar vMuSUSY * EVar vs2t * (#84209 + #1264 * EVar vlmMst1 - #240 * EPow P2 (EVar vlmMst1)) + #48 * EVar vMt *
   EVar vTbeta * (- #20017 + #1203 * EVar vlmMst1 - #200 * EVar vlmMt + #2250 * EPow P2 (EVar vlmMst1))) + EVar vMt *
   (#225 * EVar vMuSUSY * EVar vs2t * (#284641 + #8696 * EVar vlmMst1 + #1680 * EPow P2 (EVar vlmMst1)) + #4 * EVar
   vMt * EVar vTbeta * (- #28188929 + #143100 * EVar vlmMt + #3780 * EVar vlmMst1 * (#549 + #80 * EVar vlmMt) -
   #1389600 * EPow P2 (EVar vlmMst1) - #388800 * EPow P2 (EVar vlmMt)))) * EPow P2 (EVar vSbeta) * EPow P3 (EVar
   vMst1) + #250 * EVar vTbeta * ((#403559 + #384 * (EVar vlmMst1 + EVar vlmMt) - #4608 * EPow P2 (EVar vlmMst1)) *
   EPow P2 (EVar vMuSUSY) * (#1 - EPow P2 (EVar vSbeta)) * EPow P3 (EVar vMt) - #6 * (- #33261 + #532 * EVar vlmMst1 +
   #660 * EPow P2 (EVar vlmMst1)) * EPow P2 (EVar vSbeta) * EPow P3 (EVar vs2t) * EPow P5 (EVar vMst1)))))) + EPow P2
   (EVar vMst2) * (#160 * EVar vthreeLoopFlag * EPow P2 (EVar vAl4p) * (- #75 * EVar vxDmsqst1 * EPow P2 (EVar
   vDmsqst1) * (#360 * EVar vTbeta * EPow P2 (EVar vMst1) * EPow P2 (EVar vMt) * (EVar vDmst12 * EPow P2 (EVar vMst2)
   * (- ((EVar vshiftst1 - EVar vshiftst2) * EPow P2 (EVar vMuSUSY) * EPow P2 (EVar vs2t) * (- #1 + EPow P2 (EVar
   vSbeta))) - #12 * (EVar vshiftst2 * EPow P2 (EVar vMt) + (EVar vshiftst1 - EVar vshiftst2) * EPow P2 (EVar vMst1) *
   EPow P2 (EVar vs2t)) * EPow P2 (EVar vSbeta)) + EPow P2 (EVar vDmst12) * ((EVar vshiftst1 - EVar vshiftst2) * EPow
   P2 (EVar vMuSUSY) * EPow P2 (EVar vs2t) * (- #1 + EPow P2 (EVar vSbeta)) + #3 * (#4 * EVar vshiftst2 * EPow P2
   (EVar vMt) + (#3 * EVar vshiftst1 - EVar vshiftst2) * EPow P2 (EVar vMst1) * EPow P2 (EVar vs2t)) * EPow P2 (EVar
   vSbeta)) - #12 * (EVar vshiftst1 + EVar vshiftst2) * EPow P2 (EVar vMt) * EPow P2 (EVar vSbeta) * EPow P4 (EVar
   vMst2)) + EPow P2 (EVar vSbeta) * (#10 * EVar vMt * EVar vMuSUSY * (#16 * EVar vDmglst1 * (#8 + #3 * EVar vlmMst1 -
   #3 * EVar vlmMt) * EPow P3 (EVar vMt) * EPow P4 (EVar vMst2) + EVar vMst1 * (#3 * EVar vMst1 * EVar vs2t * EPow P2
   (EVar vDmst12) * (- ((#205 + #144 * EVar vshiftst2) * EPow P2 (EVar vMt)) + #18 * (EVar vshiftst1 - EVar vshiftst2)
   * EPow P2 (EVar vMst1) * EPow P2 (EVar vs2t)) + EPow P2 (EVar vMt) * (#3 * EVar vDmst12 * EVar vMst1 * EVar vs2t *
   (#205 + #144 * EVar vshiftst2) * EPow P2 (EVar vMst2) + #16 * ((#29 - #6 * EVar vlmMst1 + #6 * EVar vlmMt) * EVar
   vMt + #27 * EVar vMst1 * EVar vs2t * (- EVar vshiftst1 + EVar vshiftst2)) * EPow P4 (EVar vMst2)))) + EVar vTbeta *
   (#3075 * EPow P2 (EVar vDmst12) * EPow P2 (EVar vMt) * EPow P2 (EVar vs2t) * EPow P4 (EVar vMst1) + #20 * EPow P2
   (EVar vMst1) * EPow P3 (EVar vMt) * (((#283 + #6 * EVar vlmMst1 - #6 * EVar vlmMt) * EVar vMt - #4 * (EVar vDmglst1
   * (#19 + #6 * EVar vlmMst1 - #6 * EVar vlmMt) + #4 * (#13 - #3 * EVar vlmMst1 + #3 * EVar vlmMt) * EVar vMst1) *
   EVar vs2t) * EPow P2 (EVar vDmst12) + EVar vDmst12 * ((- #283 - #6 * EVar vlmMst1 + #6 * EVar vlmMt) * EVar vMt +
   #4 * (EVar vDmglst1 * (#19 + #6 * EVar vlmMst1 - #6 * EVar vlmMt) + #4 * (#13 - #3 * EVar vlmMst1 + #3 * EVar
   vlmMt) * EVar vMst1) * EVar vs2t) * EPow P2 (EVar vMst2) - #2 * EVar vMt * (#299 + #42 * EVar vlmMt - #6 * EVar
   vlmMst1 * (#7 + #18 * EVar vlmMt) + #54 * EPow P2 (EVar vlmMst1) + #54 * EPow P2 (EVar vlmMt)) * EPow P4 (EVar
   vMst2)) + #48 * EVar vDmglst1 * (EVar vDmglst1 * (#131 - #420 * EVar vlmMst1 + #420 * EVar vlmMt) + #250 * (- #22 +
   #3 * EVar vlmMst1 - #3 * EVar vlmMt) * EVar vMst1) * EPow P4 (EVar vMst2) * EPow P4 (EVar vMt) / #25))) + EVar
   vMst1 * (EVar vMt * EVar vMuSUSY * EPow P2 (EVar vSbeta) * (#15 * (#200 * EPow P2 (EVar vMst2) * (- #6 * EVar
   vDmst12 * EVar vMst1 * EVar vs2t * (#631 + #36 * EVar vlmMt + #90 * EVar vshiftst2 + #27 * EVar vshiftst3 - EVar
   vlmMst1 * (#1 + #180 * EVar vshiftst2 + #18 * EVar vshiftst3) + #21 * EPow P2 (EVar vlmMst1)) + EVar vDmst12 * EVar
   vMt * (#11697 + #448 * EVar vlmMst1 + #330 * EVar vlmMt - #372 * EVar vlmMst1 * EVar vlmMt + #408 * EPow P2 (EVar
   vlmMst1) + #288 * EPow P2 (EVar vlmMt)) + #54 * (#1 - #2 * EVar vlmMst1) * EVar vMst1 * EVar vs2t * (#10 * EVar
   vshiftst1 - #10 * EVar vshiftst2 + EVar vshiftst3) * EPow P2 (EVar vMst2) + #8 * EVar vMt * (#434 - #83 * EVar
   vlmMst1 + #174 * EVar vlmMt - #66 * EVar vlmMst1 * EVar vlmMt + #183 * EPow P2 (EVar vlmMst1) + #108 * EPow P2
   (EVar vlmMt)) * EPow P2 (EVar vMst2)) * EPow P2 (EVar vMt) + EPow P2 (EVar vDmst12) * (#150 * EVar vMst1 * EVar
   vs2t * (- #2071 + #96 * EVar vlmMt + #288 * EVar vshiftst3 - #8 * EVar vlmMst1 * (#37 + #18 * EVar vshiftst3) +
   #600 * EPow P2 (EVar vlmMst1)) * EPow P2 (EVar vMt) - #300 * EVar vMt * (#1361 + #10 * EVar vlmMst1 + #54 * EPow P2
   (EVar vlmMst1)) * EPow P2 (EVar vMst1) * EPow P2 (EVar vs2t) - (- #2284899 + #49840 * EVar vlmMt - #32 * EVar
   vlmMst1 * (- #1793 + #555 * EVar vlmMt) + #87360 * EPow P2 (EVar vlmMst1) + #28800 * EPow P2 (EVar vlmMt)) * EPow
   P3 (EVar vMt) + #1350 * (- #1 + #2 * EVar vlmMst1) * (#10 * EVar vshiftst1 - #10 * EVar vshiftst2 + EVar vshiftst3)
   * EPow P3 (EVar vMst1) * EPow P3 (EVar vs2t))) * EPow P4 (EVar vMst1) - EVar vMt * EPow P2 (EVar vDmglst1) * (#3 *
   EVar vDmst12 * EVar vMst1 * (- #4 * EVar vMt * (EVar vMst1 * EVar vMt * (#84334067 + #120 * EVar vlmMst1 * (#2843 -
   #120 * EVar vlmMt) + #202200 * EVar vlmMt - #828000 * EPow P2 (EVar vlmMst1) - #21600 * EPow P2 (EVar vlmMt)) + #75
   * EVar vs2t * (#180 * EVar vDmsqst1 + (#32101 - #5044 * EVar vlmMst1 + #400 * EVar vlmMt - #5100 * EPow P2 (EVar
   vlmMst1)) * EPow P2 (EVar vMst1))) * EPow P2 (EVar vMst2) + EVar vDmst12 * (#150 * EVar vMt * EVar vs2t * (#360 *
   EVar vDmsqst1 + (- #515917 - #6972 * EVar vlmMst1 + #192 * EVar vlmMt + #11520 * EPow P2 (EVar vlmMst1)) * EPow P2
   (EVar vMst1)) + #4 * EVar vMst1 * (#84334067 + #120 * EVar vlmMst1 * (#2843 - #120 * EVar vlmMt) + #202200 * EVar
   vlmMt - #828000 * EPow P2 (EVar vlmMst1) - #21600 * EPow P2 (EVar vlmMt)) * EPow P2 (EVar vMt) + #75 * (#954181 +
   #11256 * EVar vlmMst1 - #11520 * EPow P2 (EVar vlmMst1)) * EPow P2 (EVar vs2t) * EPow P3 (EVar vMst1))) + #160 *
   (#90 * EVar vDmsqst1 * (#206 - #15 * EVar vlmMst1 + #15 * EVar vlmMt) + (- #3030652 - #19305 * EVar vlmMt + #6 *
   EVar vlmMst1 * (#1183 + #645 * EVar vlmMt) + #55530 * EPow P2 (EVar vlmMst1) + #5400 * EPow P2 (EVar vlmMt)) * EPow
   P2 (EVar vMst1)) * EPow P2 (EVar vMt) * EPow P4 (EVar vMst2)) + #3750 * EVar vDmsqst1 * EPow P2 (EVar vMst1) * (-
   (EPow P2 (EVar vDmst12) * (#483 * EVar vMst1 * EVar vs2t * EPow P2 (EVar vMt) + #252 * EVar vMt * EPow P2 (EVar
   vMst1) * EPow P2 (EVar vs2t) + #16 * (#65 - #6 * EVar vlmMst1 + #6 * EVar vlmMt) * EPow P3 (EVar vMt) + #54 * (#3 -
   #2 * EVar vlmMst1) * (EVar vshiftst1 - EVar vshiftst2) * EPow P3 (EVar vMst1) * EPow P3 (EVar vs2t))) + EPow P2
   (EVar vMt) * (#8 * EVar vDmst12 * (#2 * (#65 - #6 * EVar vlmMst1 + #6 * EVar vlmMt) * EVar vMt - #9 * EVar vMst1 *
   EVar vs2t * (#1 - #12 * EVar vlmMst1 * (- #1 + EVar vshiftst2) + #18 * EVar vshiftst2)) * EPow P2 (EVar vMst2) +
   #48 * ((#40 - #6 * EVar vlmMst1 + #6 * EVar vlmMt) * EVar vMt + #9 * (#3 - #2 * EVar vlmMst1) * EVar vMst1 * EVar
   vs2t * (EVar vshiftst1 - EVar vshiftst2)) * EPow P4 (EVar vMst2))) + EVar vDmglst1 * EVar vMt * (#600 * EVar
   vDmsqst1 * EVar vMst1 * (#4 * EVar vDmst12 * EVar vMt * ((#557 + #120 * EVar vlmMst1 - #120 * EVar vlmMt) * EVar
   vMt + #3525 * EVar vMst1 * EVar vs2t) * EPow P2 (EVar vMst2) - EPow P2 (EVar vDmst12) * (#14100 * EVar vMst1 * EVar
   vMt * EVar vs2t + #4 * (#557 + #120 * EVar vlmMst1 - #120 * EVar vlmMt) * EPow P2 (EVar vMt) + #375 * EPow P2 (EVar
   vMst1) * EPow P2 (EVar vs2t)) + #200 * (#26 + #3 * EVar vlmMst1 - #3 * EVar vlmMt) * EPow P2 (EVar vMt) * EPow P4
   (EVar vMst2)) + #2 * EPow P3 (EVar vMst1) * (#20 * EVar vDmst12 * EVar vMt * (#225 * EVar vMst1 * EVar vs2t * (-
   #4539 + #596 * EVar vlmMst1 - #48 * EVar vlmMt + #516 * EPow P2 (EVar vlmMst1)) - #2 * EVar vMt * (- #3746977 -
   #4005 * EVar vlmMt + #18 * EVar vlmMst1 * (#2711 + #1215 * EVar vlmMt) + #52380 * EPow P2 (EVar vlmMst1))) * EPow
   P2 (EVar vMst2) + #3 * EPow P2 (EVar vDmst12) * (#300 * EVar vMst1 * EVar vMt * EVar vs2t * (#17539 + #574 * EVar
   vlmMst1 + #160 * EVar vlmMt - #1920 * EPow P2 (EVar vlmMst1)) + (#39474953 + #3300 * EVar vlmMt + #20 * EVar
   vlmMst1 * (- #2639 + #4380 * EVar vlmMt) - #319200 * EPow P2 (EVar vlmMst1) - #14400 * EPow P2 (EVar vlmMt)) * EPow
   P2 (EVar vMt) + #375 * (- #33261 + #532 * EVar vlmMst1 + #660 * EPow P2 (EVar vlmMst1)) * EPow P2 (EVar vMst1) *
   EPow P2 (EVar vs2t)) + #6000 * (#9961 + #66 * EVar vlmMt - #10 * EVar vlmMst1 * (#67 + #24 * EVar vlmMt) + #42 *
   EPow P2 (EVar vlmMst1) + #72 * EPow P2 (EVar vlmMt)) * EPow P2 (EVar vMt) * EPow P4 (EVar vMst2)))) / #5 + EVar
   vMst1 * EVar vTbeta * (- (EPow P2 (EVar vMt) * EPow P2 (EVar vMuSUSY) * (#40 * EVar vDmglst1 * (#10 * EVar vDmst12
   * EVar vMt * (EVar vMst1 * EVar vMt * (#403559 + #384 * (EVar vlmMst1 + EVar vlmMt) - #4608 * EPow P2 (EVar
   vlmMst1)) + EVar vs2t * (#1200 * EVar vDmsqst1 - #12 * (- #33261 + #532 * EVar vlmMst1 + #660 * EPow P2 (EVar
   vlmMst1)) * EPow P2 (EVar vMst1))) * EPow P2 (EVar vMst2) - EPow P2 (EVar vDmst12) * (EVar vMt * EVar vs2t *
   (#12000 * EVar vDmsqst1 + #6 * (- #949861 + #1944 * EVar vlmMst1 + #11520 * EPow P2 (EVar vlmMst1)) * EPow P2 (EVar
   vMst1)) + #10 * EVar vMst1 * (#403559 + #384 * (EVar vlmMst1 + EVar vlmMt) - #4608 * EPow P2 (EVar vlmMst1)) * EPow
   P2 (EVar vMt) + #15 * (- #84209 - #1264 * EVar vlmMst1 + #240 * EPow P2 (EVar vlmMst1)) * EPow P2 (EVar vs2t) *
   EPow P3 (EVar vMst1)) + #240 * EVar vMst1 * (#9631 + #16 * EVar vlmMst1 + #48 * EVar vlmMt - #192 * EPow P2 (EVar
   vlmMst1)) * EPow P2 (EVar vMt) * EPow P4 (EVar vMst2)) + #15 * EVar vMst1 * (#160 * EVar vDmst12 * EVar vMt * (#840
   * EVar vDmsqst1 * EVar vs2t + EVar vMst1 * EVar vMt * (#11389 - #704 * EVar vlmMst1 + #192 * EVar vlmMt - #384 *
   EPow P2 (EVar vlmMst1)) + #4 * EVar vs2t * (#1361 + #10 * EVar vlmMst1 + #54 * EPow P2 (EVar vlmMst1)) * EPow P2
   (EVar vMst1)) * EPow P2 (EVar vMst2) + EPow P2 (EVar vDmst12) * (#240 * EVar vMt * EVar vs2t * (- #560 * EVar
   vDmsqst1 + (#10473 - #40 * EVar vlmMst1 - #256 * EPow P2 (EVar vlmMst1)) * EPow P2 (EVar vMst1)) + EVar vMst1 *
   (#852541 + #9216 * EVar vlmMst1 - #10240 * EVar vlmMt + #6144 * EPow P2 (EVar vlmMst1)) * EPow P2 (EVar vMt) + #80
   * EVar vMst1 * (- #30 * EVar vDmsqst1 * (#7 + #24 * EVar vlmMst1) + (#1429 - #454 * EVar vlmMst1 + #24 * EPow P2
   (EVar vlmMst1)) * EPow P2 (EVar vMst1)) * EPow P2 (EVar vs2t)) + #1920 * EVar vMst1 * (#349 - #56 * EVar vlmMst1 +
   #24 * EVar vlmMt - #32 * EPow P2 (EVar vlmMst1)) * EPow P2 (EVar vMt) * EPow P4 (EVar vMst2)) + #16 * EPow P2 (EVar
   vDmglst1) * (#2 * EVar vDmst12 * EVar vMt * (#15 * EVar vMst1 * EVar vs2t * (#954181 + #11256 * EVar vlmMst1 -
   #11520 * EPow P2 (EVar vlmMst1)) - #2 * EVar vMt * (- #6233611 - #58800 * EVar vlmMst1 + #4560 * EVar vlmMt +
   #14400 * EPow P2 (EVar vlmMst1))) * EPow P2 (EVar vMst2) + EPow P2 (EVar vDmst12) * (#30 * EVar vMst1 * EVar vMt *
   EVar vs2t * (- #954181 - #11256 * EVar vlmMst1 + #11520 * EPow P2 (EVar vlmMst1)) + #4 * (- #6233611 - #58800 *
   EVar vlmMst1 + #4560 * EVar vlmMt + #14400 * EPow P2 (EVar vlmMst1)) * EPow P2 (EVar vMt) + #15 * (#655743 + #5288
   * EVar vlmMst1 - #11820 * EPow P2 (EVar vlmMst1)) * EPow P2 (EVar vMst1) * EPow P2 (EVar vs2t)) - #50 * (- #230009
   - #4704 * EVar vlmMst1 + #480 * EVar vlmMt + #1152 * EPow P2 (EVar vlmMst1)) * EPow P2 (EVar vMt) * EPow P4 (EVar
   vMst2)))) / #16 + EPow P2 (EVar vMst1) * EPow P2 (EVar vMt) * (#15 * EPow P2 (EVar vDmst12) * EPow P2 (EVar vs2t) *
   EPow P2 (EVar vSbeta) * (#2 * EPow P2 (EVar vDmglst1) * (#1080 * EVar vDmsqst1 - #6 * (- #31901 + #5044 * EVar
   vlmMst1 - #400 * EVar vlmMt + #5100 * EPow P2 (EVar vlmMst1)) * EPow P2 (EVar vMst1) + (#655743 + #5288 * EVar
   vlmMst1 - #11820 * EPow P2 (EVar vlmMst1)) * EPow P2 (EVar vMuSUSY)) + #5 * EVar vDmglst1 * EVar vMst1 * (#22560 *
   EVar vDmsqst1 + #24 * (- #4515 + #596 * EVar vlmMst1 - #48 * EVar vlmMt + #516 * EPow P2 (EVar vlmMst1)) * EPow P2
   (EVar vMst1) + (#84209 + #1264 * EVar vlmMst1 - #240 * EPow P2 (EVar vlmMst1)) * EPow P2 (EVar vMuSUSY)) - #10 *
   ((- #1429 + #454 * EVar vlmMst1 - #24 * EPow P2 (EVar vlmMst1)) * EPow P2 (EVar vMst1) * EPow P2 (EVar vMuSUSY) +
   #30 * EVar vDmsqst1 * (#12 * (#1 + #12 * EVar vlmMst1) * EPow P2 (EVar vMst1) + (#7 + #24 * EVar vlmMst1) * EPow P2
   (EVar vMuSUSY)) + #24 * (#613 - EVar vlmMst1 + #36 * EVar vlmMt + #21 * EPow P2 (EVar vlmMst1)) * EPow P4 (EVar
   vMst1))) / #2 + #13500 * (EVar vDmsqst1 * (#3 - #2 * EVar vlmMst1) + (#1 - #2 * EVar vlmMst1) * EPow P2 (EVar
   vMst1)) * (EPow P2 (EVar vDmst12) * EPow P2 (EVar vs2t) * (- ((EVar vshiftst1 + EVar vshiftst2) * EPow P2 (EVar
   vMuSUSY) * (- #1 + EPow P2 (EVar vSbeta))) + #6 * (- #3 * EVar vshiftst1 + EVar vshiftst2) * EPow P2 (EVar vMst1) *
   EPow P2 (EVar vSbeta)) + #2 * EVar vDmst12 * EPow P2 (EVar vMst2) * ((EVar vshiftst1 - EVar vshiftst2) * EPow P2
   (EVar vMuSUSY) * EPow P2 (EVar vs2t) * (- #1 + EPow P2 (EVar vSbeta)) + #12 * (EVar vshiftst2 * EPow P2 (EVar vMt)
   + (EVar vshiftst1 - EVar vshiftst2) * EPow P2 (EVar vMst1) * EPow P2 (EVar vs2t)) * EPow P2 (EVar vSbeta)) + #24 *
   (EVar vshiftst1 + EVar vshiftst2) * EPow P2 (EVar vMt) * EPow P2 (EVar vSbeta) * EPow P4 (EVar vMst2))) + EPow P2
   (EVar vSbeta) * EPow P3 (EVar vMt) * (#784 * EVar vDmst12 * EVar vs2t * (#2 * EVar vMst1 * EPow P2 (EVar vDmglst1)
   * (#3600 * EVar vDmsqst1 * (#397 - #30 * EVar vlmMst1 + #30 * EVar vlmMt) * (EVar vDmst12 - EPow P2 (EVar vMst2)) +
   #5 * EPow P2 (EVar vMst2) * (- #8 * (- #6041999 - #49410 * EVar vlmMt + #6 * EVar vlmMst1 * (#1721 + #1290 * EVar
   vlmMt) + #111060 * EPow P2 (EVar vlmMst1) + #10800 * EPow P2 (EVar vlmMt)) * EPow P2 (EVar vMst1) + #15 * (#954181
   + #11256 * EVar vlmMst1 - #11520 * EPow P2 (EVar vlmMst1)) * EPow P2 (EVar vMuSUSY)) + EVar vDmst12 * ((#263717842
   - #633600 * EVar vlmMt + #2400 * EVar vlmMst1 * (#1043 + #93 * EVar vlmMt) - #525600 * EPow P2 (EVar vlmMst1) +
   #302400 * EPow P2 (EVar vlmMt)) * EPow P2 (EVar vMst1) + #75 * (- #954181 - #11256 * EVar vlmMst1 + #11520 * EPow
   P2 (EVar vlmMst1)) * EPow P2 (EVar vMuSUSY))) + #5 * EVar vDmglst1 * (#240 * EVar vDmsqst1 * (#25 * EPow P2 (EVar
   vMst2) * (#2 * (#55 + #6 * EVar vlmMst1 - #6 * EVar vlmMt) * EPow P2 (EVar vMst1) + #5 * EPow P2 (EVar vMuSUSY)) -
   EVar vDmst12 * (#4 * (#379 + #15 * EVar vlmMst1 - #15 * EVar vlmMt) * EPow P2 (EVar vMst1) + #125 * EPow P2 (EVar
   vMuSUSY))) + EPow P2 (EVar vMst1) * (#300 * EPow P2 (EVar vMst2) * (#16 * (#4964 - #3 * EVar vlmMt - #5 * EVar
   vlmMst1 * (#55 + #24 * EVar vlmMt) + #21 * EPow P2 (EVar vlmMst1) + #36 * EPow P2 (EVar vlmMt)) * EPow P2 (EVar
   vMst1) + (#33261 - #532 * EVar vlmMst1 - #660 * EPow P2 (EVar vlmMst1)) * EPow P2 (EVar vMuSUSY)) + EVar vDmst12 *
   (#8 * (#4511549 + #9810 * EVar vlmMt + #6 * EVar vlmMst1 * (#14879 + #4710 * EVar vlmMt) - #117360 * EPow P2 (EVar
   vlmMst1) - #21600 * EPow P2 (EVar vlmMt)) * EPow P2 (EVar vMst1) - #15 * (- #949861 + #1944 * EVar vlmMst1 + #11520
   * EPow P2 (EVar vlmMst1)) * EPow P2 (EVar vMuSUSY)))) - #375 * (- #80 * EVar vDmsqst1 * EVar vMst1 * (EVar vDmst12
   * ((- #98 + #24 * EVar vlmMst1 - #24 * EVar vlmMt) * EPow P2 (EVar vMst1) - #21 * EPow P2 (EVar vMuSUSY)) + #3 *
   EPow P2 (EVar vMst2) * ((#74 - #12 * EVar vlmMst1 + #12 * EVar vlmMt) * EPow P2 (EVar vMst1) + #7 * EPow P2 (EVar
   vMuSUSY))) + (- #8 * EPow P2 (EVar vMst2) * (#8 * (#347 - #50 * EVar vlmMst1 + #66 * EVar vlmMt - #66 * EVar
   vlmMst1 * EVar vlmMt + #183 * EPow P2 (EVar vlmMst1) + #108 * EPow P2 (EVar vlmMt)) * EPow P2 (EVar vMst1) + (#1361
   + #10 * EVar vlmMst1 + #54 * EPow P2 (EVar vlmMst1)) * EPow P2 (EVar vMuSUSY)) + EVar vDmst12 * (#16 * (- #4378 -
   #517 * EVar vlmMst1 + #243 * EVar vlmMt - #78 * EVar vlmMst1 * EVar vlmMt + #528 * EPow P2 (EVar vlmMst1) + #288 *
   EPow P2 (EVar vlmMt)) * EPow P2 (EVar vMst1) + #3 * (- #10473 + #40 * EVar vlmMst1 + #256 * EPow P2 (EVar vlmMst1))
   * EPow P2 (EVar vMuSUSY))) * EPow P3 (EVar vMst1))) + EVar vMt * (#784 * EVar vDmglst1 * EVar vMst1 * (#5 * EVar
   vDmst12 * EPow P2 (EVar vMst2) * (#8 * (#5136871 + #29790 * EVar vlmMt - #12 * EVar vlmMst1 * (#8942 + #4305 * EVar
   vlmMt) - #86040 * EPow P2 (EVar vlmMst1) - #21600 * EPow P2 (EVar vlmMt)) * EPow P2 (EVar vMst1) + #25 * (#403559 +
   #384 * (EVar vlmMst1 + EVar vlmMt) - #4608 * EPow P2 (EVar vlmMst1)) * EPow P2 (EVar vMuSUSY)) - EPow P2 (EVar
   vDmst12) * (#2 * (#22574599 + #21060 * EVar vlmMt - #60 * EVar vlmMst1 * (#6677 + #8880 * EVar vlmMt) - #1598400 *
   EPow P2 (EVar vlmMst1) - #172800 * EPow P2 (EVar vlmMt)) * EPow P2 (EVar vMst1) + #125 * (#403559 + #384 * (EVar
   vlmMst1 + EVar vlmMt) - #4608 * EPow P2 (EVar vlmMst1)) * EPow P2 (EVar vMuSUSY)) + #3000 * (- #4 * (- #15571 +
   #852 * EVar vlmMt + EVar vlmMst1 * (- #508 + #48 * EVar vlmMt) + #978 * EPow P2 (EVar vlmMst1) + #612 * EPow P2
   (EVar vlmMt)) * EPow P2 (EVar vMst1) + (#9631 + #16 * EVar vlmMst1 + #48 * EVar vlmMt - #192 * EPow P2 (EVar
   vlmMst1)) * EPow P2 (EVar vMuSUSY)) * EPow P4 (EVar vMst2) + #2400 * EVar vDmsqst1 * (#9 * EVar vDmst12 * (#423 -
   #20 * EVar vlmMst1 + #20 * EVar vlmMt) * (EVar vDmst12 - EPow P2 (EVar vMst2)) + #50 * (- #146 + #15 * EVar vlmMst1
   - #15 * EVar vlmMt) * EPow P4 (EVar vMst2))) + #16 * EPow P2 (EVar vDmglst1) * (#196 * EVar vDmst12 * EPow P2 (EVar
   vMst2) * ((#73908751 + #1029690 * EVar vlmMt + #540 * EVar vlmMst1 * (#2243 + #295 * EVar vlmMt) + #707400 * EPow
   P2 (EVar vlmMst1) + #64800 * EPow P2 (EVar vlmMt)) * EPow P2 (EVar vMst1) + #5 * (#6233611 + #58800 * EVar vlmMst1
   - #4560 * EVar vlmMt - #14400 * EPow P2 (EVar vlmMst1)) * EPow P2 (EVar vMuSUSY)) - EPow P2 (EVar vDmst12) *
   ((#13564884271 + #96403020 * EVar vlmMt + #60 * EVar vlmMst1 * (#968629 + #101640 * EVar vlmMt) - #288338400 * EPow
   P2 (EVar vlmMst1)) * EPow P2 (EVar vMst1) + #980 * (#6233611 + #58800 * EVar vlmMst1 - #4560 * EVar vlmMt - #14400
   * EPow P2 (EVar vlmMst1)) * EPow P2 (EVar vMuSUSY)) + #490 * (#16 * (#2055923 + #54 * EVar vlmMst1 * (#1162 - #445
   * EVar vlmMt) + #61695 * EVar vlmMt - #6345 * EPow P2 (EVar vlmMst1) + #12150 * EPow P2 (EVar vlmMt)) * EPow P2
   (EVar vMst1) + #25 * (#230009 + #4704 * EVar vlmMst1 - #480 * EVar vlmMt - #1152 * EPow P2 (EVar vlmMst1)) * EPow
   P2 (EVar vMuSUSY)) * EPow P4 (EVar vMst2) + #35280 * EVar vDmsqst1 * (EVar vDmst12 * (#457 + #510 * EVar vlmMst1 -
   #510 * EVar vlmMt) * (EVar vDmst12 - EPow P2 (EVar vMst2)) - #70 * (#34 + #15 * EVar vlmMst1 - #15 * EVar vlmMt) *
   EPow P4 (EVar vMst2))) + #245 * EPow P2 (EVar vMst1) * (#2400 * EVar vDmst12 * EPow P2 (EVar vMst2) * (#4 * (- #4 *
   EVar vlmMst1 * (#131 + #264 * EVar vlmMt) + #264 * EPow P2 (EVar vlmMst1) + #21 * (#783 + #14 * EVar vlmMt + #30 *
   EPow P2 (EVar vlmMt))) * EPow P2 (EVar vMst1) + (#11389 - #704 * EVar vlmMst1 + #192 * EVar vlmMt - #384 * EPow P2
   (EVar vlmMst1)) * EPow P2 (EVar vMuSUSY)) + EPow P2 (EVar vDmst12) * (- #64 * (- #93973 + #61305 * EVar vlmMt - #54
   * EVar vlmMst1 * (#2337 + #1255 * EVar vlmMt) + #48420 * EPow P2 (EVar vlmMst1) + #58050 * EPow P2 (EVar vlmMt)) *
   EPow P2 (EVar vMst1) + #15 * (#852541 + #9216 * EVar vlmMst1 - #10240 * EVar vlmMt + #6144 * EPow P2 (EVar
   vlmMst1)) * EPow P2 (EVar vMuSUSY)) + #9600 * (#3 * (#349 - #56 * EVar vlmMst1 + #24 * EVar vlmMt - #32 * EPow P2
   (EVar vlmMst1)) * EPow P2 (EVar vMuSUSY) + #4 * EPow P2 (EVar vMst1) * (#623 - #555 * EVar vlmMt - #3 * (#221 +
   #129 * EVar vlmMt) * EPow P2 (EVar vlmMst1) - #486 * EPow P2 (EVar vlmMt) + EVar vlmMst1 * (#1066 + #843 * EVar
   vlmMt + #756 * EPow P2 (EVar vlmMt)) + #252 * EPow P3 (EVar vlmMst1) - #621 * EPow P3 (EVar vlmMt))) * EPow P4
   (EVar vMst2) + #960 * EVar vDmsqst1 * ((#4561 + #510 * EVar vlmMst1 - #510 * EVar vlmMt) * EPow P2 (EVar vDmst12) +
   #50 * EVar vDmst12 * (#79 + #204 * EVar vlmMst1 + #12 * EVar vlmMt) * EPow P2 (EVar vMst2) - #1800 * (#14 + #6 *
   EVar vlmMt - #6 * EVar vlmMst1 * (#3 + EVar vlmMt) + #3 * (EPow P2 (EVar vlmMst1) + EPow P2 (EVar vlmMt))) * EPow
   P4 (EVar vMst2))))) / #3920 + #8100 * EVar vshiftst3 * EPow P4 (EVar vMst1) * (EVar vDmst12 * EPow P2 (EVar vMt) *
   EPow P2 (EVar vs2t) * (- #2 * (- #1 + #2 * EVar vlmMst1) * EPow P2 (EVar vMst2) * (EPow P2 (EVar vMuSUSY) * (- #1 +
   EPow P2 (EVar vSbeta)) + #12 * EPow P2 (EVar vMst1) * EPow P2 (EVar vSbeta)) + EVar vDmst12 * ((- #7 + #6 * EVar
   vlmMst1) * EPow P2 (EVar vMuSUSY) * (- #1 + EPow P2 (EVar vSbeta)) + #6 * (- #15 + #14 * EVar vlmMst1) * EPow P2
   (EVar vMst1) * EPow P2 (EVar vSbeta))) / #6 + #4 * EPow P2 (EVar vSbeta) * (- #2 * (- #2 + EVar vlmMst1) * EPow P2
   (EVar vDmst12) + EVar vDmst12 * (- #3 + #2 * EVar vlmMst1) * EPow P2 (EVar vMst2) + (#1 - #2 * EVar vlmMst1) * EPow
   P4 (EVar vMst2)) * EPow P4 (EVar vMt))))) + EPow P2 (EVar vMt) * (#64 * EVar vAl4p * (#2 * EVar vxDmglst1 * EPow P3
   (EVar vDmglst1) * (EVar vAl4p * EVar vDmst12 * EVar vthreeLoopFlag * EPow P2 (EVar vMst1) * (#2 * EVar vMt * EPow
   P2 (EVar vMst2) * (#5 * EVar vMt * (#4 * EVar vMst1 * EVar vTbeta * (#16826654 - #1921395 * EVar vlmMt - #3 * EVar
   vlmMst1 * (#555463 + #2520 * EVar vlmMt) + #4241160 * EPow P2 (EVar vlmMst1)) + #3 * EVar vMuSUSY * (#1417174939 -
   #401268 * EVar vlmMt + #4 * EVar vlmMst1 * (#4061413 + #37800 * EVar vlmMt) - #3185280 * EPow P2 (EVar vlmMst1) +
   #211680 * EPow P2 (EVar vlmMt))) * EPow P2 (EVar vSbeta) + #49 * EVar vs2t * (#2 * EVar vMst1 * (#75 * EVar vMuSUSY
   * (#520781 + #17172 * EVar vlmMst1 - #192 * EVar vlmMt - #11520 * EPow P2 (EVar vlmMst1)) + #4 * EVar vMst1 * EVar
   vTbeta * (#27088246 + #5775 * EVar vlmMt + #45 * EVar vlmMst1 * (#12571 + #270 * EVar vlmMt) - #136350 * EPow P2
   (EVar vlmMst1) + #16200 * EPow P2 (EVar vlmMt))) * EPow P2 (EVar vSbeta) + #5 * EVar vTbeta * (- ((- #14217821 -
   #161940 * EVar vlmMst1 + #28800 * EPow P2 (EVar vlmMst1)) * EPow P2 (EVar vMuSUSY) * (- #1 + EPow P2 (EVar
   vSbeta))) + #48 * EVar vDmsqst1 * (#1331 - #420 * EVar vlmMst1 + #420 * EVar vlmMt) * EPow P2 (EVar vSbeta)))) -
   EVar vDmst12 * ((#10 * (#4 * EVar vMst1 * EVar vTbeta * (#16826654 - #1921395 * EVar vlmMt - #3 * EVar vlmMst1 *
   (#555463 + #2520 * EVar vlmMt) + #4241160 * EPow P2 (EVar vlmMst1)) + #3 * EVar vMuSUSY * (#1417174939 - #401268 *
   EVar vlmMt + #4 * EVar vlmMst1 * (#4061413 + #37800 * EVar vlmMt) - #3185280 * EPow P2 (EVar vlmMst1) + #211680 *
   EPow P2 (EVar vlmMt))) * EPow P2 (EVar vMt) + #735 * (EVar vMuSUSY * (#14217821 + #161940 * EVar vlmMst1 - #28800 *
   EPow P2 (EVar vlmMst1)) + #10 * EVar vMst1 * EVar vTbeta * (- #520877 - #17172 * EVar vlmMst1 + #192 * EVar vlmMt +
   #11520 * EPow P2 (EVar vlmMst1))) * EPow P2 (EVar vMst1) * EPow P2 (EVar vs2t)) * EPow P2 (EVar vSbeta) + #2 * EVar
   vMt * EVar vs2t * (EVar vMst1 * (- #7350 * EVar vMuSUSY * (- #520781 - #17172 * EVar vlmMst1 + #192 * EVar vlmMt +
   #11520 * EPow P2 (EVar vlmMst1)) + EVar vMst1 * EVar vTbeta * (- #10642041163 + #11458020 * EVar vlmMt + #60 * EVar
   vlmMst1 * (- #346639 + #41580 * EVar vlmMt) - #5670000 * EPow P2 (EVar vlmMst1) + #3175200 * EPow P2 (EVar vlmMt)))
   * EPow P2 (EVar vSbeta) + #245 * EVar vTbeta * (- ((- #14217821 - #161940 * EVar vlmMst1 + #28800 * EPow P2 (EVar
   vlmMst1)) * EPow P2 (EVar vMuSUSY) * (- #1 + EPow P2 (EVar vSbeta))) + #48 * EVar vDmsqst1 * (#1331 - #420 * EVar
   vlmMst1 + #420 * EVar vlmMt) * EPow P2 (EVar vSbeta))))) / #98 + #2 * EVar vAl4p * EVar vthreeLoopFlag * EPow P2
   (EVar vMt) * (#120 * EVar vDmsqst1 * ((#1541 - #420 * EVar vlmMst1 + #420 * EVar vlmMt) * EVar vMuSUSY + (#2579 +
   #120 * EVar vlmMst1 - #120 * EVar vlmMt) * EVar vMst1 * EVar vTbeta) * EPow P2 (EVar vSbeta) + EVar vMst1 * (#5 *
   (#2219399 + #9600 * EVar vlmMst1 + #960 * EVar vlmMt) * EVar vTbeta * EPow P2 (EVar vMuSUSY) * (- #1 + EPow P2
   (EVar vSbeta)) + #2 * EVar vMst1 * (EVar vMst1 * EVar vTbeta * (#10583177 + #60630 * EVar vlmMt + #540 * EVar
   vlmMst1 * (#188 + #395 * EVar vlmMt) + #278100 * EPow P2 (EVar vlmMst1) - #59400 * EPow P2 (EVar vlmMt)) + EVar
   vMuSUSY * (#54198467 + #43950 * EVar vlmMt + #180 * EVar vlmMst1 * (#6353 + #135 * EVar vlmMt) - #272700 * EPow P2
   (EVar vlmMst1) + #32400 * EPow P2 (EVar vlmMt))) * EPow P2 (EVar vSbeta))) * EPow P4 (EVar vMst2) + #45 * EVar
   vtwoLoopFlag * EPow P2 (EVar vMst1) * (#2 * EVar vDmst12 * EVar vMt * EPow P2 (EVar vMst2) * (#40 * EVar vs2t *
   EVar vTbeta * EPow P2 (EVar vMuSUSY) * (- #1 + EPow P2 (EVar vSbeta)) + EVar vMt * ((#181 - #90 * EVar vlmMst1 +
   #90 * EVar vlmMt) * EVar vMuSUSY + #800 * EVar vMst1 * EVar vTbeta) * EPow P2 (EVar vSbeta) - #6 * EVar vMst1 *
   EVar vs2t * (#110 * EVar vMuSUSY + (- #17 + #30 * EVar vlmMst1 - #30 * EVar vlmMt) * EVar vMst1 * EVar vTbeta) *
   EPow P2 (EVar vSbeta)) - #2 * EPow P2 (EVar vDmst12) * ((((#181 - #90 * EVar vlmMst1 + #90 * EVar vlmMt) * EVar
   vMuSUSY + #800 * EVar vMst1 * EVar vTbeta) * EPow P2 (EVar vMt) + #30 * (#2 * EVar vMuSUSY + #11 * EVar vMst1 *
   EVar vTbeta) * EPow P2 (EVar vMst1) * EPow P2 (EVar vs2t)) * EPow P2 (EVar vSbeta) - #2 * EVar vMt * EVar vs2t * (-
   #20 * EVar vTbeta * EPow P2 (EVar vMuSUSY) * (- #1 + EPow P2 (EVar vSbeta)) + EVar vMst1 * (#330 * EVar vMuSUSY +
   (#17 + #45 * EVar vlmMst1 - #45 * EVar vlmMt) * EVar vMst1 * EVar vTbeta) * EPow P2 (EVar vSbeta))) + #8 * ((#48 -
   #45 * EVar vlmMst1 + #45 * EVar vlmMt) * EVar vMuSUSY + (#377 - #30 * EVar vlmMst1 + #30 * EVar vlmMt) * EVar vMst1
   * EVar vTbeta) * EPow P2 (EVar vMt) * EPow P2 (EVar vSbeta) * EPow P4 (EVar vMst2))) - #45 * EVar vtwoLoopFlag *
   EPow P3 (EVar vMst1) * (#2 * EVar vMuSUSY * EPow P2 (EVar vSbeta) * (- #25 * EPow P2 (EVar vMst1) * (#4 * EVar
   vDmst12 * EVar vMt * (#2 * (#5 + #6 * EVar vlmMst1 + #3 * EVar vlmMt) * EVar vMt - #9 * (#1 + #2 * EVar vlmMst1) *
   EVar vMst1 * EVar vs2t) * EPow P2 (EVar vMst2) - EPow P2 (EVar vDmst12) * (#24 * (#1 - #3 * EVar vlmMst1) * EVar
   vMst1 * EVar vMt * EVar vs2t + #2 * (#5 + #6 * (EVar vlmMst1 + EVar vlmMt)) * EPow P2 (EVar vMt) + #9 * (#1 + #2 *
   EVar vlmMst1) * EPow P2 (EVar vMst1) * EPow P2 (EVar vs2t)) + #72 * (#1 + EVar vlmMst1 + EVar vlmMt) * EPow P2
   (EVar vMt) * EPow P4 (EVar vMst2)) + #2 * EPow P2 (EVar vDmglst1) * (#3 * EVar vDmst12 * EVar vMt * ((#327 - #30 *
   EVar vlmMst1 + #30 * EVar vlmMt) * EVar vMt + #50 * (#11 - #6 * EVar vlmMst1) * EVar vMst1 * EVar vs2t) * EPow P2
   (EVar vMst2) + #9 * EPow P2 (EVar vDmst12) * (#5 * EVar vMst1 * EVar vMt * EVar vs2t + (- #109 + #10 * EVar vlmMst1
   - #10 * EVar vlmMt) * EPow P2 (EVar vMt) - #25 * EPow P2 (EVar vMst1) * EPow P2 (EVar vs2t)) + #100 * (#17 - #3 *
   EVar vlmMst1 + #3 * EVar vlmMt) * EPow P2 (EVar vMt) * EPow P4 (EVar vMst2)) + EVar vDmglst1 * EVar vMst1 * (- #300
   * EVar vDmst12 * EVar vMt * ((- #3 + #6 * EVar vlmMst1) * EVar vMt + #2 * (- #1 + #6 * EVar vlmMst1) * EVar vMst1 *
   EVar vs2t) * EPow P2 (EVar vMst2) + #3 * EPow P2 (EVar vDmst12) * (- #100 * EVar vMst1 * EVar vMt * EVar vs2t + #2
   * (- #41 + #90 * EVar vlmMst1 + #10 * EVar vlmMt) * EPow P2 (EVar vMt) + #25 * (- #5 + #6 * EVar vlmMst1) * EPow P2
   (EVar vMst1) * EPow P2 (EVar vs2t)) - #200 * (- #7 + #15 * EVar vlmMst1 + #3 * EVar vlmMt) * EPow P2 (EVar vMt) *
   EPow P4 (EVar vMst2))) + EVar vTbeta * (#25 * EVar vDmst12 * EVar vs2t * (#2 * EPow P2 (EVar vDmglst1) * (#12 *
   EVar vDmst12 * EVar vMt * EPow P2 (EVar vMuSUSY) - #12 * EVar vMt * EPow P2 (EVar vMst2) * EPow P2 (EVar vMuSUSY) -
   EVar vDmst12 * (- #11 + #6 * EVar vlmMst1) * EVar vMst1 * EVar vs2t * (EPow P2 (EVar vMuSUSY) * (- #1 + EPow P2
   (EVar vSbeta)) + #6 * EPow P2 (EVar vMst1) * EPow P2 (EVar vSbeta))) - #4 * EVar vDmglst1 * EVar vMst1 * ((#5 - #6
   * EVar vlmMst1) * EVar vMt * EPow P2 (EVar vMst2) * EPow P2 (EVar vMuSUSY) + #2 * EVar vDmst12 * EVar vMst1 * EVar
   vs2t * ((- #1 + #3 * EVar vlmMst1) * EPow P2 (EVar vMuSUSY) * (- #1 + EPow P2 (EVar vSbeta)) + #3 * (- #1 + #6 *
   EVar vlmMst1) * EPow P2 (EVar vMst1) * EPow P2 (EVar vSbeta))) + EPow P2 (EVar vMst1) * (#12 * (#1 + #2 * EVar
   vlmMst1) * EVar vMt * EPow P2 (EVar vMst2) * EPow P2 (EVar vMuSUSY) + EVar vDmst12 * (#4 * EVar vMt * EPow P2 (EVar
   vMuSUSY) + #3 * EVar vMst1 * EVar vs2t * EPow P2 (EVar vMuSUSY) * (- #1 + EPow P2 (EVar vSbeta)) + #36 * (#1 + #2 *
   EVar vlmMst1) * EVar vs2t * EPow P2 (EVar vSbeta) * EPow P3 (EVar vMst1)))) + EPow P2 (EVar vSbeta) * (- #4 * EVar
   vDmst12 * EVar vMt * EVar vs2t * (#2 * EPow P2 (EVar vDmglst1) * (- #25 * EPow P2 (EVar vMst2) * ((#31 - #6 * EVar
   vlmMst1 + #6 * EVar vlmMt) * EPow P2 (EVar vMst1) + #3 * EPow P2 (EVar vMuSUSY)) + EVar vDmst12 * ((#307 - #105 *
   EVar vlmMst1 + #105 * EVar vlmMt) * EPow P2 (EVar vMst1) + #75 * EPow P2 (EVar vMuSUSY))) - #25 * EPow P2 (EVar
   vMst1) * (EVar vDmst12 * (#4 * (#1 + #3 * EVar vlmMst1 + #6 * EVar vlmMt) * EPow P2 (EVar vMst1) - EPow P2 (EVar
   vMuSUSY)) - #3 * EPow P2 (EVar vMst2) * (#6 * (#1 + #2 * (EVar vlmMst1 + EVar vlmMt)) * EPow P2 (EVar vMst1) + (#1
   + #2 * EVar vlmMst1) * EPow P2 (EVar vMuSUSY))) + #25 * EVar vDmglst1 * (EVar vMst1 * EPow P2 (EVar vMst2) * (#2 *
   (- #17 + #30 * EVar vlmMst1 + #6 * EVar vlmMt) * EPow P2 (EVar vMst1) + (- #5 + #6 * EVar vlmMst1) * EPow P2 (EVar
   vMuSUSY)) - #4 * EVar vDmst12 * (- #4 + #6 * EVar vlmMst1 + #3 * EVar vlmMt) * EPow P3 (EVar vMst1))) - #2 * EVar
   vMst1 * EPow P2 (EVar vMt) * (#6 * EPow P2 (EVar vDmglst1) * (#35 * EPow P2 (EVar vDmst12) + #3 * EVar vDmst12 *
   (#159 - #110 * EVar vlmMst1 + #10 * EVar vlmMt) * EPow P2 (EVar vMst2) + #200 * (#4 - #3 * EVar vlmMst1) * EPow P4
   (EVar vMst2)) - #4 * EVar vDmglst1 * EVar vMst1 * ((#11 + #60 * EVar vlmMst1 - #60 * EVar vlmMt) * EPow P2 (EVar
   vDmst12) + #25 * EVar vDmst12 * (#1 + #30 * EVar vlmMst1 + #6 * EVar vlmMt) * EPow P2 (EVar vMst2) + #100 * (#1 +
   #12 * EVar vlmMst1 + #6 * EVar vlmMt) * EPow P4 (EVar vMst2)) - #25 * EPow P2 (EVar vMst1) * ((#5 + #42 * EVar
   vlmMst1 + #30 * EVar vlmMt) * EPow P2 (EVar vDmst12) - #8 * EVar vDmst12 * (#4 + #3 * EVar vlmMst1 + #6 * EVar
   vlmMt) * EPow P2 (EVar vMst2) - #72 * (#1 + EVar vlmMst1 - EVar vlmMt + #2 * EVar vlmMst1 * EVar vlmMt + EPow P2
   (EVar vlmMst1) - #3 * EPow P2 (EVar vlmMt)) * EPow P4 (EVar vMst2))))))) + #81000 * EVar voneLoopFlag * (#12 * EVar
   vDmst12 * EVar vMt * EVar vMuSUSY * EVar vs2t * (EVar vDmst12 - #2 * EPow P2 (EVar vMst2)) * EPow P2 (EVar vSbeta)
   - EVar vTbeta * EPow P2 (EVar vDmst12) * EPow P2 (EVar vs2t) * (EPow P2 (EVar vMuSUSY) * (- #1 + EPow P2 (EVar
   vSbeta)) + #12 * EPow P2 (EVar vMst1) * EPow P2 (EVar vSbeta)) - #12 * EVar vTbeta * EPow P2 (EVar vMt) * EPow P2
   (EVar vSbeta) * (EPow P2 (EVar vDmst12) - #2 * EVar vDmst12 * EPow P2 (EVar vMst2) + #4 * (- EVar vlmMst1 + EVar
   vlmMt) * EPow P4 (EVar vMst2))) * EPow P6 (EVar vMst1))) - #225 * EVar vMst1 * EVar vthreeLoopFlag * EPow P2 (EVar
   vAl4p) * (- #5 * EVar vMt * EConst Cz3 * (EVar vMt * EPow P2 (EVar vMst2) * (- #64 * EVar vxDmglst1 * EPow P3 (EVar
   vDmglst1) * (EVar vDmst12 * EVar vMst1 * (- (EVar vDmst12 * ((#9 * (#71189 * EVar vMuSUSY + #1240 * EVar vMst1 *
   EVar vTbeta) * EPow P2 (EVar vMt) + #33 * (#4789 * EVar vMuSUSY - #1738 * EVar vMst1 * EVar vTbeta) * EPow P2 (EVar
   vMst1) * EPow P2 (EVar vs2t)) * EPow P2 (EVar vSbeta) + EVar vMt * EVar vs2t * (#105358 * EVar vTbeta * EPow P2
   (EVar vMuSUSY) * (- #1 + EPow P2 (EVar vSbeta)) + #3 * EVar vMst1 * (#38236 * EVar vMuSUSY - #107331 * EVar vMst1 *
   EVar vTbeta) * EPow P2 (EVar vSbeta)))) + EVar vMt * EPow P2 (EVar vMst2) * (#9 * EVar vMt * (#71189 * EVar vMuSUSY
   + #1240 * EVar vMst1 * EVar vTbeta) * EPow P2 (EVar vSbeta) + #2 * EVar vs2t * (#52679 * EVar vTbeta * EPow P2
   (EVar vMuSUSY) * (- #1 + EPow P2 (EVar vSbeta)) + #6 * EVar vMst1 * (#9559 * EVar vMuSUSY + #26559 * EVar vMst1 *
   EVar vTbeta) * EPow P2 (EVar vSbeta)))) + #6 * EPow P2 (EVar vMt) * (#5511 * EVar vTbeta * EPow P2 (EVar vMuSUSY) *
   (- #1 + EPow P2 (EVar vSbeta)) + #2 * EVar vMst1 * (#26559 * EVar vMuSUSY + #5282 * EVar vMst1 * EVar vTbeta) *
   EPow P2 (EVar vSbeta)) * EPow P4 (EVar vMst2)) - EVar vMst1 * EVar vTbeta * EPow P2 (EVar vMuSUSY) * (#16 * EVar
   vDmst12 * EVar vMst1 * EVar vMt * EVar vs2t * (#210810 * EPow P2 (EVar vDmglst1) * (EVar vDmst12 - EPow P2 (EVar
   vMst2)) - EPow P2 (EVar vMst1) * (#17285 * EVar vDmst12 + #6024 * EPow P2 (EVar vMst2)) - EVar vDmglst1 * EVar
   vMst1 * (#105405 * EVar vDmst12 + #75164 * EPow P2 (EVar vMst2))) - #8 * EPow P2 (EVar vDmst12) * EPow P2 (EVar
   vMst1) * (- #1260 * EVar vDmsqst1 + #50485 * EVar vDmglst1 * EVar vMst1 + #149630 * EPow P2 (EVar vDmglst1) + #2574
   * EPow P2 (EVar vMst1)) * EPow P2 (EVar vs2t) + #3 * EPow P2 (EVar vMt) * (#96 * EPow P2 (EVar vDmglst1) * (#10226
   * EPow P2 (EVar vDmst12) - #10226 * EVar vDmst12 * EPow P2 (EVar vMst2) - #4715 * EPow P4 (EVar vMst2)) + #48 *
   EVar vDmglst1 * EVar vMst1 * (#8213 * EPow P2 (EVar vDmst12) - #8213 * EVar vDmst12 * EPow P2 (EVar vMst2) - #4664
   * EPow P4 (EVar vMst2)) - EPow P2 (EVar vMst1) * (#31963 * EPow P2 (EVar vDmst12) + #68000 * EVar vDmst12 * EPow P2
   (EVar vMst2) + #24064 * EPow P4 (EVar vMst2)))) + EVar vMst1 * EVar vTbeta * EPow P2 (EVar vSbeta) * (- #16 * EVar
   vDmst12 * EVar vMst1 * EVar vMt * EVar vs2t * (EPow P2 (EVar vMst1) * (#12 * EVar vDmst12 * (#22100 * EVar vDmglst1
   * EVar vMst1 + #64701 * EPow P2 (EVar vDmglst1) + #3290 * EPow P2 (EVar vMst1)) + #96 * (#1963 * EVar vDmglst1 *
   EVar vMst1 + #7488 * EPow P2 (EVar vDmglst1) + #106 * EPow P2 (EVar vMst1)) * EPow P2 (EVar vMst2)) + (- #210810 *
   EPow P2 (EVar vDmglst1) * (EVar vDmst12 - EPow P2 (EVar vMst2)) + EPow P2 (EVar vMst1) * (#17285 * EVar vDmst12 +
   #6024 * EPow P2 (EVar vMst2)) + EVar vDmglst1 * EVar vMst1 * (#105405 * EVar vDmst12 + #75164 * EPow P2 (EVar
   vMst2))) * EPow P2 (EVar vMuSUSY)) - #8 * EPow P2 (EVar vDmst12) * EPow P2 (EVar vMst1) * EPow P2 (EVar vs2t) * (#2
   * EPow P2 (EVar vDmglst1) * (#37158 * EPow P2 (EVar vMst1) + #74815 * EPow P2 (EVar vMuSUSY)) + EVar vDmglst1 *
   (#50485 * EVar vMst1 * EPow P2 (EVar vMuSUSY) - #34776 * EPow P3 (EVar vMst1)) - #18 * (- #143 * EPow P2 (EVar
   vMst1) * EPow P2 (EVar vMuSUSY) + #70 * EVar vDmsqst1 * (#4 * EPow P2 (EVar vMst1) + EPow P2 (EVar vMuSUSY)) + #440
   * EPow P4 (EVar vMst1))) + #3 * EPow P2 (EVar vMt) * (- #512 * (#2517 * EVar vDmglst1 + #2 * (- #107 + #12 * EVar
   vlmMst1 - #12 * EVar vlmMt) * EVar vMst1) * EPow P3 (EVar vMst1) * EPow P4 (EVar vMst2) + #48 * EPow P2 (EVar
   vMst1) * (EPow P2 (EVar vDmst12) * (- #420 * EVar vDmsqst1 + #6970 * EVar vDmglst1 * EVar vMst1 + #45397 * EPow P2
   (EVar vDmglst1) - #614 * EPow P2 (EVar vMst1)) - #8 * EVar vDmst12 * (#105 * EVar vDmsqst1 + #3864 * EVar vDmglst1
   * EVar vMst1 + #5666 * EPow P2 (EVar vDmglst1) + #855 * EPow P2 (EVar vMst1)) * EPow P2 (EVar vMst2) - #48400 *
   EPow P2 (EVar vDmglst1) * EPow P4 (EVar vMst2)) + EPow P2 (EVar vMuSUSY) * (#96 * EPow P2 (EVar vDmglst1) * (#10226
   * EPow P2 (EVar vDmst12) - #10226 * EVar vDmst12 * EPow P2 (EVar vMst2) - #4715 * EPow P4 (EVar vMst2)) + #48 *
   EVar vDmglst1 * EVar vMst1 * (#8213 * EPow P2 (EVar vDmst12) - #8213 * EVar vDmst12 * EPow P2 (EVar vMst2) - #4664
   * EPow P4 (EVar vMst2)) - EPow P2 (EVar vMst1) * (#31963 * EPow P2 (EVar vDmst12) + #68000 * EVar vDmst12 * EPow P2
   (EVar vMst2) + #24064 * EPow P4 (EVar vMst2))))) + #16 * EVar vMst1 * EPow P2 (EVar vSbeta) * (#315 * EVar
   vxDmsqst1 * EPow P2 (EVar vDmsqst1) * (#7 * EVar vs2t * EPow P2 (EVar vDmst12) * (- #2 * EVar vMt * EVar vMuSUSY +
   EVar vs2t * EVar vTbeta * EPow P2 (EVar vMst1)) + #14 * EVar vDmst12 * EVar vMt * EVar vMuSUSY * EVar vs2t * EPow
   P2 (EVar vMst2) + #12 * EVar vTbeta * EPow P2 (EVar vMt) * (EPow P2 (EVar vDmst12) - EVar vDmst12 * EPow P2 (EVar
   vMst2) - #2 * EPow P4 (EVar vMst2))) + EVar vMst1 * EVar vMuSUSY * (#6 * EVar vDmst12 * EVar vMst1 * EVar vMt *
   EVar vs2t * (#105 * EVar vDmsqst1 * (#7 * EVar vDmst12 + #8 * EPow P2 (EVar vMst2)) + #3 * EPow P2 (EVar vMst1) *
   (#403 * EVar vDmst12 + #440 * EPow P2 (EVar vMst2)) - #22 * EPow P2 (EVar vDmglst1) * (#2607 * EVar vDmst12 + #563
   * EPow P2 (EVar vMst2)) + EVar vDmglst1 * (- #7642 * EVar vDmst12 * EVar vMst1 + #5796 * EVar vMst1 * EPow P2 (EVar
   vMst2))) + #3 * EPow P2 (EVar vDmst12) * EPow P2 (EVar vMst1) * (#37582 * EVar vDmglst1 * EVar vMst1 + #105405 *
   EPow P2 (EVar vDmglst1) + #3012 * EPow P2 (EVar vMst1)) * EPow P2 (EVar vs2t) + EPow P2 (EVar vMt) * (#1404 * EPow
   P2 (EVar vDmglst1) * (#1065 * EPow P2 (EVar vDmst12) - #1065 * EVar vDmst12 * EPow P2 (EVar vMst2) - #512 * EPow P4
   (EVar vMst2)) - EPow P2 (EVar vMst1) * (#51181 * EPow P2 (EVar vDmst12) + #49656 * EVar vDmst12 * EPow P2 (EVar
   vMst2) + #10176 * EPow P4 (EVar vMst2)) - #4 * EVar vDmglst1 * EVar vMst1 * (#86833 * EPow P2 (EVar vDmst12) +
   #113412 * EVar vDmst12 * EPow P2 (EVar vMst2) + #47112 * EPow P4 (EVar vMst2)))))) - #2 * EVar vMst1 * EVar
   vxDmst12 * EPow P3 (EVar vDmst12) * (EPow P2 (EVar vSbeta) * (#5040 * EVar vMt * EVar vxDmsqst1 * EPow P2 (EVar
   vDmsqst1) * (- #7 * EVar vMt * EVar vMuSUSY * EVar vs2t + #6 * EVar vTbeta * EPow P2 (EVar vMt) + #7 * EVar vTbeta
   * EPow P2 (EVar vMst1) * EPow P2 (EVar vs2t)) + #4 * EVar vMst1 * EVar vMuSUSY * (EVar vMst1 * EVar vs2t * (#27720
   * EVar vDmsqst1 - #113856 * EVar vDmglst1 * EVar vMst1 - #1525128 * EPow P2 (EVar vDmglst1) + #32783 * EPow P2
   (EVar vMst1)) * EPow P2 (EVar vMt) - #3 * EVar vMt * EPow P2 (EVar vMst1) * (#30241 * EVar vDmglst1 * EVar vMst1 -
   #421620 * EPow P2 (EVar vDmglst1) + #11261 * EPow P2 (EVar vMst1)) * EPow P2 (EVar vs2t) + #4 * (- #574156 * EVar
   vDmglst1 * EVar vMst1 + #747630 * EPow P2 (EVar vDmglst1) - #76009 * EPow P2 (EVar vMst1)) * EPow P3 (EVar vMt) -
   (- #1260 * EVar vDmsqst1 + #50485 * EVar vDmglst1 * EVar vMst1 + #149630 * EPow P2 (EVar vDmglst1) + #2574 * EPow
   P2 (EVar vMst1)) * EPow P3 (EVar vMst1) * EPow P3 (EVar vs2t))) - #32 * EVar vxDmglst1 * EPow P3 (EVar vDmglst1) *
   (- #2 * EVar vs2t * EPow P2 (EVar vMt) * (#52679 * EVar vTbeta * EPow P2 (EVar vMuSUSY) * (- #1 + EPow P2 (EVar
   vSbeta)) - #237 * EVar vMst1 * (- #242 * EVar vMuSUSY + #2031 * EVar vMst1 * EVar vTbeta) * EPow P2 (EVar vSbeta))
   + EPow P2 (EVar vSbeta) * (#66 * EVar vMt * (- #4789 * EVar vMuSUSY + #1738 * EVar vMst1 * EVar vTbeta) * EPow P2
   (EVar vMst1) * EPow P2 (EVar vs2t) - #9 * (#71189 * EVar vMuSUSY + #1240 * EVar vMst1 * EVar vTbeta) * EPow P3
   (EVar vMt) + #52679 * EVar vTbeta * EPow P3 (EVar vs2t) * EPow P4 (EVar vMst1))) + EVar vTbeta * (#8 * EPow P2
   (EVar vDmglst1) * (#2 * EVar vMt * EPow P2 (EVar vMst1) * EPow P2 (EVar vs2t) * (- #74815 * EPow P2 (EVar vMuSUSY)
   * (- #1 + EPow P2 (EVar vSbeta)) + #67452 * EPow P2 (EVar vMst1) * EPow P2 (EVar vSbeta)) - #6 * EVar vMst1 * EVar
   vs2t * EPow P2 (EVar vMt) * (- #35135 * EPow P2 (EVar vMuSUSY) * (- #1 + EPow P2 (EVar vSbeta)) + #378612 * EPow P2
   (EVar vMst1) * EPow P2 (EVar vSbeta)) + #18 * (#10226 * EPow P2 (EVar vMuSUSY) * (- #1 + EPow P2 (EVar vSbeta)) +
   #22733 * EPow P2 (EVar vMst1) * EPow P2 (EVar vSbeta)) * EPow P3 (EVar vMt) - #105405 * EPow P2 (EVar vSbeta) *
   EPow P3 (EVar vs2t) * EPow P5 (EVar vMst1)) + EPow P2 (EVar vMst1) * (#8 * EVar vMst1 * EVar vs2t * EPow P2 (EVar
   vMt) * (- #40594 * EPow P2 (EVar vMuSUSY) * (- #1 + EPow P2 (EVar vSbeta)) + #11701 * EPow P2 (EVar vMst1) * EPow
   P2 (EVar vSbeta)) - #3 * (#65963 * EPow P2 (EVar vMuSUSY) * (- #1 + EPow P2 (EVar vSbeta)) + #4 * (#10080 * EVar
   vDmsqst1 + #11311 * EPow P2 (EVar vMst1)) * EPow P2 (EVar vSbeta)) * EPow P3 (EVar vMt) + EVar vMt * EPow P2 (EVar
   vs2t) * (#37669 * EPow P2 (EVar vMst1) * EPow P2 (EVar vMuSUSY) * (- #1 + EPow P2 (EVar vSbeta)) + #2520 * EVar
   vDmsqst1 * (#4 * EPow P2 (EVar vMuSUSY) * (- #1 + EPow P2 (EVar vSbeta)) + EPow P2 (EVar vMst1) * EPow P2 (EVar
   vSbeta)) + #2664 * EPow P2 (EVar vSbeta) * EPow P4 (EVar vMst1)) - #24096 * EPow P2 (EVar vSbeta) * EPow P3 (EVar
   vs2t) * EPow P5 (EVar vMst1)) - #8 * EVar vDmglst1 * EVar vMst1 * (EVar vMt * EPow P2 (EVar vMst1) * EPow P2 (EVar
   vs2t) * (#50485 * EPow P2 (EVar vMuSUSY) * (- #1 + EPow P2 (EVar vSbeta)) - #40314 * EPow P2 (EVar vMst1) * EPow P2
   (EVar vSbeta)) + EPow P2 (EVar vMt) * (#285974 * EVar vMst1 * EVar vs2t * EPow P2 (EVar vMuSUSY) * (- #1 + EPow P2
   (EVar vSbeta)) - #82132 * EVar vs2t * EPow P2 (EVar vSbeta) * EPow P3 (EVar vMst1)) - #9 * (#8213 * EPow P2 (EVar
   vMuSUSY) * (- #1 + EPow P2 (EVar vSbeta)) - #16972 * EPow P2 (EVar vMst1) * EPow P2 (EVar vSbeta)) * EPow P3 (EVar
   vMt) + #37582 * EPow P2 (EVar vSbeta) * EPow P3 (EVar vs2t) * EPow P5 (EVar vMst1))))) + #384 * EConst Cz2 * EPow
   P3 (EVar vMst1) * (EPow P2 (EVar vMst2) * (#15 * EVar vMuSUSY * EPow P2 (EVar vSbeta) * (#10 * EVar vMt * EVar vs2t
   * (EVar vDmsqst1 + EPow P2 (EVar vMst1)) * (- #8 * EVar vDmst12 * EVar vshiftst2 * EPow P2 (EVar vMst2) * EPow P2
   (EVar vMt) + (- EVar vshiftst1 + EVar vshiftst2) * EPow P2 (EVar vDmst12) * EPow P2 (EVar vMst1) * EPow P2 (EVar
   vs2t) + #8 * (EVar vshiftst1 - EVar vshiftst2) * EPow P2 (EVar vMt) * EPow P4 (EVar vMst2)) + EVar vshiftst3 * EPow
   P2 (EVar vMst1) * (- (EVar vMt * EPow P2 (EVar vDmst12) * EPow P2 (EVar vMst1) * EPow P3 (EVar vs2t)) + #8 * EVar
   vs2t * EPow P3 (EVar vMt) * (EPow P2 (EVar vDmst12) - EVar vDmst12 * EPow P2 (EVar vMst2) + EPow P4 (EVar vMst2))))
   + EVar vTbeta * (#50 * (EVar vDmsqst1 + EPow P2 (EVar vMst1)) * EPow P2 (EVar vMt) * (EPow P2 (EVar vDmst12) * EPow
   P2 (EVar vs2t) * (- ((EVar vshiftst1 + EVar vshiftst2) * EPow P2 (EVar vMuSUSY) * (- #1 + EPow P2 (EVar vSbeta))) +
   #6 * (- #3 * EVar vshiftst1 + EVar vshiftst2) * EPow P2 (EVar vMst1) * EPow P2 (EVar vSbeta)) + #2 * EVar vDmst12 *
   EPow P2 (EVar vMst2) * ((EVar vshiftst1 - EVar vshiftst2) * EPow P2 (EVar vMuSUSY) * EPow P2 (EVar vs2t) * (- #1 +
   EPow P2 (EVar vSbeta)) + #12 * (EVar vshiftst2 * EPow P2 (EVar vMt) + (EVar vshiftst1 - EVar vshiftst2) * EPow P2
   (EVar vMst1) * EPow P2 (EVar vs2t)) * EPow P2 (EVar vSbeta)) + #24 * (EVar vshiftst1 + EVar vshiftst2) * EPow P2
   (EVar vMt) * EPow P2 (EVar vSbeta) * EPow P4 (EVar vMst2)) + #5 * EVar vshiftst3 * EPow P2 (EVar vMst1) * (- (EVar
   vDmst12 * EPow P2 (EVar vMt) * EPow P2 (EVar vs2t) * ((#3 * EVar vDmst12 - #2 * EPow P2 (EVar vMst2)) * EPow P2
   (EVar vMuSUSY) * (- #1 + EPow P2 (EVar vSbeta)) + #6 * EPow P2 (EVar vMst1) * (#7 * EVar vDmst12 - #4 * EPow P2
   (EVar vMst2)) * EPow P2 (EVar vSbeta))) + #24 * EPow P2 (EVar vSbeta) * (EPow P2 (EVar vDmst12) - EVar vDmst12 *
   EPow P2 (EVar vMst2) + EPow P4 (EVar vMst2)) * EPow P4 (EVar vMt)))) - EVar vxDmst12 * EPow P3 (EVar vDmst12) * (#2
   * EPow P2 (EVar vMst1) * EPow P2 (EVar vMt) * (- ((#15 * EVar vshiftst1 + #10 * EVar vshiftst2 + #9 * EVar
   vshiftst3) * EVar vTbeta * EPow P2 (EVar vMuSUSY) * EPow P2 (EVar vs2t) * (- #1 + EPow P2 (EVar vSbeta))) + #60 *
   EVar vMt * EVar vshiftst3 * (EVar vMuSUSY * EVar vs2t + EVar vMt * EVar vTbeta) * EPow P2 (EVar vSbeta)) + #50 *
   EVar vDmsqst1 * (- #4 * EVar vshiftst2 * EPow P2 (EVar vMt) * (EVar vTbeta * EPow P2 (EVar vMuSUSY) * EPow P2 (EVar
   vs2t) * (- #1 + EPow P2 (EVar vSbeta)) + #6 * EVar vMt * (EVar vMuSUSY * EVar vs2t - EVar vMt * EVar vTbeta) * EPow
   P2 (EVar vSbeta)) + EPow P2 (EVar vSbeta) * (#2 * EVar vMt * (EVar vMuSUSY * EVar vs2t * (- #2 * EVar vshiftst1 +
   EVar vshiftst2) + #2 * EVar vMt * (- #4 * EVar vshiftst1 + EVar vshiftst2) * EVar vTbeta) * EPow P2 (EVar vMst1) *
   EPow P2 (EVar vs2t) + (EVar vshiftst1 - EVar vshiftst2) * EVar vTbeta * EPow P4 (EVar vMst1) * EPow P4 (EVar
   vs2t))) + EPow P2 (EVar vSbeta) * (- #5 * EVar vMt * (EVar vMuSUSY * EVar vs2t * (#40 * EVar vshiftst1 - #20 * EVar
   vshiftst2 + #7 * EVar vshiftst3) + #2 * EVar vMt * (#80 * EVar vshiftst1 - #20 * EVar vshiftst2 + #29 * EVar
   vshiftst3) * EVar vTbeta) * EPow P2 (EVar vs2t) * EPow P4 (EVar vMst1) + #5 * (#10 * EVar vshiftst1 - #10 * EVar
   vshiftst2 + EVar vshiftst3) * EVar vTbeta * EPow P4 (EVar vs2t) * EPow P6 (EVar vMst1)))))) / (#3888000 * EVar
   vTbeta * EPow P2 (EVar vSbeta) * EPow P6 (EVar vMst1) * EPow P6 (EVar vMst2)).

(** H32q2g.cpp:611-819 *)
Definition H32q2g_getS12 : expr :=
  - (#128 * EVar vAl4p * EVar vxDmglst1 * EPow P3 (EVar vDmglst1) * (#45 * EVar vMuSUSY * EVar vtwoLoopFlag * EPow P2
   (EVar vMst1) * EPow P2 (EVar vMt) * (#80 * EVar vDmst12 * EVar vMt * EVar vMuSUSY * EVar vs2t * (EPow P2 (EVar
   vDmst12) - EVar vDmst12 * EPow P2 (EVar vMst2) + EPow P4 (EVar vMst2)) - EVar vTbeta * (EPow P2 (EVar vDmst12) *
   EPow P2 (EVar vMst2) * (#660 * EVar vMst1 * EVar vMt * EVar vs2t + (- #181 + #90 * EVar vlmMst1 - #90 * EVar vlmMt)
   * EPow P2 (EVar vMt) - #60 * EPow P2 (EVar vMst1) * EPow P2 (EVar vs2t)) + (- #660 * EVar vMst1 * EVar vMt * EVar
   vs2t + (#181 - #90 * EVar vlmMst1 + #90 * EVar vlmMt) * EPow P2 (EVar vMt) + #120 * EPow P2 (EVar vMst1) * EPow P2
   (EVar vs2t)) * EPow P3 (EVar vDmst12) + EVar vDmst12 * EVar vMt * ((#181 - #90 * EVar vlmMst1 + #90 * EVar vlmMt) *
   EVar vMt - #660 * EVar vMst1 * EVar vs2t) * EPow P4 (EVar vMst2) + #12 * (#16 - #15 * EVar vlmMst1 + #15 * EVar
   vlmMt) * EPow P2 (EVar vMt) * EPow P6 (EVar vMst2))) + EVar vAl4p * EVar vthreeLoopFlag * (#10 * EVar vMuSUSY *
   ((#2219399 + #9600 * EVar vlmMst1 + #960 * EVar vlmMt) * EVar vMst1 * EVar vMuSUSY + #12 * EVar vDmsqst1 * (- #1541
   + #420 * EVar vlmMst1 - #420 * EVar vlmMt) * EVar vTbeta) * EPow P4 (EVar vMt) * EPow P6 (EVar vMst2) + EVar
   vMuSUSY * EPow P2 (EVar vMst1) * EPow P2 (EVar vMt) * (#735 * EVar vDmst12 * EVar vMst1 * EVar vs2t * EVar vTbeta *
   (EVar vDmst12 * EVar vMst1 * EVar vs2t * (- #14217821 - #161940 * EVar vlmMst1 + #28800 * EPow P2 (EVar vlmMst1)) *
   (#2 * EVar vDmst12 - EPow P2 (EVar vMst2)) + #20 * EVar vMt * (- #520781 - #17172 * EVar vlmMst1 + #192 * EVar
   vlmMt + #11520 * EPow P2 (EVar vlmMst1)) * (EPow P2 (EVar vDmst12) - EVar vDmst12 * EPow P2 (EVar vMst2) + EPow P4
   (EVar vMst2))) - #2 * EVar vMt * (- #5 * EVar vDmst12 * (#98 * EVar vMuSUSY * EVar vs2t * (#14217821 + #161940 *
   EVar vlmMst1 - #28800 * EPow P2 (EVar vlmMst1)) - #3 * EVar vMt * EVar vTbeta * (#1417174939 - #401268 * EVar vlmMt
   + #4 * EVar vlmMst1 * (#4061413 + #37800 * EVar vlmMt) - #3185280 * EPow P2 (EVar vlmMst1) + #211680 * EPow P2
   (EVar vlmMt))) * (EPow P2 (EVar vDmst12) - EVar vDmst12 * EPow P2 (EVar vMst2) + EPow P4 (EVar vMst2)) + #196 *
   EVar vMt * EVar vTbeta * (#54198467 + #43950 * EVar vlmMt + #180 * EVar vlmMst1 * (#6353 + #135 * EVar vlmMt) -
   #272700 * EPow P2 (EVar vlmMst1) + #32400 * EPow P2 (EVar vlmMt)) * EPow P6 (EVar vMst2))) / #196)) + EVar vMuSUSY
   * (#225 * EVar vthreeLoopFlag * EPow P2 (EVar vAl4p) * (- #192 * EConst Cz2 * EPow P4 (EVar vMst1) * (#2 * EVar
   vDmst12 * EVar vMuSUSY * EPow P2 (EVar vMt) * EPow P2 (EVar vs2t) * (#2 * EPow P2 (EVar vDmst12) * (#100 * EVar
   vDmsqst1 * EVar vshiftst2 + (#15 * EVar vshiftst1 + #10 * EVar vshiftst2 + #9 * EVar vshiftst3) * EPow P2 (EVar
   vMst1)) - #5 * EVar vDmst12 * (#10 * EVar vDmsqst1 * (EVar vshiftst1 + EVar vshiftst2) + (#10 * (EVar vshiftst1 +
   EVar vshiftst2) + #3 * EVar vshiftst3) * EPow P2 (EVar vMst1)) * EPow P2 (EVar vMst2) + #10 * (#10 * EVar vDmsqst1
   * (EVar vshiftst1 - EVar vshiftst2) + (#10 * EVar vshiftst1 - #10 * EVar vshiftst2 + EVar vshiftst3) * EPow P2
   (EVar vMst1)) * EPow P4 (EVar vMst2)) - #5 * EVar vTbeta * (EVar vMt * EVar vshiftst3 * EPow P2 (EVar vDmst12) *
   (#7 * EVar vDmst12 - #3 * EPow P2 (EVar vMst2)) * EPow P3 (EVar vs2t) * EPow P4 (EVar vMst1) + #10 * EVar vshiftst2
   * (- (EVar vMt * EPow P2 (EVar vDmst12) * EPow P2 (EVar vMst1) * (EVar vDmsqst1 + EPow P2 (EVar vMst1)) * (#2 *
   EVar vDmst12 - #3 * EPow P2 (EVar vMst2)) * EPow P3 (EVar vs2t)) + #24 * EVar vs2t * EPow P3 (EVar vMt) * (EVar
   vDmsqst1 * EPow P3 (EVar vDmst12) - (EVar vDmsqst1 + EPow P2 (EVar vMst1)) * (EVar vDmst12 + EPow P2 (EVar vMst2))
   * EPow P4 (EVar vMst2))) - #24 * EVar vs2t * EVar vshiftst3 * EPow P2 (EVar vMst1) * EPow P3 (EVar vMt) * (- (EPow
   P2 (EVar vDmst12) * EPow P2 (EVar vMst2)) + EPow P3 (EVar vDmst12) + EVar vDmst12 * EPow P4 (EVar vMst2) - EPow P6
   (EVar vMst2)) + #10 * EVar vshiftst1 * (EVar vDmsqst1 + EPow P2 (EVar vMst1)) * (EVar vMt * EPow P2 (EVar vDmst12)
   * EPow P2 (EVar vMst1) * (#4 * EVar vDmst12 - #3 * EPow P2 (EVar vMst2)) * EPow P3 (EVar vs2t) + #24 * EVar vs2t *
   EPow P3 (EVar vMt) * EPow P6 (EVar vMst2)))) + EVar vMt * (#800 * EVar vxDmsqst1 * EPow P2 (EVar vDmsqst1) * (#3 *
   EVar vDmst12 * EVar vs2t * EPow P2 (EVar vMst1) * (EPow P2 (EVar vDmst12) * (#12 * EVar vs2t * (EVar vshiftst1 -
   EVar vshiftst2) * (#2 * EVar vMt * EVar vMuSUSY - #3 * EVar vs2t * EVar vTbeta * EPow P2 (EVar vMst1)) + (#205 +
   #144 * EVar vshiftst2) * EVar vTbeta * EPow P2 (EVar vMt)) - EVar vDmst12 * EPow P2 (EVar vMst2) * (#6 * EVar vs2t
   * (EVar vshiftst1 - EVar vshiftst2) * (#4 * EVar vMt * EVar vMuSUSY - #3 * EVar vs2t * EVar vTbeta * EPow P2 (EVar
   vMst1)) + (#205 + #144 * EVar vshiftst2) * EVar vTbeta * EPow P2 (EVar vMt)) + EVar vMt * (#24 * EVar vMuSUSY *
   EVar vs2t * (EVar vshiftst1 - EVar vshiftst2) + EVar vMt * (#205 + #144 * EVar vshiftst2) * EVar vTbeta) * EPow P4
   (EVar vMst2)) + #16 * (EVar vDmglst1 * (#8 + #3 * EVar vlmMst1 - #3 * EVar vlmMt) * EVar vMt + EVar vMst1 * ((#29 -
   #6 * EVar vlmMst1 + #6 * EVar vlmMt) * EVar vMt + #27 * EVar vMst1 * EVar vs2t * (- EVar vshiftst1 + EVar
   vshiftst2))) * EVar vTbeta * EPow P2 (EVar vMt) * EPow P6 (EVar vMst2)) / #3 - #5 * EVar vMst1 * EConst Cz3 *
   (#35280 * EVar vDmst12 * EVar vMst1 * EVar vs2t * EVar vTbeta * EVar vxDmsqst1 * EPow P2 (EVar vDmsqst1) * EPow P2
   (EVar vMt) * (EPow P2 (EVar vDmst12) - EVar vDmst12 * EPow P2 (EVar vMst2) + EPow P4 (EVar vMst2)) + EVar vMst1 *
   EVar vMt * EVar vMuSUSY * (- #2 * EPow P2 (EVar vDmst12) * EPow P2 (EVar vMst1) * (#20 * (- #252 * EVar vDmsqst1 +
   #10097 * EVar vDmglst1 * EVar vMst1 + #29926 * EPow P2 (EVar vDmglst1)) * (#2 * EVar vDmst12 - EPow P2 (EVar
   vMst2)) - EPow P2 (EVar vMst1) * (#37669 * EVar vDmst12 + #10296 * EPow P2 (EVar vMst2))) * EPow P2 (EVar vs2t) +
   #16 * EVar vDmst12 * EVar vMst1 * EVar vMt * EVar vs2t * (#210810 * EPow P2 (EVar vDmglst1) * (EPow P2 (EVar
   vDmst12) - EVar vDmst12 * EPow P2 (EVar vMst2) + EPow P4 (EVar vMst2)) + EPow P2 (EVar vMst1) * (- #40594 * EPow P2
   (EVar vDmst12) + #17285 * EVar vDmst12 * EPow P2 (EVar vMst2) + #6024 * EPow P4 (EVar vMst2)) + EVar vDmglst1 *
   EVar vMst1 * (- #285974 * EPow P2 (EVar vDmst12) + #105405 * EVar vDmst12 * EPow P2 (EVar vMst2) + #75164 * EPow P4
   (EVar vMst2))) + #3 * EPow P2 (EVar vMt) * (- (EPow P2 (EVar vMst1) * (- #31963 * EPow P2 (EVar vDmst12) * EPow P2
   (EVar vMst2) + #131926 * EPow P3 (EVar vDmst12) - #68000 * EVar vDmst12 * EPow P4 (EVar vMst2) - #24064 * EPow P6
   (EVar vMst2))) + #48 * EVar vDmglst1 * EVar vMst1 * (- #8213 * EPow P2 (EVar vDmst12) * EPow P2 (EVar vMst2) +
   #8213 * EVar vDmst12 * (EPow P2 (EVar vDmst12) + EPow P4 (EVar vMst2)) + #4664 * EPow P6 (EVar vMst2)) + #96 * EPow
   P2 (EVar vDmglst1) * (- #10226 * EPow P2 (EVar vDmst12) * EPow P2 (EVar vMst2) + #10226 * EVar vDmst12 * (EPow P2
   (EVar vDmst12) + EPow P4 (EVar vMst2)) + #4715 * EPow P6 (EVar vMst2)))) + #32 * EVar vMt * EVar vxDmglst1 * EPow
   P3 (EVar vDmglst1) * (#44 * EVar vMt * EVar vMuSUSY * (#4789 * EVar vDmst12 * EVar vMst1 * EVar vs2t * (EPow P2
   (EVar vDmst12) - EVar vDmst12 * EPow P2 (EVar vMst2) + EPow P4 (EVar vMst2)) + #1503 * EVar vMt * EPow P6 (EVar
   vMst2)) - #3 * EVar vMst1 * EVar vTbeta * (#52679 * EPow P2 (EVar vDmst12) * EPow P2 (EVar vMst1) * (#2 * EVar
   vDmst12 - EPow P2 (EVar vMst2)) * EPow P2 (EVar vs2t) + #38236 * EVar vDmst12 * EVar vMst1 * EVar vMt * EVar vs2t *
   (EPow P2 (EVar vDmst12) - EVar vDmst12 * EPow P2 (EVar vMst2) + EPow P4 (EVar vMst2)) + #3 * EPow P2 (EVar vMt) *
   (- #71189 * EPow P2 (EVar vDmst12) * EPow P2 (EVar vMst2) + #71189 * EVar vDmst12 * (EPow P2 (EVar vDmst12) + EPow
   P4 (EVar vMst2)) + #35412 * EPow P6 (EVar vMst2)))) - #4 * EVar vTbeta * EPow P2 (EVar vMst1) * (#3 * EVar vMt *
   EPow P2 (EVar vDmst12) * EPow P2 (EVar vMst1) * (#210810 * EPow P2 (EVar vDmglst1) * (#2 * EVar vDmst12 - EPow P2
   (EVar vMst2)) - EPow P2 (EVar vMst1) * (#11261 * EVar vDmst12 + #6024 * EPow P2 (EVar vMst2)) - EVar vDmglst1 *
   EVar vMst1 * (#30241 * EVar vDmst12 + #75164 * EPow P2 (EVar vMst2))) * EPow P2 (EVar vs2t) - (- #1260 * EVar
   vDmsqst1 + #50485 * EVar vDmglst1 * EVar vMst1 + #149630 * EPow P2 (EVar vDmglst1) + #2574 * EPow P2 (EVar vMst1))
   * EPow P3 (EVar vDmst12) * EPow P3 (EVar vMst1) * EPow P3 (EVar vs2t) - EVar vDmst12 * EVar vMst1 * EVar vs2t *
   EPow P2 (EVar vMt) * (EPow P2 (EVar vDmst12) * (- #27720 * EVar vDmsqst1 + #113856 * EVar vDmglst1 * EVar vMst1 +
   #1525128 * EPow P2 (EVar vDmglst1) - #32783 * EPow P2 (EVar vMst1)) - #12 * EVar vDmst12 * (- #735 * EVar vDmsqst1
   + #7642 * EVar vDmglst1 * EVar vMst1 + #57354 * EPow P2 (EVar vDmglst1) - #1209 * EPow P2 (EVar vMst1)) * EPow P2
   (EVar vMst2) - #24 * (- #2898 * EVar vDmglst1 * EVar vMst1 + #6193 * EPow P2 (EVar vDmglst1) - #60 * (#7 * EVar
   vDmsqst1 + #11 * EPow P2 (EVar vMst1))) * EPow P4 (EVar vMst2)) + #2 * EPow P3 (EVar vMt) * (#1404 * EPow P2 (EVar
   vDmglst1) * (- #1065 * EPow P2 (EVar vDmst12) * EPow P2 (EVar vMst2) + #1065 * EPow P3 (EVar vDmst12) + #1065 *
   EVar vDmst12 * EPow P4 (EVar vMst2) + #512 * EPow P6 (EVar vMst2)) + EPow P2 (EVar vMst1) * (#51181 * EPow P2 (EVar
   vDmst12) * EPow P2 (EVar vMst2) - #152018 * EPow P3 (EVar vDmst12) + #49656 * EVar vDmst12 * EPow P4 (EVar vMst2) +
   #10176 * EPow P6 (EVar vMst2)) + #4 * EVar vDmglst1 * EVar vMst1 * (#86833 * EPow P2 (EVar vDmst12) * EPow P2 (EVar
   vMst2) - #287078 * EPow P3 (EVar vDmst12) + #113412 * EVar vDmst12 * EPow P4 (EVar vMst2) + #47112 * EPow P6 (EVar
   vMst2))))))) + EVar vMt * (#40500 * EVar vDmst12 * EVar voneLoopFlag * EVar vs2t * (- #2 * EVar vDmst12 * EVar vMt
   * (EVar vMuSUSY * EVar vs2t + #6 * EVar vMt * EVar vTbeta) * EPow P2 (EVar vMst2) + EPow P2 (EVar vDmst12) * (#2 *
   EVar vMt * EVar vMuSUSY * EVar vs2t + #8 * EVar vTbeta * EPow P2 (EVar vMt) - EVar vTbeta * EPow P2 (EVar vMst1) *
   EPow P2 (EVar vs2t)) + #24 * EVar vTbeta * EPow P2 (EVar vMt) * EPow P4 (EVar vMst2)) * EPow P6 (EVar vMst1) +
   #1440 * EVar vAl4p * EVar vtwoLoopFlag * EPow P3 (EVar vMst1) * (- #25 * EVar vs2t * EPow P3 (EVar vDmst12) * (#8 *
   (#5 + #6 * EVar vlmMst1) * EVar vMuSUSY * EPow P2 (EVar vMst1) * EPow P2 (EVar vMt) + #2 * EPow P2 (EVar vDmglst1)
   * (#24 * EVar vMuSUSY * EPow P2 (EVar vMt) + (#11 - #6 * EVar vlmMst1) * EVar vTbeta * EPow P2 (EVar vs2t) * EPow
   P3 (EVar vMst1)) - #8 * EVar vDmglst1 * ((#5 - #6 * EVar vlmMst1) * EVar vMst1 * EVar vMuSUSY * EPow P2 (EVar vMt)
   + (- #1 + #3 * EVar vlmMst1) * EVar vTbeta * EPow P2 (EVar vs2t) * EPow P4 (EVar vMst1)) + #3 * EVar vTbeta * EPow
   P2 (EVar vs2t) * EPow P5 (EVar vMst1)) + EVar vMt * (#50 * EVar vDmst12 * EVar vMuSUSY * EVar vs2t * (EVar vMst1 *
   EVar vs2t * EPow P2 (EVar vDmst12) * (#16 * EVar vDmglst1 * (#1 - #3 * EVar vlmMst1) * EVar vMst1 + (#44 - #24 *
   EVar vlmMst1) * EPow P2 (EVar vDmglst1) + (#1 + #6 * EVar vlmMst1) * EPow P2 (EVar vMst1)) + #4 * EVar vDmst12 *
   EVar vMt * (#6 * EPow P2 (EVar vDmglst1) + EPow P2 (EVar vMst1)) * EPow P2 (EVar vMst2) - EVar vDmst12 * EVar vMst1
   * EVar vs2t * (#8 * EVar vDmglst1 * (#1 - #3 * EVar vlmMst1) * EVar vMst1 + (#22 - #12 * EVar vlmMst1) * EPow P2
   (EVar vDmglst1) + #3 * EPow P2 (EVar vMst1)) * EPow P2 (EVar vMst2) - #4 * EVar vMt * (EVar vDmglst1 * (#5 - #6 *
   EVar vlmMst1) * EVar vMst1 + #6 * EPow P2 (EVar vDmglst1) - #3 * (#1 + #2 * EVar vlmMst1) * EPow P2 (EVar vMst1)) *
   EPow P4 (EVar vMst2)) + #2 * EVar vTbeta * (- #25 * EPow P2 (EVar vMst1) * (- (EPow P2 (EVar vDmst12) * EPow P2
   (EVar vMst2) * (#24 * (#1 - #3 * EVar vlmMst1) * EVar vMst1 * EVar vMt * EVar vs2t + #2 * (#5 + #6 * EVar vlmMst1 +
   #6 * EVar vlmMt) * EPow P2 (EVar vMt) + #9 * (#1 + #2 * EVar vlmMst1) * EPow P2 (EVar vMst1) * EPow P2 (EVar
   vs2t))) + (- #48 * (- #1 + EVar vlmMst1) * EVar vMst1 * EVar vMt * EVar vs2t - #4 * (#5 + #6 * EVar vlmMst1) * EPow
   P2 (EVar vMt) + #6 * (#1 + #3 * EVar vlmMst1) * EPow P2 (EVar vMst1) * EPow P2 (EVar vs2t)) * EPow P3 (EVar
   vDmst12) + #4 * EVar vDmst12 * EVar vMt * (#2 * (#5 + #6 * EVar vlmMst1 + #3 * EVar vlmMt) * EVar vMt - #9 * (#1 +
   #2 * EVar vlmMst1) * EVar vMst1 * EVar vs2t) * EPow P4 (EVar vMst2) + #72 * (#1 + EVar vlmMst1 + EVar vlmMt) * EPow
   P2 (EVar vMt) * EPow P6 (EVar vMst2)) + #2 * EPow P2 (EVar vDmglst1) * (#9 * EPow P2 (EVar vDmst12) * EPow P2 (EVar
   vMst2) * (#5 * EVar vMst1 * EVar vMt * EVar vs2t + (- #109 + #10 * EVar vlmMst1 - #10 * EVar vlmMt) * EPow P2 (EVar
   vMt) - #25 * EPow P2 (EVar vMst1) * EPow P2 (EVar vs2t)) + (#60 * (- #29 + #15 * EVar vlmMst1) * EVar vMst1 * EVar
   vMt * EVar vs2t + (#981 - #90 * EVar vlmMst1 + #90 * EVar vlmMt) * EPow P2 (EVar vMt) + #450 * EPow P2 (EVar vMst1)
   * EPow P2 (EVar vs2t)) * EPow P3 (EVar vDmst12) + #3 * EVar vDmst12 * EVar vMt * ((#327 - #30 * EVar vlmMst1 + #30
   * EVar vlmMt) * EVar vMt + #50 * (#11 - #6 * EVar vlmMst1) * EVar vMst1 * EVar vs2t) * EPow P4 (EVar vMst2) + #100
   * (#17 - #3 * EVar vlmMst1 + #3 * EVar vlmMt) * EPow P2 (EVar vMt) * EPow P6 (EVar vMst2)) + EVar vDmglst1 * EVar
   vMst1 * (- #3 * EPow P2 (EVar vDmst12) * (EPow P2 (EVar vMst2) * (#100 * EVar vMst1 * EVar vMt * EVar vs2t - #2 *
   (- #41 + #90 * EVar vlmMst1 + #10 * EVar vlmMt) * EPow P2 (EVar vMt) + #25 * (#5 - #6 * EVar vlmMst1) * EPow P2
   (EVar vMst1) * EPow P2 (EVar vs2t)) + EVar vDmst12 * (- #1200 * EVar vlmMst1 * EVar vMst1 * EVar vMt * EVar vs2t +
   #8 * (#17 - #30 * EVar vlmMst1 + #5 * EVar vlmMt) * EPow P2 (EVar vMt) + #25 * (- #5 + #6 * EVar vlmMst1) * EPow P2
   (EVar vMst1) * EPow P2 (EVar vs2t))) + #300 * EVar vDmst12 * EVar vMt * ((#3 - #6 * EVar vlmMst1) * EVar vMt + #2 *
   (#1 - #6 * EVar vlmMst1) * EVar vMst1 * EVar vs2t) * EPow P4 (EVar vMst2) - #200 * (- #7 + #15 * EVar vlmMst1 + #3
   * EVar vlmMt) * EPow P2 (EVar vMt) * EPow P6 (EVar vMst2))))) + #2 * EVar vMst1 * EVar vthreeLoopFlag * EPow P2
   (EVar vAl4p) * (#5 * EVar vMst1 * EVar vMt * EVar vMuSUSY * (#40 * EVar vDmglst1 * (#2 * EPow P3 (EVar vDmst12) *
   (EVar vMt * EVar vs2t * (#6000 * EVar vDmsqst1 + #6 * (- #1282471 + #7264 * EVar vlmMst1 + #18120 * EPow P2 (EVar
   vlmMst1)) * EPow P2 (EVar vMst1)) + #5 * EVar vMst1 * (#403559 + #384 * (EVar vlmMst1 + EVar vlmMt) - #4608 * EPow
   P2 (EVar vlmMst1)) * EPow P2 (EVar vMt) + #15 * (- #84209 - #1264 * EVar vlmMst1 + #240 * EPow P2 (EVar vlmMst1)) *
   EPow P2 (EVar vs2t) * EPow P3 (EVar vMst1)) - EPow P2 (EVar vDmst12) * EPow P2 (EVar vMst2) * (EVar vMt * EVar vs2t
   * (#12000 * EVar vDmsqst1 + #6 * (- #949861 + #1944 * EVar vlmMst1 + #11520 * EPow P2 (EVar vlmMst1)) * EPow P2
   (EVar vMst1)) + #10 * EVar vMst1 * (#403559 + #384 * (EVar vlmMst1 + EVar vlmMt) - #4608 * EPow P2 (EVar vlmMst1))
   * EPow P2 (EVar vMt) + #15 * (- #84209 - #1264 * EVar vlmMst1 + #240 * EPow P2 (EVar vlmMst1)) * EPow P2 (EVar
   vs2t) * EPow P3 (EVar vMst1)) + #10 * EVar vDmst12 * EVar vMt * (EVar vMst1 * EVar vMt * (#403559 + #384 * (EVar
   vlmMst1 + EVar vlmMt) - #4608 * EPow P2 (EVar vlmMst1)) + EVar vs2t * (#1200 * EVar vDmsqst1 - #12 * (- #33261 +
   #532 * EVar vlmMst1 + #660 * EPow P2 (EVar vlmMst1)) * EPow P2 (EVar vMst1))) * EPow P4 (EVar vMst2) + #240 * EVar
   vMst1 * (#9631 + #16 * EVar vlmMst1 + #48 * EVar vlmMt - #192 * EPow P2 (EVar vlmMst1)) * EPow P2 (EVar vMt) * EPow
   P6 (EVar vMst2)) + #15 * EVar vMst1 * (- (EPow P2 (EVar vDmst12) * EPow P2 (EVar vMst2) * (#240 * EVar vMt * EVar
   vs2t * (#560 * EVar vDmsqst1 + (- #10473 + #40 * EVar vlmMst1 + #256 * EPow P2 (EVar vlmMst1)) * EPow P2 (EVar
   vMst1)) - EVar vMst1 * (#852541 + #9216 * EVar vlmMst1 - #10240 * EVar vlmMt + #6144 * EPow P2 (EVar vlmMst1)) *
   EPow P2 (EVar vMt) + #2400 * EVar vDmsqst1 * EVar vMst1 * (#7 - #12 * EVar vlmMst1 * (- #2 + EVar vshiftst1 + EVar
   vshiftst2) + #18 * (EVar vshiftst1 + EVar vshiftst2)) * EPow P2 (EVar vs2t) - #80 * (#1429 - #454 * EVar vlmMst1 -
   #180 * (EVar vshiftst1 + EVar vshiftst2) + #360 * EVar vlmMst1 * (EVar vshiftst1 + EVar vshiftst2) - #126 * EVar
   vshiftst3 + #108 * EVar vlmMst1 * EVar vshiftst3 + #24 * EPow P2 (EVar vlmMst1)) * EPow P2 (EVar vs2t) * EPow P3
   (EVar vMst1))) - #2 * EPow P3 (EVar vDmst12) * (#80 * EVar vMt * EVar vs2t * (- #840 * EVar vDmsqst1 + (#36863 -
   #80 * EVar vlmMst1 - #552 * EPow P2 (EVar vlmMst1)) * EPow P2 (EVar vMst1)) + EVar vMst1 * (#1763661 - #47104 *
   EVar vlmMst1 + #5120 * EVar vlmMt - #24576 * EPow P2 (EVar vlmMst1)) * EPow P2 (EVar vMt) + EPow P2 (EVar vs2t) *
   (#2400 * EVar vDmsqst1 * EVar vMst1 * (- #7 + #24 * EVar vlmMst1 * (- #1 + EVar vshiftst2) - #36 * EVar vshiftst2)
   + (- #350605 - #4320 * EVar vshiftst1 - #2880 * EVar vshiftst2 - #8352 * EVar vshiftst3 + #96 * EVar vlmMst1 * (-
   #115 + #90 * EVar vshiftst1 + #60 * EVar vshiftst2 + #54 * EVar vshiftst3) + #2160 * EPow P2 (EVar vlmMst1)) * EPow
   P3 (EVar vMst1))) + #160 * EVar vDmst12 * (EVar vMt * EVar vs2t * (#840 * EVar vDmsqst1 + #4 * (#1361 + #10 * EVar
   vlmMst1 + #54 * EPow P2 (EVar vlmMst1)) * EPow P2 (EVar vMst1)) + EVar vMst1 * (#11389 - #704 * EVar vlmMst1 + #192
   * EVar vlmMt - #384 * EPow P2 (EVar vlmMst1)) * EPow P2 (EVar vMt) + EPow P2 (EVar vs2t) * (#180 * EVar vDmsqst1 *
   (#3 - #2 * EVar vlmMst1) * EVar vMst1 * (EVar vshiftst1 - EVar vshiftst2) + #18 * (#1 - #2 * EVar vlmMst1) * (#10 *
   EVar vshiftst1 - #10 * EVar vshiftst2 + EVar vshiftst3) * EPow P3 (EVar vMst1))) * EPow P4 (EVar vMst2) + #1920 *
   EVar vMst1 * (#349 - #56 * EVar vlmMst1 + #24 * EVar vlmMt - #32 * EPow P2 (EVar vlmMst1)) * EPow P2 (EVar vMt) *
   EPow P6 (EVar vMst2)) + #16 * EPow P2 (EVar vDmglst1) * (EPow P2 (EVar vDmst12) * EPow P2 (EVar vMst2) * (#30 *
   EVar vMst1 * EVar vMt * EVar vs2t * (- #954181 - #11256 * EVar vlmMst1 + #11520 * EPow P2 (EVar vlmMst1)) + #4 * (-
   #6233611 - #58800 * EVar vlmMst1 + #4560 * EVar vlmMt + #14400 * EPow P2 (EVar vlmMst1)) * EPow P2 (EVar vMt) + #15
   * (#655743 + #5288 * EVar vlmMst1 - #11820 * EPow P2 (EVar vlmMst1)) * EPow P2 (EVar vMst1) * EPow P2 (EVar vs2t))
   - #2 * (#15 * EVar vMst1 * EVar vMt * EVar vs2t * (- #954181 - #11256 * EVar vlmMst1 + #11520 * EPow P2 (EVar
   vlmMst1)) + #2 * (- #6233611 - #58800 * EVar vlmMst1 + #4560 * EVar vlmMt + #14400 * EPow P2 (EVar vlmMst1)) * EPow
   P2 (EVar vMt) + #15 * (#655743 + #5288 * EVar vlmMst1 - #11820 * EPow P2 (EVar vlmMst1)) * EPow P2 (EVar vMst1) *
   EPow P2 (EVar vs2t)) * EPow P3 (EVar vDmst12) + #2 * EVar vDmst12 * EVar vMt * (#15 * EVar vMst1 * EVar vs2t *
   (#954181 + #11256 * EVar vlmMst1 - #11520 * EPow P2 (EVar vlmMst1)) - #2 * EVar vMt * (- #6233611 - #58800 * EVar
   vlmMst1 + #4560 * EVar vlmMt + #14400 * EPow P2 (EVar vlmMst1))) * EPow P4 (EVar vMst2) - #50 * (- #230009 - #4704
   * EVar vlmMst1 + #480 * EVar vlmMt + #1152 * EPow P2 (EVar vlmMst1)) * EPow P2 (EVar vMt) * EPow P6 (EVar vMst2)))
   + #4 * EVar vTbeta * (#2 * EPow P2 (EVar vDmglst1) * (#3 * EVar vDmst12 * EVar vMst1 * (EVar vDmst12 * EVar vMt *
   EPow P2 (EVar vMst2) * (#150 * EVar vMt * EVar vs2t * (#360 * EVar vDmsqst1 + (- #515917 - #6972 * EVar vlmMst1 +
   #192 * EVar vlmMt + #11520 * EPow P2 (EVar vlmMst1)) * EPow P2 (EVar vMst1)) + #4 * EVar vMst1 * (#84334067 + #120
   * EVar vlmMst1 * (#2843 - #120 * EVar vlmMt) + #202200 * EVar vlmMt - #828000 * EPow P2 (EVar vlmMst1) - #21600 *
   EPow P2 (EVar vlmMt)) * EPow P2 (EVar vMt) + #75 * (#954181 + #11256 * EVar vlmMst1 - #11520 * EPow P2 (EVar
   vlmMst1)) * EPow P2 (EVar vs2t) * EPow P3 (EVar vMst1)) - EPow P2 (EVar vDmst12) * (#600 * EVar vs2t * (#90 * EVar
   vDmsqst1 + (- #274009 - #964 * EVar vlmMst1 - #104 * EVar vlmMt + #8310 * EPow P2 (EVar vlmMst1)) * EPow P2 (EVar
   vMst1)) * EPow P2 (EVar vMt) + #150 * EVar vMt * (#954181 + #11256 * EVar vlmMst1 - #11520 * EPow P2 (EVar
   vlmMst1)) * EPow P2 (EVar vs2t) * EPow P3 (EVar vMst1) + #4 * EVar vMst1 * (#84334067 + #120 * EVar vlmMst1 *
   (#2843 - #120 * EVar vlmMt) + #202200 * EVar vlmMt - #828000 * EPow P2 (EVar vlmMst1) - #21600 * EPow P2 (EVar
   vlmMt)) * EPow P3 (EVar vMt) + #25 * (- #655743 - #5288 * EVar vlmMst1 + #11820 * EPow P2 (EVar vlmMst1)) * EPow P3
   (EVar vs2t) * EPow P4 (EVar vMst1)) - #4 * (EVar vMst1 * EVar vMt * (#84334067 + #120 * EVar vlmMst1 * (#2843 -
   #120 * EVar vlmMt) + #202200 * EVar vlmMt - #828000 * EPow P2 (EVar vlmMst1) - #21600 * EPow P2 (EVar vlmMt)) + #75
   * EVar vs2t * (#180 * EVar vDmsqst1 + (#32101 - #5044 * EVar vlmMst1 + #400 * EVar vlmMt - #5100 * EPow P2 (EVar
   vlmMst1)) * EPow P2 (EVar vMst1))) * EPow P2 (EVar vMt) * EPow P4 (EVar vMst2)) + #160 * (#90 * EVar vDmsqst1 *
   (#206 - #15 * EVar vlmMst1 + #15 * EVar vlmMt) + (- #3030652 - #19305 * EVar vlmMt + #6 * EVar vlmMst1 * (#1183 +
   #645 * EVar vlmMt) + #55530 * EPow P2 (EVar vlmMst1) + #5400 * EPow P2 (EVar vlmMt)) * EPow P2 (EVar vMst1)) * EPow
   P3 (EVar vMt) * EPow P6 (EVar vMst2)) - EVar vDmglst1 * (#1200 * EVar vDmsqst1 * EVar vMst1 * EVar vMt * (- (EPow
   P2 (EVar vDmst12) * EPow P2 (EVar vMst2) * (#14100 * EVar vMst1 * EVar vMt * EVar vs2t + #4 * (#557 + #120 * EVar
   vlmMst1 - #120 * EVar vlmMt) * EPow P2 (EVar vMt) + #375 * EPow P2 (EVar vMst1) * EPow P2 (EVar vs2t))) + #2 *
   (#7050 * EVar vMst1 * EVar vMt * EVar vs2t + #2 * (#557 + #120 * EVar vlmMst1 - #120 * EVar vlmMt) * EPow P2 (EVar
   vMt) + #375 * EPow P2 (EVar vMst1) * EPow P2 (EVar vs2t)) * EPow P3 (EVar vDmst12) + #4 * EVar vDmst12 * EVar vMt *
   ((#557 + #120 * EVar vlmMst1 - #120 * EVar vlmMt) * EVar vMt + #3525 * EVar vMst1 * EVar vs2t) * EPow P4 (EVar
   vMst2) + #200 * (#26 + #3 * EVar vlmMst1 - #3 * EVar vlmMt) * EPow P2 (EVar vMt) * EPow P6 (EVar vMst2)) + EPow P3
   (EVar vMst1) * (#12 * EVar vMt * EPow P2 (EVar vDmst12) * EPow P2 (EVar vMst2) * (#300 * EVar vMst1 * EVar vMt *
   EVar vs2t * (#17539 + #574 * EVar vlmMst1 + #160 * EVar vlmMt - #1920 * EPow P2 (EVar vlmMst1)) + (#39474953 +
   #3300 * EVar vlmMt + #20 * EVar vlmMst1 * (- #2639 + #4380 * EVar vlmMt) - #319200 * EPow P2 (EVar vlmMst1) -
   #14400 * EPow P2 (EVar vlmMt)) * EPow P2 (EVar vMt) + #375 * (- #33261 + #532 * EVar vlmMst1 + #660 * EPow P2 (EVar
   vlmMst1)) * EPow P2 (EVar vMst1) * EPow P2 (EVar vs2t)) - EPow P3 (EVar vDmst12) * (#3600 * EVar vMst1 * EVar vs2t
   * (#12383 + #4128 * EVar vlmMst1 + #80 * EVar vlmMt - #1260 * EPow P2 (EVar vlmMst1)) * EPow P2 (EVar vMt) + #225 *
   EVar vMt * (#284641 + #8696 * EVar vlmMst1 + #1680 * EPow P2 (EVar vlmMst1)) * EPow P2 (EVar vMst1) * EPow P2 (EVar
   vs2t) + #8 * (#193364399 + #90000 * EVar vlmMt - #300 * EVar vlmMst1 * (#3781 + #582 * EVar vlmMt) - #2005200 *
   EPow P2 (EVar vlmMst1) - #43200 * EPow P2 (EVar vlmMt)) * EPow P3 (EVar vMt) + #375 * (#84209 + #1264 * EVar
   vlmMst1 - #240 * EPow P2 (EVar vlmMst1)) * EPow P3 (EVar vMst1) * EPow P3 (EVar vs2t)) + #80 * EVar vDmst12 * (#225
   * EVar vMst1 * EVar vs2t * (- #4539 + #596 * EVar vlmMst1 - #48 * EVar vlmMt + #516 * EPow P2 (EVar vlmMst1)) - #2
   * EVar vMt * (- #3746977 - #4005 * EVar vlmMt + #18 * EVar vlmMst1 * (#2711 + #1215 * EVar vlmMt) + #52380 * EPow
   P2 (EVar vlmMst1))) * EPow P2 (EVar vMt) * EPow P4 (EVar vMst2) + #24000 * (#9961 + #66 * EVar vlmMt - #10 * EVar
   vlmMst1 * (#67 + #24 * EVar vlmMt) + #42 * EPow P2 (EVar vlmMst1) + #72 * EPow P2 (EVar vlmMt)) * EPow P3 (EVar
   vMt) * EPow P6 (EVar vMst2))) - #15 * (EPow P4 (EVar vMst1) * (#2 * EPow P2 (EVar vDmst12) * EPow P2 (EVar vMst2) *
   (#150 * EVar vMst1 * EVar vs2t * (- #2071 + #96 * EVar vlmMt + #288 * EVar vshiftst3 - #8 * EVar vlmMst1 * (#37 +
   #18 * EVar vshiftst3) + #600 * EPow P2 (EVar vlmMst1)) * EPow P2 (EVar vMt) - #300 * EVar vMt * (#1361 + #10 * EVar
   vlmMst1 + #54 * EPow P2 (EVar vlmMst1)) * EPow P2 (EVar vMst1) * EPow P2 (EVar vs2t) - (- #2284899 + #49840 * EVar
   vlmMt - #32 * EVar vlmMst1 * (- #1793 + #555 * EVar vlmMt) + #87360 * EPow P2 (EVar vlmMst1) + #28800 * EPow P2
   (EVar vlmMt)) * EPow P3 (EVar vMt) + #1350 * (- #1 + #2 * EVar vlmMst1) * (#10 * EVar vshiftst1 - #10 * EVar
   vshiftst2 + EVar vshiftst3) * EPow P3 (EVar vMst1) * EPow P3 (EVar vs2t)) - EPow P3 (EVar vDmst12) * (#15 * EVar
   vMst1 * EVar vs2t * (- #102747 + #640 * EVar vlmMt + #6720 * EVar vshiftst3 - #32 * EVar vlmMst1 * (#331 + #90 *
   EVar vshiftst3) + #13888 * EPow P2 (EVar vlmMst1)) * EPow P2 (EVar vMt) - #75 * EVar vMt * (- #20531 + #200 * EVar
   vlmMst1 + #1200 * EPow P2 (EVar vlmMst1)) * EPow P2 (EVar vMst1) * EPow P2 (EVar vs2t) - #4 * (- #3454599 + #16840
   * EVar vlmMt + #48 * EVar vlmMst1 * (#262 + #405 * EVar vlmMt) + #46560 * EPow P2 (EVar vlmMst1)) * EPow P3 (EVar
   vMt) + #50 * (#1429 - #720 * EVar vshiftst1 + #360 * EVar vshiftst2 - #234 * EVar vshiftst3 + #2 * EVar vlmMst1 *
   (- #227 + #720 * EVar vshiftst1 - #360 * EVar vshiftst2 + #126 * EVar vshiftst3) + #24 * EPow P2 (EVar vlmMst1)) *
   EPow P3 (EVar vMst1) * EPow P3 (EVar vs2t)) + #400 * (- #6 * EVar vDmst12 * EVar vMst1 * EVar vs2t * (#631 + #36 *
   EVar vlmMt + #90 * EVar vshiftst2 + #27 * EVar vshiftst3 - EVar vlmMst1 * (#1 + #180 * EVar vshiftst2 + #18 * EVar
   vshiftst3) + #21 * EPow P2 (EVar vlmMst1)) + EVar vDmst12 * EVar vMt * (#11697 + #448 * EVar vlmMst1 + #330 * EVar
   vlmMt - #372 * EVar vlmMst1 * EVar vlmMt + #408 * EPow P2 (EVar vlmMst1) + #288 * EPow P2 (EVar vlmMt)) + #54 * (#1
   - #2 * EVar vlmMst1) * EVar vMst1 * EVar vs2t * (#10 * EVar vshiftst1 - #10 * EVar vshiftst2 + EVar vshiftst3) *
   EPow P2 (EVar vMst2) + #8 * EVar vMt * (#434 - #83 * EVar vlmMst1 + #174 * EVar vlmMt - #66 * EVar vlmMst1 * EVar
   vlmMt + #183 * EPow P2 (EVar vlmMst1) + #108 * EPow P2 (EVar vlmMt)) * EPow P2 (EVar vMst2)) * EPow P2 (EVar vMt) *
   EPow P4 (EVar vMst2)) + #500 * EVar vDmsqst1 * EPow P2 (EVar vMst1) * (- (EPow P2 (EVar vDmst12) * EPow P2 (EVar
   vMst2) * (#483 * EVar vMst1 * EVar vs2t * EPow P2 (EVar vMt) + #252 * EVar vMt * EPow P2 (EVar vMst1) * EPow P2
   (EVar vs2t) + #16 * (#65 - #6 * EVar vlmMst1 + #6 * EVar vlmMt) * EPow P3 (EVar vMt) + #54 * (#3 - #2 * EVar
   vlmMst1) * (EVar vshiftst1 - EVar vshiftst2) * EPow P3 (EVar vMst1) * EPow P3 (EVar vs2t))) + EPow P3 (EVar
   vDmst12) * (#6 * EVar vMst1 * EVar vs2t * (#173 - #144 * EVar vlmMst1 * (- #1 + EVar vshiftst2) + #216 * EVar
   vshiftst2) * EPow P2 (EVar vMt) + #504 * EVar vMt * EPow P2 (EVar vMst1) * EPow P2 (EVar vs2t) + #16 * (#65 - #6 *
   EVar vlmMst1 + #6 * EVar vlmMt) * EPow P3 (EVar vMt) + #3 * (#7 + #72 * EVar vshiftst1 - #36 * EVar vshiftst2 + #24
   * EVar vlmMst1 * (#1 - #2 * EVar vshiftst1 + EVar vshiftst2)) * EPow P3 (EVar vMst1) * EPow P3 (EVar vs2t)) + EPow
   P2 (EVar vMt) * (#8 * EVar vDmst12 * (#2 * (#65 - #6 * EVar vlmMst1 + #6 * EVar vlmMt) * EVar vMt - #9 * EVar vMst1
   * EVar vs2t * (#1 - #12 * EVar vlmMst1 * (- #1 + EVar vshiftst2) + #18 * EVar vshiftst2)) * EPow P4 (EVar vMst2) +
   #48 * ((#40 - #6 * EVar vlmMst1 + #6 * EVar vlmMt) * EVar vMt + #9 * (#3 - #2 * EVar vlmMst1) * EVar vMst1 * EVar
   vs2t * (EVar vshiftst1 - EVar vshiftst2)) * EPow P6 (EVar vMst2))))))))) / (#3888000 * EVar vTbeta * EPow P6 (EVar
   vMst1) * EPow P6 (EVar vMst2)).

(** H32q2g.cpp:824-885 *)
Definition H32q2g_coef0 : expr :=
  (- #8 * EVar vMst1 * EPow P3 (EVar vDmglst1) * (EVar vMst1 * EVar vMt * EPow P2 (EVar vDmst12) * EPow P2 (EVar vMst2)
   * (- #31305120 * EVar vDmsqst1 * EVar vMt * EVar vs2t + EVar vMt * EVar vs2t * (#21284082326 - #17749864125 *
   EConst Cz3) * EPow P2 (EVar vMst1) + #40 * EVar vMst1 * (- #16826654 + #15379875 * EConst Cz3) * EPow P2 (EVar vMt)
   - #7350 * (- #520877 + #430155 * EConst Cz3) * EPow P2 (EVar vs2t) * EPow P3 (EVar vMst1)) + EVar vMst1 * EPow P3
   (EVar vDmst12) * (#31305120 * EVar vDmsqst1 * EVar vs2t * EPow P2 (EVar vMt) + #2 * EVar vs2t * (- #31902674758 +
   #26534253375 * EConst Cz3) * EPow P2 (EVar vMst1) * EPow P2 (EVar vMt) + #14700 * EVar vMt * (- #520877 + #430155 *
   EConst Cz3) * EPow P2 (EVar vs2t) * EPow P3 (EVar vMst1) + #40 * EVar vMst1 * (#16826654 - #15379875 * EConst Cz3)
   * EPow P3 (EVar vMt) + #245 * (- #14217821 + #11852775 * EConst Cz3) * EPow P3 (EVar vs2t) * EPow P4 (EVar vMst1))
   - #4 * EVar vDmst12 * EVar vMst1 * (- #7826280 * EVar vDmsqst1 * EVar vs2t + #10 * EVar vMst1 * EVar vMt * (-
   #16826654 + #15379875 * EConst Cz3) + #49 * EVar vs2t * (- #108352984 + #89636625 * EConst Cz3) * EPow P2 (EVar
   vMst1)) * EPow P2 (EVar vMt) * EPow P4 (EVar vMst2) + #392 * (#154740 * EVar vDmsqst1 + (#10583177 - #8913375 *
   EConst Cz3) * EPow P2 (EVar vMst1)) * EPow P3 (EVar vMt) * EPow P6 (EVar vMst2)) + #49 * (#3750 * EVar vMt * EPow
   P2 (EVar vDmsqst1) * EPow P2 (EVar vMst1) * (EPow P2 (EVar vDmst12) * EPow P2 (EVar vMst2) * (- #1664 * EVar vMst1
   * EVar vMt * EVar vs2t - #4 * (- #566 + #567 * EConst Cz3) * EPow P2 (EVar vMt) + #3 * (#410 - #441 * EConst Cz3) *
   EPow P2 (EVar vMst1) * EPow P2 (EVar vs2t)) + #2 * (#832 * EVar vMst1 * EVar vMt * EVar vs2t + #2 * (- #566 + #567
   * EConst Cz3) * EPow P2 (EVar vMt) + #3 * (- #410 + #441 * EConst Cz3) * EPow P2 (EVar vMst1) * EPow P2 (EVar
   vs2t)) * EPow P3 (EVar vDmst12) + #4 * EVar vDmst12 * EVar vMt * (#416 * EVar vMst1 * EVar vs2t + EVar vMt * (-
   #566 + #567 * EConst Cz3)) * EPow P4 (EVar vMst2) + #8 * (- #598 + #567 * EConst Cz3) * EPow P2 (EVar vMt) * EPow
   P6 (EVar vMst2)) + #150 * EVar vDmsqst1 * EPow P4 (EVar vMst1) * (#4 * EVar vMt * EPow P2 (EVar vDmst12) * EPow P2
   (EVar vMst2) * (#19600 * EVar vMst1 * EVar vMt * EVar vs2t + (- #9122 + #14175 * EConst Cz3) * EPow P2 (EVar vMt) +
   #450 * (#2 - #21 * EConst Cz3) * EPow P2 (EVar vMst1) * EPow P2 (EVar vs2t)) + EPow P3 (EVar vDmst12) * (#20800 *
   EVar vMst1 * EVar vs2t * EPow P2 (EVar vMt) + #75 * EVar vMt * (#274 + #63 * EConst Cz3) * EPow P2 (EVar vMst1) *
   EPow P2 (EVar vs2t) - #16 * (- #6536 + #14175 * EConst Cz3) * EPow P3 (EVar vMt) + #8400 * EPow P3 (EVar vMst1) *
   EPow P3 (EVar vs2t)) + #200 * EVar vDmst12 * (- #888 * EVar vMst1 * EVar vs2t + EVar vMt * (- #158 + #567 * EConst
   Cz3)) * EPow P2 (EVar vMt) * EPow P4 (EVar vMst2) + #201600 * EPow P3 (EVar vMt) * EPow P6 (EVar vMst2)) - EPow P6
   (EVar vMst1) * (- #20 * EVar vMt * EPow P2 (EVar vDmst12) * EPow P2 (EVar vMst2) * (#300 * EVar vMst1 * EVar vMt *
   EVar vs2t * (- #17512 + #14805 * EConst Cz3) + (- #375892 + #621675 * EConst Cz3) * EPow P2 (EVar vMt) - #900 * (-
   #1226 + #495 * EConst Cz3) * EPow P2 (EVar vMst1) * EPow P2 (EVar vs2t)) + EPow P3 (EVar vDmst12) * (- #30 * EVar
   vMst1 * EVar vs2t * (- #1117238 + #877575 * EConst Cz3) * EPow P2 (EVar vMt) - #2250 * EVar vMt * (- #5570 + #333 *
   EConst Cz3) * EPow P2 (EVar vMst1) * EPow P2 (EVar vs2t) + (- #41715182 + #38174625 * EConst Cz3) * EPow P3 (EVar
   vMt) + #3000 * (- #2722 + #2259 * EConst Cz3) * EPow P3 (EVar vMst1) * EPow P3 (EVar vs2t)) - #6000 * EVar vDmst12
   * (#81 * EVar vMt * (- #406 + #285 * EConst Cz3) + #8 * EVar vMst1 * EVar vs2t * (- #694 + #477 * EConst Cz3)) *
   EPow P2 (EVar vMt) * EPow P4 (EVar vMst2) + #48000 * (#623 + #963 * EConst Cz3) * EPow P3 (EVar vMt) * EPow P6
   (EVar vMst2))) + #196 * EVar vDmglst1 * (#30000 * EVar vMst1 * EPow P2 (EVar vDmsqst1) * EPow P2 (EVar vMt) * (-
   #19 * EVar vMst1 * EVar vs2t * EPow P2 (EVar vDmst12) * EPow P2 (EVar vMst2) + #19 * EVar vMst1 * EVar vs2t * EPow
   P3 (EVar vDmst12) + #19 * EVar vDmst12 * EVar vMst1 * EVar vs2t * EPow P4 (EVar vMst2) - #132 * EVar vMt * EPow P6
   (EVar vMst2)) + #600 * EVar vDmsqst1 * EPow P3 (EVar vMst1) * (- #2 * EVar vMt * EPow P2 (EVar vDmst12) * EPow P2
   (EVar vMst2) * (- #1516 * EVar vMst1 * EVar vMt * EVar vs2t + #7614 * EPow P2 (EVar vMt) + #3525 * EPow P2 (EVar
   vMst1) * EPow P2 (EVar vs2t)) + EPow P3 (EVar vDmst12) * (- #564 * EVar vMst1 * EVar vs2t * EPow P2 (EVar vMt) +
   #14100 * EVar vMt * EPow P2 (EVar vMst1) * EPow P2 (EVar vs2t) + #15228 * EPow P3 (EVar vMt) + #125 * EPow P3 (EVar
   vMst1) * EPow P3 (EVar vs2t)) + #4 * EVar vDmst12 * (#3807 * EVar vMt - #1375 * EVar vMst1 * EVar vs2t) * EPow P2
   (EVar vMt) * EPow P4 (EVar vMst2) + #29200 * EPow P3 (EVar vMt) * EPow P6 (EVar vMst2)) + EPow P5 (EVar vMst1) *
   (EVar vMt * EPow P2 (EVar vDmst12) * EPow P2 (EVar vMst2) * (#40 * EVar vMst1 * EVar vMt * EVar vs2t * (- #4511549
   + #3729375 * EConst Cz3) + (#45149198 - #35285625 * EConst Cz3) * EPow P2 (EVar vMt) - #47250 * (- #430 + #207 *
   EConst Cz3) * EPow P2 (EVar vMst1) * EPow P2 (EVar vs2t)) + EPow P3 (EVar vDmst12) * (#2 * EVar vMst1 * EVar vs2t *
   (- #28188929 + #23099625 * EConst Cz3) * EPow P2 (EVar vMt) + #225 * EVar vMt * (- #160136 + #100785 * EConst Cz3)
   * EPow P2 (EVar vMst1) * EPow P2 (EVar vs2t) + (#115176444 - #85920750 * EConst Cz3) * EPow P3 (EVar vMt) + #1125 *
   (#22174 - #18791 * EConst Cz3) * EPow P3 (EVar vMst1) * EPow P3 (EVar vs2t)) + #40 * EVar vDmst12 * (#150 * EVar
   vMst1 * EVar vs2t * (- #19856 + #17667 * EConst Cz3) + EVar vMt * (- #5136871 + #3912300 * EConst Cz3)) * EPow P2
   (EVar vMt) * EPow P4 (EVar vMst2) + #6000 * (- #31142 + #22653 * EConst Cz3) * EPow P3 (EVar vMt) * EPow P6 (EVar
   vMst2))) + #2 * EPow P2 (EVar vDmglst1) * (#9243360 * EPow P2 (EVar vDmsqst1) * EPow P3 (EVar vMt) * EPow P6 (EVar
   vMst2) + #35280 * EVar vDmsqst1 * EVar vMt * EPow P2 (EVar vMst1) * (- (EPow P2 (EVar vDmst12) * EPow P2 (EVar
   vMst2) * (#7940 * EVar vMst1 * EVar vMt * EVar vs2t + #914 * EPow P2 (EVar vMt) + #225 * EPow P2 (EVar vMst1) *
   EPow P2 (EVar vs2t))) + (#7940 * EVar vMst1 * EVar vMt * EVar vs2t + #914 * EPow P2 (EVar vMt) + #450 * EPow P2
   (EVar vMst1) * EPow P2 (EVar vs2t)) * EPow P3 (EVar vDmst12) + #2 * EVar vDmst12 * EVar vMt * (#457 * EVar vMt +
   #3970 * EVar vMst1 * EVar vs2t) * EPow P4 (EVar vMst2) + #4760 * EPow P2 (EVar vMt) * EPow P6 (EVar vMst2)) + EPow
   P4 (EVar vMst1) * (EVar vMt * EPow P2 (EVar vDmst12) * EPow P2 (EVar vMst2) * (#196 * EVar vMst1 * EVar vMt * EVar
   vs2t * (- #263717842 + #218365875 * EConst Cz3) + (#27129768542 - #22522586625 * EConst Cz3) * EPow P2 (EVar vMt) +
   #22050 * (- #63802 + #92895 * EConst Cz3) * EPow P2 (EVar vMst1) * EPow P2 (EVar vs2t)) + EPow P3 (EVar vDmst12) *
   (- #392 * EVar vMst1 * EVar vs2t * (- #384557822 + #319453875 * EConst Cz3) * EPow P2 (EVar vMt) + #66150 * EVar
   vMt * (- #150737 + #112420 * EConst Cz3) * EPow P2 (EVar vMst1) * EPow P2 (EVar vs2t) + (- #25287306692 +
   #22556819250 * EConst Cz3) * EPow P3 (EVar vMt) + #3675 * (#1908362 - #1581075 * EConst Cz3) * EPow P3 (EVar vMst1)
   * EPow P3 (EVar vs2t)) + #392 * EVar vDmst12 * (#20 * EVar vMst1 * EVar vs2t * (- #6041999 + #5054400 * EConst Cz3)
   + EVar vMt * (- #73908751 + #57368250 * EConst Cz3)) * EPow P2 (EVar vMt) * EPow P4 (EVar vMst2) + #3920 * (-
   #8223692 + #6125625 * EConst Cz3) * EPow P3 (EVar vMt) * EPow P6 (EVar vMst2)))) / (#1984500 * EPow P3 (EVar vMt) *
   EPow P6 (EVar vMst1) * EPow P6 (EVar vMst2)).

(** H32q2g.cpp:890-932 *)
Definition H32q2g_coef1 : expr :=
  #4 * (#2 * EVar vMst1 * EPow P3 (EVar vDmglst1) * (- #2 * EVar vMst1 * EVar vMt * EPow P2 (EVar vDmst12) * EPow P2
   (EVar vMst2) * (#82320 * EVar vDmsqst1 * EVar vMt * EVar vs2t + #346639 * EVar vMt * EVar vs2t * EPow P2 (EVar
   vMst1) + #555463 * EVar vMst1 * EPow P2 (EVar vMt) + #1051785 * EPow P2 (EVar vs2t) * EPow P3 (EVar vMst1)) + EVar
   vMst1 * EPow P3 (EVar vDmst12) * (#164640 * EVar vDmsqst1 * EVar vs2t * EPow P2 (EVar vMt) + #8778304 * EVar vs2t *
   EPow P2 (EVar vMst1) * EPow P2 (EVar vMt) + #4207140 * EVar vMt * EPow P2 (EVar vs2t) * EPow P3 (EVar vMst1) +
   #1110926 * EVar vMst1 * EPow P3 (EVar vMt) + #661255 * EPow P3 (EVar vs2t) * EPow P4 (EVar vMst1)) + #2 * EVar
   vDmst12 * EVar vMst1 * (#555463 * EVar vMst1 * EVar vMt + #82320 * EVar vDmsqst1 * EVar vs2t - #3695874 * EVar vs2t
   * EPow P2 (EVar vMst1)) * EPow P2 (EVar vMt) * EPow P4 (EVar vMst2) - #4704 * (#10 * EVar vDmsqst1 + #141 * EPow P2
   (EVar vMst1)) * EPow P3 (EVar vMt) * EPow P6 (EVar vMst2)) + EPow P2 (EVar vDmglst1) * (- #246960 * EPow P2 (EVar
   vDmsqst1) * EPow P3 (EVar vMt) * EPow P6 (EVar vMst2) - #17640 * EVar vDmsqst1 * EPow P2 (EVar vMst1) * EPow P2
   (EVar vMt) * ((#17 * EVar vMt - #10 * EVar vMst1 * EVar vs2t) * EPow P2 (EVar vDmst12) * EPow P2 (EVar vMst2) + (-
   #17 * EVar vMt + #10 * EVar vMst1 * EVar vs2t) * EPow P3 (EVar vDmst12) + EVar vDmst12 * (- #17 * EVar vMt + #10 *
   EVar vMst1 * EVar vs2t) * EPow P4 (EVar vMst2) - #35 * EVar vMt * EPow P6 (EVar vMst2)) + EPow P4 (EVar vMst1) *
   (EVar vMt * EPow P2 (EVar vDmst12) * EPow P2 (EVar vMst2) * (- #4088560 * EVar vMst1 * EVar vMt * EVar vs2t +
   #968629 * EPow P2 (EVar vMt) + #1853670 * EPow P2 (EVar vMst1) * EPow P2 (EVar vs2t)) + EPow P3 (EVar vDmst12) *
   (#7502488 * EVar vMst1 * EVar vs2t * EPow P2 (EVar vMt) - #3134775 * EVar vMt * EPow P2 (EVar vMst1) * EPow P2
   (EVar vs2t) + #2019394 * EPow P3 (EVar vMt) + #689430 * EPow P3 (EVar vMst1) * EPow P3 (EVar vs2t)) - #196 * EVar
   vDmst12 * (#20187 * EVar vMt - #3442 * EVar vMst1 * EVar vs2t) * EPow P2 (EVar vMt) * EPow P4 (EVar vMst2) -
   #8199072 * EPow P3 (EVar vMt) * EPow P6 (EVar vMst2))) + #98 * EVar vDmglst1 * (#600 * EVar vDmsqst1 * EPow P2
   (EVar vMt) * EPow P3 (EVar vMst1) * ((#6 * EVar vMt + EVar vMst1 * EVar vs2t) * EPow P2 (EVar vDmst12) * EPow P2
   (EVar vMst2) + (- #6 * EVar vMt + #3 * EVar vMst1 * EVar vs2t) * EPow P3 (EVar vDmst12) - EVar vDmst12 * (#6 * EVar
   vMt + #5 * EVar vMst1 * EVar vs2t) * EPow P4 (EVar vMst2) - #25 * EVar vMt * EPow P6 (EVar vMst2)) + #1500 * EVar
   vMst1 * EPow P2 (EVar vDmsqst1) * EPow P2 (EVar vMt) * (- (EVar vMst1 * EVar vs2t * EPow P2 (EVar vDmst12) * EPow
   P2 (EVar vMst2)) + EVar vMst1 * EVar vs2t * EPow P3 (EVar vDmst12) + EVar vDmst12 * EVar vMst1 * EVar vs2t * EPow
   P4 (EVar vMst2) + #3 * EVar vMt * EPow P6 (EVar vMst2)) - EPow P5 (EVar vMst1) * (EVar vMt * EPow P2 (EVar vDmst12)
   * EPow P2 (EVar vMst2) * (#29758 * EVar vMst1 * EVar vMt * EVar vs2t + #6677 * EPow P2 (EVar vMt) + #22350 * EPow
   P2 (EVar vMst1) * EPow P2 (EVar vs2t)) + EPow P3 (EVar vDmst12) * (- #34587 * EVar vMst1 * EVar vs2t * EPow P2
   (EVar vMt) - #18045 * EVar vMt * EPow P2 (EVar vMst1) * EPow P2 (EVar vs2t) + #22414 * EPow P3 (EVar vMt) + #3325 *
   EPow P3 (EVar vMst1) * EPow P3 (EVar vs2t)) - #8 * EVar vDmst12 * (#4471 * EVar vMt + #6875 * EVar vMst1 * EVar
   vs2t) * EPow P2 (EVar vMt) * EPow P4 (EVar vMst2) + #50800 * EPow P3 (EVar vMt) * EPow P6 (EVar vMst2))) - #49 *
   (#750 * EPow P2 (EVar vDmsqst1) * EPow P2 (EVar vMst1) * EPow P2 (EVar vMt) * (- ((EVar vMt + #8 * EVar vMst1 *
   EVar vs2t) * EPow P2 (EVar vDmst12) * EPow P2 (EVar vMst2)) + (EVar vMt + #8 * EVar vMst1 * EVar vs2t) * EPow P3
   (EVar vDmst12) + EVar vDmst12 * (EVar vMt + #8 * EVar vMst1 * EVar vs2t) * EPow P4 (EVar vMst2) - #14 * EVar vMt *
   EPow P6 (EVar vMst2)) + #150 * EVar vDmsqst1 * EVar vMt * EPow P4 (EVar vMst1) * (EPow P2 (EVar vDmst12) * EPow P2
   (EVar vMst2) * (#80 * EVar vMst1 * EVar vMt * EVar vs2t + #17 * EPow P2 (EVar vMt) - #180 * EPow P2 (EVar vMst1) *
   EPow P2 (EVar vs2t)) - #2 * (#20 * EVar vMst1 * EVar vMt * EVar vs2t + #187 * EPow P2 (EVar vMt) - #90 * EPow P2
   (EVar vMst1) * EPow P2 (EVar vs2t)) * EPow P3 (EVar vDmst12) + #20 * EVar vDmst12 * EVar vMt * (#17 * EVar vMt - #6
   * EVar vMst1 * EVar vs2t) * EPow P4 (EVar vMst2) + #1080 * EPow P2 (EVar vMt) * EPow P6 (EVar vMst2)) - EPow P6
   (EVar vMst1) * (- #2 * EVar vMt * EPow P2 (EVar vDmst12) * EPow P2 (EVar vMst2) * (#25850 * EVar vMst1 * EVar vMt *
   EVar vs2t + #21033 * EPow P2 (EVar vMt) + #75 * EPow P2 (EVar vMst1) * EPow P2 (EVar vs2t)) + EPow P3 (EVar
   vDmst12) * (#68264 * EVar vMst1 * EVar vs2t * EPow P2 (EVar vMt) + #5700 * EVar vMt * EPow P2 (EVar vMst1) * EPow
   P2 (EVar vs2t) + #36107 * EPow P3 (EVar vMt) + #250 * EPow P3 (EVar vMst1) * EPow P3 (EVar vs2t)) + #200 * EVar
   vDmst12 * (#131 * EVar vMt + #100 * EVar vMst1 * EVar vs2t) * EPow P2 (EVar vMt) * EPow P4 (EVar vMst2) + #400 * (-
   #533 + #54 * EConst Cz3) * EPow P3 (EVar vMt) * EPow P6 (EVar vMst2)))) / (#33075 * EPow P3 (EVar vMt) * EPow P6
   (EVar vMst1) * EPow P6 (EVar vMst2)).

(** H32q2g.cpp:937-962 *)
Definition H32q2g_coef2 : expr :=
  - #8 * (#7 * EVar vDmglst1 * EPow P3 (EVar vMst1) * (#2 * EVar vMt * EPow P2 (EVar vDmst12) * EPow P2 (EVar vMst2) *
   (- #1304 * EVar vMst1 * EVar vMt * EVar vs2t + #888 * EPow P2 (EVar vMt) + #645 * EPow P2 (EVar vMst1) * EPow P2
   (EVar vs2t)) + EPow P3 (EVar vDmst12) * (#1544 * EVar vMst1 * EVar vs2t * EPow P2 (EVar vMt) - #2250 * EVar vMt *
   EPow P2 (EVar vMst1) * EPow P2 (EVar vs2t) - #1640 * EPow P3 (EVar vMt) + #275 * EPow P3 (EVar vMst1) * EPow P3
   (EVar vs2t)) - #8 * EVar vDmst12 * (#239 * EVar vMt - #35 * EVar vMst1 * EVar vs2t) * EPow P2 (EVar vMt) * EPow P4
   (EVar vMst2) - #6520 * EPow P3 (EVar vMt) * EPow P6 (EVar vMst2)) + EPow P2 (EVar vDmglst1) * EPow P2 (EVar vMst1)
   * (EVar vMt * EPow P2 (EVar vDmst12) * EPow P2 (EVar vMst2) * (- #4088 * EVar vMst1 * EVar vMt * EVar vs2t + #22884
   * EPow P2 (EVar vMt) - #8925 * EPow P2 (EVar vMst1) * EPow P2 (EVar vs2t)) + EPow P3 (EVar vDmst12) * (#42728 *
   EVar vMst1 * EVar vs2t * EPow P2 (EVar vMt) - #1155 * EVar vMt * EPow P2 (EVar vMst1) * EPow P2 (EVar vs2t) -
   #56772 * EPow P3 (EVar vMt) + #3360 * EPow P3 (EVar vMst1) * EPow P3 (EVar vs2t)) + #28 * EVar vDmst12 * (#393 *
   EVar vMt - #1234 * EVar vMst1 * EVar vs2t) * EPow P2 (EVar vMt) * EPow P4 (EVar vMst2) - #3948 * EPow P3 (EVar vMt)
   * EPow P6 (EVar vMst2)) + #8 * EVar vMst1 * EPow P3 (EVar vDmglst1) * (- #3 * EVar vMt * EPow P2 (EVar vDmst12) *
   EPow P2 (EVar vMst2) * (- #75 * EVar vMst1 * EVar vMt * EVar vs2t + #1122 * EPow P2 (EVar vMt) + #560 * EPow P2
   (EVar vMst1) * EPow P2 (EVar vs2t)) + EPow P3 (EVar vDmst12) * (#1671 * EVar vMst1 * EVar vs2t * EPow P2 (EVar vMt)
   + #3360 * EVar vMt * EPow P2 (EVar vMst1) * EPow P2 (EVar vs2t) + #3366 * EPow P3 (EVar vMt) + #140 * EPow P3 (EVar
   vMst1) * EPow P3 (EVar vs2t)) + #3 * EVar vDmst12 * (#1122 * EVar vMt - #707 * EVar vMst1 * EVar vs2t) * EPow P2
   (EVar vMt) * EPow P4 (EVar vMst2) + #2163 * EPow P3 (EVar vMt) * EPow P6 (EVar vMst2)) + #7 * (- (EVar vMt * EPow
   P2 (EVar vDmst12) * EPow P2 (EVar vMst2) * (#1760 * EVar vMst1 * EVar vMt * EVar vs2t + #538 * EPow P2 (EVar vMt) +
   #105 * EPow P2 (EVar vMst1) * EPow P2 (EVar vs2t)) * EPow P4 (EVar vMst1)) + EPow P3 (EVar vDmst12) * (#1032 * EVar
   vMst1 * EVar vs2t * EPow P2 (EVar vMt) + #480 * EVar vMt * EPow P2 (EVar vMst1) * EPow P2 (EVar vs2t) + #644 * EPow
   P3 (EVar vMt) - #45 * EPow P3 (EVar vMst1) * EPow P3 (EVar vs2t)) * EPow P4 (EVar vMst1) + #40 * EVar vDmst12 *
   (#11 * EVar vMt + #61 * EVar vMst1 * EVar vs2t) * EPow P2 (EVar vMt) * EPow P4 (EVar vMst1) * EPow P4 (EVar vMst2)
   + #10 * EPow P3 (EVar vMt) * (#45 * EPow P2 (EVar vDmsqst1) - #90 * EVar vDmsqst1 * EPow P2 (EVar vMst1) - #442 *
   EPow P4 (EVar vMst1)) * EPow P6 (EVar vMst2))) / (#315 * EPow P3 (EVar vMt) * EPow P4 (EVar vMst1) * EPow P6 (EVar
   vMst2)).

(** H32q2g.cpp:967-973 *)
Definition H32q2g_coef3 : expr :=
  - EDec 2986666666666667 13.

(** the constructor, H32q2g.cpp:37-67: value of each data member (members it does not assign are zero, H32q2g.hpp) *)
Definition H32q2g_ctor {T : Type} {N : Num T} (d : Depth) (a_Al4p a_beta a_Dmglst1 a_Dmst12 a_Dmsqst1 a_lmMt a_lmMst1
   a_Mt a_Mst1 a_Mst2 a_MuSUSY a_s2t : T) (mdr f1 f2 f3 : Z) (v : hvar) : T :=
  match v with
  | vTbeta => ntan a_beta
  | vSbeta => nsin a_beta
  | vDmglst1 => a_Dmglst1
  | vDmst12 => a_Dmst12
  | vDmsqst1 => a_Dmsqst1
  | vlmMst1 => a_lmMst1
  | vMt => a_Mt
  | vMst1 => a_Mst1
  | vMst2 => a_Mst2
  | vMuSUSY => a_MuSUSY
  | vs2t => a_s2t
  | vlmMt => a_lmMt
  | voneLoopFlag => nint f1
  | vtwoLoopFlag => nint f2
  | vthreeLoopFlag => nint f3
  | vAl4p => a_Al4p
  | vshiftst1 => nint mdr
  | vshiftst2 => nint mdr
  | vshiftst3 => nint mdr
  | vxDmglst1 => nint (x_Dmglst1 d)
  | vxDmst12 => nint (x_Dmglst1 d)
  | vxDmsqst1 => nint (x_Dmsqst1 d)
  | _ => nint 0
  end.
