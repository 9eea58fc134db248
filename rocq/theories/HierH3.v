(** * Class H3
    GENERATED by tools/gen_hier.py from source/himalaya/hierarchies/H3.cpp (expressions are transcribed operator by operator;
    no subexpression is an integer division, and integer subexpressions stay below 2^31 when the flags are 0 or 1). *)
From Coq Require Import ZArith List.
From Verif Require Import Num HierExpr HierCalc.
Local Open Scope hx_scope.

(** H3.cpp:75-176 *)
Definition H3_getS1 : expr :=
  - (EPow P2 (EVar vMt) * EPow P2 (EVar vMuSUSY) * (- #4 * EVar vxDmst12 * EPow P3 (EVar vDmst12) * (#4050 * EVar
   voneLoopFlag * EPow P2 (EVar vs2t) + #8 * EVar vAl4p * (#450 * EVar vMgl * EVar vMst1 * EVar vs2t * EVar
   vtwoLoopFlag * (#4 * EVar vDmglst1 * EVar vMgl * ((#5 - #6 * EVar vlmMst1) * EVar vMt + #4 * (#1 - #3 * EVar
   vlmMst1) * EVar vMst1 * EVar vs2t) - #4 * (EVar vMt + #6 * EVar vlmMst1 * EVar vMt + #3 * (- #5 + #6 * EVar
   vlmMst1) * EVar vMst1 * EVar vs2t) * EPow P2 (EVar vDmglst1) + (- #4 * (#5 + #6 * EVar vlmMst1) * EVar vMt + (#1 +
   #6 * EVar vlmMst1) * EVar vMst1 * EVar vs2t) * EPow P2 (EVar vMgl)) + EVar vxDmglst1 * (- #360 * EVar vMst1 * EVar
   vs2t * (#3 * (#9 + #10 * EVar vlmMst1) * EVar vMt + #10 * (- #13 + #12 * EVar vlmMst1) * EVar vMst1 * EVar vs2t) *
   EVar vtwoLoopFlag * EPow P2 (EVar vMsq) + EVar vAl4p * EVar vthreeLoopFlag * (#30000 * EVar vDmsqst1 * EVar vMst1 *
   EVar vMt * EVar vs2t + EPow P2 (EVar vMsq) * (#2 * EVar vMst1 * EVar vMt * EVar vs2t * (#37824007 + #770520 * EVar
   vlmMst1 - #131400 * EPow P2 (EVar vlmMst1)) + (#59957863 + #480000 * EVar vlmMst1 - #26880 * EVar vlmMt - #230400 *
   EPow P2 (EVar vlmMst1)) * EPow P2 (EVar vMt) + #15 * (- #3044017 - #27472 * EVar vlmMst1 + #48480 * EPow P2 (EVar
   vlmMst1)) * EPow P2 (EVar vMst1) * EPow P2 (EVar vs2t)))) * EPow P3 (EVar vDmglst1) / EPow P2 (EVar vMsq)) / (EPow
   P2 (EVar vMst1) * EPow P3 (EVar vMgl)) + EVar vthreeLoopFlag * EPow P2 (EVar vAl4p) * (EVar vMt * (EVar vMt * (#72
   * EPow P2 (EVar vDmglst1) * (#3891491 + #27200 * EVar vlmMst1 - #960 * EVar vlmMt - #19200 * EPow P2 (EVar
   vlmMst1)) + #200 * EVar vDmglst1 * EVar vMgl * (#403559 + #384 * (EVar vlmMst1 + EVar vlmMt) - #4608 * EPow P2
   (EVar vlmMst1)) + #15 * (- #1763661 + #47104 * EVar vlmMst1 - #5120 * EVar vlmMt + #24576 * EPow P2 (EVar vlmMst1))
   * EPow P2 (EVar vMgl)) + #240 * EVar vMst1 * EVar vs2t * (#5 * EPow P2 (EVar vMgl) * (#840 * EVar vDmsqst1 + (-
   #36863 + #80 * EVar vlmMst1 + #552 * EPow P2 (EVar vlmMst1)) * EPow P2 (EVar vMsq)) + #10 * EPow P2 (EVar vDmglst1)
   * (#100 * EVar vDmsqst1 + (- #32829 + #1852 * EVar vlmMst1 + #660 * EPow P2 (EVar vlmMst1)) * EPow P2 (EVar vMsq))
   + EVar vDmglst1 * EVar vMgl * (#1000 * EVar vDmsqst1 + (- #1282471 + #7264 * EVar vlmMst1 + #18120 * EPow P2 (EVar
   vlmMst1)) * EPow P2 (EVar vMsq))) / EPow P2 (EVar vMsq)) / (EPow P2 (EVar vMgl) * EPow P2 (EVar vMst1)) + #15 *
   (#350605 + #4320 * EVar vshiftst1 + #2880 * EVar vshiftst2 + #8352 * EVar vshiftst3 - #96 * EVar vlmMst1 * (- #115
   + #90 * EVar vshiftst1 + #60 * EVar vshiftst2 + #54 * EVar vshiftst3) - #2160 * EPow P2 (EVar vlmMst1) + #40 * EVar
   vDmglst1 * (- #84209 - #1264 * EVar vlmMst1 + #240 * EPow P2 (EVar vlmMst1)) / EVar vMgl + #8 * EPow P2 (EVar
   vDmglst1) * (- #1732531 - #16896 * EVar vlmMst1 + #24840 * EPow P2 (EVar vlmMst1)) / EPow P2 (EVar vMgl) + #2400 *
   EVar vDmsqst1 * (#7 - #24 * EVar vlmMst1 * (- #1 + EVar vshiftst2) + #36 * EVar vshiftst2) / EPow P2 (EVar vMsq)) *
   EPow P2 (EVar vs2t) + #12000 * EVar vs2t * EVar vxDmsqst1 * EPow P2 (EVar vDmsqst1) * (#20 * EVar vDmglst1 * EVar
   vMt * (EVar vDmglst1 * EVar vMgl + EVar vxDmglst1 * EPow P2 (EVar vDmglst1) + EPow P2 (EVar vMgl)) + #3 * (#28 *
   EVar vMt + EVar vMst1 * EVar vs2t * (#7 + #6 * EVar vshiftst1 - #24 * EVar vlmMst1 * (- #1 + EVar vshiftst2) + #30
   * EVar vshiftst2)) * EPow P3 (EVar vMgl)) / (EVar vMst1 * EPow P3 (EVar vMgl) * EPow P4 (EVar vMsq)))) + #8 * EPow
   P2 (EVar vMst2) * (- #1800 * EVar vAl4p * EVar vDmst12 * EVar vs2t * EVar vtwoLoopFlag * (EPow P2 (EVar vMgl) *
   (EVar vDmst12 * (#4 * EVar vMt - #3 * EVar vMst1 * EVar vs2t) + #12 * (#1 + #2 * EVar vlmMst1) * EVar vMt * EPow P2
   (EVar vMst2)) + EPow P2 (EVar vDmglst1) * (#6 * EVar vDmst12 * (#4 * EVar vMt + (- #5 + #6 * EVar vlmMst1) * EVar
   vMst1 * EVar vs2t) + #4 * (- #11 + #6 * EVar vlmMst1) * EVar vMt * EPow P2 (EVar vMst2)) + #4 * EVar vDmglst1 *
   EVar vMgl * (#2 * EVar vDmst12 * (- #1 + #3 * EVar vlmMst1) * EVar vMst1 * EVar vs2t + (- #5 + #6 * EVar vlmMst1) *
   EVar vMt * EPow P2 (EVar vMst2))) / (EVar vMst1 * EPow P2 (EVar vMgl)) + #2025 * EVar voneLoopFlag * EPow P2 (EVar
   vDmst12) * EPow P2 (EVar vs2t) - #2 * EVar vAl4p * EVar vxDmglst1 * EPow P3 (EVar vDmglst1) * (#720 * EVar vDmst12
   * EVar vMst1 * EVar vs2t * EVar vtwoLoopFlag * EPow P2 (EVar vMsq) * (#52 * EVar vDmst12 * EVar vMt + #5 * EVar
   vDmst12 * (- #13 + #12 * EVar vlmMst1) * EVar vMst1 * EVar vs2t + (- #77 + #30 * EVar vlmMst1) * EVar vMt * EPow P2
   (EVar vMst2)) + EVar vAl4p * EVar vthreeLoopFlag * (#2 * EVar vDmst12 * EVar vMt * (#30000 * EVar vDmsqst1 * EVar
   vMst1 * EVar vs2t + (#4 * EVar vMst1 * EVar vs2t * (#31025111 + #290880 * EVar vlmMst1 - #251100 * EPow P2 (EVar
   vlmMst1)) + EVar vMt * (#59957863 + #480000 * EVar vlmMst1 - #26880 * EVar vlmMt - #230400 * EPow P2 (EVar
   vlmMst1))) * EPow P2 (EVar vMsq)) * EPow P2 (EVar vMst2) + EPow P2 (EVar vDmst12) * (- #60000 * EVar vDmsqst1 *
   EVar vMst1 * EVar vMt * EVar vs2t + EPow P2 (EVar vMsq) * (#2 * EVar vMst1 * EVar vMt * EVar vs2t * (- #99874229 -
   #1352280 * EVar vlmMst1 + #633600 * EPow P2 (EVar vlmMst1)) + #2 * (- #59957863 - #480000 * EVar vlmMst1 + #26880 *
   EVar vlmMt + #230400 * EPow P2 (EVar vlmMst1)) * EPow P2 (EVar vMt) + #15 * (#3044017 + #27472 * EVar vlmMst1 -
   #48480 * EPow P2 (EVar vlmMst1)) * EPow P2 (EVar vMst1) * EPow P2 (EVar vs2t))) - #24 * (- #3877891 - #46400 * EVar
   vlmMst1 + #960 * EVar vlmMt + #19200 * EPow P2 (EVar vlmMst1)) * EPow P2 (EVar vMsq) * EPow P2 (EVar vMt) * EPow P4
   (EVar vMst2))) / (EPow P2 (EVar vMsq) * EPow P2 (EVar vMst1) * EPow P3 (EVar vMgl))) + EVar vthreeLoopFlag * EPow
   P2 (EVar vAl4p) * (- #480 * EVar vMgl * EPow P2 (EVar vMst1) * EPow P2 (EVar vs2t) * (EVar vDmst12 * EPow P2 (EVar
   vMsq) * EPow P2 (EVar vMst2) * (#300 * EVar vDmsqst1 * EPow P2 (EVar vMgl) * (EVar vDmst12 * (- #7 - #18 * EVar
   vshiftst1 - #18 * EVar vshiftst2 + #12 * EVar vlmMst1 * (- #2 + EVar vshiftst1 + EVar vshiftst2)) - #12 * (- #3 +
   #2 * EVar vlmMst1) * (EVar vshiftst1 - EVar vshiftst2) * EPow P2 (EVar vMst2)) + EPow P2 (EVar vMsq) * (EVar
   vDmst12 * EPow P2 (EVar vDmglst1) * (#1732531 + #16896 * EVar vlmMst1 - #24840 * EPow P2 (EVar vlmMst1)) + #5 *
   EVar vDmglst1 * EVar vDmst12 * EVar vMgl * (#84209 + #1264 * EVar vlmMst1 - #240 * EPow P2 (EVar vlmMst1)) + #10 *
   EPow P2 (EVar vMgl) * (EVar vDmst12 * (#1429 - #180 * EVar vshiftst1 - #180 * EVar vshiftst2 + EVar vlmMst1 * (-
   #454 + #360 * EVar vshiftst1 + #360 * EVar vshiftst2) + #24 * EPow P2 (EVar vlmMst1)) - #360 * (- #1 + #2 * EVar
   vlmMst1) * (EVar vshiftst1 - EVar vshiftst2) * EPow P2 (EVar vMst2)))) / #2 + EPow P2 (EVar vMgl) * (#90 * EVar
   vDmst12 * EVar vshiftst3 * EPow P2 (EVar vMst2) * (EVar vDmst12 * (- #7 + #6 * EVar vlmMst1) + #2 * (#1 - #2 * EVar
   vlmMst1) * EPow P2 (EVar vMst2)) * EPow P4 (EVar vMsq) + #36 * EConst Cz2 * (- #2 * EVar vxDmst12 * EPow P3 (EVar
   vDmst12) * (#100 * EVar vDmsqst1 * EVar vshiftst2 * (EVar vDmsqst1 * EVar vxDmsqst1 + EPow P2 (EVar vMsq)) + (#15 *
   EVar vshiftst1 + #10 * EVar vshiftst2 + #9 * EVar vshiftst3) * EPow P4 (EVar vMsq)) + EVar vDmst12 * EPow P2 (EVar
   vMst2) * (#5 * EVar vshiftst3 * (#3 * EVar vDmst12 - #2 * EPow P2 (EVar vMst2)) * EPow P4 (EVar vMsq) - #50 * (-
   (EVar vDmst12 * (EVar vshiftst1 + EVar vshiftst2)) + #2 * (EVar vshiftst1 - EVar vshiftst2) * EPow P2 (EVar vMst2))
   * (EVar vxDmsqst1 * EPow P2 (EVar vDmsqst1) + EVar vDmsqst1 * EPow P2 (EVar vMsq) + EPow P4 (EVar vMsq)))))) + EPow
   P2 (EVar vMst2) * (#24000 * EVar vDmst12 * EVar vMst1 * EVar vs2t * EVar vxDmsqst1 * EPow P2 (EVar vDmsqst1) * (#40
   * EVar vDmglst1 * EVar vMt * (EVar vDmglst1 * EVar vMgl + EVar vxDmglst1 * EPow P2 (EVar vDmglst1) + EPow P2 (EVar
   vMgl)) * (EVar vDmst12 - EPow P2 (EVar vMst2)) - #3 * (- (EVar vDmst12 * (#56 * EVar vMt + EVar vMst1 * EVar vs2t *
   (#7 + #30 * EVar vshiftst1 + #6 * EVar vshiftst2 - #12 * EVar vlmMst1 * (- #2 + EVar vshiftst1 + EVar vshiftst2))))
   + #8 * (#7 * EVar vMt - #3 * (- #2 + EVar vlmMst1) * EVar vMst1 * EVar vs2t * (EVar vshiftst1 - EVar vshiftst2)) *
   EPow P2 (EVar vMst2)) * EPow P3 (EVar vMgl)) + #2 * EVar vMgl * EVar vMt * EPow P2 (EVar vMsq) * (#240 * EVar
   vDmst12 * EVar vMst1 * EVar vs2t * (#5 * EPow P2 (EVar vMgl) * (#1680 * EVar vDmsqst1 * (EVar vDmst12 - EPow P2
   (EVar vMst2)) + EPow P2 (EVar vMsq) * (#3 * EVar vDmst12 * (- #10473 + #40 * EVar vlmMst1 + #256 * EPow P2 (EVar
   vlmMst1)) - #8 * (#1361 + #10 * EVar vlmMst1 + #54 * EPow P2 (EVar vlmMst1)) * EPow P2 (EVar vMst2))) + EVar
   vDmglst1 * EVar vMgl * (#2000 * EVar vDmsqst1 * (EVar vDmst12 - EPow P2 (EVar vMst2)) + EPow P2 (EVar vMsq) * (EVar
   vDmst12 * (- #949861 + #1944 * EVar vlmMst1 + #11520 * EPow P2 (EVar vlmMst1)) + #20 * (- #33261 + #532 * EVar
   vlmMst1 + #660 * EPow P2 (EVar vlmMst1)) * EPow P2 (EVar vMst2))) + EPow P2 (EVar vDmglst1) * (#2000 * EVar
   vDmsqst1 * (EVar vDmst12 - EPow P2 (EVar vMst2)) + EPow P2 (EVar vMsq) * (EVar vDmst12 * (#958501 + #24456 * EVar
   vlmMst1 - #11520 * EPow P2 (EVar vlmMst1)) + #2 * (- #1286791 - #5936 * EVar vlmMst1 + #18120 * EPow P2 (EVar
   vlmMst1)) * EPow P2 (EVar vMst2)))) + EVar vMt * EPow P2 (EVar vMsq) * (#16 * EPow P2 (EVar vDmglst1) * (- #9 *
   EVar vDmst12 * (- #3891491 - #27200 * EVar vlmMst1 + #960 * EVar vlmMt + #19200 * EPow P2 (EVar vlmMst1)) * (EVar
   vDmst12 - EPow P2 (EVar vMst2)) - #50 * (#345581 + #4896 * EVar vlmMst1 + #96 * EVar vlmMt - #3456 * EPow P2 (EVar
   vlmMst1)) * EPow P4 (EVar vMst2)) + #400 * EVar vDmglst1 * EVar vMgl * (EVar vDmst12 * (#403559 + #384 * (EVar
   vlmMst1 + EVar vlmMt) - #4608 * EPow P2 (EVar vlmMst1)) * (EVar vDmst12 - EPow P2 (EVar vMst2)) - #24 * (#9631 +
   #16 * EVar vlmMst1 + #48 * EVar vlmMt - #192 * EPow P2 (EVar vlmMst1)) * EPow P4 (EVar vMst2)) - #15 * EPow P2
   (EVar vMgl) * (EPow P2 (EVar vDmst12) * (#852541 + #9216 * EVar vlmMst1 - #10240 * EVar vlmMt + #6144 * EPow P2
   (EVar vlmMst1)) + #160 * EVar vDmst12 * (#11389 - #704 * EVar vlmMst1 + #192 * EVar vlmMt - #384 * EPow P2 (EVar
   vlmMst1)) * EPow P2 (EVar vMst2) + #1920 * (#349 - #56 * EVar vlmMst1 + #24 * EVar vlmMt - #32 * EPow P2 (EVar
   vlmMst1)) * EPow P4 (EVar vMst2))))) - #225 * EConst Cz3 * (- #2 * EVar vxDmst12 * EPow P3 (EVar vDmst12) * ((- #16
   * EVar vMgl * EVar vMst1 * EVar vMt * EVar vs2t * (#142987 * EVar vDmglst1 * EVar vMgl + #37582 * EPow P2 (EVar
   vDmglst1) + #20297 * EPow P2 (EVar vMgl)) + #3 * EVar vMgl * (#197112 * EVar vDmglst1 * EVar vMgl + #687960 * EPow
   P2 (EVar vDmglst1) - #65963 * EPow P2 (EVar vMgl)) * EPow P2 (EVar vMt) + #8 * EVar vxDmglst1 * (#557078 * EVar
   vMst1 * EVar vMt * EVar vs2t + #442053 * EPow P2 (EVar vMt) - #349745 * EPow P2 (EVar vMst1) * EPow P2 (EVar vs2t))
   * EPow P3 (EVar vDmglst1)) * EPow P4 (EVar vMsq) - EVar vMgl * EPow P2 (EVar vMst1) * EPow P2 (EVar vs2t) * (-
   #10080 * EVar vDmsqst1 * EPow P2 (EVar vMgl) * (EVar vDmsqst1 * EVar vxDmsqst1 + EPow P2 (EVar vMsq)) + (#403880 *
   EVar vDmglst1 * EVar vMgl + #1600920 * EPow P2 (EVar vDmglst1) - #37669 * EPow P2 (EVar vMgl)) * EPow P4 (EVar
   vMsq))) + EPow P2 (EVar vMst2) * (- #8 * (EVar vMgl * EPow P2 (EVar vDmst12) * EPow P2 (EVar vMst1) * EPow P2 (EVar
   vs2t) * (- #1260 * EVar vDmsqst1 * EPow P2 (EVar vMgl) * (EVar vDmsqst1 * EVar vxDmsqst1 + EPow P2 (EVar vMsq)) +
   (#50485 * EVar vDmglst1 * EVar vMgl + #200115 * EPow P2 (EVar vDmglst1) + #2574 * EPow P2 (EVar vMgl)) * EPow P4
   (EVar vMsq)) + EVar vxDmglst1 * EPow P3 (EVar vDmglst1) * EPow P4 (EVar vMsq) * (#18 * EVar vDmst12 * EVar vMt *
   (#49117 * EVar vMt + #102024 * EVar vMst1 * EVar vs2t) * EPow P2 (EVar vMst2) + EPow P2 (EVar vDmst12) * (-
   #1475294 * EVar vMst1 * EVar vMt * EVar vs2t - #884106 * EPow P2 (EVar vMt) + #349745 * EPow P2 (EVar vMst1) * EPow
   P2 (EVar vs2t)) + #687960 * EPow P2 (EVar vMt) * EPow P4 (EVar vMst2))) + EVar vMgl * EVar vMt * EPow P4 (EVar
   vMsq) * (#16 * EVar vDmst12 * EVar vMst1 * EVar vs2t * (#5 * EVar vDmst12 * (- #21081 * EVar vDmglst1 * EVar vMgl +
   #21081 * EPow P2 (EVar vDmglst1) - #3457 * EPow P2 (EVar vMgl)) - #2 * (#37582 * EVar vDmglst1 * EVar vMgl +
   #142987 * EPow P2 (EVar vDmglst1) + #3012 * EPow P2 (EVar vMgl)) * EPow P2 (EVar vMst2)) + #3 * EVar vMt * (#48 *
   EVar vDmglst1 * EVar vMgl * (#8213 * EPow P2 (EVar vDmst12) - #8213 * EVar vDmst12 * EPow P2 (EVar vMst2) - #4664 *
   EPow P4 (EVar vMst2)) + #432 * EPow P2 (EVar vDmglst1) * (#3185 * EPow P2 (EVar vDmst12) - #3185 * EVar vDmst12 *
   EPow P2 (EVar vMst2) - #1566 * EPow P4 (EVar vMst2)) - EPow P2 (EVar vMgl) * (#31963 * EPow P2 (EVar vDmst12) +
   #68000 * EVar vDmst12 * EPow P2 (EVar vMst2) + #24064 * EPow P4 (EVar vMst2))))))) / (EPow P2 (EVar vMst1) * EPow
   P3 (EVar vMgl) * EPow P4 (EVar vMsq)))) / (#777600 * EPow P6 (EVar vMst2)).

(** H3.cpp:181-772 *)
Definition H3_getS2 : expr :=
  (EPow P2 (EVar vMst2) * (#2 * EVar vAl4p * EVar vMgl * EVar vMt * EPow P2 (EVar vMsq) * (- #70560 * EVar vMst1 * EVar
   vMt * EVar vtwoLoopFlag * EPow P2 (EVar vMsq) * (#2 * EVar vMuSUSY * EPow P2 (EVar vSbeta) * (- #3 * EPow P2 (EVar
   vDmglst1) * (#2 * EVar vDmst12 * EVar vMt * ((#477 - #330 * EVar vlmMst1 + #30 * EVar vlmMt) * EVar vMt + #50 *
   (#13 - #18 * EVar vlmMst1) * EVar vMst1 * EVar vs2t) * EPow P2 (EVar vMst2) - EPow P2 (EVar vDmst12) * (#70 * EVar
   vMst1 * EVar vMt * EVar vs2t + #8 * (#92 - #30 * EVar vlmMst1 + #5 * EVar vlmMt) * EPow P2 (EVar vMt) + #25 * (#11
   - #6 * EVar vlmMst1) * EPow P2 (EVar vMst1) * EPow P2 (EVar vs2t)) + #400 * (#4 - #3 * EVar vlmMst1) * EPow P2
   (EVar vMt) * EPow P4 (EVar vMst2)) + #25 * EPow P2 (EVar vMgl) * (#4 * EVar vDmst12 * EVar vMt * (#2 * (#5 + #6 *
   EVar vlmMst1 + #3 * EVar vlmMt) * EVar vMt - #9 * (#1 + #2 * EVar vlmMst1) * EVar vMst1 * EVar vs2t) * EPow P2
   (EVar vMst2) - EPow P2 (EVar vDmst12) * (#24 * (#1 - #3 * EVar vlmMst1) * EVar vMst1 * EVar vMt * EVar vs2t + #2 *
   (#5 + #6 * (EVar vlmMst1 + EVar vlmMt)) * EPow P2 (EVar vMt) + #9 * (#1 + #2 * EVar vlmMst1) * EPow P2 (EVar vMst1)
   * EPow P2 (EVar vs2t)) + #72 * (#1 + EVar vlmMst1 + EVar vlmMt) * EPow P2 (EVar vMt) * EPow P4 (EVar vMst2)) - EVar
   vDmglst1 * EVar vMgl * (- #300 * EVar vDmst12 * EVar vMt * ((- #3 + #6 * EVar vlmMst1) * EVar vMt + #2 * (- #1 + #6
   * EVar vlmMst1) * EVar vMst1 * EVar vs2t) * EPow P2 (EVar vMst2) + #3 * EPow P2 (EVar vDmst12) * (- #100 * EVar
   vMst1 * EVar vMt * EVar vs2t + #2 * (- #41 + #90 * EVar vlmMst1 + #10 * EVar vlmMt) * EPow P2 (EVar vMt) + #25 * (-
   #5 + #6 * EVar vlmMst1) * EPow P2 (EVar vMst1) * EPow P2 (EVar vs2t)) - #200 * (- #7 + #15 * EVar vlmMst1 + #3 *
   EVar vlmMt) * EPow P2 (EVar vMt) * EPow P4 (EVar vMst2))) + EVar vTbeta * (- #25 * EVar vDmst12 * EVar vs2t * (#4 *
   EVar vDmglst1 * EVar vMgl * ((- #5 + #6 * EVar vlmMst1) * EVar vMt * EPow P2 (EVar vMst2) * EPow P2 (EVar vMuSUSY)
   - #2 * EVar vDmst12 * EVar vMst1 * EVar vs2t * ((- #1 + #3 * EVar vlmMst1) * EPow P2 (EVar vMuSUSY) * (- #1 + EPow
   P2 (EVar vSbeta)) + #3 * (- #1 + #6 * EVar vlmMst1) * EPow P2 (EVar vMst1) * EPow P2 (EVar vSbeta))) + #2 * EPow P2
   (EVar vDmglst1) * (#2 * (- #11 + #6 * EVar vlmMst1) * EVar vMt * EPow P2 (EVar vMst2) * EPow P2 (EVar vMuSUSY) + #3
   * EVar vDmst12 * (#4 * EVar vMt * EPow P2 (EVar vMuSUSY) - (- #5 + #6 * EVar vlmMst1) * EVar vMst1 * EVar vs2t *
   EPow P2 (EVar vMuSUSY) * (- #1 + EPow P2 (EVar vSbeta)) + #2 * (#13 - #18 * EVar vlmMst1) * EVar vs2t * EPow P2
   (EVar vSbeta) * EPow P3 (EVar vMst1))) + EPow P2 (EVar vMgl) * (#12 * (#1 + #2 * EVar vlmMst1) * EVar vMt * EPow P2
   (EVar vMst2) * EPow P2 (EVar vMuSUSY) + EVar vDmst12 * (#4 * EVar vMt * EPow P2 (EVar vMuSUSY) + #3 * EVar vMst1 *
   EVar vs2t * EPow P2 (EVar vMuSUSY) * (- #1 + EPow P2 (EVar vSbeta)) + #36 * (#1 + #2 * EVar vlmMst1) * EVar vs2t *
   EPow P2 (EVar vSbeta) * EPow P3 (EVar vMst1)))) + EPow P2 (EVar vSbeta) * (#4 * EVar vDmst12 * EVar vMt * EVar vs2t
   * (- #25 * EPow P2 (EVar vMgl) * (EVar vDmst12 * (#4 * (#1 + #3 * EVar vlmMst1 + #6 * EVar vlmMt) * EPow P2 (EVar
   vMst1) - EPow P2 (EVar vMuSUSY)) - #3 * EPow P2 (EVar vMst2) * (#6 * (#1 + #2 * (EVar vlmMst1 + EVar vlmMt)) * EPow
   P2 (EVar vMst1) + (#1 + #2 * EVar vlmMst1) * EPow P2 (EVar vMuSUSY))) + EPow P2 (EVar vDmglst1) * (- #6 * EVar
   vDmst12 * ((- #169 + #135 * EVar vlmMst1 + #15 * EVar vlmMt) * EPow P2 (EVar vMst1) - #25 * EPow P2 (EVar vMuSUSY))
   + #25 * EPow P2 (EVar vMst2) * (#24 * (- #4 + #3 * EVar vlmMst1) * EPow P2 (EVar vMst1) + (- #11 + #6 * EVar
   vlmMst1) * EPow P2 (EVar vMuSUSY))) + #25 * EVar vDmglst1 * EVar vMgl * (- #4 * EVar vDmst12 * (- #4 + #6 * EVar
   vlmMst1 + #3 * EVar vlmMt) * EPow P2 (EVar vMst1) + EPow P2 (EVar vMst2) * (#2 * (- #17 + #30 * EVar vlmMst1 + #6 *
   EVar vlmMt) * EPow P2 (EVar vMst1) + (- #5 + #6 * EVar vlmMst1) * EPow P2 (EVar vMuSUSY)))) - #2 * EVar vMst1 *
   EPow P2 (EVar vMt) * (#4 * EVar vDmglst1 * EVar vMgl * ((#11 + #60 * EVar vlmMst1 - #60 * EVar vlmMt) * EPow P2
   (EVar vDmst12) + #25 * EVar vDmst12 * (#1 + #30 * EVar vlmMst1 + #6 * EVar vlmMt) * EPow P2 (EVar vMst2) + #100 *
   (#1 + #12 * EVar vlmMst1 + #6 * EVar vlmMt) * EPow P4 (EVar vMst2)) + #2 * EPow P2 (EVar vDmglst1) * ((- #83 + #120
   * EVar vlmMst1 - #120 * EVar vlmMt) * EPow P2 (EVar vDmst12) + EVar vDmst12 * (- #1381 + #2490 * EVar vlmMst1 +
   #210 * EVar vlmMt) * EPow P2 (EVar vMst2) + #200 * (- #11 + #21 * EVar vlmMst1 + #6 * EVar vlmMt) * EPow P4 (EVar
   vMst2)) + #25 * EPow P2 (EVar vMgl) * ((#5 + #42 * EVar vlmMst1 + #30 * EVar vlmMt) * EPow P2 (EVar vDmst12) - #8 *
   EVar vDmst12 * (#4 + #3 * EVar vlmMst1 + #6 * EVar vlmMt) * EPow P2 (EVar vMst2) - #72 * (#1 + EVar vlmMst1 - EVar
   vlmMt + #2 * EVar vlmMst1 * EVar vlmMt + EPow P2 (EVar vlmMst1) - #3 * EPow P2 (EVar vlmMt)) * EPow P4 (EVar
   vMst2)))))) + EVar vAl4p * EVar vthreeLoopFlag * (#784 * EVar vMst1 * EVar vMuSUSY * EPow P2 (EVar vSbeta) * (#225
   * EVar vMt * EPow P2 (EVar vDmst12) * (EPow P2 (EVar vDmglst1) * (#1000 * EVar vDmsqst1 + (#1286791 + #5936 * EVar
   vlmMst1 - #18120 * EPow P2 (EVar vlmMst1)) * EPow P2 (EVar vMsq)) + #10 * EVar vDmglst1 * EVar vMgl * (#100 * EVar
   vDmsqst1 + (#33261 - #532 * EVar vlmMst1 - #660 * EPow P2 (EVar vlmMst1)) * EPow P2 (EVar vMsq)) + #20 * EPow P2
   (EVar vMgl) * (#210 * EVar vDmsqst1 + (#1361 + #10 * EVar vlmMst1 + #54 * EPow P2 (EVar vlmMst1)) * EPow P2 (EVar
   vMsq))) * EPow P2 (EVar vMst1) * EPow P2 (EVar vs2t) + EPow P3 (EVar vMt) * (#2 * EVar vDmglst1 * (#1200 * EVar
   vDmglst1 * EVar vDmsqst1 * (EVar vDmst12 * (#557 + #120 * EVar vlmMst1 - #120 * EVar vlmMt) * (EVar vDmst12 - EPow
   P2 (EVar vMst2)) - #16 * (#4 + #15 * EVar vlmMst1 - #15 * EVar vlmMt) * EPow P4 (EVar vMst2)) + #1200 * EVar
   vDmsqst1 * EVar vMgl * (EVar vDmst12 * (#557 + #120 * EVar vlmMst1 - #120 * EVar vlmMt) * (EVar vDmst12 - EPow P2
   (EVar vMst2)) - #50 * (#26 + #3 * EVar vlmMst1 - #3 * EVar vlmMt) * EPow P4 (EVar vMst2)) + EVar vDmglst1 * EPow P2
   (EVar vMsq) * (- #3 * EPow P2 (EVar vDmst12) * (- #129193181 - #401100 * EVar vlmMt + #100 * EVar vlmMst1 * (-
   #7351 + #1164 * EVar vlmMt) + #1336800 * EPow P2 (EVar vlmMst1) + #28800 * EPow P2 (EVar vlmMt)) + #2 * EVar
   vDmst12 * (- #327941741 - #686700 * EVar vlmMt + #1080 * EVar vlmMst1 * (- #44 + #445 * EVar vlmMt) + #3531600 *
   EPow P2 (EVar vlmMst1) + #64800 * EPow P2 (EVar vlmMt)) * EPow P2 (EVar vMst2) + #80 * (- #3777727 - #24255 * EVar
   vlmMt + #486 * EVar vlmMst1 * (#118 + #45 * EVar vlmMt) + #52380 * EPow P2 (EVar vlmMst1)) * EPow P4 (EVar vMst2))
   - EVar vMgl * EPow P2 (EVar vMsq) * (- #3 * EPow P2 (EVar vDmst12) * (- #39474953 + EVar vlmMst1 * (#52780 - #87600
   * EVar vlmMt) - #3300 * EVar vlmMt + #319200 * EPow P2 (EVar vlmMst1) + #14400 * EPow P2 (EVar vlmMt)) + #40 * EVar
   vDmst12 * (#3746977 + #4005 * EVar vlmMt - #18 * EVar vlmMst1 * (#2711 + #1215 * EVar vlmMt) - #52380 * EPow P2
   (EVar vlmMst1)) * EPow P2 (EVar vMst2) + #6000 * (#9961 + #66 * EVar vlmMt - #10 * EVar vlmMst1 * (#67 + #24 * EVar
   vlmMt) + #42 * EPow P2 (EVar vlmMst1) + #72 * EPow P2 (EVar vlmMt)) * EPow P4 (EVar vMst2))) + #15 * EPow P2 (EVar
   vMgl) * (#4000 * EVar vDmsqst1 * (EVar vDmst12 * (#65 - #6 * EVar vlmMst1 + #6 * EVar vlmMt) * (EVar vDmst12 - EPow
   P2 (EVar vMst2)) + #6 * (- #20 + #3 * EVar vlmMst1 - #3 * EVar vlmMt) * EPow P4 (EVar vMst2)) - EPow P2 (EVar vMsq)
   * (- (EPow P2 (EVar vDmst12) * (- #2284899 + #49840 * EVar vlmMt - #32 * EVar vlmMst1 * (- #1793 + #555 * EVar
   vlmMt) + #87360 * EPow P2 (EVar vlmMst1) + #28800 * EPow P2 (EVar vlmMt))) + #200 * EVar vDmst12 * (#11697 + #448 *
   EVar vlmMst1 + #330 * EVar vlmMt - #372 * EVar vlmMst1 * EVar vlmMt + #408 * EPow P2 (EVar vlmMst1) + #288 * EPow
   P2 (EVar vlmMt)) * EPow P2 (EVar vMst2) + #1600 * (#434 - #83 * EVar vlmMst1 + #174 * EVar vlmMt - #66 * EVar
   vlmMst1 * EVar vlmMt + #183 * EPow P2 (EVar vlmMst1) + #108 * EPow P2 (EVar vlmMt)) * EPow P4 (EVar vMst2)))) +
   #450 * EVar vMst1 * EVar vs2t * (EVar vDmst12 * (EPow P2 (EVar vDmglst1) * (#19160 * EVar vDmsqst1 * (EVar vDmst12
   - EPow P2 (EVar vMst2)) + EPow P2 (EVar vMsq) * (EVar vDmst12 * (- #586073 - #9268 * EVar vlmMst1 - #448 * EVar
   vlmMt + #19200 * EPow P2 (EVar vlmMst1)) + #2 * (#13289 - #916 * EVar vlmMst1 + #80 * EVar vlmMt - #60 * EPow P2
   (EVar vlmMst1)) * EPow P2 (EVar vMst2))) + #5 * EPow P2 (EVar vMgl) * (#5 * EVar vDmsqst1 * (#161 * EVar vDmst12 +
   #24 * (#1 + #12 * EVar vlmMst1) * EPow P2 (EVar vMst2)) + EPow P2 (EVar vMsq) * (EVar vDmst12 * (#2071 + #296 *
   EVar vlmMst1 - #96 * EVar vlmMt - #600 * EPow P2 (EVar vlmMst1)) + #8 * (#631 - EVar vlmMst1 + #36 * EVar vlmMt +
   #21 * EPow P2 (EVar vlmMst1)) * EPow P2 (EVar vMst2))) + #4 * EVar vDmglst1 * EVar vMgl * (#4700 * EVar vDmsqst1 *
   (EVar vDmst12 - EPow P2 (EVar vMst2)) - EPow P2 (EVar vMsq) * (EVar vDmst12 * (#17539 + #574 * EVar vlmMst1 + #160
   * EVar vlmMt - #1920 * EPow P2 (EVar vlmMst1)) + #5 * (- #4539 + #596 * EVar vlmMst1 - #48 * EVar vlmMt + #516 *
   EPow P2 (EVar vlmMst1)) * EPow P2 (EVar vMst2)))) * EPow P2 (EVar vMt) + #45 * EPow P2 (EVar vMgl) * (EVar
   vshiftst3 * EPow P2 (EVar vMsq) * (- #8 * EVar vDmst12 * (- #3 + #2 * EVar vlmMst1) * EPow P2 (EVar vMst2) * EPow
   P2 (EVar vMt) + EPow P2 (EVar vDmst12) * (#16 * (- #2 + EVar vlmMst1) * EPow P2 (EVar vMt) + (#1 - #2 * EVar
   vlmMst1) * EPow P2 (EVar vMst1) * EPow P2 (EVar vs2t)) + #8 * (- #1 + #2 * EVar vlmMst1) * EPow P2 (EVar vMt) *
   EPow P4 (EVar vMst2)) + #10 * (EVar vDmsqst1 * (- #3 + #2 * EVar vlmMst1) + (- #1 + #2 * EVar vlmMst1) * EPow P2
   (EVar vMsq)) * (- #8 * EVar vDmst12 * EVar vshiftst2 * EPow P2 (EVar vMst2) * EPow P2 (EVar vMt) + (- EVar
   vshiftst1 + EVar vshiftst2) * EPow P2 (EVar vDmst12) * EPow P2 (EVar vMst1) * EPow P2 (EVar vs2t) + #8 * (EVar
   vshiftst1 - EVar vshiftst2) * EPow P2 (EVar vMt) * EPow P4 (EVar vMst2))))) + EVar vMt * EVar vTbeta * (#245 *
   (EPow P2 (EVar vMuSUSY) * (#8 * EPow P2 (EVar vDmglst1) * (#6 * EVar vDmst12 * EVar vMt * (#10000 * EVar vDmsqst1 *
   EVar vMst1 * EVar vs2t + (#3 * EVar vMt * (#3891491 + #27200 * EVar vlmMst1 - #960 * EVar vlmMt - #19200 * EPow P2
   (EVar vlmMst1)) + #10 * EVar vMst1 * EVar vs2t * (#1286791 + #5936 * EVar vlmMst1 - #18120 * EPow P2 (EVar
   vlmMst1))) * EPow P2 (EVar vMsq)) * EPow P2 (EVar vMst2) - #3 * EPow P2 (EVar vDmst12) * (#20000 * EVar vDmsqst1 *
   EVar vMst1 * EVar vMt * EVar vs2t + EPow P2 (EVar vMsq) * (#10 * EVar vMst1 * EVar vMt * EVar vs2t * (#958501 +
   #24456 * EVar vlmMst1 - #11520 * EPow P2 (EVar vlmMst1)) + #6 * (#3891491 + #27200 * EVar vlmMst1 - #960 * EVar
   vlmMt - #19200 * EPow P2 (EVar vlmMst1)) * EPow P2 (EVar vMt) + #5 * (- #1732531 - #16896 * EVar vlmMst1 + #24840 *
   EPow P2 (EVar vlmMst1)) * EPow P2 (EVar vMst1) * EPow P2 (EVar vs2t))) + #100 * (#345581 + #4896 * EVar vlmMst1 +
   #96 * EVar vlmMt - #3456 * EPow P2 (EVar vlmMst1)) * EPow P2 (EVar vMsq) * EPow P2 (EVar vMt) * EPow P4 (EVar
   vMst2)) + #40 * EVar vDmglst1 * EVar vMgl * (#10 * EVar vDmst12 * EVar vMt * (#1200 * EVar vDmsqst1 * EVar vMst1 *
   EVar vs2t + (EVar vMt * (#403559 + #384 * (EVar vlmMst1 + EVar vlmMt) - #4608 * EPow P2 (EVar vlmMst1)) - #12 *
   EVar vMst1 * EVar vs2t * (- #33261 + #532 * EVar vlmMst1 + #660 * EPow P2 (EVar vlmMst1))) * EPow P2 (EVar vMsq)) *
   EPow P2 (EVar vMst2) - EPow P2 (EVar vDmst12) * (#12000 * EVar vDmsqst1 * EVar vMst1 * EVar vMt * EVar vs2t + EPow
   P2 (EVar vMsq) * (#6 * EVar vMst1 * EVar vMt * EVar vs2t * (- #949861 + #1944 * EVar vlmMst1 + #11520 * EPow P2
   (EVar vlmMst1)) + #10 * (#403559 + #384 * (EVar vlmMst1 + EVar vlmMt) - #4608 * EPow P2 (EVar vlmMst1)) * EPow P2
   (EVar vMt) + #15 * (- #84209 - #1264 * EVar vlmMst1 + #240 * EPow P2 (EVar vlmMst1)) * EPow P2 (EVar vMst1) * EPow
   P2 (EVar vs2t))) + #240 * (#9631 + #16 * EVar vlmMst1 + #48 * EVar vlmMt - #192 * EPow P2 (EVar vlmMst1)) * EPow P2
   (EVar vMsq) * EPow P2 (EVar vMt) * EPow P4 (EVar vMst2)) + #15 * EPow P2 (EVar vMgl) * (#160 * EVar vDmst12 * EVar
   vMt * (#840 * EVar vDmsqst1 * EVar vMst1 * EVar vs2t + (EVar vMt * (#11389 - #704 * EVar vlmMst1 + #192 * EVar
   vlmMt - #384 * EPow P2 (EVar vlmMst1)) + #4 * EVar vMst1 * EVar vs2t * (#1361 + #10 * EVar vlmMst1 + #54 * EPow P2
   (EVar vlmMst1))) * EPow P2 (EVar vMsq)) * EPow P2 (EVar vMst2) + EPow P2 (EVar vDmst12) * (- #2400 * EVar vDmsqst1
   * EVar vMst1 * EVar vs2t * (#56 * EVar vMt + (#7 + #24 * EVar vlmMst1) * EVar vMst1 * EVar vs2t) + EPow P2 (EVar
   vMsq) * (- #240 * EVar vMst1 * EVar vMt * EVar vs2t * (- #10473 + #40 * EVar vlmMst1 + #256 * EPow P2 (EVar
   vlmMst1)) + (#852541 + #9216 * EVar vlmMst1 - #10240 * EVar vlmMt + #6144 * EPow P2 (EVar vlmMst1)) * EPow P2 (EVar
   vMt) + #80 * (#1429 - #454 * EVar vlmMst1 + #24 * EPow P2 (EVar vlmMst1)) * EPow P2 (EVar vMst1) * EPow P2 (EVar
   vs2t))) + #1920 * (#349 - #56 * EVar vlmMst1 + #24 * EVar vlmMt - #32 * EPow P2 (EVar vlmMst1)) * EPow P2 (EVar
   vMsq) * EPow P2 (EVar vMt) * EPow P4 (EVar vMst2))) + #21600 * EPow P2 (EVar vMgl) * EPow P2 (EVar vMst1) * (-
   (EVar vshiftst3 * EPow P2 (EVar vMsq) * (- #2 * EVar vDmst12 * EPow P2 (EVar vMst2) * ((- #1 + #2 * EVar vlmMst1) *
   EPow P2 (EVar vMuSUSY) * EPow P2 (EVar vs2t) * (- #1 + EPow P2 (EVar vSbeta)) + #12 * ((#3 - #2 * EVar vlmMst1) *
   EPow P2 (EVar vMt) + (- #1 + #2 * EVar vlmMst1) * EPow P2 (EVar vMst1) * EPow P2 (EVar vs2t)) * EPow P2 (EVar
   vSbeta)) + EPow P2 (EVar vDmst12) * ((- #7 + #6 * EVar vlmMst1) * EPow P2 (EVar vMuSUSY) * EPow P2 (EVar vs2t) * (-
   #1 + EPow P2 (EVar vSbeta)) + #6 * (- #8 * (- #2 + EVar vlmMst1) * EPow P2 (EVar vMt) + (- #15 + #14 * EVar
   vlmMst1) * EPow P2 (EVar vMst1) * EPow P2 (EVar vs2t)) * EPow P2 (EVar vSbeta)) + #24 * (#1 - #2 * EVar vlmMst1) *
   EPow P2 (EVar vMt) * EPow P2 (EVar vSbeta) * EPow P4 (EVar vMst2))) - #10 * (EVar vDmsqst1 * (#3 - #2 * EVar
   vlmMst1) + (#1 - #2 * EVar vlmMst1) * EPow P2 (EVar vMsq)) * (EPow P2 (EVar vDmst12) * EPow P2 (EVar vs2t) * (-
   ((EVar vshiftst1 + EVar vshiftst2) * EPow P2 (EVar vMuSUSY) * (- #1 + EPow P2 (EVar vSbeta))) + #6 * (- #3 * EVar
   vshiftst1 + EVar vshiftst2) * EPow P2 (EVar vMst1) * EPow P2 (EVar vSbeta)) + #2 * EVar vDmst12 * EPow P2 (EVar
   vMst2) * ((EVar vshiftst1 - EVar vshiftst2) * EPow P2 (EVar vMuSUSY) * EPow P2 (EVar vs2t) * (- #1 + EPow P2 (EVar
   vSbeta)) + #12 * (EVar vshiftst2 * EPow P2 (EVar vMt) + (EVar vshiftst1 - EVar vshiftst2) * EPow P2 (EVar vMst1) *
   EPow P2 (EVar vs2t)) * EPow P2 (EVar vSbeta)) + #24 * (EVar vshiftst1 + EVar vshiftst2) * EPow P2 (EVar vMt) * EPow
   P2 (EVar vSbeta) * EPow P4 (EVar vMst2)))) + EPow P2 (EVar vSbeta) * (#784 * EVar vDmst12 * EVar vMst1 * EVar vMt *
   EVar vs2t * (#375 * EPow P2 (EVar vMgl) * (- #80 * EVar vDmsqst1 * (EVar vDmst12 * ((- #98 + #24 * EVar vlmMst1 -
   #24 * EVar vlmMt) * EPow P2 (EVar vMst1) - #21 * EPow P2 (EVar vMuSUSY)) + #3 * EPow P2 (EVar vMst2) * ((#74 - #12
   * EVar vlmMst1 + #12 * EVar vlmMt) * EPow P2 (EVar vMst1) + #7 * EPow P2 (EVar vMuSUSY))) + EPow P2 (EVar vMsq) *
   (- #8 * EPow P2 (EVar vMst2) * (#8 * (#347 - #50 * EVar vlmMst1 + #66 * EVar vlmMt - #66 * EVar vlmMst1 * EVar
   vlmMt + #183 * EPow P2 (EVar vlmMst1) + #108 * EPow P2 (EVar vlmMt)) * EPow P2 (EVar vMst1) + (#1361 + #10 * EVar
   vlmMst1 + #54 * EPow P2 (EVar vlmMst1)) * EPow P2 (EVar vMuSUSY)) + EVar vDmst12 * (#16 * (- #4378 - #517 * EVar
   vlmMst1 + #243 * EVar vlmMt - #78 * EVar vlmMst1 * EVar vlmMt + #528 * EPow P2 (EVar vlmMst1) + #288 * EPow P2
   (EVar vlmMt)) * EPow P2 (EVar vMst1) + #3 * (- #10473 + #40 * EVar vlmMst1 + #256 * EPow P2 (EVar vlmMst1)) * EPow
   P2 (EVar vMuSUSY)))) - EPow P2 (EVar vDmglst1) * (#1200 * EVar vDmsqst1 * (EVar vDmst12 * ((#866 - #240 * EVar
   vlmMst1 + #240 * EVar vlmMt) * EPow P2 (EVar vMst1) - #125 * EPow P2 (EVar vMuSUSY)) + EPow P2 (EVar vMst2) * (#16
   * (#23 + #30 * EVar vlmMst1 - #30 * EVar vlmMt) * EPow P2 (EVar vMst1) + #125 * EPow P2 (EVar vMuSUSY))) + EPow P2
   (EVar vMsq) * (#10 * EPow P2 (EVar vMst2) * (#8 * (#7531199 + #48510 * EVar vlmMt - #486 * EVar vlmMst1 * (#191 +
   #90 * EVar vlmMt) - #104760 * EPow P2 (EVar vlmMst1)) * EPow P2 (EVar vMst1) + #15 * (#1286791 + #5936 * EVar
   vlmMst1 - #18120 * EPow P2 (EVar vlmMst1)) * EPow P2 (EVar vMuSUSY)) + EVar vDmst12 * (- #4 * (- #176974411 +
   #218700 * EVar vlmMt - #540 * EVar vlmMst1 * (#3971 + #730 * EVar vlmMt) + #1436400 * EPow P2 (EVar vlmMst1) +
   #64800 * EPow P2 (EVar vlmMt)) * EPow P2 (EVar vMst1) + #75 * (- #958501 - #24456 * EVar vlmMst1 + #11520 * EPow P2
   (EVar vlmMst1)) * EPow P2 (EVar vMuSUSY)))) - #5 * EVar vDmglst1 * EVar vMgl * (#240 * EVar vDmsqst1 * (#25 * EPow
   P2 (EVar vMst2) * (#2 * (#55 + #6 * EVar vlmMst1 - #6 * EVar vlmMt) * EPow P2 (EVar vMst1) + #5 * EPow P2 (EVar
   vMuSUSY)) - EVar vDmst12 * (#4 * (#379 + #15 * EVar vlmMst1 - #15 * EVar vlmMt) * EPow P2 (EVar vMst1) + #125 *
   EPow P2 (EVar vMuSUSY))) + EPow P2 (EVar vMsq) * (#300 * EPow P2 (EVar vMst2) * (#16 * (#4964 - #3 * EVar vlmMt -
   #5 * EVar vlmMst1 * (#55 + #24 * EVar vlmMt) + #21 * EPow P2 (EVar vlmMst1) + #36 * EPow P2 (EVar vlmMt)) * EPow P2
   (EVar vMst1) + (#33261 - #532 * EVar vlmMst1 - #660 * EPow P2 (EVar vlmMst1)) * EPow P2 (EVar vMuSUSY)) + EVar
   vDmst12 * (#8 * (#4511549 + #9810 * EVar vlmMt + #6 * EVar vlmMst1 * (#14879 + #4710 * EVar vlmMt) - #117360 * EPow
   P2 (EVar vlmMst1) - #21600 * EPow P2 (EVar vlmMt)) * EPow P2 (EVar vMst1) - #15 * (- #949861 + #1944 * EVar vlmMst1
   + #11520 * EPow P2 (EVar vlmMst1)) * EPow P2 (EVar vMuSUSY))))) - #29400 * EPow P2 (EVar vDmst12) * EPow P2 (EVar
   vMst1) * (EPow P2 (EVar vDmglst1) * (#114960 * EVar vDmsqst1 * EPow P2 (EVar vMst1) + EPow P2 (EVar vMsq) * (#12 *
   (- #13249 + #916 * EVar vlmMst1 - #80 * EVar vlmMt + #60 * EPow P2 (EVar vlmMst1)) * EPow P2 (EVar vMst1) +
   (#1732531 + #16896 * EVar vlmMst1 - #24840 * EPow P2 (EVar vlmMst1)) * EPow P2 (EVar vMuSUSY))) + #5 * EVar
   vDmglst1 * EVar vMgl * (#22560 * EVar vDmsqst1 * EPow P2 (EVar vMst1) + EPow P2 (EVar vMsq) * (#24 * (- #4515 +
   #596 * EVar vlmMst1 - #48 * EVar vlmMt + #516 * EPow P2 (EVar vlmMst1)) * EPow P2 (EVar vMst1) + (#84209 + #1264 *
   EVar vlmMst1 - #240 * EPow P2 (EVar vlmMst1)) * EPow P2 (EVar vMuSUSY))) - #10 * EPow P2 (EVar vMgl) * (#30 * EVar
   vDmsqst1 * (#12 * (#1 + #12 * EVar vlmMst1) * EPow P2 (EVar vMst1) + (#7 + #24 * EVar vlmMst1) * EPow P2 (EVar
   vMuSUSY)) + EPow P2 (EVar vMsq) * (#24 * (#613 - EVar vlmMst1 + #36 * EVar vlmMt + #21 * EPow P2 (EVar vlmMst1)) *
   EPow P2 (EVar vMst1) + (- #1429 + #454 * EVar vlmMst1 - #24 * EPow P2 (EVar vlmMst1)) * EPow P2 (EVar vMuSUSY)))) *
   EPow P2 (EVar vs2t) - EPow P2 (EVar vMt) * (#16 * EPow P2 (EVar vMst1) * (EPow P2 (EVar vDmst12) * (#980 * EPow P2
   (EVar vMgl) * (#15 * EVar vDmsqst1 * (#4561 + #510 * EVar vlmMst1 - #510 * EVar vlmMt) + (#93973 - #61305 * EVar
   vlmMt + #54 * EVar vlmMst1 * (#2337 + #1255 * EVar vlmMt) - #48420 * EPow P2 (EVar vlmMst1) - #58050 * EPow P2
   (EVar vlmMt)) * EPow P2 (EVar vMsq)) + #98 * EVar vDmglst1 * EVar vMgl * (#10800 * EVar vDmsqst1 * (#423 - #20 *
   EVar vlmMst1 + #20 * EVar vlmMt) + (- #22574599 - #21060 * EVar vlmMt + #60 * EVar vlmMst1 * (#6677 + #8880 * EVar
   vlmMt) + #1598400 * EPow P2 (EVar vlmMst1) + #172800 * EPow P2 (EVar vlmMt)) * EPow P2 (EVar vMsq)) + #3 * EPow P2
   (EVar vDmglst1) * (#11760 * EVar vDmsqst1 * (#13147 - #90 * EVar vlmMst1 + #90 * EVar vlmMt) + (- #5259064991 -
   #32822300 * EVar vlmMt + #60 * EVar vlmMst1 * (- #104761 + #256200 * EVar vlmMt) + #148327200 * EPow P2 (EVar
   vlmMst1) + #5644800 * EPow P2 (EVar vlmMt)) * EPow P2 (EVar vMsq))) - #196 * EVar vDmst12 * (#10 * EVar vDmglst1 *
   EVar vMgl * (#540 * EVar vDmsqst1 * (#423 - #20 * EVar vlmMst1 + #20 * EVar vlmMt) + (- #5136871 - #29790 * EVar
   vlmMt + #12 * EVar vlmMst1 * (#8942 + #4305 * EVar vlmMt) + #86040 * EPow P2 (EVar vlmMst1) + #21600 * EPow P2
   (EVar vlmMt)) * EPow P2 (EVar vMsq)) + EPow P2 (EVar vDmglst1) * (#180 * EVar vDmsqst1 * (#13147 - #90 * EVar
   vlmMst1 + #90 * EVar vlmMt) + (- #125277461 - #1327590 * EVar vlmMt + #60 * EVar vlmMst1 * (- #2303 + #5955 * EVar
   vlmMt) + #153000 * EPow P2 (EVar vlmMst1) + #151200 * EPow P2 (EVar vlmMt)) * EPow P2 (EVar vMsq)) - #750 * EPow P2
   (EVar vMgl) * (#5 * EVar vDmsqst1 * (#79 + #204 * EVar vlmMst1 + #12 * EVar vlmMt) + (- #4 * EVar vlmMst1 * (#131 +
   #264 * EVar vlmMt) + #264 * EPow P2 (EVar vlmMst1) + #21 * (#783 + #14 * EVar vlmMt + #30 * EPow P2 (EVar vlmMt)))
   * EPow P2 (EVar vMsq))) * EPow P2 (EVar vMst2) + #7840 * (- #15 * EVar vDmsqst1 * (#50 * EVar vDmglst1 * (#146 -
   #15 * EVar vlmMst1 + #15 * EVar vlmMt) * EVar vMgl + (#8014 - #435 * EVar vlmMst1 + #435 * EVar vlmMt) * EPow P2
   (EVar vDmglst1) + #225 * (#14 + #6 * EVar vlmMt - #6 * EVar vlmMst1 * (#3 + EVar vlmMt) + #3 * (EPow P2 (EVar
   vlmMst1) + EPow P2 (EVar vlmMt))) * EPow P2 (EVar vMgl)) + EPow P2 (EVar vMsq) * (- #75 * EVar vDmglst1 * EVar vMgl
   * (- #15571 + #852 * EVar vlmMt + EVar vlmMst1 * (- #508 + #48 * EVar vlmMt) + #978 * EPow P2 (EVar vlmMst1) + #612
   * EPow P2 (EVar vlmMt)) - EPow P2 (EVar vDmglst1) * (- #3223748 + #2205 * EVar vlmMt + #6 * EVar vlmMst1 * (-
   #16808 + #4605 * EVar vlmMt) + #79695 * EPow P2 (EVar vlmMst1) + #33750 * EPow P2 (EVar vlmMt)) + #75 * EPow P2
   (EVar vMgl) * (#623 - #555 * EVar vlmMt - #3 * (#221 + #129 * EVar vlmMt) * EPow P2 (EVar vlmMst1) - #486 * EPow P2
   (EVar vlmMt) + EVar vlmMst1 * (#1066 + #843 * EVar vlmMt + #756 * EPow P2 (EVar vlmMt)) + #252 * EPow P3 (EVar
   vlmMst1) - #621 * EPow P3 (EVar vlmMt)))) * EPow P4 (EVar vMst2)) - #245 * EPow P2 (EVar vMsq) * EPow P2 (EVar
   vMuSUSY) * (#16 * EPow P2 (EVar vDmglst1) * (- #9 * EVar vDmst12 * (- #3891491 - #27200 * EVar vlmMst1 + #960 *
   EVar vlmMt + #19200 * EPow P2 (EVar vlmMst1)) * (EVar vDmst12 - EPow P2 (EVar vMst2)) - #50 * (#345581 + #4896 *
   EVar vlmMst1 + #96 * EVar vlmMt - #3456 * EPow P2 (EVar vlmMst1)) * EPow P4 (EVar vMst2)) + #400 * EVar vDmglst1 *
   EVar vMgl * (EVar vDmst12 * (#403559 + #384 * (EVar vlmMst1 + EVar vlmMt) - #4608 * EPow P2 (EVar vlmMst1)) * (EVar
   vDmst12 - EPow P2 (EVar vMst2)) - #24 * (#9631 + #16 * EVar vlmMst1 + #48 * EVar vlmMt - #192 * EPow P2 (EVar
   vlmMst1)) * EPow P4 (EVar vMst2)) - #15 * EPow P2 (EVar vMgl) * (EPow P2 (EVar vDmst12) * (#852541 + #9216 * EVar
   vlmMst1 - #10240 * EVar vlmMt + #6144 * EPow P2 (EVar vlmMst1)) + #160 * EVar vDmst12 * (#11389 - #704 * EVar
   vlmMst1 + #192 * EVar vlmMt - #384 * EPow P2 (EVar vlmMst1)) * EPow P2 (EVar vMst2) + #1920 * (#349 - #56 * EVar
   vlmMst1 + #24 * EVar vlmMt - #32 * EPow P2 (EVar vlmMst1)) * EPow P4 (EVar vMst2)))))))) + EPow P2 (EVar vMt) *
   (#3969000 * EVar voneLoopFlag * EPow P2 (EVar vMst1) * EPow P3 (EVar vMgl) * EPow P4 (EVar vMsq) * (EVar vs2t *
   EPow P2 (EVar vDmst12) * (- #12 * EVar vMt * EVar vMuSUSY * EPow P2 (EVar vSbeta) + EVar vs2t * EVar vTbeta * (EPow
   P2 (EVar vMuSUSY) * (- #1 + EPow P2 (EVar vSbeta)) + #12 * EPow P2 (EVar vMst1) * EPow P2 (EVar vSbeta))) + #12 *
   EVar vMt * EPow P2 (EVar vSbeta) * (#2 * EVar vDmst12 * EVar vMuSUSY * EVar vs2t * EPow P2 (EVar vMst2) + EVar vMt
   * EVar vTbeta * (EPow P2 (EVar vDmst12) - #2 * EVar vDmst12 * EPow P2 (EVar vMst2) + #4 * (- EVar vlmMst1 + EVar
   vlmMt) * EPow P4 (EVar vMst2)))) + #16 * EVar vAl4p * EVar vxDmglst1 * EPow P2 (EVar vMsq) * EPow P3 (EVar
   vDmglst1) * (#17640 * EVar vMst1 * EVar vtwoLoopFlag * EPow P2 (EVar vMsq) * (- (EPow P2 (EVar vDmst12) * (#8 *
   ((#476 - #90 * EVar vlmMst1 + #15 * EVar vlmMt) * EVar vMuSUSY - #3 * (#51 + #10 * EVar vlmMst1 - #10 * EVar vlmMt)
   * EVar vMst1 * EVar vTbeta) * EPow P2 (EVar vMt) * EPow P2 (EVar vSbeta) + #5 * EVar vMst1 * EPow P2 (EVar vs2t) *
   (#10 * (- #13 + #12 * EVar vlmMst1) * EVar vTbeta * EPow P2 (EVar vMuSUSY) * (- #1 + EPow P2 (EVar vSbeta)) + #3 *
   EVar vMst1 * ((#77 - #30 * EVar vlmMst1) * EVar vMuSUSY + #4 * (- #71 + #60 * EVar vlmMst1) * EVar vMst1 * EVar
   vTbeta) * EPow P2 (EVar vSbeta)) + #4 * EVar vMt * EVar vs2t * (#130 * EVar vTbeta * EPow P2 (EVar vMuSUSY) * (- #1
   + EPow P2 (EVar vSbeta)) + #3 * EVar vMst1 * (#120 * EVar vMuSUSY + (#277 - #155 * EVar vlmMst1 + #5 * EVar vlmMt)
   * EVar vMst1 * EVar vTbeta) * EPow P2 (EVar vSbeta)))) + #2 * EVar vDmst12 * EVar vMt * EPow P2 (EVar vMst2) *
   (EVar vMt * ((#2231 - #990 * EVar vlmMst1 + #90 * EVar vlmMt) * EVar vMuSUSY + #12 * (- #301 + #290 * EVar vlmMst1
   + #10 * EVar vlmMt) * EVar vMst1 * EVar vTbeta) * EPow P2 (EVar vSbeta) + EVar vs2t * (- #5 * (- #77 + #30 * EVar
   vlmMst1) * EVar vTbeta * EPow P2 (EVar vMuSUSY) * (- #1 + EPow P2 (EVar vSbeta)) + (#60 * (#71 - #60 * EVar
   vlmMst1) * EVar vMst1 * EVar vMuSUSY + #8 * (#481 - #240 * EVar vlmMst1 + #15 * EVar vlmMt) * EVar vTbeta * EPow P2
   (EVar vMst1)) * EPow P2 (EVar vSbeta))) + #8 * ((#977 - #480 * EVar vlmMst1 + #30 * EVar vlmMt) * EVar vMuSUSY + #3
   * (- #509 + #510 * EVar vlmMst1 + #90 * EVar vlmMt) * EVar vMst1 * EVar vTbeta) * EPow P2 (EVar vMt) * EPow P2
   (EVar vSbeta) * EPow P4 (EVar vMst2)) + EVar vAl4p * EVar vthreeLoopFlag * (#4 * EVar vMst1 * EVar vMuSUSY * EPow
   P2 (EVar vSbeta) * (#2940 * EVar vDmsqst1 * (- #20 * EVar vDmst12 * EVar vMt * ((#557 + #120 * EVar vlmMst1 - #120
   * EVar vlmMt) * EVar vMt + #3660 * EVar vMst1 * EVar vs2t) * EPow P2 (EVar vMst2) + #5 * EPow P2 (EVar vDmst12) *
   (#14640 * EVar vMst1 * EVar vMt * EVar vs2t + #4 * (#557 + #120 * EVar vlmMst1 - #120 * EVar vlmMt) * EPow P2 (EVar
   vMt) + #375 * EPow P2 (EVar vMst1) * EPow P2 (EVar vs2t)) + #24 * (#463 - #135 * EVar vlmMst1 + #135 * EVar vlmMt)
   * EPow P2 (EVar vMt) * EPow P4 (EVar vMst2)) - EPow P2 (EVar vMsq) * (#2 * EVar vDmst12 * EVar vMt * (#7350 * EVar
   vMst1 * EVar vs2t * (#548999 + #10980 * EVar vlmMst1 + #288 * EVar vlmMt - #19080 * EPow P2 (EVar vlmMst1)) + EVar
   vMt * (#49723877243 + #60 * EVar vlmMst1 * (#4936063 - #389970 * EVar vlmMt) + #57352680 * EVar vlmMt - #342543600
   * EPow P2 (EVar vlmMst1) - #3175200 * EPow P2 (EVar vlmMt))) * EPow P2 (EVar vMst2) - #15 * EPow P2 (EVar vDmst12)
   * (#490 * EVar vMst1 * EVar vMt * EVar vs2t * (- #611423 + #9984 * EVar vlmMst1 - #768 * EVar vlmMt + #23040 * EPow
   P2 (EVar vlmMst1)) + (#5753390765 + #580 * EVar vlmMst1 * (#79969 - #1932 * EVar vlmMt) + #7091364 * EVar vlmMt -
   #35700000 * EPow P2 (EVar vlmMst1) - #282240 * EPow P2 (EVar vlmMt)) * EPow P2 (EVar vMt) + #49 * (#31025111 +
   #290880 * EVar vlmMst1 - #251100 * EPow P2 (EVar vlmMst1)) * EPow P2 (EVar vMst1) * EPow P2 (EVar vs2t)) + #392 *
   (#122282257 + #60 * EVar vlmMst1 * (#8318 - #3885 * EVar vlmMt) + #479550 * EVar vlmMt - #1351800 * EPow P2 (EVar
   vlmMst1) - #21600 * EPow P2 (EVar vlmMt)) * EPow P2 (EVar vMt) * EPow P4 (EVar vMst2))) + EVar vTbeta * (#245 *
   EPow P2 (EVar vMuSUSY) * (#2 * EVar vDmst12 * EVar vMt * (#30000 * EVar vDmsqst1 * EVar vMst1 * EVar vs2t + (#4 *
   EVar vMst1 * EVar vs2t * (#31025111 + #290880 * EVar vlmMst1 - #251100 * EPow P2 (EVar vlmMst1)) + EVar vMt *
   (#59957863 + #480000 * EVar vlmMst1 - #26880 * EVar vlmMt - #230400 * EPow P2 (EVar vlmMst1))) * EPow P2 (EVar
   vMsq)) * EPow P2 (EVar vMst2) + EPow P2 (EVar vDmst12) * (- #60000 * EVar vDmsqst1 * EVar vMst1 * EVar vMt * EVar
   vs2t + EPow P2 (EVar vMsq) * (#2 * EVar vMst1 * EVar vMt * EVar vs2t * (- #99874229 - #1352280 * EVar vlmMst1 +
   #633600 * EPow P2 (EVar vlmMst1)) + #2 * (- #59957863 - #480000 * EVar vlmMst1 + #26880 * EVar vlmMt + #230400 *
   EPow P2 (EVar vlmMst1)) * EPow P2 (EVar vMt) + #15 * (#3044017 + #27472 * EVar vlmMst1 - #48480 * EPow P2 (EVar
   vlmMst1)) * EPow P2 (EVar vMst1) * EPow P2 (EVar vs2t))) - #24 * (- #3877891 - #46400 * EVar vlmMst1 + #960 * EVar
   vlmMt + #19200 * EPow P2 (EVar vlmMst1)) * EPow P2 (EVar vMsq) * EPow P2 (EVar vMt) * EPow P4 (EVar vMst2)) + EPow
   P2 (EVar vSbeta) * (#2 * EVar vDmst12 * EVar vMst1 * EVar vMt * EVar vs2t * (#11760 * EVar vDmsqst1 * (#4 * EVar
   vDmst12 * (- #2729 + #105 * EVar vlmMst1 - #105 * EVar vlmMt) * EPow P2 (EVar vMst1) + #6 * (#791 - #270 * EVar
   vlmMst1 + #270 * EVar vlmMt) * EPow P2 (EVar vMst1) * EPow P2 (EVar vMst2) + #625 * EVar vDmst12 * EPow P2 (EVar
   vMuSUSY) - #625 * EPow P2 (EVar vMst2) * EPow P2 (EVar vMuSUSY)) - EPow P2 (EVar vMsq) * (#196 * EPow P2 (EVar
   vMst2) * (#8 * (#61021241 + #15 * EVar vlmMst1 * (#20521 - #7770 * EVar vlmMt) + #250575 * EVar vlmMt - #675900 *
   EPow P2 (EVar vlmMst1) - #10800 * EPow P2 (EVar vlmMt)) * EPow P2 (EVar vMst1) + #5 * (#31025111 + #290880 * EVar
   vlmMst1 - #251100 * EPow P2 (EVar vlmMst1)) * EPow P2 (EVar vMuSUSY)) + EVar vDmst12 * (#4 * (#25774874431 -
   #37697520 * EVar vlmMt + #600 * EVar vlmMst1 * (#311999 + #37149 * EVar vlmMt) - #77590800 * EPow P2 (EVar vlmMst1)
   + #1058400 * EPow P2 (EVar vlmMt)) * EPow P2 (EVar vMst1) + #245 * (- #99874229 - #1352280 * EVar vlmMst1 + #633600
   * EPow P2 (EVar vlmMst1)) * EPow P2 (EVar vMuSUSY)))) - #3675 * EPow P2 (EVar vDmst12) * EPow P2 (EVar vMst1) * (#8
   * (#14640 * EVar vDmsqst1 + (#548855 + #10980 * EVar vlmMst1 + #288 * EVar vlmMt - #19080 * EPow P2 (EVar vlmMst1))
   * EPow P2 (EVar vMsq)) * EPow P2 (EVar vMst1) + (#3044017 + #27472 * EVar vlmMst1 - #48480 * EPow P2 (EVar
   vlmMst1)) * EPow P2 (EVar vMsq) * EPow P2 (EVar vMuSUSY)) * EPow P2 (EVar vs2t) - #2 * EPow P2 (EVar vMt) * (#47040
   * EVar vDmsqst1 * EPow P2 (EVar vMst1) * (#3 * EVar vDmst12 * (#3401 + #105 * EVar vlmMst1 - #105 * EVar vlmMt) *
   (EVar vDmst12 - EPow P2 (EVar vMst2)) + (- #19241 + #420 * EVar vlmMst1 - #420 * EVar vlmMt) * EPow P4 (EVar
   vMst2)) + EPow P2 (EVar vMsq) * (EVar vDmst12 * EPow P2 (EVar vMst2) * (#16 * (#2524164367 + #8198205 * EVar
   vlmMst1 + #19269705 * EVar vlmMt - #2463300 * EVar vlmMst1 * EVar vlmMt + #27997200 * EPow P2 (EVar vlmMst1) -
   #1058400 * EPow P2 (EVar vlmMt)) * EPow P2 (EVar vMst1) - #245 * (- #59957863 - #480000 * EVar vlmMst1 + #26880 *
   EVar vlmMt + #230400 * EPow P2 (EVar vlmMst1)) * EPow P2 (EVar vMuSUSY)) + EPow P2 (EVar vDmst12) * (#4 * (-
   #7672052891 - #10289580 * EVar vlmMt + #900 * EVar vlmMst1 * (#15649 + #11284 * EVar vlmMt) + #98506800 * EPow P2
   (EVar vlmMst1) + #4233600 * EPow P2 (EVar vlmMt)) * EPow P2 (EVar vMst1) + #245 * (- #59957863 - #480000 * EVar
   vlmMst1 + #26880 * EVar vlmMt + #230400 * EPow P2 (EVar vlmMst1)) * EPow P2 (EVar vMuSUSY)) - #588 * (#4 * (-
   #21126629 - #218510 * EVar vlmMt + #20 * EVar vlmMst1 * (- #28958 + #5055 * EVar vlmMt) + #194100 * EPow P2 (EVar
   vlmMst1) + #91800 * EPow P2 (EVar vlmMt)) * EPow P2 (EVar vMst1) + #5 * (- #3877891 - #46400 * EVar vlmMst1 + #960
   * EVar vlmMt + #19200 * EPow P2 (EVar vlmMst1)) * EPow P2 (EVar vMuSUSY)) * EPow P4 (EVar vMst2)))))))) + #23520 *
   EVar vMst1 * EVar vthreeLoopFlag * EVar vxDmsqst1 * EPow P2 (EVar vAl4p) * EPow P2 (EVar vDmsqst1) * (#4500 * EVar
   vMst1 * EVar vTbeta * EPow P2 (EVar vMt) * EPow P3 (EVar vMgl) * (#24 * EVar vshiftst2 * (EPow P2 (EVar vDmst12) +
   #2 * (- #2 + EVar vlmMst1) * EPow P2 (EVar vMst2) * (EVar vDmst12 + EPow P2 (EVar vMst2))) * EPow P2 (EVar vMt) *
   EPow P2 (EVar vSbeta) + EVar vDmst12 * EVar vshiftst2 * EPow P2 (EVar vs2t) * (- (EVar vDmst12 * (- #1 + #2 * EVar
   vlmMst1) * EPow P2 (EVar vMuSUSY) * (- #1 + EPow P2 (EVar vSbeta))) + #12 * EVar vDmst12 * (- #2 + EVar vlmMst1) *
   EPow P2 (EVar vMst1) * EPow P2 (EVar vSbeta) - #4 * (- #2 + EVar vlmMst1) * EPow P2 (EVar vMst2) * (EPow P2 (EVar
   vMuSUSY) * (- #1 + EPow P2 (EVar vSbeta)) + #12 * EPow P2 (EVar vMst1) * EPow P2 (EVar vSbeta))) - EVar vDmst12 *
   EVar vshiftst1 * EPow P2 (EVar vs2t) * (EVar vDmst12 * (- #5 + #2 * EVar vlmMst1) * EPow P2 (EVar vMuSUSY) * (- #1
   + EPow P2 (EVar vSbeta)) + #36 * EVar vDmst12 * (- #2 + EVar vlmMst1) * EPow P2 (EVar vMst1) * EPow P2 (EVar
   vSbeta) - #4 * (- #2 + EVar vlmMst1) * EPow P2 (EVar vMst2) * (EPow P2 (EVar vMuSUSY) * (- #1 + EPow P2 (EVar
   vSbeta)) + #12 * EPow P2 (EVar vMst1) * EPow P2 (EVar vSbeta))) + #48 * (- #2 + EVar vlmMst1) * EVar vshiftst1 *
   EPow P2 (EVar vMt) * EPow P2 (EVar vSbeta) * EPow P4 (EVar vMst2)) + #8 * EVar vxDmglst1 * EPow P2 (EVar vMt) *
   EPow P3 (EVar vDmglst1) * (- #2 * EVar vDmst12 * EVar vMt * EPow P2 (EVar vMst2) * (#2 * EVar vMt * (#5 * (#557 +
   #120 * EVar vlmMst1 - #120 * EVar vlmMt) * EVar vMuSUSY - #6 * (#3401 + #105 * EVar vlmMst1 - #105 * EVar vlmMt) *
   EVar vMst1 * EVar vTbeta) * EPow P2 (EVar vSbeta) + EVar vs2t * (#625 * EVar vTbeta * EPow P2 (EVar vMuSUSY) * (-
   #1 + EPow P2 (EVar vSbeta)) + EVar vMst1 * (#36600 * EVar vMuSUSY + (- #7121 + #870 * EVar vlmMst1 - #870 * EVar
   vlmMt) * EVar vMst1 * EVar vTbeta) * EPow P2 (EVar vSbeta))) + EPow P2 (EVar vDmst12) * ((#4 * (#5 * (#557 + #120 *
   EVar vlmMst1 - #120 * EVar vlmMt) * EVar vMuSUSY - #6 * (#3401 + #105 * EVar vlmMst1 - #105 * EVar vlmMt) * EVar
   vMst1 * EVar vTbeta) * EPow P2 (EVar vMt) + #75 * (#25 * EVar vMuSUSY - #488 * EVar vMst1 * EVar vTbeta) * EPow P2
   (EVar vMst1) * EPow P2 (EVar vs2t)) * EPow P2 (EVar vSbeta) + #2 * EVar vMt * EVar vs2t * (#625 * EVar vTbeta *
   EPow P2 (EVar vMuSUSY) * (- #1 + EPow P2 (EVar vSbeta)) + EVar vMst1 * (#36600 * EVar vMuSUSY + (- #13291 - #330 *
   EVar vlmMst1 + #330 * EVar vlmMt) * EVar vMst1 * EVar vTbeta) * EPow P2 (EVar vSbeta))) + #4 * ((#3778 - #435 *
   EVar vlmMst1 + #435 * EVar vlmMt) * EVar vMuSUSY + #25 * (#1225 - #39 * EVar vlmMst1 + #39 * EVar vlmMt) * EVar
   vMst1 * EVar vTbeta) * EPow P2 (EVar vMt) * EPow P2 (EVar vSbeta) * EPow P4 (EVar vMst2)) + EVar vMgl * (#5 * EVar
   vTbeta * EPow P2 (EVar vMt) * (#5 * EVar vDmst12 * EVar vs2t * (- #30 * EVar vDmst12 * (#7 + #24 * EVar vlmMst1) *
   EVar vMst1 * EVar vs2t * EPow P2 (EVar vMgl) * EPow P2 (EVar vMuSUSY) - #80 * EVar vDmst12 * EVar vMt * (#5 * EVar
   vDmglst1 * EVar vMgl + #5 * EPow P2 (EVar vDmglst1) + #21 * EPow P2 (EVar vMgl)) * EPow P2 (EVar vMuSUSY) + #80 *
   EVar vMt * (#5 * EVar vDmglst1 * EVar vMgl + #5 * EPow P2 (EVar vDmglst1) + #21 * EPow P2 (EVar vMgl)) * EPow P2
   (EVar vMst2) * EPow P2 (EVar vMuSUSY) - #3 * EVar vDmst12 * EVar vMst1 * EVar vs2t * ((#3760 * EVar vDmglst1 * EVar
   vMgl + #3832 * EPow P2 (EVar vDmglst1) - #5 * (#229 + #288 * EVar vlmMst1) * EPow P2 (EVar vMgl)) * EPow P2 (EVar
   vMst1) - #10 * (#7 + #24 * EVar vlmMst1) * EPow P2 (EVar vMgl) * EPow P2 (EVar vMuSUSY)) * EPow P2 (EVar vSbeta)) +
   #4 * EVar vMt * EPow P2 (EVar vSbeta) * (#4 * EVar vDmst12 * EVar vs2t * EPow P2 (EVar vMst1) * (#50 * EPow P2
   (EVar vMgl) * (EVar vDmst12 * (#23 - #6 * EVar vlmMst1 + #6 * EVar vlmMt) + (- #85 + #12 * EVar vlmMst1 - #12 *
   EVar vlmMt) * EPow P2 (EVar vMst2)) + EVar vDmglst1 * EVar vMgl * (EVar vDmst12 * (#1041 - #90 * EVar vlmMst1 + #90
   * EVar vlmMt) - #25 * (#91 + #6 * EVar vlmMst1 - #6 * EVar vlmMt) * EPow P2 (EVar vMst2)) + EPow P2 (EVar vDmglst1)
   * (#9 * EVar vDmst12 * (- #149 + #10 * EVar vlmMst1 - #10 * EVar vlmMt) + (#107 - #330 * EVar vlmMst1 + #330 * EVar
   vlmMt) * EPow P2 (EVar vMst2))) + #100 * EVar vDmst12 * EVar vs2t * (#5 * EVar vDmglst1 * EVar vMgl + #5 * EPow P2
   (EVar vDmglst1) + #21 * EPow P2 (EVar vMgl)) * (EVar vDmst12 - EPow P2 (EVar vMst2)) * EPow P2 (EVar vMuSUSY) - #4
   * EVar vMst1 * EVar vMt * EPow P2 (EVar vDmglst1) * (#3 * EVar vDmst12 * (#13147 - #90 * EVar vlmMst1 + #90 * EVar
   vlmMt) * (EVar vDmst12 - EPow P2 (EVar vMst2)) + (- #64033 + #3360 * EVar vlmMst1 - #3360 * EVar vlmMt) * EPow P4
   (EVar vMst2)) / #5 - #8 * EVar vDmglst1 * EVar vMgl * EVar vMst1 * EVar vMt * (#9 * EVar vDmst12 * (#423 - #20 *
   EVar vlmMst1 + #20 * EVar vlmMt) * (EVar vDmst12 - EPow P2 (EVar vMst2)) + #25 * (- #226 + #21 * EVar vlmMst1 - #21
   * EVar vlmMt) * EPow P4 (EVar vMst2)) + EVar vMst1 * EVar vMt * EPow P2 (EVar vMgl) * (#6 * (#419 - #60 * EVar
   vlmMst1 + #60 * EVar vlmMt) * EPow P2 (EVar vDmst12) - #225 * EVar vDmst12 * (#49 + #46 * EVar vlmMst1 + #2 * EVar
   vlmMt) * EPow P2 (EVar vMst2) + #50 * (#205 + #174 * EVar vlmMt - #6 * EVar vlmMst1 * (#101 + #18 * EVar vlmMt) +
   #54 * (EPow P2 (EVar vlmMst1) + EPow P2 (EVar vlmMt))) * EPow P4 (EVar vMst2)))) + #50 * EVar vMuSUSY * EPow P2
   (EVar vSbeta) * (#60 * EPow P2 (EVar vDmst12) * (#5 * EVar vDmglst1 * EVar vMgl + #5 * EPow P2 (EVar vDmglst1) +
   #21 * EPow P2 (EVar vMgl)) * EPow P2 (EVar vMst1) * EPow P2 (EVar vMt) * EPow P2 (EVar vs2t) + EVar vMst1 * (#3 *
   EVar vDmst12 * EVar vs2t * (#8 * EVar vDmglst1 * (#479 * EVar vDmglst1 + #470 * EVar vMgl) * (EVar vDmst12 - EPow
   P2 (EVar vMst2)) - #5 * EPow P2 (EVar vMgl) * (#44 * EVar vDmst12 - (#229 + #288 * EVar vlmMst1) * EPow P2 (EVar
   vMst2))) * EPow P3 (EVar vMt) + #540 * EVar vMt * EVar vs2t * EPow P2 (EVar vMgl) * (- #8 * EVar vDmst12 * (- #2 +
   EVar vlmMst1) * EVar vshiftst2 * EPow P2 (EVar vMst2) * EPow P2 (EVar vMt) + EPow P2 (EVar vDmst12) * (- #4 * EVar
   vshiftst2 * EPow P2 (EVar vMt) - (- #2 + EVar vlmMst1) * (EVar vshiftst1 - EVar vshiftst2) * EPow P2 (EVar vMst1) *
   EPow P2 (EVar vs2t)) + #8 * (- #2 + EVar vlmMst1) * (EVar vshiftst1 - EVar vshiftst2) * EPow P2 (EVar vMt) * EPow
   P4 (EVar vMst2))) + #16 * (#25 * EPow P2 (EVar vMgl) * (EVar vDmst12 * (#65 - #6 * EVar vlmMst1 + #6 * EVar vlmMt)
   * (EVar vDmst12 - EPow P2 (EVar vMst2)) + (- #91 + #12 * EVar vlmMst1 - #12 * EVar vlmMt) * EPow P4 (EVar vMst2)) +
   EVar vDmglst1 * EVar vMgl * (EVar vDmst12 * (#557 + #120 * EVar vlmMst1 - #120 * EVar vlmMt) * (EVar vDmst12 - EPow
   P2 (EVar vMst2)) - #25 * (#44 + #3 * EVar vlmMst1 - #3 * EVar vlmMt) * EPow P4 (EVar vMst2)) + EPow P2 (EVar
   vDmglst1) * (EVar vDmst12 * (#557 + #120 * EVar vlmMst1 - #120 * EVar vlmMt) * (EVar vDmst12 - EPow P2 (EVar
   vMst2)) + (#136 - #165 * EVar vlmMst1 + #165 * EVar vlmMt) * EPow P4 (EVar vMst2))) * EPow P4 (EVar vMt) / #5)))) +
   #11025 * EVar vthreeLoopFlag * EPow P2 (EVar vAl4p) * (#384 * EConst Cz2 * EPow P2 (EVar vMst1) * EPow P3 (EVar
   vMgl) * (EPow P2 (EVar vMst2) * (- #50 * EVar vMt * EVar vxDmsqst1 * EPow P2 (EVar vDmsqst1) * (- (EPow P2 (EVar
   vDmst12) * EPow P2 (EVar vs2t) * (- (EVar vMt * (EVar vshiftst1 + EVar vshiftst2) * EVar vTbeta * EPow P2 (EVar
   vMuSUSY) * (- #1 + EPow P2 (EVar vSbeta))) - #3 * (EVar vMuSUSY * EVar vs2t * (EVar vshiftst1 - EVar vshiftst2) +
   #2 * EVar vMt * (#3 * EVar vshiftst1 - EVar vshiftst2) * EVar vTbeta) * EPow P2 (EVar vMst1) * EPow P2 (EVar
   vSbeta))) + #2 * EVar vDmst12 * EVar vMt * EPow P2 (EVar vMst2) * (#12 * EVar vMt * EVar vMuSUSY * EVar vs2t * EVar
   vshiftst2 * EPow P2 (EVar vSbeta) - #12 * EVar vshiftst2 * EVar vTbeta * EPow P2 (EVar vMt) * EPow P2 (EVar vSbeta)
   - (EVar vshiftst1 - EVar vshiftst2) * EVar vTbeta * EPow P2 (EVar vs2t) * (EPow P2 (EVar vMuSUSY) * (- #1 + EPow P2
   (EVar vSbeta)) + #12 * EPow P2 (EVar vMst1) * EPow P2 (EVar vSbeta))) - #24 * (EVar vMuSUSY * EVar vs2t * (EVar
   vshiftst1 - EVar vshiftst2) + EVar vMt * (EVar vshiftst1 + EVar vshiftst2) * EVar vTbeta) * EPow P2 (EVar vMt) *
   EPow P2 (EVar vSbeta) * EPow P4 (EVar vMst2)) + EPow P2 (EVar vMsq) * (#50 * EVar vTbeta * (EVar vDmsqst1 + EPow P2
   (EVar vMsq)) * EPow P2 (EVar vMt) * (- (EPow P2 (EVar vDmst12) * EPow P2 (EVar vs2t) * ((EVar vshiftst1 + EVar
   vshiftst2) * EPow P2 (EVar vMuSUSY) * (- #1 + EPow P2 (EVar vSbeta)) + #6 * (#3 * EVar vshiftst1 - EVar vshiftst2)
   * EPow P2 (EVar vMst1) * EPow P2 (EVar vSbeta))) + #2 * EVar vDmst12 * EPow P2 (EVar vMst2) * ((EVar vshiftst1 -
   EVar vshiftst2) * EPow P2 (EVar vMuSUSY) * EPow P2 (EVar vs2t) * (- #1 + EPow P2 (EVar vSbeta)) + #12 * (EVar
   vshiftst2 * EPow P2 (EVar vMt) + (EVar vshiftst1 - EVar vshiftst2) * EPow P2 (EVar vMst1) * EPow P2 (EVar vs2t)) *
   EPow P2 (EVar vSbeta)) + #24 * (EVar vshiftst1 + EVar vshiftst2) * EPow P2 (EVar vMt) * EPow P2 (EVar vSbeta) *
   EPow P4 (EVar vMst2)) + #15 * EVar vMuSUSY * EPow P2 (EVar vSbeta) * (#10 * (EVar vDmsqst1 + EPow P2 (EVar vMsq)) *
   (- #8 * EVar vDmst12 * EVar vs2t * EVar vshiftst2 * EPow P2 (EVar vMst2) * EPow P3 (EVar vMt) + EVar vMt * (- EVar
   vshiftst1 + EVar vshiftst2) * EPow P2 (EVar vDmst12) * EPow P2 (EVar vMst1) * EPow P3 (EVar vs2t) + #8 * EVar vs2t
   * (EVar vshiftst1 - EVar vshiftst2) * EPow P3 (EVar vMt) * EPow P4 (EVar vMst2)) + EVar vshiftst3 * EPow P2 (EVar
   vMsq) * (- (EVar vMt * EPow P2 (EVar vDmst12) * EPow P2 (EVar vMst1) * EPow P3 (EVar vs2t)) + #8 * EVar vs2t * EPow
   P3 (EVar vMt) * (EPow P2 (EVar vDmst12) - EVar vDmst12 * EPow P2 (EVar vMst2) + EPow P4 (EVar vMst2))))) + #5 *
   EVar vshiftst3 * EVar vTbeta * EPow P4 (EVar vMsq) * (- (EVar vDmst12 * EPow P2 (EVar vMt) * EPow P2 (EVar vs2t) *
   ((#3 * EVar vDmst12 - #2 * EPow P2 (EVar vMst2)) * EPow P2 (EVar vMuSUSY) * (- #1 + EPow P2 (EVar vSbeta)) + #6 *
   EPow P2 (EVar vMst1) * (#7 * EVar vDmst12 - #4 * EPow P2 (EVar vMst2)) * EPow P2 (EVar vSbeta))) + #24 * EPow P2
   (EVar vSbeta) * (EPow P2 (EVar vDmst12) - EVar vDmst12 * EPow P2 (EVar vMst2) + EPow P4 (EVar vMst2)) * EPow P4
   (EVar vMt))) - EVar vxDmst12 * EPow P3 (EVar vDmst12) * (#50 * EVar vDmsqst1 * (EVar vDmsqst1 * EVar vxDmsqst1 +
   EPow P2 (EVar vMsq)) * (- #4 * EVar vshiftst2 * EPow P2 (EVar vMt) * (EVar vTbeta * EPow P2 (EVar vMuSUSY) * EPow
   P2 (EVar vs2t) * (- #1 + EPow P2 (EVar vSbeta)) + #6 * EVar vMt * (EVar vMuSUSY * EVar vs2t - EVar vMt * EVar
   vTbeta) * EPow P2 (EVar vSbeta)) + EPow P2 (EVar vSbeta) * (#2 * EVar vMt * (EVar vMuSUSY * EVar vs2t * (- #2 *
   EVar vshiftst1 + EVar vshiftst2) + #2 * EVar vMt * (- #4 * EVar vshiftst1 + EVar vshiftst2) * EVar vTbeta) * EPow
   P2 (EVar vMst1) * EPow P2 (EVar vs2t) + (EVar vshiftst1 - EVar vshiftst2) * EVar vTbeta * EPow P4 (EVar vMst1) *
   EPow P4 (EVar vs2t))) + EPow P4 (EVar vMsq) * (#2 * EPow P2 (EVar vMt) * (- ((#15 * EVar vshiftst1 + #10 * EVar
   vshiftst2 + #9 * EVar vshiftst3) * EVar vTbeta * EPow P2 (EVar vMuSUSY) * EPow P2 (EVar vs2t) * (- #1 + EPow P2
   (EVar vSbeta))) + #60 * EVar vMt * EVar vshiftst3 * (EVar vMuSUSY * EVar vs2t + EVar vMt * EVar vTbeta) * EPow P2
   (EVar vSbeta)) + EPow P2 (EVar vSbeta) * (- #5 * EVar vMt * (EVar vMuSUSY * EVar vs2t * (#40 * EVar vshiftst1 - #20
   * EVar vshiftst2 + #7 * EVar vshiftst3) + #2 * EVar vMt * (#80 * EVar vshiftst1 - #20 * EVar vshiftst2 + #29 * EVar
   vshiftst3) * EVar vTbeta) * EPow P2 (EVar vMst1) * EPow P2 (EVar vs2t) + #5 * (#10 * EVar vshiftst1 - #10 * EVar
   vshiftst2 + EVar vshiftst3) * EVar vTbeta * EPow P4 (EVar vMst1) * EPow P4 (EVar vs2t))))) - #5 * EVar vMt * EConst
   Cz3 * (EVar vMt * EPow P2 (EVar vMst2) * (#8 * EVar vDmst12 * EVar vMgl * EVar vMst1 * EVar vs2t * EVar vTbeta *
   EPow P2 (EVar vMsq) * (EVar vDmst12 * EVar vMst1 * EVar vs2t * (#12 * (#420 * EVar vDmsqst1 * EPow P2 (EVar vMgl) +
   (#2898 * EVar vDmglst1 * EVar vMgl - #3295 * EPow P2 (EVar vDmglst1) + #660 * EPow P2 (EVar vMgl)) * EPow P2 (EVar
   vMsq)) * EPow P2 (EVar vMst1) + (#1260 * EVar vDmsqst1 * EPow P2 (EVar vMgl) - (#50485 * EVar vDmglst1 * EVar vMgl
   + #200115 * EPow P2 (EVar vDmglst1) + #2574 * EPow P2 (EVar vMgl)) * EPow P2 (EVar vMsq)) * EPow P2 (EVar vMuSUSY))
   - #2 * EVar vMt * EPow P2 (EVar vMsq) * (#12 * EPow P2 (EVar vMst1) * (EVar vDmst12 * (#22100 * EVar vDmglst1 *
   EVar vMgl + #86801 * EPow P2 (EVar vDmglst1) + #3290 * EPow P2 (EVar vMgl)) + #8 * (#1963 * EVar vDmglst1 * EVar
   vMgl + #9451 * EPow P2 (EVar vDmglst1) + #106 * EPow P2 (EVar vMgl)) * EPow P2 (EVar vMst2)) - (#5 * EVar vDmst12 *
   (- #21081 * EVar vDmglst1 * EVar vMgl + #21081 * EPow P2 (EVar vDmglst1) - #3457 * EPow P2 (EVar vMgl)) - #2 *
   (#37582 * EVar vDmglst1 * EVar vMgl + #142987 * EPow P2 (EVar vDmglst1) + #3012 * EPow P2 (EVar vMgl)) * EPow P2
   (EVar vMst2)) * EPow P2 (EVar vMuSUSY))) * EPow P2 (EVar vSbeta) - #5040 * EVar vxDmsqst1 * EPow P2 (EVar vDmsqst1)
   * EPow P2 (EVar vMst1) * EPow P3 (EVar vMgl) * (#6 * EVar vDmst12 * EVar vMt * (- #5 * EVar vMuSUSY * EVar vs2t +
   #6 * EVar vMt * EVar vTbeta) * EPow P2 (EVar vMst2) * EPow P2 (EVar vSbeta) + EVar vTbeta * EPow P2 (EVar vDmst12)
   * EPow P2 (EVar vs2t) * (- #2 * EPow P2 (EVar vMuSUSY) * (- #1 + EPow P2 (EVar vSbeta)) - #15 * EPow P2 (EVar
   vMst1) * EPow P2 (EVar vSbeta)) + #24 * EVar vTbeta * EPow P2 (EVar vMt) * EPow P2 (EVar vSbeta) * EPow P4 (EVar
   vMst2)) - #8 * EVar vxDmglst1 * EPow P3 (EVar vDmglst1) * EPow P4 (EVar vMsq) * (#6 * EVar vDmst12 * EVar vMt *
   EPow P2 (EVar vMst2) * (#147351 * EVar vMt * EVar vTbeta * EPow P2 (EVar vMuSUSY) * (- #1 + EPow P2 (EVar vSbeta))
   + #48 * (#3977 * EVar vMuSUSY * EVar vs2t + #7908 * EVar vMt * EVar vTbeta) * EPow P2 (EVar vMst1) * EPow P2 (EVar
   vSbeta) + #4 * EVar vMst1 * EVar vMuSUSY * (#76518 * EVar vMuSUSY * EVar vs2t * EVar vTbeta * (- #1 + EPow P2 (EVar
   vSbeta)) + #500581 * EVar vMt * EPow P2 (EVar vSbeta)) + #966992 * EVar vs2t * EVar vTbeta * EPow P2 (EVar vSbeta)
   * EPow P3 (EVar vMst1)) + EPow P2 (EVar vDmst12) * (- #2 * EVar vMst1 * EVar vMt * EVar vMuSUSY * (#737647 * EVar
   vMuSUSY * EVar vs2t * EVar vTbeta * (- #1 + EPow P2 (EVar vSbeta)) + #5205992 * EVar vMt * EPow P2 (EVar vSbeta)) +
   EPow P2 (EVar vMst1) * (#349745 * EVar vTbeta * EPow P2 (EVar vMuSUSY) * EPow P2 (EVar vs2t) * (- #1 + EPow P2
   (EVar vSbeta)) - #24 * EVar vMt * (- #22939 * EVar vMuSUSY * EVar vs2t + #77043 * EVar vMt * EVar vTbeta) * EPow P2
   (EVar vSbeta)) - #24 * EVar vs2t * (#114777 * EVar vMuSUSY * EVar vs2t - #258833 * EVar vMt * EVar vTbeta) * EPow
   P2 (EVar vSbeta) * EPow P3 (EVar vMst1) + EVar vTbeta * (- #884106 * EPow P2 (EVar vMt) * EPow P2 (EVar vMuSUSY) *
   (- #1 + EPow P2 (EVar vSbeta)) + #572688 * EPow P2 (EVar vs2t) * EPow P2 (EVar vSbeta) * EPow P4 (EVar vMst1))) +
   #24 * EPow P2 (EVar vMt) * (#28665 * EVar vTbeta * EPow P2 (EVar vMuSUSY) * (- #1 + EPow P2 (EVar vSbeta)) + #4 *
   EVar vMst1 * (#60437 * EVar vMuSUSY + #28466 * EVar vMst1 * EVar vTbeta) * EPow P2 (EVar vSbeta)) * EPow P4 (EVar
   vMst2)) + EVar vMgl * EPow P2 (EVar vMsq) * (- #3 * EVar vTbeta * EPow P2 (EVar vMt) * EPow P2 (EVar vSbeta) *
   (#20160 * EVar vDmsqst1 * EVar vDmst12 * EPow P2 (EVar vMgl) * EPow P2 (EVar vMst1) * (EVar vDmst12 + #2 * EPow P2
   (EVar vMst2)) + EPow P2 (EVar vMsq) * (EPow P2 (EVar vMgl) * (#160 * EVar vDmst12 * EPow P2 (EVar vMst2) * (#2052 *
   EPow P2 (EVar vMst1) + #425 * EPow P2 (EVar vMuSUSY)) + EPow P2 (EVar vDmst12) * (#29472 * EPow P2 (EVar vMst1) +
   #31963 * EPow P2 (EVar vMuSUSY)) + #512 * ((- #214 + #24 * EVar vlmMst1 - #24 * EVar vlmMt) * EPow P2 (EVar vMst1)
   + #47 * EPow P2 (EVar vMuSUSY)) * EPow P4 (EVar vMst2)) - #48 * EVar vDmglst1 * EVar vMgl * (EPow P2 (EVar vDmst12)
   * (#6970 * EPow P2 (EVar vMst1) + #8213 * EPow P2 (EVar vMuSUSY)) - EVar vDmst12 * EPow P2 (EVar vMst2) * (#30912 *
   EPow P2 (EVar vMst1) + #8213 * EPow P2 (EVar vMuSUSY)) - #8 * (#3356 * EPow P2 (EVar vMst1) + #583 * EPow P2 (EVar
   vMuSUSY)) * EPow P4 (EVar vMst2)) - #48 * EPow P2 (EVar vDmglst1) * (#7 * EPow P2 (EVar vDmst12) * (#7481 * EPow P2
   (EVar vMst1) + #4095 * EPow P2 (EVar vMuSUSY)) - #5 * EVar vDmst12 * EPow P2 (EVar vMst2) * (#15248 * EPow P2 (EVar
   vMst1) + #5733 * EPow P2 (EVar vMuSUSY)) - #2 * (#37624 * EPow P2 (EVar vMst1) + #7047 * EPow P2 (EVar vMuSUSY)) *
   EPow P4 (EVar vMst2)))) - EVar vTbeta * EPow P2 (EVar vMuSUSY) * (#8 * EPow P2 (EVar vDmst12) * (#1260 * EVar
   vDmsqst1 * EPow P2 (EVar vMgl) - (#50485 * EVar vDmglst1 * EVar vMgl + #200115 * EPow P2 (EVar vDmglst1) + #2574 *
   EPow P2 (EVar vMgl)) * EPow P2 (EVar vMsq)) * EPow P2 (EVar vMst1) * EPow P2 (EVar vs2t) + EVar vMt * EPow P2 (EVar
   vMsq) * (#16 * EVar vDmst12 * EVar vMst1 * EVar vs2t * (#5 * EVar vDmst12 * (- #21081 * EVar vDmglst1 * EVar vMgl +
   #21081 * EPow P2 (EVar vDmglst1) - #3457 * EPow P2 (EVar vMgl)) - #2 * (#37582 * EVar vDmglst1 * EVar vMgl +
   #142987 * EPow P2 (EVar vDmglst1) + #3012 * EPow P2 (EVar vMgl)) * EPow P2 (EVar vMst2)) + #3 * EVar vMt * (#48 *
   EVar vDmglst1 * EVar vMgl * (#8213 * EPow P2 (EVar vDmst12) - #8213 * EVar vDmst12 * EPow P2 (EVar vMst2) - #4664 *
   EPow P4 (EVar vMst2)) + #432 * EPow P2 (EVar vDmglst1) * (#3185 * EPow P2 (EVar vDmst12) - #3185 * EVar vDmst12 *
   EPow P2 (EVar vMst2) - #1566 * EPow P4 (EVar vMst2)) - EPow P2 (EVar vMgl) * (#31963 * EPow P2 (EVar vDmst12) +
   #68000 * EVar vDmst12 * EPow P2 (EVar vMst2) + #24064 * EPow P4 (EVar vMst2))))) + #16 * EVar vMst1 * EVar vMuSUSY
   * EPow P2 (EVar vSbeta) * (#6 * EVar vDmst12 * EVar vMst1 * EVar vMt * EVar vs2t * (#105 * EVar vDmsqst1 * EPow P2
   (EVar vMgl) * (#7 * EVar vDmst12 + #8 * EPow P2 (EVar vMst2)) + EPow P2 (EVar vMsq) * (#3 * EPow P2 (EVar vMgl) *
   (#403 * EVar vDmst12 + #440 * EPow P2 (EVar vMst2)) - #2 * EPow P2 (EVar vDmglst1) * (#32498 * EVar vDmst12 + #3295
   * EPow P2 (EVar vMst2)) + EVar vDmglst1 * (- #7642 * EVar vDmst12 * EVar vMgl + #5796 * EVar vMgl * EPow P2 (EVar
   vMst2)))) + EPow P2 (EVar vMsq) * (#3 * EPow P2 (EVar vDmst12) * (#37582 * EVar vDmglst1 * EVar vMgl + #142987 *
   EPow P2 (EVar vDmglst1) + #3012 * EPow P2 (EVar vMgl)) * EPow P2 (EVar vMst1) * EPow P2 (EVar vs2t) + EPow P2 (EVar
   vMt) * (#4 * EPow P2 (EVar vDmglst1) * (#286982 * EPow P2 (EVar vDmst12) - #487227 * EVar vDmst12 * EPow P2 (EVar
   vMst2) - #226824 * EPow P4 (EVar vMst2)) - EPow P2 (EVar vMgl) * (#51181 * EPow P2 (EVar vDmst12) + #49656 * EVar
   vDmst12 * EPow P2 (EVar vMst2) + #10176 * EPow P4 (EVar vMst2)) - #4 * EVar vDmglst1 * EVar vMgl * (#86833 * EPow
   P2 (EVar vDmst12) + #113412 * EVar vDmst12 * EPow P2 (EVar vMst2) + #47112 * EPow P4 (EVar vMst2))))))) + #2 * EVar
   vxDmst12 * EPow P3 (EVar vDmst12) * (EPow P3 (EVar vMgl) * (- #2520 * EVar vDmsqst1 * EPow P2 (EVar vMst1) * (EVar
   vDmsqst1 * EVar vxDmsqst1 * (EVar vMt * EVar vTbeta * EPow P2 (EVar vs2t) * (#4 * EPow P2 (EVar vMuSUSY) * (- #1 +
   EPow P2 (EVar vSbeta)) + #15 * EPow P2 (EVar vMst1) * EPow P2 (EVar vSbeta)) - #36 * EVar vTbeta * EPow P2 (EVar
   vSbeta) * EPow P3 (EVar vMt) + #2 * EVar vMuSUSY * EPow P2 (EVar vSbeta) * (#15 * EVar vs2t * EPow P2 (EVar vMt) +
   EPow P2 (EVar vMst1) * EPow P3 (EVar vs2t))) + EPow P2 (EVar vMsq) * (EVar vMt * EVar vTbeta * EPow P2 (EVar vs2t)
   * (#4 * EPow P2 (EVar vMuSUSY) * (- #1 + EPow P2 (EVar vSbeta)) + EPow P2 (EVar vMst1) * EPow P2 (EVar vSbeta)) -
   #48 * EVar vTbeta * EPow P2 (EVar vSbeta) * EPow P3 (EVar vMt) + #2 * EVar vMuSUSY * EPow P2 (EVar vSbeta) * (#22 *
   EVar vs2t * EPow P2 (EVar vMt) + EPow P2 (EVar vMst1) * EPow P3 (EVar vs2t)))) + EPow P4 (EVar vMsq) * (#16 * EVar
   vMst1 * EVar vMuSUSY * EPow P2 (EVar vMt) * (#20297 * EVar vMuSUSY * EVar vs2t * EVar vTbeta * (- #1 + EPow P2
   (EVar vSbeta)) + #76009 * EVar vMt * EPow P2 (EVar vSbeta)) - EVar vMt * EPow P2 (EVar vMst1) * (#37669 * EVar
   vTbeta * EPow P2 (EVar vMuSUSY) * EPow P2 (EVar vs2t) * (- #1 + EPow P2 (EVar vSbeta)) - #4 * EVar vMt * (- #32783
   * EVar vMuSUSY * EVar vs2t + #33933 * EVar vMt * EVar vTbeta) * EPow P2 (EVar vSbeta)) + #4 * EVar vs2t * (EVar vMt
   * (#33783 * EVar vMuSUSY * EVar vs2t - #23402 * EVar vMt * EVar vTbeta) + #18 * EVar vMst1 * EVar vs2t * (#143 *
   EVar vMuSUSY * EVar vs2t - #37 * EVar vMt * EVar vTbeta)) * EPow P2 (EVar vSbeta) * EPow P3 (EVar vMst1) + EVar
   vTbeta * (#197889 * EPow P2 (EVar vMuSUSY) * (- #1 + EPow P2 (EVar vSbeta)) * EPow P3 (EVar vMt) + #24096 * EPow P2
   (EVar vSbeta) * EPow P3 (EVar vs2t) * EPow P5 (EVar vMst1)))) + #4 * EVar vDmglst1 * EPow P4 (EVar vMsq) * (EPow P2
   (EVar vMgl) * (#4 * EVar vMst1 * EVar vMuSUSY * EPow P2 (EVar vMt) * (#142987 * EVar vMuSUSY * EVar vs2t * EVar
   vTbeta * (- #1 + EPow P2 (EVar vSbeta)) + #574156 * EVar vMt * EPow P2 (EVar vSbeta)) + #2 * EVar vMt * EPow P2
   (EVar vMst1) * (#50485 * EVar vTbeta * EPow P2 (EVar vMuSUSY) * EPow P2 (EVar vs2t) * (- #1 + EPow P2 (EVar
   vSbeta)) + #12 * EVar vMt * (#4744 * EVar vMuSUSY * EVar vs2t + #12729 * EVar vMt * EVar vTbeta) * EPow P2 (EVar
   vSbeta)) + EVar vs2t * (EVar vMt * (#90723 * EVar vMuSUSY * EVar vs2t - #164264 * EVar vMt * EVar vTbeta) + EVar
   vMst1 * EVar vs2t * (#50485 * EVar vMuSUSY * EVar vs2t - #80628 * EVar vMt * EVar vTbeta)) * EPow P2 (EVar vSbeta)
   * EPow P3 (EVar vMst1) + #86 * EVar vTbeta * (- #1719 * EPow P2 (EVar vMuSUSY) * (- #1 + EPow P2 (EVar vSbeta)) *
   EPow P3 (EVar vMt) + #874 * EPow P2 (EVar vSbeta) * EPow P3 (EVar vs2t) * EPow P5 (EVar vMst1))) + EVar vDmglst1 *
   EVar vMgl * (- #8 * EVar vMst1 * EVar vMuSUSY * EPow P2 (EVar vMt) * (- #18791 * EVar vMuSUSY * EVar vs2t * EVar
   vTbeta * (- #1 + EPow P2 (EVar vSbeta)) + #86737 * EVar vMt * EPow P2 (EVar vSbeta)) + #6 * EVar vMt * EPow P2
   (EVar vMst1) * (#66705 * EVar vTbeta * EPow P2 (EVar vMuSUSY) * EPow P2 (EVar vs2t) * (- #1 + EPow P2 (EVar
   vSbeta)) + (#273164 * EVar vMt * EVar vMuSUSY * EVar vs2t - #85482 * EVar vTbeta * EPow P2 (EVar vMt)) * EPow P2
   (EVar vSbeta)) + EVar vs2t * (- #3 * EVar vMt * EVar vs2t * (#391379 * EVar vMuSUSY + #116812 * EVar vMst1 * EVar
   vTbeta) + #4379080 * EVar vTbeta * EPow P2 (EVar vMt) + #200115 * EVar vMst1 * EVar vMuSUSY * EPow P2 (EVar vs2t))
   * EPow P2 (EVar vSbeta) * EPow P3 (EVar vMst1) + EVar vTbeta * (- #515970 * EPow P2 (EVar vMuSUSY) * (- #1 + EPow
   P2 (EVar vSbeta)) * EPow P3 (EVar vMt) + #285974 * EPow P2 (EVar vSbeta) * EPow P3 (EVar vs2t) * EPow P5 (EVar
   vMst1))) + EVar vxDmglst1 * EPow P2 (EVar vDmglst1) * (- #4 * EVar vMst1 * EVar vMuSUSY * EPow P2 (EVar vMt) *
   (#278539 * EVar vMuSUSY * EVar vs2t * EVar vTbeta * (- #1 + EPow P2 (EVar vSbeta)) + #2202506 * EVar vMt * EPow P2
   (EVar vSbeta)) + #2 * EVar vMt * EPow P2 (EVar vMst1) * (#349745 * EVar vTbeta * EPow P2 (EVar vMuSUSY) * EPow P2
   (EVar vs2t) * (- #1 + EPow P2 (EVar vSbeta)) - #24 * EVar vMt * (- #46801 * EVar vMuSUSY * EVar vs2t + #29595 *
   EVar vMt * EVar vTbeta) * EPow P2 (EVar vSbeta)) + EVar vs2t * (- #4967589 * EVar vMt * EVar vMuSUSY * EVar vs2t +
   #297420 * EVar vMst1 * EVar vMt * EVar vs2t * EVar vTbeta + #16623976 * EVar vTbeta * EPow P2 (EVar vMt) + #349745
   * EVar vMst1 * EVar vMuSUSY * EPow P2 (EVar vs2t)) * EPow P2 (EVar vSbeta) * EPow P3 (EVar vMst1) + EVar vTbeta *
   (- #884106 * EPow P2 (EVar vMuSUSY) * (- #1 + EPow P2 (EVar vSbeta)) * EPow P3 (EVar vMt) + #918216 * EPow P2 (EVar
   vSbeta) * EPow P3 (EVar vs2t) * EPow P5 (EVar vMst1))))))) + #4 * EVar vxDmst12 * EPow P3 (EVar vDmst12) * (#5880 *
   EVar vMst1 * EVar vthreeLoopFlag * EVar vxDmsqst1 * EPow P2 (EVar vAl4p) * EPow P2 (EVar vDmsqst1) * (#8 * EVar
   vDmglst1 * EVar vMt * (#5 * EPow P2 (EVar vMgl) * (- #2 * EVar vs2t * EPow P2 (EVar vMt) * (#125 * EVar vTbeta *
   EPow P2 (EVar vMuSUSY) * (- #1 + EPow P2 (EVar vSbeta)) + EVar vMst1 * (#7050 * EVar vMuSUSY + (- #193 - #330 *
   EVar vlmMst1 + #330 * EVar vlmMt) * EVar vMst1 * EVar vTbeta) * EPow P2 (EVar vSbeta)) + EPow P2 (EVar vSbeta) *
   (#150 * EVar vMt * (- #5 * EVar vMuSUSY + #94 * EVar vMst1 * EVar vTbeta) * EPow P2 (EVar vMst1) * EPow P2 (EVar
   vs2t) - #4 * ((#557 + #120 * EVar vlmMst1 - #120 * EVar vlmMt) * EVar vMuSUSY + #9 * (- #423 + #20 * EVar vlmMst1 -
   #20 * EVar vlmMt) * EVar vMst1 * EVar vTbeta) * EPow P3 (EVar vMt) + #125 * EVar vTbeta * EPow P3 (EVar vs2t) *
   EPow P4 (EVar vMst1))) + EVar vxDmglst1 * EPow P2 (EVar vDmglst1) * (- #2 * EVar vs2t * EPow P2 (EVar vMt) * (#625
   * EVar vTbeta * EPow P2 (EVar vMuSUSY) * (- #1 + EPow P2 (EVar vSbeta)) + (#36600 * EVar vMst1 * EVar vMuSUSY - #3
   * (#6487 + #510 * EVar vlmMst1 - #510 * EVar vlmMt) * EVar vTbeta * EPow P2 (EVar vMst1)) * EPow P2 (EVar vSbeta))
   + EPow P2 (EVar vSbeta) * (#150 * EVar vMt * (- #25 * EVar vMuSUSY + #488 * EVar vMst1 * EVar vTbeta) * EPow P2
   (EVar vMst1) * EPow P2 (EVar vs2t) - #4 * (#5 * (#557 + #120 * EVar vlmMst1 - #120 * EVar vlmMt) * EVar vMuSUSY -
   #6 * (#3401 + #105 * EVar vlmMst1 - #105 * EVar vlmMt) * EVar vMst1 * EVar vTbeta) * EPow P3 (EVar vMt) + #625 *
   EVar vTbeta * EPow P3 (EVar vs2t) * EPow P4 (EVar vMst1))) + EVar vDmglst1 * EVar vMgl * (- #50 * EVar vs2t * EPow
   P2 (EVar vMt) * (#25 * EVar vTbeta * EPow P2 (EVar vMuSUSY) * (- #1 + EPow P2 (EVar vSbeta)) + EVar vMst1 * (#1437
   * EVar vMuSUSY - #5 * (#103 + #6 * EVar vlmMst1 - #6 * EVar vlmMt) * EVar vMst1 * EVar vTbeta) * EPow P2 (EVar
   vSbeta)) + EPow P2 (EVar vSbeta) * (#150 * EVar vMt * (- #25 * EVar vMuSUSY + #479 * EVar vMst1 * EVar vTbeta) *
   EPow P2 (EVar vMst1) * EPow P2 (EVar vs2t) + (- #20 * (#557 + #120 * EVar vlmMst1 - #120 * EVar vlmMt) * EVar
   vMuSUSY + #6 * (#13147 - #90 * EVar vlmMst1 + #90 * EVar vlmMt) * EVar vMst1 * EVar vTbeta) * EPow P3 (EVar vMt) +
   #625 * EVar vTbeta * EPow P3 (EVar vs2t) * EPow P4 (EVar vMst1)))) + #5 * EPow P3 (EVar vMgl) * (- #75 * EVar vMst1
   * EPow P2 (EVar vMt) * EPow P2 (EVar vs2t) * (#4 * (#7 + #6 * EVar vshiftst1 - #24 * EVar vlmMst1 * (- #1 + EVar
   vshiftst2) + #30 * EVar vshiftst2) * EVar vTbeta * EPow P2 (EVar vMuSUSY) * (- #1 + EPow P2 (EVar vSbeta)) + #3 *
   EVar vMst1 * (#112 * EVar vMuSUSY + EVar vMst1 * (#91 + #240 * EVar vshiftst1 + #32 * EVar vlmMst1 * (#3 - #4 *
   EVar vshiftst1 + EVar vshiftst2)) * EVar vTbeta) * EPow P2 (EVar vSbeta)) - #150 * EVar vs2t * (#56 * EVar vTbeta *
   EPow P2 (EVar vMuSUSY) * (- #1 + EPow P2 (EVar vSbeta)) + EVar vMst1 * (#3 * EVar vMuSUSY * (#47 + #96 * (EVar
   vlmMst1 + EVar vshiftst2 - EVar vlmMst1 * EVar vshiftst2)) - #208 * EVar vMst1 * EVar vTbeta) * EPow P2 (EVar
   vSbeta)) * EPow P3 (EVar vMt) + EPow P2 (EVar vSbeta) * (- #150 * EVar vMt * (EVar vMuSUSY * (#7 + #108 * EVar
   vshiftst1 - #72 * EVar vshiftst2 + #24 * EVar vlmMst1 * (#1 - #2 * EVar vshiftst1 + EVar vshiftst2)) - #28 * EVar
   vMst1 * EVar vTbeta) * EPow P3 (EVar vMst1) * EPow P3 (EVar vs2t) - #4 * (#200 * (#65 - #6 * EVar vlmMst1 + #6 *
   EVar vlmMt) * EVar vMuSUSY - #3 * EVar vMst1 * (#1999 - #90 * EVar vlmMt + #90 * EVar vlmMst1 * (#41 - #40 * EVar
   vshiftst2) + #3600 * EVar vshiftst2) * EVar vTbeta) * EPow P4 (EVar vMt) - #1800 * (- #2 + EVar vlmMst1) * (EVar
   vshiftst1 - EVar vshiftst2) * EVar vTbeta * EPow P4 (EVar vs2t) * EPow P5 (EVar vMst1)))) + EVar vAl4p * EVar vMgl
   * EPow P2 (EVar vMsq) * (- #35280 * EVar vMst1 * EVar vMt * EVar vtwoLoopFlag * EPow P2 (EVar vMsq) * (EPow P2
   (EVar vMgl) * (#25 * EVar vMst1 * EVar vMt * EPow P2 (EVar vs2t) * ((#1 + #6 * EVar vlmMst1) * EVar vTbeta * EPow
   P2 (EVar vMuSUSY) * (- #1 + EPow P2 (EVar vSbeta)) + #12 * EVar vMst1 * (EVar vMuSUSY + #3 * EVar vlmMst1 * EVar
   vMuSUSY + (#1 + #12 * EVar vlmMst1) * EVar vMst1 * EVar vTbeta) * EPow P2 (EVar vSbeta)) + #100 * EVar vs2t * EPow
   P2 (EVar vMt) * (- ((#5 + #6 * EVar vlmMst1) * EVar vTbeta * EPow P2 (EVar vMuSUSY) * (- #1 + EPow P2 (EVar
   vSbeta))) + #2 * EVar vMst1 * (- #12 * (- #1 + EVar vlmMst1) * EVar vMuSUSY + (#1 + #3 * EVar vlmMst1 + #9 * EVar
   vlmMt) * EVar vMst1 * EVar vTbeta) * EPow P2 (EVar vSbeta)) + EPow P2 (EVar vSbeta) * (- #4 * (#50 * (#5 + #6 *
   EVar vlmMst1) * EVar vMuSUSY + (#137 - #330 * EVar vlmMst1 - #270 * EVar vlmMt) * EVar vMst1 * EVar vTbeta) * EPow
   P3 (EVar vMt) + #75 * (EVar vMuSUSY - #2 * (#1 + #2 * EVar vlmMst1) * EVar vMst1 * EVar vTbeta) * EPow P3 (EVar
   vMst1) * EPow P3 (EVar vs2t))) + #2 * EVar vDmglst1 * (EVar vMgl * (- #25 * EVar vMst1 * EVar vMt * EPow P2 (EVar
   vs2t) * (#8 * (- #1 + #3 * EVar vlmMst1) * EVar vTbeta * EPow P2 (EVar vMuSUSY) * (- #1 + EPow P2 (EVar vSbeta)) +
   #3 * EVar vMst1 * ((#5 - #6 * EVar vlmMst1) * EVar vMuSUSY + #6 * (- #1 + #4 * EVar vlmMst1) * EVar vMst1 * EVar
   vTbeta) * EPow P2 (EVar vSbeta)) - #2 * EVar vs2t * EPow P2 (EVar vMt) * (#30 * EVar vlmMst1 * (#5 * EVar vTbeta *
   EPow P2 (EVar vMuSUSY) * (- #1 + EPow P2 (EVar vSbeta)) + EVar vMst1 * (#60 * EVar vMuSUSY - #11 * EVar vMst1 *
   EVar vTbeta) * EPow P2 (EVar vSbeta)) + EVar vTbeta * (- #125 * EPow P2 (EVar vMuSUSY) * (- #1 + EPow P2 (EVar
   vSbeta)) + #2 * (#131 - #135 * EVar vlmMt) * EPow P2 (EVar vMst1) * EPow P2 (EVar vSbeta))) + EPow P2 (EVar vSbeta)
   * (#4 * (#6 * (#17 - #30 * EVar vlmMst1 + #5 * EVar vlmMt) * EVar vMuSUSY + (#47 + #870 * EVar vlmMst1 + #30 * EVar
   vlmMt) * EVar vMst1 * EVar vTbeta) * EPow P3 (EVar vMt) + #25 * ((#4 - #12 * EVar vlmMst1) * EVar vMuSUSY + (#5 -
   #6 * EVar vlmMst1) * EVar vMst1 * EVar vTbeta) * EPow P3 (EVar vMst1) * EPow P3 (EVar vs2t))) + EVar vDmglst1 * (-
   #15 * EVar vMst1 * EVar vMt * EPow P2 (EVar vs2t) * (#10 * (- #5 + #6 * EVar vlmMst1) * EVar vTbeta * EPow P2 (EVar
   vMuSUSY) * (- #1 + EPow P2 (EVar vSbeta)) + EVar vMst1 * ((#85 - #30 * EVar vlmMst1) * EVar vMuSUSY + (- #137 +
   #180 * EVar vlmMst1) * EVar vMst1 * EVar vTbeta) * EPow P2 (EVar vSbeta)) + #10 * EVar vs2t * EPow P2 (EVar vMt) *
   (- #5 * (#1 + #6 * EVar vlmMst1) * EVar vTbeta * EPow P2 (EVar vMuSUSY) * (- #1 + EPow P2 (EVar vSbeta)) + #6 *
   EVar vMst1 * ((#58 - #90 * EVar vlmMst1) * EVar vMuSUSY + (#2 + #15 * EVar vlmMst1 + #5 * EVar vlmMt) * EVar vMst1
   * EVar vTbeta) * EPow P2 (EVar vSbeta)) + EPow P2 (EVar vSbeta) * (- #2 * (#3 * (#259 + #90 * EVar vlmMst1 + #10 *
   EVar vlmMt) * EVar vMuSUSY + (#1547 - #2730 * EVar vlmMst1 + #30 * EVar vlmMt) * EVar vMst1 * EVar vTbeta) * EPow
   P3 (EVar vMt) + #25 * (#3 * (#5 - #6 * EVar vlmMst1) * EVar vMuSUSY + (#11 - #6 * EVar vlmMst1) * EVar vMst1 * EVar
   vTbeta) * EPow P3 (EVar vMst1) * EPow P3 (EVar vs2t))))) - EVar vAl4p * EVar vthreeLoopFlag * (#196 * EVar vMst1 *
   EVar vMt * EVar vMuSUSY * EPow P2 (EVar vSbeta) * (EVar vDmglst1 * EVar vMgl * (#2400 * EVar vDmsqst1 * EVar vMt *
   (#7050 * EVar vMst1 * EVar vMt * EVar vs2t + #2 * (#557 + #120 * EVar vlmMst1 - #120 * EVar vlmMt) * EPow P2 (EVar
   vMt) + #375 * EPow P2 (EVar vMst1) * EPow P2 (EVar vs2t)) - EPow P2 (EVar vMsq) * (#3600 * EVar vMst1 * EVar vs2t *
   (#12383 + #4128 * EVar vlmMst1 + #80 * EVar vlmMt - #1260 * EPow P2 (EVar vlmMst1)) * EPow P2 (EVar vMt) + #225 *
   EVar vMt * (#284641 + #8696 * EVar vlmMst1 + #1680 * EPow P2 (EVar vlmMst1)) * EPow P2 (EVar vMst1) * EPow P2 (EVar
   vs2t) + #8 * (#193364399 + #90000 * EVar vlmMt - #300 * EVar vlmMst1 * (#3781 + #582 * EVar vlmMt) - #2005200 *
   EPow P2 (EVar vlmMst1) - #43200 * EPow P2 (EVar vlmMt)) * EPow P3 (EVar vMt) + #375 * (#84209 + #1264 * EVar
   vlmMst1 - #240 * EPow P2 (EVar vlmMst1)) * EPow P3 (EVar vMst1) * EPow P3 (EVar vs2t))) + #15 * EPow P2 (EVar vMgl)
   * (#500 * EVar vDmsqst1 * (#6 * EVar vMst1 * EVar vs2t * (#173 - #144 * EVar vlmMst1 * (- #1 + EVar vshiftst2) +
   #216 * EVar vshiftst2) * EPow P2 (EVar vMt) + #504 * EVar vMt * EPow P2 (EVar vMst1) * EPow P2 (EVar vs2t) + #16 *
   (#65 - #6 * EVar vlmMst1 + #6 * EVar vlmMt) * EPow P3 (EVar vMt) + #3 * (#7 + #72 * EVar vshiftst1 - #36 * EVar
   vshiftst2 + #24 * EVar vlmMst1 * (#1 - #2 * EVar vshiftst1 + EVar vshiftst2)) * EPow P3 (EVar vMst1) * EPow P3
   (EVar vs2t)) - EPow P2 (EVar vMsq) * (#15 * EVar vMst1 * EVar vs2t * (- #102747 + #640 * EVar vlmMt + #6720 * EVar
   vshiftst3 - #32 * EVar vlmMst1 * (#331 + #90 * EVar vshiftst3) + #13888 * EPow P2 (EVar vlmMst1)) * EPow P2 (EVar
   vMt) - #75 * EVar vMt * (- #20531 + #200 * EVar vlmMst1 + #1200 * EPow P2 (EVar vlmMst1)) * EPow P2 (EVar vMst1) *
   EPow P2 (EVar vs2t) - #4 * (- #3454599 + #16840 * EVar vlmMt + #48 * EVar vlmMst1 * (#262 + #405 * EVar vlmMt) +
   #46560 * EPow P2 (EVar vlmMst1)) * EPow P3 (EVar vMt) + #50 * (#1429 - #720 * EVar vshiftst1 + #360 * EVar
   vshiftst2 - #234 * EVar vshiftst3 + #2 * EVar vlmMst1 * (- #227 + #720 * EVar vshiftst1 - #360 * EVar vshiftst2 +
   #126 * EVar vshiftst3) + #24 * EPow P2 (EVar vlmMst1)) * EPow P3 (EVar vMst1) * EPow P3 (EVar vs2t))) + EPow P2
   (EVar vDmglst1) * (#2400 * EVar vDmsqst1 * EVar vMt * (#7185 * EVar vMst1 * EVar vMt * EVar vs2t + #2 * (#557 +
   #120 * EVar vlmMst1 - #120 * EVar vlmMt) * EPow P2 (EVar vMt) + #375 * EPow P2 (EVar vMst1) * EPow P2 (EVar vs2t))
   + EPow P2 (EVar vMsq) * (- #7200 * EVar vMst1 * EVar vs2t * (#143196 + #2546 * EVar vlmMst1 + #92 * EVar vlmMt -
   #4785 * EPow P2 (EVar vlmMst1)) * EPow P2 (EVar vMt) + #225 * EVar vMt * (#3532083 + #36328 * EVar vlmMst1 - #47760
   * EPow P2 (EVar vlmMst1)) * EPow P2 (EVar vMst1) * EPow P2 (EVar vs2t) + #16 * (#29818901 + #258300 * EVar vlmMt +
   #30 * EVar vlmMst1 * (#35963 + #2190 * EVar vlmMt) - #239400 * EPow P2 (EVar vlmMst1) - #10800 * EPow P2 (EVar
   vlmMt)) * EPow P3 (EVar vMt) + #75 * (- #1732531 - #16896 * EVar vlmMst1 + #24840 * EPow P2 (EVar vlmMst1)) * EPow
   P3 (EVar vMst1) * EPow P3 (EVar vs2t)))) + EVar vTbeta * (- #245 * (#24 * EPow P2 (EVar vDmglst1) * (#10000 * EVar
   vDmsqst1 * EVar vMst1 * EVar vs2t + (#3 * EVar vMt * (#3891491 + #27200 * EVar vlmMst1 - #960 * EVar vlmMt - #19200
   * EPow P2 (EVar vlmMst1)) + #100 * EVar vMst1 * EVar vs2t * (- #32829 + #1852 * EVar vlmMst1 + #660 * EPow P2 (EVar
   vlmMst1))) * EPow P2 (EVar vMsq)) + #40 * EVar vDmglst1 * EVar vMgl * (#6000 * EVar vDmsqst1 * EVar vMst1 * EVar
   vs2t + (#5 * EVar vMt * (#403559 + #384 * (EVar vlmMst1 + EVar vlmMt) - #4608 * EPow P2 (EVar vlmMst1)) + #6 * EVar
   vMst1 * EVar vs2t * (- #1282471 + #7264 * EVar vlmMst1 + #18120 * EPow P2 (EVar vlmMst1))) * EPow P2 (EVar vMsq)) +
   #15 * EPow P2 (EVar vMgl) * (#67200 * EVar vDmsqst1 * EVar vMst1 * EVar vs2t + (#80 * EVar vMst1 * EVar vs2t * (-
   #36863 + #80 * EVar vlmMst1 + #552 * EPow P2 (EVar vlmMst1)) + EVar vMt * (- #1763661 + #47104 * EVar vlmMst1 -
   #5120 * EVar vlmMt + #24576 * EPow P2 (EVar vlmMst1))) * EPow P2 (EVar vMsq))) * EPow P2 (EVar vMuSUSY) * EPow P3
   (EVar vMt) + #3675 * EPow P2 (EVar vMst1) * (- (EPow P2 (EVar vMt) * EPow P2 (EVar vs2t) * ((#2400 * EVar vDmsqst1
   * (#7 + #24 * EVar vlmMst1) * EPow P2 (EVar vMgl) + (#40 * EVar vDmglst1 * EVar vMgl * (- #84209 - #1264 * EVar
   vlmMst1 + #240 * EPow P2 (EVar vlmMst1)) + #8 * EPow P2 (EVar vDmglst1) * (- #1732531 - #16896 * EVar vlmMst1 +
   #24840 * EPow P2 (EVar vlmMst1)) + #5 * (#70121 + #2208 * EVar vlmMst1 - #432 * EPow P2 (EVar vlmMst1)) * EPow P2
   (EVar vMgl)) * EPow P2 (EVar vMsq)) * EPow P2 (EVar vMuSUSY) - #1440 * EVar vshiftst1 * EPow P2 (EVar vMgl) * (#80
   * EVar vDmsqst1 * (#3 - #2 * EVar vlmMst1) * EPow P2 (EVar vMst1) + (#1 - #2 * EVar vlmMst1) * EPow P2 (EVar vMsq)
   * (#80 * EPow P2 (EVar vMst1) + #3 * EPow P2 (EVar vMuSUSY))) * EPow P2 (EVar vSbeta))) + #144 * EPow P2 (EVar
   vMgl) * (- (EVar vshiftst3 * EPow P2 (EVar vMsq) * (#2 * EPow P2 (EVar vMt) * EPow P2 (EVar vs2t) * ((- #29 + #18 *
   EVar vlmMst1) * EPow P2 (EVar vMuSUSY) * (- #1 + EPow P2 (EVar vSbeta)) + #5 * (- #83 + #58 * EVar vlmMst1) * EPow
   P2 (EVar vMst1) * EPow P2 (EVar vSbeta)) - #80 * (- #7 + #3 * EVar vlmMst1) * EPow P2 (EVar vSbeta) * EPow P4 (EVar
   vMt) + #5 * (#1 - #2 * EVar vlmMst1) * EPow P2 (EVar vSbeta) * EPow P4 (EVar vMst1) * EPow P4 (EVar vs2t))) - #10 *
   (#3 * (#1 - #2 * EVar vlmMst1) * EVar vshiftst1 * EPow P2 (EVar vMsq) * EPow P2 (EVar vMt) * EPow P2 (EVar vMuSUSY)
   * EPow P2 (EVar vs2t) - (#1 - #2 * EVar vlmMst1) * EVar vshiftst2 * EPow P2 (EVar vMsq) * EPow P2 (EVar vs2t) * (#2
   * EPow P2 (EVar vMt) * (EPow P2 (EVar vMuSUSY) * (- #1 + EPow P2 (EVar vSbeta)) - #10 * EPow P2 (EVar vMst1) * EPow
   P2 (EVar vSbeta)) + #5 * EPow P2 (EVar vs2t) * EPow P2 (EVar vSbeta) * EPow P4 (EVar vMst1)) + #5 * EVar vshiftst1
   * (EVar vDmsqst1 * (#3 - #2 * EVar vlmMst1) + (#1 - #2 * EVar vlmMst1) * EPow P2 (EVar vMsq)) * EPow P2 (EVar
   vSbeta) * EPow P4 (EVar vMst1) * EPow P4 (EVar vs2t) + #5 * EVar vDmsqst1 * (#3 - #2 * EVar vlmMst1) * EVar
   vshiftst2 * (#4 * EPow P2 (EVar vMt) * EPow P2 (EVar vs2t) * (- (EPow P2 (EVar vMuSUSY) * (- #1 + EPow P2 (EVar
   vSbeta))) + EPow P2 (EVar vMst1) * EPow P2 (EVar vSbeta)) + EPow P2 (EVar vSbeta) * (#24 * EPow P4 (EVar vMt) -
   EPow P4 (EVar vMst1) * EPow P4 (EVar vs2t)))))) + EVar vMt * EPow P2 (EVar vSbeta) * (- #392 * EVar vMst1 * EVar
   vs2t * EPow P2 (EVar vMt) * (#15 * EPow P2 (EVar vMgl) * (#2000 * EVar vDmsqst1 * (#2 * (#13 + #6 * EVar vlmMst1 -
   #6 * EVar vlmMt) * EPow P2 (EVar vMst1) - #21 * EPow P2 (EVar vMuSUSY)) - EPow P2 (EVar vMsq) * ((#558619 + #76160
   * EVar vlmMt - #224 * EVar vlmMst1 * (#1219 + #60 * EVar vlmMt) + #123840 * EPow P2 (EVar vlmMst1) + #86400 * EPow
   P2 (EVar vlmMt)) * EPow P2 (EVar vMst1) + #50 * (- #36863 + #80 * EVar vlmMst1 + #552 * EPow P2 (EVar vlmMst1)) *
   EPow P2 (EVar vMuSUSY))) + #10 * EPow P2 (EVar vDmglst1) * (#3000 * EVar vDmsqst1 * (#84 * EPow P2 (EVar vMst1) -
   #5 * EPow P2 (EVar vMuSUSY)) + EPow P2 (EVar vMsq) * ((#148185343 + #1333716 * EVar vlmMst1 + #170460 * EVar vlmMt
   + #87840 * EVar vlmMst1 * EVar vlmMt - #1376640 * EPow P2 (EVar vlmMst1) - #43200 * EPow P2 (EVar vlmMt)) * EPow P2
   (EVar vMst1) - #150 * (- #32829 + #1852 * EVar vlmMst1 + #660 * EPow P2 (EVar vlmMst1)) * EPow P2 (EVar vMuSUSY)))
   - #2 * EVar vDmglst1 * EVar vMgl * (#600 * EVar vDmsqst1 * (#6 * (#47 - #30 * EVar vlmMst1 + #30 * EVar vlmMt) *
   EPow P2 (EVar vMst1) + #125 * EPow P2 (EVar vMuSUSY)) + EPow P2 (EVar vMsq) * ((#28188929 - #143100 * EVar vlmMt -
   #3780 * EVar vlmMst1 * (#549 + #80 * EVar vlmMt) + #1389600 * EPow P2 (EVar vlmMst1) + #388800 * EPow P2 (EVar
   vlmMt)) * EPow P2 (EVar vMst1) + #75 * (- #1282471 + #7264 * EVar vlmMst1 + #18120 * EPow P2 (EVar vlmMst1)) * EPow
   P2 (EVar vMuSUSY)))) - #3675 * EVar vMt * EPow P2 (EVar vMst1) * (#8 * EPow P2 (EVar vDmglst1) * (#114960 * EVar
   vDmsqst1 * EPow P2 (EVar vMst1) + EPow P2 (EVar vMsq) * (#3 * (- #612347 - #7436 * EVar vlmMst1 - #608 * EVar vlmMt
   + #19320 * EPow P2 (EVar vlmMst1)) * EPow P2 (EVar vMst1) + (#1732531 + #16896 * EVar vlmMst1 - #24840 * EPow P2
   (EVar vlmMst1)) * EPow P2 (EVar vMuSUSY))) - #5 * EPow P2 (EVar vMgl) * (#120 * EVar vDmsqst1 * ((- #137 + #288 *
   EVar vlmMst1) * EPow P2 (EVar vMst1) + #4 * (#7 + #24 * EVar vlmMst1) * EPow P2 (EVar vMuSUSY)) + EPow P2 (EVar
   vMsq) * (#24 * (#2785 - #304 * EVar vlmMst1 + #384 * EVar vlmMt + #768 * EPow P2 (EVar vlmMst1)) * EPow P2 (EVar
   vMst1) + (#70121 + #2208 * EVar vlmMst1 - #432 * EPow P2 (EVar vlmMst1)) * EPow P2 (EVar vMuSUSY))) + #8 * EVar
   vDmglst1 * EVar vMgl * (#112800 * EVar vDmsqst1 * EPow P2 (EVar vMst1) + EPow P2 (EVar vMsq) * (#24 * (- #20017 +
   #1203 * EVar vlmMst1 - #200 * EVar vlmMt + #2250 * EPow P2 (EVar vlmMst1)) * EPow P2 (EVar vMst1) + #5 * (#84209 +
   #1264 * EVar vlmMst1 - #240 * EPow P2 (EVar vlmMst1)) * EPow P2 (EVar vMuSUSY)))) * EPow P2 (EVar vs2t) - (#40 *
   EPow P2 (EVar vDmglst1) * (#7056 * EVar vDmsqst1 * (#13147 - #90 * EVar vlmMst1 + #90 * EVar vlmMt) * EPow P2 (EVar
   vMst1) + #2 * (- #700000759 + #6327384 * EVar vlmMt + #12 * EVar vlmMst1 * (- #88589 + #185010 * EVar vlmMt) +
   #85997520 * EPow P2 (EVar vlmMst1) + #423360 * EPow P2 (EVar vlmMt)) * EPow P2 (EVar vMsq) * EPow P2 (EVar vMst1) +
   #441 * (- #3891491 - #27200 * EVar vlmMst1 + #960 * EVar vlmMt + #19200 * EPow P2 (EVar vlmMst1)) * EPow P2 (EVar
   vMsq) * EPow P2 (EVar vMuSUSY)) + #49 * EPow P2 (EVar vMgl) * (#9600 * EVar vDmsqst1 * (#3268 + #2805 * EVar
   vlmMst1 - #105 * EVar vlmMt) * EPow P2 (EVar vMst1) + EPow P2 (EVar vMsq) * ((#83430364 - #8607840 * EVar vlmMt +
   #480 * EVar vlmMst1 * (#36107 + #13380 * EVar vlmMt) - #9273600 * EPow P2 (EVar vlmMst1) - #6652800 * EPow P2 (EVar
   vlmMt)) * EPow P2 (EVar vMst1) + #75 * (#1763661 - #47104 * EVar vlmMst1 + #5120 * EVar vlmMt - #24576 * EPow P2
   (EVar vlmMst1)) * EPow P2 (EVar vMuSUSY))) + #392 * EVar vDmglst1 * EVar vMgl * (#21600 * EVar vDmsqst1 * (#423 -
   #20 * EVar vlmMst1 + #20 * EVar vlmMt) * EPow P2 (EVar vMst1) + EPow P2 (EVar vMsq) * (#12 * (#9598037 + #92280 *
   EVar vlmMt + #20 * EVar vlmMst1 * (- #11207 + #270 * EVar vlmMt) + #246000 * EPow P2 (EVar vlmMst1) - #14400 * EPow
   P2 (EVar vlmMt)) * EPow P2 (EVar vMst1) - #125 * (#403559 + #384 * (EVar vlmMst1 + EVar vlmMt) - #4608 * EPow P2
   (EVar vlmMst1)) * EPow P2 (EVar vMuSUSY)))) * EPow P3 (EVar vMt) - #29400 * (EPow P2 (EVar vDmglst1) * (#1000 *
   EVar vDmsqst1 + (#1286791 + #5936 * EVar vlmMst1 - #18120 * EPow P2 (EVar vlmMst1)) * EPow P2 (EVar vMsq)) + #10 *
   EVar vDmglst1 * EVar vMgl * (#100 * EVar vDmsqst1 + (#33261 - #532 * EVar vlmMst1 - #660 * EPow P2 (EVar vlmMst1))
   * EPow P2 (EVar vMsq)) + #20 * EPow P2 (EVar vMgl) * (#210 * EVar vDmsqst1 + (#1361 + #10 * EVar vlmMst1 + #54 *
   EPow P2 (EVar vlmMst1)) * EPow P2 (EVar vMsq))) * EPow P3 (EVar vs2t) * EPow P5 (EVar vMst1))))) + EVar vMt *
   (#992250 * EVar voneLoopFlag * EPow P2 (EVar vMst1) * EPow P3 (EVar vMgl) * (- (EVar vMt * EVar vTbeta * EPow P2
   (EVar vs2t) * (EPow P2 (EVar vMuSUSY) * (- #1 + EPow P2 (EVar vSbeta)) + #18 * EPow P2 (EVar vMst1) * EPow P2 (EVar
   vSbeta))) - EPow P2 (EVar vSbeta) * (- #8 * EVar vMuSUSY * EVar vs2t * EPow P2 (EVar vMt) + #8 * EVar vTbeta * EPow
   P3 (EVar vMt) + EVar vMuSUSY * EPow P2 (EVar vMst1) * EPow P3 (EVar vs2t))) * EPow P4 (EVar vMsq) + #4 * EVar vAl4p
   * EVar vxDmglst1 * EPow P2 (EVar vMsq) * EPow P3 (EVar vDmglst1) * (- #17640 * EVar vMst1 * EVar vtwoLoopFlag *
   EPow P2 (EVar vMsq) * (- #5 * EVar vMst1 * EVar vMt * EPow P2 (EVar vs2t) * (#20 * (- #13 + #12 * EVar vlmMst1) *
   EVar vTbeta * EPow P2 (EVar vMuSUSY) * (- #1 + EPow P2 (EVar vSbeta)) + #3 * EVar vMst1 * ((#129 - #30 * EVar
   vlmMst1) * EVar vMuSUSY + #4 * (- #83 + #60 * EVar vlmMst1) * EVar vMst1 * EVar vTbeta) * EPow P2 (EVar vSbeta)) +
   #2 * EVar vs2t * EPow P2 (EVar vMt) * (- #15 * (#9 + #10 * EVar vlmMst1) * EVar vTbeta * EPow P2 (EVar vMuSUSY) *
   (- #1 + EPow P2 (EVar vSbeta)) + #2 * EVar vMst1 * (#30 * (#47 - #60 * EVar vlmMst1) * EVar vMuSUSY + (#106 + #285
   * EVar vlmMst1 + #15 * EVar vlmMt) * EVar vMst1 * EVar vTbeta) * EPow P2 (EVar vSbeta)) + EPow P2 (EVar vSbeta) *
   (- #2 * ((#1577 + #270 * EVar vlmMst1 + #30 * EVar vlmMt) * EVar vMuSUSY + #12 * (#199 - #310 * EVar vlmMst1 + #10
   * EVar vlmMt) * EVar vMst1 * EVar vTbeta) * EPow P3 (EVar vMt) + #5 * ((#130 - #120 * EVar vlmMst1) * EVar vMuSUSY
   + (#77 - #30 * EVar vlmMst1) * EVar vMst1 * EVar vTbeta) * EPow P3 (EVar vMst1) * EPow P3 (EVar vs2t))) + EVar
   vAl4p * EVar vthreeLoopFlag * (#11760 * EVar vDmsqst1 * EVar vMst1 * (- #2 * EVar vs2t * EPow P2 (EVar vMt) * (#625
   * EVar vTbeta * EPow P2 (EVar vMuSUSY) * (- #1 + EPow P2 (EVar vSbeta)) + (#36600 * EVar vMst1 * EVar vMuSUSY - #2
   * (#8543 + #390 * EVar vlmMst1 - #390 * EVar vlmMt) * EVar vTbeta * EPow P2 (EVar vMst1)) * EPow P2 (EVar vSbeta))
   + EPow P2 (EVar vSbeta) * (#150 * EVar vMt * (- #25 * EVar vMuSUSY + #488 * EVar vMst1 * EVar vTbeta) * EPow P2
   (EVar vMst1) * EPow P2 (EVar vs2t) - #4 * (#5 * (#557 + #120 * EVar vlmMst1 - #120 * EVar vlmMt) * EVar vMuSUSY -
   #6 * (#3401 + #105 * EVar vlmMst1 - #105 * EVar vlmMt) * EVar vMst1 * EVar vTbeta) * EPow P3 (EVar vMt) + #625 *
   EVar vTbeta * EPow P3 (EVar vs2t) * EPow P4 (EVar vMst1))) + EPow P2 (EVar vMsq) * (- #4 * EVar vMst1 * EVar
   vMuSUSY * EPow P2 (EVar vMt) * (- #245 * EVar vMuSUSY * EVar vs2t * EVar vTbeta * (- #37824007 - #770520 * EVar
   vlmMst1 + #131400 * EPow P2 (EVar vlmMst1)) * (- #1 + EPow P2 (EVar vSbeta)) + #8 * EVar vMt * (#9144246058 +
   #12254445 * EVar vlmMt + #90 * EVar vlmMst1 * (#1109907 + #18305 * EVar vlmMt) - #48239100 * EPow P2 (EVar vlmMst1)
   - #264600 * EPow P2 (EVar vlmMt)) * EPow P2 (EVar vSbeta)) + #6 * EVar vMt * EPow P2 (EVar vMst1) * (- #1225 * EVar
   vTbeta * (- #3044017 - #27472 * EVar vlmMst1 + #48480 * EPow P2 (EVar vlmMst1)) * EPow P2 (EVar vMuSUSY) * EPow P2
   (EVar vs2t) * (- #1 + EPow P2 (EVar vSbeta)) + #8 * EVar vMt * (#2450 * EVar vMuSUSY * EVar vs2t * (#580211 + #498
   * EVar vlmMst1 + #528 * EVar vlmMt - #21060 * EPow P2 (EVar vlmMst1)) + EVar vMt * EVar vTbeta * (- #874574719 +
   #9416610 * EVar vlmMt + #10 * EVar vlmMst1 * (#1016017 + #174300 * EVar vlmMt) + #51500400 * EPow P2 (EVar vlmMst1)
   + #705600 * EPow P2 (EVar vlmMt))) * EPow P2 (EVar vSbeta)) + EVar vs2t * (#3675 * EVar vMst1 * EVar vs2t * (EVar
   vMuSUSY * EVar vs2t * (#3044017 + #27472 * EVar vlmMst1 - #48480 * EPow P2 (EVar vlmMst1)) + #4 * EVar vMt * EVar
   vTbeta * (#486671 + #31944 * EVar vlmMst1 - #192 * EVar vlmMt - #15120 * EPow P2 (EVar vlmMst1))) + EVar vMt *
   (#735 * EVar vMuSUSY * EVar vs2t * (- #223974673 - #2515800 * EVar vlmMst1 + #1638000 * EPow P2 (EVar vlmMst1)) +
   #4 * EVar vMt * EVar vTbeta * (#137797425107 + #35209020 * EVar vlmMt + #300 * EVar vlmMst1 * (#3595111 + #92568 *
   EVar vlmMt) - #690681600 * EPow P2 (EVar vlmMst1) - #2116800 * EPow P2 (EVar vlmMt)))) * EPow P2 (EVar vSbeta) *
   EPow P3 (EVar vMst1) + #490 * EVar vTbeta * ((- #59957863 - #480000 * EVar vlmMst1 + #26880 * EVar vlmMt + #230400
   * EPow P2 (EVar vlmMst1)) * EPow P2 (EVar vMuSUSY) * (- #1 + EPow P2 (EVar vSbeta)) * EPow P3 (EVar vMt) + #2 *
   (#31025111 + #290880 * EVar vlmMst1 - #251100 * EPow P2 (EVar vlmMst1)) * EPow P2 (EVar vSbeta) * EPow P3 (EVar
   vs2t) * EPow P5 (EVar vMst1)))))))) / (#190512000 * EVar vTbeta * EPow P2 (EVar vMst1) * EPow P2 (EVar vSbeta) *
   EPow P3 (EVar vMgl) * EPow P4 (EVar vMsq) * EPow P6 (EVar vMst2)).

(** H3.cpp:777-1049 *)
Definition H3_getS12 : expr :=
  - (EVar vMuSUSY * (EVar vMt * (#1984500 * EVar vDmst12 * EVar voneLoopFlag * EVar vs2t * EPow P2 (EVar vMst1) * EPow
   P3 (EVar vMgl) * EPow P4 (EVar vMsq) * (- #2 * EVar vDmst12 * EVar vMt * (EVar vMuSUSY * EVar vs2t + #6 * EVar vMt
   * EVar vTbeta) * EPow P2 (EVar vMst2) + EPow P2 (EVar vDmst12) * (#2 * EVar vMt * EVar vMuSUSY * EVar vs2t + #8 *
   EVar vTbeta * EPow P2 (EVar vMt) - EVar vTbeta * EPow P2 (EVar vMst1) * EPow P2 (EVar vs2t)) + #24 * EVar vTbeta *
   EPow P2 (EVar vMt) * EPow P4 (EVar vMst2)) + #8 * EVar vAl4p * EVar vxDmglst1 * EPow P2 (EVar vMsq) * EPow P3 (EVar
   vDmglst1) * (#17640 * EVar vMst1 * EVar vtwoLoopFlag * EPow P2 (EVar vMsq) * (EVar vMt * EPow P2 (EVar vDmst12) *
   EPow P2 (EVar vMst2) * (#80 * EVar vMt * EVar vs2t * (#13 * EVar vMuSUSY - #18 * EVar vMst1 * EVar vTbeta) + #8 *
   (- #476 + #90 * EVar vlmMst1 - #15 * EVar vlmMt) * EVar vTbeta * EPow P2 (EVar vMt) + #5 * EVar vMst1 * (#20 * (-
   #13 + #12 * EVar vlmMst1) * EVar vMuSUSY + #3 * (- #77 + #30 * EVar vlmMst1) * EVar vMst1 * EVar vTbeta) * EPow P2
   (EVar vs2t)) + EPow P3 (EVar vDmst12) * (- #60 * EVar vs2t * ((#9 + #10 * EVar vlmMst1) * EVar vMuSUSY + #2 * (#47
   - #60 * EVar vlmMst1) * EVar vMst1 * EVar vTbeta) * EPow P2 (EVar vMt) - #5 * EVar vMst1 * EVar vMt * (#40 * (- #13
   + #12 * EVar vlmMst1) * EVar vMuSUSY + #9 * (- #43 + #10 * EVar vlmMst1) * EVar vMst1 * EVar vTbeta) * EPow P2
   (EVar vs2t) + #2 * (#1577 + #270 * EVar vlmMst1 + #30 * EVar vlmMt) * EVar vTbeta * EPow P3 (EVar vMt) + #50 * (-
   #13 + #12 * EVar vlmMst1) * EVar vTbeta * EPow P3 (EVar vMst1) * EPow P3 (EVar vs2t)) - #2 * EVar vDmst12 * (#10 *
   (#77 - #30 * EVar vlmMst1) * EVar vMuSUSY * EVar vs2t + (- #2231 + #990 * EVar vlmMst1 - #90 * EVar vlmMt) * EVar
   vMt * EVar vTbeta + #60 * (- #71 + #60 * EVar vlmMst1) * EVar vMst1 * EVar vs2t * EVar vTbeta) * EPow P2 (EVar vMt)
   * EPow P4 (EVar vMst2) + #8 * (#977 - #480 * EVar vlmMst1 + #30 * EVar vlmMt) * EVar vTbeta * EPow P3 (EVar vMt) *
   EPow P6 (EVar vMst2)) + EVar vAl4p * EVar vthreeLoopFlag * (#490 * EVar vMt * EVar vMuSUSY * (- (EPow P2 (EVar
   vDmst12) * EPow P2 (EVar vMst2) * (#60000 * EVar vDmsqst1 * EVar vMst1 * EVar vMt * EVar vs2t + EPow P2 (EVar vMsq)
   * (#2 * EVar vMst1 * EVar vMt * EVar vs2t * (#99874229 + #1352280 * EVar vlmMst1 - #633600 * EPow P2 (EVar
   vlmMst1)) + (#119915726 + #960000 * EVar vlmMst1 - #53760 * EVar vlmMt - #460800 * EPow P2 (EVar vlmMst1)) * EPow
   P2 (EVar vMt) + #15 * (- #3044017 - #27472 * EVar vlmMst1 + #48480 * EPow P2 (EVar vlmMst1)) * EPow P2 (EVar vMst1)
   * EPow P2 (EVar vs2t)))) + #2 * ((#30000 * EVar vDmsqst1 * EVar vMst1 * EVar vMt * EVar vs2t + EPow P2 (EVar vMsq)
   * (#2 * EVar vMst1 * EVar vMt * EVar vs2t * (#37824007 + #770520 * EVar vlmMst1 - #131400 * EPow P2 (EVar vlmMst1))
   + (#59957863 + #480000 * EVar vlmMst1 - #26880 * EVar vlmMt - #230400 * EPow P2 (EVar vlmMst1)) * EPow P2 (EVar
   vMt) + #15 * (- #3044017 - #27472 * EVar vlmMst1 + #48480 * EPow P2 (EVar vlmMst1)) * EPow P2 (EVar vMst1) * EPow
   P2 (EVar vs2t))) * EPow P3 (EVar vDmst12) + EVar vDmst12 * EVar vMt * (#30000 * EVar vDmsqst1 * EVar vMst1 * EVar
   vs2t + (#4 * EVar vMst1 * EVar vs2t * (#31025111 + #290880 * EVar vlmMst1 - #251100 * EPow P2 (EVar vlmMst1)) +
   EVar vMt * (#59957863 + #480000 * EVar vlmMst1 - #26880 * EVar vlmMt - #230400 * EPow P2 (EVar vlmMst1))) * EPow P2
   (EVar vMsq)) * EPow P4 (EVar vMst2)) + #24 * (#3877891 + #46400 * EVar vlmMst1 - #960 * EVar vlmMt - #19200 * EPow
   P2 (EVar vlmMst1)) * EPow P2 (EVar vMsq) * EPow P2 (EVar vMt) * EPow P6 (EVar vMst2)) - EVar vMst1 * EVar vTbeta *
   (#735 * EVar vMt * EPow P2 (EVar vDmst12) * EPow P2 (EVar vMst1) * (#30000 * EVar vDmsqst1 * (#2 * EVar vDmst12 -
   EPow P2 (EVar vMst2)) + EPow P2 (EVar vMsq) * (EVar vDmst12 * (#223974673 + #2515800 * EVar vlmMst1 - #1638000 *
   EPow P2 (EVar vlmMst1)) + #4 * (- #31025111 - #290880 * EVar vlmMst1 + #251100 * EPow P2 (EVar vlmMst1)) * EPow P2
   (EVar vMst2))) * EPow P2 (EVar vs2t) + #3675 * (- #3044017 - #27472 * EVar vlmMst1 + #48480 * EPow P2 (EVar
   vlmMst1)) * EPow P2 (EVar vMsq) * EPow P3 (EVar vDmst12) * EPow P3 (EVar vMst1) * EPow P3 (EVar vs2t) + #29400 *
   EVar vDmst12 * EVar vMst1 * EVar vs2t * EPow P2 (EVar vMt) * (#29280 * EVar vDmsqst1 * (EPow P2 (EVar vDmst12) -
   EVar vDmst12 * EPow P2 (EVar vMst2) + EPow P4 (EVar vMst2)) + EPow P2 (EVar vMsq) * (#4 * EPow P2 (EVar vDmst12) *
   (- #580211 - #498 * EVar vlmMst1 - #528 * EVar vlmMt + #21060 * EPow P2 (EVar vlmMst1)) + EVar vDmst12 * (#611423 -
   #9984 * EVar vlmMst1 + #768 * EVar vlmMt - #23040 * EPow P2 (EVar vlmMst1)) * EPow P2 (EVar vMst2) + #2 * (#548999
   + #10980 * EVar vlmMst1 + #288 * EVar vlmMt - #19080 * EPow P2 (EVar vlmMst1)) * EPow P4 (EVar vMst2))) + #4 * EPow
   P3 (EVar vMt) * (#11760 * EVar vDmsqst1 * (#5 * EVar vDmst12 * (#557 + #120 * EVar vlmMst1 - #120 * EVar vlmMt) *
   (EPow P2 (EVar vDmst12) - EVar vDmst12 * EPow P2 (EVar vMst2) + EPow P4 (EVar vMst2)) + #6 * (- #463 + #135 * EVar
   vlmMst1 - #135 * EVar vlmMt) * EPow P6 (EVar vMst2)) + EPow P2 (EVar vMsq) * (- #15 * EPow P2 (EVar vDmst12) *
   (#5753390765 + #580 * EVar vlmMst1 * (#79969 - #1932 * EVar vlmMt) + #7091364 * EVar vlmMt - #35700000 * EPow P2
   (EVar vlmMst1) - #282240 * EPow P2 (EVar vlmMt)) * EPow P2 (EVar vMst2) + #8 * (#9144246058 + #12254445 * EVar
   vlmMt + #90 * EVar vlmMst1 * (#1109907 + #18305 * EVar vlmMt) - #48239100 * EPow P2 (EVar vlmMst1) - #264600 * EPow
   P2 (EVar vlmMt)) * EPow P3 (EVar vDmst12) + #2 * EVar vDmst12 * (#49723877243 + #60 * EVar vlmMst1 * (#4936063 -
   #389970 * EVar vlmMt) + #57352680 * EVar vlmMt - #342543600 * EPow P2 (EVar vlmMst1) - #3175200 * EPow P2 (EVar
   vlmMt)) * EPow P4 (EVar vMst2) + #392 * (#122282257 + #60 * EVar vlmMst1 * (#8318 - #3885 * EVar vlmMt) + #479550 *
   EVar vlmMt - #1351800 * EPow P2 (EVar vlmMst1) - #21600 * EPow P2 (EVar vlmMt)) * EPow P6 (EVar vMst2))))))) +
   #1470 * EVar vAl4p * EVar vMgl * EPow P2 (EVar vMsq) * (#48 * EVar vMst1 * EVar vMt * EVar vtwoLoopFlag * EPow P2
   (EVar vMsq) * (- #25 * EVar vs2t * EPow P3 (EVar vDmst12) * (#8 * EVar vMuSUSY * (EVar vDmglst1 * (- #5 + #6 * EVar
   vlmMst1) * EVar vMgl + (#1 + #6 * EVar vlmMst1) * EPow P2 (EVar vDmglst1) + (#5 + #6 * EVar vlmMst1) * EPow P2
   (EVar vMgl)) * EPow P2 (EVar vMt) + EVar vTbeta * (#8 * EVar vDmglst1 * (#1 - #3 * EVar vlmMst1) * EVar vMgl + #6 *
   (#5 - #6 * EVar vlmMst1) * EPow P2 (EVar vDmglst1) + #3 * EPow P2 (EVar vMgl)) * EPow P2 (EVar vs2t) * EPow P3
   (EVar vMst1)) + EVar vMt * (#50 * EVar vDmst12 * EVar vMuSUSY * EVar vs2t * (EVar vMst1 * EVar vs2t * EPow P2 (EVar
   vDmst12) * (#16 * EVar vDmglst1 * (#1 - #3 * EVar vlmMst1) * EVar vMgl + (#60 - #72 * EVar vlmMst1) * EPow P2 (EVar
   vDmglst1) + (#1 + #6 * EVar vlmMst1) * EPow P2 (EVar vMgl)) + #4 * EVar vDmst12 * EVar vMt * (#6 * EPow P2 (EVar
   vDmglst1) + EPow P2 (EVar vMgl)) * EPow P2 (EVar vMst2) - EVar vDmst12 * EVar vMst1 * EVar vs2t * (#8 * EVar
   vDmglst1 * (#1 - #3 * EVar vlmMst1) * EVar vMgl + #6 * (#5 - #6 * EVar vlmMst1) * EPow P2 (EVar vDmglst1) + #3 *
   EPow P2 (EVar vMgl)) * EPow P2 (EVar vMst2) - #4 * EVar vMt * (EVar vDmglst1 * (#5 - #6 * EVar vlmMst1) * EVar vMgl
   + (#11 - #6 * EVar vlmMst1) * EPow P2 (EVar vDmglst1) - #3 * (#1 + #2 * EVar vlmMst1) * EPow P2 (EVar vMgl)) * EPow
   P4 (EVar vMst2)) + #2 * EVar vTbeta * (#3 * EPow P2 (EVar vDmglst1) * (- (EPow P2 (EVar vDmst12) * EPow P2 (EVar
   vMst2) * (#70 * EVar vMst1 * EVar vMt * EVar vs2t + #8 * (#92 - #30 * EVar vlmMst1 + #5 * EVar vlmMt) * EPow P2
   (EVar vMt) + #25 * (#11 - #6 * EVar vlmMst1) * EPow P2 (EVar vMst1) * EPow P2 (EVar vs2t))) + (#40 * (- #29 + #45 *
   EVar vlmMst1) * EVar vMst1 * EVar vMt * EVar vs2t + #2 * (#259 + #90 * EVar vlmMst1 + #10 * EVar vlmMt) * EPow P2
   (EVar vMt) + #25 * (#17 - #6 * EVar vlmMst1) * EPow P2 (EVar vMst1) * EPow P2 (EVar vs2t)) * EPow P3 (EVar vDmst12)
   + #2 * EVar vDmst12 * EVar vMt * ((#477 - #330 * EVar vlmMst1 + #30 * EVar vlmMt) * EVar vMt + #50 * (#13 - #18 *
   EVar vlmMst1) * EVar vMst1 * EVar vs2t) * EPow P4 (EVar vMst2) + #400 * (#4 - #3 * EVar vlmMst1) * EPow P2 (EVar
   vMt) * EPow P6 (EVar vMst2)) - #25 * EPow P2 (EVar vMgl) * (- (EPow P2 (EVar vDmst12) * EPow P2 (EVar vMst2) * (#24
   * (#1 - #3 * EVar vlmMst1) * EVar vMst1 * EVar vMt * EVar vs2t + #2 * (#5 + #6 * EVar vlmMst1 + #6 * EVar vlmMt) *
   EPow P2 (EVar vMt) + #9 * (#1 + #2 * EVar vlmMst1) * EPow P2 (EVar vMst1) * EPow P2 (EVar vs2t))) + (- #48 * (- #1
   + EVar vlmMst1) * EVar vMst1 * EVar vMt * EVar vs2t - #4 * (#5 + #6 * EVar vlmMst1) * EPow P2 (EVar vMt) + #6 * (#1
   + #3 * EVar vlmMst1) * EPow P2 (EVar vMst1) * EPow P2 (EVar vs2t)) * EPow P3 (EVar vDmst12) + #4 * EVar vDmst12 *
   EVar vMt * (#2 * (#5 + #6 * EVar vlmMst1 + #3 * EVar vlmMt) * EVar vMt - #9 * (#1 + #2 * EVar vlmMst1) * EVar vMst1
   * EVar vs2t) * EPow P4 (EVar vMst2) + #72 * (#1 + EVar vlmMst1 + EVar vlmMt) * EPow P2 (EVar vMt) * EPow P6 (EVar
   vMst2)) + EVar vDmglst1 * EVar vMgl * (- #3 * EPow P2 (EVar vDmst12) * (EPow P2 (EVar vMst2) * (#100 * EVar vMst1 *
   EVar vMt * EVar vs2t - #2 * (- #41 + #90 * EVar vlmMst1 + #10 * EVar vlmMt) * EPow P2 (EVar vMt) + #25 * (#5 - #6 *
   EVar vlmMst1) * EPow P2 (EVar vMst1) * EPow P2 (EVar vs2t)) + EVar vDmst12 * (- #1200 * EVar vlmMst1 * EVar vMst1 *
   EVar vMt * EVar vs2t + #8 * (#17 - #30 * EVar vlmMst1 + #5 * EVar vlmMt) * EPow P2 (EVar vMt) + #25 * (- #5 + #6 *
   EVar vlmMst1) * EPow P2 (EVar vMst1) * EPow P2 (EVar vs2t))) + #300 * EVar vDmst12 * EVar vMt * ((#3 - #6 * EVar
   vlmMst1) * EVar vMt + #2 * (#1 - #6 * EVar vlmMst1) * EVar vMst1 * EVar vs2t) * EPow P4 (EVar vMst2) - #200 * (- #7
   + #15 * EVar vlmMst1 + #3 * EVar vlmMt) * EPow P2 (EVar vMt) * EPow P6 (EVar vMst2))))) + EVar vAl4p * EVar
   vthreeLoopFlag * (EVar vMuSUSY * EPow P2 (EVar vMt) * (#8 * EPow P2 (EVar vDmglst1) * (- #3 * EPow P2 (EVar
   vDmst12) * EPow P2 (EVar vMst2) * (#20000 * EVar vDmsqst1 * EVar vMst1 * EVar vMt * EVar vs2t + EPow P2 (EVar vMsq)
   * (#10 * EVar vMst1 * EVar vMt * EVar vs2t * (#958501 + #24456 * EVar vlmMst1 - #11520 * EPow P2 (EVar vlmMst1)) +
   #6 * (#3891491 + #27200 * EVar vlmMst1 - #960 * EVar vlmMt - #19200 * EPow P2 (EVar vlmMst1)) * EPow P2 (EVar vMt)
   + #5 * (- #1732531 - #16896 * EVar vlmMst1 + #24840 * EPow P2 (EVar vlmMst1)) * EPow P2 (EVar vMst1) * EPow P2
   (EVar vs2t))) + #6 * ((#10000 * EVar vDmsqst1 * EVar vMst1 * EVar vMt * EVar vs2t + EPow P2 (EVar vMsq) * (#100 *
   EVar vMst1 * EVar vMt * EVar vs2t * (- #32829 + #1852 * EVar vlmMst1 + #660 * EPow P2 (EVar vlmMst1)) + #3 *
   (#3891491 + #27200 * EVar vlmMst1 - #960 * EVar vlmMt - #19200 * EPow P2 (EVar vlmMst1)) * EPow P2 (EVar vMt) + #5
   * (- #1732531 - #16896 * EVar vlmMst1 + #24840 * EPow P2 (EVar vlmMst1)) * EPow P2 (EVar vMst1) * EPow P2 (EVar
   vs2t))) * EPow P3 (EVar vDmst12) + EVar vDmst12 * EVar vMt * (#10000 * EVar vDmsqst1 * EVar vMst1 * EVar vs2t + (#3
   * EVar vMt * (#3891491 + #27200 * EVar vlmMst1 - #960 * EVar vlmMt - #19200 * EPow P2 (EVar vlmMst1)) + #10 * EVar
   vMst1 * EVar vs2t * (#1286791 + #5936 * EVar vlmMst1 - #18120 * EPow P2 (EVar vlmMst1))) * EPow P2 (EVar vMsq)) *
   EPow P4 (EVar vMst2)) + #100 * (#345581 + #4896 * EVar vlmMst1 + #96 * EVar vlmMt - #3456 * EPow P2 (EVar vlmMst1))
   * EPow P2 (EVar vMsq) * EPow P2 (EVar vMt) * EPow P6 (EVar vMst2)) + #40 * EVar vDmglst1 * EVar vMgl * (- (EPow P2
   (EVar vDmst12) * EPow P2 (EVar vMst2) * (#12000 * EVar vDmsqst1 * EVar vMst1 * EVar vMt * EVar vs2t + EPow P2 (EVar
   vMsq) * (#6 * EVar vMst1 * EVar vMt * EVar vs2t * (- #949861 + #1944 * EVar vlmMst1 + #11520 * EPow P2 (EVar
   vlmMst1)) + #10 * (#403559 + #384 * (EVar vlmMst1 + EVar vlmMt) - #4608 * EPow P2 (EVar vlmMst1)) * EPow P2 (EVar
   vMt) + #15 * (- #84209 - #1264 * EVar vlmMst1 + #240 * EPow P2 (EVar vlmMst1)) * EPow P2 (EVar vMst1) * EPow P2
   (EVar vs2t)))) + #2 * (#6000 * EVar vDmsqst1 * EVar vMst1 * EVar vMt * EVar vs2t + EPow P2 (EVar vMsq) * (#6 * EVar
   vMst1 * EVar vMt * EVar vs2t * (- #1282471 + #7264 * EVar vlmMst1 + #18120 * EPow P2 (EVar vlmMst1)) + #5 *
   (#403559 + #384 * (EVar vlmMst1 + EVar vlmMt) - #4608 * EPow P2 (EVar vlmMst1)) * EPow P2 (EVar vMt) + #15 * (-
   #84209 - #1264 * EVar vlmMst1 + #240 * EPow P2 (EVar vlmMst1)) * EPow P2 (EVar vMst1) * EPow P2 (EVar vs2t))) *
   EPow P3 (EVar vDmst12) + #10 * EVar vDmst12 * EVar vMt * (#1200 * EVar vDmsqst1 * EVar vMst1 * EVar vs2t + (EVar
   vMt * (#403559 + #384 * (EVar vlmMst1 + EVar vlmMt) - #4608 * EPow P2 (EVar vlmMst1)) - #12 * EVar vMst1 * EVar
   vs2t * (- #33261 + #532 * EVar vlmMst1 + #660 * EPow P2 (EVar vlmMst1))) * EPow P2 (EVar vMsq)) * EPow P4 (EVar
   vMst2) + #240 * (#9631 + #16 * EVar vlmMst1 + #48 * EVar vlmMt - #192 * EPow P2 (EVar vlmMst1)) * EPow P2 (EVar
   vMsq) * EPow P2 (EVar vMt) * EPow P6 (EVar vMst2)) + #15 * EPow P2 (EVar vMgl) * (- (EPow P2 (EVar vDmst12) * EPow
   P2 (EVar vMst2) * (#2400 * EVar vDmsqst1 * EVar vMst1 * EVar vs2t * (#56 * EVar vMt + EVar vMst1 * EVar vs2t * (#7
   - #12 * EVar vlmMst1 * (- #2 + EVar vshiftst1 + EVar vshiftst2) + #18 * (EVar vshiftst1 + EVar vshiftst2))) - EPow
   P2 (EVar vMsq) * (- #240 * EVar vMst1 * EVar vMt * EVar vs2t * (- #10473 + #40 * EVar vlmMst1 + #256 * EPow P2
   (EVar vlmMst1)) + (#852541 + #9216 * EVar vlmMst1 - #10240 * EVar vlmMt + #6144 * EPow P2 (EVar vlmMst1)) * EPow P2
   (EVar vMt) + #80 * (#1429 - #454 * EVar vlmMst1 - #180 * (EVar vshiftst1 + EVar vshiftst2) + #360 * EVar vlmMst1 *
   (EVar vshiftst1 + EVar vshiftst2) - #126 * EVar vshiftst3 + #108 * EVar vlmMst1 * EVar vshiftst3 + #24 * EPow P2
   (EVar vlmMst1)) * EPow P2 (EVar vMst1) * EPow P2 (EVar vs2t)))) + #2 * (- #2400 * EVar vDmsqst1 * EVar vMst1 * EVar
   vs2t * (- #28 * EVar vMt + EVar vMst1 * EVar vs2t * (- #7 + #24 * EVar vlmMst1 * (- #1 + EVar vshiftst2) - #36 *
   EVar vshiftst2)) + EPow P2 (EVar vMsq) * (#80 * EVar vMst1 * EVar vMt * EVar vs2t * (- #36863 + #80 * EVar vlmMst1
   + #552 * EPow P2 (EVar vlmMst1)) + (- #1763661 + #47104 * EVar vlmMst1 - #5120 * EVar vlmMt + #24576 * EPow P2
   (EVar vlmMst1)) * EPow P2 (EVar vMt) + (#350605 + #4320 * EVar vshiftst1 + #2880 * EVar vshiftst2 + #8352 * EVar
   vshiftst3 - #96 * EVar vlmMst1 * (- #115 + #90 * EVar vshiftst1 + #60 * EVar vshiftst2 + #54 * EVar vshiftst3) -
   #2160 * EPow P2 (EVar vlmMst1)) * EPow P2 (EVar vMst1) * EPow P2 (EVar vs2t))) * EPow P3 (EVar vDmst12) + #160 *
   EVar vDmst12 * (#60 * EVar vDmsqst1 * EVar vMst1 * EVar vs2t * (#14 * EVar vMt + #3 * (#3 - #2 * EVar vlmMst1) *
   EVar vMst1 * EVar vs2t * (EVar vshiftst1 - EVar vshiftst2)) + EPow P2 (EVar vMsq) * (#4 * EVar vMst1 * EVar vMt *
   EVar vs2t * (#1361 + #10 * EVar vlmMst1 + #54 * EPow P2 (EVar vlmMst1)) + (#11389 - #704 * EVar vlmMst1 + #192 *
   EVar vlmMt - #384 * EPow P2 (EVar vlmMst1)) * EPow P2 (EVar vMt) + #18 * (#1 - #2 * EVar vlmMst1) * (#10 * EVar
   vshiftst1 - #10 * EVar vshiftst2 + EVar vshiftst3) * EPow P2 (EVar vMst1) * EPow P2 (EVar vs2t))) * EPow P4 (EVar
   vMst2) + #1920 * (#349 - #56 * EVar vlmMst1 + #24 * EVar vlmMt - #32 * EPow P2 (EVar vlmMst1)) * EPow P2 (EVar
   vMsq) * EPow P2 (EVar vMt) * EPow P6 (EVar vMst2))) / #3 - #4 * EVar vMst1 * EVar vTbeta * (#15 * EVar vDmst12 *
   EVar vMst1 * EVar vs2t * EPow P2 (EVar vMt) * (EVar vDmst12 * EVar vMst1 * EVar vs2t * (#5 * EPow P2 (EVar vMgl) *
   (#1680 * EVar vDmsqst1 * (#2 * EVar vDmst12 - EPow P2 (EVar vMst2)) + EPow P2 (EVar vMsq) * (EVar vDmst12 * (-
   #20531 + #200 * EVar vlmMst1 + #1200 * EPow P2 (EVar vlmMst1)) - #8 * (#1361 + #10 * EVar vlmMst1 + #54 * EPow P2
   (EVar vlmMst1)) * EPow P2 (EVar vMst2))) + EVar vDmglst1 * EVar vMgl * (#2000 * EVar vDmsqst1 * (#2 * EVar vDmst12
   - EPow P2 (EVar vMst2)) - EPow P2 (EVar vMsq) * (EVar vDmst12 * (#284641 + #8696 * EVar vlmMst1 + #1680 * EPow P2
   (EVar vlmMst1)) - #20 * (- #33261 + #532 * EVar vlmMst1 + #660 * EPow P2 (EVar vlmMst1)) * EPow P2 (EVar vMst2))) +
   EPow P2 (EVar vDmglst1) * (#2000 * EVar vDmsqst1 * (#2 * EVar vDmst12 - EPow P2 (EVar vMst2)) + EPow P2 (EVar vMsq)
   * (EVar vDmst12 * (#3532083 + #36328 * EVar vlmMst1 - #47760 * EPow P2 (EVar vlmMst1)) + #2 * (- #1286791 - #5936 *
   EVar vlmMst1 + #18120 * EPow P2 (EVar vlmMst1)) * EPow P2 (EVar vMst2)))) + EVar vMt * (EPow P2 (EVar vMgl) * (#100
   * EVar vDmsqst1 * ((#346 + #288 * EVar vlmMst1) * EPow P2 (EVar vDmst12) - #161 * EVar vDmst12 * EPow P2 (EVar
   vMst2) - #24 * (#1 + #12 * EVar vlmMst1) * EPow P4 (EVar vMst2)) + EPow P2 (EVar vMsq) * (EPow P2 (EVar vDmst12) *
   (#102747 + #10592 * EVar vlmMst1 - #640 * EVar vlmMt - #13888 * EPow P2 (EVar vlmMst1)) + #20 * EVar vDmst12 * (-
   #2071 - #296 * EVar vlmMst1 + #96 * EVar vlmMt + #600 * EPow P2 (EVar vlmMst1)) * EPow P2 (EVar vMst2) - #160 *
   (#631 - EVar vlmMst1 + #36 * EVar vlmMt + #21 * EPow P2 (EVar vlmMst1)) * EPow P4 (EVar vMst2))) + #4 * EPow P2
   (EVar vDmglst1) * (#19160 * EVar vDmsqst1 * (EPow P2 (EVar vDmst12) - EVar vDmst12 * EPow P2 (EVar vMst2) + EPow P4
   (EVar vMst2)) + EPow P2 (EVar vMsq) * (#8 * EPow P2 (EVar vDmst12) * (- #143196 - #2546 * EVar vlmMst1 - #92 * EVar
   vlmMt + #4785 * EPow P2 (EVar vlmMst1)) + EVar vDmst12 * (#586073 + #9268 * EVar vlmMst1 + #448 * EVar vlmMt -
   #19200 * EPow P2 (EVar vlmMst1)) * EPow P2 (EVar vMst2) + #2 * (- #13289 + #916 * EVar vlmMst1 - #80 * EVar vlmMt +
   #60 * EPow P2 (EVar vlmMst1)) * EPow P4 (EVar vMst2))) + #16 * EVar vDmglst1 * EVar vMgl * (#4700 * EVar vDmsqst1 *
   (EPow P2 (EVar vDmst12) - EVar vDmst12 * EPow P2 (EVar vMst2) + EPow P4 (EVar vMst2)) + EPow P2 (EVar vMsq) * (EPow
   P2 (EVar vDmst12) * (- #12383 - #4128 * EVar vlmMst1 - #80 * EVar vlmMt + #1260 * EPow P2 (EVar vlmMst1)) + EVar
   vDmst12 * (#17539 + #574 * EVar vlmMst1 + #160 * EVar vlmMt - #1920 * EPow P2 (EVar vlmMst1)) * EPow P2 (EVar
   vMst2) + #5 * (- #4539 + #596 * EVar vlmMst1 - #48 * EVar vlmMt + #516 * EPow P2 (EVar vlmMst1)) * EPow P4 (EVar
   vMst2))))) + #900 * EVar vMst1 * EVar vMt * EVar vs2t * EPow P2 (EVar vMgl) * (- #10 * EVar vshiftst2 * EPow P2
   (EVar vDmst12) * (EVar vDmsqst1 * (#3 - #2 * EVar vlmMst1) + (#1 - #2 * EVar vlmMst1) * EPow P2 (EVar vMsq)) * EPow
   P2 (EVar vMst1) * (#2 * EVar vDmst12 - #3 * EPow P2 (EVar vMst2)) * EPow P2 (EVar vs2t) + EVar vshiftst3 * EPow P2
   (EVar vDmst12) * EPow P2 (EVar vMsq) * EPow P2 (EVar vMst1) * (EVar vDmst12 * (#13 - #14 * EVar vlmMst1) + #3 * (-
   #1 + #2 * EVar vlmMst1) * EPow P2 (EVar vMst2)) * EPow P2 (EVar vs2t) - #240 * EVar vshiftst2 * EPow P2 (EVar vMt)
   * ((#1 - #2 * EVar vlmMst1) * EPow P2 (EVar vMsq) * (EVar vDmst12 + EPow P2 (EVar vMst2)) * EPow P4 (EVar vMst2) +
   EVar vDmsqst1 * (- #3 + #2 * EVar vlmMst1) * (EPow P3 (EVar vDmst12) - EVar vDmst12 * EPow P4 (EVar vMst2) - EPow
   P6 (EVar vMst2))) - #8 * EVar vshiftst3 * EPow P2 (EVar vMsq) * EPow P2 (EVar vMt) * (#6 * (- #2 + EVar vlmMst1) *
   EPow P2 (EVar vDmst12) * EPow P2 (EVar vMst2) + (#14 - #6 * EVar vlmMst1) * EPow P3 (EVar vDmst12) + #3 * EVar
   vDmst12 * (#3 - #2 * EVar vlmMst1) * EPow P4 (EVar vMst2) + #3 * (- #1 + #2 * EVar vlmMst1) * EPow P6 (EVar
   vMst2))) + EVar vMt * (#50 * (#30 * EVar vDmsqst1 * (#7 + #24 * EVar vlmMst1) * EPow P2 (EVar vMgl) - (EPow P2
   (EVar vDmglst1) * (#1732531 + #16896 * EVar vlmMst1 - #24840 * EPow P2 (EVar vlmMst1)) + #5 * EVar vDmglst1 * EVar
   vMgl * (#84209 + #1264 * EVar vlmMst1 - #240 * EPow P2 (EVar vlmMst1)) + #10 * (#1429 - #454 * EVar vlmMst1 + #24 *
   EPow P2 (EVar vlmMst1)) * EPow P2 (EVar vMgl)) * EPow P2 (EVar vMsq) / #10) * EPow P3 (EVar vDmst12) * EPow P3
   (EVar vMst1) * EPow P3 (EVar vs2t) + #9000 * EVar vMst1 * EVar vs2t * EVar vshiftst1 * EPow P2 (EVar vMgl) * (EVar
   vDmsqst1 * (#3 - #2 * EVar vlmMst1) + (#1 - #2 * EVar vlmMst1) * EPow P2 (EVar vMsq)) * (EPow P2 (EVar vDmst12) *
   EPow P2 (EVar vMst1) * (#4 * EVar vDmst12 - #3 * EPow P2 (EVar vMst2)) * EPow P2 (EVar vs2t) + #24 * EPow P2 (EVar
   vMt) * EPow P6 (EVar vMst2))) + #2 * EPow P4 (EVar vMt) * (#2 * EVar vDmglst1 * (#1200 * EVar vDmglst1 * EVar
   vDmsqst1 * (EVar vDmst12 * (#557 + #120 * EVar vlmMst1 - #120 * EVar vlmMt) * (EPow P2 (EVar vDmst12) - EVar
   vDmst12 * EPow P2 (EVar vMst2) + EPow P4 (EVar vMst2)) + #16 * (#4 + #15 * EVar vlmMst1 - #15 * EVar vlmMt) * EPow
   P6 (EVar vMst2)) + #1200 * EVar vDmsqst1 * EVar vMgl * (EVar vDmst12 * (#557 + #120 * EVar vlmMst1 - #120 * EVar
   vlmMt) * (EPow P2 (EVar vDmst12) - EVar vDmst12 * EPow P2 (EVar vMst2) + EPow P4 (EVar vMst2)) + #50 * (#26 + #3 *
   EVar vlmMst1 - #3 * EVar vlmMt) * EPow P6 (EVar vMst2)) + EVar vDmglst1 * EPow P2 (EVar vMsq) * (#3 * EPow P2 (EVar
   vDmst12) * (- #129193181 - #401100 * EVar vlmMt + #100 * EVar vlmMst1 * (- #7351 + #1164 * EVar vlmMt) + #1336800 *
   EPow P2 (EVar vlmMst1) + #28800 * EPow P2 (EVar vlmMt)) * EPow P2 (EVar vMst2) + #4 * (#29818901 + #258300 * EVar
   vlmMt + #30 * EVar vlmMst1 * (#35963 + #2190 * EVar vlmMt) - #239400 * EPow P2 (EVar vlmMst1) - #10800 * EPow P2
   (EVar vlmMt)) * EPow P3 (EVar vDmst12) + #2 * EVar vDmst12 * (#327941741 + #1080 * EVar vlmMst1 * (#44 - #445 *
   EVar vlmMt) + #686700 * EVar vlmMt - #3531600 * EPow P2 (EVar vlmMst1) - #64800 * EPow P2 (EVar vlmMt)) * EPow P4
   (EVar vMst2) + #80 * (#3777727 + #24255 * EVar vlmMt - #486 * EVar vlmMst1 * (#118 + #45 * EVar vlmMt) - #52380 *
   EPow P2 (EVar vlmMst1)) * EPow P6 (EVar vMst2)) - EVar vMgl * EPow P2 (EVar vMsq) * (#3 * EPow P2 (EVar vDmst12) *
   (- #39474953 + EVar vlmMst1 * (#52780 - #87600 * EVar vlmMt) - #3300 * EVar vlmMt + #319200 * EPow P2 (EVar
   vlmMst1) + #14400 * EPow P2 (EVar vlmMt)) * EPow P2 (EVar vMst2) - #2 * (- #193364399 - #90000 * EVar vlmMt + #300
   * EVar vlmMst1 * (#3781 + #582 * EVar vlmMt) + #2005200 * EPow P2 (EVar vlmMst1) + #43200 * EPow P2 (EVar vlmMt)) *
   EPow P3 (EVar vDmst12) + #40 * EVar vDmst12 * (- #3746977 - #4005 * EVar vlmMt + #18 * EVar vlmMst1 * (#2711 +
   #1215 * EVar vlmMt) + #52380 * EPow P2 (EVar vlmMst1)) * EPow P4 (EVar vMst2) - #6000 * (#9961 + #66 * EVar vlmMt -
   #10 * EVar vlmMst1 * (#67 + #24 * EVar vlmMt) + #42 * EPow P2 (EVar vlmMst1) + #72 * EPow P2 (EVar vlmMt)) * EPow
   P6 (EVar vMst2))) + #15 * EPow P2 (EVar vMgl) * (#4000 * EVar vDmsqst1 * (EVar vDmst12 * (#65 - #6 * EVar vlmMst1 +
   #6 * EVar vlmMt) * (EPow P2 (EVar vDmst12) - EVar vDmst12 * EPow P2 (EVar vMst2) + EPow P4 (EVar vMst2)) + #6 *
   (#20 - #3 * EVar vlmMst1 + #3 * EVar vlmMt) * EPow P6 (EVar vMst2)) - EPow P2 (EVar vMsq) * (EPow P2 (EVar vDmst12)
   * (- #2284899 + #49840 * EVar vlmMt - #32 * EVar vlmMst1 * (- #1793 + #555 * EVar vlmMt) + #87360 * EPow P2 (EVar
   vlmMst1) + #28800 * EPow P2 (EVar vlmMt)) * EPow P2 (EVar vMst2) - #2 * (- #3454599 + #16840 * EVar vlmMt + #48 *
   EVar vlmMst1 * (#262 + #405 * EVar vlmMt) + #46560 * EPow P2 (EVar vlmMst1)) * EPow P3 (EVar vDmst12) - #200 * EVar
   vDmst12 * (#11697 + #448 * EVar vlmMst1 + #330 * EVar vlmMt - #372 * EVar vlmMst1 * EVar vlmMt + #408 * EPow P2
   (EVar vlmMst1) + #288 * EPow P2 (EVar vlmMt)) * EPow P4 (EVar vMst2) - #1600 * (#434 - #83 * EVar vlmMst1 + #174 *
   EVar vlmMt - #66 * EVar vlmMst1 * EVar vlmMt + #183 * EPow P2 (EVar vlmMst1) + #108 * EPow P2 (EVar vlmMt)) * EPow
   P6 (EVar vMst2)))) / #15))) + #735 * EVar vthreeLoopFlag * EPow P2 (EVar vAl4p) * (- #2880 * EConst Cz2 * EPow P2
   (EVar vMst1) * EPow P3 (EVar vMgl) * (- #50 * EVar vMt * EVar vs2t * EVar vxDmsqst1 * EPow P2 (EVar vDmsqst1) *
   (EVar vs2t * EPow P2 (EVar vDmst12) * (#2 * EVar vMt * EVar vMuSUSY * (EVar vshiftst1 + EVar vshiftst2) + #3 * EVar
   vs2t * (- EVar vshiftst1 + EVar vshiftst2) * EVar vTbeta * EPow P2 (EVar vMst1)) * EPow P2 (EVar vMst2) + (- #8 *
   EVar vMt * EVar vMuSUSY * EVar vs2t * EVar vshiftst2 + #24 * EVar vshiftst2 * EVar vTbeta * EPow P2 (EVar vMt) + #2
   * (#2 * EVar vshiftst1 - EVar vshiftst2) * EVar vTbeta * EPow P2 (EVar vMst1) * EPow P2 (EVar vs2t)) * EPow P3
   (EVar vDmst12) - #4 * EVar vDmst12 * EVar vMt * (EVar vMuSUSY * EVar vs2t * (EVar vshiftst1 - EVar vshiftst2) + #6
   * EVar vMt * EVar vshiftst2 * EVar vTbeta) * EPow P4 (EVar vMst2) + #24 * (EVar vshiftst1 - EVar vshiftst2) * EVar
   vTbeta * EPow P2 (EVar vMt) * EPow P6 (EVar vMst2)) + EPow P2 (EVar vMsq) * (#2 * EVar vDmst12 * EVar vMuSUSY *
   EPow P2 (EVar vMt) * EPow P2 (EVar vs2t) * (#2 * EPow P2 (EVar vDmst12) * (#100 * EVar vDmsqst1 * EVar vshiftst2 +
   (#15 * EVar vshiftst1 + #10 * EVar vshiftst2 + #9 * EVar vshiftst3) * EPow P2 (EVar vMsq)) - #5 * EVar vDmst12 *
   (#10 * EVar vDmsqst1 * (EVar vshiftst1 + EVar vshiftst2) + (#10 * (EVar vshiftst1 + EVar vshiftst2) + #3 * EVar
   vshiftst3) * EPow P2 (EVar vMsq)) * EPow P2 (EVar vMst2) + #10 * (#10 * EVar vDmsqst1 * (EVar vshiftst1 - EVar
   vshiftst2) + (#10 * EVar vshiftst1 - #10 * EVar vshiftst2 + EVar vshiftst3) * EPow P2 (EVar vMsq)) * EPow P4 (EVar
   vMst2)) + #5 * EVar vshiftst3 * EVar vTbeta * EPow P2 (EVar vMsq) * (- (EVar vMt * EPow P2 (EVar vDmst12) * EPow P2
   (EVar vMst1) * (#7 * EVar vDmst12 - #3 * EPow P2 (EVar vMst2)) * EPow P3 (EVar vs2t)) + #24 * EVar vs2t * EPow P3
   (EVar vMt) * (- (EPow P2 (EVar vDmst12) * EPow P2 (EVar vMst2)) + EPow P3 (EVar vDmst12) + EVar vDmst12 * EPow P4
   (EVar vMst2) - EPow P6 (EVar vMst2))) - #50 * EVar vTbeta * (EVar vshiftst2 * (- (EVar vMt * EPow P2 (EVar vDmst12)
   * (EVar vDmsqst1 + EPow P2 (EVar vMsq)) * EPow P2 (EVar vMst1) * (#2 * EVar vDmst12 - #3 * EPow P2 (EVar vMst2)) *
   EPow P3 (EVar vs2t)) + #24 * EVar vs2t * EPow P3 (EVar vMt) * (EVar vDmsqst1 * EPow P3 (EVar vDmst12) - (EVar
   vDmsqst1 + EPow P2 (EVar vMsq)) * (EVar vDmst12 + EPow P2 (EVar vMst2)) * EPow P4 (EVar vMst2))) + EVar vshiftst1 *
   (EVar vDmsqst1 + EPow P2 (EVar vMsq)) * (EVar vMt * EPow P2 (EVar vDmst12) * EPow P2 (EVar vMst1) * (#4 * EVar
   vDmst12 - #3 * EPow P2 (EVar vMst2)) * EPow P3 (EVar vs2t) + #24 * EVar vs2t * EPow P3 (EVar vMt) * EPow P6 (EVar
   vMst2))))) + #32 * EVar vMst1 * EVar vxDmsqst1 * EPow P2 (EVar vDmsqst1) * (#4 * EVar vxDmglst1 * EPow P2 (EVar
   vMt) * EPow P3 (EVar vDmglst1) * (#2500 * EVar vDmst12 * EVar vMt * EVar vMuSUSY * EVar vs2t * (EPow P2 (EVar
   vDmst12) - EVar vDmst12 * EPow P2 (EVar vMst2) + EPow P4 (EVar vMst2)) - EVar vTbeta * (#1875 * EPow P2 (EVar
   vDmst12) * EPow P2 (EVar vMst1) * (#2 * EVar vDmst12 - EPow P2 (EVar vMst2)) * EPow P2 (EVar vs2t) + #73200 * EVar
   vDmst12 * EVar vMst1 * EVar vMt * EVar vs2t * (EPow P2 (EVar vDmst12) - EVar vDmst12 * EPow P2 (EVar vMst2) + EPow
   P4 (EVar vMst2)) + #4 * EPow P2 (EVar vMt) * (#5 * EVar vDmst12 * (#557 + #120 * EVar vlmMst1 - #120 * EVar vlmMt)
   * (EPow P2 (EVar vDmst12) - EVar vDmst12 * EPow P2 (EVar vMst2) + EPow P4 (EVar vMst2)) + (- #3778 + #435 * EVar
   vlmMst1 - #435 * EVar vlmMt) * EPow P6 (EVar vMst2)))) + EVar vMgl * (#250 * EVar vDmst12 * EVar vMuSUSY * EVar
   vs2t * EPow P2 (EVar vMt) * (#40 * EVar vDmglst1 * (EVar vDmglst1 + EVar vMgl) * EVar vMt * (EPow P2 (EVar vDmst12)
   - EVar vDmst12 * EPow P2 (EVar vMst2) + EPow P4 (EVar vMst2)) + #3 * EPow P2 (EVar vMgl) * (#2 * (#28 * EVar vMt +
   EVar vMst1 * EVar vs2t * (#7 + #6 * EVar vshiftst1 - #24 * EVar vlmMst1 * (- #1 + EVar vshiftst2) + #30 * EVar
   vshiftst2)) * EPow P2 (EVar vDmst12) - EVar vDmst12 * (#56 * EVar vMt + EVar vMst1 * EVar vs2t * (#7 + #30 * EVar
   vshiftst1 + #6 * EVar vshiftst2 - #12 * EVar vlmMst1 * (- #2 + EVar vshiftst1 + EVar vshiftst2))) * EPow P2 (EVar
   vMst2) + #8 * (#7 * EVar vMt - #3 * (- #2 + EVar vlmMst1) * EVar vMst1 * EVar vs2t * (EVar vshiftst1 - EVar
   vshiftst2)) * EPow P4 (EVar vMst2))) - #25 * EVar vTbeta * (#60 * EPow P2 (EVar vDmst12) * (#5 * EVar vDmglst1 *
   EVar vMgl + #5 * EPow P2 (EVar vDmglst1) + #21 * EPow P2 (EVar vMgl)) * EPow P2 (EVar vMst1) * (#2 * EVar vDmst12 -
   EPow P2 (EVar vMst2)) * EPow P2 (EVar vMt) * EPow P2 (EVar vs2t) + #3 * EVar vDmst12 * EVar vMst1 * EVar vs2t *
   EPow P3 (EVar vMt) * (#8 * EVar vDmglst1 * (#479 * EVar vDmglst1 + #470 * EVar vMgl) * (EPow P2 (EVar vDmst12) -
   EVar vDmst12 * EPow P2 (EVar vMst2) + EPow P4 (EVar vMst2)) + #5 * EPow P2 (EVar vMgl) * (#3 * (#47 + #96 * EVar
   vlmMst1) * EPow P2 (EVar vDmst12) + #44 * EVar vDmst12 * EPow P2 (EVar vMst2) - (#229 + #288 * EVar vlmMst1) * EPow
   P4 (EVar vMst2))) + #15 * EVar vMst1 * EVar vMt * EVar vs2t * EPow P2 (EVar vMgl) * (#36 * EPow P2 (EVar vDmst12) *
   EPow P2 (EVar vMst2) * (#4 * EVar vshiftst2 * EPow P2 (EVar vMt) + (- #2 + EVar vlmMst1) * (EVar vshiftst1 - EVar
   vshiftst2) * EPow P2 (EVar vMst1) * EPow P2 (EVar vs2t)) + (- #288 * (- #1 + EVar vlmMst1) * EVar vshiftst2 * EPow
   P2 (EVar vMt) + (#7 + #108 * EVar vshiftst1 - #72 * EVar vshiftst2 + #24 * EVar vlmMst1 * (#1 - #2 * EVar vshiftst1
   + EVar vshiftst2)) * EPow P2 (EVar vMst1) * EPow P2 (EVar vs2t)) * EPow P3 (EVar vDmst12) + #288 * EVar vDmst12 *
   (- #2 + EVar vlmMst1) * EVar vshiftst2 * EPow P2 (EVar vMt) * EPow P4 (EVar vMst2) - #288 * (- #2 + EVar vlmMst1) *
   (EVar vshiftst1 - EVar vshiftst2) * EPow P2 (EVar vMt) * EPow P6 (EVar vMst2)) + #16 * EPow P4 (EVar vMt) * (EPow
   P2 (EVar vDmglst1) * (EVar vDmst12 * (#557 + #120 * EVar vlmMst1 - #120 * EVar vlmMt) * (EPow P2 (EVar vDmst12) -
   EVar vDmst12 * EPow P2 (EVar vMst2) + EPow P4 (EVar vMst2)) + (- #136 + #165 * EVar vlmMst1 - #165 * EVar vlmMt) *
   EPow P6 (EVar vMst2)) + EVar vDmglst1 * EVar vMgl * (EVar vDmst12 * (#557 + #120 * EVar vlmMst1 - #120 * EVar
   vlmMt) * (EPow P2 (EVar vDmst12) - EVar vDmst12 * EPow P2 (EVar vMst2) + EPow P4 (EVar vMst2)) + #25 * (#44 + #3 *
   EVar vlmMst1 - #3 * EVar vlmMt) * EPow P6 (EVar vMst2)) + #25 * EPow P2 (EVar vMgl) * (EVar vDmst12 * (#65 - #6 *
   EVar vlmMst1 + #6 * EVar vlmMt) * (EPow P2 (EVar vDmst12) - EVar vDmst12 * EPow P2 (EVar vMst2) + EPow P4 (EVar
   vMst2)) + (#91 - #12 * EVar vlmMst1 + #12 * EVar vlmMt) * EPow P6 (EVar vMst2))) / #5))) - #75 * EVar vMt * EConst
   Cz3 * (- #5040 * EVar vDmst12 * EVar vs2t * EVar vxDmsqst1 * EPow P2 (EVar vDmsqst1) * EPow P2 (EVar vMst1) * EPow
   P3 (EVar vMgl) * (#2 * EVar vDmst12 * EVar vMt * EVar vMuSUSY * EVar vs2t * EPow P2 (EVar vMst2) + EPow P2 (EVar
   vDmst12) * (- #4 * EVar vMt * EVar vMuSUSY * EVar vs2t + #15 * EVar vTbeta * EPow P2 (EVar vMt) + EVar vTbeta *
   EPow P2 (EVar vMst1) * EPow P2 (EVar vs2t)) - #15 * EVar vTbeta * EPow P2 (EVar vMt) * EPow P4 (EVar vMst2)) + #4 *
   EVar vxDmglst1 * EPow P3 (EVar vDmglst1) * EPow P4 (EVar vMsq) * (- #2 * EVar vMt * EPow P2 (EVar vDmst12) * EPow
   P2 (EVar vMst2) * (#2 * EVar vMst1 * EVar vMt * EVar vs2t * (#737647 * EVar vMuSUSY + #137634 * EVar vMst1 * EVar
   vTbeta) + (#884106 * EVar vMuSUSY - #5205992 * EVar vMst1 * EVar vTbeta) * EPow P2 (EVar vMt) - (#349745 * EVar
   vMuSUSY + #1377324 * EVar vMst1 * EVar vTbeta) * EPow P2 (EVar vMst1) * EPow P2 (EVar vs2t)) + EPow P3 (EVar
   vDmst12) * (#8 * EVar vMst1 * EVar vs2t * (#278539 * EVar vMuSUSY + #280806 * EVar vMst1 * EVar vTbeta) * EPow P2
   (EVar vMt) - #11 * EVar vMt * (#127180 * EVar vMuSUSY + #451599 * EVar vMst1 * EVar vTbeta) * EPow P2 (EVar vMst1)
   * EPow P2 (EVar vs2t) + #4 * (#442053 * EVar vMuSUSY - #2202506 * EVar vMst1 * EVar vTbeta) * EPow P3 (EVar vMt) +
   #349745 * EVar vTbeta * EPow P3 (EVar vs2t) * EPow P4 (EVar vMst1)) + #12 * EVar vDmst12 * (EVar vMt * (#147351 *
   EVar vMuSUSY - #1001162 * EVar vMst1 * EVar vTbeta) + #24 * EVar vMst1 * EVar vs2t * (#12753 * EVar vMuSUSY - #3977
   * EVar vMst1 * EVar vTbeta)) * EPow P2 (EVar vMt) * EPow P4 (EVar vMst2) + #624 * (#2205 * EVar vMuSUSY - #9298 *
   EVar vMst1 * EVar vTbeta) * EPow P3 (EVar vMt) * EPow P6 (EVar vMst2)) + EVar vMgl * EPow P2 (EVar vMsq) * (EVar
   vMt * EVar vMuSUSY * (#2 * EPow P2 (EVar vDmst12) * EPow P2 (EVar vMst1) * (#5040 * EVar vDmsqst1 * EPow P2 (EVar
   vMgl) * (#2 * EVar vDmst12 - EPow P2 (EVar vMst2)) - #20 * EVar vDmglst1 * (#40023 * EVar vDmglst1 + #10097 * EVar
   vMgl) * EPow P2 (EVar vMsq) * (#2 * EVar vDmst12 - EPow P2 (EVar vMst2)) + EPow P2 (EVar vMgl) * EPow P2 (EVar
   vMsq) * (#37669 * EVar vDmst12 + #10296 * EPow P2 (EVar vMst2))) * EPow P2 (EVar vs2t) + EVar vMt * EPow P2 (EVar
   vMsq) * (- #16 * EVar vDmst12 * EVar vMst1 * EVar vs2t * (#2 * EPow P2 (EVar vDmst12) * (#142987 * EVar vDmglst1 *
   EVar vMgl + #37582 * EPow P2 (EVar vDmglst1) + #20297 * EPow P2 (EVar vMgl)) + #5 * EVar vDmst12 * (- #21081 * EVar
   vDmglst1 * EVar vMgl + #21081 * EPow P2 (EVar vDmglst1) - #3457 * EPow P2 (EVar vMgl)) * EPow P2 (EVar vMst2) - #2
   * (#37582 * EVar vDmglst1 * EVar vMgl + #142987 * EPow P2 (EVar vDmglst1) + #3012 * EPow P2 (EVar vMgl)) * EPow P4
   (EVar vMst2)) + #3 * EVar vMt * (- (EPow P2 (EVar vMgl) * (- #31963 * EPow P2 (EVar vDmst12) * EPow P2 (EVar vMst2)
   + #131926 * EPow P3 (EVar vDmst12) - #68000 * EVar vDmst12 * EPow P4 (EVar vMst2) - #24064 * EPow P6 (EVar vMst2)))
   + #432 * EPow P2 (EVar vDmglst1) * (- #3185 * EPow P2 (EVar vDmst12) * EPow P2 (EVar vMst2) + #3185 * EVar vDmst12
   * (EPow P2 (EVar vDmst12) + EPow P4 (EVar vMst2)) + #1566 * EPow P6 (EVar vMst2)) + #48 * EVar vDmglst1 * EVar vMgl
   * (- #8213 * EPow P2 (EVar vDmst12) * EPow P2 (EVar vMst2) + #8213 * EVar vDmst12 * (EPow P2 (EVar vDmst12) + EPow
   P4 (EVar vMst2)) + #4664 * EPow P6 (EVar vMst2))))) + #4 * EVar vMst1 * EVar vTbeta * (- ((#1260 * EVar vDmsqst1 *
   EPow P2 (EVar vMgl) - (#50485 * EVar vDmglst1 * EVar vMgl + #200115 * EPow P2 (EVar vDmglst1) + #2574 * EPow P2
   (EVar vMgl)) * EPow P2 (EVar vMsq)) * EPow P3 (EVar vDmst12) * EPow P3 (EVar vMst1) * EPow P3 (EVar vs2t)) - EVar
   vDmst12 * EVar vMst1 * EVar vs2t * EPow P2 (EVar vMt) * (#1260 * EVar vDmsqst1 * EPow P2 (EVar vMgl) * (#22 * EPow
   P2 (EVar vDmst12) - #7 * EVar vDmst12 * EPow P2 (EVar vMst2) - #8 * EPow P4 (EVar vMst2)) + EPow P2 (EVar vMsq) *
   (EPow P2 (EVar vMgl) * (#32783 * EPow P2 (EVar vDmst12) - #14508 * EVar vDmst12 * EPow P2 (EVar vMst2) - #15840 *
   EPow P4 (EVar vMst2)) - #24 * EVar vDmglst1 * (EVar vDmglst1 * (#68291 * EPow P2 (EVar vDmst12) - #32498 * EVar
   vDmst12 * EPow P2 (EVar vMst2) - #3295 * EPow P4 (EVar vMst2)) + EVar vMgl * (#4744 * EPow P2 (EVar vDmst12) -
   #3821 * EVar vDmst12 * EPow P2 (EVar vMst2) + #2898 * EPow P4 (EVar vMst2))))) + EPow P2 (EVar vMsq) * (- #3 * EVar
   vMt * EPow P2 (EVar vDmst12) * EPow P2 (EVar vMst1) * (EVar vDmst12 * (- #30241 * EVar vDmglst1 * EVar vMgl +
   #391379 * EPow P2 (EVar vDmglst1) - #11261 * EPow P2 (EVar vMgl)) - #2 * (#37582 * EVar vDmglst1 * EVar vMgl +
   #142987 * EPow P2 (EVar vDmglst1) + #3012 * EPow P2 (EVar vMgl)) * EPow P2 (EVar vMst2)) * EPow P2 (EVar vs2t) + #2
   * EPow P3 (EVar vMt) * (#4 * EVar vDmglst1 * EVar vMgl * (- #86833 * EPow P2 (EVar vDmst12) * EPow P2 (EVar vMst2)
   + #287078 * EPow P3 (EVar vDmst12) - #113412 * EVar vDmst12 * EPow P4 (EVar vMst2) - #47112 * EPow P6 (EVar vMst2))
   + EPow P2 (EVar vMgl) * (- #51181 * EPow P2 (EVar vDmst12) * EPow P2 (EVar vMst2) + #152018 * EPow P3 (EVar
   vDmst12) - #49656 * EVar vDmst12 * EPow P4 (EVar vMst2) - #10176 * EPow P6 (EVar vMst2)) - #4 * EPow P2 (EVar
   vDmglst1) * (- #286982 * EPow P2 (EVar vDmst12) * EPow P2 (EVar vMst2) + #86737 * EPow P3 (EVar vDmst12) + #487227
   * EVar vDmst12 * EPow P4 (EVar vMst2) + #226824 * EPow P6 (EVar vMst2)))))))))) / (#190512000 * EVar vTbeta * EPow
   P2 (EVar vMst1) * EPow P3 (EVar vMgl) * EPow P4 (EVar vMsq) * EPow P6 (EVar vMst2)).

(** H3.cpp:1054-1131 *)
Definition H3_coef0 : expr :=
  (#49 * EPow P3 (EVar vMgl) * (- #150 * EVar vDmsqst1 * EPow P2 (EVar vMsq) * (- #4 * EVar vMt * EPow P2 (EVar vDmst12)
   * EPow P2 (EVar vMst2) * (#19600 * EVar vMst1 * EVar vMt * EVar vs2t + (- #9122 + #14175 * EConst Cz3) * EPow P2
   (EVar vMt) + #450 * (#2 - #21 * EConst Cz3) * EPow P2 (EVar vMst1) * EPow P2 (EVar vs2t)) + EPow P3 (EVar vDmst12)
   * (- #20800 * EVar vMst1 * EVar vs2t * EPow P2 (EVar vMt) - #75 * EVar vMt * (#274 + #63 * EConst Cz3) * EPow P2
   (EVar vMst1) * EPow P2 (EVar vs2t) + #16 * (- #6536 + #14175 * EConst Cz3) * EPow P3 (EVar vMt) - #8400 * EPow P3
   (EVar vMst1) * EPow P3 (EVar vs2t)) - #200 * EVar vDmst12 * (- #888 * EVar vMst1 * EVar vs2t + EVar vMt * (- #158 +
   #567 * EConst Cz3)) * EPow P2 (EVar vMt) * EPow P4 (EVar vMst2) - #201600 * EPow P3 (EVar vMt) * EPow P6 (EVar
   vMst2)) - #150 * EPow P2 (EVar vDmsqst1) * (- (EVar vMt * EPow P2 (EVar vDmst12) * EPow P2 (EVar vMst2) * (#36800 *
   EVar vMst1 * EVar vMt * EVar vs2t + #20112 * EPow P2 (EVar vMt) + #75 * (#458 - #945 * EConst Cz3) * EPow P2 (EVar
   vMst1) * EPow P2 (EVar vs2t))) + #3 * EPow P3 (EVar vDmst12) * (- #20800 * EVar vMst1 * EVar vs2t * EPow P2 (EVar
   vMt) - #525 * EVar vMt * (- #26 + #45 * EConst Cz3) * EPow P2 (EVar vMst1) * EPow P2 (EVar vs2t) + #4 * (- #3998 +
   #14175 * EConst Cz3) * EPow P3 (EVar vMt) - #2800 * EPow P3 (EVar vMst1) * EPow P3 (EVar vs2t)) - #100 * EVar
   vDmst12 * (- #1360 * EVar vMst1 * EVar vs2t + #63 * EVar vMt * (- #14 + #27 * EConst Cz3)) * EPow P2 (EVar vMt) *
   EPow P4 (EVar vMst2) - #200 * (#410 + #567 * EConst Cz3) * EPow P3 (EVar vMt) * EPow P6 (EVar vMst2)) - EPow P4
   (EVar vMsq) * (- #20 * EVar vMt * EPow P2 (EVar vDmst12) * EPow P2 (EVar vMst2) * (#300 * EVar vMst1 * EVar vMt *
   EVar vs2t * (- #17512 + #14805 * EConst Cz3) + (- #375892 + #621675 * EConst Cz3) * EPow P2 (EVar vMt) - #900 * (-
   #1226 + #495 * EConst Cz3) * EPow P2 (EVar vMst1) * EPow P2 (EVar vs2t)) + EPow P3 (EVar vDmst12) * (- #30 * EVar
   vMst1 * EVar vs2t * (- #1117238 + #877575 * EConst Cz3) * EPow P2 (EVar vMt) - #2250 * EVar vMt * (- #5570 + #333 *
   EConst Cz3) * EPow P2 (EVar vMst1) * EPow P2 (EVar vs2t) + (- #41715182 + #38174625 * EConst Cz3) * EPow P3 (EVar
   vMt) + #3000 * (- #2722 + #2259 * EConst Cz3) * EPow P3 (EVar vMst1) * EPow P3 (EVar vs2t)) - #6000 * EVar vDmst12
   * (#81 * EVar vMt * (- #406 + #285 * EConst Cz3) + #8 * EVar vMst1 * EVar vs2t * (- #694 + #477 * EConst Cz3)) *
   EPow P2 (EVar vMt) * EPow P4 (EVar vMst2) + #48000 * (#623 + #963 * EConst Cz3) * EPow P3 (EVar vMt) * EPow P6
   (EVar vMst2))) + #196 * EVar vDmglst1 * EPow P2 (EVar vMgl) * (#600 * EPow P2 (EVar vDmsqst1) * (- #6 * EVar vMt *
   EPow P2 (EVar vDmst12) * EPow P2 (EVar vMst2) * (- #347 * EVar vMst1 * EVar vMt * EVar vs2t + #2538 * EPow P2 (EVar
   vMt) + #1175 * EPow P2 (EVar vMst1) * EPow P2 (EVar vs2t)) + EPow P3 (EVar vDmst12) * (#386 * EVar vMst1 * EVar
   vs2t * EPow P2 (EVar vMt) + #14100 * EVar vMt * EPow P2 (EVar vMst1) * EPow P2 (EVar vs2t) + #15228 * EPow P3 (EVar
   vMt) + #125 * EPow P3 (EVar vMst1) * EPow P3 (EVar vs2t)) + #2 * EVar vDmst12 * (#7614 * EVar vMt - #2275 * EVar
   vMst1 * EVar vs2t) * EPow P2 (EVar vMt) * EPow P4 (EVar vMst2) + #22600 * EPow P3 (EVar vMt) * EPow P6 (EVar
   vMst2)) + #600 * EVar vDmsqst1 * EPow P2 (EVar vMsq) * (- #2 * EVar vMt * EPow P2 (EVar vDmst12) * EPow P2 (EVar
   vMst2) * (- #1516 * EVar vMst1 * EVar vMt * EVar vs2t + #7614 * EPow P2 (EVar vMt) + #3525 * EPow P2 (EVar vMst1) *
   EPow P2 (EVar vs2t)) + EPow P3 (EVar vDmst12) * (- #564 * EVar vMst1 * EVar vs2t * EPow P2 (EVar vMt) + #14100 *
   EVar vMt * EPow P2 (EVar vMst1) * EPow P2 (EVar vs2t) + #15228 * EPow P3 (EVar vMt) + #125 * EPow P3 (EVar vMst1) *
   EPow P3 (EVar vs2t)) + #4 * EVar vDmst12 * (#3807 * EVar vMt - #1375 * EVar vMst1 * EVar vs2t) * EPow P2 (EVar vMt)
   * EPow P4 (EVar vMst2) + #29200 * EPow P3 (EVar vMt) * EPow P6 (EVar vMst2)) + EPow P4 (EVar vMsq) * (EVar vMt *
   EPow P2 (EVar vDmst12) * EPow P2 (EVar vMst2) * (#40 * EVar vMst1 * EVar vMt * EVar vs2t * (- #4511549 + #3729375 *
   EConst Cz3) + (#45149198 - #35285625 * EConst Cz3) * EPow P2 (EVar vMt) - #47250 * (- #430 + #207 * EConst Cz3) *
   EPow P2 (EVar vMst1) * EPow P2 (EVar vs2t)) + EPow P3 (EVar vDmst12) * (#2 * EVar vMst1 * EVar vs2t * (- #28188929
   + #23099625 * EConst Cz3) * EPow P2 (EVar vMt) + #225 * EVar vMt * (- #160136 + #100785 * EConst Cz3) * EPow P2
   (EVar vMst1) * EPow P2 (EVar vs2t) + (#115176444 - #85920750 * EConst Cz3) * EPow P3 (EVar vMt) + #1125 * (#22174 -
   #18791 * EConst Cz3) * EPow P3 (EVar vMst1) * EPow P3 (EVar vs2t)) + #40 * EVar vDmst12 * (#150 * EVar vMst1 * EVar
   vs2t * (- #19856 + #17667 * EConst Cz3) + EVar vMt * (- #5136871 + #3912300 * EConst Cz3)) * EPow P2 (EVar vMt) *
   EPow P4 (EVar vMst2) + #6000 * (- #31142 + #22653 * EConst Cz3) * EPow P3 (EVar vMt) * EPow P6 (EVar vMst2))) + #2
   * EVar vMgl * EPow P2 (EVar vDmglst1) * (#11760 * EPow P2 (EVar vDmsqst1) * (- #3 * EVar vMt * EPow P2 (EVar
   vDmst12) * EPow P2 (EVar vMst2) * (#4470 * EVar vMst1 * EVar vMt * EVar vs2t + #26294 * EPow P2 (EVar vMt) + #11975
   * EPow P2 (EVar vMst1) * EPow P2 (EVar vs2t)) + EPow P3 (EVar vDmst12) * (#25750 * EVar vMst1 * EVar vs2t * EPow P2
   (EVar vMt) + #71850 * EVar vMt * EPow P2 (EVar vMst1) * EPow P2 (EVar vs2t) + #78882 * EPow P3 (EVar vMt) + #625 *
   EPow P3 (EVar vMst1) * EPow P3 (EVar vs2t)) + #2 * EVar vDmst12 * (#39441 * EVar vMt + #535 * EVar vMst1 * EVar
   vs2t) * EPow P2 (EVar vMt) * EPow P4 (EVar vMst2) + #128066 * EPow P3 (EVar vMt) * EPow P6 (EVar vMst2)) + #11760 *
   EVar vDmsqst1 * EPow P2 (EVar vMsq) * (- (EVar vMt * EPow P2 (EVar vDmst12) * EPow P2 (EVar vMst2) * (#8660 * EVar
   vMst1 * EVar vMt * EVar vs2t + #78882 * EPow P2 (EVar vMt) + #35925 * EPow P2 (EVar vMst1) * EPow P2 (EVar vs2t)))
   + EPow P3 (EVar vDmst12) * (#21000 * EVar vMst1 * EVar vs2t * EPow P2 (EVar vMt) + #71850 * EVar vMt * EPow P2
   (EVar vMst1) * EPow P2 (EVar vs2t) + #78882 * EPow P3 (EVar vMt) + #625 * EPow P3 (EVar vMst1) * EPow P3 (EVar
   vs2t)) + #2 * EVar vDmst12 * (#39441 * EVar vMt - #1840 * EVar vMst1 * EVar vs2t) * EPow P2 (EVar vMt) * EPow P4
   (EVar vMst2) + #160280 * EPow P3 (EVar vMt) * EPow P6 (EVar vMst2)) + EPow P4 (EVar vMsq) * (EVar vMt * EPow P2
   (EVar vDmst12) * EPow P2 (EVar vMst2) * (#196 * EVar vMst1 * EVar vMt * EVar vs2t * (- #353948822 + #292953375 *
   EConst Cz3) + (#31554389946 - #25980577875 * EConst Cz3) * EPow P2 (EVar vMt) + #22050 * (#26498 + #49425 * EConst
   Cz3) * EPow P2 (EVar vMst1) * EPow P2 (EVar vs2t)) + #5 * EPow P3 (EVar vDmst12) * (- #196 * EVar vMst1 * EVar vs2t
   * (- #148185343 + #123161625 * EConst Cz3) * EPow P2 (EVar vMt) + #4410 * EVar vMt * (- #612347 + #438045 * EConst
   Cz3) * EPow P2 (EVar vMst1) * EPow P2 (EVar vs2t) + (- #2800003036 + #2827317150 * EConst Cz3) * EPow P3 (EVar vMt)
   - #735 * (- #2573582 + #2144805 * EConst Cz3) * EPow P3 (EVar vMst1) * EPow P3 (EVar vs2t)) + #392 * EVar vDmst12 *
   (#260 * EVar vMst1 * EVar vs2t * (- #579323 + #490725 * EConst Cz3) + EVar vMt * (- #125277461 + #96491250 * EConst
   Cz3)) * EPow P2 (EVar vMt) * EPow P4 (EVar vMst2) + #3920 * (- #12894992 + #9523575 * EConst Cz3) * EPow P3 (EVar
   vMt) * EPow P6 (EVar vMst2))) + #4 * EPow P3 (EVar vDmglst1) * (#5880 * EPow P2 (EVar vDmsqst1) * (- #2 * EVar vMt
   * EPow P2 (EVar vDmst12) * EPow P2 (EVar vMst2) * (#13291 * EVar vMst1 * EVar vMt * EVar vs2t + #40812 * EPow P2
   (EVar vMt) + #18300 * EPow P2 (EVar vMst1) * EPow P2 (EVar vs2t)) + EPow P3 (EVar vDmst12) * (#38922 * EVar vMst1 *
   EVar vs2t * EPow P2 (EVar vMt) + #73200 * EVar vMt * EPow P2 (EVar vMst1) * EPow P2 (EVar vs2t) + #81624 * EPow P3
   (EVar vMt) + #625 * EPow P3 (EVar vMst1) * EPow P3 (EVar vs2t)) + #2 * EVar vDmst12 * (#40812 * EVar vMt + #7121 *
   EVar vMst1 * EVar vs2t) * EPow P2 (EVar vMt) * EPow P4 (EVar vMst2) + #122500 * EPow P3 (EVar vMt) * EPow P6 (EVar
   vMst2)) + #5880 * EVar vDmsqst1 * EPow P2 (EVar vMsq) * (- #8 * EVar vMt * EPow P2 (EVar vDmst12) * EPow P2 (EVar
   vMst2) * (#2729 * EVar vMst1 * EVar vMt * EVar vs2t + #10203 * EPow P2 (EVar vMt) + #4575 * EPow P2 (EVar vMst1) *
   EPow P2 (EVar vs2t)) + EPow P3 (EVar vDmst12) * (#34172 * EVar vMst1 * EVar vs2t * EPow P2 (EVar vMt) + #73200 *
   EVar vMt * EPow P2 (EVar vMst1) * EPow P2 (EVar vs2t) + #81624 * EPow P3 (EVar vMt) + #625 * EPow P3 (EVar vMst1) *
   EPow P3 (EVar vs2t)) + #12 * EVar vDmst12 * (#6802 * EVar vMt + #791 * EVar vMst1 * EVar vs2t) * EPow P2 (EVar vMt)
   * EPow P4 (EVar vMst2) + #153928 * EPow P3 (EVar vMt) * EPow P6 (EVar vMst2)) + EPow P4 (EVar vMsq) * (#2 * EVar
   vMt * EPow P2 (EVar vDmst12) * EPow P2 (EVar vMst2) * (EVar vMst1 * EVar vMt * EVar vs2t * (- #51549748862 +
   #42804507375 * EConst Cz3) + (#15344105782 - #12740986125 * EConst Cz3) * EPow P2 (EVar vMt) + #36750 * (- #109771
   + #107379 * EConst Cz3) * EPow P2 (EVar vMst1) * EPow P2 (EVar vs2t)) + EPow P3 (EVar vDmst12) * (#2 * EVar vMst1 *
   EVar vs2t * (#137797425107 - #114549584625 * EConst Cz3) * EPow P2 (EVar vMt) - #3675 * EVar vMt * (- #973342 +
   #1115325 * EConst Cz3) * EPow P2 (EVar vMst1) * EPow P2 (EVar vs2t) + #12 * (- #1749149438 + #1631424375 * EConst
   Cz3) * EPow P3 (EVar vMt) - #6370 * (- #2386547 + #1986525 * EConst Cz3) * EPow P3 (EVar vMst1) * EPow P3 (EVar
   vs2t)) + #8 * EVar vDmst12 * (#49 * EVar vMst1 * EVar vs2t * (- #244084964 + #203974875 * EConst Cz3) + EVar vMt *
   (- #5048328734 + #3923356500 * EConst Cz3)) * EPow P2 (EVar vMt) * EPow P4 (EVar vMst2) + #2352 * (- #21126629 +
   #16012125 * EConst Cz3) * EPow P3 (EVar vMt) * EPow P6 (EVar vMst2)))) / (#1984500 * EPow P3 (EVar vMgl) * EPow P3
   (EVar vMt) * EPow P4 (EVar vMsq) * EPow P6 (EVar vMst2)).

(** H3.cpp:1136-1184 *)
Definition H3_coef1 : expr :=
  #4 * (#2 * EPow P3 (EVar vDmglst1) * (#2940 * EPow P2 (EVar vDmsqst1) * EPow P2 (EVar vMt) * (- ((#42 * EVar vMt + #11
   * EVar vMst1 * EVar vs2t) * EPow P2 (EVar vDmst12) * EPow P2 (EVar vMst2)) + (#42 * EVar vMt + #51 * EVar vMst1 *
   EVar vs2t) * EPow P3 (EVar vDmst12) + EVar vDmst12 * (#42 * EVar vMt - #29 * EVar vMst1 * EVar vs2t) * EPow P4
   (EVar vMst2) - #65 * EVar vMt * EPow P6 (EVar vMst2)) + #5880 * EVar vDmsqst1 * EPow P2 (EVar vMsq) * EPow P2 (EVar
   vMt) * (#7 * (- #3 * EVar vMt + EVar vMst1 * EVar vs2t) * EPow P2 (EVar vDmst12) * EPow P2 (EVar vMst2) + (#21 *
   EVar vMt + #13 * EVar vMst1 * EVar vs2t) * EPow P3 (EVar vDmst12) + #3 * EVar vDmst12 * (#7 * EVar vMt - #9 * EVar
   vMst1 * EVar vs2t) * EPow P4 (EVar vMst2) - #28 * EVar vMt * EPow P6 (EVar vMst2)) + EPow P4 (EVar vMsq) * (- #10 *
   EVar vMt * EPow P2 (EVar vDmst12) * EPow P2 (EVar vMst2) * (#623998 * EVar vMst1 * EVar vMt * EVar vs2t + #46947 *
   EPow P2 (EVar vMt) + #134505 * EPow P2 (EVar vMst1) * EPow P2 (EVar vs2t)) + EPow P3 (EVar vDmst12) * (#17975555 *
   EVar vMst1 * EVar vs2t * EPow P2 (EVar vMt) + #1956570 * EVar vMt * EPow P2 (EVar vMst1) * EPow P2 (EVar vs2t) +
   #2032034 * EPow P3 (EVar vMt) + #1187760 * EPow P3 (EVar vMst1) * EPow P3 (EVar vs2t)) - #2 * EVar vDmst12 *
   (#546547 * EVar vMt + #2011058 * EVar vMst1 * EVar vs2t) * EPow P2 (EVar vMt) * EPow P4 (EVar vMst2) - #11351536 *
   EPow P3 (EVar vMt) * EPow P6 (EVar vMst2))) - #98 * EVar vDmglst1 * EPow P2 (EVar vMgl) * (#600 * EVar vDmsqst1 *
   EPow P2 (EVar vMsq) * EPow P2 (EVar vMt) * (- ((#6 * EVar vMt + EVar vMst1 * EVar vs2t) * EPow P2 (EVar vDmst12) *
   EPow P2 (EVar vMst2)) + (#6 * EVar vMt - #3 * EVar vMst1 * EVar vs2t) * EPow P3 (EVar vDmst12) + EVar vDmst12 * (#6
   * EVar vMt + #5 * EVar vMst1 * EVar vs2t) * EPow P4 (EVar vMst2) + #25 * EVar vMt * EPow P6 (EVar vMst2)) + #300 *
   EPow P2 (EVar vDmsqst1) * EPow P2 (EVar vMt) * (#3 * (- #4 * EVar vMt + EVar vMst1 * EVar vs2t) * EPow P2 (EVar
   vDmst12) * EPow P2 (EVar vMst2) + (#12 * EVar vMt - #11 * EVar vMst1 * EVar vs2t) * EPow P3 (EVar vDmst12) + EVar
   vDmst12 * (#12 * EVar vMt + #5 * EVar vMst1 * EVar vs2t) * EPow P4 (EVar vMst2) + #35 * EVar vMt * EPow P6 (EVar
   vMst2)) + EPow P4 (EVar vMsq) * (EVar vMt * EPow P2 (EVar vDmst12) * EPow P2 (EVar vMst2) * (#29758 * EVar vMst1 *
   EVar vMt * EVar vs2t + #6677 * EPow P2 (EVar vMt) + #22350 * EPow P2 (EVar vMst1) * EPow P2 (EVar vs2t)) + EPow P3
   (EVar vDmst12) * (- #34587 * EVar vMst1 * EVar vs2t * EPow P2 (EVar vMt) - #18045 * EVar vMt * EPow P2 (EVar vMst1)
   * EPow P2 (EVar vs2t) + #22414 * EPow P3 (EVar vMt) + #3325 * EPow P3 (EVar vMst1) * EPow P3 (EVar vs2t)) - #8 *
   EVar vDmst12 * (#4471 * EVar vMt + #6875 * EVar vMst1 * EVar vs2t) * EPow P2 (EVar vMt) * EPow P4 (EVar vMst2) +
   #50800 * EPow P3 (EVar vMt) * EPow P6 (EVar vMst2))) - EVar vMgl * EPow P2 (EVar vDmglst1) * (#5880 * EPow P2 (EVar
   vDmsqst1) * EPow P2 (EVar vMt) * (- #3 * (#3 * EVar vMt + #5 * EVar vMst1 * EVar vs2t) * EPow P2 (EVar vDmst12) *
   EPow P2 (EVar vMst2) + (#9 * EVar vMt - #25 * EVar vMst1 * EVar vs2t) * EPow P3 (EVar vDmst12) + EVar vDmst12 * (#9
   * EVar vMt + #55 * EVar vMst1 * EVar vs2t) * EPow P4 (EVar vMst2) + #112 * EVar vMt * EPow P6 (EVar vMst2)) + #5880
   * EVar vDmsqst1 * EPow P2 (EVar vMsq) * EPow P2 (EVar vMt) * (- ((#9 * EVar vMt + #40 * EVar vMst1 * EVar vs2t) *
   EPow P2 (EVar vDmst12) * EPow P2 (EVar vMst2)) + #9 * EVar vMt * EPow P3 (EVar vDmst12) + EVar vDmst12 * (#9 * EVar
   vMt + #80 * EVar vMst1 * EVar vs2t) * EPow P4 (EVar vMst2) + #145 * EVar vMt * EPow P6 (EVar vMst2)) + EPow P4
   (EVar vMsq) * (#3 * EVar vMt * EPow P2 (EVar vDmst12) * EPow P2 (EVar vMst2) * (#2334948 * EVar vMst1 * EVar vMt *
   EVar vs2t - #104761 * EPow P2 (EVar vMt) + #112210 * EPow P2 (EVar vMst1) * EPow P2 (EVar vs2t)) + EPow P3 (EVar
   vDmst12) * (- #10892014 * EVar vMst1 * EVar vs2t * EPow P2 (EVar vMt) + #1366365 * EVar vMt * EPow P2 (EVar vMst1)
   * EPow P2 (EVar vs2t) + #177178 * EPow P3 (EVar vMt) - #363580 * EPow P3 (EVar vMst1) * EPow P3 (EVar vs2t)) + #196
   * EVar vDmst12 * (#2303 * EVar vMt - #30942 * EVar vMst1 * EVar vs2t) * EPow P2 (EVar vMt) * EPow P4 (EVar vMst2) +
   #13177472 * EPow P3 (EVar vMt) * EPow P6 (EVar vMst2))) - #49 * EPow P3 (EVar vMgl) * (- #150 * EVar vDmsqst1 *
   EVar vMt * EPow P2 (EVar vMsq) * (EPow P2 (EVar vDmst12) * EPow P2 (EVar vMst2) * (- #80 * EVar vMst1 * EVar vMt *
   EVar vs2t - #17 * EPow P2 (EVar vMt) + #180 * EPow P2 (EVar vMst1) * EPow P2 (EVar vs2t)) + #2 * (#20 * EVar vMst1
   * EVar vMt * EVar vs2t + #187 * EPow P2 (EVar vMt) - #90 * EPow P2 (EVar vMst1) * EPow P2 (EVar vs2t)) * EPow P3
   (EVar vDmst12) - #20 * EVar vDmst12 * EVar vMt * (#17 * EVar vMt - #6 * EVar vMst1 * EVar vs2t) * EPow P4 (EVar
   vMst2) - #1080 * EPow P2 (EVar vMt) * EPow P6 (EVar vMst2)) - #150 * EVar vMt * EPow P2 (EVar vDmsqst1) * (- #4 *
   EPow P2 (EVar vDmst12) * EPow P2 (EVar vMst2) * (#10 * EVar vMst1 * EVar vMt * EVar vs2t + #3 * EPow P2 (EVar vMt)
   - #45 * EPow P2 (EVar vMst1) * EPow P2 (EVar vs2t)) + #9 * (#41 * EPow P2 (EVar vMt) - #20 * EPow P2 (EVar vMst1) *
   EPow P2 (EVar vs2t)) * EPow P3 (EVar vDmst12) + #5 * EVar vDmst12 * EVar vMt * (- #69 * EVar vMt + #16 * EVar vMst1
   * EVar vs2t) * EPow P4 (EVar vMst2) - #1010 * EPow P2 (EVar vMt) * EPow P6 (EVar vMst2)) - EPow P4 (EVar vMsq) * (-
   #2 * EVar vMt * EPow P2 (EVar vDmst12) * EPow P2 (EVar vMst2) * (#25850 * EVar vMst1 * EVar vMt * EVar vs2t +
   #21033 * EPow P2 (EVar vMt) + #75 * EPow P2 (EVar vMst1) * EPow P2 (EVar vs2t)) + EPow P3 (EVar vDmst12) * (#68264
   * EVar vMst1 * EVar vs2t * EPow P2 (EVar vMt) + #5700 * EVar vMt * EPow P2 (EVar vMst1) * EPow P2 (EVar vs2t) +
   #36107 * EPow P3 (EVar vMt) + #250 * EPow P3 (EVar vMst1) * EPow P3 (EVar vs2t)) + #200 * EVar vDmst12 * (#131 *
   EVar vMt + #100 * EVar vMst1 * EVar vs2t) * EPow P2 (EVar vMt) * EPow P4 (EVar vMst2) + #400 * (- #533 + #54 *
   EConst Cz3) * EPow P3 (EVar vMt) * EPow P6 (EVar vMst2)))) / (#33075 * EPow P3 (EVar vMgl) * EPow P3 (EVar vMt) *
   EPow P4 (EVar vMsq) * EPow P6 (EVar vMst2)).

(** H3.cpp:1189-1215 *)
Definition H3_coef2 : expr :=
  #8 * (#7 * EVar vDmglst1 * EPow P2 (EVar vMgl) * EPow P4 (EVar vMsq) * (- #2 * EVar vMt * EPow P2 (EVar vDmst12) *
   EPow P2 (EVar vMst2) * (- #1304 * EVar vMst1 * EVar vMt * EVar vs2t + #888 * EPow P2 (EVar vMt) + #645 * EPow P2
   (EVar vMst1) * EPow P2 (EVar vs2t)) + EPow P3 (EVar vDmst12) * (- #1544 * EVar vMst1 * EVar vs2t * EPow P2 (EVar
   vMt) + #2250 * EVar vMt * EPow P2 (EVar vMst1) * EPow P2 (EVar vs2t) + #1640 * EPow P3 (EVar vMt) - #275 * EPow P3
   (EVar vMst1) * EPow P3 (EVar vs2t)) + #8 * EVar vDmst12 * (#239 * EVar vMt - #35 * EVar vMst1 * EVar vs2t) * EPow
   P2 (EVar vMt) * EPow P4 (EVar vMst2) + #6520 * EPow P3 (EVar vMt) * EPow P6 (EVar vMst2)) + EPow P3 (EVar vDmglst1)
   * EPow P4 (EVar vMsq) * (- #4 * EVar vMt * EPow P2 (EVar vDmst12) * EPow P2 (EVar vMst2) * (- #6158 * EVar vMst1 *
   EVar vMt * EVar vs2t + #7818 * EPow P2 (EVar vMt) - #5565 * EPow P2 (EVar vMst1) * EPow P2 (EVar vs2t)) + EPow P3
   (EVar vDmst12) * (- #109632 * EVar vMst1 * EVar vs2t * EPow P2 (EVar vMt) - #8820 * EVar vMt * EPow P2 (EVar vMst1)
   * EPow P2 (EVar vs2t) + #98096 * EPow P3 (EVar vMt) - #9765 * EPow P3 (EVar vMst1) * EPow P3 (EVar vs2t)) + #16 *
   EVar vDmst12 * (- #2222 * EVar vMt + #5257 * EVar vMst1 * EVar vs2t) * EPow P2 (EVar vMt) * EPow P4 (EVar vMst2) +
   #36232 * EPow P3 (EVar vMt) * EPow P6 (EVar vMst2)) + EVar vMgl * EPow P2 (EVar vDmglst1) * EPow P4 (EVar vMsq) *
   (- #3 * EVar vMt * EPow P2 (EVar vDmst12) * EPow P2 (EVar vMst2) * (- #7448 * EVar vMst1 * EVar vMt * EVar vs2t +
   #11772 * EPow P2 (EVar vMt) + #35 * EPow P2 (EVar vMst1) * EPow P2 (EVar vs2t)) + EPow P3 (EVar vDmst12) * (-
   #53536 * EVar vMst1 * EVar vs2t * EPow P2 (EVar vMt) + #16905 * EVar vMt * EPow P2 (EVar vMst1) * EPow P2 (EVar
   vs2t) + #68252 * EPow P3 (EVar vMt) - #5285 * EPow P3 (EVar vMst1) * EPow P3 (EVar vs2t)) + #28 * EVar vDmst12 *
   (#85 * EVar vMt + #1164 * EVar vMst1 * EVar vs2t) * EPow P2 (EVar vMt) * EPow P4 (EVar vMst2) + #49588 * EPow P3
   (EVar vMt) * EPow P6 (EVar vMst2)) + #7 * EPow P3 (EVar vMgl) * (EVar vMt * EPow P2 (EVar vDmst12) * EPow P2 (EVar
   vMst2) * (#1760 * EVar vMst1 * EVar vMt * EVar vs2t + #538 * EPow P2 (EVar vMt) + #105 * EPow P2 (EVar vMst1) *
   EPow P2 (EVar vs2t)) * EPow P4 (EVar vMsq) - EPow P3 (EVar vDmst12) * (#1032 * EVar vMst1 * EVar vs2t * EPow P2
   (EVar vMt) + #480 * EVar vMt * EPow P2 (EVar vMst1) * EPow P2 (EVar vs2t) + #644 * EPow P3 (EVar vMt) - #45 * EPow
   P3 (EVar vMst1) * EPow P3 (EVar vs2t)) * EPow P4 (EVar vMsq) - #40 * EVar vDmst12 * (#11 * EVar vMt + #61 * EVar
   vMst1 * EVar vs2t) * EPow P2 (EVar vMt) * EPow P4 (EVar vMsq) * EPow P4 (EVar vMst2) + #10 * EPow P3 (EVar vMt) *
   (#45 * EPow P2 (EVar vDmsqst1) + #90 * EVar vDmsqst1 * EPow P2 (EVar vMsq) + #442 * EPow P4 (EVar vMsq)) * EPow P6
   (EVar vMst2))) / (#315 * EPow P3 (EVar vMgl) * EPow P3 (EVar vMt) * EPow P4 (EVar vMsq) * EPow P6 (EVar vMst2)).

(** H3.cpp:1220-1225 *)
Definition H3_coef3 : expr :=
  - EDec 2986666666666667 13.

(** the constructor, H3.cpp:38-70: value of each data member (members it does not assign are zero, H3.hpp) *)
Definition H3_ctor {T : Type} {N : Num T} (d : Depth) (a_Al4p a_beta a_Dmglst1 a_Dmst12 a_Dmsqst1 a_lmMt a_lmMst1
   a_Mgl a_Mt a_Mst1 a_Mst2 a_Msq a_MuSUSY a_s2t : T) (mdr f1 f2 f3 : Z) (v : hvar) : T :=
  match v with
  | vTbeta => ntan a_beta
  | vSbeta => nsin a_beta
  | vDmglst1 => a_Dmglst1
  | vDmst12 => a_Dmst12
  | vDmsqst1 => a_Dmsqst1
  | vlmMst1 => a_lmMst1
  | vMgl => a_Mgl
  | vMt => a_Mt
  | vMst1 => a_Mst1
  | vMst2 => a_Mst2
  | vMsq => a_Msq
  | vMuSUSY => a_MuSUSY
  | vs2t => a_s2t
  | vlmMt => a_lmMt
  | voneLoopFlag => nint f1
  | vtwoLoopFlag => nint f2
  | vthreeLoopFlag => nint f3
  | vAl4p => a_Al4p
  | vshiftst1 => nint mdr
  | vshiftst2 => nint mdr
  | vshiftst3 => nint mdr
  | vxDmglst1 => nint (x_Dmglst1 d)
  | vxDmst12 => nint (x_Dmglst1 d)
  | vxDmsqst1 => nint (x_Dmsqst1 d)
  | _ => nint 0
  end.
