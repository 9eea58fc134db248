(** * Class H9q2
    GENERATED by tools/gen_hier.py from source/himalaya/hierarchies/H9q2.cpp (expressions are transcribed operator by operator;
    no subexpression is an integer division, and integer subexpressions stay below 2^31 when the flags are 0 or 1). *)
From Coq Require Import ZArith List.
From Verif Require Import Num HierExpr HierCalc.
Local Open Scope hx_scope.

(** H9q2.cpp:77-182 *)
Definition H9q2_getS1 : expr :=
  - (EPow P2 (EVar vMuSUSY) * (EVar vAl4p * (#10 * EVar vxMgl * EPow P4 (EVar vMgl) * (#2 * EVar vxDmst12 * EPow P2
   (EVar vMt) * (#216 * (#1 - #3 * EVar vlmMgl + #3 * EVar vlmMst1) * EVar vtwoLoopFlag * EPow P2 (EVar vMst1) * EPow
   P2 (EVar vs2t) + EVar vAl4p * EVar vthreeLoopFlag * (#288 * (#262 + #335 * EVar vlmMst1 - #96 * EVar vlmMt - #72 *
   EVar vlmMst1 * EVar vlmMt + EVar vlmMgl * (- #199 - #120 * EVar vlmMst1 + #72 * EVar vlmMt) + #120 * EPow P2 (EVar
   vlmMst1)) * EPow P2 (EVar vMt) + (#41653 + #11784 * EVar vlmMst1 + #48 * EVar vlmMgl * (- #313 + #180 * EVar
   vlmMst1) - #12636 * EPow P2 (EVar vlmMgl) + #540 * EPow P2 (EVar vlmMst1)) * EPow P2 (EVar vMst1) * EPow P2 (EVar
   vs2t))) * EPow P3 (EVar vDmst12) + EPow P2 (EVar vMst2) * (#216 * (- #1 + #3 * EVar vlmMgl - #3 * EVar vlmMst1) *
   EVar vtwoLoopFlag * EPow P2 (EVar vDmst12) * EPow P2 (EVar vMst1) * EPow P2 (EVar vMt) * EPow P2 (EVar vs2t) + EVar
   vAl4p * EVar vthreeLoopFlag * (- (EPow P2 (EVar vDmst12) * EPow P2 (EVar vMt) * (#576 * (#262 + #335 * EVar vlmMst1
   - #96 * EVar vlmMt - #72 * EVar vlmMst1 * EVar vlmMt + EVar vlmMgl * (- #199 - #120 * EVar vlmMst1 + #72 * EVar
   vlmMt) + #120 * EPow P2 (EVar vlmMst1)) * EPow P2 (EVar vMt) + (#41653 + #11784 * EVar vlmMst1 + #48 * EVar vlmMgl
   * (- #313 + #180 * EVar vlmMst1) - #12636 * EPow P2 (EVar vlmMgl) + #540 * EPow P2 (EVar vlmMst1)) * EPow P2 (EVar
   vMst1) * EPow P2 (EVar vs2t))) + #576 * EPow P2 (EVar vMst2) * (EVar vDmst12 * (#262 + #335 * EVar vlmMst1 - #96 *
   EVar vlmMt - #72 * EVar vlmMst1 * EVar vlmMt + EVar vlmMgl * (- #199 - #120 * EVar vlmMst1 + #72 * EVar vlmMt) +
   #120 * EPow P2 (EVar vlmMst1)) + #2 * (#59 + #85 * EVar vlmMst1 - #24 * EVar vlmMt - #24 * EVar vlmMst1 * EVar
   vlmMt + EVar vlmMgl * (- #53 - #40 * EVar vlmMst1 + #24 * EVar vlmMt) + #40 * EPow P2 (EVar vlmMst1)) * EPow P2
   (EVar vMst2)) * EPow P4 (EVar vMt)))) + #9 * EVar vAl4p * EVar vthreeLoopFlag * (#2 * EPow P2 (EVar vMst1) * EPow
   P2 (EVar vMst2) * EPow P2 (EVar vMt) * (#5 * EVar vDmst12 * EVar vs2t * (- #4 * EVar vs2t * EPow P2 (EVar vMsq) *
   EPow P2 (EVar vMst1) * (#15 * EVar vDmsqst1 * (#48 * EVar vDmst12 * EPow P2 (EVar vMgl) + EPow P2 (EVar vMst1) *
   (EVar vDmst12 * (#3 - #6 * EVar vshiftst1 - #6 * EVar vshiftst2 + #4 * EVar vlmMst1 * (- #2 + EVar vshiftst1 + EVar
   vshiftst2)) + #4 * (#3 - #2 * EVar vlmMst1) * (EVar vshiftst1 - EVar vshiftst2) * EPow P2 (EVar vMst2))) + EPow P2
   (EVar vMsq) * (#2 * EVar vDmst12 * (#200 + #18 * EVar vlmMgl + #265 * EVar vlmMst1 + #91 * EPow P2 (EVar vlmMst1))
   * EPow P2 (EVar vMgl) + EPow P2 (EVar vMst1) * (- (EVar vDmst12 * (#32 + #30 * (EVar vshiftst1 + EVar vshiftst2) +
   #2 * EVar vlmMst1 * (#115 - #30 * (EVar vshiftst1 + EVar vshiftst2) - #9 * EVar vshiftst3) + #21 * EVar vshiftst3 +
   #82 * EPow P2 (EVar vlmMst1))) + #6 * (#1 - #2 * EVar vlmMst1) * (#10 * EVar vshiftst1 - #10 * EVar vshiftst2 +
   EVar vshiftst3) * EPow P2 (EVar vMst2)))) - #15 * EVar vxDmsqst1 * EPow P2 (EVar vDmsqst1) * (#32 * EPow P2 (EVar
   vMst2) * (#20 * EVar vMgl * EVar vMt * EPow P2 (EVar vMst1) + #8 * (#3 - EVar vlmMgl + EVar vlmMst1) * EVar vMt *
   EPow P3 (EVar vMgl) - (- #2 + EVar vlmMst1) * EVar vs2t * (EVar vshiftst1 - EVar vshiftst2) * EPow P4 (EVar vMst1))
   + EVar vDmst12 * (#192 * EVar vMgl * EVar vMt * EPow P2 (EVar vMst1) + #192 * EVar vs2t * EPow P2 (EVar vMgl) *
   EPow P2 (EVar vMst1) + #256 * (- #3 + EVar vlmMgl - EVar vlmMst1) * EVar vMt * EPow P3 (EVar vMgl) + EVar vs2t *
   (#33 + #16 * EVar vlmMst1 * (- #2 + EVar vshiftst1 + EVar vshiftst2) - #32 * (EVar vshiftst1 + EVar vshiftst2)) *
   EPow P4 (EVar vMst1)))) + #32 * EVar vMgl * EVar vMt * EPow P2 (EVar vMsq) * (#5 * EVar vDmst12 * EVar vs2t * (-
   #30 * EVar vDmsqst1 * (EVar vDmst12 * (#4 * (- #3 + EVar vlmMgl - EVar vlmMst1) * EPow P2 (EVar vMgl) + #7 * EPow
   P2 (EVar vMst1)) + #2 * ((#6 - #2 * EVar vlmMgl + #2 * EVar vlmMst1) * EPow P2 (EVar vMgl) + #3 * EPow P2 (EVar
   vMst1)) * EPow P2 (EVar vMst2)) + EPow P2 (EVar vMsq) * (EVar vDmst12 * (#2 * (- #249 + #164 * EVar vlmMgl - #176 *
   EVar vlmMst1 - #20 * EVar vlmMgl * EVar vlmMst1 + #27 * EPow P2 (EVar vlmMgl) + EPow P2 (EVar vlmMst1)) * EPow P2
   (EVar vMgl) - (#149 + #41 * EVar vlmMst1) * EPow P2 (EVar vMst1)) + (#4 * (- #11 + #154 * EVar vlmMgl - #148 * EVar
   vlmMst1 - #20 * EVar vlmMgl * EVar vlmMst1 + #27 * EPow P2 (EVar vlmMgl) + EPow P2 (EVar vlmMst1)) * EPow P2 (EVar
   vMgl) - (#215 + #118 * EVar vlmMst1 + #41 * EPow P2 (EVar vlmMst1)) * EPow P2 (EVar vMst1)) * EPow P2 (EVar
   vMst2))) + EVar vMgl * EVar vMt * EPow P2 (EVar vMsq) * (EPow P2 (EVar vDmst12) * (#163 + #15 * EVar vlmMgl - #27 *
   EVar vlmMst1 + #20 * EVar vlmMt - #8 * EPow P2 (EVar vlmMst1)) + #20 * EVar vDmst12 * (#16 - #9 * EVar vlmMgl + #41
   * EVar vlmMst1 - #12 * EVar vlmMt + #4 * EPow P2 (EVar vlmMst1)) * EPow P2 (EVar vMst2) - #10 * (#5 + #18 * EVar
   vlmMgl - #74 * EVar vlmMst1 + #24 * EVar vlmMt - #8 * EPow P2 (EVar vlmMst1)) * EPow P4 (EVar vMst2)))) - #16 *
   EConst Cz2 * EPow P2 (EVar vMt) * (EVar vxDmst12 * EPow P2 (EVar vMst1) * EPow P3 (EVar vDmst12) * (EPow P2 (EVar
   vMsq) * (#4 * EVar vMgl * EVar vMt * (#498 * EVar vMgl * EVar vMt * EPow P2 (EVar vMsq) - #40 * EVar vs2t * EPow P2
   (EVar vMgl) * (#15 * EVar vDmsqst1 + (- #94 + #45 * EVar vlmMgl - #45 * EVar vlmMst1) * EPow P2 (EVar vMsq)) + #3 *
   EVar vs2t * (#500 * EVar vDmsqst1 - #79 * EPow P2 (EVar vMsq)) * EPow P2 (EVar vMst1)) + EPow P2 (EVar vMst1) *
   (#30 * EVar vDmsqst1 * (#30 * EPow P2 (EVar vMgl) - (#3 * EVar vshiftst1 + #2 * EVar vshiftst2) * EPow P2 (EVar
   vMst1)) - #2 * EPow P2 (EVar vMsq) * (#455 * EPow P2 (EVar vMgl) + (#10 + #45 * EVar vshiftst1 + #30 * EVar
   vshiftst2 + #27 * EVar vshiftst3) * EPow P2 (EVar vMst1))) * EPow P2 (EVar vs2t)) - #30 * EVar vs2t * EVar
   vxDmsqst1 * EPow P2 (EVar vDmsqst1) * (- #140 * EVar vMgl * EVar vMt * EPow P2 (EVar vMst1) - #30 * EVar vs2t *
   EPow P2 (EVar vMgl) * EPow P2 (EVar vMst1) + #80 * EVar vMt * EPow P3 (EVar vMgl) + EVar vs2t * (- #15 + #3 * EVar
   vshiftst1 + #2 * EVar vshiftst2) * EPow P4 (EVar vMst1))) + EPow P2 (EVar vMst2) * (#4 * EVar vMt * EPow P2 (EVar
   vMsq) * EPow P2 (EVar vMst1) * (EVar vMt * EPow P2 (EVar vMgl) * EPow P2 (EVar vMsq) * (#11 * EPow P2 (EVar
   vDmst12) - #520 * EPow P2 (EVar vMst2) * (EVar vDmst12 + EPow P2 (EVar vMst2))) + #5 * EVar vDmst12 * EVar vs2t *
   (EVar vDmst12 * (- #30 * EVar vMgl * (#4 * EVar vDmsqst1 + EPow P2 (EVar vMsq)) * EPow P2 (EVar vMst1) + (#120 *
   EVar vDmsqst1 + (- #263 + #90 * EVar vlmMgl - #90 * EVar vlmMst1) * EPow P2 (EVar vMsq)) * EPow P3 (EVar vMgl)) -
   #2 * EPow P2 (EVar vMst2) * (EVar vMgl * (#30 * EVar vDmsqst1 - #17 * EPow P2 (EVar vMsq)) * EPow P2 (EVar vMst1) +
   (#60 * EVar vDmsqst1 + (#113 - #90 * EVar vlmMgl + #90 * EVar vlmMst1) * EPow P2 (EVar vMsq)) * EPow P3 (EVar
   vMgl)))) + EVar vDmst12 * (- #5 * EPow P2 (EVar vMsq) * (#30 * EVar vDmsqst1 * (#3 * EVar vDmst12 * EPow P2 (EVar
   vMgl) + EPow P2 (EVar vMst1) * (- (EVar vDmst12 * (- #3 + EVar vshiftst1 + EVar vshiftst2)) + #2 * (EVar vshiftst1
   - EVar vshiftst2) * EPow P2 (EVar vMst2))) - EPow P2 (EVar vMsq) * (#274 * EVar vDmst12 * EPow P2 (EVar vMgl) +
   EPow P2 (EVar vMst1) * (- #41 * EVar vDmst12 + #30 * EVar vDmst12 * (EVar vshiftst1 + EVar vshiftst2) + #9 * EVar
   vDmst12 * EVar vshiftst3 - #6 * (#10 * EVar vshiftst1 - #10 * EVar vshiftst2 + EVar vshiftst3) * EPow P2 (EVar
   vMst2)))) * EPow P2 (EVar vs2t) * EPow P4 (EVar vMst1) - #75 * EVar vs2t * EVar vxDmsqst1 * EPow P2 (EVar vDmsqst1)
   * EPow P2 (EVar vMst1) * (EVar vDmst12 * (#8 * EVar vMgl * EVar vMt * EPow P2 (EVar vMst1) + #6 * EVar vs2t * EPow
   P2 (EVar vMgl) * EPow P2 (EVar vMst1) - #32 * EVar vMt * EPow P3 (EVar vMgl) + EVar vs2t * (#9 - #2 * EVar
   vshiftst1 - #2 * EVar vshiftst2) * EPow P4 (EVar vMst1)) + #4 * EPow P2 (EVar vMst2) * (#10 * EVar vMgl * EVar vMt
   * EPow P2 (EVar vMst1) + #8 * EVar vMt * EPow P3 (EVar vMgl) + EVar vs2t * (EVar vshiftst1 - EVar vshiftst2) * EPow
   P4 (EVar vMst1))))) + #20 * EVar vxMgl * EPow P4 (EVar vMgl) * EPow P4 (EVar vMsq) * (- #6 * EVar vxDmst12 * (#12 *
   (#17 - #4 * EVar vlmMgl + #4 * EVar vlmMst1) * EPow P2 (EVar vMt) + (#49 - #17 * EVar vlmMgl + #17 * EVar vlmMst1)
   * EPow P2 (EVar vMst1) * EPow P2 (EVar vs2t)) * EPow P3 (EVar vDmst12) + EPow P2 (EVar vMst2) * (#3 * (#49 - #17 *
   EVar vlmMgl + #17 * EVar vlmMst1) * EPow P2 (EVar vDmst12) * EPow P2 (EVar vMst1) * EPow P2 (EVar vs2t) + #8 * EPow
   P2 (EVar vMt) * (#9 * EVar vDmst12 * (#17 - #4 * EVar vlmMgl + #4 * EVar vlmMst1) * (EVar vDmst12 - EPow P2 (EVar
   vMst2)) + #2 * (- #47 + #12 * EVar vlmMgl - #12 * EVar vlmMst1) * EPow P4 (EVar vMst2))))) + #3 * EConst Cz3 * (#3
   * EPow P2 (EVar vDmst12) * EPow P2 (EVar vMst1) * EPow P2 (EVar vMt) * (- #32 * EVar vDmst12 * EVar vMgl * EVar vMt
   * EVar vs2t * EVar vxDmst12 * EPow P2 (EVar vMst1) * EPow P4 (EVar vMsq) + #40 * EPow P2 (EVar vMgl) * (- #14 *
   EVar vDmst12 * EVar vxDmst12 * EPow P2 (EVar vMt) + #15 * EPow P2 (EVar vMst1) * (- (EVar vDmst12 * EVar vxDmst12)
   + #2 * EPow P2 (EVar vMst2)) * EPow P2 (EVar vs2t)) * EPow P4 (EVar vMsq) + #34560 * EVar vDmst12 * EVar vMt * EVar
   vs2t * EVar vxDmst12 * EPow P3 (EVar vMgl) * EPow P4 (EVar vMsq) - #5 * EPow P2 (EVar vs2t) * (#35 * EVar vDmsqst1
   * EPow P2 (EVar vMsq) * (EVar vDmst12 * EVar vxDmst12 + #4 * EPow P2 (EVar vMst2)) + #35 * EVar vxDmsqst1 * EPow P2
   (EVar vDmsqst1) * (- #5 * EVar vDmst12 * EVar vxDmst12 + #7 * EPow P2 (EVar vMst2)) + #2 * (#11 * EVar vDmst12 *
   EVar vxDmst12 + #24 * EPow P2 (EVar vMst2)) * EPow P4 (EVar vMsq)) * EPow P4 (EVar vMst1)) + #40 * EVar vMgl * EPow
   P4 (EVar vMsq) * (EPow P2 (EVar vMst1) * EPow P2 (EVar vMst2) * (#56 * EVar vDmst12 * EVar vs2t * EPow P2 (EVar
   vMst1) * EPow P2 (EVar vMst2) - EVar vMgl * (#648 * EVar vDmst12 * EVar vMgl * EVar vs2t * (EVar vDmst12 + #2 *
   EPow P2 (EVar vMst2)) + #7 * EVar vMt * (EPow P2 (EVar vDmst12) - #8 * EPow P2 (EVar vMst2) * (EVar vDmst12 + EPow
   P2 (EVar vMst2))))) * EPow P3 (EVar vMt) + EVar vxMgl * EPow P3 (EVar vMgl) * (- #6 * EVar vxDmst12 * EPow P3 (EVar
   vDmst12) * (#259 * EPow P2 (EVar vMst1) * EPow P2 (EVar vMt) * EPow P2 (EVar vs2t) + #484 * EPow P4 (EVar vMt)) +
   EPow P2 (EVar vMst2) * (#777 * EPow P2 (EVar vDmst12) * EPow P2 (EVar vMst1) * EPow P2 (EVar vMt) * EPow P2 (EVar
   vs2t) + #968 * (#3 * EPow P2 (EVar vDmst12) - #3 * EVar vDmst12 * EPow P2 (EVar vMst2) - #2 * EPow P4 (EVar vMst2))
   * EPow P4 (EVar vMt)))))) / EPow P4 (EVar vMsq)) / EPow P6 (EVar vMst1) + EPow P2 (EVar vMt) * (- #3 * EVar
   vxDmst12 * EPow P3 (EVar vDmst12) * (#135 * EVar voneLoopFlag * EPow P2 (EVar vs2t) + #2 * EVar vthreeLoopFlag *
   EPow P2 (EVar vAl4p) * (#16 * EVar vMgl * EVar vMt * (#12 * EVar vMgl * (#20 * EVar vMgl * EVar vs2t * (- #130 +
   EVar vlmMgl * (#159 - #20 * EVar vlmMst1) - #162 * EVar vlmMst1 + #27 * EPow P2 (EVar vlmMgl) + EPow P2 (EVar
   vlmMst1)) + EVar vMt * (#323 - #75 * EVar vlmMgl + #383 * EVar vlmMst1 - #100 * EVar vlmMt + #32 * EPow P2 (EVar
   vlmMst1))) + #3600 * EVar vDmsqst1 * (#3 - EVar vlmMgl + EVar vlmMst1) * EVar vs2t * EPow P2 (EVar vMgl) / EPow P2
   (EVar vMsq) + EVar vs2t * (#365 - #1049 * EVar vlmMst1 - #123 * EPow P2 (EVar vlmMst1) - #18000 * EVar vDmsqst1 /
   EPow P2 (EVar vMsq)) * EPow P2 (EVar vMst1)) - #3 * EPow P2 (EVar vMst1) * (#15 * EVar vDmsqst1 * (#1920 * EPow P2
   (EVar vMgl) + (#5 - #72 * EVar vshiftst1 - #48 * EVar vshiftst2 + #16 * EVar vlmMst1 * (- #5 + #3 * EVar vshiftst1
   + #2 * EVar vshiftst2)) * EPow P2 (EVar vMst1)) + #2 * EPow P2 (EVar vMsq) * (#10 * (- #425 + #18 * EVar vlmMgl +
   #83 * EVar vlmMst1 + #91 * EPow P2 (EVar vlmMst1)) * EPow P2 (EVar vMgl) + (#605 - #180 * EVar vshiftst1 - #120 *
   EVar vshiftst2 - #348 * EVar vshiftst3 + #8 * EVar vlmMst1 * (- #110 + #45 * EVar vshiftst1 + #30 * EVar vshiftst2
   + #27 * EVar vshiftst3) - #820 * EPow P2 (EVar vlmMst1)) * EPow P2 (EVar vMst1))) * EPow P2 (EVar vs2t) / EPow P2
   (EVar vMsq) - #45 * EVar vs2t * EVar vxDmsqst1 * EPow P2 (EVar vDmsqst1) * (#5120 * EVar vMgl * EVar vMt * EPow P2
   (EVar vMst1) + #1920 * EVar vs2t * EPow P2 (EVar vMgl) * EPow P2 (EVar vMst1) + #1280 * (- #3 + EVar vlmMgl - EVar
   vlmMst1) * EVar vMt * EPow P3 (EVar vMgl) + EVar vs2t * (#215 - #72 * EVar vshiftst1 - #208 * EVar vshiftst2 + #16
   * EVar vlmMst1 * (- #5 + #3 * EVar vshiftst1 + #2 * EVar vshiftst2)) * EPow P4 (EVar vMst1)) / EPow P4 (EVar vMsq))
   / EPow P4 (EVar vMst1) - #72 * EVar vAl4p * EVar vs2t * EVar vtwoLoopFlag * (#160 * (#1 - EVar vlmMgl + EVar
   vlmMst1) * EVar vMt * EPow P2 (EVar vMst1) * EPow P3 (EVar vMgl) + #2 * (#9 + #2 * EVar vlmMst1) * EVar vMgl * EVar
   vMt * EPow P4 (EVar vMst1) + #5 * (#1 + #2 * EVar vlmMst1) * EVar vs2t * EPow P2 (EVar vMgl) * EPow P4 (EVar vMst1)
   + #40 * (- #1 + #3 * EVar vlmMgl - #3 * EVar vlmMst1) * EVar vMt * EVar vx * EPow P5 (EVar vMgl) - #20 * EVar
   vlmMst1 * EVar vs2t * EPow P6 (EVar vMst1)) / EPow P6 (EVar vMst1)) + #135 * EVar vDmst12 * EVar vs2t * EPow P2
   (EVar vMst2) * (#3 * EVar vDmst12 * EVar voneLoopFlag * EVar vs2t - #16 * EVar vAl4p * EVar vtwoLoopFlag * (#4 *
   EVar vMgl * EVar vMt * EPow P2 (EVar vMst2) * ((#1 - #2 * EVar vlmMgl + #2 * EVar vlmMst1) * EPow P2 (EVar vMgl) *
   EPow P2 (EVar vMst1) + (#1 - #3 * EVar vlmMgl + #3 * EVar vlmMst1) * EVar vx * EPow P4 (EVar vMgl) + (#2 + EVar
   vlmMst1) * EPow P4 (EVar vMst1)) + EVar vDmst12 * (#2 * (#3 - #2 * EVar vlmMgl + #2 * EVar vlmMst1) * EVar vMt *
   EPow P2 (EVar vMst1) * EPow P3 (EVar vMgl) + #2 * EVar vMgl * EVar vMt * EPow P4 (EVar vMst1) + (#3 + #2 * EVar
   vlmMst1) * EVar vs2t * EPow P2 (EVar vMgl) * EPow P4 (EVar vMst1) + #4 * (- #1 + #3 * EVar vlmMgl - #3 * EVar
   vlmMst1) * EVar vMt * EVar vx * EPow P5 (EVar vMgl) - (#1 + #2 * EVar vlmMst1) * EVar vs2t * EPow P6 (EVar vMst1)))
   / EPow P6 (EVar vMst1))))) / (#19440 * EPow P6 (EVar vMst2)).

(** H9q2.cpp:187-867 *)
Definition H9q2_getS2 : expr :=
  (#576 * EVar vAl4p * EConst Cz2 * (#1440 * EVar vtwoLoopFlag * EPow P2 (EVar vSbeta) * EPow P3 (EVar vMgl) * EPow P3
   (EVar vMt) * EPow P4 (EVar vMsq) * (EVar vxDmst12 * EPow P2 (EVar vMst1) * (#3 * EVar vx * EPow P2 (EVar vMgl) *
   (EVar vMt * (EVar vMuSUSY - EVar vMgl * EVar vTbeta) + EVar vs2t * EVar vTbeta * EPow P2 (EVar vMgl)) - (EVar vMt *
   EVar vMuSUSY + #4 * EVar vs2t * EVar vTbeta * EVar vx * EPow P2 (EVar vMgl)) * EPow P2 (EVar vMst1)) * EPow P3
   (EVar vDmst12) + (EVar vDmst12 * EVar vs2t * EVar vTbeta * EPow P2 (EVar vMst1) + EVar vMt * EVar vMuSUSY * (EVar
   vDmst12 + EPow P2 (EVar vMst2))) * EPow P4 (EVar vMst1) * EPow P4 (EVar vMst2) + EVar vx * EPow P2 (EVar vMgl) *
   EPow P2 (EVar vMst2) * (EVar vDmst12 * EPow P2 (EVar vMst1) * (EVar vDmst12 * (- #3 * EVar vMt * (EVar vMuSUSY -
   EVar vMgl * EVar vTbeta) + EVar vs2t * EVar vTbeta * (- #3 * EPow P2 (EVar vMgl) + EPow P2 (EVar vMst1))) + (#3 *
   EVar vMt * (EVar vMuSUSY - EVar vMgl * EVar vTbeta) + EVar vs2t * EVar vTbeta * (#3 * EPow P2 (EVar vMgl) + #2 *
   EPow P2 (EVar vMst1))) * EPow P2 (EVar vMst2)) + EVar vMt * (EVar vMuSUSY - EVar vMgl * EVar vTbeta) * (#3 * EPow
   P2 (EVar vMgl) + #2 * EPow P2 (EVar vMst1)) * EPow P4 (EVar vMst2))) - #5 * EPow P2 (EVar vMst1) * (EVar vMt * EVar
   vxMgl * EPow P4 (EVar vMgl) * (EPow P2 (EVar vMst1) * EPow P2 (EVar vSbeta) * (- #9 * EVar vMt * EVar vxDmst12 *
   EPow P3 (EVar vDmst12) * (#400 * EVar vAl4p * EVar vthreeLoopFlag * EVar vxDmsqst1 * EPow P2 (EVar vDmsqst1) *
   (EVar vMt * EVar vMuSUSY * EVar vs2t + #6 * (#4 + EVar vlmMst1 - EVar vlmMt) * EVar vTbeta * EPow P2 (EVar vMt) -
   EVar vTbeta * EPow P2 (EVar vMst1) * EPow P2 (EVar vs2t)) + #64 * EVar vTbeta * EVar vtwoLoopFlag * EPow P2 (EVar
   vMt) * EPow P4 (EVar vMsq)) + #144 * EVar vTbeta * EVar vtwoLoopFlag * EPow P2 (EVar vMst2) * EPow P3 (EVar vMt) *
   EPow P4 (EVar vMsq) * (EPow P2 (EVar vDmst12) + #2 * EVar vDmst12 * EPow P2 (EVar vMst2) + #2 * EPow P4 (EVar
   vMst2))) - EVar vAl4p * EVar vthreeLoopFlag * (EVar vxDmst12 * EPow P2 (EVar vMsq) * EPow P3 (EVar vDmst12) * (#3 *
   EVar vMt * EVar vMuSUSY * EVar vs2t * EPow P2 (EVar vMst1) * (#8 * (- #49 + #17 * EVar vlmMgl - #17 * EVar vlmMst1)
   * EVar vMuSUSY * EVar vs2t * EVar vTbeta * EPow P2 (EVar vMsq) + #16 * EVar vMt * (#75 * EVar vDmsqst1 + #2 * (#170
   - #27 * EVar vlmMgl + #27 * EVar vlmMst1) * EPow P2 (EVar vMsq)) * EPow P2 (EVar vSbeta)) + EVar vTbeta * EPow P2
   (EVar vSbeta) * (- #3 * EVar vMt * EPow P2 (EVar vMst1) * (#4 * (#300 * EVar vDmsqst1 + (- #242 + #27 * EVar vlmMgl
   - #27 * EVar vlmMst1) * EPow P2 (EVar vMsq)) * EPow P2 (EVar vMst1) + #8 * (- #49 + #17 * EVar vlmMgl - #17 * EVar
   vlmMst1) * EPow P2 (EVar vMsq) * EPow P2 (EVar vMuSUSY)) * EPow P2 (EVar vs2t) + (#21600 * EVar vDmsqst1 * (#4 +
   EVar vlmMst1 - EVar vlmMt) * EPow P2 (EVar vMst1) - #16 * EPow P2 (EVar vMsq) * ((#2363 + #324 * EVar vlmMgl + #564
   * EVar vlmMst1 - #2004 * EVar vlmMt) * EPow P2 (EVar vMst1) + #18 * (- #17 + #4 * EVar vlmMgl - #4 * EVar vlmMst1)
   * EPow P2 (EVar vMuSUSY))) * EPow P3 (EVar vMt)) + #12 * EVar vMuSUSY * EPow P2 (EVar vMsq) * (#24 * (- #17 + #4 *
   EVar vlmMgl - #4 * EVar vlmMst1) * EVar vMuSUSY * EVar vTbeta * EPow P3 (EVar vMt) + (#49 - #17 * EVar vlmMgl + #17
   * EVar vlmMst1) * EPow P2 (EVar vSbeta) * EPow P3 (EVar vs2t) * EPow P4 (EVar vMst1))) + #1800 * EVar vMt * EVar
   vxDmsqst1 * EPow P2 (EVar vDmsqst1) * EPow P2 (EVar vMst1) * EPow P2 (EVar vMst2) * EPow P2 (EVar vSbeta) * (#2 *
   EVar vDmst12 * EVar vMt * (EVar vMuSUSY * EVar vs2t + #6 * (#4 + EVar vlmMst1 - EVar vlmMt) * EVar vMt * EVar
   vTbeta) * EPow P2 (EVar vMst2) + EPow P2 (EVar vDmst12) * (- #2 * EVar vMt * EVar vMuSUSY * EVar vs2t - #12 * (#4 +
   EVar vlmMst1 - EVar vlmMt) * EVar vTbeta * EPow P2 (EVar vMt) + EVar vTbeta * EPow P2 (EVar vMst1) * EPow P2 (EVar
   vs2t)) + #2 * (#19 + #5 * EVar vlmMst1 - #5 * EVar vlmMt) * EVar vTbeta * EPow P2 (EVar vMt) * EPow P4 (EVar
   vMst2)))) + EVar vAl4p * EVar vthreeLoopFlag * (- (EVar vxMgl * EPow P2 (EVar vMsq) * EPow P2 (EVar vMst2) * EPow
   P2 (EVar vMt) * EPow P4 (EVar vMgl) * (#3 * EVar vDmst12 * EVar vs2t * EPow P2 (EVar vMst1) * (- #600 * EVar
   vDmsqst1 * (#2 * EVar vDmst12 * EVar vMt * EVar vMuSUSY - EVar vDmst12 * EVar vs2t * EVar vTbeta * EPow P2 (EVar
   vMst1) - #2 * EVar vMt * EVar vMuSUSY * EPow P2 (EVar vMst2)) * EPow P2 (EVar vSbeta) + #4 * EPow P2 (EVar vMsq) *
   (#2 * EVar vDmst12 * (- #146 + #27 * EVar vlmMgl - #27 * EVar vlmMst1) * EVar vMt * EVar vMuSUSY * EPow P2 (EVar
   vSbeta) + #4 * (- #194 + #27 * EVar vlmMgl - #27 * EVar vlmMst1) * EVar vMt * EVar vMuSUSY * EPow P2 (EVar vMst2) *
   EPow P2 (EVar vSbeta) + EVar vDmst12 * EVar vs2t * EVar vTbeta * ((- #49 + #17 * EVar vlmMgl - #17 * EVar vlmMst1)
   * EPow P2 (EVar vMuSUSY) * (- #1 + EPow P2 (EVar vSbeta)) + #2 * (- #194 + #27 * EVar vlmMgl - #27 * EVar vlmMst1)
   * EPow P2 (EVar vMst1) * EPow P2 (EVar vSbeta)))) + EVar vTbeta * EPow P2 (EVar vMt) * (#32 * EPow P2 (EVar vMsq) *
   EPow P2 (EVar vMuSUSY) * (#9 * EVar vDmst12 * (#17 - #4 * EVar vlmMgl + #4 * EVar vlmMst1) * (EVar vDmst12 - EPow
   P2 (EVar vMst2)) + #2 * (- #47 + #12 * EVar vlmMgl - #12 * EVar vlmMst1) * EPow P4 (EVar vMst2)) - EPow P2 (EVar
   vSbeta) * (#32 * EPow P2 (EVar vMsq) * EPow P2 (EVar vMuSUSY) * (#9 * EVar vDmst12 * (#17 - #4 * EVar vlmMgl + #4 *
   EVar vlmMst1) * (EVar vDmst12 - EPow P2 (EVar vMst2)) + #2 * (- #47 + #12 * EVar vlmMgl - #12 * EVar vlmMst1) *
   EPow P4 (EVar vMst2)) + EPow P2 (EVar vMst1) * (#7200 * EVar vDmsqst1 * (#4 + EVar vlmMst1 - EVar vlmMt) * (#3 *
   EPow P2 (EVar vDmst12) - #3 * EVar vDmst12 * EPow P2 (EVar vMst2) - EPow P4 (EVar vMst2)) - #4 * EPow P2 (EVar
   vMsq) * (#3 * (#2997 + #108 * EVar vlmMgl + #798 * EVar vlmMst1 - #1214 * EVar vlmMt) * EPow P2 (EVar vDmst12) + #2
   * EVar vDmst12 * (- #4265 + #324 * EVar vlmMgl - #1266 * EVar vlmMst1 - #366 * EVar vlmMt) * EPow P2 (EVar vMst2) +
   #2 * (- #5207 + #324 * EVar vlmMgl - #1716 * EVar vlmMst1 + #84 * EVar vlmMt) * EPow P4 (EVar vMst2))))))) + #3 *
   EVar vxDmsqst1 * EVar vxDmst12 * EPow P2 (EVar vDmsqst1) * EPow P2 (EVar vMst1) * EPow P3 (EVar vDmst12) * (EVar
   vMt * (#10 * EVar vMgl * EPow P2 (EVar vMst1) * (#4 * EVar vs2t * EPow P2 (EVar vMt) * (#7 * EVar vTbeta * EPow P2
   (EVar vMuSUSY) * (- #1 + EPow P2 (EVar vSbeta)) + #63 * EVar vMgl * EVar vMuSUSY * EPow P2 (EVar vSbeta) - #12 *
   (#13 + #4 * EVar vlmMst1 - #4 * EVar vlmMt) * EVar vTbeta * EPow P2 (EVar vMst1) * EPow P2 (EVar vSbeta)) - #6 *
   EVar vMt * EPow P2 (EVar vs2t) * (- (EVar vMgl * EVar vTbeta * EPow P2 (EVar vMuSUSY) * (- #1 + EPow P2 (EVar
   vSbeta))) + #4 * (EVar vMuSUSY - #3 * EVar vMgl * EVar vTbeta) * EPow P2 (EVar vMst1) * EPow P2 (EVar vSbeta)) -
   #12 * ((#78 + #20 * EVar vlmMst1 - #20 * EVar vlmMt) * EVar vMuSUSY - #3 * (#81 + #22 * EVar vlmMst1 - #22 * EVar
   vlmMt) * EVar vMgl * EVar vTbeta) * EPow P2 (EVar vSbeta) * EPow P3 (EVar vMt) + EPow P2 (EVar vMst1) * (#3 * EVar
   vMgl * EVar vMuSUSY + #10 * EVar vTbeta * EPow P2 (EVar vMst1)) * EPow P2 (EVar vSbeta) * EPow P3 (EVar vs2t)) +
   #80 * EPow P3 (EVar vMgl) * (EVar vMuSUSY * EPow P2 (EVar vSbeta) * (- #6 * EVar vMt * EPow P2 (EVar vMst1) * EPow
   P2 (EVar vs2t) + #72 * (#4 + EVar vlmMst1 - EVar vlmMt) * EPow P3 (EVar vMt)) + EVar vTbeta * (- #2 * EVar vs2t *
   EPow P2 (EVar vMt) * (EPow P2 (EVar vMuSUSY) * (- #1 + EPow P2 (EVar vSbeta)) + #3 * (#65 + #14 * EVar vlmMst1 -
   #14 * EVar vlmMt) * EPow P2 (EVar vMst1) * EPow P2 (EVar vSbeta)) + EPow P2 (EVar vSbeta) * EPow P3 (EVar vs2t) *
   EPow P4 (EVar vMst1)))) + EPow P4 (EVar vMst1) * (#2 * EVar vTbeta * EPow P2 (EVar vMt) * EPow P2 (EVar vs2t) * (-
   ((- #15 + #3 * EVar vshiftst1 + #2 * EVar vshiftst2) * EPow P2 (EVar vMuSUSY) * (- #1 + EPow P2 (EVar vSbeta))) +
   #10 * (#9 - #8 * EVar vshiftst1 + #2 * EVar vshiftst2) * EPow P2 (EVar vMst1) * EPow P2 (EVar vSbeta)) + #5 * EPow
   P2 (EVar vSbeta) * (#96 * EVar vMuSUSY * EVar vs2t * EPow P3 (EVar vMt) + EVar vMt * EVar vMuSUSY * (#9 - #8 * EVar
   vshiftst1 + #4 * EVar vshiftst2) * EPow P2 (EVar vMst1) * EPow P3 (EVar vs2t) + #16 * (#11 + #6 * EVar vlmMst1 - #6
   * EVar vlmMt) * EVar vTbeta * EPow P4 (EVar vMt) + #2 * (EVar vshiftst1 - EVar vshiftst2) * EVar vTbeta * EPow P4
   (EVar vMst1) * EPow P4 (EVar vs2t)))))) - EVar vAl4p * EVar vthreeLoopFlag * EPow P4 (EVar vMst1) * (#75 * EVar
   vxDmsqst1 * EPow P2 (EVar vDmsqst1) * EPow P2 (EVar vMst2) * (EVar vTbeta * EPow P2 (EVar vMt) * (EVar vDmst12 *
   EVar vs2t * (#8 * EVar vMgl * EVar vMt * (#4 * EPow P2 (EVar vMgl) + #5 * EPow P2 (EVar vMst1)) * EPow P2 (EVar
   vMst2) * EPow P2 (EVar vMuSUSY) - EVar vDmst12 * (- #8 * EVar vMgl * EVar vMt * EPow P2 (EVar vMst1) * EPow P2
   (EVar vMuSUSY) + #6 * EVar vs2t * EPow P2 (EVar vMgl) * EPow P2 (EVar vMst1) * (EPow P2 (EVar vMuSUSY) * (- #1 +
   EPow P2 (EVar vSbeta)) + #30 * EPow P2 (EVar vMst1) * EPow P2 (EVar vSbeta)) + #32 * EVar vMt * EPow P2 (EVar
   vMuSUSY) * EPow P3 (EVar vMgl) + #9 * EVar vs2t * (EPow P2 (EVar vMuSUSY) * (- #1 + EPow P2 (EVar vSbeta)) + #8 *
   EPow P2 (EVar vMst1) * EPow P2 (EVar vSbeta)) * EPow P4 (EVar vMst1))) - #2 * EPow P4 (EVar vMst1) * (EPow P2 (EVar
   vDmst12) * EPow P2 (EVar vs2t) * (- ((EVar vshiftst1 + EVar vshiftst2) * EPow P2 (EVar vMuSUSY) * (- #1 + EPow P2
   (EVar vSbeta))) + #6 * (- #3 * EVar vshiftst1 + EVar vshiftst2) * EPow P2 (EVar vMst1) * EPow P2 (EVar vSbeta)) +
   #2 * EVar vDmst12 * EPow P2 (EVar vMst2) * ((EVar vshiftst1 - EVar vshiftst2) * EPow P2 (EVar vMuSUSY) * EPow P2
   (EVar vs2t) * (- #1 + EPow P2 (EVar vSbeta)) + #12 * (EVar vshiftst2 * EPow P2 (EVar vMt) + (EVar vshiftst1 - EVar
   vshiftst2) * EPow P2 (EVar vMst1) * EPow P2 (EVar vs2t)) * EPow P2 (EVar vSbeta)) + #24 * (EVar vshiftst1 + EVar
   vshiftst2) * EPow P2 (EVar vMt) * EPow P2 (EVar vSbeta) * EPow P4 (EVar vMst2)) + #4 * EVar vMt * EPow P2 (EVar
   vSbeta) * (#2 * EVar vDmst12 * EVar vs2t * (EVar vMgl * (EVar vDmst12 * (#4 * EPow P2 (EVar vMgl) - EPow P2 (EVar
   vMst1)) - (#4 * EPow P2 (EVar vMgl) + #5 * EPow P2 (EVar vMst1)) * EPow P2 (EVar vMst2)) * EPow P2 (EVar vMuSUSY) +
   #12 * EPow P2 (EVar vMst1) * (EVar vMgl * ((#43 + #10 * EVar vlmMst1 - #10 * EVar vlmMt) * EPow P2 (EVar vMgl) +
   (#15 + #4 * EVar vlmMst1 - #4 * EVar vlmMt) * EPow P2 (EVar vMst1)) * EPow P2 (EVar vMst2) + EVar vDmst12 * ((#11 +
   #3 * EVar vlmMst1 - #3 * EVar vlmMt) * EVar vMgl * EPow P2 (EVar vMst1) + (#11 + #2 * EVar vlmMst1 - #2 * EVar
   vlmMt) * EPow P3 (EVar vMgl)))) - #9 * EVar vMt * EPow P2 (EVar vMst1) * (EPow P2 (EVar vDmst12) * (#4 * (#9 + #2 *
   EVar vlmMst1 - #2 * EVar vlmMt) * EPow P2 (EVar vMgl) + (#5 + #2 * EVar vlmMst1 - #2 * EVar vlmMt) * EPow P2 (EVar
   vMst1)) + #2 * EVar vDmst12 * ((#45 + #14 * EVar vlmMst1 - #14 * EVar vlmMt) * EPow P2 (EVar vMgl) + (#3 + #2 *
   EVar vlmMst1 - #2 * EVar vlmMt) * EPow P2 (EVar vMst1)) * EPow P2 (EVar vMst2) + #4 * ((#13 + #4 * EVar vlmMst1 -
   #4 * EVar vlmMt) * EPow P2 (EVar vMgl) + (#1 + EVar vlmMst1 - EVar vlmMt) * EPow P2 (EVar vMst1)) * EPow P4 (EVar
   vMst2)))) + #6 * EVar vMuSUSY * EPow P2 (EVar vSbeta) * (EPow P3 (EVar vMt) * (#4 * EVar vDmst12 * EPow P2 (EVar
   vMst2) * (#2 * (#45 + #14 * EVar vlmMst1 - #14 * EVar vlmMt) * EVar vMgl * EVar vMt * EPow P2 (EVar vMst1) - #15 *
   EVar vs2t * EPow P2 (EVar vMgl) * EPow P2 (EVar vMst1) + #48 * (#4 + EVar vlmMst1 - EVar vlmMt) * EVar vMt * EPow
   P3 (EVar vMgl) + #2 * EVar vs2t * (- #3 + EVar vshiftst2) * EPow P4 (EVar vMst1)) + #8 * (#2 * (#13 + #4 * EVar
   vlmMst1 - #4 * EVar vlmMt) * EVar vMgl * EVar vMt * EPow P2 (EVar vMst1) + #4 * (#19 + #5 * EVar vlmMst1 - #5 *
   EVar vlmMt) * EVar vMt * EPow P3 (EVar vMgl) + EVar vs2t * (- EVar vshiftst1 + EVar vshiftst2) * EPow P4 (EVar
   vMst1)) * EPow P4 (EVar vMst2)) - EVar vMt * EPow P2 (EVar vDmst12) * (#4 * EVar vMgl * ((#6 + #4 * EVar vlmMst1 -
   #4 * EVar vlmMt) * EVar vMt + #3 * EVar vMgl * EVar vs2t) * EPow P2 (EVar vMst1) * EPow P2 (EVar vMt) + #8 * EPow
   P3 (EVar vMgl) * (- (EVar vMt * EPow P2 (EVar vMst1) * EPow P2 (EVar vs2t)) + #24 * (#4 + EVar vlmMst1 - EVar
   vlmMt) * EPow P3 (EVar vMt)) + #2 * EVar vMt * EVar vs2t * (#6 * EVar vMt - #5 * EVar vMgl * EVar vs2t) * EPow P4
   (EVar vMst1) - (EVar vshiftst1 - EVar vshiftst2) * EPow P3 (EVar vs2t) * EPow P6 (EVar vMst1)))) - EVar vxDmst12 *
   EPow P2 (EVar vMsq) * EPow P3 (EVar vDmst12) * (EVar vTbeta * (#4 * EVar vMgl * (#498 * EVar vMgl * EVar vMt * EPow
   P2 (EVar vMsq) - #40 * EVar vs2t * EPow P2 (EVar vMgl) * (#15 * EVar vDmsqst1 + (- #94 + #45 * EVar vlmMgl - #45 *
   EVar vlmMst1) * EPow P2 (EVar vMsq)) + #3 * EVar vs2t * (#500 * EVar vDmsqst1 - #79 * EPow P2 (EVar vMsq)) * EPow
   P2 (EVar vMst1)) * EPow P2 (EVar vMuSUSY) * EPow P3 (EVar vMt) + EPow P2 (EVar vs2t) * (#5 * EPow P2 (EVar vMst1) *
   EPow P2 (EVar vMt) * (#2 * (#90 * EVar vDmsqst1 * EPow P2 (EVar vMgl) - EPow P2 (EVar vMsq) * (#91 * EPow P2 (EVar
   vMgl) + #2 * EPow P2 (EVar vMst1))) * EPow P2 (EVar vMuSUSY) + #6 * EVar vshiftst1 * (EVar vDmsqst1 + EPow P2 (EVar
   vMsq)) * EPow P2 (EVar vMst1) * (#80 * EPow P2 (EVar vMst1) + #3 * EPow P2 (EVar vMuSUSY)) * EPow P2 (EVar vSbeta))
   - #30 * (EVar vDmsqst1 + EPow P2 (EVar vMsq)) * EPow P4 (EVar vMst1) * (EPow P2 (EVar vMt) * (#20 * EVar vshiftst2
   * EPow P2 (EVar vMst1) * EPow P2 (EVar vSbeta) + EPow P2 (EVar vMuSUSY) * (#3 * EVar vshiftst1 + #2 * EVar
   vshiftst2 - #2 * EVar vshiftst2 * EPow P2 (EVar vSbeta))) + #5 * (EVar vshiftst1 - EVar vshiftst2) * EPow P2 (EVar
   vs2t) * EPow P2 (EVar vSbeta) * EPow P4 (EVar vMst1))) + EVar vMt * EPow P2 (EVar vSbeta) * (- #20 * (EVar vMgl *
   (#30 * EVar vDmsqst1 - #17 * EPow P2 (EVar vMsq)) * EPow P2 (EVar vMst1) + (#60 * EVar vDmsqst1 + (#113 - #90 *
   EVar vlmMgl + #90 * EVar vlmMst1) * EPow P2 (EVar vMsq)) * EPow P3 (EVar vMgl)) * EPow P3 (EVar vs2t) * EPow P4
   (EVar vMst1) + #10 * EVar vMt * EPow P2 (EVar vMst1) * EPow P2 (EVar vs2t) * (EPow P2 (EVar vMsq) * (#2 * EPow P2
   (EVar vMst1) * EPow P2 (EVar vMuSUSY) + EPow P2 (EVar vMgl) * (#1332 * EPow P2 (EVar vMst1) + #91 * EPow P2 (EVar
   vMuSUSY)) - #90 * EPow P4 (EVar vMst1)) - #90 * EVar vDmsqst1 * (EPow P2 (EVar vMgl) * (- #6 * EPow P2 (EVar vMst1)
   + EPow P2 (EVar vMuSUSY)) + #2 * EPow P4 (EVar vMst1))) - #4 * EVar vMgl * EVar vs2t * EPow P2 (EVar vMt) * (#300 *
   EVar vDmsqst1 * (#5 * EPow P2 (EVar vMst1) * EPow P2 (EVar vMuSUSY) - #2 * EPow P2 (EVar vMgl) * (#30 * (#9 + #2 *
   EVar vlmMst1 - #2 * EVar vlmMt) * EPow P2 (EVar vMst1) + EPow P2 (EVar vMuSUSY)) + #6 * EPow P4 (EVar vMst1)) +
   EPow P2 (EVar vMsq) * (- #237 * EPow P2 (EVar vMst1) * EPow P2 (EVar vMuSUSY) + #20 * EPow P2 (EVar vMgl) * (#21 *
   (#56 + #11 * EVar vlmMst1 - #11 * EVar vlmMt) * EPow P2 (EVar vMst1) + #2 * (#94 - #45 * EVar vlmMgl + #45 * EVar
   vlmMst1) * EPow P2 (EVar vMuSUSY)) + #60 * (#32 + #5 * EVar vlmMst1 - #5 * EVar vlmMt) * EPow P4 (EVar vMst1))) -
   EPow P3 (EVar vMt) * (#1200 * EVar vDmsqst1 * (#63 * (#7 + #2 * EVar vlmMst1 - #2 * EVar vlmMt) * EPow P2 (EVar
   vMgl) * EPow P2 (EVar vMst1) - EPow P4 (EVar vMst1)) - #8 * EPow P2 (EVar vMsq) * (EPow P2 (EVar vMgl) * (#5 *
   (#929 + #210 * EVar vlmMst1 - #210 * EVar vlmMt) * EPow P2 (EVar vMst1) - #249 * EPow P2 (EVar vMuSUSY)) + #5 *
   (#17 - #24 * EVar vlmMst1 + #24 * EVar vlmMt) * EPow P4 (EVar vMst1)))) - #3 * EVar vshiftst3 * EPow P2 (EVar vMsq)
   * EPow P4 (EVar vMst1) * (- #2 * EPow P2 (EVar vMt) * EPow P2 (EVar vs2t) * (#9 * EPow P2 (EVar vMuSUSY) * (- #1 +
   EPow P2 (EVar vSbeta)) + #145 * EPow P2 (EVar vMst1) * EPow P2 (EVar vSbeta)) + #5 * EPow P2 (EVar vSbeta) * (#24 *
   EPow P4 (EVar vMt) + EPow P4 (EVar vMst1) * EPow P4 (EVar vs2t)))) + EVar vMt * EVar vMuSUSY * EPow P2 (EVar
   vSbeta) * (EPow P2 (EVar vMsq) * (- #80 * EVar vMgl * EVar vMt * EPow P2 (EVar vMst1) * ((#16 - #9 * EVar vlmMst1 +
   #9 * EVar vlmMt) * EPow P2 (EVar vMt) + #24 * EPow P2 (EVar vMst1) * EPow P2 (EVar vs2t)) + #10 * EVar vMt * (#32 *
   (#380 + #147 * EVar vlmMst1 - #249 * EVar vlmMt) * EPow P2 (EVar vMt) - #3 * (#37 + #90 * EVar vlmMgl - #90 * EVar
   vlmMst1) * EPow P2 (EVar vMst1) * EPow P2 (EVar vs2t)) * EPow P3 (EVar vMgl) + #5 * EVar vs2t * (- #8 * (- #16 + #9
   * EVar vshiftst3) * EPow P2 (EVar vMt) + (- #41 + #120 * EVar vshiftst1 - #60 * EVar vshiftst2 + #21 * EVar
   vshiftst3) * EPow P2 (EVar vMst1) * EPow P2 (EVar vs2t)) * EPow P4 (EVar vMst1) + #2 * EPow P2 (EVar vMgl) * (#4556
   * EVar vs2t * EPow P2 (EVar vMst1) * EPow P2 (EVar vMt) + #685 * EPow P3 (EVar vs2t) * EPow P4 (EVar vMst1))) -
   #150 * EVar vDmsqst1 * (#12 * EVar vMgl * EVar vMt * EPow P2 (EVar vMst1) * (- #16 * (#7 + #2 * EVar vlmMst1 - #2 *
   EVar vlmMt) * EPow P2 (EVar vMt) + EPow P2 (EVar vMst1) * EPow P2 (EVar vs2t)) + #48 * EPow P3 (EVar vMgl) * (-
   (EVar vMt * EPow P2 (EVar vMst1) * EPow P2 (EVar vs2t)) + #12 * (#4 + EVar vlmMst1 - EVar vlmMt) * EPow P3 (EVar
   vMt)) + #3 * EPow P2 (EVar vMgl) * (#120 * EVar vs2t * EPow P2 (EVar vMst1) * EPow P2 (EVar vMt) + EPow P3 (EVar
   vs2t) * EPow P4 (EVar vMst1)) + (#3 - #4 * EVar vshiftst1 + #2 * EVar vshiftst2) * EPow P3 (EVar vs2t) * EPow P6
   (EVar vMst1)))))) + EVar vthreeLoopFlag * EPow P2 (EVar vAl4p) * (- #576 * EPow P4 (EVar vMst1) * (#900 * EVar
   vxDmsqst1 * EVar vxDmst12 * EVar vxMgl * EPow P2 (EVar vDmsqst1) * EPow P2 (EVar vMt) * (#2 * (#29 - #10 * EVar
   vlmMgl + #10 * EVar vlmMst1) * EVar vMt * EVar vMuSUSY * EVar vs2t + EVar vTbeta * (#307 + #4 * EVar vlmMst1 * (#67
   - #5 * EVar vlmMt) - #10 * EVar vlmMgl * (#3 + #2 * EVar vlmMst1 - #2 * EVar vlmMt) - #238 * EVar vlmMt + #20 *
   EPow P2 (EVar vlmMst1)) * EPow P2 (EVar vMt) + #2 * (- #29 + #10 * EVar vlmMgl - #10 * EVar vlmMst1) * EVar vTbeta
   * EPow P2 (EVar vMst1) * EPow P2 (EVar vs2t)) * EPow P2 (EVar vSbeta) * EPow P3 (EVar vDmst12) * EPow P4 (EVar
   vMgl) - EConst Cz2 * EPow P2 (EVar vMsq) * EPow P2 (EVar vMst2) * (#5 * EVar vMuSUSY * EPow P2 (EVar vSbeta) * (#12
   * EVar vDmst12 * EVar vs2t * EPow P2 (EVar vMst1) * EPow P2 (EVar vMt) * (#6 * EVar vMt * (#10 * EVar vDmsqst1 *
   (EVar vDmst12 * (#6 * EPow P2 (EVar vMgl) + EPow P2 (EVar vMst1)) + (#3 * EPow P2 (EVar vMgl) + #2 * EPow P2 (EVar
   vMst1)) * EPow P2 (EVar vMst2)) + EPow P2 (EVar vMsq) * (#5 * EVar vDmst12 * (#3 * EPow P2 (EVar vMgl) + EPow P2
   (EVar vMst1)) + (- #59 * EPow P2 (EVar vMgl) + #10 * EPow P2 (EVar vMst1)) * EPow P2 (EVar vMst2))) - EVar vDmst12
   * EVar vs2t * (EVar vMgl * (#30 * EVar vDmsqst1 - #17 * EPow P2 (EVar vMsq)) * EPow P2 (EVar vMst1) + (#60 * EVar
   vDmsqst1 + (#113 - #90 * EVar vlmMgl + #90 * EVar vlmMst1) * EPow P2 (EVar vMsq)) * EPow P3 (EVar vMgl))) + EPow P4
   (EVar vMst1) * (#90 * (EVar vDmsqst1 + EPow P2 (EVar vMsq)) * (- #8 * EVar vDmst12 * EVar vs2t * EVar vshiftst2 *
   EPow P2 (EVar vMst2) * EPow P3 (EVar vMt) + EVar vMt * (- EVar vshiftst1 + EVar vshiftst2) * EPow P2 (EVar vDmst12)
   * EPow P2 (EVar vMst1) * EPow P3 (EVar vs2t) + #8 * EVar vs2t * (EVar vshiftst1 - EVar vshiftst2) * EPow P3 (EVar
   vMt) * EPow P4 (EVar vMst2)) + #9 * EVar vshiftst3 * EPow P2 (EVar vMsq) * (- (EVar vMt * EPow P2 (EVar vDmst12) *
   EPow P2 (EVar vMst1) * EPow P3 (EVar vs2t)) + #8 * EVar vs2t * EPow P3 (EVar vMt) * (EPow P2 (EVar vDmst12) - EVar
   vDmst12 * EPow P2 (EVar vMst2) + EPow P4 (EVar vMst2)))) + (- #16 * EVar vDmst12 * EVar vMgl * (#180 * EVar
   vDmsqst1 * (#6 * (#4 + EVar vlmMst1 - EVar vlmMt) * EPow P2 (EVar vMgl) + (#7 + #2 * EVar vlmMst1 - #2 * EVar
   vlmMt) * EPow P2 (EVar vMst1)) - EPow P2 (EVar vMsq) * ((#1627 + #234 * EVar vlmMst1 + #174 * EVar vlmMt) * EPow P2
   (EVar vMgl) + (- #457 - #87 * EVar vlmMst1 + #87 * EVar vlmMt) * EPow P2 (EVar vMst1))) * EPow P2 (EVar vMst2) +
   EPow P2 (EVar vDmst12) * (- #8 * EVar vMgl * (#180 * EVar vDmsqst1 * (#7 + #2 * EVar vlmMst1 - #2 * EVar vlmMt) +
   (#691 + #216 * EVar vlmMst1 - #216 * EVar vlmMt) * EPow P2 (EVar vMsq)) * EPow P2 (EVar vMst1) + #24 * (#720 * EVar
   vDmsqst1 * (#4 + EVar vlmMst1 - EVar vlmMt) + (- #1049 - #274 * EVar vlmMst1 + #274 * EVar vlmMt) * EPow P2 (EVar
   vMsq)) * EPow P3 (EVar vMgl)) - #32 * (#90 * EVar vDmsqst1 * (#4 + EVar vlmMst1 - EVar vlmMt) * EVar vMgl * (#2 *
   EPow P2 (EVar vMgl) + EPow P2 (EVar vMst1)) + EVar vMgl * EPow P2 (EVar vMsq) * ((- #1070 - #207 * EVar vlmMst1 +
   #3 * EVar vlmMt) * EPow P2 (EVar vMgl) + (#100 - #3 * EVar vlmMst1 + #3 * EVar vlmMt) * EPow P2 (EVar vMst1))) *
   EPow P4 (EVar vMst2)) * EPow P4 (EVar vMt)) + EVar vTbeta * (EPow P2 (EVar vMt) * EPow P2 (EVar vMuSUSY) * (#4 *
   EPow P2 (EVar vMgl) * EPow P2 (EVar vMsq) * (#11 * EPow P2 (EVar vDmst12) - #520 * EPow P2 (EVar vMst2) * (EVar
   vDmst12 + EPow P2 (EVar vMst2))) * EPow P2 (EVar vMt) - #5 * EPow P2 (EVar vDmst12) * EPow P2 (EVar vMst1) * (#90 *
   EVar vDmsqst1 * (EPow P2 (EVar vMgl) + EPow P2 (EVar vMst1)) + EPow P2 (EVar vMsq) * (- #274 * EPow P2 (EVar vMgl)
   + #41 * EPow P2 (EVar vMst1))) * EPow P2 (EVar vs2t) + #20 * EVar vDmst12 * EVar vMt * EVar vs2t * (EVar vDmst12 *
   (- #30 * EVar vMgl * (#4 * EVar vDmsqst1 + EPow P2 (EVar vMsq)) * EPow P2 (EVar vMst1) + (#120 * EVar vDmsqst1 + (-
   #263 + #90 * EVar vlmMgl - #90 * EVar vlmMst1) * EPow P2 (EVar vMsq)) * EPow P3 (EVar vMgl)) - #2 * EPow P2 (EVar
   vMst2) * (EVar vMgl * (#30 * EVar vDmsqst1 - #17 * EPow P2 (EVar vMsq)) * EPow P2 (EVar vMst1) + (#60 * EVar
   vDmsqst1 + (#113 - #90 * EVar vlmMgl + #90 * EVar vlmMst1) * EPow P2 (EVar vMsq)) * EPow P3 (EVar vMgl)))) + EPow
   P2 (EVar vMt) * EPow P2 (EVar vSbeta) * (- #5 * EVar vDmst12 * EVar vMt * EVar vs2t * (#4 * EPow P2 (EVar vMuSUSY)
   * (EVar vDmst12 * (- #30 * EVar vMgl * (#4 * EVar vDmsqst1 + EPow P2 (EVar vMsq)) * EPow P2 (EVar vMst1) + (#120 *
   EVar vDmsqst1 + (- #263 + #90 * EVar vlmMgl - #90 * EVar vlmMst1) * EPow P2 (EVar vMsq)) * EPow P3 (EVar vMgl)) -
   #2 * EPow P2 (EVar vMst2) * (EVar vMgl * (#30 * EVar vDmsqst1 - #17 * EPow P2 (EVar vMsq)) * EPow P2 (EVar vMst1) +
   (#60 * EVar vDmsqst1 + (#113 - #90 * EVar vlmMgl + #90 * EVar vlmMst1) * EPow P2 (EVar vMsq)) * EPow P3 (EVar
   vMgl))) + EPow P2 (EVar vMst1) * (#16 * EVar vMgl * (#90 * EVar vDmsqst1 * (#9 + #2 * EVar vlmMst1 - #2 * EVar
   vlmMt) * (#2 * EPow P2 (EVar vMgl) + EPow P2 (EVar vMst1)) + EPow P2 (EVar vMsq) * ((- #2143 - #414 * EVar vlmMst1
   + #6 * EVar vlmMt) * EPow P2 (EVar vMgl) + (#197 - #6 * EVar vlmMst1 + #6 * EVar vlmMt) * EPow P2 (EVar vMst1))) *
   EPow P2 (EVar vMst2) + EVar vDmst12 * (#8 * EVar vMgl * (#180 * EVar vDmsqst1 * (#7 + #2 * EVar vlmMst1 - #2 * EVar
   vlmMt) + (#607 + #186 * EVar vlmMst1 - #186 * EVar vlmMt) * EPow P2 (EVar vMsq)) * EPow P2 (EVar vMst1) + #144 *
   (#40 * EVar vDmsqst1 * (#9 + #2 * EVar vlmMst1 - #2 * EVar vlmMt) + (#67 + #20 * EVar vlmMst1 - #20 * EVar vlmMt) *
   EPow P2 (EVar vMsq)) * EPow P3 (EVar vMgl)))) + #5 * EPow P2 (EVar vDmst12) * EPow P2 (EVar vMst1) * EPow P2 (EVar
   vs2t) * (#36 * EPow P2 (EVar vMgl) * (#30 * EVar vDmsqst1 - #59 * EPow P2 (EVar vMsq)) * EPow P2 (EVar vMst1) +
   (#90 * EVar vDmsqst1 * (EPow P2 (EVar vMgl) + EPow P2 (EVar vMst1)) + EPow P2 (EVar vMsq) * (- #274 * EPow P2 (EVar
   vMgl) + #41 * EPow P2 (EVar vMst1))) * EPow P2 (EVar vMuSUSY) + #360 * (#2 * EVar vDmsqst1 + EPow P2 (EVar vMsq)) *
   EPow P4 (EVar vMst1)) + EPow P2 (EVar vMt) * (- #4 * EPow P2 (EVar vMgl) * EPow P2 (EVar vMsq) * (#11 * EPow P2
   (EVar vDmst12) - #520 * EPow P2 (EVar vMst2) * (EVar vDmst12 + EPow P2 (EVar vMst2))) * EPow P2 (EVar vMuSUSY) +
   (#7200 * EVar vDmsqst1 * (#1 + EVar vlmMst1 - EVar vlmMt) + #40 * (#223 + #180 * EVar vlmMst1 - #180 * EVar vlmMt)
   * EPow P2 (EVar vMsq)) * EPow P4 (EVar vMst1) * EPow P4 (EVar vMst2) + #40 * EPow P2 (EVar vMst1) * (EPow P2 (EVar
   vDmst12) * (EPow P2 (EVar vMsq) * (#4 * (#613 + #165 * EVar vlmMst1 - #165 * EVar vlmMt) * EPow P2 (EVar vMgl) +
   #23 * (#5 + #3 * EVar vlmMst1 - #3 * EVar vlmMt) * EPow P2 (EVar vMst1)) + #45 * EVar vDmsqst1 * (#15 * (#7 + #2 *
   EVar vlmMst1 - #2 * EVar vlmMt) * EPow P2 (EVar vMgl) + (#5 + #2 * EVar vlmMst1 - #2 * EVar vlmMt) * EPow P2 (EVar
   vMst1))) + #2 * EVar vDmst12 * (#45 * EVar vDmsqst1 * (#6 * (#7 + #2 * EVar vlmMst1 - #2 * EVar vlmMt) * EPow P2
   (EVar vMgl) + (#3 + #2 * EVar vlmMst1 - #2 * EVar vlmMt) * EPow P2 (EVar vMst1)) + EPow P2 (EVar vMsq) * ((#679 +
   #150 * EVar vlmMst1 - #150 * EVar vlmMt) * EPow P2 (EVar vMgl) + #45 * (#2 + EVar vlmMst1 - EVar vlmMt) * EPow P2
   (EVar vMst1))) * EPow P2 (EVar vMst2) + #4 * EPow P2 (EVar vMgl) * (#135 * EVar vDmsqst1 * (#4 + EVar vlmMst1 -
   EVar vlmMt) + (#124 + #15 * EVar vlmMst1 - #15 * EVar vlmMt) * EPow P2 (EVar vMsq)) * EPow P4 (EVar vMst2)))) +
   EPow P4 (EVar vMst1) * (#150 * (EVar vDmsqst1 + EPow P2 (EVar vMsq)) * EPow P2 (EVar vMt) * (- (EPow P2 (EVar
   vDmst12) * EPow P2 (EVar vs2t) * ((EVar vshiftst1 + EVar vshiftst2) * EPow P2 (EVar vMuSUSY) * (- #1 + EPow P2
   (EVar vSbeta)) + #6 * (#3 * EVar vshiftst1 - EVar vshiftst2) * EPow P2 (EVar vMst1) * EPow P2 (EVar vSbeta))) + #2
   * EVar vDmst12 * EPow P2 (EVar vMst2) * ((EVar vshiftst1 - EVar vshiftst2) * EPow P2 (EVar vMuSUSY) * EPow P2 (EVar
   vs2t) * (- #1 + EPow P2 (EVar vSbeta)) + #12 * (EVar vshiftst2 * EPow P2 (EVar vMt) + (EVar vshiftst1 - EVar
   vshiftst2) * EPow P2 (EVar vMst1) * EPow P2 (EVar vs2t)) * EPow P2 (EVar vSbeta)) + #24 * (EVar vshiftst1 + EVar
   vshiftst2) * EPow P2 (EVar vMt) * EPow P2 (EVar vSbeta) * EPow P4 (EVar vMst2)) + #15 * EVar vshiftst3 * EPow P2
   (EVar vMsq) * (- (EVar vDmst12 * EPow P2 (EVar vMt) * EPow P2 (EVar vs2t) * ((#3 * EVar vDmst12 - #2 * EPow P2
   (EVar vMst2)) * EPow P2 (EVar vMuSUSY) * (- #1 + EPow P2 (EVar vSbeta)) + #6 * EPow P2 (EVar vMst1) * (#7 * EVar
   vDmst12 - #4 * EPow P2 (EVar vMst2)) * EPow P2 (EVar vSbeta))) + #24 * EPow P2 (EVar vSbeta) * (EPow P2 (EVar
   vDmst12) - EVar vDmst12 * EPow P2 (EVar vMst2) + EPow P4 (EVar vMst2)) * EPow P4 (EVar vMt)))))) + #27 * EVar vMt *
   EConst Cz3 * EPow P2 (EVar vMst1) * (#75 * EVar vDmsqst1 * EPow P2 (EVar vMst1) * (EVar vDmsqst1 * EVar vxDmsqst1 *
   (- #4 * EVar vMt * EPow P2 (EVar vDmst12) * EPow P2 (EVar vMst2) * ((#3 * EVar vMt * (#70 * EVar vMuSUSY * EVar
   vs2t + #449 * EVar vMt * EVar vTbeta) * EPow P2 (EVar vSbeta) + #7 * EVar vTbeta * EPow P2 (EVar vs2t) * (#7 * EPow
   P2 (EVar vMuSUSY) * (- #1 + EPow P2 (EVar vSbeta)) + #30 * EPow P2 (EVar vMst1) * EPow P2 (EVar vSbeta))) * EPow P4
   (EVar vMst1) - #2048 * EVar vMgl * EVar vMt * EPow P2 (EVar vSbeta) * (- (EVar vMt * EVar vMuSUSY * EPow P2 (EVar
   vMst1)) - #3 * EVar vMgl * EVar vMt * EVar vTbeta * EPow P2 (EVar vMst1) + #2 * EPow P2 (EVar vMgl) * (- #6 * EVar
   vMt * EVar vMuSUSY + EVar vs2t * EVar vTbeta * EPow P2 (EVar vMst1)) + #15 * EVar vMt * EVar vTbeta * EVar vxMgl *
   EPow P3 (EVar vMgl) + #3 * EVar vs2t * EVar vTbeta * EPow P4 (EVar vMst1))) + EVar vxDmst12 * EPow P3 (EVar
   vDmst12) * ((#140 * EVar vMt * EVar vTbeta * EPow P2 (EVar vs2t) * (EPow P2 (EVar vMuSUSY) * (- #1 + EPow P2 (EVar
   vSbeta)) + #3 * EPow P2 (EVar vMst1) * EPow P2 (EVar vSbeta)) + #7184 * EVar vTbeta * EPow P2 (EVar vSbeta) * EPow
   P3 (EVar vMt) + #7 * EVar vMuSUSY * EPow P2 (EVar vSbeta) * (#159 * EVar vs2t * EPow P2 (EVar vMt) + #28 * EPow P2
   (EVar vMst1) * EPow P3 (EVar vs2t))) * EPow P4 (EVar vMst1) - #4096 * EVar vMgl * EPow P2 (EVar vMt) * EPow P2
   (EVar vSbeta) * (#10 * EVar vMt * EVar vMuSUSY * EPow P2 (EVar vMst1) - #33 * EVar vMgl * EVar vMt * EVar vTbeta *
   EPow P2 (EVar vMst1) - #4 * EPow P2 (EVar vMgl) * (#6 * EVar vMt * EVar vMuSUSY - #7 * EVar vs2t * EVar vTbeta *
   EPow P2 (EVar vMst1)) + #30 * EVar vMt * EVar vTbeta * EVar vxMgl * EPow P3 (EVar vMgl) + #8 * EVar vs2t * EVar
   vTbeta * EPow P4 (EVar vMst1))) + #16 * EPow P2 (EVar vMt) * EPow P2 (EVar vSbeta) * (#1024 * EVar vDmst12 * (#6 *
   EVar vMt * EVar vMuSUSY + #5 * EVar vs2t * EVar vTbeta * EPow P2 (EVar vMst1)) * EPow P3 (EVar vMgl) - #768 * EVar
   vDmst12 * EVar vMt * EVar vTbeta * (#7 * EPow P2 (EVar vMgl) * EPow P2 (EVar vMst1) + #10 * EVar vxMgl * EPow P4
   (EVar vMgl)) - #3 * EVar vDmst12 * (#35 * EVar vMuSUSY * EVar vs2t + #214 * EVar vMt * EVar vTbeta) * EPow P4 (EVar
   vMst1) - #4 * EVar vMt * EPow P2 (EVar vMst2) * (- #512 * EVar vMgl * EVar vMuSUSY * EPow P2 (EVar vMst1) + #768 *
   EVar vTbeta * EPow P2 (EVar vMgl) * EPow P2 (EVar vMst1) - #1280 * EVar vMuSUSY * EPow P3 (EVar vMgl) + #1600 *
   EVar vTbeta * EVar vxMgl * EPow P4 (EVar vMgl) + #171 * EVar vTbeta * EPow P4 (EVar vMst1)) + #512 * EVar vDmst12 *
   EVar vMgl * (#7 * EVar vMt * EVar vMuSUSY * EPow P2 (EVar vMst1) + #4 * EVar vs2t * EVar vTbeta * EPow P4 (EVar
   vMst1))) * EPow P4 (EVar vMst2)) + EPow P2 (EVar vMsq) * (- #16 * EVar vMt * EPow P2 (EVar vDmst12) * EPow P2 (EVar
   vMst2) * (- #256 * EVar vMgl * EVar vMt * EPow P2 (EVar vSbeta) * (- #15 * EVar vMgl * EVar vMt * EVar vTbeta *
   EPow P2 (EVar vMst1) - #8 * EPow P2 (EVar vMgl) * (#3 * EVar vMt * EVar vMuSUSY - #2 * EVar vs2t * EVar vTbeta *
   EPow P2 (EVar vMst1)) + #4 * EPow P2 (EVar vMst1) * (EVar vMt * EVar vMuSUSY + EVar vs2t * EVar vTbeta * EPow P2
   (EVar vMst1)) + #30 * EVar vMt * EVar vTbeta * EVar vxMgl * EPow P3 (EVar vMgl)) + (EVar vMt * (#49 * EVar vMuSUSY
   * EVar vs2t + #214 * EVar vMt * EVar vTbeta) * EPow P2 (EVar vSbeta) + #7 * EVar vTbeta * EPow P2 (EVar vs2t) *
   (EPow P2 (EVar vMuSUSY) * (- #1 + EPow P2 (EVar vSbeta)) + #4 * EPow P2 (EVar vMst1) * EPow P2 (EVar vSbeta))) *
   EPow P4 (EVar vMst1)) - EVar vxDmst12 * EPow P3 (EVar vDmst12) * (#8192 * EVar vMgl * EPow P2 (EVar vMt) * EPow P2
   (EVar vSbeta) * (#8 * EVar vMt * EVar vMuSUSY * EPow P2 (EVar vMst1) - #21 * EVar vMgl * EVar vMt * EVar vTbeta *
   EPow P2 (EVar vMst1) - #4 * EPow P2 (EVar vMgl) * (#3 * EVar vMt * EVar vMuSUSY - #5 * EVar vs2t * EVar vTbeta *
   EPow P2 (EVar vMst1)) + #15 * EVar vMt * EVar vTbeta * EVar vxMgl * EPow P3 (EVar vMgl)) - #7 * (#4 * EVar vMt *
   EVar vTbeta * EPow P2 (EVar vs2t) * (EPow P2 (EVar vMuSUSY) + (#2 * EPow P2 (EVar vMst1) - EPow P2 (EVar vMuSUSY))
   * EPow P2 (EVar vSbeta)) - #24 * EVar vTbeta * EPow P2 (EVar vSbeta) * EPow P3 (EVar vMt) + EVar vMuSUSY * EPow P2
   (EVar vSbeta) * (#31 * EVar vs2t * EPow P2 (EVar vMt) + #16 * EPow P2 (EVar vMst1) * EPow P3 (EVar vs2t))) * EPow
   P4 (EVar vMst1)) + #64 * EPow P2 (EVar vMt) * EPow P2 (EVar vSbeta) * (- #128 * EVar vMt * EPow P2 (EVar vMst2) *
   (- #2 * EVar vMgl * EVar vMuSUSY * EPow P2 (EVar vMst1) + #3 * EVar vTbeta * EPow P2 (EVar vMgl) * EPow P2 (EVar
   vMst1) - #4 * EVar vMuSUSY * EPow P3 (EVar vMgl) + #5 * EVar vTbeta * EVar vxMgl * EPow P4 (EVar vMgl) + EVar
   vTbeta * EPow P4 (EVar vMst1)) - EVar vDmst12 * (- #512 * (#3 * EVar vMt * EVar vMuSUSY + EVar vs2t * EVar vTbeta *
   EPow P2 (EVar vMst1)) * EPow P3 (EVar vMgl) + #384 * EVar vMt * EVar vTbeta * (#2 * EPow P2 (EVar vMgl) * EPow P2
   (EVar vMst1) + #5 * EVar vxMgl * EPow P4 (EVar vMgl)) + (#14 * EVar vMuSUSY * EVar vs2t + #107 * EVar vMt * EVar
   vTbeta) * EPow P4 (EVar vMst1) - #256 * EVar vMgl * (#2 * EVar vMt * EVar vMuSUSY * EPow P2 (EVar vMst1) + EVar
   vs2t * EVar vTbeta * EPow P4 (EVar vMst1)))) * EPow P4 (EVar vMst2))) - #8 * EPow P4 (EVar vMsq) * (- #80 * EVar
   vDmst12 * EPow P2 (EVar vMt) * EPow P4 (EVar vMst2) * (#2 * EPow P2 (EVar vMgl) * EPow P2 (EVar vMst1) * (#7 * EVar
   vMt * EVar vTbeta * EPow P2 (EVar vMuSUSY) * (- #1 + EPow P2 (EVar vSbeta)) + #200 * EVar vMgl * EVar vMt * EVar
   vMuSUSY * EPow P2 (EVar vSbeta) + #4 * (#3 * EVar vMuSUSY * EVar vs2t - #199 * EVar vMt * EVar vTbeta) * EPow P2
   (EVar vMst1) * EPow P2 (EVar vSbeta) - #2 * EVar vMgl * EVar vs2t * EVar vTbeta * (#81 * EPow P2 (EVar vMuSUSY) *
   (- #1 + EPow P2 (EVar vSbeta)) + #380 * EPow P2 (EVar vMst1) * EPow P2 (EVar vSbeta))) + #2 * (EVar vxMgl * (- #363
   * EVar vMt * EVar vTbeta * EPow P2 (EVar vMuSUSY) * (- #1 + EPow P2 (EVar vSbeta)) + #2 * (#279 * EVar vMuSUSY *
   EVar vs2t + #58 * EVar vMt * EVar vTbeta) * EPow P2 (EVar vMst1) * EPow P2 (EVar vSbeta)) * EPow P4 (EVar vMgl) +
   EVar vMgl * (#496 * EVar vMt * EVar vMuSUSY * EPow P2 (EVar vSbeta) + EVar vs2t * EVar vTbeta * (#7 * EPow P2 (EVar
   vMuSUSY) * (- #1 + EPow P2 (EVar vSbeta)) + #32 * EPow P2 (EVar vMst1) * EPow P2 (EVar vSbeta))) * EPow P4 (EVar
   vMst1)) + #3 * (#31 * EVar vMuSUSY * EVar vs2t - #152 * EVar vMt * EVar vTbeta) * EPow P2 (EVar vSbeta) * EPow P6
   (EVar vMst1)) + #20 * EVar vMt * EPow P2 (EVar vDmst12) * EPow P2 (EVar vMst2) * (EPow P2 (EVar vMgl) * EPow P2
   (EVar vMst1) * (- #8 * EVar vMgl * (EVar vMuSUSY * (#2192 * EPow P2 (EVar vMt) + #243 * EPow P2 (EVar vMst1) * EPow
   P2 (EVar vs2t)) * EPow P2 (EVar vSbeta) + #3 * EVar vMt * EVar vs2t * EVar vTbeta * (- #27 * EPow P2 (EVar vMuSUSY)
   * (- #1 + EPow P2 (EVar vSbeta)) + #320 * EPow P2 (EVar vMst1) * EPow P2 (EVar vSbeta))) + EVar vTbeta * (- #6 *
   EPow P2 (EVar vMst1) * EPow P2 (EVar vs2t) * (#15 * EPow P2 (EVar vMuSUSY) * (- #1 + EPow P2 (EVar vSbeta)) + #8 *
   EPow P2 (EVar vMst1) * EPow P2 (EVar vSbeta)) + EPow P2 (EVar vMt) * (#7 * EPow P2 (EVar vMuSUSY) * (- #1 + EPow P2
   (EVar vSbeta)) + #14080 * EPow P2 (EVar vMst1) * EPow P2 (EVar vSbeta)))) - #4 * EVar vMgl * (#928 * EVar vMt *
   EVar vs2t * EVar vTbeta * EPow P2 (EVar vMst1) + #1136 * EVar vMuSUSY * EPow P2 (EVar vMt) - #21 * EVar vMuSUSY *
   EPow P2 (EVar vMst1) * EPow P2 (EVar vs2t)) * EPow P2 (EVar vSbeta) * EPow P4 (EVar vMst1) - EVar vxMgl * EPow P4
   (EVar vMgl) * (EPow P2 (EVar vMst1) * (#777 * EVar vTbeta * EPow P2 (EVar vMuSUSY) * EPow P2 (EVar vs2t) * (- #1 +
   EPow P2 (EVar vSbeta)) - #8 * EVar vMt * (- #279 * EVar vMuSUSY * EVar vs2t + #4442 * EVar vMt * EVar vTbeta) *
   EPow P2 (EVar vSbeta)) + EVar vTbeta * (#2904 * EPow P2 (EVar vMt) * EPow P2 (EVar vMuSUSY) * (- #1 + EPow P2 (EVar
   vSbeta)) + #2232 * EPow P2 (EVar vs2t) * EPow P2 (EVar vSbeta) * EPow P4 (EVar vMst1))) + (EVar vMt * (#396 * EVar
   vMuSUSY * EVar vs2t + #1141 * EVar vMt * EVar vTbeta) * EPow P2 (EVar vSbeta) - #6 * EVar vTbeta * EPow P2 (EVar
   vs2t) * (- #3 * EPow P2 (EVar vMuSUSY) * (- #1 + EPow P2 (EVar vSbeta)) + #31 * EPow P2 (EVar vMst1) * EPow P2
   (EVar vSbeta))) * EPow P6 (EVar vMst1)) + EVar vxDmst12 * EPow P3 (EVar vDmst12) * (- #20 * EVar vxMgl * EPow P4
   (EVar vMgl) * (- #2 * EVar vMt * EPow P2 (EVar vMst1) * (#777 * EVar vTbeta * EPow P2 (EVar vMuSUSY) * EPow P2
   (EVar vs2t) * (- #1 + EPow P2 (EVar vSbeta)) + #16 * EVar vMt * (#279 * EVar vMuSUSY * EVar vs2t - #2192 * EVar vMt
   * EVar vTbeta) * EPow P2 (EVar vSbeta)) - #2904 * EVar vTbeta * EPow P2 (EVar vMuSUSY) * (- #1 + EPow P2 (EVar
   vSbeta)) * EPow P3 (EVar vMt) - #3 * (#259 * EVar vMuSUSY * EVar vs2t + #372 * EVar vMt * EVar vTbeta) * EPow P2
   (EVar vs2t) * EPow P2 (EVar vSbeta) * EPow P4 (EVar vMst1)) + #16 * EVar vMgl * EPow P4 (EVar vMst1) * (- (EVar
   vs2t * EVar vTbeta * EPow P2 (EVar vMt) * (- #3 * EPow P2 (EVar vMuSUSY) * (- #1 + EPow P2 (EVar vSbeta)) + #1040 *
   EPow P2 (EVar vMst1) * EPow P2 (EVar vSbeta))) + #5 * EVar vMuSUSY * EPow P2 (EVar vSbeta) * (- #21 * EVar vMt *
   EPow P2 (EVar vMst1) * EPow P2 (EVar vs2t) + #88 * EPow P3 (EVar vMt)) + #35 * EVar vTbeta * EPow P2 (EVar vSbeta)
   * EPow P3 (EVar vs2t) * EPow P4 (EVar vMst1)) + #20 * EPow P2 (EVar vMgl) * EPow P2 (EVar vMst1) * (- (EVar vMt *
   EPow P2 (EVar vMst1) * (- #45 * EVar vTbeta * EPow P2 (EVar vMuSUSY) * EPow P2 (EVar vs2t) * (- #1 + EPow P2 (EVar
   vSbeta)) + #14 * EVar vMt * (EVar vMuSUSY * EVar vs2t - #320 * EVar vMt * EVar vTbeta) * EPow P2 (EVar vSbeta))) +
   #42 * EVar vTbeta * EPow P2 (EVar vMuSUSY) * (- #1 + EPow P2 (EVar vSbeta)) * EPow P3 (EVar vMt) + #6 * (#15 * EVar
   vMuSUSY * EVar vs2t + #8 * EVar vMt * EVar vTbeta) * EPow P2 (EVar vs2t) * EPow P2 (EVar vSbeta) * EPow P4 (EVar
   vMst1) + #4 * EVar vMgl * (- #8 * EVar vs2t * EVar vTbeta * EPow P2 (EVar vMt) * (#81 * EPow P2 (EVar vMuSUSY) * (-
   #1 + EPow P2 (EVar vSbeta)) + #308 * EPow P2 (EVar vMst1) * EPow P2 (EVar vSbeta)) + #3 * EVar vMuSUSY * EPow P2
   (EVar vSbeta) * (#81 * EVar vMt * EPow P2 (EVar vMst1) * EPow P2 (EVar vs2t) + #3056 * EPow P3 (EVar vMt)) - #162 *
   EVar vTbeta * EPow P2 (EVar vSbeta) * EPow P3 (EVar vs2t) * EPow P4 (EVar vMst1))) - #15 * (- (EVar vMt * EVar
   vTbeta * EPow P2 (EVar vs2t) * (#11 * EPow P2 (EVar vMuSUSY) * (- #1 + EPow P2 (EVar vSbeta)) + #512 * EPow P2
   (EVar vMst1) * EPow P2 (EVar vSbeta))) + #500 * EVar vTbeta * EPow P2 (EVar vSbeta) * EPow P3 (EVar vMt) + EVar
   vMuSUSY * EPow P2 (EVar vSbeta) * (#85 * EVar vs2t * EPow P2 (EVar vMt) + #24 * EPow P2 (EVar vMst1) * EPow P3
   (EVar vs2t))) * EPow P6 (EVar vMst1)) + #160 * EPow P3 (EVar vMt) * (#8 * EVar vMuSUSY * EPow P2 (EVar vSbeta) *
   (#95 * EPow P2 (EVar vMst1) * EPow P3 (EVar vMgl) - #4 * EVar vMgl * EPow P4 (EVar vMst1)) + EVar vTbeta * (#2 *
   EVar vxMgl * (#121 * EPow P2 (EVar vMuSUSY) * (- #1 + EPow P2 (EVar vSbeta)) - #658 * EPow P2 (EVar vMst1) * EPow
   P2 (EVar vSbeta)) * EPow P4 (EVar vMgl) + EPow P2 (EVar vMgl) * (- #7 * EPow P2 (EVar vMst1) * EPow P2 (EVar
   vMuSUSY) * (- #1 + EPow P2 (EVar vSbeta)) + #152 * EPow P2 (EVar vSbeta) * EPow P4 (EVar vMst1)) + #2 * (#395 - #12
   * EVar vlmMst1 + #12 * EVar vlmMt) * EPow P2 (EVar vSbeta) * EPow P6 (EVar vMst1))) * EPow P6 (EVar vMst2)))) +
   EPow P2 (EVar vMst2) * (#72 * EVar vthreeLoopFlag * EPow P2 (EVar vAl4p) * EPow P4 (EVar vMst1) * (- #4 * EPow P2
   (EVar vMsq) * (EVar vTbeta * EPow P2 (EVar vMt) * (- (EPow P2 (EVar vMuSUSY) * (- #40 * EVar vDmst12 * EVar vMgl *
   EVar vMt * (- #4 * EVar vMgl * EVar vMt * (- #16 + #9 * EVar vlmMgl - #41 * EVar vlmMst1 + #12 * EVar vlmMt - #4 *
   EPow P2 (EVar vlmMst1)) * EPow P2 (EVar vMsq) + #4 * EVar vs2t * EPow P2 (EVar vMgl) * (#30 * EVar vDmsqst1 * (- #3
   + EVar vlmMgl - EVar vlmMst1) + (- #11 + #154 * EVar vlmMgl - #148 * EVar vlmMst1 - #20 * EVar vlmMgl * EVar
   vlmMst1 + #27 * EPow P2 (EVar vlmMgl) + EPow P2 (EVar vlmMst1)) * EPow P2 (EVar vMsq)) - EVar vs2t * (#180 * EVar
   vDmsqst1 + (#215 + #118 * EVar vlmMst1 + #41 * EPow P2 (EVar vlmMst1)) * EPow P2 (EVar vMsq)) * EPow P2 (EVar
   vMst1)) * EPow P2 (EVar vMst2) - EPow P2 (EVar vDmst12) * (- #2 * EPow P2 (EVar vMgl) * (#1800 * EVar vDmsqst1 *
   EPow P2 (EVar vMst1) * EPow P2 (EVar vs2t) + EPow P2 (EVar vMsq) * (- #4 * (#163 + #15 * EVar vlmMgl - #27 * EVar
   vlmMst1 + #20 * EVar vlmMt - #8 * EPow P2 (EVar vlmMst1)) * EPow P2 (EVar vMt) + #5 * (#200 + #18 * EVar vlmMgl +
   #265 * EVar vlmMst1 + #91 * EPow P2 (EVar vlmMst1)) * EPow P2 (EVar vMst1) * EPow P2 (EVar vs2t))) + EVar vMt *
   EVar vs2t * (- #40 * EVar vMgl * (#210 * EVar vDmsqst1 + (#149 + #41 * EVar vlmMst1) * EPow P2 (EVar vMsq)) * EPow
   P2 (EVar vMst1) + #80 * (#60 * EVar vDmsqst1 * (#3 - EVar vlmMgl + EVar vlmMst1) + (- #249 - #176 * EVar vlmMst1 -
   #4 * EVar vlmMgl * (- #41 + #5 * EVar vlmMst1) + #27 * EPow P2 (EVar vlmMgl) + EPow P2 (EVar vlmMst1)) * EPow P2
   (EVar vMsq)) * EPow P3 (EVar vMgl)) - #5 * (#15 * EVar vDmsqst1 * (#3 - #8 * EVar vlmMst1) - #2 * (#16 + #115 *
   EVar vlmMst1 + #41 * EPow P2 (EVar vlmMst1)) * EPow P2 (EVar vMsq)) * EPow P2 (EVar vs2t) * EPow P4 (EVar vMst1)) +
   #80 * (#5 + #18 * EVar vlmMgl - #74 * EVar vlmMst1 + #24 * EVar vlmMt - #8 * EPow P2 (EVar vlmMst1)) * EPow P2
   (EVar vMgl) * EPow P2 (EVar vMsq) * EPow P2 (EVar vMt) * EPow P4 (EVar vMst2))) + EPow P4 (EVar vMst1) * (#15 *
   EVar vshiftst3 * EPow P2 (EVar vMsq) * (- #2 * EVar vDmst12 * EPow P2 (EVar vMst2) * ((- #1 + #2 * EVar vlmMst1) *
   EPow P2 (EVar vMuSUSY) * EPow P2 (EVar vs2t) * (- #1 + EPow P2 (EVar vSbeta)) + #12 * ((#3 - #2 * EVar vlmMst1) *
   EPow P2 (EVar vMt) + (- #1 + #2 * EVar vlmMst1) * EPow P2 (EVar vMst1) * EPow P2 (EVar vs2t)) * EPow P2 (EVar
   vSbeta)) + EPow P2 (EVar vDmst12) * ((- #7 + #6 * EVar vlmMst1) * EPow P2 (EVar vMuSUSY) * EPow P2 (EVar vs2t) * (-
   #1 + EPow P2 (EVar vSbeta)) + #6 * (- #8 * (- #2 + EVar vlmMst1) * EPow P2 (EVar vMt) + (- #15 + #14 * EVar
   vlmMst1) * EPow P2 (EVar vMst1) * EPow P2 (EVar vs2t)) * EPow P2 (EVar vSbeta)) + #24 * (#1 - #2 * EVar vlmMst1) *
   EPow P2 (EVar vMt) * EPow P2 (EVar vSbeta) * EPow P4 (EVar vMst2)) + #150 * (EVar vDmsqst1 * (#3 - #2 * EVar
   vlmMst1) + (#1 - #2 * EVar vlmMst1) * EPow P2 (EVar vMsq)) * (EPow P2 (EVar vDmst12) * EPow P2 (EVar vs2t) * (-
   ((EVar vshiftst1 + EVar vshiftst2) * EPow P2 (EVar vMuSUSY) * (- #1 + EPow P2 (EVar vSbeta))) + #6 * (- #3 * EVar
   vshiftst1 + EVar vshiftst2) * EPow P2 (EVar vMst1) * EPow P2 (EVar vSbeta)) + #2 * EVar vDmst12 * EPow P2 (EVar
   vMst2) * ((EVar vshiftst1 - EVar vshiftst2) * EPow P2 (EVar vMuSUSY) * EPow P2 (EVar vs2t) * (- #1 + EPow P2 (EVar
   vSbeta)) + #12 * (EVar vshiftst2 * EPow P2 (EVar vMt) + (EVar vshiftst1 - EVar vshiftst2) * EPow P2 (EVar vMst1) *
   EPow P2 (EVar vs2t)) * EPow P2 (EVar vSbeta)) + #24 * (EVar vshiftst1 + EVar vshiftst2) * EPow P2 (EVar vMt) * EPow
   P2 (EVar vSbeta) * EPow P4 (EVar vMst2))) + EPow P2 (EVar vSbeta) * (#5 * EPow P2 (EVar vDmst12) * EPow P2 (EVar
   vMst1) * EPow P2 (EVar vs2t) * (#15 * EVar vDmsqst1 * ((#3 - #8 * EVar vlmMst1) * EPow P2 (EVar vMst1) * EPow P2
   (EVar vMuSUSY) + #48 * EPow P2 (EVar vMgl) * (#9 * EPow P2 (EVar vMst1) + EPow P2 (EVar vMuSUSY)) + (#60 - #48 *
   EVar vlmMst1) * EPow P4 (EVar vMst1)) + #2 * EPow P2 (EVar vMsq) * (#6 * (#525 - #18 * EVar vlmMgl + #504 * EVar
   vlmMst1 - #48 * EVar vlmMt + #107 * EPow P2 (EVar vlmMst1)) * EPow P2 (EVar vMgl) * EPow P2 (EVar vMst1) + (#200 +
   #18 * EVar vlmMgl + #265 * EVar vlmMst1 + #91 * EPow P2 (EVar vlmMst1)) * EPow P2 (EVar vMgl) * EPow P2 (EVar
   vMuSUSY) - (#16 + #115 * EVar vlmMst1 + #41 * EPow P2 (EVar vlmMst1)) * EPow P2 (EVar vMst1) * EPow P2 (EVar
   vMuSUSY) - #12 * (- #6 + #79 * EVar vlmMst1 + #41 * EPow P2 (EVar vlmMst1)) * EPow P4 (EVar vMst1))) - #40 * EVar
   vDmst12 * EVar vMgl * EVar vMt * EVar vs2t * (#30 * EVar vDmsqst1 * (EVar vDmst12 * (- #7 * EPow P2 (EVar vMst1) *
   EPow P2 (EVar vMuSUSY) + #4 * EPow P2 (EVar vMgl) * (- #3 * (- #24 + EVar vlmMgl - #15 * EVar vlmMst1 + #14 * EVar
   vlmMt) * EPow P2 (EVar vMst1) + (#3 - EVar vlmMgl + EVar vlmMst1) * EPow P2 (EVar vMuSUSY)) + #6 * (#5 + #6 * EVar
   vlmMst1 - #6 * EVar vlmMt) * EPow P4 (EVar vMst1)) + #2 * EPow P2 (EVar vMst2) * (- #3 * EPow P2 (EVar vMst1) *
   EPow P2 (EVar vMuSUSY) - #2 * EPow P2 (EVar vMgl) * ((- #57 - #39 * EVar vlmMst1 + EVar vlmMgl * (#9 + #6 * EVar
   vlmMst1 - #6 * EVar vlmMt) + #30 * EVar vlmMt + #6 * EVar vlmMst1 * EVar vlmMt - #6 * EPow P2 (EVar vlmMst1)) *
   EPow P2 (EVar vMst1) + (#3 - EVar vlmMgl + EVar vlmMst1) * EPow P2 (EVar vMuSUSY)) + #24 * (#1 + EVar vlmMst1 -
   EVar vlmMt) * EPow P4 (EVar vMst1))) + EPow P2 (EVar vMsq) * (EPow P2 (EVar vMst2) * (- ((#215 + #118 * EVar
   vlmMst1 + #41 * EPow P2 (EVar vlmMst1)) * EPow P2 (EVar vMst1) * EPow P2 (EVar vMuSUSY)) + #2 * EPow P2 (EVar vMgl)
   * (#2 * (- #11 + EVar vlmMgl * (#154 - #20 * EVar vlmMst1) - #148 * EVar vlmMst1 + #27 * EPow P2 (EVar vlmMgl) +
   EPow P2 (EVar vlmMst1)) * EPow P2 (EVar vMuSUSY) + EPow P2 (EVar vMst1) * (#2086 - #996 * EVar vlmMt - #81 * (#9 +
   #4 * EVar vlmMst1 - #6 * EVar vlmMt) * EPow P2 (EVar vlmMgl) + (#663 + #366 * EVar vlmMt) * EPow P2 (EVar vlmMst1)
   - #144 * EPow P2 (EVar vlmMt) - #6 * EVar vlmMst1 * (- #521 + #74 * EVar vlmMt + #24 * EPow P2 (EVar vlmMt)) + #6 *
   EVar vlmMgl * (- #238 + EVar vlmMst1 * (#73 - #142 * EVar vlmMt) + #52 * EVar vlmMt + #91 * EPow P2 (EVar vlmMst1)
   + #24 * EPow P2 (EVar vlmMt)) - #54 * EPow P3 (EVar vlmMgl) - #168 * EPow P3 (EVar vlmMst1))) - #4 * (- #407 + #276
   * EVar vlmMt + #3 * EVar vlmMst1 * (- #65 + #2 * EVar vlmMt) + #45 * EPow P2 (EVar vlmMst1) + #72 * EPow P2 (EVar
   vlmMt)) * EPow P4 (EVar vMst1)) + EVar vDmst12 * (- ((#149 + #41 * EVar vlmMst1) * EPow P2 (EVar vMst1) * EPow P2
   (EVar vMuSUSY)) + #2 * EPow P2 (EVar vMgl) * (#3 * (#1091 + #611 * EVar vlmMst1 + EVar vlmMgl * (- #17 + #122 *
   EVar vlmMst1 - #82 * EVar vlmMt) + (- #374 + #62 * EVar vlmMst1) * EVar vlmMt - #54 * EPow P2 (EVar vlmMgl) - #24 *
   (EPow P2 (EVar vlmMst1) + EPow P2 (EVar vlmMt))) * EPow P2 (EVar vMst1) + (- #249 - #176 * EVar vlmMst1 - #4 * EVar
   vlmMgl * (- #41 + #5 * EVar vlmMst1) + #27 * EPow P2 (EVar vlmMgl) + EPow P2 (EVar vlmMst1)) * EPow P2 (EVar
   vMuSUSY)) + #2 * (#148 - #90 * EVar vlmMt + EVar vlmMst1 * (#75 + #6 * EVar vlmMt) + #45 * EPow P2 (EVar vlmMst1) +
   #72 * EPow P2 (EVar vlmMt)) * EPow P4 (EVar vMst1)))) + #2 * EPow P2 (EVar vMt) * (#5 * EVar vDmst12 * EPow P2
   (EVar vMst1) * (EVar vDmst12 * (#45 * EVar vDmsqst1 * (#12 * (#19 + #33 * EVar vlmMst1 - #33 * EVar vlmMt) * EPow
   P2 (EVar vMgl) + (- #3 + #28 * EVar vlmMst1 - #28 * EVar vlmMt) * EPow P2 (EVar vMst1)) + EPow P2 (EVar vMsq) *
   ((#5308 - #7972 * EVar vlmMt + #4 * EVar vlmMst1 * (#1977 + #64 * EVar vlmMt) - #128 * EPow P2 (EVar vlmMst1)) *
   EPow P2 (EVar vMgl) - (#131 + #1500 * EVar vlmMt - #60 * EVar vlmMst1 * (#29 + #2 * EVar vlmMt) + #306 * (EPow P2
   (EVar vlmMst1) + EPow P2 (EVar vlmMt))) * EPow P2 (EVar vMst1))) + (#90 * EVar vDmsqst1 * (#24 * (#3 + #7 * EVar
   vlmMst1 - #7 * EVar vlmMt) * EPow P2 (EVar vMgl) + (- #19 + #32 * EVar vlmMst1 - #24 * EVar vlmMt) * EPow P2 (EVar
   vMst1)) + #4 * EPow P2 (EVar vMsq) * ((#3049 - #1908 * EVar vlmMt - #54 * EVar vlmMgl * (#1 + #12 * EVar vlmMt) +
   #6 * EVar vlmMst1 * (#215 + #49 * EVar vlmMt) + #324 * EPow P2 (EVar vlmMgl) - #195 * EPow P2 (EVar vlmMst1) - #144
   * EPow P2 (EVar vlmMt)) * EPow P2 (EVar vMgl) + (- #196 + EVar vlmMst1 * (#288 - #60 * EVar vlmMt) + #54 * EVar
   vlmMt + #153 * EPow P2 (EVar vlmMst1) + #153 * EPow P2 (EVar vlmMt)) * EPow P2 (EVar vMst1))) * EPow P2 (EVar
   vMst2)) + (#40 * EPow P2 (EVar vMgl) * (#540 * EVar vDmsqst1 * (#1 + #2 * EVar vlmMst1 - #2 * EVar vlmMt) + (#1909
   + #600 * EVar vlmMst1 + #6 * (- #187 + #49 * EVar vlmMst1) * EVar vlmMt - #54 * EVar vlmMgl * (#1 + #12 * EVar
   vlmMt) + #324 * EPow P2 (EVar vlmMgl) - #195 * EPow P2 (EVar vlmMst1) - #144 * EPow P2 (EVar vlmMt)) * EPow P2
   (EVar vMsq)) * EPow P2 (EVar vMst1) + (- #200 * EVar vDmsqst1 * (#92 + #66 * EVar vlmMt - #6 * EVar vlmMst1 * (#17
   + #3 * EVar vlmMt) + #9 * (EPow P2 (EVar vlmMst1) + EPow P2 (EVar vlmMt))) + #30 * EPow P2 (EVar vMsq) * (- #1375 +
   #64 * EVar vlmMt - #24 * (#2 + #3 * EVar vlmMt) * EPow P2 (EVar vlmMgl) - #4 * (#37 + #25 * EVar vlmMt) * EPow P2
   (EVar vlmMst1) - #120 * EPow P2 (EVar vlmMt) + #8 * EVar vlmMgl * (#26 + #12 * EVar vlmMt + #9 * EPow P2 (EVar
   vlmMt)) + #8 * EVar vlmMst1 * (#44 + #64 * EVar vlmMt + #33 * EPow P2 (EVar vlmMt)) + #24 * EPow P3 (EVar vlmMgl) +
   #88 * EPow P3 (EVar vlmMst1) - #276 * EPow P3 (EVar vlmMt))) * EPow P4 (EVar vMst1)) * EPow P4 (EVar vMst2) - #4 *
   EPow P2 (EVar vMgl) * EPow P2 (EVar vMsq) * EPow P2 (EVar vMuSUSY) * (EPow P2 (EVar vDmst12) * (#163 + #15 * EVar
   vlmMgl - #27 * EVar vlmMst1 + #20 * EVar vlmMt - #8 * EPow P2 (EVar vlmMst1)) + #20 * EVar vDmst12 * (#16 - #9 *
   EVar vlmMgl + #41 * EVar vlmMst1 - #12 * EVar vlmMt + #4 * EPow P2 (EVar vlmMst1)) * EPow P2 (EVar vMst2) - #10 *
   (#5 + #18 * EVar vlmMgl - #74 * EVar vlmMst1 + #24 * EVar vlmMt - #8 * EPow P2 (EVar vlmMst1)) * EPow P4 (EVar
   vMst2))))) + #5 * EVar vMuSUSY * EPow P2 (EVar vSbeta) * (#3 * EVar vDmst12 * EVar vs2t * EPow P2 (EVar vMst1) * (-
   #4 * EVar vDmst12 * EVar vMgl * EVar vs2t * (#60 * EVar vDmsqst1 * (#2 * (#3 - EVar vlmMgl + EVar vlmMst1) * EPow
   P2 (EVar vMgl) + #3 * EPow P2 (EVar vMst1)) + EPow P2 (EVar vMsq) * (- #4 * (- #11 + EVar vlmMgl * (#154 - #20 *
   EVar vlmMst1) - #148 * EVar vlmMst1 + #27 * EPow P2 (EVar vlmMgl) + EPow P2 (EVar vlmMst1)) * EPow P2 (EVar vMgl) +
   (#215 + #118 * EVar vlmMst1 + #41 * EPow P2 (EVar vlmMst1)) * EPow P2 (EVar vMst1))) + EVar vMt * (#15 * EVar
   vDmsqst1 * (EVar vDmst12 * (#336 * EPow P2 (EVar vMgl) + #31 * EPow P2 (EVar vMst1)) + #8 * (#36 * EPow P2 (EVar
   vMgl) + (#5 - #4 * EVar vlmMst1) * EPow P2 (EVar vMst1)) * EPow P2 (EVar vMst2)) + #4 * EPow P2 (EVar vMsq) * (EVar
   vDmst12 * (#2 * (#522 + #107 * EVar vlmMst1) * EPow P2 (EVar vMgl) + (- #95 - #66 * EVar vlmMst1 + #82 * EPow P2
   (EVar vlmMst1)) * EPow P2 (EVar vMst1)) + #2 * ((#501 - #18 * EVar vlmMgl + #504 * EVar vlmMst1 - #48 * EVar vlmMt
   + #107 * EPow P2 (EVar vlmMst1)) * EPow P2 (EVar vMgl) - #2 * (- #6 + #79 * EVar vlmMst1 + #41 * EPow P2 (EVar
   vlmMst1)) * EPow P2 (EVar vMst1)) * EPow P2 (EVar vMst2)))) * EPow P2 (EVar vMt) + EPow P4 (EVar vMst1) * (- #9 *
   EVar vMt * EVar vs2t * EVar vshiftst3 * EPow P2 (EVar vMsq) * (- #8 * EVar vDmst12 * (- #3 + #2 * EVar vlmMst1) *
   EPow P2 (EVar vMst2) * EPow P2 (EVar vMt) + EPow P2 (EVar vDmst12) * (#16 * (- #2 + EVar vlmMst1) * EPow P2 (EVar
   vMt) + (#1 - #2 * EVar vlmMst1) * EPow P2 (EVar vMst1) * EPow P2 (EVar vs2t)) + #8 * (- #1 + #2 * EVar vlmMst1) *
   EPow P2 (EVar vMt) * EPow P4 (EVar vMst2)) + #90 * EVar vMt * EVar vs2t * (EVar vDmsqst1 * (#3 - #2 * EVar vlmMst1)
   + (#1 - #2 * EVar vlmMst1) * EPow P2 (EVar vMsq)) * (- #8 * EVar vDmst12 * EVar vshiftst2 * EPow P2 (EVar vMst2) *
   EPow P2 (EVar vMt) + (- EVar vshiftst1 + EVar vshiftst2) * EPow P2 (EVar vDmst12) * EPow P2 (EVar vMst1) * EPow P2
   (EVar vs2t) + #8 * (EVar vshiftst1 - EVar vshiftst2) * EPow P2 (EVar vMt) * EPow P4 (EVar vMst2))) + #16 * EVar
   vMgl * (#30 * EVar vDmsqst1 * (EPow P2 (EVar vDmst12) * (#6 * (#31 + #27 * EVar vlmMst1 - #24 * EVar vlmMt - #2 *
   EVar vlmMst1 * EVar vlmMt + EVar vlmMgl * (- #3 - #2 * EVar vlmMst1 + #2 * EVar vlmMt) + #2 * EPow P2 (EVar
   vlmMst1)) * EPow P2 (EVar vMgl) + (- #13 - #19 * EVar vlmMst1 + #19 * EVar vlmMt) * EPow P2 (EVar vMst1)) - #6 *
   EVar vDmst12 * ((#31 + #27 * EVar vlmMst1 - #24 * EVar vlmMt - #2 * EVar vlmMst1 * EVar vlmMt + EVar vlmMgl * (- #3
   - #2 * EVar vlmMst1 + #2 * EVar vlmMt) + #2 * EPow P2 (EVar vlmMst1)) * EPow P2 (EVar vMgl) + (#3 + #7 * EVar
   vlmMst1 - #7 * EVar vlmMt) * EPow P2 (EVar vMst1)) * EPow P2 (EVar vMst2) - #12 * ((#7 + #6 * EVar vlmMst1 - #5 *
   EVar vlmMt - EVar vlmMst1 * EVar vlmMt + EVar vlmMgl * (- #1 - EVar vlmMst1 + EVar vlmMt) + EPow P2 (EVar vlmMst1))
   * EPow P2 (EVar vMgl) + (#1 + #2 * EVar vlmMst1 - #2 * EVar vlmMt) * EPow P2 (EVar vMst1)) * EPow P4 (EVar vMst2))
   - EPow P2 (EVar vMsq) * (EPow P2 (EVar vDmst12) * (- ((- #3749 - #2374 * EVar vlmMst1 + #1770 * EVar vlmMt - #117 *
   EVar vlmMst1 * EVar vlmMt + EVar vlmMgl * (#96 - #237 * EVar vlmMst1 + #157 * EVar vlmMt) + #108 * EPow P2 (EVar
   vlmMgl) + #41 * EPow P2 (EVar vlmMst1) + #48 * EPow P2 (EVar vlmMt)) * EPow P2 (EVar vMgl)) + (EVar vlmMst1 * (#297
   + #2 * EVar vlmMt) + #15 * EPow P2 (EVar vlmMst1) + #3 * (#47 - #79 * EVar vlmMt + #8 * EPow P2 (EVar vlmMt))) *
   EPow P2 (EVar vMst1)) + EVar vDmst12 * EPow P2 (EVar vMst2) * (- ((- #605 + #6 * EVar vlmMst1 * (- #77 + EVar
   vlmMt) + #714 * EVar vlmMt + #45 * EPow P2 (EVar vlmMst1) + #72 * EPow P2 (EVar vlmMt)) * EPow P2 (EVar vMst1)) +
   #2 * EPow P2 (EVar vMgl) * (#2096 - #1167 * EVar vlmMt - #81 * (#4 + #2 * EVar vlmMst1 - #3 * EVar vlmMt) * EPow P2
   (EVar vlmMgl) + #3 * (#129 + #61 * EVar vlmMt) * EPow P2 (EVar vlmMst1) - #108 * EPow P2 (EVar vlmMt) - #3 * EVar
   vlmMst1 * (- #793 + #67 * EVar vlmMt + #24 * EPow P2 (EVar vlmMt)) + #3 * EVar vlmMgl * (- #229 + EVar vlmMst1 *
   (#63 - #142 * EVar vlmMt) + #35 * EVar vlmMt + #91 * EPow P2 (EVar vlmMst1) + #24 * EPow P2 (EVar vlmMt)) - #27 *
   EPow P3 (EVar vlmMgl) - #84 * EPow P3 (EVar vlmMst1))) + #2 * (- ((- #233 + #6 * EVar vlmMst1 * (- #32 + EVar
   vlmMt) + #348 * EVar vlmMt + #45 * EPow P2 (EVar vlmMst1) + #72 * EPow P2 (EVar vlmMt)) * EPow P2 (EVar vMst1)) +
   EPow P2 (EVar vMgl) * (#758 - #570 * EVar vlmMt - #81 * (#3 + #2 * EVar vlmMst1 - #3 * EVar vlmMt) * EPow P2 (EVar
   vlmMgl) + #3 * (#141 + #61 * EVar vlmMt) * EPow P2 (EVar vlmMst1) - #72 * EPow P2 (EVar vlmMt) - #6 * EVar vlmMst1
   * (- #236 + #49 * EVar vlmMt + #12 * EPow P2 (EVar vlmMt)) + #3 * EVar vlmMgl * (- #200 + #2 * EVar vlmMst1 + #76 *
   EVar vlmMt - #142 * EVar vlmMst1 * EVar vlmMt + #91 * EPow P2 (EVar vlmMst1) + #24 * EPow P2 (EVar vlmMt)) - #27 *
   EPow P3 (EVar vlmMgl) - #84 * EPow P3 (EVar vlmMst1))) * EPow P4 (EVar vMst2))) * EPow P4 (EVar vMt))) - #25 * EVar
   vxDmsqst1 * EPow P2 (EVar vDmsqst1) * (EVar vTbeta * EPow P2 (EVar vMt) * (#3 * EVar vDmst12 * EVar vs2t * (#128 *
   EVar vMgl * EVar vMt * (#2 * (- #3 + EVar vlmMgl - EVar vlmMst1) * EPow P2 (EVar vMgl) - #5 * EPow P2 (EVar vMst1))
   * EPow P2 (EVar vMst2) * EPow P2 (EVar vMuSUSY) + EVar vDmst12 * (- #192 * EVar vMgl * EVar vMt * EPow P2 (EVar
   vMst1) * EPow P2 (EVar vMuSUSY) + #192 * EVar vs2t * EPow P2 (EVar vMgl) * EPow P2 (EVar vMst1) * (EPow P2 (EVar
   vMuSUSY) * (- #1 + EPow P2 (EVar vSbeta)) + #15 * EPow P2 (EVar vMst1) * EPow P2 (EVar vSbeta)) - #256 * (- #3 +
   EVar vlmMgl - EVar vlmMst1) * EVar vMt * EPow P2 (EVar vMuSUSY) * EPow P3 (EVar vMgl) + EVar vs2t * (- ((- #33 +
   #32 * EVar vlmMst1) * EPow P2 (EVar vMuSUSY) * (- #1 + EPow P2 (EVar vSbeta))) + #6 * (#87 - #32 * EVar vlmMst1) *
   EPow P2 (EVar vMst1) * EPow P2 (EVar vSbeta)) * EPow P4 (EVar vMst1))) + #48 * (#2 - EVar vlmMst1) * EPow P4 (EVar
   vMst1) * (EPow P2 (EVar vDmst12) * EPow P2 (EVar vs2t) * (- ((EVar vshiftst1 + EVar vshiftst2) * EPow P2 (EVar
   vMuSUSY) * (- #1 + EPow P2 (EVar vSbeta))) + #6 * (- #3 * EVar vshiftst1 + EVar vshiftst2) * EPow P2 (EVar vMst1) *
   EPow P2 (EVar vSbeta)) + #2 * EVar vDmst12 * EPow P2 (EVar vMst2) * ((EVar vshiftst1 - EVar vshiftst2) * EPow P2
   (EVar vMuSUSY) * EPow P2 (EVar vs2t) * (- #1 + EPow P2 (EVar vSbeta)) + #12 * (EVar vshiftst2 * EPow P2 (EVar vMt)
   + (EVar vshiftst1 - EVar vshiftst2) * EPow P2 (EVar vMst1) * EPow P2 (EVar vs2t)) * EPow P2 (EVar vSbeta)) + #24 *
   (EVar vshiftst1 + EVar vshiftst2) * EPow P2 (EVar vMt) * EPow P2 (EVar vSbeta) * EPow P4 (EVar vMst2)) + EVar vMt *
   EPow P2 (EVar vSbeta) * (- #96 * EVar vDmst12 * EVar vMgl * EVar vs2t * (EVar vDmst12 * (- #6 * EPow P2 (EVar
   vMst1) * EPow P2 (EVar vMuSUSY) + #4 * EPow P2 (EVar vMgl) * ((#96 + #51 * EVar vlmMst1 - #3 * EVar vlmMgl * (#5 +
   #2 * EVar vlmMst1 - #2 * EVar vlmMt) - #36 * EVar vlmMt - #6 * EVar vlmMst1 * EVar vlmMt + #6 * EPow P2 (EVar
   vlmMst1)) * EPow P2 (EVar vMst1) + #2 * (#3 - EVar vlmMgl + EVar vlmMst1) * EPow P2 (EVar vMuSUSY)) + #3 * (#33 +
   #38 * EVar vlmMst1 - #38 * EVar vlmMt) * EPow P4 (EVar vMst1)) + #4 * EPow P2 (EVar vMst2) * (- #5 * EPow P2 (EVar
   vMst1) * EPow P2 (EVar vMuSUSY) + EPow P2 (EVar vMgl) * (#3 * (#18 - EVar vlmMgl + EVar vlmMst1) * (#3 + #2 * EVar
   vlmMst1 - #2 * EVar vlmMt) * EPow P2 (EVar vMst1) + #2 * (- #3 + EVar vlmMgl - EVar vlmMst1) * EPow P2 (EVar
   vMuSUSY)) + #3 * (#9 + #14 * EVar vlmMst1 - #14 * EVar vlmMt) * EPow P4 (EVar vMst1))) + EVar vMt * EPow P2 (EVar
   vMst1) * (EPow P2 (EVar vDmst12) * (#1728 * (#10 + #7 * EVar vlmMst1 - #7 * EVar vlmMt) * EPow P2 (EVar vMgl) + (-
   #425 + #2928 * EVar vlmMst1 - #2928 * EVar vlmMt) * EPow P2 (EVar vMst1)) + #72 * EVar vDmst12 * (#12 * (#11 + #47
   * EVar vlmMst1 - #47 * EVar vlmMt) * EPow P2 (EVar vMgl) + (- #73 + #92 * EVar vlmMst1 - #76 * EVar vlmMt) * EPow
   P2 (EVar vMst1)) * EPow P2 (EVar vMst2) + #16 * (#216 * (#1 + #7 * EVar vlmMst1 - #7 * EVar vlmMt) * EPow P2 (EVar
   vMgl) - (#559 + #384 * EVar vlmMt - #12 * EVar vlmMst1 * (#44 + #3 * EVar vlmMt) + #18 * (EPow P2 (EVar vlmMst1) +
   EPow P2 (EVar vlmMt))) * EPow P2 (EVar vMst1)) * EPow P4 (EVar vMst2)))) + #6 * EVar vMuSUSY * EPow P2 (EVar
   vSbeta) * (EPow P3 (EVar vMt) * (- #6 * EVar vDmst12 * EPow P2 (EVar vMst2) * (#16 * (#11 + #47 * EVar vlmMst1 -
   #47 * EVar vlmMt) * EVar vMgl * EVar vMt * EPow P2 (EVar vMst1) - #480 * EVar vs2t * EPow P2 (EVar vMgl) * EPow P2
   (EVar vMst1) + #64 * EVar vMt * (#31 + #27 * EVar vlmMst1 - #24 * EVar vlmMt - #2 * EVar vlmMst1 * EVar vlmMt +
   EVar vlmMgl * (- #3 - #2 * EVar vlmMst1 + #2 * EVar vlmMt) + #2 * EPow P2 (EVar vlmMst1)) * EPow P3 (EVar vMgl) +
   EVar vs2t * (- #87 - #32 * EVar vlmMst1 * (- #1 + EVar vshiftst2) + #64 * EVar vshiftst2) * EPow P4 (EVar vMst1)) -
   #192 * (#2 * EVar vMt * ((#1 + #7 * EVar vlmMst1 - #7 * EVar vlmMt) * EVar vMgl * EPow P2 (EVar vMst1) + (#18 -
   EVar vlmMgl + EVar vlmMst1) * (#1 + EVar vlmMst1 - EVar vlmMt) * EPow P3 (EVar vMgl)) + (- #2 + EVar vlmMst1) *
   EVar vs2t * (EVar vshiftst1 - EVar vshiftst2) * EPow P4 (EVar vMst1)) * EPow P4 (EVar vMst2)) + EVar vMt * EPow P2
   (EVar vDmst12) * (#864 * EVar vs2t * EPow P2 (EVar vMgl) * EPow P2 (EVar vMst1) * EPow P2 (EVar vMt) - #192 * EPow
   P3 (EVar vMgl) * ((#3 - EVar vlmMgl + EVar vlmMst1) * EVar vMt * EPow P2 (EVar vMst1) * EPow P2 (EVar vs2t) + (-
   #62 - #54 * EVar vlmMst1 + EVar vlmMgl * (#6 + #4 * EVar vlmMst1 - #4 * EVar vlmMt) + #48 * EVar vlmMt + #4 * EVar
   vlmMst1 * EVar vlmMt - #4 * EPow P2 (EVar vlmMst1)) * EPow P3 (EVar vMt)) + #321 * EVar vs2t * EPow P2 (EVar vMt) *
   EPow P4 (EVar vMst1) - #32 * EVar vMgl * ((#29 - #19 * EVar vlmMst1 + #19 * EVar vlmMt) * EPow P2 (EVar vMst1) *
   EPow P3 (EVar vMt) + #15 * EVar vMt * EPow P2 (EVar vs2t) * EPow P4 (EVar vMst1)) + #24 * (- #2 + EVar vlmMst1) *
   (EVar vshiftst1 - EVar vshiftst2) * EPow P3 (EVar vs2t) * EPow P6 (EVar vMst1))))) + #540 * EPow P2 (EVar vMt) *
   EPow P4 (EVar vMsq) * (#16 * EVar vAl4p * EVar vtwoLoopFlag * (EVar vMuSUSY * EPow P4 (EVar vMst1) * (EVar vDmst12
   * EVar vMuSUSY * EVar vs2t * EVar vTbeta * (#4 * EVar vMt * EPow P2 (EVar vMst2) * ((#2 + EVar vlmMst1) * EVar vMgl
   * EPow P2 (EVar vMst1) + (#1 - #2 * EVar vlmMgl + #2 * EVar vlmMst1) * EPow P3 (EVar vMgl)) + EVar vDmst12 * EVar
   vs2t * ((#3 + #2 * EVar vlmMst1) * EPow P2 (EVar vMgl) * EPow P2 (EVar vMst1) - (#1 + #2 * EVar vlmMst1) * EPow P4
   (EVar vMst1))) + #2 * EPow P2 (EVar vSbeta) * (#12 * EVar vDmst12 * EVar vMt * EPow P2 (EVar vMst2) * (- ((#1 +
   EVar vlmMt) * EVar vMgl * EVar vMt * EPow P2 (EVar vMst1)) - (#2 + EVar vlmMst1) * EVar vs2t * EPow P2 (EVar vMgl)
   * EPow P2 (EVar vMst1) + EVar vMt * (#2 + #6 * EVar vlmMst1 - #3 * EVar vlmMt - #2 * EVar vlmMst1 * EVar vlmMt +
   EVar vlmMgl * (- #3 - #2 * EVar vlmMst1 + #2 * EVar vlmMt) + #2 * EPow P2 (EVar vlmMst1)) * EPow P3 (EVar vMgl) +
   (#1 + #2 * EVar vlmMst1) * EVar vs2t * EPow P4 (EVar vMst1)) - EPow P2 (EVar vDmst12) * (#6 * EVar vMt * EVar vs2t
   * EPow P2 (EVar vMgl) * EPow P2 (EVar vMst1) + (#8 * (- #3 + EVar vlmMgl - #2 * EVar vlmMst1 + EVar vlmMt) * EPow
   P2 (EVar vMt) + #3 * (- #1 + #2 * EVar vlmMgl - #2 * EVar vlmMst1) * EPow P2 (EVar vMst1) * EPow P2 (EVar vs2t)) *
   EPow P3 (EVar vMgl) + #6 * (- #1 + #2 * EVar vlmMst1) * EVar vMt * EVar vs2t * EPow P4 (EVar vMst1) - EVar vMgl *
   (#4 * (#1 + EVar vlmMt) * EPow P2 (EVar vMst1) * EPow P2 (EVar vMt) + #3 * (#2 + EVar vlmMst1) * EPow P2 (EVar
   vs2t) * EPow P4 (EVar vMst1))) + #24 * EVar vMgl * ((- (EVar vlmMst1 * (- #2 + EVar vlmMt)) - EVar vlmMt + EVar
   vlmMgl * (- #1 - EVar vlmMst1 + EVar vlmMt) + EPow P2 (EVar vlmMst1)) * EPow P2 (EVar vMgl) - (#1 + EVar vlmMt) *
   EPow P2 (EVar vMst1)) * EPow P2 (EVar vMt) * EPow P4 (EVar vMst2))) + EVar vTbeta * EPow P4 (EVar vMst1) * (EVar
   vs2t * EPow P2 (EVar vDmst12) * (#2 * EVar vMt * EPow P2 (EVar vMuSUSY) * (EVar vMgl * EPow P2 (EVar vMst1) + (#3 -
   #2 * EVar vlmMgl + #2 * EVar vlmMst1) * EPow P3 (EVar vMgl)) + EVar vs2t * EPow P2 (EVar vSbeta) * ((#1 + #2 * EVar
   vlmMst1) * (#12 * EPow P2 (EVar vMst1) + EPow P2 (EVar vMuSUSY)) * EPow P4 (EVar vMst1) - EPow P2 (EVar vMgl) *
   ((#3 + #2 * EVar vlmMst1) * EPow P2 (EVar vMst1) * EPow P2 (EVar vMuSUSY) + #12 * (#2 + EVar vlmMst1) * EPow P4
   (EVar vMst1)))) + #2 * EVar vMt * EPow P2 (EVar vSbeta) * (#6 * (EVar vlmMst1 + EVar vlmMt) * EVar vMt * EPow P2
   (EVar vDmst12) * EPow P4 (EVar vMst1) + EVar vMgl * EVar vs2t * EPow P2 (EVar vDmst12) * (- (EPow P2 (EVar vMst1) *
   EPow P2 (EVar vMuSUSY)) + EPow P2 (EVar vMgl) * (#6 * (#5 + #4 * EVar vlmMst1 - #2 * (EVar vlmMgl + EVar vlmMt)) *
   EPow P2 (EVar vMst1) + (- #3 + #2 * EVar vlmMgl - #2 * EVar vlmMst1) * EPow P2 (EVar vMuSUSY)) + #6 * (#1 + #2 *
   EVar vlmMt) * EPow P4 (EVar vMst1)) - #2 * EVar vDmst12 * EVar vMgl * EVar vs2t * EPow P2 (EVar vMst2) * ((#2 +
   EVar vlmMst1) * EPow P2 (EVar vMst1) * EPow P2 (EVar vMuSUSY) + EPow P2 (EVar vMgl) * (#6 * (- #1 - #5 * EVar
   vlmMst1 + EVar vlmMgl * (#3 + #2 * EVar vlmMst1 - #2 * EVar vlmMt) + #2 * EVar vlmMt + #2 * EVar vlmMst1 * EVar
   vlmMt - #2 * EPow P2 (EVar vlmMst1)) * EPow P2 (EVar vMst1) + (#1 - #2 * EVar vlmMgl + #2 * EVar vlmMst1) * EPow P2
   (EVar vMuSUSY)) + #6 * (#1 + #2 * EVar vlmMt) * EPow P4 (EVar vMst1)) + #12 * EVar vMt * EPow P2 (EVar vMst1) *
   (EVar vDmst12 * ((#1 + EVar vlmMt) * EPow P2 (EVar vMgl) - (#1 + EVar vlmMst1 + EVar vlmMt) * EPow P2 (EVar vMst1))
   * EPow P2 (EVar vMst2) + (#2 * (#1 + EVar vlmMt) * EPow P2 (EVar vMgl) - (#2 + #2 * EVar vlmMst1 * (#1 + EVar
   vlmMt) + EPow P2 (EVar vlmMst1) - #3 * EPow P2 (EVar vlmMt)) * EPow P2 (EVar vMst1)) * EPow P4 (EVar vMst2)))) -
   EVar vx * (#3 * EVar vMuSUSY * EPow P2 (EVar vSbeta) * (#2 * EVar vDmst12 * (- #1 + #3 * EVar vlmMgl - #3 * EVar
   vlmMst1) * EVar vs2t * EPow P2 (EVar vMst1) * (#4 * EVar vDmst12 * EVar vMgl * EVar vMt + EVar vDmst12 * EVar vs2t
   * EPow P2 (EVar vMst1) - #4 * EVar vMgl * EVar vMt * EPow P2 (EVar vMst2)) + #8 * EPow P2 (EVar vMt) * (EVar
   vDmst12 * (EVar vlmMst1 * (#22 - #6 * EVar vlmMt) - #5 * EVar vlmMt + EVar vlmMgl * (- #17 - #6 * EVar vlmMst1 + #6
   * EVar vlmMt) + #6 * EPow P2 (EVar vlmMst1)) * EPow P2 (EVar vMst1) * (EVar vDmst12 - EPow P2 (EVar vMst2)) + ((#9
   + EVar vlmMgl * (#20 + #6 * EVar vlmMst1 - #6 * EVar vlmMt) + #2 * EVar vlmMt + EVar vlmMst1 * (- #22 + #6 * EVar
   vlmMt) - #6 * EPow P2 (EVar vlmMst1)) * EPow P2 (EVar vMgl) + #2 * (#2 + EVar vlmMgl * (#5 + #2 * EVar vlmMst1 - #2
   * EVar vlmMt) + #2 * EVar vlmMst1 * (- #3 + EVar vlmMt) + EVar vlmMt - #2 * EPow P2 (EVar vlmMst1)) * EPow P2 (EVar
   vMst1)) * EPow P4 (EVar vMst2))) + EVar vTbeta * (#4 * EVar vDmst12 * (#1 - #3 * EVar vlmMgl + #3 * EVar vlmMst1) *
   EVar vs2t * EPow P2 (EVar vMst1) * (EVar vDmst12 * EVar vMt * EPow P2 (EVar vMuSUSY) - EVar vMt * EPow P2 (EVar
   vMst2) * EPow P2 (EVar vMuSUSY) + #3 * EVar vDmst12 * EVar vMgl * EVar vs2t * EPow P2 (EVar vMst1) * EPow P2 (EVar
   vSbeta)) + #4 * EVar vMt * EPow P2 (EVar vSbeta) * (EVar vDmst12 * EVar vs2t * EPow P2 (EVar vMst1) * (EPow P2
   (EVar vMst2) * (#6 * (#8 - #25 * EVar vlmMst1 + EVar vlmMgl * (#23 + #6 * EVar vlmMst1 - #6 * EVar vlmMt) + #2 *
   EVar vlmMt + #6 * EVar vlmMst1 * EVar vlmMt - #6 * EPow P2 (EVar vlmMst1)) * EPow P2 (EVar vMgl) + #6 * (#3 - #14 *
   EVar vlmMst1 + #4 * EVar vlmMgl * (#3 + EVar vlmMst1 - EVar vlmMt) + #2 * EVar vlmMt + #4 * EVar vlmMst1 * EVar
   vlmMt - #4 * EPow P2 (EVar vlmMst1)) * EPow P2 (EVar vMst1) + (#1 - #3 * EVar vlmMgl + #3 * EVar vlmMst1) * EPow P2
   (EVar vMuSUSY)) - EVar vDmst12 * (#6 * (#8 - #25 * EVar vlmMst1 + EVar vlmMgl * (#23 + #6 * EVar vlmMst1 - #6 *
   EVar vlmMt) + #2 * EVar vlmMt + #6 * EVar vlmMst1 * EVar vlmMt - #6 * EPow P2 (EVar vlmMst1)) * EPow P2 (EVar vMgl)
   + #3 * (#11 + EVar vlmMst1 * (#22 - #4 * EVar vlmMt) - #4 * EVar vlmMgl * (#4 + EVar vlmMst1 - EVar vlmMt) - #6 *
   EVar vlmMt + #4 * EPow P2 (EVar vlmMst1)) * EPow P2 (EVar vMst1) + (#1 - #3 * EVar vlmMgl + #3 * EVar vlmMst1) *
   EPow P2 (EVar vMuSUSY))) - #6 * EVar vMgl * EVar vMt * (EVar vDmst12 * (EVar vlmMst1 * (#22 - #6 * EVar vlmMt) - #5
   * EVar vlmMt + EVar vlmMgl * (- #17 - #6 * EVar vlmMst1 + #6 * EVar vlmMt) + #6 * EPow P2 (EVar vlmMst1)) * EPow P2
   (EVar vMst1) * (EVar vDmst12 - EPow P2 (EVar vMst2)) + ((#9 + EVar vlmMgl * (#20 + #6 * EVar vlmMst1 - #6 * EVar
   vlmMt) + #2 * EVar vlmMt + EVar vlmMst1 * (- #22 + #6 * EVar vlmMt) - #6 * EPow P2 (EVar vlmMst1)) * EPow P2 (EVar
   vMgl) + #2 * (#2 + EVar vlmMgl * (#5 + #2 * EVar vlmMst1 - #2 * EVar vlmMt) + #2 * EVar vlmMst1 * (- #3 + EVar
   vlmMt) + EVar vlmMt - #2 * EPow P2 (EVar vlmMst1)) * EPow P2 (EVar vMst1)) * EPow P4 (EVar vMst2))))) * EPow P5
   (EVar vMgl)) + #3 * EVar voneLoopFlag * (EVar vs2t * EPow P2 (EVar vDmst12) * (- #12 * EVar vMt * EVar vMuSUSY *
   EPow P2 (EVar vSbeta) + EVar vs2t * EVar vTbeta * (EPow P2 (EVar vMuSUSY) * (- #1 + EPow P2 (EVar vSbeta)) + #12 *
   EPow P2 (EVar vMst1) * EPow P2 (EVar vSbeta))) + #12 * EVar vMt * EPow P2 (EVar vSbeta) * (#2 * EVar vDmst12 * EVar
   vMuSUSY * EVar vs2t * EPow P2 (EVar vMst2) + EVar vMt * EVar vTbeta * (EPow P2 (EVar vDmst12) - #2 * EVar vDmst12 *
   EPow P2 (EVar vMst2) + #4 * (- EVar vlmMst1 + EVar vlmMt) * EPow P4 (EVar vMst2)))) * EPow P8 (EVar vMst1))) + EPow
   P2 (EVar vMst1) * (#40 * EVar vAl4p * EVar vMt * EVar vxMgl * EPow P4 (EVar vMgl) * (#216 * EVar vtwoLoopFlag *
   EVar vxDmst12 * EPow P2 (EVar vMst1) * EPow P3 (EVar vDmst12) * (EVar vTbeta * (- #2 * EVar vMt * EPow P2 (EVar
   vs2t) * ((- #1 + #3 * EVar vlmMgl - #3 * EVar vlmMst1) * EPow P2 (EVar vMuSUSY) * (- #1 + EPow P2 (EVar vSbeta)) +
   #3 * (#1 + #2 * EVar vlmMgl - #2 * EVar vlmMst1) * EPow P2 (EVar vMst1) * EPow P2 (EVar vSbeta)) + #48 * (#5 - #2 *
   EVar vlmMgl * (#2 + EVar vlmMst1 - EVar vlmMt) + #2 * EVar vlmMst1 * (#4 + EVar vlmMst1 - EVar vlmMt) - #4 * EVar
   vlmMt) * EPow P2 (EVar vSbeta) * EPow P3 (EVar vMt)) + EVar vMuSUSY * EPow P2 (EVar vSbeta) * (#96 * (#1 - EVar
   vlmMgl + EVar vlmMst1) * EVar vs2t * EPow P2 (EVar vMt) + (#1 - #3 * EVar vlmMgl + #3 * EVar vlmMst1) * EPow P2
   (EVar vMst1) * EPow P3 (EVar vs2t))) * EPow P4 (EVar vMsq) + EVar vAl4p * EVar vthreeLoopFlag * (EVar vxDmst12 *
   EPow P2 (EVar vMsq) * EPow P3 (EVar vDmst12) * (- #2 * EVar vMt * EVar vMuSUSY * EVar vs2t * EPow P2 (EVar vMst1) *
   (EVar vMuSUSY * EVar vs2t * EVar vTbeta * (#41653 + #11784 * EVar vlmMst1 + #48 * EVar vlmMgl * (- #313 + #180 *
   EVar vlmMst1) - #12636 * EPow P2 (EVar vlmMgl) + #540 * EPow P2 (EVar vlmMst1)) * EPow P2 (EVar vMsq) + #12960 *
   EVar vDmsqst1 * (#29 - #10 * EVar vlmMgl + #10 * EVar vlmMst1) * EVar vMt * EPow P2 (EVar vSbeta) + #864 * EVar vMt
   * (- #1797 - #1711 * EVar vlmMst1 + EVar vlmMgl * (#1315 - #198 * EVar vlmMst1 - #96 * EVar vlmMt) + #144 * EVar
   vlmMt + #96 * EVar vlmMst1 * EVar vlmMt + #333 * EPow P2 (EVar vlmMgl) - #103 * EPow P2 (EVar vlmMst1)) * EPow P2
   (EVar vMsq) * EPow P2 (EVar vSbeta)) + EVar vTbeta * EPow P2 (EVar vSbeta) * (#2 * EVar vMt * EPow P2 (EVar vMst1)
   * (#12960 * EVar vDmsqst1 * (#29 - #10 * EVar vlmMgl + #10 * EVar vlmMst1) * EPow P2 (EVar vMst1) - #108 * (#1695 +
   #8 * EVar vlmMst1 * (- #125 + #12 * EVar vlmMt) - #2 * EVar vlmMgl * (- #605 + #99 * EVar vlmMst1 + #48 * EVar
   vlmMt) + #333 * EPow P2 (EVar vlmMgl) - #103 * EPow P2 (EVar vlmMst1)) * EPow P2 (EVar vMsq) * EPow P2 (EVar vMst1)
   + (#41653 + #11784 * EVar vlmMst1 + #48 * EVar vlmMgl * (- #313 + #180 * EVar vlmMst1) - #12636 * EPow P2 (EVar
   vlmMgl) + #540 * EPow P2 (EVar vlmMst1)) * EPow P2 (EVar vMsq) * EPow P2 (EVar vMuSUSY)) * EPow P2 (EVar vs2t) -
   #288 * (#45 * EVar vDmsqst1 * (#307 + #4 * EVar vlmMst1 * (#67 - #5 * EVar vlmMt) - #10 * EVar vlmMgl * (#3 + #2 *
   EVar vlmMst1 - #2 * EVar vlmMt) - #238 * EVar vlmMt + #20 * EPow P2 (EVar vlmMst1)) * EPow P2 (EVar vMst1) + EPow
   P2 (EVar vMsq) * (- #2 * (#262 + EVar vlmMst1 * (#335 - #72 * EVar vlmMt) - #96 * EVar vlmMt + EVar vlmMgl * (-
   #199 - #120 * EVar vlmMst1 + #72 * EVar vlmMt) + #120 * EPow P2 (EVar vlmMst1)) * EPow P2 (EVar vMuSUSY) + EPow P2
   (EVar vMst1) * (#72 * (#49 + #18 * EVar vlmMst1 - #39 * EVar vlmMt) * EPow P2 (EVar vlmMgl) - #16 * (#181 + #108 *
   EVar vlmMt) * EPow P2 (EVar vlmMst1) + #8 * EVar vlmMgl * (#868 + #287 * EVar vlmMt + #9 * EVar vlmMst1 * (- #59 +
   #63 * EVar vlmMt) - #306 * EPow P2 (EVar vlmMst1) - #72 * EPow P2 (EVar vlmMt)) + #8 * EVar vlmMst1 * (- #4817 - #3
   * EVar vlmMt + #72 * EPow P2 (EVar vlmMt)) + #3 * (- #17921 + #7796 * EVar vlmMt + #384 * EPow P2 (EVar vlmMt)) +
   #504 * EPow P3 (EVar vlmMgl) + #648 * EPow P3 (EVar vlmMst1)))) * EPow P3 (EVar vMt)) + EVar vMuSUSY * EPow P2
   (EVar vMsq) * (#576 * EVar vMuSUSY * EVar vTbeta * (- #262 - #335 * EVar vlmMst1 + EVar vlmMgl * (#199 + #120 *
   EVar vlmMst1 - #72 * EVar vlmMt) + #96 * EVar vlmMt + #72 * EVar vlmMst1 * EVar vlmMt - #120 * EPow P2 (EVar
   vlmMst1)) * EPow P3 (EVar vMt) + (#41653 + #11784 * EVar vlmMst1 + #48 * EVar vlmMgl * (- #313 + #180 * EVar
   vlmMst1) - #12636 * EPow P2 (EVar vlmMgl) + #540 * EPow P2 (EVar vlmMst1)) * EPow P2 (EVar vSbeta) * EPow P3 (EVar
   vs2t) * EPow P4 (EVar vMst1))) - #12960 * EVar vMt * EVar vxDmsqst1 * EPow P2 (EVar vDmsqst1) * EPow P2 (EVar
   vMst1) * EPow P2 (EVar vMst2) * EPow P2 (EVar vSbeta) * (EVar vDmst12 * EVar vMt * (#2 * (#29 - #10 * EVar vlmMgl +
   #10 * EVar vlmMst1) * EVar vMuSUSY * EVar vs2t + EVar vMt * EVar vTbeta * (#307 + #268 * EVar vlmMst1 - #10 * EVar
   vlmMgl * (#3 + #2 * EVar vlmMst1 - #2 * EVar vlmMt) - #238 * EVar vlmMt - #20 * EVar vlmMst1 * EVar vlmMt + #20 *
   EPow P2 (EVar vlmMst1))) * EPow P2 (EVar vMst2) - EPow P2 (EVar vDmst12) * (#2 * (#29 - #10 * EVar vlmMgl + #10 *
   EVar vlmMst1) * EVar vMt * EVar vMuSUSY * EVar vs2t + EVar vTbeta * (#307 + #4 * EVar vlmMst1 * (#67 - #5 * EVar
   vlmMt) - #10 * EVar vlmMgl * (#3 + #2 * EVar vlmMst1 - #2 * EVar vlmMt) - #238 * EVar vlmMt + #20 * EPow P2 (EVar
   vlmMst1)) * EPow P2 (EVar vMt) + (- #29 + #10 * EVar vlmMgl - #10 * EVar vlmMst1) * EVar vTbeta * EPow P2 (EVar
   vMst1) * EPow P2 (EVar vs2t)) + (#179 - #10 * EVar vlmMgl + #10 * EVar vlmMst1) * (#1 + EVar vlmMst1 - EVar vlmMt)
   * EVar vTbeta * EPow P2 (EVar vMt) * EPow P4 (EVar vMst2))) + EVar vMt * EPow P2 (EVar vMst2) * (- #216 * EVar
   vtwoLoopFlag * EPow P2 (EVar vMst1) * (#24 * EVar vMt * EPow P2 (EVar vMst2) * (EVar vDmst12 * ((#1 - #2 * EVar
   vlmMgl + #2 * EVar vlmMst1) * EVar vMuSUSY * EVar vs2t + EVar vMt * EVar vTbeta * (#2 + #6 * EVar vlmMst1 - #3 *
   EVar vlmMt - #2 * EVar vlmMst1 * EVar vlmMt + EVar vlmMgl * (- #3 - #2 * EVar vlmMst1 + #2 * EVar vlmMt) + #2 *
   EPow P2 (EVar vlmMst1))) - #2 * EVar vMt * EVar vTbeta * (EVar vlmMgl * (#1 + EVar vlmMst1 - EVar vlmMt) + EVar
   vlmMst1 * (- #2 + EVar vlmMt) + EVar vlmMt - EPow P2 (EVar vlmMst1)) * EPow P2 (EVar vMst2)) * EPow P2 (EVar
   vSbeta) + EPow P2 (EVar vDmst12) * (#12 * EVar vMt * ((#3 - #2 * EVar vlmMgl + #2 * EVar vlmMst1) * EVar vMuSUSY *
   EVar vs2t + EVar vMt * EVar vTbeta * (#8 - #2 * EVar vlmMst1 * (- #5 + EVar vlmMt) - #5 * EVar vlmMt + EVar vlmMgl
   * (- #5 - #2 * EVar vlmMst1 + #2 * EVar vlmMt) + #2 * EPow P2 (EVar vlmMst1))) * EPow P2 (EVar vSbeta) + EVar
   vTbeta * EPow P2 (EVar vs2t) * (- ((- #1 + #3 * EVar vlmMgl - #3 * EVar vlmMst1) * EPow P2 (EVar vMuSUSY) * (- #1 +
   EPow P2 (EVar vSbeta))) + #12 * (#1 - #2 * EVar vlmMgl + #2 * EVar vlmMst1) * EPow P2 (EVar vMst1) * EPow P2 (EVar
   vSbeta)))) * EPow P4 (EVar vMsq) + EVar vAl4p * EVar vthreeLoopFlag * EPow P2 (EVar vMsq) * (EVar vDmst12 * EVar
   vs2t * EPow P2 (EVar vMst1) * (- (EVar vDmst12 * EVar vs2t * EVar vTbeta * (#12960 * EVar vDmsqst1 * (#29 - #10 *
   EVar vlmMgl + #10 * EVar vlmMst1) * EPow P2 (EVar vMst1) + EPow P2 (EVar vMsq) * (#432 * (#681 + #1506 * EVar
   vlmMst1 - #96 * (#1 + EVar vlmMst1) * EVar vlmMt + #2 * EVar vlmMgl * (- #656 + #99 * EVar vlmMst1 + #48 * EVar
   vlmMt) - #333 * EPow P2 (EVar vlmMgl) + #103 * EPow P2 (EVar vlmMst1)) * EPow P2 (EVar vMst1) + (#41653 + #11784 *
   EVar vlmMst1 + #48 * EVar vlmMgl * (- #313 + #180 * EVar vlmMst1) - #12636 * EPow P2 (EVar vlmMgl) + #540 * EPow P2
   (EVar vlmMst1)) * EPow P2 (EVar vMuSUSY))) * EPow P2 (EVar vSbeta)) + EVar vMuSUSY * (EVar vDmst12 * EVar vMuSUSY *
   EVar vs2t * EVar vTbeta * (#41653 + #11784 * EVar vlmMst1 + #48 * EVar vlmMgl * (- #313 + #180 * EVar vlmMst1) -
   #12636 * EPow P2 (EVar vlmMgl) + #540 * EPow P2 (EVar vlmMst1)) * EPow P2 (EVar vMsq) + #432 * EVar vMt * (- #60 *
   EVar vDmsqst1 * (- #29 + #10 * EVar vlmMgl - #10 * EVar vlmMst1) * (EVar vDmst12 - EPow P2 (EVar vMst2)) + EPow P2
   (EVar vMsq) * (EVar vDmst12 * (- #2961 - #1964 * EVar vlmMst1 + #192 * EVar vlmMt + #96 * EVar vlmMst1 * EVar vlmMt
   - #2 * EVar vlmMgl * (- #683 + #99 * EVar vlmMst1 + #48 * EVar vlmMt) + #333 * EPow P2 (EVar vlmMgl) - #103 * EPow
   P2 (EVar vlmMst1)) + #2 * (- #633 - #1458 * EVar vlmMst1 + #96 * EVar vlmMt + #96 * EVar vlmMst1 * EVar vlmMt - #2
   * EVar vlmMgl * (- #632 + #99 * EVar vlmMst1 + #48 * EVar vlmMt) + #333 * EPow P2 (EVar vlmMgl) - #103 * EPow P2
   (EVar vlmMst1)) * EPow P2 (EVar vMst2))) * EPow P2 (EVar vSbeta))) + #144 * EVar vTbeta * EPow P2 (EVar vMt) * (#4
   * EPow P2 (EVar vMsq) * EPow P2 (EVar vMuSUSY) * (EVar vDmst12 * (#262 + EVar vlmMst1 * (#335 - #72 * EVar vlmMt) -
   #96 * EVar vlmMt + EVar vlmMgl * (- #199 - #120 * EVar vlmMst1 + #72 * EVar vlmMt) + #120 * EPow P2 (EVar vlmMst1))
   * (EVar vDmst12 - EPow P2 (EVar vMst2)) - #2 * (#59 + #85 * EVar vlmMst1 - EVar vlmMgl * (#53 + #40 * EVar vlmMst1
   - #24 * EVar vlmMt) - #24 * (#1 + EVar vlmMst1) * EVar vlmMt + #40 * EPow P2 (EVar vlmMst1)) * EPow P4 (EVar
   vMst2)) + EPow P2 (EVar vSbeta) * (#90 * EVar vDmsqst1 * EPow P2 (EVar vMst1) * (EVar vDmst12 * (#307 + #4 * EVar
   vlmMst1 * (#67 - #5 * EVar vlmMt) - #10 * EVar vlmMgl * (#3 + #2 * EVar vlmMst1 - #2 * EVar vlmMt) - #238 * EVar
   vlmMt + #20 * EPow P2 (EVar vlmMst1)) * (EVar vDmst12 - EPow P2 (EVar vMst2)) - #2 * (#69 + EVar vlmMst1 * (#59 -
   #10 * EVar vlmMt) - #10 * EVar vlmMgl * (#1 + EVar vlmMst1 - EVar vlmMt) - #49 * EVar vlmMt + #10 * EPow P2 (EVar
   vlmMst1)) * EPow P4 (EVar vMst2)) - EPow P2 (EVar vMsq) * (EPow P2 (EVar vDmst12) * (#4 * (#262 + EVar vlmMst1 *
   (#335 - #72 * EVar vlmMt) - #96 * EVar vlmMt + EVar vlmMgl * (- #199 - #120 * EVar vlmMst1 + #72 * EVar vlmMt) +
   #120 * EPow P2 (EVar vlmMst1)) * EPow P2 (EVar vMuSUSY) + EPow P2 (EVar vMst1) * (#40279 - #17847 * EVar vlmMt - #6
   * (#303 + #108 * EVar vlmMst1 - #203 * EVar vlmMt) * EPow P2 (EVar vlmMgl) + (#952 + #870 * EVar vlmMt) * EPow P2
   (EVar vlmMst1) + EVar vlmMst1 * (#26599 + #804 * EVar vlmMt - #288 * EPow P2 (EVar vlmMt)) - #720 * EPow P2 (EVar
   vlmMt) + #2 * EVar vlmMgl * (- #1474 - #977 * EVar vlmMt - #12 * EVar vlmMst1 * (- #118 + #87 * EVar vlmMt) + #615
   * EPow P2 (EVar vlmMst1) + #144 * EPow P2 (EVar vlmMt)) - #190 * EPow P3 (EVar vlmMgl) - #392 * EPow P3 (EVar
   vlmMst1))) + #2 * (EVar vDmst12 * EPow P2 (EVar vMst2) * (- #2 * (#262 + EVar vlmMst1 * (#335 - #72 * EVar vlmMt) -
   #96 * EVar vlmMt + EVar vlmMgl * (- #199 - #120 * EVar vlmMst1 + #72 * EVar vlmMt) + #120 * EPow P2 (EVar vlmMst1))
   * EPow P2 (EVar vMuSUSY) + EPow P2 (EVar vMst1) * (#13484 - #5541 * EVar vlmMt + #6 * (#324 + #143 * EVar vlmMt) *
   EPow P2 (EVar vlmMst1) - #6 * EVar vlmMgl * (#666 + EVar vlmMgl * (#285 + #108 * EVar vlmMst1 - #265 * EVar vlmMt)
   + #57 * EVar vlmMt + #4 * EVar vlmMst1 * (- #59 + #102 * EVar vlmMt) - #203 * EPow P2 (EVar vlmMst1) - #48 * EPow
   P2 (EVar vlmMt)) - #432 * EPow P2 (EVar vlmMt) - #3 * EVar vlmMst1 * (- #3979 + #260 * EVar vlmMt + #96 * EPow P2
   (EVar vlmMt)) - #314 * EPow P3 (EVar vlmMgl) - #256 * EPow P3 (EVar vlmMst1))) + (- #4 * (#59 + EVar vlmMst1 * (#85
   - #24 * EVar vlmMt) - #24 * EVar vlmMt + EVar vlmMgl * (- #53 - #40 * EVar vlmMst1 + #24 * EVar vlmMt) + #40 * EPow
   P2 (EVar vlmMst1)) * EPow P2 (EVar vMuSUSY) + EPow P2 (EVar vMst1) * (#6677 - #2742 * EVar vlmMt + #6 * (#313 +
   #143 * EVar vlmMt) * EPow P2 (EVar vlmMst1) - #6 * EVar vlmMgl * (#645 + EVar vlmMgl * (#231 + #108 * EVar vlmMst1
   - #265 * EVar vlmMt) - #72 * EVar vlmMt + #12 * EVar vlmMst1 * (- #9 + #34 * EVar vlmMt) - #203 * EPow P2 (EVar
   vlmMst1) - #48 * EPow P2 (EVar vlmMt)) - #288 * EPow P2 (EVar vlmMt) - #12 * EVar vlmMst1 * (- #617 + #99 * EVar
   vlmMt + #24 * EPow P2 (EVar vlmMt)) - #314 * EPow P3 (EVar vlmMgl) - #256 * EPow P3 (EVar vlmMst1))) * EPow P4
   (EVar vMst2)))))))) + #6 * EVar vxDmst12 * EPow P3 (EVar vDmst12) * (EVar vMt * EPow P4 (EVar vMsq) * (#270 * EVar
   voneLoopFlag * (- (EVar vMt * EVar vTbeta * EPow P2 (EVar vs2t) * (EPow P2 (EVar vMuSUSY) * (- #1 + EPow P2 (EVar
   vSbeta)) + #18 * EPow P2 (EVar vMst1) * EPow P2 (EVar vSbeta))) - EPow P2 (EVar vSbeta) * (- #8 * EVar vMuSUSY *
   EVar vs2t * EPow P2 (EVar vMt) + #8 * EVar vTbeta * EPow P3 (EVar vMt) + EVar vMuSUSY * EPow P2 (EVar vMst1) * EPow
   P3 (EVar vs2t))) * EPow P6 (EVar vMst1) - #144 * EVar vAl4p * EVar vtwoLoopFlag * (- #20 * EVar vx * (EVar vTbeta *
   ((- #12 * EVar vMgl * (- ((EVar vlmMgl * (#17 + #6 * EVar vlmMst1 - #6 * EVar vlmMt) + #5 * EVar vlmMt + EVar
   vlmMst1 * (- #22 + #6 * EVar vlmMt)) * EVar vMt) + (#8 - #25 * EVar vlmMst1 + EVar vlmMgl * (#23 + #6 * EVar
   vlmMst1 - #6 * EVar vlmMt) + #2 * EVar vlmMt + #6 * EVar vlmMst1 * EVar vlmMt) * EVar vMgl * EVar vs2t + #6 * (EVar
   vMt - EVar vMgl * EVar vs2t) * EPow P2 (EVar vlmMst1)) * EPow P2 (EVar vMt) + (#1 - #3 * EVar vlmMgl + #3 * EVar
   vlmMst1) * EPow P2 (EVar vMst1) * (#12 * EVar vMgl * EVar vMt + EVar vs2t * EPow P2 (EVar vMst1)) * EPow P2 (EVar
   vs2t)) * EPow P2 (EVar vSbeta) + EVar vs2t * EPow P2 (EVar vMt) * (#2 * (- #1 + #3 * EVar vlmMgl - #3 * EVar
   vlmMst1) * EPow P2 (EVar vMuSUSY) * (- #1 + EPow P2 (EVar vSbeta)) + #48 * (- #2 - #9 * EVar vlmMst1 + EVar vlmMgl
   * (#7 + #2 * EVar vlmMst1 - #2 * EVar vlmMt) + #2 * EVar vlmMt + #2 * EVar vlmMst1 * EVar vlmMt - #2 * EPow P2
   (EVar vlmMst1)) * EPow P2 (EVar vMst1) * EPow P2 (EVar vSbeta))) + EVar vMuSUSY * EPow P2 (EVar vSbeta) * (#6 * (-
   #1 + #3 * EVar vlmMgl - #3 * EVar vlmMst1) * EVar vMt * EVar vs2t * (#2 * EVar vMgl * EVar vMt + EVar vs2t * EPow
   P2 (EVar vMst1)) + #12 * (EVar vlmMst1 * (#22 - #6 * EVar vlmMt) - #5 * EVar vlmMt + EVar vlmMgl * (- #17 - #6 *
   EVar vlmMst1 + #6 * EVar vlmMt) + #6 * EPow P2 (EVar vlmMst1)) * EPow P3 (EVar vMt))) * EPow P5 (EVar vMgl) + EVar
   vTbeta * EPow P2 (EVar vSbeta) * (#2 * EVar vMgl * EVar vs2t * EPow P2 (EVar vMst1) * EPow P2 (EVar vMt) * (- ((#9
   + #2 * EVar vlmMst1) * EPow P2 (EVar vMst1) * EPow P2 (EVar vMuSUSY)) + #20 * EPow P2 (EVar vMgl) * ((#1 + #4 *
   EVar vlmMst1 - #2 * (EVar vlmMgl + EVar vlmMt)) * EPow P2 (EVar vMst1) + #4 * (- #1 + EVar vlmMgl - EVar vlmMst1) *
   EPow P2 (EVar vMuSUSY)) + #40 * (#1 + #2 * EVar vlmMt) * EPow P4 (EVar vMst1)) - #5 * EVar vMt * EPow P2 (EVar
   vs2t) * EPow P4 (EVar vMst1) * (EPow P2 (EVar vMgl) * (#12 * (#3 + #2 * EVar vlmMst1) * EPow P2 (EVar vMst1) + (#1
   + #2 * EVar vlmMst1) * EPow P2 (EVar vMuSUSY)) - #4 * (EVar vlmMst1 * EPow P2 (EVar vMst1) * EPow P2 (EVar vMuSUSY)
   + #3 * (#1 + #6 * EVar vlmMst1) * EPow P4 (EVar vMst1))) + (#40 * (- #1 + #2 * EVar vlmMst1 + #2 * EVar vlmMt) *
   EPow P3 (EVar vMt) - #20 * ((#2 + EVar vlmMst1) * EVar vMgl * EPow P2 (EVar vMst1) + (#1 - #2 * EVar vlmMgl + #2 *
   EVar vlmMst1) * EPow P3 (EVar vMgl)) * EPow P3 (EVar vs2t)) * EPow P6 (EVar vMst1)) + EVar vMuSUSY * EPow P2 (EVar
   vMst1) * (EVar vMt * EVar vMuSUSY * EVar vs2t * EVar vTbeta * (#2 * (#9 + #2 * EVar vlmMst1) * EVar vMgl * EVar vMt
   * EPow P2 (EVar vMst1) + #5 * (#1 + #2 * EVar vlmMst1) * EVar vs2t * EPow P2 (EVar vMgl) * EPow P2 (EVar vMst1) +
   #160 * (#1 - EVar vlmMgl + EVar vlmMst1) * EVar vMt * EPow P3 (EVar vMgl) - #20 * EVar vlmMst1 * EVar vs2t * EPow
   P4 (EVar vMst1)) + #10 * EPow P2 (EVar vSbeta) * (EPow P3 (EVar vMgl) * (- #3 * (#1 + #2 * EVar vlmMgl - #2 * EVar
   vlmMst1) * EVar vMt * EPow P2 (EVar vMst1) * EPow P2 (EVar vs2t) + #8 * (#18 + #26 * EVar vlmMst1 - #13 * EVar
   vlmMt - #6 * EVar vlmMst1 * EVar vlmMt + EVar vlmMgl * (- #13 - #6 * EVar vlmMst1 + #6 * EVar vlmMt) + #6 * EPow P2
   (EVar vlmMst1)) * EPow P3 (EVar vMt)) + #2 * (#9 - #8 * EVar vlmMst1) * EVar vs2t * EPow P2 (EVar vMt) * EPow P4
   (EVar vMst1) + EVar vMgl * (#4 * (#1 + EVar vlmMt) * EPow P2 (EVar vMst1) * EPow P3 (EVar vMt) + #3 * (#3 + #2 *
   EVar vlmMst1) * EVar vMt * EPow P2 (EVar vs2t) * EPow P4 (EVar vMst1)) - EPow P2 (EVar vMgl) * (#4 * EVar vs2t *
   EPow P2 (EVar vMst1) * EPow P2 (EVar vMt) + (#3 + #2 * EVar vlmMst1) * EPow P3 (EVar vs2t) * EPow P4 (EVar vMst1))
   + (#1 + #2 * EVar vlmMst1) * EPow P3 (EVar vs2t) * EPow P6 (EVar vMst1))))) + EVar vthreeLoopFlag * EPow P2 (EVar
   vAl4p) * EPow P2 (EVar vMst1) * (#5 * EVar vxDmsqst1 * EPow P2 (EVar vDmsqst1) * (#5760 * EVar vMgl * EVar vMt *
   (EPow P2 (EVar vMst1) * (#4 * EVar vs2t * EPow P2 (EVar vMt) * (#8 * EVar vTbeta * EPow P2 (EVar vMuSUSY) * (- #1 +
   EPow P2 (EVar vSbeta)) + #72 * EVar vMgl * EVar vMuSUSY * EPow P2 (EVar vSbeta) + (- #15 - #38 * EVar vlmMst1 + #38
   * EVar vlmMt) * EVar vTbeta * EPow P2 (EVar vMst1) * EPow P2 (EVar vSbeta)) - #3 * EVar vMt * EPow P2 (EVar vs2t) *
   (- #4 * EVar vMgl * EVar vTbeta * EPow P2 (EVar vMuSUSY) * (- #1 + EPow P2 (EVar vSbeta)) + #7 * (EVar vMuSUSY - #3
   * EVar vMgl * EVar vTbeta) * EPow P2 (EVar vMst1) * EPow P2 (EVar vSbeta)) + (- #2 * (#91 + #103 * EVar vlmMst1 -
   #103 * EVar vlmMt) * EVar vMuSUSY + #27 * (#17 + #25 * EVar vlmMst1 - #25 * EVar vlmMt) * EVar vMgl * EVar vTbeta)
   * EPow P2 (EVar vSbeta) * EPow P3 (EVar vMt) + #2 * EPow P2 (EVar vMst1) * (#3 * EVar vMgl * EVar vMuSUSY + #5 *
   EVar vTbeta * EPow P2 (EVar vMst1)) * EPow P2 (EVar vSbeta) * EPow P3 (EVar vs2t)) + #4 * EPow P2 (EVar vMgl) *
   (EVar vMuSUSY * EPow P2 (EVar vSbeta) * (#6 * (- #3 + EVar vlmMgl - EVar vlmMst1) * EVar vMt * EPow P2 (EVar vMst1)
   * EPow P2 (EVar vs2t) + #6 * (#31 + #27 * EVar vlmMst1 - #24 * EVar vlmMt - #2 * EVar vlmMst1 * EVar vlmMt + EVar
   vlmMgl * (- #3 - #2 * EVar vlmMst1 + #2 * EVar vlmMt) + #2 * EPow P2 (EVar vlmMst1)) * EPow P3 (EVar vMt)) + EVar
   vTbeta * (- (EVar vs2t * EPow P2 (EVar vMt) * (- #2 * (- #3 + EVar vlmMgl - EVar vlmMst1) * EPow P2 (EVar vMuSUSY)
   * (- #1 + EPow P2 (EVar vSbeta)) + #3 * (#118 + EVar vlmMst1 * (#73 - #6 * EVar vlmMt) - #60 * EVar vlmMt + EVar
   vlmMgl * (- #13 - #6 * EVar vlmMst1 + #6 * EVar vlmMt) + #6 * EPow P2 (EVar vlmMst1)) * EPow P2 (EVar vMst1) * EPow
   P2 (EVar vSbeta))) + (#3 - EVar vlmMgl + EVar vlmMst1) * EPow P2 (EVar vSbeta) * EPow P3 (EVar vs2t) * EPow P4
   (EVar vMst1)))) + EPow P4 (EVar vMst1) * (#36 * EVar vTbeta * EPow P2 (EVar vMt) * EPow P2 (EVar vs2t) * ((#215 -
   #72 * EVar vshiftst1 - #208 * EVar vshiftst2 + #16 * EVar vlmMst1 * (- #5 + #3 * EVar vshiftst1 + #2 * EVar
   vshiftst2)) * EPow P2 (EVar vMuSUSY) * (- #1 + EPow P2 (EVar vSbeta)) + #5 * (#201 - #512 * EVar vshiftst1 + #128 *
   EVar vshiftst2 - #64 * EVar vlmMst1 * (#3 - #4 * EVar vshiftst1 + EVar vshiftst2)) * EPow P2 (EVar vMst1) * EPow P2
   (EVar vSbeta)) + #5 * EPow P2 (EVar vSbeta) * (#27 * EVar vMuSUSY * EVar vs2t * (#1389 - #256 * EVar vshiftst2) *
   EPow P3 (EVar vMt) + #36 * EVar vMt * EVar vMuSUSY * (#33 - #128 * EVar vshiftst1 + #64 * EVar vshiftst2 - #32 *
   EVar vlmMst1 * (#1 - #2 * EVar vshiftst1 + EVar vshiftst2)) * EPow P2 (EVar vMst1) * EPow P3 (EVar vs2t) + #16 * (-
   #2657 + #2928 * EVar vlmMst1 - #2928 * EVar vlmMt + #432 * EVar vshiftst2) * EVar vTbeta * EPow P4 (EVar vMt) -
   #576 * (- #2 + EVar vlmMst1) * (EVar vshiftst1 - EVar vshiftst2) * EVar vTbeta * EPow P4 (EVar vMst1) * EPow P4
   (EVar vs2t)))) + EPow P2 (EVar vMsq) * (#3 * EVar vMuSUSY * EPow P2 (EVar vSbeta) * (EVar vs2t * EPow P2 (EVar
   vMst1) * (EVar vMt * (#225 * EVar vDmsqst1 * (#15360 * EPow P2 (EVar vMgl) - #83 * EPow P2 (EVar vMst1)) - #8 *
   EPow P2 (EVar vMsq) * (#8 * (#4113 + #90 * EVar vlmMgl - #1792 * EVar vlmMst1 + #120 * EVar vlmMt - #48 * EPow P2
   (EVar vlmMst1)) * EPow P2 (EVar vMgl) + #5 * (#2615 + #2600 * EVar vlmMst1 - #1312 * EPow P2 (EVar vlmMst1)) * EPow
   P2 (EVar vMst1))) - #960 * EVar vMgl * EVar vs2t * (- #30 * EVar vDmsqst1 * (#8 * (- #3 + EVar vlmMgl - EVar
   vlmMst1) * EPow P2 (EVar vMgl) + EPow P2 (EVar vMst1)) + EPow P2 (EVar vMsq) * (- #2 * (#227 + #144 * EVar vlmMgl -
   #120 * EVar vlmMst1 - #20 * EVar vlmMgl * EVar vlmMst1 + #27 * EPow P2 (EVar vlmMgl) + EPow P2 (EVar vlmMst1)) *
   EPow P2 (EVar vMgl) + (#66 + #77 * EVar vlmMst1 + #41 * EPow P2 (EVar vlmMst1)) * EPow P2 (EVar vMst1)))) * EPow P2
   (EVar vMt) + #80 * (EVar vMt * (#15 * EVar vDmsqst1 * (#48 * EPow P2 (EVar vMgl) + (#3 - #24 * EVar vshiftst1 + #12
   * EVar vshiftst2 - #8 * EVar vlmMst1 * (#1 - #2 * EVar vshiftst1 + EVar vshiftst2)) * EPow P2 (EVar vMst1)) + #2 *
   EPow P2 (EVar vMsq) * ((#200 + #18 * EVar vlmMgl + #265 * EVar vlmMst1 + #91 * EPow P2 (EVar vlmMst1)) * EPow P2
   (EVar vMgl) - (#16 + #60 * EVar vshiftst1 - #30 * EVar vshiftst2 + EVar vlmMst1 * (#115 - #120 * EVar vshiftst1 +
   #60 * EVar vshiftst2) + #41 * EPow P2 (EVar vlmMst1)) * EPow P2 (EVar vMst1))) * EPow P3 (EVar vs2t) + #3 * EVar
   vshiftst3 * EPow P2 (EVar vMsq) * (#16 * (#7 - #3 * EVar vlmMst1) * EVar vs2t * EPow P3 (EVar vMt) + (- #13 + #14 *
   EVar vlmMst1) * EVar vMt * EPow P2 (EVar vMst1) * EPow P3 (EVar vs2t))) * EPow P4 (EVar vMst1) + #640 * EVar vMgl *
   (#360 * EVar vDmsqst1 * (#31 + EVar vlmMst1 * (#27 - #2 * EVar vlmMt) - #24 * EVar vlmMt + EVar vlmMgl * (- #3 - #2
   * EVar vlmMst1 + #2 * EVar vlmMt) + #2 * EPow P2 (EVar vlmMst1)) * EPow P2 (EVar vMgl) - #240 * EVar vDmsqst1 *
   (#11 + #20 * EVar vlmMst1 - #20 * EVar vlmMt) * EPow P2 (EVar vMst1) - (- #233 + #47 * EVar vlmMt + EVar vlmMst1 *
   (- #3 + #2 * EVar vlmMt) + #15 * EPow P2 (EVar vlmMst1) + #24 * EPow P2 (EVar vlmMt)) * EPow P2 (EVar vMsq) * EPow
   P2 (EVar vMst1) - #4 * EPow P2 (EVar vMgl) * EPow P2 (EVar vMsq) * (#5845 - #2937 * EVar vlmMt - #27 * (#16 + EVar
   vlmMgl + #6 * EVar vlmMst1 - #9 * EVar vlmMt) * EPow P2 (EVar vlmMgl) + (#346 + #183 * EVar vlmMt) * EPow P2 (EVar
   vlmMst1) + EVar vlmMst1 * (#4753 - #84 * EVar vlmMt - #72 * EPow P2 (EVar vlmMt)) - #156 * EPow P2 (EVar vlmMt) +
   EVar vlmMgl * (- #783 - #426 * EVar vlmMst1 * (- #1 + EVar vlmMt) - #52 * EVar vlmMt + #273 * EPow P2 (EVar
   vlmMst1) + #72 * EPow P2 (EVar vlmMt)) - #84 * EPow P3 (EVar vlmMst1))) * EPow P4 (EVar vMt)) + EVar vTbeta * (-
   #60 * EPow P2 (EVar vMst1) * EPow P2 (EVar vMt) * EPow P2 (EVar vs2t) * ((#15 * EVar vDmsqst1 * (#384 * EPow P2
   (EVar vMgl) + (#1 - #16 * EVar vlmMst1) * EPow P2 (EVar vMst1)) + #2 * EPow P2 (EVar vMsq) * (#2 * (- #425 + #18 *
   EVar vlmMgl + #83 * EVar vlmMst1 + #91 * EPow P2 (EVar vlmMst1)) * EPow P2 (EVar vMgl) + (#121 - #176 * EVar
   vlmMst1 - #164 * EPow P2 (EVar vlmMst1)) * EPow P2 (EVar vMst1))) * EPow P2 (EVar vMuSUSY) + #24 * EVar vshiftst1 *
   (EVar vDmsqst1 * (#3 - #2 * EVar vlmMst1) + (#1 - #2 * EVar vlmMst1) * EPow P2 (EVar vMsq)) * EPow P2 (EVar vMst1)
   * (#80 * EPow P2 (EVar vMst1) + #3 * EPow P2 (EVar vMuSUSY)) * EPow P2 (EVar vSbeta)) + #64 * EVar vMgl * (#12 *
   EVar vMgl * EVar vMt * (#323 - #75 * EVar vlmMgl + #383 * EVar vlmMst1 - #100 * EVar vlmMt + #32 * EPow P2 (EVar
   vlmMst1)) * EPow P2 (EVar vMsq) + #240 * EVar vs2t * EPow P2 (EVar vMgl) * (#15 * EVar vDmsqst1 * (#3 - EVar vlmMgl
   + EVar vlmMst1) + (- #130 + EVar vlmMgl * (#159 - #20 * EVar vlmMst1) - #162 * EVar vlmMst1 + #27 * EPow P2 (EVar
   vlmMgl) + EPow P2 (EVar vlmMst1)) * EPow P2 (EVar vMsq)) - EVar vs2t * (#18000 * EVar vDmsqst1 + (- #365 + #1049 *
   EVar vlmMst1 + #123 * EPow P2 (EVar vlmMst1)) * EPow P2 (EVar vMsq)) * EPow P2 (EVar vMst1)) * EPow P2 (EVar
   vMuSUSY) * EPow P3 (EVar vMt) + #144 * EPow P4 (EVar vMst1) * (EVar vshiftst3 * EPow P2 (EVar vMsq) * (#2 * EPow P2
   (EVar vMt) * EPow P2 (EVar vs2t) * ((- #29 + #18 * EVar vlmMst1) * EPow P2 (EVar vMuSUSY) * (- #1 + EPow P2 (EVar
   vSbeta)) + #5 * (- #83 + #58 * EVar vlmMst1) * EPow P2 (EVar vMst1) * EPow P2 (EVar vSbeta)) - #80 * (- #7 + #3 *
   EVar vlmMst1) * EPow P2 (EVar vSbeta) * EPow P4 (EVar vMt) + #5 * (#1 - #2 * EVar vlmMst1) * EPow P2 (EVar vSbeta)
   * EPow P4 (EVar vMst1) * EPow P4 (EVar vs2t)) + #10 * (EVar vDmsqst1 * (#3 - #2 * EVar vlmMst1) + (#1 - #2 * EVar
   vlmMst1) * EPow P2 (EVar vMsq)) * (EPow P2 (EVar vMt) * EPow P2 (EVar vs2t) * (#20 * EVar vshiftst2 * EPow P2 (EVar
   vMst1) * EPow P2 (EVar vSbeta) + EPow P2 (EVar vMuSUSY) * (#3 * EVar vshiftst1 + #2 * EVar vshiftst2 - #2 * EVar
   vshiftst2 * EPow P2 (EVar vSbeta))) - #5 * EVar vshiftst2 * EPow P2 (EVar vSbeta) * EPow P4 (EVar vMst1) * EPow P4
   (EVar vs2t))) + EPow P2 (EVar vSbeta) * (#60 * EPow P2 (EVar vMst1) * EPow P2 (EVar vMt) * EPow P2 (EVar vs2t) *
   (#15 * EVar vDmsqst1 * (- #96 * EPow P2 (EVar vMgl) * (#3 * EPow P2 (EVar vMst1) - #4 * EPow P2 (EVar vMuSUSY)) +
   (#1 - #16 * EVar vlmMst1) * EPow P2 (EVar vMst1) * EPow P2 (EVar vMuSUSY) + #6 * (#9 - #32 * EVar vlmMst1) * EPow
   P4 (EVar vMst1)) + #2 * EPow P2 (EVar vMsq) * ((#121 - #176 * EVar vlmMst1 - #164 * EPow P2 (EVar vlmMst1)) * EPow
   P2 (EVar vMst1) * EPow P2 (EVar vMuSUSY) + #2 * EPow P2 (EVar vMgl) * (#12 * (#3 - #18 * EVar vlmMgl + #397 * EVar
   vlmMst1 - #48 * EVar vlmMt + #107 * EPow P2 (EVar vlmMst1)) * EPow P2 (EVar vMst1) + (- #425 + #18 * EVar vlmMgl +
   #83 * EVar vlmMst1 + #91 * EPow P2 (EVar vlmMst1)) * EPow P2 (EVar vMuSUSY)) - #12 * (- #119 + #250 * EVar vlmMst1
   + #246 * EPow P2 (EVar vlmMst1)) * EPow P4 (EVar vMst1))) + EVar vMgl * (#960 * EVar vMt * (#60 * EVar vDmsqst1 *
   (#2 * (#3 - EVar vlmMgl + EVar vlmMst1) * EPow P2 (EVar vMgl) + #3 * EPow P2 (EVar vMst1)) + EPow P2 (EVar vMsq) *
   (- #4 * (- #11 + EVar vlmMgl * (#154 - #20 * EVar vlmMst1) - #148 * EVar vlmMst1 + #27 * EPow P2 (EVar vlmMgl) +
   EPow P2 (EVar vlmMst1)) * EPow P2 (EVar vMgl) + (#215 + #118 * EVar vlmMst1 + #41 * EPow P2 (EVar vlmMst1)) * EPow
   P2 (EVar vMst1))) * EPow P3 (EVar vs2t) * EPow P4 (EVar vMst1) + #64 * EVar vs2t * EPow P3 (EVar vMt) * (#900 *
   EVar vDmsqst1 * (#20 * EPow P2 (EVar vMst1) * EPow P2 (EVar vMuSUSY) + #4 * EPow P2 (EVar vMgl) * (#3 * (- #67 -
   #43 * EVar vlmMst1 + EVar vlmMgl * (#5 + #2 * EVar vlmMst1 - #2 * EVar vlmMt) + #38 * EVar vlmMt + #2 * EVar
   vlmMst1 * EVar vlmMt - #2 * EPow P2 (EVar vlmMst1)) * EPow P2 (EVar vMst1) + (- #3 + EVar vlmMgl - EVar vlmMst1) *
   EPow P2 (EVar vMuSUSY)) + (#15 + #2 * EVar vlmMst1 - #2 * EVar vlmMt) * EPow P4 (EVar vMst1)) + EPow P2 (EVar vMsq)
   * ((- #365 + #1049 * EVar vlmMst1 + #123 * EPow P2 (EVar vlmMst1)) * EPow P2 (EVar vMst1) * EPow P2 (EVar vMuSUSY)
   + #30 * EPow P2 (EVar vMgl) * ((#2722 + #965 * EVar vlmMst1 - #6 * (#200 + #23 * EVar vlmMst1) * EVar vlmMt + EVar
   vlmMgl * (#67 - #258 * EVar vlmMst1 + #178 * EVar vlmMt) + #108 * EPow P2 (EVar vlmMgl) + #62 * EPow P2 (EVar
   vlmMst1) + #48 * EPow P2 (EVar vlmMt)) * EPow P2 (EVar vMst1) - #8 * (- #130 + EVar vlmMgl * (#159 - #20 * EVar
   vlmMst1) - #162 * EVar vlmMst1 + #27 * EPow P2 (EVar vlmMgl) + EPow P2 (EVar vlmMst1)) * EPow P2 (EVar vMuSUSY)) -
   #30 * (- #223 + #342 * EVar vlmMt + EVar vlmMst1 * (- #442 + #8 * EVar vlmMt) + #60 * EPow P2 (EVar vlmMst1) + #96
   * EPow P2 (EVar vlmMt)) * EPow P4 (EVar vMst1)))) + #8 * (#25 * EVar vDmsqst1 * (#2592 * (#25 + #47 * EVar vlmMst1
   - #47 * EVar vlmMt) * EPow P2 (EVar vMgl) * EPow P2 (EVar vMst1) + (- #907 + #96 * EVar vlmMst1 - #96 * EVar vlmMt)
   * EPow P4 (EVar vMst1)) - #4 * EPow P2 (EVar vMsq) * (#12 * EPow P2 (EVar vMgl) * (#5 * (#1140 + EVar vlmMst1 *
   (#747 - #32 * EVar vlmMt) - #747 * EVar vlmMt + #16 * EPow P2 (EVar vlmMst1)) * EPow P2 (EVar vMst1) + #2 * (#323 -
   #75 * EVar vlmMgl + #383 * EVar vlmMst1 - #100 * EVar vlmMt + #32 * EPow P2 (EVar vlmMst1)) * EPow P2 (EVar
   vMuSUSY)) + #5 * (#2243 + #2052 * EVar vlmMt - #24 * EVar vlmMst1 * (#129 + #10 * EVar vlmMt) + #612 * (EPow P2
   (EVar vlmMst1) + EPow P2 (EVar vlmMt))) * EPow P4 (EVar vMst1))) * EPow P4 (EVar vMt) + #7200 * EVar vshiftst1 *
   (EVar vDmsqst1 * (#3 - #2 * EVar vlmMst1) + (#1 - #2 * EVar vlmMst1) * EPow P2 (EVar vMsq)) * EPow P4 (EVar vs2t) *
   EPow P8 (EVar vMst1)))))))) / (#77760 * EVar vTbeta * EPow P2 (EVar vSbeta) * EPow P4 (EVar vMsq) * EPow P6 (EVar
   vMst2) * EPow P8 (EVar vMst1)).

(** H9q2.cpp:872-1177 *)
Definition H9q2_getS12 : expr :=
  EVar vMuSUSY * (- #6 * EVar vxDmst12 * EPow P3 (EVar vDmst12) * (EVar vthreeLoopFlag * EPow P2 (EVar vAl4p) * (- #3 *
   EVar vs2t * (#104600 + #104000 * EVar vlmMst1 - #52480 * EPow P2 (EVar vlmMst1) + #18675 * EVar vDmsqst1 / EPow P2
   (EVar vMsq) + #64 * EPow P2 (EVar vMgl) * (#4113 + #90 * EVar vlmMgl - #1792 * EVar vlmMst1 + #120 * EVar vlmMt -
   #48 * EPow P2 (EVar vlmMst1) - #54000 * EVar vDmsqst1 / EPow P2 (EVar vMsq)) / EPow P2 (EVar vMst1)) * EPow P3
   (EVar vMt) + #720 * EVar vshiftst3 * (#16 * (#7 - #3 * EVar vlmMst1) * EVar vs2t * EPow P3 (EVar vMt) + (- #13 +
   #14 * EVar vlmMst1) * EVar vMt * EPow P2 (EVar vMst1) * EPow P3 (EVar vs2t)) + #240 * EVar vMt * ((#15 * EVar
   vDmsqst1 * (#48 * EPow P2 (EVar vMgl) + (#3 - #24 * EVar vshiftst1 + #12 * EVar vshiftst2 - #8 * EVar vlmMst1 * (#1
   - #2 * EVar vshiftst1 + EVar vshiftst2)) * EPow P2 (EVar vMst1)) + #2 * EPow P2 (EVar vMsq) * ((#200 + #18 * EVar
   vlmMgl + #265 * EVar vlmMst1 + #91 * EPow P2 (EVar vlmMst1)) * EPow P2 (EVar vMgl) - (#16 + #60 * EVar vshiftst1 -
   #30 * EVar vshiftst2 + EVar vlmMst1 * (#115 - #120 * EVar vshiftst1 + #60 * EVar vshiftst2) + #41 * EPow P2 (EVar
   vlmMst1)) * EPow P2 (EVar vMst1))) * EPow P3 (EVar vs2t) + #4 * EVar vMgl * EVar vMt * (- #3 * EPow P2 (EVar vMst1)
   * (- #30 * EVar vDmsqst1 * (#8 * (- #3 + EVar vlmMgl - EVar vlmMst1) * EPow P2 (EVar vMgl) + EPow P2 (EVar vMst1))
   + EPow P2 (EVar vMsq) * (- #2 * (#227 + #144 * EVar vlmMgl - #120 * EVar vlmMst1 - #20 * EVar vlmMgl * EVar vlmMst1
   + #27 * EPow P2 (EVar vlmMgl) + EPow P2 (EVar vlmMst1)) * EPow P2 (EVar vMgl) + (#66 + #77 * EVar vlmMst1 + #41 *
   EPow P2 (EVar vlmMst1)) * EPow P2 (EVar vMst1))) * EPow P2 (EVar vs2t) + #2 * EPow P2 (EVar vMt) * (#360 * EVar
   vDmsqst1 * (#31 + EVar vlmMst1 * (#27 - #2 * EVar vlmMt) - #24 * EVar vlmMt + EVar vlmMgl * (- #3 - #2 * EVar
   vlmMst1 + #2 * EVar vlmMt) + #2 * EPow P2 (EVar vlmMst1)) * EPow P2 (EVar vMgl) - #240 * EVar vDmsqst1 * (#11 + #20
   * EVar vlmMst1 - #20 * EVar vlmMt) * EPow P2 (EVar vMst1) - (- #233 + #47 * EVar vlmMt + EVar vlmMst1 * (- #3 + #2
   * EVar vlmMt) + #15 * EPow P2 (EVar vlmMst1) + #24 * EPow P2 (EVar vlmMt)) * EPow P2 (EVar vMsq) * EPow P2 (EVar
   vMst1) - #4 * EPow P2 (EVar vMgl) * EPow P2 (EVar vMsq) * (#5845 - #2937 * EVar vlmMt - #27 * (#16 + EVar vlmMgl +
   #6 * EVar vlmMst1 - #9 * EVar vlmMt) * EPow P2 (EVar vlmMgl) + (#346 + #183 * EVar vlmMt) * EPow P2 (EVar vlmMst1)
   + EVar vlmMst1 * (#4753 - #84 * EVar vlmMt - #72 * EPow P2 (EVar vlmMt)) - #156 * EPow P2 (EVar vlmMt) + EVar
   vlmMgl * (- #783 - #426 * EVar vlmMst1 * (- #1 + EVar vlmMt) - #52 * EVar vlmMt + #273 * EPow P2 (EVar vlmMst1) +
   #72 * EPow P2 (EVar vlmMt)) - #84 * EPow P3 (EVar vlmMst1)))) / EPow P4 (EVar vMst1)) / EPow P2 (EVar vMsq) + EVar
   vMt * (#8 * EVar vMt * EVar vMuSUSY * EPow P2 (EVar vMsq) * (- #12 * EPow P2 (EVar vMgl) * (#7200 * EVar vDmsqst1 *
   EPow P2 (EVar vMst1) * EPow P2 (EVar vs2t) + EPow P2 (EVar vMsq) * (#16 * (- #323 + #75 * EVar vlmMgl - #383 * EVar
   vlmMst1 + #100 * EVar vlmMt - #32 * EPow P2 (EVar vlmMst1)) * EPow P2 (EVar vMt) + #5 * (- #425 + #18 * EVar vlmMgl
   + #83 * EVar vlmMst1 + #91 * EPow P2 (EVar vlmMst1)) * EPow P2 (EVar vMst1) * EPow P2 (EVar vs2t))) + EVar vMt *
   EVar vs2t * (- #16 * EVar vMgl * (#18000 * EVar vDmsqst1 + (- #365 + #1049 * EVar vlmMst1 + #123 * EPow P2 (EVar
   vlmMst1)) * EPow P2 (EVar vMsq)) * EPow P2 (EVar vMst1) + #3840 * (#15 * EVar vDmsqst1 * (#3 - EVar vlmMgl + EVar
   vlmMst1) + (- #130 + EVar vlmMgl * (#159 - #20 * EVar vlmMst1) - #162 * EVar vlmMst1 + #27 * EPow P2 (EVar vlmMgl)
   + EPow P2 (EVar vlmMst1)) * EPow P2 (EVar vMsq)) * EPow P3 (EVar vMgl)) - #3 * (#15 * EVar vDmsqst1 * (#5 - #72 *
   EVar vshiftst1 - #48 * EVar vshiftst2 + #16 * EVar vlmMst1 * (- #5 + #3 * EVar vshiftst1 + #2 * EVar vshiftst2)) -
   #2 * (- #605 + #180 * EVar vshiftst1 + #120 * EVar vshiftst2 + #348 * EVar vshiftst3 - #8 * EVar vlmMst1 * (- #110
   + #45 * EVar vshiftst1 + #30 * EVar vshiftst2 + #27 * EVar vshiftst3) + #820 * EPow P2 (EVar vlmMst1)) * EPow P2
   (EVar vMsq)) * EPow P2 (EVar vs2t) * EPow P4 (EVar vMst1)) - #45 * EVar vxDmsqst1 * EPow P2 (EVar vDmsqst1) * (-
   #5120 * EVar vMt * (#2 * (#3 - EVar vlmMgl + EVar vlmMst1) * EVar vMt * EVar vMuSUSY * EVar vs2t + #3 * EVar vTbeta
   * (#31 + #27 * EVar vlmMst1 - #24 * EVar vlmMt - #2 * EVar vlmMst1 * EVar vlmMt + EVar vlmMgl * (- #3 - #2 * EVar
   vlmMst1 + #2 * EVar vlmMt) + #2 * EPow P2 (EVar vlmMst1)) * EPow P2 (EVar vMt) + #3 * (- #3 + EVar vlmMgl - EVar
   vlmMst1) * EVar vTbeta * EPow P2 (EVar vMst1) * EPow P2 (EVar vs2t)) * EPow P3 (EVar vMgl) + #640 * EVar vMgl *
   EPow P2 (EVar vMst1) * (#32 * EVar vs2t * (#2 * EVar vMuSUSY - #9 * EVar vMgl * EVar vTbeta) * EPow P2 (EVar vMt) +
   #3 * EVar vMt * (#8 * EVar vMgl * EVar vMuSUSY + #7 * EVar vTbeta * EPow P2 (EVar vMst1)) * EPow P2 (EVar vs2t) +
   #2 * (#91 + #103 * EVar vlmMst1 - #103 * EVar vlmMt) * EVar vTbeta * EPow P3 (EVar vMt) - #6 * EVar vMgl * EVar
   vTbeta * EPow P2 (EVar vMst1) * EPow P3 (EVar vs2t)) + EVar vs2t * (#8 * EVar vMt * EVar vMuSUSY * EVar vs2t *
   (#215 - #72 * EVar vshiftst1 - #208 * EVar vshiftst2 + #16 * EVar vlmMst1 * (- #5 + #3 * EVar vshiftst1 + #2 * EVar
   vshiftst2)) + EVar vTbeta * (#15 * (- #1389 + #256 * EVar vshiftst2) * EPow P2 (EVar vMt) - #20 * (#33 - #128 *
   EVar vshiftst1 + #64 * EVar vshiftst2 - #32 * EVar vlmMst1 * (#1 - #2 * EVar vshiftst1 + EVar vshiftst2)) * EPow P2
   (EVar vMst1) * EPow P2 (EVar vs2t))) * EPow P4 (EVar vMst1))) / (EVar vTbeta * EPow P4 (EVar vMsq) * EPow P4 (EVar
   vMst1))) + EVar vMt * (- #270 * EVar voneLoopFlag * EVar vs2t * (- #2 * EVar vMt * EVar vMuSUSY * EVar vs2t - #8 *
   EVar vTbeta * EPow P2 (EVar vMt) + EVar vTbeta * EPow P2 (EVar vMst1) * EPow P2 (EVar vs2t)) - #288 * EVar vAl4p *
   EVar vtwoLoopFlag * (#5 * EVar vMt * EPow P2 (EVar vMst1) * (#32 * (#1 - EVar vlmMgl + EVar vlmMst1) * EVar vMt *
   EVar vMuSUSY * EVar vs2t + #8 * EVar vTbeta * (#18 + EVar vlmMst1 * (#26 - #6 * EVar vlmMt) - #13 * EVar vlmMt +
   EVar vlmMgl * (- #13 - #6 * EVar vlmMst1 + #6 * EVar vlmMt) + #6 * EPow P2 (EVar vlmMst1)) * EPow P2 (EVar vMt) -
   #3 * (#1 + #2 * EVar vlmMgl - #2 * EVar vlmMst1) * EVar vTbeta * EPow P2 (EVar vMst1) * EPow P2 (EVar vs2t)) * EPow
   P3 (EVar vMgl) + #5 * EVar vs2t * EPow P2 (EVar vMgl) * ((#1 + #2 * EVar vlmMst1) * EVar vMt * EVar vMuSUSY * EVar
   vs2t - #4 * EVar vTbeta * EPow P2 (EVar vMt) - (#3 + #2 * EVar vlmMst1) * EVar vTbeta * EPow P2 (EVar vMst1) * EPow
   P2 (EVar vs2t)) * EPow P4 (EVar vMst1) + EVar vMgl * EVar vMt * (#2 * (#9 + #2 * EVar vlmMst1) * EVar vMt * EVar
   vMuSUSY * EVar vs2t + #20 * (#1 + EVar vlmMt) * EVar vTbeta * EPow P2 (EVar vMt) + #15 * (#3 + #2 * EVar vlmMst1) *
   EVar vTbeta * EPow P2 (EVar vMst1) * EPow P2 (EVar vs2t)) * EPow P4 (EVar vMst1) - #20 * EVar vMt * EVar vx * (#2 *
   (#1 - #3 * EVar vlmMgl + #3 * EVar vlmMst1) * EVar vMt * EVar vMuSUSY * EVar vs2t - #6 * EVar vTbeta * (- #22 *
   EVar vlmMst1 + EVar vlmMgl * (#17 + #6 * EVar vlmMst1 - #6 * EVar vlmMt) + #5 * EVar vlmMt + #6 * EVar vlmMst1 *
   EVar vlmMt - #6 * EPow P2 (EVar vlmMst1)) * EPow P2 (EVar vMt) + #3 * (- #1 + #3 * EVar vlmMgl - #3 * EVar vlmMst1)
   * EVar vTbeta * EPow P2 (EVar vMst1) * EPow P2 (EVar vs2t)) * EPow P5 (EVar vMgl) + #120 * (#1 - #3 * EVar vlmMgl +
   #3 * EVar vlmMst1) * EVar vs2t * EVar vTbeta * EVar vx * EPow P2 (EVar vMt) * EPow P6 (EVar vMgl) - #5 * EVar vs2t
   * (#4 * EVar vlmMst1 * EVar vMt * EVar vMuSUSY * EVar vs2t + #2 * (- #9 + #8 * EVar vlmMst1) * EVar vTbeta * EPow
   P2 (EVar vMt) - (#1 + #2 * EVar vlmMst1) * EVar vTbeta * EPow P2 (EVar vMst1) * EPow P2 (EVar vs2t)) * EPow P6
   (EVar vMst1)) / EPow P6 (EVar vMst1)) / EVar vTbeta) + (- #9 * EVar vthreeLoopFlag * EPow P2 (EVar vAl4p) * (EVar
   vMt * (#1200 * EVar vxDmsqst1 * EPow P2 (EVar vDmsqst1) * EPow P2 (EVar vMst1) * EPow P2 (EVar vMst2) * (- #2 *
   EVar vDmst12 * EVar vMt * EPow P2 (EVar vMst2) * (EVar vMt * (#16 * EVar vMgl * (- #20 * EVar vMuSUSY * EVar vs2t -
   #3 * (#11 + #47 * EVar vlmMst1 - #47 * EVar vlmMt) * EVar vMt * EVar vTbeta + #90 * EVar vMgl * EVar vs2t * EVar
   vTbeta) * EPow P2 (EVar vMst1) - #64 * (#2 * (#3 - EVar vlmMgl + EVar vlmMst1) * EVar vMuSUSY * EVar vs2t + #3 *
   EVar vMt * EVar vTbeta * (#31 + #27 * EVar vlmMst1 - #24 * EVar vlmMt - #2 * EVar vlmMst1 * EVar vlmMt + EVar
   vlmMgl * (- #3 - #2 * EVar vlmMst1 + #2 * EVar vlmMt) + #2 * EPow P2 (EVar vlmMst1))) * EPow P3 (EVar vMgl)) - EVar
   vs2t * (- #16 * (- #2 + EVar vlmMst1) * EVar vMuSUSY * EVar vs2t * (EVar vshiftst1 - EVar vshiftst2) + #3 * EVar
   vMt * (- #87 - #32 * EVar vlmMst1 * (- #1 + EVar vshiftst2) + #64 * EVar vshiftst2) * EVar vTbeta) * EPow P4 (EVar
   vMst1)) + EPow P2 (EVar vDmst12) * (EVar vMt * (#32 * EVar vMgl * EPow P2 (EVar vMst1) * (#3 * EVar vMt * EVar vs2t
   * (#2 * EVar vMuSUSY - #9 * EVar vMgl * EVar vTbeta) + (#29 - #19 * EVar vlmMst1 + #19 * EVar vlmMt) * EVar vTbeta
   * EPow P2 (EVar vMt) + #3 * (#2 * EVar vMgl * EVar vMuSUSY + #5 * EVar vTbeta * EPow P2 (EVar vMst1)) * EPow P2
   (EVar vs2t)) - #64 * (#4 * (#3 - EVar vlmMgl + EVar vlmMst1) * EVar vMt * EVar vMuSUSY * EVar vs2t + #6 * EVar
   vTbeta * (#31 + #27 * EVar vlmMst1 - #24 * EVar vlmMt - #2 * EVar vlmMst1 * EVar vlmMt + EVar vlmMgl * (- #3 - #2 *
   EVar vlmMst1 + #2 * EVar vlmMt) + #2 * EPow P2 (EVar vlmMst1)) * EPow P2 (EVar vMt) + #3 * (- #3 + EVar vlmMgl -
   EVar vlmMst1) * EVar vTbeta * EPow P2 (EVar vMst1) * EPow P2 (EVar vs2t)) * EPow P3 (EVar vMgl)) + EVar vs2t *
   (EVar vMt * EVar vMuSUSY * EVar vs2t * (#33 + #16 * EVar vlmMst1 * (- #2 + EVar vshiftst1 + EVar vshiftst2) - #32 *
   (EVar vshiftst1 + EVar vshiftst2)) + EVar vTbeta * (- #321 * EPow P2 (EVar vMt) - #24 * (- #2 + EVar vlmMst1) *
   (EVar vshiftst1 - EVar vshiftst2) * EPow P2 (EVar vMst1) * EPow P2 (EVar vs2t))) * EPow P4 (EVar vMst1)) + #192 *
   EVar vTbeta * EPow P2 (EVar vMt) * (#2 * EVar vMt * ((#1 + #7 * EVar vlmMst1 - #7 * EVar vlmMt) * EVar vMgl * EPow
   P2 (EVar vMst1) + (#18 - EVar vlmMgl + EVar vlmMst1) * (#1 + EVar vlmMst1 - EVar vlmMt) * EPow P3 (EVar vMgl)) + (-
   #2 + EVar vlmMst1) * EVar vs2t * (EVar vshiftst1 - EVar vshiftst2) * EPow P4 (EVar vMst1)) * EPow P4 (EVar vMst2))
   - #3 * EConst Cz3 * (#80 * EVar vDmst12 * EPow P2 (EVar vMt) * EPow P4 (EVar vMst2) * (- #96 * EVar vxMgl * (#121 *
   EVar vMt * EVar vMuSUSY + #93 * EVar vs2t * EVar vTbeta * EPow P2 (EVar vMst1)) * EPow P4 (EVar vMgl) * EPow P4
   (EVar vMsq) + #32 * EPow P2 (EVar vMgl) * EPow P2 (EVar vMst1) * ((#7 * EVar vMt * EVar vMuSUSY - #6 * EVar vs2t *
   EVar vTbeta * EPow P2 (EVar vMst1)) * EPow P4 (EVar vMsq) - #2 * EVar vMgl * (#1440 * EVar vDmsqst1 * EVar vMt *
   EVar vTbeta * (EVar vDmsqst1 * EVar vxDmsqst1 + EPow P2 (EVar vMsq)) + (#81 * EVar vMuSUSY * EVar vs2t + #50 * EVar
   vMt * EVar vTbeta) * EPow P4 (EVar vMsq))) - #32 * EVar vMgl * (#1680 * EVar vMt * EVar vTbeta * EVar vxDmsqst1 *
   EPow P2 (EVar vDmsqst1) + #960 * EVar vDmsqst1 * EVar vMt * EVar vTbeta * EPow P2 (EVar vMsq) + (- #7 * EVar
   vMuSUSY * EVar vs2t + #248 * EVar vMt * EVar vTbeta) * EPow P4 (EVar vMsq)) * EPow P4 (EVar vMst1) + #3 * EVar vs2t
   * EVar vTbeta * (#525 * EVar vxDmsqst1 * EPow P2 (EVar vDmsqst1) + #280 * EVar vDmsqst1 * EPow P2 (EVar vMsq) -
   #248 * EPow P4 (EVar vMsq)) * EPow P6 (EVar vMst1)) - #40 * EVar vMt * EPow P2 (EVar vDmst12) * EPow P2 (EVar
   vMst2) * (- #24 * EVar vxMgl * (- #372 * EVar vMt * EVar vs2t * EVar vTbeta * EPow P2 (EVar vMst1) + #968 * EVar
   vMuSUSY * EPow P2 (EVar vMt) + #259 * EVar vMuSUSY * EPow P2 (EVar vMst1) * EPow P2 (EVar vs2t)) * EPow P4 (EVar
   vMgl) * EPow P4 (EVar vMsq) + #8 * EPow P2 (EVar vMgl) * EPow P2 (EVar vMst1) * (- #23040 * EVar vDmsqst1 * EVar
   vMgl * EVar vTbeta * (EVar vDmsqst1 * EVar vxDmsqst1 + EPow P2 (EVar vMsq)) * EPow P2 (EVar vMt) + EVar vMuSUSY *
   (#7 * EPow P2 (EVar vMt) - #90 * EPow P2 (EVar vMst1) * EPow P2 (EVar vs2t)) * EPow P4 (EVar vMsq) + #4 * EVar vMgl
   * (#162 * EVar vMt * EVar vMuSUSY * EVar vs2t + #2192 * EVar vTbeta * EPow P2 (EVar vMt) + #243 * EVar vTbeta *
   EPow P2 (EVar vMst1) * EPow P2 (EVar vs2t)) * EPow P4 (EVar vMsq)) + #16 * EVar vMgl * EVar vTbeta * (- #960 * EVar
   vDmsqst1 * (EVar vDmsqst1 * EVar vxDmsqst1 - #2 * EPow P2 (EVar vMsq)) * EPow P2 (EVar vMt) + (#1136 * EPow P2
   (EVar vMt) - #21 * EPow P2 (EVar vMst1) * EPow P2 (EVar vs2t)) * EPow P4 (EVar vMsq)) * EPow P4 (EVar vMst1) + #3 *
   EVar vs2t * (#35 * (#7 * EVar vMuSUSY * EVar vs2t - #15 * EVar vMt * EVar vTbeta) * EVar vxDmsqst1 * EPow P2 (EVar
   vDmsqst1) + #70 * EVar vDmsqst1 * (#2 * EVar vMuSUSY * EVar vs2t - #7 * EVar vMt * EVar vTbeta) * EPow P2 (EVar
   vMsq) + #48 * (EVar vMuSUSY * EVar vs2t - #11 * EVar vMt * EVar vTbeta) * EPow P4 (EVar vMsq)) * EPow P6 (EVar
   vMst1)) - EVar vxDmst12 * EPow P3 (EVar vDmst12) * (EVar vMt * (#1920 * EPow P2 (EVar vMst1) * EPow P3 (EVar vMgl)
   * (#3840 * EVar vDmsqst1 * EVar vTbeta * (EVar vDmsqst1 * EVar vxDmsqst1 + EPow P2 (EVar vMsq)) * EPow P2 (EVar
   vMt) - (#432 * EVar vMt * EVar vMuSUSY * EVar vs2t + #3056 * EVar vTbeta * EPow P2 (EVar vMt) + #81 * EVar vTbeta *
   EPow P2 (EVar vMst1) * EPow P2 (EVar vs2t)) * EPow P4 (EVar vMsq)) - #128 * EVar vMgl * (#4800 * EVar vDmsqst1 *
   EVar vTbeta * (#5 * EVar vDmsqst1 * EVar vxDmsqst1 + #8 * EPow P2 (EVar vMsq)) * EPow P2 (EVar vMt) + (- #6 * EVar
   vMt * EVar vMuSUSY * EVar vs2t + #440 * EVar vTbeta * EPow P2 (EVar vMt) - #105 * EVar vTbeta * EPow P2 (EVar
   vMst1) * EPow P2 (EVar vs2t)) * EPow P4 (EVar vMsq)) * EPow P4 (EVar vMst1)) + #15 * EVar vs2t * (#35 * EVar
   vDmsqst1 * EPow P2 (EVar vMsq) * (#8 * EVar vMt * EVar vMuSUSY * EVar vs2t + #31 * EVar vTbeta * EPow P2 (EVar vMt)
   + #16 * EVar vTbeta * EPow P2 (EVar vMst1) * EPow P2 (EVar vs2t)) + #35 * EVar vxDmsqst1 * EPow P2 (EVar vDmsqst1)
   * (- #40 * EVar vMt * EVar vMuSUSY * EVar vs2t + #159 * EVar vTbeta * EPow P2 (EVar vMt) + #28 * EVar vTbeta * EPow
   P2 (EVar vMst1) * EPow P2 (EVar vs2t)) + #8 * (#22 * EVar vMt * EVar vMuSUSY * EVar vs2t + #85 * EVar vTbeta * EPow
   P2 (EVar vMt) + #24 * EVar vTbeta * EPow P2 (EVar vMst1) * EPow P2 (EVar vs2t)) * EPow P4 (EVar vMsq)) * EPow P6
   (EVar vMst1) + EPow P4 (EVar vMsq) * (#480 * EVar vxMgl * EPow P4 (EVar vMgl) * (- #2976 * EVar vs2t * EVar vTbeta
   * EPow P2 (EVar vMst1) * EPow P2 (EVar vMt) + #1036 * EVar vMt * EVar vMuSUSY * EPow P2 (EVar vMst1) * EPow P2
   (EVar vs2t) + #1936 * EVar vMuSUSY * EPow P3 (EVar vMt) - #259 * EVar vTbeta * EPow P3 (EVar vs2t) * EPow P4 (EVar
   vMst1)) - #320 * EPow P2 (EVar vMgl) * (- #42 * EVar vMuSUSY * EPow P2 (EVar vMst1) * EPow P3 (EVar vMt) - EVar vMt
   * EVar vs2t * (#45 * EVar vMuSUSY * EVar vs2t + #7 * EVar vMt * EVar vTbeta) * EPow P4 (EVar vMst1) + #45 * EVar
   vTbeta * EPow P3 (EVar vs2t) * EPow P6 (EVar vMst1)))) + #2560 * EVar vMgl * EPow P3 (EVar vMt) * (- #20 * EVar
   vTbeta * EPow P2 (EVar vMgl) * EPow P2 (EVar vMst1) * (#120 * EVar vxDmsqst1 * EPow P2 (EVar vDmsqst1) + #48 * EVar
   vDmsqst1 * EPow P2 (EVar vMsq) - #19 * EPow P4 (EVar vMsq)) + EVar vMuSUSY * (#7 * EVar vMgl * EPow P2 (EVar vMst1)
   - #242 * EVar vxMgl * EPow P3 (EVar vMgl)) * EPow P4 (EVar vMsq) - #16 * EVar vTbeta * (#60 * EVar vxDmsqst1 * EPow
   P2 (EVar vDmsqst1) + #30 * EVar vDmsqst1 * EPow P2 (EVar vMsq) + EPow P4 (EVar vMsq)) * EPow P4 (EVar vMst1)) *
   EPow P6 (EVar vMst2)) - #320 * EConst Cz2 * (#3 * EVar vxDmsqst1 * EVar vxDmst12 * EPow P2 (EVar vDmsqst1) * EPow
   P2 (EVar vMst1) * EPow P3 (EVar vDmst12) * (#30 * EVar vs2t * EPow P2 (EVar vMgl) * EPow P2 (EVar vMst1) * (- #4 *
   EVar vMt * EVar vMuSUSY * EVar vs2t + #84 * EVar vTbeta * EPow P2 (EVar vMt) + EVar vTbeta * EPow P2 (EVar vMst1) *
   EPow P2 (EVar vs2t)) - #80 * EVar vMgl * EVar vMt * EPow P2 (EVar vMst1) * (#7 * EVar vMt * EVar vMuSUSY * EVar
   vs2t + #3 * (#39 + #10 * EVar vlmMst1 - #10 * EVar vlmMt) * EVar vTbeta * EPow P2 (EVar vMt) + #3 * EVar vTbeta *
   EPow P2 (EVar vMst1) * EPow P2 (EVar vs2t)) + #160 * EVar vMt * (#2 * EVar vMt * EVar vMuSUSY * EVar vs2t + #36 *
   (#4 + EVar vlmMst1 - EVar vlmMt) * EVar vTbeta * EPow P2 (EVar vMt) - #3 * EVar vTbeta * EPow P2 (EVar vMst1) *
   EPow P2 (EVar vs2t)) * EPow P3 (EVar vMgl) + EVar vs2t * (#4 * EVar vMt * EVar vMuSUSY * EVar vs2t * (- #15 + #3 *
   EVar vshiftst1 + #2 * EVar vshiftst2) + #480 * EVar vTbeta * EPow P2 (EVar vMt) + #5 * (#9 - #8 * EVar vshiftst1 +
   #4 * EVar vshiftst2) * EVar vTbeta * EPow P2 (EVar vMst1) * EPow P2 (EVar vs2t)) * EPow P4 (EVar vMst1)) + #4 *
   EVar vxMgl * EPow P4 (EVar vMgl) * (#6 * EVar vMt * EPow P2 (EVar vDmst12) * EPow P2 (EVar vMst2) * (#150 * EVar
   vDmsqst1 * EVar vMt * EVar vs2t * EVar vTbeta * (EVar vDmsqst1 * EVar vxDmsqst1 + EPow P2 (EVar vMsq)) * EPow P2
   (EVar vMst1) + (#146 - #27 * EVar vlmMgl + #27 * EVar vlmMst1) * EVar vMt * EVar vs2t * EVar vTbeta * EPow P2 (EVar
   vMst1) * EPow P4 (EVar vMsq) - EVar vMuSUSY * (#24 * (#17 - #4 * EVar vlmMgl + #4 * EVar vlmMst1) * EPow P2 (EVar
   vMt) + (#49 - #17 * EVar vlmMgl + #17 * EVar vlmMst1) * EPow P2 (EVar vMst1) * EPow P2 (EVar vs2t)) * EPow P4 (EVar
   vMsq)) - #3 * EVar vxDmst12 * EPow P3 (EVar vDmst12) * (#300 * EVar vDmsqst1 * EVar vs2t * EVar vTbeta * (EVar
   vDmsqst1 * EVar vxDmsqst1 + EPow P2 (EVar vMsq)) * EPow P2 (EVar vMst1) * EPow P2 (EVar vMt) - EPow P4 (EVar vMsq)
   * (#8 * (- #170 + #27 * EVar vlmMgl - #27 * EVar vlmMst1) * EVar vs2t * EVar vTbeta * EPow P2 (EVar vMst1) * EPow
   P2 (EVar vMt) + #4 * (#49 - #17 * EVar vlmMgl + #17 * EVar vlmMst1) * EVar vMt * EVar vMuSUSY * EPow P2 (EVar
   vMst1) * EPow P2 (EVar vs2t) + #48 * (#17 - #4 * EVar vlmMgl + #4 * EVar vlmMst1) * EVar vMuSUSY * EPow P3 (EVar
   vMt) + (- #49 + #17 * EVar vlmMgl - #17 * EVar vlmMst1) * EVar vTbeta * EPow P3 (EVar vs2t) * EPow P4 (EVar
   vMst1))) - #12 * EVar vDmst12 * EPow P2 (EVar vMt) * (#75 * EVar vDmsqst1 * EVar vs2t * EVar vTbeta * (EVar
   vDmsqst1 * EVar vxDmsqst1 + EPow P2 (EVar vMsq)) * EPow P2 (EVar vMst1) - (#12 * (#17 - #4 * EVar vlmMgl + #4 *
   EVar vlmMst1) * EVar vMt * EVar vMuSUSY + (#194 - #27 * EVar vlmMgl + #27 * EVar vlmMst1) * EVar vs2t * EVar vTbeta
   * EPow P2 (EVar vMst1)) * EPow P4 (EVar vMsq)) * EPow P4 (EVar vMst2) + #32 * (#47 - #12 * EVar vlmMgl + #12 * EVar
   vlmMst1) * EVar vMuSUSY * EPow P3 (EVar vMt) * EPow P4 (EVar vMsq) * EPow P6 (EVar vMst2)))) + EPow P2 (EVar vMst1)
   * (#64 * EVar vMuSUSY * EPow P2 (EVar vMsq) * EPow P2 (EVar vMst2) * EPow P2 (EVar vMt) * (- #10 * EVar vDmst12 *
   EPow P2 (EVar vMst2) * (#16 * (#16 - #9 * EVar vlmMgl + #41 * EVar vlmMst1 - #12 * EVar vlmMt + #26 * EConst Cz2 +
   #4 * EPow P2 (EVar vlmMst1)) * EPow P2 (EVar vMgl) * EPow P2 (EVar vMsq) * EPow P2 (EVar vMt) + EVar vMt * EVar
   vs2t * (#4 * EVar vMgl * EPow P2 (EVar vMsq) * (#2 * (- #22 - #296 * EVar vlmMst1 + EVar vlmMgl * (#308 - #40 *
   EVar vlmMst1 - #90 * EConst Cz2) + #113 * EConst Cz2 + #90 * EVar vlmMst1 * EConst Cz2 + #54 * EPow P2 (EVar
   vlmMgl) + #2 * EPow P2 (EVar vlmMst1)) * EPow P2 (EVar vMgl) - (#215 + #118 * EVar vlmMst1 + #34 * EConst Cz2 + #41
   * EPow P2 (EVar vlmMst1)) * EPow P2 (EVar vMst1)) + #240 * EVar vDmsqst1 * (EVar vMgl * (- #3 + EConst Cz2) * EPow
   P2 (EVar vMst1) + #2 * (- #3 + EVar vlmMgl - EVar vlmMst1 + EConst Cz2) * EPow P3 (EVar vMgl))) - #3 * (#10 * EVar
   vDmsqst1 * (EVar vshiftst1 - EVar vshiftst2) * (#3 - #2 * (EVar vlmMst1 + EConst Cz2)) + (#10 * EVar vshiftst1 -
   #10 * EVar vshiftst2 + EVar vshiftst3) * (#1 - #2 * (EVar vlmMst1 + EConst Cz2)) * EPow P2 (EVar vMsq)) * EPow P2
   (EVar vs2t) * EPow P4 (EVar vMst1)) + EPow P2 (EVar vDmst12) * (#2 * EPow P2 (EVar vMgl) * (- #450 * EVar vDmsqst1
   * (- #4 + EConst Cz2) * EPow P2 (EVar vMst1) * EPow P2 (EVar vs2t) + EPow P2 (EVar vMsq) * (- #4 * (#163 + #15 *
   EVar vlmMgl - #27 * EVar vlmMst1 + #20 * EVar vlmMt - #11 * EConst Cz2 - #8 * EPow P2 (EVar vlmMst1)) * EPow P2
   (EVar vMt) + #5 * (#200 + #18 * EVar vlmMgl + #265 * EVar vlmMst1 + #274 * EConst Cz2 + #91 * EPow P2 (EVar
   vlmMst1)) * EPow P2 (EVar vMst1) * EPow P2 (EVar vs2t))) + EVar vMt * EVar vs2t * (#40 * EVar vMgl * (#30 * EVar
   vDmsqst1 * (#7 - #4 * EConst Cz2) + (#149 + #41 * EVar vlmMst1 - #30 * EConst Cz2) * EPow P2 (EVar vMsq)) * EPow P2
   (EVar vMst1) - #40 * (- #120 * EVar vDmsqst1 * (- #3 + EVar vlmMgl - EVar vlmMst1 + EConst Cz2) + (- #498 - #352 *
   EVar vlmMst1 + EVar vlmMgl * (#328 - #40 * EVar vlmMst1 - #90 * EConst Cz2) + #263 * EConst Cz2 + #90 * EVar
   vlmMst1 * EConst Cz2 + #54 * EPow P2 (EVar vlmMgl) + #2 * EPow P2 (EVar vlmMst1)) * EPow P2 (EVar vMsq)) * EPow P3
   (EVar vMgl)) + #5 * (#15 * EVar vDmsqst1 * (#3 + #4 * EVar vlmMst1 * (- #2 + EVar vshiftst1 + EVar vshiftst2) - #6
   * (EVar vshiftst1 + EVar vshiftst2) + #4 * (- #3 + EVar vshiftst1 + EVar vshiftst2) * EConst Cz2) - (#32 + #30 *
   (EVar vshiftst1 + EVar vshiftst2) + #2 * EVar vlmMst1 * (#115 - #30 * (EVar vshiftst1 + EVar vshiftst2) - #9 * EVar
   vshiftst3) + #21 * EVar vshiftst3 + (#82 - #60 * (EVar vshiftst1 + EVar vshiftst2) - #18 * EVar vshiftst3) * EConst
   Cz2 + #82 * EPow P2 (EVar vlmMst1)) * EPow P2 (EVar vMsq)) * EPow P2 (EVar vs2t) * EPow P4 (EVar vMst1)) + #80 *
   (#5 + #18 * EVar vlmMgl - #74 * EVar vlmMst1 + #24 * EVar vlmMt - #52 * EConst Cz2 - #8 * EPow P2 (EVar vlmMst1)) *
   EPow P2 (EVar vMgl) * EPow P2 (EVar vMsq) * EPow P2 (EVar vMt) * EPow P4 (EVar vMst2)) - #160 * EVar vTbeta * (EVar
   vMt * EPow P2 (EVar vMsq) * EPow P2 (EVar vMst2) * (#3 * EVar vDmst12 * EVar vMt * EVar vs2t * EPow P2 (EVar vMst1)
   * (- #4 * EVar vDmst12 * EVar vMgl * EVar vs2t * (#60 * EVar vDmsqst1 * (#2 * (#3 - EVar vlmMgl + EVar vlmMst1) *
   EPow P2 (EVar vMgl) + #3 * EPow P2 (EVar vMst1)) + EPow P2 (EVar vMsq) * (- #4 * (- #11 + EVar vlmMgl * (#154 - #20
   * EVar vlmMst1) - #148 * EVar vlmMst1 + #27 * EPow P2 (EVar vlmMgl) + EPow P2 (EVar vlmMst1)) * EPow P2 (EVar vMgl)
   + (#215 + #118 * EVar vlmMst1 + #41 * EPow P2 (EVar vlmMst1)) * EPow P2 (EVar vMst1))) + EVar vMt * (#15 * EVar
   vDmsqst1 * (EVar vDmst12 * (#336 * EPow P2 (EVar vMgl) + #31 * EPow P2 (EVar vMst1)) + #8 * (#36 * EPow P2 (EVar
   vMgl) + (#5 - #4 * EVar vlmMst1) * EPow P2 (EVar vMst1)) * EPow P2 (EVar vMst2)) + #4 * EPow P2 (EVar vMsq) * (EVar
   vDmst12 * (#2 * (#522 + #107 * EVar vlmMst1) * EPow P2 (EVar vMgl) + (- #95 - #66 * EVar vlmMst1 + #82 * EPow P2
   (EVar vlmMst1)) * EPow P2 (EVar vMst1)) + #2 * ((#501 - #18 * EVar vlmMgl + #504 * EVar vlmMst1 - #48 * EVar vlmMt
   + #107 * EPow P2 (EVar vlmMst1)) * EPow P2 (EVar vMgl) - #2 * (- #6 + #79 * EVar vlmMst1 + #41 * EPow P2 (EVar
   vlmMst1)) * EPow P2 (EVar vMst1)) * EPow P2 (EVar vMst2)))) - #9 * EVar vs2t * EVar vshiftst3 * EPow P2 (EVar vMsq)
   * EPow P4 (EVar vMst1) * (- #8 * EVar vDmst12 * (- #3 + #2 * EVar vlmMst1) * EPow P2 (EVar vMst2) * EPow P2 (EVar
   vMt) + EPow P2 (EVar vDmst12) * (#16 * (- #2 + EVar vlmMst1) * EPow P2 (EVar vMt) + (#1 - #2 * EVar vlmMst1) * EPow
   P2 (EVar vMst1) * EPow P2 (EVar vs2t)) + #8 * (- #1 + #2 * EVar vlmMst1) * EPow P2 (EVar vMt) * EPow P4 (EVar
   vMst2)) + #90 * EVar vs2t * (EVar vDmsqst1 * (#3 - #2 * EVar vlmMst1) + (#1 - #2 * EVar vlmMst1) * EPow P2 (EVar
   vMsq)) * EPow P4 (EVar vMst1) * (- #8 * EVar vDmst12 * EVar vshiftst2 * EPow P2 (EVar vMst2) * EPow P2 (EVar vMt) +
   (- EVar vshiftst1 + EVar vshiftst2) * EPow P2 (EVar vDmst12) * EPow P2 (EVar vMst1) * EPow P2 (EVar vs2t) + #8 *
   (EVar vshiftst1 - EVar vshiftst2) * EPow P2 (EVar vMt) * EPow P4 (EVar vMst2)) + #16 * EVar vMgl * EPow P3 (EVar
   vMt) * (#30 * EVar vDmsqst1 * (EPow P2 (EVar vDmst12) * (#6 * (#31 + #27 * EVar vlmMst1 - #24 * EVar vlmMt - #2 *
   EVar vlmMst1 * EVar vlmMt + EVar vlmMgl * (- #3 - #2 * EVar vlmMst1 + #2 * EVar vlmMt) + #2 * EPow P2 (EVar
   vlmMst1)) * EPow P2 (EVar vMgl) + (- #13 - #19 * EVar vlmMst1 + #19 * EVar vlmMt) * EPow P2 (EVar vMst1)) - #6 *
   EVar vDmst12 * ((#31 + #27 * EVar vlmMst1 - #24 * EVar vlmMt - #2 * EVar vlmMst1 * EVar vlmMt + EVar vlmMgl * (- #3
   - #2 * EVar vlmMst1 + #2 * EVar vlmMt) + #2 * EPow P2 (EVar vlmMst1)) * EPow P2 (EVar vMgl) + (#3 + #7 * EVar
   vlmMst1 - #7 * EVar vlmMt) * EPow P2 (EVar vMst1)) * EPow P2 (EVar vMst2) - #12 * ((#7 + #6 * EVar vlmMst1 - #5 *
   EVar vlmMt - EVar vlmMst1 * EVar vlmMt + EVar vlmMgl * (- #1 - EVar vlmMst1 + EVar vlmMt) + EPow P2 (EVar vlmMst1))
   * EPow P2 (EVar vMgl) + (#1 + #2 * EVar vlmMst1 - #2 * EVar vlmMt) * EPow P2 (EVar vMst1)) * EPow P4 (EVar vMst2))
   - EPow P2 (EVar vMsq) * (EPow P2 (EVar vDmst12) * (- ((- #3749 - #2374 * EVar vlmMst1 + #1770 * EVar vlmMt - #117 *
   EVar vlmMst1 * EVar vlmMt + EVar vlmMgl * (#96 - #237 * EVar vlmMst1 + #157 * EVar vlmMt) + #108 * EPow P2 (EVar
   vlmMgl) + #41 * EPow P2 (EVar vlmMst1) + #48 * EPow P2 (EVar vlmMt)) * EPow P2 (EVar vMgl)) + (EVar vlmMst1 * (#297
   + #2 * EVar vlmMt) + #15 * EPow P2 (EVar vlmMst1) + #3 * (#47 - #79 * EVar vlmMt + #8 * EPow P2 (EVar vlmMt))) *
   EPow P2 (EVar vMst1)) + EVar vDmst12 * EPow P2 (EVar vMst2) * (- ((- #605 + #6 * EVar vlmMst1 * (- #77 + EVar
   vlmMt) + #714 * EVar vlmMt + #45 * EPow P2 (EVar vlmMst1) + #72 * EPow P2 (EVar vlmMt)) * EPow P2 (EVar vMst1)) +
   #2 * EPow P2 (EVar vMgl) * (#2096 - #1167 * EVar vlmMt - #81 * (#4 + #2 * EVar vlmMst1 - #3 * EVar vlmMt) * EPow P2
   (EVar vlmMgl) + #3 * (#129 + #61 * EVar vlmMt) * EPow P2 (EVar vlmMst1) - #108 * EPow P2 (EVar vlmMt) - #3 * EVar
   vlmMst1 * (- #793 + #67 * EVar vlmMt + #24 * EPow P2 (EVar vlmMt)) + #3 * EVar vlmMgl * (- #229 + EVar vlmMst1 *
   (#63 - #142 * EVar vlmMt) + #35 * EVar vlmMt + #91 * EPow P2 (EVar vlmMst1) + #24 * EPow P2 (EVar vlmMt)) - #27 *
   EPow P3 (EVar vlmMgl) - #84 * EPow P3 (EVar vlmMst1))) + #2 * (- ((- #233 + #6 * EVar vlmMst1 * (- #32 + EVar
   vlmMt) + #348 * EVar vlmMt + #45 * EPow P2 (EVar vlmMst1) + #72 * EPow P2 (EVar vlmMt)) * EPow P2 (EVar vMst1)) +
   EPow P2 (EVar vMgl) * (#758 - #570 * EVar vlmMt - #81 * (#3 + #2 * EVar vlmMst1 - #3 * EVar vlmMt) * EPow P2 (EVar
   vlmMgl) + #3 * (#141 + #61 * EVar vlmMt) * EPow P2 (EVar vlmMst1) - #72 * EPow P2 (EVar vlmMt) - #6 * EVar vlmMst1
   * (- #236 + #49 * EVar vlmMt + #12 * EPow P2 (EVar vlmMt)) + #3 * EVar vlmMgl * (- #200 + #2 * EVar vlmMst1 + #76 *
   EVar vlmMt - #142 * EVar vlmMst1 * EVar vlmMt + #91 * EPow P2 (EVar vlmMst1) + #24 * EPow P2 (EVar vlmMt)) - #27 *
   EPow P3 (EVar vlmMgl) - #84 * EPow P3 (EVar vlmMst1))) * EPow P4 (EVar vMst2))) + #2 * EConst Cz2 * (#90 * EVar
   vDmsqst1 * (#8 * EPow P2 (EVar vMt) * (EVar vDmst12 * EPow P2 (EVar vMst2) * (#4 * (#7 + #2 * EVar vlmMst1 - #2 *
   EVar vlmMt) * EVar vMgl * EVar vMt * EPow P2 (EVar vMst1) - #3 * EVar vs2t * EPow P2 (EVar vMgl) * EPow P2 (EVar
   vMst1) + #24 * (#4 + EVar vlmMst1 - EVar vlmMt) * EVar vMt * EPow P3 (EVar vMgl) + EVar vs2t * (- #2 + EVar
   vshiftst2) * EPow P4 (EVar vMst1)) + EPow P2 (EVar vMst1) * (#4 * (#4 + EVar vlmMst1 - EVar vlmMt) * EVar vMgl *
   EVar vMt + EVar vs2t * (- EVar vshiftst1 + EVar vshiftst2) * EPow P2 (EVar vMst1)) * EPow P4 (EVar vMst2)) - EPow
   P2 (EVar vDmst12) * (#8 * EPow P3 (EVar vMgl) * (- (EVar vMt * EPow P2 (EVar vMst1) * EPow P2 (EVar vs2t)) + #24 *
   (#4 + EVar vlmMst1 - EVar vlmMt) * EPow P3 (EVar vMt)) + #8 * EVar vs2t * EPow P2 (EVar vMt) * (#6 * EPow P2 (EVar
   vMgl) * EPow P2 (EVar vMst1) + EPow P4 (EVar vMst1)) - #4 * EVar vMgl * (#4 * (#7 + #2 * EVar vlmMst1 - #2 * EVar
   vlmMt) * EPow P2 (EVar vMst1) * EPow P3 (EVar vMt) + EVar vMt * EPow P2 (EVar vs2t) * EPow P4 (EVar vMst1)) - (EVar
   vshiftst1 - EVar vshiftst2) * EPow P3 (EVar vs2t) * EPow P6 (EVar vMst1))) + EPow P2 (EVar vMsq) * (EPow P2 (EVar
   vMt) * (- #8 * EVar vDmst12 * EPow P2 (EVar vMst2) * (- #2 * (#457 + #87 * EVar vlmMst1 - #87 * EVar vlmMt) * EVar
   vMgl * EVar vMt * EPow P2 (EVar vMst1) - #531 * EVar vs2t * EPow P2 (EVar vMgl) * EPow P2 (EVar vMst1) + #2 *
   (#1627 + #234 * EVar vlmMst1 + #174 * EVar vlmMt) * EVar vMt * EPow P3 (EVar vMgl) - #9 * EVar vs2t * (- #10 + #10
   * EVar vshiftst2 + EVar vshiftst3) * EPow P4 (EVar vMst1)) + #8 * EPow P2 (EVar vMst1) * (#4 * (#100 - #3 * EVar
   vlmMst1 + #3 * EVar vlmMt) * EVar vMgl * EVar vMt - #9 * EVar vs2t * (#10 * EVar vshiftst1 - #10 * EVar vshiftst2 +
   EVar vshiftst3) * EPow P2 (EVar vMst1)) * EPow P4 (EVar vMst2)) - EPow P2 (EVar vDmst12) * (#4 * EVar vMgl * EVar
   vMt * EPow P2 (EVar vMst1) * (#270 * EVar vMgl * EVar vMt * EVar vs2t - #2 * (#691 + #216 * EVar vlmMst1 - #216 *
   EVar vlmMt) * EPow P2 (EVar vMt) + #51 * EPow P2 (EVar vMst1) * EPow P2 (EVar vs2t)) - #12 * EVar vMt * ((#2098 +
   #548 * EVar vlmMst1 - #548 * EVar vlmMt) * EPow P2 (EVar vMt) + (#113 - #90 * EVar vlmMgl + #90 * EVar vlmMst1) *
   EPow P2 (EVar vMst1) * EPow P2 (EVar vs2t)) * EPow P3 (EVar vMgl) + #72 * EVar vs2t * (#5 + EVar vshiftst3) * EPow
   P2 (EVar vMt) * EPow P4 (EVar vMst1) - #9 * (#10 * EVar vshiftst1 - #10 * EVar vshiftst2 + EVar vshiftst3) * EPow
   P3 (EVar vs2t) * EPow P6 (EVar vMst1))))) + #16 * EPow P3 (EVar vMgl) * EPow P3 (EVar vMt) * (#45 * (#29 - #10 *
   EVar vlmMgl + #10 * EVar vlmMst1) * EVar vMgl * EVar vs2t * EVar vxDmsqst1 * EVar vxDmst12 * EVar vxMgl * EPow P2
   (EVar vDmsqst1) * EPow P3 (EVar vDmst12) + EVar vMt * EConst Cz2 * (#720 * EVar vDmsqst1 * (#4 + EVar vlmMst1 -
   EVar vlmMt) * EPow P2 (EVar vMsq) - #4 * (#1070 + #207 * EVar vlmMst1 - #3 * EVar vlmMt) * EPow P4 (EVar vMsq)) *
   EPow P6 (EVar vMst2))))) / (EPow P4 (EVar vMsq) * EPow P6 (EVar vMst1)) + #1080 * EPow P2 (EVar vMst2) * EPow P2
   (EVar vMt) * (#3 * EVar vDmst12 * EVar voneLoopFlag * EVar vs2t * (EVar vDmst12 * EVar vMuSUSY * EVar vs2t + #6 *
   EVar vDmst12 * EVar vMt * EVar vTbeta - #12 * EVar vMt * EVar vTbeta * EPow P2 (EVar vMst2)) - #16 * EVar vAl4p *
   EVar vtwoLoopFlag * (EPow P4 (EVar vMst1) * (EVar vDmst12 * EVar vs2t * (#4 * EVar vMgl * EVar vMt * EVar vMuSUSY *
   ((#1 - #2 * EVar vlmMgl + #2 * EVar vlmMst1) * EPow P2 (EVar vMgl) + (#2 + EVar vlmMst1) * EPow P2 (EVar vMst1)) *
   EPow P2 (EVar vMst2) + EVar vDmst12 * ((#3 + #2 * EVar vlmMst1) * EVar vMuSUSY * EVar vs2t * EPow P2 (EVar vMgl) *
   EPow P2 (EVar vMst1) + (#2 * (#3 - #2 * EVar vlmMgl + #2 * EVar vlmMst1) * EVar vMt * EVar vMuSUSY + #3 * (#1 - #2
   * EVar vlmMgl + #2 * EVar vlmMst1) * EVar vs2t * EVar vTbeta * EPow P2 (EVar vMst1)) * EPow P3 (EVar vMgl) - (#1 +
   #2 * EVar vlmMst1) * EVar vMuSUSY * EVar vs2t * EPow P4 (EVar vMst1) + EVar vMgl * (#2 * EVar vMt * EVar vMuSUSY *
   EPow P2 (EVar vMst1) + #3 * (#2 + EVar vlmMst1) * EVar vs2t * EVar vTbeta * EPow P4 (EVar vMst1)))) + EVar vMt *
   EVar vTbeta * (- #3 * EVar vDmst12 * EVar vs2t * EPow P2 (EVar vMst1) * (#2 * EVar vDmst12 * (EPow P2 (EVar vMgl) +
   (- #1 + #2 * EVar vlmMst1) * EPow P2 (EVar vMst1)) + #4 * ((#2 + EVar vlmMst1) * EPow P2 (EVar vMgl) - (#1 + #2 *
   EVar vlmMst1) * EPow P2 (EVar vMst1)) * EPow P2 (EVar vMst2)) + EVar vMt * (EPow P2 (EVar vDmst12) * (#4 * (#1 +
   EVar vlmMt) * EVar vMgl * EPow P2 (EVar vMst1) - #8 * (- #3 + EVar vlmMgl - #2 * EVar vlmMst1 + EVar vlmMt) * EPow
   P3 (EVar vMgl)) + #3 * EVar vDmst12 * EPow P2 (EVar vMst2) * (- #4 * (#1 + EVar vlmMt) * EVar vMgl * EPow P2 (EVar
   vMst1) + #4 * (#2 + #6 * EVar vlmMst1 - #3 * EVar vlmMt - #2 * EVar vlmMst1 * EVar vlmMt + EVar vlmMgl * (- #3 - #2
   * EVar vlmMst1 + #2 * EVar vlmMt) + #2 * EPow P2 (EVar vlmMst1)) * EPow P3 (EVar vMgl)) + (- #24 * (#1 + EVar
   vlmMt) * EVar vMgl * EPow P2 (EVar vMst1) - #24 * (EVar vlmMgl * (#1 + EVar vlmMst1 - EVar vlmMt) + EVar vlmMst1 *
   (- #2 + EVar vlmMt) + EVar vlmMt - EPow P2 (EVar vlmMst1)) * EPow P3 (EVar vMgl)) * EPow P4 (EVar vMst2)))) - EVar
   vx * (EVar vDmst12 * (- #1 + #3 * EVar vlmMgl - #3 * EVar vlmMst1) * EVar vs2t * EPow P2 (EVar vMst1) * (- #4 *
   EVar vDmst12 * EVar vMt * EVar vMuSUSY + #3 * EVar vDmst12 * EVar vs2t * EVar vTbeta * EPow P2 (EVar vMst1) + #4 *
   EVar vMt * EVar vMuSUSY * EPow P2 (EVar vMst2)) + #3 * EVar vMt * EVar vTbeta * (#4 * EVar vMt * (#9 + EVar vlmMgl
   * (#20 + #6 * EVar vlmMst1 - #6 * EVar vlmMt) + #2 * EVar vlmMt + EVar vlmMst1 * (- #22 + #6 * EVar vlmMt) - #6 *
   EPow P2 (EVar vlmMst1)) * EPow P2 (EVar vMgl) * EPow P4 (EVar vMst2) + EPow P2 (EVar vMst1) * (#4 * EVar vDmst12 *
   (- #1 + #3 * EVar vlmMgl - #3 * EVar vlmMst1) * EVar vMgl * EVar vs2t * (EVar vDmst12 - EPow P2 (EVar vMst2)) + #4
   * EVar vDmst12 * EVar vMt * (EVar vlmMst1 * (#22 - #6 * EVar vlmMt) - #5 * EVar vlmMt + EVar vlmMgl * (- #17 - #6 *
   EVar vlmMst1 + #6 * EVar vlmMt) + #6 * EPow P2 (EVar vlmMst1)) * (EVar vDmst12 - EPow P2 (EVar vMst2)) + #8 * EVar
   vMt * (#2 + EVar vlmMgl * (#5 + #2 * EVar vlmMst1 - #2 * EVar vlmMt) + #2 * EVar vlmMst1 * (- #3 + EVar vlmMt) +
   EVar vlmMt - #2 * EPow P2 (EVar vlmMst1)) * EPow P4 (EVar vMst2)))) * EPow P5 (EVar vMgl)) / EPow P8 (EVar vMst1)))
   / EVar vTbeta + #8 * EVar vAl4p * (#5 * EVar vxMgl * EPow P2 (EVar vMst1) * EPow P4 (EVar vMgl) * (#216 * EVar
   vDmst12 * EVar vMt * EVar vs2t * EVar vtwoLoopFlag * EPow P2 (EVar vMst1) * (- #2 * EVar vDmst12 * EVar vMt * ((#1
   - #3 * EVar vlmMgl + #3 * EVar vlmMst1) * EVar vMuSUSY * EVar vs2t + #6 * (- #3 + #2 * EVar vlmMgl - #2 * EVar
   vlmMst1) * EVar vMt * EVar vTbeta) * EPow P2 (EVar vMst2) + EVar vxDmst12 * EPow P2 (EVar vDmst12) * (#4 * (#1 - #3
   * EVar vlmMgl + #3 * EVar vlmMst1) * EVar vMt * EVar vMuSUSY * EVar vs2t + #96 * (- #1 + EVar vlmMgl - EVar
   vlmMst1) * EVar vTbeta * EPow P2 (EVar vMt) + (- #1 + #3 * EVar vlmMgl - #3 * EVar vlmMst1) * EVar vTbeta * EPow P2
   (EVar vMst1) * EPow P2 (EVar vs2t)) + #24 * (#1 - #2 * EVar vlmMgl + #2 * EVar vlmMst1) * EVar vTbeta * EPow P2
   (EVar vMt) * EPow P4 (EVar vMst2)) + EVar vAl4p * EVar vthreeLoopFlag * (EVar vxDmst12 * EPow P2 (EVar vMsq) * EPow
   P3 (EVar vDmst12) * (#25920 * EVar vDmsqst1 * (#29 - #10 * EVar vlmMgl + #10 * EVar vlmMst1) * EVar vs2t * EVar
   vTbeta * EPow P2 (EVar vMst1) * EPow P3 (EVar vMt) + EVar vMt * EPow P2 (EVar vMsq) * (#1728 * EVar vs2t * EVar
   vTbeta * (- #1797 - #1711 * EVar vlmMst1 + EVar vlmMgl * (#1315 - #198 * EVar vlmMst1 - #96 * EVar vlmMt) + #144 *
   EVar vlmMt + #96 * EVar vlmMst1 * EVar vlmMt + #333 * EPow P2 (EVar vlmMgl) - #103 * EPow P2 (EVar vlmMst1)) * EPow
   P2 (EVar vMst1) * EPow P2 (EVar vMt) + #4 * EVar vMt * EVar vMuSUSY * (#41653 + #11784 * EVar vlmMst1 + #48 * EVar
   vlmMgl * (- #313 + #180 * EVar vlmMst1) - #12636 * EPow P2 (EVar vlmMgl) + #540 * EPow P2 (EVar vlmMst1)) * EPow P2
   (EVar vMst1) * EPow P2 (EVar vs2t) + #1152 * EVar vMuSUSY * (#262 + #335 * EVar vlmMst1 - #96 * EVar vlmMt - #72 *
   EVar vlmMst1 * EVar vlmMt + EVar vlmMgl * (- #199 - #120 * EVar vlmMst1 + #72 * EVar vlmMt) + #120 * EPow P2 (EVar
   vlmMst1)) * EPow P3 (EVar vMt) + EVar vTbeta * (- #41653 - #11784 * EVar vlmMst1 - #48 * EVar vlmMgl * (- #313 +
   #180 * EVar vlmMst1) + #12636 * EPow P2 (EVar vlmMgl) - #540 * EPow P2 (EVar vlmMst1)) * EPow P3 (EVar vs2t) * EPow
   P4 (EVar vMst1))) + EPow P2 (EVar vMst2) * (- #432 * EVar vDmst12 * EVar vs2t * EVar vTbeta * EPow P2 (EVar vMst1)
   * EPow P3 (EVar vMt) * (#60 * EVar vDmsqst1 * (#29 - #10 * EVar vlmMgl + #10 * EVar vlmMst1) * (EVar vDmsqst1 *
   EVar vxDmsqst1 + EPow P2 (EVar vMsq)) * (EVar vDmst12 - EPow P2 (EVar vMst2)) - (EVar vDmst12 * (#2961 + EVar
   vlmMst1 * (#1964 - #96 * EVar vlmMt) - #192 * EVar vlmMt + #2 * EVar vlmMgl * (- #683 + #99 * EVar vlmMst1 + #48 *
   EVar vlmMt) - #333 * EPow P2 (EVar vlmMgl) + #103 * EPow P2 (EVar vlmMst1)) + #2 * (#633 + #1458 * EVar vlmMst1 -
   #96 * (#1 + EVar vlmMst1) * EVar vlmMt + #2 * EVar vlmMgl * (- #632 + #99 * EVar vlmMst1 + #48 * EVar vlmMt) - #333
   * EPow P2 (EVar vlmMgl) + #103 * EPow P2 (EVar vlmMst1)) * EPow P2 (EVar vMst2)) * EPow P4 (EVar vMsq)) + #2 * EVar
   vMuSUSY * EPow P4 (EVar vMsq) * (- (EPow P2 (EVar vDmst12) * EPow P2 (EVar vMt) * (#576 * (#262 + #335 * EVar
   vlmMst1 - #96 * EVar vlmMt - #72 * EVar vlmMst1 * EVar vlmMt + EVar vlmMgl * (- #199 - #120 * EVar vlmMst1 + #72 *
   EVar vlmMt) + #120 * EPow P2 (EVar vlmMst1)) * EPow P2 (EVar vMt) + (#41653 + #11784 * EVar vlmMst1 + #48 * EVar
   vlmMgl * (- #313 + #180 * EVar vlmMst1) - #12636 * EPow P2 (EVar vlmMgl) + #540 * EPow P2 (EVar vlmMst1)) * EPow P2
   (EVar vMst1) * EPow P2 (EVar vs2t))) + #576 * EPow P2 (EVar vMst2) * (EVar vDmst12 * (#262 + #335 * EVar vlmMst1 -
   #96 * EVar vlmMt - #72 * EVar vlmMst1 * EVar vlmMt + EVar vlmMgl * (- #199 - #120 * EVar vlmMst1 + #72 * EVar
   vlmMt) + #120 * EPow P2 (EVar vlmMst1)) + #2 * (#59 + #85 * EVar vlmMst1 - #24 * EVar vlmMt - #24 * EVar vlmMst1 *
   EVar vlmMt + EVar vlmMgl * (- #53 - #40 * EVar vlmMst1 + #24 * EVar vlmMt) + #40 * EPow P2 (EVar vlmMst1)) * EPow
   P2 (EVar vMst2)) * EPow P4 (EVar vMt)))) / EPow P4 (EVar vMsq)) / EVar vTbeta + #72 * EConst Cz2 * (EVar vAl4p *
   EVar vthreeLoopFlag * EPow P4 (EVar vMst1) * (- (EVar vMt * EVar vxDmst12 * EPow P2 (EVar vMsq) * EPow P3 (EVar
   vDmst12) * (EVar vMt * (#8 * EVar vMgl * EPow P2 (EVar vMst1) * (#75 * EVar vDmsqst1 * (#20 * EVar vMt * EVar
   vMuSUSY * EVar vs2t + #48 * (#7 + #2 * EVar vlmMst1 - #2 * EVar vlmMt) * EVar vTbeta * EPow P2 (EVar vMt) - #3 *
   EVar vTbeta * EPow P2 (EVar vMst1) * EPow P2 (EVar vs2t)) - EPow P2 (EVar vMsq) * (#237 * EVar vMt * EVar vMuSUSY *
   EVar vs2t + #10 * (#16 - #9 * EVar vlmMst1 + #9 * EVar vlmMt) * EVar vTbeta * EPow P2 (EVar vMt) + #240 * EVar
   vTbeta * EPow P2 (EVar vMst1) * EPow P2 (EVar vs2t))) - #10 * (#240 * EVar vDmsqst1 * (#2 * EVar vMt * EVar vMuSUSY
   * EVar vs2t + #36 * (#4 + EVar vlmMst1 - EVar vlmMt) * EVar vTbeta * EPow P2 (EVar vMt) - #3 * EVar vTbeta * EPow
   P2 (EVar vMst1) * EPow P2 (EVar vs2t)) - EPow P2 (EVar vMsq) * (#32 * EVar vMt * ((#94 - #45 * EVar vlmMgl + #45 *
   EVar vlmMst1) * EVar vMuSUSY * EVar vs2t + (#380 + #147 * EVar vlmMst1 - #249 * EVar vlmMt) * EVar vMt * EVar
   vTbeta) - #3 * (#37 + #90 * EVar vlmMgl - #90 * EVar vlmMst1) * EVar vTbeta * EPow P2 (EVar vMst1) * EPow P2 (EVar
   vs2t))) * EPow P3 (EVar vMgl)) - EVar vs2t * (#30 * EVar vDmsqst1 * EVar vs2t * (EVar vMt * EVar vMuSUSY * (#6 *
   EVar vshiftst1 + #4 * EVar vshiftst2) + #5 * EVar vs2t * (#3 - #4 * EVar vshiftst1 + #2 * EVar vshiftst2) * EVar
   vTbeta * EPow P2 (EVar vMst1)) + EPow P2 (EVar vMsq) * (#4 * EVar vMt * EVar vMuSUSY * EVar vs2t * (#10 + #45 *
   EVar vshiftst1 + #30 * EVar vshiftst2 + #27 * EVar vshiftst3) + #40 * (- #16 + #9 * EVar vshiftst3) * EVar vTbeta *
   EPow P2 (EVar vMt) + #5 * (#41 - #120 * EVar vshiftst1 + #60 * EVar vshiftst2 - #21 * EVar vshiftst3) * EVar vTbeta
   * EPow P2 (EVar vMst1) * EPow P2 (EVar vs2t))) * EPow P4 (EVar vMst1) + #2 * EPow P2 (EVar vMgl) * (- #225 * EVar
   vDmsqst1 * EVar vs2t * EPow P2 (EVar vMst1) * (- #4 * EVar vMt * EVar vMuSUSY * EVar vs2t + #120 * EVar vTbeta *
   EPow P2 (EVar vMt) + EVar vTbeta * EPow P2 (EVar vMst1) * EPow P2 (EVar vs2t)) + EPow P2 (EVar vMsq) * (#4556 *
   EVar vs2t * EVar vTbeta * EPow P2 (EVar vMst1) * EPow P2 (EVar vMt) - #910 * EVar vMt * EVar vMuSUSY * EPow P2
   (EVar vMst1) * EPow P2 (EVar vs2t) + #1992 * EVar vMuSUSY * EPow P3 (EVar vMt) + #685 * EVar vTbeta * EPow P3 (EVar
   vs2t) * EPow P4 (EVar vMst1))))) + #30 * EVar vxDmsqst1 * EPow P2 (EVar vDmsqst1) * EPow P2 (EVar vMst2) * (#5 *
   EVar vDmst12 * EVar vMuSUSY * EVar vs2t * EPow P2 (EVar vMt) * (EVar vDmst12 * (#8 * EVar vMgl * EVar vMt * EPow P2
   (EVar vMst1) + #6 * EVar vs2t * EPow P2 (EVar vMgl) * EPow P2 (EVar vMst1) - #32 * EVar vMt * EPow P3 (EVar vMgl) +
   EVar vs2t * (#9 - #2 * EVar vshiftst1 - #2 * EVar vshiftst2) * EPow P4 (EVar vMst1)) + #4 * EPow P2 (EVar vMst2) *
   (#10 * EVar vMgl * EVar vMt * EPow P2 (EVar vMst1) + #8 * EVar vMt * EPow P3 (EVar vMgl) + EVar vs2t * (EVar
   vshiftst1 - EVar vshiftst2) * EPow P4 (EVar vMst1))) + #15 * EVar vTbeta * (EPow P3 (EVar vMt) * (#4 * EVar vDmst12
   * EPow P2 (EVar vMst2) * (#2 * (#45 + #14 * EVar vlmMst1 - #14 * EVar vlmMt) * EVar vMgl * EVar vMt * EPow P2 (EVar
   vMst1) - #15 * EVar vs2t * EPow P2 (EVar vMgl) * EPow P2 (EVar vMst1) + #48 * (#4 + EVar vlmMst1 - EVar vlmMt) *
   EVar vMt * EPow P3 (EVar vMgl) + #2 * EVar vs2t * (- #3 + EVar vshiftst2) * EPow P4 (EVar vMst1)) + #8 * (#2 * (#13
   + #4 * EVar vlmMst1 - #4 * EVar vlmMt) * EVar vMgl * EVar vMt * EPow P2 (EVar vMst1) + #4 * (#19 + #5 * EVar
   vlmMst1 - #5 * EVar vlmMt) * EVar vMt * EPow P3 (EVar vMgl) + EVar vs2t * (- EVar vshiftst1 + EVar vshiftst2) *
   EPow P4 (EVar vMst1)) * EPow P4 (EVar vMst2)) - EVar vMt * EPow P2 (EVar vDmst12) * (#4 * EVar vMgl * ((#6 + #4 *
   EVar vlmMst1 - #4 * EVar vlmMt) * EVar vMt + #3 * EVar vMgl * EVar vs2t) * EPow P2 (EVar vMst1) * EPow P2 (EVar
   vMt) + #8 * EPow P3 (EVar vMgl) * (- (EVar vMt * EPow P2 (EVar vMst1) * EPow P2 (EVar vs2t)) + #24 * (#4 + EVar
   vlmMst1 - EVar vlmMt) * EPow P3 (EVar vMt)) + #2 * EVar vMt * EVar vs2t * (#6 * EVar vMt - #5 * EVar vMgl * EVar
   vs2t) * EPow P4 (EVar vMst1) - (EVar vshiftst1 - EVar vshiftst2) * EPow P3 (EVar vs2t) * EPow P6 (EVar vMst1))))) /
   (EVar vTbeta * EPow P4 (EVar vMsq)) - #1440 * EVar vtwoLoopFlag * EPow P4 (EVar vMt) * ((EVar vDmst12 + EPow P2
   (EVar vMst2)) * EPow P3 (EVar vMgl) * EPow P4 (EVar vMst1) * EPow P4 (EVar vMst2) + EVar vx * EPow P2 (EVar vMst1)
   * EPow P2 (EVar vMst2) * (- #3 * EPow P2 (EVar vDmst12) + #3 * EVar vDmst12 * EPow P2 (EVar vMst2) + #2 * EPow P4
   (EVar vMst2)) * EPow P5 (EVar vMgl) - EVar vxDmst12 * EPow P2 (EVar vMst1) * EPow P3 (EVar vDmst12) * (EPow P2
   (EVar vMst1) * EPow P3 (EVar vMgl) - #3 * EVar vx * EPow P5 (EVar vMgl)) + #3 * EVar vx * EPow P6 (EVar vMst2) *
   EPow P7 (EVar vMgl)))) / EPow P8 (EVar vMst1)) / (#155520 * EPow P6 (EVar vMst2)).

(** H9q2.cpp:1182-1277 *)
Definition H9q2_coef0 : expr :=
  (- #432 * EPow P2 (ELog (EPow P2 (EVar vMst1) / EPow P2 (EVar vMgl))) * EPow P4 (EVar vMsq) * (- #2 * EVar vMt * EPow
   P2 (EVar vDmst12) * EPow P2 (EVar vMst2) * (- #72 * EVar vMt * EVar vs2t * EPow P2 (EVar vMst1) + #202 * EVar vMgl
   * EPow P2 (EVar vMt) + #111 * EVar vMgl * EPow P2 (EVar vMst1) * EPow P2 (EVar vs2t)) * EPow P3 (EVar vMgl) + EPow
   P3 (EVar vDmst12) * EPow P3 (EVar vMgl) * (- #48 * EVar vs2t * EPow P2 (EVar vMst1) * EPow P2 (EVar vMt) + #111 *
   EVar vMgl * EVar vMt * EPow P2 (EVar vMst1) * EPow P2 (EVar vs2t) + #1568 * EVar vMgl * EPow P3 (EVar vMt) + #24 *
   EPow P3 (EVar vs2t) * EPow P4 (EVar vMst1)) - #8 * EVar vDmst12 * EPow P2 (EVar vMgl) * (#95 * EVar vMt * EPow P2
   (EVar vMgl) - #18 * EVar vMt * EPow P2 (EVar vMst1) - #81 * EVar vMgl * EVar vs2t * EPow P2 (EVar vMst1)) * EPow P2
   (EVar vMt) * EPow P4 (EVar vMst2) - #8 * EPow P3 (EVar vMt) * (- #36 * EPow P2 (EVar vMgl) * EPow P2 (EVar vMst1) +
   #77 * EPow P4 (EVar vMgl) + #4 * EPow P4 (EVar vMst1)) * EPow P6 (EVar vMst2)) - #192 * EPow P2 (EVar vMt) * EPow
   P3 (ELog (EPow P2 (EVar vMst1) / EPow P2 (EVar vMgl))) * EPow P4 (EVar vMsq) * (- #95 * EVar vMt * EPow P2 (EVar
   vDmst12) * EPow P2 (EVar vMst2) * EPow P4 (EVar vMgl) + #504 * EVar vMt * EPow P3 (EVar vDmst12) * EPow P4 (EVar
   vMgl) + #2 * EVar vDmst12 * (- #157 * EVar vMgl * EVar vMt + #54 * EVar vs2t * EPow P2 (EVar vMst1)) * EPow P3
   (EVar vMgl) * EPow P4 (EVar vMst2) + #2 * EVar vMt * (- #157 * EPow P4 (EVar vMgl) + #18 * EPow P4 (EVar vMst1)) *
   EPow P6 (EVar vMst2)) + #5 * EPow P2 (EVar vDmsqst1) * (#216 * EVar vDmst12 * EPow P2 (EVar vMt) * (#24 * EVar vMt
   * (- #11 + #90 * EConst Cz2 - #112 * EConst Cz3) * EPow P2 (EVar vMgl) * EPow P2 (EVar vMst1) - #64 * EVar vs2t *
   (- #27 + #43 * EConst Cz2 - #40 * EConst Cz3) * EPow P2 (EVar vMst1) * EPow P3 (EVar vMgl) + #8 * EVar vMt * (-
   #307 + #480 * EConst Cz2 - #480 * EConst Cz3) * EPow P4 (EVar vMgl) + EVar vMt * (#146 + #144 * EConst Cz2 - #321 *
   EConst Cz3) * EPow P4 (EVar vMst1) - #32 * EVar vMgl * EVar vs2t * (- #9 + #30 * EConst Cz2 - #32 * EConst Cz3) *
   EPow P4 (EVar vMst1)) * EPow P4 (EVar vMst2) - #3 * EVar vMt * EPow P2 (EVar vDmst12) * EPow P2 (EVar vMst2) *
   (#4608 * EVar vMt * EVar vs2t * (#11 * EConst Cz2 - #8 * (#2 + EConst Cz3)) * EPow P2 (EVar vMst1) * EPow P3 (EVar
   vMgl) + #576 * ((- #307 + #480 * EConst Cz2 - #480 * EConst Cz3) * EPow P2 (EVar vMt) + (#29 - #10 * EConst Cz2) *
   EPow P2 (EVar vMst1) * EPow P2 (EVar vs2t)) * EPow P4 (EVar vMgl) + #576 * EVar vMgl * EVar vMt * EVar vs2t * (-
   #33 + #88 * EConst Cz2 - #96 * EConst Cz3) * EPow P4 (EVar vMst1) + (- #850 - #8640 * EConst Cz2 + #12123 * EConst
   Cz3) * EPow P2 (EVar vMt) * EPow P4 (EVar vMst1) - #1728 * EPow P2 (EVar vMgl) * (#4 * (- #5 + #9 * EConst Cz2 - #8
   * EConst Cz3) * EPow P2 (EVar vMst1) * EPow P2 (EVar vMt) + #5 * (- #2 + EConst Cz2) * EPow P2 (EVar vs2t) * EPow
   P4 (EVar vMst1)) - #54 * (- #58 + #64 * EConst Cz2 - #35 * EConst Cz3) * EPow P2 (EVar vs2t) * EPow P6 (EVar
   vMst1)) + EPow P3 (EVar vDmst12) * (#1728 * (#2 * EVar vMt * (#29 - #10 * EConst Cz2) * EPow P2 (EVar vMst1) * EPow
   P2 (EVar vs2t) + (- #307 + #480 * EConst Cz2 - #480 * EConst Cz3) * EPow P3 (EVar vMt)) * EPow P4 (EVar vMgl) - #4
   * (#5314 + #6336 * EConst Cz2 - #12123 * EConst Cz3) * EPow P3 (EVar vMt) * EPow P4 (EVar vMst1) - #5184 * EPow P2
   (EVar vMgl) * ((- #51 + #162 * EConst Cz2 - #176 * EConst Cz3) * EPow P2 (EVar vMst1) * EPow P3 (EVar vMt) + EVar
   vMt * (- #7 + #4 * EConst Cz2) * EPow P2 (EVar vs2t) * EPow P4 (EVar vMst1)) - #2304 * EPow P3 (EVar vMgl) * (- #6
   * EVar vs2t * (- #59 + #65 * EConst Cz2 - #56 * EConst Cz3) * EPow P2 (EVar vMst1) * EPow P2 (EVar vMt) + (- #3 +
   EConst Cz2) * EPow P3 (EVar vs2t) * EPow P4 (EVar vMst1)) + #27 * EVar vMt * (#134 - #192 * EConst Cz2 + #105 *
   EConst Cz3) * EPow P2 (EVar vs2t) * EPow P6 (EVar vMst1) - #576 * EVar vMgl * (#12 * EVar vs2t * (#5 - #26 * EConst
   Cz2 + #32 * EConst Cz3) * EPow P2 (EVar vMt) * EPow P4 (EVar vMst1) + #5 * (- #2 + EConst Cz2) * EPow P3 (EVar
   vs2t) * EPow P6 (EVar vMst1))) + #48 * EPow P3 (EVar vMt) * (#432 * (- #1 + #13 * EConst Cz2 - #16 * EConst Cz3) *
   EPow P2 (EVar vMgl) * EPow P2 (EVar vMst1) + #36 * (- #179 + #380 * EConst Cz2 - #400 * EConst Cz3) * EPow P4 (EVar
   vMgl) + (#1118 + #432 * EConst Cz2 - #1539 * EConst Cz3) * EPow P4 (EVar vMst1)) * EPow P6 (EVar vMst2)) + #10 *
   EVar vDmsqst1 * EPow P2 (EVar vMsq) * (#216 * EVar vDmst12 * EPow P2 (EVar vMt) * (#48 * EVar vMt * (- #3 + #14 *
   EConst Cz2 - #16 * EConst Cz3) * EPow P2 (EVar vMgl) * EPow P2 (EVar vMst1) + #32 * EVar vs2t * (#19 - #18 * EConst
   Cz2 + #16 * EConst Cz3) * EPow P2 (EVar vMst1) * EPow P3 (EVar vMgl) + #4 * EVar vMt * (- #307 + #480 * EConst Cz2
   - #480 * EConst Cz3) * EPow P4 (EVar vMgl) + EVar vMt * (#38 + #48 * EConst Cz2 - #107 * EConst Cz3) * EPow P4
   (EVar vMst1) - #32 * EVar vMgl * EVar vs2t * (- #4 + #9 * EConst Cz2 - #8 * EConst Cz3) * EPow P4 (EVar vMst1)) *
   EPow P4 (EVar vMst2) - #108 * EVar vMt * EPow P2 (EVar vDmst12) * EPow P2 (EVar vMst2) * (#256 * EVar vMt * EVar
   vs2t * (- #6 + #9 * EConst Cz2 - #8 * EConst Cz3) * EPow P2 (EVar vMst1) * EPow P3 (EVar vMgl) + #8 * ((- #307 +
   #480 * EConst Cz2 - #480 * EConst Cz3) * EPow P2 (EVar vMt) + (#29 - #10 * EConst Cz2) * EPow P2 (EVar vMst1) *
   EPow P2 (EVar vs2t)) * EPow P4 (EVar vMgl) + #32 * EVar vMgl * EVar vMt * EVar vs2t * (- #5 + #14 * EConst Cz2 -
   #16 * EConst Cz3) * EPow P4 (EVar vMst1) + (- #6 - #80 * EConst Cz2 + #107 * EConst Cz3) * EPow P2 (EVar vMt) *
   EPow P4 (EVar vMst1) - #24 * EPow P2 (EVar vMgl) * ((- #19 + #70 * EConst Cz2 - #80 * EConst Cz3) * EPow P2 (EVar
   vMst1) * EPow P2 (EVar vMt) + #2 * (- #3 + EConst Cz2) * EPow P2 (EVar vs2t) * EPow P4 (EVar vMst1)) + #2 * (#10 -
   #16 * EConst Cz2 + #7 * EConst Cz3) * EPow P2 (EVar vs2t) * EPow P6 (EVar vMst1)) + EPow P3 (EVar vDmst12) * (#864
   * (#2 * EVar vMt * (#29 - #10 * EConst Cz2) * EPow P2 (EVar vMst1) * EPow P2 (EVar vs2t) + (- #307 + #480 * EConst
   Cz2 - #480 * EConst Cz3) * EPow P3 (EVar vMt)) * EPow P4 (EVar vMgl) + (- #1814 + #1152 * EConst Cz2 - #567 *
   EConst Cz3) * EPow P3 (EVar vMt) * EPow P4 (EVar vMst1) + #2592 * EPow P2 (EVar vMgl) * (#2 * (#25 - #98 * EConst
   Cz2 + #112 * EConst Cz3) * EPow P2 (EVar vMst1) * EPow P3 (EVar vMt) + EVar vMt * (- #1 + #2 * EConst Cz2) * EPow
   P2 (EVar vs2t) * EPow P4 (EVar vMst1)) - #1152 * EPow P3 (EVar vMgl) * (- #6 * EVar vs2t * (- #67 + #90 * EConst
   Cz2 - #80 * EConst Cz3) * EPow P2 (EVar vMst1) * EPow P2 (EVar vMt) + (- #3 + EConst Cz2) * EPow P3 (EVar vs2t) *
   EPow P4 (EVar vMst1)) + #27 * EVar vMt * (#18 - #64 * EConst Cz2 + #7 * EConst Cz3) * EPow P2 (EVar vs2t) * EPow P6
   (EVar vMst1) - #576 * EVar vMgl * (#3 * EVar vs2t * (- #5 + #4 * EConst Cz2) * EPow P2 (EVar vMt) * EPow P4 (EVar
   vMst1) + (- #3 + EConst Cz2) * EPow P3 (EVar vs2t) * EPow P6 (EVar vMst1))) + #192 * EPow P3 (EVar vMt) * (#108 *
   (- #1 + #4 * EConst Cz2 - #4 * EConst Cz3) * EPow P2 (EVar vMgl) * EPow P2 (EVar vMst1) + #9 * (- #69 + #80 *
   EConst Cz2 - #80 * EConst Cz3) * EPow P4 (EVar vMgl) + #4 * (#23 + #9 * EConst Cz2 - #36 * EConst Cz3) * EPow P4
   (EVar vMst1)) * EPow P6 (EVar vMst2)) + #8 * EPow P4 (EVar vMsq) * (- #24 * EVar vDmst12 * EPow P2 (EVar vMt) *
   (EVar vMt * (#3049 - #2716 * EConst Cz2 + #2388 * EConst Cz3) * EPow P2 (EVar vMgl) * EPow P2 (EVar vMst1) - #4 *
   EVar vs2t * (#1043 + #2143 * EConst Cz2 - #570 * EConst Cz3) * EPow P2 (EVar vMst1) * EPow P3 (EVar vMgl) + #2 *
   EVar vMt * (#6742 + #4265 * EConst Cz2 - #174 * EConst Cz3) * EPow P4 (EVar vMgl) - #4 * EVar vMt * (#49 + #90 *
   EConst Cz2 - #171 * EConst Cz3) * EPow P4 (EVar vMst1) + #4 * EVar vMgl * EVar vs2t * (- #407 + #197 * EConst Cz2 -
   #24 * EConst Cz3) * EPow P4 (EVar vMst1)) * EPow P4 (EVar vMst2) + #3 * EVar vMt * EPow P2 (EVar vDmst12) * EPow P2
   (EVar vMst2) * (- #48 * EVar vMt * EVar vs2t * (- #1091 + #402 * EConst Cz2 - #480 * EConst Cz3) * EPow P2 (EVar
   vMst1) * EPow P3 (EVar vMgl) + #4 * ((- #40279 + #17982 * EConst Cz2 - #26652 * EConst Cz3) * EPow P2 (EVar vMt) -
   #3 * (#681 + #776 * EConst Cz2 - #558 * EConst Cz3) * EPow P2 (EVar vMst1) * EPow P2 (EVar vs2t)) * EPow P4 (EVar
   vMgl) - #16 * EVar vMgl * EVar vMt * EVar vs2t * (- #148 + #607 * EConst Cz2 - #696 * EConst Cz3) * EPow P4 (EVar
   vMst1) + (#262 + #1840 * EConst Cz2 - #3423 * EConst Cz3) * EPow P2 (EVar vMt) * EPow P4 (EVar vMst1) - #4 * EPow
   P2 (EVar vMgl) * (#2 * (#1327 - #4904 * EConst Cz2 + #5280 * EConst Cz3) * EPow P2 (EVar vMst1) * EPow P2 (EVar
   vMt) + #9 * (#175 + #118 * EConst Cz2 - #4 * EConst Cz3) * EPow P2 (EVar vs2t) * EPow P4 (EVar vMst1)) + #18 * (-
   #8 + #40 * EConst Cz2 + #31 * EConst Cz3) * EPow P2 (EVar vs2t) * EPow P6 (EVar vMst1)) + EPow P3 (EVar vDmst12) *
   (- #6 * (#3 * EVar vMt * (#1695 - #968 * EConst Cz2 + #558 * EConst Cz3) * EPow P2 (EVar vMst1) * EPow P2 (EVar
   vs2t) + #4 * (- #53763 + #9452 * EConst Cz2 - #26304 * EConst Cz3) * EPow P3 (EVar vMt)) * EPow P4 (EVar vMgl) + (-
   #4486 + #816 * EConst Cz2 + #3375 * EConst Cz3) * EPow P3 (EVar vMt) * EPow P4 (EVar vMst1) + #12 * EPow P2 (EVar
   vMgl) * (#4 * (- #570 + #929 * EConst Cz2 - #840 * EConst Cz3) * EPow P2 (EVar vMst1) * EPow P3 (EVar vMt) + #9 *
   EVar vMt * (#1 + #148 * EConst Cz2 - #4 * EConst Cz3) * EPow P2 (EVar vs2t) * EPow P4 (EVar vMst1)) - #24 * EPow P3
   (EVar vMgl) * (EVar vs2t * (- #2722 + #4704 * EConst Cz2 - #3696 * EConst Cz3) * EPow P2 (EVar vMst1) * EPow P2
   (EVar vMt) + (- #22 + #113 * EConst Cz2 - #243 * EConst Cz3) * EPow P3 (EVar vs2t) * EPow P4 (EVar vMst1)) - #18 *
   EVar vMt * (- #119 + #60 * EConst Cz2 + #192 * EConst Cz3) * EPow P2 (EVar vs2t) * EPow P6 (EVar vMst1) + #12 *
   EVar vMgl * (EVar vs2t * (#446 - #768 * EConst Cz2 + #624 * EConst Cz3) * EPow P2 (EVar vMt) * EPow P4 (EVar vMst1)
   + (#215 + #34 * EConst Cz2 - #21 * EConst Cz3) * EPow P3 (EVar vs2t) * EPow P6 (EVar vMst1))) - #12 * EPow P3 (EVar
   vMt) * (#4 * (#1909 - #496 * EConst Cz2 + #228 * EConst Cz3) * EPow P2 (EVar vMgl) * EPow P2 (EVar vMst1) + #2 *
   (#6677 + #10414 * EConst Cz2 - #3948 * EConst Cz3) * EPow P4 (EVar vMgl) + (- #4125 - #892 * EConst Cz2 + #4740 *
   EConst Cz3) * EPow P4 (EVar vMst1)) * EPow P6 (EVar vMst2)) + #96 * ELog (EPow P2 (EVar vMst1) / EPow P2 (EVar
   vMgl)) * (#60 * EPow P2 (EVar vDmsqst1) * EPow P3 (EVar vMgl) * (- #15 * EVar vMt * EPow P2 (EVar vDmst12) * EPow
   P2 (EVar vMst2) * (#2 * EVar vMt * EVar vs2t * EPow P2 (EVar vMst1) + #3 * EVar vMgl * EPow P2 (EVar vMt) - EVar
   vMgl * EPow P2 (EVar vMst1) * EPow P2 (EVar vs2t)) + EPow P3 (EVar vDmst12) * (#78 * EVar vs2t * EPow P2 (EVar
   vMst1) * EPow P2 (EVar vMt) - #30 * EVar vMgl * EVar vMt * EPow P2 (EVar vMst1) * EPow P2 (EVar vs2t) + #45 * EVar
   vMgl * EPow P3 (EVar vMt) - #2 * EPow P3 (EVar vs2t) * EPow P4 (EVar vMst1)) + #9 * EVar vDmst12 * (#5 * EVar vMgl
   * EVar vMt - #2 * EVar vs2t * EPow P2 (EVar vMst1)) * EPow P2 (EVar vMt) * EPow P4 (EVar vMst2) + #15 * EVar vMgl *
   EPow P3 (EVar vMt) * EPow P6 (EVar vMst2)) + #60 * EVar vDmsqst1 * EPow P2 (EVar vMsq) * EPow P3 (EVar vMgl) * (-
   #3 * EVar vMt * EPow P2 (EVar vDmst12) * EPow P2 (EVar vMst2) * (#4 * EVar vMt * EVar vs2t * EPow P2 (EVar vMst1) +
   #15 * EVar vMgl * EPow P2 (EVar vMt) - #5 * EVar vMgl * EPow P2 (EVar vMst1) * EPow P2 (EVar vs2t)) + EPow P3 (EVar
   vDmst12) * (#60 * EVar vs2t * EPow P2 (EVar vMst1) * EPow P2 (EVar vMt) - #30 * EVar vMgl * EVar vMt * EPow P2
   (EVar vMst1) * EPow P2 (EVar vs2t) + #45 * EVar vMgl * EPow P3 (EVar vMt) - #2 * EPow P3 (EVar vs2t) * EPow P4
   (EVar vMst1)) + #9 * EVar vDmst12 * (#5 * EVar vMgl * EVar vMt - #4 * EVar vs2t * EPow P2 (EVar vMst1)) * EPow P2
   (EVar vMt) * EPow P4 (EVar vMst2) + #30 * EVar vMgl * EPow P3 (EVar vMt) * EPow P6 (EVar vMst2)) + EPow P4 (EVar
   vMsq) * (#2 * EVar vMt * EPow P2 (EVar vDmst12) * EPow P2 (EVar vMgl) * EPow P2 (EVar vMst2) * (- #102 * EVar vMgl
   * EVar vMt * EVar vs2t * EPow P2 (EVar vMst1) + #2 * EPow P2 (EVar vMgl) * ((#737 + #162 * EConst Cz2) * EPow P2
   (EVar vMt) + #3 * (#328 + #27 * EConst Cz2) * EPow P2 (EVar vMst1) * EPow P2 (EVar vs2t)) + #27 * EPow P2 (EVar
   vs2t) * EPow P4 (EVar vMst1)) - EPow P2 (EVar vMgl) * EPow P3 (EVar vDmst12) * (EVar vMt * EPow P2 (EVar vMgl) *
   (#32 * (#434 + #81 * EConst Cz2) * EPow P2 (EVar vMt) + #3 * (#605 + #54 * EConst Cz2) * EPow P2 (EVar vMst1) *
   EPow P2 (EVar vs2t)) + #54 * EVar vMt * EPow P2 (EVar vs2t) * EPow P4 (EVar vMst1) - #2 * EVar vMgl * (#67 * EVar
   vs2t * EPow P2 (EVar vMst1) * EPow P2 (EVar vMt) + #2 * (- #154 + #45 * EConst Cz2) * EPow P3 (EVar vs2t) * EPow P4
   (EVar vMst1))) + #12 * EVar vDmst12 * EPow P2 (EVar vMgl) * (#18 * EVar vMt * (#37 + #6 * EConst Cz2) * EPow P2
   (EVar vMgl) + #9 * EVar vMt * EPow P2 (EVar vMst1) - #476 * EVar vMgl * EVar vs2t * EPow P2 (EVar vMst1)) * EPow P2
   (EVar vMt) * EPow P4 (EVar vMst2) + #12 * EPow P3 (EVar vMt) * (#18 * EPow P2 (EVar vMgl) * EPow P2 (EVar vMst1) +
   #3 * (#215 + #36 * EConst Cz2) * EPow P4 (EVar vMgl) - #52 * EPow P4 (EVar vMst1)) * EPow P6 (EVar vMst2)))) /
   (#108 * EPow P3 (EVar vMt) * EPow P4 (EVar vMsq) * EPow P4 (EVar vMst1) * EPow P6 (EVar vMst2)).

(** H9q2.cpp:1282-1344 *)
Definition H9q2_coef1 : expr :=
  #8 * (- #6 * EPow P2 (EVar vMt) * EPow P2 (ELog (EPow P2 (EVar vMst1) / EPow P2 (EVar vMgl))) * EPow P4 (EVar vMsq) *
   (- #203 * EVar vMt * EPow P2 (EVar vDmst12) * EPow P2 (EVar vMst2) * EPow P4 (EVar vMgl) + #936 * EVar vMt * EPow
   P3 (EVar vDmst12) * EPow P4 (EVar vMgl) + #2 * EVar vDmst12 * (- #265 * EVar vMgl * EVar vMt + #162 * EVar vs2t *
   EPow P2 (EVar vMst1)) * EPow P3 (EVar vMgl) * EPow P4 (EVar vMst2) + #2 * EVar vMt * (- #265 * EPow P4 (EVar vMgl)
   + #18 * EPow P4 (EVar vMst1)) * EPow P6 (EVar vMst2)) + #10 * EVar vDmsqst1 * EVar vMt * EPow P2 (EVar vMsq) * (#18
   * EVar vDmst12 * EVar vMt * (#6 * EVar vMt * (- #7 + #4 * EConst Cz2) * EPow P2 (EVar vMgl) * EPow P2 (EVar vMst1)
   - #8 * EVar vs2t * (- #5 + #2 * EConst Cz2) * EPow P2 (EVar vMst1) * EPow P3 (EVar vMgl) + EVar vMt * (- #119 + #60
   * EConst Cz2) * EPow P4 (EVar vMgl) + #4 * EVar vMt * (- #2 + EConst Cz2) * EPow P4 (EVar vMst1) - #8 * EVar vMgl *
   EVar vs2t * (- #2 + EConst Cz2) * EPow P4 (EVar vMst1)) * EPow P4 (EVar vMst2) + #2 * EPow P3 (EVar vDmst12) * (-
   #27 * (- #47 + #28 * EConst Cz2) * EPow P2 (EVar vMgl) * EPow P2 (EVar vMst1) * EPow P2 (EVar vMt) + #72 * EVar vMt
   * EVar vs2t * (- #19 + #10 * EConst Cz2) * EPow P2 (EVar vMst1) * EPow P3 (EVar vMgl) + #9 * (- #119 + #60 * EConst
   Cz2) * EPow P2 (EVar vMt) * EPow P4 (EVar vMgl) + #6 * EVar vMgl * EVar vMt * EVar vs2t * EPow P4 (EVar vMst1) +
   EPow P2 (EVar vMt) * EPow P4 (EVar vMst1) - #9 * EPow P2 (EVar vs2t) * EPow P6 (EVar vMst1)) - #9 * EPow P2 (EVar
   vDmst12) * EPow P2 (EVar vMst2) * (#3 * (#33 - #20 * EConst Cz2) * EPow P2 (EVar vMgl) * EPow P2 (EVar vMst1) *
   EPow P2 (EVar vMt) + #16 * EVar vMt * EVar vs2t * (- #7 + #4 * EConst Cz2) * EPow P2 (EVar vMst1) * EPow P3 (EVar
   vMgl) + #2 * (- #119 + #60 * EConst Cz2) * EPow P2 (EVar vMt) * EPow P4 (EVar vMgl) + #8 * EVar vMgl * EVar vMt *
   EVar vs2t * (- #3 + #2 * EConst Cz2) * EPow P4 (EVar vMst1) + (#7 - #4 * EConst Cz2) * EPow P2 (EVar vMt) * EPow P4
   (EVar vMst1) - #2 * EPow P2 (EVar vs2t) * EPow P6 (EVar vMst1)) + #6 * EPow P2 (EVar vMt) * (#36 * (- #2 + EConst
   Cz2) * EPow P2 (EVar vMgl) * EPow P2 (EVar vMst1) + #3 * (- #49 + #20 * EConst Cz2) * EPow P4 (EVar vMgl) + #2 * (-
   #17 + #6 * EConst Cz2) * EPow P4 (EVar vMst1)) * EPow P6 (EVar vMst2)) + #5 * EVar vMt * EPow P2 (EVar vDmsqst1) *
   (#2 * EPow P3 (EVar vDmst12) * (- #27 * (- #75 + #44 * EConst Cz2) * EPow P2 (EVar vMgl) * EPow P2 (EVar vMst1) *
   EPow P2 (EVar vMt) + #144 * EVar vMt * EVar vs2t * (- #15 + #7 * EConst Cz2) * EPow P2 (EVar vMst1) * EPow P3 (EVar
   vMgl) + #18 * (- #119 + #60 * EConst Cz2) * EPow P2 (EVar vMt) * EPow P4 (EVar vMgl) + #24 * EVar vMgl * EVar vMt *
   EVar vs2t * (- #19 + #12 * EConst Cz2) * EPow P4 (EVar vMst1) - #2 * ((- #61 + #36 * EConst Cz2) * EPow P2 (EVar
   vMt) + #9 * EPow P2 (EVar vMst1) * EPow P2 (EVar vs2t)) * EPow P4 (EVar vMst1)) + #18 * EVar vDmst12 * EVar vMt *
   (#3 * EVar vMt * (- #47 + #28 * EConst Cz2) * EPow P2 (EVar vMgl) * EPow P2 (EVar vMst1) - #16 * EVar vs2t * (- #9
   + #5 * EConst Cz2) * EPow P2 (EVar vMst1) * EPow P3 (EVar vMgl) + #2 * EVar vMt * (- #119 + #60 * EConst Cz2) *
   EPow P4 (EVar vMgl) - #8 * EVar vMgl * EVar vs2t * (- #7 + #4 * EConst Cz2) * EPow P4 (EVar vMst1) + EVar vMt * (-
   #23 + #12 * EConst Cz2) * EPow P4 (EVar vMst1)) * EPow P4 (EVar vMst2) - #3 * EPow P2 (EVar vDmst12) * EPow P2
   (EVar vMst2) * (- #36 * (- #7 + #4 * EConst Cz2) * EPow P2 (EVar vMgl) * EPow P2 (EVar vMst1) * EPow P2 (EVar vMt)
   + #96 * EVar vMt * EVar vs2t * (- #3 + EConst Cz2) * EPow P2 (EVar vMst1) * EPow P3 (EVar vMgl) + #12 * (- #119 +
   #60 * EConst Cz2) * EPow P2 (EVar vMt) * EPow P4 (EVar vMgl) + #12 * EVar vMgl * EVar vMt * EVar vs2t * (- #19 +
   #12 * EConst Cz2) * EPow P4 (EVar vMst1) + (#61 - #36 * EConst Cz2) * EPow P2 (EVar vMt) * EPow P4 (EVar vMst1) -
   #12 * EPow P2 (EVar vs2t) * EPow P6 (EVar vMst1)) + #6 * EPow P2 (EVar vMt) * (#36 * (- #7 + #4 * EConst Cz2) *
   EPow P2 (EVar vMgl) * EPow P2 (EVar vMst1) + (- #537 + #300 * EConst Cz2) * EPow P4 (EVar vMgl) + #4 * (- #22 + #9
   * EConst Cz2) * EPow P4 (EVar vMst1)) * EPow P6 (EVar vMst2)) + EPow P4 (EVar vMsq) * (EVar vMt * EPow P2 (EVar
   vDmst12) * EPow P2 (EVar vMst2) * (- #6 * EPow P2 (EVar vMgl) * EPow P2 (EVar vMst1) * ((#659 - #440 * EConst Cz2)
   * EPow P2 (EVar vMt) + #243 * EPow P2 (EVar vMst1) * EPow P2 (EVar vs2t)) - #72 * EVar vMt * EVar vs2t * (- #99 +
   #20 * EConst Cz2) * EPow P2 (EVar vMst1) * EPow P3 (EVar vMgl) + ((- #23651 + #5436 * EConst Cz2) * EPow P2 (EVar
   vMt) - #582 * EPow P2 (EVar vMst1) * EPow P2 (EVar vs2t)) * EPow P4 (EVar vMgl) + #12 * EVar vMgl * EVar vMt * EVar
   vs2t * (#25 - #62 * EConst Cz2) * EPow P4 (EVar vMst1) + #6 * ((- #145 + #46 * EConst Cz2) * EPow P2 (EVar vMt) +
   #79 * EPow P2 (EVar vMst1) * EPow P2 (EVar vs2t)) * EPow P4 (EVar vMst1)) + EPow P3 (EVar vDmst12) * (#3 * EVar vMt
   * EPow P2 (EVar vMgl) * EPow P2 (EVar vMst1) * ((- #498 + #280 * EConst Cz2) * EPow P2 (EVar vMt) + #379 * EPow P2
   (EVar vMst1) * EPow P2 (EVar vs2t)) - #24 * EVar vs2t * EPow P2 (EVar vMst1) * ((- #86 + #77 * EConst Cz2) * EPow
   P2 (EVar vMt) + EPow P2 (EVar vMst1) * EPow P2 (EVar vs2t)) * EPow P3 (EVar vMgl) + (- #315 * EVar vMt * EPow P2
   (EVar vMst1) * EPow P2 (EVar vs2t) + (#63184 - #7104 * EConst Cz2) * EPow P3 (EVar vMt)) * EPow P4 (EVar vMgl) + #2
   * EVar vMgl * EVar vs2t * ((#442 - #60 * EConst Cz2) * EPow P2 (EVar vMt) + #59 * EPow P2 (EVar vMst1) * EPow P2
   (EVar vs2t)) * EPow P4 (EVar vMst1) - #3 * EVar vMt * (#4 * (- #43 + #8 * EConst Cz2) * EPow P2 (EVar vMt) + #125 *
   EPow P2 (EVar vMst1) * EPow P2 (EVar vs2t)) * EPow P4 (EVar vMst1)) - #6 * EVar vDmst12 * EPow P2 (EVar vMt) * (#4
   * EVar vMt * (#103 - #50 * EConst Cz2) * EPow P2 (EVar vMgl) * EPow P2 (EVar vMst1) - #4 * EVar vs2t * (#283 + #138
   * EConst Cz2) * EPow P2 (EVar vMst1) * EPow P3 (EVar vMgl) + EVar vMt * (#2647 + #628 * EConst Cz2) * EPow P4 (EVar
   vMgl) + #12 * EVar vMt * (#8 - #5 * EConst Cz2) * EPow P4 (EVar vMst1) - #4 * EVar vMgl * EVar vs2t * (#65 + #2 *
   EConst Cz2) * EPow P4 (EVar vMst1)) * EPow P4 (EVar vMst2) - #12 * EPow P3 (EVar vMt) * (#2 * (#91 - #10 * EConst
   Cz2) * EPow P2 (EVar vMgl) * EPow P2 (EVar vMst1) + (#589 + #464 * EConst Cz2) * EPow P4 (EVar vMgl) - #4 * (- #35
   + #15 * EConst Cz2 + #3 * EConst Cz3) * EPow P4 (EVar vMst1)) * EPow P6 (EVar vMst2)) + #2 * ELog (EPow P2 (EVar
   vMst1) / EPow P2 (EVar vMgl)) * (#180 * EVar vDmsqst1 * EPow P2 (EVar vMsq) * EPow P2 (EVar vMt) * EPow P3 (EVar
   vMgl) * (- #5 * EVar vMgl * EVar vMt * EPow P2 (EVar vDmst12) * EPow P2 (EVar vMst2) + (#5 * EVar vMgl * EVar vMt +
   #4 * EVar vs2t * EPow P2 (EVar vMst1)) * EPow P3 (EVar vDmst12) + EVar vDmst12 * (#5 * EVar vMgl * EVar vMt - #4 *
   EVar vs2t * EPow P2 (EVar vMst1)) * EPow P4 (EVar vMst2) + #5 * EVar vMgl * EVar vMt * EPow P6 (EVar vMst2)) + #90
   * EPow P2 (EVar vDmsqst1) * EPow P2 (EVar vMt) * EPow P3 (EVar vMgl) * (- #2 * EPow P2 (EVar vDmst12) * (#5 * EVar
   vMgl * EVar vMt + #2 * EVar vs2t * EPow P2 (EVar vMst1)) * EPow P2 (EVar vMst2) + #2 * (#5 * EVar vMgl * EVar vMt +
   #6 * EVar vs2t * EPow P2 (EVar vMst1)) * EPow P3 (EVar vDmst12) + #2 * EVar vDmst12 * (#5 * EVar vMgl * EVar vMt -
   #2 * EVar vs2t * EPow P2 (EVar vMst1)) * EPow P4 (EVar vMst2) + #5 * EVar vMgl * EVar vMt * EPow P6 (EVar vMst2)) +
   EPow P4 (EVar vMsq) * (#6 * EVar vMt * EPow P2 (EVar vDmst12) * EPow P2 (EVar vMst2) * (#14 * EVar vMt * EVar vs2t
   * EPow P2 (EVar vMst1) + #67 * EVar vMgl * EPow P2 (EVar vMt) + #117 * EVar vMgl * EPow P2 (EVar vMst1) * EPow P2
   (EVar vs2t)) * EPow P3 (EVar vMgl) - EPow P3 (EVar vDmst12) * EPow P3 (EVar vMgl) * (#42 * EVar vs2t * EPow P2
   (EVar vMst1) * EPow P2 (EVar vMt) + #351 * EVar vMgl * (EVar vMt * EPow P2 (EVar vMst1) * EPow P2 (EVar vs2t) + #8
   * EPow P3 (EVar vMt)) + #68 * EPow P3 (EVar vs2t) * EPow P4 (EVar vMst1)) + #12 * EVar vDmst12 * EPow P2 (EVar
   vMgl) * (#167 * EVar vMt * EPow P2 (EVar vMgl) - #54 * EVar vMt * EPow P2 (EVar vMst1) - #170 * EVar vMgl * EVar
   vs2t * EPow P2 (EVar vMst1)) * EPow P2 (EVar vMt) * EPow P4 (EVar vMst2) + #36 * EPow P3 (EVar vMt) * (- #36 * EPow
   P2 (EVar vMgl) * EPow P2 (EVar vMst1) + #59 * EPow P4 (EVar vMgl) + #4 * EPow P4 (EVar vMst1)) * EPow P6 (EVar
   vMst2)))) / (#9 * EPow P3 (EVar vMt) * EPow P4 (EVar vMsq) * EPow P4 (EVar vMst1) * EPow P6 (EVar vMst2)).

(** H9q2.cpp:1349-1372 *)
Definition H9q2_coef2 : expr :=
  #8 * (EVar vMt * EPow P2 (EVar vDmst12) * EPow P2 (EVar vMst2) * EPow P4 (EVar vMsq) * (#528 * EVar vMt * EVar vs2t *
   EPow P2 (EVar vMst1) * EPow P3 (EVar vMgl) + (- #1966 * EPow P2 (EVar vMt) + #96 * EPow P2 (EVar vMst1) * EPow P2
   (EVar vs2t)) * EPow P4 (EVar vMgl) + #180 * EVar vMgl * EVar vMt * EVar vs2t * EPow P4 (EVar vMst1) + #3 * (#51 *
   EPow P2 (EVar vMt) + #82 * EPow P2 (EVar vMst1) * EPow P2 (EVar vs2t)) * EPow P4 (EVar vMst1) + EPow P2 (EVar vMgl)
   * (#64 * EPow P2 (EVar vMst1) * EPow P2 (EVar vMt) - #321 * EPow P2 (EVar vs2t) * EPow P4 (EVar vMst1))) - #6 *
   EVar vDmst12 * EPow P2 (EVar vMt) * EPow P4 (EVar vMsq) * (#43 * EVar vMt * EPow P2 (EVar vMgl) * EPow P2 (EVar
   vMst1) - #248 * EVar vs2t * EPow P2 (EVar vMst1) * EPow P3 (EVar vMgl) + #550 * EVar vMt * EPow P4 (EVar vMgl) +
   #51 * EVar vMt * EPow P4 (EVar vMst1) + #60 * EVar vMgl * EVar vs2t * EPow P4 (EVar vMst1)) * EPow P4 (EVar vMst2)
   - EPow P3 (EVar vDmst12) * EPow P4 (EVar vMsq) * ((#48 * EVar vMt * EPow P2 (EVar vMst1) * EPow P2 (EVar vs2t) -
   #7232 * EPow P3 (EVar vMt)) * EPow P4 (EVar vMgl) + #102 * EPow P3 (EVar vMt) * EPow P4 (EVar vMst1) + EPow P2
   (EVar vMgl) * (#32 * EPow P2 (EVar vMst1) * EPow P3 (EVar vMt) - #321 * EVar vMt * EPow P2 (EVar vs2t) * EPow P4
   (EVar vMst1)) + #16 * EPow P3 (EVar vMgl) * (#11 * EVar vs2t * EPow P2 (EVar vMst1) * EPow P2 (EVar vMt) + #2 *
   EPow P3 (EVar vs2t) * EPow P4 (EVar vMst1)) + #369 * EVar vMt * EPow P2 (EVar vs2t) * EPow P6 (EVar vMst1) + EVar
   vMgl * (#120 * EVar vs2t * EPow P2 (EVar vMt) * EPow P4 (EVar vMst1) - #41 * EPow P3 (EVar vs2t) * EPow P6 (EVar
   vMst1))) + #6 * EPow P3 (EVar vMt) * (- #86 * EPow P2 (EVar vMgl) * EPow P2 (EVar vMst1) * EPow P4 (EVar vMsq) -
   #380 * EPow P4 (EVar vMgl) * EPow P4 (EVar vMsq) + (#15 * EPow P2 (EVar vDmsqst1) + #30 * EVar vDmsqst1 * EPow P2
   (EVar vMsq) + #98 * EPow P4 (EVar vMsq)) * EPow P4 (EVar vMst1)) * EPow P6 (EVar vMst2) - #12 * ELog (EPow P2 (EVar
   vMst1) / EPow P2 (EVar vMgl)) * EPow P2 (EVar vMt) * EPow P4 (EVar vMsq) * (- #53 * EVar vMt * EPow P2 (EVar
   vDmst12) * EPow P2 (EVar vMst2) * EPow P4 (EVar vMgl) + #276 * EVar vMt * EPow P3 (EVar vDmst12) * EPow P4 (EVar
   vMgl) + #2 * EVar vDmst12 * (- #85 * EVar vMgl * EVar vMt + #44 * EVar vs2t * EPow P2 (EVar vMst1)) * EPow P3 (EVar
   vMgl) * EPow P4 (EVar vMst2) + #2 * EVar vMt * (- #85 * EPow P4 (EVar vMgl) + #9 * EPow P4 (EVar vMst1)) * EPow P6
   (EVar vMst2))) / (#9 * EPow P3 (EVar vMt) * EPow P4 (EVar vMsq) * EPow P4 (EVar vMst1) * EPow P6 (EVar vMst2)).

(** H9q2.cpp:1377-1383 *)
Definition H9q2_coef3 : expr :=
  - EDec 2986666666666667 13.

(** the constructor, H9q2.cpp:39-72: value of each data member (members it does not assign are zero, H9q2.hpp) *)
Definition H9q2_ctor {T : Type} {N : Num T} (d : Depth) (a_Al4p a_beta a_Dmst12 a_Dmsqst1 a_lmMt a_lmMgl a_lmMst1
   a_Mgl a_Mt a_Mst1 a_Mst2 a_Msq a_MuSUSY a_s2t : T) (mdr f1 f2 f3 : Z) (v : hvar) : T :=
  match v with
  | vTbeta => ntan a_beta
  | vSbeta => nsin a_beta
  | vDmst12 => a_Dmst12
  | vDmsqst1 => a_Dmsqst1
  | vlmMt => a_lmMt
  | vlmMgl => a_lmMgl
  | vlmMst1 => a_lmMst1
  | vMgl => a_Mgl
  | vMt => a_Mt
  | vMst1 => a_Mst1
  | vMst2 => a_Mst2
  | vMsq => a_Msq
  | vMuSUSY => a_MuSUSY
  | vs2t => a_s2t
  | voneLoopFlag => nint f1
  | vtwoLoopFlag => nint f2
  | vthreeLoopFlag => nint f3
  | vAl4p => a_Al4p
  | vshiftst1 => nint mdr
  | vshiftst2 => nint mdr
  | vshiftst3 => nint mdr
  | vx => nint (x_threeLoop d)
  | vxDmst12 => nint (x_Dmglst1 d)
  | vxDmsqst1 => nint (x_Dmsqst1 d)
  | vxMgl => nint (x_Mgl d)
  | _ => nint 0
  end.
