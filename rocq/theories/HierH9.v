(** * Class H9
    GENERATED by tools/gen_hier.py from source/himalaya/hierarchies/H9.cpp (expressions are transcribed operator by operator;
    no subexpression is an integer division, and integer subexpressions stay below 2^31 when the flags are 0 or 1). *)
From Coq Require Import ZArith List.
From Verif Require Import Num HierExpr HierCalc.
Local Open Scope hx_scope.

(** H9.cpp:75-169 *)
Definition H9_getS1 : expr :=
  - (EPow P2 (EVar vMuSUSY) * (#10 * EVar vAl4p * EVar vxMgl * EPow P4 (EVar vMgl) * (#2 * EVar vxDmst12 * EPow P2 (EVar
   vMt) * (#216 * (#1 - #3 * EVar vlmMgl + #3 * EVar vlmMst1) * EVar vtwoLoopFlag * EPow P2 (EVar vMst1) * EPow P2
   (EVar vs2t) + EVar vAl4p * EVar vthreeLoopFlag * (#288 * (#262 + #335 * EVar vlmMst1 - #96 * EVar vlmMt - #72 *
   EVar vlmMst1 * EVar vlmMt + EVar vlmMgl * (- #199 - #120 * EVar vlmMst1 + #72 * EVar vlmMt) + #120 * EPow P2 (EVar
   vlmMst1)) * EPow P2 (EVar vMt) + (#41653 + #11784 * EVar vlmMst1 + #48 * EVar vlmMgl * (- #313 + #180 * EVar
   vlmMst1) - #12636 * EPow P2 (EVar vlmMgl) + #540 * EPow P2 (EVar vlmMst1)) * EPow P2 (EVar vMst1) * EPow P2 (EVar
   vs2t))) * EPow P3 (EVar vDmst12) + EPow P2 (EVar vMst2) * (#216 * (- #1 + #3 * EVar vlmMgl - #3 * EVar vlmMst1) *
   EVar vtwoLoopFlag * EPow P2 (EVar vDmst12) * EPow P2 (EVar vMst1) * EPow P2 (EVar vMt) * EPow P2 (EVar vs2t) + EVar
   vAl4p * EVar vthreeLoopFlag * (- (EPow P2 (EVar vDmst12) * EPow P2 (EVar vMt) * (#576 * (#262 + #335 * EVar vlmMst1
   - #96 * EVar vlmMt - #72 * EVar vlmMst1 * EVar vlmMt + EVar vlmMgl * (- #199 - #120 * EVar vlmMst1 + #72 * EVar
   vlmMt) + #120 * EPow P2 (EVar vlmMst1)) * EPow P2 (EVar vMt) + (#41653 + #11784 * EVar vlmMst1 + #48 * EVar vlmMgl
   * (- #313 + #180 * EVar vlmMst1) - #12636 * EPow P2 (EVar vlmMgl) + #540 * EPow P2 (EVar vlmMst1)) * EPow P2 (EVar
   vMst1) * EPow P2 (EVar vs2t))) + #576 * EPow P2 (EVar vMst2) * (EVar vDmst12 * (#262 + #335 * EVar vlmMst1 - #96 *
   EVar vlmMt - #72 * EVar vlmMst1 * EVar vlmMt + EVar vlmMgl * (- #199 - #120 * EVar vlmMst1 + #72 * EVar vlmMt) +
   #120 * EPow P2 (EVar vlmMst1)) + #2 * (#59 + #85 * EVar vlmMst1 - #24 * EVar vlmMt - #24 * EVar vlmMst1 * EVar
   vlmMt + EVar vlmMgl * (- #53 - #40 * EVar vlmMst1 + #24 * EVar vlmMt) + #40 * EPow P2 (EVar vlmMst1)) * EPow P2
   (EVar vMst2)) * EPow P4 (EVar vMt)))) / #9 + EVar vthreeLoopFlag * EPow P2 (EVar vAl4p) * (- #16 * EConst Cz2 *
   EPow P2 (EVar vMt) * (- #2 * EVar vxDmst12 * EPow P3 (EVar vDmst12) * (EVar vMt * EVar vs2t * (#80 * (#15 * EVar
   vDmsqst1 + (- #94 + #45 * EVar vlmMgl - #45 * EVar vlmMst1) * EPow P2 (EVar vMst1)) * EPow P3 (EVar vMgl) + #6 *
   EVar vMgl * (#150 * EVar vxDmsqst1 * EPow P2 (EVar vDmsqst1) - #500 * EVar vDmsqst1 * EPow P2 (EVar vMst1) + #79 *
   EPow P4 (EVar vMst1))) + EPow P2 (EVar vMst1) * (EPow P2 (EVar vMgl) * (- #996 * EPow P2 (EVar vMt) + #5 * (- #90 *
   EVar vDmsqst1 + #91 * EPow P2 (EVar vMst1)) * EPow P2 (EVar vs2t)) + EPow P2 (EVar vs2t) * (- #225 * EVar vxDmsqst1
   * EPow P2 (EVar vDmsqst1) + #15 * EVar vDmsqst1 * (#3 * EVar vshiftst1 + #2 * EVar vshiftst2) * EPow P2 (EVar
   vMst1) + (#10 + #45 * EVar vshiftst1 + #30 * EVar vshiftst2 + #27 * EVar vshiftst3) * EPow P4 (EVar vMst1)))) +
   EPow P2 (EVar vMst2) * (#4 * EPow P2 (EVar vMgl) * EPow P2 (EVar vMst1) * (#11 * EPow P2 (EVar vDmst12) - #520 *
   EPow P2 (EVar vMst2) * (EVar vDmst12 + EPow P2 (EVar vMst2))) * EPow P2 (EVar vMt) + EVar vDmst12 * EVar vs2t *
   (#225 * EVar vxDmsqst1 * EPow P2 (EVar vDmsqst1) * (#8 * EVar vDmst12 * EVar vMgl * EVar vMt - EVar vDmst12 * EVar
   vs2t * EPow P2 (EVar vMst1) - #8 * EVar vMgl * EVar vMt * EPow P2 (EVar vMst2)) + #5 * EVar vs2t * EPow P2 (EVar
   vMst1) * (#274 * EVar vDmst12 * EPow P2 (EVar vMgl) * EPow P2 (EVar vMst1) - #30 * EVar vDmsqst1 * (#3 * EVar
   vDmst12 * EPow P2 (EVar vMgl) - EVar vDmst12 * (- #3 + EVar vshiftst1 + EVar vshiftst2) * EPow P2 (EVar vMst1) + #2
   * (EVar vshiftst1 - EVar vshiftst2) * EPow P2 (EVar vMst1) * EPow P2 (EVar vMst2)) + EVar vDmst12 * (- #41 + #30 *
   EVar vshiftst1 + #30 * EVar vshiftst2 + #9 * EVar vshiftst3) * EPow P4 (EVar vMst1) - #6 * (#10 * EVar vshiftst1 -
   #10 * EVar vshiftst2 + EVar vshiftst3) * EPow P2 (EVar vMst2) * EPow P4 (EVar vMst1)) - #5 * EVar vMt * (#8 * EVar
   vMgl * EPow P2 (EVar vMst2) * ((#113 - #90 * EVar vlmMgl + #90 * EVar vlmMst1) * EPow P2 (EVar vMgl) * EPow P2
   (EVar vMst1) + #30 * EVar vDmsqst1 * (#2 * EPow P2 (EVar vMgl) + EPow P2 (EVar vMst1)) - #17 * EPow P4 (EVar
   vMst1)) + #4 * EVar vDmst12 * ((#263 - #90 * EVar vlmMgl + #90 * EVar vlmMst1) * EPow P2 (EVar vMst1) * EPow P3
   (EVar vMgl) - #120 * EVar vDmsqst1 * (- (EVar vMgl * EPow P2 (EVar vMst1)) + EPow P3 (EVar vMgl)) + #30 * EVar vMgl
   * EPow P4 (EVar vMst1))))) + #20 * EVar vxMgl * EPow P4 (EVar vMgl) * (- #6 * EVar vxDmst12 * (#12 * (#17 - #4 *
   EVar vlmMgl + #4 * EVar vlmMst1) * EPow P2 (EVar vMt) + (#49 - #17 * EVar vlmMgl + #17 * EVar vlmMst1) * EPow P2
   (EVar vMst1) * EPow P2 (EVar vs2t)) * EPow P3 (EVar vDmst12) + EPow P2 (EVar vMst2) * (#3 * (#49 - #17 * EVar
   vlmMgl + #17 * EVar vlmMst1) * EPow P2 (EVar vDmst12) * EPow P2 (EVar vMst1) * EPow P2 (EVar vs2t) + #8 * EPow P2
   (EVar vMt) * (#9 * EVar vDmst12 * (#17 - #4 * EVar vlmMgl + #4 * EVar vlmMst1) * (EVar vDmst12 - EPow P2 (EVar
   vMst2)) + #2 * (- #47 + #12 * EVar vlmMgl - #12 * EVar vlmMst1) * EPow P4 (EVar vMst2))))) + EPow P2 (EVar vMst2) *
   (#10 * EVar vDmst12 * EVar vs2t * EPow P2 (EVar vMt) * (- #15 * EVar vxDmsqst1 * EPow P2 (EVar vDmsqst1) * (- #256
   * EVar vDmst12 * EVar vMgl * EVar vMt + EVar vDmst12 * EVar vs2t * (#21 - #8 * (EVar vshiftst1 + EVar vshiftst2)) *
   EPow P2 (EVar vMst1) + #256 * EVar vMgl * EVar vMt * EPow P2 (EVar vMst2) + #16 * EVar vs2t * (EVar vshiftst1 -
   EVar vshiftst2) * EPow P2 (EVar vMst1) * EPow P2 (EVar vMst2)) + #32 * EVar vMgl * EVar vMt * (- #30 * EVar
   vDmsqst1 * (EVar vDmst12 * (#4 * (- #3 + EVar vlmMgl - EVar vlmMst1) * EPow P2 (EVar vMgl) + #7 * EPow P2 (EVar
   vMst1)) + #2 * ((#6 - #2 * EVar vlmMgl + #2 * EVar vlmMst1) * EPow P2 (EVar vMgl) + #3 * EPow P2 (EVar vMst1)) *
   EPow P2 (EVar vMst2)) - EPow P2 (EVar vMst1) * (EVar vDmst12 * (- #2 * (- #249 + #164 * EVar vlmMgl - #176 * EVar
   vlmMst1 - #20 * EVar vlmMgl * EVar vlmMst1 + #27 * EPow P2 (EVar vlmMgl) + EPow P2 (EVar vlmMst1)) * EPow P2 (EVar
   vMgl) + (#149 + #41 * EVar vlmMst1) * EPow P2 (EVar vMst1)) + (- #4 * (- #11 + #154 * EVar vlmMgl - #148 * EVar
   vlmMst1 - #20 * EVar vlmMgl * EVar vlmMst1 + #27 * EPow P2 (EVar vlmMgl) + EPow P2 (EVar vlmMst1)) * EPow P2 (EVar
   vMgl) + (#215 + #118 * EVar vlmMst1 + #41 * EPow P2 (EVar vlmMst1)) * EPow P2 (EVar vMst1)) * EPow P2 (EVar
   vMst2))) - #4 * EVar vs2t * EPow P2 (EVar vMst1) * (#2 * EVar vDmst12 * (#200 + #18 * EVar vlmMgl + #265 * EVar
   vlmMst1 + #91 * EPow P2 (EVar vlmMst1)) * EPow P2 (EVar vMgl) * EPow P2 (EVar vMst1) + #15 * EVar vDmsqst1 * (#48 *
   EVar vDmst12 * EPow P2 (EVar vMgl) + EPow P2 (EVar vMst1) * (EVar vDmst12 * (#3 - #6 * EVar vshiftst1 - #6 * EVar
   vshiftst2 + #4 * EVar vlmMst1 * (- #2 + EVar vshiftst1 + EVar vshiftst2)) + #4 * (#3 - #2 * EVar vlmMst1) * (EVar
   vshiftst1 - EVar vshiftst2) * EPow P2 (EVar vMst2))) + (- (EVar vDmst12 * (#32 + #30 * (EVar vshiftst1 + EVar
   vshiftst2) + #2 * EVar vlmMst1 * (#115 - #30 * (EVar vshiftst1 + EVar vshiftst2) - #9 * EVar vshiftst3) + #21 *
   EVar vshiftst3 + #82 * EPow P2 (EVar vlmMst1))) + #6 * (#1 - #2 * EVar vlmMst1) * (#10 * EVar vshiftst1 - #10 *
   EVar vshiftst2 + EVar vshiftst3) * EPow P2 (EVar vMst2)) * EPow P4 (EVar vMst1))) + #64 * EPow P2 (EVar vMgl) *
   EPow P2 (EVar vMst1) * (EPow P2 (EVar vDmst12) * (#163 + #15 * EVar vlmMgl - #27 * EVar vlmMst1 + #20 * EVar vlmMt
   - #8 * EPow P2 (EVar vlmMst1)) + #20 * EVar vDmst12 * (#16 - #9 * EVar vlmMgl + #41 * EVar vlmMst1 - #12 * EVar
   vlmMt + #4 * EPow P2 (EVar vlmMst1)) * EPow P2 (EVar vMst2) - #10 * (#5 + #18 * EVar vlmMgl - #74 * EVar vlmMst1 +
   #24 * EVar vlmMt - #8 * EPow P2 (EVar vlmMst1)) * EPow P4 (EVar vMst2)) * EPow P4 (EVar vMt)) + #3 * EConst Cz3 *
   (#40 * EVar vMgl * EPow P2 (EVar vMst1) * EPow P2 (EVar vMst2) * (#56 * EVar vDmst12 * EVar vs2t * EPow P2 (EVar
   vMst1) * EPow P2 (EVar vMst2) - EVar vMgl * (#648 * EVar vDmst12 * EVar vMgl * EVar vs2t * (EVar vDmst12 + #2 *
   EPow P2 (EVar vMst2)) + #7 * EVar vMt * (EPow P2 (EVar vDmst12) - #8 * EPow P2 (EVar vMst2) * (EVar vDmst12 + EPow
   P2 (EVar vMst2))))) * EPow P3 (EVar vMt) + #3 * EPow P2 (EVar vDmst12) * EPow P2 (EVar vMst1) * EPow P2 (EVar vMt)
   * (- #5 * (#105 * EVar vxDmsqst1 * EPow P2 (EVar vDmsqst1) + #140 * EVar vDmsqst1 * EPow P2 (EVar vMst1) + #48 *
   EPow P2 (EVar vMst1) * (- #5 * EPow P2 (EVar vMgl) + EPow P2 (EVar vMst1))) * EPow P2 (EVar vMst2) * EPow P2 (EVar
   vs2t) - #2 * EVar vDmst12 * EVar vxDmst12 * (#8 * EVar vMgl * EVar vMt * (#35 * EVar vMgl * EVar vMt - #2160 * EVar
   vs2t * EPow P2 (EVar vMgl) + #2 * EVar vs2t * EPow P2 (EVar vMst1)) + #5 * EPow P2 (EVar vs2t) * (- #105 * EVar
   vxDmsqst1 * EPow P2 (EVar vDmsqst1) + #5 * (#7 * EVar vDmsqst1 + #24 * EPow P2 (EVar vMgl)) * EPow P2 (EVar vMst1)
   / #2 + #11 * EPow P4 (EVar vMst1)))) + #40 * EVar vxMgl * EPow P4 (EVar vMgl) * (- #6 * EVar vxDmst12 * EPow P3
   (EVar vDmst12) * (#259 * EPow P2 (EVar vMst1) * EPow P2 (EVar vMt) * EPow P2 (EVar vs2t) + #484 * EPow P4 (EVar
   vMt)) + EPow P2 (EVar vMst2) * (#777 * EPow P2 (EVar vDmst12) * EPow P2 (EVar vMst1) * EPow P2 (EVar vMt) * EPow P2
   (EVar vs2t) + #968 * (#3 * EPow P2 (EVar vDmst12) - #3 * EVar vDmst12 * EPow P2 (EVar vMst2) - #2 * EPow P4 (EVar
   vMst2)) * EPow P4 (EVar vMt))))) + EPow P2 (EVar vMt) * (- (EVar vxDmst12 * EPow P3 (EVar vDmst12) * (EVar vAl4p *
   (- #12 * EPow P2 (EVar vMst1) * (EVar vAl4p * EVar vthreeLoopFlag * (#640 * EVar vMgl * EVar vMt * EVar vs2t * (#75
   * EVar vDmsqst1 - (- #130 + EVar vlmMgl * (#159 - #20 * EVar vlmMst1) - #162 * EVar vlmMst1 + #27 * EPow P2 (EVar
   vlmMgl) + EPow P2 (EVar vlmMst1)) * EPow P2 (EVar vMgl)) + #75 * (#21 - #16 * EVar vshiftst2) * EVar vxDmsqst1 *
   EPow P2 (EVar vDmsqst1) * EPow P2 (EVar vs2t) - #32 * EPow P2 (EVar vMgl) * ((#323 - #75 * EVar vlmMgl + #383 *
   EVar vlmMst1 - #100 * EVar vlmMt + #32 * EPow P2 (EVar vlmMst1)) * EPow P2 (EVar vMt) - #450 * EVar vDmsqst1 * EPow
   P2 (EVar vs2t))) + #960 * (#1 - EVar vlmMgl + EVar vlmMst1) * EVar vMt * EVar vs2t * EVar vtwoLoopFlag * EPow P3
   (EVar vMgl)) + EVar vs2t * (#2880 * EVar vMgl * EVar vMt * (#40 * EVar vAl4p * EVar vDmsqst1 * EVar vthreeLoopFlag
   * (EVar vDmsqst1 * EVar vxDmsqst1 + (#3 - EVar vlmMgl + EVar vlmMst1) * EPow P2 (EVar vMgl)) + (#1 - #3 * EVar
   vlmMgl + #3 * EVar vlmMst1) * EVar vtwoLoopFlag * EVar vx * EPow P4 (EVar vMgl)) + #2 * (- #36 * EVar vMgl * (#2 *
   (#9 + #2 * EVar vlmMst1) * EVar vMt + #5 * (#1 + #2 * EVar vlmMst1) * EVar vMgl * EVar vs2t) * EVar vtwoLoopFlag -
   EVar vAl4p * EVar vthreeLoopFlag * (#45 * EVar vDmsqst1 * EVar vs2t * (#5 - #72 * EVar vshiftst1 - #48 * EVar
   vshiftst2 + #16 * EVar vlmMst1 * (- #5 + #3 * EVar vshiftst1 + #2 * EVar vshiftst2)) + #16 * EVar vMgl * EVar vMt *
   (- #365 + #1049 * EVar vlmMst1 + #123 * EPow P2 (EVar vlmMst1)) + #60 * EVar vs2t * (- #425 + #18 * EVar vlmMgl +
   #83 * EVar vlmMst1 + #91 * EPow P2 (EVar vlmMst1)) * EPow P2 (EVar vMgl))) * EPow P4 (EVar vMst1))) + #3 * (#45 *
   EVar voneLoopFlag + #4 * EVar vAl4p * (#120 * EVar vlmMst1 * EVar vtwoLoopFlag + EVar vAl4p * EVar vthreeLoopFlag *
   (- #605 + #180 * EVar vshiftst1 + #120 * EVar vshiftst2 + #348 * EVar vshiftst3 - #8 * EVar vlmMst1 * (- #110 + #45
   * EVar vshiftst1 + #30 * EVar vshiftst2 + #27 * EVar vshiftst3) + #820 * EPow P2 (EVar vlmMst1)))) * EPow P2 (EVar
   vs2t) * EPow P6 (EVar vMst1))) / #3 + #15 * EVar vDmst12 * EVar vs2t * EPow P2 (EVar vMst2) * (#3 * EVar vDmst12 *
   EVar voneLoopFlag * EVar vs2t * EPow P6 (EVar vMst1) - #16 * EVar vAl4p * EVar vtwoLoopFlag * (#4 * EVar vMgl *
   EVar vMt * EPow P2 (EVar vMst2) * ((#1 - #2 * EVar vlmMgl + #2 * EVar vlmMst1) * EPow P2 (EVar vMgl) * EPow P2
   (EVar vMst1) + (#1 - #3 * EVar vlmMgl + #3 * EVar vlmMst1) * EVar vx * EPow P4 (EVar vMgl) + (#2 + EVar vlmMst1) *
   EPow P4 (EVar vMst1)) + EVar vDmst12 * (#2 * (#3 - #2 * EVar vlmMgl + #2 * EVar vlmMst1) * EVar vMt * EPow P2 (EVar
   vMst1) * EPow P3 (EVar vMgl) + #2 * EVar vMgl * EVar vMt * EPow P4 (EVar vMst1) + (#3 + #2 * EVar vlmMst1) * EVar
   vs2t * EPow P2 (EVar vMgl) * EPow P4 (EVar vMst1) + #4 * (- #1 + #3 * EVar vlmMgl - #3 * EVar vlmMst1) * EVar vMt *
   EVar vx * EPow P5 (EVar vMgl) - (#1 + #2 * EVar vlmMst1) * EVar vs2t * EPow P6 (EVar vMst1))))))) / (#2160 * EPow
   P6 (EVar vMst1) * EPow P6 (EVar vMst2)).

(** H9.cpp:174-799 *)
Definition H9_getS2 : expr :=
  - (- #5 * EVar vxDmst12 * EPow P2 (EVar vMst1) * EPow P3 (EVar vDmst12) * (EVar vMt * (#54 * EVar voneLoopFlag * (-
   (EVar vMt * EVar vTbeta * EPow P2 (EVar vs2t) * (EPow P2 (EVar vMuSUSY) * (- #1 + EPow P2 (EVar vSbeta)) + #18 *
   EPow P2 (EVar vMst1) * EPow P2 (EVar vSbeta))) - #8 * EVar vTbeta * EPow P2 (EVar vSbeta) * EPow P3 (EVar vMt) +
   EVar vMuSUSY * EPow P2 (EVar vSbeta) * (#8 * EVar vs2t * EPow P2 (EVar vMt) - EPow P2 (EVar vMst1) * EPow P3 (EVar
   vs2t))) * EPow P6 (EVar vMst1) - #144 * EVar vAl4p * EVar vtwoLoopFlag * (EVar vMuSUSY * EPow P2 (EVar vMst1) *
   (EVar vMt * EVar vMuSUSY * EVar vs2t * EVar vTbeta * (#2 * (#9 + #2 * EVar vlmMst1) * EVar vMgl * EVar vMt * EPow
   P2 (EVar vMst1) + #5 * (#1 + #2 * EVar vlmMst1) * EVar vs2t * EPow P2 (EVar vMgl) * EPow P2 (EVar vMst1) + #160 *
   (#1 - EVar vlmMgl + EVar vlmMst1) * EVar vMt * EPow P3 (EVar vMgl) - #20 * EVar vlmMst1 * EVar vs2t * EPow P4 (EVar
   vMst1)) + #10 * EPow P2 (EVar vSbeta) * (EVar vMt * EVar vs2t * EPow P2 (EVar vMst1) * (- #4 * EVar vMt * EPow P2
   (EVar vMgl) + #2 * (#9 - #8 * EVar vlmMst1) * EVar vMt * EPow P2 (EVar vMst1) + #3 * (#3 + #2 * EVar vlmMst1) *
   EVar vMgl * EVar vs2t * EPow P2 (EVar vMst1) - #3 * (#1 + #2 * EVar vlmMgl - #2 * EVar vlmMst1) * EVar vs2t * EPow
   P3 (EVar vMgl)) + (#4 * (#1 + EVar vlmMt) * EVar vMgl * EPow P2 (EVar vMst1) + #8 * (#18 + #26 * EVar vlmMst1 - #13
   * EVar vlmMt - #6 * EVar vlmMst1 * EVar vlmMt + EVar vlmMgl * (- #13 - #6 * EVar vlmMst1 + #6 * EVar vlmMt) + #6 *
   EPow P2 (EVar vlmMst1)) * EPow P3 (EVar vMgl)) * EPow P3 (EVar vMt) + (- ((#3 + #2 * EVar vlmMst1) * EPow P2 (EVar
   vMgl)) + (#1 + #2 * EVar vlmMst1) * EPow P2 (EVar vMst1)) * EPow P3 (EVar vs2t) * EPow P4 (EVar vMst1))) - #20 *
   EVar vx * (EVar vTbeta * ((- #12 * EVar vMgl * (- ((EVar vlmMgl * (#17 + #6 * EVar vlmMst1 - #6 * EVar vlmMt) + #5
   * EVar vlmMt + EVar vlmMst1 * (- #22 + #6 * EVar vlmMt)) * EVar vMt) + (#8 - #25 * EVar vlmMst1 + EVar vlmMgl *
   (#23 + #6 * EVar vlmMst1 - #6 * EVar vlmMt) + #2 * EVar vlmMt + #6 * EVar vlmMst1 * EVar vlmMt) * EVar vMgl * EVar
   vs2t + #6 * (EVar vMt - EVar vMgl * EVar vs2t) * EPow P2 (EVar vlmMst1)) * EPow P2 (EVar vMt) + (#1 - #3 * EVar
   vlmMgl + #3 * EVar vlmMst1) * EPow P2 (EVar vMst1) * (#12 * EVar vMgl * EVar vMt + EVar vs2t * EPow P2 (EVar
   vMst1)) * EPow P2 (EVar vs2t)) * EPow P2 (EVar vSbeta) + EVar vs2t * EPow P2 (EVar vMt) * (#2 * (- #1 + #3 * EVar
   vlmMgl - #3 * EVar vlmMst1) * EPow P2 (EVar vMuSUSY) * (- #1 + EPow P2 (EVar vSbeta)) + #48 * (- #2 - #9 * EVar
   vlmMst1 + EVar vlmMgl * (#7 + #2 * EVar vlmMst1 - #2 * EVar vlmMt) + #2 * EVar vlmMt + #2 * EVar vlmMst1 * EVar
   vlmMt - #2 * EPow P2 (EVar vlmMst1)) * EPow P2 (EVar vMst1) * EPow P2 (EVar vSbeta))) + EVar vMuSUSY * EPow P2
   (EVar vSbeta) * (#6 * (- #1 + #3 * EVar vlmMgl - #3 * EVar vlmMst1) * EVar vMt * EVar vs2t * (#2 * EVar vMgl * EVar
   vMt + EVar vs2t * EPow P2 (EVar vMst1)) + #12 * (EVar vlmMst1 * (#22 - #6 * EVar vlmMt) - #5 * EVar vlmMt + EVar
   vlmMgl * (- #17 - #6 * EVar vlmMst1 + #6 * EVar vlmMt) + #6 * EPow P2 (EVar vlmMst1)) * EPow P3 (EVar vMt))) * EPow
   P5 (EVar vMgl) + EVar vTbeta * EPow P2 (EVar vSbeta) * (#5 * EVar vMt * (#4 * EPow P2 (EVar vMst1) * (#3 * (#1 + #6
   * EVar vlmMst1) * EPow P2 (EVar vMst1) + EVar vlmMst1 * EPow P2 (EVar vMuSUSY)) - EPow P2 (EVar vMgl) * (#12 * (#3
   + #2 * EVar vlmMst1) * EPow P2 (EVar vMst1) + (#1 + #2 * EVar vlmMst1) * EPow P2 (EVar vMuSUSY))) * EPow P2 (EVar
   vs2t) * EPow P4 (EVar vMst1) + #2 * EVar vMgl * EVar vs2t * EPow P2 (EVar vMst1) * EPow P2 (EVar vMt) * (- ((#9 +
   #2 * EVar vlmMst1) * EPow P2 (EVar vMst1) * EPow P2 (EVar vMuSUSY)) + #20 * EPow P2 (EVar vMgl) * ((#1 + #4 * EVar
   vlmMst1 - #2 * (EVar vlmMgl + EVar vlmMt)) * EPow P2 (EVar vMst1) + #4 * (- #1 + EVar vlmMgl - EVar vlmMst1) * EPow
   P2 (EVar vMuSUSY)) + #40 * (#1 + #2 * EVar vlmMt) * EPow P4 (EVar vMst1)) + (#40 * (- #1 + #2 * EVar vlmMst1 + #2 *
   EVar vlmMt) * EPow P3 (EVar vMt) - #20 * ((#2 + EVar vlmMst1) * EVar vMgl * EPow P2 (EVar vMst1) + (#1 - #2 * EVar
   vlmMgl + #2 * EVar vlmMst1) * EPow P3 (EVar vMgl)) * EPow P3 (EVar vs2t)) * EPow P6 (EVar vMst1))) / #5) + EVar
   vthreeLoopFlag * EPow P2 (EVar vAl4p) * (#36 * EVar vxDmsqst1 * EPow P2 (EVar vDmsqst1) * (#480 * EPow P2 (EVar
   vMgl) * EPow P2 (EVar vMt) * (#4 * EVar vMt * EVar vs2t * (- #6 * EVar vMuSUSY + EVar vMgl * EVar vTbeta * (#16 +
   #13 * EVar vlmMst1 + EVar vlmMgl * (#3 + #2 * EVar vlmMst1 - #2 * EVar vlmMt) - #16 * EVar vlmMt + #2 * EVar
   vlmMst1 * EVar vlmMt - #2 * EPow P2 (EVar vlmMst1))) + #3 * (#1 - #19 * EVar vlmMst1 + #19 * EVar vlmMt) * EVar
   vTbeta * EPow P2 (EVar vMt) + #24 * EVar vTbeta * EPow P2 (EVar vMst1) * EPow P2 (EVar vs2t)) * EPow P2 (EVar
   vSbeta) - #320 * EVar vMgl * EVar vMt * (EVar vMuSUSY * EPow P2 (EVar vSbeta) * (#12 * EVar vMt * EPow P2 (EVar
   vMst1) * EPow P2 (EVar vs2t) + (#3 - #57 * EVar vlmMst1 + #57 * EVar vlmMt) * EPow P3 (EVar vMt)) + EVar vTbeta *
   (EVar vs2t * EPow P2 (EVar vMt) * (#4 * EPow P2 (EVar vMuSUSY) * (- #1 + EPow P2 (EVar vSbeta)) + #3 * (#15 + #26 *
   EVar vlmMst1 - #26 * EVar vlmMt) * EPow P2 (EVar vMst1) * EPow P2 (EVar vSbeta)) - #2 * EPow P2 (EVar vSbeta) *
   EPow P3 (EVar vs2t) * EPow P4 (EVar vMst1))) + #5 * EPow P2 (EVar vMst1) * (- #3 * EVar vTbeta * EPow P2 (EVar vMt)
   * EPow P2 (EVar vs2t) * (#2 * (- #21 + #16 * EVar vshiftst2) * EPow P2 (EVar vMuSUSY) * (- #1 + EPow P2 (EVar
   vSbeta)) + (- #147 + #128 * EVar vshiftst1 - #32 * EVar vshiftst2) * EPow P2 (EVar vMst1) * EPow P2 (EVar vSbeta))
   + EPow P2 (EVar vSbeta) * (#144 * EVar vMuSUSY * EVar vs2t * (#23 - #4 * EVar vshiftst2) * EPow P3 (EVar vMt) + #3
   * EVar vMt * EVar vMuSUSY * (#21 - #32 * EVar vshiftst1 + #16 * EVar vshiftst2) * EPow P2 (EVar vMst1) * EPow P3
   (EVar vs2t) + #2 * (- #1469 + #1920 * EVar vlmMst1 - #1920 * EVar vlmMt + #288 * EVar vshiftst2) * EVar vTbeta *
   EPow P4 (EVar vMt) + #24 * (EVar vshiftst1 - EVar vshiftst2) * EVar vTbeta * EPow P4 (EVar vMst1) * EPow P4 (EVar
   vs2t))) / #3) + (- #3 * EVar vMt * EVar vMuSUSY * EPow P2 (EVar vSbeta) * (#640 * EVar vMt * EPow P2 (EVar vMst1) *
   (- #3 * (#227 + #4 * EVar vlmMgl * (#36 - #5 * EVar vlmMst1) - #120 * EVar vlmMst1 + #27 * EPow P2 (EVar vlmMgl) +
   EPow P2 (EVar vlmMst1)) * EPow P2 (EVar vMst1) * EPow P2 (EVar vs2t) + #4 * EPow P2 (EVar vMt) * (#5845 - #2937 *
   EVar vlmMt - #27 * (#16 + EVar vlmMgl + #6 * EVar vlmMst1 - #9 * EVar vlmMt) * EPow P2 (EVar vlmMgl) + (#346 + #183
   * EVar vlmMt) * EPow P2 (EVar vlmMst1) + EVar vlmMst1 * (#4753 - #84 * EVar vlmMt - #72 * EPow P2 (EVar vlmMt)) -
   #156 * EPow P2 (EVar vlmMt) + EVar vlmMgl * (- #783 - #426 * EVar vlmMst1 * (- #1 + EVar vlmMt) - #52 * EVar vlmMt
   + #273 * EPow P2 (EVar vlmMst1) + #72 * EPow P2 (EVar vlmMt)) - #84 * EPow P3 (EVar vlmMst1))) * EPow P3 (EVar
   vMgl) - #8 * (- #40 * EVar vMgl * (#3 * EVar vMt * (#66 + #77 * EVar vlmMst1 + #41 * EPow P2 (EVar vlmMst1)) * EPow
   P2 (EVar vMst1) * EPow P2 (EVar vs2t) + (- #466 - #6 * EVar vlmMst1 + #94 * EVar vlmMt + #4 * EVar vlmMst1 * EVar
   vlmMt + #30 * EPow P2 (EVar vlmMst1) + #48 * EPow P2 (EVar vlmMt)) * EPow P3 (EVar vMt)) - #4 * EPow P2 (EVar vMgl)
   * (#2 * EVar vs2t * (#4113 + #90 * EVar vlmMgl - #1792 * EVar vlmMst1 + #120 * EVar vlmMt - #48 * EPow P2 (EVar
   vlmMst1)) * EPow P2 (EVar vMt) - #5 * (#200 + #18 * EVar vlmMgl + #265 * EVar vlmMst1 + #91 * EPow P2 (EVar
   vlmMst1)) * EPow P2 (EVar vMst1) * EPow P3 (EVar vs2t))) * EPow P4 (EVar vMst1) + #40 * EVar vs2t * ((#2615 - #672
   * EVar vshiftst3 + #8 * EVar vlmMst1 * (#325 + #36 * EVar vshiftst3) - #1312 * EPow P2 (EVar vlmMst1)) * EPow P2
   (EVar vMt) + #2 * (#32 + #120 * EVar vshiftst1 - #60 * EVar vshiftst2 + EVar vlmMst1 * (#230 - #240 * EVar
   vshiftst1 + #120 * EVar vshiftst2 - #42 * EVar vshiftst3) + #39 * EVar vshiftst3 + #82 * EPow P2 (EVar vlmMst1)) *
   EPow P2 (EVar vMst1) * EPow P2 (EVar vs2t)) * EPow P6 (EVar vMst1) + #75 * EVar vDmsqst1 * (- #3072 * EPow P3 (EVar
   vMgl) * ((- #3 + EVar vlmMgl - EVar vlmMst1) * EVar vMt * EPow P2 (EVar vMst1) * EPow P2 (EVar vs2t) + (#31 + #27 *
   EVar vlmMst1 - #24 * EVar vlmMt - #2 * EVar vlmMst1 * EVar vlmMt + EVar vlmMgl * (- #3 - #2 * EVar vlmMst1 + #2 *
   EVar vlmMt) + #2 * EPow P2 (EVar vlmMst1)) * EPow P3 (EVar vMt)) + #249 * EVar vs2t * EPow P2 (EVar vMt) * EPow P4
   (EVar vMst1) + #128 * EVar vMgl * (#16 * (#11 + #20 * EVar vlmMst1 - #20 * EVar vlmMt) * EPow P2 (EVar vMst1) *
   EPow P3 (EVar vMt) - #3 * EVar vMt * EPow P2 (EVar vs2t) * EPow P4 (EVar vMst1)) - #768 * EPow P2 (EVar vMgl) *
   (#60 * EVar vs2t * EPow P2 (EVar vMst1) * EPow P2 (EVar vMt) + EPow P3 (EVar vs2t) * EPow P4 (EVar vMst1)) - #16 *
   (#3 - #24 * EVar vshiftst1 + #12 * EVar vshiftst2 - #8 * EVar vlmMst1 * (#1 - #2 * EVar vshiftst1 + EVar
   vshiftst2)) * EPow P3 (EVar vs2t) * EPow P6 (EVar vMst1))) - EVar vTbeta * (- #64 * EVar vMgl * EPow P2 (EVar
   vMuSUSY) * EPow P3 (EVar vMt) * (#3600 * EVar vDmsqst1 * (#3 - EVar vlmMgl + EVar vlmMst1) * EVar vs2t * EPow P2
   (EVar vMgl) - #18000 * EVar vDmsqst1 * EVar vs2t * EPow P2 (EVar vMst1) + #12 * EVar vMgl * EVar vMt * (#323 - #75
   * EVar vlmMgl + #383 * EVar vlmMst1 - #100 * EVar vlmMt + #32 * EPow P2 (EVar vlmMst1)) * EPow P2 (EVar vMst1) +
   #240 * EVar vs2t * (- #130 + EVar vlmMgl * (#159 - #20 * EVar vlmMst1) - #162 * EVar vlmMst1 + #27 * EPow P2 (EVar
   vlmMgl) + EPow P2 (EVar vlmMst1)) * EPow P2 (EVar vMgl) * EPow P2 (EVar vMst1) + EVar vs2t * (#365 - #1049 * EVar
   vlmMst1 - #123 * EPow P2 (EVar vlmMst1)) * EPow P4 (EVar vMst1)) + #60 * EPow P2 (EVar vMst1) * EPow P2 (EVar vs2t)
   * (- #24 * EPow P2 (EVar vMst1) * (EVar vDmsqst1 * (#3 - #2 * EVar vlmMst1) + (#1 - #2 * EVar vlmMst1) * EPow P2
   (EVar vMst1)) * (EPow P2 (EVar vMt) * (#20 * EVar vshiftst2 * EPow P2 (EVar vMst1) * EPow P2 (EVar vSbeta) + EPow
   P2 (EVar vMuSUSY) * (#3 * EVar vshiftst1 + #2 * EVar vshiftst2 - #2 * EVar vshiftst2 * EPow P2 (EVar vSbeta))) - #5
   * EVar vshiftst2 * EPow P2 (EVar vs2t) * EPow P2 (EVar vSbeta) * EPow P4 (EVar vMst1)) + EPow P2 (EVar vMt) * (#24
   * EVar vshiftst1 * EPow P2 (EVar vMst1) * (EVar vDmsqst1 * (#3 - #2 * EVar vlmMst1) + (#1 - #2 * EVar vlmMst1) *
   EPow P2 (EVar vMst1)) * (#80 * EPow P2 (EVar vMst1) + #3 * EPow P2 (EVar vMuSUSY)) * EPow P2 (EVar vSbeta) - EPow
   P2 (EVar vMuSUSY) * (- #4 * (- #425 + #18 * EVar vlmMgl + #83 * EVar vlmMst1 + #91 * EPow P2 (EVar vlmMst1)) * EPow
   P2 (EVar vMgl) * EPow P2 (EVar vMst1) - #15 * EVar vDmsqst1 * (#384 * EPow P2 (EVar vMgl) + (#1 - #16 * EVar
   vlmMst1) * EPow P2 (EVar vMst1)) + #2 * (- #121 + #176 * EVar vlmMst1 + #164 * EPow P2 (EVar vlmMst1)) * EPow P4
   (EVar vMst1)))) - #144 * EVar vshiftst3 * (#2 * EPow P2 (EVar vMt) * EPow P2 (EVar vs2t) * ((- #29 + #18 * EVar
   vlmMst1) * EPow P2 (EVar vMuSUSY) * (- #1 + EPow P2 (EVar vSbeta)) + #5 * (- #83 + #58 * EVar vlmMst1) * EPow P2
   (EVar vMst1) * EPow P2 (EVar vSbeta)) - #80 * (- #7 + #3 * EVar vlmMst1) * EPow P2 (EVar vSbeta) * EPow P4 (EVar
   vMt) + #5 * (#1 - #2 * EVar vlmMst1) * EPow P2 (EVar vSbeta) * EPow P4 (EVar vMst1) * EPow P4 (EVar vs2t)) * EPow
   P6 (EVar vMst1) + EPow P2 (EVar vSbeta) * (- #480 * EVar vMgl * EVar vMt * EPow P3 (EVar vs2t) * EPow P4 (EVar
   vMst1) * (#360 * EVar vDmsqst1 * EPow P2 (EVar vMst1) + #8 * EPow P2 (EVar vMgl) * (#30 * EVar vDmsqst1 * (#3 -
   EVar vlmMgl + EVar vlmMst1) - (- #11 + EVar vlmMgl * (#154 - #20 * EVar vlmMst1) - #148 * EVar vlmMst1 + #27 * EPow
   P2 (EVar vlmMgl) + EPow P2 (EVar vlmMst1)) * EPow P2 (EVar vMst1)) + #2 * (#215 + #118 * EVar vlmMst1 + #41 * EPow
   P2 (EVar vlmMst1)) * EPow P4 (EVar vMst1)) - #7200 * EVar vshiftst1 * (EVar vDmsqst1 * (#3 - #2 * EVar vlmMst1) *
   EPow P2 (EVar vMst1) + (#1 - #2 * EVar vlmMst1) * EPow P4 (EVar vMst1)) * EPow P4 (EVar vs2t) * EPow P6 (EVar
   vMst1) + EPow P2 (EVar vMst1) * (#8 * (#25 * EVar vDmsqst1 * (- #2592 * (#25 + #47 * EVar vlmMst1 - #47 * EVar
   vlmMt) * EPow P2 (EVar vMgl) + (#907 - #96 * EVar vlmMst1 + #96 * EVar vlmMt) * EPow P2 (EVar vMst1)) + #48 * EPow
   P2 (EVar vMgl) * (#5 * (#1140 + EVar vlmMst1 * (#747 - #32 * EVar vlmMt) - #747 * EVar vlmMt + #16 * EPow P2 (EVar
   vlmMst1)) * EPow P2 (EVar vMst1) + #2 * (#323 - #75 * EVar vlmMgl + #383 * EVar vlmMst1 - #100 * EVar vlmMt + #32 *
   EPow P2 (EVar vlmMst1)) * EPow P2 (EVar vMuSUSY)) + #20 * (#2243 + #2052 * EVar vlmMt - #24 * EVar vlmMst1 * (#129
   + #10 * EVar vlmMt) + #612 * (EPow P2 (EVar vlmMst1) + EPow P2 (EVar vlmMt))) * EPow P4 (EVar vMst1)) * EPow P4
   (EVar vMt) - #120 * EPow P2 (EVar vMt) * EPow P2 (EVar vs2t) * (- #24 * EPow P2 (EVar vMgl) * EPow P2 (EVar vMst1)
   * (#90 * EVar vDmsqst1 + (- #3 + #18 * EVar vlmMgl - #397 * EVar vlmMst1 + #48 * EVar vlmMt - #107 * EPow P2 (EVar
   vlmMst1)) * EPow P2 (EVar vMst1)) + #45 * EVar vDmsqst1 * (#9 - #32 * EVar vlmMst1) * EPow P4 (EVar vMst1) + EPow
   P2 (EVar vMuSUSY) * (#4 * (- #425 + #18 * EVar vlmMgl + #83 * EVar vlmMst1 + #91 * EPow P2 (EVar vlmMst1)) * EPow
   P2 (EVar vMgl) * EPow P2 (EVar vMst1) + #15 * EVar vDmsqst1 * (#384 * EPow P2 (EVar vMgl) + (#1 - #16 * EVar
   vlmMst1) * EPow P2 (EVar vMst1)) - #2 * (- #121 + #176 * EVar vlmMst1 + #164 * EPow P2 (EVar vlmMst1)) * EPow P4
   (EVar vMst1)) / #2 - #12 * (- #119 + #250 * EVar vlmMst1 + #246 * EPow P2 (EVar vlmMst1)) * EPow P6 (EVar vMst1)))
   - #64 * EVar vMgl * EVar vs2t * EPow P3 (EVar vMt) * ((- #365 + #1049 * EVar vlmMst1 + #123 * EPow P2 (EVar
   vlmMst1)) * EPow P2 (EVar vMuSUSY) * EPow P4 (EVar vMst1) + #900 * EVar vDmsqst1 * (#20 * EPow P2 (EVar vMst1) *
   EPow P2 (EVar vMuSUSY) + #4 * EPow P2 (EVar vMgl) * (#3 * (- #67 - #43 * EVar vlmMst1 + EVar vlmMgl * (#5 + #2 *
   EVar vlmMst1 - #2 * EVar vlmMt) + #38 * EVar vlmMt + #2 * EVar vlmMst1 * EVar vlmMt - #2 * EPow P2 (EVar vlmMst1))
   * EPow P2 (EVar vMst1) + (- #3 + EVar vlmMgl - EVar vlmMst1) * EPow P2 (EVar vMuSUSY)) + (#15 + #2 * EVar vlmMst1 -
   #2 * EVar vlmMt) * EPow P4 (EVar vMst1)) + #30 * (EPow P2 (EVar vMgl) * EPow P2 (EVar vMst1) * ((#2722 + #965 *
   EVar vlmMst1 - #6 * (#200 + #23 * EVar vlmMst1) * EVar vlmMt + EVar vlmMgl * (#67 - #258 * EVar vlmMst1 + #178 *
   EVar vlmMt) + #108 * EPow P2 (EVar vlmMgl) + #62 * EPow P2 (EVar vlmMst1) + #48 * EPow P2 (EVar vlmMt)) * EPow P2
   (EVar vMst1) - #8 * (- #130 + EVar vlmMgl * (#159 - #20 * EVar vlmMst1) - #162 * EVar vlmMst1 + #27 * EPow P2 (EVar
   vlmMgl) + EPow P2 (EVar vlmMst1)) * EPow P2 (EVar vMuSUSY)) - (- #223 + #342 * EVar vlmMt + EVar vlmMst1 * (- #442
   + #8 * EVar vlmMt) + #60 * EPow P2 (EVar vlmMst1) + #96 * EPow P2 (EVar vlmMt)) * EPow P6 (EVar vMst1)))))) / #5))
   - #9 * EVar vMt * EVar vthreeLoopFlag * EConst Cz3 * EPow P2 (EVar vAl4p) * (#75 * EVar vDmsqst1 * EPow P2 (EVar
   vMst1) * (#16 * EVar vMt * EPow P2 (EVar vDmst12) * EPow P2 (EVar vMst2) * (#1024 * EVar vMgl * EVar vMt * EPow P2
   (EVar vMst1) * (EVar vMt * EVar vMuSUSY + EVar vs2t * EVar vTbeta * EPow P2 (EVar vMst1)) * EPow P2 (EVar vSbeta) -
   #2048 * EVar vMt * (#3 * EVar vMt * EVar vMuSUSY - #2 * EVar vs2t * EVar vTbeta * EPow P2 (EVar vMst1)) * EPow P2
   (EVar vSbeta) * EPow P3 (EVar vMgl) + #7680 * EVar vTbeta * EVar vxMgl * EPow P2 (EVar vMt) * EPow P2 (EVar vSbeta)
   * EPow P4 (EVar vMgl) - #7 * EVar vs2t * (#7 * EVar vMt * EVar vMuSUSY * EPow P2 (EVar vSbeta) + EVar vs2t * EVar
   vTbeta * (EPow P2 (EVar vMuSUSY) * (- #1 + EPow P2 (EVar vSbeta)) + #4 * EPow P2 (EVar vMst1) * EPow P2 (EVar
   vSbeta))) * EPow P4 (EVar vMst1)) + EVar vxDmst12 * EPow P3 (EVar vDmst12) * (#32768 * (#3 * EVar vMt * EVar
   vMuSUSY - #5 * EVar vs2t * EVar vTbeta * EPow P2 (EVar vMst1)) * EPow P2 (EVar vMt) * EPow P2 (EVar vSbeta) * EPow
   P3 (EVar vMgl) - #65536 * EVar vMgl * EVar vMuSUSY * EPow P2 (EVar vMst1) * EPow P2 (EVar vSbeta) * EPow P3 (EVar
   vMt) + #172032 * EVar vTbeta * EPow P2 (EVar vMgl) * EPow P2 (EVar vMst1) * EPow P2 (EVar vSbeta) * EPow P3 (EVar
   vMt) - #122880 * EVar vTbeta * EVar vxMgl * EPow P2 (EVar vSbeta) * EPow P3 (EVar vMt) * EPow P4 (EVar vMgl) + #7 *
   (#31 * EVar vMuSUSY * EVar vs2t * EPow P2 (EVar vMt) * EPow P2 (EVar vSbeta) + #4 * EVar vMt * EVar vTbeta * EPow
   P2 (EVar vs2t) * (EPow P2 (EVar vMuSUSY) + #2 * EPow P2 (EVar vMst1) * EPow P2 (EVar vSbeta) - EPow P2 (EVar
   vMuSUSY) * EPow P2 (EVar vSbeta)) - #24 * EVar vTbeta * EPow P2 (EVar vSbeta) * EPow P3 (EVar vMt) + #16 * EVar
   vMuSUSY * EPow P2 (EVar vMst1) * EPow P2 (EVar vSbeta) * EPow P3 (EVar vs2t)) * EPow P4 (EVar vMst1)) - #128 * EVar
   vDmst12 * EPow P2 (EVar vMt) * EPow P2 (EVar vSbeta) * (- #256 * (#3 * EVar vMt * EVar vMuSUSY + EVar vs2t * EVar
   vTbeta * EPow P2 (EVar vMst1)) * EPow P3 (EVar vMgl) + #960 * EVar vMt * EVar vTbeta * EVar vxMgl * EPow P4 (EVar
   vMgl) + #7 * EVar vMuSUSY * EVar vs2t * EPow P4 (EVar vMst1) - #128 * EVar vMgl * (#2 * EVar vMt * EVar vMuSUSY *
   EPow P2 (EVar vMst1) + EVar vs2t * EVar vTbeta * EPow P4 (EVar vMst1))) * EPow P4 (EVar vMst2) - #8192 * EVar vMgl
   * EPow P2 (EVar vSbeta) * (- #4 * EVar vMuSUSY * EPow P2 (EVar vMgl) - #2 * EVar vMuSUSY * EPow P2 (EVar vMst1) +
   #5 * EVar vTbeta * EVar vxMgl * EPow P3 (EVar vMgl)) * EPow P3 (EVar vMt) * EPow P6 (EVar vMst2)) + #300 * EVar
   vxDmsqst1 * EPow P2 (EVar vDmsqst1) * (- (EVar vMt * EPow P2 (EVar vDmst12) * EPow P2 (EVar vMst1) * EPow P2 (EVar
   vMst2) * (#2048 * EVar vMgl * EVar vMt * (#3 * EVar vMt * EVar vMuSUSY - EVar vs2t * EVar vTbeta * EPow P2 (EVar
   vMst1)) * EPow P2 (EVar vSbeta) - #9216 * EVar vTbeta * EPow P2 (EVar vMgl) * EPow P2 (EVar vMt) * EPow P2 (EVar
   vSbeta) + EPow P2 (EVar vMst1) * (#14 * EVar vMt * EVar vMuSUSY * EVar vs2t * EPow P2 (EVar vSbeta) + #491 * EVar
   vTbeta * EPow P2 (EVar vMt) * EPow P2 (EVar vSbeta) + #7 * EVar vTbeta * EPow P2 (EVar vs2t) * (#3 * EPow P2 (EVar
   vMuSUSY) * (- #1 + EPow P2 (EVar vSbeta)) + #14 * EPow P2 (EVar vMst1) * EPow P2 (EVar vSbeta))) + #12288 * EVar
   vMt * EVar vs2t * EVar vTbeta * EPow P2 (EVar vSbeta) * EPow P3 (EVar vMgl))) + EVar vxDmst12 * EPow P2 (EVar
   vMst1) * EPow P3 (EVar vDmst12) * (#2048 * EVar vMgl * (#3 * EVar vMt * EVar vMuSUSY - #4 * EVar vs2t * EVar vTbeta
   * EPow P2 (EVar vMst1)) * EPow P2 (EVar vMt) * EPow P2 (EVar vSbeta) + #12288 * EVar vs2t * EVar vTbeta * EPow P2
   (EVar vMt) * EPow P2 (EVar vSbeta) * EPow P3 (EVar vMgl) - #9216 * EVar vTbeta * EPow P2 (EVar vMgl) * EPow P2
   (EVar vSbeta) * EPow P3 (EVar vMt) + EPow P2 (EVar vMst1) * (#224 * EVar vMuSUSY * EVar vs2t * EPow P2 (EVar vMt) *
   EPow P2 (EVar vSbeta) + #7 * EVar vMt * EVar vTbeta * EPow P2 (EVar vs2t) * (#6 * EPow P2 (EVar vMuSUSY) * (- #1 +
   EPow P2 (EVar vSbeta)) + #13 * EPow P2 (EVar vMst1) * EPow P2 (EVar vSbeta)) + #1838 * EVar vTbeta * EPow P2 (EVar
   vSbeta) * EPow P3 (EVar vMt) + #21 * EVar vMuSUSY * EPow P2 (EVar vMst1) * EPow P2 (EVar vSbeta) * EPow P3 (EVar
   vs2t))) + #4 * EVar vDmst12 * EPow P2 (EVar vMst1) * EPow P2 (EVar vMt) * EPow P2 (EVar vSbeta) * (- #2304 * EVar
   vMt * EVar vTbeta * EPow P2 (EVar vMgl) - (#49 * EVar vMuSUSY * EVar vs2t + #214 * EVar vMt * EVar vTbeta) * EPow
   P2 (EVar vMst1) + #512 * EVar vMgl * (#3 * EVar vMt * EVar vMuSUSY + #2 * EVar vs2t * EVar vTbeta * EPow P2 (EVar
   vMst1)) + #3072 * EVar vs2t * EVar vTbeta * EPow P3 (EVar vMgl)) * EPow P4 (EVar vMst2) - #16 * EPow P2 (EVar
   vSbeta) * EPow P3 (EVar vMt) * (- #256 * EVar vMgl * EVar vMuSUSY * EPow P2 (EVar vMst1) + #384 * EVar vTbeta *
   EPow P2 (EVar vMgl) * EPow P2 (EVar vMst1) - #768 * EVar vMuSUSY * EPow P3 (EVar vMgl) + #960 * EVar vTbeta * EVar
   vxMgl * EPow P4 (EVar vMgl) + #43 * EVar vTbeta * EPow P4 (EVar vMst1)) * EPow P6 (EVar vMst2)) - #8 * EPow P2
   (EVar vMst1) * (- #80 * EVar vDmst12 * EPow P2 (EVar vMt) * EPow P4 (EVar vMst2) * (#2 * EVar vMuSUSY * EPow P2
   (EVar vMgl) * EPow P2 (EVar vMst1) * (- #7 * EVar vMt * EVar vMuSUSY * EVar vTbeta + #12 * EVar vs2t * EPow P2
   (EVar vMst1) * EPow P2 (EVar vSbeta)) - #4 * EPow P2 (EVar vMst1) * (- #100 * EVar vMt * EVar vMuSUSY * EPow P2
   (EVar vSbeta) + EVar vs2t * EVar vTbeta * (#81 * EPow P2 (EVar vMuSUSY) * (- #1 + EPow P2 (EVar vSbeta)) + #380 *
   EPow P2 (EVar vMst1) * EPow P2 (EVar vSbeta))) * EPow P3 (EVar vMgl) + #2 * EVar vxMgl * (- #363 * EVar vMt * EVar
   vTbeta * EPow P2 (EVar vMuSUSY) * (- #1 + EPow P2 (EVar vSbeta)) + #2 * (#279 * EVar vMuSUSY * EVar vs2t + #58 *
   EVar vMt * EVar vTbeta) * EPow P2 (EVar vMst1) * EPow P2 (EVar vSbeta)) * EPow P4 (EVar vMgl) + #2 * EVar vMgl *
   (#496 * EVar vMt * EVar vMuSUSY * EPow P2 (EVar vSbeta) + EVar vs2t * EVar vTbeta * (#7 * EPow P2 (EVar vMuSUSY) *
   (- #1 + EPow P2 (EVar vSbeta)) + #32 * EPow P2 (EVar vMst1) * EPow P2 (EVar vSbeta))) * EPow P4 (EVar vMst1) + #93
   * EVar vMuSUSY * EVar vs2t * EPow P2 (EVar vSbeta) * EPow P6 (EVar vMst1)) - #20 * EVar vMt * EPow P2 (EVar
   vDmst12) * EPow P2 (EVar vMst2) * (EVar vTbeta * EPow P2 (EVar vMgl) * EPow P2 (EVar vMst1) * (#7 * EPow P2 (EVar
   vMt) * EPow P2 (EVar vMuSUSY) + #6 * EPow P2 (EVar vMst1) * EPow P2 (EVar vs2t) * (#15 * EPow P2 (EVar vMuSUSY) *
   (- #1 + EPow P2 (EVar vSbeta)) + #8 * EPow P2 (EVar vMst1) * EPow P2 (EVar vSbeta))) + #8 * EPow P2 (EVar vMst1) *
   (#2192 * EVar vMuSUSY * EPow P2 (EVar vMt) * EPow P2 (EVar vSbeta) + #243 * EVar vMuSUSY * EPow P2 (EVar vMst1) *
   EPow P2 (EVar vs2t) * EPow P2 (EVar vSbeta) + #3 * EVar vMt * EVar vs2t * EVar vTbeta * (- #27 * EPow P2 (EVar
   vMuSUSY) * (- #1 + EPow P2 (EVar vSbeta)) + #320 * EPow P2 (EVar vMst1) * EPow P2 (EVar vSbeta))) * EPow P3 (EVar
   vMgl) + #4 * EVar vMgl * (#928 * EVar vMt * EVar vs2t * EVar vTbeta * EPow P2 (EVar vMst1) + #1136 * EVar vMuSUSY *
   EPow P2 (EVar vMt) - #21 * EVar vMuSUSY * EPow P2 (EVar vMst1) * EPow P2 (EVar vs2t)) * EPow P2 (EVar vSbeta) *
   EPow P4 (EVar vMst1) + EVar vxMgl * EPow P4 (EVar vMgl) * (#2904 * EVar vTbeta * EPow P2 (EVar vMt) * EPow P2 (EVar
   vMuSUSY) * (- #1 + EPow P2 (EVar vSbeta)) + EPow P2 (EVar vMst1) * (#777 * EVar vTbeta * EPow P2 (EVar vMuSUSY) *
   EPow P2 (EVar vs2t) * (- #1 + EPow P2 (EVar vSbeta)) + #2232 * EVar vMt * EVar vMuSUSY * EVar vs2t * EPow P2 (EVar
   vSbeta) - #35536 * EVar vTbeta * EPow P2 (EVar vMt) * EPow P2 (EVar vSbeta)) + #2232 * EVar vTbeta * EPow P2 (EVar
   vs2t) * EPow P2 (EVar vSbeta) * EPow P4 (EVar vMst1)) + #6 * EVar vs2t * (- #66 * EVar vMt * EVar vMuSUSY * EPow P2
   (EVar vSbeta) + EVar vs2t * EVar vTbeta * (- #3 * EPow P2 (EVar vMuSUSY) * (- #1 + EPow P2 (EVar vSbeta)) + #31 *
   EPow P2 (EVar vMst1) * EPow P2 (EVar vSbeta))) * EPow P6 (EVar vMst1)) + EVar vxDmst12 * EPow P3 (EVar vDmst12) *
   (#20 * EPow P2 (EVar vMgl) * EPow P2 (EVar vMst1) * (EVar vMt * EPow P2 (EVar vMst1) * (#45 * EVar vTbeta * EPow P2
   (EVar vMuSUSY) * EPow P2 (EVar vs2t) * (- #1 + EPow P2 (EVar vSbeta)) - #14 * EVar vMt * EVar vMuSUSY * EVar vs2t *
   EPow P2 (EVar vSbeta) + #4480 * EVar vTbeta * EPow P2 (EVar vMt) * EPow P2 (EVar vSbeta)) + #42 * EVar vTbeta *
   EPow P2 (EVar vMuSUSY) * (- #1 + EPow P2 (EVar vSbeta)) * EPow P3 (EVar vMt) + #6 * (#15 * EVar vMuSUSY * EVar vs2t
   + #8 * EVar vMt * EVar vTbeta) * EPow P2 (EVar vs2t) * EPow P2 (EVar vSbeta) * EPow P4 (EVar vMst1)) + #20 * EVar
   vxMgl * EPow P4 (EVar vMgl) * (- #2 * EVar vMt * EPow P2 (EVar vMst1) * (- #777 * EVar vTbeta * EPow P2 (EVar
   vMuSUSY) * EPow P2 (EVar vs2t) * (- #1 + EPow P2 (EVar vSbeta)) - #4464 * EVar vMt * EVar vMuSUSY * EVar vs2t *
   EPow P2 (EVar vSbeta) + #35072 * EVar vTbeta * EPow P2 (EVar vMt) * EPow P2 (EVar vSbeta)) + #2904 * EVar vTbeta *
   EPow P2 (EVar vMuSUSY) * (- #1 + EPow P2 (EVar vSbeta)) * EPow P3 (EVar vMt) + #3 * (#259 * EVar vMuSUSY * EVar
   vs2t + #372 * EVar vMt * EVar vTbeta) * EPow P2 (EVar vs2t) * EPow P2 (EVar vSbeta) * EPow P4 (EVar vMst1)) + #16 *
   EVar vMgl * EPow P4 (EVar vMst1) * (- #105 * EVar vMt * EVar vMuSUSY * EPow P2 (EVar vMst1) * EPow P2 (EVar vs2t) *
   EPow P2 (EVar vSbeta) + EVar vs2t * EVar vTbeta * EPow P2 (EVar vMt) * (#3 * EPow P2 (EVar vMuSUSY) * (- #1 + EPow
   P2 (EVar vSbeta)) - #1040 * EPow P2 (EVar vMst1) * EPow P2 (EVar vSbeta)) + #440 * EVar vMuSUSY * EPow P2 (EVar
   vSbeta) * EPow P3 (EVar vMt) + #35 * EVar vTbeta * EPow P2 (EVar vSbeta) * EPow P3 (EVar vs2t) * EPow P4 (EVar
   vMst1)) - #80 * EPow P2 (EVar vMst1) * EPow P3 (EVar vMgl) * (- #243 * EVar vMt * EVar vMuSUSY * EPow P2 (EVar
   vMst1) * EPow P2 (EVar vs2t) * EPow P2 (EVar vSbeta) + #8 * EVar vs2t * EVar vTbeta * EPow P2 (EVar vMt) * (#81 *
   EPow P2 (EVar vMuSUSY) * (- #1 + EPow P2 (EVar vSbeta)) + #308 * EPow P2 (EVar vMst1) * EPow P2 (EVar vSbeta)) -
   #9168 * EVar vMuSUSY * EPow P2 (EVar vSbeta) * EPow P3 (EVar vMt) + #162 * EVar vTbeta * EPow P2 (EVar vSbeta) *
   EPow P3 (EVar vs2t) * EPow P4 (EVar vMst1)) + #15 * (- #85 * EVar vMuSUSY * EVar vs2t * EPow P2 (EVar vMt) * EPow
   P2 (EVar vSbeta) + EVar vMt * EVar vTbeta * EPow P2 (EVar vs2t) * (#11 * EPow P2 (EVar vMuSUSY) * (- #1 + EPow P2
   (EVar vSbeta)) + #512 * EPow P2 (EVar vMst1) * EPow P2 (EVar vSbeta)) - #500 * EVar vTbeta * EPow P2 (EVar vSbeta)
   * EPow P3 (EVar vMt) - #24 * EVar vMuSUSY * EPow P2 (EVar vMst1) * EPow P2 (EVar vSbeta) * EPow P3 (EVar vs2t)) *
   EPow P6 (EVar vMst1)) - #160 * EVar vMgl * EPow P3 (EVar vMt) * (- #7 * EVar vMgl * EVar vTbeta * EPow P2 (EVar
   vMst1) * EPow P2 (EVar vMuSUSY) - #760 * EVar vMuSUSY * EPow P2 (EVar vMgl) * EPow P2 (EVar vMst1) * EPow P2 (EVar
   vSbeta) + #2 * EVar vTbeta * EVar vxMgl * (- #121 * EPow P2 (EVar vMuSUSY) * (- #1 + EPow P2 (EVar vSbeta)) + #658
   * EPow P2 (EVar vMst1) * EPow P2 (EVar vSbeta)) * EPow P3 (EVar vMgl) + #32 * EVar vMuSUSY * EPow P2 (EVar vSbeta)
   * EPow P4 (EVar vMst1)) * EPow P6 (EVar vMst2))) / #2 + EVar vAl4p * (- #720 * EVar vTbeta * EPow P2 (EVar vSbeta)
   * EPow P4 (EVar vMst1) * (#384 * EVar vtwoLoopFlag * EVar vxDmst12 * EVar vxMgl * EConst Cz2 * EPow P3 (EVar
   vDmst12) * EPow P4 (EVar vMgl) - EVar vAl4p * EVar vthreeLoopFlag * EConst Cz3 * EPow P2 (EVar vMst2) * (#8 * EVar
   vDmst12 * EPow P2 (EVar vMst2) * (EPow P2 (EVar vMgl) * (#796 * EPow P2 (EVar vMst1) - #7 * EPow P2 (EVar vMuSUSY))
   + #228 * EPow P4 (EVar vMst1)) + EPow P2 (EVar vDmst12) * (EPow P2 (EVar vMgl) * (#14080 * EPow P2 (EVar vMst1) +
   #7 * EPow P2 (EVar vMuSUSY)) + #1141 * EPow P4 (EVar vMst1)) + #8 * (EPow P2 (EVar vMgl) * (#152 * EPow P2 (EVar
   vMst1) - #7 * EPow P2 (EVar vMuSUSY)) + #2 * (#395 - #12 * EVar vlmMst1 + #12 * EVar vlmMt) * EPow P4 (EVar vMst1))
   * EPow P4 (EVar vMst2) + #15 * EVar vDmsqst1 * (EPow P2 (EVar vDmst12) * (#1920 * EPow P2 (EVar vMgl) + #107 * EPow
   P2 (EVar vMst1)) + #2 * EVar vDmst12 * (#768 * EPow P2 (EVar vMgl) + #107 * EPow P2 (EVar vMst1)) * EPow P2 (EVar
   vMst2) + #256 * (#3 * EPow P2 (EVar vMgl) + EPow P2 (EVar vMst1)) * EPow P4 (EVar vMst2)))) * EPow P4 (EVar vMt) +
   #480 * EVar vxMgl * EPow P4 (EVar vMgl) * (- #3 * EVar vMt * EVar vtwoLoopFlag * EVar vxDmst12 * EPow P3 (EVar
   vDmst12) * (- #2 * (- #1 + #3 * EVar vlmMgl - #3 * EVar vlmMst1) * EVar vMt * EVar vTbeta * EPow P2 (EVar vMuSUSY)
   * EPow P2 (EVar vs2t) * (- #1 + EPow P2 (EVar vSbeta)) + EPow P2 (EVar vSbeta) * (#96 * (#1 - EVar vlmMgl + EVar
   vlmMst1) * EVar vMuSUSY * EVar vs2t * EPow P2 (EVar vMt) - #6 * (#1 + #2 * EVar vlmMgl - #2 * EVar vlmMst1) * EVar
   vMt * EVar vTbeta * EPow P2 (EVar vMst1) * EPow P2 (EVar vs2t) + #48 * (#5 - #2 * EVar vlmMgl * (#2 + EVar vlmMst1
   - EVar vlmMt) + #2 * EVar vlmMst1 * (#4 + EVar vlmMst1 - EVar vlmMt) - #4 * EVar vlmMt) * EVar vTbeta * EPow P3
   (EVar vMt) + (#1 - #3 * EVar vlmMgl + #3 * EVar vlmMst1) * EVar vMuSUSY * EPow P2 (EVar vMst1) * EPow P3 (EVar
   vs2t))) * EPow P4 (EVar vMst1) + EPow P2 (EVar vMst2) * EPow P2 (EVar vMt) * (#3 * EVar vtwoLoopFlag * EPow P4
   (EVar vMst1) * (EVar vs2t * EPow P2 (EVar vDmst12) * (#12 * (#3 - #2 * EVar vlmMgl + #2 * EVar vlmMst1) * EVar vMt
   * EVar vMuSUSY * EPow P2 (EVar vSbeta) + EVar vs2t * EVar vTbeta * (- ((- #1 + #3 * EVar vlmMgl - #3 * EVar
   vlmMst1) * EPow P2 (EVar vMuSUSY) * (- #1 + EPow P2 (EVar vSbeta))) + #12 * (#1 - #2 * EVar vlmMgl + #2 * EVar
   vlmMst1) * EPow P2 (EVar vMst1) * EPow P2 (EVar vSbeta))) + #12 * EVar vMt * EPow P2 (EVar vSbeta) * (#2 * EVar
   vDmst12 * (#1 - #2 * EVar vlmMgl + #2 * EVar vlmMst1) * EVar vMuSUSY * EVar vs2t * EPow P2 (EVar vMst2) + EVar vMt
   * EVar vTbeta * (EPow P2 (EVar vDmst12) * (#8 - #2 * EVar vlmMst1 * (- #5 + EVar vlmMt) - #5 * EVar vlmMt + EVar
   vlmMgl * (- #5 - #2 * EVar vlmMst1 + #2 * EVar vlmMt) + #2 * EPow P2 (EVar vlmMst1)) + #2 * EVar vDmst12 * (#2 - #2
   * EVar vlmMst1 * (- #3 + EVar vlmMt) - #3 * EVar vlmMt + EVar vlmMgl * (- #3 - #2 * EVar vlmMst1 + #2 * EVar vlmMt)
   + #2 * EPow P2 (EVar vlmMst1)) * EPow P2 (EVar vMst2) - #4 * (EVar vlmMgl * (#1 + EVar vlmMst1 - EVar vlmMt) + EVar
   vlmMst1 * (- #2 + EVar vlmMt) + EVar vlmMt - EPow P2 (EVar vlmMst1)) * EPow P4 (EVar vMst2)))) + EVar vAl4p * EVar
   vthreeLoopFlag * EPow P2 (EVar vMst1) * (#864 * EVar vDmst12 * EVar vMt * EVar vMuSUSY * EVar vs2t * (#30 * EVar
   vDmsqst1 * (#29 - #10 * EVar vlmMgl + #10 * EVar vlmMst1) + (#633 + #1458 * EVar vlmMst1 - #96 * (#1 + EVar
   vlmMst1) * EVar vlmMt + #2 * EVar vlmMgl * (- #632 + #99 * EVar vlmMst1 + #48 * EVar vlmMt) - #333 * EPow P2 (EVar
   vlmMgl) + #103 * EPow P2 (EVar vlmMst1)) * EPow P2 (EVar vMst1)) * EPow P2 (EVar vMst2) * EPow P2 (EVar vSbeta) +
   EVar vs2t * EPow P2 (EVar vDmst12) * (#25920 * EVar vDmsqst1 * (- #29 + #10 * EVar vlmMgl - #10 * EVar vlmMst1) *
   EVar vMt * EVar vMuSUSY * EPow P2 (EVar vSbeta) + EVar vs2t * EVar vTbeta * EPow P2 (EVar vMst1) * (#12960 * EVar
   vDmsqst1 * (#29 - #10 * EVar vlmMgl + #10 * EVar vlmMst1) + #432 * (#681 + #1506 * EVar vlmMst1 - #96 * (#1 + EVar
   vlmMst1) * EVar vlmMt + #2 * EVar vlmMgl * (- #656 + #99 * EVar vlmMst1 + #48 * EVar vlmMt) - #333 * EPow P2 (EVar
   vlmMgl) + #103 * EPow P2 (EVar vlmMst1)) * EPow P2 (EVar vMst1) + (#41653 + #11784 * EVar vlmMst1 + #48 * EVar
   vlmMgl * (- #313 + #180 * EVar vlmMst1) - #12636 * EPow P2 (EVar vlmMgl) + #540 * EPow P2 (EVar vlmMst1)) * EPow P2
   (EVar vMuSUSY)) * EPow P2 (EVar vSbeta) + EVar vMuSUSY * EPow P2 (EVar vMst1) * (EVar vMuSUSY * EVar vs2t * EVar
   vTbeta * (- #41653 - #11784 * EVar vlmMst1 - #48 * EVar vlmMgl * (- #313 + #180 * EVar vlmMst1) + #12636 * EPow P2
   (EVar vlmMgl) - #540 * EPow P2 (EVar vlmMst1)) + #432 * EVar vMt * (#2961 + EVar vlmMst1 * (#1964 - #96 * EVar
   vlmMt) - #192 * EVar vlmMt + #2 * EVar vlmMgl * (- #683 + #99 * EVar vlmMst1 + #48 * EVar vlmMt) - #333 * EPow P2
   (EVar vlmMgl) + #103 * EPow P2 (EVar vlmMst1)) * EPow P2 (EVar vSbeta))) + EVar vTbeta * EPow P2 (EVar vMt) * (-
   #576 * EPow P2 (EVar vMuSUSY) * (EVar vDmst12 * (#262 + EVar vlmMst1 * (#335 - #72 * EVar vlmMt) - #96 * EVar vlmMt
   + EVar vlmMgl * (- #199 - #120 * EVar vlmMst1 + #72 * EVar vlmMt) + #120 * EPow P2 (EVar vlmMst1)) * (EVar vDmst12
   - EPow P2 (EVar vMst2)) - #2 * (#59 + #85 * EVar vlmMst1 - EVar vlmMgl * (#53 + #40 * EVar vlmMst1 - #24 * EVar
   vlmMt) - #24 * (#1 + EVar vlmMst1) * EVar vlmMt + #40 * EPow P2 (EVar vlmMst1)) * EPow P4 (EVar vMst2)) - #72 *
   EPow P2 (EVar vSbeta) * (#2 * EPow P2 (EVar vDmst12) * (#90 * EVar vDmsqst1 * (#307 + #4 * EVar vlmMst1 * (#67 - #5
   * EVar vlmMt) - #10 * EVar vlmMgl * (#3 + #2 * EVar vlmMst1 - #2 * EVar vlmMt) - #238 * EVar vlmMt + #20 * EPow P2
   (EVar vlmMst1)) - EPow P2 (EVar vMst1) * (#40279 - #17847 * EVar vlmMt - #6 * (#303 + #108 * EVar vlmMst1 - #203 *
   EVar vlmMt) * EPow P2 (EVar vlmMgl) + (#952 + #870 * EVar vlmMt) * EPow P2 (EVar vlmMst1) + EVar vlmMst1 * (#26599
   + #804 * EVar vlmMt - #288 * EPow P2 (EVar vlmMt)) - #720 * EPow P2 (EVar vlmMt) + #2 * EVar vlmMgl * (- #1474 -
   #977 * EVar vlmMt - #12 * EVar vlmMst1 * (- #118 + #87 * EVar vlmMt) + #615 * EPow P2 (EVar vlmMst1) + #144 * EPow
   P2 (EVar vlmMt)) - #190 * EPow P3 (EVar vlmMgl) - #392 * EPow P3 (EVar vlmMst1))) - #4 * EVar vDmst12 * EPow P2
   (EVar vMst2) * (#45 * EVar vDmsqst1 * (#307 + #4 * EVar vlmMst1 * (#67 - #5 * EVar vlmMt) - #10 * EVar vlmMgl * (#3
   + #2 * EVar vlmMst1 - #2 * EVar vlmMt) - #238 * EVar vlmMt + #20 * EPow P2 (EVar vlmMst1)) + EPow P2 (EVar vMst1) *
   (#13484 - #5541 * EVar vlmMt + #6 * (#324 + #143 * EVar vlmMt) * EPow P2 (EVar vlmMst1) - #6 * EVar vlmMgl * (#666
   + EVar vlmMgl * (#285 + #108 * EVar vlmMst1 - #265 * EVar vlmMt) + #57 * EVar vlmMt + #4 * EVar vlmMst1 * (- #59 +
   #102 * EVar vlmMt) - #203 * EPow P2 (EVar vlmMst1) - #48 * EPow P2 (EVar vlmMt)) - #432 * EPow P2 (EVar vlmMt) - #3
   * EVar vlmMst1 * (- #3979 + #260 * EVar vlmMt + #96 * EPow P2 (EVar vlmMt)) - #314 * EPow P3 (EVar vlmMgl) - #256 *
   EPow P3 (EVar vlmMst1))) + (- #360 * EVar vDmsqst1 * (#69 + EVar vlmMst1 * (#59 - #10 * EVar vlmMt) - #10 * EVar
   vlmMgl * (#1 + EVar vlmMst1 - EVar vlmMt) - #49 * EVar vlmMt + #10 * EPow P2 (EVar vlmMst1)) - #4 * EPow P2 (EVar
   vMst1) * (#6677 - #2742 * EVar vlmMt + #6 * (#313 + #143 * EVar vlmMt) * EPow P2 (EVar vlmMst1) - #6 * EVar vlmMgl
   * (#645 + EVar vlmMgl * (#231 + #108 * EVar vlmMst1 - #265 * EVar vlmMt) - #72 * EVar vlmMt + #12 * EVar vlmMst1 *
   (- #9 + #34 * EVar vlmMt) - #203 * EPow P2 (EVar vlmMst1) - #48 * EPow P2 (EVar vlmMt)) - #288 * EPow P2 (EVar
   vlmMt) - #12 * EVar vlmMst1 * (- #617 + #99 * EVar vlmMt + #24 * EPow P2 (EVar vlmMt)) - #314 * EPow P3 (EVar
   vlmMgl) - #256 * EPow P3 (EVar vlmMst1))) * EPow P4 (EVar vMst2) - #8 * EPow P2 (EVar vMuSUSY) * (EVar vDmst12 *
   (#262 + EVar vlmMst1 * (#335 - #72 * EVar vlmMt) - #96 * EVar vlmMt + EVar vlmMgl * (- #199 - #120 * EVar vlmMst1 +
   #72 * EVar vlmMt) + #120 * EPow P2 (EVar vlmMst1)) * (EVar vDmst12 - EPow P2 (EVar vMst2)) - #2 * (#59 + #85 * EVar
   vlmMst1 - EVar vlmMgl * (#53 + #40 * EVar vlmMst1 - #24 * EVar vlmMt) - #24 * (#1 + EVar vlmMst1) * EVar vlmMt +
   #40 * EPow P2 (EVar vlmMst1)) * EPow P4 (EVar vMst2))))) / #72) + EVar vAl4p * EVar vthreeLoopFlag * (EVar vxDmst12
   * EPow P2 (EVar vMst1) * EPow P3 (EVar vDmst12) * (EVar vMt * EVar vMuSUSY * EVar vs2t * EPow P2 (EVar vSbeta) *
   (#1728 * (#15 * EVar vDmsqst1 * (#29 - #10 * EVar vlmMgl + #10 * EVar vlmMst1) + (- #1797 - #1711 * EVar vlmMst1 +
   EVar vlmMgl * (#1315 - #198 * EVar vlmMst1 - #96 * EVar vlmMt) + #144 * EVar vlmMt + #96 * EVar vlmMst1 * EVar
   vlmMt + #333 * EPow P2 (EVar vlmMgl) - #103 * EPow P2 (EVar vlmMst1)) * EPow P2 (EVar vMst1)) * EPow P2 (EVar vMt)
   + (- #41653 - #11784 * EVar vlmMst1 - #48 * EVar vlmMgl * (- #313 + #180 * EVar vlmMst1) + #12636 * EPow P2 (EVar
   vlmMgl) - #540 * EPow P2 (EVar vlmMst1)) * EPow P2 (EVar vs2t) * EPow P4 (EVar vMst1)) + EVar vTbeta * (#2 * EPow
   P2 (EVar vMuSUSY) * ((#41653 + #11784 * EVar vlmMst1 + #48 * EVar vlmMgl * (- #313 + #180 * EVar vlmMst1) - #12636
   * EPow P2 (EVar vlmMgl) + #540 * EPow P2 (EVar vlmMst1)) * EPow P2 (EVar vMst1) * EPow P2 (EVar vMt) * EPow P2
   (EVar vs2t) + #288 * (#262 + #335 * EVar vlmMst1 - #96 * EVar vlmMt - #72 * EVar vlmMst1 * EVar vlmMt + EVar vlmMgl
   * (- #199 - #120 * EVar vlmMst1 + #72 * EVar vlmMt) + #120 * EPow P2 (EVar vlmMst1)) * EPow P4 (EVar vMt)) + EPow
   P2 (EVar vSbeta) * (- #2 * EPow P2 (EVar vMst1) * EPow P2 (EVar vMt) * (#12960 * EVar vDmsqst1 * (#29 - #10 * EVar
   vlmMgl + #10 * EVar vlmMst1) - #108 * (#1695 + #8 * EVar vlmMst1 * (- #125 + #12 * EVar vlmMt) - #2 * EVar vlmMgl *
   (- #605 + #99 * EVar vlmMst1 + #48 * EVar vlmMt) + #333 * EPow P2 (EVar vlmMgl) - #103 * EPow P2 (EVar vlmMst1)) *
   EPow P2 (EVar vMst1) + (#41653 + #11784 * EVar vlmMst1 + #48 * EVar vlmMgl * (- #313 + #180 * EVar vlmMst1) -
   #12636 * EPow P2 (EVar vlmMgl) + #540 * EPow P2 (EVar vlmMst1)) * EPow P2 (EVar vMuSUSY)) * EPow P2 (EVar vs2t) +
   #288 * (#45 * EVar vDmsqst1 * (#307 + #4 * EVar vlmMst1 * (#67 - #5 * EVar vlmMt) - #10 * EVar vlmMgl * (#3 + #2 *
   EVar vlmMst1 - #2 * EVar vlmMt) - #238 * EVar vlmMt + #20 * EPow P2 (EVar vlmMst1)) - #2 * (#262 + EVar vlmMst1 *
   (#335 - #72 * EVar vlmMt) - #96 * EVar vlmMt + EVar vlmMgl * (- #199 - #120 * EVar vlmMst1 + #72 * EVar vlmMt) +
   #120 * EPow P2 (EVar vlmMst1)) * EPow P2 (EVar vMuSUSY) + EPow P2 (EVar vMst1) * (#72 * (#49 + #18 * EVar vlmMst1 -
   #39 * EVar vlmMt) * EPow P2 (EVar vlmMgl) - #16 * (#181 + #108 * EVar vlmMt) * EPow P2 (EVar vlmMst1) + #8 * EVar
   vlmMgl * (#868 + #287 * EVar vlmMt + #9 * EVar vlmMst1 * (- #59 + #63 * EVar vlmMt) - #306 * EPow P2 (EVar vlmMst1)
   - #72 * EPow P2 (EVar vlmMt)) + #8 * EVar vlmMst1 * (- #4817 - #3 * EVar vlmMt + #72 * EPow P2 (EVar vlmMt)) + #3 *
   (- #17921 + #7796 * EVar vlmMt + #384 * EPow P2 (EVar vlmMt)) + #504 * EPow P3 (EVar vlmMgl) + #648 * EPow P3 (EVar
   vlmMst1))) * EPow P4 (EVar vMt)))) / #72 + #180 * EVar vTbeta * EVar vxDmsqst1 * EPow P2 (EVar vDmsqst1) * (#41 +
   #10 * EVar vlmMgl * (#1 + EVar vlmMst1 - EVar vlmMt) - #81 * EVar vlmMt + EVar vlmMst1 * (#71 + #10 * EVar vlmMt) -
   #10 * EPow P2 (EVar vlmMst1)) * EPow P2 (EVar vSbeta) * EPow P4 (EVar vMt) * EPow P6 (EVar vMst2))) - #96 * EConst
   Cz2 * (EPow P2 (EVar vMst1) * (#1440 * EVar vtwoLoopFlag * EVar vxDmst12 * (#3 * EVar vx * EPow P2 (EVar vMgl) *
   (EVar vMt * (EVar vMuSUSY - EVar vMgl * EVar vTbeta) + EVar vs2t * EVar vTbeta * EPow P2 (EVar vMgl)) - (EVar vMt *
   EVar vMuSUSY + #4 * EVar vs2t * EVar vTbeta * EVar vx * EPow P2 (EVar vMgl)) * EPow P2 (EVar vMst1)) * EPow P2
   (EVar vSbeta) * EPow P3 (EVar vDmst12) * EPow P3 (EVar vMgl) * EPow P3 (EVar vMt) - #5 * EVar vAl4p * EVar
   vthreeLoopFlag * (#45 * EVar vxDmsqst1 * EVar vxDmst12 * EPow P2 (EVar vDmsqst1) * EPow P3 (EVar vDmst12) * (EVar
   vMt * EVar vMuSUSY * EPow P2 (EVar vSbeta) * (- #8 * EVar vs2t * (#9 * EPow P2 (EVar vMgl) - #4 * EPow P2 (EVar
   vMst1)) * EPow P2 (EVar vMt) - #24 * EVar vMgl * EVar vMt * EPow P2 (EVar vMst1) * EPow P2 (EVar vs2t) + #16 * (#17
   + #6 * EVar vlmMst1 - #6 * EVar vlmMt) * EVar vMgl * EPow P3 (EVar vMt) + EPow P3 (EVar vs2t) * EPow P4 (EVar
   vMst1)) + EVar vTbeta * (- #2 * EPow P2 (EVar vMst1) * EPow P2 (EVar vMt) * EPow P2 (EVar vMuSUSY) * EPow P2 (EVar
   vs2t) + #2 * EPow P2 (EVar vMt) * (- #4 * (#3 * (#17 + #6 * EVar vlmMst1 - #6 * EVar vlmMt) * EPow P2 (EVar vMgl) -
   #4 * (#2 + EVar vlmMst1 - EVar vlmMt) * EPow P2 (EVar vMst1)) * EPow P2 (EVar vMt) + #4 * EVar vMgl * EVar vMt *
   EVar vs2t * (#4 * (#25 + #6 * EVar vlmMst1 - #6 * EVar vlmMt) * EPow P2 (EVar vMgl) - #8 * (#7 + #2 * EVar vlmMst1
   - #2 * EVar vlmMt) * EPow P2 (EVar vMst1) - EPow P2 (EVar vMuSUSY)) + EPow P2 (EVar vMst1) * (#36 * EPow P2 (EVar
   vMgl) + #2 * EPow P2 (EVar vMst1) + EPow P2 (EVar vMuSUSY)) * EPow P2 (EVar vs2t)) * EPow P2 (EVar vSbeta) + #4 *
   EVar vMgl * (#2 * EVar vs2t * EPow P2 (EVar vMuSUSY) * EPow P3 (EVar vMt) + EVar vMt * EPow P2 (EVar vSbeta) * EPow
   P3 (EVar vs2t) * EPow P4 (EVar vMst1)))) - EVar vxMgl * EPow P2 (EVar vMst2) * EPow P2 (EVar vMt) * EPow P4 (EVar
   vMgl) * (#9 * EVar vDmst12 * EVar vMt * EVar vMuSUSY * EVar vs2t * (#400 * EVar vDmsqst1 + #16 * (- #194 + #27 *
   EVar vlmMgl - #27 * EVar vlmMst1) * EPow P2 (EVar vMst1) / #3) * EPow P2 (EVar vMst2) * EPow P2 (EVar vSbeta) + #12
   * EVar vs2t * EPow P2 (EVar vDmst12) * (- #150 * EVar vDmsqst1 * (#2 * EVar vMt * EVar vMuSUSY - EVar vs2t * EVar
   vTbeta * EPow P2 (EVar vMst1)) * EPow P2 (EVar vSbeta) + EPow P2 (EVar vMst1) * (#2 * (- #146 + #27 * EVar vlmMgl -
   #27 * EVar vlmMst1) * EVar vMt * EVar vMuSUSY * EPow P2 (EVar vSbeta) + EVar vs2t * EVar vTbeta * ((- #49 + #17 *
   EVar vlmMgl - #17 * EVar vlmMst1) * EPow P2 (EVar vMuSUSY) * (- #1 + EPow P2 (EVar vSbeta)) + #2 * (- #194 + #27 *
   EVar vlmMgl - #27 * EVar vlmMst1) * EPow P2 (EVar vMst1) * EPow P2 (EVar vSbeta)))) + EVar vTbeta * EPow P2 (EVar
   vMt) * (#32 * EPow P2 (EVar vMuSUSY) * (#9 * EVar vDmst12 * (#17 - #4 * EVar vlmMgl + #4 * EVar vlmMst1) * (EVar
   vDmst12 - EPow P2 (EVar vMst2)) + #2 * (- #47 + #12 * EVar vlmMgl - #12 * EVar vlmMst1) * EPow P4 (EVar vMst2)) -
   EPow P2 (EVar vSbeta) * (- #12 * EPow P2 (EVar vDmst12) * ((#2997 + #108 * EVar vlmMgl + #798 * EVar vlmMst1 -
   #1214 * EVar vlmMt) * EPow P2 (EVar vMst1) + #24 * (- #17 + #4 * EVar vlmMgl - #4 * EVar vlmMst1) * EPow P2 (EVar
   vMuSUSY)) + #7200 * EVar vDmsqst1 * (#4 + EVar vlmMst1 - EVar vlmMt) * (#3 * EPow P2 (EVar vDmst12) - #3 * EVar
   vDmst12 * EPow P2 (EVar vMst2) - EPow P4 (EVar vMst2)) + #8 * (EVar vDmst12 * EPow P2 (EVar vMst2) * ((#4265 - #324
   * EVar vlmMgl + #1266 * EVar vlmMst1 + #366 * EVar vlmMt) * EPow P2 (EVar vMst1) + #36 * (- #17 + #4 * EVar vlmMgl
   - #4 * EVar vlmMst1) * EPow P2 (EVar vMuSUSY)) + ((#5207 - #324 * EVar vlmMgl + #1716 * EVar vlmMst1 - #84 * EVar
   vlmMt) * EPow P2 (EVar vMst1) + #8 * (- #47 + #12 * EVar vlmMgl - #12 * EVar vlmMst1) * EPow P2 (EVar vMuSUSY)) *
   EPow P4 (EVar vMst2))))))) + EPow P2 (EVar vMst2) * (#1440 * EVar vtwoLoopFlag * EPow P2 (EVar vSbeta) * EPow P3
   (EVar vMgl) * EPow P3 (EVar vMt) * (EPow P2 (EVar vMst2) * (EVar vDmst12 * EVar vs2t * EVar vTbeta * EPow P2 (EVar
   vMst1) + EVar vMt * EVar vMuSUSY * (EVar vDmst12 + EPow P2 (EVar vMst2))) * EPow P4 (EVar vMst1) + EVar vx * EPow
   P2 (EVar vMgl) * (EVar vDmst12 * EPow P2 (EVar vMst1) * (EVar vDmst12 * (- #3 * EVar vMt * (EVar vMuSUSY - EVar
   vMgl * EVar vTbeta) + EVar vs2t * EVar vTbeta * (- #3 * EPow P2 (EVar vMgl) + EPow P2 (EVar vMst1))) + (#3 * EVar
   vMt * (EVar vMuSUSY - EVar vMgl * EVar vTbeta) + EVar vs2t * EVar vTbeta * (#3 * EPow P2 (EVar vMgl) + #2 * EPow P2
   (EVar vMst1))) * EPow P2 (EVar vMst2)) + EVar vMt * (EVar vMuSUSY - EVar vMgl * EVar vTbeta) * (#3 * EPow P2 (EVar
   vMgl) + #2 * EPow P2 (EVar vMst1)) * EPow P4 (EVar vMst2))) + EVar vAl4p * EVar vthreeLoopFlag * EPow P2 (EVar
   vMst1) * (#15 * EVar vMuSUSY * EPow P2 (EVar vSbeta) * (#4 * EVar vDmst12 * EVar vs2t * EPow P2 (EVar vMst1) * EPow
   P2 (EVar vMt) * (- (EVar vDmst12 * EVar vMgl * EVar vs2t * ((#113 - #90 * EVar vlmMgl + #90 * EVar vlmMst1) * EPow
   P2 (EVar vMgl) * EPow P2 (EVar vMst1) + #30 * EVar vDmsqst1 * (#2 * EPow P2 (EVar vMgl) + EPow P2 (EVar vMst1)) -
   #17 * EPow P4 (EVar vMst1))) + #6 * EVar vMt * (#5 * EVar vDmst12 * (#3 * EPow P2 (EVar vMgl) * EPow P2 (EVar
   vMst1) + #2 * EVar vDmsqst1 * (#6 * EPow P2 (EVar vMgl) + EPow P2 (EVar vMst1)) + EPow P4 (EVar vMst1)) + EPow P2
   (EVar vMst2) * (#30 * EVar vDmsqst1 * EPow P2 (EVar vMgl) + #20 * EVar vDmsqst1 * EPow P2 (EVar vMst1) - #59 * EPow
   P2 (EVar vMgl) * EPow P2 (EVar vMst1) + #10 * EPow P4 (EVar vMst1)))) + #30 * EVar vMt * EVar vs2t * (EVar vDmsqst1
   + EPow P2 (EVar vMst1)) * EPow P4 (EVar vMst1) * (- #8 * EVar vDmst12 * EVar vshiftst2 * EPow P2 (EVar vMst2) *
   EPow P2 (EVar vMt) + (- EVar vshiftst1 + EVar vshiftst2) * EPow P2 (EVar vDmst12) * EPow P2 (EVar vMst1) * EPow P2
   (EVar vs2t) + #8 * (EVar vshiftst1 - EVar vshiftst2) * EPow P2 (EVar vMt) * EPow P4 (EVar vMst2)) - #8 * EVar vMgl
   * (- #180 * EVar vDmsqst1 * (EPow P2 (EVar vDmst12) * (#12 * (#4 + EVar vlmMst1 - EVar vlmMt) * EPow P2 (EVar vMgl)
   + (- #7 - #2 * EVar vlmMst1 + #2 * EVar vlmMt) * EPow P2 (EVar vMst1)) - #2 * EVar vDmst12 * (#6 * (#4 + EVar
   vlmMst1 - EVar vlmMt) * EPow P2 (EVar vMgl) + (#7 + #2 * EVar vlmMst1 - #2 * EVar vlmMt) * EPow P2 (EVar vMst1)) *
   EPow P2 (EVar vMst2) - #2 * (#4 + EVar vlmMst1 - EVar vlmMt) * (#2 * EPow P2 (EVar vMgl) + EPow P2 (EVar vMst1)) *
   EPow P4 (EVar vMst2)) + EPow P2 (EVar vMst1) * (EPow P2 (EVar vDmst12) * ((#3147 + #822 * EVar vlmMst1 - #822 *
   EVar vlmMt) * EPow P2 (EVar vMgl) + (#691 + #216 * EVar vlmMst1 - #216 * EVar vlmMt) * EPow P2 (EVar vMst1)) - #2 *
   EVar vDmst12 * ((#1627 + #234 * EVar vlmMst1 + #174 * EVar vlmMt) * EPow P2 (EVar vMgl) + (- #457 - #87 * EVar
   vlmMst1 + #87 * EVar vlmMt) * EPow P2 (EVar vMst1)) * EPow P2 (EVar vMst2) + #4 * ((- #1070 - #207 * EVar vlmMst1 +
   #3 * EVar vlmMt) * EPow P2 (EVar vMgl) + (#100 - #3 * EVar vlmMst1 + #3 * EVar vlmMt) * EPow P2 (EVar vMst1)) *
   EPow P4 (EVar vMst2))) * EPow P4 (EVar vMt) / #3 + #3 * EVar vMt * EVar vs2t * EVar vshiftst3 * (- (EPow P2 (EVar
   vDmst12) * EPow P2 (EVar vMst1) * EPow P2 (EVar vs2t)) + #8 * EPow P2 (EVar vMt) * (EPow P2 (EVar vDmst12) - EVar
   vDmst12 * EPow P2 (EVar vMst2) + EPow P4 (EVar vMst2))) * EPow P6 (EVar vMst1)) + EVar vTbeta * (EPow P2 (EVar vMt)
   * EPow P2 (EVar vMuSUSY) * (EPow P2 (EVar vMst1) * (#4 * EPow P2 (EVar vMgl) * (#11 * EPow P2 (EVar vDmst12) - #520
   * EPow P2 (EVar vMst2) * (EVar vDmst12 + EPow P2 (EVar vMst2))) * EPow P2 (EVar vMt) + #5 * EPow P2 (EVar vDmst12)
   * EPow P2 (EVar vs2t) * (#274 * EPow P2 (EVar vMgl) * EPow P2 (EVar vMst1) - #90 * EVar vDmsqst1 * (EPow P2 (EVar
   vMgl) + EPow P2 (EVar vMst1)) - #41 * EPow P4 (EVar vMst1))) - #5 * EVar vDmst12 * EVar vMt * EVar vs2t * (#8 *
   EVar vMgl * EPow P2 (EVar vMst2) * ((#113 - #90 * EVar vlmMgl + #90 * EVar vlmMst1) * EPow P2 (EVar vMgl) * EPow P2
   (EVar vMst1) + #30 * EVar vDmsqst1 * (#2 * EPow P2 (EVar vMgl) + EPow P2 (EVar vMst1)) - #17 * EPow P4 (EVar
   vMst1)) + #4 * EVar vDmst12 * ((#263 - #90 * EVar vlmMgl + #90 * EVar vlmMst1) * EPow P2 (EVar vMst1) * EPow P3
   (EVar vMgl) - #120 * EVar vDmsqst1 * (- (EVar vMgl * EPow P2 (EVar vMst1)) + EPow P3 (EVar vMgl)) + #30 * EVar vMgl
   * EPow P4 (EVar vMst1)))) + #150 * (EVar vDmsqst1 + EPow P2 (EVar vMst1)) * EPow P2 (EVar vMt) * EPow P4 (EVar
   vMst1) * (EPow P2 (EVar vDmst12) * EPow P2 (EVar vs2t) * (- ((EVar vshiftst1 + EVar vshiftst2) * EPow P2 (EVar
   vMuSUSY) * (- #1 + EPow P2 (EVar vSbeta))) + #6 * (- #3 * EVar vshiftst1 + EVar vshiftst2) * EPow P2 (EVar vMst1) *
   EPow P2 (EVar vSbeta)) + #2 * EVar vDmst12 * EPow P2 (EVar vMst2) * ((EVar vshiftst1 - EVar vshiftst2) * EPow P2
   (EVar vMuSUSY) * EPow P2 (EVar vs2t) * (- #1 + EPow P2 (EVar vSbeta)) + #12 * (EVar vshiftst2 * EPow P2 (EVar vMt)
   + (EVar vshiftst1 - EVar vshiftst2) * EPow P2 (EVar vMst1) * EPow P2 (EVar vs2t)) * EPow P2 (EVar vSbeta)) + #24 *
   (EVar vshiftst1 + EVar vshiftst2) * EPow P2 (EVar vMt) * EPow P2 (EVar vSbeta) * EPow P4 (EVar vMst2)) + #15 * EVar
   vshiftst3 * (- (EVar vDmst12 * EPow P2 (EVar vMt) * EPow P2 (EVar vs2t) * ((#3 * EVar vDmst12 - #2 * EPow P2 (EVar
   vMst2)) * EPow P2 (EVar vMuSUSY) * (- #1 + EPow P2 (EVar vSbeta)) + #6 * EPow P2 (EVar vMst1) * (#7 * EVar vDmst12
   - #4 * EPow P2 (EVar vMst2)) * EPow P2 (EVar vSbeta))) + #24 * EPow P2 (EVar vSbeta) * (EPow P2 (EVar vDmst12) -
   EVar vDmst12 * EPow P2 (EVar vMst2) + EPow P4 (EVar vMst2)) * EPow P4 (EVar vMt)) * EPow P6 (EVar vMst1) + EPow P2
   (EVar vSbeta) * (- #5 * EVar vDmst12 * EVar vs2t * EPow P3 (EVar vMt) * (EVar vMgl * EPow P2 (EVar vMst1) * (#8 *
   EVar vDmst12 * (#18 * (#67 + #20 * EVar vlmMst1 - #20 * EVar vlmMt) * EPow P2 (EVar vMgl) * EPow P2 (EVar vMst1) +
   #180 * EVar vDmsqst1 * (#4 * (#9 + #2 * EVar vlmMst1 - #2 * EVar vlmMt) * EPow P2 (EVar vMgl) + (#7 + #2 * EVar
   vlmMst1 - #2 * EVar vlmMt) * EPow P2 (EVar vMst1)) + (#607 + #186 * EVar vlmMst1 - #186 * EVar vlmMt) * EPow P4
   (EVar vMst1)) - #16 * EPow P2 (EVar vMst2) * ((#2143 + #414 * EVar vlmMst1 - #6 * EVar vlmMt) * EPow P2 (EVar vMgl)
   * EPow P2 (EVar vMst1) - #90 * EVar vDmsqst1 * (#9 + #2 * EVar vlmMst1 - #2 * EVar vlmMt) * (#2 * EPow P2 (EVar
   vMgl) + EPow P2 (EVar vMst1)) + (- #197 + #6 * EVar vlmMst1 - #6 * EVar vlmMt) * EPow P4 (EVar vMst1))) - EPow P2
   (EVar vMuSUSY) * (#8 * EVar vMgl * EPow P2 (EVar vMst2) * ((#113 - #90 * EVar vlmMgl + #90 * EVar vlmMst1) * EPow
   P2 (EVar vMgl) * EPow P2 (EVar vMst1) + #30 * EVar vDmsqst1 * (#2 * EPow P2 (EVar vMgl) + EPow P2 (EVar vMst1)) -
   #17 * EPow P4 (EVar vMst1)) + #4 * EVar vDmst12 * ((#263 - #90 * EVar vlmMgl + #90 * EVar vlmMst1) * EPow P2 (EVar
   vMst1) * EPow P3 (EVar vMgl) - #120 * EVar vDmsqst1 * (- (EVar vMgl * EPow P2 (EVar vMst1)) + EPow P3 (EVar vMgl))
   + #30 * EVar vMgl * EPow P4 (EVar vMst1)))) + EPow P2 (EVar vMst1) * ((#4 * EPow P2 (EVar vDmst12) * (EPow P2 (EVar
   vMgl) * (#40 * (#613 + #165 * EVar vlmMst1 - #165 * EVar vlmMt) * EPow P2 (EVar vMst1) - #11 * EPow P2 (EVar
   vMuSUSY)) + #230 * (#5 + #3 * EVar vlmMst1 - #3 * EVar vlmMt) * EPow P4 (EVar vMst1)) + #80 * EVar vDmst12 * EPow
   P2 (EVar vMst2) * (EPow P2 (EVar vMgl) * ((#679 + #150 * EVar vlmMst1 - #150 * EVar vlmMt) * EPow P2 (EVar vMst1) +
   #26 * EPow P2 (EVar vMuSUSY)) + #45 * (#2 + EVar vlmMst1 - EVar vlmMt) * EPow P4 (EVar vMst1)) + #40 * (EPow P2
   (EVar vMgl) * ((#496 + #60 * EVar vlmMst1 - #60 * EVar vlmMt) * EPow P2 (EVar vMst1) + #52 * EPow P2 (EVar
   vMuSUSY)) + (#223 + #180 * EVar vlmMst1 - #180 * EVar vlmMt) * EPow P4 (EVar vMst1)) * EPow P4 (EVar vMst2) + #1800
   * EVar vDmsqst1 * (EPow P2 (EVar vDmst12) * (#15 * (#7 + #2 * EVar vlmMst1 - #2 * EVar vlmMt) * EPow P2 (EVar vMgl)
   + (#5 + #2 * EVar vlmMst1 - #2 * EVar vlmMt) * EPow P2 (EVar vMst1)) + #2 * EVar vDmst12 * (#6 * (#7 + #2 * EVar
   vlmMst1 - #2 * EVar vlmMt) * EPow P2 (EVar vMgl) + (#3 + #2 * EVar vlmMst1 - #2 * EVar vlmMt) * EPow P2 (EVar
   vMst1)) * EPow P2 (EVar vMst2) + #4 * (#3 * (#4 + EVar vlmMst1 - EVar vlmMt) * EPow P2 (EVar vMgl) + (#1 + EVar
   vlmMst1 - EVar vlmMt) * EPow P2 (EVar vMst1)) * EPow P4 (EVar vMst2))) * EPow P4 (EVar vMt) + #5 * EPow P2 (EVar
   vDmst12) * EPow P2 (EVar vMt) * EPow P2 (EVar vs2t) * (#36 * EPow P2 (EVar vMgl) * (#30 * EVar vDmsqst1 - #59 *
   EPow P2 (EVar vMst1)) * EPow P2 (EVar vMst1) - EPow P2 (EVar vMuSUSY) * (#274 * EPow P2 (EVar vMgl) * EPow P2 (EVar
   vMst1) - #90 * EVar vDmsqst1 * (EPow P2 (EVar vMgl) + EPow P2 (EVar vMst1)) - #41 * EPow P4 (EVar vMst1)) + #720 *
   EVar vDmsqst1 * EPow P4 (EVar vMst1) + #360 * EPow P6 (EVar vMst1))))))) + EVar vAl4p * EVar vthreeLoopFlag * (-
   #45 * EVar vxDmsqst1 * EPow P2 (EVar vDmsqst1) * EPow P2 (EVar vMst2) * EPow P2 (EVar vMt) * (EVar vTbeta * EPow P2
   (EVar vMst1) * (#5 * EVar vDmst12 * EVar vs2t * ((EVar vDmst12 * EVar vs2t * EPow P2 (EVar vMst1) + #8 * EVar vMgl
   * EVar vMt * EPow P2 (EVar vMst2)) * EPow P2 (EVar vMuSUSY) - EVar vDmst12 * (#8 * EVar vMgl * EVar vMt * EPow P2
   (EVar vMuSUSY) + EVar vs2t * EPow P2 (EVar vMst1) * (#36 * EPow P2 (EVar vMgl) + #8 * EPow P2 (EVar vMst1) + EPow
   P2 (EVar vMuSUSY)) * EPow P2 (EVar vSbeta))) + #20 * EVar vMt * EPow P2 (EVar vSbeta) * (EPow P2 (EVar vDmst12) *
   (#6 * (#17 + #6 * EVar vlmMst1 - #6 * EVar vlmMt) * EVar vMt * EPow P2 (EVar vMgl) + (- #5 - #2 * EVar vlmMst1 + #2
   * EVar vlmMt) * EVar vMt * EPow P2 (EVar vMst1) + #2 * EVar vMgl * EVar vs2t * (#4 * (#4 + EVar vlmMst1 - EVar
   vlmMt) * EPow P2 (EVar vMst1) + EPow P2 (EVar vMuSUSY)) - #8 * (#25 + #6 * EVar vlmMst1 - #6 * EVar vlmMt) * EVar
   vs2t * EPow P3 (EVar vMgl)) + #2 * EVar vDmst12 * EPow P2 (EVar vMst2) * (- #3 * (#17 + #6 * EVar vlmMst1 - #6 *
   EVar vlmMt) * EVar vMt * EPow P2 (EVar vMgl) + (- #3 - #2 * EVar vlmMst1 + #2 * EVar vlmMt) * EVar vMt * EPow P2
   (EVar vMst1) + EVar vMgl * EVar vs2t * (#8 * (#3 + EVar vlmMst1 - EVar vlmMt) * EPow P2 (EVar vMst1) - EPow P2
   (EVar vMuSUSY)) + #4 * (#25 + #6 * EVar vlmMst1 - #6 * EVar vlmMt) * EVar vs2t * EPow P3 (EVar vMgl)) - #4 * EVar
   vMt * (#3 * (#5 + #2 * EVar vlmMst1 - #2 * EVar vlmMt) * EPow P2 (EVar vMgl) + (#1 + EVar vlmMst1 - EVar vlmMt) *
   EPow P2 (EVar vMst1)) * EPow P4 (EVar vMst2))) + EVar vMuSUSY * EPow P2 (EVar vSbeta) * (- #40 * EVar vDmst12 *
   EVar vMt * EVar vs2t * EPow P2 (EVar vMst1) * (EVar vDmst12 * (- #9 * EPow P2 (EVar vMgl) + EPow P2 (EVar vMst1)) +
   (#9 * EPow P2 (EVar vMgl) + #2 * EPow P2 (EVar vMst1)) * EPow P2 (EVar vMst2)) + #60 * EVar vMgl * EPow P2 (EVar
   vDmst12) * EPow P2 (EVar vs2t) * EPow P4 (EVar vMst1) + EPow P2 (EVar vMt) * (#320 * (#11 + #3 * EVar vlmMst1 - #3
   * EVar vlmMt) * EPow P3 (EVar vMgl) * EPow P4 (EVar vMst2) - #80 * EVar vMgl * EPow P2 (EVar vMst1) * (EVar vDmst12
   * (#17 + #6 * EVar vlmMst1 - #6 * EVar vlmMt) * (EVar vDmst12 - EPow P2 (EVar vMst2)) - #2 * (#5 + #2 * EVar
   vlmMst1 - #2 * EVar vlmMt) * EPow P4 (EVar vMst2))))) + EVar vxDmst12 * EPow P2 (EVar vMst1) * EPow P3 (EVar
   vDmst12) * (EVar vMuSUSY * EPow P2 (EVar vSbeta) * (#2 * EVar vs2t * EPow P2 (EVar vMst1) * EPow P2 (EVar vMt) *
   (#900 * EVar vDmsqst1 * EVar vMgl * (- #30 * EVar vMgl * EVar vMt + #4 * EVar vs2t * EPow P2 (EVar vMgl) - EVar
   vs2t * EPow P2 (EVar vMst1)) + EPow P2 (EVar vMst1) * (#4556 * EVar vMt * EPow P2 (EVar vMgl) + #320 * EVar vMt *
   EPow P2 (EVar vMst1) - #960 * EVar vMgl * EVar vs2t * EPow P2 (EVar vMst1) - #15 * (#37 + #90 * EVar vlmMgl - #90 *
   EVar vlmMst1) * EVar vs2t * EPow P3 (EVar vMgl))) + #5 * EVar vMt * EPow P3 (EVar vs2t) * EPow P4 (EVar vMst1) *
   (#274 * EPow P2 (EVar vMgl) * EPow P2 (EVar vMst1) - #30 * EVar vDmsqst1 * (#3 * EPow P2 (EVar vMgl) + (#3 - #4 *
   EVar vshiftst1 + #2 * EVar vshiftst2) * EPow P2 (EVar vMst1)) + (- #41 + #120 * EVar vshiftst1 - #60 * EVar
   vshiftst2) * EPow P4 (EVar vMst1)) + #80 * EVar vMgl * (#4 * (#380 + #147 * EVar vlmMst1 - #249 * EVar vlmMt) *
   EPow P2 (EVar vMgl) * EPow P2 (EVar vMst1) - #360 * EVar vDmsqst1 * (#3 * (#4 + EVar vlmMst1 - EVar vlmMt) * EPow
   P2 (EVar vMgl) + (- #7 - #2 * EVar vlmMst1 + #2 * EVar vlmMt) * EPow P2 (EVar vMst1)) + (- #16 + #9 * EVar vlmMst1
   - #9 * EVar vlmMt) * EPow P4 (EVar vMst1)) * EPow P4 (EVar vMt) + #15 * EVar vshiftst3 * (- #24 * EVar vs2t * EPow
   P3 (EVar vMt) + #7 * EVar vMt * EPow P2 (EVar vMst1) * EPow P3 (EVar vs2t)) * EPow P6 (EVar vMst1)) + EVar vTbeta *
   (- #30 * (EVar vDmsqst1 + EPow P2 (EVar vMst1)) * EPow P2 (EVar vs2t) * EPow P4 (EVar vMst1) * (EPow P2 (EVar vMt)
   * (#20 * EVar vshiftst2 * EPow P2 (EVar vMst1) * EPow P2 (EVar vSbeta) + EPow P2 (EVar vMuSUSY) * (#3 * EVar
   vshiftst1 + #2 * EVar vshiftst2 - #2 * EVar vshiftst2 * EPow P2 (EVar vSbeta))) - #5 * EVar vshiftst2 * EPow P2
   (EVar vs2t) * EPow P2 (EVar vSbeta) * EPow P4 (EVar vMst1)) - #3 * EVar vshiftst3 * (- #2 * EPow P2 (EVar vMt) *
   EPow P2 (EVar vs2t) * (#9 * EPow P2 (EVar vMuSUSY) * (- #1 + EPow P2 (EVar vSbeta)) + #145 * EPow P2 (EVar vMst1) *
   EPow P2 (EVar vSbeta)) + #5 * EPow P2 (EVar vSbeta) * (#24 * EPow P4 (EVar vMt) + EPow P4 (EVar vMst1) * EPow P4
   (EVar vs2t))) * EPow P6 (EVar vMst1) + #2 * EPow P2 (EVar vMt) * EPow P2 (EVar vMuSUSY) * (#6 * EVar vMgl * EVar
   vMt * EVar vs2t * (#500 * EVar vDmsqst1 - #79 * EPow P2 (EVar vMst1)) * EPow P2 (EVar vMst1) + EPow P2 (EVar vMgl)
   * EPow P2 (EVar vMst1) * (#996 * EPow P2 (EVar vMt) + #5 * (#90 * EVar vDmsqst1 - #91 * EPow P2 (EVar vMst1)) *
   EPow P2 (EVar vs2t)) - #80 * EVar vMt * EVar vs2t * (#15 * EVar vDmsqst1 + (- #94 + #45 * EVar vlmMgl - #45 * EVar
   vlmMst1) * EPow P2 (EVar vMst1)) * EPow P3 (EVar vMgl) - #10 * EPow P2 (EVar vs2t) * EPow P6 (EVar vMst1)) + EPow
   P2 (EVar vSbeta) * (#10 * EPow P2 (EVar vs2t) * EPow P4 (EVar vMst1) * (- #2 * EVar vMgl * EVar vMt * EVar vs2t *
   ((#113 - #90 * EVar vlmMgl + #90 * EVar vlmMst1) * EPow P2 (EVar vMgl) * EPow P2 (EVar vMst1) + #30 * EVar vDmsqst1
   * (#2 * EPow P2 (EVar vMgl) + EPow P2 (EVar vMst1)) - #17 * EPow P4 (EVar vMst1)) + #3 * EVar vshiftst1 * (EVar
   vDmsqst1 + EPow P2 (EVar vMst1)) * (EPow P2 (EVar vMt) * (#80 * EPow P2 (EVar vMst1) + #3 * EPow P2 (EVar vMuSUSY))
   - #5 * EPow P2 (EVar vs2t) * EPow P4 (EVar vMst1))) - #3 * EVar vs2t * EPow P3 (EVar vMt) * (#80 * EPow P2 (EVar
   vMst1) * (#21 * (#56 + #11 * EVar vlmMst1 - #11 * EVar vlmMt) * EPow P2 (EVar vMst1) + #2 * (#94 - #45 * EVar
   vlmMgl + #45 * EVar vlmMst1) * EPow P2 (EVar vMuSUSY)) * EPow P3 (EVar vMgl) / #3 + EVar vMgl * (- #316 * EPow P2
   (EVar vMuSUSY) * EPow P4 (EVar vMst1) + #400 * EVar vDmsqst1 * (#5 * EPow P2 (EVar vMst1) * EPow P2 (EVar vMuSUSY)
   - #2 * EPow P2 (EVar vMgl) * (#30 * (#9 + #2 * EVar vlmMst1 - #2 * EVar vlmMt) * EPow P2 (EVar vMst1) + EPow P2
   (EVar vMuSUSY)) + #6 * EPow P4 (EVar vMst1)) + #80 * (#32 + #5 * EVar vlmMst1 - #5 * EVar vlmMt) * EPow P6 (EVar
   vMst1))) + EPow P2 (EVar vMst1) * (#8 * (- #150 * EVar vDmsqst1 * (#63 * (#7 + #2 * EVar vlmMst1 - #2 * EVar vlmMt)
   * EPow P2 (EVar vMgl) - EPow P2 (EVar vMst1)) + EPow P2 (EVar vMgl) * (#5 * (#929 + #210 * EVar vlmMst1 - #210 *
   EVar vlmMt) * EPow P2 (EVar vMst1) - #249 * EPow P2 (EVar vMuSUSY)) + #5 * (#17 - #24 * EVar vlmMst1 + #24 * EVar
   vlmMt) * EPow P4 (EVar vMst1)) * EPow P4 (EVar vMt) - #10 * EPow P2 (EVar vMt) * EPow P2 (EVar vs2t) * (- #2 * EPow
   P2 (EVar vMuSUSY) * EPow P4 (EVar vMst1) - EPow P2 (EVar vMgl) * (#91 * EPow P2 (EVar vMst1) * EPow P2 (EVar
   vMuSUSY) + #1332 * EPow P4 (EVar vMst1)) + #90 * (EVar vDmsqst1 * EPow P2 (EVar vMgl) * (- #6 * EPow P2 (EVar
   vMst1) + EPow P2 (EVar vMuSUSY)) + #2 * EVar vDmsqst1 * EPow P4 (EVar vMst1) + EPow P6 (EVar vMst1)))))))) - #45 *
   EVar vxMgl * EPow P4 (EVar vMgl) * (#16 * EVar vTbeta * EVar vtwoLoopFlag * EPow P2 (EVar vMst2) * EPow P2 (EVar
   vSbeta) * EPow P4 (EVar vMst1) * (EPow P2 (EVar vDmst12) + #2 * EVar vDmst12 * EPow P2 (EVar vMst2) + #2 * EPow P4
   (EVar vMst2)) * EPow P4 (EVar vMt) + #4 * EVar vAl4p * EVar vMt * EVar vthreeLoopFlag * (EVar vxDmst12 * EPow P2
   (EVar vMst1) * EPow P3 (EVar vDmst12) * (- #2 * EVar vMt * EPow P2 (EVar vMst1) * (- #3 * (- #49 + #17 * EVar
   vlmMgl - #17 * EVar vlmMst1) * EVar vTbeta * EPow P2 (EVar vMuSUSY) * EPow P2 (EVar vs2t) * (- #1 + EPow P2 (EVar
   vSbeta)) + #2 * EVar vMt * (#6 * (#170 - #27 * EVar vlmMgl + #27 * EVar vlmMst1) * EVar vMuSUSY * EVar vs2t -
   (#2363 + #324 * EVar vlmMgl + #564 * EVar vlmMst1 - #2004 * EVar vlmMt) * EVar vMt * EVar vTbeta) * EPow P2 (EVar
   vSbeta)) + #72 * (- #17 + #4 * EVar vlmMgl - #4 * EVar vlmMst1) * EVar vTbeta * EPow P2 (EVar vMuSUSY) * (- #1 +
   EPow P2 (EVar vSbeta)) * EPow P3 (EVar vMt) + EPow P2 (EVar vSbeta) * (- #900 * EVar vDmsqst1 * EVar vMt * (EVar
   vMt * EVar vMuSUSY * EVar vs2t + #6 * (#4 + EVar vlmMst1 - EVar vlmMt) * EVar vTbeta * EPow P2 (EVar vMt) - EVar
   vTbeta * EPow P2 (EVar vMst1) * EPow P2 (EVar vs2t)) - #3 * ((#49 - #17 * EVar vlmMgl + #17 * EVar vlmMst1) * EVar
   vMuSUSY * EVar vs2t + (#242 - #27 * EVar vlmMgl + #27 * EVar vlmMst1) * EVar vMt * EVar vTbeta) * EPow P2 (EVar
   vs2t) * EPow P4 (EVar vMst1))) - #900 * (#11 + #3 * EVar vlmMst1 - #3 * EVar vlmMt) * EVar vTbeta * EVar vxDmsqst1
   * EPow P2 (EVar vDmsqst1) * EPow P2 (EVar vSbeta) * EPow P3 (EVar vMt) * EPow P6 (EVar vMst2)) / #9))) + EPow P2
   (EVar vMst2) * (#90 * EPow P2 (EVar vMt) * (- #16 * EVar vAl4p * EVar vtwoLoopFlag * (EVar vTbeta * EPow P4 (EVar
   vMst1) * (EVar vs2t * EPow P2 (EVar vDmst12) * (EVar vs2t * EPow P2 (EVar vMst1) * ((#1 + #2 * EVar vlmMst1) * EPow
   P2 (EVar vMst1) * (#12 * EPow P2 (EVar vMst1) + EPow P2 (EVar vMuSUSY)) - EPow P2 (EVar vMgl) * (#12 * (#2 + EVar
   vlmMst1) * EPow P2 (EVar vMst1) + (#3 + #2 * EVar vlmMst1) * EPow P2 (EVar vMuSUSY))) * EPow P2 (EVar vSbeta) +
   EVar vMt * EPow P2 (EVar vMuSUSY) * (#2 * EVar vMgl * EPow P2 (EVar vMst1) + (#6 - #4 * EVar vlmMgl + #4 * EVar
   vlmMst1) * EPow P3 (EVar vMgl))) + EVar vMt * EPow P2 (EVar vSbeta) * (EVar vDmst12 * EVar vs2t * (- (EPow P2 (EVar
   vMuSUSY) * (#4 * EVar vMgl * ((#1 - #2 * EVar vlmMgl + #2 * EVar vlmMst1) * EPow P2 (EVar vMgl) + (#2 + EVar
   vlmMst1) * EPow P2 (EVar vMst1)) * EPow P2 (EVar vMst2) + EVar vDmst12 * (#2 * EVar vMgl * EPow P2 (EVar vMst1) +
   (#6 - #4 * EVar vlmMgl + #4 * EVar vlmMst1) * EPow P3 (EVar vMgl)))) + EPow P2 (EVar vMst1) * (#12 * EVar vDmst12 *
   ((#1 + #2 * EVar vlmMt) * EVar vMgl * EPow P2 (EVar vMst1) + (#5 + #4 * EVar vlmMst1 - #2 * (EVar vlmMgl + EVar
   vlmMt)) * EPow P3 (EVar vMgl)) + #24 * EPow P2 (EVar vMst2) * (- ((#1 + #2 * EVar vlmMt) * EVar vMgl * EPow P2
   (EVar vMst1)) + (#1 + #5 * EVar vlmMst1 - EVar vlmMgl * (#3 + #2 * EVar vlmMst1 - #2 * EVar vlmMt) - #2 * (#1 +
   EVar vlmMst1) * EVar vlmMt + #2 * EPow P2 (EVar vlmMst1)) * EPow P3 (EVar vMgl)))) + #12 * EVar vMt * EPow P2 (EVar
   vMst1) * ((EVar vlmMst1 + EVar vlmMt) * EPow P2 (EVar vDmst12) * EPow P2 (EVar vMst1) + #2 * EVar vDmst12 * ((#1 +
   EVar vlmMt) * EPow P2 (EVar vMgl) - (#1 + EVar vlmMst1 + EVar vlmMt) * EPow P2 (EVar vMst1)) * EPow P2 (EVar vMst2)
   + #2 * (#2 * (#1 + EVar vlmMt) * EPow P2 (EVar vMgl) - (#2 + #2 * EVar vlmMst1 * (#1 + EVar vlmMt) + EPow P2 (EVar
   vlmMst1) - #3 * EPow P2 (EVar vlmMt)) * EPow P2 (EVar vMst1)) * EPow P4 (EVar vMst2)))) + EVar vMuSUSY * EPow P4
   (EVar vMst1) * (EVar vDmst12 * EVar vMuSUSY * EVar vs2t * EVar vTbeta * (EVar vDmst12 * EVar vs2t * EPow P2 (EVar
   vMst1) * ((#3 + #2 * EVar vlmMst1) * EPow P2 (EVar vMgl) - (#1 + #2 * EVar vlmMst1) * EPow P2 (EVar vMst1)) + #4 *
   EVar vMgl * EVar vMt * ((#1 - #2 * EVar vlmMgl + #2 * EVar vlmMst1) * EPow P2 (EVar vMgl) + (#2 + EVar vlmMst1) *
   EPow P2 (EVar vMst1)) * EPow P2 (EVar vMst2)) + EPow P2 (EVar vSbeta) * (#3 * EVar vDmst12 * EVar vs2t * EPow P2
   (EVar vMst1) * (#8 * EVar vMt * (- ((#2 + EVar vlmMst1) * EPow P2 (EVar vMgl)) + (#1 + #2 * EVar vlmMst1) * EPow P2
   (EVar vMst1)) * EPow P2 (EVar vMst2) + #2 * EVar vDmst12 * (- #2 * EVar vMt * EPow P2 (EVar vMgl) + #2 * (#1 - #2 *
   EVar vlmMst1) * EVar vMt * EPow P2 (EVar vMst1) + (#2 + EVar vlmMst1) * EVar vMgl * EVar vs2t * EPow P2 (EVar
   vMst1) + (#1 - #2 * EVar vlmMgl + #2 * EVar vlmMst1) * EVar vs2t * EPow P3 (EVar vMgl))) + EPow P2 (EVar vMt) *
   (EPow P2 (EVar vDmst12) * (#8 * (#1 + EVar vlmMt) * EVar vMgl * EPow P2 (EVar vMst1) - #16 * (- #3 + EVar vlmMgl -
   #2 * EVar vlmMst1 + EVar vlmMt) * EPow P3 (EVar vMgl)) + #3 * EVar vDmst12 * EPow P2 (EVar vMst2) * (- #8 * (#1 +
   EVar vlmMt) * EVar vMgl * EPow P2 (EVar vMst1) + #8 * (#2 + #6 * EVar vlmMst1 - #3 * EVar vlmMt - #2 * EVar vlmMst1
   * EVar vlmMt + EVar vlmMgl * (- #3 - #2 * EVar vlmMst1 + #2 * EVar vlmMt) + #2 * EPow P2 (EVar vlmMst1)) * EPow P3
   (EVar vMgl)) + (- #48 * (#1 + EVar vlmMt) * EVar vMgl * EPow P2 (EVar vMst1) - #48 * (EVar vlmMgl * (#1 + EVar
   vlmMst1 - EVar vlmMt) + EVar vlmMst1 * (- #2 + EVar vlmMt) + EVar vlmMt - EPow P2 (EVar vlmMst1)) * EPow P3 (EVar
   vMgl)) * EPow P4 (EVar vMst2)))) - EVar vx * (#3 * EVar vMuSUSY * EPow P2 (EVar vSbeta) * (#2 * EVar vDmst12 * (-
   #1 + #3 * EVar vlmMgl - #3 * EVar vlmMst1) * EVar vs2t * EPow P2 (EVar vMst1) * (#4 * EVar vDmst12 * EVar vMgl *
   EVar vMt + EVar vDmst12 * EVar vs2t * EPow P2 (EVar vMst1) - #4 * EVar vMgl * EVar vMt * EPow P2 (EVar vMst2)) *
   EPow P5 (EVar vMgl) + #8 * EPow P2 (EVar vMt) * (EPow P2 (EVar vMst1) * (EVar vDmst12 * (EVar vlmMst1 * (#22 - #6 *
   EVar vlmMt) - #5 * EVar vlmMt + EVar vlmMgl * (- #17 - #6 * EVar vlmMst1 + #6 * EVar vlmMt) + #6 * EPow P2 (EVar
   vlmMst1)) * (EVar vDmst12 - EPow P2 (EVar vMst2)) + #2 * (#2 + EVar vlmMgl * (#5 + #2 * EVar vlmMst1 - #2 * EVar
   vlmMt) + #2 * EVar vlmMst1 * (- #3 + EVar vlmMt) + EVar vlmMt - #2 * EPow P2 (EVar vlmMst1)) * EPow P4 (EVar
   vMst2)) * EPow P5 (EVar vMgl) + (#9 + EVar vlmMgl * (#20 + #6 * EVar vlmMst1 - #6 * EVar vlmMt) + #2 * EVar vlmMt +
   EVar vlmMst1 * (- #22 + #6 * EVar vlmMt) - #6 * EPow P2 (EVar vlmMst1)) * EPow P4 (EVar vMst2) * EPow P7 (EVar
   vMgl))) + EVar vTbeta * (#4 * EVar vDmst12 * (#1 - #3 * EVar vlmMgl + #3 * EVar vlmMst1) * EVar vs2t * EPow P2
   (EVar vMst1) * (EVar vDmst12 * EVar vMt * EPow P2 (EVar vMuSUSY) - EVar vMt * EPow P2 (EVar vMst2) * EPow P2 (EVar
   vMuSUSY) + #3 * EVar vDmst12 * EVar vMgl * EVar vs2t * EPow P2 (EVar vMst1) * EPow P2 (EVar vSbeta)) * EPow P5
   (EVar vMgl) + #4 * EVar vMt * EPow P2 (EVar vSbeta) * (EVar vDmst12 * EVar vs2t * EPow P2 (EVar vMst1) * (EPow P2
   (EVar vMst2) * (#6 * (#8 - #25 * EVar vlmMst1 + EVar vlmMgl * (#23 + #6 * EVar vlmMst1 - #6 * EVar vlmMt) + #2 *
   EVar vlmMt + #6 * EVar vlmMst1 * EVar vlmMt - #6 * EPow P2 (EVar vlmMst1)) * EPow P2 (EVar vMgl) + #6 * (#3 - #14 *
   EVar vlmMst1 + #4 * EVar vlmMgl * (#3 + EVar vlmMst1 - EVar vlmMt) + #2 * EVar vlmMt + #4 * EVar vlmMst1 * EVar
   vlmMt - #4 * EPow P2 (EVar vlmMst1)) * EPow P2 (EVar vMst1) + (#1 - #3 * EVar vlmMgl + #3 * EVar vlmMst1) * EPow P2
   (EVar vMuSUSY)) - EVar vDmst12 * (#6 * (#8 - #25 * EVar vlmMst1 + EVar vlmMgl * (#23 + #6 * EVar vlmMst1 - #6 *
   EVar vlmMt) + #2 * EVar vlmMt + #6 * EVar vlmMst1 * EVar vlmMt - #6 * EPow P2 (EVar vlmMst1)) * EPow P2 (EVar vMgl)
   + #3 * (#11 + EVar vlmMst1 * (#22 - #4 * EVar vlmMt) - #4 * EVar vlmMgl * (#4 + EVar vlmMst1 - EVar vlmMt) - #6 *
   EVar vlmMt + #4 * EPow P2 (EVar vlmMst1)) * EPow P2 (EVar vMst1) + (#1 - #3 * EVar vlmMgl + #3 * EVar vlmMst1) *
   EPow P2 (EVar vMuSUSY))) * EPow P5 (EVar vMgl) - #6 * EVar vMt * (EPow P2 (EVar vMst1) * (EVar vDmst12 * (EVar
   vlmMst1 * (#22 - #6 * EVar vlmMt) - #5 * EVar vlmMt + EVar vlmMgl * (- #17 - #6 * EVar vlmMst1 + #6 * EVar vlmMt) +
   #6 * EPow P2 (EVar vlmMst1)) * (EVar vDmst12 - EPow P2 (EVar vMst2)) + #2 * (#2 + EVar vlmMgl * (#5 + #2 * EVar
   vlmMst1 - #2 * EVar vlmMt) + #2 * EVar vlmMst1 * (- #3 + EVar vlmMt) + EVar vlmMt - #2 * EPow P2 (EVar vlmMst1)) *
   EPow P4 (EVar vMst2)) * EPow P6 (EVar vMgl) + (#9 + EVar vlmMgl * (#20 + #6 * EVar vlmMst1 - #6 * EVar vlmMt) + #2
   * EVar vlmMt + EVar vlmMst1 * (- #22 + #6 * EVar vlmMt) - #6 * EPow P2 (EVar vlmMst1)) * EPow P4 (EVar vMst2) *
   EPow P8 (EVar vMgl)))))) + #3 * EVar voneLoopFlag * (#12 * EVar vDmst12 * EVar vMt * EVar vMuSUSY * EVar vs2t *
   (EVar vDmst12 - #2 * EPow P2 (EVar vMst2)) * EPow P2 (EVar vSbeta) - EVar vTbeta * EPow P2 (EVar vDmst12) * EPow P2
   (EVar vs2t) * (EPow P2 (EVar vMuSUSY) * (- #1 + EPow P2 (EVar vSbeta)) + #12 * EPow P2 (EVar vMst1) * EPow P2 (EVar
   vSbeta)) - #12 * EVar vTbeta * EPow P2 (EVar vMt) * EPow P2 (EVar vSbeta) * (EPow P2 (EVar vDmst12) - #2 * EVar
   vDmst12 * EPow P2 (EVar vMst2) + #4 * (- EVar vlmMst1 + EVar vlmMt) * EPow P4 (EVar vMst2))) * EPow P8 (EVar
   vMst1)) + #60 * EVar vthreeLoopFlag * EPow P2 (EVar vAl4p) * (#5 * EVar vMt * EVar vxDmsqst1 * EPow P2 (EVar
   vDmsqst1) * (#18 * EVar vMuSUSY * EPow P2 (EVar vSbeta) * (EVar vDmst12 * EPow P2 (EVar vMst1) * (#2 * (#16 * (#1 -
   #19 * EVar vlmMst1 + #19 * EVar vlmMt) * EVar vMgl * EVar vMt + #192 * EVar vs2t * EPow P2 (EVar vMgl) + EVar vs2t
   * (#47 - #16 * EVar vshiftst2) * EPow P2 (EVar vMst1)) * EPow P2 (EVar vMst2) * EPow P2 (EVar vMt) - EVar vDmst12 *
   (EVar vs2t * (#384 * EPow P2 (EVar vMgl) - #45 * EPow P2 (EVar vMst1)) * EPow P2 (EVar vMt) + #32 * EVar vMgl *
   EVar vMt * ((#1 - #19 * EVar vlmMst1 + #19 * EVar vlmMt) * EPow P2 (EVar vMt) + #2 * EPow P2 (EVar vMst1) * EPow P2
   (EVar vs2t)) + #4 * (EVar vshiftst1 - EVar vshiftst2) * EPow P3 (EVar vs2t) * EPow P4 (EVar vMst1))) - #32 * EPow
   P2 (EVar vMt) * (#4 * (- #1 + #3 * EVar vlmMst1 - #3 * EVar vlmMt) * EVar vMgl * EVar vMt * EPow P2 (EVar vMst1) +
   #4 * EVar vMt * (#4 + EVar vlmMgl * (#1 + EVar vlmMst1 - EVar vlmMt) - #8 * EVar vlmMt + EVar vlmMst1 * (#7 + EVar
   vlmMt) - EPow P2 (EVar vlmMst1)) * EPow P3 (EVar vMgl) + EVar vs2t * (- EVar vshiftst1 + EVar vshiftst2) * EPow P4
   (EVar vMst1)) * EPow P4 (EVar vMst2)) + EVar vMt * EVar vTbeta * EPow P2 (EVar vMst1) * (#3 * EVar vDmst12 * EVar
   vs2t * (#256 * EVar vDmst12 * EVar vMgl * EVar vMt * EPow P2 (EVar vMuSUSY) - (#21 * EVar vDmst12 * EVar vs2t *
   EPow P2 (EVar vMst1) + #256 * EVar vMgl * EVar vMt * EPow P2 (EVar vMst2)) * EPow P2 (EVar vMuSUSY) + #3 * EVar
   vDmst12 * EVar vs2t * EPow P2 (EVar vMst1) * (#384 * EPow P2 (EVar vMgl) + #94 * EPow P2 (EVar vMst1) + #7 * EPow
   P2 (EVar vMuSUSY)) * EPow P2 (EVar vSbeta)) + #24 * EPow P2 (EVar vMst1) * (EPow P2 (EVar vDmst12) * EPow P2 (EVar
   vs2t) * (- ((EVar vshiftst1 + EVar vshiftst2) * EPow P2 (EVar vMuSUSY) * (- #1 + EPow P2 (EVar vSbeta))) + #6 * (-
   #3 * EVar vshiftst1 + EVar vshiftst2) * EPow P2 (EVar vMst1) * EPow P2 (EVar vSbeta)) + #2 * EVar vDmst12 * EPow P2
   (EVar vMst2) * ((EVar vshiftst1 - EVar vshiftst2) * EPow P2 (EVar vMuSUSY) * EPow P2 (EVar vs2t) * (- #1 + EPow P2
   (EVar vSbeta)) + #12 * (EVar vshiftst2 * EPow P2 (EVar vMt) + (EVar vshiftst1 - EVar vshiftst2) * EPow P2 (EVar
   vMst1) * EPow P2 (EVar vs2t)) * EPow P2 (EVar vSbeta)) + #24 * (EVar vshiftst1 + EVar vshiftst2) * EPow P2 (EVar
   vMt) * EPow P2 (EVar vSbeta) * EPow P4 (EVar vMst2)) + EVar vMt * EPow P2 (EVar vSbeta) * (#96 * EVar vDmst12 *
   EVar vs2t * (- #8 * EVar vMgl * (EVar vDmst12 - EPow P2 (EVar vMst2)) * EPow P2 (EVar vMuSUSY) - #12 * EPow P2
   (EVar vMst2) * ((#1 + #6 * EVar vlmMst1 - #6 * EVar vlmMt) * EVar vMgl * EPow P2 (EVar vMst1) + (#16 + #13 * EVar
   vlmMst1 + EVar vlmMgl * (#3 + #2 * EVar vlmMst1 - #2 * EVar vlmMt) + #2 * (- #8 + EVar vlmMst1) * EVar vlmMt - #2 *
   EPow P2 (EVar vlmMst1)) * EPow P3 (EVar vMgl)) + #3 * EVar vDmst12 * (- ((#13 + #14 * EVar vlmMst1 - #14 * EVar
   vlmMt) * EVar vMgl * EPow P2 (EVar vMst1)) + #4 * (#16 + #13 * EVar vlmMst1 + EVar vlmMgl * (#3 + #2 * EVar vlmMst1
   - #2 * EVar vlmMt) + #2 * (- #8 + EVar vlmMst1) * EVar vlmMt - #2 * EPow P2 (EVar vlmMst1)) * EPow P3 (EVar vMgl)))
   + EVar vMt * (EPow P2 (EVar vDmst12) * (#864 * (#1 - #19 * EVar vlmMst1 + #19 * EVar vlmMt) * EPow P2 (EVar vMgl) +
   #19 * (- #11 + #48 * EVar vlmMst1 - #48 * EVar vlmMt) * EPow P2 (EVar vMst1)) - #72 * EVar vDmst12 * (#12 * (#1 -
   #19 * EVar vlmMst1 + #19 * EVar vlmMt) * EPow P2 (EVar vMgl) + #7 * (#5 - #4 * EVar vlmMst1 + #4 * EVar vlmMt) *
   EPow P2 (EVar vMst1)) * EPow P2 (EVar vMst2) - #16 * (#216 * (#1 - #3 * EVar vlmMst1 + #3 * EVar vlmMt) * EPow P2
   (EVar vMgl) + (#191 - #120 * EVar vlmMst1 + #12 * (#10 + #3 * EVar vlmMst1) * EVar vlmMt - #18 * (EPow P2 (EVar
   vlmMst1) + EPow P2 (EVar vlmMt))) * EPow P2 (EVar vMst1)) * EPow P4 (EVar vMst2))))) + #4 * EPow P2 (EVar vMst1) *
   (EVar vTbeta * (EPow P2 (EVar vMt) * (- (EPow P2 (EVar vMuSUSY) * (- #40 * EVar vDmst12 * EVar vMgl * EVar vMt * (-
   #4 * EVar vMgl * EVar vMt * (- #16 + #9 * EVar vlmMgl - #41 * EVar vlmMst1 + #12 * EVar vlmMt - #4 * EPow P2 (EVar
   vlmMst1)) * EPow P2 (EVar vMst1) + #4 * EVar vs2t * EPow P2 (EVar vMgl) * (#30 * EVar vDmsqst1 * (- #3 + EVar
   vlmMgl - EVar vlmMst1) + (- #11 + #154 * EVar vlmMgl - #148 * EVar vlmMst1 - #20 * EVar vlmMgl * EVar vlmMst1 + #27
   * EPow P2 (EVar vlmMgl) + EPow P2 (EVar vlmMst1)) * EPow P2 (EVar vMst1)) - EVar vs2t * EPow P2 (EVar vMst1) *
   (#180 * EVar vDmsqst1 + (#215 + #118 * EVar vlmMst1 + #41 * EPow P2 (EVar vlmMst1)) * EPow P2 (EVar vMst1))) * EPow
   P2 (EVar vMst2) + EPow P2 (EVar vDmst12) * (- #2 * EPow P2 (EVar vMgl) * EPow P2 (EVar vMst1) * (#4 * (#163 + #15 *
   EVar vlmMgl - #27 * EVar vlmMst1 + #20 * EVar vlmMt - #8 * EPow P2 (EVar vlmMst1)) * EPow P2 (EVar vMt) - #5 *
   (#360 * EVar vDmsqst1 + (#200 + #18 * EVar vlmMgl + #265 * EVar vlmMst1 + #91 * EPow P2 (EVar vlmMst1)) * EPow P2
   (EVar vMst1)) * EPow P2 (EVar vs2t)) + EVar vMt * EVar vs2t * (#40 * EVar vMgl * EPow P2 (EVar vMst1) * (#210 *
   EVar vDmsqst1 + (#149 + #41 * EVar vlmMst1) * EPow P2 (EVar vMst1)) - #80 * (#60 * EVar vDmsqst1 * (#3 - EVar
   vlmMgl + EVar vlmMst1) + (- #249 - #176 * EVar vlmMst1 - #4 * EVar vlmMgl * (- #41 + #5 * EVar vlmMst1) + #27 *
   EPow P2 (EVar vlmMgl) + EPow P2 (EVar vlmMst1)) * EPow P2 (EVar vMst1)) * EPow P3 (EVar vMgl)) + #5 * (#15 * EVar
   vDmsqst1 * (#3 - #8 * EVar vlmMst1) - #2 * (#16 + #115 * EVar vlmMst1 + #41 * EPow P2 (EVar vlmMst1)) * EPow P2
   (EVar vMst1)) * EPow P2 (EVar vs2t) * EPow P4 (EVar vMst1)) + #80 * (#5 + #18 * EVar vlmMgl - #74 * EVar vlmMst1 +
   #24 * EVar vlmMt - #8 * EPow P2 (EVar vlmMst1)) * EPow P2 (EVar vMgl) * EPow P2 (EVar vMst1) * EPow P2 (EVar vMt) *
   EPow P4 (EVar vMst2))) / #5 + #30 * (EVar vDmsqst1 * (#3 - #2 * EVar vlmMst1) + (#1 - #2 * EVar vlmMst1) * EPow P2
   (EVar vMst1)) * EPow P4 (EVar vMst1) * (EPow P2 (EVar vDmst12) * EPow P2 (EVar vs2t) * (- ((EVar vshiftst1 + EVar
   vshiftst2) * EPow P2 (EVar vMuSUSY) * (- #1 + EPow P2 (EVar vSbeta))) + #6 * (- #3 * EVar vshiftst1 + EVar
   vshiftst2) * EPow P2 (EVar vMst1) * EPow P2 (EVar vSbeta)) + #2 * EVar vDmst12 * EPow P2 (EVar vMst2) * ((EVar
   vshiftst1 - EVar vshiftst2) * EPow P2 (EVar vMuSUSY) * EPow P2 (EVar vs2t) * (- #1 + EPow P2 (EVar vSbeta)) + #12 *
   (EVar vshiftst2 * EPow P2 (EVar vMt) + (EVar vshiftst1 - EVar vshiftst2) * EPow P2 (EVar vMst1) * EPow P2 (EVar
   vs2t)) * EPow P2 (EVar vSbeta)) + #24 * (EVar vshiftst1 + EVar vshiftst2) * EPow P2 (EVar vMt) * EPow P2 (EVar
   vSbeta) * EPow P4 (EVar vMst2))) + #18 * EVar vshiftst3 * (EVar vDmst12 * EPow P2 (EVar vMt) * EPow P2 (EVar vs2t)
   * (- #2 * (- #1 + #2 * EVar vlmMst1) * EPow P2 (EVar vMst2) * (EPow P2 (EVar vMuSUSY) * (- #1 + EPow P2 (EVar
   vSbeta)) + #12 * EPow P2 (EVar vMst1) * EPow P2 (EVar vSbeta)) + EVar vDmst12 * ((- #7 + #6 * EVar vlmMst1) * EPow
   P2 (EVar vMuSUSY) * (- #1 + EPow P2 (EVar vSbeta)) + #6 * (- #15 + #14 * EVar vlmMst1) * EPow P2 (EVar vMst1) *
   EPow P2 (EVar vSbeta))) / #6 + #4 * EPow P2 (EVar vSbeta) * (- #2 * (- #2 + EVar vlmMst1) * EPow P2 (EVar vDmst12)
   + EVar vDmst12 * (- #3 + #2 * EVar vlmMst1) * EPow P2 (EVar vMst2) + (#1 - #2 * EVar vlmMst1) * EPow P4 (EVar
   vMst2)) * EPow P4 (EVar vMt)) * EPow P6 (EVar vMst1) + EPow P2 (EVar vSbeta) * (- #8 * EVar vDmst12 * EVar vMgl *
   EVar vs2t * EPow P3 (EVar vMt) * ((- #30 * EVar vDmsqst1 * (EVar vDmst12 * (#4 * (- #3 + EVar vlmMgl - EVar
   vlmMst1) * EPow P2 (EVar vMgl) + #7 * EPow P2 (EVar vMst1)) + #2 * ((#6 - #2 * EVar vlmMgl + #2 * EVar vlmMst1) *
   EPow P2 (EVar vMgl) + #3 * EPow P2 (EVar vMst1)) * EPow P2 (EVar vMst2)) - EPow P2 (EVar vMst1) * (EVar vDmst12 *
   (- #2 * (- #249 + #164 * EVar vlmMgl - #176 * EVar vlmMst1 - #20 * EVar vlmMgl * EVar vlmMst1 + #27 * EPow P2 (EVar
   vlmMgl) + EPow P2 (EVar vlmMst1)) * EPow P2 (EVar vMgl) + (#149 + #41 * EVar vlmMst1) * EPow P2 (EVar vMst1)) + (-
   #4 * (- #11 + #154 * EVar vlmMgl - #148 * EVar vlmMst1 - #20 * EVar vlmMgl * EVar vlmMst1 + #27 * EPow P2 (EVar
   vlmMgl) + EPow P2 (EVar vlmMst1)) * EPow P2 (EVar vMgl) + (#215 + #118 * EVar vlmMst1 + #41 * EPow P2 (EVar
   vlmMst1)) * EPow P2 (EVar vMst1)) * EPow P2 (EVar vMst2))) * EPow P2 (EVar vMuSUSY) + #2 * EPow P2 (EVar vMst1) *
   (EPow P2 (EVar vMst2) * (#180 * EVar vDmsqst1 * ((#19 + #13 * EVar vlmMst1 - #10 * EVar vlmMt - #2 * EVar vlmMst1 *
   EVar vlmMt + EVar vlmMgl * (- #3 - #2 * EVar vlmMst1 + #2 * EVar vlmMt) + #2 * EPow P2 (EVar vlmMst1)) * EPow P2
   (EVar vMgl) + #4 * (#1 + EVar vlmMst1 - EVar vlmMt) * EPow P2 (EVar vMst1)) + EPow P2 (EVar vMgl) * EPow P2 (EVar
   vMst1) * (#2086 - #996 * EVar vlmMt - #81 * (#9 + #4 * EVar vlmMst1 - #6 * EVar vlmMt) * EPow P2 (EVar vlmMgl) +
   (#663 + #366 * EVar vlmMt) * EPow P2 (EVar vlmMst1) - #144 * EPow P2 (EVar vlmMt) - #6 * EVar vlmMst1 * (- #521 +
   #74 * EVar vlmMt + #24 * EPow P2 (EVar vlmMt)) + #6 * EVar vlmMgl * (- #238 + EVar vlmMst1 * (#73 - #142 * EVar
   vlmMt) + #52 * EVar vlmMt + #91 * EPow P2 (EVar vlmMst1) + #24 * EPow P2 (EVar vlmMt)) - #54 * EPow P3 (EVar
   vlmMgl) - #168 * EPow P3 (EVar vlmMst1)) - #2 * (- #407 + #276 * EVar vlmMt + #3 * EVar vlmMst1 * (- #65 + #2 *
   EVar vlmMt) + #45 * EPow P2 (EVar vlmMst1) + #72 * EPow P2 (EVar vlmMt)) * EPow P4 (EVar vMst1)) + EVar vDmst12 *
   (#3 * (#1091 + #611 * EVar vlmMst1 + EVar vlmMgl * (- #17 + #122 * EVar vlmMst1 - #82 * EVar vlmMt) + (- #374 + #62
   * EVar vlmMst1) * EVar vlmMt - #54 * EPow P2 (EVar vlmMgl) - #24 * (EPow P2 (EVar vlmMst1) + EPow P2 (EVar vlmMt)))
   * EPow P2 (EVar vMgl) * EPow P2 (EVar vMst1) + #90 * EVar vDmsqst1 * (- #2 * (- #24 + EVar vlmMgl - #15 * EVar
   vlmMst1 + #14 * EVar vlmMt) * EPow P2 (EVar vMgl) + (#5 + #6 * EVar vlmMst1 - #6 * EVar vlmMt) * EPow P2 (EVar
   vMst1)) + (#148 - #90 * EVar vlmMt + EVar vlmMst1 * (#75 + #6 * EVar vlmMt) + #45 * EPow P2 (EVar vlmMst1) + #72 *
   EPow P2 (EVar vlmMt)) * EPow P4 (EVar vMst1)))) + EPow P2 (EVar vMst1) * (#2 * (- #20 * EVar vDmst12 * EPow P2
   (EVar vMst2) * (- (EPow P2 (EVar vMgl) * ((#3049 - #1908 * EVar vlmMt - #54 * EVar vlmMgl * (#1 + #12 * EVar vlmMt)
   + #6 * EVar vlmMst1 * (#215 + #49 * EVar vlmMt) + #324 * EPow P2 (EVar vlmMgl) - #195 * EPow P2 (EVar vlmMst1) -
   #144 * EPow P2 (EVar vlmMt)) * EPow P2 (EVar vMst1) + #4 * (- #16 + #9 * EVar vlmMgl - #41 * EVar vlmMst1 + #12 *
   EVar vlmMt - #4 * EPow P2 (EVar vlmMst1)) * EPow P2 (EVar vMuSUSY))) + (#196 - #54 * EVar vlmMt + #12 * EVar
   vlmMst1 * (- #24 + #5 * EVar vlmMt) - #153 * (EPow P2 (EVar vlmMst1) + EPow P2 (EVar vlmMt))) * EPow P4 (EVar
   vMst1)) - EPow P2 (EVar vDmst12) * (- #4 * EPow P2 (EVar vMgl) * ((#6635 - #9965 * EVar vlmMt + #5 * EVar vlmMst1 *
   (#1977 + #64 * EVar vlmMt) - #160 * EPow P2 (EVar vlmMst1)) * EPow P2 (EVar vMst1) + (- #163 - #15 * EVar vlmMgl +
   #27 * EVar vlmMst1 - #20 * EVar vlmMt + #8 * EPow P2 (EVar vlmMst1)) * EPow P2 (EVar vMuSUSY)) + #5 * (#131 + #1500
   * EVar vlmMt - #60 * EVar vlmMst1 * (#29 + #2 * EVar vlmMt) + #306 * (EPow P2 (EVar vlmMst1) + EPow P2 (EVar
   vlmMt))) * EPow P4 (EVar vMst1)) - #10 * (- #4 * EPow P2 (EVar vMgl) * ((#1909 + #600 * EVar vlmMst1 + #6 * (- #187
   + #49 * EVar vlmMst1) * EVar vlmMt - #54 * EVar vlmMgl * (#1 + #12 * EVar vlmMt) + #324 * EPow P2 (EVar vlmMgl) -
   #195 * EPow P2 (EVar vlmMst1) - #144 * EPow P2 (EVar vlmMt)) * EPow P2 (EVar vMst1) + (#5 + #18 * EVar vlmMgl - #74
   * EVar vlmMst1 + #24 * EVar vlmMt - #8 * EPow P2 (EVar vlmMst1)) * EPow P2 (EVar vMuSUSY)) + #3 * (#1375 - #64 *
   EVar vlmMt + #24 * (#2 + #3 * EVar vlmMt) * EPow P2 (EVar vlmMgl) + #4 * (#37 + #25 * EVar vlmMt) * EPow P2 (EVar
   vlmMst1) + #120 * EPow P2 (EVar vlmMt) - #8 * EVar vlmMgl * (#26 + #12 * EVar vlmMt + #9 * EPow P2 (EVar vlmMt)) -
   #8 * EVar vlmMst1 * (#44 + #64 * EVar vlmMt + #33 * EPow P2 (EVar vlmMt)) - #24 * EPow P3 (EVar vlmMgl) - #88 *
   EPow P3 (EVar vlmMst1) + #276 * EPow P3 (EVar vlmMt)) * EPow P4 (EVar vMst1)) * EPow P4 (EVar vMst2) + #25 * EVar
   vDmsqst1 * (#9 * EPow P2 (EVar vDmst12) * (#12 * (#19 + #33 * EVar vlmMst1 - #33 * EVar vlmMt) * EPow P2 (EVar
   vMgl) + (- #3 + #28 * EVar vlmMst1 - #28 * EVar vlmMt) * EPow P2 (EVar vMst1)) + #18 * EVar vDmst12 * (#24 * (#3 +
   #7 * EVar vlmMst1 - #7 * EVar vlmMt) * EPow P2 (EVar vMgl) + (- #19 + #32 * EVar vlmMst1 - #24 * EVar vlmMt) * EPow
   P2 (EVar vMst1)) * EPow P2 (EVar vMst2) + #8 * (#108 * (#1 + #2 * EVar vlmMst1 - #2 * EVar vlmMt) * EPow P2 (EVar
   vMgl) - (#92 + #66 * EVar vlmMt - #6 * EVar vlmMst1 * (#17 + #3 * EVar vlmMt) + #9 * (EPow P2 (EVar vlmMst1) + EPow
   P2 (EVar vlmMt))) * EPow P2 (EVar vMst1)) * EPow P4 (EVar vMst2))) * EPow P4 (EVar vMt) / #5 + #2 * EPow P2 (EVar
   vDmst12) * EPow P2 (EVar vMt) * EPow P2 (EVar vs2t) * (#6 * EPow P2 (EVar vMgl) * EPow P2 (EVar vMst1) * (#540 *
   EVar vDmsqst1 + (#525 - #18 * EVar vlmMgl + #504 * EVar vlmMst1 - #48 * EVar vlmMt + #107 * EPow P2 (EVar vlmMst1))
   * EPow P2 (EVar vMst1)) + #90 * EVar vDmsqst1 * (#5 - #4 * EVar vlmMst1) * EPow P4 (EVar vMst1) + EPow P2 (EVar
   vMuSUSY) * (#2 * (#200 + #18 * EVar vlmMgl + #265 * EVar vlmMst1 + #91 * EPow P2 (EVar vlmMst1)) * EPow P2 (EVar
   vMgl) * EPow P2 (EVar vMst1) + #15 * EVar vDmsqst1 * (#48 * EPow P2 (EVar vMgl) + (#3 - #8 * EVar vlmMst1) * EPow
   P2 (EVar vMst1)) - #2 * (#16 + #115 * EVar vlmMst1 + #41 * EPow P2 (EVar vlmMst1)) * EPow P4 (EVar vMst1)) / #2 -
   #12 * (- #6 + #79 * EVar vlmMst1 + #41 * EPow P2 (EVar vlmMst1)) * EPow P6 (EVar vMst1))))) + EVar vMt * EVar
   vMuSUSY * EPow P2 (EVar vSbeta) * (#3 * EVar vDmst12 * EVar vMt * EVar vs2t * EPow P2 (EVar vMst1) * (EVar vMt *
   (#15 * EVar vDmsqst1 * (EVar vDmst12 * (#336 * EPow P2 (EVar vMgl) + #31 * EPow P2 (EVar vMst1)) + #8 * (#36 * EPow
   P2 (EVar vMgl) + (#5 - #4 * EVar vlmMst1) * EPow P2 (EVar vMst1)) * EPow P2 (EVar vMst2)) + #4 * EPow P2 (EVar
   vMst1) * (EVar vDmst12 * (#2 * (#522 + #107 * EVar vlmMst1) * EPow P2 (EVar vMgl) + (- #95 - #66 * EVar vlmMst1 +
   #82 * EPow P2 (EVar vlmMst1)) * EPow P2 (EVar vMst1)) + #2 * ((#501 - #18 * EVar vlmMgl + #504 * EVar vlmMst1 - #48
   * EVar vlmMt + #107 * EPow P2 (EVar vlmMst1)) * EPow P2 (EVar vMgl) - #2 * (- #6 + #79 * EVar vlmMst1 + #41 * EPow
   P2 (EVar vlmMst1)) * EPow P2 (EVar vMst1)) * EPow P2 (EVar vMst2))) - #4 * EVar vDmst12 * EVar vMgl * EVar vs2t *
   (- #4 * (- #11 + EVar vlmMgl * (#154 - #20 * EVar vlmMst1) - #148 * EVar vlmMst1 + #27 * EPow P2 (EVar vlmMgl) +
   EPow P2 (EVar vlmMst1)) * EPow P2 (EVar vMgl) * EPow P2 (EVar vMst1) + #60 * EVar vDmsqst1 * (#2 * (#3 - EVar
   vlmMgl + EVar vlmMst1) * EPow P2 (EVar vMgl) + #3 * EPow P2 (EVar vMst1)) + (#215 + #118 * EVar vlmMst1 + #41 *
   EPow P2 (EVar vlmMst1)) * EPow P4 (EVar vMst1))) + #90 * EVar vs2t * (EVar vDmsqst1 * (- #3 + #2 * EVar vlmMst1) +
   (- #1 + #2 * EVar vlmMst1) * EPow P2 (EVar vMst1)) * EPow P4 (EVar vMst1) * (#8 * EVar vDmst12 * EVar vshiftst2 *
   EPow P2 (EVar vMst2) * EPow P2 (EVar vMt) + (EVar vshiftst1 - EVar vshiftst2) * EPow P2 (EVar vDmst12) * EPow P2
   (EVar vMst1) * EPow P2 (EVar vs2t) + #8 * (- EVar vshiftst1 + EVar vshiftst2) * EPow P2 (EVar vMt) * EPow P4 (EVar
   vMst2)) + #16 * EVar vMgl * EPow P3 (EVar vMt) * (#30 * EVar vDmsqst1 * (EPow P2 (EVar vDmst12) * (#6 * (#31 + #27
   * EVar vlmMst1 - #24 * EVar vlmMt - #2 * EVar vlmMst1 * EVar vlmMt + EVar vlmMgl * (- #3 - #2 * EVar vlmMst1 + #2 *
   EVar vlmMt) + #2 * EPow P2 (EVar vlmMst1)) * EPow P2 (EVar vMgl) + (- #13 - #19 * EVar vlmMst1 + #19 * EVar vlmMt)
   * EPow P2 (EVar vMst1)) - #6 * EVar vDmst12 * ((#31 + #27 * EVar vlmMst1 - #24 * EVar vlmMt - #2 * EVar vlmMst1 *
   EVar vlmMt + EVar vlmMgl * (- #3 - #2 * EVar vlmMst1 + #2 * EVar vlmMt) + #2 * EPow P2 (EVar vlmMst1)) * EPow P2
   (EVar vMgl) + (#3 + #7 * EVar vlmMst1 - #7 * EVar vlmMt) * EPow P2 (EVar vMst1)) * EPow P2 (EVar vMst2) - #12 *
   ((#7 + #6 * EVar vlmMst1 - #5 * EVar vlmMt - EVar vlmMst1 * EVar vlmMt + EVar vlmMgl * (- #1 - EVar vlmMst1 + EVar
   vlmMt) + EPow P2 (EVar vlmMst1)) * EPow P2 (EVar vMgl) + (#1 + #2 * EVar vlmMst1 - #2 * EVar vlmMt) * EPow P2 (EVar
   vMst1)) * EPow P4 (EVar vMst2)) - EPow P2 (EVar vMst1) * (EPow P2 (EVar vDmst12) * (- ((- #3749 - #2374 * EVar
   vlmMst1 + #1770 * EVar vlmMt - #117 * EVar vlmMst1 * EVar vlmMt + EVar vlmMgl * (#96 - #237 * EVar vlmMst1 + #157 *
   EVar vlmMt) + #108 * EPow P2 (EVar vlmMgl) + #41 * EPow P2 (EVar vlmMst1) + #48 * EPow P2 (EVar vlmMt)) * EPow P2
   (EVar vMgl)) + (EVar vlmMst1 * (#297 + #2 * EVar vlmMt) + #15 * EPow P2 (EVar vlmMst1) + #3 * (#47 - #79 * EVar
   vlmMt + #8 * EPow P2 (EVar vlmMt))) * EPow P2 (EVar vMst1)) + EVar vDmst12 * EPow P2 (EVar vMst2) * (- ((- #605 +
   #6 * EVar vlmMst1 * (- #77 + EVar vlmMt) + #714 * EVar vlmMt + #45 * EPow P2 (EVar vlmMst1) + #72 * EPow P2 (EVar
   vlmMt)) * EPow P2 (EVar vMst1)) + #2 * EPow P2 (EVar vMgl) * (#2096 - #1167 * EVar vlmMt - #81 * (#4 + #2 * EVar
   vlmMst1 - #3 * EVar vlmMt) * EPow P2 (EVar vlmMgl) + #3 * (#129 + #61 * EVar vlmMt) * EPow P2 (EVar vlmMst1) - #108
   * EPow P2 (EVar vlmMt) - #3 * EVar vlmMst1 * (- #793 + #67 * EVar vlmMt + #24 * EPow P2 (EVar vlmMt)) + #3 * EVar
   vlmMgl * (- #229 + EVar vlmMst1 * (#63 - #142 * EVar vlmMt) + #35 * EVar vlmMt + #91 * EPow P2 (EVar vlmMst1) + #24
   * EPow P2 (EVar vlmMt)) - #27 * EPow P3 (EVar vlmMgl) - #84 * EPow P3 (EVar vlmMst1))) + #2 * (- ((- #233 + #6 *
   EVar vlmMst1 * (- #32 + EVar vlmMt) + #348 * EVar vlmMt + #45 * EPow P2 (EVar vlmMst1) + #72 * EPow P2 (EVar
   vlmMt)) * EPow P2 (EVar vMst1)) + EPow P2 (EVar vMgl) * (#758 - #570 * EVar vlmMt - #81 * (#3 + #2 * EVar vlmMst1 -
   #3 * EVar vlmMt) * EPow P2 (EVar vlmMgl) + #3 * (#141 + #61 * EVar vlmMt) * EPow P2 (EVar vlmMst1) - #72 * EPow P2
   (EVar vlmMt) - #6 * EVar vlmMst1 * (- #236 + #49 * EVar vlmMt + #12 * EPow P2 (EVar vlmMt)) + #3 * EVar vlmMgl * (-
   #200 + #2 * EVar vlmMst1 + #76 * EVar vlmMt - #142 * EVar vlmMst1 * EVar vlmMt + #91 * EPow P2 (EVar vlmMst1) + #24
   * EPow P2 (EVar vlmMt)) - #27 * EPow P3 (EVar vlmMgl) - #84 * EPow P3 (EVar vlmMst1))) * EPow P4 (EVar vMst2))) +
   EVar vshiftst3 * (#72 * EVar vs2t * EPow P2 (EVar vMt) * (- #2 * (- #2 + EVar vlmMst1) * EPow P2 (EVar vDmst12) +
   EVar vDmst12 * (- #3 + #2 * EVar vlmMst1) * EPow P2 (EVar vMst2) + (#1 - #2 * EVar vlmMst1) * EPow P4 (EVar vMst2))
   * EPow P6 (EVar vMst1) + #9 * (- #1 + #2 * EVar vlmMst1) * EPow P2 (EVar vDmst12) * EPow P3 (EVar vs2t) * EPow P8
   (EVar vMst1))))))) / (#12960 * EVar vTbeta * EPow P2 (EVar vSbeta) * EPow P6 (EVar vMst2) * EPow P8 (EVar vMst1)).

(** H9.cpp:804-1081 *)
Definition H9_getS12 : expr :=
  EVar vMuSUSY * (EVar vMt * EPow P2 (EVar vMst1) * (#20 * EVar vAl4p * EVar vxMgl * EPow P4 (EVar vMgl) * (EVar
   vxDmst12 * EPow P3 (EVar vDmst12) * (#216 * EVar vs2t * EVar vtwoLoopFlag * EPow P2 (EVar vMst1) * (#4 * (#1 - #3 *
   EVar vlmMgl + #3 * EVar vlmMst1) * EVar vMt * EVar vMuSUSY * EVar vs2t + #96 * (- #1 + EVar vlmMgl - EVar vlmMst1)
   * EVar vTbeta * EPow P2 (EVar vMt) + (- #1 + #3 * EVar vlmMgl - #3 * EVar vlmMst1) * EVar vTbeta * EPow P2 (EVar
   vMst1) * EPow P2 (EVar vs2t)) + EVar vAl4p * EVar vthreeLoopFlag * (#1728 * EVar vs2t * EVar vTbeta * (#15 * EVar
   vDmsqst1 * (#29 - #10 * EVar vlmMgl + #10 * EVar vlmMst1) + (- #1797 - #1711 * EVar vlmMst1 + EVar vlmMgl * (#1315
   - #198 * EVar vlmMst1 - #96 * EVar vlmMt) + #144 * EVar vlmMt + #96 * EVar vlmMst1 * EVar vlmMt + #333 * EPow P2
   (EVar vlmMgl) - #103 * EPow P2 (EVar vlmMst1)) * EPow P2 (EVar vMst1)) * EPow P2 (EVar vMt) + #4 * EVar vMt * EVar
   vMuSUSY * (#41653 + #11784 * EVar vlmMst1 + #48 * EVar vlmMgl * (- #313 + #180 * EVar vlmMst1) - #12636 * EPow P2
   (EVar vlmMgl) + #540 * EPow P2 (EVar vlmMst1)) * EPow P2 (EVar vMst1) * EPow P2 (EVar vs2t) + #1152 * EVar vMuSUSY
   * (#262 + EVar vlmMst1 * (#335 - #72 * EVar vlmMt) - #96 * EVar vlmMt + EVar vlmMgl * (- #199 - #120 * EVar vlmMst1
   + #72 * EVar vlmMt) + #120 * EPow P2 (EVar vlmMst1)) * EPow P3 (EVar vMt) + EVar vTbeta * (- #41653 - #11784 * EVar
   vlmMst1 - #48 * EVar vlmMgl * (- #313 + #180 * EVar vlmMst1) + #12636 * EPow P2 (EVar vlmMgl) - #540 * EPow P2
   (EVar vlmMst1)) * EPow P3 (EVar vs2t) * EPow P4 (EVar vMst1))) + EVar vMt * EPow P2 (EVar vMst2) * (- #432 * EVar
   vDmst12 * EVar vs2t * EVar vtwoLoopFlag * EPow P2 (EVar vMst1) * (EVar vDmst12 * (#1 - #3 * EVar vlmMgl + #3 * EVar
   vlmMst1) * EVar vMuSUSY * EVar vs2t + #6 * EVar vDmst12 * (- #3 + #2 * EVar vlmMgl - #2 * EVar vlmMst1) * EVar vMt
   * EVar vTbeta + #12 * (- #1 + #2 * EVar vlmMgl - #2 * EVar vlmMst1) * EVar vMt * EVar vTbeta * EPow P2 (EVar
   vMst2)) + #2 * EVar vAl4p * EVar vthreeLoopFlag * (#144 * EVar vDmst12 * EVar vMt * (#4 * EVar vMt * EVar vMuSUSY *
   (#262 + EVar vlmMst1 * (#335 - #72 * EVar vlmMt) - #96 * EVar vlmMt + EVar vlmMgl * (- #199 - #120 * EVar vlmMst1 +
   #72 * EVar vlmMt) + #120 * EPow P2 (EVar vlmMst1)) + #3 * EVar vs2t * EVar vTbeta * (#30 * EVar vDmsqst1 * (#29 -
   #10 * EVar vlmMgl + #10 * EVar vlmMst1) + (#633 + #1458 * EVar vlmMst1 - #96 * (#1 + EVar vlmMst1) * EVar vlmMt +
   #2 * EVar vlmMgl * (- #632 + #99 * EVar vlmMst1 + #48 * EVar vlmMt) - #333 * EPow P2 (EVar vlmMgl) + #103 * EPow P2
   (EVar vlmMst1)) * EPow P2 (EVar vMst1))) * EPow P2 (EVar vMst2) - EPow P2 (EVar vDmst12) * (- #216 * EVar vMt *
   EVar vs2t * EVar vTbeta * (#60 * EVar vDmsqst1 * (- #29 + #10 * EVar vlmMgl - #10 * EVar vlmMst1) + (#2961 + #1964
   * EVar vlmMst1 - #192 * EVar vlmMt - #96 * EVar vlmMst1 * EVar vlmMt + #2 * EVar vlmMgl * (- #683 + #99 * EVar
   vlmMst1 + #48 * EVar vlmMt) - #333 * EPow P2 (EVar vlmMgl) + #103 * EPow P2 (EVar vlmMst1)) * EPow P2 (EVar vMst1))
   + #576 * EVar vMuSUSY * (#262 + #335 * EVar vlmMst1 - #96 * EVar vlmMt - #72 * EVar vlmMst1 * EVar vlmMt + EVar
   vlmMgl * (- #199 - #120 * EVar vlmMst1 + #72 * EVar vlmMt) + #120 * EPow P2 (EVar vlmMst1)) * EPow P2 (EVar vMt) +
   EVar vMuSUSY * (#41653 + #11784 * EVar vlmMst1 + #48 * EVar vlmMgl * (- #313 + #180 * EVar vlmMst1) - #12636 * EPow
   P2 (EVar vlmMgl) + #540 * EPow P2 (EVar vlmMst1)) * EPow P2 (EVar vMst1) * EPow P2 (EVar vs2t)) + #1152 * EVar
   vMuSUSY * (#59 + EVar vlmMst1 * (#85 - #24 * EVar vlmMt) - #24 * EVar vlmMt + EVar vlmMgl * (- #53 - #40 * EVar
   vlmMst1 + #24 * EVar vlmMt) + #40 * EPow P2 (EVar vlmMst1)) * EPow P2 (EVar vMt) * EPow P4 (EVar vMst2)))) / #9 -
   EVar vxDmst12 * EPow P3 (EVar vDmst12) * (- #270 * EVar voneLoopFlag * EVar vs2t * (- #2 * EVar vMt * EVar vMuSUSY
   * EVar vs2t - #8 * EVar vTbeta * EPow P2 (EVar vMt) + EVar vTbeta * EPow P2 (EVar vMst1) * EPow P2 (EVar vs2t)) *
   EPow P6 (EVar vMst1) - #288 * EVar vAl4p * EVar vtwoLoopFlag * (#5 * EVar vMt * EPow P2 (EVar vMst1) * (#32 * (#1 -
   EVar vlmMgl + EVar vlmMst1) * EVar vMt * EVar vMuSUSY * EVar vs2t + #8 * EVar vTbeta * (#18 + EVar vlmMst1 * (#26 -
   #6 * EVar vlmMt) - #13 * EVar vlmMt + EVar vlmMgl * (- #13 - #6 * EVar vlmMst1 + #6 * EVar vlmMt) + #6 * EPow P2
   (EVar vlmMst1)) * EPow P2 (EVar vMt) - #3 * (#1 + #2 * EVar vlmMgl - #2 * EVar vlmMst1) * EVar vTbeta * EPow P2
   (EVar vMst1) * EPow P2 (EVar vs2t)) * EPow P3 (EVar vMgl) + #5 * EVar vs2t * EPow P2 (EVar vMgl) * ((#1 + #2 * EVar
   vlmMst1) * EVar vMt * EVar vMuSUSY * EVar vs2t - #4 * EVar vTbeta * EPow P2 (EVar vMt) - (#3 + #2 * EVar vlmMst1) *
   EVar vTbeta * EPow P2 (EVar vMst1) * EPow P2 (EVar vs2t)) * EPow P4 (EVar vMst1) + EVar vMgl * EVar vMt * (#2 * (#9
   + #2 * EVar vlmMst1) * EVar vMt * EVar vMuSUSY * EVar vs2t + #20 * (#1 + EVar vlmMt) * EVar vTbeta * EPow P2 (EVar
   vMt) + #15 * (#3 + #2 * EVar vlmMst1) * EVar vTbeta * EPow P2 (EVar vMst1) * EPow P2 (EVar vs2t)) * EPow P4 (EVar
   vMst1) - #20 * EVar vMt * EVar vx * (#2 * (#1 - #3 * EVar vlmMgl + #3 * EVar vlmMst1) * EVar vMt * EVar vMuSUSY *
   EVar vs2t - #6 * EVar vTbeta * (- #22 * EVar vlmMst1 + EVar vlmMgl * (#17 + #6 * EVar vlmMst1 - #6 * EVar vlmMt) +
   #5 * EVar vlmMt + #6 * EVar vlmMst1 * EVar vlmMt - #6 * EPow P2 (EVar vlmMst1)) * EPow P2 (EVar vMt) + #3 * (- #1 +
   #3 * EVar vlmMgl - #3 * EVar vlmMst1) * EVar vTbeta * EPow P2 (EVar vMst1) * EPow P2 (EVar vs2t)) * EPow P5 (EVar
   vMgl) + #120 * (#1 - #3 * EVar vlmMgl + #3 * EVar vlmMst1) * EVar vs2t * EVar vTbeta * EVar vx * EPow P2 (EVar vMt)
   * EPow P6 (EVar vMgl) - #5 * EVar vs2t * (#4 * EVar vlmMst1 * EVar vMt * EVar vMuSUSY * EVar vs2t + #2 * (- #9 + #8
   * EVar vlmMst1) * EVar vTbeta * EPow P2 (EVar vMt) - (#1 + #2 * EVar vlmMst1) * EVar vTbeta * EPow P2 (EVar vMst1)
   * EPow P2 (EVar vs2t)) * EPow P6 (EVar vMst1)) + EVar vthreeLoopFlag * EPow P2 (EVar vAl4p) * (#64 * EVar vMgl *
   EVar vMt * (#900 * EVar vxDmsqst1 * EPow P2 (EVar vDmsqst1) * (#8 * EVar vMt * EVar vMuSUSY * EVar vs2t + #3 * (-
   #1 + #19 * EVar vlmMst1 - #19 * EVar vlmMt) * EVar vTbeta * EPow P2 (EVar vMt) - #12 * EVar vTbeta * EPow P2 (EVar
   vMst1) * EPow P2 (EVar vs2t)) - #450 * EVar vDmsqst1 * EPow P2 (EVar vMst1) * (#80 * EVar vMt * EVar vMuSUSY * EVar
   vs2t + #16 * (#11 + #20 * EVar vlmMst1 - #20 * EVar vlmMt) * EVar vTbeta * EPow P2 (EVar vMt) - #3 * EVar vTbeta *
   EPow P2 (EVar vMst1) * EPow P2 (EVar vs2t)) + #30 * EPow P2 (EVar vMgl) * (#120 * EVar vDmsqst1 * (#2 * (#3 - EVar
   vlmMgl + EVar vlmMst1) * EVar vMt * EVar vMuSUSY * EVar vs2t + #3 * EVar vTbeta * (#31 + #27 * EVar vlmMst1 - #24 *
   EVar vlmMt - #2 * EVar vlmMst1 * EVar vlmMt + EVar vlmMgl * (- #3 - #2 * EVar vlmMst1 + #2 * EVar vlmMt) + #2 *
   EPow P2 (EVar vlmMst1)) * EPow P2 (EVar vMt) + #3 * (- #3 + EVar vlmMgl - EVar vlmMst1) * EVar vTbeta * EPow P2
   (EVar vMst1) * EPow P2 (EVar vs2t)) - EPow P2 (EVar vMst1) * (- #16 * EVar vMt * EVar vMuSUSY * EVar vs2t * (- #130
   + EVar vlmMgl * (#159 - #20 * EVar vlmMst1) - #162 * EVar vlmMst1 + #27 * EPow P2 (EVar vlmMgl) + EPow P2 (EVar
   vlmMst1)) + EVar vTbeta * (- #3 * (#227 + #4 * EVar vlmMgl * (#36 - #5 * EVar vlmMst1) - #120 * EVar vlmMst1 + #27
   * EPow P2 (EVar vlmMgl) + EPow P2 (EVar vlmMst1)) * EPow P2 (EVar vMst1) * EPow P2 (EVar vs2t) + #4 * EPow P2 (EVar
   vMt) * (#5845 - #2937 * EVar vlmMt - #27 * (#16 + EVar vlmMgl + #6 * EVar vlmMst1 - #9 * EVar vlmMt) * EPow P2
   (EVar vlmMgl) + (#346 + #183 * EVar vlmMt) * EPow P2 (EVar vlmMst1) + EVar vlmMst1 * (#4753 - #84 * EVar vlmMt -
   #72 * EPow P2 (EVar vlmMt)) - #156 * EPow P2 (EVar vlmMt) + EVar vlmMgl * (- #783 - #426 * EVar vlmMst1 * (- #1 +
   EVar vlmMt) - #52 * EVar vlmMt + #273 * EPow P2 (EVar vlmMst1) + #72 * EPow P2 (EVar vlmMt)) - #84 * EPow P3 (EVar
   vlmMst1))))) + (- #2 * EVar vMt * EVar vMuSUSY * EVar vs2t * (- #365 + #1049 * EVar vlmMst1 + #123 * EPow P2 (EVar
   vlmMst1)) - #30 * EVar vTbeta * (- #233 + #47 * EVar vlmMt + EVar vlmMst1 * (- #3 + #2 * EVar vlmMt) + #15 * EPow
   P2 (EVar vlmMst1) + #24 * EPow P2 (EVar vlmMt)) * EPow P2 (EVar vMt) - #45 * EVar vTbeta * (#66 + #77 * EVar
   vlmMst1 + #41 * EPow P2 (EVar vlmMst1)) * EPow P2 (EVar vMst1) * EPow P2 (EVar vs2t)) * EPow P4 (EVar vMst1)) - #3
   * EVar vs2t * EPow P2 (EVar vMst1) * (#300 * EVar vxDmsqst1 * EPow P2 (EVar vDmsqst1) * (#4 * EVar vMt * EVar
   vMuSUSY * EVar vs2t * (#21 - #16 * EVar vshiftst2) + #48 * (- #23 + #4 * EVar vshiftst2) * EVar vTbeta * EPow P2
   (EVar vMt) + (- #21 + #32 * EVar vshiftst1 - #16 * EVar vshiftst2) * EVar vTbeta * EPow P2 (EVar vMst1) * EPow P2
   (EVar vs2t)) + #15 * EVar vDmsqst1 * EPow P2 (EVar vMst1) * (#8 * EVar vMt * EVar vMuSUSY * EVar vs2t * (#5 - #72 *
   EVar vshiftst1 - #48 * EVar vshiftst2 + #16 * EVar vlmMst1 * (- #5 + #3 * EVar vshiftst1 + #2 * EVar vshiftst2)) +
   EVar vTbeta * (#1245 * EPow P2 (EVar vMt) - #80 * (#3 - #24 * EVar vshiftst1 + #12 * EVar vshiftst2 - #8 * EVar
   vlmMst1 * (#1 - #2 * EVar vshiftst1 + EVar vshiftst2)) * EPow P2 (EVar vMst1) * EPow P2 (EVar vs2t))) + #8 * (- #2
   * EVar vMt * EVar vMuSUSY * EVar vs2t * (- #605 + #180 * EVar vshiftst1 + #120 * EVar vshiftst2 + #348 * EVar
   vshiftst3 - #8 * EVar vlmMst1 * (- #110 + #45 * EVar vshiftst1 + #30 * EVar vshiftst2 + #27 * EVar vshiftst3) +
   #820 * EPow P2 (EVar vlmMst1)) - #5 * EVar vTbeta * (- #2615 + #672 * EVar vshiftst3 - #8 * EVar vlmMst1 * (#325 +
   #36 * EVar vshiftst3) + #1312 * EPow P2 (EVar vlmMst1)) * EPow P2 (EVar vMt) + #10 * EVar vTbeta * (#32 + #120 *
   EVar vshiftst1 - #60 * EVar vshiftst2 + EVar vlmMst1 * (#230 - #240 * EVar vshiftst1 + #120 * EVar vshiftst2 - #42
   * EVar vshiftst3) + #39 * EVar vshiftst3 + #82 * EPow P2 (EVar vlmMst1)) * EPow P2 (EVar vMst1) * EPow P2 (EVar
   vs2t)) * EPow P4 (EVar vMst1)) + #96 * EPow P2 (EVar vMgl) * (#16 * EVar vMt * EPow P2 (EVar vMst1) * (#6750 * EVar
   vDmsqst1 * EVar vMt * EVar vs2t * EVar vTbeta + EVar vMuSUSY * (#323 - #75 * EVar vlmMgl + #383 * EVar vlmMst1 -
   #100 * EVar vlmMt + #32 * EPow P2 (EVar vlmMst1)) * EPow P2 (EVar vMt) - #450 * EVar vDmsqst1 * EVar vMuSUSY * EPow
   P2 (EVar vs2t)) + EVar vs2t * (- #21600 * EVar vTbeta * EVar vxDmsqst1 * EPow P2 (EVar vDmsqst1) * EPow P2 (EVar
   vMt) + (- #5 * EVar vMt * EVar vMuSUSY * EVar vs2t * (- #425 + #18 * EVar vlmMgl + #83 * EVar vlmMst1 + #91 * EPow
   P2 (EVar vlmMst1)) - #2 * EVar vTbeta * (#4113 + #90 * EVar vlmMgl - #1792 * EVar vlmMst1 + #120 * EVar vlmMt - #48
   * EPow P2 (EVar vlmMst1)) * EPow P2 (EVar vMt) + #1800 * EVar vDmsqst1 * EVar vTbeta * EPow P2 (EVar vs2t)) * EPow
   P4 (EVar vMst1)) + #5 * EVar vTbeta * (#200 + #18 * EVar vlmMgl + #265 * EVar vlmMst1 + #91 * EPow P2 (EVar
   vlmMst1)) * EPow P3 (EVar vs2t) * EPow P6 (EVar vMst1)))) / #3) - #32 * EVar vAl4p * EConst Cz2 * (EVar vAl4p *
   EVar vthreeLoopFlag * (EVar vxDmst12 * EPow P2 (EVar vMst1) * EPow P3 (EVar vDmst12) * (#4 * EVar vMuSUSY * EPow P2
   (EVar vMt) * (#6 * EVar vMgl * EVar vMt * EVar vs2t * (#500 * EVar vDmsqst1 - #79 * EPow P2 (EVar vMst1)) * EPow P2
   (EVar vMst1) + EPow P2 (EVar vMgl) * EPow P2 (EVar vMst1) * (#996 * EPow P2 (EVar vMt) + #5 * (#90 * EVar vDmsqst1
   - #91 * EPow P2 (EVar vMst1)) * EPow P2 (EVar vs2t)) - #80 * EVar vMt * EVar vs2t * (#15 * EVar vDmsqst1 + (- #94 +
   #45 * EVar vlmMgl - #45 * EVar vlmMst1) * EPow P2 (EVar vMst1)) * EPow P3 (EVar vMgl) - (#15 * EVar vDmsqst1 * (#3
   * EVar vshiftst1 + #2 * EVar vshiftst2) + (#10 + #45 * EVar vshiftst1 + #30 * EVar vshiftst2 + #27 * EVar
   vshiftst3) * EPow P2 (EVar vMst1)) * EPow P2 (EVar vs2t) * EPow P4 (EVar vMst1)) + EVar vTbeta * (#2 * EVar vs2t *
   EPow P2 (EVar vMst1) * EPow P2 (EVar vMt) * (#900 * EVar vDmsqst1 * EVar vMgl * (- #30 * EVar vMgl * EVar vMt + #4
   * EVar vs2t * EPow P2 (EVar vMgl) - EVar vs2t * EPow P2 (EVar vMst1)) + EPow P2 (EVar vMst1) * (#4556 * EVar vMt *
   EPow P2 (EVar vMgl) + #320 * EVar vMt * EPow P2 (EVar vMst1) - #960 * EVar vMgl * EVar vs2t * EPow P2 (EVar vMst1)
   - #15 * (#37 + #90 * EVar vlmMgl - #90 * EVar vlmMst1) * EVar vs2t * EPow P3 (EVar vMgl))) + #5 * EVar vMt * EPow
   P3 (EVar vs2t) * EPow P4 (EVar vMst1) * (#274 * EPow P2 (EVar vMgl) * EPow P2 (EVar vMst1) - #30 * EVar vDmsqst1 *
   (#3 * EPow P2 (EVar vMgl) + (#3 - #4 * EVar vshiftst1 + #2 * EVar vshiftst2) * EPow P2 (EVar vMst1)) + (- #41 +
   #120 * EVar vshiftst1 - #60 * EVar vshiftst2) * EPow P4 (EVar vMst1)) + #80 * EVar vMgl * (#4 * (#380 + #147 * EVar
   vlmMst1 - #249 * EVar vlmMt) * EPow P2 (EVar vMgl) * EPow P2 (EVar vMst1) - #360 * EVar vDmsqst1 * (#3 * (#4 + EVar
   vlmMst1 - EVar vlmMt) * EPow P2 (EVar vMgl) + (- #7 - #2 * EVar vlmMst1 + #2 * EVar vlmMt) * EPow P2 (EVar vMst1))
   + (- #16 + #9 * EVar vlmMst1 - #9 * EVar vlmMt) * EPow P4 (EVar vMst1)) * EPow P4 (EVar vMt) + #15 * EVar vshiftst3
   * (- #24 * EVar vs2t * EPow P3 (EVar vMt) + #7 * EVar vMt * EPow P2 (EVar vMst1) * EPow P3 (EVar vs2t)) * EPow P6
   (EVar vMst1))) + EVar vMt * EPow P2 (EVar vMst2) * (- #90 * EVar vMt * EVar vxDmsqst1 * EPow P2 (EVar vDmsqst1) *
   (#5 * EVar vDmst12 * EPow P2 (EVar vMst1) * (EVar vDmst12 * (- #8 * EVar vMgl * EVar vMt * (EVar vMuSUSY * EVar
   vs2t + (#17 + #6 * EVar vlmMst1 - #6 * EVar vlmMt) * EVar vMt * EVar vTbeta) + EVar vs2t * (EVar vMuSUSY * EVar
   vs2t - #4 * EVar vMt * EVar vTbeta) * EPow P2 (EVar vMst1) + #6 * EVar vMgl * EVar vs2t * EVar vTbeta * (#6 * EVar
   vMgl * EVar vMt + EVar vs2t * EPow P2 (EVar vMst1))) - #4 * EVar vMt * (- #2 * EVar vMgl * (EVar vMuSUSY * EVar
   vs2t + (#17 + #6 * EVar vlmMst1 - #6 * EVar vlmMt) * EVar vMt * EVar vTbeta) + #9 * EVar vs2t * EVar vTbeta * EPow
   P2 (EVar vMgl) + #2 * EVar vs2t * EVar vTbeta * EPow P2 (EVar vMst1)) * EPow P2 (EVar vMst2)) + #80 * EVar vMgl *
   EVar vTbeta * ((#22 + #6 * EVar vlmMst1 - #6 * EVar vlmMt) * EPow P2 (EVar vMgl) + (#5 + #2 * EVar vlmMst1 - #2 *
   EVar vlmMt) * EPow P2 (EVar vMst1)) * EPow P2 (EVar vMt) * EPow P4 (EVar vMst2)) + EPow P2 (EVar vMst1) * (#5 *
   EVar vTbeta * (#6 * EVar vDmst12 * EVar vMt * EVar vs2t * EPow P2 (EVar vMst1) * (- (EVar vDmst12 * EVar vMgl *
   EVar vs2t * (#2 * (#113 - #90 * EVar vlmMgl + #90 * EVar vlmMst1) * EPow P2 (EVar vMgl) * EPow P2 (EVar vMst1) +
   #60 * EVar vDmsqst1 * (#2 * EPow P2 (EVar vMgl) + EPow P2 (EVar vMst1)) - #34 * EPow P4 (EVar vMst1))) + #12 * EVar
   vMt * (#5 * EVar vDmst12 * (#3 * EPow P2 (EVar vMgl) * EPow P2 (EVar vMst1) + #2 * EVar vDmsqst1 * (#6 * EPow P2
   (EVar vMgl) + EPow P2 (EVar vMst1)) + EPow P4 (EVar vMst1)) + EPow P2 (EVar vMst2) * (#30 * EVar vDmsqst1 * EPow P2
   (EVar vMgl) + #20 * EVar vDmsqst1 * EPow P2 (EVar vMst1) - #59 * EPow P2 (EVar vMgl) * EPow P2 (EVar vMst1) + #10 *
   EPow P4 (EVar vMst1)))) + #90 * EVar vs2t * (EVar vDmsqst1 + EPow P2 (EVar vMst1)) * EPow P4 (EVar vMst1) * (- #8 *
   EVar vDmst12 * EVar vshiftst2 * EPow P2 (EVar vMst2) * EPow P2 (EVar vMt) + (- EVar vshiftst1 + EVar vshiftst2) *
   EPow P2 (EVar vDmst12) * EPow P2 (EVar vMst1) * EPow P2 (EVar vs2t) + #8 * (EVar vshiftst1 - EVar vshiftst2) * EPow
   P2 (EVar vMt) * EPow P4 (EVar vMst2)) - #8 * EVar vMgl * EPow P3 (EVar vMt) * (- #180 * EVar vDmsqst1 * (EPow P2
   (EVar vDmst12) * (#12 * (#4 + EVar vlmMst1 - EVar vlmMt) * EPow P2 (EVar vMgl) + (- #7 - #2 * EVar vlmMst1 + #2 *
   EVar vlmMt) * EPow P2 (EVar vMst1)) - #2 * EVar vDmst12 * (#6 * (#4 + EVar vlmMst1 - EVar vlmMt) * EPow P2 (EVar
   vMgl) + (#7 + #2 * EVar vlmMst1 - #2 * EVar vlmMt) * EPow P2 (EVar vMst1)) * EPow P2 (EVar vMst2) - #2 * (#4 + EVar
   vlmMst1 - EVar vlmMt) * (#2 * EPow P2 (EVar vMgl) + EPow P2 (EVar vMst1)) * EPow P4 (EVar vMst2)) + EPow P2 (EVar
   vMst1) * (EPow P2 (EVar vDmst12) * ((#3147 + #822 * EVar vlmMst1 - #822 * EVar vlmMt) * EPow P2 (EVar vMgl) + (#691
   + #216 * EVar vlmMst1 - #216 * EVar vlmMt) * EPow P2 (EVar vMst1)) - #2 * EVar vDmst12 * ((#1627 + #234 * EVar
   vlmMst1 + #174 * EVar vlmMt) * EPow P2 (EVar vMgl) + (- #457 - #87 * EVar vlmMst1 + #87 * EVar vlmMt) * EPow P2
   (EVar vMst1)) * EPow P2 (EVar vMst2) + #4 * ((- #1070 - #207 * EVar vlmMst1 + #3 * EVar vlmMt) * EPow P2 (EVar
   vMgl) + (#100 - #3 * EVar vlmMst1 + #3 * EVar vlmMt) * EPow P2 (EVar vMst1)) * EPow P4 (EVar vMst2))) + #9 * EVar
   vs2t * EVar vshiftst3 * (- (EPow P2 (EVar vDmst12) * EPow P2 (EVar vMst1) * EPow P2 (EVar vs2t)) + #8 * EPow P2
   (EVar vMt) * (EPow P2 (EVar vDmst12) - EVar vDmst12 * EPow P2 (EVar vMst2) + EPow P4 (EVar vMst2))) * EPow P6 (EVar
   vMst1)) + #2 * EVar vMt * EVar vMuSUSY * (#4 * EPow P2 (EVar vMgl) * EPow P2 (EVar vMst1) * (#11 * EPow P2 (EVar
   vDmst12) - #520 * EPow P2 (EVar vMst2) * (EVar vDmst12 + EPow P2 (EVar vMst2))) * EPow P2 (EVar vMt) + #5 * EVar
   vDmst12 * EVar vs2t * (- #8 * EVar vMgl * EVar vMt * EPow P2 (EVar vMst2) * ((#113 - #90 * EVar vlmMgl + #90 * EVar
   vlmMst1) * EPow P2 (EVar vMgl) * EPow P2 (EVar vMst1) + #30 * EVar vDmsqst1 * (#2 * EPow P2 (EVar vMgl) + EPow P2
   (EVar vMst1)) - #17 * EPow P4 (EVar vMst1)) - #30 * EVar vs2t * (EVar vDmsqst1 + EPow P2 (EVar vMst1)) * (- (EVar
   vDmst12 * EVar vshiftst2) + #2 * (EVar vshiftst1 - EVar vshiftst2) * EPow P2 (EVar vMst2)) * EPow P4 (EVar vMst1) -
   #4 * EVar vDmst12 * EVar vMt * ((#263 - #90 * EVar vlmMgl + #90 * EVar vlmMst1) * EPow P2 (EVar vMst1) * EPow P3
   (EVar vMgl) - #120 * EVar vDmsqst1 * (- (EVar vMgl * EPow P2 (EVar vMst1)) + EPow P3 (EVar vMgl)) + #30 * EVar vMgl
   * EPow P4 (EVar vMst1)) + EVar vDmst12 * EVar vs2t * EPow P2 (EVar vMst1) * (#274 * EPow P2 (EVar vMgl) * EPow P2
   (EVar vMst1) + #30 * EVar vDmsqst1 * (- #3 * EPow P2 (EVar vMgl) + (- #3 + EVar vshiftst1) * EPow P2 (EVar vMst1))
   + (- #41 + #30 * EVar vshiftst1) * EPow P4 (EVar vMst1)) + #3 * EVar vs2t * EVar vshiftst3 * (#3 * EVar vDmst12 -
   #2 * EPow P2 (EVar vMst2)) * EPow P6 (EVar vMst1)))))) + #1440 * EVar vTbeta * EVar vtwoLoopFlag * EPow P4 (EVar
   vMt) * ((EVar vDmst12 + EPow P2 (EVar vMst2)) * EPow P3 (EVar vMgl) * EPow P4 (EVar vMst1) * EPow P4 (EVar vMst2) +
   EVar vx * EPow P2 (EVar vMst1) * EPow P2 (EVar vMst2) * (- #3 * EPow P2 (EVar vDmst12) + #3 * EVar vDmst12 * EPow
   P2 (EVar vMst2) + #2 * EPow P4 (EVar vMst2)) * EPow P5 (EVar vMgl) - EVar vxDmst12 * EPow P2 (EVar vMst1) * EPow P3
   (EVar vDmst12) * (EPow P2 (EVar vMst1) * EPow P3 (EVar vMgl) - #3 * EVar vx * EPow P5 (EVar vMgl)) + #3 * EVar vx *
   EPow P6 (EVar vMst2) * EPow P7 (EVar vMgl))) + EPow P2 (EVar vMst2) * EPow P2 (EVar vMt) * (- #960 * EVar vAl4p *
   EVar vtwoLoopFlag * (EPow P4 (EVar vMst1) * (EVar vDmst12 * EVar vs2t * (#4 * EVar vMgl * EVar vMt * EVar vMuSUSY *
   ((#1 - #2 * EVar vlmMgl + #2 * EVar vlmMst1) * EPow P2 (EVar vMgl) + (#2 + EVar vlmMst1) * EPow P2 (EVar vMst1)) *
   EPow P2 (EVar vMst2) + EVar vDmst12 * ((#3 + #2 * EVar vlmMst1) * EVar vMuSUSY * EVar vs2t * EPow P2 (EVar vMgl) *
   EPow P2 (EVar vMst1) + (#2 * (#3 - #2 * EVar vlmMgl + #2 * EVar vlmMst1) * EVar vMt * EVar vMuSUSY + #3 * (#1 - #2
   * EVar vlmMgl + #2 * EVar vlmMst1) * EVar vs2t * EVar vTbeta * EPow P2 (EVar vMst1)) * EPow P3 (EVar vMgl) - (#1 +
   #2 * EVar vlmMst1) * EVar vMuSUSY * EVar vs2t * EPow P4 (EVar vMst1) + EVar vMgl * (#2 * EVar vMt * EVar vMuSUSY *
   EPow P2 (EVar vMst1) + #3 * (#2 + EVar vlmMst1) * EVar vs2t * EVar vTbeta * EPow P4 (EVar vMst1)))) + EVar vMt *
   EVar vTbeta * (- #3 * EVar vDmst12 * EVar vs2t * EPow P2 (EVar vMst1) * (#2 * EVar vDmst12 * (EPow P2 (EVar vMgl) +
   (- #1 + #2 * EVar vlmMst1) * EPow P2 (EVar vMst1)) + #4 * ((#2 + EVar vlmMst1) * EPow P2 (EVar vMgl) - (#1 + #2 *
   EVar vlmMst1) * EPow P2 (EVar vMst1)) * EPow P2 (EVar vMst2)) + EVar vMt * (EPow P2 (EVar vDmst12) * (#4 * (#1 +
   EVar vlmMt) * EVar vMgl * EPow P2 (EVar vMst1) - #8 * (- #3 + EVar vlmMgl - #2 * EVar vlmMst1 + EVar vlmMt) * EPow
   P3 (EVar vMgl)) + #3 * EVar vDmst12 * EPow P2 (EVar vMst2) * (- #4 * (#1 + EVar vlmMt) * EVar vMgl * EPow P2 (EVar
   vMst1) + #4 * (#2 + #6 * EVar vlmMst1 - #3 * EVar vlmMt - #2 * EVar vlmMst1 * EVar vlmMt + EVar vlmMgl * (- #3 - #2
   * EVar vlmMst1 + #2 * EVar vlmMt) + #2 * EPow P2 (EVar vlmMst1)) * EPow P3 (EVar vMgl)) + (- #24 * (#1 + EVar
   vlmMt) * EVar vMgl * EPow P2 (EVar vMst1) - #24 * (EVar vlmMgl * (#1 + EVar vlmMst1 - EVar vlmMt) + EVar vlmMst1 *
   (- #2 + EVar vlmMt) + EVar vlmMt - EPow P2 (EVar vlmMst1)) * EPow P3 (EVar vMgl)) * EPow P4 (EVar vMst2)))) - EVar
   vx * (EVar vDmst12 * (- #1 + #3 * EVar vlmMgl - #3 * EVar vlmMst1) * EVar vs2t * EPow P2 (EVar vMst1) * (- #4 *
   EVar vDmst12 * EVar vMt * EVar vMuSUSY + #3 * EVar vDmst12 * EVar vs2t * EVar vTbeta * EPow P2 (EVar vMst1) + #4 *
   EVar vMt * EVar vMuSUSY * EPow P2 (EVar vMst2)) + #3 * EVar vMt * EVar vTbeta * (#4 * EVar vMt * (#9 + EVar vlmMgl
   * (#20 + #6 * EVar vlmMst1 - #6 * EVar vlmMt) + #2 * EVar vlmMt + EVar vlmMst1 * (- #22 + #6 * EVar vlmMt) - #6 *
   EPow P2 (EVar vlmMst1)) * EPow P2 (EVar vMgl) * EPow P4 (EVar vMst2) + EPow P2 (EVar vMst1) * (#4 * EVar vDmst12 *
   (- #1 + #3 * EVar vlmMgl - #3 * EVar vlmMst1) * EVar vMgl * EVar vs2t * (EVar vDmst12 - EPow P2 (EVar vMst2)) + #4
   * EVar vDmst12 * EVar vMt * (EVar vlmMst1 * (#22 - #6 * EVar vlmMt) - #5 * EVar vlmMt + EVar vlmMgl * (- #17 - #6 *
   EVar vlmMst1 + #6 * EVar vlmMt) + #6 * EPow P2 (EVar vlmMst1)) * (EVar vDmst12 - EPow P2 (EVar vMst2)) + #8 * EVar
   vMt * (#2 + EVar vlmMgl * (#5 + #2 * EVar vlmMst1 - #2 * EVar vlmMt) + #2 * EVar vlmMst1 * (- #3 + EVar vlmMt) +
   EVar vlmMt - #2 * EPow P2 (EVar vlmMst1)) * EPow P4 (EVar vMst2)))) * EPow P5 (EVar vMgl)) + #180 * EVar vDmst12 *
   EVar voneLoopFlag * EVar vs2t * (EVar vDmst12 * EVar vMuSUSY * EVar vs2t + #6 * EVar vDmst12 * EVar vMt * EVar
   vTbeta - #12 * EVar vMt * EVar vTbeta * EPow P2 (EVar vMst2)) * EPow P8 (EVar vMst1)) - #2 * EVar vthreeLoopFlag *
   EPow P2 (EVar vAl4p) * (#80 * EConst Cz2 * EPow P2 (EVar vMst1) * (#45 * EVar vMt * EVar vxDmsqst1 * EVar vxDmst12
   * EPow P2 (EVar vDmsqst1) * (#72 * EVar vs2t * EVar vTbeta * EPow P2 (EVar vMgl) * EPow P2 (EVar vMt) - #8 * EVar
   vMgl * EVar vMt * (#2 * EVar vMt * EVar vMuSUSY * EVar vs2t + #2 * (#17 + #6 * EVar vlmMst1 - #6 * EVar vlmMt) *
   EVar vTbeta * EPow P2 (EVar vMt) - #3 * EVar vTbeta * EPow P2 (EVar vMst1) * EPow P2 (EVar vs2t)) - EVar vs2t *
   EPow P2 (EVar vMst1) * (- #4 * EVar vMt * EVar vMuSUSY * EVar vs2t + #32 * EVar vTbeta * EPow P2 (EVar vMt) + EVar
   vTbeta * EPow P2 (EVar vMst1) * EPow P2 (EVar vs2t))) * EPow P3 (EVar vDmst12) + #2 * EVar vxMgl * EPow P4 (EVar
   vMgl) * (- #6 * EVar vMt * EVar vxDmst12 * EPow P3 (EVar vDmst12) * (- #4 * EVar vs2t * EVar vTbeta * (#75 * EVar
   vDmsqst1 + #2 * (#170 - #27 * EVar vlmMgl + #27 * EVar vlmMst1) * EPow P2 (EVar vMst1)) * EPow P2 (EVar vMt) + #4 *
   (#49 - #17 * EVar vlmMgl + #17 * EVar vlmMst1) * EVar vMt * EVar vMuSUSY * EPow P2 (EVar vMst1) * EPow P2 (EVar
   vs2t) + #48 * (#17 - #4 * EVar vlmMgl + #4 * EVar vlmMst1) * EVar vMuSUSY * EPow P3 (EVar vMt) + (- #49 + #17 *
   EVar vlmMgl - #17 * EVar vlmMst1) * EVar vTbeta * EPow P3 (EVar vs2t) * EPow P4 (EVar vMst1)) + EPow P2 (EVar
   vMst2) * (- #12 * EVar vDmst12 * EVar vs2t * EVar vTbeta * (#150 * EVar vDmsqst1 * (EVar vDmst12 - EPow P2 (EVar
   vMst2)) + EPow P2 (EVar vMst1) * (EVar vDmst12 * (#146 - #27 * EVar vlmMgl + #27 * EVar vlmMst1) + #2 * (#194 - #27
   * EVar vlmMgl + #27 * EVar vlmMst1) * EPow P2 (EVar vMst2))) * EPow P3 (EVar vMt) + EVar vMuSUSY * (#12 * (#49 -
   #17 * EVar vlmMgl + #17 * EVar vlmMst1) * EPow P2 (EVar vDmst12) * EPow P2 (EVar vMst1) * EPow P2 (EVar vMt) * EPow
   P2 (EVar vs2t) + #32 * (#9 * EVar vDmst12 * (#17 - #4 * EVar vlmMgl + #4 * EVar vlmMst1) * (EVar vDmst12 - EPow P2
   (EVar vMst2)) + #2 * (- #47 + #12 * EVar vlmMgl - #12 * EVar vlmMst1) * EPow P4 (EVar vMst2)) * EPow P4 (EVar
   vMt))))) + #3 * EVar vMt * EConst Cz3 * (#80 * EVar vDmst12 * EPow P2 (EVar vMst1) * EPow P2 (EVar vMt) * (#64 *
   (#1440 * EVar vDmsqst1 * EVar vMt * EVar vTbeta + (#81 * EVar vMuSUSY * EVar vs2t + #50 * EVar vMt * EVar vTbeta) *
   EPow P2 (EVar vMst1)) * EPow P3 (EVar vMgl) + #96 * EVar vxMgl * (#121 * EVar vMt * EVar vMuSUSY + #93 * EVar vs2t
   * EVar vTbeta * EPow P2 (EVar vMst1)) * EPow P4 (EVar vMgl) + #3 * EVar vs2t * EVar vTbeta * EPow P2 (EVar vMst1) *
   (- #245 * EVar vxDmsqst1 * EPow P2 (EVar vDmsqst1) - #280 * EVar vDmsqst1 * EPow P2 (EVar vMst1) + #248 * EPow P4
   (EVar vMst1)) + #32 * EPow P2 (EVar vMgl) * (- #7 * EVar vMt * EVar vMuSUSY * EPow P2 (EVar vMst1) + #6 * EVar vs2t
   * EVar vTbeta * EPow P4 (EVar vMst1)) + #32 * EVar vMgl * (#720 * EVar vMt * EVar vTbeta * EVar vxDmsqst1 * EPow P2
   (EVar vDmsqst1) + #960 * EVar vDmsqst1 * EVar vMt * EVar vTbeta * EPow P2 (EVar vMst1) + (- #7 * EVar vMuSUSY *
   EVar vs2t + #248 * EVar vMt * EVar vTbeta) * EPow P4 (EVar vMst1))) * EPow P4 (EVar vMst2) + #40 * EVar vMt * EPow
   P2 (EVar vDmst12) * EPow P2 (EVar vMst1) * EPow P2 (EVar vMst2) * (- #8 * EVar vMuSUSY * EPow P2 (EVar vMgl) * EPow
   P2 (EVar vMst1) * (- #7 * EPow P2 (EVar vMt) + #90 * EPow P2 (EVar vMst1) * EPow P2 (EVar vs2t)) - #24 * EVar vxMgl
   * (- #372 * EVar vMt * EVar vs2t * EVar vTbeta * EPow P2 (EVar vMst1) + #968 * EVar vMuSUSY * EPow P2 (EVar vMt) +
   #259 * EVar vMuSUSY * EPow P2 (EVar vMst1) * EPow P2 (EVar vs2t)) * EPow P4 (EVar vMgl) + #3 * EVar vs2t * EPow P2
   (EVar vMst1) * (#35 * (#3 * EVar vMuSUSY * EVar vs2t - EVar vMt * EVar vTbeta) * EVar vxDmsqst1 * EPow P2 (EVar
   vDmsqst1) + #70 * EVar vDmsqst1 * (#2 * EVar vMuSUSY * EVar vs2t - #7 * EVar vMt * EVar vTbeta) * EPow P2 (EVar
   vMst1) + #48 * (EVar vMuSUSY * EVar vs2t - #11 * EVar vMt * EVar vTbeta) * EPow P4 (EVar vMst1)) + #32 * EPow P3
   (EVar vMgl) * (#2 * EVar vMt * (#81 * EVar vMuSUSY * EVar vs2t + #1096 * EVar vMt * EVar vTbeta) * EPow P2 (EVar
   vMst1) - #5760 * EVar vDmsqst1 * EVar vTbeta * EPow P2 (EVar vMt) + #243 * EVar vTbeta * EPow P2 (EVar vs2t) * EPow
   P4 (EVar vMst1)) - #16 * EVar vMgl * EVar vTbeta * (#2880 * EVar vxDmsqst1 * EPow P2 (EVar vDmsqst1) * EPow P2
   (EVar vMt) - #1920 * EVar vDmsqst1 * EPow P2 (EVar vMst1) * EPow P2 (EVar vMt) - #1136 * EPow P2 (EVar vMt) * EPow
   P4 (EVar vMst1) + #21 * EPow P2 (EVar vs2t) * EPow P6 (EVar vMst1))) + EVar vxDmst12 * EPow P2 (EVar vMst1) * EPow
   P3 (EVar vDmst12) * (- #1920 * EVar vMt * EPow P3 (EVar vMgl) * (#16 * EVar vMt * (#27 * EVar vMuSUSY * EVar vs2t +
   #191 * EVar vMt * EVar vTbeta) * EPow P2 (EVar vMst1) - #3840 * EVar vDmsqst1 * EVar vTbeta * EPow P2 (EVar vMt) +
   #81 * EVar vTbeta * EPow P2 (EVar vs2t) * EPow P4 (EVar vMst1)) + #15 * EVar vs2t * EPow P2 (EVar vMst1) * (#140 *
   EVar vxDmsqst1 * EPow P2 (EVar vDmsqst1) * (- #12 * EVar vMt * EVar vMuSUSY * EVar vs2t + #32 * EVar vTbeta * EPow
   P2 (EVar vMt) + #3 * EVar vTbeta * EPow P2 (EVar vMst1) * EPow P2 (EVar vs2t)) + #35 * EVar vDmsqst1 * EPow P2
   (EVar vMst1) * (#8 * EVar vMt * EVar vMuSUSY * EVar vs2t + #31 * EVar vTbeta * EPow P2 (EVar vMt) + #16 * EVar
   vTbeta * EPow P2 (EVar vMst1) * EPow P2 (EVar vs2t)) + #8 * (#22 * EVar vMt * EVar vMuSUSY * EVar vs2t + #85 * EVar
   vTbeta * EPow P2 (EVar vMt) + #24 * EVar vTbeta * EPow P2 (EVar vMst1) * EPow P2 (EVar vs2t)) * EPow P4 (EVar
   vMst1)) + #480 * EVar vxMgl * EPow P4 (EVar vMgl) * (- #2976 * EVar vs2t * EVar vTbeta * EPow P2 (EVar vMst1) *
   EPow P2 (EVar vMt) + #1036 * EVar vMt * EVar vMuSUSY * EPow P2 (EVar vMst1) * EPow P2 (EVar vs2t) + #1936 * EVar
   vMuSUSY * EPow P3 (EVar vMt) - #259 * EVar vTbeta * EPow P3 (EVar vs2t) * EPow P4 (EVar vMst1)) + #128 * EVar vMgl
   * EVar vMt * (#14400 * EVar vTbeta * EVar vxDmsqst1 * EPow P2 (EVar vDmsqst1) * EPow P2 (EVar vMt) - #38400 * EVar
   vDmsqst1 * EVar vTbeta * EPow P2 (EVar vMst1) * EPow P2 (EVar vMt) + (#6 * EVar vMt * EVar vMuSUSY * EVar vs2t -
   #440 * EVar vTbeta * EPow P2 (EVar vMt)) * EPow P4 (EVar vMst1) + #105 * EVar vTbeta * EPow P2 (EVar vs2t) * EPow
   P6 (EVar vMst1)) - #320 * EPow P2 (EVar vMgl) * (- #42 * EVar vMuSUSY * EPow P2 (EVar vMst1) * EPow P3 (EVar vMt) -
   EVar vMt * EVar vs2t * (#45 * EVar vMuSUSY * EVar vs2t + #7 * EVar vMt * EVar vTbeta) * EPow P4 (EVar vMst1) + #45
   * EVar vTbeta * EPow P3 (EVar vs2t) * EPow P6 (EVar vMst1))) + #2560 * EVar vMgl * EPow P3 (EVar vMt) * (#242 *
   EVar vMuSUSY * EVar vxMgl * EPow P2 (EVar vMst1) * EPow P3 (EVar vMgl) + #20 * EVar vTbeta * EPow P2 (EVar vMgl) *
   (#72 * EVar vxDmsqst1 * EPow P2 (EVar vDmsqst1) + #48 * EVar vDmsqst1 * EPow P2 (EVar vMst1) - #19 * EPow P4 (EVar
   vMst1)) - #7 * EVar vMgl * EVar vMuSUSY * EPow P4 (EVar vMst1) + #16 * EVar vTbeta * EPow P2 (EVar vMst1) * (#30 *
   EVar vxDmsqst1 * EPow P2 (EVar vDmsqst1) + #30 * EVar vDmsqst1 * EPow P2 (EVar vMst1) + EPow P4 (EVar vMst1))) *
   EPow P6 (EVar vMst2)) / #4 + #20 * EVar vMt * EPow P2 (EVar vMst2) * (#15 * EVar vxDmsqst1 * EPow P2 (EVar
   vDmsqst1) * (EVar vDmst12 * EVar vMt * EVar vMuSUSY * EVar vs2t * EPow P2 (EVar vMst1) * (- #256 * EVar vDmst12 *
   EVar vMgl * EVar vMt + EVar vDmst12 * EVar vs2t * (#21 - #8 * (EVar vshiftst1 + EVar vshiftst2)) * EPow P2 (EVar
   vMst1) + #256 * EVar vMgl * EVar vMt * EPow P2 (EVar vMst2) + #16 * EVar vs2t * (EVar vshiftst1 - EVar vshiftst2) *
   EPow P2 (EVar vMst1) * EPow P2 (EVar vMst2)) - #3 * EVar vDmst12 * EVar vTbeta * EPow P2 (EVar vMst1) * (#2 * (#16
   * (#1 - #19 * EVar vlmMst1 + #19 * EVar vlmMt) * EVar vMgl * EVar vMt + #192 * EVar vs2t * EPow P2 (EVar vMgl) +
   EVar vs2t * (#47 - #16 * EVar vshiftst2) * EPow P2 (EVar vMst1)) * EPow P2 (EVar vMst2) * EPow P2 (EVar vMt) - EVar
   vDmst12 * (EVar vs2t * (#384 * EPow P2 (EVar vMgl) - #45 * EPow P2 (EVar vMst1)) * EPow P2 (EVar vMt) + #32 * EVar
   vMgl * EVar vMt * ((#1 - #19 * EVar vlmMst1 + #19 * EVar vlmMt) * EPow P2 (EVar vMt) + #2 * EPow P2 (EVar vMst1) *
   EPow P2 (EVar vs2t)) + #4 * (EVar vshiftst1 - EVar vshiftst2) * EPow P3 (EVar vs2t) * EPow P4 (EVar vMst1))) + #96
   * EVar vTbeta * EPow P2 (EVar vMt) * (#4 * (- #1 + #3 * EVar vlmMst1 - #3 * EVar vlmMt) * EVar vMgl * EVar vMt *
   EPow P2 (EVar vMst1) + #4 * EVar vMt * (#4 + EVar vlmMgl * (#1 + EVar vlmMst1 - EVar vlmMt) - #8 * EVar vlmMt +
   EVar vlmMst1 * (#7 + EVar vlmMt) - EPow P2 (EVar vlmMst1)) * EPow P3 (EVar vMgl) + EVar vs2t * (- EVar vshiftst1 +
   EVar vshiftst2) * EPow P4 (EVar vMst1)) * EPow P4 (EVar vMst2)) + #2 * EPow P2 (EVar vMst1) * (#4 * EVar vMt * EVar
   vMuSUSY * (EPow P2 (EVar vDmst12) * (- #2 * EPow P2 (EVar vMgl) * EPow P2 (EVar vMst1) * (#4 * (#163 + #15 * EVar
   vlmMgl - #27 * EVar vlmMst1 + #20 * EVar vlmMt - #8 * EPow P2 (EVar vlmMst1)) * EPow P2 (EVar vMt) - #5 * (#360 *
   EVar vDmsqst1 + (#200 + #18 * EVar vlmMgl + #265 * EVar vlmMst1 + #91 * EPow P2 (EVar vlmMst1)) * EPow P2 (EVar
   vMst1)) * EPow P2 (EVar vs2t)) + EVar vMt * EVar vs2t * (#40 * EVar vMgl * EPow P2 (EVar vMst1) * (#210 * EVar
   vDmsqst1 + (#149 + #41 * EVar vlmMst1) * EPow P2 (EVar vMst1)) - #80 * (#60 * EVar vDmsqst1 * (#3 - EVar vlmMgl +
   EVar vlmMst1) + (- #249 - #176 * EVar vlmMst1 - #4 * EVar vlmMgl * (- #41 + #5 * EVar vlmMst1) + #27 * EPow P2
   (EVar vlmMgl) + EPow P2 (EVar vlmMst1)) * EPow P2 (EVar vMst1)) * EPow P3 (EVar vMgl)) + #5 * (#15 * EVar vDmsqst1
   * (#3 - #6 * EVar vshiftst1 - #6 * EVar vshiftst2 + #4 * EVar vlmMst1 * (- #2 + EVar vshiftst1 + EVar vshiftst2)) -
   (#32 + #30 * (EVar vshiftst1 + EVar vshiftst2) + #2 * EVar vlmMst1 * (#115 - #30 * (EVar vshiftst1 + EVar
   vshiftst2) - #9 * EVar vshiftst3) + #21 * EVar vshiftst3 + #82 * EPow P2 (EVar vlmMst1)) * EPow P2 (EVar vMst1)) *
   EPow P2 (EVar vs2t) * EPow P4 (EVar vMst1)) / #10 - EVar vDmst12 * EPow P2 (EVar vMst2) * (#16 * (#16 - #9 * EVar
   vlmMgl + #41 * EVar vlmMst1 - #12 * EVar vlmMt + #4 * EPow P2 (EVar vlmMst1)) * EPow P2 (EVar vMgl) * EPow P2 (EVar
   vMst1) * EPow P2 (EVar vMt) - #3 * (#10 * EVar vDmsqst1 * (#3 - #2 * EVar vlmMst1) * (EVar vshiftst1 - EVar
   vshiftst2) + (#1 - #2 * EVar vlmMst1) * (#10 * EVar vshiftst1 - #10 * EVar vshiftst2 + EVar vshiftst3) * EPow P2
   (EVar vMst1)) * EPow P2 (EVar vs2t) * EPow P4 (EVar vMst1) + EVar vMt * EVar vs2t * (#16 * (- #11 + #154 * EVar
   vlmMgl - #148 * EVar vlmMst1 - #20 * EVar vlmMgl * EVar vlmMst1 + #27 * EPow P2 (EVar vlmMgl) + EPow P2 (EVar
   vlmMst1)) * EPow P2 (EVar vMst1) * EPow P3 (EVar vMgl) + #240 * EVar vDmsqst1 * (- #3 * EVar vMgl * EPow P2 (EVar
   vMst1) + #2 * (- #3 + EVar vlmMgl - EVar vlmMst1) * EPow P3 (EVar vMgl)) - #4 * EVar vMgl * (#215 + #118 * EVar
   vlmMst1 + #41 * EPow P2 (EVar vlmMst1)) * EPow P4 (EVar vMst1))) + #8 * (#5 + #18 * EVar vlmMgl - #74 * EVar
   vlmMst1 + #24 * EVar vlmMt - #8 * EPow P2 (EVar vlmMst1)) * EPow P2 (EVar vMgl) * EPow P2 (EVar vMst1) * EPow P2
   (EVar vMt) * EPow P4 (EVar vMst2)) - EVar vTbeta * (#3 * EVar vDmst12 * EVar vMt * EVar vs2t * EPow P2 (EVar vMst1)
   * (- #4 * EVar vDmst12 * EVar vMgl * EVar vs2t * (- #4 * (- #11 + EVar vlmMgl * (#154 - #20 * EVar vlmMst1) - #148
   * EVar vlmMst1 + #27 * EPow P2 (EVar vlmMgl) + EPow P2 (EVar vlmMst1)) * EPow P2 (EVar vMgl) * EPow P2 (EVar vMst1)
   + #60 * EVar vDmsqst1 * ((#6 - #2 * EVar vlmMgl + #2 * EVar vlmMst1) * EPow P2 (EVar vMgl) + #3 * EPow P2 (EVar
   vMst1)) + (#215 + #118 * EVar vlmMst1 + #41 * EPow P2 (EVar vlmMst1)) * EPow P4 (EVar vMst1)) + EVar vMt * (#4 *
   EPow P2 (EVar vMst2) * (#2 * (#501 - #18 * EVar vlmMgl + #504 * EVar vlmMst1 - #48 * EVar vlmMt + #107 * EPow P2
   (EVar vlmMst1)) * EPow P2 (EVar vMgl) * EPow P2 (EVar vMst1) + #30 * EVar vDmsqst1 * (#36 * EPow P2 (EVar vMgl) +
   (#5 - #4 * EVar vlmMst1) * EPow P2 (EVar vMst1)) - #4 * (- #6 + #79 * EVar vlmMst1 + #41 * EPow P2 (EVar vlmMst1))
   * EPow P4 (EVar vMst1)) + EVar vDmst12 * (#8 * (#522 + #107 * EVar vlmMst1) * EPow P2 (EVar vMgl) * EPow P2 (EVar
   vMst1) + #15 * EVar vDmsqst1 * (#336 * EPow P2 (EVar vMgl) + #31 * EPow P2 (EVar vMst1)) + #4 * (- #95 - #66 * EVar
   vlmMst1 + #82 * EPow P2 (EVar vlmMst1)) * EPow P4 (EVar vMst1)))) + #90 * EVar vs2t * (EVar vDmsqst1 * (- #3 + #2 *
   EVar vlmMst1) + (- #1 + #2 * EVar vlmMst1) * EPow P2 (EVar vMst1)) * EPow P4 (EVar vMst1) * (#8 * EVar vDmst12 *
   EVar vshiftst2 * EPow P2 (EVar vMst2) * EPow P2 (EVar vMt) + (EVar vshiftst1 - EVar vshiftst2) * EPow P2 (EVar
   vDmst12) * EPow P2 (EVar vMst1) * EPow P2 (EVar vs2t) + #8 * (- EVar vshiftst1 + EVar vshiftst2) * EPow P2 (EVar
   vMt) * EPow P4 (EVar vMst2)) + #16 * EVar vMgl * EPow P3 (EVar vMt) * (#30 * EVar vDmsqst1 * (EPow P2 (EVar
   vDmst12) * (#6 * (#31 + #27 * EVar vlmMst1 - #24 * EVar vlmMt - #2 * EVar vlmMst1 * EVar vlmMt + EVar vlmMgl * (-
   #3 - #2 * EVar vlmMst1 + #2 * EVar vlmMt) + #2 * EPow P2 (EVar vlmMst1)) * EPow P2 (EVar vMgl) + (- #13 - #19 *
   EVar vlmMst1 + #19 * EVar vlmMt) * EPow P2 (EVar vMst1)) - #6 * EVar vDmst12 * ((#31 + #27 * EVar vlmMst1 - #24 *
   EVar vlmMt - #2 * EVar vlmMst1 * EVar vlmMt + EVar vlmMgl * (- #3 - #2 * EVar vlmMst1 + #2 * EVar vlmMt) + #2 *
   EPow P2 (EVar vlmMst1)) * EPow P2 (EVar vMgl) + (#3 + #7 * EVar vlmMst1 - #7 * EVar vlmMt) * EPow P2 (EVar vMst1))
   * EPow P2 (EVar vMst2) - #12 * ((#7 + #6 * EVar vlmMst1 - #5 * EVar vlmMt - EVar vlmMst1 * EVar vlmMt + EVar vlmMgl
   * (- #1 - EVar vlmMst1 + EVar vlmMt) + EPow P2 (EVar vlmMst1)) * EPow P2 (EVar vMgl) + (#1 + #2 * EVar vlmMst1 - #2
   * EVar vlmMt) * EPow P2 (EVar vMst1)) * EPow P4 (EVar vMst2)) - EPow P2 (EVar vMst1) * (EPow P2 (EVar vDmst12) * (-
   ((- #3749 - #2374 * EVar vlmMst1 + #1770 * EVar vlmMt - #117 * EVar vlmMst1 * EVar vlmMt + EVar vlmMgl * (#96 -
   #237 * EVar vlmMst1 + #157 * EVar vlmMt) + #108 * EPow P2 (EVar vlmMgl) + #41 * EPow P2 (EVar vlmMst1) + #48 * EPow
   P2 (EVar vlmMt)) * EPow P2 (EVar vMgl)) + (EVar vlmMst1 * (#297 + #2 * EVar vlmMt) + #15 * EPow P2 (EVar vlmMst1) +
   #3 * (#47 - #79 * EVar vlmMt + #8 * EPow P2 (EVar vlmMt))) * EPow P2 (EVar vMst1)) + EVar vDmst12 * EPow P2 (EVar
   vMst2) * (- ((- #605 + #6 * EVar vlmMst1 * (- #77 + EVar vlmMt) + #714 * EVar vlmMt + #45 * EPow P2 (EVar vlmMst1)
   + #72 * EPow P2 (EVar vlmMt)) * EPow P2 (EVar vMst1)) + #2 * EPow P2 (EVar vMgl) * (#2096 - #1167 * EVar vlmMt -
   #81 * (#4 + #2 * EVar vlmMst1 - #3 * EVar vlmMt) * EPow P2 (EVar vlmMgl) + #3 * (#129 + #61 * EVar vlmMt) * EPow P2
   (EVar vlmMst1) - #108 * EPow P2 (EVar vlmMt) - #3 * EVar vlmMst1 * (- #793 + #67 * EVar vlmMt + #24 * EPow P2 (EVar
   vlmMt)) + #3 * EVar vlmMgl * (- #229 + EVar vlmMst1 * (#63 - #142 * EVar vlmMt) + #35 * EVar vlmMt + #91 * EPow P2
   (EVar vlmMst1) + #24 * EPow P2 (EVar vlmMt)) - #27 * EPow P3 (EVar vlmMgl) - #84 * EPow P3 (EVar vlmMst1))) + #2 *
   (- ((- #233 + #6 * EVar vlmMst1 * (- #32 + EVar vlmMt) + #348 * EVar vlmMt + #45 * EPow P2 (EVar vlmMst1) + #72 *
   EPow P2 (EVar vlmMt)) * EPow P2 (EVar vMst1)) + EPow P2 (EVar vMgl) * (#758 - #570 * EVar vlmMt - #81 * (#3 + #2 *
   EVar vlmMst1 - #3 * EVar vlmMt) * EPow P2 (EVar vlmMgl) + #3 * (#141 + #61 * EVar vlmMt) * EPow P2 (EVar vlmMst1) -
   #72 * EPow P2 (EVar vlmMt) - #6 * EVar vlmMst1 * (- #236 + #49 * EVar vlmMt + #12 * EPow P2 (EVar vlmMt)) + #3 *
   EVar vlmMgl * (- #200 + #2 * EVar vlmMst1 + #76 * EVar vlmMt - #142 * EVar vlmMst1 * EVar vlmMt + #91 * EPow P2
   (EVar vlmMst1) + #24 * EPow P2 (EVar vlmMt)) - #27 * EPow P3 (EVar vlmMgl) - #84 * EPow P3 (EVar vlmMst1))) * EPow
   P4 (EVar vMst2))) + EVar vshiftst3 * (#72 * EVar vs2t * EPow P2 (EVar vMt) * (- #2 * (- #2 + EVar vlmMst1) * EPow
   P2 (EVar vDmst12) + EVar vDmst12 * (- #3 + #2 * EVar vlmMst1) * EPow P2 (EVar vMst2) + (#1 - #2 * EVar vlmMst1) *
   EPow P4 (EVar vMst2)) * EPow P6 (EVar vMst1) + #9 * (- #1 + #2 * EVar vlmMst1) * EPow P2 (EVar vDmst12) * EPow P3
   (EVar vs2t) * EPow P8 (EVar vMst1))))))) / (#8640 * EVar vTbeta * EPow P6 (EVar vMst2) * EPow P8 (EVar vMst1)).

(** H9.cpp:1086-1174 *)
Definition H9_coef0 : expr :=
  - (#432 * EPow P2 (ELog (EPow P2 (EVar vMst1) / EPow P2 (EVar vMgl))) * EPow P4 (EVar vMst1) * (- #2 * EVar vMt * EPow
   P2 (EVar vDmst12) * EPow P2 (EVar vMst2) * (- #72 * EVar vMt * EVar vs2t * EPow P2 (EVar vMst1) + #202 * EVar vMgl
   * EPow P2 (EVar vMt) + #111 * EVar vMgl * EPow P2 (EVar vMst1) * EPow P2 (EVar vs2t)) * EPow P3 (EVar vMgl) + EPow
   P3 (EVar vDmst12) * EPow P3 (EVar vMgl) * (- #48 * EVar vs2t * EPow P2 (EVar vMst1) * EPow P2 (EVar vMt) + #111 *
   EVar vMgl * EVar vMt * EPow P2 (EVar vMst1) * EPow P2 (EVar vs2t) + #1568 * EVar vMgl * EPow P3 (EVar vMt) + #24 *
   EPow P3 (EVar vs2t) * EPow P4 (EVar vMst1)) - #8 * EVar vDmst12 * EPow P2 (EVar vMgl) * (#95 * EVar vMt * EPow P2
   (EVar vMgl) - #18 * EVar vMt * EPow P2 (EVar vMst1) - #81 * EVar vMgl * EVar vs2t * EPow P2 (EVar vMst1)) * EPow P2
   (EVar vMt) * EPow P4 (EVar vMst2) - #8 * EPow P3 (EVar vMt) * (- #36 * EPow P2 (EVar vMgl) * EPow P2 (EVar vMst1) +
   #77 * EPow P4 (EVar vMgl) + #4 * EPow P4 (EVar vMst1)) * EPow P6 (EVar vMst2)) + #192 * EPow P2 (EVar vMt) * EPow
   P3 (ELog (EPow P2 (EVar vMst1) / EPow P2 (EVar vMgl))) * EPow P4 (EVar vMst1) * (- #95 * EVar vMt * EPow P2 (EVar
   vDmst12) * EPow P2 (EVar vMst2) * EPow P4 (EVar vMgl) + #504 * EVar vMt * EPow P3 (EVar vDmst12) * EPow P4 (EVar
   vMgl) + #2 * EVar vDmst12 * (- #157 * EVar vMgl * EVar vMt + #54 * EVar vs2t * EPow P2 (EVar vMst1)) * EPow P3
   (EVar vMgl) * EPow P4 (EVar vMst2) + #2 * EVar vMt * (- #157 * EPow P4 (EVar vMgl) + #18 * EPow P4 (EVar vMst1)) *
   EPow P6 (EVar vMst2)) + #15 * EPow P2 (EVar vDmsqst1) * (EVar vMt * EPow P2 (EVar vDmst12) * EPow P2 (EVar vMst1) *
   EPow P2 (EVar vMst2) * (#576 * EVar vMgl * EVar vMt * EVar vs2t * (- #13 + #32 * EConst Cz2 - #32 * EConst Cz3) *
   EPow P2 (EVar vMst1) + (- #418 - #2880 * EConst Cz2 + #4419 * EConst Cz3) * EPow P2 (EVar vMst1) * EPow P2 (EVar
   vMt) + #1728 * EPow P2 (EVar vMgl) * ((#1 + #34 * EConst Cz2 - #48 * EConst Cz3) * EPow P2 (EVar vMt) + (#4 - #3 *
   EConst Cz2) * EPow P2 (EVar vMst1) * EPow P2 (EVar vs2t)) - #4608 * EVar vMt * EVar vs2t * (- #8 + #25 * EConst Cz2
   - #24 * EConst Cz3) * EPow P3 (EVar vMgl) + #18 * (#94 - #64 * EConst Cz2 + #49 * EConst Cz3) * EPow P2 (EVar vs2t)
   * EPow P4 (EVar vMst1)) + EPow P2 (EVar vMst1) * EPow P3 (EVar vDmst12) * (#4608 * EVar vs2t * (- #8 + #25 * EConst
   Cz2 - #24 * EConst Cz3) * EPow P2 (EVar vMt) * EPow P3 (EVar vMgl) + #2 * (#2938 + #4608 * EConst Cz2 - #8271 *
   EConst Cz3) * EPow P2 (EVar vMst1) * EPow P3 (EVar vMt) - #1728 * EPow P2 (EVar vMgl) * (#2 * EVar vMt * (#4 - #3 *
   EConst Cz2) * EPow P2 (EVar vMst1) * EPow P2 (EVar vs2t) + (#1 + #34 * EConst Cz2 - #48 * EConst Cz3) * EPow P3
   (EVar vMt)) + #9 * EVar vMt * (- #98 + #64 * EConst Cz2 - #91 * EConst Cz3) * EPow P2 (EVar vs2t) * EPow P4 (EVar
   vMst1) + #192 * EVar vMgl * (#6 * EVar vs2t * (#15 - #56 * EConst Cz2 + #64 * EConst Cz3) * EPow P2 (EVar vMst1) *
   EPow P2 (EVar vMt) + (- #4 + #3 * EConst Cz2) * EPow P3 (EVar vs2t) * EPow P4 (EVar vMst1))) - #72 * EVar vDmst12 *
   EPow P2 (EVar vMst1) * EPow P2 (EVar vMt) * (#24 * EVar vMt * (#1 + #34 * EConst Cz2 - #48 * EConst Cz3) * EPow P2
   (EVar vMgl) + EVar vMt * (#70 + #48 * EConst Cz2 - #107 * EConst Cz3) * EPow P2 (EVar vMst1) + #32 * EVar vMgl *
   EVar vs2t * (#1 - #12 * EConst Cz2 + #16 * EConst Cz3) * EPow P2 (EVar vMst1) - #64 * EVar vs2t * (- #8 + #25 *
   EConst Cz2 - #24 * EConst Cz3) * EPow P3 (EVar vMgl)) * EPow P4 (EVar vMst2) - #16 * EPow P3 (EVar vMt) * (#432 *
   (#1 + #5 * EConst Cz2 - #8 * EConst Cz3) * EPow P2 (EVar vMgl) * EPow P2 (EVar vMst1) + #36 * (- #41 + #220 *
   EConst Cz2 - #240 * EConst Cz3) * EPow P4 (EVar vMgl) + (#382 + #144 * EConst Cz2 - #387 * EConst Cz3) * EPow P4
   (EVar vMst1)) * EPow P6 (EVar vMst2)) + #10 * EVar vDmsqst1 * EPow P2 (EVar vMst1) * (- #216 * EVar vDmst12 * EPow
   P2 (EVar vMt) * (#48 * EVar vMt * (- #3 + #14 * EConst Cz2 - #16 * EConst Cz3) * EPow P2 (EVar vMgl) * EPow P2
   (EVar vMst1) + #32 * EVar vs2t * (#19 - #18 * EConst Cz2 + #16 * EConst Cz3) * EPow P2 (EVar vMst1) * EPow P3 (EVar
   vMgl) + #4 * EVar vMt * (- #307 + #480 * EConst Cz2 - #480 * EConst Cz3) * EPow P4 (EVar vMgl) + EVar vMt * (#38 +
   #48 * EConst Cz2 - #107 * EConst Cz3) * EPow P4 (EVar vMst1) - #32 * EVar vMgl * EVar vs2t * (- #4 + #9 * EConst
   Cz2 - #8 * EConst Cz3) * EPow P4 (EVar vMst1)) * EPow P4 (EVar vMst2) + #108 * EVar vMt * EPow P2 (EVar vDmst12) *
   EPow P2 (EVar vMst2) * (#256 * EVar vMt * EVar vs2t * (- #6 + #9 * EConst Cz2 - #8 * EConst Cz3) * EPow P2 (EVar
   vMst1) * EPow P3 (EVar vMgl) + #8 * ((- #307 + #480 * EConst Cz2 - #480 * EConst Cz3) * EPow P2 (EVar vMt) + (#29 -
   #10 * EConst Cz2) * EPow P2 (EVar vMst1) * EPow P2 (EVar vs2t)) * EPow P4 (EVar vMgl) + #32 * EVar vMgl * EVar vMt
   * EVar vs2t * (- #5 + #14 * EConst Cz2 - #16 * EConst Cz3) * EPow P4 (EVar vMst1) + (- #6 - #80 * EConst Cz2 + #107
   * EConst Cz3) * EPow P2 (EVar vMt) * EPow P4 (EVar vMst1) - #24 * EPow P2 (EVar vMgl) * ((- #19 + #70 * EConst Cz2
   - #80 * EConst Cz3) * EPow P2 (EVar vMst1) * EPow P2 (EVar vMt) + #2 * (- #3 + EConst Cz2) * EPow P2 (EVar vs2t) *
   EPow P4 (EVar vMst1)) + #2 * (#10 - #16 * EConst Cz2 + #7 * EConst Cz3) * EPow P2 (EVar vs2t) * EPow P6 (EVar
   vMst1)) + EPow P3 (EVar vDmst12) * (- #864 * (#2 * EVar vMt * (#29 - #10 * EConst Cz2) * EPow P2 (EVar vMst1) *
   EPow P2 (EVar vs2t) + (- #307 + #480 * EConst Cz2 - #480 * EConst Cz3) * EPow P3 (EVar vMt)) * EPow P4 (EVar vMgl)
   + (#1814 - #1152 * EConst Cz2 + #567 * EConst Cz3) * EPow P3 (EVar vMt) * EPow P4 (EVar vMst1) - #2592 * EPow P2
   (EVar vMgl) * (#2 * (#25 - #98 * EConst Cz2 + #112 * EConst Cz3) * EPow P2 (EVar vMst1) * EPow P3 (EVar vMt) + EVar
   vMt * (- #1 + #2 * EConst Cz2) * EPow P2 (EVar vs2t) * EPow P4 (EVar vMst1)) + #1152 * EPow P3 (EVar vMgl) * (- #6
   * EVar vs2t * (- #67 + #90 * EConst Cz2 - #80 * EConst Cz3) * EPow P2 (EVar vMst1) * EPow P2 (EVar vMt) + (- #3 +
   EConst Cz2) * EPow P3 (EVar vs2t) * EPow P4 (EVar vMst1)) + #27 * EVar vMt * (- #18 + #64 * EConst Cz2 - #7 *
   EConst Cz3) * EPow P2 (EVar vs2t) * EPow P6 (EVar vMst1) + #576 * EVar vMgl * (#3 * EVar vs2t * (- #5 + #4 * EConst
   Cz2) * EPow P2 (EVar vMt) * EPow P4 (EVar vMst1) + (- #3 + EConst Cz2) * EPow P3 (EVar vs2t) * EPow P6 (EVar
   vMst1))) - #192 * EPow P3 (EVar vMt) * (#108 * (- #1 + #4 * EConst Cz2 - #4 * EConst Cz3) * EPow P2 (EVar vMgl) *
   EPow P2 (EVar vMst1) + #9 * (- #69 + #80 * EConst Cz2 - #80 * EConst Cz3) * EPow P4 (EVar vMgl) + #4 * (#23 + #9 *
   EConst Cz2 - #36 * EConst Cz3) * EPow P4 (EVar vMst1)) * EPow P6 (EVar vMst2)) - #8 * EPow P4 (EVar vMst1) * (- #24
   * EVar vDmst12 * EPow P2 (EVar vMt) * (EVar vMt * (#3049 - #2716 * EConst Cz2 + #2388 * EConst Cz3) * EPow P2 (EVar
   vMgl) * EPow P2 (EVar vMst1) - #4 * EVar vs2t * (#1043 + #2143 * EConst Cz2 - #570 * EConst Cz3) * EPow P2 (EVar
   vMst1) * EPow P3 (EVar vMgl) + #2 * EVar vMt * (#6742 + #4265 * EConst Cz2 - #174 * EConst Cz3) * EPow P4 (EVar
   vMgl) - #4 * EVar vMt * (#49 + #90 * EConst Cz2 - #171 * EConst Cz3) * EPow P4 (EVar vMst1) + #4 * EVar vMgl * EVar
   vs2t * (- #407 + #197 * EConst Cz2 - #24 * EConst Cz3) * EPow P4 (EVar vMst1)) * EPow P4 (EVar vMst2) + #3 * EVar
   vMt * EPow P2 (EVar vDmst12) * EPow P2 (EVar vMst2) * (- #48 * EVar vMt * EVar vs2t * (- #1091 + #402 * EConst Cz2
   - #480 * EConst Cz3) * EPow P2 (EVar vMst1) * EPow P3 (EVar vMgl) + #4 * ((- #40279 + #17982 * EConst Cz2 - #26652
   * EConst Cz3) * EPow P2 (EVar vMt) - #3 * (#681 + #776 * EConst Cz2 - #558 * EConst Cz3) * EPow P2 (EVar vMst1) *
   EPow P2 (EVar vs2t)) * EPow P4 (EVar vMgl) - #16 * EVar vMgl * EVar vMt * EVar vs2t * (- #148 + #607 * EConst Cz2 -
   #696 * EConst Cz3) * EPow P4 (EVar vMst1) + (#262 + #1840 * EConst Cz2 - #3423 * EConst Cz3) * EPow P2 (EVar vMt) *
   EPow P4 (EVar vMst1) - #4 * EPow P2 (EVar vMgl) * (#2 * (#1327 - #4904 * EConst Cz2 + #5280 * EConst Cz3) * EPow P2
   (EVar vMst1) * EPow P2 (EVar vMt) + #9 * (#175 + #118 * EConst Cz2 - #4 * EConst Cz3) * EPow P2 (EVar vs2t) * EPow
   P4 (EVar vMst1)) + #18 * (- #8 + #40 * EConst Cz2 + #31 * EConst Cz3) * EPow P2 (EVar vs2t) * EPow P6 (EVar vMst1))
   + EPow P3 (EVar vDmst12) * (- #6 * (#3 * EVar vMt * (#1695 - #968 * EConst Cz2 + #558 * EConst Cz3) * EPow P2 (EVar
   vMst1) * EPow P2 (EVar vs2t) + #4 * (- #53763 + #9452 * EConst Cz2 - #26304 * EConst Cz3) * EPow P3 (EVar vMt)) *
   EPow P4 (EVar vMgl) + (- #4486 + #816 * EConst Cz2 + #3375 * EConst Cz3) * EPow P3 (EVar vMt) * EPow P4 (EVar
   vMst1) + #12 * EPow P2 (EVar vMgl) * (#4 * (- #570 + #929 * EConst Cz2 - #840 * EConst Cz3) * EPow P2 (EVar vMst1)
   * EPow P3 (EVar vMt) + #9 * EVar vMt * (#1 + #148 * EConst Cz2 - #4 * EConst Cz3) * EPow P2 (EVar vs2t) * EPow P4
   (EVar vMst1)) - #24 * EPow P3 (EVar vMgl) * (EVar vs2t * (- #2722 + #4704 * EConst Cz2 - #3696 * EConst Cz3) * EPow
   P2 (EVar vMst1) * EPow P2 (EVar vMt) + (- #22 + #113 * EConst Cz2 - #243 * EConst Cz3) * EPow P3 (EVar vs2t) * EPow
   P4 (EVar vMst1)) - #18 * EVar vMt * (- #119 + #60 * EConst Cz2 + #192 * EConst Cz3) * EPow P2 (EVar vs2t) * EPow P6
   (EVar vMst1) + #12 * EVar vMgl * (EVar vs2t * (#446 - #768 * EConst Cz2 + #624 * EConst Cz3) * EPow P2 (EVar vMt) *
   EPow P4 (EVar vMst1) + (#215 + #34 * EConst Cz2 - #21 * EConst Cz3) * EPow P3 (EVar vs2t) * EPow P6 (EVar vMst1)))
   - #12 * EPow P3 (EVar vMt) * (#4 * (#1909 - #496 * EConst Cz2 + #228 * EConst Cz3) * EPow P2 (EVar vMgl) * EPow P2
   (EVar vMst1) + #2 * (#6677 + #10414 * EConst Cz2 - #3948 * EConst Cz3) * EPow P4 (EVar vMgl) + (- #4125 - #892 *
   EConst Cz2 + #4740 * EConst Cz3) * EPow P4 (EVar vMst1)) * EPow P6 (EVar vMst2)) - #96 * ELog (EPow P2 (EVar vMst1)
   / EPow P2 (EVar vMgl)) * (- #180 * EPow P2 (EVar vDmsqst1) * EPow P2 (EVar vMt) * EPow P3 (EVar vMgl) * (- #6 *
   EVar vDmst12 * EVar vs2t * EPow P2 (EVar vMst1) * (EPow P2 (EVar vDmst12) - EVar vDmst12 * EPow P2 (EVar vMst2) +
   EPow P4 (EVar vMst2)) + #5 * EVar vMgl * EVar vMt * EPow P6 (EVar vMst2)) - #60 * EVar vDmsqst1 * EPow P2 (EVar
   vMst1) * EPow P3 (EVar vMgl) * (#3 * EVar vMt * EPow P2 (EVar vDmst12) * EPow P2 (EVar vMst2) * (#4 * EVar vMt *
   EVar vs2t * EPow P2 (EVar vMst1) + #15 * EVar vMgl * EPow P2 (EVar vMt) - #5 * EVar vMgl * EPow P2 (EVar vMst1) *
   EPow P2 (EVar vs2t)) + EPow P3 (EVar vDmst12) * (- #60 * EVar vs2t * EPow P2 (EVar vMst1) * EPow P2 (EVar vMt) +
   #30 * EVar vMgl * EVar vMt * EPow P2 (EVar vMst1) * EPow P2 (EVar vs2t) - #45 * EVar vMgl * EPow P3 (EVar vMt) + #2
   * EPow P3 (EVar vs2t) * EPow P4 (EVar vMst1)) - #9 * EVar vDmst12 * (#5 * EVar vMgl * EVar vMt - #4 * EVar vs2t *
   EPow P2 (EVar vMst1)) * EPow P2 (EVar vMt) * EPow P4 (EVar vMst2) - #30 * EVar vMgl * EPow P3 (EVar vMt) * EPow P6
   (EVar vMst2)) + EPow P4 (EVar vMst1) * (#2 * EVar vMt * EPow P2 (EVar vDmst12) * EPow P2 (EVar vMgl) * EPow P2
   (EVar vMst2) * (- #102 * EVar vMgl * EVar vMt * EVar vs2t * EPow P2 (EVar vMst1) + #2 * EPow P2 (EVar vMgl) *
   ((#737 + #162 * EConst Cz2) * EPow P2 (EVar vMt) + #3 * (#328 + #27 * EConst Cz2) * EPow P2 (EVar vMst1) * EPow P2
   (EVar vs2t)) + #27 * EPow P2 (EVar vs2t) * EPow P4 (EVar vMst1)) - EPow P2 (EVar vMgl) * EPow P3 (EVar vDmst12) *
   (EVar vMt * EPow P2 (EVar vMgl) * (#32 * (#434 + #81 * EConst Cz2) * EPow P2 (EVar vMt) + #3 * (#605 + #54 * EConst
   Cz2) * EPow P2 (EVar vMst1) * EPow P2 (EVar vs2t)) + #54 * EVar vMt * EPow P2 (EVar vs2t) * EPow P4 (EVar vMst1) -
   #2 * EVar vMgl * (#67 * EVar vs2t * EPow P2 (EVar vMst1) * EPow P2 (EVar vMt) + #2 * (- #154 + #45 * EConst Cz2) *
   EPow P3 (EVar vs2t) * EPow P4 (EVar vMst1))) + #12 * EVar vDmst12 * EPow P2 (EVar vMgl) * (#18 * EVar vMt * (#37 +
   #6 * EConst Cz2) * EPow P2 (EVar vMgl) + #9 * EVar vMt * EPow P2 (EVar vMst1) - #476 * EVar vMgl * EVar vs2t * EPow
   P2 (EVar vMst1)) * EPow P2 (EVar vMt) * EPow P4 (EVar vMst2) + #12 * EPow P3 (EVar vMt) * (#18 * EPow P2 (EVar
   vMgl) * EPow P2 (EVar vMst1) + #3 * (#215 + #36 * EConst Cz2) * EPow P4 (EVar vMgl) - #52 * EPow P4 (EVar vMst1)) *
   EPow P6 (EVar vMst2)))) / (#108 * EPow P3 (EVar vMt) * EPow P6 (EVar vMst2) * EPow P8 (EVar vMst1)).

(** H9.cpp:1179-1236 *)
Definition H9_coef1 : expr :=
  - #8 * (#6 * EPow P2 (EVar vMt) * EPow P2 (ELog (EPow P2 (EVar vMst1) / EPow P2 (EVar vMgl))) * EPow P4 (EVar vMst1) *
   (- #203 * EVar vMt * EPow P2 (EVar vDmst12) * EPow P2 (EVar vMst2) * EPow P4 (EVar vMgl) + #936 * EVar vMt * EPow
   P3 (EVar vDmst12) * EPow P4 (EVar vMgl) + #2 * EVar vDmst12 * (- #265 * EVar vMgl * EVar vMt + #162 * EVar vs2t *
   EPow P2 (EVar vMst1)) * EPow P3 (EVar vMgl) * EPow P4 (EVar vMst2) + #2 * EVar vMt * (- #265 * EPow P4 (EVar vMgl)
   + #18 * EPow P4 (EVar vMst1)) * EPow P6 (EVar vMst2)) + #15 * EPow P2 (EVar vDmsqst1) * EPow P2 (EVar vMt) * (EPow
   P2 (EVar vDmst12) * EPow P2 (EVar vMst1) * EPow P2 (EVar vMst2) * (#18 * EVar vMt * (- #19 + #12 * EConst Cz2) *
   EPow P2 (EVar vMgl) + EVar vMt * (#19 - #12 * EConst Cz2) * EPow P2 (EVar vMst1) + #12 * EVar vMgl * EVar vs2t * (-
   #7 + #4 * EConst Cz2) * EPow P2 (EVar vMst1) - #96 * EVar vs2t * (- #4 + #3 * EConst Cz2) * EPow P3 (EVar vMgl)) +
   #2 * EPow P2 (EVar vMst1) * EPow P3 (EVar vDmst12) * (- #9 * EVar vMt * (- #19 + #12 * EConst Cz2) * EPow P2 (EVar
   vMgl) + #12 * EVar vMgl * EVar vs2t * (#13 - #8 * EConst Cz2) * EPow P2 (EVar vMst1) + #8 * EVar vMt * (- #5 + #3 *
   EConst Cz2) * EPow P2 (EVar vMst1) + #48 * EVar vs2t * (- #4 + #3 * EConst Cz2) * EPow P3 (EVar vMgl)) + #6 * EVar
   vDmst12 * EPow P2 (EVar vMst1) * (EVar vMt * (#57 - #36 * EConst Cz2) * EPow P2 (EVar vMgl) + EVar vMt * (#7 - #4 *
   EConst Cz2) * EPow P2 (EVar vMst1) + #8 * EVar vMgl * EVar vs2t * (- #3 + #2 * EConst Cz2) * EPow P2 (EVar vMst1) +
   #16 * EVar vs2t * (- #4 + #3 * EConst Cz2) * EPow P3 (EVar vMgl)) * EPow P4 (EVar vMst2) + #2 * EVar vMt * (- #36 *
   (- #3 + #2 * EConst Cz2) * EPow P2 (EVar vMgl) * EPow P2 (EVar vMst1) - #9 * (- #27 + #20 * EConst Cz2) * EPow P4
   (EVar vMgl) + #4 * (#5 - #3 * EConst Cz2) * EPow P4 (EVar vMst1)) * EPow P6 (EVar vMst2)) - #10 * EVar vDmsqst1 *
   EVar vMt * EPow P2 (EVar vMst1) * (#18 * EVar vDmst12 * EVar vMt * (#6 * EVar vMt * (- #7 + #4 * EConst Cz2) * EPow
   P2 (EVar vMgl) * EPow P2 (EVar vMst1) - #8 * EVar vs2t * (- #5 + #2 * EConst Cz2) * EPow P2 (EVar vMst1) * EPow P3
   (EVar vMgl) + EVar vMt * (- #119 + #60 * EConst Cz2) * EPow P4 (EVar vMgl) + #4 * EVar vMt * (- #2 + EConst Cz2) *
   EPow P4 (EVar vMst1) - #8 * EVar vMgl * EVar vs2t * (- #2 + EConst Cz2) * EPow P4 (EVar vMst1)) * EPow P4 (EVar
   vMst2) + #2 * EPow P3 (EVar vDmst12) * (- #27 * (- #47 + #28 * EConst Cz2) * EPow P2 (EVar vMgl) * EPow P2 (EVar
   vMst1) * EPow P2 (EVar vMt) + #72 * EVar vMt * EVar vs2t * (- #19 + #10 * EConst Cz2) * EPow P2 (EVar vMst1) * EPow
   P3 (EVar vMgl) + #9 * (- #119 + #60 * EConst Cz2) * EPow P2 (EVar vMt) * EPow P4 (EVar vMgl) + #6 * EVar vMgl *
   EVar vMt * EVar vs2t * EPow P4 (EVar vMst1) + EPow P2 (EVar vMt) * EPow P4 (EVar vMst1) - #9 * EPow P2 (EVar vs2t)
   * EPow P6 (EVar vMst1)) - #9 * EPow P2 (EVar vDmst12) * EPow P2 (EVar vMst2) * (#3 * (#33 - #20 * EConst Cz2) *
   EPow P2 (EVar vMgl) * EPow P2 (EVar vMst1) * EPow P2 (EVar vMt) + #16 * EVar vMt * EVar vs2t * (- #7 + #4 * EConst
   Cz2) * EPow P2 (EVar vMst1) * EPow P3 (EVar vMgl) + #2 * (- #119 + #60 * EConst Cz2) * EPow P2 (EVar vMt) * EPow P4
   (EVar vMgl) + #8 * EVar vMgl * EVar vMt * EVar vs2t * (- #3 + #2 * EConst Cz2) * EPow P4 (EVar vMst1) + (#7 - #4 *
   EConst Cz2) * EPow P2 (EVar vMt) * EPow P4 (EVar vMst1) - #2 * EPow P2 (EVar vs2t) * EPow P6 (EVar vMst1)) + #6 *
   EPow P2 (EVar vMt) * (#36 * (- #2 + EConst Cz2) * EPow P2 (EVar vMgl) * EPow P2 (EVar vMst1) + #3 * (- #49 + #20 *
   EConst Cz2) * EPow P4 (EVar vMgl) + #2 * (- #17 + #6 * EConst Cz2) * EPow P4 (EVar vMst1)) * EPow P6 (EVar vMst2))
   + EPow P4 (EVar vMst1) * (EVar vMt * EPow P2 (EVar vDmst12) * EPow P2 (EVar vMst2) * (#6 * EPow P2 (EVar vMgl) *
   EPow P2 (EVar vMst1) * ((#659 - #440 * EConst Cz2) * EPow P2 (EVar vMt) + #243 * EPow P2 (EVar vMst1) * EPow P2
   (EVar vs2t)) + #72 * EVar vMt * EVar vs2t * (- #99 + #20 * EConst Cz2) * EPow P2 (EVar vMst1) * EPow P3 (EVar vMgl)
   + ((#23651 - #5436 * EConst Cz2) * EPow P2 (EVar vMt) + #582 * EPow P2 (EVar vMst1) * EPow P2 (EVar vs2t)) * EPow
   P4 (EVar vMgl) + #12 * EVar vMgl * EVar vMt * EVar vs2t * (- #25 + #62 * EConst Cz2) * EPow P4 (EVar vMst1) - #6 *
   ((- #145 + #46 * EConst Cz2) * EPow P2 (EVar vMt) + #79 * EPow P2 (EVar vMst1) * EPow P2 (EVar vs2t)) * EPow P4
   (EVar vMst1)) + #6 * EVar vDmst12 * EPow P2 (EVar vMt) * (#4 * EVar vMt * (#103 - #50 * EConst Cz2) * EPow P2 (EVar
   vMgl) * EPow P2 (EVar vMst1) - #4 * EVar vs2t * (#283 + #138 * EConst Cz2) * EPow P2 (EVar vMst1) * EPow P3 (EVar
   vMgl) + EVar vMt * (#2647 + #628 * EConst Cz2) * EPow P4 (EVar vMgl) + #12 * EVar vMt * (#8 - #5 * EConst Cz2) *
   EPow P4 (EVar vMst1) - #4 * EVar vMgl * EVar vs2t * (#65 + #2 * EConst Cz2) * EPow P4 (EVar vMst1)) * EPow P4 (EVar
   vMst2) + EPow P3 (EVar vDmst12) * (- #3 * EVar vMt * EPow P2 (EVar vMgl) * EPow P2 (EVar vMst1) * ((- #498 + #280 *
   EConst Cz2) * EPow P2 (EVar vMt) + #379 * EPow P2 (EVar vMst1) * EPow P2 (EVar vs2t)) + #24 * EVar vs2t * EPow P2
   (EVar vMst1) * ((- #86 + #77 * EConst Cz2) * EPow P2 (EVar vMt) + EPow P2 (EVar vMst1) * EPow P2 (EVar vs2t)) *
   EPow P3 (EVar vMgl) + (#315 * EVar vMt * EPow P2 (EVar vMst1) * EPow P2 (EVar vs2t) + #16 * (- #3949 + #444 *
   EConst Cz2) * EPow P3 (EVar vMt)) * EPow P4 (EVar vMgl) - #2 * EVar vMgl * EVar vs2t * ((#442 - #60 * EConst Cz2) *
   EPow P2 (EVar vMt) + #59 * EPow P2 (EVar vMst1) * EPow P2 (EVar vs2t)) * EPow P4 (EVar vMst1) + #12 * (- #43 + #8 *
   EConst Cz2) * EPow P3 (EVar vMt) * EPow P4 (EVar vMst1) + #375 * EVar vMt * EPow P2 (EVar vs2t) * EPow P6 (EVar
   vMst1)) + #12 * EPow P3 (EVar vMt) * (#2 * (#91 - #10 * EConst Cz2) * EPow P2 (EVar vMgl) * EPow P2 (EVar vMst1) +
   (#589 + #464 * EConst Cz2) * EPow P4 (EVar vMgl) - #4 * (- #35 + #15 * EConst Cz2 + #3 * EConst Cz3) * EPow P4
   (EVar vMst1)) * EPow P6 (EVar vMst2)) - #2 * ELog (EPow P2 (EVar vMst1) / EPow P2 (EVar vMgl)) * (#180 * EVar
   vDmsqst1 * EPow P2 (EVar vMst1) * EPow P2 (EVar vMt) * EPow P3 (EVar vMgl) * (- #5 * EVar vMgl * EVar vMt * EPow P2
   (EVar vDmst12) * EPow P2 (EVar vMst2) + (#5 * EVar vMgl * EVar vMt + #4 * EVar vs2t * EPow P2 (EVar vMst1)) * EPow
   P3 (EVar vDmst12) + EVar vDmst12 * (#5 * EVar vMgl * EVar vMt - #4 * EVar vs2t * EPow P2 (EVar vMst1)) * EPow P4
   (EVar vMst2) + #5 * EVar vMgl * EVar vMt * EPow P6 (EVar vMst2)) - #90 * EPow P2 (EVar vDmsqst1) * EPow P2 (EVar
   vMt) * EPow P3 (EVar vMgl) * (- #4 * EVar vDmst12 * EVar vs2t * EPow P2 (EVar vMst1) * (EPow P2 (EVar vDmst12) -
   EVar vDmst12 * EPow P2 (EVar vMst2) + EPow P4 (EVar vMst2)) + #5 * EVar vMgl * EVar vMt * EPow P6 (EVar vMst2)) +
   EPow P4 (EVar vMst1) * (#6 * EVar vMt * EPow P2 (EVar vDmst12) * EPow P2 (EVar vMst2) * (#14 * EVar vMt * EVar vs2t
   * EPow P2 (EVar vMst1) + #67 * EVar vMgl * EPow P2 (EVar vMt) + #117 * EVar vMgl * EPow P2 (EVar vMst1) * EPow P2
   (EVar vs2t)) * EPow P3 (EVar vMgl) - EPow P3 (EVar vDmst12) * EPow P3 (EVar vMgl) * (#42 * EVar vs2t * EPow P2
   (EVar vMst1) * EPow P2 (EVar vMt) + #351 * EVar vMgl * (EVar vMt * EPow P2 (EVar vMst1) * EPow P2 (EVar vs2t) + #8
   * EPow P3 (EVar vMt)) + #68 * EPow P3 (EVar vs2t) * EPow P4 (EVar vMst1)) + #12 * EVar vDmst12 * EPow P2 (EVar
   vMgl) * (#167 * EVar vMt * EPow P2 (EVar vMgl) - #54 * EVar vMt * EPow P2 (EVar vMst1) - #170 * EVar vMgl * EVar
   vs2t * EPow P2 (EVar vMst1)) * EPow P2 (EVar vMt) * EPow P4 (EVar vMst2) + #36 * EPow P3 (EVar vMt) * (- #36 * EPow
   P2 (EVar vMgl) * EPow P2 (EVar vMst1) + #59 * EPow P4 (EVar vMgl) + #4 * EPow P4 (EVar vMst1)) * EPow P6 (EVar
   vMst2)))) / (#9 * EPow P3 (EVar vMt) * EPow P6 (EVar vMst2) * EPow P8 (EVar vMst1)).

(** H9.cpp:1241-1263 *)
Definition H9_coef2 : expr :=
  - #8 * (#6 * EVar vDmst12 * EPow P2 (EVar vMt) * (#43 * EVar vMt * EPow P2 (EVar vMgl) * EPow P2 (EVar vMst1) - #248 *
   EVar vs2t * EPow P2 (EVar vMst1) * EPow P3 (EVar vMgl) + #550 * EVar vMt * EPow P4 (EVar vMgl) + #51 * EVar vMt *
   EPow P4 (EVar vMst1) + #60 * EVar vMgl * EVar vs2t * EPow P4 (EVar vMst1)) * EPow P4 (EVar vMst2) + EVar vMt * EPow
   P2 (EVar vDmst12) * EPow P2 (EVar vMst2) * (- #528 * EVar vMt * EVar vs2t * EPow P2 (EVar vMst1) * EPow P3 (EVar
   vMgl) + #2 * (#983 * EPow P2 (EVar vMt) - #48 * EPow P2 (EVar vMst1) * EPow P2 (EVar vs2t)) * EPow P4 (EVar vMgl) -
   #180 * EVar vMgl * EVar vMt * EVar vs2t * EPow P4 (EVar vMst1) + EPow P2 (EVar vMgl) * (- #64 * EPow P2 (EVar
   vMst1) * EPow P2 (EVar vMt) + #321 * EPow P2 (EVar vs2t) * EPow P4 (EVar vMst1)) - #3 * (#51 * EPow P2 (EVar vMt) *
   EPow P4 (EVar vMst1) + #82 * EPow P2 (EVar vs2t) * EPow P6 (EVar vMst1))) + EPow P3 (EVar vDmst12) * ((#48 * EVar
   vMt * EPow P2 (EVar vMst1) * EPow P2 (EVar vs2t) - #7232 * EPow P3 (EVar vMt)) * EPow P4 (EVar vMgl) + #102 * EPow
   P3 (EVar vMt) * EPow P4 (EVar vMst1) + EPow P2 (EVar vMgl) * (#32 * EPow P2 (EVar vMst1) * EPow P3 (EVar vMt) -
   #321 * EVar vMt * EPow P2 (EVar vs2t) * EPow P4 (EVar vMst1)) + #16 * EPow P3 (EVar vMgl) * (#11 * EVar vs2t * EPow
   P2 (EVar vMst1) * EPow P2 (EVar vMt) + #2 * EPow P3 (EVar vs2t) * EPow P4 (EVar vMst1)) + #369 * EVar vMt * EPow P2
   (EVar vs2t) * EPow P6 (EVar vMst1) + EVar vMgl * (#120 * EVar vs2t * EPow P2 (EVar vMt) * EPow P4 (EVar vMst1) -
   #41 * EPow P3 (EVar vs2t) * EPow P6 (EVar vMst1))) + #6 * EPow P3 (EVar vMt) * (#15 * EPow P2 (EVar vDmsqst1) - #30
   * EVar vDmsqst1 * EPow P2 (EVar vMst1) + #86 * EPow P2 (EVar vMgl) * EPow P2 (EVar vMst1) + #380 * EPow P4 (EVar
   vMgl) - #98 * EPow P4 (EVar vMst1)) * EPow P6 (EVar vMst2) + #12 * ELog (EPow P2 (EVar vMst1) / EPow P2 (EVar
   vMgl)) * EPow P2 (EVar vMt) * (- #53 * EVar vMt * EPow P2 (EVar vDmst12) * EPow P2 (EVar vMst2) * EPow P4 (EVar
   vMgl) + #276 * EVar vMt * EPow P3 (EVar vDmst12) * EPow P4 (EVar vMgl) + #2 * EVar vDmst12 * (- #85 * EVar vMgl *
   EVar vMt + #44 * EVar vs2t * EPow P2 (EVar vMst1)) * EPow P3 (EVar vMgl) * EPow P4 (EVar vMst2) + #2 * EVar vMt *
   (- #85 * EPow P4 (EVar vMgl) + #9 * EPow P4 (EVar vMst1)) * EPow P6 (EVar vMst2))) / (#9 * EPow P3 (EVar vMt) *
   EPow P4 (EVar vMst1) * EPow P6 (EVar vMst2)).

(** H9.cpp:1268-1274 *)
Definition H9_coef3 : expr :=
  - EDec 2986666666666667 13.

(** the constructor, H9.cpp:38-70: value of each data member (members it does not assign are zero, H9.hpp) *)
Definition H9_ctor {T : Type} {N : Num T} (d : Depth) (a_Al4p a_beta a_Dmst12 a_Dmsqst1 a_lmMt a_lmMgl a_lmMst1 a_Mgl
   a_Mt a_Mst1 a_Mst2 a_MuSUSY a_s2t : T) (mdr f1 f2 f3 : Z) (v : hvar) : T :=
  match v with
  | vTbeta => ntan a_beta
  | vSbeta => nsin a_beta
  | vDmst12 => a_Dmst12
  | vDmsqst1 => a_Dmsqst1
  | vlmMt => a_lmMt
  | vlmMgl => a_lmMgl
  | vlmMst1 => a_lmMst1
  | vMgl => a_Mgl
  | vMt => a_Mt
  | vMst1 => a_Mst1
  | vMst2 => a_Mst2
  | vMuSUSY => a_MuSUSY
  | vs2t => a_s2t
  | voneLoopFlag => nint f1
  | vtwoLoopFlag => nint f2
  | vthreeLoopFlag => nint f3
  | vAl4p => a_Al4p
  | vshiftst1 => nint mdr
  | vshiftst2 => nint mdr
  | vshiftst3 => nint mdr
  | vx => nint (x_threeLoop d)
  | vxDmst12 => nint (x_Dmglst1 d)
  | vxDmsqst1 => nint (x_Dmsqst1 d)
  | vxMgl => nint (x_Mgl d)
  | _ => nint 0
  end.
