(** * Class H6b2qg2
    GENERATED by tools/gen_hier.py from source/himalaya/hierarchies/H6b2qg2.cpp (expressions are transcribed operator by operator;
    no subexpression is an integer division, and integer subexpressions stay below 2^31 when the flags are 0 or 1). *)
From Coq Require Import ZArith List.
From Verif Require Import Num HierExpr HierCalc.
Local Open Scope hx_scope.

(** H6b2qg2.cpp:75-453 *)
Definition H6b2qg2_getS1 : expr :=
  - (EPow P2 (EVar vMt) * (EVar vAl4p * EVar vxDmglst2 * EPow P2 (EVar vDmglst2) * (EVar vAl4p * EVar vthreeLoopFlag *
   (#5 * EVar vDmsqst2 * (- #1081 + #165 * EVar vlmMst1 - #165 * EVar vlmMst2) * EPow P2 (EVar vs2t) * (- #1 + EPow P2
   (EVar vSbeta)) * EPow P2 (EVar vSbeta) * EPow P4 (EVar vMst1) / (#9 * EPow P4 (EVar vMst2)) - EPow P2 (EVar
   vMuSUSY) * (#36 * EPow P2 (EVar vMt) * (#24 * EPow P2 (EVar vMst2) * (#50134 - #270 * EConst CB4 + #270 * EConst
   CD3 - #135 * EConst CDN + #2160 * EVar vlmMst1 + #120 * (#271 + #24 * EVar vlmMst1) * EVar vlmMst2 - #120 * EVar
   vlmMt - #29646 * EConst CS2 - #720 * (- #2 + #3 * EVar vlmMst1) * EPow P2 (EVar vlmMst2) + #2160 * EPow P3 (EVar
   vlmMst2)) + EPow P2 (EVar vMst1) * (#3051661 - #12960 * EConst CB4 + #12960 * EConst CD3 - #6480 * EConst CDN +
   #304320 * EVar vlmMst1 + #960 * (#2227 + #285 * EVar vlmMst1) * EVar vlmMst2 + #2880 * (#4 + EVar vlmMst1 - EVar
   vlmMst2) * EVar vlmMt + #5600 * EConst COepS2 - #324 * (#5361 + #350 * EVar vlmMst1 - #350 * EVar vlmMst2) * EConst
   CS2 - #2880 * (#23 + #72 * EVar vlmMst1) * EPow P2 (EVar vlmMst2) + #207360 * EPow P3 (EVar vlmMst2))) / EPow P4
   (EVar vMst2) + #43740 * EPow P2 (EVar vs2t) * (EDec 9077757201646091 14 - #100 * EConst CB4 / #9 + #112 * EConst
   CD3 / #9 - #62 * EConst CDN / #9 + #788 * EVar vlmMst1 / #9 - #103 * EPow P2 (EVar vlmMst1) / #9 + #16 * EVar
   vlmMst2 * (- #241 - #171 * EVar vlmMst1 + #18 * EPow P2 (EVar vlmMst1)) / #27 + (EDec 12533333333333333 14 - #82 *
   EVar vlmMst1) * EPow P2 (EVar vlmMst2) + (- #852 + #358 * EVar vlmMst2 + #32 * EVar vlmMst1 * (- #2 + #3 * EVar
   vlmMst2) + #497 * EPow P2 (EVar vlmMst2)) * EPow P2 (EVar vMst2) / (#9 * EPow P2 (EVar vMst1)) + #214 * EPow P3
   (EVar vlmMst2) / #3 + (#80 * EVar vDmsqst2 * (#4 + EVar vlmMst1 - EVar vlmMst2) / #3 + EPow P2 (EVar vMst1) * (EDec
   15538193689986284 14 - #164 * EConst CB4 / #9 + #176 * EConst CD3 / #9 - #94 * EConst CDN / #9 - #21449 * EVar
   vlmMst1 / #675 - #7556 * EPow P2 (EVar vlmMst1) / #135 + EVar vlmMst2 * (- #54451 - #22990 * EVar vlmMst1 + #65550
   * EPow P2 (EVar vlmMst1)) / #675 + #2 * (#6077 - #17130 * EVar vlmMst1) * EPow P2 (EVar vlmMst2) / #135 - #10 *
   EPow P3 (EVar vlmMst1) / #27 + #4240 * EPow P3 (EVar vlmMst2) / #27)) / EPow P2 (EVar vMst2) + EVar vDmsqst2 * (#40
   / EPow P2 (EVar vMst1) + #10 * (- #23 + #42 * EVar vlmMst1 - #42 * EVar vlmMst2) * EPow P2 (EVar vMst1) / (#3 *
   EPow P4 (EVar vMst2))) + (EDec 5851892843532082 13 - #8 * EConst CB4 / #3 + #32 * EConst CD3 / #9 - #20 * EConst
   CDN / #9 - #20109937 * EVar vlmMst1 / #297675 - #15886 * EPow P2 (EVar vlmMst1) / #945 + EVar vlmMst2 * (EDec
   17112243218274966 15 - #144628 * EVar vlmMst1 / #945 + #1180 * EPow P2 (EVar vlmMst1) / #9) + (EDec
   16985608465608465 14 - #2632 * EVar vlmMst1 / #9) * EPow P2 (EVar vlmMst2) - #92 * EPow P3 (EVar vlmMst1) / #27 +
   #4448 * EPow P3 (EVar vlmMst2) / #27) * EPow P4 (EVar vMst1) / EPow P4 (EVar vMst2) - #32 * (- #2 + EVar vlmMst2 +
   #5 * EPow P2 (EVar vlmMst2)) * EPow P4 (EVar vMst2) / (#9 * EPow P4 (EVar vMst1)) - (#6 * (#7400 * EConst COepS2 +
   #27 * (#1089707 - #5550 * EVar vlmMst1 + #5550 * EVar vlmMst2) * EConst CS2) * EPow P2 (EVar vMst1) * EPow P2 (EVar
   vMst2) + #40 * (#17308 * EConst COepS2 + #27 * (#93919 - #12981 * EVar vlmMst1 + #12981 * EVar vlmMst2) * EConst
   CS2) * EPow P4 (EVar vMst1) + #9 * (#1400 * EConst COepS2 + #81 * (#116129 - #350 * EVar vlmMst1 + #350 * EVar
   vlmMst2) * EConst CS2) * EPow P4 (EVar vMst2)) / (#10935 * EPow P4 (EVar vMst2))) + #240 * EConst CT1ep * (#30 *
   EVar vMst2 * EPow P2 (EVar vMst1) * (#311 * EVar vMst2 * EVar vMt * EVar vs2t - #42 * EPow P2 (EVar vMt) + #37 *
   EPow P2 (EVar vMst2) * EPow P2 (EVar vs2t)) + #2 * EVar vs2t * (- #16421 * EVar vMt + #8654 * EVar vMst2 * EVar
   vs2t) * EPow P4 (EVar vMst1) + #63 * EVar vs2t * (EVar vMt + #5 * EVar vMst2 * EVar vs2t) * EPow P4 (EVar vMst2)) /
   EPow P5 (EVar vMst2) - EVar vMt * EVar vs2t * (#6 * EPow P2 (EVar vMst2) * (#4580489 - #3285360 * EConst CB4 +
   #68040 * EConst CDN - #3918600 * EVar vlmMst1 + #248800 * EConst COepS2 - #108 * (- #20803 + #46650 * EVar vlmMst1
   - #46650 * EVar vlmMst2) * EConst CS2 + #103680 * EPow P2 (EVar vlmMst1) - #360 * EVar vlmMst2 * (#11213 + #1368 *
   EVar vlmMst1 + #144 * EPow P2 (EVar vlmMst1)) + #6480 * (- #214 + #523 * EVar vlmMst1) * EPow P2 (EVar vlmMst2) -
   #3337200 * EPow P3 (EVar vlmMst2)) * EPow P4 (EVar vMst1) - #2332800 * EVar vDmsqst2 * ((- #2 - #5 * EVar vlmMst1 +
   #5 * EVar vlmMst2) * EPow P2 (EVar vMst1) * EPow P2 (EVar vMst2) + (#8 - #15 * EVar vlmMst1 + #15 * EVar vlmMst2) *
   EPow P4 (EVar vMst1)) + #9 * EPow P2 (EVar vMst1) * (#2601353 - #1058400 * EConst CB4 + #23760 * EConst CDN -
   #1779840 * EVar vlmMst1 + #1120 * EConst COepS2 - #324 * (- #1387 + #70 * EVar vlmMst1 - #70 * EVar vlmMst2) *
   EConst CS2 - #69120 * EPow P2 (EVar vlmMst1) + #1440 * EVar vlmMst2 * (- #599 - #108 * EVar vlmMst1 + #24 * EPow P2
   (EVar vlmMst1)) + #4320 * (- #222 + #217 * EVar vlmMst1) * EPow P2 (EVar vlmMst2) - #972000 * EPow P3 (EVar
   vlmMst2)) * EPow P4 (EVar vMst2) + #10 * (#2773621 - #1660176 * EConst CB4 + #25272 * EConst CDN + #2004408 * EVar
   vlmMst1 - #525472 * EConst COepS2 + #108 * (#123113 + #98526 * EVar vlmMst1 - #98526 * EVar vlmMst2) * EConst CS2 +
   #3888 * EPow P2 (EVar vlmMst1) - #144 * EVar vlmMst2 * (#36802 - #11421 * EVar vlmMst1 + #1728 * EPow P2 (EVar
   vlmMst1)) + #167184 * (- #14 + #15 * EVar vlmMst1) * EPow P2 (EVar vlmMst2) - #31104 * EPow P3 (EVar vlmMst1) -
   #2227824 * EPow P3 (EVar vlmMst2)) * EPow P6 (EVar vMst1) + #1244160 * (#2 + EVar vlmMst2 - #3 * EPow P2 (EVar
   vlmMst2)) * EPow P6 (EVar vMst2)) / (EPow P2 (EVar vMst1) * EPow P5 (EVar vMst2))) / #43740) + EVar vs2t * EVar
   vtwoLoopFlag * EPow P2 (EVar vMuSUSY) * (#2 * (#4 * EVar vMt * (- #31 + #3 * EVar vlmMst1 * (- #2 + EVar vlmMst2) +
   #4 * EVar vlmMst2 - #3 * EPow P2 (EVar vlmMst2)) + #3 * EVar vMst2 * EVar vs2t * (#4 + EVar vlmMst2 + EVar vlmMst1
   * (- #1 + #2 * EVar vlmMst2) - #2 * EPow P2 (EVar vlmMst2))) * EPow P2 (EVar vMst2) * EPow P4 (EVar vMst1) + #2 *
   (EVar vMst2 * EVar vs2t * (#10 + EVar vlmMst1 * (- #3 + #6 * EVar vlmMst2) - #6 * EPow P2 (EVar vlmMst2)) + #4 *
   EVar vMt * (- #14 + EVar vlmMst1 * (- #2 + EVar vlmMst2) - EPow P2 (EVar vlmMst2))) * EPow P2 (EVar vMst1) * EPow
   P4 (EVar vMst2) + (EVar vMt * (- #398 + #52 * EVar vlmMst2 + EVar vlmMst1 * (- #68 + #40 * EVar vlmMst2) - #40 *
   EPow P2 (EVar vlmMst2)) + #3 * EVar vMst2 * EVar vs2t * (#9 + #4 * EVar vlmMst1 * (- #1 + EVar vlmMst2) + #4 * EVar
   vlmMst2 - #4 * EPow P2 (EVar vlmMst2))) * EPow P6 (EVar vMst1) + #2 * (#2 - #3 * EVar vlmMst2) * EVar vs2t * EPow
   P7 (EVar vMst2)) / (#3 * EPow P2 (EVar vMst1) * EPow P5 (EVar vMst2))) / EPow P2 (EVar vMgl) + EVar vs2t * (#2 *
   EVar vxMst * (#27 * (EVar vlmMst1 - EVar vlmMst2) * EVar vMst2 * EVar voneLoopFlag * EVar vs2t * EPow P2 (EVar
   vMuSUSY) - #2 * EVar vAl4p * EVar vtwoLoopFlag * (#4 * (#18 * (EVar vlmMst1 - EVar vlmMst2) * (- #2 + #3 * EVar
   vlmMst2) * EVar vMst2 * EVar vs2t * EVar vxDmglst2 * EVar vxDR2DRMOD * EPow P2 (EVar vDmglst2) + EVar vDmglst2 *
   EVar vMgl * (EVar vMt * (#785 + #6 * EVar vlmMst1 * (#85 - #42 * EVar vlmMst2) - #438 * EVar vlmMst2 + #252 * EPow
   P2 (EVar vlmMst2)) - EVar vMst2 * EVar vs2t * (#49 - #84 * EVar vlmMst2 + EVar vlmMst1 * (#84 - #36 * EVar vlmMst2
   * (- #1 + EVar vxDR2DRMOD)) + #36 * (- #1 + EVar vxDR2DRMOD) * EPow P2 (EVar vlmMst2))) + (EVar vMt * (#193 + #474
   * EVar vlmMst2 - #6 * EVar vlmMst1 * (#67 + #42 * EVar vlmMst2) + #252 * EPow P2 (EVar vlmMst2)) - EVar vMst2 *
   EVar vs2t * (#1 + #3 * EVar vlmMst2 * (- #37 + #6 * EVar vxDR2DRMOD) - #3 * EVar vlmMst1 * (- #37 + #6 * EVar
   vlmMst2 * (- #12 + EVar vxDR2DRMOD) + #6 * EVar vxDR2DRMOD) - #81 * EPow P2 (EVar vlmMst1) + #9 * (- #15 + #2 *
   EVar vxDR2DRMOD) * EPow P2 (EVar vlmMst2))) * EPow P2 (EVar vMgl)) * EPow P2 (EVar vMuSUSY) - EVar vxDmglst2 * EPow
   P2 (EVar vDmglst2) * (#4 * EVar vMt * EVar vTbeta * (- #2501 + #222 * EVar vlmMst2 + #42 * EVar vlmMst1 * (- #7 +
   #6 * EVar vlmMst2) - #252 * EPow P2 (EVar vlmMst2)) * EPow P2 (EVar vMuSUSY) + #6 * EVar vMst2 * EVar vMuSUSY *
   (EVar vMuSUSY * EVar vs2t * EVar vTbeta * (#85 - #60 * EVar vlmMst1 + #60 * EVar vlmMst2 + #36 * EVar vlmMst1 *
   EVar vlmMst2 - #36 * EPow P2 (EVar vlmMst2)) + #10 * (- #43 + #60 * EVar vlmMst1 - #60 * EVar vlmMst2) * EVar vMt *
   EPow P2 (EVar vSbeta)) + #15 * (- #43 + #60 * EVar vlmMst1 - #60 * EVar vlmMst2) * EVar vs2t * EVar vTbeta * (- #1
   + EPow P2 (EVar vSbeta)) * EPow P2 (EVar vSbeta) * EPow P3 (EVar vMst2)) / EVar vTbeta) / EPow P2 (EVar vMgl)) *
   EPow P6 (EVar vMst1) / EPow P7 (EVar vMst2) - EPow P2 (EVar vMuSUSY) * (#27 * EVar voneLoopFlag * EVar vs2t * (#2 -
   EVar vlmMst1 + EVar vlmMst2 - #2 * (EVar vlmMst1 - EVar vlmMst2) * EPow P2 (EVar vMst1) * (EPow P2 (EVar vMst1) +
   EPow P2 (EVar vMst2)) / EPow P4 (EVar vMst2)) + #4 * EVar vAl4p * (#9 * EVar vMgl * EVar vMst2 * EVar vtwoLoopFlag
   * EPow P2 (EVar vMst1) * (EVar vMgl * (#4 * (#4 * EVar vMt * (#5 + #6 * EVar vlmMst2 - EVar vlmMst1 * (#4 + #3 *
   EVar vlmMst2) + #3 * EPow P2 (EVar vlmMst2)) + EVar vMst2 * EVar vs2t * (- #1 + #13 * EVar vlmMst2 - EVar vlmMst1 *
   (#13 + #8 * EVar vlmMst2) + EPow P2 (EVar vlmMst1) + #7 * EPow P2 (EVar vlmMst2))) * EPow P2 (EVar vMst2) * EPow P4
   (EVar vMst1) + #2 * (- (EVar vMst2 * EVar vs2t * (- #14 - #20 * EVar vlmMst2 + #2 * EVar vlmMst1 * (#5 + #3 * EVar
   vlmMst2) + EPow P2 (EVar vlmMst1) - #7 * EPow P2 (EVar vlmMst2))) + #8 * EVar vMt * (#4 + #3 * EVar vlmMst2 - EVar
   vlmMst1 * (#1 + EVar vlmMst2) + EPow P2 (EVar vlmMst2))) * EPow P2 (EVar vMst1) * EPow P4 (EVar vMst2) + (EVar
   vMst2 * EVar vs2t * (- #1 + #50 * EVar vlmMst2 - #2 * EVar vlmMst1 * (#25 + #32 * EVar vlmMst2) + #20 * EPow P2
   (EVar vlmMst1) + #44 * EPow P2 (EVar vlmMst2)) + EVar vMt * (#84 + #152 * EVar vlmMst2 - #40 * EVar vlmMst1 * (#3 +
   #2 * EVar vlmMst2) + #80 * EPow P2 (EVar vlmMst2))) * EPow P6 (EVar vMst1) + #4 * (#1 + EVar vlmMst2) * EVar vs2t *
   EPow P7 (EVar vMst2)) + #4 * EVar vDmglst2 * ((EVar vMst2 * EVar vs2t * (- #5 + #8 * EVar vlmMst2 - #4 * EVar
   vlmMst1 * (#2 + EVar vlmMst2) + #4 * EPow P2 (EVar vlmMst2)) + EVar vMt * (#65 + EVar vlmMst1 * (#34 - #20 * EVar
   vlmMst2) - #26 * EVar vlmMst2 + #20 * EPow P2 (EVar vlmMst2))) * EPow P6 (EVar vMst1) + #2 * ((EVar vMst2 * EVar
   vs2t * (- #2 + #3 * EVar vlmMst2 - EVar vlmMst1 * (#3 + #2 * EVar vlmMst2) + #2 * EPow P2 (EVar vlmMst2)) + EVar
   vMt * (#22 + EVar vlmMst1 * (#8 - #6 * EVar vlmMst2) - #4 * EVar vlmMst2 + #6 * EPow P2 (EVar vlmMst2))) * EPow P2
   (EVar vMst2) * EPow P4 (EVar vMst1) + (- (EVar vMst2 * EVar vs2t * (#1 + EVar vlmMst1 - #2 * EVar vlmMst2 + #2 *
   EVar vlmMst1 * EVar vlmMst2 - #2 * EPow P2 (EVar vlmMst2))) + #2 * EVar vMt * (#6 + EVar vlmMst1 + EVar vlmMst2 -
   EVar vlmMst1 * EVar vlmMst2 + EPow P2 (EVar vlmMst2))) * EPow P2 (EVar vMst1) * EPow P4 (EVar vMst2) + EVar vlmMst2
   * EVar vs2t * EPow P7 (EVar vMst2)))) - EVar vxDR2DRMOD * (#9 * EVar vs2t * EPow P2 (EVar vMst1) * (#5 * EVar vAl4p
   * EVar vthreeLoopFlag * EVar vxDmsqst2 * EPow P2 (EVar vDmsqst2) * ((#14 * EVar vDmglst2 * EVar vMgl + #33 * EVar
   vxDmglst2 * EPow P2 (EVar vDmglst2) + EPow P2 (EVar vMgl)) * EPow P2 (EVar vMst2) * (EPow P2 (EVar vMst1) + EPow P2
   (EVar vMst2)) + (- #2 * EVar vlmMst1 + #2 * EVar vlmMst2) * EPow P2 (EVar vMst1) * (#14 * EVar vDmglst2 * EVar vMgl
   * EPow P2 (EVar vMst2) + #33 * EVar vxDmglst2 * EPow P2 (EVar vDmglst2) * EPow P2 (EVar vMst2) + EPow P2 (EVar
   vMgl) * (EPow P2 (EVar vMst1) + EPow P2 (EVar vMst2)))) + #4 * EVar vtwoLoopFlag * (#2 * EVar vDmglst2 * EVar
   vlmMst2 * EVar vMgl + (- #2 + #3 * EVar vlmMst2) * EVar vxDmglst2 * EPow P2 (EVar vDmglst2) + (#1 + EVar vlmMst2) *
   EPow P2 (EVar vMgl)) * EPow P2 (EVar vMst2) * ((EPow P2 (EVar vMst1) + EPow P2 (EVar vMst2)) * EPow P4 (EVar vMst2)
   - #2 * (EVar vlmMst1 - EVar vlmMst2) * EPow P2 (EVar vMst1) * (EPow P2 (EVar vMst1) * EPow P2 (EVar vMst2) + EPow
   P4 (EVar vMst1) + EPow P4 (EVar vMst2)))) + #2 * EVar vAl4p * EVar vMst2 * EVar vthreeLoopFlag * EVar vxDmglst2 *
   EPow P2 (EVar vDmglst2) * (- ((EVar vs2t * (#675 * EVar vDmsqst2 * (#1 - #2 * EVar vlmMst1 + #2 * EVar vlmMst2) +
   EPow P2 (EVar vMst2) * (#1180 + #1270 * EVar vlmMst2 + #96 * (#2 - #3 * EVar vlmMst2) * EPow P2 (EVar vlmMst1) -
   #3255 * EPow P2 (EVar vlmMst2) + #6 * EVar vlmMst1 * (- #468 + #454 * EVar vlmMst2 + #369 * EPow P2 (EVar vlmMst2))
   - #1926 * EPow P3 (EVar vlmMst2))) + #64 * EVar vMst2 * EVar vMt * (#53 + #191 * EVar vlmMst2 - #54 * EPow P2 (EVar
   vlmMst2) + #6 * EVar vlmMst1 * (- #10 - #3 * EVar vlmMst2 + #12 * EPow P2 (EVar vlmMst2)) - #72 * EPow P3 (EVar
   vlmMst2))) * EPow P3 (EVar vMst2) * EPow P4 (EVar vMst1)) - #3 * EPow P2 (EVar vMst1) * (#225 * EVar vDmsqst2 *
   EVar vs2t + #256 * EVar vMst2 * EVar vMt * (#2 + EVar vlmMst2 - #3 * EPow P2 (EVar vlmMst2)) + EVar vs2t * (#420 +
   EVar vlmMst1 * (#64 - #96 * EVar vlmMst2) - #358 * EVar vlmMst2 - #497 * EPow P2 (EVar vlmMst2)) * EPow P2 (EVar
   vMst2)) * EPow P5 (EVar vMst2) - #2 * EVar vMst2 * (#675 * EVar vDmsqst2 * (- EVar vlmMst1 + EVar vlmMst2) * EVar
   vs2t + #32 * EVar vMst2 * EVar vMt * (#11 + #371 * EVar vlmMst2 - #42 * EPow P2 (EVar vlmMst2) + #6 * EVar vlmMst1
   * (- #21 - #5 * EVar vlmMst2 + #24 * EPow P2 (EVar vlmMst2)) - #144 * EPow P3 (EVar vlmMst2)) - #3 * EVar vs2t *
   EPow P2 (EVar vMst2) * (- #240 - #468 * EVar vlmMst2 + #144 * (- #2 + #3 * EVar vlmMst2) * EPow P2 (EVar vlmMst1) +
   EVar vlmMst1 * (#580 - #22 * EVar vlmMst2 - #1137 * EPow P2 (EVar vlmMst2)) + #310 * EPow P2 (EVar vlmMst2) + #705
   * EPow P3 (EVar vlmMst2))) * EPow P6 (EVar vMst1) - #12 * (#16 * EVar vMt * (#49 + #103 * EVar vlmMst2 - #36 * (#1
   + EVar vlmMst2) * EPow P2 (EVar vlmMst2) + #4 * EVar vlmMst1 * (- #11 + #6 * EVar vlmMst2 + #9 * EPow P2 (EVar
   vlmMst2))) - EVar vMst2 * EVar vs2t * (#48 + #4 * EVar vlmMst2 * (#45 + #68 * EPow P2 (EVar vlmMst1)) + #310 * EPow
   P2 (EVar vlmMst2) - EVar vlmMst1 * (#92 + #310 * EVar vlmMst2 + #635 * EPow P2 (EVar vlmMst2)) + #363 * EPow P3
   (EVar vlmMst2))) * EPow P8 (EVar vMst1) - #96 * EVar vs2t * (- #2 + EVar vlmMst2 + #5 * EPow P2 (EVar vlmMst2)) *
   EPow P9 (EVar vMst2)))) / (EPow P2 (EVar vMgl) * EPow P4 (EVar vMst1) * EPow P6 (EVar vMst2)))) / #216)) - (#308700
   * EConst Cz2 * EPow P2 (EVar vMst1) * (#3240 * EVar vAl4p * EVar vs2t * EVar vtwoLoopFlag * EPow P2 (EVar vMst1) *
   EPow P2 (EVar vMt) * EPow P2 (EVar vMuSUSY) * (EVar vMgl * EPow P2 (EVar vMst2) * (#4 * EVar vMt * ((#9 * EVar
   vDmglst2 + EVar vMgl) * EPow P2 (EVar vMst1) * EPow P2 (EVar vMst2) + (#13 * EVar vDmglst2 + EVar vMgl) * EPow P4
   (EVar vMst1) + (#5 * EVar vDmglst2 + EVar vMgl) * EPow P4 (EVar vMst2)) - EVar vMst2 * EVar vs2t * (EVar vMgl *
   EPow P4 (EVar vMst2) + #4 * EVar vDmglst2 * (EPow P2 (EVar vMst1) * EPow P2 (EVar vMst2) + EPow P4 (EVar vMst1) +
   EPow P4 (EVar vMst2)))) + #2 * EVar vxMst * (EVar vDmglst2 * EVar vMgl * (#34 * EVar vMt - #2 * EVar vMst2 * EVar
   vs2t) + (#82 * EVar vMt - #3 * EVar vMst2 * EVar vs2t) * EVar vxDmglst2 * EPow P2 (EVar vDmglst2) + #2 * EVar vMt *
   EPow P2 (EVar vMgl)) * EPow P6 (EVar vMst1)) + #2 * EVar vAl4p * EVar vxDmglst2 * EPow P2 (EVar vDmglst2) * EPow P2
   (EVar vMst2) * EPow P2 (EVar vMt) * (#9720 * EVar vs2t * EVar vtwoLoopFlag * EPow P2 (EVar vMst1) * EPow P2 (EVar
   vMuSUSY) * (- #3 * EVar vMst2 * EVar vs2t * (EPow P2 (EVar vMst1) * EPow P2 (EVar vMst2) + EPow P4 (EVar vMst1) +
   EPow P4 (EVar vMst2)) + #2 * EVar vMt * (#21 * EPow P2 (EVar vMst1) * EPow P2 (EVar vMst2) + #31 * EPow P4 (EVar
   vMst1) + #11 * EPow P4 (EVar vMst2))) + EVar vAl4p * EVar vthreeLoopFlag * (EPow P2 (EVar vMuSUSY) * (- #9 * EPow
   P2 (EVar vMst1) * EPow P2 (EVar vMst2) * (#43200 * EVar vDmsqst2 * (#2 + #3 * EVar vlmMst1 - #3 * EVar vlmMst2) *
   EVar vMt * EVar vs2t - (#897737 + #47880 * EVar vlmMst1 + #238680 * EVar vlmMst2) * EVar vMt * EVar vs2t * EPow P2
   (EVar vMst2) - #48 * EVar vMst2 * (#4 * (#617 + #2040 * EVar vlmMst2) * EPow P2 (EVar vMt) + #675 * EVar vDmsqst2 *
   (#2 + EVar vlmMst1 - EVar vlmMst2) * EPow P2 (EVar vs2t)) + (#88931 + #33120 * EVar vlmMst1 + #13320 * EVar
   vlmMst2) * EPow P2 (EVar vs2t) * EPow P3 (EVar vMst2)) + #6 * (EVar vMt * EVar vs2t * (#64800 * EVar vDmsqst2 * (#1
   - #9 * EVar vlmMst1 + #9 * EVar vlmMst2) + (#1263161 - #156600 * EVar vlmMst1 + #979560 * EVar vlmMst2) * EPow P2
   (EVar vMst2)) + #6 * EVar vMst2 * ((#122051 + #1800 * EVar vlmMst1 + #274680 * EVar vlmMst2) * EPow P2 (EVar vMt) +
   #2700 * EVar vDmsqst2 * (#3 + #8 * EVar vlmMst1 - #8 * EVar vlmMst2) * EPow P2 (EVar vs2t)) - #5 * (#21223 + #13230
   * EVar vlmMst1 + #702 * EVar vlmMst2) * EPow P2 (EVar vs2t) * EPow P3 (EVar vMst2)) * EPow P4 (EVar vMst1) + #19440
   * (#5 * EVar vDmsqst2 - #2 * EPow P2 (EVar vMst2)) * EPow P2 (EVar vs2t) * EPow P5 (EVar vMst2)) + #2 * EVar vs2t *
   ((#15057833 - #4014360 * EVar vlmMst1 + #5563080 * EVar vlmMst2) * EVar vMt * EPow P2 (EVar vMuSUSY) - #2 * EVar
   vMst2 * EVar vs2t * ((#2128489 - #307800 * EVar vlmMst1 + #377460 * EVar vlmMst2) * EPow P2 (EVar vMuSUSY) + #6075
   * EVar vDmsqst2 * (- #93 + #10 * EVar vlmMst1 - #10 * EVar vlmMst2) * (- #1 + EPow P2 (EVar vSbeta)) * EPow P2
   (EVar vSbeta))) * EPow P6 (EVar vMst1))) / #3 + EVar vMst2 * EVar vthreeLoopFlag * EPow P2 (EVar vAl4p) * (#150 *
   EVar vMt * EVar vs2t * EVar vxDmsqst2 * EPow P2 (EVar vDmsqst2) * EPow P2 (EVar vMgl) * (#864 * (#3 + EVar vlmMst1
   - EVar vlmMst2) * EVar vMst2 * EPow P2 (EVar vMst1) * EPow P2 (EVar vMt) * EPow P2 (EVar vMuSUSY) - #27 * EVar vs2t
   * EPow P2 (EVar vSbeta) * (#2 * (#11 + #10 * EVar vlmMst1 - #10 * EVar vlmMst2) * EVar vMst2 * EVar vs2t * (- #1 +
   EPow P2 (EVar vSbeta)) + #3 * (#17 - #2 * EVar vlmMst1 + #2 * EVar vlmMst2) * EVar vMt * EPow P2 (EVar vSbeta)) *
   EPow P6 (EVar vMst1) - EVar vMt * EVar vs2t * (EPow P2 (EVar vMuSUSY) * (#6 * (#209 + #18 * EVar vlmMst1 - #18 *
   EVar vlmMst2) * EPow P2 (EVar vMst1) * EPow P2 (EVar vMst2) + #8 * (#421 + #54 * EVar vlmMst1 - #54 * EVar vlmMst2)
   * EPow P4 (EVar vMst1) + #108 * EPow P4 (EVar vMst2)) + #81 * (- #17 + #2 * EVar vlmMst1 - #2 * EVar vlmMst2) *
   EPow P2 (EVar vSbeta) * EPow P6 (EVar vMst1))) + EVar vMgl * EPow P2 (EVar vMt) * EPow P2 (EVar vs2t) * (#300 *
   EVar vDmsqst2 * (#162 * EVar vDmglst2 * EPow P2 (EVar vMst2) * (#4 * EPow P2 (EVar vMuSUSY) * (#3 * (#2 + EVar
   vlmMst1 - EVar vlmMst2) * EPow P2 (EVar vMst1) * EPow P2 (EVar vMst2) + (#3 + #8 * EVar vlmMst1 - #8 * EVar
   vlmMst2) * EPow P4 (EVar vMst1) + EPow P4 (EVar vMst2)) - (- #93 + #10 * EVar vlmMst1 - #10 * EVar vlmMst2) * (- #1
   + EPow P2 (EVar vSbeta)) * EPow P2 (EVar vSbeta) * EPow P6 (EVar vMst1)) + EVar vMgl * EPow P2 (EVar vMuSUSY) * (#9
   * (#1097 + #72 * (EVar vlmMst1 - EVar vlmMst2) * (- #1 + EVar vshiftst1)) * EPow P2 (EVar vMst2) * EPow P4 (EVar
   vMst1) + #27 * (#53 + #12 * (- #1 + #2 * EVar vlmMst1 - #2 * EVar vlmMst2) * EVar vshiftst1) * EPow P2 (EVar vMst1)
   * EPow P4 (EVar vMst2) + (#20701 + #648 * (EVar vlmMst1 - EVar vlmMst2) * (- #1 + EVar vshiftst1)) * EPow P6 (EVar
   vMst1) - #324 * (#1 + EVar vshiftst1) * EPow P6 (EVar vMst2))) - EPow P2 (EVar vMst2) * EPow P2 (EVar vMuSUSY) *
   (#4 * EVar vDmglst2 * (#162 * (#6803 - #1810 * EVar vlmMst1 + #2670 * EVar vlmMst2) * EPow P2 (EVar vMst2) * EPow
   P4 (EVar vMst1) - #135 * (#648 * EVar vlmMst1 - #7 * (#233 + #240 * EVar vlmMst2)) * EPow P2 (EVar vMst1) * EPow P4
   (EVar vMst2) + (#4256978 - #615600 * EVar vlmMst1 + #754920 * EVar vlmMst2) * EPow P6 (EVar vMst1) - #22680 * EPow
   P6 (EVar vMst2)) + #3 * EVar vMgl * (- #6 * (#533629 - #1080 * EVar vshiftst3 + #180 * EVar vlmMst1 * (- #5 + #60 *
   EVar vshiftst1 + #12 * EVar vshiftst3) - #180 * EVar vlmMst2 * (- #1 + #60 * EVar vshiftst1 + #12 * EVar
   vshiftst3)) * EPow P2 (EVar vMst2) * EPow P4 (EVar vMst1) - #90 * (#5597 - #360 * EVar vshiftst1 - #72 * EVar
   vshiftst3 - #24 * EVar vlmMst2 * (#46 + #30 * EVar vshiftst1 + #3 * EVar vshiftst3) + #12 * EVar vlmMst1 * (#47 +
   #60 * EVar vshiftst1 + #6 * EVar vshiftst3)) * EPow P2 (EVar vMst1) * EPow P4 (EVar vMst2) - (#6649153 - #6480 *
   EVar vshiftst3 + #540 * EVar vlmMst1 * (- #151 + #120 * EVar vshiftst1 + #36 * EVar vshiftst3) - #540 * EVar
   vlmMst2 * (- #143 + #120 * EVar vshiftst1 + #36 * EVar vshiftst3)) * EPow P6 (EVar vMst1) + #1080 * (#19 + #30 *
   EVar vshiftst1 + #3 * EVar vshiftst3) * EPow P6 (EVar vMst2)))) / #3 - #2 * EPow P2 (EVar vMuSUSY) * (EVar vMgl *
   EPow P2 (EVar vMst1) * (- (EVar vMst2 * EVar vs2t * EPow P3 (EVar vMt) * (#3 * EVar vMgl * (#120 * (#3937 + #2988 *
   EVar vlmMst1 - #2232 * EVar vlmMst2) * EPow P2 (EVar vMst1) * EPow P2 (EVar vMst2) + #129600 * EVar vDmsqst2 * ((#5
   + #3 * EVar vlmMst1 - #3 * EVar vlmMst2) * EPow P2 (EVar vMst1) + (#2 + EVar vlmMst1 - EVar vlmMst2) * EPow P2
   (EVar vMst2)) + (#533726 + #792720 * EVar vlmMst1 - #693360 * EVar vlmMst2) * EPow P4 (EVar vMst1) + #135 * (#2269
   + #664 * EVar vlmMst1 - #56 * EVar vlmMst2) * EPow P4 (EVar vMst2)) + EVar vDmglst2 * (#36 * (#364291 - #88560 *
   EVar vlmMst1 + #147960 * EVar vlmMst2) * EPow P2 (EVar vMst1) * EPow P2 (EVar vMst2) + #388800 * EVar vDmsqst2 *
   ((#1 - #9 * EVar vlmMst1 + #9 * EVar vlmMst2) * EPow P2 (EVar vMst1) + (- #2 - #3 * EVar vlmMst1 + #3 * EVar
   vlmMst2) * EPow P2 (EVar vMst2)) + (#30115666 - #8028720 * EVar vlmMst1 + #11126160 * EVar vlmMst2) * EPow P4 (EVar
   vMst1) + #27 * (#173947 - #25080 * EVar vlmMst1 + #68760 * EVar vlmMst2) * EPow P4 (EVar vMst2)))) / #3 + #90 * (#2
   * (EVar vDmglst2 * (- #7286 + #240 * EVar vlmMst1 - #6384 * EVar vlmMst2) + (#353 - #72 * EVar vlmMst1 - #696 *
   EVar vlmMst2) * EVar vMgl) * EPow P2 (EVar vMst1) * EPow P2 (EVar vMst2) + (#38401 + #1080 * EVar vlmMst1 - #7992 *
   EVar vlmMst2) * EVar vMgl * EPow P4 (EVar vMst1) / #3 - #32 * (#24 * EVar vDmglst2 * (#5 + #6 * EVar vlmMst2) +
   (#53 + #24 * EVar vlmMst2) * EVar vMgl) * EPow P4 (EVar vMst2)) * EPow P4 (EVar vMt)) - #2160 * EVar vMst2 * EVar
   vs2t * EVar vxDR2DRMOD * EPow P2 (EVar vMt) * (EVar vMgl * (#32 * (EVar vDmglst2 + #3 * EVar vDmglst2 * EVar
   vlmMst2 + EVar vMgl + EVar vlmMst2 * EVar vMgl) * EVar vMt * EPow P2 (EVar vMst1) * (#2 * EPow P2 (EVar vMst1) *
   EPow P2 (EVar vMst2) + #3 * EPow P4 (EVar vMst1) + EPow P4 (EVar vMst2)) - EVar vMst2 * EVar vs2t * (- #2 * (EVar
   vDmglst2 * (#7 * EVar vlmMst1 - #15 * EVar vlmMst2) + (- #4 - #13 * EVar vlmMst1 + #9 * EVar vlmMst2) * EVar vMgl)
   * (EPow P2 (EVar vMst1) + EPow P2 (EVar vMst2)) * EPow P4 (EVar vMst1) + (EVar vDmglst2 * (#7 - #14 * EVar vlmMst1
   + #30 * EVar vlmMst2) + (- #5 + #26 * EVar vlmMst1 - #18 * EVar vlmMst2) * EVar vMgl) * EPow P2 (EVar vMst1) * EPow
   P4 (EVar vMst2) + (#7 * EVar vDmglst2 - #13 * EVar vMgl) * EPow P6 (EVar vMst2))) - EVar vxDmglst2 * EPow P2 (EVar
   vDmglst2) * (#2 * (- #32 * (- #1 + #6 * EVar vlmMst2) * EVar vMt + (- #8 - #27 * EVar vlmMst1 + #39 * EVar vlmMst2)
   * EVar vMst2 * EVar vs2t) * EPow P2 (EVar vMst2) * EPow P4 (EVar vMst1) + (#32 * (#1 - #6 * EVar vlmMst2) * EVar
   vMt + (#11 - #54 * EVar vlmMst1 + #78 * EVar vlmMst2) * EVar vMst2 * EVar vs2t) * EPow P2 (EVar vMst1) * EPow P4
   (EVar vMst2) - #2 * (#48 * (#1 + #3 * EVar vlmMst2) * EVar vMt + (#7 * EVar vlmMst1 - #15 * EVar vlmMst2) * EVar
   vMst2 * EVar vs2t) * EPow P6 (EVar vMst1) + #27 * EVar vs2t * EPow P7 (EVar vMst2)))))) + EVar vMst2 * EVar vMt *
   EVar vthreeLoopFlag * EPow P2 (EVar vAl4p) * (#61740 * EVar vs2t * EVar vxDmsqst2 * EPow P2 (EVar vDmsqst2) * EPow
   P2 (EVar vMgl) * EPow P2 (EVar vMst1) * (- #300 * EVar vMt * (#2160 * (#3 + #2 * EVar vlmMst1 - #2 * EVar vlmMst2)
   * EVar vMst2 * EVar vMt * EPow P2 (EVar vMst1) + #270 * EVar vs2t * EVar vshiftst1 * (#2 * (EVar vlmMst1 - EVar
   vlmMst2) * EPow P2 (EVar vMst1) - EPow P2 (EVar vMst2)) * (EPow P2 (EVar vMst1) + EPow P2 (EVar vMst2)) + #40 *
   EVar vs2t * EConst CT1ep * EPow P2 (EVar vMst1) * (#14 * EPow P2 (EVar vMst1) + #3 * EPow P2 (EVar vMst2))) * EPow
   P2 (EVar vMuSUSY) + EVar vs2t * (#10125 * EPow P2 (EVar vSbeta) * (#2 * (#11 + #39 * EVar vlmMst1 - #39 * EVar
   vlmMst2) * EVar vMst2 * EVar vs2t * (- #1 + EPow P2 (EVar vSbeta)) + (#167 - #5 * EVar vlmMst1 + #5 * EVar vlmMst2)
   * EVar vMt * EPow P2 (EVar vSbeta)) * EPow P6 (EVar vMst1) + EVar vMt * (EPow P2 (EVar vMuSUSY) * (#375 * (#1925 +
   #64 * EConst COepS2 - #27864 * EConst CS2 - #72 * (EVar vlmMst1 - EVar vlmMst2) * (- #1 + #18 * EConst CS2)) * EPow
   P2 (EVar vMst1) * EPow P2 (EVar vMst2) + #2 * (#7 * (- #46499 + #8000 * EConst COepS2 - #1728000 * EConst CS2) +
   #90 * EVar vlmMst2 * (- #2137 + #12600 * EConst CS2) - #90 * EVar vlmMst1 * (- #2137 + #1080 * EVar vlmMst2 +
   #12600 * EConst CS2) + #48600 * (EPow P2 (EVar vlmMst1) + EPow P2 (EVar vlmMst2))) * EPow P4 (EVar vMst1) + #162000
   * EPow P4 (EVar vMst2)) + #10125 * (- #167 + #5 * EVar vlmMst1 - #5 * EVar vlmMst2) * EPow P2 (EVar vSbeta) * EPow
   P6 (EVar vMst1)))) - #257250 * EConst Cz3 * EPow P4 (EVar vMst1) * (#45 * EVar vs2t * EVar vxDmsqst2 * EPow P2
   (EVar vDmsqst2) * EPow P2 (EVar vMgl) * (EVar vMt * (#3456 * EVar vMst2 * EVar vMt - #30208 * EVar vs2t * EPow P2
   (EVar vMst1) - #13209 * EVar vs2t * EPow P2 (EVar vMst2)) * EPow P2 (EVar vMuSUSY) - #216 * EVar vs2t * (- #3 *
   EVar vMt + #10 * EVar vMst2 * EVar vs2t) * (- #1 + EPow P2 (EVar vSbeta)) * EPow P2 (EVar vSbeta) * EPow P4 (EVar
   vMst1)) + EVar vMt * (#36 * EVar vMst2 * EVar vxDmglst2 * EPow P2 (EVar vDmglst2) * (- #5400 * EVar vDmsqst2 * EVar
   vMst2 * EPow P2 (EVar vs2t) * (- #1 + EPow P2 (EVar vSbeta)) * EPow P2 (EVar vSbeta) * EPow P4 (EVar vMst1) + EPow
   P2 (EVar vMuSUSY) * (#48 * EPow P2 (EVar vMst1) * (- #8100 * EVar vDmsqst2 * EVar vMt * EVar vs2t + #152143 * EVar
   vMt * EVar vs2t * EPow P2 (EVar vMst2) - #40917 * EVar vMst2 * EPow P2 (EVar vMt) + #3240 * EVar vDmsqst2 * EVar
   vMst2 * EPow P2 (EVar vs2t) + #101147 * EPow P2 (EVar vs2t) * EPow P3 (EVar vMst2)) + #9 * EPow P2 (EVar vMst2) *
   (- #8640 * EVar vDmsqst2 * EVar vMt * EVar vs2t + #443828 * EVar vMt * EVar vs2t * EPow P2 (EVar vMst2) - #95520 *
   EVar vMst2 * EPow P2 (EVar vMt) + #6480 * EVar vDmsqst2 * EVar vMst2 * EPow P2 (EVar vs2t) + #228607 * EPow P2
   (EVar vs2t) * EPow P3 (EVar vMst2)) + #16 * EVar vs2t * (#395581 * EVar vMt + #176558 * EVar vMst2 * EVar vs2t) *
   EPow P4 (EVar vMst1)) / #9) + #8 * EVar vMgl * EPow P2 (EVar vs2t) * (- #24300 * EVar vDmglst2 * EVar vDmsqst2 *
   EPow P2 (EVar vMst2) * (- #1 + EPow P2 (EVar vSbeta)) * EPow P2 (EVar vSbeta) * EPow P4 (EVar vMst1) + EPow P2
   (EVar vMuSUSY) * (#4 * (#353116 * EVar vDmglst2 + #3 * (#91963 + #162 * EVar vlmMst1 - #162 * EVar vlmMst2) * EVar
   vMgl) * EPow P2 (EVar vMst2) * EPow P4 (EVar vMst1) + #30 * EVar vDmsqst2 * (#9 * (#288 * EVar vDmglst2 + #35 *
   EVar vMgl) * EPow P2 (EVar vMst1) * EPow P2 (EVar vMst2) + #1771 * EVar vMgl * EPow P4 (EVar vMst1)) + #18 * (#45 *
   EVar vDmsqst2 * (#36 * EVar vDmglst2 - #23 * EVar vMgl) + (#58482 * EVar vDmglst2 + (#35719 + #108 * EVar vlmMst1 -
   #108 * EVar vlmMst2) * EVar vMgl) * EPow P2 (EVar vMst1)) * EPow P4 (EVar vMst2) + #27 * (#17615 * EVar vDmglst2 +
   #6 * (#1319 + #6 * EVar vlmMst1 - #6 * EVar vlmMst2) * EVar vMgl) * EPow P6 (EVar vMst2))))) + EVar vMgl * EVar vMt
   * EPow P2 (EVar vs2t) * (#833490000 * EVar vDmglst2 * EVar vDmsqst2 * (- #1081 + #165 * EVar vlmMst1 - #165 * EVar
   vlmMst2) * EPow P2 (EVar vMst2) * (- #1 + EPow P2 (EVar vSbeta)) * EPow P2 (EVar vSbeta) * EPow P8 (EVar vMst1) -
   EPow P2 (EVar vMuSUSY) * (#61740 * (#2250 * EVar vDmsqst2 * (#288 * EVar vDmglst2 * (#4 + EVar vlmMst1 - EVar
   vlmMst2) + EVar vMgl * (- #1141 + #264 * EVar vlmMst2 + #48 * EVar vlmMst1 * (- #7 + #3 * EVar vlmMst2) - #144 *
   EPow P2 (EVar vlmMst2))) - #75 * EPow P2 (EVar vMst2) * (EVar vMgl * (#17297 + #1440 * EConst CB4 - #144 * EConst
   CD3 + #72 * EConst CDN + #20064 * EVar vlmMst1 - #42096 * EVar vlmMst2 + #23328 * EVar vlmMst1 * EVar vlmMst2 +
   #1908 * EPow P2 (EVar vlmMst1) - #1404 * EVar vlmMst2 * EPow P2 (EVar vlmMst1) - #33840 * EPow P2 (EVar vlmMst2) +
   #10584 * EVar vlmMst1 * EPow P2 (EVar vlmMst2) + #576 * EPow P3 (EVar vlmMst1) - #9756 * EPow P3 (EVar vlmMst2)) +
   #2 * EVar vDmglst2 * (- #14267 + #432 * EConst CB4 - #576 * EConst CD3 + #360 * EConst CDN - #4752 * EVar vlmMst1 +
   #4536 * EVar vlmMst2 + #16704 * EVar vlmMst1 * EVar vlmMst2 + #1404 * EPow P2 (EVar vlmMst1) - #1152 * EVar vlmMst2
   * EPow P2 (EVar vlmMst1) - #20232 * EPow P2 (EVar vlmMst2) + #8856 * EVar vlmMst1 * EPow P2 (EVar vlmMst2) - #7704
   * EPow P3 (EVar vlmMst2))) + EPow P2 (EVar vMst1) * (- #5 * EVar vMgl * (#10552777 + #205200 * EConst CB4 - #5400 *
   EConst CDN + #4145280 * EVar vlmMst1 - #1181700 * EPow P2 (EVar vlmMst1) - #240 * EVar vlmMst2 * (#16192 - #26430 *
   EVar vlmMst1 + #3465 * EPow P2 (EVar vlmMst1)) + #900 * (- #5735 + #3072 * EVar vlmMst1) * EPow P2 (EVar vlmMst2) -
   #55800 * EPow P3 (EVar vlmMst1) - #1877400 * EPow P3 (EVar vlmMst2)) + #8 * EVar vDmglst2 * (#2695042 - #40500 *
   EConst CB4 + #54000 * EConst CD3 - #33750 * EConst CDN - #326895 * EVar vlmMst1 - #324900 * EPow P2 (EVar vlmMst1)
   + #15 * EVar vlmMst2 * (- #19607 - #129030 * EVar vlmMst1 + #62550 * EPow P2 (EVar vlmMst1)) - #450 * (- #5023 +
   #5610 * EVar vlmMst1) * EPow P2 (EVar vlmMst2) + #11250 * EPow P3 (EVar vlmMst1) + #1575000 * EPow P3 (EVar
   vlmMst2))) / #5) * EPow P4 (EVar vMst1) * EPow P4 (EVar vMst2) + #686000 * EPow P4 (EVar vMst1) * (#30 * EVar
   vDmsqst2 * EVar vMgl * (#9 * (#104 * EConst COepS2 + #27 * (#17 - #78 * EVar vlmMst1 + #78 * EVar vlmMst2) * EConst
   CS2) * EPow P2 (EVar vMst1) * EPow P2 (EVar vMst2) + #13 * (#136 * EConst COepS2 - #27 * (#95 + #102 * EVar vlmMst1
   - #102 * EVar vlmMst2) * EConst CS2) * EPow P4 (EVar vMst1) + #27 * (#8 * EConst COepS2 - #81 * (- #15 + #2 * EVar
   vlmMst1 - #2 * EVar vlmMst2) * EConst CS2) * EPow P4 (EVar vMst2)) - EPow P2 (EVar vMst2) * (#3 * EVar vMgl * (- #3
   * (#8456 * EConst COepS2 - #81 * (#11243 + #2114 * EVar vlmMst1 - #2114 * EVar vlmMst2) * EConst CS2) * EPow P2
   (EVar vMst1) * EPow P2 (EVar vMst2) + (- #52948 * EConst COepS2 + #27 * (#194357 + #39711 * EVar vlmMst1 - #39711 *
   EVar vlmMst2) * EConst CS2) * EPow P4 (EVar vMst1) + #27 * (- #184 * EConst COepS2 + #81 * (#307 + #46 * EVar
   vlmMst1 - #46 * EVar vlmMst2) * EConst CS2) * EPow P4 (EVar vMst2)) + #2 * EVar vDmglst2 * (#54 * (#344 * EConst
   COepS2 + #9 * (#15643 - #774 * EVar vlmMst1 + #774 * EVar vlmMst2) * EConst CS2) * EPow P2 (EVar vMst1) * EPow P2
   (EVar vMst2) + #4 * (#17308 * EConst COepS2 + #27 * (#93919 - #12981 * EVar vlmMst1 + #12981 * EVar vlmMst2) *
   EConst CS2) * EPow P4 (EVar vMst1) + #27 * (#56 * EConst COepS2 - #81 * (- #1677 + #14 * EVar vlmMst1 - #14 * EVar
   vlmMst2) * EConst CS2) * EPow P4 (EVar vMst2)))) - #370440 * EVar vDmsqst2 * EPow P2 (EVar vMst1) * ((#13500 * EVar
   vDmglst2 * (#23 - #42 * EVar vlmMst1 + #42 * EVar vlmMst2) + EVar vMgl * (#817051 - #167940 * EVar vlmMst2 + #540 *
   EVar vlmMst1 * (#311 + #10 * EVar vlmMst2) - #29700 * EPow P2 (EVar vlmMst1) + #24300 * EPow P2 (EVar vlmMst2))) *
   EPow P2 (EVar vMst2) * EPow P4 (EVar vMst1) + #5 * EVar vMgl * (#593331163 + #10411380 * EVar vlmMst2 + #1260 *
   EVar vlmMst1 * (- #8263 + #71820 * EVar vlmMst2) - #61916400 * EPow P2 (EVar vlmMst1) - #28576800 * EPow P2 (EVar
   vlmMst2)) * EPow P6 (EVar vMst1) / #3087 - #13500 * (#12 * EVar vDmglst2 + EVar vMgl - #2 * EVar vlmMst2 * EVar
   vMgl) * EPow P6 (EVar vMst2)) + #500094000 * EVar vMgl * EPow P2 (EVar vMst1) * (- #10 * EVar vshiftst1 * (EVar
   vDmsqst2 * (#3 - #2 * EVar vlmMst2) + (#1 - #2 * EVar vlmMst2) * EPow P2 (EVar vMst2)) * ((EPow P2 (EVar vMst1) +
   EPow P2 (EVar vMst2)) * EPow P4 (EVar vMst2) - #2 * (EVar vlmMst1 - EVar vlmMst2) * EPow P2 (EVar vMst1) * (EPow P2
   (EVar vMst1) * EPow P2 (EVar vMst2) + EPow P4 (EVar vMst1) + EPow P4 (EVar vMst2))) - (#1 - #2 * EVar vlmMst2) *
   EVar vshiftst3 * EPow P2 (EVar vMst2) * (#2 * (#1 - #2 * EVar vlmMst1 + #2 * EVar vlmMst2) * EPow P2 (EVar vMst2) *
   EPow P4 (EVar vMst1) + #2 * (#1 - EVar vlmMst1 + EVar vlmMst2) * EPow P2 (EVar vMst1) * EPow P4 (EVar vMst2) + (#2
   - #6 * EVar vlmMst1 + #6 * EVar vlmMst2) * EPow P6 (EVar vMst1) + EPow P6 (EVar vMst2))) + #3 * EPow P2 (EVar
   vMst2) * (#500094000 * EVar vDmglst2 * (EDec 5851892843532082 13 - #8 * EConst CB4 / #3 + #32 * EConst CD3 / #9 -
   #20 * EConst CDN / #9 - #20109937 * EVar vlmMst1 / #297675 - #15886 * EPow P2 (EVar vlmMst1) / #945 + EVar vlmMst2
   * (EDec 17112243218274966 15 - #144628 * EVar vlmMst1 / #945 + #1180 * EPow P2 (EVar vlmMst1) / #9) + (EDec
   16985608465608465 14 - #2632 * EVar vlmMst1 / #9) * EPow P2 (EVar vlmMst2) - #92 * EPow P3 (EVar vlmMst1) / #27 +
   #4448 * EPow P3 (EVar vlmMst2) / #27) + EVar vMgl * (- #314145861731 - #4223016000 * EConst CB4 + #111132000 *
   EConst CDN - #7960477140 * EVar vlmMst1 + #105268993200 * EPow P2 (EVar vlmMst1) + #1260 * EVar vlmMst2 * (#4972789
   - #230465340 * EVar vlmMst1 + #36250200 * EPow P2 (EVar vlmMst1)) + #3175200 * (#58301 - #37135 * EVar vlmMst1) *
   EPow P2 (EVar vlmMst2) + #2444904000 * EPow P3 (EVar vlmMst1) + #69790896000 * EPow P3 (EVar vlmMst2))) * EPow P8
   (EVar vMst1) - #166698000 * (EVar vDmglst2 * (#40 - #4 * (#99 + #16 * EVar vlmMst1) * EVar vlmMst2 - #246 * EPow P2
   (EVar vlmMst2)) - EVar vMgl * (#103 + #186 * EVar vlmMst2 + #32 * EVar vlmMst1 * (#1 + EVar vlmMst2) + #91 * EPow
   P2 (EVar vlmMst2))) * EPow P2 (EVar vMst1) * EPow P8 (EVar vMst2) - #2667168000 * (#1 + EVar vlmMst2) * (#4 * EVar
   vDmglst2 * EVar vlmMst2 + EVar vMgl + EVar vlmMst2 * EVar vMgl) * EPow P10 (EVar vMst2))) - #34300 * EVar vMt *
   EPow P2 (EVar vMuSUSY) * (#30 * EPow P4 (EVar vMst1) * (#2 * EVar vMst2 * EVar vxDmglst2 * EPow P2 (EVar vDmglst2)
   * (#6 * EVar vMst2 * EPow P2 (EVar vMst1) * (EVar vMst2 * EVar vMt * EVar vs2t * (#12344 * EConst Cz4 - #88647 *
   EPow P2 (EConst Cz2)) + EPow P2 (EVar vMt) * (#5412 * EConst Cz4 - #630 * EPow P2 (EConst Cz2)) + EPow P2 (EVar
   vMst2) * EPow P2 (EVar vs2t) * (#10819 * EConst Cz4 + #3471 * EPow P2 (EConst Cz2))) + #9 * (#1944 * EConst Cz4 *
   EPow P2 (EVar vMt) + EVar vMst2 * EVar vMt * EVar vs2t * (#2498 * EConst Cz4 - #31083 * EPow P2 (EConst Cz2)) +
   EPow P2 (EVar vMst2) * EPow P2 (EVar vs2t) * (#4444 * EConst Cz4 + #2049 * EPow P2 (EConst Cz2))) * EPow P3 (EVar
   vMst2) + #2 * EVar vs2t * (#2636 * EVar vMt * EConst Cz4 + #22654 * EVar vMst2 * EVar vs2t * EConst Cz4 - #259215 *
   EVar vMt * EPow P2 (EConst Cz2) + #31794 * EVar vMst2 * EVar vs2t * EPow P2 (EConst Cz2)) * EPow P4 (EVar vMst1)) +
   #2 * EVar vDmglst2 * EVar vMgl * EVar vMst2 * (#36 * EPow P2 (EVar vMst1) * (- #5400 * EVar vDmsqst2 * EVar vMt *
   EVar vs2t * EConst Cz3 + EVar vMt * EVar vs2t * EPow P2 (EVar vMst2) * (#47456 * EConst Cz3 + #709 * EConst Cz4 -
   #8535 * EPow P2 (EConst Cz2)) - #6 * EVar vMst2 * EPow P2 (EVar vMt) * (#250 * EConst Cz3 - #94 * EConst Cz4 + #21
   * EPow P2 (EConst Cz2)) + #3 * EPow P2 (EVar vs2t) * (#185 * EConst Cz4 + #237 * EPow P2 (EConst Cz2)) * EPow P3
   (EVar vMst2)) + #27 * EPow P2 (EVar vMst2) * (- #1440 * EVar vDmsqst2 * EVar vMt * EVar vs2t * EConst Cz3 - #16 *
   EVar vMst2 * (#83 * EConst Cz3 - #27 * EConst Cz4) * EPow P2 (EVar vMt) + EVar vMt * EVar vs2t * EPow P2 (EVar
   vMst2) * (#30274 * EConst Cz3 + #542 * EConst Cz4 - #5289 * EPow P2 (EConst Cz2)) + #2 * EPow P2 (EVar vs2t) *
   (#212 * EConst Cz4 + #237 * EPow P2 (EConst Cz2)) * EPow P3 (EVar vMst2)) + #2 * EVar vs2t * (#1582324 * EVar vMt *
   EConst Cz3 + #2636 * EVar vMt * EConst Cz4 + #22654 * EVar vMst2 * EVar vs2t * EConst Cz4 - #259215 * EVar vMt *
   EPow P2 (EConst Cz2) + #31794 * EVar vMst2 * EVar vs2t * EPow P2 (EConst Cz2)) * EPow P4 (EVar vMst1)) + #3 * EPow
   P2 (EVar vMgl) * ((#4 * EVar vMst2 * EVar vMt * EVar vs2t * (#99632 * EConst Cz3 + #11764 * EConst Cz4 - #20505 *
   EPow P2 (EConst Cz2)) + #12 * EPow P2 (EVar vMt) * (#1502 * EConst Cz3 + #2062 * EConst Cz4 + #1635 * EPow P2
   (EConst Cz2)) - EPow P2 (EVar vs2t) * (#4420 * EVar vDmsqst2 * (#2 * EConst Cz4 + #3 * EPow P2 (EConst Cz2)) + EPow
   P2 (EVar vMst2) * (#27446 * EConst Cz4 + #35823 * EPow P2 (EConst Cz2)))) * EPow P4 (EVar vMst1) + #18 * EPow P2
   (EVar vMst2) * (#4320 * EVar vDmsqst2 * EVar vMst2 * EVar vMt * EVar vs2t * EConst Cz3 + #10 * EVar vxDmsqst2 *
   EPow P2 (EVar vDmsqst2) * EPow P2 (EVar vs2t) * (#2 * EConst Cz4 + #3 * EPow P2 (EConst Cz2)) + EPow P2 (EVar
   vMst2) * (#8 * (#230 * EConst Cz3 + #27 * EConst Cz4) * EPow P2 (EVar vMt) - #30 * EVar vDmsqst2 * EPow P2 (EVar
   vs2t) * (#2 * EConst Cz4 + #3 * EPow P2 (EConst Cz2))) + #5 * EVar vMt * EVar vs2t * (#2386 * EConst Cz3 + #102 *
   EConst Cz4 - #333 * EPow P2 (EConst Cz2)) * EPow P3 (EVar vMst2) + #3 * EPow P2 (EVar vs2t) * (- #40 * EConst Cz4 +
   #3 * EPow P2 (EConst Cz2)) * EPow P4 (EVar vMst2)) - #6 * EPow P2 (EVar vMst1) * (- #30240 * EVar vDmsqst2 * EVar
   vMst2 * EVar vMt * EVar vs2t * EConst Cz3 - #140 * EVar vxDmsqst2 * EPow P2 (EVar vDmsqst2) * EPow P2 (EVar vs2t) *
   (#2 * EConst Cz4 + #3 * EPow P2 (EConst Cz2)) - #6 * EPow P2 (EVar vMst2) * (- #65 * EVar vDmsqst2 * EPow P2 (EVar
   vs2t) * (#2 * EConst Cz4 + #3 * EPow P2 (EConst Cz2)) + #6 * EPow P2 (EVar vMt) * (#218 * EConst Cz3 + #50 * EConst
   Cz4 + #21 * EPow P2 (EConst Cz2))) + #4 * EVar vMt * EVar vs2t * (- #14636 * EConst Cz3 - #1135 * EConst Cz4 +
   #2388 * EPow P2 (EConst Cz2)) * EPow P3 (EVar vMst2) + EPow P2 (EVar vs2t) * (#2276 * EConst Cz4 + #2523 * EPow P2
   (EConst Cz2)) * EPow P4 (EVar vMst2)))) + EVar vMgl * (#180 * EPow P2 (EVar vMt) * EPow P4 (EVar vMst1) * (#9 *
   EPow P2 (EVar vMst1) * EPow P2 (EVar vMst2) * (EVar vMgl * (#10667 - #96 * EConst CB4 + #96 * EConst CD3 - #48 *
   EConst CDN - #3072 * EVar vlmMst1 - #384 * (- #25 + #9 * EVar vlmMst1) * EVar vlmMst2 - #384 * (- #1 + EVar vlmMst1
   - EVar vlmMst2) * EVar vlmMt - #384 * (- #13 + #4 * EVar vlmMst1) * EPow P2 (EVar vlmMst2) + #1536 * EPow P3 (EVar
   vlmMst2)) + EVar vDmglst2 * (EDec 18936666666666668 12 - #192 * EConst CB4 + #192 * EConst CD3 - #96 * EConst CDN +
   #3648 * EVar vlmMst1 - #192 * (- #89 + #2 * EVar vlmMst1) * EVar vlmMst2 + #384 * (- #2 + EVar vlmMst1 - EVar
   vlmMst2) * EVar vlmMt - #384 * (- #9 + #8 * EVar vlmMst1) * EPow P2 (EVar vlmMst2) + #3072 * EPow P3 (EVar
   vlmMst2))) + EVar vMgl * (#383185 - #2592 * EConst CB4 + #2592 * EConst CD3 - #1296 * EConst CDN - #187704 * EVar
   vlmMst1 + #216 * EVar vlmMst2 * (#1733 + #859 * EVar vlmMst2 - #6 * EVar vlmMst1 * (#105 + #41 * EVar vlmMst2) -
   #26 * EPow P2 (EVar vlmMst1)) - #7992 * EPow P2 (EVar vlmMst1) + #3456 * EVar vlmMt * (#3 + #6 * EVar vlmMst2 - #2
   * EVar vlmMst1 * (#3 + EVar vlmMst2) + EPow P2 (EVar vlmMst1) + EPow P2 (EVar vlmMst2)) + #720 * EPow P3 (EVar
   vlmMst1) + #58032 * EPow P3 (EVar vlmMst2)) * EPow P4 (EVar vMst1) / #2 + EConst COepS2 * (#672 * (#2 * EVar
   vDmglst2 - #3 * EVar vMgl) * EPow P2 (EVar vMst1) * EPow P2 (EVar vMst2) - #8720 * EVar vMgl * EPow P4 (EVar
   vMst1)) + #72 * (#6 * EVar vDmglst2 * (#180 - #2 * EConst CB4 + #2 * EConst CD3 - EConst CDN + #16 * EVar vlmMst1 +
   #144 * EVar vlmMst2 - #16 * (- #2 + EVar vlmMst1) * EPow P2 (EVar vlmMst2) + #16 * EPow P3 (EVar vlmMst2)) + EVar
   vMgl * (#436 - #6 * EConst CB4 + #6 * EConst CD3 - #3 * EConst CDN - #48 * EVar vlmMst1 + (#408 - #96 * EVar
   vlmMst1) * EVar vlmMst2 + #24 * EVar vlmMt - #48 * (- #4 + EVar vlmMst1) * EPow P2 (EVar vlmMst2) + #48 * EPow P3
   (EVar vlmMst2))) * EPow P4 (EVar vMst2) - #243 * EConst CS2 * (#4 * (#2 * EVar vDmglst2 * (#65 + #14 * EVar vlmMst1
   - #14 * EVar vlmMst2) + #3 * (#43 - #14 * EVar vlmMst1 + #14 * EVar vlmMst2) * EVar vMgl) * EPow P2 (EVar vMst1) *
   EPow P2 (EVar vMst2) + #4 * (#57 - #545 * EVar vlmMst1 + #545 * EVar vlmMst2) * EVar vMgl * EPow P4 (EVar vMst1) /
   #3 + #96 * (#4 * EVar vDmglst2 + #3 * EVar vMgl) * EPow P4 (EVar vMst2))) + #120 * EConst CT1ep * EPow P4 (EVar
   vMst1) * (#36 * EPow P2 (EVar vMt) * (- #42 * (#2 * EVar vDmglst2 - #3 * EVar vMgl) * EPow P2 (EVar vMst1) * EPow
   P2 (EVar vMst2) + #545 * EVar vMgl * EPow P4 (EVar vMst1)) - #2 * EVar vMst2 * EVar vMt * EVar vs2t * (#36 * (#253
   * EVar vDmglst2 - #68 * EVar vMgl) * EPow P2 (EVar vMst1) * EPow P2 (EVar vMst2) + #2 * (#16421 * EVar vDmglst2 -
   #2823 * EVar vMgl) * EPow P4 (EVar vMst1) + #189 * (#5 * EVar vDmglst2 - #3 * EVar vMgl) * EPow P4 (EVar vMst2)) +
   EPow P2 (EVar vs2t) * ((#34616 * EVar vDmglst2 - #39711 * EVar vMgl) * EPow P2 (EVar vMst2) * EPow P4 (EVar vMst1)
   - #780 * EVar vDmsqst2 * EVar vMgl * (#9 * EPow P2 (EVar vMst1) * EPow P2 (EVar vMst2) + #17 * EPow P4 (EVar
   vMst1)) - #18 * (#90 * EVar vDmsqst2 * EVar vMgl + (- #516 * EVar vDmglst2 + #1057 * EVar vMgl) * EPow P2 (EVar
   vMst1)) * EPow P4 (EVar vMst2) + #54 * (#14 * EVar vDmglst2 - #69 * EVar vMgl) * EPow P6 (EVar vMst2))) + EVar
   vMst2 * EVar vMt * EVar vs2t * EPow P2 (EVar vMst1) * (EVar vDmglst2 * (#36 * EPow P2 (EVar vMst2) * (#66761 +
   #301320 * EConst CB4 - #4860 * EConst CDN - #205380 * EVar vlmMst1 + #40480 * EConst COepS2 - #216 * (#2489 + #3795
   * EVar vlmMst1 - #3795 * EVar vlmMst2) * EConst CS2 + #23760 * EPow P2 (EVar vlmMst1) + #180 * EVar vlmMst2 *
   (#4993 - #1956 * EVar vlmMst1 + #48 * EPow P2 (EVar vlmMst1)) - #1080 * (- #482 + #331 * EVar vlmMst1) * EPow P2
   (EVar vlmMst2) + #348840 * EPow P3 (EVar vlmMst2)) * EPow P4 (EVar vMst1) + #2332800 * EVar vDmsqst2 * ((- #2 - #5
   * EVar vlmMst1 + #5 * EVar vlmMst2) * EPow P2 (EVar vMst1) * EPow P2 (EVar vMst2) + (#8 - #15 * EVar vlmMst1 + #15
   * EVar vlmMst2) * EPow P4 (EVar vMst1)) + #27 * EPow P2 (EVar vMst1) * (#23917 + #188640 * EConst CB4 - #3600 *
   EConst CDN - #37440 * EVar vlmMst1 + #5600 * EConst COepS2 - #324 * (- #453 + #350 * EVar vlmMst1 - #350 * EVar
   vlmMst2) * EConst CS2 + #11520 * EPow P2 (EVar vlmMst1) - #2880 * EVar vlmMst2 * (- #237 + #55 * EVar vlmMst1 + #4
   * EPow P2 (EVar vlmMst1)) - #1440 * (- #280 + #121 * EVar vlmMst1) * EPow P2 (EVar vlmMst2) + #185760 * EPow P3
   (EVar vlmMst2)) * EPow P4 (EVar vMst2) - #10 * (#2773621 - #1660176 * EConst CB4 + #25272 * EConst CDN + #2004408 *
   EVar vlmMst1 - #525472 * EConst COepS2 + #108 * (#123113 + #98526 * EVar vlmMst1 - #98526 * EVar vlmMst2) * EConst
   CS2 + #3888 * EPow P2 (EVar vlmMst1) - #144 * EVar vlmMst2 * (#36802 - #11421 * EVar vlmMst1 + #1728 * EPow P2
   (EVar vlmMst1)) + #167184 * (- #14 + #15 * EVar vlmMst1) * EPow P2 (EVar vlmMst2) - #31104 * EPow P3 (EVar vlmMst1)
   - #2227824 * EPow P3 (EVar vlmMst2)) * EPow P6 (EVar vMst1) + #622080 * (- #1 + #2 * EVar vlmMst2 + #3 * EPow P2
   (EVar vlmMst2)) * EPow P6 (EVar vMst2)) + #15 * EVar vMgl * (#24 * EPow P2 (EVar vMst2) * (#75569 + #13716 * EConst
   CB4 - #54 * EConst CDN - #33426 * EVar vlmMst1 - #1088 * EConst COepS2 + #162 * (#169 + #136 * EVar vlmMst1 - #136
   * EVar vlmMst2) * EConst CS2 - #2376 * EPow P2 (EVar vlmMst1) + #54 * EVar vlmMst2 * (#1427 - #1012 * EVar vlmMst1
   + #16 * EPow P2 (EVar vlmMst1)) - #108 * (- #642 + #203 * EVar vlmMst1) * EPow P2 (EVar vlmMst2) + #21060 * EPow P3
   (EVar vlmMst2)) * EPow P4 (EVar vMst1) + #155520 * EVar vDmsqst2 * ((#1 + EVar vlmMst1 - EVar vlmMst2) * EPow P2
   (EVar vMst1) * EPow P2 (EVar vMst2) + (#1 + #3 * EVar vlmMst1 - #3 * EVar vlmMst2) * EPow P4 (EVar vMst1)) + #27 *
   EPow P2 (EVar vMst1) * (#28683 + #5280 * EConst CB4 - #48 * EConst CDN - #5952 * EVar vlmMst1 - #224 * EConst
   COepS2 + #324 * (- #1 + #14 * EVar vlmMst1 - #14 * EVar vlmMst2) * EConst CS2 - #768 * EPow P2 (EVar vlmMst1) -
   #192 * EVar vlmMst2 * (- #214 + #73 * EVar vlmMst1 + #4 * EPow P2 (EVar vlmMst1)) - #96 * (- #268 + #57 * EVar
   vlmMst1) * EPow P2 (EVar vlmMst2) + #6240 * EPow P3 (EVar vlmMst2)) * EPow P4 (EVar vMst2) + #2 * (#1702429 +
   #257904 * EConst CB4 - #648 * EConst CDN - #748656 * EVar vlmMst1 - #30112 * EConst COepS2 + #108 * (#9185 + #5646
   * EVar vlmMst1 - #5646 * EVar vlmMst2) * EConst CS2 + #41904 * EPow P2 (EVar vlmMst1) + #216 * EVar vlmMst2 *
   (#5971 - #6106 * EVar vlmMst1 + #576 * EPow P2 (EVar vlmMst1)) - #41904 * (- #34 + #15 * EVar vlmMst1) * EPow P2
   (EVar vlmMst2) - #3456 * EPow P3 (EVar vlmMst1) + #507600 * EPow P3 (EVar vlmMst2)) * EPow P6 (EVar vMst1) + #41472
   * EPow P2 (#1 + EVar vlmMst2) * EPow P6 (EVar vMst2))) + #4860 * EVar vs2t * EVar vxDR2DRMOD * (#64 * EVar vMst2 *
   EVar vMt * EPow P2 (EVar vMst1) * (((#1 + EVar vlmMst2) * EVar vMgl * (#7 - #32 * EVar vlmMst2 + #4 * EVar vlmMst1
   * (#7 + #3 * EVar vlmMst2) - #12 * EPow P2 (EVar vlmMst2)) + EVar vDmglst2 * (#49 + #103 * EVar vlmMst2 - #36 * (#1
   + EVar vlmMst2) * EPow P2 (EVar vlmMst2) + #4 * EVar vlmMst1 * (- #11 + #6 * EVar vlmMst2 + #9 * EPow P2 (EVar
   vlmMst2)))) * EPow P6 (EVar vMst1) + #2 * (EPow P2 (EVar vMst2) * ((#1 + EVar vlmMst2) * EVar vMgl * (#1 - #10 *
   EVar vlmMst2 + #4 * EVar vlmMst1 * (#2 + EVar vlmMst2) - #4 * EPow P2 (EVar vlmMst2)) + #2 * EVar vDmglst2 * (#8 +
   #13 * EVar vlmMst2 - #8 * EPow P2 (EVar vlmMst2) + EVar vlmMst1 * (- #5 + #5 * EVar vlmMst2 + #6 * EPow P2 (EVar
   vlmMst2)) - #6 * EPow P3 (EVar vlmMst2))) * EPow P4 (EVar vMst1) + EPow P2 (EVar vMst1) * ((#1 + EVar vlmMst2) *
   EVar vMgl * (- #1 - #5 * EVar vlmMst2 + EVar vlmMst1 * (#3 + #2 * EVar vlmMst2) - #2 * EPow P2 (EVar vlmMst2)) +
   EVar vDmglst2 * (#8 + #7 * EVar vlmMst2 - #11 * EPow P2 (EVar vlmMst2) + EVar vlmMst1 * (- #3 + #5 * EVar vlmMst2 +
   #6 * EPow P2 (EVar vlmMst2)) - #6 * EPow P3 (EVar vlmMst2))) * EPow P4 (EVar vMst2) - (#1 + EVar vlmMst2) * (- EVar
   vDmglst2 + #3 * EVar vDmglst2 * EVar vlmMst2 + EVar vMgl + EVar vlmMst2 * EVar vMgl) * EPow P6 (EVar vMst2))) -
   EVar vs2t * ((#15 * EVar vDmsqst2 * (- #1 + #2 * EVar vlmMst1 - #2 * EVar vlmMst2) * (#2 * EVar vDmglst2 - #5 *
   EVar vMgl) + EPow P2 (EVar vMst2) * (#2 * EVar vDmglst2 * (#60 + #206 * EVar vlmMst2 + #32 * EVar vlmMst2 * EPow P2
   (EVar vlmMst1) + EVar vlmMst1 * (#8 - #460 * EVar vlmMst2 - #246 * EPow P2 (EVar vlmMst2)) + #519 * EPow P2 (EVar
   vlmMst2) + #214 * EPow P3 (EVar vlmMst2)) + EVar vMgl * (#189 + #726 * EVar vlmMst2 + #32 * (#1 + EVar vlmMst2) *
   EPow P2 (EVar vlmMst1) + #707 * EPow P2 (EVar vlmMst2) - #2 * EVar vlmMst1 * (#253 + #332 * EVar vlmMst2 + #123 *
   EPow P2 (EVar vlmMst2)) + #214 * EPow P3 (EVar vlmMst2))) + #2 * EPow P2 (EVar vMst1) * (EVar vMgl * (#32 + #285 *
   EVar vlmMst2 + #144 * (#1 + EVar vlmMst2) * EPow P2 (EVar vlmMst1) + #444 * EPow P2 (EVar vlmMst2) - EVar vlmMst1 *
   (#253 + #588 * EVar vlmMst2 + #379 * EPow P2 (EVar vlmMst2)) + #235 * EPow P3 (EVar vlmMst2)) + EVar vDmglst2 *
   (#96 + #8 * EVar vlmMst2 * (#31 + #36 * EPow P2 (EVar vlmMst1)) + #556 * EPow P2 (EVar vlmMst2) - #2 * EVar vlmMst1
   * (#44 + #278 * EVar vlmMst2 + #379 * EPow P2 (EVar vlmMst2)) + #470 * EPow P3 (EVar vlmMst2)))) * EPow P4 (EVar
   vMst1) * EPow P4 (EVar vMst2) + EPow P2 (EVar vMst1) * (- #135 * EVar vMgl * EVar vshiftst1 * (EVar vDmsqst2 + EPow
   P2 (EVar vMst2)) * ((EPow P2 (EVar vMst1) + EPow P2 (EVar vMst2)) * EPow P4 (EVar vMst2) - #2 * (EVar vlmMst1 -
   EVar vlmMst2) * EPow P2 (EVar vMst1) * (EPow P2 (EVar vMst1) * EPow P2 (EVar vMst2) + EPow P4 (EVar vMst1) + EPow
   P4 (EVar vMst2))) - #3 * EVar vDmsqst2 * (#10 * (EVar vlmMst1 - EVar vlmMst2) * (- #2 * EVar vDmglst2 * EPow P2
   (EVar vMst2) + #5 * EVar vMgl * (EPow P2 (EVar vMst1) + EPow P2 (EVar vMst2))) * EPow P4 (EVar vMst1) + #5 * (#2 *
   EVar vDmglst2 - #5 * EVar vMgl) * EPow P6 (EVar vMst2))) + #2 * EPow P2 (EVar vMst2) * (#2 * EVar vDmglst2 * (#48 +
   #4 * EVar vlmMst2 * (#45 + #68 * EPow P2 (EVar vlmMst1)) + #310 * EPow P2 (EVar vlmMst2) - EVar vlmMst1 * (#92 +
   #310 * EVar vlmMst2 + #635 * EPow P2 (EVar vlmMst2)) + #363 * EPow P3 (EVar vlmMst2)) + EVar vMgl * (#40 + #277 *
   EVar vlmMst2 + #272 * (#1 + EVar vlmMst2) * EPow P2 (EVar vlmMst1) + #556 * EPow P2 (EVar vlmMst2) - EVar vlmMst1 *
   (#237 + #828 * EVar vlmMst2 + #635 * EPow P2 (EVar vlmMst2)) + #363 * EPow P3 (EVar vlmMst2))) * EPow P8 (EVar
   vMst1) - (EVar vDmglst2 * (#40 - #4 * (#99 + #16 * EVar vlmMst1) * EVar vlmMst2 - #246 * EPow P2 (EVar vlmMst2)) -
   EVar vMgl * (#205 + #252 * EVar vlmMst2 + #32 * EVar vlmMst1 * (#1 + EVar vlmMst2) + #91 * EPow P2 (EVar vlmMst2)))
   * EPow P2 (EVar vMst1) * EPow P8 (EVar vMst2) - #16 * (#1 + EVar vlmMst2) * (#4 * EVar vDmglst2 * EVar vlmMst2 +
   EVar vMgl + EVar vlmMst2 * EVar vMgl) * EPow P10 (EVar vMst2))))))) / (#1500282000 * EPow P2 (EVar vMgl) * EPow P4
   (EVar vMst1) * EPow P7 (EVar vMst2)).

(** H6b2qg2.cpp:458-2607 *)
Definition H6b2qg2_getS2 : expr :=
  - (EVar voneLoopFlag * (#4 * EVar vMt * EVar vMuSUSY * EVar vs2t * (#4 * (EVar vlmMst1 - EVar vlmMst2) * EPow P2 (EVar
   vMt) + ((- #2 - EVar vlmMst1 + EVar vlmMst2) * EPow P2 (EVar vMst1) + (#2 - EVar vlmMst1 + EVar vlmMst2) * EPow P2
   (EVar vMst2)) * EPow P2 (EVar vs2t)) / EVar vTbeta + #4 * EPow P2 (EVar vMt) * EPow P2 (EVar vs2t) * (#2 * (EVar
   vlmMst1 - EVar vlmMst2) * (EPow P2 (EVar vMst1) - EPow P2 (EVar vMst2)) + EPow P2 (EVar vMuSUSY) * (#2 - EVar
   vlmMst1 + EVar vlmMst2 - #2 * (EVar vlmMst1 - EVar vlmMst2) * EPow P2 (EVar vMst1) * (EPow P2 (EVar vMst1) + EPow
   P2 (EVar vMst2)) / EPow P4 (EVar vMst2))) - #4 * EPow P2 (EVar vMt) * EPow P2 (EVar vMuSUSY) * EPow P2 (EVar vs2t)
   * (#2 - EVar vlmMst1 + EVar vlmMst2 - #2 * (EVar vlmMst1 - EVar vlmMst2) * EPow P2 (EVar vMst1) * (EPow P2 (EVar
   vMst1) + EPow P2 (EVar vMst2)) / EPow P4 (EVar vMst2)) / EPow P2 (EVar vSbeta) + #16 * (EVar vlmMst1 + EVar vlmMst2
   - #2 * EVar vlmMt) * EPow P4 (EVar vMt) - (- #4 * EPow P2 (EVar vMst1) * EPow P2 (EVar vMst2) + (#2 + EVar vlmMst1
   - EVar vlmMst2) * EPow P4 (EVar vMst1) + (#2 - EVar vlmMst1 + EVar vlmMst2) * EPow P4 (EVar vMst2)) * EPow P4 (EVar
   vs2t))) / #32 + EVar vthreeLoopFlag * EPow P2 (EVar vAl4p) * (- (EPow P2 (EVar vMt) * EPow P2 (EVar vs2t) * (- #5 *
   EVar vDmglst2 * EVar vDmsqst2 * (- #1081 + #165 * EVar vlmMst1 - #165 * EVar vlmMst2) * (- #2 + EPow P2 (EVar
   vSbeta)) * EPow P2 (EVar vSbeta) * EPow P4 (EVar vMst1) / (#9 * EVar vMgl * EPow P4 (EVar vMst2)) + EPow P2 (EVar
   vMuSUSY) * (EDec 53385802469135804 15 + #40 * EConst CB4 / #9 - #4 * EConst CD3 / #9 + #2 * EConst CDN / #9 + #1672
   * EVar vlmMst1 / #27 + #53 * EPow P2 (EVar vlmMst1) / #9 - EVar vlmMst2 * (EDec 12992592592592592 14 - #72 * EVar
   vlmMst1 + #13 * EPow P2 (EVar vlmMst1) / #3) + #2 * (- #470 + #147 * EVar vlmMst1) * EPow P2 (EVar vlmMst2) / #9 +
   #16 * EPow P3 (EVar vlmMst1) / #9 + EVar vDmglst2 * (- #14267 + #432 * EConst CB4 - #576 * EConst CD3 + #360 *
   EConst CDN - #4752 * EVar vlmMst1 + #4536 * EVar vlmMst2 + #16704 * EVar vlmMst1 * EVar vlmMst2 + #1404 * EPow P2
   (EVar vlmMst1) - #1152 * EVar vlmMst2 * EPow P2 (EVar vlmMst1) - #20232 * EPow P2 (EVar vlmMst2) + #8856 * EVar
   vlmMst1 * EPow P2 (EVar vlmMst2) - #7704 * EPow P3 (EVar vlmMst2)) / (#162 * EVar vMgl) - #271 * EPow P3 (EVar
   vlmMst2) / #9 + (EDec 6281736268201578 13 + #76 * EConst CB4 / #9 - #2 * EConst CDN / #9 + #6317839 * EVar vlmMst1
   / #396900 - #66307 * EPow P2 (EVar vlmMst1) / #315 - EVar vlmMst2 * (EDec 1252907281431091 14 - #182909 * EVar
   vlmMst1 / #315 + #274 * EPow P2 (EVar vlmMst1) / #3) + #2 * (- #58301 + #37135 * EVar vlmMst1) * EPow P2 (EVar
   vlmMst2) / #315 - #44 * EPow P3 (EVar vlmMst1) / #9 - #1256 * EPow P3 (EVar vlmMst2) / #9 - EVar vDmglst2 * (EDec
   5851892843532082 13 - #8 * EConst CB4 / #3 + #32 * EConst CD3 / #9 - #20 * EConst CDN / #9 - #20109937 * EVar
   vlmMst1 / #297675 - #15886 * EPow P2 (EVar vlmMst1) / #945 + EVar vlmMst2 * (EDec 17112243218274966 15 - #144628 *
   EVar vlmMst1 / #945 + #1180 * EPow P2 (EVar vlmMst1) / #9) + #2 * (#80257 - #138180 * EVar vlmMst1) * EPow P2 (EVar
   vlmMst2) / #945 - #92 * EPow P3 (EVar vlmMst1) / #27 + #4448 * EPow P3 (EVar vlmMst2) / #27) / EVar vMgl) * EPow P4
   (EVar vMst1) / EPow P4 (EVar vMst2) + (- ((EVar vMgl * (#103 + #186 * EVar vlmMst2 + #32 * EVar vlmMst1 * (#1 +
   EVar vlmMst2) + #91 * EPow P2 (EVar vlmMst2)) + EVar vDmglst2 * (- #40 + #4 * (#99 + #16 * EVar vlmMst1) * EVar
   vlmMst2 + #246 * EPow P2 (EVar vlmMst2))) * EPow P2 (EVar vMst2)) / (#9 * EPow P2 (EVar vMst1)) + (#5 * EVar vMgl *
   (#2250 * EVar vDmsqst2 * (#1141 + #48 * EVar vlmMst1 * (#7 - #3 * EVar vlmMst2) - #264 * EVar vlmMst2 + #144 * EPow
   P2 (EVar vlmMst2)) + EPow P2 (EVar vMst1) * (#10552777 + #205200 * EConst CB4 - #5400 * EConst CDN + #4145280 *
   EVar vlmMst1 - #1181700 * EPow P2 (EVar vlmMst1) - #240 * EVar vlmMst2 * (#16192 - #26430 * EVar vlmMst1 + #3465 *
   EPow P2 (EVar vlmMst1)) + #900 * (- #5735 + #3072 * EVar vlmMst1) * EPow P2 (EVar vlmMst2) - #55800 * EPow P3 (EVar
   vlmMst1) - #1877400 * EPow P3 (EVar vlmMst2))) - #8 * EVar vDmglst2 * (#405000 * EVar vDmsqst2 * (#4 + EVar vlmMst1
   - EVar vlmMst2) + EPow P2 (EVar vMst1) * (#2695042 - #40500 * EConst CB4 + #54000 * EConst CD3 - #33750 * EConst
   CDN - #326895 * EVar vlmMst1 - #324900 * EPow P2 (EVar vlmMst1) + #15 * EVar vlmMst2 * (- #19607 - #129030 * EVar
   vlmMst1 + #62550 * EPow P2 (EVar vlmMst1)) - #450 * (- #5023 + #5610 * EVar vlmMst1) * EPow P2 (EVar vlmMst2) +
   #11250 * EPow P3 (EVar vlmMst1) + #1575000 * EPow P3 (EVar vlmMst2)))) / (#121500 * EPow P2 (EVar vMst2)) + #16 *
   (#1 + EVar vlmMst2) * (#4 * EVar vDmglst2 * EVar vlmMst2 + EVar vMgl + EVar vlmMst2 * EVar vMgl) * EPow P4 (EVar
   vMst2) / (#9 * EPow P4 (EVar vMst1)) + (- #30 * EVar vDmsqst2 * EVar vMgl * (#9 * (#104 * EConst COepS2 + #27 *
   (#17 - #78 * EVar vlmMst1 + #78 * EVar vlmMst2) * EConst CS2) * EPow P2 (EVar vMst1) * EPow P2 (EVar vMst2) + #13 *
   (#136 * EConst COepS2 - #27 * (#95 + #102 * EVar vlmMst1 - #102 * EVar vlmMst2) * EConst CS2) * EPow P4 (EVar
   vMst1) + #27 * (#8 * EConst COepS2 - #81 * (- #15 + #2 * EVar vlmMst1 - #2 * EVar vlmMst2) * EConst CS2) * EPow P4
   (EVar vMst2)) + EPow P2 (EVar vMst2) * (#3 * EVar vMgl * (- #3 * (#8456 * EConst COepS2 - #81 * (#11243 + #2114 *
   EVar vlmMst1 - #2114 * EVar vlmMst2) * EConst CS2) * EPow P2 (EVar vMst1) * EPow P2 (EVar vMst2) + (- #52948 *
   EConst COepS2 + #27 * (#194357 + #39711 * EVar vlmMst1 - #39711 * EVar vlmMst2) * EConst CS2) * EPow P4 (EVar
   vMst1) + #27 * (- #184 * EConst COepS2 + #81 * (#307 + #46 * EVar vlmMst1 - #46 * EVar vlmMst2) * EConst CS2) *
   EPow P4 (EVar vMst2)) + #2 * EVar vDmglst2 * (#54 * (#344 * EConst COepS2 + #9 * (#15643 - #774 * EVar vlmMst1 +
   #774 * EVar vlmMst2) * EConst CS2) * EPow P2 (EVar vMst1) * EPow P2 (EVar vMst2) + #4 * (#17308 * EConst COepS2 +
   #27 * (#93919 - #12981 * EVar vlmMst1 + #12981 * EVar vlmMst2) * EConst CS2) * EPow P4 (EVar vMst1) + #27 * (#56 *
   EConst COepS2 - #81 * (- #1677 + #14 * EVar vlmMst1 - #14 * EVar vlmMst2) * EConst CS2) * EPow P4 (EVar vMst2)))) /
   (#2187 * EPow P6 (EVar vMst2))) / EVar vMgl - EVar vDmsqst2 * (EDec 33333333333333335 16 - #20 * EVar vlmMst2 / #3
   + #40 * EVar vDmglst2 / EVar vMgl - (EDec 20174098765432097 14 + #622 * EVar vlmMst1 / #15 + #2 * (- #311 + #10 *
   EVar vlmMst1) * EVar vlmMst2 / #15 + EVar vDmglst2 * (EDec 7666666666666667 14 - #140 * EVar vlmMst1 + #140 * EVar
   vlmMst2) / EVar vMgl - #22 * EPow P2 (EVar vlmMst1) / #3 + #6 * EPow P2 (EVar vlmMst2)) * EPow P4 (EVar vMst1) /
   EPow P4 (EVar vMst2) - (EDec 23728785508324435 14 + #16526 * EVar vlmMst2 / #3969 + #2 * EVar vlmMst1 * (- #8263 +
   #71820 * EVar vlmMst2) / #3969 - #520 * EPow P2 (EVar vlmMst1) / #21 - #80 * EPow P2 (EVar vlmMst2) / #7) * EPow P6
   (EVar vMst1) / EPow P6 (EVar vMst2)) / EPow P2 (EVar vMst1)) / EPow P2 (EVar vSbeta))) + EPow P4 (EVar vs2t) *
   (EVar vDmsqst2 * (EDec 32221604938271606 16 + #467 * EVar vlmMst1 / #90 - (EDec 3522222222222222 15 + #7 * EVar
   vlmMst1) * EVar vlmMst2 + #5 * EVar vDmglst2 * (- #75 + #26 * EVar vlmMst1 - #26 * EVar vlmMst2) / (#6 * EVar vMgl)
   + #11 * EPow P2 (EVar vlmMst1) / #6 + #31 * EPow P2 (EVar vlmMst2) / #6) * EPow P2 (EVar vMst1) + EPow P2 (EVar
   vMst2) * (#5 * EVar vDmsqst2 * (#288 * EVar vDmglst2 * (#1 + EVar vlmMst1 - EVar vlmMst2) + EVar vMgl * (- #1213 +
   #408 * EVar vlmMst2 + #48 * EVar vlmMst1 * (- #7 + #3 * EVar vlmMst2) - #144 * EPow P2 (EVar vlmMst2))) / (#216 *
   EVar vMgl) - EPow P2 (EVar vMst1) * (EDec 7901365226337448 14 - EConst CB4 / #9 + #2 * EConst CD3 / #9 - EConst CDN
   / #6 + #4372 * EVar vlmMst1 / #405 + EVar vlmMst2 * (#16051 + #22980 * EVar vlmMst1 - #5175 * EPow P2 (EVar
   vlmMst1)) / #810 - #1631 * EPow P2 (EVar vlmMst1) / #108 + (- #92 + #327 * EVar vlmMst1) * EPow P2 (EVar vlmMst2) /
   #27 - #79 * EPow P3 (EVar vlmMst1) / #54 + EVar vDmglst2 * (EDec 7822304526748971 16 - #2 * EConst CB4 / #3 + #8 *
   EConst CD3 / #9 - #5 * EConst CDN / #9 + #81193 * EVar vlmMst1 / #4050 + #137 * EPow P2 (EVar vlmMst1) / #135 -
   EVar vlmMst2 * (#81643 + #86970 * EVar vlmMst1 + #48150 * EPow P2 (EVar vlmMst1)) / #4050 + (#4969 + #3840 * EVar
   vlmMst1) * EPow P2 (EVar vlmMst2) / #270 - #5 * EPow P3 (EVar vlmMst1) / #27 - #58 * EPow P3 (EVar vlmMst2) / #27)
   / EVar vMgl - #115 * EPow P3 (EVar vlmMst2) / #27)) + (EDec 46745471895783595 15 + EConst CB4 + EConst CD3 / #9 -
   EConst CDN / #9 + #34838747 * EVar vlmMst1 / #529200 + #50723 * EPow P2 (EVar vlmMst1) / #1890 + EVar vlmMst2 * (-
   #23468297 - #17276980 * EVar vlmMst1 + #3601500 * EPow P2 (EVar vlmMst1)) / #529200 + #4 * (#2941 - #2415 * EVar
   vlmMst1) * EPow P2 (EVar vlmMst2) / #945 + EVar vDmsqst2 * (EDec 1513649301931237 14 + #555521 * EVar vlmMst1 /
   #39690 - (#621671 + #200340 * EVar vlmMst1) * EVar vlmMst2 / #39690 + #5 * EVar vDmglst2 * (#76 - #249 * EVar
   vlmMst1 + #249 * EVar vlmMst2) / (#54 * EVar vMgl) + #53 * EPow P2 (EVar vlmMst1) / #21 + #53 * EPow P2 (EVar
   vlmMst2) / #21) / EPow P2 (EVar vMst2) - #10 * EPow P3 (EVar vlmMst1) / #27 + #409 * EPow P3 (EVar vlmMst2) / #108
   + EVar vDmglst2 * (EDec 7958863384550371 14 + #8287903 * EVar vlmMst2 / #1190700 + (EDec 4326984126984127 15 + #11
   * EVar vlmMst2 / #3) * EPow P2 (EVar vlmMst1) + EVar vlmMst1 * (EDec 12061367262954565 16 - #101 * EVar vlmMst2 /
   #315 - #11 * EPow P2 (EVar vlmMst2) / #3) - #51 * EPow P2 (EVar vlmMst2) / #70 - #11 * EPow P3 (EVar vlmMst1) / #9
   + #11 * EPow P3 (EVar vlmMst2) / #9) / EVar vMgl) * EPow P4 (EVar vMst1) - (#25289 + #1440 * EConst CB4 - #144 *
   EConst CD3 + #72 * EConst CDN + #22368 * EVar vlmMst1 + #1908 * EPow P2 (EVar vlmMst1) - #12 * EVar vlmMst2 *
   (#2296 - #2136 * EVar vlmMst1 + #117 * EPow P2 (EVar vlmMst1)) + #504 * (- #53 + #21 * EVar vlmMst1) * EPow P2
   (EVar vlmMst2) + #576 * EPow P3 (EVar vlmMst1) - #9756 * EPow P3 (EVar vlmMst2) + (- #1080 * EVar vDmsqst2 * (#12 *
   EVar vDmglst2 + EVar vMgl - #2 * EVar vlmMst2 * EVar vMgl) / EPow P2 (EVar vMst1) - #2 * EVar vDmglst2 * (#15707 -
   #432 * EConst CB4 + #576 * EConst CD3 - #360 * EConst CDN + #4752 * EVar vlmMst1 - #1404 * EPow P2 (EVar vlmMst1) +
   #72 * EVar vlmMst2 * (- #277 - #264 * EVar vlmMst1 + #16 * EPow P2 (EVar vlmMst1)) + #72 * (#142 - #123 * EVar
   vlmMst1) * EPow P2 (EVar vlmMst2) + #7704 * EPow P3 (EVar vlmMst2))) / EVar vMgl) * EPow P4 (EVar vMst2) / #1296 -
   EConst CS2 * (#5 * EVar vDmsqst2 * (#253 + #42 * EVar vlmMst1 - #42 * EVar vlmMst2) * EPow P2 (EVar vMst1) / #6 +
   #15 * EVar vDmsqst2 * (- #15 + #2 * EVar vlmMst1 - #2 * EVar vlmMst2) * EPow P2 (EVar vMst2) / #2 + (EDec
   4764166666666667 13 + #643 * EVar vlmMst1 / #6 - #643 * EVar vlmMst2 / #6 + EVar vDmglst2 * (EDec 61111111111111114
   15 - #72 * EVar vlmMst1 + #72 * EVar vlmMst2) / EVar vMgl) * EPow P2 (EVar vMst1) * EPow P2 (EVar vMst2) + (#60 *
   EVar vDmsqst2 * (#163 + #42 * EVar vlmMst1 - #42 * EVar vlmMst2) * EVar vMgl + (- #2 * EVar vDmglst2 * (#51635 +
   #25194 * EVar vlmMst1 - #25194 * EVar vlmMst2) + #15 * (#3370 + #1077 * EVar vlmMst1 - #1077 * EVar vlmMst2) * EVar
   vMgl) * EPow P2 (EVar vMst2)) * EPow P4 (EVar vMst1) / (#324 * EVar vMgl * EPow P2 (EVar vMst2)) + (EDec 23025 2 +
   #69 * EVar vlmMst1 / #2 - #69 * EVar vlmMst2 / #2 + EVar vDmglst2 * (EDec 8385 1 - #7 * EVar vlmMst1 + #7 * EVar
   vlmMst2) / EVar vMgl) * EPow P4 (EVar vMst2)) + (EConst COepS2 * (#60 * EVar vDmsqst2 * EVar vMgl * (#63 * EPow P2
   (EVar vMst1) * EPow P2 (EVar vMst2) + #14 * EPow P4 (EVar vMst1) + #27 * EPow P4 (EVar vMst2)) + EPow P2 (EVar
   vMst2) * (- #4 * EVar vDmglst2 * (#1944 * EPow P2 (EVar vMst1) * EPow P2 (EVar vMst2) + #4199 * EPow P4 (EVar
   vMst1) + #189 * EPow P4 (EVar vMst2)) + #3 * EVar vMgl * (#3858 * EPow P2 (EVar vMst1) * EPow P2 (EVar vMst2) +
   #1795 * EPow P4 (EVar vMst1) + #1242 * EPow P4 (EVar vMst2)))) / (#2187 * EPow P2 (EVar vMst2)) + (EVar vMgl *
   (#135 + #250 * EVar vlmMst2 + #32 * EVar vlmMst1 * (#1 + EVar vlmMst2) + #123 * EPow P2 (EVar vlmMst2)) + EVar
   vDmglst2 * (- #40 + (#524 + #64 * EVar vlmMst1) * EVar vlmMst2 + #374 * EPow P2 (EVar vlmMst2))) * EPow P6 (EVar
   vMst2) / (#36 * EPow P2 (EVar vMst1))) / EVar vMgl) - EVar vs2t * EPow P3 (EVar vMt) * (- (EVar vDmglst2 * (- #18 *
   EPow P2 (EVar vMst2) * (- #3 * EPow P2 (EVar vMst2) * (#322421 + #414720 * EVar vlmMt - #73760 * EConst COepS2 +
   #564876 * EConst CS2 - #2880 * (#21 + #12 * EVar vlmMst2 - #4 * EVar vlmMt) * EPow P2 (EVar vlmMst1) + #480 *
   (#1097 - #24 * EVar vlmMt) * EPow P2 (EVar vlmMst2) - #69120 * EPow P2 (EVar vlmMt) - #40 * EVar vlmMst2 * (-
   #11408 + #924 * EVar vlmMt + #37341 * EConst CS2 + #864 * EPow P2 (EVar vlmMt)) + #40 * EVar vlmMst1 * (- #11876 -
   #8844 * EVar vlmMst2 - #156 * EVar vlmMt + #37341 * EConst CS2 + #288 * EPow P2 (EVar vlmMst2) + #864 * EPow P2
   (EVar vlmMt)) + #23040 * EPow P3 (EVar vlmMst2)) + #2 * EPow P2 (EVar vMuSUSY) * (#66761 + #301320 * EConst CB4 -
   #4860 * EConst CDN - #205380 * EVar vlmMst1 + #40480 * EConst COepS2 - #216 * (#2489 + #3795 * EVar vlmMst1 - #3795
   * EVar vlmMst2) * EConst CS2 + #23760 * EPow P2 (EVar vlmMst1) + #180 * EVar vlmMst2 * (#4993 - #1956 * EVar
   vlmMst1 + #48 * EPow P2 (EVar vlmMst1)) - #1080 * (- #482 + #331 * EVar vlmMst1) * EPow P2 (EVar vlmMst2) + #348840
   * EPow P3 (EVar vlmMst2))) * EPow P4 (EVar vMst1) + #2 * (#5 * EPow P2 (EVar vMuSUSY) * (#2773621 - #1660176 *
   EConst CB4 + #25272 * EConst CDN + #2004408 * EVar vlmMst1 - #525472 * EConst COepS2 + #108 * (#123113 + #98526 *
   EVar vlmMst1 - #98526 * EVar vlmMst2) * EConst CS2 + #3888 * EPow P2 (EVar vlmMst1) - #144 * EVar vlmMst2 * (#36802
   - #11421 * EVar vlmMst1 + #1728 * EPow P2 (EVar vlmMst1)) + #167184 * (- #14 + #15 * EVar vlmMst1) * EPow P2 (EVar
   vlmMst2) - #31104 * EPow P3 (EVar vlmMst1) - #2227824 * EPow P3 (EVar vlmMst2)) + #4 * EPow P2 (EVar vMst2) *
   (#20964397 + #4563540 * EVar vlmMt - #2058400 * EConst COepS2 + #47545272 * EConst CS2 - #9720 * (#266 + #74 * EVar
   vlmMst2 - #55 * EVar vlmMt) * EPow P2 (EVar vlmMst1) + #3240 * (#1493 + #39 * EVar vlmMt) * EPow P2 (EVar vlmMst2)
   + #360 * EVar vlmMst2 * (#4724 + #5328 * EVar vlmMt - #115785 * EConst CS2 - #1944 * EPow P2 (EVar vlmMt)) -
   #466560 * EPow P2 (EVar vlmMt) + #180 * EVar vlmMst1 * (- #32857 - #11844 * EVar vlmMt - #18 * EVar vlmMst2 * (#485
   + #204 * EVar vlmMt) + #231570 * EConst CS2 + #1674 * EPow P2 (EVar vlmMst2) + #3888 * EPow P2 (EVar vlmMt)) +
   #9720 * EPow P3 (EVar vlmMst1) + #408240 * EPow P3 (EVar vlmMst2))) * EPow P6 (EVar vMst1) - #622080 * (- #1 + #2 *
   EVar vlmMst2 + #3 * EPow P2 (EVar vlmMst2)) * (#2 * EPow P2 (EVar vMst2) + EPow P2 (EVar vMuSUSY)) * EPow P6 (EVar
   vMst2) + EPow P2 (EVar vMst1) * (- #27 * EPow P2 (EVar vMuSUSY) * (#23917 + #188640 * EConst CB4 - #3600 * EConst
   CDN - #37440 * EVar vlmMst1 + #5600 * EConst COepS2 - #324 * (- #453 + #350 * EVar vlmMst1 - #350 * EVar vlmMst2) *
   EConst CS2 + #11520 * EPow P2 (EVar vlmMst1) - #2880 * EVar vlmMst2 * (- #237 + #55 * EVar vlmMst1 + #4 * EPow P2
   (EVar vlmMst1)) - #1440 * (- #280 + #121 * EVar vlmMst1) * EPow P2 (EVar vlmMst2) + #185760 * EPow P3 (EVar
   vlmMst2)) * EPow P4 (EVar vMst2) - #64800 * EVar vDmsqst2 * (- #36 * (#2 + #5 * EVar vlmMst1 - #5 * EVar vlmMst2) *
   EPow P2 (EVar vMst2) * EPow P2 (EVar vMuSUSY) + #36 * EPow P2 (EVar vMst1) * (#8 * (#7 - #3 * EVar vlmMst1 + #6 *
   EVar vlmMst2 - #3 * EVar vlmMt) * EPow P2 (EVar vMst2) + (#8 - #15 * EVar vlmMst1 + #15 * EVar vlmMst2) * EPow P2
   (EVar vMuSUSY)) + #9 * (#465 + #374 * EVar vlmMst2 - #4 * EVar vlmMst1 * (#52 + #3 * EVar vlmMst2 - #3 * EVar
   vlmMt) - #2 * (#83 + #6 * EVar vlmMst2) * EVar vlmMt + #12 * EPow P2 (EVar vlmMst2)) * EPow P4 (EVar vMst1) + (#578
   - #360 * EVar vlmMst1 + #708 * EVar vlmMst2 - #348 * EVar vlmMt) * EPow P4 (EVar vMst2)) + #270 * (#30183 + #45408
   * EVar vlmMt - #1120 * EConst COepS2 - #43740 * EConst CS2 - #8 * EVar vlmMst2 * (- #8398 + #588 * EVar vlmMt +
   #2835 * EConst CS2) + #2304 * (- #1 + EVar vlmMst2) * EPow P2 (EVar vlmMst1) + #96 * (#199 + #48 * EVar vlmMt) *
   EPow P2 (EVar vlmMst2) + #72 * EVar vlmMst1 * (- #120 + #64 * EVar vlmMt - #8 * EVar vlmMst2 * (#5 + #8 * EVar
   vlmMt) + #315 * EConst CS2 + #164 * EPow P2 (EVar vlmMst2)) - #14112 * EPow P3 (EVar vlmMst2)) * EPow P6 (EVar
   vMst2)))) + #3 * EVar vMgl * (#6 * EPow P2 (EVar vMst2) * (#20 * EPow P2 (EVar vMuSUSY) * (#75569 + #13716 * EConst
   CB4 - #54 * EConst CDN - #33426 * EVar vlmMst1 - #1088 * EConst COepS2 + #162 * (#169 + #136 * EVar vlmMst1 - #136
   * EVar vlmMst2) * EConst CS2 - #2376 * EPow P2 (EVar vlmMst1) + #54 * EVar vlmMst2 * (#1427 - #1012 * EVar vlmMst1
   + #16 * EPow P2 (EVar vlmMst1)) - #108 * (- #642 + #203 * EVar vlmMst1) * EPow P2 (EVar vlmMst2) + #21060 * EPow P3
   (EVar vlmMst2)) + EPow P2 (EVar vMst2) * (#1156193 + #198720 * EVar vlmMt - #60320 * EConst COepS2 + #1414908 *
   EConst CS2 - #3240 * EVar vlmMst2 * (#42 + #32 * EVar vlmMt * (#1 + EVar vlmMt) + #377 * EConst CS2) + #8640 * (-
   #13 + #4 * EVar vlmMst2 + #4 * EVar vlmMt) * EPow P2 (EVar vlmMst1) + #17280 * (#51 - #2 * EVar vlmMt) * EPow P2
   (EVar vlmMst2) - #1080 * EVar vlmMst1 * (#590 + #720 * EVar vlmMst2 - #104 * EVar vlmMt - #1131 * EConst CS2 + #224
   * EPow P2 (EVar vlmMst2) - #96 * EPow P2 (EVar vlmMt)) + #207360 * EPow P3 (EVar vlmMst2))) * EPow P4 (EVar vMst1)
   + #2 * (#4 * EPow P2 (EVar vMst2) * (#2016907 + #110160 * EVar vlmMt - #109600 * EConst COepS2 + #3520152 * EConst
   CS2 + #1080 * (- #158 + #6 * EVar vlmMst2 + #39 * EVar vlmMt) * EPow P2 (EVar vlmMst1) + #1080 * (#565 - #3 * EVar
   vlmMt) * EPow P2 (EVar vlmMst2) - #1080 * EVar vlmMst1 * (#421 + #60 * EVar vlmMt + EVar vlmMst2 * (#413 + #36 *
   EVar vlmMt) - #2055 * EConst CS2 + #129 * EPow P2 (EVar vlmMst2) - #72 * EPow P2 (EVar vlmMt)) - #1080 * EVar
   vlmMst2 * (#167 - #66 * EVar vlmMt + #2055 * EConst CS2 + #72 * EPow P2 (EVar vlmMt)) + #1080 * EPow P3 (EVar
   vlmMst1) + #131760 * EPow P3 (EVar vlmMst2)) + #5 * EPow P2 (EVar vMuSUSY) * (#1702429 + #257904 * EConst CB4 -
   #648 * EConst CDN - #748656 * EVar vlmMst1 - #30112 * EConst COepS2 + #108 * (#9185 + #5646 * EVar vlmMst1 - #5646
   * EVar vlmMst2) * EConst CS2 + #41904 * EPow P2 (EVar vlmMst1) + #216 * EVar vlmMst2 * (#5971 - #6106 * EVar
   vlmMst1 + #576 * EPow P2 (EVar vlmMst1)) - #41904 * (- #34 + #15 * EVar vlmMst1) * EPow P2 (EVar vlmMst2) - #3456 *
   EPow P3 (EVar vlmMst1) + #507600 * EPow P3 (EVar vlmMst2))) * EPow P6 (EVar vMst1) + #207360 * EPow P2 (#1 + EVar
   vlmMst2) * (#2 * EPow P2 (EVar vMst2) + EPow P2 (EVar vMuSUSY)) * EPow P6 (EVar vMst2) + #27 * EPow P2 (EVar vMst1)
   * (#5 * EPow P2 (EVar vMuSUSY) * (#28683 + #5280 * EConst CB4 - #48 * EConst CDN - #5952 * EVar vlmMst1 - #224 *
   EConst COepS2 + #324 * (- #1 + #14 * EVar vlmMst1 - #14 * EVar vlmMst2) * EConst CS2 - #768 * EPow P2 (EVar
   vlmMst1) - #192 * EVar vlmMst2 * (- #214 + #73 * EVar vlmMst1 + #4 * EPow P2 (EVar vlmMst1)) - #96 * (- #268 + #57
   * EVar vlmMst1) * EPow P2 (EVar vlmMst2) + #6240 * EPow P3 (EVar vlmMst2)) * EPow P4 (EVar vMst2) - #7200 * EVar
   vDmsqst2 * (- #4 * (#1 + EVar vlmMst1 - EVar vlmMst2) * EPow P2 (EVar vMst2) * EPow P2 (EVar vMuSUSY) + #4 * EPow
   P2 (EVar vMst1) * ((#6 - #4 * EVar vlmMst1 + #8 * EVar vlmMst2 - #4 * EVar vlmMt) * EPow P2 (EVar vMst2) + (- #1 -
   #3 * EVar vlmMst1 + #3 * EVar vlmMst2) * EPow P2 (EVar vMuSUSY)) + (#35 + #50 * EVar vlmMst2 - #4 * EVar vlmMst1 *
   (#8 + EVar vlmMst2 - EVar vlmMt) - #2 * (#9 + #2 * EVar vlmMst2) * EVar vlmMt + #4 * EPow P2 (EVar vlmMst2)) * EPow
   P4 (EVar vMst1) - #2 * (#7 + #4 * EVar vlmMst1 - #10 * EVar vlmMst2 + #6 * EVar vlmMt) * EPow P4 (EVar vMst2)) + #2
   * (#60759 - #12480 * EVar vlmMt - #1120 * EConst COepS2 - #25596 * EConst CS2 - #120 * EVar vlmMst2 * (#26 + #132 *
   EVar vlmMt + #189 * EConst CS2) - #3840 * (#1 + EVar vlmMst2) * EPow P2 (EVar vlmMst1) + #480 * (#155 - #16 * EVar
   vlmMt) * EPow P2 (EVar vlmMst2) - #120 * EVar vlmMst1 * (#216 + #8 * EVar vlmMst2 * (#61 - #8 * EVar vlmMt) - #64 *
   EVar vlmMt - #189 * EConst CS2 + #164 * EPow P2 (EVar vlmMst2)) - #11520 * EPow P2 (EVar vlmMt) + #23520 * EPow P3
   (EVar vlmMst2)) * EPow P6 (EVar vMst2)))) / (#43740 * EVar vMgl * EPow P2 (EVar vMst1) * EPow P5 (EVar vMst2)) + (-
   #3 * EVar vMgl * EConst CT1ep * (EPow P4 (EVar vMst1) * (#16 * EVar vMst2 * EVar vs2t * (#941 * EPow P2 (EVar
   vMuSUSY) * (- #1 + EPow P2 (EVar vSbeta)) + #2740 * EPow P2 (EVar vMst2) * EPow P2 (EVar vSbeta)) * EPow P3 (EVar
   vMt) - #4 * EPow P2 (EVar vMt) * EPow P2 (EVar vs2t) * (#13237 * EPow P2 (EVar vMst2) * EPow P2 (EVar vMuSUSY) * (-
   #1 + EPow P2 (EVar vSbeta)) + #20 * EVar vDmsqst2 * (#221 * EPow P2 (EVar vMuSUSY) * (- #1 + EPow P2 (EVar vSbeta))
   + #8 * EPow P2 (EVar vMst2) * EPow P2 (EVar vSbeta)) + #6857 * EPow P2 (EVar vSbeta) * EPow P4 (EVar vMst2)) + #16
   * (#1635 * EPow P2 (EVar vMuSUSY) * (- #1 + EPow P2 (EVar vSbeta)) + #1168 * EPow P2 (EVar vMst2) * EPow P2 (EVar
   vSbeta)) * EPow P4 (EVar vMt) + #5 * (#56 * EVar vDmsqst2 + #359 * EPow P2 (EVar vMst2)) * EPow P2 (EVar vSbeta) *
   EPow P4 (EVar vMst2) * EPow P4 (EVar vs2t) - #1756 * EVar vMt * EPow P2 (EVar vSbeta) * EPow P3 (EVar vs2t) * EPow
   P5 (EVar vMst2)) + #6 * EPow P2 (EVar vMst1) * EPow P2 (EVar vMst2) * (#8 * EVar vMst2 * EVar vs2t * (#136 * EPow
   P2 (EVar vMuSUSY) * (- #1 + EPow P2 (EVar vSbeta)) + #377 * EPow P2 (EVar vMst2) * EPow P2 (EVar vSbeta)) * EPow P3
   (EVar vMt) - #4 * EPow P2 (EVar vMt) * EPow P2 (EVar vs2t) * (#390 * EVar vDmsqst2 * EPow P2 (EVar vMuSUSY) * (- #1
   + EPow P2 (EVar vSbeta)) + #1057 * EPow P2 (EVar vMst2) * EPow P2 (EVar vMuSUSY) * (- #1 + EPow P2 (EVar vSbeta)) +
   #60 * EVar vDmsqst2 * EPow P2 (EVar vMst2) * EPow P2 (EVar vSbeta) + #629 * EPow P2 (EVar vSbeta) * EPow P4 (EVar
   vMst2)) + #8 * (#126 * EPow P2 (EVar vMuSUSY) * (- #1 + EPow P2 (EVar vSbeta)) + #209 * EPow P2 (EVar vMst2) * EPow
   P2 (EVar vSbeta)) * EPow P4 (EVar vMt) + (#210 * EVar vDmsqst2 + #643 * EPow P2 (EVar vMst2)) * EPow P2 (EVar
   vSbeta) * EPow P4 (EVar vMst2) * EPow P4 (EVar vs2t) - #292 * EVar vMt * EPow P2 (EVar vSbeta) * EPow P3 (EVar
   vs2t) * EPow P5 (EVar vMst2)) + #54 * EPow P4 (EVar vMst2) * (- #40 * EVar vDmsqst2 * EPow P2 (EVar vMt) * EPow P2
   (EVar vMuSUSY) * EPow P2 (EVar vs2t) * (- #1 + EPow P2 (EVar vSbeta)) + #4 * EPow P2 (EVar vMst2) * EPow P2 (EVar
   vMt) * (- #23 * EPow P2 (EVar vMuSUSY) * EPow P2 (EVar vs2t) * (- #1 + EPow P2 (EVar vSbeta)) + #2 * (#7 * EPow P2
   (EVar vMt) - #5 * EVar vDmsqst2 * EPow P2 (EVar vs2t)) * EPow P2 (EVar vSbeta)) + #28 * EVar vMst2 * EVar vs2t *
   EPow P2 (EVar vMuSUSY) * (- #1 + EPow P2 (EVar vSbeta)) * EPow P3 (EVar vMt) + #56 * EVar vs2t * EPow P2 (EVar
   vSbeta) * EPow P3 (EVar vMst2) * EPow P3 (EVar vMt) + #2 * EPow P2 (EVar vs2t) * (- #53 * EPow P2 (EVar vMt) + #5 *
   EVar vDmsqst2 * EPow P2 (EVar vs2t)) * EPow P2 (EVar vSbeta) * EPow P4 (EVar vMst2) - #14 * EVar vMt * EPow P2
   (EVar vSbeta) * EPow P3 (EVar vs2t) * EPow P5 (EVar vMst2) + #23 * EPow P2 (EVar vSbeta) * EPow P4 (EVar vs2t) *
   EPow P6 (EVar vMst2))) + #4 * EVar vDmglst2 * EVar vMst2 * EConst CT1ep * (#189 * EPow P4 (EVar vMst2) * (- #4 *
   EVar vMst2 * EPow P2 (EVar vMt) * EPow P2 (EVar vMuSUSY) * EPow P2 (EVar vs2t) * (- #1 + EPow P2 (EVar vSbeta)) +
   #10 * EVar vs2t * (EPow P2 (EVar vMuSUSY) * (- #1 + EPow P2 (EVar vSbeta)) + #2 * EPow P2 (EVar vMst2) * EPow P2
   (EVar vSbeta)) * EPow P3 (EVar vMt) - #5 * EVar vMt * EPow P2 (EVar vSbeta) * EPow P3 (EVar vs2t) * EPow P4 (EVar
   vMst2) - #16 * EVar vMst2 * EPow P2 (EVar vSbeta) * EPow P4 (EVar vMt) + EPow P2 (EVar vSbeta) * EPow P4 (EVar
   vs2t) * EPow P5 (EVar vMst2)) + EPow P4 (EVar vMst1) * (- #8 * EVar vMst2 * EPow P2 (EVar vMt) * EPow P2 (EVar
   vs2t) * (#4327 * EPow P2 (EVar vMuSUSY) * (- #1 + EPow P2 (EVar vSbeta)) + #6921 * EPow P2 (EVar vMst2) * EPow P2
   (EVar vSbeta)) + #4 * EVar vs2t * (#16421 * EPow P2 (EVar vMuSUSY) * (- #1 + EPow P2 (EVar vSbeta)) + #51460 * EPow
   P2 (EVar vMst2) * EPow P2 (EVar vSbeta)) * EPow P3 (EVar vMt) - #15571 * EVar vMt * EPow P2 (EVar vSbeta) * EPow P3
   (EVar vs2t) * EPow P4 (EVar vMst2) - #89312 * EVar vMst2 * EPow P2 (EVar vSbeta) * EPow P4 (EVar vMt) + #4199 *
   EPow P2 (EVar vSbeta) * EPow P4 (EVar vs2t) * EPow P5 (EVar vMst2)) + #18 * EVar vMst2 * EPow P2 (EVar vMst1) * (-
   #12 * EPow P2 (EVar vMst2) * EPow P2 (EVar vMt) * EPow P2 (EVar vs2t) * (#43 * EPow P2 (EVar vMuSUSY) * (- #1 +
   EPow P2 (EVar vSbeta)) + #50 * EPow P2 (EVar vMst2) * EPow P2 (EVar vSbeta)) + #2 * EVar vMst2 * EVar vs2t * (#506
   * EPow P2 (EVar vMuSUSY) * (- #1 + EPow P2 (EVar vSbeta)) + #1383 * EPow P2 (EVar vMst2) * EPow P2 (EVar vSbeta)) *
   EPow P3 (EVar vMt) + #56 * (#3 * EPow P2 (EVar vMuSUSY) * (- #1 + EPow P2 (EVar vSbeta)) - #23 * EPow P2 (EVar
   vMst2) * EPow P2 (EVar vSbeta)) * EPow P4 (EVar vMt) - #401 * EVar vMt * EPow P2 (EVar vSbeta) * EPow P3 (EVar
   vs2t) * EPow P5 (EVar vMst2) + #108 * EPow P2 (EVar vSbeta) * EPow P4 (EVar vs2t) * EPow P6 (EVar vMst2)))) /
   (#1458 * EVar vMgl * EPow P2 (EVar vSbeta) * EPow P6 (EVar vMst2)) - EPow P2 (EVar vMt) * EPow P2 (EVar vs2t) *
   ((#5 * EVar vDmsqst2 * (#368 * EVar vDmglst2 + (- #391 - #32 * EVar vlmMst1 + #128 * EVar vlmMst2) * EVar vMgl) /
   #18 - EPow P2 (EVar vMst1) * (#16 * EVar vDmglst2 * (#1216808 + #1164855 * EVar vlmMst2 - #162000 * (#2 + EVar
   vlmMst2) * EVar vlmMt + #225 * (- #341 + #30 * EVar vlmMst2) * EPow P2 (EVar vlmMst1) + #30 * EVar vlmMst1 *
   (#34484 - #16260 * EVar vlmMst2 + #5400 * EVar vlmMt - #21825 * EPow P2 (EVar vlmMst2)) + #365400 * EPow P2 (EVar
   vlmMst2) - #2250 * EPow P3 (EVar vlmMst1) + #650250 * EPow P3 (EVar vlmMst2)) + #5 * EVar vMgl * (#2367149 - #21600
   * EConst CD3 + #21600 * EConst CDN - #5339040 * EVar vlmMst1 - #518400 * (EVar vlmMst1 - EVar vlmMst2) * EVar vlmMt
   - #1564200 * EPow P2 (EVar vlmMst1) + #120 * EVar vlmMst2 * (#52322 - #4710 * EVar vlmMst1 + #315 * EPow P2 (EVar
   vlmMst1)) - #3600 * (- #479 + #237 * EVar vlmMst1) * EPow P2 (EVar vlmMst2) - #234000 * EPow P3 (EVar vlmMst1) +
   #1049400 * EPow P3 (EVar vlmMst2))) / #121500) / EVar vMgl - (EDec 19998139767323744 14 - #18614063 * EVar vlmMst1
   / #66150 + EVar vlmMst2 * (EDec 29339173091458804 14 - #25514 * EVar vlmMst1 / #945 - #286 * EPow P2 (EVar vlmMst1)
   / #9) - #48143 * EPow P2 (EVar vlmMst1) / #945 + #32 * EVar vlmMt * (- #2 * EVar vlmMst1 * (#1 + EVar vlmMst2) +
   EVar vlmMst2 * (#2 + EVar vlmMst2) + EPow P2 (EVar vlmMst1)) / #3 + (EDec 7794391534391535 14 - #2 * EVar vlmMst1 /
   #9) * EPow P2 (EVar vlmMst2) + #190 * EPow P3 (EVar vlmMst1) / #27 - EVar vDmglst2 * (EDec 17516754355781114 14 -
   #17578814 * EVar vlmMst1 / #33075 + EVar vlmMst2 * (EDec 2577056386999244 13 + #105592 * EVar vlmMst1 / #315 - #208
   * EPow P2 (EVar vlmMst1) / #9) - #35576 * EPow P2 (EVar vlmMst1) / #315 + #16 * (- #4376 + #2555 * EVar vlmMst1) *
   EPow P2 (EVar vlmMst2) / #315 + #64 * EVar vlmMt * (#2 + #5 * EVar vlmMst2 - EVar vlmMst1 * (#5 + #2 * EVar
   vlmMst2) + EPow P2 (EVar vlmMst1) + EPow P2 (EVar vlmMst2)) / #3 + #16 * EPow P3 (EVar vlmMst1) / #27 - #2896 *
   EPow P3 (EVar vlmMst2) / #27) / EVar vMgl + #674 * EPow P3 (EVar vlmMst2) / #27) * EPow P4 (EVar vMst1) / EPow P2
   (EVar vMst2) + EVar vDmsqst2 * EPow P2 (EVar vMst1) * (- ((EDec 35881655848700444 16 - #470824 * EVar vlmMst1 /
   #19845 + #4 * (#117706 + #34965 * EVar vlmMst1) * EVar vlmMst2 / #19845 + #160 * EVar vDmglst2 * (- #41 + #12 *
   EVar vlmMst1 - #12 * EVar vlmMst2) / (#27 * EVar vMgl) - #74 * EPow P2 (EVar vlmMst1) / #21 - #74 * EPow P2 (EVar
   vlmMst2) / #21) * EPow P2 (EVar vMst1)) + (EDec 17999506172839506 15 + #1468 * EVar vlmMst1 / #45 - #4 * (#517 +
   #180 * EVar vlmMst1) * EVar vlmMst2 / #45 + #20 * EVar vDmglst2 * (#113 - #6 * EVar vlmMst1 + #6 * EVar vlmMst2) /
   (#9 * EVar vMgl) + #8 * EPow P2 (EVar vlmMst1) + #8 * EPow P2 (EVar vlmMst2)) * EPow P2 (EVar vMst2)) / EPow P4
   (EVar vMst2) - EPow P2 (EVar vMuSUSY) * (EDec 53385802469135804 15 + #40 * EConst CB4 / #9 - #4 * EConst CD3 / #9 +
   #2 * EConst CDN / #9 + #1672 * EVar vlmMst1 / #27 + #53 * EPow P2 (EVar vlmMst1) / #9 - EVar vlmMst2 * (EDec
   12992592592592592 14 - #72 * EVar vlmMst1 + #13 * EPow P2 (EVar vlmMst1) / #3) + #2 * (- #470 + #147 * EVar
   vlmMst1) * EPow P2 (EVar vlmMst2) / #9 + #16 * EPow P3 (EVar vlmMst1) / #9 - #271 * EPow P3 (EVar vlmMst2) / #9 -
   EVar vDmglst2 * (#14267 - #432 * EConst CB4 + #576 * EConst CD3 - #360 * EConst CDN + #4752 * EVar vlmMst1 - #1404
   * EPow P2 (EVar vlmMst1) + #72 * EVar vlmMst2 * (- #63 - #232 * EVar vlmMst1 + #16 * EPow P2 (EVar vlmMst1)) + #72
   * (#281 - #123 * EVar vlmMst1) * EPow P2 (EVar vlmMst2) + #7704 * EPow P3 (EVar vlmMst2)) / (#162 * EVar vMgl) +
   (EDec 6281736268201578 13 + #76 * EConst CB4 / #9 - #2 * EConst CDN / #9 + #6317839 * EVar vlmMst1 / #396900 -
   #66307 * EPow P2 (EVar vlmMst1) / #315 - EVar vlmMst2 * (EDec 1252907281431091 14 - #182909 * EVar vlmMst1 / #315 +
   #274 * EPow P2 (EVar vlmMst1) / #3) + #2 * (- #58301 + #37135 * EVar vlmMst1) * EPow P2 (EVar vlmMst2) / #315 - #44
   * EPow P3 (EVar vlmMst1) / #9 - #1256 * EPow P3 (EVar vlmMst2) / #9 - EVar vDmglst2 * (EDec 5851892843532082 13 -
   #8 * EConst CB4 / #3 + #32 * EConst CD3 / #9 - #20 * EConst CDN / #9 - #20109937 * EVar vlmMst1 / #297675 - #15886
   * EPow P2 (EVar vlmMst1) / #945 + EVar vlmMst2 * (EDec 17112243218274966 15 - #144628 * EVar vlmMst1 / #945 + #1180
   * EPow P2 (EVar vlmMst1) / #9) + (EDec 16985608465608465 14 - #2632 * EVar vlmMst1 / #9) * EPow P2 (EVar vlmMst2) -
   #92 * EPow P3 (EVar vlmMst1) / #27 + #4448 * EPow P3 (EVar vlmMst2) / #27) / EVar vMgl) * EPow P4 (EVar vMst1) /
   EPow P4 (EVar vMst2) + (- ((EVar vMgl * (#103 + #186 * EVar vlmMst2 + #32 * EVar vlmMst1 * (#1 + EVar vlmMst2) +
   #91 * EPow P2 (EVar vlmMst2)) + EVar vDmglst2 * (- #40 + #4 * (#99 + #16 * EVar vlmMst1) * EVar vlmMst2 + #246 *
   EPow P2 (EVar vlmMst2))) * EPow P2 (EVar vMst2)) / (#9 * EPow P2 (EVar vMst1)) + (#5 * EVar vMgl * (#2250 * EVar
   vDmsqst2 * (#1141 + #48 * EVar vlmMst1 * (#7 - #3 * EVar vlmMst2) - #264 * EVar vlmMst2 + #144 * EPow P2 (EVar
   vlmMst2)) + EPow P2 (EVar vMst1) * (#10552777 + #205200 * EConst CB4 - #5400 * EConst CDN + #4145280 * EVar vlmMst1
   - #1181700 * EPow P2 (EVar vlmMst1) - #240 * EVar vlmMst2 * (#16192 - #26430 * EVar vlmMst1 + #3465 * EPow P2 (EVar
   vlmMst1)) + #900 * (- #5735 + #3072 * EVar vlmMst1) * EPow P2 (EVar vlmMst2) - #55800 * EPow P3 (EVar vlmMst1) -
   #1877400 * EPow P3 (EVar vlmMst2))) - #8 * EVar vDmglst2 * (#405000 * EVar vDmsqst2 * (#4 + EVar vlmMst1 - EVar
   vlmMst2) + EPow P2 (EVar vMst1) * (#2695042 - #40500 * EConst CB4 + #54000 * EConst CD3 - #33750 * EConst CDN -
   #326895 * EVar vlmMst1 - #324900 * EPow P2 (EVar vlmMst1) + #15 * EVar vlmMst2 * (- #19607 - #129030 * EVar vlmMst1
   + #62550 * EPow P2 (EVar vlmMst1)) - #450 * (- #5023 + #5610 * EVar vlmMst1) * EPow P2 (EVar vlmMst2) + #11250 *
   EPow P3 (EVar vlmMst1) + #1575000 * EPow P3 (EVar vlmMst2)))) / (#121500 * EPow P2 (EVar vMst2)) + #16 * (#1 + EVar
   vlmMst2) * (#4 * EVar vDmglst2 * EVar vlmMst2 + EVar vMgl + EVar vlmMst2 * EVar vMgl) * EPow P4 (EVar vMst2) / (#9
   * EPow P4 (EVar vMst1))) / EVar vMgl - EVar vDmsqst2 * (EDec 33333333333333335 16 - #20 * EVar vlmMst2 / #3 + #40 *
   EVar vDmglst2 / EVar vMgl - (EDec 20174098765432097 14 + #622 * EVar vlmMst1 / #15 + #2 * (- #311 + #10 * EVar
   vlmMst1) * EVar vlmMst2 / #15 + #10 * EVar vDmglst2 * (#23 - #42 * EVar vlmMst1 + #42 * EVar vlmMst2) / (#3 * EVar
   vMgl) - #22 * EPow P2 (EVar vlmMst1) / #3 + #6 * EPow P2 (EVar vlmMst2)) * EPow P4 (EVar vMst1) / EPow P4 (EVar
   vMst2) - (EDec 23728785508324435 14 + #16526 * EVar vlmMst2 / #3969 + #2 * EVar vlmMst1 * (- #8263 + #71820 * EVar
   vlmMst2) / #3969 - #520 * EPow P2 (EVar vlmMst1) / #21 - #80 * EPow P2 (EVar vlmMst2) / #7) * EPow P6 (EVar vMst1)
   / EPow P6 (EVar vMst2)) / EPow P2 (EVar vMst1)) + (EPow P2 (EVar vMst2) * (#259200 * EVar vDmglst2 * EVar vDmsqst2
   + #21600 * EVar vDmsqst2 * (#1 - #2 * EVar vlmMst2) * EVar vMgl + #720 * EVar vMgl * (#87 + #154 * EVar vlmMst2 +
   #32 * EVar vlmMst1 * (#1 + EVar vlmMst2) + #75 * EPow P2 (EVar vlmMst2)) * EPow P2 (EVar vMst2) + #1440 * EVar
   vDmglst2 * (- #52 + #2 * (#67 + #16 * EVar vlmMst1) * EVar vlmMst2 + #91 * EPow P2 (EVar vlmMst2)) * EPow P2 (EVar
   vMst2) - #96 * EVar vDmglst2 * EPow P2 (EVar vMst1) * (#11674 - #120 * EConst CB4 + #120 * EConst CD3 - #60 *
   EConst CDN + #690 * EVar vlmMst1 + #345 * EPow P2 (EVar vlmMst1) - #5 * EVar vlmMst2 * (- #3427 - #54 * EVar
   vlmMst1 + #96 * EPow P2 (EVar vlmMst1)) + (#4515 - #480 * EVar vlmMst1) * EPow P2 (EVar vlmMst2) + #960 * EPow P3
   (EVar vlmMst2)) - EVar vMgl * EPow P2 (EVar vMst1) * (#1013263 + #2880 * EConst CD3 - #2880 * EConst CDN + #96720 *
   EVar vlmMst1 + #34560 * EVar vlmMt + #44640 * EPow P2 (EVar vlmMst1) - #240 * EVar vlmMst2 * (- #2267 - #90 * EVar
   vlmMst1 + #117 * EPow P2 (EVar vlmMst1)) + #1440 * (#133 + #8 * EVar vlmMst1) * EPow P2 (EVar vlmMst2) + #11520 *
   EPow P3 (EVar vlmMst1) + #5040 * EPow P3 (EVar vlmMst2))) / (#3240 * EPow P2 (EVar vMst1)) - #32 * (#1 + EVar
   vlmMst2) * (#4 * EVar vDmglst2 * EVar vlmMst2 + EVar vMgl + EVar vlmMst2 * EVar vMgl) * EPow P6 (EVar vMst2) / (#9
   * EPow P4 (EVar vMst1))) / EVar vMgl + (#300 * EVar vDmsqst2 * EVar vMgl * (#9 * EPow P2 (EVar vMst1) * EPow P2
   (EVar vMst2) * (#2 * (#8 * EConst COepS2 - #27 * (#23 + #6 * EVar vlmMst1 - #6 * EVar vlmMst2) * EConst CS2) * EPow
   P2 (EVar vMst2) + (#104 * EConst COepS2 + #27 * (#17 - #78 * EVar vlmMst1 + #78 * EVar vlmMst2) * EConst CS2) *
   EPow P2 (EVar vMuSUSY)) + (#4 * (#16 * EConst COepS2 - #27 * (#35 + #12 * EVar vlmMst1 - #12 * EVar vlmMst2) *
   EConst CS2) * EPow P2 (EVar vMst2) + #13 * (#136 * EConst COepS2 - #27 * (#95 + #102 * EVar vlmMst1 - #102 * EVar
   vlmMst2) * EConst CS2) * EPow P2 (EVar vMuSUSY)) * EPow P4 (EVar vMst1) + #27 * ((#8 * EConst COepS2 - #81 * (#9 +
   #2 * EVar vlmMst1 - #2 * EVar vlmMst2) * EConst CS2) * EPow P2 (EVar vMst2) + (#8 * EConst COepS2 - #81 * (- #15 +
   #2 * EVar vlmMst1 - #2 * EVar vlmMst2) * EConst CS2) * EPow P2 (EVar vMuSUSY)) * EPow P4 (EVar vMst2)) + EPow P2
   (EVar vMst2) * (#3 * EVar vMgl * (#6 * EPow P2 (EVar vMst1) * EPow P2 (EVar vMst2) * ((#25160 * EConst COepS2 - #81
   * (#9191 + #6290 * EVar vlmMst1 - #6290 * EVar vlmMst2) * EConst CS2) * EPow P2 (EVar vMst2) + #5 * (#8456 * EConst
   COepS2 - #81 * (#11243 + #2114 * EVar vlmMst1 - #2114 * EVar vlmMst2) * EConst CS2) * EPow P2 (EVar vMuSUSY)) +
   ((#274280 * EConst COepS2 - #27 * (#399127 + #205710 * EVar vlmMst1 - #205710 * EVar vlmMst2) * EConst CS2) * EPow
   P2 (EVar vMst2) + #10 * (#52948 * EConst COepS2 - #27 * (#194357 + #39711 * EVar vlmMst1 - #39711 * EVar vlmMst2) *
   EConst CS2) * EPow P2 (EVar vMuSUSY)) * EPow P4 (EVar vMst1) + #27 * ((#2120 * EConst COepS2 - #81 * (- #141 + #530
   * EVar vlmMst1 - #530 * EVar vlmMst2) * EConst CS2) * EPow P2 (EVar vMst2) + #10 * (#184 * EConst COepS2 - #81 *
   (#307 + #46 * EVar vlmMst1 - #46 * EVar vlmMst2) * EConst CS2) * EPow P2 (EVar vMuSUSY)) * EPow P4 (EVar vMst2)) -
   #4 * EVar vDmglst2 * (#54 * EPow P2 (EVar vMst1) * EPow P2 (EVar vMst2) * ((#2000 * EConst COepS2 - #162 * (#31 +
   #250 * EVar vlmMst1 - #250 * EVar vlmMst2) * EConst CS2) * EPow P2 (EVar vMst2) + #5 * (#344 * EConst COepS2 + #9 *
   (#15643 - #774 * EVar vlmMst1 + #774 * EVar vlmMst2) * EConst CS2) * EPow P2 (EVar vMuSUSY)) + #2 * (#9 * (#30760 *
   EConst COepS2 - #27 * (#28283 + #23070 * EVar vlmMst1 - #23070 * EVar vlmMst2) * EConst CS2) * EPow P2 (EVar vMst2)
   + #10 * (#17308 * EConst COepS2 + #27 * (#93919 - #12981 * EVar vlmMst1 + #12981 * EVar vlmMst2) * EConst CS2) *
   EPow P2 (EVar vMuSUSY)) * EPow P4 (EVar vMst1) + #135 * (#56 * EConst COepS2 - #81 * (- #1677 + #14 * EVar vlmMst1
   - #14 * EVar vlmMst2) * EConst CS2) * EPow P2 (EVar vMuSUSY) * EPow P4 (EVar vMst2) - #2768742 * EConst CS2 * EPow
   P6 (EVar vMst2)))) / (#21870 * EVar vMgl * EPow P6 (EVar vMst2))) + EPow P4 (EVar vMt) * (EDec 48098395061728394 14
   - #640 * EVar vlmMst1 / #9 - #392 * EPow P2 (EVar vlmMst1) / #9 + #4 * EVar vlmMst2 * (- #553 - #1224 * EVar
   vlmMst1 + #63 * EPow P2 (EVar vlmMst1)) / #81 + #32 * (#121 - #18 * EVar vlmMst1) * EPow P2 (EVar vlmMst2) / #27 +
   #4 * EVar vlmMt * (#926 - #749 * EVar vlmMst2 + #6 * EVar vlmMst1 * (#27 + #32 * EVar vlmMst2) + #9 * EPow P2 (EVar
   vlmMst1) + #57 * EPow P2 (EVar vlmMst2)) / #27 - #4 * (- #12 + EVar vlmMst1 + #55 * EVar vlmMst2) * EPow P2 (EVar
   vlmMt) / #3 - #68 * EPow P3 (EVar vlmMst1) / #9 + #4 * EVar vDmglst2 * (#773533 + #131775 * EVar vlmMt + #35 * EVar
   vlmMst2 * (- #6569 + #2220 * EVar vlmMt) - #4410 * EPow P2 (EVar vlmMst1) - #199920 * EPow P2 (EVar vlmMst2) +
   #5040 * EVar vlmMst1 * (#13 + #28 * EVar vlmMst2 - #8 * EVar vlmMt + #8 * EPow P2 (EVar vlmMst2)) + #63000 * EPow
   P2 (EVar vlmMt) - #40320 * EPow P3 (EVar vlmMst2)) / (#2835 * EVar vMgl) + #8 * EPow P3 (EVar vlmMst2) / #9 + #184
   * EPow P3 (EVar vlmMt) / #3 + (EDec 15000856244066115 13 + #43574647 * EVar vlmMst1 / #99225 - #139432 * EPow P2
   (EVar vlmMst1) / #945 - #2 * EVar vlmMst2 * (#35585111 - #2612085 * EVar vlmMst1 + #2072700 * EPow P2 (EVar
   vlmMst1)) / #99225 + #2 * (#34339 + #46620 * EVar vlmMst1) * EPow P2 (EVar vlmMst2) / #945 + EVar vlmMt * (#3155 +
   #1418 * EVar vlmMst2 - #2 * EVar vlmMst1 * (#513 + #572 * EVar vlmMst2) + #312 * EPow P2 (EVar vlmMst1) + #832 *
   EPow P2 (EVar vlmMst2)) / #9 + #64 * (- #1 + #3 * EVar vlmMst1 - #3 * EVar vlmMst2) * EPow P2 (EVar vlmMt) / #3 +
   #64 * EPow P3 (EVar vlmMst1) / #27 - #1600 * EPow P3 (EVar vlmMst2) / #27 - EVar vDmglst2 * (EDec 2929938520304849
   12 + #55510684 * EVar vlmMst1 / #59535 - #126272 * EPow P2 (EVar vlmMst1) / #189 - #4 * EVar vlmMst2 * (#42300121 +
   #12578580 * EVar vlmMst1 + #2487240 * EPow P2 (EVar vlmMst1)) / #59535 + #32 * (#10166 - #693 * EVar vlmMst1) *
   EPow P2 (EVar vlmMst2) / #189 + #8 * EVar vlmMt * (#5695 + #1974 * EVar vlmMst2 - #12 * EVar vlmMst1 * (#163 + #47
   * EVar vlmMst2) + #468 * EPow P2 (EVar vlmMst1) + #96 * EPow P2 (EVar vlmMst2)) / #27 + #128 * (- #5 + #6 * EVar
   vlmMst1 - #6 * EVar vlmMst2) * EPow P2 (EVar vlmMt) / #3 + #256 * EPow P3 (EVar vlmMst1) / #27 + #7424 * EPow P3
   (EVar vlmMst2) / #27) / EVar vMgl) * EPow P4 (EVar vMst1) / EPow P4 (EVar vMst2) + (#4 * (#2 * EVar vDmglst2 * (-
   #84 + (#70 + #32 * EVar vlmMst1) * EVar vlmMst2 + #59 * EPow P2 (EVar vlmMst2)) + EVar vMgl * (#71 + #122 * EVar
   vlmMst2 + #32 * EVar vlmMst1 * (#1 + EVar vlmMst2) + #59 * EPow P2 (EVar vlmMst2))) * EPow P2 (EVar vMst2) / (#9 *
   EPow P2 (EVar vMst1)) + (#210000 * EVar vDmglst2 * EVar vDmsqst2 * (#2954 - #864 * EVar vlmMst1 + #1713 * EVar
   vlmMst2 - #849 * EVar vlmMt) + #630000 * EVar vDmsqst2 * EVar vMgl * (- #103 + #42 * EVar vlmMst1 + #78 * EVar
   vlmMt - #6 * EVar vlmMst2 * (#23 + #3 * EVar vlmMt) + #9 * EPow P2 (EVar vlmMst2) + #9 * EPow P2 (EVar vlmMt)) + #4
   * EVar vDmglst2 * EPow P2 (EVar vMst1) * (#98884301 - #57865500 * EVar vlmMt + #12600 * (#1213 + #285 * EVar
   vlmMst2 - #225 * EVar vlmMt) * EPow P2 (EVar vlmMst1) + #18900 * (- #5953 + #310 * EVar vlmMt) * EPow P2 (EVar
   vlmMst2) + #13608000 * EPow P2 (EVar vlmMt) + #1260 * (EVar vlmMst1 * (#28194 + EVar vlmMst2 * (#61415 - #2400 *
   EVar vlmMt) - #1075 * EVar vlmMt + #13800 * EPow P2 (EVar vlmMst2) - #7200 * EPow P2 (EVar vlmMt)) + EVar vlmMst2 *
   (#8581 + #6025 * EVar vlmMt + #7200 * EPow P2 (EVar vlmMt))) - #252000 * EPow P3 (EVar vlmMst1) - #20727000 * EPow
   P3 (EVar vlmMst2)) + #35 * EVar vMgl * EPow P2 (EVar vMst1) * (#7319011 + #3223800 * EVar vlmMt - #1800 * (#391 +
   #114 * EVar vlmMst2 - #90 * EVar vlmMt) * EPow P2 (EVar vlmMst1) + #3600 * (#568 + #99 * EVar vlmMt) * EPow P2
   (EVar vlmMst2) - #259200 * EPow P2 (EVar vlmMt) - #120 * EVar vlmMst2 * (#22352 - #2835 * EVar vlmMt + #4320 * EPow
   P2 (EVar vlmMt)) + #120 * EVar vlmMst1 * (#4217 + #1215 * EVar vlmMt - #15 * EVar vlmMst2 * (#871 + #288 * EVar
   vlmMt) + #3240 * EPow P2 (EVar vlmMst2) + #4320 * EPow P2 (EVar vlmMt)) + #14400 * EPow P3 (EVar vlmMst1) - #198000
   * EPow P3 (EVar vlmMst2))) / (#425250 * EPow P2 (EVar vMst2)) - #64 * (#1 + EVar vlmMst2) * (#4 * EVar vDmglst2 *
   EVar vlmMst2 + EVar vMgl + EVar vlmMst2 * EVar vMgl) * EPow P4 (EVar vMst2) / (#9 * EPow P4 (EVar vMst1)) + (-
   (EPow P2 (EVar vMuSUSY) * (#12 * EVar vDmglst2 * EPow P2 (EVar vMst2) * (#72 * EPow P2 (EVar vMst2) * (#180 - #2 *
   EConst CB4 + #2 * EConst CD3 - EConst CDN + #16 * EVar vlmMst1 + #144 * EVar vlmMst2 - #16 * (- #2 + EVar vlmMst1)
   * EPow P2 (EVar vlmMst2) + #16 * EPow P3 (EVar vlmMst2)) + EPow P2 (EVar vMst1) * (#28405 - #288 * EConst CB4 +
   #288 * EConst CD3 - #144 * EConst CDN + #5472 * EVar vlmMst1 - #288 * (- #89 + #2 * EVar vlmMst1) * EVar vlmMst2 +
   #576 * (- #2 + EVar vlmMst1 - EVar vlmMst2) * EVar vlmMt - #576 * (- #9 + #8 * EVar vlmMst1) * EPow P2 (EVar
   vlmMst2) + #4608 * EPow P3 (EVar vlmMst2))) + EVar vMgl * (#18 * EPow P2 (EVar vMst1) * EPow P2 (EVar vMst2) *
   (#10667 - #96 * EConst CB4 + #96 * EConst CD3 - #48 * EConst CDN - #3072 * EVar vlmMst1 - #384 * (- #25 + #9 * EVar
   vlmMst1) * EVar vlmMst2 - #384 * (- #1 + EVar vlmMst1 - EVar vlmMst2) * EVar vlmMt - #384 * (- #13 + #4 * EVar
   vlmMst1) * EPow P2 (EVar vlmMst2) + #1536 * EPow P3 (EVar vlmMst2)) + (#383185 - #2592 * EConst CB4 + #2592 *
   EConst CD3 - #1296 * EConst CDN - #187704 * EVar vlmMst1 - #7992 * EPow P2 (EVar vlmMst1) - #216 * EVar vlmMst2 *
   (- #1733 + #630 * EVar vlmMst1 + #26 * EPow P2 (EVar vlmMst1)) - #216 * (- #859 + #246 * EVar vlmMst1) * EPow P2
   (EVar vlmMst2) + #3456 * EVar vlmMt * (#3 + #6 * EVar vlmMst2 - #2 * EVar vlmMst1 * (#3 + EVar vlmMst2) + EPow P2
   (EVar vlmMst1) + EPow P2 (EVar vlmMst2)) + #720 * EPow P3 (EVar vlmMst1) + #58032 * EPow P3 (EVar vlmMst2)) * EPow
   P4 (EVar vMst1) + #144 * (#436 - #6 * EConst CB4 + #6 * EConst CD3 - #3 * EConst CDN - #48 * EVar vlmMst1 + (#408 -
   #96 * EVar vlmMst1) * EVar vlmMst2 + #24 * EVar vlmMt - #48 * (- #4 + EVar vlmMst1) * EPow P2 (EVar vlmMst2) + #48
   * EPow P3 (EVar vlmMst2)) * EPow P4 (EVar vMst2)))) / #486 + #16 * EConst COepS2 * (#4 * EVar vDmglst2 * EPow P2
   (EVar vMst2) * (#63 * EPow P2 (EVar vMst1) * (#23 * EPow P2 (EVar vMst2) - #3 * EPow P2 (EVar vMuSUSY)) + #5582 *
   EPow P4 (EVar vMst1) + #189 * EPow P4 (EVar vMst2)) + #3 * EVar vMgl * ((#1168 * EPow P2 (EVar vMst2) + #1635 *
   EPow P2 (EVar vMuSUSY)) * EPow P4 (EVar vMst1) + EPow P2 (EVar vMst1) * (#378 * EPow P2 (EVar vMst2) * EPow P2
   (EVar vMuSUSY) + #627 * EPow P4 (EVar vMst2)) + #189 * EPow P6 (EVar vMst2))) / #2187 + #4 * EVar vDmsqst2 * (-
   #771750 * EVar vDmglst2 * EPow P2 (EVar vMst2) * ((- #401 - #274 * EVar vlmMst2 + #2 * EVar vlmMst1 * (#71 + #2 *
   EVar vlmMst2 - #2 * EVar vlmMt) + #132 * EVar vlmMt + #4 * EVar vlmMst2 * EVar vlmMt - #4 * EPow P2 (EVar vlmMst2))
   * EPow P4 (EVar vMst1) - #12 * EPow P4 (EVar vMst2)) + EVar vMgl * (#343 * (- #91321 + #30 * EVar vlmMst1 * (#1717
   + #120 * EVar vlmMst2 - #150 * EVar vlmMt) + #40500 * EVar vlmMt + #30 * EVar vlmMst2 * (- #3067 + #150 * EVar
   vlmMt) + #450 * EPow P2 (EVar vlmMst1) - #4050 * EPow P2 (EVar vlmMst2)) * EPow P2 (EVar vMst2) * EPow P4 (EVar
   vMst1) + #2 * (- #26331136 + #105 * EVar vlmMst1 * (#236317 + #35070 * EVar vlmMst2 - #36750 * EVar vlmMt) +
   #11962125 * EVar vlmMt + #210 * EVar vlmMst2 * (- #175121 + #18375 * EVar vlmMt) + #88200 * EPow P2 (EVar vlmMst1)
   - #3770550 * EPow P2 (EVar vlmMst2)) * EPow P6 (EVar vMst1) - #771750 * (- #1 + #2 * EVar vlmMst2) * EPow P6 (EVar
   vMst2))) / (#231525 * EPow P2 (EVar vMst1)) - EConst CS2 * (#4 * EVar vDmglst2 * EPow P2 (EVar vMst2) * (#45 * EPow
   P2 (EVar vMst1) * (#23 * (#115 + #588 * EVar vlmMst1 - #588 * EVar vlmMst2) * EPow P2 (EVar vMst2) - #126 * (#65 +
   #14 * EVar vlmMst1 - #14 * EVar vlmMst2) * EPow P2 (EVar vMuSUSY)) + (#2001242 + #2344440 * EVar vlmMst1 - #2344440
   * EVar vlmMst2) * EPow P4 (EVar vMst1) - #81 * (#3360 * EPow P2 (EVar vMst2) * EPow P2 (EVar vMuSUSY) + (#1593 -
   #980 * EVar vlmMst1 + #980 * EVar vlmMst2) * EPow P4 (EVar vMst2))) + #42 * EVar vMgl * ((#8 * (#8653 + #4380 *
   EVar vlmMst1 - #4380 * EVar vlmMst2) * EPow P2 (EVar vMst2) + #90 * (- #57 + #545 * EVar vlmMst1 - #545 * EVar
   vlmMst2) * EPow P2 (EVar vMuSUSY)) * EPow P4 (EVar vMst1) + #9 * EPow P2 (EVar vMst1) * (#90 * (- #43 + #14 * EVar
   vlmMst1 - #14 * EVar vlmMst2) * EPow P2 (EVar vMst2) * EPow P2 (EVar vMuSUSY) + (#4163 + #2090 * EVar vlmMst1 -
   #2090 * EVar vlmMst2) * EPow P4 (EVar vMst2)) + #81 * (- #240 * EPow P2 (EVar vMuSUSY) * EPow P4 (EVar vMst2) +
   (#109 + #70 * EVar vlmMst1 - #70 * EVar vlmMst2) * EPow P6 (EVar vMst2)))) / #2835) / EPow P6 (EVar vMst2)) / EVar
   vMgl) + EPow P2 (EVar vMuSUSY) * EPow P3 (EVar vMt) * (- (EVar vDmglst2 * EVar vMst2 * (- #27 * EPow P2 (EVar
   vMst1) * EPow P2 (EVar vMst2) * (#2880 * EVar vMst2 * EVar vMt * (#180 - #2 * EConst CB4 + #2 * EConst CD3 - EConst
   CDN + #16 * EVar vlmMst1 + #144 * EVar vlmMst2 - #216 * EConst CS2 - #16 * (- #2 + EVar vlmMst1) * EPow P2 (EVar
   vlmMst2) + #16 * EPow P3 (EVar vlmMst2)) + EVar vs2t * (- #86400 * EVar vDmsqst2 * (#2 + #5 * EVar vlmMst1 - #5 *
   EVar vlmMst2) + EPow P2 (EVar vMst2) * (#23917 + #188640 * EConst CB4 - #3600 * EConst CDN - #37440 * EVar vlmMst1
   + #5600 * EConst COepS2 - #324 * (- #453 + #350 * EVar vlmMst1 - #350 * EVar vlmMst2) * EConst CS2 + #11520 * EPow
   P2 (EVar vlmMst1) - #2880 * EVar vlmMst2 * (- #237 + #55 * EVar vlmMst1 + #4 * EPow P2 (EVar vlmMst1)) - #1440 * (-
   #280 + #121 * EVar vlmMst1) * EPow P2 (EVar vlmMst2) + #185760 * EPow P3 (EVar vlmMst2)))) - #36 * (#30 * EVar
   vMst2 * EVar vMt * (#28405 - #288 * EConst CB4 + #288 * EConst CD3 - #144 * EConst CDN + #5472 * EVar vlmMst1 -
   #288 * (- #89 + #2 * EVar vlmMst1) * EVar vlmMst2 + #576 * (- #2 + EVar vlmMst1 - EVar vlmMst2) * EVar vlmMt + #224
   * EConst COepS2 - #324 * (#65 + #14 * EVar vlmMst1 - #14 * EVar vlmMst2) * EConst CS2 - #576 * (- #9 + #8 * EVar
   vlmMst1) * EPow P2 (EVar vlmMst2) + #4608 * EPow P3 (EVar vlmMst2)) + EVar vs2t * (#64800 * EVar vDmsqst2 * (#8 -
   #15 * EVar vlmMst1 + #15 * EVar vlmMst2) + EPow P2 (EVar vMst2) * (#66761 + #301320 * EConst CB4 - #4860 * EConst
   CDN - #205380 * EVar vlmMst1 + #40480 * EConst COepS2 - #216 * (#2489 + #3795 * EVar vlmMst1 - #3795 * EVar
   vlmMst2) * EConst CS2 + #23760 * EPow P2 (EVar vlmMst1) + #180 * EVar vlmMst2 * (#4993 - #1956 * EVar vlmMst1 + #48
   * EPow P2 (EVar vlmMst1)) - #1080 * (- #482 + #331 * EVar vlmMst1) * EPow P2 (EVar vlmMst2) + #348840 * EPow P3
   (EVar vlmMst2)))) * EPow P4 (EVar vMst1) + EVar vs2t * (#10 * (#2773621 - #1660176 * EConst CB4 + #25272 * EConst
   CDN + #2004408 * EVar vlmMst1 - #525472 * EConst COepS2 + #108 * (#123113 + #98526 * EVar vlmMst1 - #98526 * EVar
   vlmMst2) * EConst CS2 + #3888 * EPow P2 (EVar vlmMst1) - #144 * EVar vlmMst2 * (#36802 - #11421 * EVar vlmMst1 +
   #1728 * EPow P2 (EVar vlmMst1)) + #167184 * (- #14 + #15 * EVar vlmMst1) * EPow P2 (EVar vlmMst2) - #31104 * EPow
   P3 (EVar vlmMst1) - #2227824 * EPow P3 (EVar vlmMst2)) * EPow P6 (EVar vMst1) - #622080 * (- #1 + #2 * EVar vlmMst2
   + #3 * EPow P2 (EVar vlmMst2)) * EPow P6 (EVar vMst2)))) + #15 * EVar vMgl * (#27 * EPow P2 (EVar vMst1) * (#32 *
   EVar vMst2 * EVar vMt * (#436 - #6 * EConst CB4 + #6 * EConst CD3 - #3 * EConst CDN - #48 * EVar vlmMst1 + (#408 -
   #96 * EVar vlmMst1) * EVar vlmMst2 + #24 * EVar vlmMt - #972 * EConst CS2 - #48 * (- #4 + EVar vlmMst1) * EPow P2
   (EVar vlmMst2) + #48 * EPow P3 (EVar vlmMst2)) + EVar vs2t * (#5760 * EVar vDmsqst2 * (#1 + EVar vlmMst1 - EVar
   vlmMst2) + EPow P2 (EVar vMst2) * (#28683 + #5280 * EConst CB4 - #48 * EConst CDN - #5952 * EVar vlmMst1 - #224 *
   EConst COepS2 + #324 * (- #1 + #14 * EVar vlmMst1 - #14 * EVar vlmMst2) * EConst CS2 - #768 * EPow P2 (EVar
   vlmMst1) - #192 * EVar vlmMst2 * (- #214 + #73 * EVar vlmMst1 + #4 * EPow P2 (EVar vlmMst1)) - #96 * (- #268 + #57
   * EVar vlmMst1) * EPow P2 (EVar vlmMst2) + #6240 * EPow P3 (EVar vlmMst2)))) * EPow P3 (EVar vMst2) + #12 * EVar
   vMst2 * (#9 * EVar vMst2 * EVar vMt * (#10667 - #96 * EConst CB4 + #96 * EConst CD3 - #48 * EConst CDN - #3072 *
   EVar vlmMst1 - #384 * (- #25 + #9 * EVar vlmMst1) * EVar vlmMst2 - #384 * (- #1 + EVar vlmMst1 - EVar vlmMst2) *
   EVar vlmMt - #224 * EConst COepS2 + #324 * (- #43 + #14 * EVar vlmMst1 - #14 * EVar vlmMst2) * EConst CS2 - #384 *
   (- #13 + #4 * EVar vlmMst1) * EPow P2 (EVar vlmMst2) + #1536 * EPow P3 (EVar vlmMst2)) + EVar vs2t * (#12960 * EVar
   vDmsqst2 * (#1 + #3 * EVar vlmMst1 - #3 * EVar vlmMst2) + #2 * EPow P2 (EVar vMst2) * (#75569 + #13716 * EConst CB4
   - #54 * EConst CDN - #33426 * EVar vlmMst1 - #1088 * EConst COepS2 + #162 * (#169 + #136 * EVar vlmMst1 - #136 *
   EVar vlmMst2) * EConst CS2 - #2376 * EPow P2 (EVar vlmMst1) + #54 * EVar vlmMst2 * (#1427 - #1012 * EVar vlmMst1 +
   #16 * EPow P2 (EVar vlmMst1)) - #108 * (- #642 + #203 * EVar vlmMst1) * EPow P2 (EVar vlmMst2) + #21060 * EPow P3
   (EVar vlmMst2)))) * EPow P4 (EVar vMst1) + #2 * (#3 * EVar vMt * (#383185 - #2592 * EConst CB4 + #2592 * EConst CD3
   - #1296 * EConst CDN - #187704 * EVar vlmMst1 - #17440 * EConst COepS2 + #648 * (- #57 + #545 * EVar vlmMst1 - #545
   * EVar vlmMst2) * EConst CS2 - #7992 * EPow P2 (EVar vlmMst1) - #216 * EVar vlmMst2 * (- #1733 + #630 * EVar
   vlmMst1 + #26 * EPow P2 (EVar vlmMst1)) - #216 * (- #859 + #246 * EVar vlmMst1) * EPow P2 (EVar vlmMst2) + #3456 *
   EVar vlmMt * (#3 + #6 * EVar vlmMst2 - #2 * EVar vlmMst1 * (#3 + EVar vlmMst2) + EPow P2 (EVar vlmMst1) + EPow P2
   (EVar vlmMst2)) + #720 * EPow P3 (EVar vlmMst1) + #58032 * EPow P3 (EVar vlmMst2)) + EVar vMst2 * EVar vs2t *
   (#1702429 + #257904 * EConst CB4 - #648 * EConst CDN - #748656 * EVar vlmMst1 - #30112 * EConst COepS2 + #108 *
   (#9185 + #5646 * EVar vlmMst1 - #5646 * EVar vlmMst2) * EConst CS2 + #41904 * EPow P2 (EVar vlmMst1) + #216 * EVar
   vlmMst2 * (#5971 - #6106 * EVar vlmMst1 + #576 * EPow P2 (EVar vlmMst1)) - #41904 * (- #34 + #15 * EVar vlmMst1) *
   EPow P2 (EVar vlmMst2) - #3456 * EPow P3 (EVar vlmMst1) + #507600 * EPow P3 (EVar vlmMst2))) * EPow P6 (EVar vMst1)
   + #41472 * EVar vs2t * EPow P2 (#1 + EVar vlmMst2) * EPow P7 (EVar vMst2))) / (#43740 * EVar vMgl * EPow P2 (EVar
   vMst1) * EPow P2 (EVar vSbeta) * EPow P6 (EVar vMst2)) + EVar vMt * EPow P3 (EVar vs2t) * (- (EVar vDmglst2 * (-
   #18 * (#27211 + #36720 * EConst CB4 + #1080 * EConst CDN - #298440 * EVar vlmMst1 + #64160 * EConst COepS2 - #108 *
   (#14033 + #12030 * EVar vlmMst1 - #12030 * EVar vlmMst2) * EConst CS2 + #12960 * EPow P2 (EVar vlmMst1) + #360 *
   EVar vlmMst2 * (- #503 - #636 * EVar vlmMst1 + #144 * EPow P2 (EVar vlmMst1)) - #2160 * (#30 + #89 * EVar vlmMst1)
   * EPow P2 (EVar vlmMst2) + #140400 * EPow P3 (EVar vlmMst2)) * EPow P4 (EVar vMst1) * EPow P4 (EVar vMst2) + EPow
   P2 (EVar vMst2) * (#31897243 - #2491360 * EConst COepS2 + #90290268 * EConst CS2 - #360 * EVar vlmMst2 * (#18652 +
   #140139 * EConst CS2) + #38880 * (#37 - #40 * EVar vlmMst2) * EPow P2 (EVar vlmMst1) + #3188160 * EPow P2 (EVar
   vlmMst2) + #360 * EVar vlmMst1 * (#17410 - #12852 * EVar vlmMst2 + #140139 * EConst CS2 + #11232 * EPow P2 (EVar
   vlmMst2)) - #311040 * EPow P3 (EVar vlmMst1) - #2177280 * EPow P3 (EVar vlmMst2)) * EPow P6 (EVar vMst1) + EPow P2
   (EVar vMst1) * (- #583200 * EVar vDmsqst2 * (#4 * (#12 - #5 * EVar vlmMst1 + #5 * EVar vlmMst2) * EPow P2 (EVar
   vMst1) * EPow P2 (EVar vMst2) + (#40 - #3 * EVar vlmMst1 + #3 * EVar vlmMst2) * EPow P4 (EVar vMst1) - #4 * (#2 +
   #5 * EVar vlmMst1 - #5 * EVar vlmMst2) * EPow P4 (EVar vMst2)) - #27 * (#69997 + #188640 * EConst CB4 - #3600 *
   EConst CDN - #37440 * EVar vlmMst1 + #5600 * EConst COepS2 - #324 * (- #453 + #350 * EVar vlmMst1 - #350 * EVar
   vlmMst2) * EConst CS2 + #11520 * EPow P2 (EVar vlmMst1) - #2880 * EVar vlmMst2 * (- #205 + #55 * EVar vlmMst1 + #4
   * EPow P2 (EVar vlmMst1)) - #1440 * (- #184 + #121 * EVar vlmMst1) * EPow P2 (EVar vlmMst2) + #185760 * EPow P3
   (EVar vlmMst2)) * EPow P6 (EVar vMst2)) - #622080 * (- #1 + #2 * EVar vlmMst2 + #3 * EPow P2 (EVar vlmMst2)) * EPow
   P8 (EVar vMst2))) + #15 * EVar vMgl * (#6 * (#51041 + #7344 * EConst CB4 + #216 * EConst CDN - #80136 * EVar
   vlmMst1 - #2336 * EConst COepS2 + #324 * (#347 + #146 * EVar vlmMst1 - #146 * EVar vlmMst2) * EConst CS2 - #2592 *
   EPow P2 (EVar vlmMst1) + #216 * EVar vlmMst2 * (- #221 - #428 * EVar vlmMst1 + #48 * EPow P2 (EVar vlmMst1)) - #432
   * (- #122 + #89 * EVar vlmMst1) * EPow P2 (EVar vlmMst2) + #28080 * EPow P3 (EVar vlmMst2)) * EPow P4 (EVar vMst1)
   * EPow P4 (EVar vMst2) - #38880 * EVar vDmsqst2 * EPow P2 (EVar vMst1) * (#4 * (#1 - EVar vlmMst1 + EVar vlmMst2) *
   EPow P2 (EVar vMst1) * EPow P2 (EVar vMst2) + (#4 - EVar vlmMst1 + EVar vlmMst2) * EPow P4 (EVar vMst1) - #4 * (#1
   + EVar vlmMst1 - EVar vlmMst2) * EPow P4 (EVar vMst2)) + EPow P2 (EVar vMst2) * (#551987 - #14048 * EConst COepS2 +
   #661068 * EConst CS2 - #216 * EVar vlmMst2 * (#46 + #1317 * EConst CS2) + #864 * (#205 + #216 * EVar vlmMst2) *
   EPow P2 (EVar vlmMst1) + #216000 * EPow P2 (EVar vlmMst2) - #216 * EVar vlmMst1 * (#248 + #1820 * EVar vlmMst2 -
   #1317 * EConst CS2 + #1632 * EPow P2 (EVar vlmMst2)) - #6912 * EPow P3 (EVar vlmMst1) + #172800 * EPow P3 (EVar
   vlmMst2)) * EPow P6 (EVar vMst1) + #27 * EPow P2 (EVar vMst1) * (#25611 + #5280 * EConst CB4 - #48 * EConst CDN -
   #5952 * EVar vlmMst1 - #224 * EConst COepS2 + #324 * (- #1 + #14 * EVar vlmMst1 - #14 * EVar vlmMst2) * EConst CS2
   - #768 * EPow P2 (EVar vlmMst1) - #192 * EVar vlmMst2 * (- #182 + #73 * EVar vlmMst1 + #4 * EPow P2 (EVar vlmMst1))
   - #96 * (- #236 + #57 * EVar vlmMst1) * EPow P2 (EVar vlmMst2) + #6240 * EPow P3 (EVar vlmMst2)) * EPow P6 (EVar
   vMst2) + #41472 * EPow P2 (#1 + EVar vlmMst2) * EPow P8 (EVar vMst2))) / (#87480 * EVar vMgl * EPow P2 (EVar vMst1)
   * EPow P3 (EVar vMst2)) + (- #10 * EVar vshiftst1 * (EVar vDmsqst2 * (#3 - #2 * EVar vlmMst2) + (#1 - #2 * EVar
   vlmMst2) * EPow P2 (EVar vMst2)) * (EPow P4 (EVar vMst2) * (EPow P2 (EVar vs2t) * (- #8 * EPow P2 (EVar vMt) +
   (EPow P2 (EVar vMst1) - EPow P2 (EVar vMst2)) * EPow P2 (EVar vs2t)) * EPow P2 (EVar vSbeta) * EPow P4 (EVar vMst1)
   + EPow P2 (EVar vMst1) * (#4 * EPow P2 (EVar vMt) * EPow P2 (EVar vs2t) * (EPow P2 (EVar vMuSUSY) + (#4 * EPow P2
   (EVar vMst2) - EPow P2 (EVar vMuSUSY)) * EPow P2 (EVar vSbeta)) + EPow P2 (EVar vSbeta) * (#16 * EPow P4 (EVar vMt)
   - EPow P4 (EVar vMst2) * EPow P4 (EVar vs2t))) + EPow P2 (EVar vMst2) * (- #4 * EPow P2 (EVar vMt) * EPow P2 (EVar
   vs2t) * (EPow P2 (EVar vMuSUSY) * (- #1 + EPow P2 (EVar vSbeta)) + #2 * EPow P2 (EVar vMst2) * EPow P2 (EVar
   vSbeta)) + EPow P2 (EVar vSbeta) * (#16 * EPow P4 (EVar vMt) + EPow P4 (EVar vMst2) * EPow P4 (EVar vs2t)))) + (-
   #2 * EVar vlmMst1 + #2 * EVar vlmMst2) * EPow P2 (EVar vMst1) * EPow P2 (EVar vs2t) * (- #4 * EPow P2 (EVar vMt) *
   EPow P2 (EVar vMuSUSY) * (- #1 + EPow P2 (EVar vSbeta)) * (EPow P4 (EVar vMst1) + EPow P4 (EVar vMst2)) - EPow P2
   (EVar vMst1) * EPow P2 (EVar vMst2) * (#4 * EPow P2 (EVar vMt) * EPow P2 (EVar vMuSUSY) * (- #1 + EPow P2 (EVar
   vSbeta)) + EPow P2 (EVar vs2t) * EPow P2 (EVar vSbeta) * EPow P4 (EVar vMst2)) + EPow P2 (EVar vs2t) * EPow P2
   (EVar vSbeta) * EPow P8 (EVar vMst2))) / EPow P2 (EVar vSbeta) + (#1 - #2 * EVar vlmMst2) * EVar vshiftst3 * EPow
   P2 (EVar vMst2) * ((#8 * (- #1 + EVar vlmMst1 - EVar vlmMst2) * EPow P2 (EVar vMst1) * EPow P2 (EVar vMt) * EPow P2
   (EVar vs2t) - #16 * EPow P4 (EVar vMt) - (- #4 * EPow P2 (EVar vMst1) * EPow P2 (EVar vMst2) + (#3 + #2 * EVar
   vlmMst1 - #2 * EVar vlmMst2) * EPow P4 (EVar vMst1) + EPow P4 (EVar vMst2)) * EPow P4 (EVar vs2t)) * EPow P6 (EVar
   vMst2) - #4 * EPow P2 (EVar vMt) * EPow P2 (EVar vMuSUSY) * EPow P2 (EVar vs2t) * (#2 * (#1 - #2 * EVar vlmMst1 +
   #2 * EVar vlmMst2) * EPow P2 (EVar vMst2) * EPow P4 (EVar vMst1) + #2 * (#1 - EVar vlmMst1 + EVar vlmMst2) * EPow
   P2 (EVar vMst1) * EPow P4 (EVar vMst2) + (#2 - #6 * EVar vlmMst1 + #6 * EVar vlmMst2) * EPow P6 (EVar vMst1) + EPow
   P6 (EVar vMst2)) / EPow P2 (EVar vSbeta) + #4 * EPow P2 (EVar vMt) * EPow P2 (EVar vs2t) * (EPow P2 (EVar vMuSUSY)
   * EPow P6 (EVar vMst2) + #2 * (EPow P2 (EVar vMuSUSY) * ((#1 - #2 * EVar vlmMst1 + #2 * EVar vlmMst2) * EPow P2
   (EVar vMst2) * EPow P4 (EVar vMst1) + (#1 - EVar vlmMst1 + EVar vlmMst2) * EPow P2 (EVar vMst1) * EPow P4 (EVar
   vMst2) + (#1 - #3 * EVar vlmMst1 + #3 * EVar vlmMst2) * EPow P6 (EVar vMst1)) + EPow P8 (EVar vMst2))))) / (#12 *
   EPow P2 (EVar vMst1) * EPow P6 (EVar vMst2)) + EVar vMuSUSY * (EVar vMt * ((- ((- #1 + #2 * EVar vlmMst2) * EPow P2
   (EVar vMst2) * (- (EVar vs2t * EVar vshiftst3 * (#4 * EPow P2 (EVar vMt) + (#1 + EVar vlmMst1 - EVar vlmMst2) *
   EPow P2 (EVar vMst1) * EPow P2 (EVar vs2t))) + (#10 * EVar vshiftst1 + EVar vshiftst3) * EPow P2 (EVar vMst2) *
   EPow P3 (EVar vs2t))) / #3 - #10 * EVar vs2t * EVar vshiftst1 * ((#1 - #2 * EVar vlmMst2) * EPow P2 (EVar vMst2) *
   (#4 * EPow P2 (EVar vMst2) * EPow P2 (EVar vMt) - #2 * EPow P2 (EVar vMst1) * (#2 * EPow P2 (EVar vMt) + (- EVar
   vlmMst1 + EVar vlmMst2) * EPow P2 (EVar vMst2) * EPow P2 (EVar vs2t)) + EPow P2 (EVar vs2t) * EPow P4 (EVar vMst1))
   + EVar vDmsqst2 * (#3 - #2 * EVar vlmMst2) * (- #4 * EPow P2 (EVar vMst1) * EPow P2 (EVar vMt) + #4 * EPow P2 (EVar
   vMst2) * EPow P2 (EVar vMt) + #2 * (EVar vlmMst1 - EVar vlmMst2) * EPow P2 (EVar vMst1) * EPow P2 (EVar vMst2) *
   EPow P2 (EVar vs2t) + EPow P2 (EVar vs2t) * (EPow P4 (EVar vMst1) - EPow P4 (EVar vMst2)))) / (#3 * EPow P2 (EVar
   vMst2))) / EPow P2 (EVar vMst1) - EPow P3 (EVar vs2t) * (- (EPow P2 (EVar vMst2) * (#21005 + #1440 * EConst CB4 -
   #144 * EConst CD3 + #72 * EConst CDN + #21216 * EVar vlmMst1 + #1908 * EPow P2 (EVar vlmMst1) - #12 * EVar vlmMst2
   * (#2950 - #2040 * EVar vlmMst1 + #117 * EPow P2 (EVar vlmMst1)) + #108 * (- #283 + #98 * EVar vlmMst1) * EPow P2
   (EVar vlmMst2) + #576 * EPow P3 (EVar vlmMst1) - #9756 * EPow P3 (EVar vlmMst2) + (- #1080 * EVar vDmsqst2 * (#12 *
   EVar vDmglst2 + EVar vMgl - #2 * EVar vlmMst2 * EVar vMgl) / EPow P2 (EVar vMst1) - #2 * EVar vDmglst2 * (#14987 -
   #432 * EConst CB4 + #576 * EConst CD3 - #360 * EConst CDN + #4752 * EVar vlmMst1 - #1404 * EPow P2 (EVar vlmMst1) +
   #144 * EVar vlmMst2 * (- #81 - #124 * EVar vlmMst1 + #8 * EPow P2 (EVar vlmMst1)) + #36 * (#439 - #246 * EVar
   vlmMst1) * EPow P2 (EVar vlmMst2) + #7704 * EPow P3 (EVar vlmMst2))) / EVar vMgl)) / #324 + (#5 * EVar vDmsqst2 *
   (#144 * EVar vDmglst2 * (#5 + #2 * EVar vlmMst1 - #2 * EVar vlmMst2) + EVar vMgl * (- #1177 + #336 * EVar vlmMst2 +
   #48 * EVar vlmMst1 * (- #7 + #3 * EVar vlmMst2) - #144 * EPow P2 (EVar vlmMst2))) / #54 + EPow P2 (EVar vMst1) * (-
   #5 * EVar vMgl * (#4627751 + #48600 * EConst CB4 + #5400 * EConst CD3 - #5400 * EConst CDN + #1320240 * EVar
   vlmMst1 - #662400 * EPow P2 (EVar vlmMst1) - #30 * EVar vlmMst2 * (#12148 - #76560 * EVar vlmMst1 + #12105 * EPow
   P2 (EVar vlmMst1)) + #2250 * (- #583 + #438 * EVar vlmMst1) * EPow P2 (EVar vlmMst2) - #49500 * EPow P3 (EVar
   vlmMst1) - #572850 * EPow P3 (EVar vlmMst2)) + EVar vDmglst2 * (#5430043 + #524580 * EVar vlmMst2 + #900 * (- #859
   + #3690 * EVar vlmMst2) * EPow P2 (EVar vlmMst1) + #1454400 * EPow P2 (EVar vlmMst2) - #60 * EVar vlmMst1 * (#51493
   + #24630 * EVar vlmMst2 + #112950 * EPow P2 (EVar vlmMst2)) + #45000 * EPow P3 (EVar vlmMst1) + #3411000 * EPow P3
   (EVar vlmMst2))) / #60750) / EVar vMgl - (EDec 19390296838394383 14 - #61388401 * EVar vlmMst1 / #396900 + EVar
   vlmMst2 * (EDec 1473919148400101 13 + #302047 * EVar vlmMst1 / #945 - #514 * EPow P2 (EVar vlmMst1) / #9) - #152966
   * EPow P2 (EVar vlmMst1) / #945 - (EDec 15775767195767196 14 - #122 * EVar vlmMst1) * EPow P2 (EVar vlmMst2) - #70
   * EPow P3 (EVar vlmMst1) / #27 - #1682 * EPow P3 (EVar vlmMst2) / #27 - EVar vDmglst2 * (EDec 4077379592503276 13 +
   #2171669 * EVar vlmMst2 / #59535 + #2 * (#433 + #6552 * EVar vlmMst2) * EPow P2 (EVar vlmMst1) / #189 + #3974 *
   EPow P2 (EVar vlmMst2) / #189 - EVar vlmMst1 * (#2740559 + #1524600 * EVar vlmMst2 + #7514640 * EPow P2 (EVar
   vlmMst2)) / #59535 - #112 * EPow P3 (EVar vlmMst1) / #27 + #1648 * EPow P3 (EVar vlmMst2) / #27) / EVar vMgl) *
   EPow P4 (EVar vMst1) / EPow P2 (EVar vMst2) + ((EVar vMgl * (#119 + #218 * EVar vlmMst2 + #32 * EVar vlmMst1 * (#1
   + EVar vlmMst2) + #107 * EPow P2 (EVar vlmMst2)) + EVar vDmglst2 * (- #40 + (#460 + #64 * EVar vlmMst1) * EVar
   vlmMst2 + #310 * EPow P2 (EVar vlmMst2))) * EPow P4 (EVar vMst2) / (#9 * EPow P2 (EVar vMst1)) + (- (EVar vDmsqst2
   * EPow P2 (EVar vMst1) * (#2315250 * EVar vDmglst2 * ((#419 - #57 * EVar vlmMst1 + #57 * EVar vlmMst2) * EPow P2
   (EVar vMst1) + #9 * (#55 - #34 * EVar vlmMst1 + #34 * EVar vlmMst2) * EPow P2 (EVar vMst2)) + EVar vMgl *
   ((#222209689 + #285243840 * EVar vlmMst2 + #1260 * EVar vlmMst1 * (- #226384 + #172935 * EVar vlmMst2) - #108949050
   * EPow P2 (EVar vlmMst1) - #108949050 * EPow P2 (EVar vlmMst2)) * EPow P2 (EVar vMst1) - #6174 * (- #97294 + #17235
   * EVar vlmMst2 - #45 * EVar vlmMst1 * (#233 + #330 * EVar vlmMst2) + #7425 * EPow P2 (EVar vlmMst1) + #7425 * EPow
   P2 (EVar vlmMst2)) * EPow P2 (EVar vMst2)))) / #6251175 + #4 * EConst COepS2 * (#60 * EVar vDmsqst2 * EVar vMgl *
   (#90 * EPow P2 (EVar vMst1) * EPow P2 (EVar vMst2) + #104 * EPow P4 (EVar vMst1) + #27 * EPow P4 (EVar vMst2)) +
   EPow P2 (EVar vMst2) * (- #4 * EVar vDmglst2 * (#2133 * EPow P2 (EVar vMst1) * EPow P2 (EVar vMst2) + #6332 * EPow
   P4 (EVar vMst1) + #189 * EPow P4 (EVar vMst2)) + #3 * EVar vMgl * (#5100 * EPow P2 (EVar vMst1) * EPow P2 (EVar
   vMst2) + #6895 * EPow P4 (EVar vMst1) + #1242 * EPow P4 (EVar vMst2)))) / #2187 - EConst CS2 * (#30 * EVar vDmsqst2
   * EVar vMgl * (#18 * (#59 + #30 * EVar vlmMst1 - #30 * EVar vlmMst2) * EPow P2 (EVar vMst1) * EPow P2 (EVar vMst2)
   + #4 * (#347 + #156 * EVar vlmMst1 - #156 * EVar vlmMst2) * EPow P4 (EVar vMst1) + #81 * (- #15 + #2 * EVar vlmMst1
   - #2 * EVar vlmMst2) * EPow P4 (EVar vMst2)) + EPow P2 (EVar vMst2) * (#3 * EVar vMgl * (#180 * (#424 + #85 * EVar
   vlmMst1 - #85 * EVar vlmMst2) * EPow P2 (EVar vMst1) * EPow P2 (EVar vMst2) + #35 * (#2662 + #591 * EVar vlmMst1 -
   #591 * EVar vlmMst2) * EPow P4 (EVar vMst1) + #81 * (#307 + #46 * EVar vlmMst1 - #46 * EVar vlmMst2) * EPow P4
   (EVar vMst2)) + EVar vDmglst2 * (#18 * (#16193 - #1422 * EVar vlmMst1 + #1422 * EVar vlmMst2) * EPow P2 (EVar
   vMst1) * EPow P2 (EVar vMst2) + (#188204 - #75984 * EVar vlmMst1 + #75984 * EVar vlmMst2) * EPow P4 (EVar vMst1) +
   #162 * (#1677 - #14 * EVar vlmMst1 + #14 * EVar vlmMst2) * EPow P4 (EVar vMst2)))) / #81) / EPow P4 (EVar vMst2) -
   #16 * (#1 + EVar vlmMst2) * (#4 * EVar vDmglst2 * EVar vlmMst2 + EVar vMgl + EVar vlmMst2 * EVar vMgl) * EPow P6
   (EVar vMst2) / (#9 * EPow P4 (EVar vMst1))) / EVar vMgl) + (#6 * EVar vMgl * EConst CT1ep * (#27 * EPow P4 (EVar
   vMst2) * (- #40 * EVar vDmsqst2 * EVar vs2t * EPow P2 (EVar vMt) - #21 * EVar vMt * EPow P2 (EVar vs2t) * EPow P3
   (EVar vMst2) + #28 * EVar vMst2 * EPow P3 (EVar vMt) + EPow P2 (EVar vMst2) * (- #106 * EVar vs2t * EPow P2 (EVar
   vMt) + #20 * EVar vDmsqst2 * EPow P3 (EVar vs2t)) + #46 * EPow P3 (EVar vs2t) * EPow P4 (EVar vMst2)) + #3 * EPow
   P2 (EVar vMst1) * EPow P2 (EVar vMst2) * (- #600 * EVar vDmsqst2 * EVar vs2t * EPow P2 (EVar vMt) - #627 * EVar vMt
   * EPow P2 (EVar vs2t) * EPow P3 (EVar vMst2) + #1760 * EVar vMst2 * EPow P3 (EVar vMt) + EPow P2 (EVar vMst2) * (-
   #3470 * EVar vs2t * EPow P2 (EVar vMt) + #600 * EVar vDmsqst2 * EPow P3 (EVar vs2t)) + #1700 * EPow P3 (EVar vs2t)
   * EPow P4 (EVar vMst2)) + EPow P4 (EVar vMst1) * (- #2120 * EVar vDmsqst2 * EVar vs2t * EPow P2 (EVar vMt) - #3198
   * EVar vMt * EPow P2 (EVar vs2t) * EPow P3 (EVar vMst2) + #16240 * EVar vMst2 * EPow P3 (EVar vMt) - #4 * EPow P2
   (EVar vMst2) * (#6031 * EVar vs2t * EPow P2 (EVar vMt) - #520 * EVar vDmsqst2 * EPow P3 (EVar vs2t)) + #6895 * EPow
   P3 (EVar vs2t) * EPow P4 (EVar vMst2))) - #2 * EVar vDmglst2 * EVar vMst2 * EConst CT1ep * (#27 * EPow P2 (EVar
   vMst1) * EPow P2 (EVar vMst2) * (- #800 * EVar vMst2 * EVar vs2t * EPow P2 (EVar vMt) - #907 * EVar vMt * EPow P2
   (EVar vMst2) * EPow P2 (EVar vs2t) + #1984 * EPow P3 (EVar vMt) + #316 * EPow P3 (EVar vMst2) * EPow P3 (EVar
   vs2t)) + #2 * (- #66168 * EVar vMst2 * EVar vs2t * EPow P2 (EVar vMt) - #35601 * EVar vMt * EPow P2 (EVar vMst2) *
   EPow P2 (EVar vs2t) + #129704 * EPow P3 (EVar vMt) + #12664 * EPow P3 (EVar vMst2) * EPow P3 (EVar vs2t)) * EPow P4
   (EVar vMst1) + #189 * (#20 * EPow P3 (EVar vMt) * EPow P4 (EVar vMst2) - #15 * EVar vMt * EPow P2 (EVar vs2t) *
   EPow P6 (EVar vMst2) + #4 * EPow P3 (EVar vs2t) * EPow P7 (EVar vMst2)))) / (#729 * EVar vMgl * EPow P6 (EVar
   vMst2))) + EPow P2 (EVar vMt) * (#34300 * EVar vMst2 * EPow P2 (EVar vMst1) * EPow P2 (EVar vMt) * (- (EVar
   vDmglst2 * (#216 * EPow P2 (EVar vMst2) * (#97837 + #71580 * EVar vlmMt - #9920 * EConst COepS2 + #43272 * EConst
   CS2 - #360 * (#23 + #8 * EVar vlmMst2 - #4 * EVar vlmMt) * EPow P2 (EVar vlmMst1) + #720 * (#97 + #2 * EVar vlmMt)
   * EPow P2 (EVar vlmMst2) - #8640 * EPow P2 (EVar vlmMt) - #30 * EVar vlmMst2 * (- #2911 + #396 * EVar vlmMt + #6696
   * EConst CS2 + #144 * EPow P2 (EVar vlmMt)) + #10 * EVar vlmMst1 * (- #6157 + #642 * EVar vlmMt - #6 * EVar vlmMst2
   * (#791 + #48 * EVar vlmMt) + #20088 * EConst CS2 + #882 * EPow P2 (EVar vlmMst2) + #432 * EPow P2 (EVar vlmMt)) -
   #5940 * EPow P3 (EVar vlmMst2)) * EPow P4 (EVar vMst1) - #129600 * EVar vDmsqst2 * ((#101 - #90 * EVar vlmMst1 +
   #177 * EVar vlmMst2 - #87 * EVar vlmMt) * EPow P2 (EVar vMst1) * EPow P2 (EVar vMst2) + (#497 - #306 * EVar vlmMst1
   + #609 * EVar vlmMst2 - #303 * EVar vlmMt) * EPow P4 (EVar vMst1)) + #135 * EPow P2 (EVar vMst1) * (#57495 + #45408
   * EVar vlmMt - #1120 * EConst COepS2 - #43740 * EConst CS2 - #8 * EVar vlmMst2 * (- #6952 + #588 * EVar vlmMt +
   #2835 * EConst CS2) + #2304 * (- #1 + EVar vlmMst2) * EPow P2 (EVar vlmMst1) + #96 * (#79 + #48 * EVar vlmMt) *
   EPow P2 (EVar vlmMst2) + #72 * EVar vlmMst1 * (- #88 + #64 * EVar vlmMt - #8 * EVar vlmMst2 * (#9 + #8 * EVar
   vlmMt) + #315 * EConst CS2 + #164 * EPow P2 (EVar vlmMst2)) - #14112 * EPow P3 (EVar vlmMst2)) * EPow P4 (EVar
   vMst2) + #20 * (#5659217 + #1592460 * EVar vlmMt - #518816 * EConst COepS2 + #9976392 * EConst CS2 - #972 * (#569 +
   #180 * EVar vlmMst2 - #126 * EVar vlmMt) * EPow P2 (EVar vlmMst1) + #324 * (#5353 + #126 * EVar vlmMt) * EPow P2
   (EVar vlmMst2) - #186624 * EPow P2 (EVar vlmMt) + #72 * EVar vlmMst1 * (- #27653 - #3015 * EVar vlmMt - #18 * EVar
   vlmMst2 * (#689 + #126 * EVar vlmMt) + #145917 * EConst CS2 + #2160 * EPow P2 (EVar vlmMst2) + #2592 * EPow P2
   (EVar vlmMt)) - #36 * EVar vlmMst2 * (- #39031 - #3204 * EVar vlmMt + #291834 * EConst CS2 + #5184 * EPow P2 (EVar
   vlmMt)) + #1944 * EPow P3 (EVar vlmMst1) + #17496 * EPow P3 (EVar vlmMst2)) * EPow P6 (EVar vMst1) - #622080 * (-
   #1 + #2 * EVar vlmMst2 + #3 * EPow P2 (EVar vlmMst2)) * EPow P6 (EVar vMst2))) + #3 * EVar vMgl * (#48 * EPow P2
   (EVar vMst2) * (#110219 - #1080 * EVar vlmMt - #4400 * EConst COepS2 + #74034 * EConst CS2 + #540 * (- #15 + #4 *
   EVar vlmMt) * EPow P2 (EVar vlmMst1) + #810 * (#121 - #8 * EVar vlmMt) * EPow P2 (EVar vlmMst2) - #135 * EVar
   vlmMst1 * (#337 + EVar vlmMst2 * (#588 - #32 * EVar vlmMt) - #132 * EVar vlmMt - #660 * EConst CS2 + #194 * EPow P2
   (EVar vlmMst2) - #48 * EPow P2 (EVar vlmMt)) - #6480 * EPow P2 (EVar vlmMt) - #405 * EVar vlmMst2 * (#31 + #54 *
   EVar vlmMt + #220 * EConst CS2 + #16 * EPow P2 (EVar vlmMt)) + #26190 * EPow P3 (EVar vlmMst2)) * EPow P4 (EVar
   vMst1) + #388800 * EVar vDmsqst2 * ((#5 + #2 * EVar vlmMst1 - #5 * EVar vlmMst2 + #3 * EVar vlmMt) * EPow P2 (EVar
   vMst1) * EPow P2 (EVar vMst2) + (#1 + #6 * EVar vlmMst1 - #13 * EVar vlmMst2 + #7 * EVar vlmMt) * EPow P4 (EVar
   vMst1)) + #27 * EPow P2 (EVar vMst1) * (#56439 - #24000 * EVar vlmMt - #1120 * EConst COepS2 - #25596 * EConst CS2
   - #360 * EVar vlmMst2 * (- #12 + #44 * EVar vlmMt + #63 * EConst CS2) - #3840 * (#1 + EVar vlmMst2) * EPow P2 (EVar
   vlmMst1) + #480 * (#163 - #16 * EVar vlmMt) * EPow P2 (EVar vlmMst2) - #120 * EVar vlmMst1 * (#184 + #8 * EVar
   vlmMst2 * (#57 - #8 * EVar vlmMt) - #64 * EVar vlmMt - #189 * EConst CS2 + #164 * EPow P2 (EVar vlmMst2)) - #11520
   * EPow P2 (EVar vlmMt) + #23520 * EPow P3 (EVar vlmMst2)) * EPow P4 (EVar vMst2) + #20 * (#678923 + #19440 * EVar
   vlmMt - #32480 * EConst COepS2 + #881712 * EConst CS2 + #108 * (- #457 + #12 * EVar vlmMst2 + #126 * EVar vlmMt) *
   EPow P2 (EVar vlmMst1) + #540 * (#661 - #30 * EVar vlmMt) * EPow P2 (EVar vlmMst2) - #108 * EVar vlmMst1 * (#1841 +
   EVar vlmMst2 * (#2626 - #24 * EVar vlmMt) - #420 * EVar vlmMt - #6090 * EConst CS2 + #840 * EPow P2 (EVar vlmMst2)
   - #288 * EPow P2 (EVar vlmMt)) - #15552 * EPow P2 (EVar vlmMt) - #108 * EVar vlmMst2 * (#619 + #498 * EVar vlmMt +
   #6090 * EConst CS2 + #288 * EPow P2 (EVar vlmMt)) + #216 * EPow P3 (EVar vlmMst1) + #89208 * EPow P3 (EVar
   vlmMst2)) * EPow P6 (EVar vMst1) + #207360 * EPow P2 (#1 + EVar vlmMst2) * EPow P6 (EVar vMst2))) - #25725 * EVar
   vMst2 * EPow P2 (EVar vMst1) * EPow P2 (EVar vs2t) * (EVar vDmglst2 * (#9 * (#195293 + #639360 * EConst CB4 - #8640
   * EConst CDN - #709200 * EVar vlmMst1 + #145120 * EConst COepS2 - #108 * (#23989 + #27210 * EVar vlmMst1 - #27210 *
   EVar vlmMst2) * EConst CS2 + #60480 * EPow P2 (EVar vlmMst1) + #720 * EVar vlmMst2 * (#2149 - #1296 * EVar vlmMst1
   + #96 * EPow P2 (EVar vlmMst1)) - #8640 * (- #101 + #105 * EVar vlmMst1) * EPow P2 (EVar vlmMst2) + #838080 * EPow
   P3 (EVar vlmMst2)) * EPow P4 (EVar vMst1) * EPow P4 (EVar vMst2) - #2 * EPow P2 (EVar vMst2) * (#15069803 -
   #2877120 * EConst CB4 + #38880 * EConst CDN + #6325200 * EVar vlmMst1 - #1898720 * EConst COepS2 + #108 * (#525961
   + #356010 * EVar vlmMst1 - #356010 * EVar vlmMst2) * EConst CS2 + #447120 * EPow P2 (EVar vlmMst1) - #360 * EVar
   vlmMst2 * (#28667 - #5238 * EVar vlmMst1 + #3024 * EPow P2 (EVar vlmMst1)) + #38880 * (- #60 + #157 * EVar vlmMst1)
   * EPow P2 (EVar vlmMst2) - #155520 * EPow P3 (EVar vlmMst1) - #4860000 * EPow P3 (EVar vlmMst2)) * EPow P6 (EVar
   vMst1) + #583200 * EVar vDmsqst2 * (#40 * (#1 - EVar vlmMst1 + EVar vlmMst2) * EPow P2 (EVar vMst2) * EPow P4 (EVar
   vMst1) - #4 * (#2 + #5 * EVar vlmMst1 - #5 * EVar vlmMst2) * EPow P2 (EVar vMst1) * EPow P4 (EVar vMst2) + (#80 -
   #43 * EVar vlmMst1 + #43 * EVar vlmMst2) * EPow P6 (EVar vMst1)) + #27 * EPow P2 (EVar vMst1) * (#46957 + #188640 *
   EConst CB4 - #3600 * EConst CDN - #37440 * EVar vlmMst1 + #5600 * EConst COepS2 - #324 * (- #453 + #350 * EVar
   vlmMst1 - #350 * EVar vlmMst2) * EConst CS2 + #11520 * EPow P2 (EVar vlmMst1) - #2880 * EVar vlmMst2 * (- #221 +
   #55 * EVar vlmMst1 + #4 * EPow P2 (EVar vlmMst1)) - #1440 * (- #232 + #121 * EVar vlmMst1) * EPow P2 (EVar vlmMst2)
   + #185760 * EPow P3 (EVar vlmMst2)) * EPow P6 (EVar vMst2) + #622080 * (- #1 + #2 * EVar vlmMst2 + #3 * EPow P2
   (EVar vlmMst2)) * EPow P8 (EVar vMst2)) + #15 * EVar vMgl * (#3 * (#346405 + #62208 * EConst CB4 + #246672 * EVar
   vlmMst2 - #6688 * EConst COepS2 - #324 * (- #685 + #418 * EVar vlmMst2) * EConst CS2 + #1728 * (- #7 + #8 * EVar
   vlmMst2) * EPow P2 (EVar vlmMst1) + #323136 * EPow P2 (EVar vlmMst2) - #216 * EVar vlmMst1 * (#990 + #1440 * EVar
   vlmMst2 - #627 * EConst CS2 + #584 * EPow P2 (EVar vlmMst2)) + #112320 * EPow P3 (EVar vlmMst2)) * EPow P4 (EVar
   vMst1) * EPow P4 (EVar vMst2) - #38880 * EVar vDmsqst2 * EPow P2 (EVar vMst1) * (#8 * (- EVar vlmMst1 + EVar
   vlmMst2) * EPow P2 (EVar vMst1) * EPow P2 (EVar vMst2) + (#4 - #9 * EVar vlmMst1 + #9 * EVar vlmMst2) * EPow P4
   (EVar vMst1) - #4 * (#1 + EVar vlmMst1 - EVar vlmMst2) * EPow P4 (EVar vMst2)) + #2 * EPow P2 (EVar vMst2) *
   (#795601 + #93312 * EConst CB4 + #365040 * EVar vlmMst2 - #17056 * EConst COepS2 + #663444 * EConst CS2 - #345384 *
   EVar vlmMst2 * EConst CS2 + #432 * (#163 + #264 * EVar vlmMst2) * EPow P2 (EVar vlmMst1) + #592704 * EPow P2 (EVar
   vlmMst2) - #216 * EVar vlmMst1 * (#1609 + #3070 * EVar vlmMst2 - #1599 * EConst CS2 + #1692 * EPow P2 (EVar
   vlmMst2)) - #3456 * EPow P3 (EVar vlmMst1) + #254880 * EPow P3 (EVar vlmMst2)) * EPow P6 (EVar vMst1) + #27 * EPow
   P2 (EVar vMst1) * (#27147 + #5280 * EConst CB4 - #48 * EConst CDN - #5952 * EVar vlmMst1 - #224 * EConst COepS2 +
   #324 * (- #1 + #14 * EVar vlmMst1 - #14 * EVar vlmMst2) * EConst CS2 - #768 * EPow P2 (EVar vlmMst1) - #192 * EVar
   vlmMst2 * (- #198 + #73 * EVar vlmMst1 + #4 * EPow P2 (EVar vlmMst1)) - #288 * (- #84 + #19 * EVar vlmMst1) * EPow
   P2 (EVar vlmMst2) + #6240 * EPow P3 (EVar vlmMst2)) * EPow P6 (EVar vMst2) + #41472 * EPow P2 (#1 + EVar vlmMst2) *
   EPow P8 (EVar vMst2))) - #6 * EVar vMt * EVar vs2t * (- #20 * EVar vDmsqst2 * EPow P2 (EVar vMst1) * (#27783000 *
   EVar vDmglst2 * EPow P2 (EVar vMst2) * (#82 * EPow P2 (EVar vMst1) * EPow P2 (EVar vMst2) + (#195 - #6 * EVar
   vlmMst1 + #6 * EVar vlmMst2) * EPow P4 (EVar vMst1) + #36 * EPow P4 (EVar vMst2)) + EVar vMgl * (- #3087 * (#339977
   - #20000 * EConst COepS2 + #1080 * EVar vlmMst2 * (#89 - #375 * EConst CS2) + #1714500 * EConst CS2 + #1080 * EVar
   vlmMst1 * (- #89 + #60 * EVar vlmMst2 + #375 * EConst CS2) - #32400 * (EPow P2 (EVar vlmMst1) + EPow P2 (EVar
   vlmMst2))) * EPow P2 (EVar vMst2) * EPow P4 (EVar vMst1) - #1157625 * (#1101 - #32 * EConst COepS2 + #2916 * EConst
   CS2 + #24 * EVar vlmMst1 * (#4 + #27 * EConst CS2) - #24 * EVar vlmMst2 * (#10 + #27 * EConst CS2)) * EPow P2 (EVar
   vMst1) * EPow P4 (EVar vMst2) - (#1094369501 - #72716000 * EConst COepS2 + #2520 * EVar vlmMst2 * (#235453 -
   #584325 * EConst CS2) + #5940931500 * EConst CS2 + #2520 * EVar vlmMst1 * (- #235453 + #114345 * EVar vlmMst2 +
   #584325 * EConst CS2) - #144074700 * (EPow P2 (EVar vlmMst1) + EPow P2 (EVar vlmMst2))) * EPow P6 (EVar vMst1) +
   #83349000 * (#1 - #2 * EVar vlmMst2) * EPow P6 (EVar vMst2))) + EPow P2 (EVar vMst2) * (#12 * EVar vDmglst2 *
   (#617400 * (#12454 - #120 * EConst CB4 + #120 * EConst CD3 - #60 * EConst CDN + #690 * EVar vlmMst1 - #17091 *
   EConst CS2 + #345 * EPow P2 (EVar vlmMst1) - #5 * EVar vlmMst2 * (- #3121 + #42 * EVar vlmMst1 + #96 * EPow P2
   (EVar vlmMst1)) + (#3630 - #480 * EVar vlmMst1) * EPow P2 (EVar vlmMst2) + #960 * EPow P3 (EVar vlmMst2)) * EPow P4
   (EVar vMst1) * EPow P4 (EVar vMst2) + #2744 * EPow P2 (EVar vMst2) * (#3856958 - #27000 * EConst CB4 + #27000 *
   EConst CD3 - #13500 * EConst CDN + #1270770 * EVar vlmMst1 + #162000 * (- #2 + EVar vlmMst1 - EVar vlmMst2) * EVar
   vlmMt + #150000 * EConst COepS2 - #30375 * (#139 + #100 * EVar vlmMst1 - #100 * EVar vlmMst2) * EConst CS2 + #900 *
   EPow P2 (EVar vlmMst1) - #30 * EVar vlmMst2 * (- #153166 + #17835 * EVar vlmMst1 + #3375 * EPow P2 (EVar vlmMst1))
   - #450 * (- #2627 + #1695 * EVar vlmMst1) * EPow P2 (EVar vlmMst2) - #2250 * EPow P3 (EVar vlmMst1) + #866250 *
   EPow P3 (EVar vlmMst2)) * EPow P6 (EVar vMst1) - #9261000 * (- #52 + #2 * (#51 + #16 * EVar vlmMst1) * EVar vlmMst2
   + #59 * EPow P2 (EVar vlmMst2)) * EPow P2 (EVar vMst1) * EPow P6 (EVar vMst2) + #5 * (#1297790971 - #14817600 *
   EConst CB4 + #14817600 * EConst CD3 - #7408800 * EConst CDN + #3134593140 * EVar vlmMst1 + #504347200 * EConst
   COepS2 - #740880 * (#17269 + #13785 * EVar vlmMst1 - #13785 * EVar vlmMst2) * EConst CS2 + #426711600 * EPow P2
   (EVar vlmMst1) + #420 * EVar vlmMst2 * (#2917823 - #3813600 * EVar vlmMst1 + #97020 * EPow P2 (EVar vlmMst1)) -
   #176400 * (- #8677 + #5439 * EVar vlmMst1) * EPow P2 (EVar vlmMst2) - #88905600 * EVar vlmMt * (#4 + #6 * EVar
   vlmMst2 - #2 * EVar vlmMst1 * (#3 + EVar vlmMst2) + EPow P2 (EVar vlmMst1) + EPow P2 (EVar vlmMst2)) - #3704400 *
   EPow P3 (EVar vlmMst1) + #922395600 * EPow P3 (EVar vlmMst2)) * EPow P8 (EVar vMst1) + #296352000 * EVar vlmMst2 *
   (#1 + EVar vlmMst2) * EPow P8 (EVar vMst2)) + EVar vMgl * (#77175 * (#979423 + #2880 * EConst CD3 - #2880 * EConst
   CDN + #73680 * EVar vlmMst1 + #34560 * EVar vlmMt - #25440 * EConst COepS2 + #972 * (- #141 + #530 * EVar vlmMst1 -
   #530 * EVar vlmMst2) * EConst CS2 + #44640 * EPow P2 (EVar vlmMst1) - #240 * EVar vlmMst2 * (- #1901 + #6 * EVar
   vlmMst1 + #117 * EPow P2 (EVar vlmMst1)) + #720 * (#207 + #16 * EVar vlmMst1) * EPow P2 (EVar vlmMst2) + #11520 *
   EPow P3 (EVar vlmMst1) + #5040 * EPow P3 (EVar vlmMst2)) * EPow P4 (EVar vMst1) * EPow P4 (EVar vMst2) + #5145 *
   EPow P2 (EVar vMst2) * (#19425643 + #518400 * EVar vlmMt - #1388000 * EConst COepS2 + #120 * EVar vlmMst2 *
   (#165994 + #8640 * EVar vlmMt - #234225 * EConst CS2) + #27723060 * EConst CS2 - #3600 * (#683 + #96 * EVar
   vlmMst2) * EPow P2 (EVar vlmMst1) + #5684400 * EPow P2 (EVar vlmMst2) - #120 * EVar vlmMst1 * (#84094 + #9600 *
   EVar vlmMst2 + #8640 * EVar vlmMt - #234225 * EConst CS2 + #12780 * EPow P2 (EVar vlmMst2)) - #295200 * EPow P3
   (EVar vlmMst1) + #2174400 * EPow P3 (EVar vlmMst2)) * EPow P6 (EVar vMst1) - #55566000 * (#71 + #122 * EVar vlmMst2
   + #32 * EVar vlmMst1 * (#1 + EVar vlmMst2) + #59 * EPow P2 (EVar vlmMst2)) * EPow P2 (EVar vMst1) * EPow P6 (EVar
   vMst2) + (#149949681779 + #2667168000 * EVar vlmMt - #16549064000 * EConst COepS2 + #1260 * EVar vlmMst2 *
   (#141677449 + #8467200 * EVar vlmMt - #265967100 * EConst CS2) + #512266658400 * EConst CS2 - #264600 * (#90913 +
   #36750 * EVar vlmMst2 - #10080 * EVar vlmMt) * EPow P2 (EVar vlmMst1) + #264600 * (#189227 + #10080 * EVar vlmMt) *
   EPow P2 (EVar vlmMst2) - #1260 * EVar vlmMst1 * (#99165049 + #8467200 * EVar vlmMt + #420 * EVar vlmMst2 * (#28997
   + #10080 * EVar vlmMt) - #265967100 * EConst CS2 + #6306300 * EPow P2 (EVar vlmMst2)) + #240786000 * EPow P3 (EVar
   vlmMst1) + #17429202000 * EPow P3 (EVar vlmMst2)) * EPow P8 (EVar vMst1) + #889056000 * EPow P2 (#1 + EVar vlmMst2)
   * EPow P8 (EVar vMst2))))) / (#750141000 * EVar vMgl * EPow P4 (EVar vMst1) * EPow P6 (EVar vMst2))) / EVar vTbeta)
   - EVar vAl4p * (EVar vtwoLoopFlag * (- #72 * EVar vMt * EPow P3 (EVar vs2t) * (- (EVar vMgl * (#4 * (#3 + EVar
   vlmMst1 * (#2 + EVar vlmMst2) - EPow P2 (EVar vlmMst2)) * EPow P2 (EVar vMst1) * EPow P2 (EVar vMst2) + (#3 + #2 *
   EVar vlmMst1 - #2 * EVar vlmMst2) * EPow P4 (EVar vMst1) + #4 * (- #4 + EVar vlmMst1 - #3 * EVar vlmMst2 + EVar
   vlmMst1 * EVar vlmMst2 - EPow P2 (EVar vlmMst2)) * EPow P4 (EVar vMst2))) + EVar vDmglst2 * (- #4 * (#1 + EVar
   vlmMst1 * (- #2 + EVar vlmMst2) + #4 * EVar vlmMst2 - EPow P2 (EVar vlmMst2)) * EPow P2 (EVar vMst1) * EPow P2
   (EVar vMst2) + (#1 + #6 * EVar vlmMst1 - #6 * EVar vlmMst2) * EPow P4 (EVar vMst1) + #4 * (#6 + EVar vlmMst1 + EVar
   vlmMst2 - EVar vlmMst1 * EVar vlmMst2 + EPow P2 (EVar vlmMst2)) * EPow P4 (EVar vMst2))) / EVar vMst2 + #32 * EPow
   P4 (EVar vMt) * (#2 * EVar vDmglst2 * ((#53 - #18 * EVar vlmMst1 + #24 * EVar vlmMst2 - #24 * EVar vlmMt) * EPow P2
   (EVar vMst1) * EPow P4 (EVar vMst2) + #18 * ((#5 + EVar vlmMst2 * (#11 - #2 * EVar vlmMt) - #2 * EVar vlmMst1 * (#4
   + EVar vlmMst2 - EVar vlmMt) - #3 * EVar vlmMt + #2 * EPow P2 (EVar vlmMst2)) * EPow P2 (EVar vMst2) * EPow P4
   (EVar vMst1) + (#3 - #6 * EVar vlmMst2 * (- #5 + EVar vlmMt) - #5 * EVar vlmMt + EVar vlmMst1 * (- #25 - #6 * EVar
   vlmMst2 + #6 * EVar vlmMt) + #6 * EPow P2 (EVar vlmMst2)) * EPow P6 (EVar vMst1)) - #18 * EVar vlmMst2 * EPow P6
   (EVar vMst2)) + #9 * EVar vMgl * (#2 * (#2 + #2 * EVar vlmMst1 * (#3 + EVar vlmMst2 - EVar vlmMt) + EVar vlmMt +
   EVar vlmMst2 * (- #7 + #2 * EVar vlmMt) - #2 * EPow P2 (EVar vlmMst2)) * EPow P2 (EVar vMst2) * EPow P4 (EVar
   vMst1) + (#3 + #2 * EVar vlmMst1 * (#3 + EVar vlmMst2) + EVar vlmMt + EVar vlmMst2 * (- #5 + #4 * EVar vlmMt) +
   EPow P2 (EVar vlmMst1) - EPow P2 (EVar vlmMst2) - #6 * EPow P2 (EVar vlmMt)) * EPow P2 (EVar vMst1) * EPow P4 (EVar
   vMst2) + (#9 + EVar vlmMst1 * (#22 + #6 * EVar vlmMst2 - #6 * EVar vlmMt) + #6 * EVar vlmMst2 * (- #4 + EVar vlmMt)
   + #2 * EVar vlmMt - #6 * EPow P2 (EVar vlmMst2)) * EPow P6 (EVar vMst1) - #2 * (#1 + EVar vlmMst2) * EPow P6 (EVar
   vMst2))) / (EPow P2 (EVar vMst1) * EPow P4 (EVar vMst2)) - #144 * EVar vs2t * EPow P3 (EVar vMt) * (EVar vDmglst2 *
   (#4 * EPow P2 (EVar vMst1) * EPow P2 (EVar vMst2) * ((#6 + #13 * EVar vlmMst2 - #4 * EVar vlmMt - #2 * EVar vlmMst2
   * EVar vlmMt + EVar vlmMst1 * (- #9 - #2 * EVar vlmMst2 + #2 * EVar vlmMt) + #2 * EPow P2 (EVar vlmMst2)) * EPow P2
   (EVar vMst2) + (- #11 + #2 * EVar vlmMst2 + EVar vlmMst1 * (- #4 + #3 * EVar vlmMst2) - #3 * EPow P2 (EVar
   vlmMst2)) * EPow P2 (EVar vMuSUSY)) - (#4 * (#1 - #29 * EVar vlmMst2 + EVar vlmMst1 * (#25 + #6 * EVar vlmMst2 - #6
   * EVar vlmMt) + #4 * EVar vlmMt + #6 * EVar vlmMst2 * EVar vlmMt - #6 * EPow P2 (EVar vlmMst2)) * EPow P2 (EVar
   vMst2) + (#65 + EVar vlmMst1 * (#34 - #20 * EVar vlmMst2) - #26 * EVar vlmMst2 + #20 * EPow P2 (EVar vlmMst2)) *
   EPow P2 (EVar vMuSUSY)) * EPow P4 (EVar vMst1) - #4 * (#6 + EVar vlmMst1 + EVar vlmMst2 - EVar vlmMst1 * EVar
   vlmMst2 + EPow P2 (EVar vlmMst2)) * EPow P2 (EVar vMuSUSY) * EPow P4 (EVar vMst2) + #8 * (#5 + EVar vlmMst1 * (- #1
   + EVar vlmMst2) + EVar vlmMst2 - EPow P2 (EVar vlmMst2)) * EPow P6 (EVar vMst2)) + EVar vMgl * ((#4 * (#5 - #7 *
   EVar vlmMst2 + EVar vlmMst1 * (#7 + #2 * EVar vlmMst2 - #2 * EVar vlmMt) + #2 * EVar vlmMst2 * EVar vlmMt - #2 *
   EPow P2 (EVar vlmMst2)) * EPow P2 (EVar vMst2) + (- #21 - #38 * EVar vlmMst2 + #10 * EVar vlmMst1 * (#3 + #2 * EVar
   vlmMst2) - #20 * EPow P2 (EVar vlmMst2)) * EPow P2 (EVar vMuSUSY)) * EPow P4 (EVar vMst1) + #4 * ((- #4 + EVar
   vlmMst1 - #3 * EVar vlmMst2 + EVar vlmMst1 * EVar vlmMst2 - EPow P2 (EVar vlmMst2)) * EPow P2 (EVar vMuSUSY) * EPow
   P4 (EVar vMst2) + EPow P2 (EVar vMst1) * ((- #5 - #6 * EVar vlmMst2 + EVar vlmMst1 * (#4 + #3 * EVar vlmMst2) - #3
   * EPow P2 (EVar vlmMst2)) * EPow P2 (EVar vMst2) * EPow P2 (EVar vMuSUSY) + (#4 - #5 * EVar vlmMst2 + EVar vlmMst1
   * (#5 + #2 * EVar vlmMst2 - #2 * EVar vlmMt) + #2 * EVar vlmMst2 * EVar vlmMt - #2 * EPow P2 (EVar vlmMst2)) * EPow
   P4 (EVar vMst2)) + (#3 - #4 * EVar vlmMst2 + #2 * (EVar vlmMst1 + EVar vlmMst1 * EVar vlmMst2 + EVar vlmMt) - #2 *
   EPow P2 (EVar vlmMst2)) * EPow P6 (EVar vMst2)))) / EPow P5 (EVar vMst2) + #36 * EVar vMt * EVar vMuSUSY * (#16 *
   EPow P3 (EVar vMt) * (EVar vMgl * (#13 + #2 * EVar vlmMst1 * (#6 + #3 * EVar vlmMst2 - #2 * EVar vlmMt) + #2 * EVar
   vlmMt + #2 * EVar vlmMst2 * (- #7 + #2 * EVar vlmMt) - #6 * EPow P2 (EVar vlmMst2)) * EPow P4 (EVar vMst1) + EVar
   vDmglst2 * (#11 - #6 * EVar vlmMst1 * EVar vlmMst2 - #8 * EVar vlmMst2 * (- #5 + EVar vlmMt) + #8 * EVar vlmMst1 *
   (- #4 + EVar vlmMt) - #8 * EVar vlmMt + #6 * EPow P2 (EVar vlmMst2)) * EPow P4 (EVar vMst1) + #2 * EVar vDmglst2 *
   ((#7 + #7 * EVar vlmMst2 + EVar vlmMst1 * (- #5 + EVar vlmMt) - #2 * EVar vlmMt - EVar vlmMst2 * EVar vlmMt) * EPow
   P2 (EVar vMst1) * EPow P2 (EVar vMst2) + (#5 + EVar vlmMst1 * (- #1 + EVar vlmMst2) + EVar vlmMst2 - EPow P2 (EVar
   vlmMst2)) * EPow P4 (EVar vMst2)) + #2 * EVar vMgl * ((#4 + EVar vlmMst1 * (#3 + #2 * EVar vlmMst2 - EVar vlmMt) +
   EVar vlmMst2 * (- #4 + EVar vlmMt) + EVar vlmMt - #2 * EPow P2 (EVar vlmMst2)) * EPow P2 (EVar vMst1) * EPow P2
   (EVar vMst2) + (#2 + EVar vlmMst1 + (- #2 + EVar vlmMst1) * EVar vlmMst2 + EVar vlmMt - EPow P2 (EVar vlmMst2)) *
   EPow P4 (EVar vMst2))) + #6 * EVar vMt * EPow P2 (EVar vMst2) * EPow P2 (EVar vs2t) * (EVar vDmglst2 * (#4 * (#5 +
   EVar vlmMst1 * (#3 - #2 * EVar vlmMst2) - #3 * EVar vlmMst2 + #2 * EPow P2 (EVar vlmMst2)) * EPow P2 (EVar vMst1) *
   EPow P2 (EVar vMst2) + (#21 + EVar vlmMst1 * (#18 - #8 * EVar vlmMst2) - #18 * EVar vlmMst2 + #8 * EPow P2 (EVar
   vlmMst2)) * EPow P4 (EVar vMst1) + #4 * (#6 + EVar vlmMst1 + EVar vlmMst2 - EVar vlmMst1 * EVar vlmMst2 + EPow P2
   (EVar vlmMst2)) * EPow P4 (EVar vMst2)) + EVar vMgl * (#4 * (#1 + #3 * EVar vlmMst2 - EVar vlmMst1 * (#3 + #2 *
   EVar vlmMst2) + #2 * EPow P2 (EVar vlmMst2)) * EPow P2 (EVar vMst1) * EPow P2 (EVar vMst2) + (#1 + #14 * EVar
   vlmMst2 - #2 * EVar vlmMst1 * (#7 + #4 * EVar vlmMst2) + #8 * EPow P2 (EVar vlmMst2)) * EPow P4 (EVar vMst1) + #4 *
   (#4 + #3 * EVar vlmMst2 - EVar vlmMst1 * (#1 + EVar vlmMst2) + EPow P2 (EVar vlmMst2)) * EPow P4 (EVar vMst2))) +
   EPow P3 (EVar vMst2) * EPow P3 (EVar vs2t) * (- #4 * EVar vDmglst2 * (#2 * (#1 + #2 * EVar vlmMst1 - EVar vlmMst2)
   * EPow P2 (EVar vMst2) * EPow P4 (EVar vMst1) + #2 * (#1 + EVar vlmMst1 - EVar vlmMst2 + #2 * EVar vlmMst1 * EVar
   vlmMst2 - #2 * EPow P2 (EVar vlmMst2)) * EPow P2 (EVar vMst1) * EPow P4 (EVar vMst2) + (#1 + #2 * EVar vlmMst1 - #2
   * EVar vlmMst2) * EPow P6 (EVar vMst1) - #2 * EVar vlmMst2 * EPow P6 (EVar vMst2)) + EVar vMgl * (#2 * (- #16 + #6
   * EVar vlmMst2 - #2 * EVar vlmMst1 * (#8 + #5 * EVar vlmMst2) + #3 * EPow P2 (EVar vlmMst1) + #7 * EPow P2 (EVar
   vlmMst2)) * EPow P2 (EVar vMst2) * EPow P4 (EVar vMst1) - #2 * (- #12 - #18 * EVar vlmMst2 + #2 * EVar vlmMst1 *
   (#5 + #3 * EVar vlmMst2) + EPow P2 (EVar vlmMst1) - #7 * EPow P2 (EVar vlmMst2)) * EPow P2 (EVar vMst1) * EPow P4
   (EVar vMst2) + (#3 + EVar vlmMst1 * (#2 - #32 * EVar vlmMst2) - #2 * EVar vlmMst2 + #16 * EPow P2 (EVar vlmMst1) +
   #16 * EPow P2 (EVar vlmMst2)) * EPow P6 (EVar vMst1) + #4 * (#1 + EVar vlmMst2) * EPow P6 (EVar vMst2))) / EPow P2
   (EVar vMst1) + #8 * EVar vMst2 * EVar vs2t * EPow P2 (EVar vMt) * (EVar vDmglst2 * (#4 * (#1 - EVar vlmMst1 + EVar
   vlmMst2) * EPow P2 (EVar vMst2) * EPow P4 (EVar vMst1) + #2 * (#1 + #2 * EVar vlmMst2) * EPow P2 (EVar vMst1) *
   EPow P4 (EVar vMst2) + (#4 - #8 * EVar vlmMst1 + #8 * EVar vlmMst2) * EPow P6 (EVar vMst1) - #4 * EVar vlmMst2 *
   EPow P6 (EVar vMst2)) - EVar vMgl * (- #2 * EVar vlmMst1 * ((#1 + #2 * EVar vlmMst2) * (EPow P2 (EVar vMst1) + EPow
   P2 (EVar vMst2)) * EPow P4 (EVar vMst1) + (#3 + EVar vlmMst2) * EPow P2 (EVar vMst1) * EPow P4 (EVar vMst2)) + EPow
   P2 (EVar vlmMst1) * (#2 * EPow P2 (EVar vMst2) * EPow P4 (EVar vMst1) - EPow P2 (EVar vMst1) * EPow P4 (EVar vMst2)
   + #2 * EPow P6 (EVar vMst1)) + EPow P2 (EVar vlmMst2) * (#2 * EPow P2 (EVar vMst2) * EPow P4 (EVar vMst1) + #3 *
   EPow P2 (EVar vMst1) * EPow P4 (EVar vMst2) + #2 * EPow P6 (EVar vMst1)) + #2 * EPow P6 (EVar vMst2) + #2 * EVar
   vlmMst2 * (EPow P2 (EVar vMst2) * EPow P4 (EVar vMst1) + #2 * EPow P2 (EVar vMst1) * EPow P4 (EVar vMst2) + EPow P6
   (EVar vMst1) + EPow P6 (EVar vMst2)))) / EPow P2 (EVar vMst1)) / (EVar vTbeta * EPow P5 (EVar vMst2)) - #36 * EPow
   P2 (EVar vMt) * EPow P2 (EVar vs2t) * (#4 * (EVar vDmglst2 * (#2 - #4 * EVar vlmMst1) + EVar vMgl * (#2 * EVar
   vlmMst1 * (- #2 + EVar vlmMst2) + EVar vlmMst2 * (#2 + EVar vlmMst2) - #3 * EPow P2 (EVar vlmMst1))) * EPow P2
   (EVar vMst1) + #4 * (EVar vDmglst2 * (#2 + #8 * EVar vlmMst2) + EVar vMgl * (#2 - #2 * EVar vlmMst2 + #2 * EVar
   vlmMst1 * (#3 + EVar vlmMst2) + EPow P2 (EVar vlmMst1) - #3 * EPow P2 (EVar vlmMst2))) * EPow P2 (EVar vMst2) - #16
   * EVar vDmglst2 * (EVar vlmMst1 - EVar vlmMst2) * EPow P4 (EVar vMst1) / EPow P2 (EVar vMst2) + (- #8 * (#2 * EVar
   vDmglst2 * EVar vlmMst2 + EVar vMgl + EVar vlmMst2 * EVar vMgl) * EPow P4 (EVar vMst2) + EPow P2 (EVar vMuSUSY) *
   (#4 * EVar vDmglst2 * (#2 * (#2 - #3 * EVar vlmMst2 + EVar vlmMst1 * (#3 + #2 * EVar vlmMst2) - #2 * EPow P2 (EVar
   vlmMst2)) * EPow P2 (EVar vMst2) * EPow P4 (EVar vMst1) + #2 * (#1 + EVar vlmMst1 - #2 * EVar vlmMst2 + #2 * EVar
   vlmMst1 * EVar vlmMst2 - #2 * EPow P2 (EVar vlmMst2)) * EPow P2 (EVar vMst1) * EPow P4 (EVar vMst2) + (#5 - #8 *
   EVar vlmMst2 + #4 * EVar vlmMst1 * (#2 + EVar vlmMst2) - #4 * EPow P2 (EVar vlmMst2)) * EPow P6 (EVar vMst1) - #2 *
   EVar vlmMst2 * EPow P6 (EVar vMst2)) + EVar vMgl * (- #4 * (- #1 - #13 * EVar vlmMst1 + #13 * EVar vlmMst2 - #8 *
   EVar vlmMst1 * EVar vlmMst2 + EPow P2 (EVar vlmMst1) + #7 * EPow P2 (EVar vlmMst2)) * EPow P2 (EVar vMst2) * EPow
   P4 (EVar vMst1) + #2 * (- #14 + #10 * EVar vlmMst1 - #20 * EVar vlmMst2 + #6 * EVar vlmMst1 * EVar vlmMst2 + EPow
   P2 (EVar vlmMst1) - #7 * EPow P2 (EVar vlmMst2)) * EPow P2 (EVar vMst1) * EPow P4 (EVar vMst2) + (#1 + #50 * EVar
   vlmMst1 - #50 * EVar vlmMst2 + #64 * EVar vlmMst1 * EVar vlmMst2 - #20 * EPow P2 (EVar vlmMst1) - #44 * EPow P2
   (EVar vlmMst2)) * EPow P6 (EVar vMst1) - #4 * (#1 + EVar vlmMst2) * EPow P6 (EVar vMst2))) / EPow P4 (EVar vMst2))
   / EPow P2 (EVar vMst1)) + (- #9 * EPow P4 (EVar vs2t) * (#4 * EVar vDmglst2 * (- #2 * (EVar vlmMst1 - #2 * EVar
   vlmMst1 * EVar vlmMst2 + #2 * EPow P2 (EVar vlmMst2)) * EPow P2 (EVar vMst2) * EPow P4 (EVar vMst1) - #2 * (#1 +
   EVar vlmMst1 + #2 * EVar vlmMst1 * EVar vlmMst2 - #2 * EPow P2 (EVar vlmMst2)) * EPow P2 (EVar vMst1) * EPow P4
   (EVar vMst2) + (#1 + #2 * EVar vlmMst1) * EPow P6 (EVar vMst1) + #2 * EVar vlmMst2 * EPow P6 (EVar vMst2)) + EVar
   vMgl * (- #4 * (#14 + #6 * EVar vlmMst2 + EVar vlmMst1 * (#3 + #2 * EVar vlmMst2) - #2 * EPow P2 (EVar vlmMst1)) *
   EPow P2 (EVar vMst2) * EPow P4 (EVar vMst1) - #2 * (- #10 - #16 * EVar vlmMst2 + #2 * EVar vlmMst1 * (#5 + #3 *
   EVar vlmMst2) + EPow P2 (EVar vlmMst1) - #7 * EPow P2 (EVar vlmMst2)) * EPow P2 (EVar vMst1) * EPow P4 (EVar vMst2)
   + (#35 + EVar vlmMst1 * (#34 - #12 * EVar vlmMst2) - #14 * EVar vlmMst2 + #10 * EPow P2 (EVar vlmMst1) + #2 * EPow
   P2 (EVar vlmMst2)) * EPow P6 (EVar vMst1) + #4 * (#1 + EVar vlmMst2) * EPow P6 (EVar vMst2))) - #36 * EVar vs2t *
   EPow P2 (EVar vMt) * EPow P2 (EVar vMuSUSY) * (EVar vMgl * (#4 * (#4 * EVar vMt * (#5 + #6 * EVar vlmMst2 - EVar
   vlmMst1 * (#4 + #3 * EVar vlmMst2) + #3 * EPow P2 (EVar vlmMst2)) + EVar vMst2 * EVar vs2t * (- #1 + #13 * EVar
   vlmMst2 - EVar vlmMst1 * (#13 + #8 * EVar vlmMst2) + EPow P2 (EVar vlmMst1) + #7 * EPow P2 (EVar vlmMst2))) * EPow
   P2 (EVar vMst2) * EPow P4 (EVar vMst1) + #2 * (- (EVar vMst2 * EVar vs2t * (- #14 - #20 * EVar vlmMst2 + #2 * EVar
   vlmMst1 * (#5 + #3 * EVar vlmMst2) + EPow P2 (EVar vlmMst1) - #7 * EPow P2 (EVar vlmMst2))) + #8 * EVar vMt * (#4 +
   #3 * EVar vlmMst2 - EVar vlmMst1 * (#1 + EVar vlmMst2) + EPow P2 (EVar vlmMst2))) * EPow P2 (EVar vMst1) * EPow P4
   (EVar vMst2) + (EVar vMst2 * EVar vs2t * (- #1 + #50 * EVar vlmMst2 - #2 * EVar vlmMst1 * (#25 + #32 * EVar
   vlmMst2) + #20 * EPow P2 (EVar vlmMst1) + #44 * EPow P2 (EVar vlmMst2)) + EVar vMt * (#84 + #152 * EVar vlmMst2 -
   #40 * EVar vlmMst1 * (#3 + #2 * EVar vlmMst2) + #80 * EPow P2 (EVar vlmMst2))) * EPow P6 (EVar vMst1) + #4 * (#1 +
   EVar vlmMst2) * EVar vs2t * EPow P7 (EVar vMst2)) + #4 * EVar vDmglst2 * ((EVar vMst2 * EVar vs2t * (- #5 + #8 *
   EVar vlmMst2 - #4 * EVar vlmMst1 * (#2 + EVar vlmMst2) + #4 * EPow P2 (EVar vlmMst2)) + EVar vMt * (#65 + EVar
   vlmMst1 * (#34 - #20 * EVar vlmMst2) - #26 * EVar vlmMst2 + #20 * EPow P2 (EVar vlmMst2))) * EPow P6 (EVar vMst1) +
   #2 * ((EVar vMst2 * EVar vs2t * (- #2 + #3 * EVar vlmMst2 - EVar vlmMst1 * (#3 + #2 * EVar vlmMst2) + #2 * EPow P2
   (EVar vlmMst2)) + EVar vMt * (#22 + EVar vlmMst1 * (#8 - #6 * EVar vlmMst2) - #4 * EVar vlmMst2 + #6 * EPow P2
   (EVar vlmMst2))) * EPow P2 (EVar vMst2) * EPow P4 (EVar vMst1) + (- (EVar vMst2 * EVar vs2t * (#1 + EVar vlmMst1 -
   #2 * EVar vlmMst2 + #2 * EVar vlmMst1 * EVar vlmMst2 - #2 * EPow P2 (EVar vlmMst2))) + #2 * EVar vMt * (#6 + EVar
   vlmMst1 + EVar vlmMst2 - EVar vlmMst1 * EVar vlmMst2 + EPow P2 (EVar vlmMst2))) * EPow P2 (EVar vMst1) * EPow P4
   (EVar vMst2) + EVar vlmMst2 * EVar vs2t * EPow P7 (EVar vMst2)))) / (EPow P2 (EVar vSbeta) * EPow P5 (EVar vMst2)))
   / EPow P2 (EVar vMst1)) / (#216 * EVar vMgl) + (EVar vxDmglst2 * EPow P2 (EVar vDmglst2) * (- (EVar vtwoLoopFlag *
   (#36 * EVar vMt * EPow P3 (EVar vs2t) * (#4 * (#3 - EVar vlmMst1 * (- #2 + EVar vlmMst2) - #4 * EVar vlmMst2 + EPow
   P2 (EVar vlmMst2)) * EPow P2 (EVar vMst1) * EPow P2 (EVar vMst2) + (#7 - #6 * EVar vlmMst1 + #6 * EVar vlmMst2) *
   EPow P4 (EVar vMst1) + #4 * (#14 - EVar vlmMst1 * (- #2 + EVar vlmMst2) + EPow P2 (EVar vlmMst2)) * EPow P4 (EVar
   vMst2)) / EVar vMst2 + #32 * EPow P4 (EVar vMt) * (- #9 * (- #27 - #19 * EVar vlmMst2 + #2 * EVar vlmMst1 * (#6 +
   EVar vlmMst2 - EVar vlmMt) + #7 * EVar vlmMt + #2 * EVar vlmMst2 * EVar vlmMt - #2 * EPow P2 (EVar vlmMst2)) * EPow
   P2 (EVar vMst2) * EPow P4 (EVar vMst1) + (- #2 + #9 * EVar vlmMst1 + #3 * EVar vlmMst2 + #15 * EVar vlmMt) * EPow
   P2 (EVar vMst1) * EPow P4 (EVar vMst2) + #27 * (#23 + #38 * EVar vlmMst2 - #9 * EVar vlmMt - #6 * EVar vlmMst2 *
   EVar vlmMt + EVar vlmMst1 * (- #29 - #6 * EVar vlmMst2 + #6 * EVar vlmMt) + #6 * EPow P2 (EVar vlmMst2)) * EPow P6
   (EVar vMst1) + #9 * (- #2 + #3 * EVar vlmMst2) * EPow P6 (EVar vMst2)) / (EPow P2 (EVar vMst1) * EPow P4 (EVar
   vMst2)) + #8 * EVar vs2t * EPow P3 (EVar vMt) * (#9 * (#4 * (- #28 - #41 * EVar vlmMst2 + EVar vlmMst1 * (#31 + #6
   * EVar vlmMst2 - #6 * EVar vlmMt) + #10 * EVar vlmMt + #6 * EVar vlmMst2 * EVar vlmMt - #6 * EPow P2 (EVar
   vlmMst2)) * EPow P2 (EVar vMst2) + (- #199 + #26 * EVar vlmMst2 + EVar vlmMst1 * (- #34 + #20 * EVar vlmMst2) - #20
   * EPow P2 (EVar vlmMst2)) * EPow P2 (EVar vMuSUSY)) * EPow P4 (EVar vMst1) + #36 * (- #14 + EVar vlmMst1 * (- #2 +
   EVar vlmMst2) - EPow P2 (EVar vlmMst2)) * EPow P2 (EVar vMuSUSY) * EPow P4 (EVar vMst2) + #36 * EPow P2 (EVar
   vMst1) * ((- #31 + #3 * EVar vlmMst1 * (- #2 + EVar vlmMst2) + #4 * EVar vlmMst2 - #3 * EPow P2 (EVar vlmMst2)) *
   EPow P2 (EVar vMst2) * EPow P2 (EVar vMuSUSY) + (- #13 + #2 * EVar vlmMst1 - #4 * EVar vlmMst2 + #2 * EVar vlmMt) *
   EPow P4 (EVar vMst2)) + #2 * (#161 + #36 * EVar vlmMst1 * (- #2 + EVar vlmMst2) + #78 * EVar vlmMst2 - #6 * EVar
   vlmMt - #36 * EPow P2 (EVar vlmMst2)) * EPow P6 (EVar vMst2)) / EPow P5 (EVar vMst2) + #12 * EPow P2 (EVar vMt) *
   EPow P2 (EVar vs2t) * (#2 * EPow P4 (EVar vMst1) * (#9 * (#4 - EVar vlmMst1 + EVar vlmMst2 + #2 * EVar vlmMst1 *
   EVar vlmMst2 - #2 * EPow P2 (EVar vlmMst2)) * EPow P2 (EVar vMst2) * EPow P2 (EVar vMuSUSY) + (- #7 + #6 * EVar
   vlmMst1 - #24 * EVar vlmMst2) * EPow P4 (EVar vMst2)) + (#12 * (- #4 + #5 * EVar vlmMst1 - #5 * EVar vlmMst2) *
   EPow P2 (EVar vMst2) + #9 * (#9 + #4 * EVar vlmMst1 * (- #1 + EVar vlmMst2) + #4 * EVar vlmMst2 - #4 * EPow P2
   (EVar vlmMst2)) * EPow P2 (EVar vMuSUSY)) * EPow P6 (EVar vMst1) - #6 * (- #2 + #3 * EVar vlmMst2) * (#2 * EPow P2
   (EVar vMst2) + EPow P2 (EVar vMuSUSY)) * EPow P6 (EVar vMst2) + #2 * EPow P2 (EVar vMst1) * (#3 * (#10 - #3 * EVar
   vlmMst1 + #6 * EVar vlmMst1 * EVar vlmMst2 - #6 * EPow P2 (EVar vlmMst2)) * EPow P2 (EVar vMuSUSY) * EPow P4 (EVar
   vMst2) + (- #23 + #36 * EVar vlmMst2) * EPow P6 (EVar vMst2))) / (EPow P2 (EVar vMst1) * EPow P4 (EVar vMst2)) +
   (#9 * EPow P4 (EVar vs2t) * (- #6 * (- #2 + EVar vlmMst1 - #2 * EVar vlmMst1 * EVar vlmMst2 + #2 * EPow P2 (EVar
   vlmMst2)) * EPow P2 (EVar vMst2) * EPow P4 (EVar vMst1) + #6 * (- #2 + EVar vlmMst1 - #2 * EVar vlmMst2 - #2 * EVar
   vlmMst1 * EVar vlmMst2 + #2 * EPow P2 (EVar vlmMst2)) * EPow P2 (EVar vMst1) * EPow P4 (EVar vMst2) + (#1 + #6 *
   EVar vlmMst1) * EPow P6 (EVar vMst1) + #2 * (- #2 + #3 * EVar vlmMst2) * EPow P6 (EVar vMst2)) + #4 * EVar vMt *
   EVar vMuSUSY * (#9 * EVar vMt * EVar vMuSUSY * EVar vs2t * (- #2 * (#4 * EVar vMt * (- #31 + #3 * EVar vlmMst1 * (-
   #2 + EVar vlmMst2) + #4 * EVar vlmMst2 - #3 * EPow P2 (EVar vlmMst2)) + #3 * EVar vMst2 * EVar vs2t * (#4 + EVar
   vlmMst2 + EVar vlmMst1 * (- #1 + #2 * EVar vlmMst2) - #2 * EPow P2 (EVar vlmMst2))) * EPow P2 (EVar vMst2) * EPow
   P4 (EVar vMst1) - #2 * (EVar vMst2 * EVar vs2t * (#10 + EVar vlmMst1 * (- #3 + #6 * EVar vlmMst2) - #6 * EPow P2
   (EVar vlmMst2)) + #4 * EVar vMt * (- #14 + EVar vlmMst1 * (- #2 + EVar vlmMst2) - EPow P2 (EVar vlmMst2))) * EPow
   P2 (EVar vMst1) * EPow P4 (EVar vMst2) + (- #3 * EVar vMst2 * EVar vs2t * (#9 + #4 * EVar vlmMst1 * (- #1 + EVar
   vlmMst2) + #4 * EVar vlmMst2 - #4 * EPow P2 (EVar vlmMst2)) + EVar vMt * (#398 + EVar vlmMst1 * (#68 - #40 * EVar
   vlmMst2) - #52 * EVar vlmMst2 + #40 * EPow P2 (EVar vlmMst2))) * EPow P6 (EVar vMst1) + #2 * (- #2 + #3 * EVar
   vlmMst2) * EVar vs2t * EPow P7 (EVar vMst2)) / EPow P2 (EVar vSbeta) - (- #2 * EPow P2 (EVar vMst2) * (#36 * (#3 -
   EVar vlmMst1 + EVar vlmMst2) * EVar vMst2 * EVar vs2t * EPow P2 (EVar vMt) + #54 * EVar vMt * (- #17 + #2 * EVar
   vlmMst1 * (- #2 + EVar vlmMst2) + #4 * EVar vlmMst2 - #2 * EPow P2 (EVar vlmMst2)) * EPow P2 (EVar vMst2) * EPow P2
   (EVar vs2t) + #4 * (#29 - #18 * EVar vlmMst1 * (- #1 + EVar vlmMst2) - #3 * EVar vlmMst2 - #15 * EVar vlmMt + #18 *
   EPow P2 (EVar vlmMst2)) * EPow P3 (EVar vMt) + #9 * (#2 + #3 * EVar vlmMst2) * EPow P3 (EVar vMst2) * EPow P3 (EVar
   vs2t)) * EPow P4 (EVar vMst1) + #2 * EPow P2 (EVar vMst1) * (#6 * (- #11 + #18 * EVar vlmMst2) * EVar vMst2 * EVar
   vs2t * EPow P2 (EVar vMt) + #54 * EVar vMt * (#14 - EVar vlmMst1 * (- #2 + EVar vlmMst2) + EPow P2 (EVar vlmMst2))
   * EPow P2 (EVar vMst2) * EPow P2 (EVar vs2t) + #4 * (#79 + #18 * EVar vlmMst1 * (- #2 + EVar vlmMst2) + #39 * EVar
   vlmMst2 - #3 * EVar vlmMt - #18 * EPow P2 (EVar vlmMst2)) * EPow P3 (EVar vMt) - #9 * (#8 + #3 * EVar vlmMst2 +
   EVar vlmMst1 * (- #3 + #6 * EVar vlmMst2) - #6 * EPow P2 (EVar vlmMst2)) * EPow P3 (EVar vMst2) * EPow P3 (EVar
   vs2t)) * EPow P4 (EVar vMst2) - (#72 * (#7 - #6 * EVar vlmMst1 + #6 * EVar vlmMst2) * EVar vMst2 * EVar vs2t * EPow
   P2 (EVar vMt) - #27 * EVar vMt * (#75 + EVar vlmMst1 * (#10 - #8 * EVar vlmMst2) - #10 * EVar vlmMst2 + #8 * EPow
   P2 (EVar vlmMst2)) * EPow P2 (EVar vMst2) * EPow P2 (EVar vs2t) + #8 * (#236 + #339 * EVar vlmMst2 - #18 * EVar
   vlmMst1 * (#13 + #4 * EVar vlmMst2 - #3 * EVar vlmMt) - #3 * (#35 + #18 * EVar vlmMst2) * EVar vlmMt + #72 * EPow
   P2 (EVar vlmMst2)) * EPow P3 (EVar vMt) + #27 * (#1 - #2 * EVar vlmMst1 + #2 * EVar vlmMst2) * EPow P3 (EVar vMst2)
   * EPow P3 (EVar vs2t)) * EPow P6 (EVar vMst1) + #18 * (- #2 + #3 * EVar vlmMst2) * EVar vs2t * (- #4 * EPow P2
   (EVar vMt) + EPow P2 (EVar vMst2) * EPow P2 (EVar vs2t)) * EPow P7 (EVar vMst2)) / EVar vTbeta) / EPow P5 (EVar
   vMst2)) / EPow P2 (EVar vMst1))) / #108 + EVar vAl4p * EVar vthreeLoopFlag * (EPow P4 (EVar vs2t) * (#5 * EVar
   vDmsqst2 * (#75 - #26 * EVar vlmMst1 + #26 * EVar vlmMst2) * EPow P2 (EVar vMst1) / #6 - #20 * EVar vDmsqst2 * (#1
   + EVar vlmMst1 - EVar vlmMst2) * EPow P2 (EVar vMst2) / #3 + EPow P2 (EVar vMst1) * EPow P2 (EVar vMst2) * (EDec
   30209968449931413 15 - EConst CB4 + #4 * EConst CD3 / #3 - #5 * EConst CDN / #6 + #144449 * EVar vlmMst1 / #2700 +
   #2233 * EPow P2 (EVar vlmMst1) / #270 - EVar vlmMst2 * (#165199 + #121010 * EVar vlmMst1 + #51150 * EPow P2 (EVar
   vlmMst1)) / #2700 + (EDec 26353703703703705 15 + #202 * EVar vlmMst1 / #9) * EPow P2 (EVar vlmMst2) + #5 * EPow P3
   (EVar vlmMst1) / #54 - #97 * EPow P3 (EVar vlmMst2) / #27) - (EDec 7958863384550371 14 + #1436147 * EVar vlmMst1 /
   #1190700 + #1363 * EPow P2 (EVar vlmMst1) / #315 + EVar vlmMst2 * (EDec 696052994037121 14 - #101 * EVar vlmMst1 /
   #315 + #11 * EPow P2 (EVar vlmMst1) / #3) - (EDec 7285714285714285 16 + #11 * EVar vlmMst1 / #3) * EPow P2 (EVar
   vlmMst2) + #5 * EVar vDmsqst2 * (#76 - #249 * EVar vlmMst1 + #249 * EVar vlmMst2) / (#54 * EPow P2 (EVar vMst2)) -
   #11 * EPow P3 (EVar vlmMst1) / #9 + #11 * EPow P3 (EVar vlmMst2) / #9) * EPow P4 (EVar vMst1) - (EDec
   7180550411522634 14 - #25 * EConst CB4 / #9 + #28 * EConst CD3 / #9 - #31 * EConst CDN / #18 + #229 * EVar vlmMst1
   / #9 - #103 * EPow P2 (EVar vlmMst1) / #36 + EVar vlmMst2 * (- #1525 - #828 * EVar vlmMst1 + #72 * EPow P2 (EVar
   vlmMst1)) / #27 - (#13 + #369 * EVar vlmMst1) * EPow P2 (EVar vlmMst2) / #18 + #10 * EVar vDmsqst2 / EPow P2 (EVar
   vMst1) + #107 * EPow P3 (EVar vlmMst2) / #6) * EPow P4 (EVar vMst2) + #2 * EConst COepS2 * (#480 * EPow P2 (EVar
   vMst1) * EPow P2 (EVar vMst2) + #8398 * EPow P4 (EVar vMst1) + #315 * EPow P4 (EVar vMst2)) / #2187 - EConst CS2 *
   (#12 * (- #22273 + #1200 * EVar vlmMst1 - #1200 * EVar vlmMst2) * EPow P2 (EVar vMst1) * EPow P2 (EVar vMst2) + #10
   * (#51635 + #25194 * EVar vlmMst1 - #25194 * EVar vlmMst2) * EPow P4 (EVar vMst1) + #27 * (- #116129 + #350 * EVar
   vlmMst1 - #350 * EVar vlmMst2) * EPow P4 (EVar vMst2)) / #1620 - (- #980 + #422 * EVar vlmMst2 + #32 * EVar vlmMst1
   * (- #2 + #3 * EVar vlmMst2) + #817 * EPow P2 (EVar vlmMst2)) * EPow P6 (EVar vMst2) / (#36 * EPow P2 (EVar
   vMst1))) - EVar vs2t * EPow P3 (EVar vMt) * (#6 * EPow P2 (EVar vMst2) * (#7 * EPow P2 (EVar vMuSUSY) * (#4580489 -
   #3285360 * EConst CB4 + #68040 * EConst CDN - #3918600 * EVar vlmMst1 + #248800 * EConst COepS2 - #108 * (- #20803
   + #46650 * EVar vlmMst1 - #46650 * EVar vlmMst2) * EConst CS2 + #103680 * EPow P2 (EVar vlmMst1) - #360 * EVar
   vlmMst2 * (#11213 + #1368 * EVar vlmMst1 + #144 * EPow P2 (EVar vlmMst1)) + #6480 * (- #214 + #523 * EVar vlmMst1)
   * EPow P2 (EVar vlmMst2) - #3337200 * EPow P3 (EVar vlmMst2)) + EPow P2 (EVar vMst2) * (#79386499 - #72455040 *
   EVar vlmMt + #4823840 * EConst COepS2 + #82155924 * EConst CS2 + #7560 * EVar vlmMst2 * (#14 * EVar vlmMt + #219 *
   (#35 + #59 * EConst CS2)) + #725760 * (#5 - #2 * EVar vlmMst2) * EPow P2 (EVar vlmMst1) - #4460400 * EPow P2 (EVar
   vlmMst2) + #7560 * EVar vlmMst1 * (- #3601 - #370 * EVar vlmMst2 + #178 * EVar vlmMt - #12921 * EConst CS2 + #384 *
   EPow P2 (EVar vlmMst2)) + #2177280 * EPow P2 (EVar vlmMt) - #1451520 * EPow P3 (EVar vlmMst2))) * EPow P4 (EVar
   vMst1) + #14 * (#5 * EPow P2 (EVar vMuSUSY) * (#2773621 - #1660176 * EConst CB4 + #25272 * EConst CDN + #2004408 *
   EVar vlmMst1 - #525472 * EConst COepS2 + #108 * (#123113 + #98526 * EVar vlmMst1 - #98526 * EVar vlmMst2) * EConst
   CS2 + #3888 * EPow P2 (EVar vlmMst1) - #144 * EVar vlmMst2 * (#36802 - #11421 * EVar vlmMst1 + #1728 * EPow P2
   (EVar vlmMst1)) + #167184 * (- #14 + #15 * EVar vlmMst1) * EPow P2 (EVar vlmMst2) - #31104 * EPow P3 (EVar vlmMst1)
   - #2227824 * EPow P3 (EVar vlmMst2)) + #4 * EPow P2 (EVar vMst2) * (#20964397 + #4563540 * EVar vlmMt - #2058400 *
   EConst COepS2 + #47545272 * EConst CS2 - #9720 * (#266 + #74 * EVar vlmMst2 - #55 * EVar vlmMt) * EPow P2 (EVar
   vlmMst1) + #3240 * (#1493 + #39 * EVar vlmMt) * EPow P2 (EVar vlmMst2) + #360 * EVar vlmMst2 * (#4724 + #5328 *
   EVar vlmMt - #115785 * EConst CS2 - #1944 * EPow P2 (EVar vlmMt)) - #466560 * EPow P2 (EVar vlmMt) + #180 * EVar
   vlmMst1 * (- #32857 - #11844 * EVar vlmMt - #18 * EVar vlmMst2 * (#485 + #204 * EVar vlmMt) + #231570 * EConst CS2
   + #1674 * EPow P2 (EVar vlmMst2) + #3888 * EPow P2 (EVar vlmMt)) + #9720 * EPow P3 (EVar vlmMst1) + #408240 * EPow
   P3 (EVar vlmMst2))) * EPow P6 (EVar vMst1) + #8709120 * (#2 + EVar vlmMst2 - #3 * EPow P2 (EVar vlmMst2)) * (#2 *
   EPow P2 (EVar vMst2) + EPow P2 (EVar vMuSUSY)) * EPow P6 (EVar vMst2) + #9 * EPow P2 (EVar vMst1) * (#7 * EPow P2
   (EVar vMuSUSY) * (#2601353 - #1058400 * EConst CB4 + #23760 * EConst CDN - #1779840 * EVar vlmMst1 + #1120 * EConst
   COepS2 - #324 * (- #1387 + #70 * EVar vlmMst1 - #70 * EVar vlmMst2) * EConst CS2 - #69120 * EPow P2 (EVar vlmMst1)
   + #1440 * EVar vlmMst2 * (- #599 - #108 * EVar vlmMst1 + #24 * EPow P2 (EVar vlmMst1)) + #4320 * (- #222 + #217 *
   EVar vlmMst1) * EPow P2 (EVar vlmMst2) - #972000 * EPow P3 (EVar vlmMst2)) * EPow P4 (EVar vMst2) - #50400 * EVar
   vDmsqst2 * (- #36 * (#2 + #5 * EVar vlmMst1 - #5 * EVar vlmMst2) * EPow P2 (EVar vMst2) * EPow P2 (EVar vMuSUSY) +
   #36 * EPow P2 (EVar vMst1) * (#8 * (#7 - #3 * EVar vlmMst1 + #6 * EVar vlmMst2 - #3 * EVar vlmMt) * EPow P2 (EVar
   vMst2) + (#8 - #15 * EVar vlmMst1 + #15 * EVar vlmMst2) * EPow P2 (EVar vMuSUSY)) + #9 * (#465 + #374 * EVar
   vlmMst2 - #4 * EVar vlmMst1 * (#52 + #3 * EVar vlmMst2 - #3 * EVar vlmMt) - #2 * (#83 + #6 * EVar vlmMst2) * EVar
   vlmMt + #12 * EPow P2 (EVar vlmMst2)) * EPow P4 (EVar vMst1) + (#578 - #360 * EVar vlmMst1 + #708 * EVar vlmMst2 -
   #348 * EVar vlmMt) * EPow P4 (EVar vMst2)) - #2 * (#6779161 + #4495680 * EVar vlmMt - #7840 * EConst COepS2 + #2520
   * EVar vlmMst2 * (- #8618 + #420 * EVar vlmMt - #63 * EConst CS2) - #3032964 * EConst CS2 - #241920 * (- #2 + EVar
   vlmMst2) * EPow P2 (EVar vlmMst1) + #7560 * EVar vlmMst1 * (#1200 - #128 * EVar vlmMt + #16 * EVar vlmMst2 * (#19 +
   #4 * EVar vlmMt) + #21 * EConst CS2 - #164 * EPow P2 (EVar vlmMst2)) - #30240 * (#195 + #16 * EVar vlmMt) * EPow P2
   (EVar vlmMst2) + #120960 * EPow P2 (EVar vlmMt) + #1481760 * EPow P3 (EVar vlmMst2)) * EPow P6 (EVar vMst2))) /
   (#306180 * EPow P2 (EVar vMst1) * EPow P5 (EVar vMst2)) - EConst CT1ep * (- #2 * EPow P4 (EVar vMst1) * (#8 * EVar
   vMst2 * EPow P2 (EVar vMt) * EPow P2 (EVar vs2t) * (#4327 * EPow P2 (EVar vMuSUSY) * (- #1 + EPow P2 (EVar vSbeta))
   + #6921 * EPow P2 (EVar vMst2) * EPow P2 (EVar vSbeta)) - #4 * EVar vs2t * (#16421 * EPow P2 (EVar vMuSUSY) * (- #1
   + EPow P2 (EVar vSbeta)) + #51460 * EPow P2 (EVar vMst2) * EPow P2 (EVar vSbeta)) * EPow P3 (EVar vMt) + #15571 *
   EVar vMt * EPow P2 (EVar vSbeta) * EPow P3 (EVar vs2t) * EPow P4 (EVar vMst2) + #89312 * EVar vMst2 * EPow P2 (EVar
   vSbeta) * EPow P4 (EVar vMt) - #4199 * EPow P2 (EVar vSbeta) * EPow P4 (EVar vs2t) * EPow P5 (EVar vMst2)) + #63 *
   EPow P4 (EVar vMst2) * (- #4 * EVar vMst2 * EPow P2 (EVar vMt) * EPow P2 (EVar vs2t) * (#5 * EPow P2 (EVar vMuSUSY)
   * (- #1 + EPow P2 (EVar vSbeta)) + #18 * EPow P2 (EVar vMst2) * EPow P2 (EVar vSbeta)) - #4 * EVar vs2t * (EPow P2
   (EVar vMuSUSY) * (- #1 + EPow P2 (EVar vSbeta)) + #2 * EPow P2 (EVar vMst2) * EPow P2 (EVar vSbeta)) * EPow P3
   (EVar vMt) + #2 * EVar vMt * EPow P2 (EVar vSbeta) * EPow P3 (EVar vs2t) * EPow P4 (EVar vMst2) + #208 * EVar vMst2
   * EPow P2 (EVar vSbeta) * EPow P4 (EVar vMt) + #5 * EPow P2 (EVar vSbeta) * EPow P4 (EVar vs2t) * EPow P5 (EVar
   vMst2)) + #24 * EVar vMst2 * EPow P2 (EVar vMst1) * (EPow P2 (EVar vMst2) * EPow P2 (EVar vMt) * EPow P2 (EVar
   vs2t) * (- #185 * EPow P2 (EVar vMuSUSY) * (- #1 + EPow P2 (EVar vSbeta)) - #1791 * EPow P2 (EVar vMst2) * EPow P2
   (EVar vSbeta)) + EVar vMst2 * EVar vs2t * (- #1555 * EPow P2 (EVar vMuSUSY) * (- #1 + EPow P2 (EVar vSbeta)) -
   #4307 * EPow P2 (EVar vMst2) * EPow P2 (EVar vSbeta)) * EPow P3 (EVar vMt) + (#210 * EPow P2 (EVar vMuSUSY) * (- #1
   + EPow P2 (EVar vSbeta)) + #9406 * EPow P2 (EVar vMst2) * EPow P2 (EVar vSbeta)) * EPow P4 (EVar vMt) + #767 * EVar
   vMt * EPow P2 (EVar vSbeta) * EPow P3 (EVar vs2t) * EPow P5 (EVar vMst2) + #20 * EPow P2 (EVar vSbeta) * EPow P4
   (EVar vs2t) * EPow P6 (EVar vMst2))) / (#729 * EPow P2 (EVar vSbeta) * EPow P5 (EVar vMst2)) + EPow P2 (EVar vMt) *
   (- #5 * EVar vDmsqst2 * (- #1081 + #165 * EVar vlmMst1 - #165 * EVar vlmMst2) * EPow P2 (EVar vs2t) * (- #2 + EPow
   P2 (EVar vSbeta)) * EPow P2 (EVar vSbeta) * EPow P4 (EVar vMst1) / (#9 * EPow P4 (EVar vMst2)) - EPow P2 (EVar
   vMuSUSY) * (EPow P2 (EVar vMt) * (#24 * EPow P2 (EVar vMst2) * (#50134 - #270 * EConst CB4 + #270 * EConst CD3 -
   #135 * EConst CDN + #2160 * EVar vlmMst1 + #120 * (#271 + #24 * EVar vlmMst1) * EVar vlmMst2 - #120 * EVar vlmMt -
   #29646 * EConst CS2 - #720 * (- #2 + #3 * EVar vlmMst1) * EPow P2 (EVar vlmMst2) + #2160 * EPow P3 (EVar vlmMst2))
   + EPow P2 (EVar vMst1) * (#3051661 - #12960 * EConst CB4 + #12960 * EConst CD3 - #6480 * EConst CDN + #304320 *
   EVar vlmMst1 + #960 * (#2227 + #285 * EVar vlmMst1) * EVar vlmMst2 + #2880 * (#4 + EVar vlmMst1 - EVar vlmMst2) *
   EVar vlmMt + #5600 * EConst COepS2 - #324 * (#5361 + #350 * EVar vlmMst1 - #350 * EVar vlmMst2) * EConst CS2 -
   #2880 * (#23 + #72 * EVar vlmMst1) * EPow P2 (EVar vlmMst2) + #207360 * EPow P3 (EVar vlmMst2))) / (#1215 * EPow P4
   (EVar vMst2)) + EPow P2 (EVar vs2t) * (EDec 9077757201646091 14 - #100 * EConst CB4 / #9 + #112 * EConst CD3 / #9 -
   #62 * EConst CDN / #9 + #788 * EVar vlmMst1 / #9 - #103 * EPow P2 (EVar vlmMst1) / #9 + #16 * EVar vlmMst2 * (-
   #241 - #171 * EVar vlmMst1 + #18 * EPow P2 (EVar vlmMst1)) / #27 + (EDec 12533333333333333 14 - #82 * EVar vlmMst1)
   * EPow P2 (EVar vlmMst2) + (- #852 + #358 * EVar vlmMst2 + #32 * EVar vlmMst1 * (- #2 + #3 * EVar vlmMst2) + #497 *
   EPow P2 (EVar vlmMst2)) * EPow P2 (EVar vMst2) / (#9 * EPow P2 (EVar vMst1)) + #214 * EPow P3 (EVar vlmMst2) / #3 +
   (#80 * EVar vDmsqst2 * (#4 + EVar vlmMst1 - EVar vlmMst2) / #3 + EPow P2 (EVar vMst1) * (EDec 15538193689986284 14
   - #164 * EConst CB4 / #9 + #176 * EConst CD3 / #9 - #94 * EConst CDN / #9 - #21449 * EVar vlmMst1 / #675 - #7556 *
   EPow P2 (EVar vlmMst1) / #135 + EVar vlmMst2 * (- #54451 - #22990 * EVar vlmMst1 + #65550 * EPow P2 (EVar vlmMst1))
   / #675 + #2 * (#6077 - #17130 * EVar vlmMst1) * EPow P2 (EVar vlmMst2) / #135 - #10 * EPow P3 (EVar vlmMst1) / #27
   + #4240 * EPow P3 (EVar vlmMst2) / #27)) / EPow P2 (EVar vMst2) + EVar vDmsqst2 * (#40 / EPow P2 (EVar vMst1) + #10
   * (- #23 + #42 * EVar vlmMst1 - #42 * EVar vlmMst2) * EPow P2 (EVar vMst1) / (#3 * EPow P4 (EVar vMst2))) + (EDec
   5851892843532082 13 - #8 * EConst CB4 / #3 + #32 * EConst CD3 / #9 - #20 * EConst CDN / #9 - #20109937 * EVar
   vlmMst1 / #297675 - #15886 * EPow P2 (EVar vlmMst1) / #945 + EVar vlmMst2 * (EDec 17112243218274966 15 - #144628 *
   EVar vlmMst1 / #945 + #1180 * EPow P2 (EVar vlmMst1) / #9) + #2 * (#80257 - #138180 * EVar vlmMst1) * EPow P2 (EVar
   vlmMst2) / #945 - #92 * EPow P3 (EVar vlmMst1) / #27 + #4448 * EPow P3 (EVar vlmMst2) / #27) * EPow P4 (EVar vMst1)
   / EPow P4 (EVar vMst2) - #32 * (- #2 + EVar vlmMst2 + #5 * EPow P2 (EVar vlmMst2)) * EPow P4 (EVar vMst2) / (#9 *
   EPow P4 (EVar vMst1)) - (#6 * (#7400 * EConst COepS2 + #27 * (#1089707 - #5550 * EVar vlmMst1 + #5550 * EVar
   vlmMst2) * EConst CS2) * EPow P2 (EVar vMst1) * EPow P2 (EVar vMst2) + #40 * (#17308 * EConst COepS2 + #27 *
   (#93919 - #12981 * EVar vlmMst1 + #12981 * EVar vlmMst2) * EConst CS2) * EPow P4 (EVar vMst1) + #9 * (#1400 *
   EConst COepS2 + #81 * (#116129 - #350 * EVar vlmMst1 + #350 * EVar vlmMst2) * EConst CS2) * EPow P4 (EVar vMst2)) /
   (#10935 * EPow P4 (EVar vMst2))) - EVar vMt * EVar vs2t * (#6 * EPow P2 (EVar vMst2) * (#4580489 - #3285360 *
   EConst CB4 + #68040 * EConst CDN - #3918600 * EVar vlmMst1 + #248800 * EConst COepS2 - #108 * (- #20803 + #46650 *
   EVar vlmMst1 - #46650 * EVar vlmMst2) * EConst CS2 + #103680 * EPow P2 (EVar vlmMst1) - #360 * EVar vlmMst2 *
   (#11213 + #1368 * EVar vlmMst1 + #144 * EPow P2 (EVar vlmMst1)) + #6480 * (- #214 + #523 * EVar vlmMst1) * EPow P2
   (EVar vlmMst2) - #3337200 * EPow P3 (EVar vlmMst2)) * EPow P4 (EVar vMst1) - #2332800 * EVar vDmsqst2 * ((- #2 - #5
   * EVar vlmMst1 + #5 * EVar vlmMst2) * EPow P2 (EVar vMst1) * EPow P2 (EVar vMst2) + (#8 - #15 * EVar vlmMst1 + #15
   * EVar vlmMst2) * EPow P4 (EVar vMst1)) + #9 * EPow P2 (EVar vMst1) * (#2601353 - #1058400 * EConst CB4 + #23760 *
   EConst CDN - #1779840 * EVar vlmMst1 + #1120 * EConst COepS2 - #324 * (- #1387 + #70 * EVar vlmMst1 - #70 * EVar
   vlmMst2) * EConst CS2 - #69120 * EPow P2 (EVar vlmMst1) + #1440 * EVar vlmMst2 * (- #599 - #108 * EVar vlmMst1 +
   #24 * EPow P2 (EVar vlmMst1)) + #4320 * (- #222 + #217 * EVar vlmMst1) * EPow P2 (EVar vlmMst2) - #972000 * EPow P3
   (EVar vlmMst2)) * EPow P4 (EVar vMst2) + #10 * (#2773621 - #1660176 * EConst CB4 + #25272 * EConst CDN + #2004408 *
   EVar vlmMst1 - #525472 * EConst COepS2 + #108 * (#123113 + #98526 * EVar vlmMst1 - #98526 * EVar vlmMst2) * EConst
   CS2 + #3888 * EPow P2 (EVar vlmMst1) - #144 * EVar vlmMst2 * (#36802 - #11421 * EVar vlmMst1 + #1728 * EPow P2
   (EVar vlmMst1)) + #167184 * (- #14 + #15 * EVar vlmMst1) * EPow P2 (EVar vlmMst2) - #31104 * EPow P3 (EVar vlmMst1)
   - #2227824 * EPow P3 (EVar vlmMst2)) * EPow P6 (EVar vMst1) + #1244160 * (#2 + EVar vlmMst2 - #3 * EPow P2 (EVar
   vlmMst2)) * EPow P6 (EVar vMst2)) / (#43740 * EPow P2 (EVar vMst1) * EPow P5 (EVar vMst2))) / EPow P2 (EVar
   vSbeta)) + EVar vMuSUSY * (EVar vs2t * EPow P3 (EVar vMt) * (EDec 3314980952380952 12 - #32 * EConst CB4 / #3 + #32
   * EConst CD3 / #3 - #16 * EConst CDN / #3 + #1472 * EVar vlmMst1 / #9 - #64 * EVar vlmMt / #9 + EVar vlmMst2 *
   (EDec 19165925925925926 13 + #136 * EVar vlmMst1 - #128 * EPow P2 (EVar vlmMst1) / #3) + #116 * EPow P2 (EVar
   vlmMst1) / #3 + #32 * (#37 - #12 * EVar vlmMst1) * EPow P2 (EVar vlmMst2) / #9 - #4 * (- #756 + #134 * EVar vlmMst2
   + #32 * EVar vlmMst1 * (- #2 + #3 * EVar vlmMst2) + #177 * EPow P2 (EVar vlmMst2)) * EPow P2 (EVar vMst2) / (#9 *
   EPow P2 (EVar vMst1)) + #256 * EPow P3 (EVar vlmMst2) / #3 - (#3280 * EVar vDmsqst2 / #9 - EPow P2 (EVar vMst1) *
   (EDec 4623658770135215 12 - #32 * EConst CB4 / #3 + #32 * EConst CD3 / #3 - #16 * EConst CDN / #3 + #2028488 * EVar
   vlmMst1 / #2025 + #64 * (#5 + EVar vlmMst1 - EVar vlmMst2) * EVar vlmMt / #9 + #8 * EVar vlmMst2 * (#715964 +
   #124935 * EVar vlmMst1 - #11025 * EPow P2 (EVar vlmMst1)) / #2025 + #4064 * EPow P2 (EVar vlmMst1) / #135 - #8 *
   (#4517 + #5025 * EVar vlmMst1) * EPow P2 (EVar vlmMst2) / #135 + #8 * EPow P3 (EVar vlmMst1) / #27 + #9208 * EPow
   P3 (EVar vlmMst2) / #27)) / EPow P2 (EVar vMst2) - #40 * EVar vDmsqst2 * (#12 + (#65 - #2 * EVar vlmMst1 + #2 *
   EVar vlmMst2) * EPow P4 (EVar vMst1) / EPow P4 (EVar vMst2)) / (#3 * EPow P2 (EVar vMst1)) + (EDec 6228225754358181
   13 - #64 * EConst CB4 / #9 + #64 * EConst CD3 / #9 - #32 * EConst CDN / #9 + #29853268 * EVar vlmMst1 / #19845 +
   #38704 * EPow P2 (EVar vlmMst1) / #189 + #4 * EVar vlmMst2 * (#2917823 - #3813600 * EVar vlmMst1 + #97020 * EPow P2
   (EVar vlmMst1)) / #19845 + #16 * (#8677 - #5439 * EVar vlmMst1) * EPow P2 (EVar vlmMst2) / #189 - #128 * EVar vlmMt
   * (#4 + #6 * EVar vlmMst2 - #2 * EVar vlmMst1 * (#3 + EVar vlmMst2) + EPow P2 (EVar vlmMst1) + EPow P2 (EVar
   vlmMst2)) / #3 - #16 * EPow P3 (EVar vlmMst1) / #9 + #1328 * EPow P3 (EVar vlmMst2) / #3) * EPow P4 (EVar vMst1) /
   EPow P4 (EVar vMst2) + #128 * (- #2 + EVar vlmMst2 + #5 * EPow P2 (EVar vlmMst2)) * EPow P4 (EVar vMst2) / (#9 *
   EPow P4 (EVar vMst1)) + (#32 * EConst COepS2 * (#660 * EPow P2 (EVar vMst1) * EPow P2 (EVar vMst2) + #1838 * EPow
   P4 (EVar vMst1) + #63 * EPow P4 (EVar vMst2)) / #243 - #4 * EConst CS2 * (#12 * (#18419 + #11550 * EVar vlmMst1 -
   #11550 * EVar vlmMst2) * EPow P2 (EVar vMst1) * EPow P2 (EVar vMst2) + #28 * (#17269 + #13785 * EVar vlmMst1 -
   #13785 * EVar vlmMst2) * EPow P4 (EVar vMst1) + #27 * (#3477 + #490 * EVar vlmMst1 - #490 * EVar vlmMst2) * EPow P4
   (EVar vMst2)) / #315) / EPow P4 (EVar vMst2)) - EPow P2 (EVar vMt) * EPow P2 (EVar vs2t) * ((#80 * EVar vDmsqst2 *
   (#2 + #5 * EVar vlmMst1 - #5 * EVar vlmMst2) + EPow P2 (EVar vMst1) * (EDec 13960072016460904 14 - #1048 * EConst
   CB4 / #3 + #20 * EConst CDN / #3 - #6938 * EVar vlmMst1 / #27 + #128 * EPow P2 (EVar vlmMst1) / #3 - #2 * EVar
   vlmMst2 * (#7619 + #720 * EVar vlmMst1 + #288 * EPow P2 (EVar vlmMst1)) / #27 + #8 * (#4 + #153 * EVar vlmMst1) *
   EPow P2 (EVar vlmMst2) / #3 - #1160 * EPow P3 (EVar vlmMst2) / #3)) / EVar vMst2 + EVar vMst2 * (EDec
   7175533950617285 13 - #980 * EConst CB4 / #3 + #22 * EConst CDN / #3 - #1648 * EVar vlmMst1 / #3 - #64 * EPow P2
   (EVar vlmMst1) / #3 + #4 * EVar vlmMst2 * (- #695 - #108 * EVar vlmMst1 + #24 * EPow P2 (EVar vlmMst1)) / #9 + #28
   * (- #18 + #31 * EVar vlmMst1) * EPow P2 (EVar vlmMst2) / #3 - #300 * EPow P3 (EVar vlmMst2)) + #128 * (#2 + EVar
   vlmMst2 - #3 * EPow P2 (EVar vlmMst2)) * EPow P3 (EVar vMst2) / (#3 * EPow P2 (EVar vMst1)) + (EDec
   1033594170096022 12 - #592 * EConst CB4 / #3 + #8 * EConst CDN / #3 + #35140 * EVar vlmMst1 / #81 + #92 * EPow P2
   (EVar vlmMst1) / #3 - #2 * EVar vlmMst2 * (#28667 - #5238 * EVar vlmMst1 + #3024 * EPow P2 (EVar vlmMst1)) / #81 +
   #8 * (- #60 + #157 * EVar vlmMst1) * EPow P2 (EVar vlmMst2) / #3 - #32 * EPow P3 (EVar vlmMst1) / #3 - #1000 * EPow
   P3 (EVar vlmMst2) / #3) * EPow P4 (EVar vMst1) / EPow P3 (EVar vMst2) + (- #4 * EConst COepS2 * (- #9267 * EPow P2
   (EVar vMst1) * EPow P2 (EVar vMst2) + #23734 * EPow P4 (EVar vMst1) - #63 * EPow P4 (EVar vMst2)) / #729 + EConst
   CS2 * (#3 * (#29123 - #92670 * EVar vlmMst1 + #92670 * EVar vlmMst2) * EPow P2 (EVar vMst1) * EPow P2 (EVar vMst2)
   + #2 * (#525961 + #356010 * EVar vlmMst1 - #356010 * EVar vlmMst2) * EPow P4 (EVar vMst1) + #27 * (#1387 - #70 *
   EVar vlmMst1 + #70 * EVar vlmMst2) * EPow P4 (EVar vMst2)) / #270) / EPow P3 (EVar vMst2) - #20 * EVar vDmsqst2 *
   (#40 * (#1 - EVar vlmMst1 + EVar vlmMst2) * EPow P2 (EVar vMst1) * EPow P2 (EVar vMst2) + (#80 - #43 * EVar vlmMst1
   + #43 * EVar vlmMst2) * EPow P4 (EVar vMst1)) / EPow P5 (EVar vMst2)) + EPow P4 (EVar vMt) * (#24 * EPow P2 (EVar
   vMst2) * (#2848907 - #10515960 * EVar vlmMt + #605920 * EConst COepS2 + #11406852 * EConst CS2 + #1890 * EVar
   vlmMst2 * (#8232 - #203 * EVar vlmMt + #6492 * EConst CS2) - #90720 * (- #3 + EVar vlmMst2) * EPow P2 (EVar
   vlmMst1) - #1890 * EVar vlmMst1 * (#3460 - #281 * EVar vlmMt + EVar vlmMst2 * (#689 + #96 * EVar vlmMt) + #6492 *
   EConst CS2 - #438 * EPow P2 (EVar vlmMst2)) + #1890 * (#347 + #96 * EVar vlmMt) * EPow P2 (EVar vlmMst2) + #226800
   * EPow P2 (EVar vlmMt) - #737100 * EPow P3 (EVar vlmMst2)) * EPow P4 (EVar vMst1) - #907200 * EVar vDmsqst2 *
   ((#101 - #90 * EVar vlmMst1 + #177 * EVar vlmMst2 - #87 * EVar vlmMt) * EPow P2 (EVar vMst1) * EPow P2 (EVar vMst2)
   + (#497 - #306 * EVar vlmMst1 + #609 * EVar vlmMst2 - #303 * EVar vlmMt) * EPow P4 (EVar vMst1)) - #9 * EPow P2
   (EVar vMst1) * (#7152121 + #4616640 * EVar vlmMt - #7840 * EConst COepS2 + #17640 * EVar vlmMst2 * (- #1256 + #60 *
   EVar vlmMt - #9 * EConst CS2) - #3032964 * EConst CS2 - #241920 * (- #2 + EVar vlmMst2) * EPow P2 (EVar vlmMst1) +
   #7560 * EVar vlmMst1 * (#1136 - #128 * EVar vlmMt + #16 * EVar vlmMst2 * (#21 + #4 * EVar vlmMt) + #21 * EConst CS2
   - #164 * EPow P2 (EVar vlmMst2)) - #30240 * (#107 + #16 * EVar vlmMt) * EPow P2 (EVar vlmMst2) + #120960 * EPow P2
   (EVar vlmMt) + #1481760 * EPow P3 (EVar vlmMst2)) * EPow P4 (EVar vMst2) + #140 * (#5659217 + #1592460 * EVar vlmMt
   - #518816 * EConst COepS2 + #9976392 * EConst CS2 - #972 * (#569 + #180 * EVar vlmMst2 - #126 * EVar vlmMt) * EPow
   P2 (EVar vlmMst1) + #324 * (#5353 + #126 * EVar vlmMt) * EPow P2 (EVar vlmMst2) - #186624 * EPow P2 (EVar vlmMt) +
   #72 * EVar vlmMst1 * (- #27653 - #3015 * EVar vlmMt - #18 * EVar vlmMst2 * (#689 + #126 * EVar vlmMt) + #145917 *
   EConst CS2 + #2160 * EPow P2 (EVar vlmMst2) + #2592 * EPow P2 (EVar vlmMt)) - #36 * EVar vlmMst2 * (- #39031 -
   #3204 * EVar vlmMt + #291834 * EConst CS2 + #5184 * EPow P2 (EVar vlmMt)) + #1944 * EPow P3 (EVar vlmMst1) + #17496
   * EPow P3 (EVar vlmMst2)) * EPow P6 (EVar vMst1) + #8709120 * (#2 + EVar vlmMst2 - #3 * EPow P2 (EVar vlmMst2)) *
   EPow P6 (EVar vMst2)) / (#153090 * EPow P2 (EVar vMst1) * EPow P5 (EVar vMst2)) + EVar vMt * (#2 * EConst CT1ep *
   (#3 * EPow P2 (EVar vMst1) * EPow P2 (EVar vMst2) * (- #15840 * EVar vMst2 * EVar vs2t * EPow P2 (EVar vMt) + #9267
   * EVar vMt * EPow P2 (EVar vMst2) * EPow P2 (EVar vs2t) - #17312 * EPow P3 (EVar vMt) + #530 * EPow P3 (EVar vMst2)
   * EPow P3 (EVar vs2t)) + #2 * (- #66168 * EVar vMst2 * EVar vs2t * EPow P2 (EVar vMt) - #35601 * EVar vMt * EPow P2
   (EVar vMst2) * EPow P2 (EVar vs2t) + #129704 * EPow P3 (EVar vMt) + #12664 * EPow P3 (EVar vMst2) * EPow P3 (EVar
   vs2t)) * EPow P4 (EVar vMst1) + #63 * (- #72 * EVar vMst2 * EVar vs2t * EPow P2 (EVar vMt) + #3 * EVar vMt * EPow
   P2 (EVar vMst2) * EPow P2 (EVar vs2t) - #4 * EPow P3 (EVar vMt) + #10 * EPow P3 (EVar vMst2) * EPow P3 (EVar vs2t))
   * EPow P4 (EVar vMst2)) / (#729 * EPow P5 (EVar vMst2)) + EPow P3 (EVar vs2t) * (#40 * EVar vDmsqst2 * (#5 + #2 *
   EVar vlmMst1 - #2 * EVar vlmMst2) / #3 + EPow P2 (EVar vMst2) * (EDec 18544423868312757 14 - #100 * EConst CB4 / #9
   + #112 * EConst CD3 / #9 - #62 * EConst CDN / #9 + #284 * EVar vlmMst1 / #3 - #103 * EPow P2 (EVar vlmMst1) / #9 +
   #2 * EVar vlmMst2 * (- #2465 - #1512 * EVar vlmMst1 + #144 * EPow P2 (EVar vlmMst1)) / #27 + (EDec 7011111111111111
   14 - #82 * EVar vlmMst1) * EPow P2 (EVar vlmMst2) + #40 * EVar vDmsqst2 / EPow P2 (EVar vMst1) + #214 * EPow P3
   (EVar vlmMst2) / #3) + EPow P2 (EVar vMst1) * (EDec 6460436488340191 14 - #64 * EConst CB4 / #9 + #64 * EConst CD3
   / #9 - #32 * EConst CDN / #9 - #80549 * EVar vlmMst1 / #675 - #6011 * EPow P2 (EVar vlmMst1) / #135 + EVar vlmMst2
   * (#41949 + #45410 * EVar vlmMst1 + #58350 * EPow P2 (EVar vlmMst1)) / #675 - #2 * (#2383 + #11595 * EVar vlmMst1)
   * EPow P2 (EVar vlmMst2) / #135 - #10 * EPow P3 (EVar vlmMst1) / #27 + #2314 * EPow P3 (EVar vlmMst2) / #27) +
   (EDec 4077379592503276 13 + #2171669 * EVar vlmMst2 / #59535 + #2 * (#433 + #6552 * EVar vlmMst2) * EPow P2 (EVar
   vlmMst1) / #189 + #3974 * EPow P2 (EVar vlmMst2) / #189 - EVar vlmMst1 * (#2740559 + #1524600 * EVar vlmMst2 +
   #7514640 * EPow P2 (EVar vlmMst2)) / #59535 - #112 * EPow P3 (EVar vlmMst1) / #27 + #1648 * EPow P3 (EVar vlmMst2)
   / #27) * EPow P4 (EVar vMst1) / EPow P2 (EVar vMst2) - #10 * EVar vDmsqst2 * (#9 * (#55 - #34 * EVar vlmMst1 + #34
   * EVar vlmMst2) * EPow P2 (EVar vMst1) * EPow P2 (EVar vMst2) + (#419 - #57 * EVar vlmMst1 + #57 * EVar vlmMst2) *
   EPow P4 (EVar vMst1)) / (#27 * EPow P4 (EVar vMst2)) + (- #916 + #390 * EVar vlmMst2 + #32 * EVar vlmMst1 * (- #2 +
   #3 * EVar vlmMst2) + #657 * EPow P2 (EVar vlmMst2)) * EPow P4 (EVar vMst2) / (#9 * EPow P2 (EVar vMst1)) - (#159 *
   (#200 * EConst COepS2 + #27 * (#21401 - #150 * EVar vlmMst1 + #150 * EVar vlmMst2) * EConst CS2) * EPow P2 (EVar
   vMst1) * EPow P2 (EVar vMst2) + #20 * (#25328 * EConst COepS2 + #27 * (#47051 - #18996 * EVar vlmMst1 + #18996 *
   EVar vlmMst2) * EConst CS2) * EPow P4 (EVar vMst1) + #9 * (#1400 * EConst COepS2 + #81 * (#116129 - #350 * EVar
   vlmMst1 + #350 * EVar vlmMst2) * EConst CS2) * EPow P4 (EVar vMst2)) / (#10935 * EPow P2 (EVar vMst2)) - #32 * (-
   #2 + EVar vlmMst2 + #5 * EPow P2 (EVar vlmMst2)) * EPow P6 (EVar vMst2) / (#9 * EPow P4 (EVar vMst1))))) / EVar
   vTbeta + EVar vMt * EPow P3 (EVar vs2t) * (- #60 * (#280885 + #11016 * EConst CB4 + #324 * EConst CDN - #142092 *
   EVar vlmMst1 - #24544 * EConst COepS2 + #2808 * (- #32 + #177 * EVar vlmMst1 - #177 * EVar vlmMst2) * EConst CS2 -
   #31104 * EPow P2 (EVar vlmMst1) + #36 * EVar vlmMst2 * (#3449 + #72 * EVar vlmMst1 + #432 * EPow P2 (EVar vlmMst1))
   - #648 * (#134 + #89 * EVar vlmMst1) * EPow P2 (EVar vlmMst2) + #42120 * EPow P3 (EVar vlmMst2)) * EPow P4 (EVar
   vMst1) * EPow P4 (EVar vMst2) + EPow P2 (EVar vMst2) * (#31897243 - #2491360 * EConst COepS2 + #90290268 * EConst
   CS2 - #360 * EVar vlmMst2 * (#18652 + #140139 * EConst CS2) + #38880 * (#37 - #40 * EVar vlmMst2) * EPow P2 (EVar
   vlmMst1) + #3188160 * EPow P2 (EVar vlmMst2) + #360 * EVar vlmMst1 * (#17410 - #12852 * EVar vlmMst2 + #140139 *
   EConst CS2 + #11232 * EPow P2 (EVar vlmMst2)) - #311040 * EPow P3 (EVar vlmMst1) - #2177280 * EPow P3 (EVar
   vlmMst2)) * EPow P6 (EVar vMst1) - #583200 * EVar vDmsqst2 * (#4 * (#12 - #5 * EVar vlmMst1 + #5 * EVar vlmMst2) *
   EPow P2 (EVar vMst2) * EPow P4 (EVar vMst1) - #4 * (#2 + #5 * EVar vlmMst1 - #5 * EVar vlmMst2) * EPow P2 (EVar
   vMst1) * EPow P4 (EVar vMst2) + (#40 - #3 * EVar vlmMst1 + #3 * EVar vlmMst2) * EPow P6 (EVar vMst1)) + #9 * EPow
   P2 (EVar vMst1) * (#2048393 - #1058400 * EConst CB4 + #23760 * EConst CDN - #1779840 * EVar vlmMst1 + #1120 *
   EConst COepS2 - #324 * (- #1387 + #70 * EVar vlmMst1 - #70 * EVar vlmMst2) * EConst CS2 - #69120 * EPow P2 (EVar
   vlmMst1) + #1440 * EVar vlmMst2 * (- #791 - #108 * EVar vlmMst1 + #24 * EPow P2 (EVar vlmMst1)) + #4320 * (- #30 +
   #217 * EVar vlmMst1) * EPow P2 (EVar vlmMst2) - #972000 * EPow P3 (EVar vlmMst2)) * EPow P6 (EVar vMst2) + #1244160
   * (#2 + EVar vlmMst2 - #3 * EPow P2 (EVar vlmMst2)) * EPow P8 (EVar vMst2)) / (#87480 * EPow P2 (EVar vMst1) * EPow
   P3 (EVar vMst2)) + EPow P4 (EVar vMt) * (#15435 * EPow P2 (EVar vMst2) * (- (EPow P2 (EVar vMst2) * (#13292051 +
   #3597840 * EVar vlmMt - #72800 * EConst COepS2 + #12 * EVar vlmMst2 * (- #50551 + #41160 * EVar vlmMt - #122850 *
   EConst CS2) - #3133890 * EConst CS2 - #18900 * EPow P2 (EVar vlmMst1) - #223920 * EPow P2 (EVar vlmMst2) + #5400 *
   EVar vlmMst1 * (#170 - #16 * EVar vlmMst2 - #32 * EVar vlmMt + #273 * EConst CS2 + #96 * EPow P2 (EVar vlmMst2)) +
   #313200 * EPow P2 (EVar vlmMt) - #518400 * EPow P3 (EVar vlmMst2))) + #120 * EPow P2 (EVar vMuSUSY) * (#50134 -
   #270 * EConst CB4 + #270 * EConst CD3 - #135 * EConst CDN + #2160 * EVar vlmMst1 + #120 * (#271 + #24 * EVar
   vlmMst1) * EVar vlmMst2 - #120 * EVar vlmMt - #29646 * EConst CS2 - #720 * (- #2 + #3 * EVar vlmMst1) * EPow P2
   (EVar vlmMst2) + #2160 * EPow P3 (EVar vlmMst2))) * EPow P4 (EVar vMst1) + #147 * (#525 * EPow P2 (EVar vMuSUSY) *
   (#3051661 - #12960 * EConst CB4 + #12960 * EConst CD3 - #6480 * EConst CDN + #304320 * EVar vlmMst1 + #960 * (#2227
   + #285 * EVar vlmMst1) * EVar vlmMst2 + #2880 * (#4 + EVar vlmMst1 - EVar vlmMst2) * EVar vlmMt + #5600 * EConst
   COepS2 - #324 * (#5361 + #350 * EVar vlmMst1 - #350 * EVar vlmMst2) * EConst CS2 - #2880 * (#23 + #72 * EVar
   vlmMst1) * EPow P2 (EVar vlmMst2) + #207360 * EPow P3 (EVar vlmMst2)) + EPow P2 (EVar vMst2) * (#55610713 -
   #1448685000 * EVar vlmMt + #131684000 * EConst COepS2 + #173875950 * EConst CS2 + #37800 * (#1783 + #285 * EVar
   vlmMst2 - #225 * EVar vlmMt) * EPow P2 (EVar vlmMst1) + #18900 * (- #43477 + #930 * EVar vlmMt) * EPow P2 (EVar
   vlmMst2) + #95256000 * EPow P2 (EVar vlmMt) - #3780 * EVar vlmMst1 * (- #75993 + #19265 * EVar vlmMt + #15 * EVar
   vlmMst2 * (- #9947 + #160 * EVar vlmMt) + #705450 * EConst CS2 + #5400 * EPow P2 (EVar vlmMst2) + #7200 * EPow P2
   (EVar vlmMt)) + #1260 * EVar vlmMst2 * (- #297379 + #133245 * EVar vlmMt + #2116350 * EConst CS2 + #21600 * EPow P2
   (EVar vlmMt)) - #756000 * EPow P3 (EVar vlmMst1) + #10395000 * EPow P3 (EVar vlmMst2))) * EPow P6 (EVar vMst1) -
   #46305000 * EVar vDmsqst2 * ((#2954 - #864 * EVar vlmMst1 + #1713 * EVar vlmMst2 - #849 * EVar vlmMt) * EPow P2
   (EVar vMst2) * EPow P4 (EVar vMst1) + #324 * EPow P2 (EVar vMst1) * EPow P4 (EVar vMst2) + #27 * (#401 + #274 *
   EVar vlmMst2 - #2 * EVar vlmMst1 * (#71 + #2 * EVar vlmMst2 - #2 * EVar vlmMt) - #4 * (#33 + EVar vlmMst2) * EVar
   vlmMt + #4 * EPow P2 (EVar vlmMst2)) * EPow P6 (EVar vMst1)) + #41674500 * (#788 + EVar vlmMst1 * (#64 - #96 * EVar
   vlmMst2) + #26 * EVar vlmMst2 - #177 * EPow P2 (EVar vlmMst2)) * EPow P2 (EVar vMst1) * EPow P6 (EVar vMst2) + #5 *
   (#54946675289 + #31644837000 * EVar vlmMt - #3063401600 * EConst COepS2 + #52952863320 * EConst CS2 - #3175200 *
   (#3946 + #987 * EVar vlmMst2 - #819 * EVar vlmMt) * EPow P2 (EVar vlmMst1) + #6350400 * (#5083 + #84 * EVar vlmMt)
   * EPow P2 (EVar vlmMst2) - #4000752000 * EPow P2 (EVar vlmMt) - #1260 * EVar vlmMst2 * (#42300121 - #8705340 * EVar
   vlmMt + #49233240 * EConst CS2 + #3810240 * EPow P2 (EVar vlmMt)) + #1260 * EVar vlmMst1 * (#13877671 - #8625960 *
   EVar vlmMt - #1260 * EVar vlmMst2 * (#9983 + #1974 * EVar vlmMt) + #49233240 * EConst CS2 - #1746360 * EPow P2
   (EVar vlmMst2) + #3810240 * EPow P2 (EVar vlmMt)) + #177811200 * EPow P3 (EVar vlmMst1) + #5156524800 * EPow P3
   (EVar vlmMst2)) * EPow P8 (EVar vMst1) + #1333584000 * (- #2 + EVar vlmMst2 + #5 * EPow P2 (EVar vlmMst2)) * EPow
   P8 (EVar vMst2)) / (#93767625 * EPow P4 (EVar vMst1) * EPow P4 (EVar vMst2)) + EPow P2 (EVar vMt) * EPow P2 (EVar
   vs2t) * (- #11025 * (#18 * EPow P2 (EVar vMst2) * (#2818497 - #10080 * EConst CB4 + #10080 * EConst CD3 - #5040 *
   EConst CDN + #127680 * EVar vlmMst1 - #6720 * EVar vlmMt + #7840 * EConst COepS2 - #324 * (#3477 + #490 * EVar
   vlmMst1 - #490 * EVar vlmMst2) * EConst CS2 + #36540 * EPow P2 (EVar vlmMst1) - #140 * EVar vlmMst2 * (- #13339 -
   #1206 * EVar vlmMst1 + #288 * EPow P2 (EVar vlmMst1)) - #420 * (- #473 + #96 * EVar vlmMst1) * EPow P2 (EVar
   vlmMst2) + #80640 * EPow P3 (EVar vlmMst2)) - #7 * EPow P2 (EVar vMuSUSY) * (#441179 - #54000 * EConst CB4 + #60480
   * EConst CD3 - #33480 * EConst CDN + #425520 * EVar vlmMst1 - #5600 * EConst COepS2 + #324 * (- #116129 + #350 *
   EVar vlmMst1 - #350 * EVar vlmMst2) * EConst CS2 - #55620 * EPow P2 (EVar vlmMst1) + #2880 * EVar vlmMst2 * (- #241
   - #171 * EVar vlmMst1 + #18 * EPow P2 (EVar vlmMst1)) - #3240 * (- #188 + #123 * EVar vlmMst1) * EPow P2 (EVar
   vlmMst2) + #346680 * EPow P3 (EVar vlmMst2))) * EPow P4 (EVar vMst1) * EPow P4 (EVar vMst2) + #294 * EPow P2 (EVar
   vMst2) * (- #14 * EPow P2 (EVar vMuSUSY) * (- #14159179 + #1660500 * EConst CB4 - #1782000 * EConst CD3 + #951750 *
   EConst CDN + #2895615 * EVar vlmMst1 + #7350885 * EVar vlmMst2 + #3103650 * EVar vlmMst1 * EVar vlmMst2 + #370000 *
   EConst COepS2 + #1471104450 * EConst CS2 - #7492500 * EVar vlmMst1 * EConst CS2 + #7492500 * EVar vlmMst2 * EConst
   CS2 + #5100300 * EPow P2 (EVar vlmMst1) - #8849250 * EVar vlmMst2 * EPow P2 (EVar vlmMst1) - #8203950 * EPow P2
   (EVar vlmMst2) + #23125500 * EVar vlmMst1 * EPow P2 (EVar vlmMst2) + #33750 * EPow P3 (EVar vlmMst1) - #14310000 *
   EPow P3 (EVar vlmMst2)) - #3 * EPow P2 (EVar vMst2) * (#273721621 + #9072000 * EVar vlmMt + #16716000 * EConst
   COepS2 - #343302300 * EConst CS2 + #420 * EVar vlmMst2 * (#463453 - #3600 * EVar vlmMt + #805950 * EConst CS2) -
   #6300 * (#289 + #30 * EVar vlmMst2) * EPow P2 (EVar vlmMst1) + #840 * EVar vlmMst1 * (#211261 + #90510 * EVar
   vlmMst2 + #1800 * EVar vlmMt - #402975 * EConst CS2 - #64575 * EPow P2 (EVar vlmMst2)) - #84886200 * EPow P2 (EVar
   vlmMst2) + #63000 * EPow P3 (EVar vlmMst1) + #54369000 * EPow P3 (EVar vlmMst2))) * EPow P6 (EVar vMst1) -
   #41674500 * EPow P2 (EVar vMst1) * (- #2 * (- #820 + #166 * EVar vlmMst2 + #32 * EVar vlmMst1 * (- #2 + #3 * EVar
   vlmMst2) + #337 * EPow P2 (EVar vlmMst2)) * EPow P2 (EVar vMst2) + (#852 + EVar vlmMst1 * (#64 - #96 * EVar
   vlmMst2) - #358 * EVar vlmMst2 - #497 * EPow P2 (EVar vlmMst2)) * EPow P2 (EVar vMuSUSY)) * EPow P6 (EVar vMst2) +
   (#18 * EPow P2 (EVar vMst2) * (#3650009897 + #889056000 * EVar vlmMt - #2110136000 * EConst COepS2 + #1260 * EVar
   vlmMst2 * (#4261807 + #1764000 * EVar vlmMt - #33912900 * EConst CS2) + #52385772600 * EConst CS2 - #529200 *
   (#4447 + #910 * EVar vlmMst2 - #840 * EVar vlmMt) * EPow P2 (EVar vlmMst1) + #4233600 * (- #1094 + #105 * EVar
   vlmMt) * EPow P2 (EVar vlmMst2) + #1260 * EVar vlmMst1 * (- #8789407 - #1764000 * EVar vlmMt - #420 * EVar vlmMst2
   * (- #13199 + #1680 * EVar vlmMt) + #33912900 * EConst CS2 + #2146200 * EPow P2 (EVar vlmMst2)) + #12348000 * EPow
   P3 (EVar vlmMst1) - #2234988000 * EPow P3 (EVar vlmMst2)) + EPow P2 (EVar vMuSUSY) * (#219487237477 - #1000188000 *
   EConst CB4 + #1333584000 * EConst CD3 - #833490000 * EConst CDN - #25338520620 * EVar vlmMst1 - #23746576000 *
   EConst COepS2 + #37044000 * (- #93919 + #12981 * EVar vlmMst1 - #12981 * EVar vlmMst2) * EConst CS2 - #6305153400 *
   EPow P2 (EVar vlmMst1) + #1260 * EVar vlmMst2 * (#5093887 - #45557820 * EVar vlmMst1 + #39028500 * EPow P2 (EVar
   vlmMst1)) - #793800 * (- #80257 + #138180 * EVar vlmMst1) * EPow P2 (EVar vlmMst2) - #1278018000 * EPow P3 (EVar
   vlmMst1) + #61789392000 * EPow P3 (EVar vlmMst2))) * EPow P8 (EVar vMst1) + #138915000 * EVar vDmsqst2 * (#108 *
   EPow P2 (EVar vMst1) * (#2 * EPow P2 (EVar vMst2) + EPow P2 (EVar vMuSUSY)) * EPow P4 (EVar vMst2) + #12 * EPow P4
   (EVar vMst1) * (#6 * (#4 + EVar vlmMst1 - EVar vlmMst2) * EPow P2 (EVar vMst2) * EPow P2 (EVar vMuSUSY) + #23 *
   EPow P4 (EVar vMst2)) + #3 * (#2 * (#113 - #6 * EVar vlmMst1 + #6 * EVar vlmMst2) * EPow P2 (EVar vMst2) + #3 * (-
   #23 + #42 * EVar vlmMst1 - #42 * EVar vlmMst2) * EPow P2 (EVar vMuSUSY)) * EPow P6 (EVar vMst1) + #16 * (#41 - #12
   * EVar vlmMst1 + #12 * EVar vlmMst2) * EPow P8 (EVar vMst1)) - #1333584000 * (- #2 + EVar vlmMst2 + #5 * EPow P2
   (EVar vlmMst2)) * (#2 * EPow P2 (EVar vMst2) + EPow P2 (EVar vMuSUSY)) * EPow P8 (EVar vMst2)) / (#375070500 * EPow
   P4 (EVar vMst1) * EPow P4 (EVar vMst2)))) + EVar vxDR2DRMOD * (#5 * EVar vAl4p * EVar vthreeLoopFlag * EVar
   vxDmsqst2 * EPow P2 (EVar vDmsqst2) * (#14 * EVar vDmglst2 * EVar vMgl * EPow P2 (EVar vMst2) * (EPow P2 (EVar
   vs2t) * (#4 * EVar vMt * EVar vMuSUSY * EVar vs2t - #8 * EVar vTbeta * EPow P2 (EVar vMt) + EVar vTbeta * (EPow P2
   (EVar vMst1) + (- #1 + #2 * EVar vlmMst1 - #2 * EVar vlmMst2) * EPow P2 (EVar vMst2)) * EPow P2 (EVar vs2t)) * EPow
   P2 (EVar vSbeta) * EPow P4 (EVar vMst1) + EPow P2 (EVar vMst2) * (- #4 * EVar vTbeta * EPow P2 (EVar vMt) * EPow P2
   (EVar vs2t) * (EPow P2 (EVar vMuSUSY) * (- #1 + EPow P2 (EVar vSbeta)) + #2 * EPow P2 (EVar vMst2) * EPow P2 (EVar
   vSbeta)) + EPow P2 (EVar vSbeta) * (#16 * EVar vMuSUSY * EVar vs2t * EPow P3 (EVar vMt) - #4 * EVar vMt * EVar
   vMuSUSY * EPow P2 (EVar vMst2) * EPow P3 (EVar vs2t) + #16 * EVar vTbeta * EPow P4 (EVar vMt) + EVar vTbeta * EPow
   P4 (EVar vMst2) * EPow P4 (EVar vs2t))) - EPow P2 (EVar vMst1) * (- #4 * EVar vTbeta * EPow P2 (EVar vMt) * EPow P2
   (EVar vs2t) * ((- #1 + #2 * EVar vlmMst1 - #2 * EVar vlmMst2) * EPow P2 (EVar vMuSUSY) * (- #1 + EPow P2 (EVar
   vSbeta)) + #4 * EPow P2 (EVar vMst2) * EPow P2 (EVar vSbeta)) + EPow P2 (EVar vSbeta) * (#16 * EVar vMuSUSY * EVar
   vs2t * EPow P3 (EVar vMt) + #8 * (- EVar vlmMst1 + EVar vlmMst2) * EVar vMt * EVar vMuSUSY * EPow P2 (EVar vMst2) *
   EPow P3 (EVar vs2t) - #16 * EVar vTbeta * EPow P4 (EVar vMt) + (#1 + #2 * EVar vlmMst1 - #2 * EVar vlmMst2) * EVar
   vTbeta * EPow P4 (EVar vMst2) * EPow P4 (EVar vs2t)))) + EPow P2 (EVar vMgl) * (- (EPow P2 (EVar vs2t) * EPow P4
   (EVar vMst1) * (- #8 * (EVar vlmMst1 - EVar vlmMst2) * EVar vTbeta * EPow P2 (EVar vMt) * EPow P2 (EVar vMuSUSY) *
   (- #1 + EPow P2 (EVar vSbeta)) + #4 * EVar vMt * (- (EVar vMuSUSY * EVar vs2t) + #2 * EVar vMt * EVar vTbeta) *
   EPow P2 (EVar vMst2) * EPow P2 (EVar vSbeta) + (#1 - #2 * EVar vlmMst1 + #2 * EVar vlmMst2) * EVar vTbeta * EPow P2
   (EVar vs2t) * EPow P2 (EVar vSbeta) * EPow P4 (EVar vMst2))) + EPow P4 (EVar vMst2) * (- #4 * EVar vTbeta * EPow P2
   (EVar vMt) * EPow P2 (EVar vs2t) * (EPow P2 (EVar vMuSUSY) * (- #1 + EPow P2 (EVar vSbeta)) + #2 * EPow P2 (EVar
   vMst2) * EPow P2 (EVar vSbeta)) + EPow P2 (EVar vSbeta) * (#16 * EVar vMuSUSY * EVar vs2t * EPow P3 (EVar vMt) - #4
   * EVar vMt * EVar vMuSUSY * EPow P2 (EVar vMst2) * EPow P3 (EVar vs2t) + #16 * EVar vTbeta * EPow P4 (EVar vMt) +
   EVar vTbeta * EPow P4 (EVar vMst2) * EPow P4 (EVar vs2t))) - EPow P2 (EVar vMst1) * EPow P2 (EVar vMst2) * (- #4 *
   EVar vTbeta * EPow P2 (EVar vMt) * EPow P2 (EVar vs2t) * ((- #1 + #2 * EVar vlmMst1 - #2 * EVar vlmMst2) * EPow P2
   (EVar vMuSUSY) * (- #1 + EPow P2 (EVar vSbeta)) + #4 * EPow P2 (EVar vMst2) * EPow P2 (EVar vSbeta)) + EPow P2
   (EVar vSbeta) * (#16 * EVar vMuSUSY * EVar vs2t * EPow P3 (EVar vMt) + #8 * (- EVar vlmMst1 + EVar vlmMst2) * EVar
   vMt * EVar vMuSUSY * EPow P2 (EVar vMst2) * EPow P3 (EVar vs2t) - #16 * EVar vTbeta * EPow P4 (EVar vMt) + (#1 + #2
   * EVar vlmMst1 - #2 * EVar vlmMst2) * EVar vTbeta * EPow P4 (EVar vMst2) * EPow P4 (EVar vs2t))) + EVar vTbeta *
   EPow P2 (EVar vMst2) * EPow P2 (EVar vSbeta) * EPow P4 (EVar vs2t) * EPow P6 (EVar vMst1)) + EVar vxDmglst2 * EPow
   P2 (EVar vDmglst2) * EPow P2 (EVar vMst2) * (#33 * EPow P2 (EVar vMst2) * (- #4 * EVar vTbeta * EPow P2 (EVar vMt)
   * EPow P2 (EVar vs2t) * (EPow P2 (EVar vMuSUSY) * (- #1 + EPow P2 (EVar vSbeta)) + #2 * EPow P2 (EVar vMst2) * EPow
   P2 (EVar vSbeta)) + EPow P2 (EVar vSbeta) * (#16 * EVar vMuSUSY * EVar vs2t * EPow P3 (EVar vMt) - #4 * EVar vMt *
   EVar vMuSUSY * EPow P2 (EVar vMst2) * EPow P3 (EVar vs2t) + #16 * EVar vTbeta * EPow P4 (EVar vMt) + EVar vTbeta *
   EPow P4 (EVar vMst2) * EPow P4 (EVar vs2t))) - #33 * EPow P2 (EVar vMst1) * (- #4 * EVar vTbeta * EPow P2 (EVar
   vMt) * EPow P2 (EVar vs2t) * ((- #1 + #2 * EVar vlmMst1 - #2 * EVar vlmMst2) * EPow P2 (EVar vMuSUSY) * (- #1 +
   EPow P2 (EVar vSbeta)) + #4 * EPow P2 (EVar vMst2) * EPow P2 (EVar vSbeta)) + EPow P2 (EVar vSbeta) * (#16 * EVar
   vMuSUSY * EVar vs2t * EPow P3 (EVar vMt) + #8 * (- EVar vlmMst1 + EVar vlmMst2) * EVar vMt * EVar vMuSUSY * EPow P2
   (EVar vMst2) * EPow P3 (EVar vs2t) - #16 * EVar vTbeta * EPow P4 (EVar vMt) + (#1 + #2 * EVar vlmMst1 - #2 * EVar
   vlmMst2) * EVar vTbeta * EPow P4 (EVar vMst2) * EPow P4 (EVar vs2t))) + EPow P2 (EVar vSbeta) * (- #33 * EPow P2
   (EVar vs2t) * (- #4 * EVar vMt * EVar vMuSUSY * EVar vs2t + #8 * EVar vTbeta * EPow P2 (EVar vMt) + (#1 - #2 * EVar
   vlmMst1 + #2 * EVar vlmMst2) * EVar vTbeta * EPow P2 (EVar vMst2) * EPow P2 (EVar vs2t)) * EPow P4 (EVar vMst1) +
   #14 * EVar vTbeta * EPow P4 (EVar vs2t) * EPow P6 (EVar vMst1)))) / (EVar vTbeta * EPow P2 (EVar vMst1) * EPow P2
   (EVar vSbeta) * EPow P6 (EVar vMst2)) + #4 * EVar vMgl * (#2 * EVar vDmglst2 * EVar vlmMst2 + EVar vMgl + EVar
   vlmMst2 * EVar vMgl) * EVar vtwoLoopFlag * (- (EPow P2 (EVar vMst2) * EPow P2 (EVar vs2t) * EPow P4 (EVar vMst1) *
   (- #8 * (EVar vlmMst1 - EVar vlmMst2) * EVar vTbeta * EPow P2 (EVar vMt) * EPow P2 (EVar vMuSUSY) * (- #1 + EPow P2
   (EVar vSbeta)) + #4 * EVar vMt * (- (EVar vMuSUSY * EVar vs2t) + #2 * EVar vMt * EVar vTbeta) * EPow P2 (EVar
   vMst2) * EPow P2 (EVar vSbeta) + (#1 - #2 * EVar vlmMst1 + #2 * EVar vlmMst2) * EVar vTbeta * EPow P2 (EVar vs2t) *
   EPow P2 (EVar vSbeta) * EPow P4 (EVar vMst2))) - EPow P2 (EVar vMst1) * EPow P4 (EVar vMst2) * (- #4 * EVar vTbeta
   * EPow P2 (EVar vMt) * EPow P2 (EVar vs2t) * ((- #1 + #2 * EVar vlmMst1 - #2 * EVar vlmMst2) * EPow P2 (EVar
   vMuSUSY) * (- #1 + EPow P2 (EVar vSbeta)) + #4 * EPow P2 (EVar vMst2) * EPow P2 (EVar vSbeta)) + EPow P2 (EVar
   vSbeta) * (#16 * EVar vMuSUSY * EVar vs2t * EPow P3 (EVar vMt) + #8 * (- EVar vlmMst1 + EVar vlmMst2) * EVar vMt *
   EVar vMuSUSY * EPow P2 (EVar vMst2) * EPow P3 (EVar vs2t) - #16 * EVar vTbeta * EPow P4 (EVar vMt) + (#1 + #2 *
   EVar vlmMst1 - #2 * EVar vlmMst2) * EVar vTbeta * EPow P4 (EVar vMst2) * EPow P4 (EVar vs2t))) + EVar vTbeta * EPow
   P2 (EVar vs2t) * (#8 * (EVar vlmMst1 - EVar vlmMst2) * EPow P2 (EVar vMt) * EPow P2 (EVar vMuSUSY) * (- #1 + EPow
   P2 (EVar vSbeta)) + EPow P2 (EVar vs2t) * EPow P2 (EVar vSbeta) * EPow P4 (EVar vMst2)) * EPow P6 (EVar vMst1) + (-
   #4 * EVar vTbeta * EPow P2 (EVar vMt) * EPow P2 (EVar vs2t) * (EPow P2 (EVar vMuSUSY) * (- #1 + EPow P2 (EVar
   vSbeta)) + #2 * EPow P2 (EVar vMst2) * EPow P2 (EVar vSbeta)) + EPow P2 (EVar vSbeta) * (#16 * EVar vMuSUSY * EVar
   vs2t * EPow P3 (EVar vMt) - #4 * EVar vMt * EVar vMuSUSY * EPow P2 (EVar vMst2) * EPow P3 (EVar vs2t) + #16 * EVar
   vTbeta * EPow P4 (EVar vMt) + EVar vTbeta * EPow P4 (EVar vMst2) * EPow P4 (EVar vs2t))) * EPow P6 (EVar vMst2)) /
   (EVar vTbeta * EPow P2 (EVar vMst1) * EPow P2 (EVar vSbeta) * EPow P4 (EVar vMst2)) - #2 * EVar vxDmglst2 * EPow P2
   (EVar vDmglst2) * (#1350 * (#2 - #3 * EVar vlmMst2) * EVar vtwoLoopFlag * EPow P2 (EVar vMst1) * (#4 * EVar vMt *
   EVar vMuSUSY * EVar vs2t * ((- #4 * EPow P2 (EVar vMst1) * EPow P2 (EVar vMt) + #4 * EPow P2 (EVar vMst2) * EPow P2
   (EVar vMt) + #2 * (EVar vlmMst1 - EVar vlmMst2) * EPow P2 (EVar vMst1) * EPow P2 (EVar vMst2) * EPow P2 (EVar vs2t)
   + EPow P2 (EVar vs2t) * (EPow P4 (EVar vMst1) - EPow P4 (EVar vMst2))) / EVar vTbeta + EVar vMt * EVar vMuSUSY *
   EVar vs2t * ((EPow P2 (EVar vMst1) + EPow P2 (EVar vMst2)) * EPow P4 (EVar vMst2) - #2 * (EVar vlmMst1 - EVar
   vlmMst2) * EPow P2 (EVar vMst1) * (EPow P2 (EVar vMst1) * EPow P2 (EVar vMst2) + EPow P4 (EVar vMst1) + EPow P4
   (EVar vMst2))) / (EPow P2 (EVar vSbeta) * EPow P4 (EVar vMst2))) + #16 * (EPow P2 (EVar vMst1) + EPow P2 (EVar
   vMst2)) * EPow P4 (EVar vMt) + (EPow P2 (EVar vMst1) - EPow P2 (EVar vMst2)) * (#2 * (EVar vlmMst1 - EVar vlmMst2)
   * EPow P2 (EVar vMst1) * EPow P2 (EVar vMst2) + EPow P4 (EVar vMst1) - EPow P4 (EVar vMst2)) * EPow P4 (EVar vs2t)
   - #4 * EPow P2 (EVar vMt) * EPow P2 (EVar vs2t) * (#2 * EPow P4 (EVar vMst1) * ((- EVar vlmMst1 + EVar vlmMst2) *
   EPow P2 (EVar vMst2) * EPow P2 (EVar vMuSUSY) + EPow P4 (EVar vMst2)) + #2 * (- EVar vlmMst1 + EVar vlmMst2) * EPow
   P2 (EVar vMuSUSY) * EPow P6 (EVar vMst1) + EPow P2 (EVar vMst1) * ((#1 - #2 * EVar vlmMst1 + #2 * EVar vlmMst2) *
   EPow P2 (EVar vMuSUSY) * EPow P4 (EVar vMst2) - #4 * EPow P6 (EVar vMst2)) + (#2 * EPow P2 (EVar vMst2) + EPow P2
   (EVar vMuSUSY)) * EPow P6 (EVar vMst2)) / EPow P4 (EVar vMst2)) + EVar vAl4p * EVar vthreeLoopFlag * (- #6400 *
   EVar vs2t * EPow P2 (EVar vMst1) * EPow P3 (EVar vMt) * (- #3 * EPow P4 (EVar vMst1) * (EPow P2 (EVar vMst2) * EPow
   P2 (EVar vMuSUSY) * (- #11 - #371 * EVar vlmMst2 + #42 * EPow P2 (EVar vlmMst2) - #6 * EVar vlmMst1 * (- #21 - #5 *
   EVar vlmMst2 + #24 * EPow P2 (EVar vlmMst2)) + #144 * EPow P3 (EVar vlmMst2)) + #6 * (#93 + #88 * EVar vlmMst2 -
   #22 * EVar vlmMt - #8 * EVar vlmMst2 * EVar vlmMt + EVar vlmMst1 * (- #34 - #8 * EVar vlmMst2 + #4 * EVar vlmMt) +
   #12 * EPow P2 (EVar vlmMst2)) * EPow P4 (EVar vMst2)) + #9 * ((#49 + #103 * EVar vlmMst2 - #36 * (#1 + EVar
   vlmMst2) * EPow P2 (EVar vlmMst2) + #4 * EVar vlmMst1 * (- #11 + #6 * EVar vlmMst2 + #9 * EPow P2 (EVar vlmMst2)))
   * EPow P2 (EVar vMuSUSY) + EPow P2 (EVar vMst2) * (#28 + EVar vlmMst2 * (#378 - #96 * EVar vlmMt) - #44 * EVar
   vlmMt + EVar vlmMst1 * (- #274 + #60 * EVar vlmMt + #18 * EVar vlmMst2 * (- #13 + #2 * EVar vlmMt) - #36 * EPow P2
   (EVar vlmMst2)) + (#270 - #36 * EVar vlmMt) * EPow P2 (EVar vlmMst2) + #36 * EPow P3 (EVar vlmMst2))) * EPow P6
   (EVar vMst1) + #36 * (#2 + EVar vlmMst2 - #3 * EPow P2 (EVar vlmMst2)) * (#2 * EPow P2 (EVar vMst2) + EPow P2 (EVar
   vMuSUSY)) * EPow P6 (EVar vMst2) - EPow P2 (EVar vMst1) * (#3 * EPow P2 (EVar vMuSUSY) * (- #53 - #191 * EVar
   vlmMst2 + EVar vlmMst1 * (#60 + #18 * EVar vlmMst2 - #72 * EPow P2 (EVar vlmMst2)) + #54 * EPow P2 (EVar vlmMst2) +
   #72 * EPow P3 (EVar vlmMst2)) * EPow P4 (EVar vMst2) + (#300 + #72 * EVar vlmMt + EVar vlmMst2 * (- #341 + #78 *
   EVar vlmMt) + #18 * EVar vlmMst1 * (#8 - #4 * EVar vlmMt + EVar vlmMst2 * (#5 + #2 * EVar vlmMt) - #2 * EPow P2
   (EVar vlmMst2)) - #12 * (#26 + #3 * EVar vlmMt) * EPow P2 (EVar vlmMst2) + #36 * EPow P3 (EVar vlmMst2)) * EPow P6
   (EVar vMst2))) + #300 * EVar vMst2 * EPow P2 (EVar vMt) * EPow P2 (EVar vs2t) * ((#4 * EPow P2 (EVar vMst2) * (#916
   - #418 * EVar vlmMst2 + #48 * (- #2 + #3 * EVar vlmMst2) * EPow P2 (EVar vlmMst1) - #387 * EPow P2 (EVar vlmMst2) -
   #48 * EVar vlmMst1 * (- #5 + #2 * EVar vlmMst2 + #6 * EPow P2 (EVar vlmMst2)) + #144 * EPow P3 (EVar vlmMst2)) +
   EPow P2 (EVar vMuSUSY) * (- #1180 - #1270 * EVar vlmMst2 + #96 * (- #2 + #3 * EVar vlmMst2) * EPow P2 (EVar
   vlmMst1) + #3255 * EPow P2 (EVar vlmMst2) - #6 * EVar vlmMst1 * (- #468 + #454 * EVar vlmMst2 + #369 * EPow P2
   (EVar vlmMst2)) + #1926 * EPow P3 (EVar vlmMst2))) * EPow P4 (EVar vMst1) * EPow P4 (EVar vMst2) + #2 * EPow P2
   (EVar vMst2) * ((#868 + #96 * EVar vlmMst1 * (- #11 + EVar vlmMst2) + #1874 * EVar vlmMst2 + #243 * EPow P2 (EVar
   vlmMst2)) * EPow P2 (EVar vMst2) + #3 * EPow P2 (EVar vMuSUSY) * (- #240 - #468 * EVar vlmMst2 + #144 * (- #2 + #3
   * EVar vlmMst2) * EPow P2 (EVar vlmMst1) + EVar vlmMst1 * (#580 - #22 * EVar vlmMst2 - #1137 * EPow P2 (EVar
   vlmMst2)) + #310 * EPow P2 (EVar vlmMst2) + #705 * EPow P3 (EVar vlmMst2))) * EPow P6 (EVar vMst1) - #675 * EVar
   vDmsqst2 * (EPow P4 (EVar vMst1) * ((#1 - #2 * EVar vlmMst1 + #2 * EVar vlmMst2) * EPow P2 (EVar vMst2) * EPow P2
   (EVar vMuSUSY) - #4 * EPow P4 (EVar vMst2)) + EPow P2 (EVar vMst1) * (#2 * EPow P2 (EVar vMst2) + EPow P2 (EVar
   vMuSUSY)) * EPow P4 (EVar vMst2) + #2 * (EPow P2 (EVar vMst2) + (- EVar vlmMst1 + EVar vlmMst2) * EPow P2 (EVar
   vMuSUSY)) * EPow P6 (EVar vMst1)) - #3 * EPow P2 (EVar vMst1) * (- #2 * (- #388 + #166 * EVar vlmMst2 + #32 * EVar
   vlmMst1 * (- #2 + #3 * EVar vlmMst2) + #337 * EPow P2 (EVar vlmMst2)) * EPow P2 (EVar vMst2) + (#420 + EVar vlmMst1
   * (#64 - #96 * EVar vlmMst2) - #358 * EVar vlmMst2 - #497 * EPow P2 (EVar vlmMst2)) * EPow P2 (EVar vMuSUSY)) *
   EPow P6 (EVar vMst2) - #12 * (#32 * (#2 + #7 * EVar vlmMst2 - EVar vlmMst1 * (#5 + #4 * EVar vlmMst2) + #4 * EPow
   P2 (EVar vlmMst2)) * EPow P2 (EVar vMst2) - EPow P2 (EVar vMuSUSY) * (#48 + #4 * EVar vlmMst2 * (#45 + #68 * EPow
   P2 (EVar vlmMst1)) + #310 * EPow P2 (EVar vlmMst2) - EVar vlmMst1 * (#92 + #310 * EVar vlmMst2 + #635 * EPow P2
   (EVar vlmMst2)) + #363 * EPow P3 (EVar vlmMst2))) * EPow P8 (EVar vMst1) - #96 * (- #2 + EVar vlmMst2 + #5 * EPow
   P2 (EVar vlmMst2)) * (#2 * EPow P2 (EVar vMst2) + EPow P2 (EVar vMuSUSY)) * EPow P8 (EVar vMst2)) + #16 * EVar
   vMst2 * EPow P4 (EVar vMt) * (EPow P4 (EVar vMst1) * (#50625 * EVar vDmsqst2 * EPow P2 (EVar vMst2) + (- #183748 +
   #240 * (#137 + #60 * EVar vlmMst1) * EVar vlmMt - #6 * EVar vlmMst2 * (- #587 + #4800 * EVar vlmMst1 + #6120 * EVar
   vlmMt) + #25695 * EPow P2 (EVar vlmMst2)) * EPow P4 (EVar vMst2)) + #225 * EPow P2 (EVar vMst1) * (#225 * EVar
   vDmsqst2 * EPow P4 (EVar vMst2) + (#356 + EVar vlmMst1 * (#64 - #96 * EVar vlmMst2) + #26 * EVar vlmMst2 - #177 *
   EPow P2 (EVar vlmMst2)) * EPow P6 (EVar vMst2)) + #14400 * (#42 + EVar vlmMst2 * (#242 - #62 * EVar vlmMt) - #33 *
   EVar vlmMt + #6 * (#29 - #4 * EVar vlmMt) * EPow P2 (EVar vlmMst2) - #2 * EVar vlmMst1 * (#81 + EVar vlmMst2 * (#74
   - #12 * EVar vlmMt) - #18 * EVar vlmMt + #12 * EPow P2 (EVar vlmMst2)) + #24 * EPow P3 (EVar vlmMst2)) * EPow P8
   (EVar vMst1) - #7200 * (EPow P2 (EVar vMst2) * (#221 + EVar vlmMst2 * (#299 - #47 * EVar vlmMt) - #62 * EVar vlmMt
   + (#87 - #6 * EVar vlmMt) * EPow P2 (EVar vlmMst2) - #2 * EVar vlmMst1 * (#65 + EVar vlmMst2 * (#32 - #3 * EVar
   vlmMt) - #12 * EVar vlmMt + #3 * EPow P2 (EVar vlmMst2)) + #6 * EPow P3 (EVar vlmMst2)) * EPow P6 (EVar vMst1) - (-
   #2 + EVar vlmMst2 + #5 * EPow P2 (EVar vlmMst2)) * EPow P8 (EVar vMst2))) + #75 * EPow P2 (EVar vMst1) * EPow P3
   (EVar vMst2) * EPow P3 (EVar vs2t) * (#128 * EVar vMst2 * EVar vMt * ((- #71 + #6 * EVar vlmMst1 * (- #1 + EVar
   vlmMst2) + EVar vlmMst2 + #30 * EPow P2 (EVar vlmMst2)) * EPow P2 (EVar vMst2) * EPow P4 (EVar vMst1) + EPow P2
   (EVar vMst1) * (#5 + #167 * EVar vlmMst2 + #18 * EPow P2 (EVar vlmMst2) + #6 * EVar vlmMst1 * (- #10 - #3 * EVar
   vlmMst2 + #12 * EPow P2 (EVar vlmMst2)) - #72 * EPow P3 (EVar vlmMst2)) * EPow P4 (EVar vMst2) + (#3 + #39 * EVar
   vlmMst2 - #6 * EVar vlmMst1 * (#5 + #3 * EVar vlmMst2) + #18 * EPow P2 (EVar vlmMst2)) * EPow P6 (EVar vMst1) + #12
   * (#2 + EVar vlmMst2 - #3 * EPow P2 (EVar vlmMst2)) * EPow P6 (EVar vMst2)) + EVar vs2t * ((#340 - #806 * EVar
   vlmMst2 - #672 * (- #2 + #3 * EVar vlmMst2) * EPow P2 (EVar vlmMst1) + #3159 * EPow P2 (EVar vlmMst2) + #6 * EVar
   vlmMst1 * (#388 - #934 * EVar vlmMst2 + #399 * EPow P2 (EVar vlmMst2)) - #378 * EPow P3 (EVar vlmMst2)) * EPow P4
   (EVar vMst1) * EPow P4 (EVar vMst2) - #6 * (- #36 + (#70 + #32 * EVar vlmMst1) * EVar vlmMst2 + #27 * EPow P2 (EVar
   vlmMst2)) * EPow P2 (EVar vMst2) * EPow P6 (EVar vMst1) + EPow P2 (EVar vMst1) * (- #1532 + #3514 * EVar vlmMst2 -
   #96 * (- #2 + #3 * EVar vlmMst2) * EPow P2 (EVar vlmMst1) + #207 * EPow P2 (EVar vlmMst2) + #6 * EVar vlmMst1 * (-
   #532 + #550 * EVar vlmMst2 + #369 * EPow P2 (EVar vlmMst2)) - #1926 * EPow P3 (EVar vlmMst2)) * EPow P6 (EVar
   vMst2) + #45 * EVar vDmsqst2 * (#15 * (- #1 + #2 * EVar vlmMst1 - #2 * EVar vlmMst2) * EPow P2 (EVar vMst2) * EPow
   P4 (EVar vMst1) - #15 * (#1 + #2 * EVar vlmMst1 - #2 * EVar vlmMst2) * EPow P2 (EVar vMst1) * EPow P4 (EVar vMst2)
   + #2 * EPow P6 (EVar vMst1) + #15 * EPow P6 (EVar vMst2)) - #3 * (- #548 + #422 * EVar vlmMst2 + #32 * EVar vlmMst1
   * (- #2 + #3 * EVar vlmMst2) + #817 * EPow P2 (EVar vlmMst2)) * EPow P8 (EVar vMst2))) + #300 * EVar vs2t * EPow P2
   (EVar vMt) * EPow P2 (EVar vMuSUSY) * ((- #675 * EVar vDmsqst2 * (- #1 + #2 * EVar vlmMst1 - #2 * EVar vlmMst2) *
   EVar vs2t + EVar vs2t * EPow P2 (EVar vMst2) * (#1180 + #1270 * EVar vlmMst2 - #96 * (- #2 + #3 * EVar vlmMst2) *
   EPow P2 (EVar vlmMst1) - #3255 * EPow P2 (EVar vlmMst2) + #6 * EVar vlmMst1 * (- #468 + #454 * EVar vlmMst2 + #369
   * EPow P2 (EVar vlmMst2)) - #1926 * EPow P3 (EVar vlmMst2)) + #64 * EVar vMst2 * EVar vMt * (#53 + #191 * EVar
   vlmMst2 - #54 * EPow P2 (EVar vlmMst2) + #6 * EVar vlmMst1 * (- #10 - #3 * EVar vlmMst2 + #12 * EPow P2 (EVar
   vlmMst2)) - #72 * EPow P3 (EVar vlmMst2))) * EPow P3 (EVar vMst2) * EPow P4 (EVar vMst1) - #3 * EPow P2 (EVar
   vMst1) * (- #225 * EVar vDmsqst2 * EVar vs2t + #256 * EVar vMst2 * EVar vMt * (- #2 - EVar vlmMst2 + #3 * EPow P2
   (EVar vlmMst2)) + EVar vs2t * (- #420 - #64 * EVar vlmMst1 + #358 * EVar vlmMst2 + #96 * EVar vlmMst1 * EVar
   vlmMst2 + #497 * EPow P2 (EVar vlmMst2)) * EPow P2 (EVar vMst2)) * EPow P5 (EVar vMst2) - #2 * EVar vMst2 * (#675 *
   EVar vDmsqst2 * (EVar vlmMst1 - EVar vlmMst2) * EVar vs2t - #32 * EVar vMst2 * EVar vMt * (#11 + #371 * EVar
   vlmMst2 - #42 * EPow P2 (EVar vlmMst2) + #6 * EVar vlmMst1 * (- #21 - #5 * EVar vlmMst2 + #24 * EPow P2 (EVar
   vlmMst2)) - #144 * EPow P3 (EVar vlmMst2)) + #3 * EVar vs2t * EPow P2 (EVar vMst2) * (- #240 - #468 * EVar vlmMst2
   + #144 * (- #2 + #3 * EVar vlmMst2) * EPow P2 (EVar vlmMst1) + EVar vlmMst1 * (#580 - #22 * EVar vlmMst2 - #1137 *
   EPow P2 (EVar vlmMst2)) + #310 * EPow P2 (EVar vlmMst2) + #705 * EPow P3 (EVar vlmMst2))) * EPow P6 (EVar vMst1) +
   #12 * (#16 * EVar vMt * (#49 + #103 * EVar vlmMst2 - #36 * EPow P2 (EVar vlmMst2) + #4 * EVar vlmMst1 * (- #11 + #6
   * EVar vlmMst2 + #9 * EPow P2 (EVar vlmMst2)) - #36 * EPow P3 (EVar vlmMst2)) - EVar vMst2 * EVar vs2t * (#48 +
   #180 * EVar vlmMst2 + #272 * EVar vlmMst2 * EPow P2 (EVar vlmMst1) + #310 * EPow P2 (EVar vlmMst2) - EVar vlmMst1 *
   (#92 + #310 * EVar vlmMst2 + #635 * EPow P2 (EVar vlmMst2)) + #363 * EPow P3 (EVar vlmMst2))) * EPow P8 (EVar
   vMst1) + #96 * EVar vs2t * (- #2 + EVar vlmMst2 + #5 * EPow P2 (EVar vlmMst2)) * EPow P9 (EVar vMst2)) / EPow P2
   (EVar vSbeta) - #100 * EVar vMt * EVar vMuSUSY * (#2 * EPow P3 (EVar vMst2) * EPow P4 (EVar vMst1) * (#4050 * EVar
   vDmsqst2 * EVar vs2t * EPow P2 (EVar vMt) + #3 * EVar vs2t * EPow P2 (EVar vMst2) * (- #675 * EVar vDmsqst2 * (EVar
   vlmMst1 - EVar vlmMst2) * EPow P2 (EVar vs2t) + #2 * EPow P2 (EVar vMt) * (#860 - #434 * EVar vlmMst2 + #96 * (- #2
   + #3 * EVar vlmMst2) * EPow P2 (EVar vlmMst1) + #96 * EVar vlmMst1 * (#3 + EVar vlmMst2 - #6 * EPow P2 (EVar
   vlmMst2)) - #243 * EPow P2 (EVar vlmMst2) + #288 * EPow P3 (EVar vlmMst2))) - #144 * EVar vMt * EPow P2 (EVar vs2t)
   * (- #29 - #179 * EVar vlmMst2 + EVar vlmMst1 * (#60 + #18 * EVar vlmMst2 - #72 * EPow P2 (EVar vlmMst2)) + #18 *
   EPow P2 (EVar vlmMst2) + #72 * EPow P3 (EVar vlmMst2)) * EPow P3 (EVar vMst2) + #64 * EVar vMst2 * (#96 + #36 *
   EVar vlmMt + EVar vlmMst2 * (- #187 + #39 * EVar vlmMt) - #3 * (#19 + #6 * EVar vlmMt) * EPow P2 (EVar vlmMst2) -
   #18 * EVar vlmMst1 * (- #3 + #2 * EVar vlmMt - EVar vlmMst2 * (#3 + EVar vlmMt) + EPow P2 (EVar vlmMst2)) + #18 *
   EPow P3 (EVar vlmMst2)) * EPow P3 (EVar vMt) - #3 * (#40 - #1172 * EVar vlmMst2 + #48 * (- #2 + #3 * EVar vlmMst2)
   * EPow P2 (EVar vlmMst1) + #882 * EPow P2 (EVar vlmMst2) - #3 * EVar vlmMst1 * (- #500 + #502 * EVar vlmMst2 + #369
   * EPow P2 (EVar vlmMst2)) + #963 * EPow P3 (EVar vlmMst2)) * EPow P3 (EVar vs2t) * EPow P4 (EVar vMst2)) - #9 *
   EPow P2 (EVar vMst1) * (#900 * EVar vDmsqst2 * EVar vs2t * EPow P2 (EVar vMt) - #384 * EVar vMt * (#2 + EVar
   vlmMst2 - #3 * EPow P2 (EVar vlmMst2)) * EPow P2 (EVar vs2t) * EPow P3 (EVar vMst2) + #512 * EVar vMst2 * (#2 +
   EVar vlmMst2 - #3 * EPow P2 (EVar vlmMst2)) * EPow P3 (EVar vMt) + EPow P2 (EVar vMst2) * (- #4 * EVar vs2t * (-
   #324 + #134 * EVar vlmMst2 + #32 * EVar vlmMst1 * (- #2 + #3 * EVar vlmMst2) + #177 * EPow P2 (EVar vlmMst2)) *
   EPow P2 (EVar vMt) - #225 * EVar vDmsqst2 * EPow P3 (EVar vs2t)) + (- #484 + #390 * EVar vlmMst2 + #32 * EVar
   vlmMst1 * (- #2 + #3 * EVar vlmMst2) + #657 * EPow P2 (EVar vlmMst2)) * EPow P3 (EVar vs2t) * EPow P4 (EVar vMst2))
   * EPow P5 (EVar vMst2) + EPow P2 (EVar vMst2) * (- #1728 * EVar vMt * EPow P2 (EVar vMst2) * EPow P2 (EVar vs2t) *
   (#7 - #30 * EVar vlmMst2 + EVar vlmMst1 * (#11 + #2 * EVar vlmMst2 - #12 * EPow P2 (EVar vlmMst2)) - #2 * EPow P2
   (EVar vlmMst2) + #12 * EPow P3 (EVar vlmMst2)) - #1152 * EVar vMst2 * EVar vs2t * EPow P2 (EVar vMt) * ((#2 - #3 *
   EVar vlmMst2) * EPow P2 (EVar vlmMst1) + EVar vlmMst1 * (#8 - #2 * EVar vlmMst2 + #6 * EPow P2 (EVar vlmMst2)) - #3
   * (#6 + #5 * EVar vlmMst2 + EPow P3 (EVar vlmMst2))) + #128 * (#834 + EVar vlmMst2 * (#569 - #33 * EVar vlmMt) -
   #162 * EVar vlmMt + (#51 - #18 * EVar vlmMt) * EPow P2 (EVar vlmMst2) - #18 * EVar vlmMst1 * (#13 + EVar vlmMst2 -
   EVar vlmMst2 * EVar vlmMt + EPow P2 (EVar vlmMst2)) + #18 * EPow P3 (EVar vlmMst2)) * EPow P3 (EVar vMt) - #3 *
   EVar vMst2 * (#675 * EVar vDmsqst2 - EPow P2 (EVar vMst2) * (#260 + #1538 * EVar vlmMst2 + #768 * (#2 - #3 * EVar
   vlmMst2) * EPow P2 (EVar vlmMst1) + #1395 * EPow P2 (EVar vlmMst2) + #96 * EVar vlmMst1 * (- #7 - #27 * EVar
   vlmMst2 + #48 * EPow P2 (EVar vlmMst2)) - #2304 * EPow P3 (EVar vlmMst2))) * EPow P3 (EVar vs2t)) * EPow P6 (EVar
   vMst1) - #32 * (- #72 * EVar vMst2 * EVar vs2t * EPow P2 (EVar vMt) * (- #6 - #14 * EVar vlmMst2 + EVar vlmMst2 *
   EPow P2 (EVar vlmMst1) + EVar vlmMst1 * (#9 + #6 * EVar vlmMst2 - #2 * EPow P2 (EVar vlmMst2)) - #6 * EPow P2 (EVar
   vlmMst2) + EPow P3 (EVar vlmMst2)) + #27 * EVar vMt * EPow P2 (EVar vMst2) * EPow P2 (EVar vs2t) * (- #17 - #51 *
   EVar vlmMst2 + #4 * EPow P2 (EVar vlmMst2) - #4 * EVar vlmMst1 * (- #6 + EVar vlmMst2 + #3 * EPow P2 (EVar
   vlmMst2)) + #12 * EPow P3 (EVar vlmMst2)) + #4 * (#290 + EVar vlmMst2 * (#2447 - #645 * EVar vlmMt) - #375 * EVar
   vlmMt - #3 * (- #509 + #60 * EVar vlmMt) * EPow P2 (EVar vlmMst2) - #18 * EVar vlmMst1 * (#87 + EVar vlmMst2 * (#71
   - #10 * EVar vlmMt) - #22 * EVar vlmMt + #10 * EPow P2 (EVar vlmMst2)) + #180 * EPow P3 (EVar vlmMst2)) * EPow P3
   (EVar vMt) + #9 * (#16 * EVar vlmMst2 * EPow P2 (EVar vlmMst1) - #2 * EVar vlmMst1 * (#3 + #2 * EVar vlmMst2 + #16
   * EPow P2 (EVar vlmMst2)) + EVar vlmMst2 * (#7 + #4 * EVar vlmMst2 + #16 * EPow P2 (EVar vlmMst2))) * EPow P3 (EVar
   vMst2) * EPow P3 (EVar vs2t)) * EPow P8 (EVar vMst1) + #288 * EVar vs2t * (- #2 + EVar vlmMst2 + #5 * EPow P2 (EVar
   vlmMst2)) * (- #4 * EPow P2 (EVar vMt) + EPow P2 (EVar vMst2) * EPow P2 (EVar vs2t)) * EPow P9 (EVar vMst2)) / EVar
   vTbeta) / EPow P5 (EVar vMst2)) / (#675 * EPow P4 (EVar vMst1))) / #24) / EPow P2 (EVar vMgl)) - (#35 * EVar vMst2
   * EVar vthreeLoopFlag * EPow P2 (EVar vAl4p) * EPow P4 (EVar vMst1) * (- #4 * EVar vDmglst2 * EVar vMst2 * (#2 *
   EVar vMgl * (#27 * EPow P2 (EVar vMst2) * (#4 * EVar vMst2 * EPow P2 (EVar vMt) * (#8 * EVar vTbeta * (- #135 *
   EVar vDmsqst2 * EConst Cz3 * EPow P2 (EVar vMuSUSY) * EPow P2 (EVar vs2t) * (- #1 + EPow P2 (EVar vSbeta)) + #2 *
   EPow P2 (EVar vMt) * ((#83 * EConst Cz3 - #27 * EConst Cz4) * EPow P2 (EVar vMuSUSY) * (- #1 + EPow P2 (EVar
   vSbeta)) + #900 * EVar vDmsqst2 * EConst Cz3 * EPow P2 (EVar vSbeta))) + EVar vMst2 * (#2160 * EVar vDmsqst2 * EVar
   vMuSUSY * EConst Cz3 * EPow P2 (EVar vs2t) * EPow P2 (EVar vSbeta) + #2 * EVar vMuSUSY * EPow P2 (EVar vMt) * EPow
   P2 (EVar vSbeta) * (#18 * EConst Cz3 + #506 * EConst Cz4 - #105 * EPow P2 (EConst Cz2)) + EVar vMt * EVar vs2t *
   EVar vTbeta * (- #17280 * EVar vDmsqst2 * EConst Cz3 * EPow P2 (EVar vSbeta) + EPow P2 (EVar vMuSUSY) * (- #1 +
   EPow P2 (EVar vSbeta)) * (- #30274 * EConst Cz3 - #542 * EConst Cz4 + #5289 * EPow P2 (EConst Cz2))))) + #5760 *
   EVar vDmsqst2 * EVar vMuSUSY * EConst Cz3 * (EVar vMuSUSY * EVar vs2t * EVar vTbeta * (- #1 + EPow P2 (EVar
   vSbeta)) + #12 * EVar vMt * EPow P2 (EVar vSbeta)) * EPow P3 (EVar vMt) - #4 * EVar vMt * EPow P3 (EVar vMst2) *
   (EVar vMt * EVar vTbeta * EPow P2 (EVar vMuSUSY) * EPow P2 (EVar vs2t) * (- #1 + EPow P2 (EVar vSbeta)) * (#17615 *
   EConst Cz3 + #424 * EConst Cz4 + #474 * EPow P2 (EConst Cz2)) + EPow P2 (EVar vSbeta) * (#8 * EVar vMuSUSY * EVar
   vs2t * (- #439 * EConst Cz3 + #108 * EConst Cz4) * EPow P2 (EVar vMt) + #2 * EVar vTbeta * (#9017 * EConst Cz3 +
   #56 * EConst Cz4 + #84 * EPow P2 (EConst Cz2)) * EPow P3 (EVar vMt) + #1080 * EVar vDmsqst2 * EVar vMuSUSY * EConst
   Cz3 * EPow P3 (EVar vs2t))) + EVar vs2t * EPow P2 (EVar vSbeta) * (#2 * EVar vs2t * EPow P2 (EVar vMt) * (#8 * EVar
   vMst2 * EVar vTbeta * (- #439 * EConst Cz3 + #108 * EConst Cz4) + #3 * EVar vMuSUSY * (- #30274 * EConst Cz3 - #542
   * EConst Cz4 + #5289 * EPow P2 (EConst Cz2))) - #2 * EVar vMt * EPow P2 (EVar vs2t) * (#1440 * EVar vDmsqst2 * EVar
   vTbeta * EConst Cz3 + #2 * EVar vMst2 * EVar vMuSUSY * (#17615 * EConst Cz3 + #424 * EConst Cz4 + #474 * EPow P2
   (EConst Cz2)) + EVar vTbeta * EPow P2 (EVar vMst2) * (- #30274 * EConst Cz3 - #542 * EConst Cz4 + #5289 * EPow P2
   (EConst Cz2))) + #8 * EVar vTbeta * (- #18 * EConst Cz3 - #506 * EConst Cz4 + #105 * EPow P2 (EConst Cz2)) * EPow
   P3 (EVar vMt) + EVar vMst2 * EVar vTbeta * (#1080 * EVar vDmsqst2 * EConst Cz3 + EPow P2 (EVar vMst2) * (#17615 *
   EConst Cz3 + #424 * EConst Cz4 + #474 * EPow P2 (EConst Cz2))) * EPow P3 (EVar vs2t)) * EPow P4 (EVar vMst2)) -
   EPow P4 (EVar vMst1) * (#8 * EVar vs2t * (- (EVar vTbeta * EPow P2 (EVar vMuSUSY) * (- #1 + EPow P2 (EVar vSbeta))
   * (- #4 * (#395581 * EConst Cz3 + #659 * EConst Cz4) + #259215 * EPow P2 (EConst Cz2))) + EPow P2 (EVar vSbeta) *
   (#855360 * EVar vDmsqst2 * EVar vTbeta * EConst Cz3 - #36 * EVar vMst2 * EVar vMuSUSY * (#2806 * EConst Cz3 + #1514
   * EConst Cz4 + #2757 * EPow P2 (EConst Cz2)) - #4 * EVar vTbeta * EPow P2 (EVar vMst2) * (- #653582 * EConst Cz3 +
   #25730 * EConst Cz4 + #38595 * EPow P2 (EConst Cz2)))) * EPow P3 (EVar vMt) + EPow P2 (EVar vSbeta) * (#2 * EVar
   vMt * (#8 * EVar vMuSUSY * (#89947 * EConst Cz3 + #6332 * EConst Cz4 + #9498 * EPow P2 (EConst Cz2)) + EVar vMst2 *
   EVar vTbeta * (- #565214 * EConst Cz3 + #31142 * EConst Cz4 + #46713 * EPow P2 (EConst Cz2))) * EPow P3 (EVar
   vMst2) * EPow P3 (EVar vs2t) + #32 * (#2 * EVar vMst2 * EVar vTbeta * (- #591386 * EConst Cz3 + #5582 * EConst Cz4
   + #8373 * EPow P2 (EConst Cz2)) + EVar vMuSUSY * (- #834482 * EConst Cz3 + #28538 * EConst Cz4 + #48639 * EPow P2
   (EConst Cz2))) * EPow P4 (EVar vMt) + EVar vTbeta * (#48600 * EVar vDmsqst2 * EConst Cz3 + EPow P2 (EVar vMst2) *
   (#217283 * EConst Cz3 - #16796 * EConst Cz4 - #25194 * EPow P2 (EConst Cz2))) * EPow P3 (EVar vMst2) * EPow P4
   (EVar vs2t)) - #4 * EPow P2 (EVar vMt) * EPow P2 (EVar vs2t) * (EPow P2 (EVar vSbeta) * (#233280 * EVar vDmsqst2 *
   EVar vMuSUSY * EConst Cz3 + #3 * EVar vMuSUSY * EPow P2 (EVar vMst2) * (- #728116 * EConst Cz3 + #10126 * EConst
   Cz4 + #105585 * EPow P2 (EConst Cz2)) - #36 * EVar vTbeta * (- #734 * EConst Cz3 + #1538 * EConst Cz4 + #2307 *
   EPow P2 (EConst Cz2)) * EPow P3 (EVar vMst2)) - #4 * EVar vMst2 * EVar vTbeta * (EPow P2 (EVar vMuSUSY) * (- #1 +
   EPow P2 (EVar vSbeta)) * (#353116 * EConst Cz3 + #11327 * EConst Cz4 + #15897 * EPow P2 (EConst Cz2)) - #6075 *
   EVar vDmsqst2 * EConst Cz3 * (- #2 + EPow P2 (EVar vSbeta)) * EPow P4 (EVar vSbeta)))) + #18 * EPow P2 (EVar vMst1)
   * (#8 * EPow P2 (EVar vMst2) * EPow P2 (EVar vMt) * (#6480 * EVar vDmsqst2 * EVar vMuSUSY * EConst Cz3 * EPow P2
   (EVar vs2t) * EPow P2 (EVar vSbeta) - #24 * EVar vMuSUSY * EPow P2 (EVar vMt) * EPow P2 (EVar vSbeta) * (- #1675 *
   EConst Cz3 + #26 * EConst Cz4 + #93 * EPow P2 (EConst Cz2)) + EVar vMt * EVar vs2t * EVar vTbeta * (- #30240 * EVar
   vDmsqst2 * EConst Cz3 * EPow P2 (EVar vSbeta) + EPow P2 (EVar vMuSUSY) * (- #1 + EPow P2 (EVar vSbeta)) * (- #47456
   * EConst Cz3 - #709 * EConst Cz4 + #8535 * EPow P2 (EConst Cz2)))) + #43200 * EVar vDmsqst2 * EVar vMuSUSY * EConst
   Cz3 * (EVar vMuSUSY * EVar vs2t * EVar vTbeta * (- #1 + EPow P2 (EVar vSbeta)) + #8 * EVar vMt * EPow P2 (EVar
   vSbeta)) * EPow P3 (EVar vMt) + EVar vMt * EPow P3 (EVar vMst2) * (#12 * EVar vs2t * EPow P2 (EVar vMt) * EPow P2
   (EVar vSbeta) * (#8 * EVar vMuSUSY * (#590 * EConst Cz3 - #4 * EConst Cz4 + #75 * EPow P2 (EConst Cz2)) + EVar
   vMst2 * EVar vTbeta * (- #26782 * EConst Cz3 + #922 * EConst Cz4 + #1383 * EPow P2 (EConst Cz2))) + #3 * EVar vMt *
   EVar vMuSUSY * EPow P2 (EVar vs2t) * (- #8 * EVar vMuSUSY * EVar vTbeta * (- #1 + EPow P2 (EVar vSbeta)) * (#9747 *
   EConst Cz3 + #185 * EConst Cz4 + #237 * EPow P2 (EConst Cz2)) + EVar vMst2 * EPow P2 (EVar vSbeta) * (- #99002 *
   EConst Cz3 - #1210 * EConst Cz4 + #18273 * EPow P2 (EConst Cz2))) - #16 * EVar vTbeta * EPow P2 (EVar vSbeta) * (-
   #28846 * EConst Cz3 + #322 * EConst Cz4 + #483 * EPow P2 (EConst Cz2)) * EPow P3 (EVar vMt) - #2160 * EVar vDmsqst2
   * (#5 * EVar vMuSUSY + #6 * EVar vMst2 * EVar vTbeta) * EConst Cz3 * EPow P2 (EVar vSbeta) * EPow P3 (EVar vs2t)) +
   #6 * EPow P2 (EVar vs2t) * EPow P2 (EVar vSbeta) * (#180 * EVar vDmsqst2 * EVar vTbeta * EConst Cz3 * EPow P2 (EVar
   vs2t) - #4 * EVar vTbeta * EPow P2 (EVar vMt) * (#741 * EConst Cz3 + #100 * EConst Cz4 + #150 * EPow P2 (EConst
   Cz2)) - EVar vMt * EVar vMuSUSY * EVar vs2t * (#21373 * EConst Cz3 + #316 * EConst Cz4 + #474 * EPow P2 (EConst
   Cz2))) * EPow P5 (EVar vMst2) + EVar vTbeta * (#48 * EVar vMst2 * EPow P2 (EVar vMt) * (- #360 * EVar vDmsqst2 *
   EConst Cz3 * EPow P2 (EVar vMuSUSY) * EPow P2 (EVar vs2t) * (- #1 + EPow P2 (EVar vSbeta)) + EPow P2 (EVar vMt) *
   (#6480 * EVar vDmsqst2 * EConst Cz3 * EPow P2 (EVar vSbeta) + EPow P2 (EVar vMuSUSY) * (- #1 + EPow P2 (EVar
   vSbeta)) * (#250 * EConst Cz3 - #94 * EConst Cz4 + #21 * EPow P2 (EConst Cz2)))) + EPow P2 (EVar vSbeta) * (#3 *
   EVar vMst2 * EVar vs2t * (#1879 * EConst Cz3 - #54 * EConst Cz4) + EVar vMt * (#8180 * EConst Cz3 - #416 * EConst
   Cz4 - #2406 * EPow P2 (EConst Cz2))) * EPow P3 (EVar vs2t) * EPow P6 (EVar vMst2)))) + EVar vDmglst2 * EVar
   vxDmglst2 * (- #2 * EPow P4 (EVar vMst1) * (#8 * EVar vs2t * (- (EVar vTbeta * EPow P2 (EVar vMuSUSY) * (- #1 +
   EPow P2 (EVar vSbeta)) * (- #4 * (#395581 * EConst Cz3 + #659 * EConst Cz4) + #259215 * EPow P2 (EConst Cz2))) +
   EPow P2 (EVar vSbeta) * (#855360 * EVar vDmsqst2 * EVar vTbeta * EConst Cz3 - #36 * EVar vMst2 * EVar vMuSUSY *
   (#2806 * EConst Cz3 + #1514 * EConst Cz4 + #2757 * EPow P2 (EConst Cz2)) - #4 * EVar vTbeta * EPow P2 (EVar vMst2)
   * (- #653582 * EConst Cz3 + #25730 * EConst Cz4 + #38595 * EPow P2 (EConst Cz2)))) * EPow P3 (EVar vMt) + EPow P2
   (EVar vSbeta) * (#2 * EVar vMt * (#8 * EVar vMuSUSY * (#89947 * EConst Cz3 + #6332 * EConst Cz4 + #9498 * EPow P2
   (EConst Cz2)) + EVar vMst2 * EVar vTbeta * (- #565214 * EConst Cz3 + #31142 * EConst Cz4 + #46713 * EPow P2 (EConst
   Cz2))) * EPow P3 (EVar vMst2) * EPow P3 (EVar vs2t) + #32 * (#2 * EVar vMst2 * EVar vTbeta * (- #591386 * EConst
   Cz3 + #5582 * EConst Cz4 + #8373 * EPow P2 (EConst Cz2)) + EVar vMuSUSY * (- #834482 * EConst Cz3 + #28538 * EConst
   Cz4 + #48639 * EPow P2 (EConst Cz2))) * EPow P4 (EVar vMt) + EVar vTbeta * (#48600 * EVar vDmsqst2 * EConst Cz3 +
   EPow P2 (EVar vMst2) * (#217283 * EConst Cz3 - #16796 * EConst Cz4 - #25194 * EPow P2 (EConst Cz2))) * EPow P3
   (EVar vMst2) * EPow P4 (EVar vs2t)) - #4 * EPow P2 (EVar vMt) * EPow P2 (EVar vs2t) * (EPow P2 (EVar vSbeta) *
   (#233280 * EVar vDmsqst2 * EVar vMuSUSY * EConst Cz3 + #3 * EVar vMuSUSY * EPow P2 (EVar vMst2) * (- #728116 *
   EConst Cz3 + #10126 * EConst Cz4 + #105585 * EPow P2 (EConst Cz2)) - #36 * EVar vTbeta * (- #734 * EConst Cz3 +
   #1538 * EConst Cz4 + #2307 * EPow P2 (EConst Cz2)) * EPow P3 (EVar vMst2)) - #4 * EVar vMst2 * EVar vTbeta * (EPow
   P2 (EVar vMuSUSY) * (- #1 + EPow P2 (EVar vSbeta)) * (#353116 * EConst Cz3 + #11327 * EConst Cz4 + #15897 * EPow P2
   (EConst Cz2)) - #6075 * EVar vDmsqst2 * EConst Cz3 * (- #2 + EPow P2 (EVar vSbeta)) * EPow P4 (EVar vSbeta)))) + #6
   * EPow P2 (EVar vMst1) * (#8 * EPow P2 (EVar vMst2) * EPow P2 (EVar vMt) * (#38880 * EVar vDmsqst2 * EVar vMuSUSY *
   EConst Cz3 * EPow P2 (EVar vs2t) * EPow P2 (EVar vSbeta) + #2 * EVar vMuSUSY * EPow P2 (EVar vMt) * EPow P2 (EVar
   vSbeta) * (- #221681 * EConst Cz3 + #6920 * EConst Cz4 + #6492 * EPow P2 (EConst Cz2)) + EVar vMt * EVar vs2t *
   EVar vTbeta * (- #181440 * EVar vDmsqst2 * EConst Cz3 * EPow P2 (EVar vSbeta) + EPow P2 (EVar vMuSUSY) * (- #1 +
   EPow P2 (EVar vSbeta)) * (- #608572 * EConst Cz3 - #12344 * EConst Cz4 + #88647 * EPow P2 (EConst Cz2)))) + #259200
   * EVar vDmsqst2 * EVar vMuSUSY * EConst Cz3 * (EVar vMuSUSY * EVar vs2t * EVar vTbeta * (- #1 + EPow P2 (EVar
   vSbeta)) + #8 * EVar vMt * EPow P2 (EVar vSbeta)) * EPow P3 (EVar vMt) - #8 * EVar vMt * EPow P3 (EVar vMst2) *
   (EVar vTbeta * (EVar vMt * EPow P2 (EVar vMuSUSY) * EPow P2 (EVar vs2t) * (- #1 + EPow P2 (EVar vSbeta)) * (#404588
   * EConst Cz3 + #10819 * EConst Cz4 + #3471 * EPow P2 (EConst Cz2)) - #2 * EPow P2 (EVar vSbeta) * (- #446434 *
   EConst Cz3 + #9406 * EConst Cz4 + #14109 * EPow P2 (EConst Cz2)) * EPow P3 (EVar vMt)) + EVar vMuSUSY * EPow P2
   (EVar vSbeta) * (- #72 * EVar vs2t * EPow P2 (EVar vMt) * (#3124 * EConst Cz3 + #29 * EConst Cz4 + #165 * EPow P2
   (EConst Cz2)) + #8100 * EVar vDmsqst2 * EConst Cz3 * EPow P3 (EVar vs2t))) + #2 * EVar vs2t * EPow P2 (EVar vSbeta)
   * (- (EVar vMt * EPow P2 (EVar vs2t) * (#38880 * EVar vDmsqst2 * EVar vTbeta * EConst Cz3 + EVar vMst2 * EVar
   vMuSUSY * (#932531 * EConst Cz3 + #16612 * EConst Cz4 + #1590 * EPow P2 (EConst Cz2)))) + #3 * EVar vs2t * EPow P2
   (EVar vMt) * (- #3 * EVar vMst2 * EVar vTbeta * (- #9125 * EConst Cz3 + #1592 * EConst Cz4 + #2388 * EPow P2
   (EConst Cz2)) + EVar vMuSUSY * (- #551402 * EConst Cz3 - #17194 * EConst Cz4 + #84045 * EPow P2 (EConst Cz2))) - #4
   * EVar vTbeta * (- #249586 * EConst Cz3 + #8614 * EConst Cz4 + #12921 * EPow P2 (EConst Cz2)) * EPow P3 (EVar vMt)
   + #3240 * EVar vDmsqst2 * EVar vMst2 * EVar vTbeta * EConst Cz3 * EPow P3 (EVar vs2t)) * EPow P4 (EVar vMst2) +
   EVar vTbeta * (#48 * EVar vMst2 * EPow P2 (EVar vMt) * (- #2160 * EVar vDmsqst2 * EConst Cz3 * EPow P2 (EVar
   vMuSUSY) * EPow P2 (EVar vs2t) * (- #1 + EPow P2 (EVar vSbeta)) + EPow P2 (EVar vMt) * (#38880 * EVar vDmsqst2 *
   EConst Cz3 * EPow P2 (EVar vSbeta) + EPow P2 (EVar vMuSUSY) * (- #1 + EPow P2 (EVar vSbeta)) * (#27278 * EConst Cz3
   - #902 * EConst Cz4 + #105 * EPow P2 (EConst Cz2)))) + EPow P2 (EVar vSbeta) * (EVar vMst2 * EVar vs2t * (#123355 *
   EConst Cz3 - #5026 * EConst Cz4 - #5352 * EPow P2 (EConst Cz2)) + #8 * EVar vMt * (- #28585 * EConst Cz3 + #2425 *
   EConst Cz4 + #2301 * EPow P2 (EConst Cz2))) * EPow P3 (EVar vs2t) * EPow P6 (EVar vMst2))) + #9 * EPow P2 (EVar
   vMst2) * (#8 * EPow P2 (EVar vMst2) * EPow P2 (EVar vMt) * (#6480 * EVar vDmsqst2 * EVar vMuSUSY * EConst Cz3 *
   EPow P2 (EVar vs2t) * EPow P2 (EVar vSbeta) + #2 * EVar vMuSUSY * EPow P2 (EVar vMt) * EPow P2 (EVar vSbeta) * (-
   #64592 * EConst Cz3 + #1742 * EConst Cz4 + #21 * EPow P2 (EConst Cz2)) + EVar vMt * EVar vs2t * EVar vTbeta * (-
   #51840 * EVar vDmsqst2 * EConst Cz3 * EPow P2 (EVar vSbeta) + EPow P2 (EVar vMuSUSY) * (- #1 + EPow P2 (EVar
   vSbeta)) * (- #221914 * EConst Cz3 - #2498 * EConst Cz4 + #31083 * EPow P2 (EConst Cz2)))) + #34560 * EVar vDmsqst2
   * EVar vMuSUSY * EConst Cz3 * (EVar vMuSUSY * EVar vs2t * EVar vTbeta * (- #1 + EPow P2 (EVar vSbeta)) + #12 * EVar
   vMt * EPow P2 (EVar vSbeta)) * EPow P3 (EVar vMt) - #4 * EVar vMt * EPow P3 (EVar vMst2) * (EVar vTbeta * (EVar vMt
   * EPow P2 (EVar vMuSUSY) * EPow P2 (EVar vs2t) * (- #1 + EPow P2 (EVar vSbeta)) * (#228607 * EConst Cz3 + #8888 *
   EConst Cz4 + #4098 * EPow P2 (EConst Cz2)) - #2 * EPow P2 (EVar vSbeta) * (- #260483 * EConst Cz3 + #728 * EConst
   Cz4 + #1092 * EPow P2 (EConst Cz2)) * EPow P3 (EVar vMt)) + EVar vMuSUSY * EPow P2 (EVar vSbeta) * (- #18 * EVar
   vs2t * EPow P2 (EVar vMt) * (#19703 * EConst Cz3 - #376 * EConst Cz4 + #84 * EPow P2 (EConst Cz2)) + #6480 * EVar
   vDmsqst2 * EConst Cz3 * EPow P3 (EVar vs2t))) + #4 * EVar vs2t * EPow P2 (EVar vSbeta) * (- (EVar vMt * EPow P2
   (EVar vs2t) * (#4320 * EVar vDmsqst2 * EVar vTbeta * EConst Cz3 + EVar vMst2 * EVar vMuSUSY * (#228607 * EConst Cz3
   + #8888 * EConst Cz4 + #4098 * EPow P2 (EConst Cz2)))) + #3 * EVar vs2t * EPow P2 (EVar vMt) * (- #3 * EVar vMst2 *
   EVar vTbeta * (#19703 * EConst Cz3 - #376 * EConst Cz4 + #84 * EPow P2 (EConst Cz2)) + EVar vMuSUSY * (- #221914 *
   EConst Cz3 - #2498 * EConst Cz4 + #31083 * EPow P2 (EConst Cz2))) - #4 * EVar vTbeta * (- #64592 * EConst Cz3 +
   #1742 * EConst Cz4 + #21 * EPow P2 (EConst Cz2)) * EPow P3 (EVar vMt) + #1620 * EVar vDmsqst2 * EVar vMst2 * EVar
   vTbeta * EConst Cz3 * EPow P3 (EVar vs2t)) * EPow P4 (EVar vMst2) + EVar vTbeta * (#192 * EVar vMst2 * EPow P2
   (EVar vMt) * (- #135 * EVar vDmsqst2 * EConst Cz3 * EPow P2 (EVar vMuSUSY) * EPow P2 (EVar vs2t) * (- #1 + EPow P2
   (EVar vSbeta)) + EPow P2 (EVar vMt) * ((#1990 * EConst Cz3 - #81 * EConst Cz4) * EPow P2 (EVar vMuSUSY) * (- #1 +
   EPow P2 (EVar vSbeta)) + #1800 * EVar vDmsqst2 * EConst Cz3 * EPow P2 (EVar vSbeta))) + EPow P2 (EVar vSbeta) *
   (EVar vMt * (#887656 * EConst Cz3 + #9992 * EConst Cz4 - #124332 * EPow P2 (EConst Cz2)) + EVar vMst2 * EVar vs2t *
   (#228607 * EConst Cz3 + #8888 * EConst Cz4 + #4098 * EPow P2 (EConst Cz2))) * EPow P3 (EVar vs2t) * EPow P6 (EVar
   vMst2))))) + #3 * EPow P2 (EVar vMgl) * (- (EPow P4 (EVar vMst1) * (- #32 * EVar vs2t * EPow P2 (EVar vMt) * EPow
   P2 (EVar vSbeta) * (#3 * EVar vMuSUSY * EVar vs2t * (#11816 * EConst Cz3 + #4954 * EConst Cz4 - #6177 * EPow P2
   (EConst Cz2)) + #8 * EVar vMt * EVar vTbeta * (- #57758 * EConst Cz3 + #1370 * EConst Cz4 + #2055 * EPow P2 (EConst
   Cz2))) * EPow P3 (EVar vMst2) + #4 * EPow P2 (EVar vs2t) * EPow P2 (EVar vSbeta) * (#4 * EVar vTbeta * EPow P2
   (EVar vMt) * (- #65326 * EConst Cz3 + #13714 * EConst Cz4 + #20571 * EPow P2 (EConst Cz2)) + #4 * EVar vMt * EVar
   vs2t * (EVar vMst2 * EVar vTbeta * (- #44630 * EConst Cz3 + #878 * EConst Cz4 + #1317 * EPow P2 (EConst Cz2)) + #7
   * EVar vMuSUSY * (- #43868 * EConst Cz3 + #1970 * EConst Cz4 + #2955 * EPow P2 (EConst Cz2))) - EVar vTbeta * EPow
   P2 (EVar vs2t) * (#40 * EVar vDmsqst2 * (- #260 * EConst Cz3 + #14 * EConst Cz4 + #21 * EPow P2 (EConst Cz2)) +
   EPow P2 (EVar vMst2) * (#4 * (- #5225 + #162 * EVar vlmMst1 - #162 * EVar vlmMst2) * EConst Cz3 + #2294 * EConst
   Cz4 + #5385 * EPow P2 (EConst Cz2)))) * EPow P4 (EVar vMst2) - EPow P2 (EVar vMst2) * (#16 * EVar vTbeta * EPow P2
   (EVar vMt) * EPow P2 (EVar vs2t) * (- #160 * EVar vDmsqst2 * EPow P2 (EVar vSbeta) * (#2 * (- #7 * EConst Cz3 +
   EConst Cz4) + #3 * EPow P2 (EConst Cz2)) + EPow P2 (EVar vMuSUSY) * (#1 - EPow P2 (EVar vSbeta)) * (- #8 * (#91963
   + #162 * EVar vlmMst1 - #162 * EVar vlmMst2) * EConst Cz3 + #27446 * EConst Cz4 + #35823 * EPow P2 (EConst Cz2))) +
   EPow P2 (EVar vSbeta) * (#64 * EVar vMuSUSY * EVar vs2t * (- #27086 * EConst Cz3 + #12062 * EConst Cz4 + #18093 *
   EPow P2 (EConst Cz2)) * EPow P3 (EVar vMt) - #33280 * EVar vDmsqst2 * EVar vMt * EVar vMuSUSY * (#2 * (- #7 *
   EConst Cz3 + EConst Cz4) + #3 * EPow P2 (EConst Cz2)) * EPow P3 (EVar vs2t) + #1024 * EVar vTbeta * (#24241 *
   EConst Cz3 + #146 * EConst Cz4 + #219 * EPow P2 (EConst Cz2)) * EPow P4 (EVar vMt) - #5 * EVar vTbeta * EVar
   vxDmsqst2 * EPow P2 (EVar vDmsqst2) * (#2453 * EConst Cz3 + #448 * EConst Cz4 + #672 * EPow P2 (EConst Cz2)) * EPow
   P4 (EVar vs2t))) - #64 * EVar vMst2 * EVar vMt * (- (EVar vs2t * EVar vTbeta * EPow P2 (EVar vMt) * (#25920 * EVar
   vDmsqst2 * EConst Cz3 * EPow P2 (EVar vSbeta) + EPow P2 (EVar vMuSUSY) * (- #1 + EPow P2 (EVar vSbeta)) * (- #99632
   * EConst Cz3 - #11764 * EConst Cz4 + #20505 * EPow P2 (EConst Cz2)))) - #4 * EVar vMuSUSY * EPow P2 (EVar vSbeta) *
   (- #107072 * EConst Cz3 + #3326 * EConst Cz4 + #3045 * EPow P2 (EConst Cz2)) * EPow P3 (EVar vMt) + #405 * EVar
   vDmsqst2 * EConst Cz3 * EPow P2 (EVar vs2t) * EPow P2 (EVar vSbeta) * (#96 * EVar vMt * EVar vMuSUSY - #5 * EVar
   vDmsqst2 * EVar vs2t * EVar vTbeta * EVar vxDmsqst2 * (- #2 - #2 * EPow P2 (EVar vSbeta) + EPow P4 (EVar vSbeta))))
   + #32 * EVar vMt * (- #10 * EVar vDmsqst2 * EVar vMt * (- (EVar vTbeta * EPow P2 (EVar vMuSUSY) * EPow P2 (EVar
   vs2t) * (- #1 + EPow P2 (EVar vSbeta)) * (- #1771 * EConst Cz3 + #442 * EConst Cz4 + #663 * EPow P2 (EConst Cz2)))
   + #2 * EVar vMt * EPow P2 (EVar vSbeta) * (#3888 * EVar vMt * EVar vTbeta * EConst Cz3 + EVar vMuSUSY * EVar vs2t *
   (- #1930 * EConst Cz3 + #106 * EConst Cz4 + #159 * EPow P2 (EConst Cz2)))) - #6 * EVar vTbeta * EPow P2 (EVar
   vMuSUSY) * (- #1 + EPow P2 (EVar vSbeta)) * (#1502 * EConst Cz3 + #2062 * EConst Cz4 + #1635 * EPow P2 (EConst
   Cz2)) * EPow P3 (EVar vMt) - #5 * EVar vxDmsqst2 * EPow P2 (EVar vDmsqst2) * EPow P2 (EVar vs2t) * EPow P2 (EVar
   vSbeta) * (#2 * EVar vMuSUSY * EVar vs2t * (- #3034 * EConst Cz3 + #94 * EConst Cz4 + #141 * EPow P2 (EConst Cz2))
   + #3 * EVar vMt * EVar vTbeta * (#20 * EConst Cz4 + #30 * EPow P2 (EConst Cz2) + EConst Cz3 * (- #140 - #162 * EPow
   P2 (EVar vSbeta) + #81 * EPow P4 (EVar vSbeta))))))) + #6 * EPow P2 (EVar vMst1) * (#34560 * EVar vDmsqst2 * EVar
   vMst2 * EConst Cz3 * EPow P2 (EVar vMt) * (EVar vMuSUSY * (#16 * EPow P2 (EVar vMt) + #3 * EVar vDmsqst2 * EVar
   vxDmsqst2 * EPow P2 (EVar vs2t)) * EPow P2 (EVar vSbeta) - #2 * EVar vMt * EVar vs2t * EVar vTbeta * (- #7 * EPow
   P2 (EVar vMuSUSY) * (- #1 + EPow P2 (EVar vSbeta)) + #4 * EVar vDmsqst2 * EVar vxDmsqst2 * EPow P2 (EVar vSbeta)))
   + #320 * EVar vxDmsqst2 * EPow P2 (EVar vDmsqst2) * EPow P2 (EVar vMt) * (#1080 * EVar vTbeta * EConst Cz3 * EPow
   P2 (EVar vMt) * EPow P2 (EVar vSbeta) - #8 * EVar vMt * EVar vMuSUSY * EVar vs2t * EPow P2 (EVar vSbeta) * (#2 * (-
   #7 * EConst Cz3 + EConst Cz4) + #3 * EPow P2 (EConst Cz2)) + EVar vTbeta * EPow P2 (EVar vMuSUSY) * EPow P2 (EVar
   vs2t) * (- #1 + EPow P2 (EVar vSbeta)) * (- #944 * EConst Cz3 + #14 * EConst Cz4 + #21 * EPow P2 (EConst Cz2))) -
   #2 * EVar vMt * EPow P2 (EVar vMst2) * (- #5 * EVar vxDmsqst2 * EPow P2 (EVar vDmsqst2) * EPow P2 (EVar vs2t) *
   EPow P2 (EVar vSbeta) * (#2 * EVar vMt * EVar vTbeta * (#7 * EConst Cz3 + #80 * EConst Cz4 + #120 * EPow P2 (EConst
   Cz2)) + EVar vMuSUSY * EVar vs2t * (- #16999 * EConst Cz3 + #352 * EConst Cz4 + #528 * EPow P2 (EConst Cz2))) -
   #240 * EVar vDmsqst2 * EVar vMt * (- (EVar vTbeta * EPow P2 (EVar vMuSUSY) * EPow P2 (EVar vs2t) * (- #1 + EPow P2
   (EVar vSbeta)) * (- #35 * EConst Cz3 + #26 * EConst Cz4 + #39 * EPow P2 (EConst Cz2))) + #2 * EVar vMt * EPow P2
   (EVar vSbeta) * (#288 * EVar vMt * EVar vTbeta * EConst Cz3 + EVar vMuSUSY * EVar vs2t * (- #202 * EConst Cz3 + #10
   * EConst Cz4 + #15 * EPow P2 (EConst Cz2)))) - #288 * EVar vTbeta * EPow P2 (EVar vMuSUSY) * (- #1 + EPow P2 (EVar
   vSbeta)) * (#218 * EConst Cz3 + #50 * EConst Cz4 + #21 * EPow P2 (EConst Cz2)) * EPow P3 (EVar vMt)) + #64 * EVar
   vMt * EPow P3 (EVar vMst2) * (- #270 * EVar vDmsqst2 * (- #24 * EVar vMt * EVar vMuSUSY + EVar vDmsqst2 * EVar vs2t
   * EVar vTbeta * EVar vxDmsqst2) * EConst Cz3 * EPow P2 (EVar vs2t) * EPow P2 (EVar vSbeta) - EVar vs2t * EVar
   vTbeta * EPow P2 (EVar vMt) * (#4320 * EVar vDmsqst2 * EConst Cz3 * EPow P2 (EVar vSbeta) + EPow P2 (EVar vMuSUSY)
   * (- #1 + EPow P2 (EVar vSbeta)) * (- #14636 * EConst Cz3 - #1135 * EConst Cz4 + #2388 * EPow P2 (EConst Cz2))) -
   #4 * EVar vMuSUSY * EPow P2 (EVar vSbeta) * (- #8219 * EConst Cz3 + #326 * EConst Cz4 + #165 * EPow P2 (EConst
   Cz2)) * EPow P3 (EVar vMt)) - EPow P4 (EVar vMst2) * (- #16 * EVar vTbeta * EPow P2 (EVar vMt) * EPow P2 (EVar
   vs2t) * (- #60 * EVar vDmsqst2 * EPow P2 (EVar vSbeta) * (#2 * (- #7 * EConst Cz3 + EConst Cz4) + #3 * EPow P2
   (EConst Cz2)) - EPow P2 (EVar vMuSUSY) * (- #1 + EPow P2 (EVar vSbeta)) * ((- #71438 - #216 * EVar vlmMst1 + #216 *
   EVar vlmMst2) * EConst Cz3 + #2276 * EConst Cz4 + #2523 * EPow P2 (EConst Cz2))) + EPow P2 (EVar vSbeta) * (- #16 *
   EVar vMuSUSY * EVar vs2t * (#3718 * EConst Cz3 + #3470 * EConst Cz4 + #5205 * EPow P2 (EConst Cz2)) * EPow P3 (EVar
   vMt) + #960 * EVar vDmsqst2 * EVar vMt * EVar vMuSUSY * (- #52 * EConst Cz3 + #10 * EConst Cz4 + #15 * EPow P2
   (EConst Cz2)) * EPow P3 (EVar vs2t) - #32 * EVar vTbeta * (#69050 * EConst Cz3 + #418 * EConst Cz4 + #627 * EPow P2
   (EConst Cz2)) * EPow P4 (EVar vMt) + #5 * EVar vTbeta * EVar vxDmsqst2 * EPow P2 (EVar vDmsqst2) * (- #1895 *
   EConst Cz3 + #128 * EConst Cz4 + #192 * EPow P2 (EConst Cz2)) * EPow P4 (EVar vs2t))) + #8 * EVar vs2t * EPow P2
   (EVar vSbeta) * (- #4 * EVar vMt * EPow P2 (EVar vs2t) * (#1080 * EVar vDmsqst2 * EVar vTbeta * EConst Cz3 + EVar
   vMst2 * EVar vMuSUSY * ((- #23848 - #54 * EVar vlmMst1 + #54 * EVar vlmMst2) * EConst Cz3 + #958 * EConst Cz4 +
   #1275 * EPow P2 (EConst Cz2))) + EVar vs2t * EPow P2 (EVar vMt) * (EVar vMuSUSY * (#68262 * EConst Cz3 + #9030 *
   EConst Cz4 - #13671 * EPow P2 (EConst Cz2)) - #2 * EVar vMst2 * EVar vTbeta * (#4 * (- #55 + #54 * EVar vlmMst1 -
   #54 * EVar vlmMst2) * EConst Cz3 + #826 * EConst Cz4 + #1887 * EPow P2 (EConst Cz2))) + #4 * EVar vTbeta * (-
   #48454 * EConst Cz3 + #754 * EConst Cz4 + #1131 * EPow P2 (EConst Cz2)) * EPow P3 (EVar vMt) + #15 * EVar vDmsqst2
   * EVar vMst2 * EVar vTbeta * (- #173 * EConst Cz3 + #14 * EConst Cz4 + #21 * EPow P2 (EConst Cz2)) * EPow P3 (EVar
   vs2t)) * EPow P5 (EVar vMst2) + #4 * EVar vTbeta * EPow P2 (EVar vSbeta) * (- #4 * EVar vMt * (- #6518 * EConst Cz3
   + #740 * EConst Cz4 + #219 * EPow P2 (EConst Cz2)) + EVar vMst2 * EVar vs2t * (- #23954 * EConst Cz3 + #1556 *
   EConst Cz4 + #2577 * EPow P2 (EConst Cz2))) * EPow P3 (EVar vs2t) * EPow P7 (EVar vMst2)) + #9 * EVar vMst2 *
   (#11520 * EVar vDmsqst2 * EConst Cz3 * EPow P2 (EVar vMt) * (#2 * EVar vDmsqst2 * EVar vMt * EVar vMuSUSY * EVar
   vxDmsqst2 * (EVar vMuSUSY * EVar vs2t * EVar vTbeta * (- #1 + EPow P2 (EVar vSbeta)) + #4 * EVar vMt * EPow P2
   (EVar vSbeta)) + EPow P2 (EVar vMst2) * (EVar vMuSUSY * (#16 * EPow P2 (EVar vMt) + #3 * EVar vDmsqst2 * EVar
   vxDmsqst2 * EPow P2 (EVar vs2t)) * EPow P2 (EVar vSbeta) - #4 * EVar vMt * EVar vs2t * EVar vTbeta * (- #3 * EPow
   P2 (EVar vMuSUSY) * (- #1 + EPow P2 (EVar vSbeta)) + #2 * EVar vDmsqst2 * EVar vxDmsqst2 * EPow P2 (EVar vSbeta))))
   + #20 * EVar vMst2 * EVar vxDmsqst2 * EPow P2 (EVar vDmsqst2) * EPow P2 (EVar vMt) * (#4 * EVar vMt * EPow P2 (EVar
   vSbeta) * (#675 * EVar vMt * EVar vTbeta * EConst Cz3 + EVar vMuSUSY * EVar vs2t * (#301 * EConst Cz3 - #16 *
   EConst Cz4 - #24 * EPow P2 (EConst Cz2))) + EVar vTbeta * EPow P2 (EVar vMuSUSY) * EPow P2 (EVar vs2t) * (- #1 +
   EPow P2 (EVar vSbeta)) * (- #4403 * EConst Cz3 + #32 * EConst Cz4 + #48 * EPow P2 (EConst Cz2))) - #4 * EVar vMt *
   EPow P3 (EVar vMst2) * (- #5 * EVar vxDmsqst2 * EPow P2 (EVar vDmsqst2) * EPow P2 (EVar vs2t) * EPow P2 (EVar
   vSbeta) * (#2 * EVar vMt * EVar vTbeta * (- #301 * EConst Cz3 + #16 * EConst Cz4 + #24 * EPow P2 (EConst Cz2)) +
   EVar vMuSUSY * EVar vs2t * (- #4403 * EConst Cz3 + #32 * EConst Cz4 + #48 * EPow P2 (EConst Cz2))) - #240 * EVar
   vDmsqst2 * EVar vMt * (- (EVar vTbeta * EPow P2 (EVar vMuSUSY) * EPow P2 (EVar vs2t) * (- #1 + EPow P2 (EVar
   vSbeta)) * (#23 * EConst Cz3 + #2 * EConst Cz4 + #3 * EPow P2 (EConst Cz2))) + #2 * EVar vMt * EPow P2 (EVar
   vSbeta) * (#48 * EVar vMt * EVar vTbeta * EConst Cz3 + EVar vMuSUSY * EVar vs2t * (- #58 * EConst Cz3 + #2 * EConst
   Cz4 + #3 * EPow P2 (EConst Cz2)))) - #64 * EVar vTbeta * (#230 * EConst Cz3 + #27 * EConst Cz4) * EPow P2 (EVar
   vMuSUSY) * (- #1 + EPow P2 (EVar vSbeta)) * EPow P3 (EVar vMt)) - (#96 * EVar vTbeta * EPow P2 (EVar vMt) * EPow P2
   (EVar vs2t) * (EPow P2 (EVar vMuSUSY) * (#1 - EPow P2 (EVar vSbeta)) * (#2 * (#1319 + #6 * EVar vlmMst1 - #6 * EVar
   vlmMst2) * EConst Cz3 - #40 * EConst Cz4 + #3 * EPow P2 (EConst Cz2)) + #10 * EVar vDmsqst2 * EPow P2 (EVar vSbeta)
   * (- #58 * EConst Cz3 + #2 * EConst Cz4 + #3 * EPow P2 (EConst Cz2))) + EPow P2 (EVar vSbeta) * (- #96 * EVar
   vMuSUSY * EVar vs2t * (#6 * (#77 - #8 * EVar vlmMst1 + #8 * EVar vlmMst2) * EConst Cz3 + #202 * EConst Cz4 + #159 *
   EPow P2 (EConst Cz2)) * EPow P3 (EVar vMt) + #960 * EVar vDmsqst2 * EVar vMt * EVar vMuSUSY * (#23 * EConst Cz3 +
   #2 * EConst Cz4 + #3 * EPow P2 (EConst Cz2)) * EPow P3 (EVar vs2t) + EVar vTbeta * (- #192 * (#8 * (#514 - #3 *
   (EVar vlmMst1 + EVar vlmMst2) + #6 * EVar vlmMt) * EConst Cz3 + #14 * EConst Cz4 + #21 * EPow P2 (EConst Cz2)) *
   EPow P4 (EVar vMt) + #5 * EVar vxDmsqst2 * EPow P2 (EVar vDmsqst2) * (- #4403 * EConst Cz3 + #32 * EConst Cz4 + #48
   * EPow P2 (EConst Cz2)) * EPow P4 (EVar vs2t)))) * EPow P5 (EVar vMst2) + EVar vMt * (#32 * (- #360 * EVar vDmsqst2
   * (- #18 * EVar vMt * EVar vMuSUSY + EVar vDmsqst2 * EVar vs2t * EVar vTbeta * EVar vxDmsqst2) * EConst Cz3 * EPow
   P2 (EVar vs2t) * EPow P2 (EVar vSbeta) - #5 * EVar vs2t * EVar vTbeta * EPow P2 (EVar vMt) * (#1152 * EVar vDmsqst2
   * EConst Cz3 * EPow P2 (EVar vSbeta) + EPow P2 (EVar vMuSUSY) * (- #1 + EPow P2 (EVar vSbeta)) * (- #2386 * EConst
   Cz3 - #102 * EConst Cz4 + #333 * EPow P2 (EConst Cz2))) - #6 * EVar vMuSUSY * EPow P2 (EVar vSbeta) * (- #1922 *
   EConst Cz3 + #206 * EConst Cz4 + #21 * EPow P2 (EConst Cz2)) * EPow P3 (EVar vMt)) * EPow P4 (EVar vMst2) - #48 *
   EVar vs2t * EPow P2 (EVar vSbeta) * (#1440 * EVar vDmsqst2 * EVar vTbeta * EConst Cz3 * EPow P2 (EVar vs2t) - #4 *
   EVar vTbeta * EPow P2 (EVar vMt) * (- #1922 * EConst Cz3 + #206 * EConst Cz4 + #21 * EPow P2 (EConst Cz2)) + #5 *
   EVar vMt * EVar vMuSUSY * EVar vs2t * (- #2386 * EConst Cz3 - #102 * EConst Cz4 + #333 * EPow P2 (EConst Cz2))) *
   EPow P6 (EVar vMst2)) + #48 * EPow P2 (EVar vs2t) * EPow P2 (EVar vSbeta) * (#2 * EVar vMt * EVar vMuSUSY * EVar
   vs2t * (#2 * (#1319 + #6 * EVar vlmMst1 - #6 * EVar vlmMst2) * EConst Cz3 - #40 * EConst Cz4 + #3 * EPow P2 (EConst
   Cz2)) + EVar vTbeta * (#5 * EVar vDmsqst2 * EPow P2 (EVar vs2t) * (#23 * EConst Cz3 + #2 * EConst Cz4 + #3 * EPow
   P2 (EConst Cz2)) - EPow P2 (EVar vMt) * (#6 * (#77 - #8 * EVar vlmMst1 + #8 * EVar vlmMst2) * EConst Cz3 + #202 *
   EConst Cz4 + #159 * EPow P2 (EConst Cz2)))) * EPow P7 (EVar vMst2) + #8 * EVar vTbeta * EPow P2 (EVar vSbeta) * (-
   #3 * EVar vMst2 * EVar vs2t * (#2 * (#1319 + #6 * EVar vlmMst1 - #6 * EVar vlmMst2) * EConst Cz3 - #40 * EConst Cz4
   + #3 * EPow P2 (EConst Cz2)) + #10 * EVar vMt * (- #2386 * EConst Cz3 - #102 * EConst Cz4 + #333 * EPow P2 (EConst
   Cz2))) * EPow P3 (EVar vs2t) * EPow P8 (EVar vMst2)))) + #2 * EVar vAl4p * EConst Cz2 * EPow P2 (EVar vMst1) *
   (#544320 * EVar vtwoLoopFlag * EVar vxMst * EPow P2 (EVar vMt) * (#2 * EVar vMgl * (EVar vs2t * EVar vTbeta * EPow
   P2 (EVar vMuSUSY) * (#17 * EVar vDmglst2 * EVar vMt + EVar vMgl * EVar vMt + EVar vDmglst2 * EVar vMst2 * EVar vs2t
   * (- #1 + EPow P2 (EVar vSbeta))) + (#16 * (#2 * EVar vDmglst2 - EVar vMgl) * EVar vMuSUSY * EPow P2 (EVar vMt) +
   #8 * (#6 * EVar vDmglst2 - EVar vMgl) * EVar vMst2 * EVar vTbeta * EPow P2 (EVar vMt) - EVar vMt * EVar vs2t * EVar
   vTbeta * (#4 * (#5 * EVar vDmglst2 - EVar vMgl) * EPow P2 (EVar vMst2) + (#17 * EVar vDmglst2 + EVar vMgl) * EPow
   P2 (EVar vMuSUSY)) - #6 * EVar vDmglst2 * EVar vMuSUSY * EPow P2 (EVar vMst2) * EPow P2 (EVar vs2t)) * EPow P2
   (EVar vSbeta)) + EVar vxDmglst2 * EPow P2 (EVar vDmglst2) * (- #16 * (#7 * EVar vMuSUSY + #15 * EVar vMst2 * EVar
   vTbeta) * EPow P2 (EVar vMt) * EPow P2 (EVar vSbeta) - #3 * EVar vMst2 * EVar vMuSUSY * EPow P2 (EVar vs2t) * (-
   (EVar vMuSUSY * EVar vTbeta * (- #1 + EPow P2 (EVar vSbeta))) + #10 * EVar vMst2 * EPow P2 (EVar vSbeta)) + #2 *
   EVar vMt * EVar vs2t * EVar vTbeta * (- #41 * EPow P2 (EVar vMuSUSY) * (- #1 + EPow P2 (EVar vSbeta)) + #40 * EPow
   P2 (EVar vMst2) * EPow P2 (EVar vSbeta)))) * EPow P8 (EVar vMst1) - #420 * EVar vAl4p * EVar vMst2 * EVar
   vthreeLoopFlag * (EVar vxDmsqst2 * EPow P2 (EVar vDmsqst2) * EPow P2 (EVar vMgl) * (#4 * EVar vMt * EVar vMuSUSY *
   EPow P2 (EVar vSbeta) * (#243 * EVar vMst2 * EVar vMt * EPow P2 (EVar vMst1) * (#80 * (#1 + EVar vlmMst1 - EVar
   vlmMst2) * EPow P2 (EVar vMst1) + #40 * (#3 + EVar vlmMst1 - EVar vlmMst2) * EPow P2 (EVar vMst2)) * EPow P2 (EVar
   vs2t) - #12960 * (- #2 + EVar vlmMst1 - #2 * EVar vlmMst2 + EVar vlmMt) * EVar vMst2 * EPow P2 (EVar vMst1) * EPow
   P3 (EVar vMt) + #30 * EVar vs2t * EPow P2 (EVar vMt) * (#627 * EPow P2 (EVar vMst1) * EPow P2 (EVar vMst2) + #1348
   * EPow P4 (EVar vMst1) + #108 * EPow P4 (EVar vMst2)) - #5 * EPow P3 (EVar vs2t) * (#3 * (#1057 + #162 * EVar
   vlmMst1 - #162 * EVar vlmMst2) * EPow P2 (EVar vMst2) * EPow P4 (EVar vMst1) + #9 * (#191 + #18 * EVar vlmMst1 -
   #18 * EVar vlmMst2) * EPow P2 (EVar vMst1) * EPow P4 (EVar vMst2) + #4180 * EPow P6 (EVar vMst1) + #162 * EPow P6
   (EVar vMst2))) + EVar vTbeta * (- #25920 * (#3 + EVar vlmMst1 - EVar vlmMst2) * EVar vMst2 * EVar vs2t * EPow P2
   (EVar vMst1) * EPow P2 (EVar vMuSUSY) * EPow P3 (EVar vMt) + #162 * EVar vMt * EPow P2 (EVar vs2t) * (#10 * (#209 +
   #18 * EVar vlmMst1 - #18 * EVar vlmMst2) * EVar vMt * EPow P2 (EVar vMst1) * EPow P2 (EVar vMst2) * EPow P2 (EVar
   vMuSUSY) / #9 + #40 * (#421 + #54 * EVar vlmMst1 - #54 * EVar vlmMst2) * EVar vMt * EPow P2 (EVar vMuSUSY) * EPow
   P4 (EVar vMst1) / #27 + #20 * EVar vMt * EPow P2 (EVar vMuSUSY) * EPow P4 (EVar vMst2) + #5 * ((- #51 + #6 * EVar
   vlmMst1 - #6 * EVar vlmMst2) * EVar vMt - #2 * (#11 + #10 * EVar vlmMst1 - #10 * EVar vlmMst2) * EVar vMst2 * EVar
   vs2t) * (- #2 + EPow P2 (EVar vSbeta)) * EPow P4 (EVar vSbeta) * EPow P6 (EVar vMst1)) + EPow P2 (EVar vSbeta) * (-
   #25920 * EVar vMst2 * EVar vs2t * EPow P2 (EVar vMst1) * ((#14 - #4 * EVar vlmMst1 + #8 * EVar vlmMst2 - #4 * EVar
   vlmMt) * EPow P2 (EVar vMst1) + (#5 - #2 * EVar vlmMst1 + #4 * EVar vlmMst2 - #2 * EVar vlmMt) * EPow P2 (EVar
   vMst2) + (- #3 - EVar vlmMst1 + EVar vlmMst2) * EPow P2 (EVar vMuSUSY)) * EPow P3 (EVar vMt) + #3240 * EVar vMst2 *
   EVar vMt * EPow P2 (EVar vMst1) * EPow P3 (EVar vs2t) * (#4 * (#1 - EVar vlmMst1 + EVar vlmMst2) * EPow P2 (EVar
   vMst1) * EPow P2 (EVar vMst2) + (#17 + #10 * EVar vlmMst1 - #10 * EVar vlmMst2) * EPow P4 (EVar vMst1) - #4 * (#3 +
   EVar vlmMst1 - EVar vlmMst2) * EPow P4 (EVar vMst2)) + #12960 * ((#13 - #3 * EVar vlmMst1 + #6 * EVar vlmMst2 - #3
   * EVar vlmMt) * EPow P2 (EVar vMst1) * EPow P2 (EVar vMst2) + #5 * (#9 - #2 * EVar vlmMst1 + #4 * EVar vlmMst2 - #2
   * EVar vlmMt) * EPow P4 (EVar vMst1) + EPow P4 (EVar vMst2)) * EPow P4 (EVar vMt) + #9 * EPow P2 (EVar vMst2) *
   EPow P4 (EVar vs2t) * (#20 * (#121 + #27 * EVar vlmMst1 - #27 * EVar vlmMst2) * EPow P2 (EVar vMst2) * EPow P4
   (EVar vMst1) / #3 + #5 * (#173 + #18 * EVar vlmMst1 - #18 * EVar vlmMst2) * EPow P2 (EVar vMst1) * EPow P4 (EVar
   vMst2) + (EDec 5605555555555555 13 - #270 * EVar vlmMst1 + #270 * EVar vlmMst2) * EPow P6 (EVar vMst1) + #90 * EPow
   P6 (EVar vMst2)) - #60 * EPow P2 (EVar vMt) * EPow P2 (EVar vs2t) * (#721 * (EPow P2 (EVar vMst1) + EPow P2 (EVar
   vMst2)) * EPow P4 (EVar vMst1) + #519 * EPow P2 (EVar vMst1) * EPow P4 (EVar vMst2) + EPow P2 (EVar vMuSUSY) * (#3
   * (#209 + #18 * EVar vlmMst1 - #18 * EVar vlmMst2) * EPow P2 (EVar vMst1) * EPow P2 (EVar vMst2) + #4 * (#421 + #54
   * EVar vlmMst1 - #54 * EVar vlmMst2) * EPow P4 (EVar vMst1) + #54 * EPow P4 (EVar vMst2)) + #108 * EPow P6 (EVar
   vMst2))))) - #108 * EVar vMst2 * EVar vxDR2DRMOD * (- (EVar vxDmglst2 * EPow P2 (EVar vDmglst2) * (EVar vMt * EVar
   vMuSUSY * EPow P2 (EVar vSbeta) * (#384 * EVar vMt * EPow P2 (EVar vMst1) * EPow P2 (EVar vMst2) * EPow P2 (EVar
   vs2t) * ((- #1 + #6 * EVar vlmMst2) * EPow P2 (EVar vMst2) * (EPow P2 (EVar vMst1) + EPow P2 (EVar vMst2)) + (#1 +
   #3 * EVar vlmMst2) * EPow P4 (EVar vMst1)) + #512 * EPow P2 (EVar vMst1) * EPow P3 (EVar vMt) * (- (EVar vlmMst2 *
   EPow P2 (EVar vMst1) * EPow P2 (EVar vMst2)) + #2 * (#11 + #5 * EVar vlmMst2) * EPow P4 (EVar vMst1) - (- #2 + EVar
   vlmMst2) * EPow P4 (EVar vMst2)) + #864 * EVar vs2t * (- EPow P2 (EVar vMst1) + EPow P2 (EVar vMst2)) * EPow P2
   (EVar vMt) * EPow P5 (EVar vMst2) + #9 * EPow P3 (EVar vs2t) * (#16 * (#8 + #27 * EVar vlmMst1 - #39 * EVar
   vlmMst2) * EPow P2 (EVar vMst1) * EPow P2 (EVar vMst2) / #9 + #24 * EPow P4 (EVar vMst1) - #24 * EPow P4 (EVar
   vMst2)) * EPow P5 (EVar vMst2)) + EVar vTbeta * (#8 * EVar vs2t * EPow P2 (EVar vMt) * EPow P2 (EVar vMuSUSY) * (#2
   * (- #32 * (- #1 + #6 * EVar vlmMst2) * EVar vMt + (- #8 - #27 * EVar vlmMst1 + #39 * EVar vlmMst2) * EVar vMst2 *
   EVar vs2t) * EPow P2 (EVar vMst2) * EPow P4 (EVar vMst1) + (#32 * (#1 - #6 * EVar vlmMst2) * EVar vMt + (#11 - #54
   * EVar vlmMst1 + #78 * EVar vlmMst2) * EVar vMst2 * EVar vs2t) * EPow P2 (EVar vMst1) * EPow P4 (EVar vMst2) - #2 *
   (#48 * (#1 + #3 * EVar vlmMst2) * EVar vMt + (#7 * EVar vlmMst1 - #15 * EVar vlmMst2) * EVar vMst2 * EVar vs2t) *
   EPow P6 (EVar vMst1) + #27 * EVar vs2t * EPow P7 (EVar vMst2)) + EPow P2 (EVar vSbeta) * (#32 * EVar vMst2 * EPow
   P4 (EVar vMt) * (- #48 * (#4 + EVar vlmMst2) * EPow P2 (EVar vMst2) * EPow P4 (EVar vMst1) + #43 * EPow P2 (EVar
   vMst1) * EPow P4 (EVar vMst2) + #192 * (#3 + #2 * EVar vlmMst2) * EPow P6 (EVar vMst1) + #27 * EPow P6 (EVar
   vMst2)) + EPow P4 (EVar vs2t) * EPow P5 (EVar vMst2) * (#2 * (- #11 + #54 * EVar vlmMst1 - #78 * EVar vlmMst2) *
   EPow P2 (EVar vMst2) * EPow P4 (EVar vMst1) - #2 * (#43 + #54 * EVar vlmMst1 - #78 * EVar vlmMst2) * EPow P2 (EVar
   vMst1) * EPow P4 (EVar vMst2) + #14 * EPow P6 (EVar vMst1) + #54 * EPow P6 (EVar vMst2)) - #256 * EVar vs2t * EPow
   P2 (EVar vMst1) * EPow P3 (EVar vMt) * (#3 * (#2 * (#5 + #3 * EVar vlmMst2) * EPow P2 (EVar vMst2) - (#1 + #3 *
   EVar vlmMst2) * EPow P2 (EVar vMuSUSY)) * EPow P4 (EVar vMst1) + (#1 - #6 * EVar vlmMst2) * EPow P2 (EVar vMuSUSY)
   * EPow P4 (EVar vMst2) - #2 * EPow P2 (EVar vMst1) * ((- #1 + #6 * EVar vlmMst2) * EPow P2 (EVar vMst2) * EPow P2
   (EVar vMuSUSY) + #2 * EPow P4 (EVar vMst2)) - #2 * (- #2 + EVar vlmMst2) * EPow P6 (EVar vMst2)) + #8 * EVar vMst2
   * EPow P2 (EVar vMt) * EPow P2 (EVar vs2t) * (EPow P4 (EVar vMst1) * (#2 * (#8 + #27 * EVar vlmMst1 - #39 * EVar
   vlmMst2) * EPow P2 (EVar vMst2) * EPow P2 (EVar vMuSUSY) - #54 * EPow P4 (EVar vMst2)) + #2 * (#7 * EVar vlmMst1 -
   #15 * EVar vlmMst2) * EPow P2 (EVar vMuSUSY) * EPow P6 (EVar vMst1) - #27 * (#2 * EPow P2 (EVar vMst2) + EPow P2
   (EVar vMuSUSY)) * EPow P6 (EVar vMst2) + EPow P2 (EVar vMst1) * ((- #11 + #54 * EVar vlmMst1 - #78 * EVar vlmMst2)
   * EPow P2 (EVar vMuSUSY) * EPow P4 (EVar vMst2) + #108 * EPow P6 (EVar vMst2))) + #128 * (#1 - #6 * EVar vlmMst2) *
   EVar vMt * EPow P2 (EVar vMst1) * EPow P3 (EVar vs2t) * EPow P8 (EVar vMst2))))) + EVar vMgl * (EVar vMt * EVar
   vMuSUSY * EPow P2 (EVar vSbeta) * (- #384 * (EVar vDmglst2 + #3 * EVar vDmglst2 * EVar vlmMst2 + EVar vMgl + EVar
   vlmMst2 * EVar vMgl) * EVar vMt * EPow P2 (EVar vMst1) * EPow P2 (EVar vMst2) * EPow P2 (EVar vs2t) * (EPow P2
   (EVar vMst1) * EPow P2 (EVar vMst2) + EPow P4 (EVar vMst1) + EPow P4 (EVar vMst2)) + #512 * EPow P2 (EVar vMst1) *
   EPow P3 (EVar vMt) * (- (EVar vDmglst2 * (#7 + EVar vlmMst2) * EPow P2 (EVar vMst1) * EPow P2 (EVar vMst2)) - #2 *
   EVar vDmglst2 * (#11 + #5 * EVar vlmMst2) * EPow P4 (EVar vMst1) + EVar vDmglst2 * (- #1 + EVar vlmMst2) * EPow P4
   (EVar vMst2) + (#1 + EVar vlmMst2) * EVar vMgl * (#3 * EPow P2 (EVar vMst1) * EPow P2 (EVar vMst2) + #6 * EPow P4
   (EVar vMst1) + EPow P4 (EVar vMst2))) + #32 * (#7 * EVar vDmglst2 - #13 * EVar vMgl) * EVar vs2t * (EPow P2 (EVar
   vMst1) - EPow P2 (EVar vMst2)) * EPow P2 (EVar vMt) * EPow P5 (EVar vMst2) - EPow P3 (EVar vs2t) * (#16 * (EVar
   vDmglst2 * (#7 * EVar vlmMst1 - #15 * EVar vlmMst2) + (- #4 - #13 * EVar vlmMst1 + #9 * EVar vlmMst2) * EVar vMgl)
   * EPow P2 (EVar vMst1) * EPow P2 (EVar vMst2) + #8 * (#7 * EVar vDmglst2 - #13 * EVar vMgl) * EPow P4 (EVar vMst1)
   - #8 * (#7 * EVar vDmglst2 - #13 * EVar vMgl) * EPow P4 (EVar vMst2)) * EPow P5 (EVar vMst2)) + EVar vTbeta * (EVar
   vs2t * EPow P2 (EVar vMt) * EPow P2 (EVar vMuSUSY) * (#256 * (EVar vDmglst2 + #3 * EVar vDmglst2 * EVar vlmMst2 +
   EVar vMgl + EVar vlmMst2 * EVar vMgl) * EVar vMt * EPow P2 (EVar vMst1) * (#2 * EPow P2 (EVar vMst1) * EPow P2
   (EVar vMst2) + #3 * EPow P4 (EVar vMst1) + EPow P4 (EVar vMst2)) - #8 * EVar vMst2 * EVar vs2t * (- #2 * (EVar
   vDmglst2 * (#7 * EVar vlmMst1 - #15 * EVar vlmMst2) + (- #4 - #13 * EVar vlmMst1 + #9 * EVar vlmMst2) * EVar vMgl)
   * (EPow P2 (EVar vMst1) + EPow P2 (EVar vMst2)) * EPow P4 (EVar vMst1) + (EVar vDmglst2 * (#7 - #14 * EVar vlmMst1
   + #30 * EVar vlmMst2) + (- #5 + #26 * EVar vlmMst1 - #18 * EVar vlmMst2) * EVar vMgl) * EPow P2 (EVar vMst1) * EPow
   P4 (EVar vMst2) + (#7 * EVar vDmglst2 - #13 * EVar vMgl) * EPow P6 (EVar vMst2))) + EPow P2 (EVar vSbeta) * (- #2 *
   (EPow P2 (EVar vMst1) - EPow P2 (EVar vMst2)) * (EVar vDmglst2 * (#2 * (#7 * EVar vlmMst1 - #15 * EVar vlmMst2) *
   EPow P2 (EVar vMst1) * EPow P2 (EVar vMst2) + #7 * EPow P4 (EVar vMst1) - #7 * EPow P4 (EVar vMst2)) + EVar vMgl *
   (- #2 * (#4 + #13 * EVar vlmMst1 - #9 * EVar vlmMst2) * EPow P2 (EVar vMst1) * EPow P2 (EVar vMst2) - #13 * EPow P4
   (EVar vMst1) + #13 * EPow P4 (EVar vMst2))) * EPow P4 (EVar vs2t) * EPow P5 (EVar vMst2) + #256 * EVar vs2t * EPow
   P2 (EVar vMst1) * EPow P3 (EVar vMt) * (#6 * (EVar vDmglst2 * (#5 + #3 * EVar vlmMst2) - (#1 + EVar vlmMst2) * EVar
   vMgl) * EPow P2 (EVar vMst2) * EPow P4 (EVar vMst1) + #4 * (EVar vDmglst2 * (#3 + EVar vlmMst2) - (#1 + EVar
   vlmMst2) * EVar vMgl) * EPow P2 (EVar vMst1) * EPow P4 (EVar vMst2) - (EVar vDmglst2 + #3 * EVar vDmglst2 * EVar
   vlmMst2 + EVar vMgl + EVar vlmMst2 * EVar vMgl) * EPow P2 (EVar vMuSUSY) * (#2 * EPow P2 (EVar vMst1) * EPow P2
   (EVar vMst2) + #3 * EPow P4 (EVar vMst1) + EPow P4 (EVar vMst2)) - #2 * (EVar vDmglst2 * (- #1 + EVar vlmMst2) +
   (#1 + EVar vlmMst2) * EVar vMgl) * EPow P6 (EVar vMst2)) - #32 * EVar vMst2 * EPow P4 (EVar vMt) * (EVar vDmglst2 *
   (#96 * (#2 + EVar vlmMst2) * EPow P2 (EVar vMst2) * EPow P4 (EVar vMst1) + #39 * EPow P2 (EVar vMst1) * EPow P4
   (EVar vMst2) + #192 * (#3 + #2 * EVar vlmMst2) * EPow P6 (EVar vMst1) + #7 * EPow P6 (EVar vMst2)) - EVar vMgl *
   (#48 * (#1 + EVar vlmMst2) * (#2 * EPow P2 (EVar vMst1) + EPow P2 (EVar vMst2)) * EPow P4 (EVar vMst1) + (#29 + #16
   * EVar vlmMst2) * EPow P2 (EVar vMst1) * EPow P4 (EVar vMst2) + #13 * EPow P6 (EVar vMst2))) + #8 * EVar vMst2 *
   EPow P2 (EVar vMt) * EPow P2 (EVar vs2t) * (#2 * (#7 * EVar vDmglst2 - #13 * EVar vMgl) * EPow P2 (EPow P2 (EVar
   vMst1) - EPow P2 (EVar vMst2)) * EPow P4 (EVar vMst2) + EPow P2 (EVar vMuSUSY) * (- #2 * (EVar vDmglst2 * (#7 *
   EVar vlmMst1 - #15 * EVar vlmMst2) + (- #4 - #13 * EVar vlmMst1 + #9 * EVar vlmMst2) * EVar vMgl) * (EPow P2 (EVar
   vMst1) + EPow P2 (EVar vMst2)) * EPow P4 (EVar vMst1) + (EVar vDmglst2 * (#7 - #14 * EVar vlmMst1 + #30 * EVar
   vlmMst2) + (- #5 + #26 * EVar vlmMst1 - #18 * EVar vlmMst2) * EVar vMgl) * EPow P2 (EVar vMst1) * EPow P4 (EVar
   vMst2) + (#7 * EVar vDmglst2 - #13 * EVar vMgl) * EPow P6 (EVar vMst2))) + #128 * (EVar vDmglst2 + #3 * EVar
   vDmglst2 * EVar vlmMst2 + EVar vMgl + EVar vlmMst2 * EVar vMgl) * EVar vMt * EPow P2 (EVar vMst1) * EPow P3 (EVar
   vs2t) * EPow P8 (EVar vMst2)))))) + #2 * EVar vxDmglst2 * EPow P2 (EVar vDmglst2) * EPow P2 (EVar vMst2) * (-
   #68040 * EVar vtwoLoopFlag * EPow P2 (EVar vMst1) * (- #4 * EPow P2 (EVar vMt) * (- #8 * (#4 * EVar vMuSUSY + #9 *
   EVar vMst2 * EVar vTbeta) * EPow P2 (EVar vMt) * EPow P2 (EVar vSbeta) - #3 * EVar vMst2 * EVar vMuSUSY * EPow P2
   (EVar vs2t) * (- (EVar vMuSUSY * EVar vTbeta * (- #1 + EPow P2 (EVar vSbeta))) + #10 * EVar vMst2 * EPow P2 (EVar
   vSbeta)) + #2 * EVar vMt * EVar vs2t * EVar vTbeta * (- #31 * EPow P2 (EVar vMuSUSY) * (- #1 + EPow P2 (EVar
   vSbeta)) + #12 * EPow P2 (EVar vMst2) * EPow P2 (EVar vSbeta))) * EPow P4 (EVar vMst1) + EPow P2 (EVar vMst1) *
   EPow P2 (EVar vMst2) * (#12 * EVar vMst2 * EVar vMuSUSY * EPow P2 (EVar vMt) * EPow P2 (EVar vs2t) * (- (EVar
   vMuSUSY * EVar vTbeta * (- #1 + EPow P2 (EVar vSbeta))) + #10 * EVar vMst2 * EPow P2 (EVar vSbeta)) + EVar vTbeta *
   (#168 * EVar vs2t * EPow P2 (EVar vMuSUSY) * (- #1 + EPow P2 (EVar vSbeta)) * EPow P3 (EVar vMt) + (#4 * EVar vMt -
   #3 * EVar vMst2 * EVar vs2t) * EPow P2 (EVar vSbeta) * EPow P3 (EVar vs2t) * EPow P4 (EVar vMst2)) + #32 * (EVar
   vMuSUSY + EVar vMst2 * EVar vTbeta) * EPow P2 (EVar vSbeta) * EPow P4 (EVar vMt)) + EPow P4 (EVar vMst2) * (#12 *
   EVar vMst2 * EVar vMuSUSY * EPow P2 (EVar vMt) * EPow P2 (EVar vs2t) * (- (EVar vMuSUSY * EVar vTbeta * (- #1 +
   EPow P2 (EVar vSbeta))) + #11 * EVar vMst2 * EPow P2 (EVar vSbeta)) + #8 * EVar vs2t * EVar vTbeta * (#11 * EPow P2
   (EVar vMuSUSY) * (- #1 + EPow P2 (EVar vSbeta)) - #4 * EPow P2 (EVar vMst2) * EPow P2 (EVar vSbeta)) * EPow P3
   (EVar vMt) - #4 * EVar vMt * (#3 * EVar vMuSUSY + #11 * EVar vMst2 * EVar vTbeta) * EPow P2 (EVar vSbeta) * EPow P3
   (EVar vMst2) * EPow P3 (EVar vs2t) + #32 * EVar vMuSUSY * EPow P2 (EVar vSbeta) * EPow P4 (EVar vMt) + #3 * EVar
   vTbeta * EPow P2 (EVar vSbeta) * EPow P4 (EVar vs2t) * EPow P5 (EVar vMst2))) + EVar vAl4p * EVar vthreeLoopFlag *
   (EVar vTbeta * (#28 * EPow P2 (EVar vMst1) * EPow P2 (EVar vMuSUSY) * EPow P3 (EVar vMt) * (#9 * EPow P2 (EVar
   vMst2) * (#192 * (#617 + #2040 * EVar vlmMst2) * EVar vMst2 * EVar vMt - #43200 * EVar vDmsqst2 * (#2 + #3 * EVar
   vlmMst1 - #3 * EVar vlmMst2) * EVar vs2t + (#897737 + #47880 * EVar vlmMst1 + #238680 * EVar vlmMst2) * EVar vs2t *
   EPow P2 (EVar vMst2)) + #6 * EPow P2 (EVar vMst1) * (#6 * (#122051 + #1800 * EVar vlmMst1 + #274680 * EVar vlmMst2)
   * EVar vMst2 * EVar vMt + #64800 * EVar vDmsqst2 * (#1 - #9 * EVar vlmMst1 + #9 * EVar vlmMst2) * EVar vs2t +
   (#1263161 - #156600 * EVar vlmMst1 + #979560 * EVar vlmMst2) * EVar vs2t * EPow P2 (EVar vMst2)) + #2 * (#15057833
   - #4014360 * EVar vlmMst1 + #5563080 * EVar vlmMst2) * EVar vs2t * EPow P4 (EVar vMst1)) - #252 * EVar vMst2 * EPow
   P2 (EVar vMt) * EPow P2 (EVar vs2t) * (- #2700 * EVar vDmsqst2 * (- #93 + #10 * EVar vlmMst1 - #10 * EVar vlmMst2)
   * (- #2 + EPow P2 (EVar vSbeta)) * EPow P4 (EVar vSbeta) * EPow P6 (EVar vMst1) + EPow P2 (EVar vMuSUSY) * (#30 *
   (#21223 + #13230 * EVar vlmMst1 + #702 * EVar vlmMst2) * EPow P2 (EVar vMst2) * EPow P4 (EVar vMst1) + #9 * (#88931
   + #33120 * EVar vlmMst1 + #13320 * EVar vlmMst2) * EPow P2 (EVar vMst1) * EPow P4 (EVar vMst2) - #97200 * EVar
   vDmsqst2 * (#3 * (#2 + EVar vlmMst1 - EVar vlmMst2) * EPow P2 (EVar vMst1) * EPow P2 (EVar vMst2) + (#3 + #8 * EVar
   vlmMst1 - #8 * EVar vlmMst2) * EPow P4 (EVar vMst1) + EPow P4 (EVar vMst2)) + #4 * (#2128489 - #307800 * EVar
   vlmMst1 + #377460 * EVar vlmMst2) * EPow P6 (EVar vMst1) + #38880 * EPow P6 (EVar vMst2)) / #9) + EPow P2 (EVar
   vSbeta) * (#4 * EVar vs2t * EPow P2 (EVar vMst1) * EPow P3 (EVar vMt) * (- #6 * EPow P2 (EVar vMst1) * EPow P2
   (EVar vMst2) * ((- #47845349 + #6357960 * EVar vlmMst1 - #13388760 * EVar vlmMst2 + #7030800 * EVar vlmMt) * EPow
   P2 (EVar vMst2) + #7 * (#1263161 - #156600 * EVar vlmMst1 + #979560 * EVar vlmMst2) * EPow P2 (EVar vMuSUSY)) + #14
   * (#4 * (- #9908167 + #949320 * EVar vlmMst1 - #1769040 * EVar vlmMst2 + #217080 * EVar vlmMt) * EPow P2 (EVar
   vMst2) + (- #15057833 + #4014360 * EVar vlmMst1 - #5563080 * EVar vlmMst2) * EPow P2 (EVar vMuSUSY)) * EPow P4
   (EVar vMst1) - #9 * ((- #5322098 + #670320 * EVar vlmMst1 - #2817360 * EVar vlmMst2 + #816480 * EVar vlmMt) * EPow
   P2 (EVar vMst2) + #7 * (#897737 + #47880 * EVar vlmMst1 + #238680 * EVar vlmMst2) * EPow P2 (EVar vMuSUSY)) * EPow
   P4 (EVar vMst2) + #2721600 * EVar vDmsqst2 * ((#2 + #3 * EVar vlmMst1 - #3 * EVar vlmMst2) * EPow P2 (EVar vMst2) *
   EPow P2 (EVar vMuSUSY) + EPow P2 (EVar vMst1) * ((- #51 + #14 * EVar vlmMst1 - #28 * EVar vlmMst2 + #14 * EVar
   vlmMt) * EPow P2 (EVar vMst2) + (- #1 + #9 * EVar vlmMst1 - #9 * EVar vlmMst2) * EPow P2 (EVar vMuSUSY)) + (- #87 +
   #22 * EVar vlmMst1 - #44 * EVar vlmMst2 + #22 * EVar vlmMt) * EPow P4 (EVar vMst1) + (- #19 + #6 * EVar vlmMst1 -
   #12 * EVar vlmMst2 + #6 * EVar vlmMt) * EPow P4 (EVar vMst2))) + #2520 * EVar vMst2 * EPow P4 (EVar vMt) * (- #2 *
   EPow P2 (EVar vMst1) * EPow P2 (EVar vMst2) * (#5 * (#66191 - #9288 * EVar vlmMst1 + #11952 * EVar vlmMst2 - #16488
   * EVar vlmMt) * EPow P2 (EVar vMst2) + #48 * (#617 + #2040 * EVar vlmMst2) * EPow P2 (EVar vMuSUSY)) / #5 - #2 *
   ((#52628795 - #5738040 * EVar vlmMst1 + #11332440 * EVar vlmMst2 - #5972400 * EVar vlmMt) * EPow P2 (EVar vMst2) +
   #21 * (#122051 + #1800 * EVar vlmMst1 + #274680 * EVar vlmMst2) * EPow P2 (EVar vMuSUSY)) * EPow P4 (EVar vMst1) /
   #105 + #4320 * EVar vDmsqst2 * ((#23 - #5 * EVar vlmMst1 + #10 * EVar vlmMst2 - #5 * EVar vlmMt) * EPow P2 (EVar
   vMst1) * EPow P2 (EVar vMst2) + (#77 - #18 * EVar vlmMst1 + #36 * EVar vlmMst2 - #18 * EVar vlmMt) * EPow P4 (EVar
   vMst1) + EPow P4 (EVar vMst2)) + (EDec 972837434920635 9 - #186624 * EVar vlmMst1 + #349056 * EVar vlmMst2 - #43200
   * EVar vlmMt) * EPow P6 (EVar vMst1) - #1728 * EPow P6 (EVar vMst2)) + #36 * EVar vMst2 * EPow P2 (EVar vMt) * EPow
   P2 (EVar vs2t) * (- #10 * EPow P2 (EVar vMst2) * (#9 * (#5208 * EVar vlmMst1 - #37 * (#7339 + #3192 * EVar
   vlmMst2)) * EPow P2 (EVar vMst2) - #7 * (#21223 + #13230 * EVar vlmMst1 + #702 * EVar vlmMst2) * EPow P2 (EVar
   vMuSUSY)) * EPow P4 (EVar vMst1) / #3 + EPow P2 (EVar vMst1) * ((#2218086 - #32760 * EVar vlmMst1 + #4145400 * EVar
   vlmMst2) * EPow P2 (EVar vMst2) + #7 * (#88931 + #33120 * EVar vlmMst1 + #13320 * EVar vlmMst2) * EPow P2 (EVar
   vMuSUSY)) * EPow P4 (EVar vMst2) + #28 * (#45 * (#78533 + #6732 * EVar vlmMst1 + #180 * EVar vlmMst2) * EPow P2
   (EVar vMst2) + (#2128489 - #307800 * EVar vlmMst1 + #377460 * EVar vlmMst2) * EPow P2 (EVar vMuSUSY)) * EPow P6
   (EVar vMst1) / #9 - #75600 * EVar vDmsqst2 * (EPow P2 (EVar vMst1) * EPow P2 (EVar vMst2) * (#8 * EPow P2 (EVar
   vMst2) + #3 * (#2 + EVar vlmMst1 - EVar vlmMst2) * EPow P2 (EVar vMuSUSY)) + (#8 * EPow P2 (EVar vMst2) + (#3 + #8
   * EVar vlmMst1 - #8 * EVar vlmMst2) * EPow P2 (EVar vMuSUSY)) * EPow P4 (EVar vMst1) + (#2 * EPow P2 (EVar vMst2) +
   EPow P2 (EVar vMuSUSY)) * EPow P4 (EVar vMst2) + #8 * EPow P6 (EVar vMst1)) + #30240 * (#2 * EPow P2 (EVar vMst2) +
   EPow P2 (EVar vMuSUSY)) * EPow P6 (EVar vMst2)) + #68040 * EVar vMt * EPow P2 (EVar vMst1) * EPow P2 (EVar vMst2) *
   EPow P3 (EVar vs2t) * (#40 * EVar vDmsqst2 * (#2 * (#5 - #3 * EVar vlmMst1 + #3 * EVar vlmMst2) * EPow P2 (EVar
   vMst1) * EPow P2 (EVar vMst2) + #11 * EPow P4 (EVar vMst1) - #2 * (#2 + #3 * EVar vlmMst1 - #3 * EVar vlmMst2) *
   EPow P4 (EVar vMst2)) + ((#8583283 - #2329560 * EVar vlmMst1 + #2329560 * EVar vlmMst2) * EPow P2 (EVar vMst2) *
   EPow P4 (EVar vMst1) - #60 * (#143005 + #30024 * EVar vlmMst1 - #26352 * EVar vlmMst2) * EPow P2 (EVar vMst1) *
   EPow P4 (EVar vMst2) + #9 * (#897737 + #47880 * EVar vlmMst1 + #238680 * EVar vlmMst2) * EPow P6 (EVar vMst2)) /
   #4860) - #7 * EPow P3 (EVar vMst2) * EPow P4 (EVar vs2t) * (- #12 * (#77099 + #16605 * EVar vlmMst1 + #18225 * EVar
   vlmMst2) * EPow P4 (EVar vMst1) * EPow P4 (EVar vMst2) + (#4545982 - #233280 * EVar vlmMst1 + #233280 * EVar
   vlmMst2) * EPow P2 (EVar vMst2) * EPow P6 (EVar vMst1) + #9 * (#80291 + #33120 * EVar vlmMst1 + #13320 * EVar
   vlmMst2) * EPow P2 (EVar vMst1) * EPow P6 (EVar vMst2) + #48600 * EVar vDmsqst2 * (#4 * (#4 - EVar vlmMst1 + EVar
   vlmMst2) * EPow P2 (EVar vMst2) * EPow P4 (EVar vMst1) + (#7 + #10 * EVar vlmMst1 - #10 * EVar vlmMst2) * EPow P6
   (EVar vMst1) - #2 * ((#4 + #3 * EVar vlmMst1 - #3 * EVar vlmMst2) * EPow P2 (EVar vMst1) * EPow P4 (EVar vMst2) +
   EPow P6 (EVar vMst2))) + #38880 * EPow P8 (EVar vMst2)))) + #2 * EVar vMt * EVar vMuSUSY * EPow P2 (EVar vSbeta) *
   (- #3 * EPow P2 (EVar vMst2) * (#288 * (#434369 - #7875 * EVar vlmMst1 + #320355 * EVar vlmMst2) * EVar vMst2 *
   EVar vs2t * EPow P2 (EVar vMt) - #21 * (#166889 + #456840 * EVar vlmMst1 - #1243080 * EVar vlmMst2) * EVar vMt *
   EPow P2 (EVar vMst2) * EPow P2 (EVar vs2t) + #64 * (#3231296 - #460215 * EVar vlmMst1 + #1100925 * EVar vlmMst2 -
   #515970 * EVar vlmMt) * EPow P3 (EVar vMt) + #14 * (#54563 - #32940 * EVar vlmMst1 + #32940 * EVar vlmMst2) * EPow
   P3 (EVar vMst2) * EPow P3 (EVar vs2t)) * EPow P4 (EVar vMst1) - #9 * EPow P2 (EVar vMst1) * (#72 * (#126587 - #1820
   * EVar vlmMst1 + #230300 * EVar vlmMst2) * EVar vMst2 * EVar vs2t * EPow P2 (EVar vMt) + #21 * (#897737 + #47880 *
   EVar vlmMst1 + #238680 * EVar vlmMst2) * EVar vMt * EPow P2 (EVar vMst2) * EPow P2 (EVar vs2t) + #4 * (#2456929 -
   #335160 * EVar vlmMst1 + #1408680 * EVar vlmMst2 - #408240 * EVar vlmMt) * EPow P3 (EVar vMt) - #14 * (#84611 +
   #33120 * EVar vlmMst1 + #13320 * EVar vlmMst2) * EPow P3 (EVar vMst2) * EPow P3 (EVar vs2t)) * EPow P4 (EVar vMst2)
   + #14 * (- #72 * (#510139 + #44280 * EVar vlmMst1 + #76680 * EVar vlmMst2) * EVar vMst2 * EVar vs2t * EPow P2 (EVar
   vMt) + #15 * (- #1700119 + #484056 * EVar vlmMst1 - #579960 * EVar vlmMst2) * EVar vMt * EPow P2 (EVar vMst2) *
   EPow P2 (EVar vs2t) + #8 * (#13463149 - #1492020 * EVar vlmMst1 + #2713500 * EVar vlmMst2 - #625320 * EVar vlmMt) *
   EPow P3 (EVar vMt) + #8 * (#788723 - #80595 * EVar vlmMst1 + #80595 * EVar vlmMst2) * EPow P3 (EVar vMst2) * EPow
   P3 (EVar vs2t)) * EPow P6 (EVar vMst1) + #680400 * EVar vDmsqst2 * (#2 * EPow P2 (EVar vMst1) * EPow P2 (EVar
   vMst2) * (#20 * EVar vMst2 * EVar vs2t * EPow P2 (EVar vMt) + #6 * (#2 + #3 * EVar vlmMst1 - #3 * EVar vlmMst2) *
   EVar vMt * EPow P2 (EVar vMst2) * EPow P2 (EVar vs2t) - #8 * (- #8 + #3 * EVar vlmMst1 - #6 * EVar vlmMst2 + #3 *
   EVar vlmMt) * EPow P3 (EVar vMt) + (- #5 - #3 * EVar vlmMst1 + #3 * EVar vlmMst2) * EPow P3 (EVar vMst2) * EPow P3
   (EVar vs2t)) - #2 * (- #36 * EVar vMst2 * EVar vs2t * EPow P2 (EVar vMt) + #18 * (#1 - #2 * EVar vlmMst1 + #2 *
   EVar vlmMst2) * EVar vMt * EPow P2 (EVar vMst2) * EPow P2 (EVar vs2t) + #80 * (- #3 + EVar vlmMst1 - #2 * EVar
   vlmMst2 + EVar vlmMt) * EPow P3 (EVar vMt) + (- #3 + #5 * EVar vlmMst1 - #5 * EVar vlmMst2) * EPow P3 (EVar vMst2)
   * EPow P3 (EVar vs2t)) * EPow P4 (EVar vMst1) + #8 * EVar vs2t * EPow P2 (EVar vMt) * EPow P5 (EVar vMst2) + (#6 *
   (- #17 + #12 * EVar vlmMst1 - #12 * EVar vlmMst2) * EVar vMt + #13 * EVar vMst2 * EVar vs2t) * EPow P2 (EVar vs2t)
   * EPow P6 (EVar vMst1) - #2 * EPow P3 (EVar vs2t) * EPow P7 (EVar vMst2)) + #544320 * (- #4 * EVar vs2t * EPow P2
   (EVar vMt) * EPow P7 (EVar vMst2) + EPow P3 (EVar vs2t) * EPow P9 (EVar vMst2))))) + EVar vMgl * EVar vMst2 *
   (#68040 * EVar vMst2 * EVar vtwoLoopFlag * EPow P2 (EVar vMst1) * (#4 * EVar vMt * EVar vMuSUSY * (EVar vMt * EVar
   vMuSUSY * EVar vs2t * EVar vTbeta * (#4 * EVar vMt * ((#9 * EVar vDmglst2 + EVar vMgl) * EPow P2 (EVar vMst1) *
   EPow P2 (EVar vMst2) + (#13 * EVar vDmglst2 + EVar vMgl) * EPow P4 (EVar vMst1) + (#5 * EVar vDmglst2 + EVar vMgl)
   * EPow P4 (EVar vMst2)) - EVar vMst2 * EVar vs2t * (EVar vMgl * EPow P4 (EVar vMst2) + #4 * EVar vDmglst2 * (EPow
   P2 (EVar vMst1) * EPow P2 (EVar vMst2) + EPow P4 (EVar vMst1) + EPow P4 (EVar vMst2)))) + EPow P2 (EVar vSbeta) *
   (#16 * EPow P3 (EVar vMt) * (- #2 * EVar vMgl * EPow P2 (EVar vMst1) * EPow P2 (EVar vMst2) + #3 * (EVar vDmglst2 -
   EVar vMgl) * EPow P4 (EVar vMst1) - (EVar vDmglst2 + EVar vMgl) * EPow P4 (EVar vMst2)) - #6 * EVar vMt * EPow P2
   (EVar vMst2) * EPow P2 (EVar vs2t) * (#4 * EVar vDmglst2 * EPow P2 (EVar vMst1) * (EPow P2 (EVar vMst1) + EPow P2
   (EVar vMst2)) + (#5 * EVar vDmglst2 + EVar vMgl) * EPow P4 (EVar vMst2)) + (#4 * EVar vDmglst2 * EPow P2 (EVar
   vMst2) + EVar vMgl * (- EPow P2 (EVar vMst1) + EPow P2 (EVar vMst2))) * EPow P3 (EVar vs2t) * EPow P5 (EVar
   vMst2))) + EVar vTbeta * EPow P2 (EVar vSbeta) * (#4 * EVar vMst2 * EPow P2 (EVar vMt) * EPow P2 (EVar vMuSUSY) *
   EPow P2 (EVar vs2t) * (EVar vMgl * EPow P4 (EVar vMst2) + #4 * EVar vDmglst2 * (EPow P2 (EVar vMst1) * EPow P2
   (EVar vMst2) + EPow P4 (EVar vMst1) + EPow P4 (EVar vMst2))) + #32 * EVar vMst2 * (#4 * EVar vDmglst2 * EPow P2
   (EVar vMst1) * (#3 * EPow P2 (EVar vMst1) + EPow P2 (EVar vMst2)) - EVar vMgl * (#2 * EPow P2 (EVar vMst1) * EPow
   P2 (EVar vMst2) + #3 * EPow P4 (EVar vMst1) + EPow P4 (EVar vMst2))) * EPow P4 (EVar vMt) + EPow P3 (EVar vs2t) *
   (- #8 * (EVar vDmglst2 + EVar vMgl) * EVar vMst2 * EVar vMt * EPow P2 (EVar vMst1) + #2 * (#2 * EVar vDmglst2 +
   EVar vMgl) * EVar vs2t * EPow P2 (EVar vMst1) * EPow P2 (EVar vMst2) + #8 * (#5 * EVar vDmglst2 + EVar vMgl) * EVar
   vMt * EPow P3 (EVar vMst2) - EVar vMgl * EVar vs2t * EPow P4 (EVar vMst1) - (#4 * EVar vDmglst2 + EVar vMgl) * EVar
   vs2t * EPow P4 (EVar vMst2)) * EPow P5 (EVar vMst2) - #16 * EVar vs2t * EPow P3 (EVar vMt) * (EPow P2 (EVar
   vMuSUSY) * ((#9 * EVar vDmglst2 + EVar vMgl) * EPow P2 (EVar vMst1) * EPow P2 (EVar vMst2) + (#13 * EVar vDmglst2 +
   EVar vMgl) * EPow P4 (EVar vMst1) + (#5 * EVar vDmglst2 + EVar vMgl) * EPow P4 (EVar vMst2)) + #4 * ((#3 * EVar
   vDmglst2 - EVar vMgl) * EPow P2 (EVar vMst2) * EPow P4 (EVar vMst1) + (EVar vDmglst2 - EVar vMgl) * EPow P2 (EVar
   vMst1) * EPow P4 (EVar vMst2)) - #4 * (EVar vDmglst2 + EVar vMgl) * EPow P6 (EVar vMst2)))) + EVar vAl4p * EVar
   vthreeLoopFlag * (EVar vTbeta * (- #56 * EPow P2 (EVar vMst1) * EPow P2 (EVar vMuSUSY) * EPow P3 (EVar vMt) * (-
   (EVar vDmglst2 * EVar vMst2 * (#27 * EPow P2 (EVar vMst2) * (#7680 * (#5 + #6 * EVar vlmMst2) * EVar vMst2 * EVar
   vMt - #14400 * EVar vDmsqst2 * (#2 + #3 * EVar vlmMst1 - #3 * EVar vlmMst2) * EVar vs2t + (#173947 - #25080 * EVar
   vlmMst1 + #68760 * EVar vlmMst2) * EVar vs2t * EPow P2 (EVar vMst2)) + #36 * EPow P2 (EVar vMst1) * (#30 * (#3643 -
   #120 * EVar vlmMst1 + #3192 * EVar vlmMst2) * EVar vMst2 * EVar vMt + #10800 * EVar vDmsqst2 * (#1 - #9 * EVar
   vlmMst1 + #9 * EVar vlmMst2) * EVar vs2t + (#364291 - #88560 * EVar vlmMst1 + #147960 * EVar vlmMst2) * EVar vs2t *
   EPow P2 (EVar vMst2)) + #2 * (#15057833 - #4014360 * EVar vlmMst1 + #5563080 * EVar vlmMst2) * EVar vs2t * EPow P4
   (EVar vMst1))) + #3 * EVar vMgl * (- #60 * EVar vMst2 * EPow P2 (EVar vMst1) * (#3 * (- #353 + #72 * EVar vlmMst1 +
   #696 * EVar vlmMst2) * EVar vMst2 * EVar vMt + #2160 * EVar vDmsqst2 * (#5 + #3 * EVar vlmMst1 - #3 * EVar vlmMst2)
   * EVar vs2t + #2 * (#3937 + #2988 * EVar vlmMst1 - #2232 * EVar vlmMst2) * EVar vs2t * EPow P2 (EVar vMst2)) - #45
   * (#64 * (#53 + #24 * EVar vlmMst2) * EVar vMst2 * EVar vMt + #2880 * EVar vDmsqst2 * (#2 + EVar vlmMst1 - EVar
   vlmMst2) * EVar vs2t + #3 * (#2269 + #664 * EVar vlmMst1 - #56 * EVar vlmMst2) * EVar vs2t * EPow P2 (EVar vMst2))
   * EPow P3 (EVar vMst2) + #2 * (#15 * (#38401 + #1080 * EVar vlmMst1 - #7992 * EVar vlmMst2) * EVar vMt + (- #266863
   - #396360 * EVar vlmMst1 + #346680 * EVar vlmMst2) * EVar vMst2 * EVar vs2t) * EPow P4 (EVar vMst1))) + #28 * EPow
   P2 (EVar vMt) * EPow P2 (EVar vs2t) * (EPow P2 (EVar vMst2) * EPow P2 (EVar vMuSUSY) * (- #4 * EVar vDmglst2 *
   (#162 * (#6803 - #1810 * EVar vlmMst1 + #2670 * EVar vlmMst2) * EPow P2 (EVar vMst2) * EPow P4 (EVar vMst1) + #135
   * (#1631 - #648 * EVar vlmMst1 + #1680 * EVar vlmMst2) * EPow P2 (EVar vMst1) * EPow P4 (EVar vMst2) + (#4256978 -
   #615600 * EVar vlmMst1 + #754920 * EVar vlmMst2) * EPow P6 (EVar vMst1) - #22680 * EPow P6 (EVar vMst2)) + #3 *
   EVar vMgl * (#6 * (#533629 - #900 * EVar vlmMst1 + #180 * EVar vlmMst2) * EPow P2 (EVar vMst2) * EPow P4 (EVar
   vMst1) + #90 * (#5597 + #564 * EVar vlmMst1 - #1104 * EVar vlmMst2) * EPow P2 (EVar vMst1) * EPow P4 (EVar vMst2) +
   (#6649153 - #81540 * EVar vlmMst1 + #77220 * EVar vlmMst2) * EPow P6 (EVar vMst1) - #20520 * EPow P6 (EVar vMst2)))
   + #300 * EVar vDmsqst2 * (#162 * EVar vDmglst2 * EPow P2 (EVar vMst2) * (#4 * EPow P2 (EVar vMuSUSY) * (#3 * (#2 +
   EVar vlmMst1 - EVar vlmMst2) * EPow P2 (EVar vMst1) * EPow P2 (EVar vMst2) + (#3 + #8 * EVar vlmMst1 - #8 * EVar
   vlmMst2) * EPow P4 (EVar vMst1) + EPow P4 (EVar vMst2)) + (- #93 + #10 * EVar vlmMst1 - #10 * EVar vlmMst2) * (- #2
   + EPow P2 (EVar vSbeta)) * EPow P4 (EVar vSbeta) * EPow P6 (EVar vMst1)) + EVar vMgl * EPow P2 (EVar vMuSUSY) * (#9
   * (#1097 - #72 * EVar vlmMst1 + #72 * EVar vlmMst2) * EPow P2 (EVar vMst2) * EPow P4 (EVar vMst1) + #1431 * EPow P2
   (EVar vMst1) * EPow P4 (EVar vMst2) + (#20701 - #648 * EVar vlmMst1 + #648 * EVar vlmMst2) * EPow P6 (EVar vMst1) -
   #324 * EPow P6 (EVar vMst2)))) + EPow P2 (EVar vSbeta) * (- #56 * EVar vMst2 * EVar vs2t * EPow P2 (EVar vMst1) *
   EPow P3 (EVar vMt) * (EVar vDmglst2 * (#18 * EPow P2 (EVar vMst1) * EPow P2 (EVar vMst2) * (#3 * (#510149 - #55320
   * EVar vlmMst1 + #118200 * EVar vlmMst2 - #32160 * EVar vlmMt) * EPow P2 (EVar vMst2) + #2 * (#364291 - #88560 *
   EVar vlmMst1 + #147960 * EVar vlmMst2) * EPow P2 (EVar vMuSUSY)) + #2 * (#4 * (#9908167 - #949320 * EVar vlmMst1 +
   #1769040 * EVar vlmMst2 - #217080 * EVar vlmMt) * EPow P2 (EVar vMst2) + (#15057833 - #4014360 * EVar vlmMst1 +
   #5563080 * EVar vlmMst2) * EPow P2 (EVar vMuSUSY)) * EPow P4 (EVar vMst1) + #27 * (#30 * (- #1672 * EVar vlmMst1 +
   #1448 * EVar vlmMst2 + #59 * (#71 - #32 * EVar vlmMt)) * EPow P2 (EVar vMst2) + (#173947 - #25080 * EVar vlmMst1 +
   #68760 * EVar vlmMst2) * EPow P2 (EVar vMuSUSY)) * EPow P4 (EVar vMst2) + #388800 * EVar vDmsqst2 * ((- #2 - #3 *
   EVar vlmMst1 + #3 * EVar vlmMst2) * EPow P2 (EVar vMst2) * EPow P2 (EVar vMuSUSY) + EPow P2 (EVar vMst1) * ((#51 -
   #14 * EVar vlmMst1 + #28 * EVar vlmMst2 - #14 * EVar vlmMt) * EPow P2 (EVar vMst2) + (#1 - #9 * EVar vlmMst1 + #9 *
   EVar vlmMst2) * EPow P2 (EVar vMuSUSY)) + (#87 - #22 * EVar vlmMst1 + #44 * EVar vlmMst2 - #22 * EVar vlmMt) * EPow
   P4 (EVar vMst1) + (#19 - #6 * EVar vlmMst1 + #12 * EVar vlmMst2 - #6 * EVar vlmMt) * EPow P4 (EVar vMst2))) - #3 *
   EVar vMgl * (#6 * EPow P2 (EVar vMst1) * EPow P2 (EVar vMst2) * ((#470657 - #86040 * EVar vlmMst1 + #178200 * EVar
   vlmMst2) * EPow P2 (EVar vMst2) - #20 * (#3937 + #2988 * EVar vlmMst1 - #2232 * EVar vlmMst2) * EPow P2 (EVar
   vMuSUSY)) + #2 * ((#2299036 - #388800 * EVar vlmMst1 + #656640 * EVar vlmMst2) * EPow P2 (EVar vMst2) + (- #266863
   - #396360 * EVar vlmMst1 + #346680 * EVar vlmMst2) * EPow P2 (EVar vMuSUSY)) * EPow P4 (EVar vMst1) + #9 * (#2 *
   (#68693 - #9960 * EVar vlmMst1 + #45480 * EVar vlmMst2 - #3840 * EVar vlmMt) * EPow P2 (EVar vMst2) - #15 * (#2269
   + #664 * EVar vlmMst1 - #56 * EVar vlmMst2) * EPow P2 (EVar vMuSUSY)) * EPow P4 (EVar vMst2) + #129600 * EVar
   vDmsqst2 * ((- #2 - EVar vlmMst1 + EVar vlmMst2) * EPow P2 (EVar vMst2) * EPow P2 (EVar vMuSUSY) + EPow P2 (EVar
   vMst1) * ((#5 - #2 * EVar vlmMst1 + #4 * EVar vlmMst2 - #2 * EVar vlmMt) * EPow P2 (EVar vMst2) + (- #5 - #3 * EVar
   vlmMst1 + #3 * EVar vlmMst2) * EPow P2 (EVar vMuSUSY)) + (#5 - #2 * EVar vlmMst1 + #4 * EVar vlmMst2 - #2 * EVar
   vlmMt) * EPow P4 (EVar vMst1) + (#1 - #2 * EVar vlmMst1 + #4 * EVar vlmMst2 - #2 * EVar vlmMt) * EPow P4 (EVar
   vMst2)))) + #28 * EVar vMt * EPow P2 (EVar vMst1) * EPow P3 (EVar vMst2) * EPow P3 (EVar vs2t) * (- #3 * EVar vMgl
   * (#17 * (#6167 - #9720 * EVar vlmMst1 + #9720 * EVar vlmMst2) * EPow P2 (EVar vMst2) * EPow P4 (EVar vMst1) + #30
   * (#4673 - #5976 * EVar vlmMst1 + #8424 * EVar vlmMst2) * EPow P2 (EVar vMst1) * EPow P4 (EVar vMst2) + #64800 *
   EVar vDmsqst2 * (- #2 * (#1 + EVar vlmMst1 - EVar vlmMst2) * EPow P2 (EVar vMst1) * EPow P2 (EVar vMst2) + EPow P4
   (EVar vMst1) - #2 * (#2 + EVar vlmMst1 - EVar vlmMst2) * EPow P4 (EVar vMst2)) - #135 * (#2269 + #664 * EVar
   vlmMst1 - #56 * EVar vlmMst2) * EPow P6 (EVar vMst2)) + EVar vDmglst2 * ((#8583283 - #2329560 * EVar vlmMst1 +
   #2329560 * EVar vlmMst2) * EPow P2 (EVar vMst2) * EPow P4 (EVar vMst1) + #18 * (#206741 - #101880 * EVar vlmMst1 +
   #89640 * EVar vlmMst2) * EPow P2 (EVar vMst1) * EPow P4 (EVar vMst2) + #194400 * EVar vDmsqst2 * (#2 * (#5 - #3 *
   EVar vlmMst1 + #3 * EVar vlmMst2) * EPow P2 (EVar vMst1) * EPow P2 (EVar vMst2) + #11 * EPow P4 (EVar vMst1) - #2 *
   (#2 + #3 * EVar vlmMst1 - #3 * EVar vlmMst2) * EPow P4 (EVar vMst2)) + #27 * (#173947 - #25080 * EVar vlmMst1 +
   #68760 * EVar vlmMst2) * EPow P6 (EVar vMst2))) + #7 * EPow P4 (EVar vMst2) * EPow P4 (EVar vs2t) * (- #4 * EVar
   vDmglst2 * (- #108 * (- #5917 + #1095 * EVar vlmMst1 + #195 * EVar vlmMst2) * EPow P4 (EVar vMst1) * EPow P4 (EVar
   vMst2) + (#2272991 - #116640 * EVar vlmMst1 + #116640 * EVar vlmMst2) * EPow P2 (EVar vMst2) * EPow P6 (EVar vMst1)
   - #135 * (#648 * EVar vlmMst1 - #7 * (#281 + #240 * EVar vlmMst2)) * EPow P2 (EVar vMst1) * EPow P6 (EVar vMst2) +
   #24300 * EVar vDmsqst2 * (#4 * (#4 - EVar vlmMst1 + EVar vlmMst2) * EPow P2 (EVar vMst2) * EPow P4 (EVar vMst1) +
   (#7 + #10 * EVar vlmMst1 - #10 * EVar vlmMst2) * EPow P6 (EVar vMst1) - #2 * ((#4 + #3 * EVar vlmMst1 - #3 * EVar
   vlmMst2) * EPow P2 (EVar vMst1) * EPow P4 (EVar vMst2) + EPow P6 (EVar vMst2))) - #22680 * EPow P8 (EVar vMst2)) +
   #3 * EVar vMgl * (#6 * (#362299 - #17820 * EVar vlmMst1 + #33300 * EVar vlmMst2) * EPow P4 (EVar vMst1) * EPow P4
   (EVar vMst2) - #5 * (- #149867 + #3996 * EVar vlmMst1 + #4860 * EVar vlmMst2) * EPow P2 (EVar vMst2) * EPow P6
   (EVar vMst1) + #100 * EVar vDmsqst2 * (#9 * (#743 - #72 * EVar vlmMst1 + #72 * EVar vlmMst2) * EPow P2 (EVar vMst2)
   * EPow P4 (EVar vMst1) + #2079 * EPow P2 (EVar vMst1) * EPow P4 (EVar vMst2) + (#2386 + #648 * EVar vlmMst1 - #648
   * EVar vlmMst2) * EPow P6 (EVar vMst1) - #324 * EPow P6 (EVar vMst2)) + #90 * (#6053 + #564 * EVar vlmMst1 - #1104
   * EVar vlmMst2) * EPow P2 (EVar vMst1) * EPow P6 (EVar vMst2) - #20520 * EPow P8 (EVar vMst2))) + #16 * EPow P4
   (EVar vMt) * (#4 * EVar vDmglst2 * EPow P2 (EVar vMst2) * (#9 * ((#3184397 - #476280 * EVar vlmMst1 + #1156680 *
   EVar vlmMst2 - #161280 * EVar vlmMt) * EPow P2 (EVar vMst2) + #105 * (- #3643 + #120 * EVar vlmMst1 - #3192 * EVar
   vlmMst2) * EPow P2 (EVar vMuSUSY)) * EPow P4 (EVar vMst1) + #27 * EPow P2 (EVar vMst1) * (- #6720 * (#5 + #6 * EVar
   vlmMst2) * EPow P2 (EVar vMst2) * EPow P2 (EVar vMuSUSY) + (#209341 - #26880 * EVar vlmMst1 + #82320 * EVar vlmMst2
   - #1680 * EVar vlmMt) * EPow P4 (EVar vMst2)) + #4 * (#19152737 - #3674160 * EVar vlmMst1 + #6872040 * EVar vlmMst2
   - #850500 * EVar vlmMt) * EPow P6 (EVar vMst1) + #158760 * EPow P6 (EVar vMst2)) + #680400 * EVar vDmsqst2 * (#2 *
   EVar vDmglst2 * EPow P2 (EVar vMst2) * ((#23 - #5 * EVar vlmMst1 + #10 * EVar vlmMst2 - #5 * EVar vlmMt) * EPow P2
   (EVar vMst1) * EPow P2 (EVar vMst2) + (#77 - #18 * EVar vlmMst1 + #36 * EVar vlmMst2 - #18 * EVar vlmMt) * EPow P4
   (EVar vMst1) + EPow P4 (EVar vMst2)) - EVar vMgl * (- #2 * (- #3 + EVar vlmMst1 - #2 * EVar vlmMst2 + EVar vlmMt) *
   EPow P2 (EVar vMst1) * EPow P2 (EVar vMst2) * (#2 * EPow P2 (EVar vMst1) + EPow P2 (EVar vMst2)) + #2 * (#7 - #3 *
   EVar vlmMst1 + #6 * EVar vlmMst2 - #3 * EVar vlmMt) * EPow P6 (EVar vMst1) + EPow P6 (EVar vMst2))) - #21 * EVar
   vMgl * (#3 * EPow P4 (EVar vMst1) * (#30 * (- #353 + #72 * EVar vlmMst1 + #696 * EVar vlmMst2) * EPow P2 (EVar
   vMst2) * EPow P2 (EVar vMuSUSY) + (#310039 - #91080 * EVar vlmMst1 + #145080 * EVar vlmMst2 - #43920 * EVar vlmMt)
   * EPow P4 (EVar vMst2)) + (#2 * (#626869 - #300240 * EVar vlmMst1 + #395280 * EVar vlmMst2 - #78840 * EVar vlmMt) *
   EPow P2 (EVar vMst2) - #15 * (#38401 + #1080 * EVar vlmMst1 - #7992 * EVar vlmMst2) * EPow P2 (EVar vMuSUSY)) *
   EPow P6 (EVar vMst1) + #9 * EPow P2 (EVar vMst1) * (#160 * (#53 + #24 * EVar vlmMst2) * EPow P2 (EVar vMuSUSY) *
   EPow P4 (EVar vMst2) + (#48983 - #12480 * EVar vlmMst1 + #26820 * EVar vlmMst2 - #12180 * EVar vlmMt) * EPow P6
   (EVar vMst2)) + #20520 * EPow P8 (EVar vMst2))) - #28 * EPow P2 (EVar vMt) * EPow P2 (EVar vs2t) * (#4 * EVar
   vDmglst2 * EPow P2 (EVar vMst2) * (- #162 * EPow P2 (EVar vMst2) * (#20 * (#505 + #68 * EVar vlmMst1 + #124 * EVar
   vlmMst2) * EPow P2 (EVar vMst2) + (#6803 - #1810 * EVar vlmMst1 + #2670 * EVar vlmMst2) * EPow P2 (EVar vMuSUSY)) *
   EPow P4 (EVar vMst1) - #27 * EPow P2 (EVar vMst1) * (#4 * (#4849 - #270 * EVar vlmMst1 + #8910 * EVar vlmMst2) *
   EPow P2 (EVar vMst2) + #5 * (#1631 - #648 * EVar vlmMst1 + #1680 * EVar vlmMst2) * EPow P2 (EVar vMuSUSY)) * EPow
   P4 (EVar vMst2) - #2 * (#45 * (#78533 + #6732 * EVar vlmMst1 + #180 * EVar vlmMst2) * EPow P2 (EVar vMst2) +
   (#2128489 - #307800 * EVar vlmMst1 + #377460 * EVar vlmMst2) * EPow P2 (EVar vMuSUSY)) * EPow P6 (EVar vMst1) +
   #48600 * EVar vDmsqst2 * ((#8 * EPow P2 (EVar vMst2) + (#3 + #8 * EVar vlmMst1 - #8 * EVar vlmMst2) * EPow P2 (EVar
   vMuSUSY)) * EPow P4 (EVar vMst1) + (#2 * EPow P2 (EVar vMst2) + EPow P2 (EVar vMuSUSY)) * EPow P4 (EVar vMst2) +
   EPow P2 (EVar vMst1) * (#3 * (#2 + EVar vlmMst1 - EVar vlmMst2) * EPow P2 (EVar vMst2) * EPow P2 (EVar vMuSUSY) +
   #8 * EPow P4 (EVar vMst2)) + #8 * EPow P6 (EVar vMst1)) + #22680 * (#2 * EPow P2 (EVar vMst2) + EPow P2 (EVar
   vMuSUSY)) * EPow P6 (EVar vMst2)) - #3 * EVar vMgl * (- #6 * ((#309749 + #12240 * EVar vlmMst1 - #12240 * EVar
   vlmMst2) * EPow P2 (EVar vMst2) + (#533629 - #900 * EVar vlmMst1 + #180 * EVar vlmMst2) * EPow P2 (EVar vMuSUSY)) *
   EPow P4 (EVar vMst1) * EPow P4 (EVar vMst2) - EPow P2 (EVar vMst2) * ((#3291029 + #210600 * EVar vlmMst1 - #210600
   * EVar vlmMst2) * EPow P2 (EVar vMst2) + (#6649153 - #81540 * EVar vlmMst1 + #77220 * EVar vlmMst2) * EPow P2 (EVar
   vMuSUSY)) * EPow P6 (EVar vMst1) - #9 * EPow P2 (EVar vMst1) * ((#5927 + #13560 * EVar vlmMst1 - #36600 * EVar
   vlmMst2) * EPow P2 (EVar vMst2) + #10 * (#5597 + #564 * EVar vlmMst1 - #1104 * EVar vlmMst2) * EPow P2 (EVar
   vMuSUSY)) * EPow P6 (EVar vMst2) - #100 * EVar vDmsqst2 * (#9 * EPow P2 (EVar vMst2) * (#202 * EPow P2 (EVar vMst2)
   + (#1097 - #72 * EVar vlmMst1 + #72 * EVar vlmMst2) * EPow P2 (EVar vMuSUSY)) * EPow P4 (EVar vMst1) + (#808 * EPow
   P2 (EVar vMst2) + (#20701 - #648 * EVar vlmMst1 + #648 * EVar vlmMst2) * EPow P2 (EVar vMuSUSY)) * EPow P6 (EVar
   vMst1) - #324 * (#2 * EPow P2 (EVar vMst2) + EPow P2 (EVar vMuSUSY)) * EPow P6 (EVar vMst2) + #27 * EPow P2 (EVar
   vMst1) * (#53 * EPow P2 (EVar vMuSUSY) * EPow P4 (EVar vMst2) + #77 * EPow P6 (EVar vMst2))) + #20520 * (#2 * EPow
   P2 (EVar vMst2) + EPow P2 (EVar vMuSUSY)) * EPow P8 (EVar vMst2)))) + #68040 * EVar vMgl * (- #10 * EVar vshiftst1
   * (EVar vDmsqst2 + EPow P2 (EVar vMst2)) * (EPow P4 (EVar vMst2) * (EPow P2 (EVar vs2t) * (- #8 * EPow P2 (EVar
   vMt) + (EPow P2 (EVar vMst1) - EPow P2 (EVar vMst2)) * EPow P2 (EVar vs2t)) * EPow P2 (EVar vSbeta) * EPow P4 (EVar
   vMst1) + EPow P2 (EVar vMst1) * (#4 * EPow P2 (EVar vMt) * EPow P2 (EVar vs2t) * (EPow P2 (EVar vMuSUSY) + (#4 *
   EPow P2 (EVar vMst2) - EPow P2 (EVar vMuSUSY)) * EPow P2 (EVar vSbeta)) + EPow P2 (EVar vSbeta) * (#16 * EPow P4
   (EVar vMt) - EPow P4 (EVar vMst2) * EPow P4 (EVar vs2t))) + EPow P2 (EVar vMst2) * (- #4 * EPow P2 (EVar vMt) *
   EPow P2 (EVar vs2t) * (EPow P2 (EVar vMuSUSY) * (- #1 + EPow P2 (EVar vSbeta)) + #2 * EPow P2 (EVar vMst2) * EPow
   P2 (EVar vSbeta)) + EPow P2 (EVar vSbeta) * (#16 * EPow P4 (EVar vMt) + EPow P4 (EVar vMst2) * EPow P4 (EVar
   vs2t)))) + (- #2 * EVar vlmMst1 + #2 * EVar vlmMst2) * EPow P2 (EVar vMst1) * EPow P2 (EVar vs2t) * (- #4 * EPow P2
   (EVar vMt) * EPow P2 (EVar vMuSUSY) * (- #1 + EPow P2 (EVar vSbeta)) * (EPow P4 (EVar vMst1) + EPow P4 (EVar
   vMst2)) - EPow P2 (EVar vMst1) * EPow P2 (EVar vMst2) * (#4 * EPow P2 (EVar vMt) * EPow P2 (EVar vMuSUSY) * (- #1 +
   EPow P2 (EVar vSbeta)) + EPow P2 (EVar vs2t) * EPow P2 (EVar vSbeta) * EPow P4 (EVar vMst2)) + EPow P2 (EVar vs2t)
   * EPow P2 (EVar vSbeta) * EPow P8 (EVar vMst2))) - EVar vshiftst3 * EPow P2 (EVar vMst2) * (EPow P2 (EVar vSbeta) *
   (#8 * (#1 - EVar vlmMst1 + EVar vlmMst2) * EPow P2 (EVar vMst1) * EPow P2 (EVar vMt) * EPow P2 (EVar vs2t) + #16 *
   EPow P4 (EVar vMt) + (- #4 * EPow P2 (EVar vMst1) * EPow P2 (EVar vMst2) + (#3 + #2 * EVar vlmMst1 - #2 * EVar
   vlmMst2) * EPow P4 (EVar vMst1) + EPow P4 (EVar vMst2)) * EPow P4 (EVar vs2t)) * EPow P6 (EVar vMst2) + EPow P2
   (EVar vMt) * EPow P2 (EVar vs2t) * (#2 * EPow P2 (EVar vMuSUSY) * (#4 * ((#1 - #2 * EVar vlmMst1 + #2 * EVar
   vlmMst2) * EPow P2 (EVar vMst2) * EPow P4 (EVar vMst1) + (#1 - EVar vlmMst1 + EVar vlmMst2) * EPow P2 (EVar vMst1)
   * EPow P4 (EVar vMst2) + (#1 - #3 * EVar vlmMst1 + #3 * EVar vlmMst2) * EPow P6 (EVar vMst1)) + #2 * EPow P6 (EVar
   vMst2)) - #2 * EPow P2 (EVar vSbeta) * (#2 * EPow P2 (EVar vMuSUSY) * EPow P6 (EVar vMst2) + #4 * (EPow P2 (EVar
   vMuSUSY) * ((#1 - #2 * EVar vlmMst1 + #2 * EVar vlmMst2) * EPow P2 (EVar vMst2) * EPow P4 (EVar vMst1) + (#1 - EVar
   vlmMst1 + EVar vlmMst2) * EPow P2 (EVar vMst1) * EPow P4 (EVar vMst2) + (#1 - #3 * EVar vlmMst1 + #3 * EVar
   vlmMst2) * EPow P6 (EVar vMst1)) + EPow P8 (EVar vMst2))))))) + #28 * EVar vMt * EVar vMuSUSY * EPow P2 (EVar
   vSbeta) * (- #3 * EVar vMgl * (#3 * EPow P3 (EVar vMst2) * (- #2 * (#623599 + #65160 * EVar vlmMst1 - #134280 *
   EVar vlmMst2) * EVar vMst2 * EVar vs2t * EPow P2 (EVar vMt) + #15 * (#11075 + #17928 * EVar vlmMst1 - #17352 * EVar
   vlmMst2) * EVar vMt * EPow P2 (EVar vMst2) * EPow P2 (EVar vs2t) + #64 * (#41936 - #7245 * EVar vlmMst1 + #19665 *
   EVar vlmMst2 - #720 * EVar vlmMt) * EPow P3 (EVar vMt) + #4 * (#224837 - #4680 * EVar vlmMst1 + #8370 * EVar
   vlmMst2 + #2700 * EVar vshiftst1) * EPow P3 (EVar vMst2) * EPow P3 (EVar vs2t)) * EPow P4 (EVar vMst1) + #9 * EPow
   P2 (EVar vMst1) * (- #2 * EVar vMst2 * EVar vs2t * (#1367 + #13560 * EVar vlmMst1 - #36600 * EVar vlmMst2 + #7200 *
   EVar vshiftst1) * EPow P2 (EVar vMt) + #45 * (#2269 + #664 * EVar vlmMst1 - #56 * EVar vlmMst2) * EVar vMt * EPow
   P2 (EVar vMst2) * EPow P2 (EVar vs2t) + #4 * (#66773 - #9960 * EVar vlmMst1 + #45480 * EVar vlmMst2 - #3840 * EVar
   vlmMt) * EPow P3 (EVar vMt) + #10 * (#5825 + #36 * EVar vshiftst3 + #12 * EVar vlmMst1 * (#47 + #60 * EVar
   vshiftst1 + #3 * EVar vshiftst3) - #12 * EVar vlmMst2 * (#92 + #60 * EVar vshiftst1 + #3 * EVar vshiftst3)) * EPow
   P3 (EVar vMst2) * EPow P3 (EVar vs2t)) * EPow P5 (EVar vMst2) + EVar vMst2 * (- #4 * (#2580913 + #203040 * EVar
   vlmMst1 - #306720 * EVar vlmMst2) * EVar vMst2 * EVar vs2t * EPow P2 (EVar vMt) + #6 * (#30643 + #217080 * EVar
   vlmMst1 - #212760 * EVar vlmMst2) * EVar vMt * EPow P2 (EVar vMst2) * EPow P2 (EVar vs2t) + #16 * (#1077991 -
   #184140 * EVar vlmMst1 + #400140 * EVar vlmMst2 - #8640 * EVar vlmMt) * EPow P3 (EVar vMt) + (#3447379 - #76140 *
   EVar vlmMst1 + #76140 * EVar vlmMst2) * EPow P3 (EVar vMst2) * EPow P3 (EVar vs2t)) * EPow P6 (EVar vMst1) - #100 *
   EVar vDmsqst2 * (#27 * EPow P2 (EVar vMst1) * EPow P3 (EVar vMst2) * (#106 * EVar vMst2 * EVar vs2t * EPow P2 (EVar
   vMt) + #48 * EVar vMst2 * EVar vs2t * EVar vshiftst1 * EPow P2 (EVar vMt) - #288 * EVar vMt * EPow P2 (EVar vMst2)
   * EPow P2 (EVar vs2t) + #144 * EVar vlmMst2 * EVar vMt * EPow P2 (EVar vMst2) * EPow P2 (EVar vs2t) - #384 * EVar
   vlmMst2 * EPow P3 (EVar vMt) + #192 * EVar vlmMt * EPow P3 (EVar vMt) - #65 * EPow P3 (EVar vMst2) * EPow P3 (EVar
   vs2t) + #24 * EVar vlmMst2 * EVar vshiftst1 * EPow P3 (EVar vMst2) * EPow P3 (EVar vs2t) + #24 * EVar vlmMst1 * (-
   #6 * EVar vMt * EPow P2 (EVar vMst2) * EPow P2 (EVar vs2t) + #8 * EPow P3 (EVar vMt) - EVar vshiftst1 * EPow P3
   (EVar vMst2) * EPow P3 (EVar vs2t))) + #18 * EVar vMst2 * (#361 * EVar vMst2 * EVar vs2t * EPow P2 (EVar vMt) -
   #216 * (#3 + #2 * EVar vlmMst1 - #2 * EVar vlmMst2) * EVar vMt * EPow P2 (EVar vMst2) * EPow P2 (EVar vs2t) + #576
   * (- #1 + EVar vlmMst1 - #2 * EVar vlmMst2 + EVar vlmMt) * EPow P3 (EVar vMt) + (- #469 + #36 * EVar vlmMst1 - #36
   * EVar vlmMst2 - #18 * EVar vshiftst1) * EPow P3 (EVar vMst2) * EPow P3 (EVar vs2t)) * EPow P4 (EVar vMst1) + #2 *
   EVar vs2t * (- #972 * (#5 + #4 * EVar vlmMst1 - #4 * EVar vlmMst2) * EVar vMst2 * EVar vMt * EVar vs2t + #4057 *
   EPow P2 (EVar vMt) - #5414 * EPow P2 (EVar vMst2) * EPow P2 (EVar vs2t)) * EPow P6 (EVar vMst1) + #324 * EVar vs2t
   * (#1 + EVar vshiftst1) * (- #4 * EPow P2 (EVar vMt) + EPow P2 (EVar vMst2) * EPow P2 (EVar vs2t)) * EPow P6 (EVar
   vMst2)) - #1080 * EVar vs2t * (#19 + #30 * EVar vshiftst1 + #3 * EVar vshiftst3) * (- #4 * EPow P2 (EVar vMt) +
   EPow P2 (EVar vMst2) * EPow P2 (EVar vs2t)) * EPow P8 (EVar vMst2)) + EVar vDmglst2 * EVar vMst2 * (#27 * (EPow P2
   (EVar vMst2) * (- #32 * (#19579 + #1770 * EVar vlmMst1 + #12630 * EVar vlmMst2) * EVar vMst2 * EVar vs2t * EPow P2
   (EVar vMt) + (- #935323 + #279000 * EVar vlmMst1 - #385560 * EVar vlmMst2) * EVar vMt * EPow P2 (EVar vMst2) * EPow
   P2 (EVar vs2t) + #32 * (#67843 - #10050 * EVar vlmMst1 + #17490 * EVar vlmMst2 - #7560 * EVar vlmMt) * EPow P3
   (EVar vMt) + #4 * (#32663 - #7620 * EVar vlmMst1 + #7620 * EVar vlmMst2) * EPow P3 (EVar vMst2) * EPow P3 (EVar
   vs2t)) * EPow P4 (EVar vMst1) + EPow P2 (EVar vMst1) * (#32 * (- #4429 + #270 * EVar vlmMst1 - #8910 * EVar
   vlmMst2) * EVar vMst2 * EVar vs2t * EPow P2 (EVar vMt) + #3 * (- #173947 + #25080 * EVar vlmMst1 - #68760 * EVar
   vlmMst2) * EVar vMt * EPow P2 (EVar vMst2) * EPow P2 (EVar vs2t) - #60 * (- #3245 + #1672 * EVar vlmMst1 - #1448 *
   EVar vlmMst2 + #1888 * EVar vlmMt) * EPow P3 (EVar vMt) + #20 * (#1799 - #648 * EVar vlmMst1 + #1680 * EVar
   vlmMst2) * EPow P3 (EVar vMst2) * EPow P3 (EVar vs2t)) * EPow P4 (EVar vMst2)) + #2 * (- #72 * (#510139 + #44280 *
   EVar vlmMst1 + #76680 * EVar vlmMst2) * EVar vMst2 * EVar vs2t * EPow P2 (EVar vMt) + #15 * (- #1700119 + #484056 *
   EVar vlmMst1 - #579960 * EVar vlmMst2) * EVar vMt * EPow P2 (EVar vMst2) * EPow P2 (EVar vs2t) + #8 * (#13463149 -
   #1492020 * EVar vlmMst1 + #2713500 * EVar vlmMst2 - #625320 * EVar vlmMt) * EPow P3 (EVar vMt) + #8 * (#788723 -
   #80595 * EVar vlmMst1 + #80595 * EVar vlmMst2) * EPow P3 (EVar vMst2) * EPow P3 (EVar vs2t)) * EPow P6 (EVar vMst1)
   + #97200 * EVar vDmsqst2 * (#2 * EPow P2 (EVar vMst1) * EPow P2 (EVar vMst2) * (#20 * EVar vMst2 * EVar vs2t * EPow
   P2 (EVar vMt) + #6 * (#2 + #3 * EVar vlmMst1 - #3 * EVar vlmMst2) * EVar vMt * EPow P2 (EVar vMst2) * EPow P2 (EVar
   vs2t) - #8 * (- #8 + #3 * EVar vlmMst1 - #6 * EVar vlmMst2 + #3 * EVar vlmMt) * EPow P3 (EVar vMt) + (- #5 - #3 *
   EVar vlmMst1 + #3 * EVar vlmMst2) * EPow P3 (EVar vMst2) * EPow P3 (EVar vs2t)) - #2 * (- #36 * EVar vMst2 * EVar
   vs2t * EPow P2 (EVar vMt) + #18 * (#1 - #2 * EVar vlmMst1 + #2 * EVar vlmMst2) * EVar vMt * EPow P2 (EVar vMst2) *
   EPow P2 (EVar vs2t) + #80 * (- #3 + EVar vlmMst1 - #2 * EVar vlmMst2 + EVar vlmMt) * EPow P3 (EVar vMt) + (- #3 +
   #5 * EVar vlmMst1 - #5 * EVar vlmMst2) * EPow P3 (EVar vMst2) * EPow P3 (EVar vs2t)) * EPow P4 (EVar vMst1) + #8 *
   EVar vs2t * EPow P2 (EVar vMt) * EPow P5 (EVar vMst2) + (#6 * (- #17 + #12 * EVar vlmMst1 - #12 * EVar vlmMst2) *
   EVar vMt + #13 * EVar vMst2 * EVar vs2t) * EPow P2 (EVar vs2t) * EPow P6 (EVar vMst1) - #2 * EPow P3 (EVar vs2t) *
   EPow P7 (EVar vMst2)) - #90720 * (- #4 * EVar vs2t * EPow P2 (EVar vMt) * EPow P7 (EVar vMst2) + EPow P3 (EVar
   vs2t) * EPow P9 (EVar vMst2))))))) - #7560 * EVar vxMst * (EVar vMgl * (#27 * (EVar vlmMst1 - EVar vlmMst2) * EVar
   vMgl * EVar vMst2 * EVar voneLoopFlag * EVar vTbeta * EPow P2 (EVar vMt) * EPow P2 (EVar vMuSUSY) * EPow P2 (EVar
   vs2t) * (- #1 + EPow P2 (EVar vSbeta)) + #2 * EVar vAl4p * EVar vMt * EVar vMuSUSY * EVar vtwoLoopFlag * EPow P2
   (EVar vSbeta) * (#8 * EVar vDmglst2 * (#36 * (- #1 + #3 * EVar vlmMst1 - #3 * EVar vlmMst2) * EVar vMst2 * EVar
   vs2t * EPow P2 (EVar vMt) - #3 * EVar vMt * (#50 + EVar vlmMst1 * (#51 - #18 * EVar vlmMst2) - #51 * EVar vlmMst2 +
   #18 * EPow P2 (EVar vlmMst2)) * EPow P2 (EVar vMst2) * EPow P2 (EVar vs2t) + #4 * (#7 - #381 * EVar vlmMst2 + EVar
   vlmMst1 * (#327 + #72 * EVar vlmMst2 - #81 * EVar vlmMt) + #54 * EVar vlmMt + #81 * EVar vlmMst2 * EVar vlmMt - #72
   * EPow P2 (EVar vlmMst2)) * EPow P3 (EVar vMt) + #2 * (#1 + #3 * EVar vlmMst1 - #3 * EVar vlmMst2) * EPow P3 (EVar
   vMst2) * EPow P3 (EVar vs2t)) - EVar vMgl * (- #144 * EVar vMst2 * EVar vs2t * (- EVar vlmMst1 + EVar vlmMst2 - #2
   * EVar vlmMst1 * EVar vlmMst2 + EPow P2 (EVar vlmMst1) + EPow P2 (EVar vlmMst2)) * EPow P2 (EVar vMt) + #24 * EVar
   vMt * (#1 + #33 * EVar vlmMst2 - #3 * EVar vlmMst1 * (#11 + #6 * EVar vlmMst2) + #18 * EPow P2 (EVar vlmMst2)) *
   EPow P2 (EVar vMst2) * EPow P2 (EVar vs2t) + #32 * (#83 - #96 * EVar vlmMst2 + #3 * EVar vlmMst1 * (#29 + #12 *
   EVar vlmMst2 - #9 * EVar vlmMt) + #9 * EVar vlmMt + #27 * EVar vlmMst2 * EVar vlmMt - #36 * EPow P2 (EVar vlmMst2))
   * EPow P3 (EVar vMt) + (#5 + EVar vlmMst1 * (#6 - #288 * EVar vlmMst2) - #6 * EVar vlmMst2 + #144 * EPow P2 (EVar
   vlmMst1) + #144 * EPow P2 (EVar vlmMst2)) * EPow P3 (EVar vMst2) * EPow P3 (EVar vs2t))) + EVar vAl4p * EVar vs2t *
   EVar vTbeta * EVar vtwoLoopFlag * (#8 * EPow P2 (EVar vMt) * ((EVar vDmglst2 * EVar vMst2 * EVar vs2t * (- #49 +
   #84 * EVar vlmMst2 - #12 * EVar vlmMst1 * (#7 + #3 * EVar vlmMst2) + #36 * EPow P2 (EVar vlmMst2)) + EVar vMgl *
   EVar vMst2 * EVar vs2t * (- #1 + #111 * EVar vlmMst2 - #3 * EVar vlmMst1 * (#37 + #72 * EVar vlmMst2) + #81 * EPow
   P2 (EVar vlmMst1) + #135 * EPow P2 (EVar vlmMst2)) + EVar vDmglst2 * EVar vMt * (#785 - #438 * EVar vlmMst2 - #6 *
   EVar vlmMst1 * (- #85 + #42 * EVar vlmMst2) + #252 * EPow P2 (EVar vlmMst2)) + EVar vMgl * EVar vMt * (#193 + #474
   * EVar vlmMst2 - #6 * EVar vlmMst1 * (#67 + #42 * EVar vlmMst2) + #252 * EPow P2 (EVar vlmMst2))) * EPow P2 (EVar
   vMuSUSY) - EVar vMt * ((#4 * EVar vDmglst2 * (#95 - #447 * EVar vlmMst2 + EVar vlmMst1 * (#411 + #90 * EVar vlmMst2
   - #90 * EVar vlmMt) + #36 * EVar vlmMt + #90 * EVar vlmMst2 * EVar vlmMt - #90 * EPow P2 (EVar vlmMst2)) - #4 *
   EVar vMgl * (#49 - #75 * EVar vlmMst2 + #3 * EVar vlmMst1 * (#25 + #6 * EVar vlmMst2 - #6 * EVar vlmMt) + #18 *
   EVar vlmMst2 * EVar vlmMt - #18 * EPow P2 (EVar vlmMst2))) * EPow P2 (EVar vMst2) + (EVar vDmglst2 * (#785 + #6 *
   EVar vlmMst1 * (#85 - #42 * EVar vlmMst2) - #438 * EVar vlmMst2 + #252 * EPow P2 (EVar vlmMst2)) + EVar vMgl *
   (#193 + #474 * EVar vlmMst2 - #6 * EVar vlmMst1 * (#67 + #42 * EVar vlmMst2) + #252 * EPow P2 (EVar vlmMst2))) *
   EPow P2 (EVar vMuSUSY)) * EPow P2 (EVar vSbeta)) + EVar vMst2 * EVar vs2t * EPow P2 (EVar vSbeta) * (#8 * EPow P2
   (EVar vMt) * (EVar vMgl * (#1 - #111 * EVar vlmMst2 + #3 * EVar vlmMst1 * (#37 + #72 * EVar vlmMst2) - #81 * EPow
   P2 (EVar vlmMst1) - #135 * EPow P2 (EVar vlmMst2)) * EPow P2 (EVar vMuSUSY) - EVar vDmglst2 * (#36 * (EVar vlmMst1
   - EVar vlmMst2) * EPow P2 (EVar vMst2) + (- #49 + #84 * EVar vlmMst2 - #12 * EVar vlmMst1 * (#7 + #3 * EVar
   vlmMst2) + #36 * EPow P2 (EVar vlmMst2)) * EPow P2 (EVar vMuSUSY))) + #4 * (EVar vDmglst2 * (#11 + #42 * EVar
   vlmMst1 - #42 * EVar vlmMst2) + (- #5 - #6 * EVar vlmMst1 + #6 * EVar vlmMst2) * EVar vMgl) * EVar vMt * EVar vs2t
   * EPow P3 (EVar vMst2) + (#2 * EVar vDmglst2 * (#5 + #6 * EVar vlmMst1 - #6 * EVar vlmMst2) + (- #11 - #6 * EVar
   vlmMst1 + #6 * EVar vlmMst2) * EVar vMgl) * EPow P2 (EVar vs2t) * EPow P4 (EVar vMst2))) + #32 * EVar vAl4p * EVar
   vMst2 * EVar vTbeta * EVar vtwoLoopFlag * (- (EVar vMgl * (#65 - #159 * EVar vlmMst2 + #6 * EVar vlmMst1 * (#25 +
   #6 * EVar vlmMst2 - #6 * EVar vlmMt) + #9 * EVar vlmMt + #36 * EVar vlmMst2 * EVar vlmMt - #36 * EPow P2 (EVar
   vlmMst2))) + #18 * EVar vDmglst2 * (#4 - #61 * EVar vlmMst2 + #6 * EVar vlmMst1 * (#9 + #2 * EVar vlmMst2 - #2 *
   EVar vlmMt) + #7 * EVar vlmMt + #12 * EVar vlmMst2 * EVar vlmMt - #12 * EPow P2 (EVar vlmMst2))) * EPow P2 (EVar
   vSbeta) * EPow P4 (EVar vMt)) * EPow P10 (EVar vMst1) + EVar vAl4p * EVar vtwoLoopFlag * (- #144 * (EVar vlmMst1 -
   EVar vlmMst2) * EVar vMgl * (#2 * EVar vDmglst2 * EVar vlmMst2 + EVar vMgl + EVar vlmMst2 * EVar vMgl) * EVar vMst2
   * EVar vTbeta * EVar vxDR2DRMOD * EPow P2 (EVar vMt) * EPow P2 (EVar vMuSUSY) * EPow P2 (EVar vs2t) * (- #1 + EPow
   P2 (EVar vSbeta)) + EVar vxDmglst2 * EPow P2 (EVar vDmglst2) * (#8 * EVar vs2t * (EVar vTbeta * (#2501 + #42 * EVar
   vlmMst1 * (#7 - #6 * EVar vlmMst2) - #222 * EVar vlmMst2 + #252 * EPow P2 (EVar vlmMst2)) * EPow P2 (EVar vMuSUSY)
   * (#1 - EPow P2 (EVar vSbeta)) + EVar vMst2 * EPow P2 (EVar vSbeta) * (- #4 * EVar vMst2 * EVar vTbeta * (#257 + #6
   * EVar vlmMst2 * (#179 - #30 * EVar vlmMt) - #12 * EVar vlmMst1 * (#76 + #15 * EVar vlmMst2 - #15 * EVar vlmMt) -
   #162 * EVar vlmMt + #180 * EPow P2 (EVar vlmMst2)) + #3 * EVar vMuSUSY * (#132 - #215 * EPow P2 (EVar vSbeta) + #60
   * (EVar vlmMst1 - EVar vlmMst2) * (- #3 + #5 * EPow P2 (EVar vSbeta))))) * EPow P3 (EVar vMt) - #6 * EVar vMst2 *
   EPow P2 (EVar vMt) * EPow P2 (EVar vs2t) * (#4 * EVar vMst2 * EVar vMuSUSY * (#355 + #6 * EVar vlmMst2 - #6 * EVar
   vlmMst1 * (#1 + #6 * EVar vlmMst2) + #36 * EPow P2 (EVar vlmMst2)) * EPow P2 (EVar vSbeta) + EVar vTbeta * (- #2 *
   (#85 + #60 * EVar vlmMst2 + #12 * EVar vlmMst1 * (- #5 + #3 * EVar vlmMst2) - #36 * EPow P2 (EVar vlmMst2)) * EPow
   P2 (EVar vMuSUSY) * (- #1 + EPow P2 (EVar vSbeta)) + EPow P2 (EVar vMst2) * EPow P2 (EVar vSbeta) * (#96 - #430 *
   EPow P2 (EVar vSbeta) + #215 * EPow P4 (EVar vSbeta) - #12 * (EVar vlmMst1 - EVar vlmMst2) * (#18 - #50 * EPow P2
   (EVar vSbeta) + #25 * EPow P4 (EVar vSbeta))))) + EPow P2 (EVar vSbeta) * (#4 * EVar vMt * (#12 * (#1 - #6 * EVar
   vlmMst1 + #6 * EVar vlmMst2) * EVar vMuSUSY + (#35 - #102 * EVar vlmMst1 + #102 * EVar vlmMst2) * EVar vMst2 * EVar
   vTbeta) * EPow P3 (EVar vMst2) * EPow P3 (EVar vs2t) + #32 * (#9 * EVar vMst2 * EVar vTbeta * (#102 + EVar vlmMst2
   * (#353 - #60 * EVar vlmMt) - #6 * EVar vlmMst1 * (#49 + #10 * EVar vlmMst2 - #10 * EVar vlmMt) - #59 * EVar vlmMt
   + #60 * EPow P2 (EVar vlmMst2)) + EVar vMuSUSY * (#412 - #6 * EVar vlmMst1 * (#176 + #42 * EVar vlmMst2 - #39 *
   EVar vlmMt) + #9 * EVar vlmMst2 * (#147 - #26 * EVar vlmMt) - #267 * EVar vlmMt + #252 * EPow P2 (EVar vlmMst2))) *
   EPow P4 (EVar vMt) + #3 * (#5 + #6 * EVar vlmMst1 - #6 * EVar vlmMst2) * EVar vTbeta * EPow P4 (EVar vs2t) * EPow
   P5 (EVar vMst2)))) * EPow P10 (EVar vMst1) + #48 * EVar vAl4p * EVar vMst2 * EVar vTbeta * EVar vxDmglst2 * EPow P2
   (EVar vDmglst2) * EPow P2 (EVar vs2t) * (#2 * EVar vAl4p * EVar vthreeLoopFlag * EPow P14 (EVar vMst2) * (#2 + EVar
   vlmMst2 - #3 * EPow P2 (EVar vlmMst2)) * EPow P2 (EVar vs2t) * EPow P2 (EVar vSbeta) - #2 * EVar vAl4p * EVar
   vthreeLoopFlag * EVar vxDR2DRMOD * EPow P14 (EVar vMst2) * (#2 + EVar vlmMst2 - #3 * EPow P2 (EVar vlmMst2)) * EPow
   P2 (EVar vs2t) * EPow P2 (EVar vSbeta) + #3 * (- EVar vlmMst1 + EVar vlmMst2) * (- #2 + #3 * EVar vlmMst2) * EVar
   vtwoLoopFlag * EVar vxDR2DRMOD * EPow P2 (EVar vMt) * EPow P2 (EVar vMuSUSY) * (- #1 + EPow P2 (EVar vSbeta)) *
   EPow P10 (EVar vMst1))) + #70 * EVar vMgl * EVar vMst2 * EVar vthreeLoopFlag * EPow P2 (EVar vAl4p) * (EVar vMgl *
   EVar vxDmsqst2 * EPow P2 (EVar vDmsqst2) * EPow P2 (EVar vMst1) * (#16 * EVar vMt * EVar vMuSUSY * EPow P2 (EVar
   vSbeta) * (#45 * EVar vMst2 * EPow P2 (EVar vMst1) * (#16 * EVar vMst2 * EVar vs2t * (#88 + #8 * EConst COepS2 -
   #81 * EConst CS2 - #18 * (EVar vlmMst1 - EVar vlmMst2) * (#2 + #9 * EConst CS2) - #54 * EVar vshiftst1 - #12 *
   EConst CT1ep) * EPow P2 (EVar vMt) + #2592 * (#3 + #2 * EVar vlmMst1 - #2 * EVar vlmMst2) * EVar vMt * EPow P2
   (EVar vMst2) * EPow P2 (EVar vs2t) + #864 * (#4 - #8 * EVar vlmMst1 + #15 * EVar vlmMst2 - #7 * EVar vlmMt) * EPow
   P3 (EVar vMt) - (#1493 + #64 * EConst COepS2 - #27864 * EConst CS2 - #72 * (EVar vlmMst1 - EVar vlmMst2) * (- #1 +
   #18 * EConst CS2 + #6 * EVar vshiftst1) - #96 * EConst CT1ep) * EPow P3 (EVar vMst2) * EPow P3 (EVar vs2t)) / #4 +
   #3 * EVar vs2t * (#972000 * (#1 + #4 * EVar vlmMst1 - #4 * EVar vlmMst2) * EVar vMst2 * EVar vMt * EVar vs2t + #8 *
   (#187757 + #16000 * EConst COepS2 - #540000 * EConst CS2 + #90 * EVar vlmMst2 * (- #587 + #3600 * EConst CS2) - #90
   * EVar vlmMst1 * (- #587 + #630 * EVar vlmMst2 + #3600 * EConst CS2) - #24000 * EConst CT1ep + #28350 * (EPow P2
   (EVar vlmMst1) + EPow P2 (EVar vlmMst2))) * EPow P2 (EVar vMt) + (#1372861 - #88000 * EConst COepS2 + #180 * EVar
   vlmMst2 * (#1987 - #9900 * EConst CS2) + #13743000 * EConst CS2 + #180 * EVar vlmMst1 * (- #1987 + #1080 * EVar
   vlmMst2 + #9900 * EConst CS2) + #81000 * EVar vshiftst1 + #132000 * EConst CT1ep - #97200 * (EPow P2 (EVar vlmMst1)
   + EPow P2 (EVar vlmMst2))) * EPow P2 (EVar vMst2) * EPow P2 (EVar vs2t)) * EPow P4 (EVar vMst1) / #100 - #2430 *
   EVar vs2t * (#2 + EVar vshiftst1) * (- #4 * EPow P2 (EVar vMt) + EPow P2 (EVar vMst2) * EPow P2 (EVar vs2t)) * EPow
   P4 (EVar vMst2) + (#610359812 - #64484000 * EConst COepS2 + #315 * EVar vlmMst2 * (#540413 - #4145400 * EConst CS2)
   + #8117266500 * EConst CS2 + #315 * EVar vlmMst1 * (- #540413 + #884520 * EVar vlmMst2 + #4145400 * EConst CS2) +
   #96726000 * EConst CT1ep - #139311900 * (EPow P2 (EVar vlmMst1) + EPow P2 (EVar vlmMst2))) * EPow P3 (EVar vs2t) *
   EPow P6 (EVar vMst1) / #17150) + EVar vTbeta * (- #311040 * (#3 + #2 * EVar vlmMst1 - #2 * EVar vlmMst2) * EVar
   vMst2 * EVar vs2t * EPow P2 (EVar vMst1) * EPow P2 (EVar vMuSUSY) * EPow P3 (EVar vMt) - #144 * EPow P2 (EVar vMt)
   * EPow P2 (EVar vs2t) * (#270 * EVar vshiftst1 * (#2 * (EVar vlmMst1 - EVar vlmMst2) * EPow P2 (EVar vMst1) - EPow
   P2 (EVar vMst2)) * (EPow P2 (EVar vMst1) + EPow P2 (EVar vMst2)) * EPow P2 (EVar vMuSUSY) - #40 * EConst CT1ep *
   EPow P2 (EVar vMst1) * EPow P2 (EVar vSbeta) * (#3 * EPow P2 (EVar vMst2) * (EPow P2 (EVar vMst2) + EPow P2 (EVar
   vMuSUSY)) + EPow P2 (EVar vMst1) * (#5 * EPow P2 (EVar vMst2) + #14 * EPow P2 (EVar vMuSUSY)) + #5 * EPow P4 (EVar
   vMst1))) + #1944 * EVar vshiftst1 * EPow P2 (EVar vSbeta) * (#20 * EPow P2 (EVar vMt) * EPow P2 (EVar vs2t) * ((#2
   * (EVar vlmMst1 - EVar vlmMst2) * EPow P2 (EVar vMst1) - EPow P2 (EVar vMst2)) * (EPow P2 (EVar vMst1) + EPow P2
   (EVar vMst2)) * EPow P2 (EVar vMuSUSY) + #4 * EPow P2 (EVar vMst1) * EPow P4 (EVar vMst2) - #2 * EPow P2 (EVar
   vMst2) * (EPow P4 (EVar vMst1) + EPow P4 (EVar vMst2))) + #80 * EPow P2 (EVar vMst2) * (EPow P2 (EVar vMst1) + EPow
   P2 (EVar vMst2)) * EPow P4 (EVar vMt) + #5 * (EPow P2 (EVar vMst1) - EPow P2 (EVar vMst2)) * EPow P2 (EVar vMst2) *
   (#2 * (EVar vlmMst1 - EVar vlmMst2) * EPow P2 (EVar vMst1) * EPow P2 (EVar vMst2) + EPow P4 (EVar vMst1) - EPow P4
   (EVar vMst2)) * EPow P4 (EVar vs2t)) - #480 * EConst CT1ep * EPow P2 (EVar vMst1) * (#12 * (#14 * EPow P2 (EVar
   vMst1) + #3 * EPow P2 (EVar vMst2)) * EPow P2 (EVar vMt) * EPow P2 (EVar vMuSUSY) * EPow P2 (EVar vs2t) + EPow P2
   (EVar vMst2) * EPow P2 (EVar vSbeta) * (#24 * EPow P2 (EVar vMst1) * EPow P2 (EVar vMst2) + #14 * EPow P4 (EVar
   vMst1) + #9 * EPow P4 (EVar vMst2)) * EPow P4 (EVar vs2t)) + EPow P2 (EVar vs2t) * (- #4860 * EVar vMt * (#2 * (#11
   + #39 * EVar vlmMst1 - #39 * EVar vlmMst2) * EVar vMst2 * EVar vs2t * (- #2 + EPow P2 (EVar vSbeta)) + (#167 - #5 *
   EVar vlmMst1 + #5 * EVar vlmMst2) * EVar vMt * EPow P2 (EVar vSbeta)) * EPow P4 (EVar vSbeta) * EPow P6 (EVar
   vMst1) + #12 * EPow P2 (EVar vMt) * (EPow P2 (EVar vMuSUSY) * (#375 * (#1925 + #64 * EConst COepS2 - #27864 *
   EConst CS2 - #72 * (EVar vlmMst1 - EVar vlmMst2) * (- #1 + #18 * EConst CS2)) * EPow P2 (EVar vMst1) * EPow P2
   (EVar vMst2) + #2 * (#7 * (- #46499 + #8000 * EConst COepS2 - #1728000 * EConst CS2) + #90 * EVar vlmMst2 * (-
   #2137 + #12600 * EConst CS2) - #90 * EVar vlmMst1 * (- #2137 + #1080 * EVar vlmMst2 + #12600 * EConst CS2) + #48600
   * (EPow P2 (EVar vlmMst1) + EPow P2 (EVar vlmMst2))) * EPow P4 (EVar vMst1) + #162000 * EPow P4 (EVar vMst2)) +
   #20250 * (#167 - #5 * EVar vlmMst1 + #5 * EVar vlmMst2) * EPow P4 (EVar vSbeta) * EPow P6 (EVar vMst1)) / #25) +
   EPow P2 (EVar vSbeta) * (- #77760 * EVar vMst2 * EVar vs2t * EPow P2 (EVar vMst1) * (#4 * (#11 - #6 * EVar vlmMst1
   + #12 * EVar vlmMst2 - #6 * EVar vlmMt) * EPow P2 (EVar vMst1) + (#15 - #16 * EVar vlmMst1 + #30 * EVar vlmMst2 -
   #14 * EVar vlmMt) * EPow P2 (EVar vMst2) - #4 * (#3 + #2 * EVar vlmMst1 - #2 * EVar vlmMst2) * EPow P2 (EVar
   vMuSUSY)) * EPow P3 (EVar vMt) + #19440 * EVar vMst2 * EVar vMt * EPow P2 (EVar vMst1) * EPow P3 (EVar vs2t) * (#16
   * (#1 - EVar vlmMst1 + EVar vlmMst2) * EPow P2 (EVar vMst1) * EPow P2 (EVar vMst2) + (#29 + #41 * EVar vlmMst1 -
   #41 * EVar vlmMst2) * EPow P4 (EVar vMst1) - #8 * (#3 + #2 * EVar vlmMst1 - #2 * EVar vlmMst2) * EPow P4 (EVar
   vMst2)) + #144 * (#125 * (#3095 - #1224 * EVar vlmMst1 + #6 * EVar vlmMst2 * (#365 - #36 * EVar vlmMt) - #966 *
   EVar vlmMt + #108 * EPow P2 (EVar vlmMst2) + #108 * EPow P2 (EVar vlmMt)) * EPow P2 (EVar vMst1) * EPow P2 (EVar
   vMst2) + #6 * (#176473 + #30 * EVar vlmMst1 * (- #1771 + #90 * EVar vlmMst2 - #150 * EVar vlmMt) - #63000 * EVar
   vlmMt + #30 * EVar vlmMst2 * (#3871 + #150 * EVar vlmMt) + #900 * EPow P2 (EVar vlmMst1) - #3600 * EPow P2 (EVar
   vlmMst2)) * EPow P4 (EVar vMst1) + #54000 * EPow P4 (EVar vMst2)) * EPow P4 (EVar vMt) / #25 - #12 * EPow P2 (EVar
   vMt) * EPow P2 (EVar vs2t) * (#686 * (#2 * (#121757 + #10000 * EConst COepS2 - #479250 * EConst CS2 + #90 * EVar
   vlmMst2 * (- #887 + #2250 * EConst CS2) - #90 * EVar vlmMst1 * (- #887 + #630 * EVar vlmMst2 + #2250 * EConst CS2)
   + #28350 * (EPow P2 (EVar vlmMst1) + EPow P2 (EVar vlmMst2))) * EPow P2 (EVar vMst2) + (#7 * (- #46499 + #8000 *
   EConst COepS2 - #1728000 * EConst CS2) + #90 * EVar vlmMst2 * (- #2137 + #12600 * EConst CS2) - #90 * EVar vlmMst1
   * (- #2137 + #1080 * EVar vlmMst2 + #12600 * EConst CS2) + #48600 * (EPow P2 (EVar vlmMst1) + EPow P2 (EVar
   vlmMst2))) * EPow P2 (EVar vMuSUSY)) * EPow P4 (EVar vMst1) + #55566000 * (#2 * EPow P2 (EVar vMst2) + EPow P2
   (EVar vMuSUSY)) * EPow P4 (EVar vMst2) - #128625 * EPow P2 (EVar vMst1) * (- ((#1925 + #64 * EConst COepS2 - #27864
   * EConst CS2 - #72 * (EVar vlmMst1 - EVar vlmMst2) * (- #1 + #18 * EConst CS2)) * EPow P2 (EVar vMst2) * EPow P2
   (EVar vMuSUSY)) + #8 * (#20 - #8 * EConst COepS2 + #81 * EConst CS2 + #18 * (EVar vlmMst1 - EVar vlmMst2) * (#2 +
   #9 * EConst CS2)) * EPow P4 (EVar vMst2)) + #250 * (#397737 + #54880 * EConst COepS2 - #2580732 * EConst CS2 + #252
   * EVar vlmMst2 * (- #2333 + #4410 * EConst CS2) - #252 * EVar vlmMst1 * (- #2333 + #1134 * EVar vlmMst2 + #4410 *
   EConst CS2) + #142884 * (EPow P2 (EVar vlmMst1) + EPow P2 (EVar vlmMst2))) * EPow P6 (EVar vMst1)) / #8575 + EPow
   P2 (EVar vMst2) * EPow P4 (EVar vs2t) * (- #4116 * (#483184 - #16000 * EConst COepS2 + #45 * EVar vlmMst2 * (#1837
   - #7200 * EConst CS2) + #823500 * EConst CS2 + #45 * EVar vlmMst1 * (- #1837 + #1080 * EVar vlmMst2 + #7200 *
   EConst CS2) - #24300 * (EPow P2 (EVar vlmMst1) + EPow P2 (EVar vlmMst2))) * EPow P2 (EVar vMst2) * EPow P4 (EVar
   vMst1) + #385875 * (#1061 + #64 * EConst COepS2 - #27864 * EConst CS2 - #72 * (EVar vlmMst1 - EVar vlmMst2) * (- #1
   + #18 * EConst CS2)) * EPow P2 (EVar vMst1) * EPow P4 (EVar vMst2) + #5 * (#38390869 + #7683200 * EConst COepS2 -
   #418597200 * EConst CS2 + #630 * EVar vlmMst2 * (#8753 + #246960 * EConst CS2) - #630 * EVar vlmMst1 * (#8753 +
   #113400 * EVar vlmMst2 + #246960 * EConst CS2) + #35721000 * (EPow P2 (EVar vlmMst1) + EPow P2 (EVar vlmMst2))) *
   EPow P6 (EVar vMst1) + #166698000 * EPow P6 (EVar vMst2)) / #8575))) - #36 * EVar vxDR2DRMOD * (#4 * EVar vMst2 *
   EVar vMt * EVar vMuSUSY * EPow P2 (EVar vSbeta) * (#2 * EVar vDmglst2 * (#2 * EPow P3 (EVar vMst2) * EPow P4 (EVar
   vMst1) * (- #270 * EVar vDmsqst2 * EVar vs2t * EPow P2 (EVar vMt) + #3 * EVar vs2t * EPow P2 (EVar vMst2) * (#45 *
   EVar vDmsqst2 * (EVar vlmMst1 - EVar vlmMst2) * EPow P2 (EVar vs2t) + #2 * EPow P2 (EVar vMt) * (#52 + #370 * EVar
   vlmMst2 - #96 * EVar vlmMst2 * EPow P2 (EVar vlmMst1) + #81 * EPow P2 (EVar vlmMst2) + #96 * EVar vlmMst1 * (- #1 +
   EVar vlmMst2 + #2 * EPow P2 (EVar vlmMst2)) - #96 * EPow P3 (EVar vlmMst2))) - #432 * EVar vMt * EPow P2 (EVar
   vs2t) * (#7 + #9 * EVar vlmMst2 - #8 * EPow P2 (EVar vlmMst2) + EVar vlmMst1 * (- #3 + #5 * EVar vlmMst2 + #6 *
   EPow P2 (EVar vlmMst2)) - #6 * EPow P3 (EVar vlmMst2)) * EPow P3 (EVar vMst2) + #32 * EVar vMst2 * (#119 + EVar
   vlmMst2 * (#224 - #15 * EVar vlmMt) - #51 * EVar vlmMt + #3 * (#5 + #6 * EVar vlmMt) * EPow P2 (EVar vlmMst2) + #18
   * EVar vlmMst1 * (- #4 + EVar vlmMt - EVar vlmMst2 * (#1 + EVar vlmMt) + EPow P2 (EVar vlmMst2)) - #18 * EPow P3
   (EVar vlmMst2)) * EPow P3 (EVar vMt) + #9 * (#40 + #4 * EVar vlmMst2 + #16 * EVar vlmMst2 * EPow P2 (EVar vlmMst1)
   + EVar vlmMst1 * (#4 - #246 * EVar vlmMst2 - #123 * EPow P2 (EVar vlmMst2)) + #198 * EPow P2 (EVar vlmMst2) + #107
   * EPow P3 (EVar vlmMst2)) * EPow P3 (EVar vs2t) * EPow P4 (EVar vMst2)) + #9 * EPow P2 (EVar vMst1) * (#60 * EVar
   vDmsqst2 * EVar vs2t * EPow P2 (EVar vMt) + #96 * EVar vMt * (- #1 + #2 * EVar vlmMst2 + #3 * EPow P2 (EVar
   vlmMst2)) * EPow P2 (EVar vs2t) * EPow P3 (EVar vMst2) - #128 * EVar vMst2 * (- #1 + #2 * EVar vlmMst2 + #3 * EPow
   P2 (EVar vlmMst2)) * EPow P3 (EVar vMt) - EPow P2 (EVar vMst2) * (#4 * EVar vs2t * (- #52 + #102 * EVar vlmMst2 +
   #32 * EVar vlmMst1 * EVar vlmMst2 + #59 * EPow P2 (EVar vlmMst2)) * EPow P2 (EVar vMt) + #15 * EVar vDmsqst2 * EPow
   P3 (EVar vs2t)) + (- #20 + (#230 + #32 * EVar vlmMst1) * EVar vlmMst2 + #155 * EPow P2 (EVar vlmMst2)) * EPow P3
   (EVar vs2t) * EPow P4 (EVar vMst2)) * EPow P5 (EVar vMst2) + EPow P2 (EVar vMst2) * (- #1152 * EVar vMst2 * EVar
   vs2t * (EVar vlmMst2 * EPow P2 (EVar vlmMst1) + EVar vlmMst1 * (#4 + #2 * EVar vlmMst2 - #2 * EPow P2 (EVar
   vlmMst2)) + (- #4 + EVar vlmMst2) * EPow P2 (#1 + EVar vlmMst2)) * EPow P2 (EVar vMt) - #864 * EVar vMt * EPow P2
   (EVar vMst2) * EPow P2 (EVar vs2t) * (#8 + #19 * EVar vlmMst2 - #5 * EPow P2 (EVar vlmMst2) + EVar vlmMst1 * (- #7
   + #5 * EVar vlmMst2 + #6 * EPow P2 (EVar vlmMst2)) - #6 * EPow P3 (EVar vlmMst2)) + #64 * (#263 + EVar vlmMst2 *
   (#962 - #213 * EVar vlmMt) - #177 * EVar vlmMt + (#393 - #18 * EVar vlmMt) * EPow P2 (EVar vlmMst2) - #18 * EVar
   vlmMst1 * (#26 - EVar vlmMst2 * (- #17 + EVar vlmMt) - #7 * EVar vlmMt + EPow P2 (EVar vlmMst2)) + #18 * EPow P3
   (EVar vlmMst2)) * EPow P3 (EVar vMt) + #9 * EVar vMst2 * (#15 * EVar vDmsqst2 + EPow P2 (EVar vMst2) * (#36 + #42 *
   EVar vlmMst2 + #256 * EVar vlmMst2 * EPow P2 (EVar vlmMst1) + #37 * EPow P2 (EVar vlmMst2) - #32 * EVar vlmMst1 *
   (#3 + #3 * EVar vlmMst2 + #16 * EPow P2 (EVar vlmMst2)) + #256 * EPow P3 (EVar vlmMst2))) * EPow P3 (EVar vs2t)) *
   EPow P6 (EVar vMst1) + #16 * (- #72 * EVar vMst2 * EVar vs2t * EPow P2 (EVar vMt) * (- #6 - #14 * EVar vlmMst2 +
   EVar vlmMst2 * EPow P2 (EVar vlmMst1) + EVar vlmMst1 * (#9 + #6 * EVar vlmMst2 - #2 * EPow P2 (EVar vlmMst2)) - #6
   * EPow P2 (EVar vlmMst2) + EPow P3 (EVar vlmMst2)) + #27 * EVar vMt * EPow P2 (EVar vMst2) * EPow P2 (EVar vs2t) *
   (- #17 - #51 * EVar vlmMst2 + #4 * EPow P2 (EVar vlmMst2) - #4 * EVar vlmMst1 * (- #6 + EVar vlmMst2 + #3 * EPow P2
   (EVar vlmMst2)) + #12 * EPow P3 (EVar vlmMst2)) + #4 * (#290 + EVar vlmMst2 * (#2447 - #645 * EVar vlmMt) - #375 *
   EVar vlmMt - #3 * (- #509 + #60 * EVar vlmMt) * EPow P2 (EVar vlmMst2) - #18 * EVar vlmMst1 * (#87 + EVar vlmMst2 *
   (#71 - #10 * EVar vlmMt) - #22 * EVar vlmMt + #10 * EPow P2 (EVar vlmMst2)) + #180 * EPow P3 (EVar vlmMst2)) * EPow
   P3 (EVar vMt) + #9 * (#16 * EVar vlmMst2 * EPow P2 (EVar vlmMst1) - #2 * EVar vlmMst1 * (#3 + #2 * EVar vlmMst2 +
   #16 * EPow P2 (EVar vlmMst2)) + EVar vlmMst2 * (#7 + #4 * EVar vlmMst2 + #16 * EPow P2 (EVar vlmMst2))) * EPow P3
   (EVar vMst2) * EPow P3 (EVar vs2t)) * EPow P8 (EVar vMst1) - #288 * EVar vlmMst2 * (#1 + EVar vlmMst2) * EVar vs2t
   * (- #4 * EPow P2 (EVar vMt) + EPow P2 (EVar vMst2) * EPow P2 (EVar vs2t)) * EPow P9 (EVar vMst2)) + #9 * EVar vMgl
   * (- #2 * EPow P3 (EVar vMst2) * EPow P4 (EVar vMst1) * (#30 * EVar vDmsqst2 * EVar vs2t * (- #5 + #9 * EVar
   vshiftst1) * EPow P2 (EVar vMt) + EVar vs2t * EPow P2 (EVar vMst2) * (#15 * EVar vDmsqst2 * (EVar vlmMst1 - EVar
   vlmMst2) * (#5 - #9 * EVar vshiftst1) * EPow P2 (EVar vs2t) - #2 * EPow P2 (EVar vMt) * (#109 + #76 * EVar vlmMst2
   - #135 * EVar vshiftst1 - #21 * EPow P2 (EVar vlmMst2) + #64 * EVar vlmMst1 * EPow P2 (#1 + EVar vlmMst2) - #32 *
   ((#1 + EVar vlmMst2) * EPow P2 (EVar vlmMst1) + EPow P3 (EVar vlmMst2)))) + (#1 + EVar vlmMst2) * (- #96 * (#2 *
   EVar vlmMst2 * (#2 + EVar vlmMst2) - EVar vlmMst1 * (#3 + #2 * EVar vlmMst2)) * EVar vMt * EPow P2 (EVar vs2t) *
   EPow P3 (EVar vMst2) + #64 * EVar vMst2 * (#1 + EVar vlmMst2 * (#7 - #2 * EVar vlmMt) - #2 * EVar vlmMst1 * (#2 +
   EVar vlmMst2 - EVar vlmMt) - #3 * EVar vlmMt + #2 * EPow P2 (EVar vlmMst2)) * EPow P3 (EVar vMt)) + (#8 + #3 * EVar
   vlmMst2 * (- #79 + #45 * EVar vshiftst1) - #16 * (#1 + EVar vlmMst2) * EPow P2 (EVar vlmMst1) - #308 * EPow P2
   (EVar vlmMst2) + EVar vlmMst1 * (#269 + #348 * EVar vlmMst2 - #135 * EVar vshiftst1 + #123 * EPow P2 (EVar
   vlmMst2)) - #107 * EPow P3 (EVar vlmMst2)) * EPow P3 (EVar vs2t) * EPow P4 (EVar vMst2)) - EPow P2 (EVar vMst1) *
   (#60 * EVar vDmsqst2 * EVar vs2t * (#5 - #9 * EVar vshiftst1) * EPow P2 (EVar vMt) - #64 * EPow P2 (#1 + EVar
   vlmMst2) * (#3 * EVar vMt * EPow P2 (EVar vs2t) * EPow P3 (EVar vMst2) - #4 * EVar vMst2 * EPow P3 (EVar vMt)) +
   EPow P2 (EVar vMst2) * (#4 * EVar vs2t * (#173 + #188 * EVar vlmMst2 + #32 * EVar vlmMst1 * (#1 + EVar vlmMst2) -
   #135 * EVar vshiftst1 + #59 * EPow P2 (EVar vlmMst2)) * EPow P2 (EVar vMt) + #15 * EVar vDmsqst2 * (- #5 + #9 *
   EVar vshiftst1) * EPow P3 (EVar vs2t)) - (#221 + #284 * EVar vlmMst2 + #32 * EVar vlmMst1 * (#1 + EVar vlmMst2) -
   #135 * EVar vshiftst1 + #107 * EPow P2 (EVar vlmMst2)) * EPow P3 (EVar vs2t) * EPow P4 (EVar vMst2)) * EPow P5
   (EVar vMst2) + EPow P2 (EVar vMst2) * (#64 * (#1 + EVar vlmMst2) * EVar vMt * (- #2 * EVar vMst2 * EVar vMt * EVar
   vs2t * EPow P2 (#1 - EVar vlmMst1 + EVar vlmMst2) + #2 * (#3 - #21 * EVar vlmMst2 + #2 * EVar vlmMst1 * (#8 + #3 *
   EVar vlmMst2 - #3 * EVar vlmMt) + #5 * EVar vlmMt + #6 * EVar vlmMst2 * EVar vlmMt - #6 * EPow P2 (EVar vlmMst2)) *
   EPow P2 (EVar vMt) + #3 * (- #2 + #5 * EVar vlmMst2 - EVar vlmMst1 * (#5 + #2 * EVar vlmMst2) + #2 * EPow P2 (EVar
   vlmMst2)) * EPow P2 (EVar vMst2) * EPow P2 (EVar vs2t)) - EVar vMst2 * (#15 * EVar vDmsqst2 * (#5 - #9 * EVar
   vshiftst1) + EPow P2 (EVar vMst2) * (#125 + #156 * EVar vlmMst2 + #512 * EVar vlmMst1 * EVar vlmMst2 * (#1 + EVar
   vlmMst2) - #135 * EVar vshiftst1 - #181 * EPow P2 (EVar vlmMst2) - #256 * ((#1 + EVar vlmMst2) * EPow P2 (EVar
   vlmMst1) + EPow P3 (EVar vlmMst2)))) * EPow P3 (EVar vs2t)) * EPow P6 (EVar vMst1) + #16 * (#1 + EVar vlmMst2) *
   ((- #8 * EVar vMst2 * EVar vs2t * (#1 + #3 * EVar vlmMst2 - EVar vlmMst1 * (#3 + #2 * EVar vlmMst2) + EPow P2 (EVar
   vlmMst1) + EPow P2 (EVar vlmMst2)) * EPow P2 (EVar vMt) - #6 * EVar vMt * (#5 - #12 * EVar vlmMst2 + #4 * EVar
   vlmMst1 * (#3 + EVar vlmMst2) - #4 * EPow P2 (EVar vlmMst2)) * EPow P2 (EVar vMst2) * EPow P2 (EVar vs2t) + #8 *
   (#12 - #45 * EVar vlmMst2 + #2 * EVar vlmMst1 * (#19 + #6 * EVar vlmMst2 - #6 * EVar vlmMt) + #7 * EVar vlmMt + #12
   * EVar vlmMst2 * EVar vlmMt - #12 * EPow P2 (EVar vlmMst2)) * EPow P3 (EVar vMt) + (#1 + EVar vlmMst1 * (#2 - #32 *
   EVar vlmMst2) - #2 * EVar vlmMst2 + #16 * EPow P2 (EVar vlmMst1) + #16 * EPow P2 (EVar vlmMst2)) * EPow P3 (EVar
   vMst2) * EPow P3 (EVar vs2t)) * EPow P8 (EVar vMst1) + (#1 + EVar vlmMst2) * EVar vs2t * (#4 * EPow P2 (EVar vMt) -
   EPow P2 (EVar vMst2) * EPow P2 (EVar vs2t)) * EPow P9 (EVar vMst2)))) + EVar vTbeta * (#1215 * EVar vMgl * EVar
   vshiftst1 * EPow P2 (EVar vMst1) * (EPow P2 (EVar vSbeta) * EPow P4 (EVar vMst2) * (#16 * (EVar vDmsqst2 * EPow P2
   (EVar vMst1) * EPow P2 (EVar vMst2) * EPow P2 (EVar vMt) * EPow P2 (EVar vs2t) + (EVar vDmsqst2 + EPow P2 (EVar
   vMst2)) * (EPow P2 (EVar vMst1) + EPow P2 (EVar vMst2)) * EPow P4 (EVar vMt)) + (EPow P2 (EVar vMst1) - EPow P2
   (EVar vMst2)) * (EVar vDmsqst2 + EPow P2 (EVar vMst2)) * (#2 * (EVar vlmMst1 - EVar vlmMst2) * EPow P2 (EVar vMst1)
   * EPow P2 (EVar vMst2) + EPow P4 (EVar vMst1) - EPow P4 (EVar vMst2)) * EPow P4 (EVar vs2t)) + EPow P2 (EVar vMt) *
   EPow P2 (EVar vs2t) * (#4 * (EVar vDmsqst2 + EPow P2 (EVar vMst2)) * EPow P2 (EVar vMuSUSY) * ((EPow P2 (EVar
   vMst1) + EPow P2 (EVar vMst2)) * EPow P4 (EVar vMst2) - #2 * (EVar vlmMst1 - EVar vlmMst2) * EPow P2 (EVar vMst1) *
   (EPow P2 (EVar vMst1) * EPow P2 (EVar vMst2) + EPow P4 (EVar vMst1) + EPow P4 (EVar vMst2))) - #4 * EPow P2 (EVar
   vSbeta) * ((EVar vDmsqst2 + EPow P2 (EVar vMst2)) * EPow P2 (EVar vMuSUSY) * ((EPow P2 (EVar vMst1) + EPow P2 (EVar
   vMst2)) * EPow P4 (EVar vMst2) - #2 * (EVar vlmMst1 - EVar vlmMst2) * EPow P2 (EVar vMst1) * (EPow P2 (EVar vMst1)
   * EPow P2 (EVar vMst2) + EPow P4 (EVar vMst1) + EPow P4 (EVar vMst2))) + #2 * (EVar vDmsqst2 * EPow P4 (EVar vMst2)
   * (EPow P4 (EVar vMst1) + EPow P4 (EVar vMst2)) + EPow P2 (EPow P2 (EVar vMst1) - EPow P2 (EVar vMst2)) * EPow P6
   (EVar vMst2))))) + EPow P2 (EVar vSbeta) * (#256 * EVar vMst2 * EVar vs2t * EPow P2 (EVar vMst1) * EPow P3 (EVar
   vMt) * (#9 * (#1 + EVar vlmMst2) * EVar vMgl * (- #2 * EPow P2 (EVar vMst2) * ((#3 + #2 * EVar vlmMst1 * (#7 + #2 *
   EVar vlmMst2 - #2 * EVar vlmMt) + #4 * EVar vlmMst2 * (- #4 + EVar vlmMt) + #2 * EVar vlmMt - #4 * EPow P2 (EVar
   vlmMst2)) * EPow P2 (EVar vMst2) + (#1 - #10 * EVar vlmMst2 + #4 * EVar vlmMst1 * (#2 + EVar vlmMst2) - #4 * EPow
   P2 (EVar vlmMst2)) * EPow P2 (EVar vMuSUSY)) * EPow P4 (EVar vMst1) + EPow P2 (EVar vMst1) * ((#1 - #2 * EVar
   vlmMst1 * (#5 + #2 * EVar vlmMst2 - #2 * EVar vlmMt) - #4 * EVar vlmMst2 * (- #3 + EVar vlmMt) - #6 * EVar vlmMt +
   #4 * EPow P2 (EVar vlmMst2)) * EPow P2 (EVar vMst2) + #2 * (#1 + #5 * EVar vlmMst2 - EVar vlmMst1 * (#3 + #2 * EVar
   vlmMst2) + #2 * EPow P2 (EVar vlmMst2)) * EPow P2 (EVar vMuSUSY)) * EPow P4 (EVar vMst2) - (#2 * (#8 - #27 * EVar
   vlmMst2 + EVar vlmMst1 * (#25 + #6 * EVar vlmMst2 - #6 * EVar vlmMt) + #2 * EVar vlmMt + #6 * EVar vlmMst2 * EVar
   vlmMt - #6 * EPow P2 (EVar vlmMst2)) * EPow P2 (EVar vMst2) + (#7 - #32 * EVar vlmMst2 + #4 * EVar vlmMst1 * (#7 +
   #3 * EVar vlmMst2) - #12 * EPow P2 (EVar vlmMst2)) * EPow P2 (EVar vMuSUSY)) * EPow P6 (EVar vMst1) + #2 * (#1 +
   EVar vlmMst2) * (#2 * EPow P2 (EVar vMst2) + EPow P2 (EVar vMuSUSY)) * EPow P6 (EVar vMst2)) - EVar vDmglst2 *
   (EPow P2 (EVar vMst1) * (EPow P2 (EVar vMst2) * (#253 + #5 * EVar vlmMst2 * (#107 - #6 * EVar vlmMt) - #102 * EVar
   vlmMt - #18 * EVar vlmMst1 * (#9 + EVar vlmMst2 - #2 * EVar vlmMt + #2 * EVar vlmMst2 * EVar vlmMt - #2 * EPow P2
   (EVar vlmMst2)) + #12 * (#10 + #3 * EVar vlmMt) * EPow P2 (EVar vlmMst2) - #36 * EPow P3 (EVar vlmMst2)) + #18 *
   EPow P2 (EVar vMuSUSY) * (#8 + #7 * EVar vlmMst2 - #11 * EPow P2 (EVar vlmMst2) + EVar vlmMst1 * (- #3 + #5 * EVar
   vlmMst2 + #6 * EPow P2 (EVar vlmMst2)) - #6 * EPow P3 (EVar vlmMst2))) * EPow P4 (EVar vMst2) + #9 * ((#49 + #103 *
   EVar vlmMst2 - #36 * (#1 + EVar vlmMst2) * EPow P2 (EVar vlmMst2) + #4 * EVar vlmMst1 * (- #11 + #6 * EVar vlmMst2
   + #9 * EPow P2 (EVar vlmMst2))) * EPow P2 (EVar vMuSUSY) + EPow P2 (EVar vMst2) * (#28 + EVar vlmMst2 * (#378 - #96
   * EVar vlmMt) - #44 * EVar vlmMt + EVar vlmMst1 * (- #274 + #60 * EVar vlmMt + #18 * EVar vlmMst2 * (- #13 + #2 *
   EVar vlmMt) - #36 * EPow P2 (EVar vlmMst2)) + (#270 - #36 * EVar vlmMt) * EPow P2 (EVar vlmMst2) + #36 * EPow P3
   (EVar vlmMst2))) * EPow P6 (EVar vMst1) + #18 * (EPow P2 (EVar vMst2) * (#2 * EPow P2 (EVar vMuSUSY) * (#8 + #13 *
   EVar vlmMst2 - #8 * EPow P2 (EVar vlmMst2) + EVar vlmMst1 * (- #5 + #5 * EVar vlmMst2 + #6 * EPow P2 (EVar
   vlmMst2)) - #6 * EPow P3 (EVar vlmMst2)) + EPow P2 (EVar vMst2) * (#23 + EVar vlmMst2 * (#93 - #22 * EVar vlmMt) -
   #14 * EVar vlmMt - #4 * (- #11 + EVar vlmMt) * EPow P2 (EVar vlmMst2) - #2 * EVar vlmMst1 * (#25 + EVar vlmMst2 *
   (#17 - #2 * EVar vlmMt) - #6 * EVar vlmMt + #2 * EPow P2 (EVar vlmMst2)) + #4 * EPow P3 (EVar vlmMst2))) * EPow P4
   (EVar vMst1) + (#1 - #2 * EVar vlmMst2 - #3 * EPow P2 (EVar vlmMst2)) * (#2 * EPow P2 (EVar vMst2) + EPow P2 (EVar
   vMuSUSY)) * EPow P6 (EVar vMst2)))) + #16 * EPow P2 (EVar vMst2) * EPow P4 (EVar vMt) * (EVar vMgl * (- (EPow P4
   (EVar vMst1) * (#675 * EVar vDmsqst2 * EPow P2 (EVar vMst2) + (#2117 + EVar vlmMst2 * (#4796 - #1248 * EVar vlmMt)
   - #576 * EVar vlmMst1 * (#1 + EVar vlmMst2) * (#3 + EVar vlmMst2 - EVar vlmMt) - #672 * EVar vlmMt + (#3651 - #576
   * EVar vlmMt) * EPow P2 (EVar vlmMst2) + #576 * EPow P3 (EVar vlmMst2)) * EPow P4 (EVar vMst2))) + #288 * (#1 +
   EVar vlmMst2) * ((#5 - #57 * EVar vlmMst2 + #2 * EVar vlmMst1 * (#25 + #6 * EVar vlmMst2 - #6 * EVar vlmMt) + #7 *
   EVar vlmMt + #12 * EVar vlmMst2 * EVar vlmMt - #12 * EPow P2 (EVar vlmMst2)) * EPow P2 (EVar vMst1) + (- #2 - #27 *
   EVar vlmMst2 + EVar vlmMst1 * (#22 + #6 * EVar vlmMst2 - #6 * EVar vlmMt) + #5 * EVar vlmMt + #6 * EVar vlmMst2 *
   EVar vlmMt - #6 * EPow P2 (EVar vlmMst2)) * EPow P2 (EVar vMst2)) * EPow P6 (EVar vMst1) - #9 * EPow P2 (EVar
   vMst1) * (#75 * EVar vDmsqst2 * EPow P4 (EVar vMst2) + (#173 + #188 * EVar vlmMst2 + #32 * EVar vlmMst1 * (#1 +
   EVar vlmMst2) + #59 * EPow P2 (EVar vlmMst2)) * EPow P6 (EVar vMst2)) + #144 * EPow P2 (#1 + EVar vlmMst2) * EPow
   P8 (EVar vMst2)) + #2 * EVar vDmglst2 * (EPow P4 (EVar vMst1) * (#135 * EVar vDmsqst2 * EPow P2 (EVar vMst2) +
   (#4220 + #6114 * EVar vlmMst2 - #576 * EVar vlmMst1 * (#4 + #2 * EVar vlmMst2 - EVar vlmMt) - #48 * (#29 + #27 *
   EVar vlmMst2) * EVar vlmMt + #1341 * EPow P2 (EVar vlmMst2)) * EPow P4 (EVar vMst2)) + #9 * EPow P2 (EVar vMst1) *
   (#15 * EVar vDmsqst2 * EPow P4 (EVar vMst2) - (- #84 + (#70 + #32 * EVar vlmMst1) * EVar vlmMst2 + #59 * EPow P2
   (EVar vlmMst2)) * EPow P6 (EVar vMst2)) + #288 * (EPow P2 (EVar vMst2) * (#31 + EVar vlmMst2 * (#95 - #23 * EVar
   vlmMt) - #16 * EVar vlmMt + (#51 - #6 * EVar vlmMt) * EPow P2 (EVar vlmMst2) - #2 * EVar vlmMst1 * (#25 + EVar
   vlmMst2 * (#20 - #3 * EVar vlmMt) - #6 * EVar vlmMt + #3 * EPow P2 (EVar vlmMst2)) + #6 * EPow P3 (EVar vlmMst2)) *
   EPow P6 (EVar vMst1) + (#42 + EVar vlmMst2 * (#242 - #62 * EVar vlmMt) - #33 * EVar vlmMt + #6 * (#29 - #4 * EVar
   vlmMt) * EPow P2 (EVar vlmMst2) - #2 * EVar vlmMst1 * (#81 + EVar vlmMst2 * (#74 - #12 * EVar vlmMt) - #18 * EVar
   vlmMt + #12 * EPow P2 (EVar vlmMst2)) + #24 * EPow P3 (EVar vlmMst2)) * EPow P8 (EVar vMst1) + EVar vlmMst2 * (#1 +
   EVar vlmMst2) * EPow P8 (EVar vMst2)))) + #9 * EPow P2 (EVar vMst1) * EPow P3 (EVar vs2t) * EPow P4 (EVar vMst2) *
   (#128 * EVar vMst2 * EVar vMt * ((#1 + EVar vlmMst2) * EVar vMgl * (#2 * (#2 + #2 * EVar vlmMst1 - EVar vlmMst2) *
   EPow P2 (EVar vMst2) * EPow P4 (EVar vMst1) + #2 * (#1 - #3 * EVar vlmMst2 + EVar vlmMst1 * (#3 + #2 * EVar
   vlmMst2) - #2 * EPow P2 (EVar vlmMst2)) * EPow P2 (EVar vMst1) * EPow P4 (EVar vMst2) + (#1 + #2 * EVar vlmMst1 -
   #2 * EVar vlmMst2) * EPow P6 (EVar vMst1) - #2 * (#1 + EVar vlmMst2) * EPow P6 (EVar vMst2)) + EVar vDmglst2 * (#2
   * (#1 - #4 * EVar vlmMst1 + #10 * EVar vlmMst2 + #3 * EPow P2 (EVar vlmMst2)) * EPow P2 (EVar vMst2) * EPow P4
   (EVar vMst1) + #2 * EPow P2 (EVar vMst1) * (#6 + #11 * EVar vlmMst2 - #5 * EPow P2 (EVar vlmMst2) + EVar vlmMst1 *
   (- #3 + #5 * EVar vlmMst2 + #6 * EPow P2 (EVar vlmMst2)) - #6 * EPow P3 (EVar vlmMst2)) * EPow P4 (EVar vMst2) +
   (#1 + #13 * EVar vlmMst2 - #2 * EVar vlmMst1 * (#5 + #3 * EVar vlmMst2) + #6 * EPow P2 (EVar vlmMst2)) * EPow P6
   (EVar vMst1) - #2 * (- #1 + #2 * EVar vlmMst2 + #3 * EPow P2 (EVar vlmMst2)) * EPow P6 (EVar vMst2))) + EVar vs2t *
   (#30 * EVar vDmglst2 * EVar vDmsqst2 * (EPow P2 (EVar vMst1) - EPow P2 (EVar vMst2)) * (#2 * (EVar vlmMst1 - EVar
   vlmMst2) * EPow P2 (EVar vMst1) * EPow P2 (EVar vMst2) + EPow P4 (EVar vMst1) - EPow P4 (EVar vMst2)) - #2 * EVar
   vDmglst2 * EPow P2 (EVar vMst2) * (EPow P2 (EVar vMst2) * (- #44 + #34 * EVar vlmMst2 + #224 * EVar vlmMst2 * EPow
   P2 (EVar vlmMst1) - #359 * EPow P2 (EVar vlmMst2) - #2 * EVar vlmMst1 * (#52 - #198 * EVar vlmMst2 + #133 * EPow P2
   (EVar vlmMst2)) + #42 * EPow P3 (EVar vlmMst2)) * EPow P4 (EVar vMst1) + EPow P2 (EVar vMst1) * (#100 - #222 * EVar
   vlmMst2 + #32 * EVar vlmMst2 * EPow P2 (EVar vlmMst1) + EVar vlmMst1 * (#8 - #524 * EVar vlmMst2 - #246 * EPow P2
   (EVar vlmMst2)) + #241 * EPow P2 (EVar vlmMst2) + #214 * EPow P3 (EVar vlmMst2)) * EPow P4 (EVar vMst2) + (- #36 +
   (#70 + #32 * EVar vlmMst1) * EVar vlmMst2 + #27 * EPow P2 (EVar vlmMst2)) * EPow P6 (EVar vMst1) + (- #20 + (#262 +
   #32 * EVar vlmMst1) * EVar vlmMst2 + #187 * EPow P2 (EVar vlmMst2)) * EPow P6 (EVar vMst2)) - EVar vMgl * (#75 *
   EVar vDmsqst2 * (EPow P2 (EVar vMst1) - EPow P2 (EVar vMst2)) * (#2 * (EVar vlmMst1 - EVar vlmMst2) * EPow P2 (EVar
   vMst1) * EPow P2 (EVar vMst2) + EPow P4 (EVar vMst1) - EPow P4 (EVar vMst2)) + (- #109 - #630 * EVar vlmMst2 + #224
   * (#1 + EVar vlmMst2) * EPow P2 (EVar vlmMst1) + EVar vlmMst1 * (#538 + #184 * EVar vlmMst2 - #266 * EPow P2 (EVar
   vlmMst2)) - #435 * EPow P2 (EVar vlmMst2) + #42 * EPow P3 (EVar vlmMst2)) * EPow P4 (EVar vMst1) * EPow P4 (EVar
   vMst2) + (#141 + #140 * EVar vlmMst2 + #32 * EVar vlmMst1 * (#1 + EVar vlmMst2) + #43 * EPow P2 (EVar vlmMst2)) *
   EPow P2 (EVar vMst2) * EPow P6 (EVar vMst1) + EPow P2 (EVar vMst1) * (- #237 + #190 * EVar vlmMst2 + #32 * (#1 +
   EVar vlmMst2) * EPow P2 (EVar vlmMst1) + #509 * EPow P2 (EVar vlmMst2) - #2 * EVar vlmMst1 * (#285 + #364 * EVar
   vlmMst2 + #123 * EPow P2 (EVar vlmMst2)) + #214 * EPow P3 (EVar vlmMst2)) * EPow P6 (EVar vMst2) + (#237 + #316 *
   EVar vlmMst2 + #32 * EVar vlmMst1 * (#1 + EVar vlmMst2) + #123 * EPow P2 (EVar vlmMst2)) * EPow P8 (EVar vMst2))))
   - #12 * EPow P2 (EVar vMt) * EPow P2 (EVar vs2t) * (#2 * EVar vDmglst2 * EPow P2 (EVar vMst2) * (- ((#3 * EPow P2
   (EVar vMuSUSY) * (#60 + #206 * EVar vlmMst2 + #32 * EVar vlmMst2 * EPow P2 (EVar vlmMst1) + EVar vlmMst1 * (#8 -
   #460 * EVar vlmMst2 - #246 * EPow P2 (EVar vlmMst2)) + #519 * EPow P2 (EVar vlmMst2) + #214 * EPow P3 (EVar
   vlmMst2)) + #4 * EPow P2 (EVar vMst2) * (#52 + EVar vlmMst2 * (- #338 + #48 * EPow P2 (EVar vlmMst1)) - #129 * EPow
   P2 (EVar vlmMst2) + #48 * (EVar vlmMst1 - #2 * EVar vlmMst1 * EVar vlmMst2 * (#1 + EVar vlmMst2) + EPow P3 (EVar
   vlmMst2)))) * EPow P4 (EVar vMst1) * EPow P4 (EVar vMst2)) + #2 * EPow P2 (EVar vMst2) * ((#332 + #302 * EVar
   vlmMst2 - #288 * EVar vlmMst1 * (#1 + EVar vlmMst2) + #111 * EPow P2 (EVar vlmMst2)) * EPow P2 (EVar vMst2) - #3 *
   EPow P2 (EVar vMuSUSY) * (#48 + #4 * EVar vlmMst2 * (#31 + #36 * EPow P2 (EVar vlmMst1)) + #278 * EPow P2 (EVar
   vlmMst2) - EVar vlmMst1 * (#44 + #278 * EVar vlmMst2 + #379 * EPow P2 (EVar vlmMst2)) + #235 * EPow P3 (EVar
   vlmMst2))) * EPow P6 (EVar vMst1) + #45 * EVar vDmsqst2 * (EPow P4 (EVar vMst1) * ((#1 - #2 * EVar vlmMst1 + #2 *
   EVar vlmMst2) * EPow P2 (EVar vMst2) * EPow P2 (EVar vMuSUSY) - #4 * EPow P4 (EVar vMst2)) + EPow P2 (EVar vMst1) *
   (#2 * EPow P2 (EVar vMst2) + EPow P2 (EVar vMuSUSY)) * EPow P4 (EVar vMst2) + #2 * (EPow P2 (EVar vMst2) + (- EVar
   vlmMst1 + EVar vlmMst2) * EPow P2 (EVar vMuSUSY)) * EPow P6 (EVar vMst1)) + #3 * EPow P2 (EVar vMst1) * (- #2 * (-
   #52 + #2 * (#67 + #16 * EVar vlmMst1) * EVar vlmMst2 + #91 * EPow P2 (EVar vlmMst2)) * EPow P2 (EVar vMst2) - (-
   #20 + #2 * (#99 + #16 * EVar vlmMst1) * EVar vlmMst2 + #123 * EPow P2 (EVar vlmMst2)) * EPow P2 (EVar vMuSUSY)) *
   EPow P6 (EVar vMst2) + #6 * (#32 * (#2 + #7 * EVar vlmMst2 - EVar vlmMst1 * (#5 + #4 * EVar vlmMst2) + #4 * EPow P2
   (EVar vlmMst2)) * EPow P2 (EVar vMst2) - EPow P2 (EVar vMuSUSY) * (#48 + #4 * EVar vlmMst2 * (#45 + #68 * EPow P2
   (EVar vlmMst1)) + #310 * EPow P2 (EVar vlmMst2) - EVar vlmMst1 * (#92 + #310 * EVar vlmMst2 + #635 * EPow P2 (EVar
   vlmMst2)) + #363 * EPow P3 (EVar vlmMst2))) * EPow P8 (EVar vMst1) + #96 * EVar vlmMst2 * (#1 + EVar vlmMst2) * (#2
   * EPow P2 (EVar vMst2) + EPow P2 (EVar vMuSUSY)) * EPow P8 (EVar vMst2)) + #3 * EVar vMgl * (#75 * EVar vDmsqst2 *
   EPow P2 (EVar vMst1) * (- #2 * EPow P4 (EVar vMst1) * ((- EVar vlmMst1 + EVar vlmMst2) * EPow P2 (EVar vMst2) *
   EPow P2 (EVar vMuSUSY) + EPow P4 (EVar vMst2)) + #2 * (EVar vlmMst1 - EVar vlmMst2) * EPow P2 (EVar vMuSUSY) * EPow
   P6 (EVar vMst1) - (#2 * EPow P2 (EVar vMst2) + EPow P2 (EVar vMuSUSY)) * EPow P6 (EVar vMst2) + EPow P2 (EVar
   vMst1) * ((- #1 + #2 * EVar vlmMst1 - #2 * EVar vlmMst2) * EPow P2 (EVar vMuSUSY) * EPow P4 (EVar vMst2) + #4 *
   EPow P6 (EVar vMst2))) - EPow P2 (EVar vMst2) * (#282 * EPow P4 (EVar vMst2) * EPow P6 (EVar vMst1) - #564 * EPow
   P4 (EVar vMst1) * EPow P6 (EVar vMst2) + EPow P4 (EVar vMst1) * (#32 * (#1 + EVar vlmMst2) * EPow P2 (EVar vlmMst1)
   * (EPow P2 (EVar vMuSUSY) * (#9 * EPow P2 (EVar vMst1) * EPow P2 (EVar vMst2) + #17 * EPow P4 (EVar vMst1) + EPow
   P4 (EVar vMst2)) + #2 * EPow P6 (EVar vMst2)) + #2 * EPow P3 (EVar vlmMst2) * (EPow P2 (EVar vMuSUSY) * (#235 *
   EPow P2 (EVar vMst1) * EPow P2 (EVar vMst2) + #363 * EPow P4 (EVar vMst1) + #107 * EPow P4 (EVar vMst2)) + #32 *
   EPow P6 (EVar vMst2))) - #2 * EVar vlmMst1 * ((#253 + #588 * EVar vlmMst2 + #379 * EPow P2 (EVar vlmMst2)) * EPow
   P2 (EVar vMst2) * EPow P2 (EVar vMuSUSY) * EPow P6 (EVar vMst1) - #16 * (#1 + EVar vlmMst2) * EPow P2 (EVar vMst1)
   * (#2 * EPow P2 (EVar vMst2) + EPow P2 (EVar vMuSUSY)) * EPow P6 (EVar vMst2) + EPow P4 (EVar vMst1) * ((#253 +
   #332 * EVar vlmMst2 + #123 * EPow P2 (EVar vlmMst2)) * EPow P2 (EVar vMuSUSY) * EPow P4 (EVar vMst2) + #32 * (#3 +
   #5 * EVar vlmMst2 + #2 * EPow P2 (EVar vlmMst2)) * EPow P6 (EVar vMst2)) + (#32 * (#1 + EVar vlmMst2) * EPow P2
   (EVar vMst2) + (#237 + #828 * EVar vlmMst2 + #635 * EPow P2 (EVar vlmMst2)) * EPow P2 (EVar vMuSUSY)) * EPow P8
   (EVar vMst1)) + EPow P2 (EVar vMuSUSY) * (#189 * EPow P4 (EVar vMst1) * EPow P4 (EVar vMst2) + #64 * EPow P2 (EVar
   vMst2) * EPow P6 (EVar vMst1) + #205 * EPow P2 (EVar vMst1) * EPow P6 (EVar vMst2) + #80 * EPow P8 (EVar vMst1) -
   #16 * EPow P8 (EVar vMst2)) + #378 * EPow P2 (EVar vMst1) * EPow P8 (EVar vMst2) + #2 * EVar vlmMst2 * ((#285 *
   EPow P2 (EVar vMst2) * EPow P2 (EVar vMuSUSY) + #172 * EPow P4 (EVar vMst2)) * EPow P6 (EVar vMst1) - #33 * EPow P4
   (EVar vMst1) * (- #11 * EPow P2 (EVar vMuSUSY) * EPow P4 (EVar vMst2) + #8 * EPow P6 (EVar vMst2)) + (#32 * EPow P2
   (EVar vMst2) + #277 * EPow P2 (EVar vMuSUSY)) * EPow P8 (EVar vMst1) - #16 * (#2 * EPow P2 (EVar vMst2) + EPow P2
   (EVar vMuSUSY)) * EPow P8 (EVar vMst2) + #2 * EPow P2 (EVar vMst1) * (#63 * EPow P2 (EVar vMuSUSY) * EPow P6 (EVar
   vMst2) + #110 * EPow P8 (EVar vMst2))) - EPow P2 (EVar vlmMst2) * (- #6 * (#148 * EPow P2 (EVar vMst2) * EPow P2
   (EVar vMuSUSY) + #25 * EPow P4 (EVar vMst2)) * EPow P6 (EVar vMst1) + EPow P4 (EVar vMst1) * (- #707 * EPow P2
   (EVar vMuSUSY) * EPow P4 (EVar vMst2) + #76 * EPow P6 (EVar vMst2)) - #8 * (#8 * EPow P2 (EVar vMst2) + #139 * EPow
   P2 (EVar vMuSUSY)) * EPow P8 (EVar vMst1) + #16 * (#2 * EPow P2 (EVar vMst2) + EPow P2 (EVar vMuSUSY)) * EPow P8
   (EVar vMst2) - EPow P2 (EVar vMst1) * (#91 * EPow P2 (EVar vMuSUSY) * EPow P6 (EVar vMst2) + #150 * EPow P8 (EVar
   vMst2))) - #32 * EPow P10 (EVar vMst2))))) + #36 * EVar vs2t * EPow P2 (EVar vMt) * EPow P2 (EVar vMuSUSY) * (#2 *
   EVar vDmglst2 * EVar vMst2 * ((#15 * EVar vDmsqst2 * (#1 - #2 * EVar vlmMst1 + #2 * EVar vlmMst2) * EVar vs2t + #64
   * EVar vMst2 * EVar vMt * (#8 + #7 * EVar vlmMst2 - #11 * EPow P2 (EVar vlmMst2) + EVar vlmMst1 * (- #3 + #5 * EVar
   vlmMst2 + #6 * EPow P2 (EVar vlmMst2)) - #6 * EPow P3 (EVar vlmMst2)) - EVar vs2t * EPow P2 (EVar vMst2) * (#60 +
   #206 * EVar vlmMst2 + #32 * EVar vlmMst2 * EPow P2 (EVar vlmMst1) + EVar vlmMst1 * (#8 - #460 * EVar vlmMst2 - #246
   * EPow P2 (EVar vlmMst2)) + #519 * EPow P2 (EVar vlmMst2) + #214 * EPow P3 (EVar vlmMst2))) * EPow P3 (EVar vMst2)
   * EPow P4 (EVar vMst1) + EPow P2 (EVar vMst1) * (#15 * EVar vDmsqst2 * EVar vs2t - #64 * EVar vMst2 * EVar vMt * (-
   #1 + #2 * EVar vlmMst2 + #3 * EPow P2 (EVar vlmMst2)) - EVar vs2t * (- #20 + #2 * (#99 + #16 * EVar vlmMst1) * EVar
   vlmMst2 + #123 * EPow P2 (EVar vlmMst2)) * EPow P2 (EVar vMst2)) * EPow P5 (EVar vMst2) + #2 * EVar vMst2 * (#15 *
   EVar vDmsqst2 * (- EVar vlmMst1 + EVar vlmMst2) * EVar vs2t + #64 * EVar vMst2 * EVar vMt * (#8 + #13 * EVar
   vlmMst2 - #8 * EPow P2 (EVar vlmMst2) + EVar vlmMst1 * (- #5 + #5 * EVar vlmMst2 + #6 * EPow P2 (EVar vlmMst2)) -
   #6 * EPow P3 (EVar vlmMst2)) - EVar vs2t * EPow P2 (EVar vMst2) * (#48 + #124 * EVar vlmMst2 + #144 * EVar vlmMst2
   * EPow P2 (EVar vlmMst1) + #278 * EPow P2 (EVar vlmMst2) - EVar vlmMst1 * (#44 + #278 * EVar vlmMst2 + #379 * EPow
   P2 (EVar vlmMst2)) + #235 * EPow P3 (EVar vlmMst2))) * EPow P6 (EVar vMst1) + #2 * (#16 * EVar vMt * (#49 + #103 *
   EVar vlmMst2 - #36 * (#1 + EVar vlmMst2) * EPow P2 (EVar vlmMst2) + #4 * EVar vlmMst1 * (- #11 + #6 * EVar vlmMst2
   + #9 * EPow P2 (EVar vlmMst2))) - EVar vMst2 * EVar vs2t * (#48 + #4 * EVar vlmMst2 * (#45 + #68 * EPow P2 (EVar
   vlmMst1)) + #310 * EPow P2 (EVar vlmMst2) - EVar vlmMst1 * (#92 + #310 * EVar vlmMst2 + #635 * EPow P2 (EVar
   vlmMst2)) + #363 * EPow P3 (EVar vlmMst2))) * EPow P8 (EVar vMst1) + #32 * EVar vlmMst2 * (#1 + EVar vlmMst2) *
   EVar vs2t * EPow P9 (EVar vMst2)) + EVar vMgl * (- ((#75 * EVar vDmsqst2 * (#1 - #2 * EVar vlmMst1 + #2 * EVar
   vlmMst2) * EVar vs2t + #128 * (#1 + EVar vlmMst2) * EVar vMst2 * EVar vMt * (#1 + #5 * EVar vlmMst2 - EVar vlmMst1
   * (#3 + #2 * EVar vlmMst2) + #2 * EPow P2 (EVar vlmMst2)) + EVar vs2t * EPow P2 (EVar vMst2) * (#189 + #726 * EVar
   vlmMst2 + #32 * (#1 + EVar vlmMst2) * EPow P2 (EVar vlmMst1) + #707 * EPow P2 (EVar vlmMst2) - #2 * EVar vlmMst1 *
   (#253 + #332 * EVar vlmMst2 + #123 * EPow P2 (EVar vlmMst2)) + #214 * EPow P3 (EVar vlmMst2))) * EPow P4 (EVar
   vMst1) * EPow P4 (EVar vMst2)) - EPow P2 (EVar vMst1) * (#75 * EVar vDmsqst2 * EVar vs2t + #128 * EVar vMst2 * EVar
   vMt * EPow P2 (#1 + EVar vlmMst2) + EVar vs2t * (#205 + #252 * EVar vlmMst2 + #32 * EVar vlmMst1 * (#1 + EVar
   vlmMst2) + #91 * EPow P2 (EVar vlmMst2)) * EPow P2 (EVar vMst2)) * EPow P6 (EVar vMst2) + #2 * (EPow P2 (EVar
   vMst2) * (#75 * EVar vDmsqst2 * (EVar vlmMst1 - EVar vlmMst2) * EVar vs2t + #64 * (#1 + EVar vlmMst2) * EVar vMst2
   * EVar vMt * (#1 - #10 * EVar vlmMst2 + #4 * EVar vlmMst1 * (#2 + EVar vlmMst2) - #4 * EPow P2 (EVar vlmMst2)) -
   EVar vs2t * EPow P2 (EVar vMst2) * (#32 + #285 * EVar vlmMst2 + #144 * (#1 + EVar vlmMst2) * EPow P2 (EVar vlmMst1)
   + #444 * EPow P2 (EVar vlmMst2) - EVar vlmMst1 * (#253 + #588 * EVar vlmMst2 + #379 * EPow P2 (EVar vlmMst2)) +
   #235 * EPow P3 (EVar vlmMst2))) * EPow P6 (EVar vMst1) + (#75 * EVar vDmsqst2 * (EVar vlmMst1 - EVar vlmMst2) *
   EVar vs2t + #32 * (#1 + EVar vlmMst2) * EVar vMst2 * EVar vMt * (#7 - #32 * EVar vlmMst2 + #4 * EVar vlmMst1 * (#7
   + #3 * EVar vlmMst2) - #12 * EPow P2 (EVar vlmMst2)) - EVar vs2t * EPow P2 (EVar vMst2) * (#40 + #277 * EVar
   vlmMst2 + #272 * (#1 + EVar vlmMst2) * EPow P2 (EVar vlmMst1) + #556 * EPow P2 (EVar vlmMst2) - EVar vlmMst1 *
   (#237 + #828 * EVar vlmMst2 + #635 * EPow P2 (EVar vlmMst2)) + #363 * EPow P3 (EVar vlmMst2))) * EPow P8 (EVar
   vMst1)) + #16 * EVar vs2t * EPow P2 (#1 + EVar vlmMst2) * EPow P10 (EVar vMst2))))))) / (#816480 * EVar vTbeta *
   EPow P2 (EVar vMgl) * EPow P2 (EVar vSbeta) * EPow P4 (EVar vMst1) * EPow P7 (EVar vMst2)).

(** H6b2qg2.cpp:2612-3609 *)
Definition H6b2qg2_getS12 : expr :=
  EVar vAl4p * (EVar vxDmglst2 * EPow P2 (EVar vDmglst2) * (- (EVar vMt * EVar vMuSUSY * EVar vtwoLoopFlag * (- (EVar
   vMt * EPow P2 (EVar vs2t) * (EVar vMst2 * (#28 + #4 * EVar vlmMst1 - #2 * EVar vlmMst1 * EVar vlmMst2 + #2 * EPow
   P2 (EVar vlmMst2)) + (#34 + #8 * EVar vlmMst1 - #4 * (#2 + EVar vlmMst1) * EVar vlmMst2 + #4 * EPow P2 (EVar
   vlmMst2)) * EPow P2 (EVar vMst1) / EVar vMst2 + (EDec 375 1 + EVar vlmMst1 * (#5 - #4 * EVar vlmMst2) - #5 * EVar
   vlmMst2 + #4 * EPow P2 (EVar vlmMst2)) * EPow P4 (EVar vMst1) / EPow P3 (EVar vMst2))) + #2 * EVar vs2t * EPow P2
   (EVar vMt) * (#11 - #18 * EVar vlmMst2 + #6 * (#3 - EVar vlmMst1 + EVar vlmMst2) * EPow P2 (EVar vMst1) / EPow P2
   (EVar vMst2) + #6 * (- #2 + #3 * EVar vlmMst2) * EPow P2 (EVar vMst2) / EPow P2 (EVar vMst1) + #6 * (#7 - #6 * EVar
   vlmMst1 + #6 * EVar vlmMst2) * EPow P4 (EVar vMst1) / EPow P4 (EVar vMst2)) / #9 + EPow P3 (EVar vs2t) * ((#2 + #3
   * EVar vlmMst2) * EPow P2 (EVar vMst1) / #3 + (EDec 26666666666666665 16 + EVar vlmMst2 + EVar vlmMst1 * (- #1 + #2
   * EVar vlmMst2) - #2 * EPow P2 (EVar vlmMst2)) * EPow P2 (EVar vMst2) + (EDec 5 1 - EVar vlmMst1 + EVar vlmMst2) *
   EPow P4 (EVar vMst1) / EPow P2 (EVar vMst2) + (EDec 6666666666666666 16 - EVar vlmMst2) * EPow P4 (EVar vMst2) /
   EPow P2 (EVar vMst1)) + #4 * EPow P3 (EVar vMt) * ((#29 - #18 * EVar vlmMst1 * (- #1 + EVar vlmMst2) - #3 * EVar
   vlmMst2 - #15 * EVar vlmMt + #18 * EPow P2 (EVar vlmMst2)) * EPow P2 (EVar vMst1) * EPow P2 (EVar vMst2) + (#236 +
   #339 * EVar vlmMst2 - #18 * EVar vlmMst1 * (#13 + #4 * EVar vlmMst2 - #3 * EVar vlmMt) - #105 * EVar vlmMt - #54 *
   EVar vlmMst2 * EVar vlmMt + #72 * EPow P2 (EVar vlmMst2)) * EPow P4 (EVar vMst1) + (- #79 - #18 * EVar vlmMst1 * (-
   #2 + EVar vlmMst2) - #39 * EVar vlmMst2 + #3 * EVar vlmMt + #18 * EPow P2 (EVar vlmMst2)) * EPow P4 (EVar vMst2)) /
   (#27 * EPow P5 (EVar vMst2)))) + EVar vAl4p * EVar vMuSUSY * EVar vthreeLoopFlag * (EVar vs2t * EPow P3 (EVar vMt)
   * (EDec 1657490476190476 12 - #16 * EConst CB4 / #3 + #16 * EConst CD3 / #3 - #8 * EConst CDN / #3 + #736 * EVar
   vlmMst1 / #9 - #32 * EVar vlmMt / #9 + EVar vlmMst2 * (EDec 9582962962962963 13 + #68 * EVar vlmMst1 - #64 * EPow
   P2 (EVar vlmMst1) / #3) + #58 * EPow P2 (EVar vlmMst1) / #3 + #16 * (#37 - #12 * EVar vlmMst1) * EPow P2 (EVar
   vlmMst2) / #9 + #128 * EPow P3 (EVar vlmMst2) / #3 - (#1640 * EVar vDmsqst2 / #9 - EPow P2 (EVar vMst1) * (EDec
   23118293850676073 13 - #16 * EConst CB4 / #3 + #16 * EConst CD3 / #3 - #8 * EConst CDN / #3 + #1014244 * EVar
   vlmMst1 / #2025 + #32 * (#5 + EVar vlmMst1 - EVar vlmMst2) * EVar vlmMt / #9 + #4 * EVar vlmMst2 * (#715964 +
   #124935 * EVar vlmMst1 - #11025 * EPow P2 (EVar vlmMst1)) / #2025 + #2032 * EPow P2 (EVar vlmMst1) / #135 - #4 *
   (#4517 + #5025 * EVar vlmMst1) * EPow P2 (EVar vlmMst2) / #135 + #4 * EPow P3 (EVar vlmMst1) / #27 + #4604 * EPow
   P3 (EVar vlmMst2) / #27)) / EPow P2 (EVar vMst2) + #2 * ((#756 + EVar vlmMst1 * (#64 - #96 * EVar vlmMst2) - #134 *
   EVar vlmMst2 - #177 * EPow P2 (EVar vlmMst2)) * EPow P2 (EVar vMst2) - #30 * EVar vDmsqst2 * (#12 + (#65 - #2 *
   EVar vlmMst1 + #2 * EVar vlmMst2) * EPow P4 (EVar vMst1) / EPow P4 (EVar vMst2))) / (#9 * EPow P2 (EVar vMst1)) -
   EConst CS2 * (EDec 5960571428571428 13 + #84 * EVar vlmMst1 - #84 * EVar vlmMst2 + (EDec 1403352380952381 12 + #880
   * EVar vlmMst1 - #880 * EVar vlmMst2) * EPow P2 (EVar vMst1) / EPow P2 (EVar vMst2) + #8 * (#17269 + #13785 * EVar
   vlmMst1 - #13785 * EVar vlmMst2) * EPow P4 (EVar vMst1) / (#45 * EPow P4 (EVar vMst2))) + #64 * (- #2 + EVar
   vlmMst2 + #5 * EPow P2 (EVar vlmMst2)) * EPow P4 (EVar vMst2) / (#9 * EPow P4 (EVar vMst1)) + ((EDec
   31141128771790903 14 - #32 * EConst CB4 / #9 + #32 * EConst CD3 / #9 - #16 * EConst CDN / #9 + #14926634 * EVar
   vlmMst1 / #19845 + #19352 * EPow P2 (EVar vlmMst1) / #189 + #2 * EVar vlmMst2 * (#2917823 - #3813600 * EVar vlmMst1
   + #97020 * EPow P2 (EVar vlmMst1)) / #19845 + #8 * (#8677 - #5439 * EVar vlmMst1) * EPow P2 (EVar vlmMst2) / #189 -
   #64 * EVar vlmMt * (#4 + #6 * EVar vlmMst2 - #2 * EVar vlmMst1 * (#3 + EVar vlmMst2) + EPow P2 (EVar vlmMst1) +
   EPow P2 (EVar vlmMst2)) / #3 - #8 * EPow P3 (EVar vlmMst1) / #9 + #664 * EPow P3 (EVar vlmMst2) / #3) * EPow P4
   (EVar vMst1) + #16 * EConst COepS2 * (#660 * EPow P2 (EVar vMst1) * EPow P2 (EVar vMst2) + #1838 * EPow P4 (EVar
   vMst1) + #63 * EPow P4 (EVar vMst2)) / #243) / EPow P4 (EVar vMst2)) - EPow P2 (EVar vMt) * EPow P2 (EVar vs2t) *
   ((#40 * EVar vDmsqst2 * (#2 + #5 * EVar vlmMst1 - #5 * EVar vlmMst2) + EPow P2 (EVar vMst1) * (EDec
   6980036008230452 14 - #524 * EConst CB4 / #3 + #10 * EConst CDN / #3 - #3469 * EVar vlmMst1 / #27 + #64 * EPow P2
   (EVar vlmMst1) / #3 - EVar vlmMst2 * (#7619 + #720 * EVar vlmMst1 + #288 * EPow P2 (EVar vlmMst1)) / #27 + #4 * (#4
   + #153 * EVar vlmMst1) * EPow P2 (EVar vlmMst2) / #3 - #580 * EPow P3 (EVar vlmMst2) / #3)) / EVar vMst2 + EVar
   vMst2 * (EDec 3587766975308642 13 - #490 * EConst CB4 / #3 + #11 * EConst CDN / #3 - #824 * EVar vlmMst1 / #3 - #32
   * EPow P2 (EVar vlmMst1) / #3 + #2 * EVar vlmMst2 * (- #695 - #108 * EVar vlmMst1 + #24 * EPow P2 (EVar vlmMst1)) /
   #9 + #14 * (- #18 + #31 * EVar vlmMst1) * EPow P2 (EVar vlmMst2) / #3 - #150 * EPow P3 (EVar vlmMst2)) + #64 * (#2
   + EVar vlmMst2 - #3 * EPow P2 (EVar vlmMst2)) * EPow P3 (EVar vMst2) / (#3 * EPow P2 (EVar vMst1)) + ((EDec
   516797085048011 12 - #296 * EConst CB4 / #3 + #4 * EConst CDN / #3 + #17570 * EVar vlmMst1 / #81 + #46 * EPow P2
   (EVar vlmMst1) / #3 - EVar vlmMst2 * (#28667 - #5238 * EVar vlmMst1 + #3024 * EPow P2 (EVar vlmMst1)) / #81 + #4 *
   (- #60 + #157 * EVar vlmMst1) * EPow P2 (EVar vlmMst2) / #3 - #16 * EPow P3 (EVar vlmMst1) / #3 - #500 * EPow P3
   (EVar vlmMst2) / #3) * EPow P4 (EVar vMst1) - #2 * EConst COepS2 * (- #9267 * EPow P2 (EVar vMst1) * EPow P2 (EVar
   vMst2) + #23734 * EPow P4 (EVar vMst1) - #63 * EPow P4 (EVar vMst2)) / #729 + EConst CS2 * (#3 * (#29123 - #92670 *
   EVar vlmMst1 + #92670 * EVar vlmMst2) * EPow P2 (EVar vMst1) * EPow P2 (EVar vMst2) + #2 * (#525961 + #356010 *
   EVar vlmMst1 - #356010 * EVar vlmMst2) * EPow P4 (EVar vMst1) + #27 * (#1387 - #70 * EVar vlmMst1 + #70 * EVar
   vlmMst2) * EPow P4 (EVar vMst2)) / #540) / EPow P3 (EVar vMst2) - #10 * EVar vDmsqst2 * (#40 * (#1 - EVar vlmMst1 +
   EVar vlmMst2) * EPow P2 (EVar vMst1) * EPow P2 (EVar vMst2) + (#80 - #43 * EVar vlmMst1 + #43 * EVar vlmMst2) *
   EPow P4 (EVar vMst1)) / EPow P5 (EVar vMst2)) + EPow P4 (EVar vMt) * (#24 * EPow P2 (EVar vMst2) * (#2848907 -
   #10515960 * EVar vlmMt + #605920 * EConst COepS2 + #11406852 * EConst CS2 + #1890 * EVar vlmMst2 * (#8232 - #203 *
   EVar vlmMt + EVar vlmMst2 * (#347 + #96 * EVar vlmMt) + #6492 * EConst CS2) - #90720 * (- #3 + EVar vlmMst2) * EPow
   P2 (EVar vlmMst1) - #1890 * EVar vlmMst1 * (#3460 - #281 * EVar vlmMt + EVar vlmMst2 * (#689 + #96 * EVar vlmMt) +
   #6492 * EConst CS2 - #438 * EPow P2 (EVar vlmMst2)) + #226800 * EPow P2 (EVar vlmMt) - #737100 * EPow P3 (EVar
   vlmMst2)) * EPow P4 (EVar vMst1) - #907200 * EVar vDmsqst2 * ((#101 - #90 * EVar vlmMst1 + #177 * EVar vlmMst2 -
   #87 * EVar vlmMt) * EPow P2 (EVar vMst1) * EPow P2 (EVar vMst2) + (#497 - #306 * EVar vlmMst1 + #609 * EVar vlmMst2
   - #303 * EVar vlmMt) * EPow P4 (EVar vMst1)) - #9 * EPow P2 (EVar vMst1) * (#7152121 + #4616640 * EVar vlmMt -
   #7840 * EConst COepS2 + #17640 * EVar vlmMst2 * (- #1256 + #60 * EVar vlmMt - #9 * EConst CS2) - #3032964 * EConst
   CS2 - #241920 * (- #2 + EVar vlmMst2) * EPow P2 (EVar vlmMst1) + #7560 * EVar vlmMst1 * (#1136 - #128 * EVar vlmMt
   + #16 * EVar vlmMst2 * (#21 + #4 * EVar vlmMt) + #21 * EConst CS2 - #164 * EPow P2 (EVar vlmMst2)) - #30240 * (#107
   + #16 * EVar vlmMt) * EPow P2 (EVar vlmMst2) + #120960 * EPow P2 (EVar vlmMt) + #1481760 * EPow P3 (EVar vlmMst2))
   * EPow P4 (EVar vMst2) + #140 * (#5659217 + #1592460 * EVar vlmMt - #518816 * EConst COepS2 + #9976392 * EConst CS2
   - #972 * (#569 + #180 * EVar vlmMst2 - #126 * EVar vlmMt) * EPow P2 (EVar vlmMst1) + #324 * (#5353 + #126 * EVar
   vlmMt) * EPow P2 (EVar vlmMst2) - #186624 * EPow P2 (EVar vlmMt) + #72 * EVar vlmMst1 * (- #27653 - #3015 * EVar
   vlmMt - #18 * EVar vlmMst2 * (#689 + #126 * EVar vlmMt) + #145917 * EConst CS2 + #2160 * EPow P2 (EVar vlmMst2) +
   #2592 * EPow P2 (EVar vlmMt)) - #36 * EVar vlmMst2 * (- #39031 - #3204 * EVar vlmMt + #291834 * EConst CS2 + #5184
   * EPow P2 (EVar vlmMt)) + #1944 * EPow P3 (EVar vlmMst1) + #17496 * EPow P3 (EVar vlmMst2)) * EPow P6 (EVar vMst1)
   + #8709120 * (#2 + EVar vlmMst2 - #3 * EPow P2 (EVar vlmMst2)) * EPow P6 (EVar vMst2)) / (#306180 * EPow P2 (EVar
   vMst1) * EPow P5 (EVar vMst2)) + EVar vMt * (EConst CT1ep * (#3 * EPow P2 (EVar vMst1) * EPow P2 (EVar vMst2) * (-
   #15840 * EVar vMst2 * EVar vs2t * EPow P2 (EVar vMt) + #9267 * EVar vMt * EPow P2 (EVar vMst2) * EPow P2 (EVar
   vs2t) - #17312 * EPow P3 (EVar vMt) + #530 * EPow P3 (EVar vMst2) * EPow P3 (EVar vs2t)) + #2 * (- #66168 * EVar
   vMst2 * EVar vs2t * EPow P2 (EVar vMt) - #35601 * EVar vMt * EPow P2 (EVar vMst2) * EPow P2 (EVar vs2t) + #129704 *
   EPow P3 (EVar vMt) + #12664 * EPow P3 (EVar vMst2) * EPow P3 (EVar vs2t)) * EPow P4 (EVar vMst1) + #63 * (- #72 *
   EVar vMst2 * EVar vs2t * EPow P2 (EVar vMt) + #3 * EVar vMt * EPow P2 (EVar vMst2) * EPow P2 (EVar vs2t) - #4 *
   EPow P3 (EVar vMt) + #10 * EPow P3 (EVar vMst2) * EPow P3 (EVar vs2t)) * EPow P4 (EVar vMst2)) / (#729 * EPow P5
   (EVar vMst2)) + EPow P3 (EVar vs2t) * (EPow P2 (EVar vMst2) * (EDec 9272211934156378 14 - #50 * EConst CB4 / #9 +
   #56 * EConst CD3 / #9 - #31 * EConst CDN / #9 + #142 * EVar vlmMst1 / #3 - EVar vlmMst2 * (EDec 9129629629629629 14
   + #56 * EVar vlmMst1 - #16 * EPow P2 (EVar vlmMst1) / #3) - #103 * EPow P2 (EVar vlmMst1) / #18 + (EDec
   3505555555555556 14 - #41 * EVar vlmMst1) * EPow P2 (EVar vlmMst2) + #20 * EVar vDmsqst2 / EPow P2 (EVar vMst1) +
   #107 * EPow P3 (EVar vlmMst2) / #3) + EPow P2 (EVar vMst1) * (EDec 3230218244170096 14 - #32 * EConst CB4 / #9 +
   #32 * EConst CD3 / #9 - #16 * EConst CDN / #9 - #80549 * EVar vlmMst1 / #1350 - #6011 * EPow P2 (EVar vlmMst1) /
   #270 + EVar vlmMst2 * (#41949 + #45410 * EVar vlmMst1 + #58350 * EPow P2 (EVar vlmMst1)) / #1350 - (#2383 + #11595
   * EVar vlmMst1) * EPow P2 (EVar vlmMst2) / #135 - #5 * EPow P3 (EVar vlmMst1) / #27 + #1157 * EPow P3 (EVar
   vlmMst2) / #27) + (- #916 + #390 * EVar vlmMst2 + #32 * EVar vlmMst1 * (- #2 + #3 * EVar vlmMst2) + #657 * EPow P2
   (EVar vlmMst2)) * EPow P4 (EVar vMst2) / (#18 * EPow P2 (EVar vMst1)) - #5 * EVar vDmsqst2 * (#9 * (#55 - #34 *
   EVar vlmMst1 + #34 * EVar vlmMst2) * EPow P2 (EVar vMst1) * EPow P2 (EVar vMst2) + (#419 - #57 * EVar vlmMst1 + #57
   * EVar vlmMst2) * EPow P4 (EVar vMst1) - #36 * (#5 + #2 * EVar vlmMst1 - #2 * EVar vlmMst2) * EPow P4 (EVar vMst2))
   / (#27 * EPow P4 (EVar vMst2)) + ((EDec 2038689796251638 13 + #2171669 * EVar vlmMst2 / #119070 + (#433 + #6552 *
   EVar vlmMst2) * EPow P2 (EVar vlmMst1) / #189 + #1987 * EPow P2 (EVar vlmMst2) / #189 - EVar vlmMst1 * (#2740559 +
   #1524600 * EVar vlmMst2 + #7514640 * EPow P2 (EVar vlmMst2)) / #119070 - #56 * EPow P3 (EVar vlmMst1) / #27 + #824
   * EPow P3 (EVar vlmMst2) / #27) * EPow P4 (EVar vMst1) - #4 * EConst COepS2 * (#795 * EPow P2 (EVar vMst1) * EPow
   P2 (EVar vMst2) + #12664 * EPow P4 (EVar vMst1) + #315 * EPow P4 (EVar vMst2)) / #2187 - EConst CS2 * (#159 *
   (#21401 - #150 * EVar vlmMst1 + #150 * EVar vlmMst2) * EPow P2 (EVar vMst1) * EPow P2 (EVar vMst2) + #20 * (#47051
   - #18996 * EVar vlmMst1 + #18996 * EVar vlmMst2) * EPow P4 (EVar vMst1) + #27 * (#116129 - #350 * EVar vlmMst1 +
   #350 * EVar vlmMst2) * EPow P4 (EVar vMst2)) / #810) / EPow P2 (EVar vMst2) - #16 * (- #2 + EVar vlmMst2 + #5 *
   EPow P2 (EVar vlmMst2)) * EPow P6 (EVar vMst2) / (#9 * EPow P4 (EVar vMst1))))) + EVar vAl4p * EVar vthreeLoopFlag
   * EPow P2 (EVar vMt) * (#5 * EVar vDmsqst2 * (- #1081 + #165 * EVar vlmMst1 - #165 * EVar vlmMst2) * EPow P2 (EVar
   vs2t) * (- #1 + EPow P2 (EVar vSbeta)) * EPow P2 (EVar vSbeta) * EPow P4 (EVar vMst1) / (#9 * EPow P4 (EVar vMst2))
   - EPow P2 (EVar vMuSUSY) * (#36 * EPow P2 (EVar vMt) * (EPow P2 (EVar vMst1) * (#3051661 - #12960 * EConst CB4 +
   #12960 * EConst CD3 - #6480 * EConst CDN + #304320 * EVar vlmMst1 + #960 * (#2227 + #285 * EVar vlmMst1) * EVar
   vlmMst2 + #2880 * (#4 + EVar vlmMst1 - EVar vlmMst2) * EVar vlmMt + #5600 * EConst COepS2 - #324 * (#5361 + #350 *
   EVar vlmMst1 - #350 * EVar vlmMst2) * EConst CS2 - #2880 * (#23 + #72 * EVar vlmMst1) * EPow P2 (EVar vlmMst2) +
   #207360 * EPow P3 (EVar vlmMst2)) + #24 * EPow P2 (EVar vMst2) * (#50134 - #270 * EConst CB4 + #270 * EConst CD3 -
   #135 * EConst CDN + #120 * (#271 + #24 * EVar vlmMst1) * EVar vlmMst2 - #120 * EVar vlmMt - #29646 * EConst CS2 -
   #720 * (- #2 + #3 * EVar vlmMst1) * EPow P2 (EVar vlmMst2) + #2160 * (EVar vlmMst1 + EPow P3 (EVar vlmMst2)))) /
   EPow P4 (EVar vMst2) + #43740 * EPow P2 (EVar vs2t) * (EDec 9077757201646091 14 - #100 * EConst CB4 / #9 + #112 *
   EConst CD3 / #9 - #62 * EConst CDN / #9 + #788 * EVar vlmMst1 / #9 - #103 * EPow P2 (EVar vlmMst1) / #9 + #16 *
   EVar vlmMst2 * (- #241 - #171 * EVar vlmMst1 + #18 * EPow P2 (EVar vlmMst1)) / #27 + (EDec 12533333333333333 14 -
   #82 * EVar vlmMst1) * EPow P2 (EVar vlmMst2) + (- #852 + #358 * EVar vlmMst2 + #32 * EVar vlmMst1 * (- #2 + #3 *
   EVar vlmMst2) + #497 * EPow P2 (EVar vlmMst2)) * EPow P2 (EVar vMst2) / (#9 * EPow P2 (EVar vMst1)) + #214 * EPow
   P3 (EVar vlmMst2) / #3 + (#80 * EVar vDmsqst2 * (#4 + EVar vlmMst1 - EVar vlmMst2) / #3 + EPow P2 (EVar vMst1) *
   (EDec 15538193689986284 14 - #164 * EConst CB4 / #9 + #176 * EConst CD3 / #9 - #94 * EConst CDN / #9 - #21449 *
   EVar vlmMst1 / #675 - #7556 * EPow P2 (EVar vlmMst1) / #135 + EVar vlmMst2 * (- #54451 - #22990 * EVar vlmMst1 +
   #65550 * EPow P2 (EVar vlmMst1)) / #675 + #2 * (#6077 - #17130 * EVar vlmMst1) * EPow P2 (EVar vlmMst2) / #135 -
   #10 * EPow P3 (EVar vlmMst1) / #27 + #4240 * EPow P3 (EVar vlmMst2) / #27)) / EPow P2 (EVar vMst2) + EVar vDmsqst2
   * (#40 / EPow P2 (EVar vMst1) + #10 * (- #23 + #42 * EVar vlmMst1 - #42 * EVar vlmMst2) * EPow P2 (EVar vMst1) /
   (#3 * EPow P4 (EVar vMst2))) - #32 * (- #2 + EVar vlmMst2 + #5 * EPow P2 (EVar vlmMst2)) * EPow P4 (EVar vMst2) /
   (#9 * EPow P4 (EVar vMst1)) + ((EDec 5851892843532082 13 - #8 * EConst CB4 / #3 + #32 * EConst CD3 / #9 - #20 *
   EConst CDN / #9 - #20109937 * EVar vlmMst1 / #297675 - #15886 * EPow P2 (EVar vlmMst1) / #945 + EVar vlmMst2 *
   (EDec 17112243218274966 15 - #144628 * EVar vlmMst1 / #945 + #1180 * EPow P2 (EVar vlmMst1) / #9) + #2 * (#80257 -
   #138180 * EVar vlmMst1) * EPow P2 (EVar vlmMst2) / #945 - #92 * EPow P3 (EVar vlmMst1) / #27 + #4448 * EPow P3
   (EVar vlmMst2) / #27) * EPow P4 (EVar vMst1) - #8 * EConst COepS2 * (#1110 * EPow P2 (EVar vMst1) * EPow P2 (EVar
   vMst2) + #17308 * EPow P4 (EVar vMst1) + #315 * EPow P4 (EVar vMst2)) / #2187 - EConst CS2 * (#6 * (#1089707 -
   #5550 * EVar vlmMst1 + #5550 * EVar vlmMst2) * EPow P2 (EVar vMst1) * EPow P2 (EVar vMst2) + #40 * (#93919 - #12981
   * EVar vlmMst1 + #12981 * EVar vlmMst2) * EPow P4 (EVar vMst1) + #27 * (#116129 - #350 * EVar vlmMst1 + #350 * EVar
   vlmMst2) * EPow P4 (EVar vMst2)) / #405) / EPow P4 (EVar vMst2)) + (#240 * EConst CT1ep * (#30 * EVar vMst2 * EPow
   P2 (EVar vMst1) * (#311 * EVar vMst2 * EVar vMt * EVar vs2t - #42 * EPow P2 (EVar vMt) + #37 * EPow P2 (EVar vMst2)
   * EPow P2 (EVar vs2t)) + #2 * EVar vs2t * (- #16421 * EVar vMt + #8654 * EVar vMst2 * EVar vs2t) * EPow P4 (EVar
   vMst1) + #63 * EVar vs2t * (EVar vMt + #5 * EVar vMst2 * EVar vs2t) * EPow P4 (EVar vMst2)) - EVar vMt * EVar vs2t
   * (#6 * EPow P2 (EVar vMst2) * (#4580489 - #3285360 * EConst CB4 + #68040 * EConst CDN - #3918600 * EVar vlmMst1 +
   #248800 * EConst COepS2 - #108 * (- #20803 + #46650 * EVar vlmMst1 - #46650 * EVar vlmMst2) * EConst CS2 + #103680
   * EPow P2 (EVar vlmMst1) - #360 * EVar vlmMst2 * (#11213 + #1368 * EVar vlmMst1 + #144 * EPow P2 (EVar vlmMst1)) +
   #6480 * (- #214 + #523 * EVar vlmMst1) * EPow P2 (EVar vlmMst2) - #3337200 * EPow P3 (EVar vlmMst2)) * EPow P4
   (EVar vMst1) - #2332800 * EVar vDmsqst2 * ((- #2 - #5 * EVar vlmMst1 + #5 * EVar vlmMst2) * EPow P2 (EVar vMst1) *
   EPow P2 (EVar vMst2) + (#8 - #15 * EVar vlmMst1 + #15 * EVar vlmMst2) * EPow P4 (EVar vMst1)) + #9 * EPow P2 (EVar
   vMst1) * (#2601353 - #1058400 * EConst CB4 + #23760 * EConst CDN - #1779840 * EVar vlmMst1 + #1120 * EConst COepS2
   - #324 * (- #1387 + #70 * EVar vlmMst1 - #70 * EVar vlmMst2) * EConst CS2 - #69120 * EPow P2 (EVar vlmMst1) + #1440
   * EVar vlmMst2 * (- #599 - #108 * EVar vlmMst1 + #24 * EPow P2 (EVar vlmMst1)) + #4320 * (- #222 + #217 * EVar
   vlmMst1) * EPow P2 (EVar vlmMst2) - #972000 * EPow P3 (EVar vlmMst2)) * EPow P4 (EVar vMst2) + #10 * (#2773621 -
   #1660176 * EConst CB4 + #25272 * EConst CDN + #2004408 * EVar vlmMst1 - #525472 * EConst COepS2 + #108 * (#123113 +
   #98526 * EVar vlmMst1 - #98526 * EVar vlmMst2) * EConst CS2 + #3888 * EPow P2 (EVar vlmMst1) - #144 * EVar vlmMst2
   * (#36802 - #11421 * EVar vlmMst1 + #1728 * EPow P2 (EVar vlmMst1)) + #167184 * (- #14 + #15 * EVar vlmMst1) * EPow
   P2 (EVar vlmMst2) - #31104 * EPow P3 (EVar vlmMst1) - #2227824 * EPow P3 (EVar vlmMst2)) * EPow P6 (EVar vMst1) +
   #1244160 * (#2 + EVar vlmMst2 - #3 * EPow P2 (EVar vlmMst2)) * EPow P6 (EVar vMst2)) / EPow P2 (EVar vMst1)) / EPow
   P5 (EVar vMst2)) / #43740) / EVar vTbeta + EVar vs2t * EVar vtwoLoopFlag * EPow P2 (EVar vMt) * EPow P2 (EVar
   vMuSUSY) * (#2 * (#4 * EVar vMt * (- #31 + #3 * EVar vlmMst1 * (- #2 + EVar vlmMst2) + #4 * EVar vlmMst2 - #3 *
   EPow P2 (EVar vlmMst2)) + #3 * EVar vMst2 * EVar vs2t * (#4 + EVar vlmMst2 + EVar vlmMst1 * (- #1 + #2 * EVar
   vlmMst2) - #2 * EPow P2 (EVar vlmMst2))) * EPow P2 (EVar vMst2) * EPow P4 (EVar vMst1) + #2 * (EVar vMst2 * EVar
   vs2t * (#10 + EVar vlmMst1 * (- #3 + #6 * EVar vlmMst2) - #6 * EPow P2 (EVar vlmMst2)) + #4 * EVar vMt * (- #14 +
   EVar vlmMst1 * (- #2 + EVar vlmMst2) - EPow P2 (EVar vlmMst2))) * EPow P2 (EVar vMst1) * EPow P4 (EVar vMst2) +
   (EVar vMt * (- #398 + #52 * EVar vlmMst2 + EVar vlmMst1 * (- #68 + #40 * EVar vlmMst2) - #40 * EPow P2 (EVar
   vlmMst2)) + #3 * EVar vMst2 * EVar vs2t * (#9 + #4 * EVar vlmMst1 * (- #1 + EVar vlmMst2) + #4 * EVar vlmMst2 - #4
   * EPow P2 (EVar vlmMst2))) * EPow P6 (EVar vMst1) + #2 * (#2 - #3 * EVar vlmMst2) * EVar vs2t * EPow P7 (EVar
   vMst2)) / (#3 * EVar vTbeta * EPow P2 (EVar vMst1) * EPow P5 (EVar vMst2))) - EVar vMt * EVar vMuSUSY * EVar
   vxDR2DRMOD * (#54 * EVar vs2t * EPow P2 (EVar vMst1) * (- #5 * EVar vAl4p * EVar vthreeLoopFlag * EVar vxDmsqst2 *
   EPow P2 (EVar vDmsqst2) * ((#14 * EVar vDmglst2 * EVar vMgl + #33 * EVar vxDmglst2 * EPow P2 (EVar vDmglst2) + EPow
   P2 (EVar vMgl)) * EPow P2 (EVar vMst2) * (#2 * EVar vMt * (EVar vMuSUSY * EVar vs2t - #2 * EVar vMt * EVar vTbeta)
   * EPow P2 (EVar vMst1) + EPow P2 (EVar vMst2) * (#2 * EVar vMt * EVar vMuSUSY * EVar vs2t + #4 * EVar vTbeta * EPow
   P2 (EVar vMt) - EVar vTbeta * EPow P2 (EVar vMst2) * EPow P2 (EVar vs2t)) + EVar vTbeta * EPow P2 (EVar vs2t) *
   EPow P4 (EVar vMst1)) + (- #2 * EVar vlmMst1 + #2 * EVar vlmMst2) * EVar vs2t * EPow P2 (EVar vMst1) * (EVar
   vDmglst2 * (#14 * EVar vMgl + #33 * EVar vDmglst2 * EVar vxDmglst2) * EPow P2 (EVar vMst2) * (#2 * EVar vMt * EVar
   vMuSUSY - EVar vs2t * EVar vTbeta * EPow P2 (EVar vMst2)) + EPow P2 (EVar vMgl) * (#2 * EVar vMt * EVar vMuSUSY *
   (EPow P2 (EVar vMst1) + EPow P2 (EVar vMst2)) - EVar vs2t * EVar vTbeta * EPow P4 (EVar vMst2)))) + #4 * EVar vMgl
   * (#2 * EVar vDmglst2 * EVar vlmMst2 + EVar vMgl + EVar vlmMst2 * EVar vMgl) * EVar vtwoLoopFlag * EPow P2 (EVar
   vMst2) * (- ((#2 * EVar vMt * (EVar vMuSUSY * EVar vs2t - #2 * EVar vMt * EVar vTbeta) * EPow P2 (EVar vMst1) +
   EPow P2 (EVar vMst2) * (#2 * EVar vMt * EVar vMuSUSY * EVar vs2t + #4 * EVar vTbeta * EPow P2 (EVar vMt) - EVar
   vTbeta * EPow P2 (EVar vMst2) * EPow P2 (EVar vs2t)) + EVar vTbeta * EPow P2 (EVar vs2t) * EPow P4 (EVar vMst1)) *
   EPow P4 (EVar vMst2)) + #2 * (EVar vlmMst1 - EVar vlmMst2) * EVar vs2t * EPow P2 (EVar vMst1) * (#2 * EVar vMt *
   EVar vMuSUSY * (EPow P2 (EVar vMst1) * EPow P2 (EVar vMst2) + EPow P4 (EVar vMst1) + EPow P4 (EVar vMst2)) - EVar
   vs2t * EVar vTbeta * EPow P6 (EVar vMst2)))) - EVar vMst2 * EVar vxDmglst2 * EPow P2 (EVar vDmglst2) * (#216 * (#2
   - #3 * EVar vlmMst2) * EVar vMst2 * EVar vs2t * EVar vtwoLoopFlag * EPow P2 (EVar vMst1) * (- (EVar vTbeta * (- #4
   * EPow P2 (EVar vMst1) * EPow P2 (EVar vMt) + #4 * EPow P2 (EVar vMst2) * EPow P2 (EVar vMt) + #2 * (EVar vlmMst1 -
   EVar vlmMst2) * EPow P2 (EVar vMst1) * EPow P2 (EVar vMst2) * EPow P2 (EVar vs2t) + EPow P2 (EVar vs2t) * (EPow P4
   (EVar vMst1) - EPow P4 (EVar vMst2))) * EPow P4 (EVar vMst2)) - #2 * EVar vMt * EVar vMuSUSY * EVar vs2t * ((EPow
   P2 (EVar vMst1) + EPow P2 (EVar vMst2)) * EPow P4 (EVar vMst2) - #2 * (EVar vlmMst1 - EVar vlmMst2) * EPow P2 (EVar
   vMst1) * (EPow P2 (EVar vMst1) * EPow P2 (EVar vMst2) + EPow P4 (EVar vMst1) + EPow P4 (EVar vMst2)))) + EVar vAl4p
   * EVar vthreeLoopFlag * (#24 * EVar vMt * EVar vMuSUSY * EVar vs2t * (- ((EVar vs2t * (#675 * EVar vDmsqst2 * (#1 -
   #2 * EVar vlmMst1 + #2 * EVar vlmMst2) + EPow P2 (EVar vMst2) * (#1180 + #1270 * EVar vlmMst2 + #96 * (#2 - #3 *
   EVar vlmMst2) * EPow P2 (EVar vlmMst1) - #3255 * EPow P2 (EVar vlmMst2) + #6 * EVar vlmMst1 * (- #468 + #454 * EVar
   vlmMst2 + #369 * EPow P2 (EVar vlmMst2)) - #1926 * EPow P3 (EVar vlmMst2))) + #64 * EVar vMst2 * EVar vMt * (#53 +
   #191 * EVar vlmMst2 - #54 * EPow P2 (EVar vlmMst2) + #6 * EVar vlmMst1 * (- #10 - #3 * EVar vlmMst2 + #12 * EPow P2
   (EVar vlmMst2)) - #72 * EPow P3 (EVar vlmMst2))) * EPow P3 (EVar vMst2) * EPow P4 (EVar vMst1)) - #3 * EPow P2
   (EVar vMst1) * (#225 * EVar vDmsqst2 * EVar vs2t + #256 * EVar vMst2 * EVar vMt * (#2 + EVar vlmMst2 - #3 * EPow P2
   (EVar vlmMst2)) + EVar vs2t * (#420 + EVar vlmMst1 * (#64 - #96 * EVar vlmMst2) - #358 * EVar vlmMst2 - #497 * EPow
   P2 (EVar vlmMst2)) * EPow P2 (EVar vMst2)) * EPow P5 (EVar vMst2) - #2 * EVar vMst2 * (#675 * EVar vDmsqst2 * (-
   EVar vlmMst1 + EVar vlmMst2) * EVar vs2t + #32 * EVar vMst2 * EVar vMt * (#11 + #371 * EVar vlmMst2 - #42 * EPow P2
   (EVar vlmMst2) + #6 * EVar vlmMst1 * (- #21 - #5 * EVar vlmMst2 + #24 * EPow P2 (EVar vlmMst2)) - #144 * EPow P3
   (EVar vlmMst2)) - #3 * EVar vs2t * EPow P2 (EVar vMst2) * (- #240 - #468 * EVar vlmMst2 + #144 * (- #2 + #3 * EVar
   vlmMst2) * EPow P2 (EVar vlmMst1) + EVar vlmMst1 * (#580 - #22 * EVar vlmMst2 - #1137 * EPow P2 (EVar vlmMst2)) +
   #310 * EPow P2 (EVar vlmMst2) + #705 * EPow P3 (EVar vlmMst2))) * EPow P6 (EVar vMst1) - #12 * (#16 * EVar vMt *
   (#49 + #103 * EVar vlmMst2 - #36 * (#1 + EVar vlmMst2) * EPow P2 (EVar vlmMst2) + #4 * EVar vlmMst1 * (- #11 + #6 *
   EVar vlmMst2 + #9 * EPow P2 (EVar vlmMst2))) - EVar vMst2 * EVar vs2t * (#48 + #4 * EVar vlmMst2 * (#45 + #68 *
   EPow P2 (EVar vlmMst1)) + #310 * EPow P2 (EVar vlmMst2) - EVar vlmMst1 * (#92 + #310 * EVar vlmMst2 + #635 * EPow
   P2 (EVar vlmMst2)) + #363 * EPow P3 (EVar vlmMst2))) * EPow P8 (EVar vMst1) - #96 * EVar vs2t * (- #2 + EVar
   vlmMst2 + #5 * EPow P2 (EVar vlmMst2)) * EPow P9 (EVar vMst2)) + EVar vTbeta * (#8 * EPow P3 (EVar vMst2) * EPow P4
   (EVar vMst1) * (EVar vs2t * (#4050 * EVar vDmsqst2 * EPow P2 (EVar vMt) + #3 * EPow P2 (EVar vMst2) * (- #675 *
   EVar vDmsqst2 * (EVar vlmMst1 - EVar vlmMst2) * EPow P2 (EVar vs2t) + #2 * EPow P2 (EVar vMt) * (#860 - #434 * EVar
   vlmMst2 + #96 * (- #2 + #3 * EVar vlmMst2) * EPow P2 (EVar vlmMst1) + #96 * EVar vlmMst1 * (#3 + EVar vlmMst2 - #6
   * EPow P2 (EVar vlmMst2)) - #243 * EPow P2 (EVar vlmMst2) + #288 * EPow P3 (EVar vlmMst2)))) - #144 * EVar vMt *
   EPow P2 (EVar vs2t) * (- #29 - #179 * EVar vlmMst2 + EVar vlmMst1 * (#60 + #18 * EVar vlmMst2 - #72 * EPow P2 (EVar
   vlmMst2)) + #18 * EPow P2 (EVar vlmMst2) + #72 * EPow P3 (EVar vlmMst2)) * EPow P3 (EVar vMst2) + #64 * EVar vMst2
   * (#96 + #36 * EVar vlmMt + EVar vlmMst2 * (- #187 + #39 * EVar vlmMt) - #3 * (#19 + #6 * EVar vlmMt) * EPow P2
   (EVar vlmMst2) + #18 * (EVar vlmMst1 * (#3 - #2 * EVar vlmMt + EVar vlmMst2 * (#3 + EVar vlmMt) - EPow P2 (EVar
   vlmMst2)) + EPow P3 (EVar vlmMst2))) * EPow P3 (EVar vMt) - #3 * (#40 - #1172 * EVar vlmMst2 + #48 * (- #2 + #3 *
   EVar vlmMst2) * EPow P2 (EVar vlmMst1) + #882 * EPow P2 (EVar vlmMst2) - #3 * EVar vlmMst1 * (- #500 + #502 * EVar
   vlmMst2 + #369 * EPow P2 (EVar vlmMst2)) + #963 * EPow P3 (EVar vlmMst2)) * EPow P3 (EVar vs2t) * EPow P4 (EVar
   vMst2)) + #4 * EPow P2 (EVar vMst2) * (- #1728 * EVar vMt * EPow P2 (EVar vMst2) * EPow P2 (EVar vs2t) * (#7 - #30
   * EVar vlmMst2 + EVar vlmMst1 * (#11 + #2 * EVar vlmMst2 - #12 * EPow P2 (EVar vlmMst2)) - #2 * EPow P2 (EVar
   vlmMst2) + #12 * EPow P3 (EVar vlmMst2)) + #128 * (#834 + EVar vlmMst2 * (#569 - #33 * EVar vlmMt) - #162 * EVar
   vlmMt + (#51 - #18 * EVar vlmMt) * EPow P2 (EVar vlmMst2) - #18 * EVar vlmMst1 * (#13 + EVar vlmMst2 - EVar vlmMst2
   * EVar vlmMt + EPow P2 (EVar vlmMst2)) + #18 * EPow P3 (EVar vlmMst2)) * EPow P3 (EVar vMt) + EVar vMst2 * (#1152 *
   EVar vs2t * EPow P2 (EVar vMt) * ((- #2 + #3 * EVar vlmMst2) * EPow P2 (EVar vlmMst1) + EVar vlmMst1 * (- #8 + #2 *
   EVar vlmMst2 - #6 * EPow P2 (EVar vlmMst2)) + #3 * (#6 + #5 * EVar vlmMst2 + EPow P3 (EVar vlmMst2))) + #3 * (-
   #675 * EVar vDmsqst2 + EPow P2 (EVar vMst2) * (#260 + #1538 * EVar vlmMst2 - #768 * (- #2 + #3 * EVar vlmMst2) *
   EPow P2 (EVar vlmMst1) + #1395 * EPow P2 (EVar vlmMst2) + #96 * EVar vlmMst1 * (- #7 - #27 * EVar vlmMst2 + #48 *
   EPow P2 (EVar vlmMst2)) - #2304 * EPow P3 (EVar vlmMst2))) * EPow P3 (EVar vs2t))) * EPow P6 (EVar vMst1) - #128 *
   (- #27 * EVar vMt * EPow P2 (EVar vMst2) * EPow P2 (EVar vs2t) * (#17 + #51 * EVar vlmMst2 - #4 * EPow P2 (EVar
   vlmMst2) + #4 * EVar vlmMst1 * (- #6 + EVar vlmMst2 + #3 * EPow P2 (EVar vlmMst2)) - #12 * EPow P3 (EVar vlmMst2))
   - #72 * EVar vMst2 * EVar vs2t * EPow P2 (EVar vMt) * (- #6 - #14 * EVar vlmMst2 + EVar vlmMst2 * EPow P2 (EVar
   vlmMst1) + EVar vlmMst1 * (#9 + #6 * EVar vlmMst2 - #2 * EPow P2 (EVar vlmMst2)) - #6 * EPow P2 (EVar vlmMst2) +
   EPow P3 (EVar vlmMst2)) + #4 * (#290 + EVar vlmMst2 * (#2447 - #645 * EVar vlmMt) - #375 * EVar vlmMt - #3 * (-
   #509 + #60 * EVar vlmMt) * EPow P2 (EVar vlmMst2) - #18 * EVar vlmMst1 * (#87 + EVar vlmMst2 * (#71 - #10 * EVar
   vlmMt) - #22 * EVar vlmMt + #10 * EPow P2 (EVar vlmMst2)) + #180 * EPow P3 (EVar vlmMst2)) * EPow P3 (EVar vMt) +
   #9 * (- #2 * EVar vlmMst1 * (#3 + #2 * EVar vlmMst2 + #16 * EPow P2 (EVar vlmMst2)) + EVar vlmMst2 * (#7 + #4 *
   EVar vlmMst2 + #16 * (EPow P2 (EVar vlmMst1) + EPow P2 (EVar vlmMst2)))) * EPow P3 (EVar vMst2) * EPow P3 (EVar
   vs2t)) * EPow P8 (EVar vMst1) + #1152 * EVar vs2t * (- #2 + EVar vlmMst2 + #5 * EPow P2 (EVar vlmMst2)) * (- #4 *
   EPow P2 (EVar vMt) + EPow P2 (EVar vMst2) * EPow P2 (EVar vs2t)) * EPow P9 (EVar vMst2) - #9 * EPow P2 (EVar vMst1)
   * (#3600 * EVar vDmsqst2 * EVar vs2t * EPow P2 (EVar vMt) * EPow P5 (EVar vMst2) + #4 * (- #4 * EVar vs2t * (- #324
   + #134 * EVar vlmMst2 + #32 * EVar vlmMst1 * (- #2 + #3 * EVar vlmMst2) + #177 * EPow P2 (EVar vlmMst2)) * EPow P2
   (EVar vMt) - #225 * EVar vDmsqst2 * EPow P3 (EVar vs2t)) * EPow P7 (EVar vMst2) + #512 * (- #2 - EVar vlmMst2 + #3
   * EPow P2 (EVar vlmMst2)) * (- #4 * EPow P3 (EVar vMt) * EPow P6 (EVar vMst2) + #3 * EVar vMt * EPow P2 (EVar vs2t)
   * EPow P8 (EVar vMst2)) + EPow P3 (EVar vs2t) * (#135 * EVar vMst2 * EPow P4 (EVar vDmsqst2) + #4 * (- #484 + #390
   * EVar vlmMst2 + #32 * EVar vlmMst1 * (- #2 + #3 * EVar vlmMst2) + #657 * EPow P2 (EVar vlmMst2)) * EPow P9 (EVar
   vMst2))))))) / (#648 * EVar vTbeta * EPow P4 (EVar vMst1) * EPow P6 (EVar vMst2))) / EPow P2 (EVar vMgl) + EVar vMt
   * (EVar vMuSUSY * (#3 * EVar voneLoopFlag * EVar vs2t * (#4 * (EVar vlmMst1 - EVar vlmMst2) * EPow P2 (EVar vMt) -
   ((#2 + EVar vlmMst1 - EVar vlmMst2) * EPow P2 (EVar vMst1) + (- #2 + EVar vlmMst1 - EVar vlmMst2) * EPow P2 (EVar
   vMst2)) * EPow P2 (EVar vs2t) - #2 * EVar vMt * EVar vMuSUSY * EVar vs2t * (#2 - EVar vlmMst1 + EVar vlmMst2 - #2 *
   (EVar vlmMst1 - EVar vlmMst2) * EPow P2 (EVar vMst1) * (EPow P2 (EVar vMst1) + EPow P2 (EVar vMst2)) / EPow P4
   (EVar vMst2)) / EVar vTbeta) + #4 * EVar vAl4p * EVar vtwoLoopFlag * (#12 * EVar vMt * EPow P2 (EVar vs2t) * (#2 *
   EVar vMst2 * (#4 + #3 * EVar vlmMst2 - EVar vlmMst1 * (#1 + EVar vlmMst2) + EPow P2 (EVar vlmMst2) + EVar vDmglst2
   * (#6 + EVar vlmMst1 + EVar vlmMst2 - EVar vlmMst1 * EVar vlmMst2 + EPow P2 (EVar vlmMst2)) / EVar vMgl) + (#2 - #6
   * EVar vlmMst1 + (#6 - #4 * EVar vlmMst1) * EVar vlmMst2 + #4 * EPow P2 (EVar vlmMst2) + EVar vDmglst2 * (#10 +
   EVar vlmMst1 * (#6 - #4 * EVar vlmMst2) - #6 * EVar vlmMst2 + #4 * EPow P2 (EVar vlmMst2)) / EVar vMgl) * EPow P2
   (EVar vMst1) / EVar vMst2 + (EDec 5 1 - #7 * EVar vlmMst1 + (#7 - #4 * EVar vlmMst1) * EVar vlmMst2 + #4 * EPow P2
   (EVar vlmMst2) + EVar vDmglst2 * (EDec 105 1 + EVar vlmMst1 * (#9 - #4 * EVar vlmMst2) - #9 * EVar vlmMst2 + #4 *
   EPow P2 (EVar vlmMst2)) / EVar vMgl) * EPow P4 (EVar vMst1) / EPow P3 (EVar vMst2)) + #8 * EVar vs2t * EPow P2
   (EVar vMt) * (#6 * EVar vlmMst1 + #2 * (- #2 + EVar vlmMst1) * EVar vlmMst2 + EPow P2 (EVar vlmMst1) - #3 * EPow P2
   (EVar vlmMst2) + #2 * (EVar vDmglst2 + #2 * EVar vDmglst2 * EVar vlmMst2 + (#1 - EVar vlmMst1 + EVar vlmMst2) * (#2
   * EVar vDmglst2 + (EVar vlmMst1 - EVar vlmMst2) * EVar vMgl) * EPow P2 (EVar vMst1) / EPow P2 (EVar vMst2) - (#2 *
   EVar vDmglst2 * EVar vlmMst2 + EVar vMgl + EVar vlmMst2 * EVar vMgl) * EPow P2 (EVar vMst2) / EPow P2 (EVar vMst1)
   - (EVar vDmglst2 * (- #2 + #4 * EVar vlmMst1 - #4 * EVar vlmMst2) + EVar vMgl * (- EVar vlmMst1 + EVar vlmMst2 - #2
   * EVar vlmMst1 * EVar vlmMst2 + EPow P2 (EVar vlmMst1) + EPow P2 (EVar vlmMst2))) * EPow P4 (EVar vMst1) / EPow P4
   (EVar vMst2)) / EVar vMgl) + (#16 * EVar vTbeta * EPow P2 (EVar vMst1) * EPow P3 (EVar vMt) * (EVar vMgl * (#13 +
   #2 * EVar vlmMst1 * (#6 + #3 * EVar vlmMst2 - #2 * EVar vlmMt) + #2 * EVar vlmMt + #2 * EVar vlmMst2 * (- #7 + #2 *
   EVar vlmMt) - #6 * EPow P2 (EVar vlmMst2)) * EPow P4 (EVar vMst1) + EVar vDmglst2 * (#11 - #6 * EVar vlmMst1 * EVar
   vlmMst2 - #8 * EVar vlmMst2 * (- #5 + EVar vlmMt) + #8 * EVar vlmMst1 * (- #4 + EVar vlmMt) - #8 * EVar vlmMt + #6
   * EPow P2 (EVar vlmMst2)) * EPow P4 (EVar vMst1) + #2 * EVar vDmglst2 * ((#7 + #7 * EVar vlmMst2 + EVar vlmMst1 *
   (- #5 + EVar vlmMt) - #2 * EVar vlmMt - EVar vlmMst2 * EVar vlmMt) * EPow P2 (EVar vMst1) * EPow P2 (EVar vMst2) +
   (#5 + EVar vlmMst1 * (- #1 + EVar vlmMst2) + EVar vlmMst2 - EPow P2 (EVar vlmMst2)) * EPow P4 (EVar vMst2)) + #2 *
   EVar vMgl * ((#4 + EVar vlmMst1 * (#3 + #2 * EVar vlmMst2 - EVar vlmMt) + EVar vlmMst2 * (- #4 + EVar vlmMt) + EVar
   vlmMt - #2 * EPow P2 (EVar vlmMst2)) * EPow P2 (EVar vMst1) * EPow P2 (EVar vMst2) + (#2 + EVar vlmMst1 + (- #2 +
   EVar vlmMst1) * EVar vlmMst2 + EVar vlmMt - EPow P2 (EVar vlmMst2)) * EPow P4 (EVar vMst2))) + EVar vTbeta * EPow
   P3 (EVar vMst2) * EPow P3 (EVar vs2t) * (- #4 * EVar vDmglst2 * (#2 * (#1 + #2 * EVar vlmMst1 - EVar vlmMst2) *
   EPow P2 (EVar vMst2) * EPow P4 (EVar vMst1) + #2 * (#1 + EVar vlmMst1 - EVar vlmMst2 + #2 * EVar vlmMst1 * EVar
   vlmMst2 - #2 * EPow P2 (EVar vlmMst2)) * EPow P2 (EVar vMst1) * EPow P4 (EVar vMst2) + (#1 + #2 * EVar vlmMst1 - #2
   * EVar vlmMst2) * EPow P6 (EVar vMst1) - #2 * EVar vlmMst2 * EPow P6 (EVar vMst2)) + EVar vMgl * (#2 * (- #16 + #6
   * EVar vlmMst2 - #2 * EVar vlmMst1 * (#8 + #5 * EVar vlmMst2) + #3 * EPow P2 (EVar vlmMst1) + #7 * EPow P2 (EVar
   vlmMst2)) * EPow P2 (EVar vMst2) * EPow P4 (EVar vMst1) - #2 * (- #12 - #18 * EVar vlmMst2 + #2 * EVar vlmMst1 *
   (#5 + #3 * EVar vlmMst2) + EPow P2 (EVar vlmMst1) - #7 * EPow P2 (EVar vlmMst2)) * EPow P2 (EVar vMst1) * EPow P4
   (EVar vMst2) + (#3 + EVar vlmMst1 * (#2 - #32 * EVar vlmMst2) - #2 * EVar vlmMst2 + #16 * (EPow P2 (EVar vlmMst1) +
   EPow P2 (EVar vlmMst2))) * EPow P6 (EVar vMst1) + #4 * (#1 + EVar vlmMst2) * EPow P6 (EVar vMst2))) - #2 * EVar vMt
   * EVar vMuSUSY * EVar vs2t * (#2 * EVar vMgl * (- (EVar vMst2 * EVar vs2t * (- #14 - #20 * EVar vlmMst2 + #2 * EVar
   vlmMst1 * (#5 + #3 * EVar vlmMst2) + EPow P2 (EVar vlmMst1) - #7 * EPow P2 (EVar vlmMst2))) + #8 * EVar vMt * (#4 +
   #3 * EVar vlmMst2 - EVar vlmMst1 * (#1 + EVar vlmMst2) + EPow P2 (EVar vlmMst2))) * EPow P2 (EVar vMst1) * EPow P4
   (EVar vMst2) + #4 * EVar vDmglst2 * (EVar vMst2 * EVar vs2t * (- #5 + #8 * EVar vlmMst2 - #4 * EVar vlmMst1 * (#2 +
   EVar vlmMst2) + #4 * EPow P2 (EVar vlmMst2)) + EVar vMt * (#65 + EVar vlmMst1 * (#34 - #20 * EVar vlmMst2) - #26 *
   EVar vlmMst2 + #20 * EPow P2 (EVar vlmMst2))) * EPow P6 (EVar vMst1) + EVar vMgl * (EVar vMst2 * EVar vs2t * (- #1
   + #50 * EVar vlmMst2 - #2 * EVar vlmMst1 * (#25 + #32 * EVar vlmMst2) + #20 * EPow P2 (EVar vlmMst1) + #44 * EPow
   P2 (EVar vlmMst2)) + EVar vMt * (#84 + #152 * EVar vlmMst2 - #40 * EVar vlmMst1 * (#3 + #2 * EVar vlmMst2) + #80 *
   EPow P2 (EVar vlmMst2))) * EPow P6 (EVar vMst1) + #8 * EVar vDmglst2 * ((EVar vMst2 * EVar vs2t * (- #2 + #3 * EVar
   vlmMst2 - EVar vlmMst1 * (#3 + #2 * EVar vlmMst2) + #2 * EPow P2 (EVar vlmMst2)) + EVar vMt * (#22 + EVar vlmMst1 *
   (#8 - #6 * EVar vlmMst2) - #4 * EVar vlmMst2 + #6 * EPow P2 (EVar vlmMst2))) * EPow P2 (EVar vMst2) * EPow P4 (EVar
   vMst1) + (- (EVar vMst2 * EVar vs2t * (#1 + EVar vlmMst1 - #2 * EVar vlmMst2 + #2 * EVar vlmMst1 * EVar vlmMst2 -
   #2 * EPow P2 (EVar vlmMst2))) + #2 * EVar vMt * (#6 + EVar vlmMst1 + EVar vlmMst2 - EVar vlmMst1 * EVar vlmMst2 +
   EPow P2 (EVar vlmMst2))) * EPow P2 (EVar vMst1) * EPow P4 (EVar vMst2) + EVar vlmMst2 * EVar vs2t * EPow P7 (EVar
   vMst2)) + #4 * EVar vMgl * ((#4 * EVar vMt * (#5 + #6 * EVar vlmMst2 - EVar vlmMst1 * (#4 + #3 * EVar vlmMst2) + #3
   * EPow P2 (EVar vlmMst2)) + EVar vMst2 * EVar vs2t * (- #1 + #13 * EVar vlmMst2 - EVar vlmMst1 * (#13 + #8 * EVar
   vlmMst2) + EPow P2 (EVar vlmMst1) + #7 * EPow P2 (EVar vlmMst2))) * EPow P2 (EVar vMst2) * EPow P4 (EVar vMst1) +
   (#1 + EVar vlmMst2) * EVar vs2t * EPow P7 (EVar vMst2)))) / (EVar vMgl * EVar vTbeta * EPow P2 (EVar vMst1) * EPow
   P5 (EVar vMst2)))) / #48 + (#630 * EVar vxMst * (#27 * (EVar vlmMst1 - EVar vlmMst2) * EVar vMst2 * EVar vMt * EVar
   voneLoopFlag * EPow P2 (EVar vMgl) * EPow P2 (EVar vMuSUSY) * EPow P2 (EVar vs2t) - EVar vAl4p * EVar vtwoLoopFlag
   * (#8 * EVar vMt * EVar vs2t * (#18 * (EVar vlmMst1 - EVar vlmMst2) * (- #2 + #3 * EVar vlmMst2) * EVar vMst2 *
   EVar vs2t * EVar vxDmglst2 * EVar vxDR2DRMOD * EPow P2 (EVar vDmglst2) + EVar vDmglst2 * EVar vMgl * (EVar vMt *
   (#785 + #6 * EVar vlmMst1 * (#85 - #42 * EVar vlmMst2) - #438 * EVar vlmMst2 + #252 * EPow P2 (EVar vlmMst2)) -
   EVar vMst2 * EVar vs2t * (#49 - #84 * EVar vlmMst2 + EVar vlmMst1 * (#84 - #36 * EVar vlmMst2 * (- #1 + EVar
   vxDR2DRMOD)) + #36 * (- #1 + EVar vxDR2DRMOD) * EPow P2 (EVar vlmMst2))) + (EVar vMt * (#193 + #474 * EVar vlmMst2
   - #6 * EVar vlmMst1 * (#67 + #42 * EVar vlmMst2) + #252 * EPow P2 (EVar vlmMst2)) - EVar vMst2 * EVar vs2t * (#1 +
   #3 * EVar vlmMst2 * (- #37 + #6 * EVar vxDR2DRMOD) - #3 * EVar vlmMst1 * (- #37 + #6 * EVar vlmMst2 * (- #12 + EVar
   vxDR2DRMOD) + #6 * EVar vxDR2DRMOD) - #81 * EPow P2 (EVar vlmMst1) + #9 * (- #15 + #2 * EVar vxDR2DRMOD) * EPow P2
   (EVar vlmMst2))) * EPow P2 (EVar vMgl)) * EPow P2 (EVar vMuSUSY) + EVar vMgl * EVar vMuSUSY * EVar vTbeta * (#8 *
   EVar vDmglst2 * (#36 * (- #1 + #3 * EVar vlmMst1 - #3 * EVar vlmMst2) * EVar vMst2 * EVar vs2t * EPow P2 (EVar vMt)
   - #3 * EVar vMt * (#50 + EVar vlmMst1 * (#51 - #18 * EVar vlmMst2) - #51 * EVar vlmMst2 + #18 * EPow P2 (EVar
   vlmMst2)) * EPow P2 (EVar vMst2) * EPow P2 (EVar vs2t) + #4 * (#7 - #381 * EVar vlmMst2 + EVar vlmMst1 * (#327 +
   #72 * EVar vlmMst2 - #81 * EVar vlmMt) + #54 * EVar vlmMt + #81 * EVar vlmMst2 * EVar vlmMt - #72 * EPow P2 (EVar
   vlmMst2)) * EPow P3 (EVar vMt) + #2 * (#1 + #3 * EVar vlmMst1 - #3 * EVar vlmMst2) * EPow P3 (EVar vMst2) * EPow P3
   (EVar vs2t)) - EVar vMgl * (- #144 * EVar vMst2 * EVar vs2t * (- EVar vlmMst1 + EVar vlmMst2 - #2 * EVar vlmMst1 *
   EVar vlmMst2 + EPow P2 (EVar vlmMst1) + EPow P2 (EVar vlmMst2)) * EPow P2 (EVar vMt) + #24 * EVar vMt * (#1 + #33 *
   EVar vlmMst2 - #3 * EVar vlmMst1 * (#11 + #6 * EVar vlmMst2) + #18 * EPow P2 (EVar vlmMst2)) * EPow P2 (EVar vMst2)
   * EPow P2 (EVar vs2t) + #32 * (#83 + #3 * EVar vlmMst1 * (#29 + #12 * EVar vlmMst2 - #9 * EVar vlmMt) + #9 * EVar
   vlmMt + #3 * EVar vlmMst2 * (- #32 + #9 * EVar vlmMt) - #36 * EPow P2 (EVar vlmMst2)) * EPow P3 (EVar vMt) + (#5 +
   EVar vlmMst1 * (#6 - #288 * EVar vlmMst2) - #6 * EVar vlmMst2 + #144 * (EPow P2 (EVar vlmMst1) + EPow P2 (EVar
   vlmMst2))) * EPow P3 (EVar vMst2) * EPow P3 (EVar vs2t))) + #2 * EVar vxDmglst2 * EPow P2 (EVar vDmglst2) * (- #3 *
   EVar vMst2 * EVar vMt * EPow P2 (EVar vs2t) * (#2 * EVar vMst2 * EVar vMuSUSY * EVar vTbeta * (#355 + #6 * EVar
   vlmMst2 - #6 * EVar vlmMst1 * (#1 + #6 * EVar vlmMst2) + #36 * EPow P2 (EVar vlmMst2)) + #2 * (#85 + #60 * EVar
   vlmMst2 + #12 * EVar vlmMst1 * (- #5 + #3 * EVar vlmMst2) - #36 * EPow P2 (EVar vlmMst2)) * EPow P2 (EVar vMuSUSY)
   + #5 * (- #43 + #60 * EVar vlmMst1 - #60 * EVar vlmMst2) * EPow P2 (EVar vMst2) * (- #1 + EPow P2 (EVar vSbeta)) *
   EPow P2 (EVar vSbeta)) + EVar vMuSUSY * (#2 * EVar vs2t * EPow P2 (EVar vMt) * (EVar vMuSUSY * (#5002 + #84 * EVar
   vlmMst1 * (#7 - #6 * EVar vlmMst2) - #444 * EVar vlmMst2 + #504 * EPow P2 (EVar vlmMst2)) + #3 * EVar vMst2 * EVar
   vTbeta * (#347 - #430 * EPow P2 (EVar vSbeta) + #120 * (EVar vlmMst1 - EVar vlmMst2) * (- #4 + #5 * EPow P2 (EVar
   vSbeta)))) + EVar vTbeta * (#8 * (#412 - #6 * EVar vlmMst1 * (#176 + #42 * EVar vlmMst2 - #39 * EVar vlmMt) + #9 *
   EVar vlmMst2 * (#147 - #26 * EVar vlmMt) - #267 * EVar vlmMt + #252 * EPow P2 (EVar vlmMst2)) * EPow P3 (EVar vMt)
   + #12 * (#1 - #6 * EVar vlmMst1 + #6 * EVar vlmMst2) * EPow P3 (EVar vMst2) * EPow P3 (EVar vs2t)))))) * EPow P8
   (EVar vMst1) - #7 * EVar vMst2 * EVar vthreeLoopFlag * EConst Cz2 * EPow P2 (EVar vAl4p) * (#300 * EVar vxDmsqst2 *
   EPow P2 (EVar vDmsqst2) * EPow P2 (EVar vMgl) * (#3 * EVar vs2t * (EVar vMt * EPow P2 (EVar vMuSUSY) * (#6 * EVar
   vMst2 * (- #144 * (#3 + EVar vlmMst1 - EVar vlmMst2) * EVar vMt + (#209 + #18 * EVar vlmMst1 - #18 * EVar vlmMst2)
   * EVar vMst2 * EVar vs2t) * EPow P2 (EVar vMst1) + #8 * (#421 + #54 * EVar vlmMst1 - #54 * EVar vlmMst2) * EVar
   vs2t * EPow P4 (EVar vMst1) + #108 * EVar vs2t * EPow P4 (EVar vMst2)) + #27 * EVar vs2t * ((#51 - #6 * EVar
   vlmMst1 + #6 * EVar vlmMst2) * EVar vMt + #2 * (#11 + #10 * EVar vlmMst1 - #10 * EVar vlmMst2) * EVar vMst2 * EVar
   vs2t) * (- #1 + EPow P2 (EVar vSbeta)) * EPow P2 (EVar vSbeta) * EPow P6 (EVar vMst1)) - EVar vMuSUSY * EVar vTbeta
   * (#9 * EVar vMst2 * EPow P2 (EVar vMst1) * (- #418 * EVar vMst2 * EVar vs2t * EPow P2 (EVar vMt) - #216 * (#3 +
   EVar vlmMst1 - EVar vlmMst2) * EVar vMt * EPow P2 (EVar vMst2) * EPow P2 (EVar vs2t) + #288 * (- #2 + EVar vlmMst1
   - #2 * EVar vlmMst2 + EVar vlmMt) * EPow P3 (EVar vMt) + (#191 + #18 * EVar vlmMst1 - #18 * EVar vlmMst2) * EPow P3
   (EVar vMst2) * EPow P3 (EVar vs2t)) + #3 * EVar vs2t * (- #1296 * (#1 + EVar vlmMst1 - EVar vlmMst2) * EVar vMst2 *
   EVar vMt * EVar vs2t - #2696 * EPow P2 (EVar vMt) + (#1057 + #162 * EVar vlmMst1 - #162 * EVar vlmMst2) * EPow P2
   (EVar vMst2) * EPow P2 (EVar vs2t)) * EPow P4 (EVar vMst1) + #4180 * EPow P3 (EVar vs2t) * EPow P6 (EVar vMst1) +
   #162 * (- #4 * EVar vs2t * EPow P2 (EVar vMt) * EPow P4 (EVar vMst2) + EPow P3 (EVar vs2t) * EPow P6 (EVar
   vMst2)))) - #3240 * EVar vMst2 * EVar vMuSUSY * EVar vxDR2DRMOD * (EVar vMgl * (EVar vTbeta * (#64 * EVar vMt *
   EPow P2 (EVar vMst1) * (- #3 * (EVar vDmglst2 + #3 * EVar vDmglst2 * EVar vlmMst2 + EVar vMgl + EVar vlmMst2 * EVar
   vMgl) * EPow P2 (EVar vMst2) * EPow P2 (EVar vs2t) * (EPow P2 (EVar vMst1) * EPow P2 (EVar vMst2) + EPow P4 (EVar
   vMst1) + EPow P4 (EVar vMst2)) + #4 * EPow P2 (EVar vMt) * (- (EVar vDmglst2 * (#7 + EVar vlmMst2) * EPow P2 (EVar
   vMst1) * EPow P2 (EVar vMst2)) - #2 * EVar vDmglst2 * (#11 + #5 * EVar vlmMst2) * EPow P4 (EVar vMst1) + EVar
   vDmglst2 * (- #1 + EVar vlmMst2) * EPow P4 (EVar vMst2) + (#1 + EVar vlmMst2) * EVar vMgl * (#3 * EPow P2 (EVar
   vMst1) * EPow P2 (EVar vMst2) + #6 * EPow P4 (EVar vMst1) + EPow P4 (EVar vMst2)))) + (#16 * (#7 * EVar vDmglst2 -
   #13 * EVar vMgl) * EVar vs2t * (EPow P2 (EVar vMst1) - EPow P2 (EVar vMst2)) * EPow P2 (EVar vMt) - EPow P3 (EVar
   vs2t) * (#8 * (EVar vDmglst2 * (#7 * EVar vlmMst1 - #15 * EVar vlmMst2) + (- #4 - #13 * EVar vlmMst1 + #9 * EVar
   vlmMst2) * EVar vMgl) * EPow P2 (EVar vMst1) * EPow P2 (EVar vMst2) + #4 * (#7 * EVar vDmglst2 - #13 * EVar vMgl) *
   (EPow P4 (EVar vMst1) - EPow P4 (EVar vMst2)))) * EPow P5 (EVar vMst2)) + EVar vMt * EVar vMuSUSY * EVar vs2t *
   (#256 * (EVar vDmglst2 + #3 * EVar vDmglst2 * EVar vlmMst2 + EVar vMgl + EVar vlmMst2 * EVar vMgl) * EVar vMt *
   EPow P2 (EVar vMst1) * (#2 * EPow P2 (EVar vMst1) * EPow P2 (EVar vMst2) + #3 * EPow P4 (EVar vMst1) + EPow P4
   (EVar vMst2)) - #8 * EVar vMst2 * EVar vs2t * (- #2 * (EVar vDmglst2 * (#7 * EVar vlmMst1 - #15 * EVar vlmMst2) +
   (- #4 - #13 * EVar vlmMst1 + #9 * EVar vlmMst2) * EVar vMgl) * (EPow P2 (EVar vMst1) + EPow P2 (EVar vMst2)) * EPow
   P4 (EVar vMst1) + (EVar vDmglst2 * (#7 - #14 * EVar vlmMst1 + #30 * EVar vlmMst2) + (- #5 + #26 * EVar vlmMst1 -
   #18 * EVar vlmMst2) * EVar vMgl) * EPow P2 (EVar vMst1) * EPow P4 (EVar vMst2) + (#7 * EVar vDmglst2 - #13 * EVar
   vMgl) * EPow P6 (EVar vMst2)))) - EVar vxDmglst2 * EPow P2 (EVar vDmglst2) * (EVar vTbeta * (#64 * EVar vMt * EPow
   P2 (EVar vMst1) * (#3 * EPow P2 (EVar vMst2) * EPow P2 (EVar vs2t) * ((- #1 + #6 * EVar vlmMst2) * EPow P2 (EVar
   vMst2) * (EPow P2 (EVar vMst1) + EPow P2 (EVar vMst2)) + (#1 + #3 * EVar vlmMst2) * EPow P4 (EVar vMst1)) + #4 *
   EPow P2 (EVar vMt) * (- (EVar vlmMst2 * EPow P2 (EVar vMst1) * EPow P2 (EVar vMst2)) + #2 * (#11 + #5 * EVar
   vlmMst2) * EPow P4 (EVar vMst1) - (- #2 + EVar vlmMst2) * EPow P4 (EVar vMst2))) + (- #432 * EVar vs2t * (EPow P2
   (EVar vMst1) - EPow P2 (EVar vMst2)) * EPow P2 (EVar vMt) + #9 * EPow P3 (EVar vs2t) * (#8 * (#8 + #27 * EVar
   vlmMst1 - #39 * EVar vlmMst2) * EPow P2 (EVar vMst1) * EPow P2 (EVar vMst2) / #9 + #12 * EPow P4 (EVar vMst1) - #12
   * EPow P4 (EVar vMst2))) * EPow P5 (EVar vMst2)) + #8 * EVar vMt * EVar vMuSUSY * EVar vs2t * (#2 * (- #32 * (- #1
   + #6 * EVar vlmMst2) * EVar vMt + (- #8 - #27 * EVar vlmMst1 + #39 * EVar vlmMst2) * EVar vMst2 * EVar vs2t) * EPow
   P2 (EVar vMst2) * EPow P4 (EVar vMst1) + (#32 * (#1 - #6 * EVar vlmMst2) * EVar vMt + (#11 - #54 * EVar vlmMst1 +
   #78 * EVar vlmMst2) * EVar vMst2 * EVar vs2t) * EPow P2 (EVar vMst1) * EPow P4 (EVar vMst2) - #2 * (#48 * (#1 + #3
   * EVar vlmMst2) * EVar vMt + (#7 * EVar vlmMst1 - #15 * EVar vlmMst2) * EVar vMst2 * EVar vs2t) * EPow P6 (EVar
   vMst1) + #27 * EVar vs2t * EPow P7 (EVar vMst2)))) + EVar vMgl * (#4 * EPow P2 (EVar vMst1) * EPow P2 (EVar vMt) *
   EPow P2 (EVar vMuSUSY) * (- (EVar vDmglst2 * EVar vMst2 * (#27 * EPow P2 (EVar vMst2) * (#7680 * (#5 + #6 * EVar
   vlmMst2) * EVar vMst2 * EVar vMt - #14400 * EVar vDmsqst2 * (#2 + #3 * EVar vlmMst1 - #3 * EVar vlmMst2) * EVar
   vs2t + (#173947 - #25080 * EVar vlmMst1 + #68760 * EVar vlmMst2) * EVar vs2t * EPow P2 (EVar vMst2)) + #36 * EPow
   P2 (EVar vMst1) * (#30 * (#3643 - #120 * EVar vlmMst1 + #3192 * EVar vlmMst2) * EVar vMst2 * EVar vMt + #10800 *
   EVar vDmsqst2 * (#1 - #9 * EVar vlmMst1 + #9 * EVar vlmMst2) * EVar vs2t + (#364291 - #88560 * EVar vlmMst1 +
   #147960 * EVar vlmMst2) * EVar vs2t * EPow P2 (EVar vMst2)) + #2 * (#15057833 - #4014360 * EVar vlmMst1 + #5563080
   * EVar vlmMst2) * EVar vs2t * EPow P4 (EVar vMst1))) + #3 * EVar vMgl * (- #60 * EVar vMst2 * EPow P2 (EVar vMst1)
   * (#3 * (- #353 + #72 * EVar vlmMst1 + #696 * EVar vlmMst2) * EVar vMst2 * EVar vMt + #2160 * EVar vDmsqst2 * (#5 +
   #3 * EVar vlmMst1 - #3 * EVar vlmMst2) * EVar vs2t + #2 * (#3937 + #2988 * EVar vlmMst1 - #2232 * EVar vlmMst2) *
   EVar vs2t * EPow P2 (EVar vMst2)) - #45 * (#64 * (#53 + #24 * EVar vlmMst2) * EVar vMst2 * EVar vMt + #2880 * EVar
   vDmsqst2 * (#2 + EVar vlmMst1 - EVar vlmMst2) * EVar vs2t + #3 * (#2269 + #664 * EVar vlmMst1 - #56 * EVar vlmMst2)
   * EVar vs2t * EPow P2 (EVar vMst2)) * EPow P3 (EVar vMst2) + #2 * (#15 * (#38401 + #1080 * EVar vlmMst1 - #7992 *
   EVar vlmMst2) * EVar vMt + (- #266863 - #396360 * EVar vlmMst1 + #346680 * EVar vlmMst2) * EVar vMst2 * EVar vs2t)
   * EPow P4 (EVar vMst1))) - #2 * EVar vMt * EPow P2 (EVar vs2t) * (#300 * EVar vDmsqst2 * (#162 * EVar vDmglst2 *
   EPow P2 (EVar vMst2) * (#4 * EPow P2 (EVar vMuSUSY) * (#3 * (#2 + EVar vlmMst1 - EVar vlmMst2) * EPow P2 (EVar
   vMst1) * EPow P2 (EVar vMst2) + (#3 + #8 * EVar vlmMst1 - #8 * EVar vlmMst2) * EPow P4 (EVar vMst1) + EPow P4 (EVar
   vMst2)) - (- #93 + #10 * EVar vlmMst1 - #10 * EVar vlmMst2) * (- #1 + EPow P2 (EVar vSbeta)) * EPow P2 (EVar
   vSbeta) * EPow P6 (EVar vMst1)) + EVar vMgl * EPow P2 (EVar vMuSUSY) * (#9 * (#1097 + #72 * (EVar vlmMst1 - EVar
   vlmMst2) * (- #1 + EVar vshiftst1)) * EPow P2 (EVar vMst2) * EPow P4 (EVar vMst1) + #27 * (#53 + #12 * (- #1 + #2 *
   EVar vlmMst1 - #2 * EVar vlmMst2) * EVar vshiftst1) * EPow P2 (EVar vMst1) * EPow P4 (EVar vMst2) + (#20701 + #648
   * (EVar vlmMst1 - EVar vlmMst2) * (- #1 + EVar vshiftst1)) * EPow P6 (EVar vMst1) - #324 * (#1 + EVar vshiftst1) *
   EPow P6 (EVar vMst2))) - EPow P2 (EVar vMst2) * EPow P2 (EVar vMuSUSY) * (#4 * EVar vDmglst2 * (#162 * (#6803 -
   #1810 * EVar vlmMst1 + #2670 * EVar vlmMst2) * EPow P2 (EVar vMst2) * EPow P4 (EVar vMst1) - #135 * (#648 * EVar
   vlmMst1 - #7 * (#233 + #240 * EVar vlmMst2)) * EPow P2 (EVar vMst1) * EPow P4 (EVar vMst2) + (#4256978 - #615600 *
   EVar vlmMst1 + #754920 * EVar vlmMst2) * EPow P6 (EVar vMst1) - #22680 * EPow P6 (EVar vMst2)) + #3 * EVar vMgl *
   (- #6 * (#533629 - #1080 * EVar vshiftst3 + #180 * EVar vlmMst1 * (- #5 + #60 * EVar vshiftst1 + #12 * EVar
   vshiftst3) - #180 * EVar vlmMst2 * (- #1 + #60 * EVar vshiftst1 + #12 * EVar vshiftst3)) * EPow P2 (EVar vMst2) *
   EPow P4 (EVar vMst1) - #90 * (#5597 - #360 * EVar vshiftst1 - #72 * EVar vshiftst3 - #24 * EVar vlmMst2 * (#46 +
   #30 * EVar vshiftst1 + #3 * EVar vshiftst3) + #12 * EVar vlmMst1 * (#47 + #60 * EVar vshiftst1 + #6 * EVar
   vshiftst3)) * EPow P2 (EVar vMst1) * EPow P4 (EVar vMst2) - (#6649153 - #6480 * EVar vshiftst3 + #540 * EVar
   vlmMst1 * (- #151 + #120 * EVar vshiftst1 + #36 * EVar vshiftst3) - #540 * EVar vlmMst2 * (- #143 + #120 * EVar
   vshiftst1 + #36 * EVar vshiftst3)) * EPow P6 (EVar vMst1) + #1080 * (#19 + #30 * EVar vshiftst1 + #3 * EVar
   vshiftst3) * EPow P6 (EVar vMst2)))) + #3 * EVar vMgl * EVar vMuSUSY * EVar vTbeta * (#3 * EPow P3 (EVar vMst2) *
   (- #2 * (#623599 + #65160 * EVar vlmMst1 - #134280 * EVar vlmMst2) * EVar vMst2 * EVar vs2t * EPow P2 (EVar vMt) +
   #15 * (#11075 + #17928 * EVar vlmMst1 - #17352 * EVar vlmMst2) * EVar vMt * EPow P2 (EVar vMst2) * EPow P2 (EVar
   vs2t) + #64 * (#41936 - #7245 * EVar vlmMst1 + #19665 * EVar vlmMst2 - #720 * EVar vlmMt) * EPow P3 (EVar vMt) + #4
   * (#224837 - #4680 * EVar vlmMst1 + #8370 * EVar vlmMst2 + #2700 * EVar vshiftst1) * EPow P3 (EVar vMst2) * EPow P3
   (EVar vs2t)) * EPow P4 (EVar vMst1) + #9 * EPow P2 (EVar vMst1) * (- #2 * EVar vMst2 * EVar vs2t * (#1367 + #13560
   * EVar vlmMst1 - #36600 * EVar vlmMst2 + #7200 * EVar vshiftst1) * EPow P2 (EVar vMt) + #45 * (#2269 + #664 * EVar
   vlmMst1 - #56 * EVar vlmMst2) * EVar vMt * EPow P2 (EVar vMst2) * EPow P2 (EVar vs2t) + #4 * (#66773 - #9960 * EVar
   vlmMst1 + #45480 * EVar vlmMst2 - #3840 * EVar vlmMt) * EPow P3 (EVar vMt) + #10 * (#5825 + #36 * EVar vshiftst3 +
   #12 * EVar vlmMst1 * (#47 + #60 * EVar vshiftst1 + #3 * EVar vshiftst3) - #12 * EVar vlmMst2 * (#92 + #60 * EVar
   vshiftst1 + #3 * EVar vshiftst3)) * EPow P3 (EVar vMst2) * EPow P3 (EVar vs2t)) * EPow P5 (EVar vMst2) + EVar vMst2
   * (- #4 * (#2580913 + #203040 * EVar vlmMst1 - #306720 * EVar vlmMst2) * EVar vMst2 * EVar vs2t * EPow P2 (EVar
   vMt) + #6 * (#30643 + #217080 * EVar vlmMst1 - #212760 * EVar vlmMst2) * EVar vMt * EPow P2 (EVar vMst2) * EPow P2
   (EVar vs2t) + #16 * (#1077991 - #184140 * EVar vlmMst1 + #400140 * EVar vlmMst2 - #8640 * EVar vlmMt) * EPow P3
   (EVar vMt) + (#3447379 - #76140 * EVar vlmMst1 + #76140 * EVar vlmMst2) * EPow P3 (EVar vMst2) * EPow P3 (EVar
   vs2t)) * EPow P6 (EVar vMst1) - #100 * EVar vDmsqst2 * (#27 * EPow P2 (EVar vMst1) * EPow P3 (EVar vMst2) * (#2 *
   EVar vMst2 * EVar vs2t * (#53 + #24 * EVar vshiftst1) * EPow P2 (EVar vMt) - #288 * EVar vMt * EPow P2 (EVar vMst2)
   * EPow P2 (EVar vs2t) + #192 * EVar vlmMt * EPow P3 (EVar vMt) - #65 * EPow P3 (EVar vMst2) * EPow P3 (EVar vs2t) +
   #24 * EVar vlmMst1 * (- #6 * EVar vMt * EPow P2 (EVar vMst2) * EPow P2 (EVar vs2t) + #8 * EPow P3 (EVar vMt) - EVar
   vshiftst1 * EPow P3 (EVar vMst2) * EPow P3 (EVar vs2t)) - #24 * EVar vlmMst2 * (- #6 * EVar vMt * EPow P2 (EVar
   vMst2) * EPow P2 (EVar vs2t) + #16 * EPow P3 (EVar vMt) - EVar vshiftst1 * EPow P3 (EVar vMst2) * EPow P3 (EVar
   vs2t))) - #18 * EVar vMst2 * (- #361 * EVar vMst2 * EVar vs2t * EPow P2 (EVar vMt) + #216 * (#3 + #2 * EVar vlmMst1
   - #2 * EVar vlmMst2) * EVar vMt * EPow P2 (EVar vMst2) * EPow P2 (EVar vs2t) - #576 * (- #1 + EVar vlmMst1 - #2 *
   EVar vlmMst2 + EVar vlmMt) * EPow P3 (EVar vMt) + (#469 - #36 * EVar vlmMst1 + #36 * EVar vlmMst2 + #18 * EVar
   vshiftst1) * EPow P3 (EVar vMst2) * EPow P3 (EVar vs2t)) * EPow P4 (EVar vMst1) + EVar vs2t * (#2 * (- #972 * (#5 +
   #4 * EVar vlmMst1 - #4 * EVar vlmMst2) * EVar vMst2 * EVar vMt * EVar vs2t + #4057 * EPow P2 (EVar vMt) - #5414 *
   EPow P2 (EVar vMst2) * EPow P2 (EVar vs2t)) * EPow P6 (EVar vMst1) + #324 * (#1 + EVar vshiftst1) * (- #4 * EPow P2
   (EVar vMt) + EPow P2 (EVar vMst2) * EPow P2 (EVar vs2t)) * EPow P6 (EVar vMst2))) - #1080 * EVar vs2t * (#19 + #30
   * EVar vshiftst1 + #3 * EVar vshiftst3) * (- #4 * EPow P2 (EVar vMt) + EPow P2 (EVar vMst2) * EPow P2 (EVar vs2t))
   * EPow P8 (EVar vMst2)) - EVar vDmglst2 * EVar vMst2 * EVar vMuSUSY * EVar vTbeta * (#27 * (EPow P2 (EVar vMst2) *
   (- #32 * (#19579 + #1770 * EVar vlmMst1 + #12630 * EVar vlmMst2) * EVar vMst2 * EVar vs2t * EPow P2 (EVar vMt) + (-
   #935323 + #279000 * EVar vlmMst1 - #385560 * EVar vlmMst2) * EVar vMt * EPow P2 (EVar vMst2) * EPow P2 (EVar vs2t)
   + #32 * (#67843 - #10050 * EVar vlmMst1 + #17490 * EVar vlmMst2 - #7560 * EVar vlmMt) * EPow P3 (EVar vMt) + #4 *
   (#32663 - #7620 * EVar vlmMst1 + #7620 * EVar vlmMst2) * EPow P3 (EVar vMst2) * EPow P3 (EVar vs2t)) * EPow P4
   (EVar vMst1) + EPow P2 (EVar vMst1) * (#32 * (- #4429 + #270 * EVar vlmMst1 - #8910 * EVar vlmMst2) * EVar vMst2 *
   EVar vs2t * EPow P2 (EVar vMt) + #3 * (- #173947 + #25080 * EVar vlmMst1 - #68760 * EVar vlmMst2) * EVar vMt * EPow
   P2 (EVar vMst2) * EPow P2 (EVar vs2t) - #60 * (- #3245 + #1672 * EVar vlmMst1 - #1448 * EVar vlmMst2 + #1888 * EVar
   vlmMt) * EPow P3 (EVar vMt) + #20 * (#1799 - #648 * EVar vlmMst1 + #1680 * EVar vlmMst2) * EPow P3 (EVar vMst2) *
   EPow P3 (EVar vs2t)) * EPow P4 (EVar vMst2)) + #2 * (- #72 * (#510139 + #44280 * EVar vlmMst1 + #76680 * EVar
   vlmMst2) * EVar vMst2 * EVar vs2t * EPow P2 (EVar vMt) + #15 * (- #1700119 + #484056 * EVar vlmMst1 - #579960 *
   EVar vlmMst2) * EVar vMt * EPow P2 (EVar vMst2) * EPow P2 (EVar vs2t) + #8 * (#13463149 - #1492020 * EVar vlmMst1 +
   #2713500 * EVar vlmMst2 - #625320 * EVar vlmMt) * EPow P3 (EVar vMt) + #8 * (#788723 - #80595 * EVar vlmMst1 +
   #80595 * EVar vlmMst2) * EPow P3 (EVar vMst2) * EPow P3 (EVar vs2t)) * EPow P6 (EVar vMst1) + #97200 * EVar
   vDmsqst2 * (#2 * (EPow P2 (EVar vMst1) * EPow P2 (EVar vMst2) * (#20 * EVar vMst2 * EVar vs2t * EPow P2 (EVar vMt)
   + #6 * (#2 + #3 * EVar vlmMst1 - #3 * EVar vlmMst2) * EVar vMt * EPow P2 (EVar vMst2) * EPow P2 (EVar vs2t) + #8 *
   (#8 + #6 * EVar vlmMst2 - #3 * (EVar vlmMst1 + EVar vlmMt)) * EPow P3 (EVar vMt) - (#5 + #3 * EVar vlmMst1 - #3 *
   EVar vlmMst2) * EPow P3 (EVar vMst2) * EPow P3 (EVar vs2t)) + (#36 * EVar vMst2 * EVar vs2t * EPow P2 (EVar vMt) +
   #18 * (- #1 + #2 * EVar vlmMst1 - #2 * EVar vlmMst2) * EVar vMt * EPow P2 (EVar vMst2) * EPow P2 (EVar vs2t) - #80
   * (- #3 + EVar vlmMst1 - #2 * EVar vlmMst2 + EVar vlmMt) * EPow P3 (EVar vMt) + (#3 - #5 * EVar vlmMst1 + #5 * EVar
   vlmMst2) * EPow P3 (EVar vMst2) * EPow P3 (EVar vs2t)) * EPow P4 (EVar vMst1)) + #8 * EVar vs2t * EPow P2 (EVar
   vMt) * EPow P5 (EVar vMst2) + (#6 * (- #17 + #12 * EVar vlmMst1 - #12 * EVar vlmMst2) * EVar vMt + #13 * EVar vMst2
   * EVar vs2t) * EPow P2 (EVar vs2t) * EPow P6 (EVar vMst1) - #2 * EPow P3 (EVar vs2t) * EPow P7 (EVar vMst2)) -
   #90720 * (- #4 * EVar vs2t * EPow P2 (EVar vMt) * EPow P7 (EVar vMst2) + EPow P3 (EVar vs2t) * EPow P9 (EVar
   vMst2))))) / #3 + EVar vAl4p * EConst Cz2 * (#22680 * EVar vMuSUSY * EVar vtwoLoopFlag * EPow P2 (EVar vMst1) *
   (EVar vMgl * EPow P2 (EVar vMst2) * (#2 * EVar vMt * EVar vMuSUSY * EVar vs2t * (#4 * EVar vMt * ((#9 * EVar
   vDmglst2 + EVar vMgl) * EPow P2 (EVar vMst1) * EPow P2 (EVar vMst2) + (#13 * EVar vDmglst2 + EVar vMgl) * EPow P4
   (EVar vMst1) + (#5 * EVar vDmglst2 + EVar vMgl) * EPow P4 (EVar vMst2)) - EVar vMst2 * EVar vs2t * (EVar vMgl *
   EPow P4 (EVar vMst2) + #4 * EVar vDmglst2 * (EPow P2 (EVar vMst1) * EPow P2 (EVar vMst2) + EPow P4 (EVar vMst1) +
   EPow P4 (EVar vMst2)))) + EVar vTbeta * (#16 * EPow P3 (EVar vMt) * (- #2 * EVar vMgl * EPow P2 (EVar vMst1) * EPow
   P2 (EVar vMst2) + #3 * (EVar vDmglst2 - EVar vMgl) * EPow P4 (EVar vMst1) - (EVar vDmglst2 + EVar vMgl) * EPow P4
   (EVar vMst2)) - #6 * EVar vMt * EPow P2 (EVar vMst2) * EPow P2 (EVar vs2t) * (#4 * EVar vDmglst2 * EPow P2 (EVar
   vMst1) * (EPow P2 (EVar vMst1) + EPow P2 (EVar vMst2)) + (#5 * EVar vDmglst2 + EVar vMgl) * EPow P4 (EVar vMst2)) +
   (#4 * EVar vDmglst2 * EPow P2 (EVar vMst2) + EVar vMgl * (- EPow P2 (EVar vMst1) + EPow P2 (EVar vMst2))) * EPow P3
   (EVar vs2t) * EPow P5 (EVar vMst2))) + #4 * EVar vMt * EVar vxMst * (EVar vxDmglst2 * EPow P2 (EVar vDmglst2) *
   (#82 * EVar vMt * EVar vMuSUSY * EVar vs2t - #56 * EVar vTbeta * EPow P2 (EVar vMt) - #3 * EVar vMst2 * (EVar
   vMuSUSY + #5 * EVar vMst2 * EVar vTbeta) * EPow P2 (EVar vs2t)) + #2 * EVar vMgl * (EVar vMgl * EVar vMt * (EVar
   vMuSUSY * EVar vs2t - #8 * EVar vMt * EVar vTbeta) + EVar vDmglst2 * (#17 * EVar vMt * EVar vMuSUSY * EVar vs2t +
   #16 * EVar vTbeta * EPow P2 (EVar vMt) - EVar vMst2 * (EVar vMuSUSY + #3 * EVar vMst2 * EVar vTbeta) * EPow P2
   (EVar vs2t)))) * EPow P6 (EVar vMst1)) + #6 * EVar vxDmglst2 * EPow P2 (EVar vDmglst2) * EPow P2 (EVar vMst2) *
   (#7560 * EVar vMuSUSY * EVar vtwoLoopFlag * EPow P2 (EVar vMst1) * (- #6 * EVar vMst2 * EVar vMt * EVar vMuSUSY *
   EPow P2 (EVar vs2t) * (EPow P2 (EVar vMst1) * EPow P2 (EVar vMst2) + EPow P4 (EVar vMst1) + EPow P4 (EVar vMst2)) -
   #8 * EVar vTbeta * EPow P3 (EVar vMt) * (EPow P2 (EVar vMst1) * EPow P2 (EVar vMst2) + #4 * EPow P4 (EVar vMst1) +
   EPow P4 (EVar vMst2)) - #3 * EVar vMt * EVar vTbeta * EPow P2 (EVar vMst2) * EPow P2 (EVar vs2t) * (#10 * EPow P2
   (EVar vMst1) * (EPow P2 (EVar vMst1) + EPow P2 (EVar vMst2)) + #11 * EPow P4 (EVar vMst2)) + #4 * EVar vMuSUSY *
   EVar vs2t * EPow P2 (EVar vMt) * (#21 * EPow P2 (EVar vMst1) * EPow P2 (EVar vMst2) + #31 * EPow P4 (EVar vMst1) +
   #11 * EPow P4 (EVar vMst2)) + #3 * EVar vTbeta * EPow P3 (EVar vs2t) * EPow P7 (EVar vMst2)) + EVar vAl4p * EVar
   vthreeLoopFlag * (#28 * EVar vMt * (EPow P2 (EVar vMuSUSY) * (- #9 * EPow P2 (EVar vMst1) * EPow P2 (EVar vMst2) *
   (#43200 * EVar vDmsqst2 * (#2 + #3 * EVar vlmMst1 - #3 * EVar vlmMst2) * EVar vMt * EVar vs2t - (#897737 + #47880 *
   EVar vlmMst1 + #238680 * EVar vlmMst2) * EVar vMt * EVar vs2t * EPow P2 (EVar vMst2) - #48 * EVar vMst2 * (#4 *
   (#617 + #2040 * EVar vlmMst2) * EPow P2 (EVar vMt) + #675 * EVar vDmsqst2 * (#2 + EVar vlmMst1 - EVar vlmMst2) *
   EPow P2 (EVar vs2t)) + (#88931 + #33120 * EVar vlmMst1 + #13320 * EVar vlmMst2) * EPow P2 (EVar vs2t) * EPow P3
   (EVar vMst2)) + #6 * (EVar vMt * EVar vs2t * (#64800 * EVar vDmsqst2 * (#1 - #9 * EVar vlmMst1 + #9 * EVar vlmMst2)
   + (#1263161 - #156600 * EVar vlmMst1 + #979560 * EVar vlmMst2) * EPow P2 (EVar vMst2)) + #6 * EVar vMst2 *
   ((#122051 + #1800 * EVar vlmMst1 + #274680 * EVar vlmMst2) * EPow P2 (EVar vMt) + #2700 * EVar vDmsqst2 * (#3 + #8
   * EVar vlmMst1 - #8 * EVar vlmMst2) * EPow P2 (EVar vs2t)) - #5 * (#21223 + #13230 * EVar vlmMst1 + #702 * EVar
   vlmMst2) * EPow P2 (EVar vs2t) * EPow P3 (EVar vMst2)) * EPow P4 (EVar vMst1) + #19440 * (#5 * EVar vDmsqst2 - #2 *
   EPow P2 (EVar vMst2)) * EPow P2 (EVar vs2t) * EPow P5 (EVar vMst2)) + #2 * EVar vs2t * ((#15057833 - #4014360 *
   EVar vlmMst1 + #5563080 * EVar vlmMst2) * EVar vMt * EPow P2 (EVar vMuSUSY) - #2 * EVar vMst2 * EVar vs2t *
   ((#2128489 - #307800 * EVar vlmMst1 + #377460 * EVar vlmMst2) * EPow P2 (EVar vMuSUSY) + #6075 * EVar vDmsqst2 * (-
   #93 + #10 * EVar vlmMst1 - #10 * EVar vlmMst2) * (- #1 + EPow P2 (EVar vSbeta)) * EPow P2 (EVar vSbeta))) * EPow P6
   (EVar vMst1)) + EVar vMuSUSY * EVar vTbeta * (- #3 * EPow P2 (EVar vMst2) * (#288 * (#434369 - #7875 * EVar vlmMst1
   + #320355 * EVar vlmMst2) * EVar vMst2 * EVar vs2t * EPow P2 (EVar vMt) - #21 * (#166889 + #456840 * EVar vlmMst1 -
   #1243080 * EVar vlmMst2) * EVar vMt * EPow P2 (EVar vMst2) * EPow P2 (EVar vs2t) + #64 * (#3231296 - #460215 * EVar
   vlmMst1 + #1100925 * EVar vlmMst2 - #515970 * EVar vlmMt) * EPow P3 (EVar vMt) + #14 * (#54563 - #32940 * EVar
   vlmMst1 + #32940 * EVar vlmMst2) * EPow P3 (EVar vMst2) * EPow P3 (EVar vs2t)) * EPow P4 (EVar vMst1) - #9 * EPow
   P2 (EVar vMst1) * (#72 * (#126587 - #1820 * EVar vlmMst1 + #230300 * EVar vlmMst2) * EVar vMst2 * EVar vs2t * EPow
   P2 (EVar vMt) + #21 * (#897737 + #47880 * EVar vlmMst1 + #238680 * EVar vlmMst2) * EVar vMt * EPow P2 (EVar vMst2)
   * EPow P2 (EVar vs2t) + #4 * (#2456929 - #335160 * EVar vlmMst1 + #1408680 * EVar vlmMst2 - #408240 * EVar vlmMt) *
   EPow P3 (EVar vMt) - #14 * (#84611 + #33120 * EVar vlmMst1 + #13320 * EVar vlmMst2) * EPow P3 (EVar vMst2) * EPow
   P3 (EVar vs2t)) * EPow P4 (EVar vMst2) + #14 * (- #72 * (#510139 + #44280 * EVar vlmMst1 + #76680 * EVar vlmMst2) *
   EVar vMst2 * EVar vs2t * EPow P2 (EVar vMt) + #15 * (- #1700119 + #484056 * EVar vlmMst1 - #579960 * EVar vlmMst2)
   * EVar vMt * EPow P2 (EVar vMst2) * EPow P2 (EVar vs2t) + #8 * (#13463149 - #1492020 * EVar vlmMst1 + #2713500 *
   EVar vlmMst2 - #625320 * EVar vlmMt) * EPow P3 (EVar vMt) + #8 * (#788723 - #80595 * EVar vlmMst1 + #80595 * EVar
   vlmMst2) * EPow P3 (EVar vMst2) * EPow P3 (EVar vs2t)) * EPow P6 (EVar vMst1) + #680400 * EVar vDmsqst2 * (#2 *
   (EPow P2 (EVar vMst1) * EPow P2 (EVar vMst2) * (#20 * EVar vMst2 * EVar vs2t * EPow P2 (EVar vMt) + #6 * (#2 + #3 *
   EVar vlmMst1 - #3 * EVar vlmMst2) * EVar vMt * EPow P2 (EVar vMst2) * EPow P2 (EVar vs2t) + #8 * (#8 + #6 * EVar
   vlmMst2 - #3 * (EVar vlmMst1 + EVar vlmMt)) * EPow P3 (EVar vMt) - (#5 + #3 * EVar vlmMst1 - #3 * EVar vlmMst2) *
   EPow P3 (EVar vMst2) * EPow P3 (EVar vs2t)) + (#36 * EVar vMst2 * EVar vs2t * EPow P2 (EVar vMt) + #18 * (- #1 + #2
   * EVar vlmMst1 - #2 * EVar vlmMst2) * EVar vMt * EPow P2 (EVar vMst2) * EPow P2 (EVar vs2t) - #80 * (- #3 + EVar
   vlmMst1 - #2 * EVar vlmMst2 + EVar vlmMt) * EPow P3 (EVar vMt) + (#3 - #5 * EVar vlmMst1 + #5 * EVar vlmMst2) *
   EPow P3 (EVar vMst2) * EPow P3 (EVar vs2t)) * EPow P4 (EVar vMst1)) + #8 * EVar vs2t * EPow P2 (EVar vMt) * EPow P5
   (EVar vMst2) + (#6 * (- #17 + #12 * EVar vlmMst1 - #12 * EVar vlmMst2) * EVar vMt + #13 * EVar vMst2 * EVar vs2t) *
   EPow P2 (EVar vs2t) * EPow P6 (EVar vMst1) - #2 * EPow P3 (EVar vs2t) * EPow P7 (EVar vMst2)) + #544320 * (- #4 *
   EVar vs2t * EPow P2 (EVar vMt) * EPow P7 (EVar vMst2) + EPow P3 (EVar vs2t) * EPow P9 (EVar vMst2)))) / #18))) /
   (#68040 * EVar vTbeta * EPow P2 (EVar vMgl) * EPow P2 (EVar vMst1) * EPow P7 (EVar vMst2))) - EVar vthreeLoopFlag *
   EPow P2 (EVar vAl4p) * (#11664 * EVar vMuSUSY * (- (EVar vs2t * EPow P3 (EVar vMt) * (EDec 30229104938271604 14 +
   #8 * EConst CD3 / #9 - #8 * EConst CDN / #9 + #614 * EVar vlmMst1 / #27 + #32 * EVar vlmMt / #3 + #124 * EPow P2
   (EVar vlmMst1) / #9 - #2 * EVar vlmMst2 * (- #1901 + #6 * EVar vlmMst1 + #117 * EPow P2 (EVar vlmMst1)) / #27 +
   (#46 + #32 * EVar vlmMst1 / #9) * EPow P2 (EVar vlmMst2) + #32 * EPow P3 (EVar vlmMst1) / #9 + #14 * EPow P3 (EVar
   vlmMst2) / #9 + (EDec 5996859861506036 13 - #99165049 * EVar vlmMst1 / #198450 + EVar vlmMst2 * (EDec
   7139201259763164 13 - #57994 * EVar vlmMst1 / #945 - #350 * EPow P2 (EVar vlmMst1) / #9) - #90913 * EPow P2 (EVar
   vlmMst1) / #945 + (EDec 20024021164021164 14 - #286 * EVar vlmMst1 / #9) * EPow P2 (EVar vlmMst2) + #32 * EVar
   vlmMt * (#1 + #4 * EVar vlmMst2 - #2 * EVar vlmMst1 * (#2 + EVar vlmMst2) + EPow P2 (EVar vlmMst1) + EPow P2 (EVar
   vlmMst2)) / #3 + #26 * EPow P3 (EVar vlmMst1) / #27 + #1882 * EPow P3 (EVar vlmMst2) / #27 + EVar vDmglst2 * (EDec
   31141128771790903 14 - #32 * EConst CB4 / #9 + #32 * EConst CD3 / #9 - #16 * EConst CDN / #9 + #14926634 * EVar
   vlmMst1 / #19845 + #19352 * EPow P2 (EVar vlmMst1) / #189 + #2 * EVar vlmMst2 * (#2917823 - #3813600 * EVar vlmMst1
   + #97020 * EPow P2 (EVar vlmMst1)) / #19845 + #8 * (#8677 - #5439 * EVar vlmMst1) * EPow P2 (EVar vlmMst2) / #189 -
   #64 * EVar vlmMt * (#4 + #6 * EVar vlmMst2 - #2 * EVar vlmMst1 * (#3 + EVar vlmMst2) + EPow P2 (EVar vlmMst1) +
   EPow P2 (EVar vlmMst2)) / #3 - #8 * EPow P3 (EVar vlmMst1) / #9 + #664 * EPow P3 (EVar vlmMst2) / #3) / EVar vMgl)
   * EPow P4 (EVar vMst1) / EPow P4 (EVar vMst2) + (- #2 * (#2 * EVar vDmglst2 * (- #52 + #2 * (#51 + #16 * EVar
   vlmMst1) * EVar vlmMst2 + #59 * EPow P2 (EVar vlmMst2)) + EVar vMgl * (#71 + #122 * EVar vlmMst2 + #32 * EVar
   vlmMst1 * (#1 + EVar vlmMst2) + #59 * EPow P2 (EVar vlmMst2))) * EPow P2 (EVar vMst2) / (#9 * EPow P2 (EVar vMst1))
   + #4 * EVar vDmglst2 * (#12454 - #120 * EConst CB4 + #120 * EConst CD3 - #60 * EConst CDN + #690 * EVar vlmMst1 +
   #345 * EPow P2 (EVar vlmMst1) - #5 * EVar vlmMst2 * (- #3121 + #42 * EVar vlmMst1 + #96 * EPow P2 (EVar vlmMst1)) +
   (#3630 - #480 * EVar vlmMst1) * EPow P2 (EVar vlmMst2) + #960 * EPow P3 (EVar vlmMst2)) / #135 - (#64 * EVar
   vDmglst2 * (#691875 * EVar vDmsqst2 - EPow P2 (EVar vMst1) * (#1928479 - #13500 * EConst CB4 + #13500 * EConst CD3
   - #6750 * EConst CDN + #635385 * EVar vlmMst1 + #81000 * (- #2 + EVar vlmMst1 - EVar vlmMst2) * EVar vlmMt + #450 *
   EPow P2 (EVar vlmMst1) - #15 * EVar vlmMst2 * (- #153166 + #17835 * EVar vlmMst1 + #3375 * EPow P2 (EVar vlmMst1))
   - #225 * (- #2627 + #1695 * EVar vlmMst1) * EPow P2 (EVar vlmMst2) - #1125 * EPow P3 (EVar vlmMst1) + #433125 *
   EPow P3 (EVar vlmMst2))) - #5 * EVar vMgl * (#13500 * EVar vDmsqst2 * (#367 + #32 * EVar vlmMst1 - #80 * EVar
   vlmMst2) + EPow P2 (EVar vMst1) * (#19425643 + #518400 * EVar vlmMt + #240 * EVar vlmMst2 * (#82997 + #4320 * EVar
   vlmMt) - #3600 * (#683 + #96 * EVar vlmMst2) * EPow P2 (EVar vlmMst1) + #5684400 * EPow P2 (EVar vlmMst2) - #240 *
   EVar vlmMst1 * (#42047 + #4800 * EVar vlmMst2 + #4320 * EVar vlmMt + #6390 * EPow P2 (EVar vlmMst2)) - #295200 *
   EPow P3 (EVar vlmMst1) + #2174400 * EPow P3 (EVar vlmMst2)))) / (#243000 * EPow P2 (EVar vMst2)) + #32 * (#1 + EVar
   vlmMst2) * (#4 * EVar vDmglst2 * EVar vlmMst2 + EVar vMgl + EVar vlmMst2 * EVar vMgl) * EPow P4 (EVar vMst2) / (#9
   * EPow P4 (EVar vMst1)) - (#100 * EVar vDmsqst2 * EVar vMgl * (#9 * (#40 * EConst COepS2 - #27 * (#127 + #30 * EVar
   vlmMst1 - #30 * EVar vlmMst2) * EConst CS2) * EPow P2 (EVar vMst1) * EPow P2 (EVar vMst2) + (#424 * EConst COepS2 -
   #27 * (#1283 + #318 * EVar vlmMst1 - #318 * EVar vlmMst2) * EConst CS2) * EPow P4 (EVar vMst1) + #27 * (#8 * EConst
   COepS2 - #81 * (#9 + #2 * EVar vlmMst1 - #2 * EVar vlmMst2) * EConst CS2) * EPow P4 (EVar vMst2)) + EPow P2 (EVar
   vMst2) * (- #24 * EVar vDmglst2 * (#15 * (#400 * EConst COepS2 - #81 * (#139 + #100 * EVar vlmMst1 - #100 * EVar
   vlmMst2) * EConst CS2) * EPow P2 (EVar vMst1) * EPow P2 (EVar vMst2) + (#36760 * EConst COepS2 - #54 * (#17269 +
   #13785 * EVar vlmMst1 - #13785 * EVar vlmMst2) * EConst CS2) * EPow P4 (EVar vMst1) - #153819 * EConst CS2 * EPow
   P4 (EVar vMst2)) + EVar vMgl * (#3 * (#69400 * EConst COepS2 - #81 * (#17113 + #17350 * EVar vlmMst1 - #17350 *
   EVar vlmMst2) * EConst CS2) * EPow P2 (EVar vMst1) * EPow P2 (EVar vMst2) + #4 * (#120620 * EConst COepS2 - #27 *
   (#138286 + #90465 * EVar vlmMst1 - #90465 * EVar vlmMst2) * EConst CS2) * EPow P4 (EVar vMst1) + #27 * (#2120 *
   EConst COepS2 - #81 * (- #141 + #530 * EVar vlmMst1 - #530 * EVar vlmMst2) * EConst CS2) * EPow P4 (EVar vMst2))))
   / (#7290 * EPow P6 (EVar vMst2))) / EVar vMgl - EVar vDmsqst2 * (EDec 6666666666666667 15 - #40 * EVar vlmMst2 / #3
   + #80 * EVar vDmglst2 / EVar vMgl - (EDec 8394493827160494 14 - #356 * EVar vlmMst1 / #15 + #4 * (#89 + #60 * EVar
   vlmMst1) * EVar vlmMst2 / #15 + #20 * EVar vDmglst2 * (- #65 + #2 * EVar vlmMst1 - #2 * EVar vlmMst2) / (#3 * EVar
   vMgl) - #8 * (EPow P2 (EVar vlmMst1) + EPow P2 (EVar vlmMst2))) * EPow P4 (EVar vMst1) / EPow P4 (EVar vMst2) -
   (EDec 8753310385647498 14 - #941812 * EVar vlmMst1 / #19845 + (EDec 4745840262030738 14 + #484 * EVar vlmMst1 /
   #21) * EVar vlmMst2 - #242 * (EPow P2 (EVar vlmMst1) + EPow P2 (EVar vlmMst2)) / #21) * EPow P6 (EVar vMst1) / EPow
   P6 (EVar vMst2)) / EPow P2 (EVar vMst1))) + EVar vMt * ((#1 - #2 * EVar vlmMst2) * EVar vs2t * EPow P2 (EVar vMst2)
   * (- #2 * EVar vshiftst3 * EPow P2 (EVar vMt) + #5 * EVar vshiftst1 * EPow P2 (EVar vMst2) * EPow P2 (EVar vs2t)) /
   (#3 * EPow P2 (EVar vMst1)) - EPow P3 (EVar vs2t) * ((- #1 + #2 * EVar vlmMst2) * EVar vshiftst3 * EPow P2 (EVar
   vMst2) * ((- #1 - EVar vlmMst1 + EVar vlmMst2) * EPow P2 (EVar vMst1) + EPow P2 (EVar vMst2)) / (#6 * EPow P2 (EVar
   vMst1)) - EPow P2 (EVar vMst2) * (#21005 + #1440 * EConst CB4 - #144 * EConst CD3 + #72 * EConst CDN + #21216 *
   EVar vlmMst1 + #1908 * EPow P2 (EVar vlmMst1) - #12 * EVar vlmMst2 * (#2950 - #2040 * EVar vlmMst1 + #117 * EPow P2
   (EVar vlmMst1)) + #108 * (- #283 + #98 * EVar vlmMst1) * EPow P2 (EVar vlmMst2) + #576 * EPow P3 (EVar vlmMst1) -
   #9756 * EPow P3 (EVar vlmMst2) + (- #1080 * EVar vDmsqst2 * (#12 * EVar vDmglst2 + EVar vMgl - #2 * EVar vlmMst2 *
   EVar vMgl) / EPow P2 (EVar vMst1) - #2 * EVar vDmglst2 * (#14987 - #432 * EConst CB4 + #576 * EConst CD3 - #360 *
   EConst CDN + #4752 * EVar vlmMst1 - #1404 * EPow P2 (EVar vlmMst1) + #144 * EVar vlmMst2 * (- #81 - #124 * EVar
   vlmMst1 + #8 * EPow P2 (EVar vlmMst1)) - #36 * (- #439 + #246 * EVar vlmMst1) * EPow P2 (EVar vlmMst2) + #7704 *
   EPow P3 (EVar vlmMst2))) / EVar vMgl) / #648 - (EDec 9695148419197191 14 - #61388401 * EVar vlmMst1 / #793800 +
   EVar vlmMst2 * (EDec 7369595742000504 14 + #302047 * EVar vlmMst1 / #1890 - #257 * EPow P2 (EVar vlmMst1) / #9) -
   #76483 * EPow P2 (EVar vlmMst1) / #945 - (EDec 7887883597883598 14 - #61 * EVar vlmMst1) * EPow P2 (EVar vlmMst2) -
   #35 * EPow P3 (EVar vlmMst1) / #27 - #841 * EPow P3 (EVar vlmMst2) / #27 - EVar vDmglst2 * (EDec 2038689796251638
   13 + #2171669 * EVar vlmMst2 / #119070 + (#433 + #6552 * EVar vlmMst2) * EPow P2 (EVar vlmMst1) / #189 + #1987 *
   EPow P2 (EVar vlmMst2) / #189 - EVar vlmMst1 * (#2740559 + #1524600 * EVar vlmMst2 + #7514640 * EPow P2 (EVar
   vlmMst2)) / #119070 - #56 * EPow P3 (EVar vlmMst1) / #27 + #824 * EPow P3 (EVar vlmMst2) / #27) / EVar vMgl) * EPow
   P4 (EVar vMst1) / EPow P2 (EVar vMst2) - EVar vDmsqst2 * (EDec 5449074074074074 14 + #140 * EVar vlmMst1 / #9 - #20
   * (#7 + #3 * EVar vlmMst1) * EVar vlmMst2 / #9 - #20 * EVar vDmglst2 * (#5 + #2 * EVar vlmMst1 - #2 * EVar vlmMst2)
   / (#3 * EVar vMgl) + #20 * EPow P2 (EVar vlmMst2) / #3 + (#3375 * EVar vDmglst2 * (#55 - #34 * EVar vlmMst1 + #34 *
   EVar vlmMst2) + EVar vMgl * (#97294 - #17235 * EVar vlmMst2 + #45 * EVar vlmMst1 * (#233 + #330 * EVar vlmMst2) -
   #7425 * EPow P2 (EVar vlmMst1) - #7425 * EPow P2 (EVar vlmMst2))) * EPow P2 (EVar vMst1) / (#2025 * EVar vMgl *
   EPow P2 (EVar vMst2)) + (EDec 1777343371446168 14 - #452768 * EVar vlmMst1 / #19845 + (EDec 22815217939027463 15 +
   #122 * EVar vlmMst1 / #7) * EVar vlmMst2 + #5 * EVar vDmglst2 * (#419 - #57 * EVar vlmMst1 + #57 * EVar vlmMst2) /
   (#27 * EVar vMgl) - #61 * (EPow P2 (EVar vlmMst1) + EPow P2 (EVar vlmMst2)) / #7) * EPow P4 (EVar vMst1) / EPow P4
   (EVar vMst2)) + (EPow P2 (EVar vMst1) * (- #5 * EVar vMgl * (#4627751 + #48600 * EConst CB4 + #5400 * EConst CD3 -
   #5400 * EConst CDN + #1320240 * EVar vlmMst1 - #662400 * EPow P2 (EVar vlmMst1) - #30 * EVar vlmMst2 * (#12148 -
   #76560 * EVar vlmMst1 + #12105 * EPow P2 (EVar vlmMst1)) + #2250 * (- #583 + #438 * EVar vlmMst1) * EPow P2 (EVar
   vlmMst2) - #49500 * EPow P3 (EVar vlmMst1) - #572850 * EPow P3 (EVar vlmMst2)) + EVar vDmglst2 * (#5430043 +
   #524580 * EVar vlmMst2 + #900 * (- #859 + #3690 * EVar vlmMst2) * EPow P2 (EVar vlmMst1) + #1454400 * EPow P2 (EVar
   vlmMst2) - #60 * EVar vlmMst1 * (#51493 + #24630 * EVar vlmMst2 + #112950 * EPow P2 (EVar vlmMst2)) + #45000 * EPow
   P3 (EVar vlmMst1) + #3411000 * EPow P3 (EVar vlmMst2))) / #121500 + (EVar vMgl * (#119 + #218 * EVar vlmMst2 + #32
   * EVar vlmMst1 * (#1 + EVar vlmMst2) + #107 * EPow P2 (EVar vlmMst2)) + EVar vDmglst2 * (- #40 + (#460 + #64 * EVar
   vlmMst1) * EVar vlmMst2 + #310 * EPow P2 (EVar vlmMst2))) * EPow P4 (EVar vMst2) / (#18 * EPow P2 (EVar vMst1)) +
   (#30 * EVar vDmsqst2 * EVar vMgl * (#18 * (#40 * EConst COepS2 - #27 * (#59 + #30 * EVar vlmMst1 - #30 * EVar
   vlmMst2) * EConst CS2) * EPow P2 (EVar vMst1) * EPow P2 (EVar vMst2) + #4 * (#208 * EConst COepS2 - #27 * (#347 +
   #156 * EVar vlmMst1 - #156 * EVar vlmMst2) * EConst CS2) * EPow P4 (EVar vMst1) + #27 * (#8 * EConst COepS2 - #81 *
   (- #15 + #2 * EVar vlmMst1 - #2 * EVar vlmMst2) * EConst CS2) * EPow P4 (EVar vMst2)) - EPow P2 (EVar vMst2) * (#3
   * EVar vMgl * (- #60 * (#340 * EConst COepS2 - #81 * (#424 + #85 * EVar vlmMst1 - #85 * EVar vlmMst2) * EConst CS2)
   * EPow P2 (EVar vMst1) * EPow P2 (EVar vMst2) - #35 * (#788 * EConst COepS2 - #27 * (#2662 + #591 * EVar vlmMst1 -
   #591 * EVar vlmMst2) * EConst CS2) * EPow P4 (EVar vMst1) + #27 * (- #184 * EConst COepS2 + #81 * (#307 + #46 *
   EVar vlmMst1 - #46 * EVar vlmMst2) * EConst CS2) * EPow P4 (EVar vMst2)) + #2 * EVar vDmglst2 * (#27 * (#632 *
   EConst COepS2 + #9 * (#16193 - #1422 * EVar vlmMst1 + #1422 * EVar vlmMst2) * EConst CS2) * EPow P2 (EVar vMst1) *
   EPow P2 (EVar vMst2) + #2 * (#25328 * EConst COepS2 + #27 * (#47051 - #18996 * EVar vlmMst1 + #18996 * EVar
   vlmMst2) * EConst CS2) * EPow P4 (EVar vMst1) + #27 * (#56 * EConst COepS2 - #81 * (- #1677 + #14 * EVar vlmMst1 -
   #14 * EVar vlmMst2) * EConst CS2) * EPow P4 (EVar vMst2)))) / (#4374 * EPow P4 (EVar vMst2)) - #8 * (#1 + EVar
   vlmMst2) * (#4 * EVar vDmglst2 * EVar vlmMst2 + EVar vMgl + EVar vlmMst2 * EVar vMgl) * EPow P6 (EVar vMst2) / (#9
   * EPow P4 (EVar vMst1))) / EVar vMgl) + EConst CT1ep * (#3 * EVar vMgl * (#27 * EPow P4 (EVar vMst2) * (- #40 *
   EVar vDmsqst2 * EVar vs2t * EPow P2 (EVar vMt) - #21 * EVar vMt * EPow P2 (EVar vs2t) * EPow P3 (EVar vMst2) + #28
   * EVar vMst2 * EPow P3 (EVar vMt) + EPow P2 (EVar vMst2) * (- #106 * EVar vs2t * EPow P2 (EVar vMt) + #20 * EVar
   vDmsqst2 * EPow P3 (EVar vs2t)) + #46 * EPow P3 (EVar vs2t) * EPow P4 (EVar vMst2)) + #3 * EPow P2 (EVar vMst1) *
   EPow P2 (EVar vMst2) * (- #600 * EVar vDmsqst2 * EVar vs2t * EPow P2 (EVar vMt) - #627 * EVar vMt * EPow P2 (EVar
   vs2t) * EPow P3 (EVar vMst2) + #1760 * EVar vMst2 * EPow P3 (EVar vMt) + EPow P2 (EVar vMst2) * (- #3470 * EVar
   vs2t * EPow P2 (EVar vMt) + #600 * EVar vDmsqst2 * EPow P3 (EVar vs2t)) + #1700 * EPow P3 (EVar vs2t) * EPow P4
   (EVar vMst2)) + EPow P4 (EVar vMst1) * (- #2120 * EVar vDmsqst2 * EVar vs2t * EPow P2 (EVar vMt) - #3198 * EVar vMt
   * EPow P2 (EVar vs2t) * EPow P3 (EVar vMst2) + #16240 * EVar vMst2 * EPow P3 (EVar vMt) - #4 * EPow P2 (EVar vMst2)
   * (#6031 * EVar vs2t * EPow P2 (EVar vMt) - #520 * EVar vDmsqst2 * EPow P3 (EVar vs2t)) + #6895 * EPow P3 (EVar
   vs2t) * EPow P4 (EVar vMst2))) + EVar vDmglst2 * EVar vMst2 * (- #27 * EPow P2 (EVar vMst1) * EPow P2 (EVar vMst2)
   * (- #800 * EVar vMst2 * EVar vs2t * EPow P2 (EVar vMt) - #907 * EVar vMt * EPow P2 (EVar vMst2) * EPow P2 (EVar
   vs2t) + #1984 * EPow P3 (EVar vMt) + #316 * EPow P3 (EVar vMst2) * EPow P3 (EVar vs2t)) + (#132336 * EVar vMst2 *
   EVar vs2t * EPow P2 (EVar vMt) + #71202 * EVar vMt * EPow P2 (EVar vMst2) * EPow P2 (EVar vs2t) - #259408 * EPow P3
   (EVar vMt) - #25328 * EPow P3 (EVar vMst2) * EPow P3 (EVar vs2t)) * EPow P4 (EVar vMst1) - #189 * (#20 * EPow P3
   (EVar vMt) * EPow P4 (EVar vMst2) - #15 * EVar vMt * EPow P2 (EVar vs2t) * EPow P6 (EVar vMst2) + #4 * EPow P3
   (EVar vs2t) * EPow P7 (EVar vMst2)))) / (#729 * EVar vMgl * EPow P6 (EVar vMst2))) + (- #5 * EVar vMt * EVar vs2t *
   EVar vshiftst1 * ((#1 - #2 * EVar vlmMst2) * EPow P2 (EVar vMst2) * (#4 * EPow P2 (EVar vMst2) * EPow P2 (EVar vMt)
   - #2 * EPow P2 (EVar vMst1) * (#2 * EPow P2 (EVar vMt) + (- EVar vlmMst1 + EVar vlmMst2) * EPow P2 (EVar vMst2) *
   EPow P2 (EVar vs2t)) + EPow P2 (EVar vs2t) * EPow P4 (EVar vMst1)) + EVar vDmsqst2 * (#3 - #2 * EVar vlmMst2) * (-
   #4 * EPow P2 (EVar vMst1) * EPow P2 (EVar vMt) + #4 * EPow P2 (EVar vMst2) * EPow P2 (EVar vMt) + #2 * (EVar
   vlmMst1 - EVar vlmMst2) * EPow P2 (EVar vMst1) * EPow P2 (EVar vMst2) * EPow P2 (EVar vs2t) + EPow P2 (EVar vs2t) *
   (EPow P4 (EVar vMst1) - EPow P4 (EVar vMst2)))) / (#3 * EPow P2 (EVar vMst2)) + EPow P2 (EVar vMt) * (#4 * EPow P2
   (EVar vMt) * (- (EVar vDmglst2 * (#216 * EPow P2 (EVar vMst2) * (#97837 + #71580 * EVar vlmMt - #9920 * EConst
   COepS2 + #43272 * EConst CS2 - #360 * (#23 + #8 * EVar vlmMst2 - #4 * EVar vlmMt) * EPow P2 (EVar vlmMst1) + #720 *
   (#97 + #2 * EVar vlmMt) * EPow P2 (EVar vlmMst2) - #8640 * EPow P2 (EVar vlmMt) - #30 * EVar vlmMst2 * (- #2911 +
   #396 * EVar vlmMt + #6696 * EConst CS2 + #144 * EPow P2 (EVar vlmMt)) + #10 * EVar vlmMst1 * (- #6157 + #642 * EVar
   vlmMt - #6 * EVar vlmMst2 * (#791 + #48 * EVar vlmMt) + #20088 * EConst CS2 + #882 * EPow P2 (EVar vlmMst2) + #432
   * EPow P2 (EVar vlmMt)) - #5940 * EPow P3 (EVar vlmMst2)) * EPow P4 (EVar vMst1) - #129600 * EVar vDmsqst2 * ((#101
   - #90 * EVar vlmMst1 + #177 * EVar vlmMst2 - #87 * EVar vlmMt) * EPow P2 (EVar vMst1) * EPow P2 (EVar vMst2) +
   (#497 - #306 * EVar vlmMst1 + #609 * EVar vlmMst2 - #303 * EVar vlmMt) * EPow P4 (EVar vMst1)) + #135 * EPow P2
   (EVar vMst1) * (#57495 + #45408 * EVar vlmMt - #1120 * EConst COepS2 - #43740 * EConst CS2 - #8 * EVar vlmMst2 * (-
   #6952 + #588 * EVar vlmMt + #2835 * EConst CS2) + #2304 * (- #1 + EVar vlmMst2) * EPow P2 (EVar vlmMst1) + #96 *
   (#79 + #48 * EVar vlmMt) * EPow P2 (EVar vlmMst2) + #72 * EVar vlmMst1 * (- #88 + #64 * EVar vlmMt - #8 * EVar
   vlmMst2 * (#9 + #8 * EVar vlmMt) + #315 * EConst CS2 + #164 * EPow P2 (EVar vlmMst2)) - #14112 * EPow P3 (EVar
   vlmMst2)) * EPow P4 (EVar vMst2) + #20 * (#5659217 + #1592460 * EVar vlmMt - #518816 * EConst COepS2 + #9976392 *
   EConst CS2 - #972 * (#569 + #180 * EVar vlmMst2 - #126 * EVar vlmMt) * EPow P2 (EVar vlmMst1) + #324 * (#5353 +
   #126 * EVar vlmMt) * EPow P2 (EVar vlmMst2) - #186624 * EPow P2 (EVar vlmMt) + #72 * EVar vlmMst1 * (- #27653 -
   #3015 * EVar vlmMt - #18 * EVar vlmMst2 * (#689 + #126 * EVar vlmMt) + #145917 * EConst CS2 + #2160 * EPow P2 (EVar
   vlmMst2) + #2592 * EPow P2 (EVar vlmMt)) - #36 * EVar vlmMst2 * (- #39031 - #3204 * EVar vlmMt + #291834 * EConst
   CS2 + #5184 * EPow P2 (EVar vlmMt)) + #1944 * EPow P3 (EVar vlmMst1) + #17496 * EPow P3 (EVar vlmMst2)) * EPow P6
   (EVar vMst1) - #622080 * (- #1 + #2 * EVar vlmMst2 + #3 * EPow P2 (EVar vlmMst2)) * EPow P6 (EVar vMst2))) + #3 *
   EVar vMgl * (#48 * EPow P2 (EVar vMst2) * (#110219 - #1080 * EVar vlmMt - #4400 * EConst COepS2 + #74034 * EConst
   CS2 + #540 * (- #15 + #4 * EVar vlmMt) * EPow P2 (EVar vlmMst1) + #810 * (#121 - #8 * EVar vlmMt) * EPow P2 (EVar
   vlmMst2) - #135 * EVar vlmMst1 * (#337 + EVar vlmMst2 * (#588 - #32 * EVar vlmMt) - #132 * EVar vlmMt - #660 *
   EConst CS2 + #194 * EPow P2 (EVar vlmMst2) - #48 * EPow P2 (EVar vlmMt)) - #6480 * EPow P2 (EVar vlmMt) - #405 *
   EVar vlmMst2 * (#31 + #54 * EVar vlmMt + #220 * EConst CS2 + #16 * EPow P2 (EVar vlmMt)) + #26190 * EPow P3 (EVar
   vlmMst2)) * EPow P4 (EVar vMst1) + #388800 * EVar vDmsqst2 * ((#5 + #2 * EVar vlmMst1 - #5 * EVar vlmMst2 + #3 *
   EVar vlmMt) * EPow P2 (EVar vMst1) * EPow P2 (EVar vMst2) + (#1 + #6 * EVar vlmMst1 - #13 * EVar vlmMst2 + #7 *
   EVar vlmMt) * EPow P4 (EVar vMst1)) + #27 * EPow P2 (EVar vMst1) * (#56439 - #24000 * EVar vlmMt - #1120 * EConst
   COepS2 - #25596 * EConst CS2 - #360 * EVar vlmMst2 * (- #12 + #44 * EVar vlmMt + #63 * EConst CS2) - #3840 * (#1 +
   EVar vlmMst2) * EPow P2 (EVar vlmMst1) + #480 * (#163 - #16 * EVar vlmMt) * EPow P2 (EVar vlmMst2) - #120 * EVar
   vlmMst1 * (#184 + #8 * EVar vlmMst2 * (#57 - #8 * EVar vlmMt) - #64 * EVar vlmMt - #189 * EConst CS2 + #164 * EPow
   P2 (EVar vlmMst2)) - #11520 * EPow P2 (EVar vlmMt) + #23520 * EPow P3 (EVar vlmMst2)) * EPow P4 (EVar vMst2) + #20
   * (#678923 + #19440 * EVar vlmMt - #32480 * EConst COepS2 + #881712 * EConst CS2 + #540 * (#661 - #30 * EVar vlmMt)
   * EPow P2 (EVar vlmMst2) - #15552 * EPow P2 (EVar vlmMt) - #108 * ((#457 - #12 * EVar vlmMst2 - #126 * EVar vlmMt)
   * EPow P2 (EVar vlmMst1) + EVar vlmMst1 * (#1841 + EVar vlmMst2 * (#2626 - #24 * EVar vlmMt) - #420 * EVar vlmMt -
   #6090 * EConst CS2 + #840 * EPow P2 (EVar vlmMst2) - #288 * EPow P2 (EVar vlmMt)) + EVar vlmMst2 * (#619 + #498 *
   EVar vlmMt + #6090 * EConst CS2 + #288 * EPow P2 (EVar vlmMt))) + #216 * EPow P3 (EVar vlmMst1) + #89208 * EPow P3
   (EVar vlmMst2)) * EPow P6 (EVar vMst1) + #207360 * EPow P2 (#1 + EVar vlmMst2) * EPow P6 (EVar vMst2))) - #3 * EPow
   P2 (EVar vs2t) * (EVar vDmglst2 * (#9 * (#195293 + #639360 * EConst CB4 - #8640 * EConst CDN - #709200 * EVar
   vlmMst1 + #145120 * EConst COepS2 - #108 * (#23989 + #27210 * EVar vlmMst1 - #27210 * EVar vlmMst2) * EConst CS2 +
   #60480 * EPow P2 (EVar vlmMst1) + #720 * EVar vlmMst2 * (#2149 - #1296 * EVar vlmMst1 + #96 * EPow P2 (EVar
   vlmMst1)) - #8640 * (- #101 + #105 * EVar vlmMst1) * EPow P2 (EVar vlmMst2) + #838080 * EPow P3 (EVar vlmMst2)) *
   EPow P4 (EVar vMst1) * EPow P4 (EVar vMst2) - #2 * EPow P2 (EVar vMst2) * (#15069803 - #2877120 * EConst CB4 +
   #38880 * EConst CDN + #6325200 * EVar vlmMst1 - #1898720 * EConst COepS2 + #108 * (#525961 + #356010 * EVar vlmMst1
   - #356010 * EVar vlmMst2) * EConst CS2 + #447120 * EPow P2 (EVar vlmMst1) - #360 * EVar vlmMst2 * (#28667 - #5238 *
   EVar vlmMst1 + #3024 * EPow P2 (EVar vlmMst1)) + #38880 * (- #60 + #157 * EVar vlmMst1) * EPow P2 (EVar vlmMst2) -
   #155520 * EPow P3 (EVar vlmMst1) - #4860000 * EPow P3 (EVar vlmMst2)) * EPow P6 (EVar vMst1) + #583200 * EVar
   vDmsqst2 * (#40 * (#1 - EVar vlmMst1 + EVar vlmMst2) * EPow P2 (EVar vMst2) * EPow P4 (EVar vMst1) - #4 * (#2 + #5
   * EVar vlmMst1 - #5 * EVar vlmMst2) * EPow P2 (EVar vMst1) * EPow P4 (EVar vMst2) + (#80 - #43 * EVar vlmMst1 + #43
   * EVar vlmMst2) * EPow P6 (EVar vMst1)) + #27 * EPow P2 (EVar vMst1) * (#46957 + #188640 * EConst CB4 - #3600 *
   EConst CDN - #37440 * EVar vlmMst1 + #5600 * EConst COepS2 - #324 * (- #453 + #350 * EVar vlmMst1 - #350 * EVar
   vlmMst2) * EConst CS2 + #11520 * EPow P2 (EVar vlmMst1) - #2880 * EVar vlmMst2 * (- #221 + #55 * EVar vlmMst1 + #4
   * EPow P2 (EVar vlmMst1)) - #1440 * (- #232 + #121 * EVar vlmMst1) * EPow P2 (EVar vlmMst2) + #185760 * EPow P3
   (EVar vlmMst2)) * EPow P6 (EVar vMst2) + #622080 * (- #1 + #2 * EVar vlmMst2 + #3 * EPow P2 (EVar vlmMst2)) * EPow
   P8 (EVar vMst2)) + #15 * EVar vMgl * (#3 * (#346405 + #62208 * EConst CB4 + #246672 * EVar vlmMst2 - #6688 * EConst
   COepS2 - #324 * (- #685 + #418 * EVar vlmMst2) * EConst CS2 + #1728 * (- #7 + #8 * EVar vlmMst2) * EPow P2 (EVar
   vlmMst1) + #323136 * EPow P2 (EVar vlmMst2) - #216 * EVar vlmMst1 * (#990 + #1440 * EVar vlmMst2 - #627 * EConst
   CS2 + #584 * EPow P2 (EVar vlmMst2)) + #112320 * EPow P3 (EVar vlmMst2)) * EPow P4 (EVar vMst1) * EPow P4 (EVar
   vMst2) + #2 * EPow P2 (EVar vMst2) * (#795601 + #93312 * EConst CB4 + #365040 * EVar vlmMst2 - #17056 * EConst
   COepS2 + #663444 * EConst CS2 - #345384 * EVar vlmMst2 * EConst CS2 + #432 * (#163 + #264 * EVar vlmMst2) * EPow P2
   (EVar vlmMst1) + #592704 * EPow P2 (EVar vlmMst2) - #216 * EVar vlmMst1 * (#1609 + #3070 * EVar vlmMst2 - #1599 *
   EConst CS2 + #1692 * EPow P2 (EVar vlmMst2)) - #3456 * EPow P3 (EVar vlmMst1) + #254880 * EPow P3 (EVar vlmMst2)) *
   EPow P6 (EVar vMst1) + EPow P2 (EVar vMst1) * (- #38880 * EVar vDmsqst2 * (#8 * (- EVar vlmMst1 + EVar vlmMst2) *
   EPow P2 (EVar vMst1) * EPow P2 (EVar vMst2) + (#4 - #9 * EVar vlmMst1 + #9 * EVar vlmMst2) * EPow P4 (EVar vMst1) -
   #4 * (#1 + EVar vlmMst1 - EVar vlmMst2) * EPow P4 (EVar vMst2)) + #27 * (#27147 + #5280 * EConst CB4 - #48 * EConst
   CDN - #5952 * EVar vlmMst1 - #224 * EConst COepS2 + #324 * (- #1 + #14 * EVar vlmMst1 - #14 * EVar vlmMst2) *
   EConst CS2 - #768 * EPow P2 (EVar vlmMst1) - #192 * EVar vlmMst2 * (- #198 + #73 * EVar vlmMst1 + #4 * EPow P2
   (EVar vlmMst1)) - #288 * (- #84 + #19 * EVar vlmMst1) * EPow P2 (EVar vlmMst2) + #6240 * EPow P3 (EVar vlmMst2)) *
   EPow P6 (EVar vMst2)) + #41472 * EPow P2 (#1 + EVar vlmMst2) * EPow P8 (EVar vMst2)))) / (#174960 * EVar vMgl *
   EPow P5 (EVar vMst2))) / EPow P2 (EVar vMst1)) + (- #11664 * EPow P2 (EVar vMt) * EPow P2 (EVar vs2t) * (#5 * EVar
   vDmglst2 * EVar vDmsqst2 * (- #1081 + #165 * EVar vlmMst1 - #165 * EVar vlmMst2) * (- #1 + EPow P2 (EVar vSbeta)) *
   EPow P2 (EVar vSbeta) * EPow P4 (EVar vMst1) / (#9 * EVar vMgl * EPow P4 (EVar vMst2)) + EPow P2 (EVar vMuSUSY) *
   (EDec 53385802469135804 15 + #40 * EConst CB4 / #9 - #4 * EConst CD3 / #9 + #2 * EConst CDN / #9 + #1672 * EVar
   vlmMst1 / #27 + #53 * EPow P2 (EVar vlmMst1) / #9 - EVar vlmMst2 * (EDec 12992592592592592 14 - #72 * EVar vlmMst1
   + #13 * EPow P2 (EVar vlmMst1) / #3) + #2 * (- #470 + #147 * EVar vlmMst1) * EPow P2 (EVar vlmMst2) / #9 + #16 *
   EPow P3 (EVar vlmMst1) / #9 + EVar vDmglst2 * (- #14267 + #432 * EConst CB4 - #576 * EConst CD3 + #360 * EConst CDN
   - #4752 * EVar vlmMst1 + #4536 * EVar vlmMst2 + #16704 * EVar vlmMst1 * EVar vlmMst2 + #1404 * EPow P2 (EVar
   vlmMst1) - #1152 * EVar vlmMst2 * EPow P2 (EVar vlmMst1) - #20232 * EPow P2 (EVar vlmMst2) + #8856 * EVar vlmMst1 *
   EPow P2 (EVar vlmMst2) - #7704 * EPow P3 (EVar vlmMst2)) / (#162 * EVar vMgl) - #271 * EPow P3 (EVar vlmMst2) / #9
   + (EDec 6281736268201578 13 + #76 * EConst CB4 / #9 - #2 * EConst CDN / #9 + #6317839 * EVar vlmMst1 / #396900 -
   #66307 * EPow P2 (EVar vlmMst1) / #315 - EVar vlmMst2 * (EDec 1252907281431091 14 - #182909 * EVar vlmMst1 / #315 +
   #274 * EPow P2 (EVar vlmMst1) / #3) + #2 * (- #58301 + #37135 * EVar vlmMst1) * EPow P2 (EVar vlmMst2) / #315 - #44
   * EPow P3 (EVar vlmMst1) / #9 - #1256 * EPow P3 (EVar vlmMst2) / #9 - EVar vDmglst2 * (EDec 5851892843532082 13 -
   #8 * EConst CB4 / #3 + #32 * EConst CD3 / #9 - #20 * EConst CDN / #9 - #20109937 * EVar vlmMst1 / #297675 - #15886
   * EPow P2 (EVar vlmMst1) / #945 + EVar vlmMst2 * (EDec 17112243218274966 15 - #144628 * EVar vlmMst1 / #945 + #1180
   * EPow P2 (EVar vlmMst1) / #9) + #2 * (#80257 - #138180 * EVar vlmMst1) * EPow P2 (EVar vlmMst2) / #945 - #92 *
   EPow P3 (EVar vlmMst1) / #27 + #4448 * EPow P3 (EVar vlmMst2) / #27) / EVar vMgl) * EPow P4 (EVar vMst1) / EPow P4
   (EVar vMst2) + (- ((EVar vMgl * (#103 + #186 * EVar vlmMst2 + #32 * EVar vlmMst1 * (#1 + EVar vlmMst2) + #91 * EPow
   P2 (EVar vlmMst2)) + EVar vDmglst2 * (- #40 + #4 * (#99 + #16 * EVar vlmMst1) * EVar vlmMst2 + #246 * EPow P2 (EVar
   vlmMst2))) * EPow P2 (EVar vMst2)) / (#9 * EPow P2 (EVar vMst1)) + (#5 * EVar vMgl * (#2250 * EVar vDmsqst2 *
   (#1141 + #48 * EVar vlmMst1 * (#7 - #3 * EVar vlmMst2) - #264 * EVar vlmMst2 + #144 * EPow P2 (EVar vlmMst2)) +
   EPow P2 (EVar vMst1) * (#10552777 + #205200 * EConst CB4 - #5400 * EConst CDN + #4145280 * EVar vlmMst1 - #1181700
   * EPow P2 (EVar vlmMst1) - #240 * EVar vlmMst2 * (#16192 - #26430 * EVar vlmMst1 + #3465 * EPow P2 (EVar vlmMst1))
   + #900 * (- #5735 + #3072 * EVar vlmMst1) * EPow P2 (EVar vlmMst2) - #55800 * EPow P3 (EVar vlmMst1) - #1877400 *
   EPow P3 (EVar vlmMst2))) - #8 * EVar vDmglst2 * (#405000 * EVar vDmsqst2 * (#4 + EVar vlmMst1 - EVar vlmMst2) +
   EPow P2 (EVar vMst1) * (#2695042 - #40500 * EConst CB4 + #54000 * EConst CD3 - #33750 * EConst CDN - #326895 * EVar
   vlmMst1 - #324900 * EPow P2 (EVar vlmMst1) + #15 * EVar vlmMst2 * (- #19607 - #129030 * EVar vlmMst1 + #62550 *
   EPow P2 (EVar vlmMst1)) - #450 * (- #5023 + #5610 * EVar vlmMst1) * EPow P2 (EVar vlmMst2) + #11250 * EPow P3 (EVar
   vlmMst1) + #1575000 * EPow P3 (EVar vlmMst2)))) / (#121500 * EPow P2 (EVar vMst2)) + #16 * (#1 + EVar vlmMst2) *
   (#4 * EVar vDmglst2 * EVar vlmMst2 + EVar vMgl + EVar vlmMst2 * EVar vMgl) * EPow P4 (EVar vMst2) / (#9 * EPow P4
   (EVar vMst1)) + (- #30 * EVar vDmsqst2 * EVar vMgl * (#9 * (#104 * EConst COepS2 + #27 * (#17 - #78 * EVar vlmMst1
   + #78 * EVar vlmMst2) * EConst CS2) * EPow P2 (EVar vMst1) * EPow P2 (EVar vMst2) + #13 * (#136 * EConst COepS2 -
   #27 * (#95 + #102 * EVar vlmMst1 - #102 * EVar vlmMst2) * EConst CS2) * EPow P4 (EVar vMst1) + #27 * (#8 * EConst
   COepS2 - #81 * (- #15 + #2 * EVar vlmMst1 - #2 * EVar vlmMst2) * EConst CS2) * EPow P4 (EVar vMst2)) + EPow P2
   (EVar vMst2) * (#3 * EVar vMgl * (- #3 * (#8456 * EConst COepS2 - #81 * (#11243 + #2114 * EVar vlmMst1 - #2114 *
   EVar vlmMst2) * EConst CS2) * EPow P2 (EVar vMst1) * EPow P2 (EVar vMst2) + (- #52948 * EConst COepS2 + #27 *
   (#194357 + #39711 * EVar vlmMst1 - #39711 * EVar vlmMst2) * EConst CS2) * EPow P4 (EVar vMst1) + #27 * (- #184 *
   EConst COepS2 + #81 * (#307 + #46 * EVar vlmMst1 - #46 * EVar vlmMst2) * EConst CS2) * EPow P4 (EVar vMst2)) + #2 *
   EVar vDmglst2 * (#54 * (#344 * EConst COepS2 + #9 * (#15643 - #774 * EVar vlmMst1 + #774 * EVar vlmMst2) * EConst
   CS2) * EPow P2 (EVar vMst1) * EPow P2 (EVar vMst2) + #4 * (#17308 * EConst COepS2 + #27 * (#93919 - #12981 * EVar
   vlmMst1 + #12981 * EVar vlmMst2) * EConst CS2) * EPow P4 (EVar vMst1) + #27 * (#56 * EConst COepS2 - #81 * (- #1677
   + #14 * EVar vlmMst1 - #14 * EVar vlmMst2) * EConst CS2) * EPow P4 (EVar vMst2)))) / (#2187 * EPow P6 (EVar
   vMst2))) / EVar vMgl - EVar vDmsqst2 * (EDec 33333333333333335 16 - #20 * EVar vlmMst2 / #3 + #40 * EVar vDmglst2 /
   EVar vMgl - (EDec 20174098765432097 14 + #622 * EVar vlmMst1 / #15 + #2 * (- #311 + #10 * EVar vlmMst1) * EVar
   vlmMst2 / #15 + EVar vDmglst2 * (EDec 7666666666666667 14 - #140 * EVar vlmMst1 + #140 * EVar vlmMst2) / EVar vMgl
   - #22 * EPow P2 (EVar vlmMst1) / #3 + #6 * EPow P2 (EVar vlmMst2)) * EPow P4 (EVar vMst1) / EPow P4 (EVar vMst2) -
   (EDec 23728785508324435 14 + #16526 * EVar vlmMst2 / #3969 + #2 * EVar vlmMst1 * (- #8263 + #71820 * EVar vlmMst2)
   / #3969 - #520 * EPow P2 (EVar vlmMst1) / #21 - #80 * EPow P2 (EVar vlmMst2) / #7) * EPow P6 (EVar vMst1) / EPow P6
   (EVar vMst2)) / EPow P2 (EVar vMst1) + (#10 * EVar vshiftst1 * (EVar vDmsqst2 * (#3 - #2 * EVar vlmMst2) + (#1 - #2
   * EVar vlmMst2) * EPow P2 (EVar vMst2)) * ((EPow P2 (EVar vMst1) + EPow P2 (EVar vMst2)) * EPow P4 (EVar vMst2) -
   #2 * (EVar vlmMst1 - EVar vlmMst2) * EPow P2 (EVar vMst1) * (EPow P2 (EVar vMst1) * EPow P2 (EVar vMst2) + EPow P4
   (EVar vMst1) + EPow P4 (EVar vMst2))) + (#1 - #2 * EVar vlmMst2) * EVar vshiftst3 * EPow P2 (EVar vMst2) * (#2 *
   (#1 - #2 * EVar vlmMst1 + #2 * EVar vlmMst2) * EPow P2 (EVar vMst2) * EPow P4 (EVar vMst1) + #2 * (#1 - EVar
   vlmMst1 + EVar vlmMst2) * EPow P2 (EVar vMst1) * EPow P4 (EVar vMst2) + (#2 - #6 * EVar vlmMst1 + #6 * EVar
   vlmMst2) * EPow P6 (EVar vMst1) + EPow P6 (EVar vMst2))) / (#3 * EPow P2 (EVar vMst1) * EPow P6 (EVar vMst2)))) +
   #4 * EPow P2 (EVar vMuSUSY) * (EVar vMst2 * EVar vs2t * EPow P3 (EVar vMt) * (EVar vDmglst2 * (#36 * EPow P2 (EVar
   vMst2) * (#66761 + #301320 * EConst CB4 - #4860 * EConst CDN - #205380 * EVar vlmMst1 + #40480 * EConst COepS2 -
   #216 * (#2489 + #3795 * EVar vlmMst1 - #3795 * EVar vlmMst2) * EConst CS2 + #23760 * EPow P2 (EVar vlmMst1) + #180
   * EVar vlmMst2 * (#4993 - #1956 * EVar vlmMst1 + #48 * EPow P2 (EVar vlmMst1)) - #1080 * (- #482 + #331 * EVar
   vlmMst1) * EPow P2 (EVar vlmMst2) + #348840 * EPow P3 (EVar vlmMst2)) * EPow P4 (EVar vMst1) + #2332800 * EVar
   vDmsqst2 * ((- #2 - #5 * EVar vlmMst1 + #5 * EVar vlmMst2) * EPow P2 (EVar vMst1) * EPow P2 (EVar vMst2) + (#8 -
   #15 * EVar vlmMst1 + #15 * EVar vlmMst2) * EPow P4 (EVar vMst1)) + #27 * EPow P2 (EVar vMst1) * (#23917 + #188640 *
   EConst CB4 - #3600 * EConst CDN - #37440 * EVar vlmMst1 + #5600 * EConst COepS2 - #324 * (- #453 + #350 * EVar
   vlmMst1 - #350 * EVar vlmMst2) * EConst CS2 + #11520 * EPow P2 (EVar vlmMst1) - #2880 * EVar vlmMst2 * (- #237 +
   #55 * EVar vlmMst1 + #4 * EPow P2 (EVar vlmMst1)) - #1440 * (- #280 + #121 * EVar vlmMst1) * EPow P2 (EVar vlmMst2)
   + #185760 * EPow P3 (EVar vlmMst2)) * EPow P4 (EVar vMst2) - #10 * (#2773621 - #1660176 * EConst CB4 + #25272 *
   EConst CDN + #2004408 * EVar vlmMst1 - #525472 * EConst COepS2 + #108 * (#123113 + #98526 * EVar vlmMst1 - #98526 *
   EVar vlmMst2) * EConst CS2 + #3888 * EPow P2 (EVar vlmMst1) - #144 * EVar vlmMst2 * (#36802 - #11421 * EVar vlmMst1
   + #1728 * EPow P2 (EVar vlmMst1)) + #167184 * (- #14 + #15 * EVar vlmMst1) * EPow P2 (EVar vlmMst2) - #31104 * EPow
   P3 (EVar vlmMst1) - #2227824 * EPow P3 (EVar vlmMst2)) * EPow P6 (EVar vMst1) + #622080 * (- #1 + #2 * EVar vlmMst2
   + #3 * EPow P2 (EVar vlmMst2)) * EPow P6 (EVar vMst2)) + #15 * EVar vMgl * (#24 * EPow P2 (EVar vMst2) * (#75569 +
   #13716 * EConst CB4 - #54 * EConst CDN - #33426 * EVar vlmMst1 - #1088 * EConst COepS2 + #162 * (#169 + #136 * EVar
   vlmMst1 - #136 * EVar vlmMst2) * EConst CS2 - #2376 * EPow P2 (EVar vlmMst1) + #54 * EVar vlmMst2 * (#1427 - #1012
   * EVar vlmMst1 + #16 * EPow P2 (EVar vlmMst1)) - #108 * (- #642 + #203 * EVar vlmMst1) * EPow P2 (EVar vlmMst2) +
   #21060 * EPow P3 (EVar vlmMst2)) * EPow P4 (EVar vMst1) + #155520 * EVar vDmsqst2 * ((#1 + EVar vlmMst1 - EVar
   vlmMst2) * EPow P2 (EVar vMst1) * EPow P2 (EVar vMst2) + (#1 + #3 * EVar vlmMst1 - #3 * EVar vlmMst2) * EPow P4
   (EVar vMst1)) + #27 * EPow P2 (EVar vMst1) * (#28683 + #5280 * EConst CB4 - #48 * EConst CDN - #5952 * EVar vlmMst1
   - #224 * EConst COepS2 + #324 * (- #1 + #14 * EVar vlmMst1 - #14 * EVar vlmMst2) * EConst CS2 - #768 * EPow P2
   (EVar vlmMst1) - #192 * EVar vlmMst2 * (- #214 + #73 * EVar vlmMst1 + #4 * EPow P2 (EVar vlmMst1)) - #96 * (- #268
   + #57 * EVar vlmMst1) * EPow P2 (EVar vlmMst2) + #6240 * EPow P3 (EVar vlmMst2)) * EPow P4 (EVar vMst2) + #2 *
   (#1702429 + #257904 * EConst CB4 - #648 * EConst CDN - #748656 * EVar vlmMst1 - #30112 * EConst COepS2 + #108 *
   (#9185 + #5646 * EVar vlmMst1 - #5646 * EVar vlmMst2) * EConst CS2 + #41904 * EPow P2 (EVar vlmMst1) + #216 * EVar
   vlmMst2 * (#5971 - #6106 * EVar vlmMst1 + #576 * EPow P2 (EVar vlmMst1)) - #41904 * (- #34 + #15 * EVar vlmMst1) *
   EPow P2 (EVar vlmMst2) - #3456 * EPow P3 (EVar vlmMst1) + #507600 * EPow P3 (EVar vlmMst2)) * EPow P6 (EVar vMst1)
   + #41472 * EPow P2 (#1 + EVar vlmMst2) * EPow P6 (EVar vMst2))) / #5 + EPow P2 (EVar vMst1) * (#36 * (#3 * EPow P2
   (EVar vMst1) * EPow P2 (EVar vMst2) * (#3 * EVar vMgl * (#10667 - #96 * EConst CB4 + #96 * EConst CD3 - #48 *
   EConst CDN - #3072 * EVar vlmMst1 - #384 * (- #25 + #9 * EVar vlmMst1) * EVar vlmMst2 - #384 * EVar vlmMst1 * EVar
   vlmMt + #384 * (#1 + EVar vlmMst2) * EVar vlmMt - #384 * (- #13 + #4 * EVar vlmMst1) * EPow P2 (EVar vlmMst2) +
   #1536 * EPow P3 (EVar vlmMst2)) + #2 * EVar vDmglst2 * (#28405 - #288 * EConst CB4 + #288 * EConst CD3 - #144 *
   EConst CDN + #5472 * EVar vlmMst1 - #288 * (- #89 + #2 * EVar vlmMst1) * EVar vlmMst2 + #576 * (- #2 + EVar vlmMst1
   - EVar vlmMst2) * EVar vlmMt - #576 * (- #9 + #8 * EVar vlmMst1) * EPow P2 (EVar vlmMst2) + #4608 * EPow P3 (EVar
   vlmMst2))) + EVar vMgl * (#383185 - #2592 * EConst CB4 + #2592 * EConst CD3 - #1296 * EConst CDN - #187704 * EVar
   vlmMst1 + #216 * EVar vlmMst2 * (#1733 + #859 * EVar vlmMst2 - #6 * EVar vlmMst1 * (#105 + #41 * EVar vlmMst2) -
   #26 * EPow P2 (EVar vlmMst1)) - #7992 * EPow P2 (EVar vlmMst1) + #3456 * EVar vlmMt * (#3 + #6 * EVar vlmMst2 - #2
   * EVar vlmMst1 * (#3 + EVar vlmMst2) + EPow P2 (EVar vlmMst1) + EPow P2 (EVar vlmMst2)) + #720 * EPow P3 (EVar
   vlmMst1) + #58032 * EPow P3 (EVar vlmMst2)) * EPow P4 (EVar vMst1) / #2 + EConst COepS2 * (#672 * (#2 * EVar
   vDmglst2 - #3 * EVar vMgl) * EPow P2 (EVar vMst1) * EPow P2 (EVar vMst2) - #8720 * EVar vMgl * EPow P4 (EVar
   vMst1)) + #72 * (EVar vMgl * (#436 - #6 * EConst CB4 + #6 * EConst CD3 - #3 * EConst CDN - #48 * EVar vlmMst1 +
   (#408 - #96 * EVar vlmMst1) * EVar vlmMst2 + #24 * EVar vlmMt - #48 * (- #4 + EVar vlmMst1) * EPow P2 (EVar
   vlmMst2) + #48 * EPow P3 (EVar vlmMst2)) + #6 * EVar vDmglst2 * (#180 - #2 * EConst CB4 + #2 * EConst CD3 - EConst
   CDN + #144 * EVar vlmMst2 - #16 * (- #2 + EVar vlmMst1) * EPow P2 (EVar vlmMst2) + #16 * (EVar vlmMst1 + EPow P3
   (EVar vlmMst2)))) * EPow P4 (EVar vMst2) - #243 * EConst CS2 * (#4 * (#2 * EVar vDmglst2 * (#65 + #14 * EVar
   vlmMst1 - #14 * EVar vlmMst2) + #3 * (#43 - #14 * EVar vlmMst1 + #14 * EVar vlmMst2) * EVar vMgl) * EPow P2 (EVar
   vMst1) * EPow P2 (EVar vMst2) + #4 * (#57 - #545 * EVar vlmMst1 + #545 * EVar vlmMst2) * EVar vMgl * EPow P4 (EVar
   vMst1) / #3 + #96 * (#4 * EVar vDmglst2 + #3 * EVar vMgl) * EPow P4 (EVar vMst2))) * EPow P4 (EVar vMt) + #24 *
   EConst CT1ep * EPow P2 (EVar vMt) * (#36 * EPow P2 (EVar vMt) * (- #42 * (#2 * EVar vDmglst2 - #3 * EVar vMgl) *
   EPow P2 (EVar vMst1) * EPow P2 (EVar vMst2) + #545 * EVar vMgl * EPow P4 (EVar vMst1)) - #2 * EVar vMst2 * EVar vMt
   * EVar vs2t * (#36 * (#253 * EVar vDmglst2 - #68 * EVar vMgl) * EPow P2 (EVar vMst1) * EPow P2 (EVar vMst2) + #2 *
   (#16421 * EVar vDmglst2 - #2823 * EVar vMgl) * EPow P4 (EVar vMst1) + #189 * (#5 * EVar vDmglst2 - #3 * EVar vMgl)
   * EPow P4 (EVar vMst2)) + EPow P2 (EVar vs2t) * ((#34616 * EVar vDmglst2 - #39711 * EVar vMgl) * EPow P2 (EVar
   vMst2) * EPow P4 (EVar vMst1) - #780 * EVar vDmsqst2 * EVar vMgl * (#9 * EPow P2 (EVar vMst1) * EPow P2 (EVar
   vMst2) + #17 * EPow P4 (EVar vMst1)) - #18 * (#90 * EVar vDmsqst2 * EVar vMgl + (- #516 * EVar vDmglst2 + #1057 *
   EVar vMgl) * EPow P2 (EVar vMst1)) * EPow P4 (EVar vMst2) + #54 * (#14 * EVar vDmglst2 - #69 * EVar vMgl) * EPow P6
   (EVar vMst2))))) / (#3 * EVar vMgl * EPow P2 (EVar vMst1) * EPow P6 (EVar vMst2)) + EVar vMt * (- #8 * EVar
   vDmglst2 * EVar vMst2 * (- #2 * (#8 * EVar vMuSUSY * EVar vs2t * (EVar vMuSUSY * (#395581 * EConst Cz3 + #659 *
   EConst Cz4) + #9 * EVar vMst2 * EVar vTbeta * (#1403 * EConst Cz3 + #757 * EConst Cz4)) * EPow P2 (EVar vMt) + EVar
   vMt * EPow P2 (EVar vs2t) * (#116640 * EVar vDmsqst2 * EVar vMuSUSY * EVar vTbeta * EConst Cz3 - #3 * EVar vMuSUSY
   * EVar vTbeta * (#364058 * EConst Cz3 - #5063 * EConst Cz4) * EPow P2 (EVar vMst2) + #4 * EVar vMst2 * ((#353116 *
   EConst Cz3 + #11327 * EConst Cz4) * EPow P2 (EVar vMuSUSY) - #6075 * EVar vDmsqst2 * EConst Cz3 * (- #1 + EPow P2
   (EVar vSbeta)) * EPow P2 (EVar vSbeta))) + #8 * EVar vMuSUSY * EVar vTbeta * (#417241 * EConst Cz3 - #14269 *
   EConst Cz4) * EPow P3 (EVar vMt) - #2 * EVar vMuSUSY * EVar vTbeta * (#89947 * EConst Cz3 + #6332 * EConst Cz4) *
   EPow P3 (EVar vMst2) * EPow P3 (EVar vs2t)) * EPow P4 (EVar vMst1) + #9 * EVar vMuSUSY * EPow P2 (EVar vMst1) * (-
   #43200 * EVar vDmsqst2 * (- (EVar vMuSUSY * EVar vs2t) + #4 * EVar vMt * EVar vTbeta) * EConst Cz3 * EPow P2 (EVar
   vMt) + #96 * EVar vMst2 * EVar vMt * EVar vMuSUSY * ((#125 * EConst Cz3 - #47 * EConst Cz4) * EPow P2 (EVar vMt) -
   #180 * EVar vDmsqst2 * EConst Cz3 * EPow P2 (EVar vs2t)) - #8 * EVar vMt * EPow P2 (EVar vMst2) * (EVar vMt * EVar
   vMuSUSY * EVar vs2t * (#47456 * EConst Cz3 + #709 * EConst Cz4) + #12 * EVar vTbeta * (#1675 * EConst Cz3 - #26 *
   EConst Cz4) * EPow P2 (EVar vMt) + #3240 * EVar vDmsqst2 * EVar vTbeta * EConst Cz3 * EPow P2 (EVar vs2t)) + #24 *
   EVar vs2t * (- (EVar vMt * EVar vMuSUSY * EVar vs2t * (#9747 * EConst Cz3 + #185 * EConst Cz4)) + EVar vTbeta * (-
   #1180 * EConst Cz3 + #8 * EConst Cz4) * EPow P2 (EVar vMt) + #225 * EVar vDmsqst2 * EVar vTbeta * EConst Cz3 * EPow
   P2 (EVar vs2t)) * EPow P3 (EVar vMst2) + #3 * EVar vMt * EVar vTbeta * (#49501 * EConst Cz3 + #605 * EConst Cz4) *
   EPow P2 (EVar vs2t) * EPow P4 (EVar vMst2) + #3 * EVar vTbeta * (#21373 * EConst Cz3 + #316 * EConst Cz4) * EPow P3
   (EVar vs2t) * EPow P5 (EVar vMst2)) + #27 * EVar vMuSUSY * EPow P2 (EVar vMst2) * (- #2880 * EVar vDmsqst2 * (-
   (EVar vMuSUSY * EVar vs2t) + #6 * EVar vMt * EVar vTbeta) * EConst Cz3 * EPow P2 (EVar vMt) + #16 * EVar vMst2 *
   EVar vMt * EVar vMuSUSY * (#2 * (#83 * EConst Cz3 - #27 * EConst Cz4) * EPow P2 (EVar vMt) - #135 * EVar vDmsqst2 *
   EConst Cz3 * EPow P2 (EVar vs2t)) - #4 * EVar vMt * EPow P2 (EVar vMst2) * (EVar vMt * EVar vMuSUSY * EVar vs2t *
   (#15137 * EConst Cz3 + #271 * EConst Cz4) + EVar vTbeta * (#9 * EConst Cz3 + #253 * EConst Cz4) * EPow P2 (EVar
   vMt) + #540 * EVar vDmsqst2 * EVar vTbeta * EConst Cz3 * EPow P2 (EVar vs2t)) + #2 * EVar vs2t * (- (EVar vMt *
   EVar vMuSUSY * EVar vs2t * (#17615 * EConst Cz3 + #424 * EConst Cz4)) + EVar vTbeta * (- #1756 * EConst Cz3 + #432
   * EConst Cz4) * EPow P2 (EVar vMt) + #540 * EVar vDmsqst2 * EVar vTbeta * EConst Cz3 * EPow P2 (EVar vs2t)) * EPow
   P3 (EVar vMst2) + #3 * EVar vMt * EVar vTbeta * (#15137 * EConst Cz3 + #271 * EConst Cz4) * EPow P2 (EVar vs2t) *
   EPow P4 (EVar vMst2) + EVar vTbeta * (#17615 * EConst Cz3 + #424 * EConst Cz4) * EPow P3 (EVar vs2t) * EPow P5
   (EVar vMst2))) / EVar vMgl - #4 * EVar vMst2 * EVar vxDmglst2 * EPow P2 (EVar vDmglst2) * (- #4 * (#8 * EVar
   vMuSUSY * EVar vs2t * (EVar vMuSUSY * (#395581 * EConst Cz3 + #659 * EConst Cz4) + #9 * EVar vMst2 * EVar vTbeta *
   (#1403 * EConst Cz3 + #757 * EConst Cz4)) * EPow P2 (EVar vMt) + EVar vMt * EPow P2 (EVar vs2t) * (#116640 * EVar
   vDmsqst2 * EVar vMuSUSY * EVar vTbeta * EConst Cz3 - #3 * EVar vMuSUSY * EVar vTbeta * (#364058 * EConst Cz3 -
   #5063 * EConst Cz4) * EPow P2 (EVar vMst2) + #4 * EVar vMst2 * ((#353116 * EConst Cz3 + #11327 * EConst Cz4) * EPow
   P2 (EVar vMuSUSY) - #6075 * EVar vDmsqst2 * EConst Cz3 * (- #1 + EPow P2 (EVar vSbeta)) * EPow P2 (EVar vSbeta))) +
   #8 * EVar vMuSUSY * EVar vTbeta * (#417241 * EConst Cz3 - #14269 * EConst Cz4) * EPow P3 (EVar vMt) - #2 * EVar
   vMuSUSY * EVar vTbeta * (#89947 * EConst Cz3 + #6332 * EConst Cz4) * EPow P3 (EVar vMst2) * EPow P3 (EVar vs2t)) *
   EPow P4 (EVar vMst1) + #9 * EVar vMuSUSY * EPow P2 (EVar vMst2) * (- #17280 * EVar vDmsqst2 * (- (EVar vMuSUSY *
   EVar vs2t) + #6 * EVar vMt * EVar vTbeta) * EConst Cz3 * EPow P2 (EVar vMt) + #96 * EVar vMst2 * EVar vMt * EVar
   vMuSUSY * ((#1990 * EConst Cz3 - #81 * EConst Cz4) * EPow P2 (EVar vMt) - #135 * EVar vDmsqst2 * EConst Cz3 * EPow
   P2 (EVar vs2t)) + #8 * EVar vMt * EPow P2 (EVar vMst2) * (- (EVar vMt * EVar vMuSUSY * EVar vs2t * (#110957 *
   EConst Cz3 + #1249 * EConst Cz4)) + EVar vTbeta * (#32296 * EConst Cz3 - #871 * EConst Cz4) * EPow P2 (EVar vMt) -
   #1620 * EVar vDmsqst2 * EVar vTbeta * EConst Cz3 * EPow P2 (EVar vs2t)) - #2 * EVar vs2t * (EVar vMt * EVar vMuSUSY
   * EVar vs2t * (#228607 * EConst Cz3 + #8888 * EConst Cz4) + #9 * EVar vTbeta * (#19703 * EConst Cz3 - #376 * EConst
   Cz4) * EPow P2 (EVar vMt) - #3240 * EVar vDmsqst2 * EVar vTbeta * EConst Cz3 * EPow P2 (EVar vs2t)) * EPow P3 (EVar
   vMst2) + #6 * EVar vMt * EVar vTbeta * (#110957 * EConst Cz3 + #1249 * EConst Cz4) * EPow P2 (EVar vs2t) * EPow P4
   (EVar vMst2) + EVar vTbeta * (#228607 * EConst Cz3 + #8888 * EConst Cz4) * EPow P3 (EVar vs2t) * EPow P5 (EVar
   vMst2)) - #3 * EVar vMuSUSY * EPow P2 (EVar vMst1) * (#259200 * EVar vDmsqst2 * (- (EVar vMuSUSY * EVar vs2t) + #4
   * EVar vMt * EVar vTbeta) * EConst Cz3 * EPow P2 (EVar vMt) - #96 * EVar vMst2 * EVar vMt * EVar vMuSUSY * ((#13639
   * EConst Cz3 - #451 * EConst Cz4) * EPow P2 (EVar vMt) - #1080 * EVar vDmsqst2 * EConst Cz3 * EPow P2 (EVar vs2t))
   + #8 * EVar vMt * EPow P2 (EVar vMst2) * (#4 * EVar vMt * EVar vMuSUSY * EVar vs2t * (#152143 * EConst Cz3 + #3086
   * EConst Cz4) + EVar vTbeta * (- #221681 * EConst Cz3 + #6920 * EConst Cz4) * EPow P2 (EVar vMt) + #19440 * EVar
   vDmsqst2 * EVar vTbeta * EConst Cz3 * EPow P2 (EVar vs2t)) + #8 * EVar vs2t * (EVar vMt * EVar vMuSUSY * EVar vs2t
   * (#404588 * EConst Cz3 + #10819 * EConst Cz4) + #36 * EVar vTbeta * (#3124 * EConst Cz3 + #29 * EConst Cz4) * EPow
   P2 (EVar vMt) - #4050 * EVar vDmsqst2 * EVar vTbeta * EConst Cz3 * EPow P2 (EVar vs2t)) * EPow P3 (EVar vMst2) - #6
   * EVar vMt * EVar vTbeta * (#275701 * EConst Cz3 + #8597 * EConst Cz4) * EPow P2 (EVar vs2t) * EPow P4 (EVar vMst2)
   - EVar vTbeta * (#932531 * EConst Cz3 + #16612 * EConst Cz4) * EPow P3 (EVar vs2t) * EPow P5 (EVar vMst2))) / EPow
   P2 (EVar vMgl) - #16 * EVar vxDmsqst2 * EPow P2 (EVar vDmsqst2) * (- #9 * EVar vMt * EVar vs2t * (#2160 * (#3 + #2
   * EVar vlmMst1 - #2 * EVar vlmMst2) * EVar vMst2 * EVar vMt * EPow P2 (EVar vMst1) + #270 * EVar vs2t * EVar
   vshiftst1 * (#2 * (EVar vlmMst1 - EVar vlmMst2) * EPow P2 (EVar vMst1) - EPow P2 (EVar vMst2)) * (EPow P2 (EVar
   vMst1) + EPow P2 (EVar vMst2)) + #40 * EVar vs2t * EConst CT1ep * EPow P2 (EVar vMst1) * (#14 * EPow P2 (EVar
   vMst1) + #3 * EPow P2 (EVar vMst2))) * EPow P2 (EVar vMuSUSY) + EVar vMuSUSY * EVar vTbeta * (#45 * EVar vMst2 *
   EPow P2 (EVar vMst1) * (#16 * EVar vMst2 * EVar vs2t * (#88 + #8 * EConst COepS2 - #81 * EConst CS2 - #18 * (EVar
   vlmMst1 - EVar vlmMst2) * (#2 + #9 * EConst CS2) - #54 * EVar vshiftst1 - #12 * EConst CT1ep) * EPow P2 (EVar vMt)
   + #2592 * (#3 + #2 * EVar vlmMst1 - #2 * EVar vlmMst2) * EVar vMt * EPow P2 (EVar vMst2) * EPow P2 (EVar vs2t) +
   #864 * (#4 - #8 * EVar vlmMst1 + #15 * EVar vlmMst2 - #7 * EVar vlmMt) * EPow P3 (EVar vMt) - (#1493 + #64 * EConst
   COepS2 - #27864 * EConst CS2 - #72 * (EVar vlmMst1 - EVar vlmMst2) * (- #1 + #18 * EConst CS2 + #6 * EVar
   vshiftst1) - #96 * EConst CT1ep) * EPow P3 (EVar vMst2) * EPow P3 (EVar vs2t)) / #8 + EVar vs2t * (#3 * (#972000 *
   (#1 + #4 * EVar vlmMst1 - #4 * EVar vlmMst2) * EVar vMst2 * EVar vMt * EVar vs2t + #8 * (#187757 + #16000 * EConst
   COepS2 - #540000 * EConst CS2 + #90 * EVar vlmMst2 * (- #587 + #3600 * EConst CS2) - #90 * EVar vlmMst1 * (- #587 +
   #630 * EVar vlmMst2 + #3600 * EConst CS2) - #24000 * EConst CT1ep + #28350 * (EPow P2 (EVar vlmMst1) + EPow P2
   (EVar vlmMst2))) * EPow P2 (EVar vMt) + (#1372861 - #88000 * EConst COepS2 + #180 * EVar vlmMst2 * (#1987 - #9900 *
   EConst CS2) + #13743000 * EConst CS2 + #180 * EVar vlmMst1 * (- #1987 + #1080 * EVar vlmMst2 + #9900 * EConst CS2)
   + #81000 * EVar vshiftst1 + #132000 * EConst CT1ep - #97200 * (EPow P2 (EVar vlmMst1) + EPow P2 (EVar vlmMst2))) *
   EPow P2 (EVar vMst2) * EPow P2 (EVar vs2t)) * EPow P4 (EVar vMst1) / #200 - #1215 * (#2 + EVar vshiftst1) * (- #4 *
   EPow P2 (EVar vMt) + EPow P2 (EVar vMst2) * EPow P2 (EVar vs2t)) * EPow P4 (EVar vMst2)) + (#610359812 - #64484000
   * EConst COepS2 + #315 * EVar vlmMst2 * (#540413 - #4145400 * EConst CS2) + #8117266500 * EConst CS2 + #315 * EVar
   vlmMst1 * (- #540413 + #884520 * EVar vlmMst2 + #4145400 * EConst CS2) + #96726000 * EConst CT1ep - #139311900 *
   (EPow P2 (EVar vlmMst1) + EPow P2 (EVar vlmMst2))) * EPow P3 (EVar vs2t) * EPow P6 (EVar vMst1) / #34300) + #3 *
   EPow P2 (EVar vs2t) * (#10125 * EPow P2 (EVar vSbeta) * (#2 * (#11 + #39 * EVar vlmMst1 - #39 * EVar vlmMst2) *
   EVar vMst2 * EVar vs2t * (- #1 + EPow P2 (EVar vSbeta)) + (#167 - #5 * EVar vlmMst1 + #5 * EVar vlmMst2) * EVar vMt
   * EPow P2 (EVar vSbeta)) * EPow P6 (EVar vMst1) + EVar vMt * (EPow P2 (EVar vMuSUSY) * (#375 * (#1925 + #64 *
   EConst COepS2 - #27864 * EConst CS2 - #72 * (EVar vlmMst1 - EVar vlmMst2) * (- #1 + #18 * EConst CS2)) * EPow P2
   (EVar vMst1) * EPow P2 (EVar vMst2) + #2 * (#7 * (- #46499 + #8000 * EConst COepS2 - #1728000 * EConst CS2) + #90 *
   EVar vlmMst2 * (- #2137 + #12600 * EConst CS2) - #90 * EVar vlmMst1 * (- #2137 + #1080 * EVar vlmMst2 + #12600 *
   EConst CS2) + #48600 * (EPow P2 (EVar vlmMst1) + EPow P2 (EVar vlmMst2))) * EPow P4 (EVar vMst1) + #162000 * EPow
   P4 (EVar vMst2)) + #10125 * (- #167 + #5 * EVar vlmMst1 - #5 * EVar vlmMst2) * EPow P2 (EVar vSbeta) * EPow P6
   (EVar vMst1))) / #100) / EPow P2 (EVar vMst1) + #3 * (#8 * EPow P4 (EVar vMst1) * (#4 * EVar vMuSUSY * EVar vs2t *
   (#10 * EVar vDmsqst2 * EVar vTbeta * (#965 * EConst Cz3 - #53 * EConst Cz4) + #4 * EVar vMst2 * EVar vMuSUSY *
   (#24908 * EConst Cz3 + #2941 * EConst Cz4) + EVar vTbeta * (#13543 * EConst Cz3 - #6031 * EConst Cz4) * EPow P2
   (EVar vMst2)) * EPow P2 (EVar vMt) + #2 * EVar vMt * EPow P2 (EVar vs2t) * (#10 * EVar vDmsqst2 * EVar vMuSUSY *
   (#1771 * EVar vMuSUSY * EConst Cz3 - #3888 * EVar vMst2 * EVar vTbeta * EConst Cz3 - #442 * EVar vMuSUSY * EConst
   Cz4) - EVar vMuSUSY * (- #4 * (#91963 + #162 * EVar vlmMst1 - #162 * EVar vlmMst2) * EVar vMuSUSY * EConst Cz3 +
   #13723 * EVar vMuSUSY * EConst Cz4 + #3 * EVar vMst2 * EVar vTbeta * (#5908 * EConst Cz3 + #2477 * EConst Cz4)) *
   EPow P2 (EVar vMst2) + #1215 * EVar vxDmsqst2 * EConst Cz3 * EPow P2 (EVar vDmsqst2) * (- #1 + EPow P2 (EVar
   vSbeta)) * EPow P2 (EVar vSbeta)) + #8 * EVar vMuSUSY * (#2253 * EVar vMuSUSY * EConst Cz3 - #107072 * EVar vMst2 *
   EVar vTbeta * EConst Cz3 + #3093 * EVar vMuSUSY * EConst Cz4 + #3326 * EVar vMst2 * EVar vTbeta * EConst Cz4) *
   EPow P3 (EVar vMt) + EPow P3 (EVar vs2t) * (- #2080 * EVar vDmsqst2 * EVar vMuSUSY * EVar vTbeta * (#7 * EConst Cz3
   - EConst Cz4) * EPow P2 (EVar vMst2) - #20 * EVar vxDmsqst2 * EPow P2 (EVar vDmsqst2) * (EVar vMuSUSY * EVar vTbeta
   * (- #1517 * EConst Cz3 + #47 * EConst Cz4) + #405 * EVar vMst2 * EConst Cz3 * (- #1 + EPow P2 (EVar vSbeta)) *
   EPow P2 (EVar vSbeta)) + #7 * EVar vMuSUSY * EVar vTbeta * (- #21934 * EConst Cz3 + #985 * EConst Cz4) * EPow P4
   (EVar vMst2))) - #3 * EVar vMuSUSY * EPow P2 (EVar vMst1) * (#640 * EVar vMt * EVar vs2t * EVar vxDmsqst2 * (EVar
   vMuSUSY * EVar vs2t * (#472 * EConst Cz3 - #7 * EConst Cz4) + #4 * EVar vMt * EVar vTbeta * (#7 * EConst Cz3 -
   EConst Cz4)) * EPow P2 (EVar vDmsqst2) + #17280 * EVar vDmsqst2 * EVar vMst2 * EVar vMt * EConst Cz3 * (- #28 *
   EVar vMt * EVar vMuSUSY * EVar vs2t + #16 * EVar vTbeta * EPow P2 (EVar vMt) + #3 * EVar vDmsqst2 * EVar vTbeta *
   EVar vxDmsqst2 * EPow P2 (EVar vs2t)) + #64 * EVar vMt * (- (EVar vMt * EVar vMuSUSY * EVar vs2t * (#14636 * EConst
   Cz3 + #1135 * EConst Cz4)) + #2 * EVar vTbeta * (#8219 * EConst Cz3 - #326 * EConst Cz4) * EPow P2 (EVar vMt) +
   #3240 * EVar vDmsqst2 * EVar vTbeta * EConst Cz3 * EPow P2 (EVar vs2t)) * EPow P3 (EVar vMst2) - EPow P2 (EVar
   vMst2) * (#960 * EVar vDmsqst2 * EVar vs2t * EVar vTbeta * (#101 * EConst Cz3 - #5 * EConst Cz4) * EPow P2 (EVar
   vMt) + #480 * EVar vDmsqst2 * EVar vMt * EVar vMuSUSY * (#35 * EConst Cz3 - #26 * EConst Cz4) * EPow P2 (EVar vs2t)
   + #1152 * EVar vMuSUSY * (#109 * EConst Cz3 + #25 * EConst Cz4) * EPow P3 (EVar vMt) + #5 * EVar vTbeta * EVar
   vxDmsqst2 * (#16999 * EConst Cz3 - #352 * EConst Cz4) * EPow P2 (EVar vDmsqst2) * EPow P3 (EVar vs2t)) + #16 * EVar
   vs2t * (#2 * EVar vMt * EVar vMuSUSY * EVar vs2t * ((- #35719 - #108 * EVar vlmMst1 + #108 * EVar vlmMst2) * EConst
   Cz3 + #1138 * EConst Cz4) + EVar vTbeta * (#1859 * EConst Cz3 + #1735 * EConst Cz4) * EPow P2 (EVar vMt) + #60 *
   EVar vDmsqst2 * EVar vTbeta * (#26 * EConst Cz3 - #5 * EConst Cz4) * EPow P2 (EVar vs2t)) * EPow P4 (EVar vMst2) +
   #24 * EVar vMt * EVar vTbeta * (#11377 * EConst Cz3 + #1505 * EConst Cz4) * EPow P2 (EVar vs2t) * EPow P5 (EVar
   vMst2) + #32 * EVar vTbeta * ((#11924 + #27 * EVar vlmMst1 - #27 * EVar vlmMst2) * EConst Cz3 - #479 * EConst Cz4)
   * EPow P3 (EVar vs2t) * EPow P6 (EVar vMst2)) - #9 * EVar vMst2 * EVar vMuSUSY * (#10 * EVar vMst2 * EVar vMt *
   EVar vs2t * EVar vxDmsqst2 * (#4403 * EVar vMuSUSY * EVar vs2t * EConst Cz3 + #602 * EVar vMt * EVar vTbeta *
   EConst Cz3 - #32 * EVar vMuSUSY * EVar vs2t * EConst Cz4 - #32 * EVar vMt * EVar vTbeta * EConst Cz4) * EPow P2
   (EVar vDmsqst2) + #11520 * (- (EVar vMuSUSY * EVar vs2t) + #2 * EVar vMt * EVar vTbeta) * EVar vxDmsqst2 * EConst
   Cz3 * EPow P2 (EVar vDmsqst2) * EPow P2 (EVar vMt) + #2880 * EVar vDmsqst2 * EVar vMt * EConst Cz3 * EPow P2 (EVar
   vMst2) * (- #24 * EVar vMt * EVar vMuSUSY * EVar vs2t + #16 * EVar vTbeta * EPow P2 (EVar vMt) + #3 * EVar vDmsqst2
   * EVar vTbeta * EVar vxDmsqst2 * EPow P2 (EVar vs2t)) + EPow P3 (EVar vMst2) * (- #960 * EVar vDmsqst2 * EVar vs2t
   * EVar vTbeta * (#29 * EConst Cz3 - EConst Cz4) * EPow P2 (EVar vMt) + #480 * EVar vDmsqst2 * EVar vMt * EVar
   vMuSUSY * (#23 * EConst Cz3 + #2 * EConst Cz4) * EPow P2 (EVar vs2t) - #128 * EVar vMuSUSY * (#230 * EConst Cz3 +
   #27 * EConst Cz4) * EPow P3 (EVar vMt) + #5 * EVar vTbeta * EVar vxDmsqst2 * (- #4403 * EConst Cz3 + #32 * EConst
   Cz4) * EPow P2 (EVar vDmsqst2) * EPow P3 (EVar vs2t)) + #32 * EVar vMt * (- #5 * EVar vMt * EVar vMuSUSY * EVar
   vs2t * (#1193 * EConst Cz3 + #51 * EConst Cz4) + #3 * EVar vTbeta * (#961 * EConst Cz3 - #103 * EConst Cz4) * EPow
   P2 (EVar vMt) + #1620 * EVar vDmsqst2 * EVar vTbeta * EConst Cz3 * EPow P2 (EVar vs2t)) * EPow P4 (EVar vMst2) -
   #48 * EVar vs2t * (#2 * EVar vMt * EVar vMuSUSY * EVar vs2t * ((#1319 + #6 * EVar vlmMst1 - #6 * EVar vlmMst2) *
   EConst Cz3 - #20 * EConst Cz4) + EVar vTbeta * (#3 * (- #77 + #8 * EVar vlmMst1 - #8 * EVar vlmMst2) * EConst Cz3 -
   #101 * EConst Cz4) * EPow P2 (EVar vMt) + #5 * EVar vDmsqst2 * EVar vTbeta * (#23 * EConst Cz3 + #2 * EConst Cz4) *
   EPow P2 (EVar vs2t)) * EPow P5 (EVar vMst2) + #120 * EVar vMt * EVar vTbeta * (#1193 * EConst Cz3 + #51 * EConst
   Cz4) * EPow P2 (EVar vs2t) * EPow P6 (EVar vMst2) + #48 * EVar vTbeta * ((#1319 + #6 * EVar vlmMst1 - #6 * EVar
   vlmMst2) * EConst Cz3 - #20 * EConst Cz4) * EPow P3 (EVar vs2t) * EPow P7 (EVar vMst2))) + #6 * EVar vMuSUSY * (-
   #2 * EPow P2 (EConst Cz2) * (EVar vDmglst2 * EVar vMst2 * (EVar vDmglst2 * EVar vxDmglst2 * (#2 * (#4 * EVar vs2t *
   (#86405 * EVar vMuSUSY - #16542 * EVar vMst2 * EVar vTbeta) * EPow P2 (EVar vMt) - EVar vMst2 * EVar vMt * (#42392
   * EVar vMuSUSY + #105585 * EVar vMst2 * EVar vTbeta) * EPow P2 (EVar vs2t) + #129704 * EVar vTbeta * EPow P3 (EVar
   vMt) + #12664 * EVar vTbeta * EPow P3 (EVar vMst2) * EPow P3 (EVar vs2t)) * EPow P4 (EVar vMst1) - #9 * ((- #41444
   * EVar vMuSUSY * EVar vs2t + #504 * EVar vMst2 * EVar vs2t * EVar vTbeta) * EPow P2 (EVar vMt) + EVar vMst2 * EVar
   vMt * (#2732 * EVar vMuSUSY + #31083 * EVar vMst2 * EVar vTbeta) * EPow P2 (EVar vs2t) + #28 * EVar vTbeta * EPow
   P3 (EVar vMt) - #1366 * EVar vTbeta * EPow P3 (EVar vMst2) * EPow P3 (EVar vs2t)) * EPow P4 (EVar vMst2) + #3 *
   EVar vMst2 * EPow P2 (EVar vMst1) * (#8 * EVar vMst2 * EVar vs2t * (#29549 * EVar vMuSUSY - #1980 * EVar vMst2 *
   EVar vTbeta) * EPow P2 (EVar vMt) - #13 * EVar vMt * (#712 * EVar vMuSUSY + #6465 * EVar vMst2 * EVar vTbeta) *
   EPow P2 (EVar vMst2) * EPow P2 (EVar vs2t) + #16 * (#105 * EVar vMuSUSY - #1082 * EVar vMst2 * EVar vTbeta) * EPow
   P3 (EVar vMt) + #530 * EVar vTbeta * EPow P3 (EVar vs2t) * EPow P4 (EVar vMst2))) + EVar vMgl * (#2 * (#4 * EVar
   vs2t * (#86405 * EVar vMuSUSY - #16542 * EVar vMst2 * EVar vTbeta) * EPow P2 (EVar vMt) - EVar vMst2 * EVar vMt *
   (#42392 * EVar vMuSUSY + #105585 * EVar vMst2 * EVar vTbeta) * EPow P2 (EVar vs2t) + #129704 * EVar vTbeta * EPow
   P3 (EVar vMt) + #12664 * EVar vTbeta * EPow P3 (EVar vMst2) * EPow P3 (EVar vs2t)) * EPow P4 (EVar vMst1) + #27 *
   (#7052 * EVar vMuSUSY * EVar vs2t * EPow P2 (EVar vMt) - EVar vMst2 * EVar vMt * (#632 * EVar vMuSUSY + #5289 *
   EVar vMst2 * EVar vTbeta) * EPow P2 (EVar vs2t) + #140 * EVar vTbeta * EPow P3 (EVar vMt) + #316 * EVar vTbeta *
   EPow P3 (EVar vMst2) * EPow P3 (EVar vs2t)) * EPow P4 (EVar vMst2) + #9 * EVar vMst2 * EPow P2 (EVar vMst1) * (#80
   * EVar vMst2 * EVar vs2t * (#569 * EVar vMuSUSY - #30 * EVar vMst2 * EVar vTbeta) * EPow P2 (EVar vMt) - #3 * EVar
   vMt * (#1264 * EVar vMuSUSY + #6091 * EVar vMst2 * EVar vTbeta) * EPow P2 (EVar vMst2) * EPow P2 (EVar vs2t) + #96
   * (#7 * EVar vMuSUSY + #62 * EVar vMst2 * EVar vTbeta) * EPow P3 (EVar vMt) + #948 * EVar vTbeta * EPow P3 (EVar
   vs2t) * EPow P4 (EVar vMst2)))) - #3 * EPow P2 (EVar vMgl) * (EPow P4 (EVar vMst1) * (- #4 * EVar vs2t * (#13670 *
   EVar vMst2 * EVar vMuSUSY + #530 * EVar vDmsqst2 * EVar vTbeta + #6031 * EVar vTbeta * EPow P2 (EVar vMst2)) * EPow
   P2 (EVar vMt) - #2 * EVar vMt * (#4420 * EVar vDmsqst2 * EVar vMuSUSY + (#11941 * EVar vMuSUSY - #6177 * EVar vMst2
   * EVar vTbeta) * EPow P2 (EVar vMst2)) * EPow P2 (EVar vs2t) + #40 * (#327 * EVar vMuSUSY + #406 * EVar vMst2 *
   EVar vTbeta) * EPow P3 (EVar vMt) + #5 * EVar vTbeta * EPow P3 (EVar vs2t) * (- #188 * EVar vxDmsqst2 * EPow P2
   (EVar vDmsqst2) + #416 * EVar vDmsqst2 * EPow P2 (EVar vMst2) + #1379 * EPow P4 (EVar vMst2))) + #9 * EPow P2 (EVar
   vMst2) * (#12 * (- #185 * EVar vMuSUSY * EVar vs2t + #7 * EVar vMt * EVar vTbeta) * EPow P2 (EVar vMt) * EPow P3
   (EVar vMst2) + EVar vs2t * (#40 * EVar vMt * (EVar vMuSUSY * EVar vs2t + EVar vMt * EVar vTbeta) * EVar vxDmsqst2 *
   EPow P2 (EVar vDmsqst2) - #20 * EVar vDmsqst2 * EPow P2 (EVar vMst2) * (#6 * EVar vMt * EVar vMuSUSY * EVar vs2t +
   #6 * EVar vTbeta * EPow P2 (EVar vMt) + EVar vDmsqst2 * EVar vTbeta * EVar vxDmsqst2 * EPow P2 (EVar vs2t)) + #6 *
   (#2 * EVar vMt * EVar vMuSUSY * EVar vs2t - #53 * EVar vTbeta * EPow P2 (EVar vMt) + #10 * EVar vDmsqst2 * EVar
   vTbeta * EPow P2 (EVar vs2t)) * EPow P4 (EVar vMst2)) + #3 * (#555 * EVar vMt - #2 * EVar vMst2 * EVar vs2t) * EVar
   vTbeta * EPow P2 (EVar vs2t) * EPow P5 (EVar vMst2)) + #3 * EPow P2 (EVar vMst1) * (#80 * EVar vMt * EVar vs2t *
   (#7 * EVar vMuSUSY * EVar vs2t + #4 * EVar vMt * EVar vTbeta) * EVar vxDmsqst2 * EPow P2 (EVar vDmsqst2) + #32 * (-
   #398 * EVar vMuSUSY * EVar vs2t + #55 * EVar vMt * EVar vTbeta) * EPow P2 (EVar vMt) * EPow P3 (EVar vMst2) + #4 *
   EPow P2 (EVar vMst2) * (- #150 * EVar vDmsqst2 * EVar vs2t * EVar vTbeta * EPow P2 (EVar vMt) - #390 * EVar
   vDmsqst2 * EVar vMt * EVar vMuSUSY * EPow P2 (EVar vs2t) + #252 * EVar vMuSUSY * EPow P3 (EVar vMt) - #55 * EVar
   vTbeta * EVar vxDmsqst2 * EPow P2 (EVar vDmsqst2) * EPow P3 (EVar vs2t)) + EVar vs2t * (- #3364 * EVar vMt * EVar
   vMuSUSY * EVar vs2t - #3470 * EVar vTbeta * EPow P2 (EVar vMt) + #600 * EVar vDmsqst2 * EVar vTbeta * EPow P2 (EVar
   vs2t)) * EPow P4 (EVar vMst2) + (#4557 * EVar vMt + #1700 * EVar vMst2 * EVar vs2t) * EVar vTbeta * EPow P2 (EVar
   vs2t) * EPow P5 (EVar vMst2)))) + #3 * EVar vMgl * EVar vxDR2DRMOD * (EVar vTbeta * (EPow P2 (EVar vMst1) * (#512 *
   EVar vMst2 * EPow P3 (EVar vMt) * (#9 * (#1 + EVar vlmMst2) * EVar vMgl * ((#3 - #21 * EVar vlmMst2 + #2 * EVar
   vlmMst1 * (#8 + #3 * EVar vlmMst2 - #3 * EVar vlmMt) + #5 * EVar vlmMt + #6 * EVar vlmMst2 * EVar vlmMt - #6 * EPow
   P2 (EVar vlmMst2)) * EPow P2 (EVar vMst2) * EPow P4 (EVar vMst1) + (- #1 - #7 * EVar vlmMst2 + #2 * EVar vlmMst1 *
   (#2 + EVar vlmMst2 - EVar vlmMt) + #3 * EVar vlmMt + #2 * EVar vlmMst2 * EVar vlmMt - #2 * EPow P2 (EVar vlmMst2))
   * EPow P2 (EVar vMst1) * EPow P4 (EVar vMst2) + (#12 - #45 * EVar vlmMst2 + #2 * EVar vlmMst1 * (#19 + #6 * EVar
   vlmMst2 - #6 * EVar vlmMt) + #7 * EVar vlmMt + #12 * EVar vlmMst2 * EVar vlmMt - #12 * EPow P2 (EVar vlmMst2)) *
   EPow P6 (EVar vMst1) - #2 * (#1 + EVar vlmMst2) * EPow P6 (EVar vMst2)) + EVar vDmglst2 * (EPow P2 (EVar vMst2) *
   (#263 + EVar vlmMst2 * (#962 - #213 * EVar vlmMt) - #177 * EVar vlmMt + (#393 - #18 * EVar vlmMt) * EPow P2 (EVar
   vlmMst2) - #18 * EVar vlmMst1 * (#26 - EVar vlmMst2 * (- #17 + EVar vlmMt) - #7 * EVar vlmMt + EPow P2 (EVar
   vlmMst2)) + #18 * EPow P3 (EVar vlmMst2)) * EPow P4 (EVar vMst1) - EPow P2 (EVar vMst1) * (#17 * (- #7 + #3 * EVar
   vlmMt) + EVar vlmMst2 * (- #224 + #15 * EVar vlmMt) - #3 * (#5 + #6 * EVar vlmMt) * EPow P2 (EVar vlmMst2) - #18 *
   EVar vlmMst1 * (- #4 + EVar vlmMt - EVar vlmMst2 * (#1 + EVar vlmMt) + EPow P2 (EVar vlmMst2)) + #18 * EPow P3
   (EVar vlmMst2)) * EPow P4 (EVar vMst2) + (#290 + EVar vlmMst2 * (#2447 - #645 * EVar vlmMt) - #375 * EVar vlmMt -
   #3 * (- #509 + #60 * EVar vlmMt) * EPow P2 (EVar vlmMst2) - #18 * EVar vlmMst1 * (#87 + EVar vlmMst2 * (#71 - #10 *
   EVar vlmMt) - #22 * EVar vlmMt + #10 * EPow P2 (EVar vlmMst2)) + #180 * EPow P3 (EVar vlmMst2)) * EPow P6 (EVar
   vMst1) - #18 * (- #1 + #2 * EVar vlmMst2 + #3 * EPow P2 (EVar vlmMst2)) * EPow P6 (EVar vMst2))) - #3456 * EVar vMt
   * EPow P2 (EVar vs2t) * EPow P3 (EVar vMst2) * ((#1 + EVar vlmMst2) * EVar vMgl * (#2 * (#2 - #5 * EVar vlmMst2 +
   EVar vlmMst1 * (#5 + #2 * EVar vlmMst2) - #2 * EPow P2 (EVar vlmMst2)) * EPow P2 (EVar vMst2) * EPow P4 (EVar
   vMst1) + #2 * (- #2 * EVar vlmMst2 * (#2 + EVar vlmMst2) + EVar vlmMst1 * (#3 + #2 * EVar vlmMst2)) * EPow P2 (EVar
   vMst1) * EPow P4 (EVar vMst2) + (#5 - #12 * EVar vlmMst2 + #4 * EVar vlmMst1 * (#3 + EVar vlmMst2) - #4 * EPow P2
   (EVar vlmMst2)) * EPow P6 (EVar vMst1) - #2 * (#1 + EVar vlmMst2) * EPow P6 (EVar vMst2)) + EVar vDmglst2 * (#2 *
   EPow P2 (EVar vMst2) * (#8 + #19 * EVar vlmMst2 - #5 * EPow P2 (EVar vlmMst2) + EVar vlmMst1 * (- #7 + #5 * EVar
   vlmMst2 + #6 * EPow P2 (EVar vlmMst2)) - #6 * EPow P3 (EVar vlmMst2)) * EPow P4 (EVar vMst1) + #2 * EPow P2 (EVar
   vMst1) * (#7 + #9 * EVar vlmMst2 - #8 * EPow P2 (EVar vlmMst2) + EVar vlmMst1 * (- #3 + #5 * EVar vlmMst2 + #6 *
   EPow P2 (EVar vlmMst2)) - #6 * EPow P3 (EVar vlmMst2)) * EPow P4 (EVar vMst2) + (#17 + #51 * EVar vlmMst2 - #4 *
   EPow P2 (EVar vlmMst2) + #4 * EVar vlmMst1 * (- #6 + EVar vlmMst2 + #3 * EPow P2 (EVar vlmMst2)) - #12 * EPow P3
   (EVar vlmMst2)) * EPow P6 (EVar vMst1) - #2 * (- #1 + #2 * EVar vlmMst2 + #3 * EPow P2 (EVar vlmMst2)) * EPow P6
   (EVar vMst2)))) - #9 * EPow P3 (EVar vs2t) * (EPow P2 (EVar vMst1) * (#45 * (#2 * (EVar vlmMst1 - EVar vlmMst2) *
   EVar vMgl * EPow P2 (EVar vMst1) - (#2 * EVar vDmglst2 + EVar vMgl) * EPow P2 (EVar vMst2)) * EPow P4 (EVar
   vDmsqst2) - #60 * EVar vDmsqst2 * (#2 * EVar vDmglst2 - #5 * EVar vMgl) * (#2 * (EVar vlmMst1 - EVar vlmMst2) *
   EPow P2 (EVar vMst1) * EPow P2 (EVar vMst2) + EPow P4 (EVar vMst1) - EPow P4 (EVar vMst2)) * EPow P4 (EVar vMst2))
   - #4 * EPow P4 (EVar vMst2) * (#2 * EVar vDmglst2 * (#4 * EPow P2 (EVar vMst1) * EPow P2 (EVar vMst2) * (#20 * EPow
   P2 (EVar vMst1) * EPow P2 (EVar vMst2) + #9 * EPow P4 (EVar vMst1) - #5 * EPow P4 (EVar vMst2)) - #2 * EVar vlmMst1
   * (- #4 + #246 * EVar vlmMst2 + #123 * EPow P2 (EVar vlmMst2)) * EPow P4 (EVar vMst1) * EPow P4 (EVar vMst2) + #214
   * EPow P3 (EVar vlmMst2) * EPow P4 (EVar vMst1) * EPow P4 (EVar vMst2) + #32 * EVar vlmMst2 * EPow P2 (EVar
   vlmMst1) * EPow P4 (EVar vMst1) * (#8 * EPow P2 (EVar vMst1) * EPow P2 (EVar vMst2) + #8 * EPow P4 (EVar vMst1) +
   EPow P4 (EVar vMst2)) + #256 * (EPow P2 (EVar vMst1) + EPow P2 (EVar vMst2)) * EPow P3 (EVar vlmMst2) * EPow P6
   (EVar vMst1) + #32 * EVar vlmMst1 * EVar vlmMst2 * EPow P2 (EVar vMst1) * EPow P6 (EVar vMst2) - #32 * EVar vlmMst1
   * ((#3 + #3 * EVar vlmMst2 + #16 * EPow P2 (EVar vlmMst2)) * EPow P2 (EVar vMst2) * EPow P6 (EVar vMst1) + (#3 + #2
   * EVar vlmMst2 + #16 * EPow P2 (EVar vlmMst2)) * EPow P8 (EVar vMst1)) + EPow P2 (EVar vlmMst2) * (#396 * EPow P4
   (EVar vMst1) * EPow P4 (EVar vMst2) + #37 * EPow P2 (EVar vMst2) * EPow P6 (EVar vMst1) + #155 * EPow P2 (EVar
   vMst1) * EPow P6 (EVar vMst2) + #64 * EPow P8 (EVar vMst1) - #32 * EPow P8 (EVar vMst2)) + #2 * EVar vlmMst2 * (#4
   * EPow P4 (EVar vMst1) * EPow P4 (EVar vMst2) + #21 * EPow P2 (EVar vMst2) * EPow P6 (EVar vMst1) + #115 * EPow P2
   (EVar vMst1) * EPow P6 (EVar vMst2) + #56 * EPow P8 (EVar vMst1) - #16 * EPow P8 (EVar vMst2))) + EVar vMgl * (- #2
   * (#8 - #237 * EVar vlmMst2 - #16 * (#1 + EVar vlmMst2) * EPow P2 (EVar vlmMst1) - #308 * EPow P2 (EVar vlmMst2) +
   EVar vlmMst1 * (#269 + #348 * EVar vlmMst2 + #123 * EPow P2 (EVar vlmMst2)) - #107 * EPow P3 (EVar vlmMst2)) * EPow
   P4 (EVar vMst1) * EPow P4 (EVar vMst2) - EPow P2 (EVar vMst2) * (#125 + EVar vlmMst2 * (#156 + #512 * EVar vlmMst1
   * (#1 + EVar vlmMst2)) - #181 * EPow P2 (EVar vlmMst2) - #256 * ((#1 + EVar vlmMst2) * EPow P2 (EVar vlmMst1) +
   EPow P3 (EVar vlmMst2))) * EPow P6 (EVar vMst1) + (#221 + #284 * EVar vlmMst2 + #32 * EVar vlmMst1 * (#1 + EVar
   vlmMst2) + #107 * EPow P2 (EVar vlmMst2)) * EPow P2 (EVar vMst1) * EPow P6 (EVar vMst2) + #16 * (#1 + EVar vlmMst2)
   * (#1 + EVar vlmMst1 * (#2 - #32 * EVar vlmMst2) - #2 * EVar vlmMst2 + #16 * (EPow P2 (EVar vlmMst1) + EPow P2
   (EVar vlmMst2))) * EPow P8 (EVar vMst1) - #16 * EPow P2 (#1 + EVar vlmMst2) * EPow P8 (EVar vMst2)))) + EVar vs2t *
   (#4860 * EVar vMgl * EVar vshiftst1 * EPow P2 (EVar vMst1) * (EVar vDmsqst2 + EPow P2 (EVar vMst2)) * (- #4 * EPow
   P2 (EVar vMst1) * EPow P2 (EVar vMt) + #4 * EPow P2 (EVar vMst2) * EPow P2 (EVar vMt) + #2 * (EVar vlmMst1 - EVar
   vlmMst2) * EPow P2 (EVar vMst1) * EPow P2 (EVar vMst2) * EPow P2 (EVar vs2t) + EPow P2 (EVar vs2t) * (EPow P4 (EVar
   vMst1) - EPow P4 (EVar vMst2))) * EPow P4 (EVar vMst2) - #12 * EPow P2 (EVar vMt) * (#45 * EVar vDmsqst2 * EPow P2
   (EVar vMst1) * (#3 * EVar vMgl * EPow P3 (EVar vDmsqst2) + #4 * (#2 * EVar vDmglst2 - #5 * EVar vMgl) * (EPow P2
   (EVar vMst1) - EPow P2 (EVar vMst2)) * EPow P4 (EVar vMst2)) - #4 * EPow P2 (EVar vMst2) * (#2 * EVar vDmglst2 *
   ((#52 + #370 * EVar vlmMst2 - #96 * EVar vlmMst2 * EPow P2 (EVar vlmMst1) + #81 * EPow P2 (EVar vlmMst2) + #96 *
   EVar vlmMst1 * (- #1 + EVar vlmMst2 + #2 * EPow P2 (EVar vlmMst2)) - #96 * EPow P3 (EVar vlmMst2)) * EPow P4 (EVar
   vMst1) * EPow P4 (EVar vMst2) - #96 * (EVar vlmMst2 * EPow P2 (EVar vlmMst1) + EVar vlmMst1 * (#4 + #2 * EVar
   vlmMst2 - #2 * EPow P2 (EVar vlmMst2)) + (- #4 + EVar vlmMst2) * EPow P2 (#1 + EVar vlmMst2)) * EPow P2 (EVar
   vMst2) * EPow P6 (EVar vMst1) - #3 * (- #52 + #2 * (#51 + #16 * EVar vlmMst1) * EVar vlmMst2 + #59 * EPow P2 (EVar
   vlmMst2)) * EPow P2 (EVar vMst1) * EPow P6 (EVar vMst2) - #96 * (- #6 - #14 * EVar vlmMst2 + EVar vlmMst2 * EPow P2
   (EVar vlmMst1) + EVar vlmMst1 * (#9 + #6 * EVar vlmMst2 - #2 * EPow P2 (EVar vlmMst2)) - #6 * EPow P2 (EVar
   vlmMst2) + EPow P3 (EVar vlmMst2)) * EPow P8 (EVar vMst1) + #96 * EVar vlmMst2 * (#1 + EVar vlmMst2) * EPow P8
   (EVar vMst2)) - #3 * EVar vMgl * (- ((#109 + #76 * EVar vlmMst2 - #21 * EPow P2 (EVar vlmMst2) + #64 * EVar vlmMst1
   * EPow P2 (#1 + EVar vlmMst2) - #32 * ((#1 + EVar vlmMst2) * EPow P2 (EVar vlmMst1) + EPow P3 (EVar vlmMst2))) *
   EPow P4 (EVar vMst1) * EPow P4 (EVar vMst2)) + (#173 + #188 * EVar vlmMst2 + #32 * EVar vlmMst1 * (#1 + EVar
   vlmMst2) + #59 * EPow P2 (EVar vlmMst2)) * EPow P2 (EVar vMst1) * EPow P6 (EVar vMst2) + #32 * (#1 + EVar vlmMst2)
   * (EPow P2 (#1 - EVar vlmMst1 + EVar vlmMst2) * EPow P2 (EVar vMst2) * EPow P6 (EVar vMst1) + (#1 + #3 * EVar
   vlmMst2 - EVar vlmMst1 * (#3 + #2 * EVar vlmMst2) + EPow P2 (EVar vlmMst1) + EPow P2 (EVar vlmMst2)) * EPow P8
   (EVar vMst1)) - #16 * EPow P2 (#1 + EVar vlmMst2) * EPow P8 (EVar vMst2)))))) + #18 * EVar vMt * EVar vMuSUSY *
   EVar vs2t * (#8 * EVar vDmglst2 * EVar vMst2 * ((#15 * EVar vDmsqst2 * (#1 - #2 * EVar vlmMst1 + #2 * EVar vlmMst2)
   * EVar vs2t + #64 * EVar vMst2 * EVar vMt * (#8 + #7 * EVar vlmMst2 - #11 * EPow P2 (EVar vlmMst2) + EVar vlmMst1 *
   (- #3 + #5 * EVar vlmMst2 + #6 * EPow P2 (EVar vlmMst2)) - #6 * EPow P3 (EVar vlmMst2)) - EVar vs2t * EPow P2 (EVar
   vMst2) * (#60 + #206 * EVar vlmMst2 + #32 * EVar vlmMst2 * EPow P2 (EVar vlmMst1) + EVar vlmMst1 * (#8 - #460 *
   EVar vlmMst2 - #246 * EPow P2 (EVar vlmMst2)) + #519 * EPow P2 (EVar vlmMst2) + #214 * EPow P3 (EVar vlmMst2))) *
   EPow P3 (EVar vMst2) * EPow P4 (EVar vMst1) + EPow P2 (EVar vMst1) * (#15 * EVar vDmsqst2 * EVar vs2t - #64 * EVar
   vMst2 * EVar vMt * (- #1 + #2 * EVar vlmMst2 + #3 * EPow P2 (EVar vlmMst2)) - EVar vs2t * (- #20 + #2 * (#99 + #16
   * EVar vlmMst1) * EVar vlmMst2 + #123 * EPow P2 (EVar vlmMst2)) * EPow P2 (EVar vMst2)) * EPow P5 (EVar vMst2) + #2
   * (EVar vMst2 * (#15 * EVar vDmsqst2 * (- EVar vlmMst1 + EVar vlmMst2) * EVar vs2t + #64 * EVar vMst2 * EVar vMt *
   (#8 + #13 * EVar vlmMst2 - #8 * EPow P2 (EVar vlmMst2) + EVar vlmMst1 * (- #5 + #5 * EVar vlmMst2 + #6 * EPow P2
   (EVar vlmMst2)) - #6 * EPow P3 (EVar vlmMst2)) - EVar vs2t * EPow P2 (EVar vMst2) * (#48 + #124 * EVar vlmMst2 +
   #144 * EVar vlmMst2 * EPow P2 (EVar vlmMst1) + #278 * EPow P2 (EVar vlmMst2) - EVar vlmMst1 * (#44 + #278 * EVar
   vlmMst2 + #379 * EPow P2 (EVar vlmMst2)) + #235 * EPow P3 (EVar vlmMst2))) * EPow P6 (EVar vMst1) + (#16 * EVar vMt
   * (#49 + #103 * EVar vlmMst2 - #36 * (#1 + EVar vlmMst2) * EPow P2 (EVar vlmMst2) + #4 * EVar vlmMst1 * (- #11 + #6
   * EVar vlmMst2 + #9 * EPow P2 (EVar vlmMst2))) - EVar vMst2 * EVar vs2t * (#48 + #4 * EVar vlmMst2 * (#45 + #68 *
   EPow P2 (EVar vlmMst1)) + #310 * EPow P2 (EVar vlmMst2) - EVar vlmMst1 * (#92 + #310 * EVar vlmMst2 + #635 * EPow
   P2 (EVar vlmMst2)) + #363 * EPow P3 (EVar vlmMst2))) * EPow P8 (EVar vMst1)) + #32 * EVar vlmMst2 * (#1 + EVar
   vlmMst2) * EVar vs2t * EPow P9 (EVar vMst2)) + EVar vMgl * (- #4 * (#128 * (#1 + EVar vlmMst2) * EVar vMst2 * EVar
   vMt * (#1 + #5 * EVar vlmMst2 - EVar vlmMst1 * (#3 + #2 * EVar vlmMst2) + #2 * EPow P2 (EVar vlmMst2)) + EVar vs2t
   * (#15 * EVar vDmsqst2 * (#1 - #2 * EVar vlmMst1 + #2 * EVar vlmMst2) * (#5 - #9 * EVar vshiftst1) + EPow P2 (EVar
   vMst2) * (#189 + #726 * EVar vlmMst2 - #135 * (#1 + #2 * EVar vlmMst2) * EVar vshiftst1 + #32 * (#1 + EVar vlmMst2)
   * EPow P2 (EVar vlmMst1) + #707 * EPow P2 (EVar vlmMst2) - #2 * EVar vlmMst1 * (#253 + #332 * EVar vlmMst2 - #135 *
   EVar vshiftst1 + #123 * EPow P2 (EVar vlmMst2)) + #214 * EPow P3 (EVar vlmMst2)))) * EPow P4 (EVar vMst1) * EPow P4
   (EVar vMst2) + #8 * (EPow P2 (EVar vMst2) * (#64 * (#1 + EVar vlmMst2) * EVar vMst2 * EVar vMt * (#1 - #10 * EVar
   vlmMst2 + #4 * EVar vlmMst1 * (#2 + EVar vlmMst2) - #4 * EPow P2 (EVar vlmMst2)) + EVar vs2t * (#15 * EVar vDmsqst2
   * (EVar vlmMst1 - EVar vlmMst2) * (#5 - #9 * EVar vshiftst1) - EPow P2 (EVar vMst2) * (#32 + #15 * EVar vlmMst2 *
   (#19 - #9 * EVar vshiftst1) + #144 * (#1 + EVar vlmMst2) * EPow P2 (EVar vlmMst1) + #444 * EPow P2 (EVar vlmMst2) -
   EVar vlmMst1 * (#253 + #588 * EVar vlmMst2 - #135 * EVar vshiftst1 + #379 * EPow P2 (EVar vlmMst2)) + #235 * EPow
   P3 (EVar vlmMst2)))) * EPow P6 (EVar vMst1) + (- #15 * EVar vDmsqst2 * (EVar vlmMst1 - EVar vlmMst2) * EVar vs2t *
   (- #5 + #9 * EVar vshiftst1) + #32 * (#1 + EVar vlmMst2) * EVar vMst2 * EVar vMt * (#7 - #32 * EVar vlmMst2 + #4 *
   EVar vlmMst1 * (#7 + #3 * EVar vlmMst2) - #12 * EPow P2 (EVar vlmMst2)) - EVar vs2t * EPow P2 (EVar vMst2) * (#40 +
   #277 * EVar vlmMst2 - #135 * EVar vlmMst2 * EVar vshiftst1 + #272 * (#1 + EVar vlmMst2) * EPow P2 (EVar vlmMst1) +
   #556 * EPow P2 (EVar vlmMst2) - EVar vlmMst1 * (#237 + #828 * EVar vlmMst2 - #135 * EVar vshiftst1 + #635 * EPow P2
   (EVar vlmMst2)) + #363 * EPow P3 (EVar vlmMst2))) * EPow P8 (EVar vMst1)) - EPow P2 (EVar vMst1) * (#512 * EVar vMt
   * EPow P2 (#1 + EVar vlmMst2) * EPow P7 (EVar vMst2) + EVar vs2t * (#45 * EPow P4 (EVar vDmsqst2) + #60 * EVar
   vDmsqst2 * (#5 - #9 * EVar vshiftst1) * EPow P6 (EVar vMst2) + #4 * (#205 + #252 * EVar vlmMst2 + #32 * EVar
   vlmMst1 * (#1 + EVar vlmMst2) - #135 * EVar vshiftst1 + #91 * EPow P2 (EVar vlmMst2)) * EPow P8 (EVar vMst2))) +
   #64 * EVar vs2t * EPow P2 (#1 + EVar vlmMst2) * EPow P10 (EVar vMst2)))) / EPow P4 (EVar vMst1)) / EPow P2 (EVar
   vMgl)) / EPow P6 (EVar vMst2)) / EVar vTbeta) / #11664.

(** H6b2qg2.cpp:3614-3941 *)
Definition H6b2qg2_coef0 : expr :=
  (#55566000 * EPow P2 (EVar vMst2) * EPow P3 (ELog (EPow P2 (EVar vMst1) / EPow P2 (EVar vMst2))) * EPow P4 (EVar
   vMst1) * (- #4 * EVar vDmglst2 * EVar vMgl * (EPow P4 (EVar vMst1) * (- #2896 * EPow P2 (EVar vMst2) * EPow P2
   (EVar vMt) * EPow P2 (EVar vs2t) - #2016 * EVar vMst2 * EVar vs2t * EPow P3 (EVar vMt) - #672 * EVar vMt * EPow P3
   (EVar vMst2) * EPow P3 (EVar vs2t) + #7424 * EPow P4 (EVar vMt) - #33 * EPow P4 (EVar vMst2) * EPow P4 (EVar vs2t))
   - #2 * EPow P2 (EVar vMst1) * EPow P2 (EVar vMst2) * (#1156 * EPow P2 (EVar vMst2) * EPow P2 (EVar vMt) * EPow P2
   (EVar vs2t) + #384 * EVar vMst2 * EVar vs2t * EPow P3 (EVar vMt) + #390 * EVar vMt * EPow P3 (EVar vMst2) * EPow P3
   (EVar vs2t) - #2632 * EPow P4 (EVar vMt) + #29 * EPow P4 (EVar vMst2) * EPow P4 (EVar vs2t)) - #3 * EPow P4 (EVar
   vMst2) * (#256 * EPow P2 (EVar vMst2) * EPow P2 (EVar vMt) * EPow P2 (EVar vs2t) - #784 * EVar vMst2 * EVar vs2t *
   EPow P3 (EVar vMt) + #516 * EVar vMt * EPow P3 (EVar vMst2) * EPow P3 (EVar vs2t) - #512 * EPow P4 (EVar vMt) +
   #107 * EPow P4 (EVar vMst2) * EPow P4 (EVar vs2t))) + EPow P2 (EVar vDmglst2) * (#4 * EPow P4 (EVar vMst1) * (#2896
   * EPow P2 (EVar vMst2) * EPow P2 (EVar vMt) * EPow P2 (EVar vs2t) + #2016 * EVar vMst2 * EVar vs2t * EPow P3 (EVar
   vMt) + #672 * EVar vMt * EPow P3 (EVar vMst2) * EPow P3 (EVar vs2t) - #7424 * EPow P4 (EVar vMt) + #33 * EPow P4
   (EVar vMst2) * EPow P4 (EVar vs2t)) + #4 * EPow P2 (EVar vMst1) * EPow P2 (EVar vMst2) * (#3452 * EPow P2 (EVar
   vMst2) * EPow P2 (EVar vMt) * EPow P2 (EVar vs2t) - #768 * EVar vMst2 * EVar vs2t * EPow P3 (EVar vMt) + #780 *
   EVar vMt * EPow P3 (EVar vMst2) * EPow P3 (EVar vs2t) - #440 * EPow P4 (EVar vMt) + #97 * EPow P4 (EVar vMst2) *
   EPow P4 (EVar vs2t)) + #6 * EPow P4 (EVar vMst2) * (#768 * EPow P2 (EVar vMst2) * EPow P2 (EVar vMt) * EPow P2
   (EVar vs2t) - #1568 * EVar vMst2 * EVar vs2t * EPow P3 (EVar vMt) + #1800 * EVar vMt * EPow P3 (EVar vMst2) * EPow
   P3 (EVar vs2t) - #1536 * EPow P4 (EVar vMt) + #321 * EPow P4 (EVar vMst2) * EPow P4 (EVar vs2t))) + EPow P2 (EVar
   vMgl) * (#4 * EPow P2 (EVar vMst1) * EPow P2 (EVar vMst2) * (#1166 * EPow P2 (EVar vMst2) * EPow P2 (EVar vMt) *
   EPow P2 (EVar vs2t) - #2304 * EVar vMst2 * EVar vs2t * EPow P3 (EVar vMt) + #780 * EVar vMt * EPow P3 (EVar vMst2)
   * EPow P3 (EVar vs2t) - #440 * EPow P4 (EVar vMt) + #115 * EPow P4 (EVar vMst2) * EPow P4 (EVar vs2t)) + #3 * EPow
   P4 (EVar vMst2) * (#56 * EPow P2 (EVar vMst2) * EPow P2 (EVar vMt) * EPow P2 (EVar vs2t) - #3136 * EVar vMst2 *
   EVar vs2t * EPow P3 (EVar vMt) + #1040 * EVar vMt * EPow P3 (EVar vMst2) * EPow P3 (EVar vs2t) + #32 * EPow P4
   (EVar vMt) + #271 * EPow P4 (EVar vMst2) * EPow P4 (EVar vs2t)) + EPow P4 (EVar vMst1) * (#2696 * EPow P2 (EVar
   vMst2) * EPow P2 (EVar vMt) * EPow P2 (EVar vs2t) - #7808 * EVar vMst2 * EVar vs2t * EPow P3 (EVar vMt) + #3200 *
   EVar vMt * EPow P3 (EVar vMst2) * EPow P3 (EVar vs2t) - #6400 * EPow P4 (EVar vMt) + #409 * EPow P4 (EVar vMst2) *
   EPow P4 (EVar vs2t)))) + #30 * EPow P2 (EVar vDmsqst2) * EPow P2 (EVar vMgl) * EPow P2 (EVar vMst1) * (#166698000 *
   (- #2 + EConst Cz2) * EPow P2 (- #4 * EPow P2 (EVar vMt) + EPow P2 (EVar vMst2) * EPow P2 (EVar vs2t)) * EPow P4
   (EVar vMst2) - #385875 * EPow P2 (EVar vMst1) * EPow P2 (EVar vMst2) * (- #8 * EPow P2 (EVar vMst2) * EPow P2 (EVar
   vMt) * EPow P2 (EVar vs2t) * (- #160 + #64 * EConst COepS2 - #648 * EConst CS2 - #96 * EConst CT1ep - #2076 *
   EConst Cz2 + #903 * EConst Cz3 - #48 * EConst Cz4 - #72 * EPow P2 (EConst Cz2)) + #3456 * EVar vMst2 * EVar vs2t *
   (- #15 + #20 * EConst Cz2 - #16 * EConst Cz3) * EPow P3 (EVar vMt) + #6912 * EVar vMt * (- #3 + #3 * EConst Cz2 -
   EConst Cz3) * EPow P3 (EVar vMst2) * EPow P3 (EVar vs2t) + (#99040 - #89856 * EConst Cz2 + #32400 * EConst Cz3) *
   EPow P4 (EVar vMt) + (#2122 + #128 * EConst COepS2 - #55728 * EConst CS2 - #192 * EConst CT1ep - #4152 * EConst Cz2
   + #13209 * EConst Cz3 - #96 * EConst Cz4 - #144 * EPow P2 (EConst Cz2)) * EPow P4 (EVar vMst2) * EPow P4 (EVar
   vs2t)) + #2058 * EPow P4 (EVar vMst1) * (#4 * EPow P2 (EVar vMst2) * EPow P2 (EVar vMt) * EPow P2 (EVar vs2t) *
   (#487028 + #40000 * EConst COepS2 - #1917000 * EConst CS2 - #60000 * EConst CT1ep - #1081500 * EConst Cz2 - #2625 *
   EConst Cz3 - #30000 * EConst Cz4 - #45000 * EPow P2 (EConst Cz2)) - #2592000 * EVar vMst2 * EVar vs2t * (- #11 +
   #14 * EConst Cz2 - #8 * EConst Cz3) * EPow P3 (EVar vMt) + #1296000 * EVar vMt * (- #2 + EConst Cz2 + EConst Cz3) *
   EPow P3 (EVar vMst2) * EPow P3 (EVar vs2t) + #288 * (- #176473 + #202500 * EConst Cz2 - #90000 * EConst Cz3) * EPow
   P4 (EVar vMt) + (#1932736 - #64000 * EConst COepS2 + #3294000 * EConst CS2 + #96000 * EConst CT1ep + #726000 *
   EConst Cz2 - #710625 * EConst Cz3 + #48000 * EConst Cz4 + #72000 * EPow P2 (EConst Cz2)) * EPow P4 (EVar vMst2) *
   EPow P4 (EVar vs2t)) - #5 * EPow P2 (EVar vs2t) * (- #100018800 * EVar vMst2 * EVar vMt * EVar vs2t * (- #23 + #30
   * EConst Cz2 - #20 * EConst Cz3) + EPow P2 (EVar vMst2) * EPow P2 (EVar vs2t) * (#76781738 + #15366400 * EConst
   COepS2 - #837194400 * EConst CS2 - #23049600 * EConst CT1ep - #207652200 * EConst Cz2 - #63103425 * EConst Cz3 -
   #11524800 * EConst Cz4 - #17287200 * EPow P2 (EConst Cz2)) - #600 * EPow P2 (EVar vMt) * (#109760 * EConst COepS2 -
   #3 * (#1281429 + #1720488 * EConst CS2 + #54880 * EConst CT1ep + #44590 * EConst Cz2 - #303212 * EConst Cz3 +
   #27440 * EConst Cz4 + #41160 * EPow P2 (EConst Cz2)))) * EPow P6 (EVar vMst1)) + #120 * EVar vDmsqst2 * EPow P2
   (EVar vMst1) * (- #1543500 * EVar vDmglst2 * EVar vMgl * EVar vMst2 * (#4 * EPow P2 (EVar vMst1) * EPow P3 (EVar
   vMst2) * (#36 * (#23 - #24 * EConst Cz2) * EPow P2 (EVar vMst2) * EPow P2 (EVar vMt) * EPow P2 (EVar vs2t) + #24 *
   EVar vMst2 * EVar vs2t * (#289 - #342 * EConst Cz2 + #216 * EConst Cz3) * EPow P3 (EVar vMt) - #216 * EVar vMt * (-
   #2 + #2 * EConst Cz2 - EConst Cz3) * EPow P3 (EVar vMst2) * EPow P3 (EVar vs2t) + #8 * (- #1477 + #1242 * EConst
   Cz2 - #540 * EConst Cz3) * EPow P4 (EVar vMt) + #27 * (- #2 + #4 * EConst Cz2 - #3 * EConst Cz3) * EPow P4 (EVar
   vMst2) * EPow P4 (EVar vs2t)) - #9 * EVar vMst2 * EPow P4 (EVar vMst1) * (#8 * (- #113 + #48 * EConst Cz2) * EPow
   P2 (EVar vMst2) * EPow P2 (EVar vMt) * EPow P2 (EVar vs2t) + #192 * EVar vMst2 * EVar vs2t * (#51 * EConst Cz2 -
   #28 * (#2 + EConst Cz3)) * EPow P3 (EVar vMt) - #96 * EVar vMt * (#5 * EConst Cz2 + #3 * (- #4 + EConst Cz3)) *
   EPow P3 (EVar vMst2) * EPow P3 (EVar vs2t) - #48 * (- #401 + #308 * EConst Cz2 - #144 * EConst Cz3) * EPow P4 (EVar
   vMt) + #3 * (- #75 + #32 * EConst Cz2 + #8 * EConst Cz3) * EPow P4 (EVar vMst2) * EPow P4 (EVar vs2t)) + #108 * (-
   #3 + EConst Cz2) * EPow P2 (- #4 * EPow P2 (EVar vMt) + EPow P2 (EVar vMst2) * EPow P2 (EVar vs2t)) * EPow P5 (EVar
   vMst2) - #6 * EVar vs2t * (EVar vMst2 * EVar vs2t * (#1931 - #1098 * EConst Cz2 - #180 * EConst Cz3) * EPow P2
   (EVar vMt) - #72 * EVar vMt * (- #20 + #11 * EConst Cz2) * EPow P2 (EVar vMst2) * EPow P2 (EVar vs2t) + #72 * (-
   #465 + #348 * EConst Cz2 - #176 * EConst Cz3) * EPow P3 (EVar vMt) + (#38 + #63 * EConst Cz2 - #90 * EConst Cz3) *
   EPow P3 (EVar vMst2) * EPow P3 (EVar vs2t)) * EPow P6 (EVar vMst1)) - #1543500 * EVar vMst2 * EPow P2 (EVar
   vDmglst2) * (#4 * EPow P2 (EVar vMst1) * EPow P3 (EVar vMst2) * (#36 * (#23 - #24 * EConst Cz2) * EPow P2 (EVar
   vMst2) * EPow P2 (EVar vMt) * EPow P2 (EVar vs2t) + #24 * EVar vMst2 * EVar vs2t * (#289 - #342 * EConst Cz2 + #216
   * EConst Cz3) * EPow P3 (EVar vMt) - #216 * EVar vMt * (- #2 + #2 * EConst Cz2 - EConst Cz3) * EPow P3 (EVar vMst2)
   * EPow P3 (EVar vs2t) + #8 * (- #1477 + #1242 * EConst Cz2 - #540 * EConst Cz3) * EPow P4 (EVar vMt) + #27 * (- #2
   + #4 * EConst Cz2 - #3 * EConst Cz3) * EPow P4 (EVar vMst2) * EPow P4 (EVar vs2t)) - #9 * EVar vMst2 * EPow P4
   (EVar vMst1) * (#8 * (- #113 + #48 * EConst Cz2) * EPow P2 (EVar vMst2) * EPow P2 (EVar vMt) * EPow P2 (EVar vs2t)
   + #192 * EVar vMst2 * EVar vs2t * (#51 * EConst Cz2 - #28 * (#2 + EConst Cz3)) * EPow P3 (EVar vMt) - #96 * EVar
   vMt * (#5 * EConst Cz2 + #3 * (- #4 + EConst Cz3)) * EPow P3 (EVar vMst2) * EPow P3 (EVar vs2t) - #48 * (- #401 +
   #308 * EConst Cz2 - #144 * EConst Cz3) * EPow P4 (EVar vMt) + #3 * (- #75 + #32 * EConst Cz2 + #8 * EConst Cz3) *
   EPow P4 (EVar vMst2) * EPow P4 (EVar vs2t)) + #108 * (- #3 + EConst Cz2) * EPow P2 (- #4 * EPow P2 (EVar vMt) +
   EPow P2 (EVar vMst2) * EPow P2 (EVar vs2t)) * EPow P5 (EVar vMst2) - #6 * EVar vs2t * (EVar vMst2 * EVar vs2t *
   (#1931 - #1098 * EConst Cz2 - #180 * EConst Cz3) * EPow P2 (EVar vMt) - #72 * EVar vMt * (- #20 + #11 * EConst Cz2)
   * EPow P2 (EVar vMst2) * EPow P2 (EVar vs2t) + #72 * (- #465 + #348 * EConst Cz2 - #176 * EConst Cz3) * EPow P3
   (EVar vMt) + (#38 + #63 * EConst Cz2 - #90 * EConst Cz3) * EPow P3 (EVar vMst2) * EPow P3 (EVar vs2t)) * EPow P6
   (EVar vMst1)) + EPow P2 (EVar vMgl) * (#3087 * EPow P2 (EVar vMst2) * EPow P4 (EVar vMst1) * (- #8 * EPow P2 (EVar
   vMst2) * EPow P2 (EVar vMt) * EPow P2 (EVar vs2t) * (#36449 + #4000 * EConst COepS2 - #310500 * EConst CS2 - #6000
   * EConst CT1ep - #75750 * EConst Cz2 + #21000 * EConst Cz3 - #3000 * EConst Cz4 - #4500 * EPow P2 (EConst Cz2)) -
   #864000 * EVar vMst2 * EVar vs2t * (- #6 + #5 * EConst Cz2 - #4 * EConst Cz3) * EPow P3 (EVar vMt) - #432000 * EVar
   vMt * (#1 + EConst Cz2 - EConst Cz3) * EPow P3 (EVar vMst2) * EPow P3 (EVar vs2t) + #96 * (- #91321 + #54000 *
   EConst Cz2 - #36000 * EConst Cz3) * EPow P4 (EVar vMt) + (#52199 + #28000 * EConst COepS2 - #3415500 * EConst CS2 -
   #42000 * EConst CT1ep - #557250 * EConst Cz2 + #259500 * EConst Cz3 - #21000 * EConst Cz4 - #31500 * EPow P2
   (EConst Cz2)) * EPow P4 (EVar vMst2) * EPow P4 (EVar vs2t)) + #1157625 * EPow P2 (EVar vMst1) * EPow P4 (EVar
   vMst2) * (- #4 * EPow P2 (EVar vMst2) * EPow P2 (EVar vMt) * EPow P2 (EVar vs2t) * (#32 * EConst COepS2 - #3 *
   (#391 + #972 * EConst CS2 + #16 * EConst CT1ep + #154 * EConst Cz2 - #232 * EConst Cz3 + #8 * EConst Cz4 + #12 *
   EPow P2 (EConst Cz2))) - #1152 * EVar vMst2 * EVar vs2t * (#7 + #2 * EConst Cz2 - #8 * EConst Cz3) * EPow P3 (EVar
   vMt) - #1152 * EVar vMt * (- #1 + #2 * EConst Cz2 - #3 * EConst Cz3) * EPow P3 (EVar vMst2) * EPow P3 (EVar vs2t) +
   #64 * (- #103 + #108 * EConst Cz2 - #72 * EConst Cz3) * EPow P4 (EVar vMt) + (- #1213 + #32 * EConst COepS2 + #4860
   * EConst CS2 - #48 * EConst CT1ep - #462 * EConst Cz2 - #276 * EConst Cz3 - #24 * EConst Cz4 - #36 * EPow P2
   (EConst Cz2)) * EPow P4 (EVar vMst2) * EPow P4 (EVar vs2t)) + #2 * (- #4 * EPow P2 (EVar vMst2) * EPow P2 (EVar
   vMt) * EPow P2 (EVar vs2t) * (- #22430251 + #5488000 * EConst COepS2 - #324135000 * EConst CS2 - #8232000 * EConst
   CT1ep - #103929000 * EConst Cz2 + #28812000 * EConst Cz3 - #4116000 * EConst Cz4 - #6174000 * EPow P2 (EConst Cz2))
   - #333396000 * EVar vMst2 * EVar vs2t * (- #35 + #20 * EConst Cz2 - #16 * EConst Cz3) * EPow P3 (EVar vMt) +
   #333396000 * EVar vMt * (- #2 + EConst Cz2) * EPow P3 (EVar vMst2) * EPow P3 (EVar vs2t) + #3456 * (- #6582784 +
   #2701125 * EConst Cz2 - #2315250 * EConst Cz3) * EPow P4 (EVar vMt) + (#378483467 + #9604000 * EConst COepS2 -
   #754771500 * EConst CS2 - #14406000 * EConst CT1ep - #306899250 * EConst Cz2 + #133770000 * EConst Cz3 - #7203000 *
   EConst Cz4 - #10804500 * EPow P2 (EConst Cz2)) * EPow P4 (EVar vMst2) * EPow P4 (EVar vs2t)) * EPow P6 (EVar vMst1)
   + #41674500 * (#1 + #2 * EConst Cz2) * EPow P2 (- #4 * EPow P2 (EVar vMt) + EPow P2 (EVar vMst2) * EPow P2 (EVar
   vs2t)) * EPow P6 (EVar vMst2))) + EPow P2 (EVar vMst2) * (#4 * EVar vDmglst2 * EVar vMgl * EPow P2 (EVar vMst1) *
   (- #1764 * EPow P2 (EVar vMst2) * EPow P4 (EVar vMst1) * (- #112 * EPow P2 (EVar vMst2) * EPow P2 (EVar vMt) * EPow
   P2 (EVar vs2t) * (#1216808 + #150000 * EConst COepS2 - #376650 * EConst CS2 - #225000 * EConst CT1ep - #3408750 *
   EConst Cz2 - #833625 * EConst Cz3 - #112500 * EConst Cz4 - #168750 * EPow P2 (EConst Cz2)) + #1050 * EVar vMst2 *
   EVar vs2t * (- #322421 + #73760 * EConst COepS2 - #564876 * EConst CS2 - #110640 * EConst CT1ep - #3060894 * EConst
   Cz2 + #1606920 * EConst Cz3 - #55320 * EConst Cz4 - #82980 * EPow P2 (EConst Cz2)) * EPow P3 (EVar vMt) - #175 *
   EVar vMt * (#27211 + #36720 * EConst CB4 + #1080 * EConst CDN + #64160 * EConst COepS2 - #1515564 * EConst CS2 -
   #96240 * EConst CT1ep - #1240446 * EConst Cz2 + #245400 * EConst Cz3 - #12480 * EConst Cz4 - #72180 * EPow P2
   (EConst Cz2)) * EPow P3 (EVar vMst2) * EPow P3 (EVar vs2t) - #8 * (#98884301 + #4508000 * EConst COepS2 - #17853750
   * EConst CS2 - #6762000 * EConst CT1ep - #477659550 * EConst Cz2 + #302883000 * EConst Cz3 - #3381000 * EConst Cz4
   - #5071500 * EPow P2 (EConst Cz2)) * EPow P4 (EVar vMt) - #7 * (- #95041 + #81000 * EConst CB4 - #108000 * EConst
   CD3 + #67500 * EConst CDN - #432000 * EConst COepS2 - #7425000 * EConst CS2 + #648000 * EConst CT1ep + #5325300 *
   EConst Cz2 + #4227750 * EConst Cz3 - #121500 * EConst Cz4) * EPow P4 (EVar vMst2) * EPow P4 (EVar vs2t)) - #66150 *
   EPow P2 (EVar vMst1) * EPow P4 (EVar vMst2) * (#672 * (- #11674 + #120 * EConst CB4 - #120 * EConst CD3 + #60 *
   EConst CDN + #17091 * EConst CS2 + #4849 * EConst Cz2 + #2195 * EConst Cz3 - #540 * EConst Cz4) * EPow P2 (EVar
   vMst2) * EPow P2 (EVar vMt) * EPow P2 (EVar vs2t) + #140 * EVar vMst2 * EVar vs2t * (#1120 * EConst COepS2 + #3 *
   (- #10061 + #14580 * EConst CS2 - #560 * EConst CT1ep - #25134 * EConst Cz2 + #72 * EConst Cz3 + #2024 * EConst Cz4
   - #420 * EPow P2 (EConst Cz2))) * EPow P3 (EVar vMt) - #7 * EVar vMt * (#69997 + #188640 * EConst CB4 - #3600 *
   EConst CDN + #5600 * EConst COepS2 + #146772 * EConst CS2 - #8400 * EConst CT1ep - #1043682 * EConst Cz2 + #1816440
   * EConst Cz3 + #32520 * EConst Cz4 - #317340 * EPow P2 (EConst Cz2)) * EPow P3 (EVar vMst2) * EPow P3 (EVar vs2t) -
   #16 * (#1547066 + #7840 * EConst COepS2 + #258066 * EConst CS2 - #11760 * EConst CT1ep - #1256046 * EConst Cz2 -
   #946785 * EConst Cz3 - #5880 * EConst Cz4 - #8820 * EPow P2 (EConst Cz2)) * EPow P4 (EVar vMt) + #35 * (- #15707 +
   #432 * EConst CB4 - #576 * EConst CD3 + #360 * EConst CDN + #224 * EConst COepS2 + #543348 * EConst CS2 - #336 *
   EConst CT1ep - #11802 * EConst Cz2 - #105690 * EConst Cz3 - #2544 * EConst Cz4 - #2844 * EPow P2 (EConst Cz2)) *
   EPow P4 (EVar vMst2) * EPow P4 (EVar vs2t)) + (#72 * EPow P2 (EVar vMst2) * EPow P2 (EVar vMt) * EPow P2 (EVar
   vs2t) * (- #3650009897 + #2110136000 * EConst COepS2 - #52385772600 * EConst CS2 - #3165204000 * EConst CT1ep -
   #40405228500 * EConst Cz2 + #755286000 * EConst Cz3 - #1582602000 * EConst Cz4 - #2373903000 * EPow P2 (EConst
   Cz2)) - #274400 * EVar vMst2 * EVar vs2t * (- #20964397 + #2058400 * EConst COepS2 - #47545272 * EConst CS2 -
   #3087600 * EConst CT1ep - #59449002 * EConst Cz2 + #39214920 * EConst Cz3 - #1543800 * EConst Cz4 - #2315700 * EPow
   P2 (EConst Cz2)) * EPow P3 (EVar vMt) + #17150 * EVar vMt * (- #31897243 + #2491360 * EConst COepS2 - #90290268 *
   EConst CS2 - #3737040 * EConst CT1ep - #51499698 * EConst Cz2 + #33912840 * EConst Cz3 - #1868520 * EConst Cz4 -
   #2802780 * EPow P2 (EConst Cz2)) * EPow P3 (EVar vMst2) * EPow P3 (EVar vs2t) + #80 * (- #54946675289 + #3063401600
   * EConst COepS2 - #52952863320 * EConst CS2 - #4595102400 * EConst CT1ep - #225236187120 * EConst Cz2 +
   #243414477600 * EConst Cz3 - #2297551200 * EConst Cz4 - #3446326800 * EPow P2 (EConst Cz2)) * EPow P4 (EVar vMt) +
   (#119405394763 - #11522056000 * EConst COepS2 + #478191735000 * EConst CS2 + #17283084000 * EConst CT1ep +
   #233890773900 * EConst Cz2 - #111792103500 * EConst Cz3 + #8641542000 * EConst Cz4 + #12962313000 * EPow P2 (EConst
   Cz2)) * EPow P4 (EVar vMst2) * EPow P4 (EVar vs2t)) * EPow P6 (EVar vMst1) - #333396000 * (#2 * EVar vMt + EVar
   vMst2 * EVar vs2t) * (#14 * EVar vMt * (#3 + EConst Cz2) + EVar vMst2 * EVar vs2t * (#5 + #7 * EConst Cz2)) * EPow
   P2 (- #2 * EVar vMt + EVar vMst2 * EVar vs2t) * EPow P6 (EVar vMst2)) + #3 * EPow P2 (EVar vMgl) * (#308700 * EPow
   P4 (EVar vMst1) * EPow P4 (EVar vMst2) * (#2 * EPow P2 (EVar vMst2) * EPow P2 (EVar vMt) * EPow P2 (EVar vs2t) *
   (#1013263 + #2880 * EConst CD3 - #2880 * EConst CDN - #25440 * EConst COepS2 - #137052 * EConst CS2 + #38160 *
   EConst CT1ep + #35562 * EConst Cz2 + #83160 * EConst Cz3 + #36360 * EConst Cz4 + #28620 * EPow P2 (EConst Cz2)) +
   #24 * EVar vMst2 * EVar vs2t * (- #60759 + #1120 * EConst COepS2 + #25596 * EConst CS2 - #1680 * EConst CT1ep -
   #137386 * EConst Cz2 + #115320 * EConst Cz3 - #12360 * EConst Cz4 - #1260 * EPow P2 (EConst Cz2)) * EPow P3 (EVar
   vMt) + #30 * EVar vMt * (#25611 + #5280 * EConst CB4 - #48 * EConst CDN - #224 * EConst COepS2 - #324 * EConst CS2
   + #336 * EConst CT1ep - #13614 * EConst Cz2 + #47720 * EConst Cz3 + #2040 * EConst Cz4 - #6660 * EPow P2 (EConst
   Cz2)) * EPow P3 (EVar vMst2) * EPow P3 (EVar vs2t) + #8 * (#389597 + #3360 * EConst COepS2 - #105948 * EConst CS2 -
   #5040 * EConst CT1ep + #293898 * EConst Cz2 - #740160 * EConst Cz3 - #2520 * EConst Cz4 - #3780 * EPow P2 (EConst
   Cz2)) * EPow P4 (EVar vMt) - #5 * (#25289 + #1440 * EConst CB4 - #144 * EConst CD3 + #72 * EConst CDN - #2208 *
   EConst COepS2 + #298404 * EConst CS2 + #3312 * EConst CT1ep + #36318 * EConst Cz2 - #94968 * EConst Cz3 + #1440 *
   EConst Cz4 - #108 * EPow P2 (EConst Cz2)) * EPow P4 (EVar vMst2) * EPow P4 (EVar vs2t)) + #20580 * EPow P2 (EVar
   vMst2) * (#4 * EPow P2 (EVar vMst2) * EPow P2 (EVar vMt) * EPow P2 (EVar vs2t) * (#2367149 - #21600 * EConst CD3 +
   #21600 * EConst CDN - #503200 * EConst COepS2 + #14889420 * EConst CS2 + #754800 * EConst CT1ep + #9292470 * EConst
   Cz2 - #66000 * EConst Cz3 + #247800 * EConst Cz4 + #566100 * EPow P2 (EConst Cz2)) + #40 * EVar vMst2 * EVar vs2t *
   (- #1156193 + #60320 * EConst COepS2 - #1414908 * EConst CS2 - #90480 * EConst CT1ep - #2823942 * EConst Cz2 +
   #2907240 * EConst Cz3 - #45240 * EConst Cz4 - #67860 * EPow P2 (EConst Cz2)) * EPow P3 (EVar vMt) + #100 * EVar vMt
   * (#51041 + #7344 * EConst CB4 + #216 * EConst CDN - #2336 * EConst COepS2 + #112428 * EConst CS2 + #3504 * EConst
   CT1ep + #28038 * EConst Cz2 - #78216 * EConst Cz3 + #8880 * EConst Cz4 + #2628 * EPow P2 (EConst Cz2)) * EPow P3
   (EVar vMst2) * EPow P3 (EVar vs2t) + #8 * (#7319011 + #167200 * EConst COepS2 - #6744060 * EConst CS2 - #250800 *
   EConst CT1ep + #9301170 * EConst Cz2 - #20715000 * EConst Cz3 - #125400 * EConst Cz4 - #188100 * EPow P2 (EConst
   Cz2)) * EPow P4 (EVar vMt) + (- #7680127 + #10800 * EConst CB4 - #21600 * EConst CD3 + #16200 * EConst CDN +
   #514400 * EConst COepS2 - #46307700 * EConst CS2 - #771600 * EConst CT1ep - #10868970 * EConst Cz2 + #7186200 *
   EConst Cz3 - #466800 * EConst Cz4 - #773100 * EPow P2 (EConst Cz2)) * EPow P4 (EVar vMst2) * EPow P4 (EVar vs2t)) *
   EPow P6 (EVar vMst1) + #55566000 * EPow P2 (EVar vMst1) * (- #8 * (#87 + #38 * EConst Cz2) * EPow P2 (EVar vMst2) *
   EPow P2 (EVar vMt) * EPow P2 (EVar vs2t) - #1024 * EVar vMst2 * EVar vs2t * EPow P3 (EVar vMt) + #256 * EVar vMt *
   EPow P3 (EVar vMst2) * EPow P3 (EVar vs2t) + #16 * (#71 + #38 * EConst Cz2) * EPow P4 (EVar vMt) + (#135 + #38 *
   EConst Cz2) * EPow P4 (EVar vMst2) * EPow P4 (EVar vs2t)) * EPow P6 (EVar vMst2) + (- #16 * EPow P2 (EVar vMst2) *
   EPow P2 (EVar vMt) * EPow P2 (EVar vs2t) * (- #25002374272 + #4703902000 * EConst COepS2 - #184815757350 * EConst
   CS2 - #7055853000 * EConst CT1ep - #84661721025 * EConst Cz2 + #16805113500 * EConst Cz3 - #3527926500 * EConst Cz4
   - #5291889750 * EPow P2 (EConst Cz2)) + #1097600 * EVar vMst2 * EVar vs2t * (- #2016907 + #109600 * EConst COepS2 -
   #3520152 * EConst CS2 - #164400 * EConst CT1ep - #3448554 * EConst Cz2 + #3465480 * EConst Cz3 - #82200 * EConst
   Cz4 - #123300 * EPow P2 (EConst Cz2)) * EPow P3 (EVar vMt) - #68600 * EVar vMt * (- #2759935 + #70240 * EConst
   COepS2 - #3305340 * EConst CS2 - #105360 * EConst CT1ep - #629034 * EConst Cz2 + #2677800 * EConst Cz3 - #52680 *
   EConst Cz4 - #79020 * EPow P2 (EConst Cz2)) * EPow P3 (EVar vMst2) * EPow P3 (EVar vs2t) + #16 * (#187545955063 +
   #3204992000 * EConst COepS2 - #128216692800 * EConst CS2 - #4807488000 * EConst CT1ep + #129009640200 * EConst Cz2
   - #399103824000 * EConst Cz3 - #2403744000 * EConst Cz4 - #3605616000 * EPow P2 (EConst Cz2)) * EPow P4 (EVar vMt)
   + (#93508520089 + #2000376000 * EConst CB4 + #222264000 * EConst CD3 - #222264000 * EConst CDN + #4925480000 *
   EConst COepS2 - #312095700000 * EConst CS2 - #7388220000 * EConst CT1ep - #77106571500 * EConst Cz2 + #21506100000
   * EConst Cz3 - #2360526000 * EConst Cz4 - #5541165000 * EPow P2 (EConst Cz2)) * EPow P4 (EVar vMst2) * EPow P4
   (EVar vs2t)) * EPow P8 (EVar vMst1) + #7112448000 * EPow P2 (EVar vMt) * (- #2 * EPow P2 (EVar vMt) + EPow P2 (EVar
   vMst2) * EPow P2 (EVar vs2t)) * EPow P8 (EVar vMst2)) + #4 * EPow P2 (EVar vDmglst2) * (- #2205 * EPow P4 (EVar
   vMst1) * EPow P4 (EVar vMst2) * (#360 * EPow P2 (EVar vMst2) * EPow P2 (EVar vMt) * EPow P2 (EVar vs2t) * (-
   #2818497 + #10080 * EConst CB4 - #10080 * EConst CD3 + #5040 * EConst CDN - #7840 * EConst COepS2 + #1126548 *
   EConst CS2 + #11760 * EConst CT1ep + #739362 * EConst Cz2 + #2068815 * EConst Cz3 - #39480 * EConst Cz4 + #8820 *
   EPow P2 (EConst Cz2)) - #40 * EVar vMst2 * EVar vs2t * (- #6779161 + #7840 * EConst COepS2 + #3032964 * EConst CS2
   - #11760 * EConst CT1ep - #15966294 * EConst Cz2 + #27128640 * EConst Cz3 - #731640 * EConst Cz4 - #8820 * EPow P2
   (EConst Cz2)) * EPow P3 (EVar vMt) - #70 * EVar vMt * (- #2048393 + #1058400 * EConst CB4 - #23760 * EConst CDN -
   #1120 * EConst COepS2 - #449388 * EConst CS2 + #1680 * EConst CT1ep - #5386422 * EConst Cz2 + #13314840 * EConst
   Cz3 + #149880 * EConst Cz4 - #1864980 * EPow P2 (EConst Cz2)) * EPow P3 (EVar vMst2) * EPow P3 (EVar vs2t) + #112 *
   (- #13292051 + #72800 * EConst COepS2 + #3133890 * EConst CS2 - #109200 * EConst CT1ep - #9928650 * EConst Cz2 +
   #19536225 * EConst Cz3 - #54600 * EConst Cz4 - #81900 * EPow P2 (EConst Cz2)) * EPow P4 (EVar vMt) + #35 * (-
   #1395899 + #54000 * EConst CB4 - #60480 * EConst CD3 + #33480 * EConst CDN + #5600 * EConst COepS2 + #37625796 *
   EConst CS2 - #8400 * EConst CT1ep - #481746 * EConst Cz2 - #6858210 * EConst Cz3 - #266640 * EConst Cz4 - #122940 *
   EPow P2 (EConst Cz2)) * EPow P4 (EVar vMst2) * EPow P4 (EVar vs2t)) - #294 * EPow P2 (EVar vMst2) * (- #12 * EPow
   P2 (EVar vMst2) * EPow P2 (EVar vMt) * EPow P2 (EVar vs2t) * (#273721621 + #16716000 * EConst COepS2 - #343302300 *
   EConst CS2 - #25074000 * EConst CT1ep - #610971750 * EConst Cz2 + #71859375 * EConst Cz3 - #12537000 * EConst Cz4 -
   #18805500 * EPow P2 (EConst Cz2)) - #100 * EVar vMst2 * EVar vs2t * (#79386499 + #4823840 * EConst COepS2 +
   #82155924 * EConst CS2 - #7235760 * EConst CT1ep - #287072094 * EConst Cz2 + #104826120 * EConst Cz3 - #3617880 *
   EConst Cz4 - #5426820 * EPow P2 (EConst Cz2)) * EPow P3 (EVar vMt) - #3500 * EVar vMt * (#280885 + #11016 * EConst
   CB4 + #324 * EConst CDN - #24544 * EConst COepS2 - #89856 * EConst CS2 + #36816 * EConst CT1ep + #858030 * EConst
   Cz2 - #343020 * EConst Cz3 + #29100 * EConst Cz4 + #27612 * EPow P2 (EConst Cz2)) * EPow P3 (EVar vMst2) * EPow P3
   (EVar vs2t) + #8 * (#55610713 + #131684000 * EConst COepS2 + #173875950 * EConst CS2 - #197526000 * EConst CT1ep -
   #7894319250 * EConst Cz2 + #4687557000 * EConst Cz3 - #98763000 * EConst Cz4 - #148144500 * EPow P2 (EConst Cz2)) *
   EPow P4 (EVar vMt) - #7 * (- #22023067 + #729000 * EConst CB4 - #972000 * EConst CD3 + #607500 * EConst CDN -
   #320000 * EConst COepS2 - #120274200 * EConst CS2 + #480000 * EConst CT1ep - #23129700 * EConst Cz2 + #92516250 *
   EConst Cz3 - #3769500 * EConst Cz4 - #4014000 * EPow P2 (EConst Cz2)) * EPow P4 (EVar vMst2) * EPow P4 (EVar vs2t))
   * EPow P6 (EVar vMst1) + #166698000 * EPow P2 (EVar vMst1) * (#8 * (#205 - #12 * EConst Cz2) * EPow P2 (EVar vMst2)
   * EPow P2 (EVar vMt) * EPow P2 (EVar vs2t) + #1024 * EVar vMst2 * EVar vs2t * EPow P3 (EVar vMt) - #256 * EVar vMt
   * EPow P3 (EVar vMst2) * EPow P3 (EVar vs2t) + #16 * (- #197 + #12 * EConst Cz2) * EPow P4 (EVar vMt) + (- #245 +
   #12 * EConst Cz2) * EPow P4 (EVar vMst2) * EPow P4 (EVar vs2t)) * EPow P6 (EVar vMst2) + (#72 * EPow P2 (EVar
   vMst2) * EPow P2 (EVar vMt) * EPow P2 (EVar vs2t) * (- #3650009897 + #2110136000 * EConst COepS2 - #52385772600 *
   EConst CS2 - #3165204000 * EConst CT1ep - #40405228500 * EConst Cz2 + #755286000 * EConst Cz3 - #1582602000 *
   EConst Cz4 - #2373903000 * EPow P2 (EConst Cz2)) - #274400 * EVar vMst2 * EVar vs2t * (- #20964397 + #2058400 *
   EConst COepS2 - #47545272 * EConst CS2 - #3087600 * EConst CT1ep - #59449002 * EConst Cz2 + #39214920 * EConst Cz3
   - #1543800 * EConst Cz4 - #2315700 * EPow P2 (EConst Cz2)) * EPow P3 (EVar vMt) + #17150 * EVar vMt * (- #31897243
   + #2491360 * EConst COepS2 - #90290268 * EConst CS2 - #3737040 * EConst CT1ep - #51499698 * EConst Cz2 + #33912840
   * EConst Cz3 - #1868520 * EConst Cz4 - #2802780 * EPow P2 (EConst Cz2)) * EPow P3 (EVar vMst2) * EPow P3 (EVar
   vs2t) + #80 * (- #54946675289 + #3063401600 * EConst COepS2 - #52952863320 * EConst CS2 - #4595102400 * EConst
   CT1ep - #225236187120 * EConst Cz2 + #243414477600 * EConst Cz3 - #2297551200 * EConst Cz4 - #3446326800 * EPow P2
   (EConst Cz2)) * EPow P4 (EVar vMt) + (#119405394763 - #11522056000 * EConst COepS2 + #478191735000 * EConst CS2 +
   #17283084000 * EConst CT1ep + #233890773900 * EConst Cz2 - #111792103500 * EConst Cz3 + #8641542000 * EConst Cz4 +
   #12962313000 * EPow P2 (EConst Cz2)) * EPow P4 (EVar vMst2) * EPow P4 (EVar vs2t)) * EPow P8 (EVar vMst1) +
   #2667168000 * EPow P2 (- #4 * EPow P2 (EVar vMt) + EPow P2 (EVar vMst2) * EPow P2 (EVar vs2t)) * EPow P8 (EVar
   vMst2))) + #1260 * ELog (EPow P2 (EVar vMst1) / EPow P2 (EVar vMst2)) * (#30 * EPow P2 (EVar vDmsqst2) * EPow P2
   (EVar vMgl) * EPow P4 (EVar vMst1) * (#5 * EPow P2 (EVar vs2t) * (- #26460 * EVar vMst2 * EVar vMt * EVar vs2t * (-
   #121 + #60 * EConst Cz2) + #30 * (- #20869 + #35280 * EConst CS2 + #5292 * EConst Cz2) * EPow P2 (EVar vMt) + (-
   #8753 - #246960 * EConst CS2 + #79380 * EConst Cz2) * EPow P2 (EVar vMst2) * EPow P2 (EVar vs2t)) * EPow P4 (EVar
   vMst1) + #294 * EPow P2 (EVar vMst1) * (#8 * (- #887 + #2250 * EConst CS2) * EPow P2 (EVar vMst2) * EPow P2 (EVar
   vMt) * EPow P2 (EVar vs2t) - #57600 * EVar vMst2 * EVar vs2t * (- #3 + #2 * EConst Cz2) * EPow P3 (EVar vMt) +
   #7200 * EVar vMt * (- #2 + EConst Cz2) * EPow P3 (EVar vMst2) * EPow P3 (EVar vs2t) + #48 * (- #3871 + #3000 *
   EConst Cz2) * EPow P4 (EVar vMt) + (#1837 - #7200 * EConst CS2 - #900 * EConst Cz2) * EPow P4 (EVar vMst2) * EPow
   P4 (EVar vs2t)) - #14700 * EPow P2 (EVar vMst2) * (- #24 * (#2 + #9 * EConst CS2) * EPow P2 (EVar vMst2) * EPow P2
   (EVar vMt) * EPow P2 (EVar vs2t) + #144 * EVar vMst2 * EVar vs2t * (- #15 + #8 * EConst Cz2) * EPow P3 (EVar vMt) -
   #144 * EVar vMt * (- #2 + EConst Cz2) * EPow P3 (EVar vMst2) * EPow P3 (EVar vs2t) + (#1460 - #864 * EConst Cz2) *
   EPow P4 (EVar vMt) + #3 * (- #1 + #18 * EConst CS2 + #3 * EConst Cz2) * EPow P4 (EVar vMst2) * EPow P4 (EVar
   vs2t))) + #120 * EVar vDmsqst2 * EPow P2 (EVar vMst1) * (- #3675 * EVar vDmglst2 * EVar vMgl * EVar vMst2 * EPow P2
   (EVar vMst1) * (- #3 * EVar vs2t * (#2 * EVar vMst2 * EVar vs2t * (#37 - #60 * EConst Cz2) * EPow P2 (EVar vMt) +
   #72 * EVar vMt * EPow P2 (EVar vMst2) * EPow P2 (EVar vs2t) + #1056 * (- #17 + #8 * EConst Cz2) * EPow P3 (EVar
   vMt) + (#83 - #60 * EConst Cz2) * EPow P3 (EVar vMst2) * EPow P3 (EVar vs2t)) * EPow P4 (EVar vMst1) + #4 * EPow P3
   (EVar vMst2) * (- #48 * EVar vMst2 * EVar vs2t * (- #59 + #36 * EConst Cz2) * EPow P3 (EVar vMt) + #72 * EVar vMt *
   (- #5 + #3 * EConst Cz2) * EPow P3 (EVar vMst2) * EPow P3 (EVar vs2t) + #4 * (- #571 + #360 * EConst Cz2) * EPow P4
   (EVar vMt) + #9 * (#2 - #3 * EConst Cz2) * EPow P4 (EVar vMst2) * EPow P4 (EVar vs2t)) - #18 * EVar vMst2 * EPow P2
   (EVar vMst1) * (- #8 * EPow P2 (EVar vMst2) * EPow P2 (EVar vMt) * EPow P2 (EVar vs2t) + #128 * EVar vMst2 * EVar
   vs2t * (- #12 + #7 * EConst Cz2) * EPow P3 (EVar vMt) + #16 * EVar vMt * (#5 - #3 * EConst Cz2) * EPow P3 (EVar
   vMst2) * EPow P3 (EVar vs2t) - #16 * (- #137 + #72 * EConst Cz2) * EPow P4 (EVar vMt) + (- #13 + #4 * EConst Cz2) *
   EPow P4 (EVar vMst2) * EPow P4 (EVar vs2t))) - #3675 * EVar vMst2 * EPow P2 (EVar vDmglst2) * EPow P2 (EVar vMst1)
   * (- #3 * EVar vs2t * (#2 * EVar vMst2 * EVar vs2t * (#37 - #60 * EConst Cz2) * EPow P2 (EVar vMt) + #72 * EVar vMt
   * EPow P2 (EVar vMst2) * EPow P2 (EVar vs2t) + #1056 * (- #17 + #8 * EConst Cz2) * EPow P3 (EVar vMt) + (#83 - #60
   * EConst Cz2) * EPow P3 (EVar vMst2) * EPow P3 (EVar vs2t)) * EPow P4 (EVar vMst1) + #4 * EPow P3 (EVar vMst2) * (-
   #48 * EVar vMst2 * EVar vs2t * (- #59 + #36 * EConst Cz2) * EPow P3 (EVar vMt) + #72 * EVar vMt * (- #5 + #3 *
   EConst Cz2) * EPow P3 (EVar vMst2) * EPow P3 (EVar vs2t) + #4 * (- #571 + #360 * EConst Cz2) * EPow P4 (EVar vMt) +
   #9 * (#2 - #3 * EConst Cz2) * EPow P4 (EVar vMst2) * EPow P4 (EVar vs2t)) - #18 * EVar vMst2 * EPow P2 (EVar vMst1)
   * (- #8 * EPow P2 (EVar vMst2) * EPow P2 (EVar vMt) * EPow P2 (EVar vs2t) + #128 * EVar vMst2 * EVar vs2t * (- #12
   + #7 * EConst Cz2) * EPow P3 (EVar vMt) + #16 * EVar vMt * (#5 - #3 * EConst Cz2) * EPow P3 (EVar vMst2) * EPow P3
   (EVar vs2t) - #16 * (- #137 + #72 * EConst Cz2) * EPow P4 (EVar vMt) + (- #13 + #4 * EConst Cz2) * EPow P4 (EVar
   vMst2) * EPow P4 (EVar vs2t))) + EPow P2 (EVar vMgl) * (#22050 * EPow P2 (EVar vMst1) * EPow P4 (EVar vMst2) * (-
   #4 * (#16 + #27 * EConst CS2) * EPow P2 (EVar vMst2) * EPow P2 (EVar vMt) * EPow P2 (EVar vs2t) - #96 * EVar vMst2
   * EVar vs2t * (- #5 + #4 * EConst Cz2) * EPow P3 (EVar vMt) + #48 * EVar vMt * (- #1 + EConst Cz2) * EPow P3 (EVar
   vMst2) * EPow P3 (EVar vs2t) + #16 * (- #23 + #12 * EConst Cz2) * EPow P4 (EVar vMt) + (#17 + #27 * EConst CS2) *
   EPow P4 (EVar vMst2) * EPow P4 (EVar vs2t)) + #441 * EPow P2 (EVar vMst2) * EPow P4 (EVar vMst1) * (- #8 * (- #517
   + #450 * EConst CS2) * EPow P2 (EVar vMst2) * EPow P2 (EVar vMt) * EPow P2 (EVar vs2t) - #19200 * EVar vMst2 * EVar
   vs2t * (- #2 + EConst Cz2) * EPow P3 (EVar vMt) + #2400 * EVar vMt * (- #1 + EConst Cz2) * EPow P3 (EVar vMst2) *
   EPow P3 (EVar vs2t) + #16 * (- #3067 + #1200 * EConst Cz2) * EPow P4 (EVar vMt) + (- #317 + #3150 * EConst CS2 -
   #300 * EConst Cz2) * EPow P4 (EVar vMst2) * EPow P4 (EVar vs2t)) + (#16 * (#58853 - #44100 * EConst CS2) * EPow P2
   (EVar vMst2) * EPow P2 (EVar vMt) * EPow P2 (EVar vs2t) - #1058400 * EVar vMst2 * EVar vs2t * (- #25 + #8 * EConst
   Cz2) * EPow P3 (EVar vMt) - #264600 * EVar vMt * EPow P3 (EVar vMst2) * EPow P3 (EVar vs2t) + #288 * (- #175121 +
   #44100 * EConst Cz2) * EPow P4 (EVar vMt) + (- #621671 + #308700 * EConst CS2 + #132300 * EConst Cz2) * EPow P4
   (EVar vMst2) * EPow P4 (EVar vs2t)) * EPow P6 (EVar vMst1) - #66150 * EPow P2 (- #4 * EPow P2 (EVar vMt) + EPow P2
   (EVar vMst2) * EPow P2 (EVar vs2t)) * EPow P6 (EVar vMst2))) + EPow P2 (EVar vMst2) * (#3 * EPow P2 (EVar vMgl) *
   (#9800 * EPow P4 (EVar vMst1) * EPow P4 (EVar vMst2) * (- #6 * (- #4534 + #4293 * EConst CS2 + #1830 * EConst Cz2 -
   #72 * EConst Cz3) * EPow P2 (EVar vMst2) * EPow P2 (EVar vMt) * EPow P2 (EVar vs2t) + #72 * EVar vMst2 * EVar vs2t
   * (#26 + #189 * EConst CS2 - #758 * EConst Cz2) * EPow P3 (EVar vMt) - #126 * EVar vMt * (- #208 + #27 * EConst CS2
   - #2 * EConst Cz2) * EPow P3 (EVar vMst2) * EPow P3 (EVar vs2t) + #8 * (- #553 + #1701 * EConst CS2 + #4023 *
   EConst Cz2 + #108 * EConst Cz3) * EPow P4 (EVar vMt) + #3 * (#1148 + #1863 * EConst CS2 + #276 * EConst Cz2 - #18 *
   EConst Cz3) * EPow P4 (EVar vMst2) * EPow P4 (EVar vs2t)) + #1960 * EPow P2 (EVar vMst2) * (- #4 * (- #52322 +
   #84915 * EConst CS2 + #3060 * EConst Cz2 + #540 * EConst Cz3) * EPow P2 (EVar vMst2) * EPow P2 (EVar vMt) * EPow P2
   (EVar vs2t) + #1080 * EVar vMst2 * EVar vs2t * (#42 + #377 * EConst CS2 - #330 * EConst Cz2) * EPow P3 (EVar vMt) -
   #180 * EVar vMt * (#221 + #219 * EConst CS2 - #234 * EConst Cz2) * EPow P3 (EVar vMst2) * EPow P3 (EVar vs2t) + #8
   * (- #22352 + #28215 * EConst CS2 + #36270 * EConst Cz2) * EPow P4 (EVar vMt) + (- #16051 + #86805 * EConst CS2 -
   #8325 * EConst Cz2) * EPow P4 (EVar vMst2) * EPow P4 (EVar vs2t)) * EPow P6 (EVar vMst1) + #88200 * EPow P2 (EVar
   vMst1) * (- #616 * EPow P2 (EVar vMst2) * EPow P2 (EVar vMt) * EPow P2 (EVar vs2t) - #1024 * EVar vMst2 * EVar vs2t
   * EPow P3 (EVar vMt) + #256 * EVar vMt * EPow P3 (EVar vMst2) * EPow P3 (EVar vs2t) + #976 * EPow P4 (EVar vMt) +
   #125 * EPow P4 (EVar vMst2) * EPow P4 (EVar vs2t)) * EPow P6 (EVar vMst2) + (- #24 * (- #19407863 + #50398950 *
   EConst CS2 + #2866500 * EConst Cz2) * EPow P2 (EVar vMst2) * EPow P2 (EVar vMt) * EPow P2 (EVar vs2t) + #940800 *
   EVar vMst2 * EVar vs2t * (#167 + #2055 * EConst CS2 - #912 * EConst Cz2) * EPow P3 (EVar vMt) - #58800 * EVar vMt *
   (#46 + #1317 * EConst CS2 - #918 * EConst Cz2) * EPow P3 (EVar vMst2) * EPow P3 (EVar vs2t) + #32 * (- #35585111 +
   #25754400 * EConst CS2 + #32281200 * EConst Cz2) * EPow P4 (EVar vMt) + #3 * (- #23468297 + #26386500 * EConst CS2
   + #661500 * EConst Cz2 + #176400 * EConst Cz3) * EPow P4 (EVar vMst2) * EPow P4 (EVar vs2t)) * EPow P8 (EVar vMst1)
   + #11289600 * EPow P2 (EVar vMt) * (- #2 * EPow P2 (EVar vMt) + EPow P2 (EVar vMst2) * EPow P2 (EVar vs2t)) * EPow
   P8 (EVar vMst2)) + #4 * EVar vDmglst2 * EVar vMgl * (- #14700 * EPow P4 (EVar vMst1) * EPow P4 (EVar vMst2) * (#12
   * (- #3427 + #1782 * EConst Cz2) * EPow P2 (EVar vMst2) * EPow P2 (EVar vMt) * EPow P2 (EVar vs2t) + #4 * EVar
   vMst2 * EVar vs2t * (- #8398 + #2835 * EConst CS2 - #3258 * EConst Cz2) * EPow P3 (EVar vMt) - #9 * EVar vMt *
   (#1640 + #315 * EConst CS2 - #1146 * EConst Cz2) * EPow P3 (EVar vMst2) * EPow P3 (EVar vs2t) + (#26276 - #9072 *
   EConst CS2 + #28224 * EConst Cz2) * EPow P4 (EVar vMt) + #9 * (#277 + #63 * EConst CS2 - #140 * EConst Cz2) * EPow
   P4 (EVar vMst2) * EPow P4 (EVar vs2t)) - #294 * EPow P2 (EVar vMst2) * (- #8 * (#77657 + #202500 * EConst CS2 -
   #55800 * EConst Cz2) * EPow P2 (EVar vMst2) * EPow P2 (EVar vMt) * EPow P2 (EVar vs2t) + #200 * EVar vMst2 * EVar
   vs2t * (- #11408 + #37341 * EConst CS2 - #17730 * EConst Cz2) * EPow P3 (EVar vMt) - #300 * EVar vMt * (- #503 +
   #3609 * EConst CS2 - #1494 * EConst Cz2) * EPow P3 (EVar vMst2) * EPow P3 (EVar vs2t) - #48 * (#8581 + #72450 *
   EConst CS2 - #137700 * EConst Cz2) * EPow P4 (EVar vMt) + (- #81643 + #291600 * EConst CS2 + #5850 * EConst Cz2) *
   EPow P4 (EVar vMst2) * EPow P4 (EVar vs2t)) * EPow P6 (EVar vMst1) + #132300 * EPow P2 (EVar vMst1) * (- #536 *
   EPow P2 (EVar vMst2) * EPow P2 (EVar vMt) * EPow P2 (EVar vs2t) - #512 * EVar vMst2 * EVar vs2t * EPow P3 (EVar
   vMt) + #128 * EVar vMt * EPow P3 (EVar vMst2) * EPow P3 (EVar vs2t) + #560 * EPow P4 (EVar vMt) + #131 * EPow P4
   (EVar vMst2) * EPow P4 (EVar vs2t)) * EPow P6 (EVar vMst2) + (#72 * (- #4261807 + #33912900 * EConst CS2 - #73500 *
   EConst Cz2) * EPow P2 (EVar vMst2) * EPow P2 (EVar vMt) * EPow P2 (EVar vs2t) - #78400 * EVar vMst2 * EVar vs2t *
   (- #4724 + #115785 * EConst CS2 - #29484 * EConst Cz2) * EPow P3 (EVar vMt) + #4900 * EVar vMt * (#18652 + #140139
   * EConst CS2 - #38826 * EConst Cz2) * EPow P3 (EVar vMst2) * EPow P3 (EVar vs2t) + #80 * (#42300121 + #49233240 *
   EConst CS2 - #64139040 * EConst Cz2) * EPow P4 (EVar vMt) + (#8287903 - #185175900 * EConst CS2 + #9525600 * EConst
   Cz2) * EPow P4 (EVar vMst2) * EPow P4 (EVar vs2t)) * EPow P8 (EVar vMst1) + #16934400 * EPow P2 (EVar vMt) * (- #2
   * EPow P2 (EVar vMt) + EPow P2 (EVar vMst2) * EPow P2 (EVar vs2t)) * EPow P8 (EVar vMst2)) + #4 * EPow P2 (EVar
   vDmglst2) * (- #294 * EPow P4 (EVar vMst1) * EPow P4 (EVar vMst2) * (- #300 * (#13339 + #1134 * EConst CS2 - #9870
   * EConst Cz2) * EPow P2 (EVar vMst2) * EPow P2 (EVar vMt) * EPow P2 (EVar vs2t) - #600 * EVar vMst2 * EVar vs2t *
   (#8618 + #63 * EConst CS2 - #3354 * EConst Cz2) * EPow P3 (EVar vMt) + #150 * EVar vMt * (- #3164 + #63 * EConst
   CS2 + #3978 * EConst Cz2) * EPow P3 (EVar vMst2) * EPow P3 (EVar vs2t) + #8 * (#50551 + #122850 * EConst CS2 -
   #149400 * EConst Cz2) * EPow P4 (EVar vMt) + #75 * (#3050 + #315 * EConst CS2 - #222 * EConst Cz2) * EPow P4 (EVar
   vMst2) * EPow P4 (EVar vs2t)) - #147 * EPow P2 (EVar vMst2) * (- #8 * (#463453 + #805950 * EConst CS2 - #632700 *
   EConst Cz2) * EPow P2 (EVar vMst2) * EPow P2 (EVar vMt) * EPow P2 (EVar vs2t) - #3600 * EVar vMst2 * EVar vs2t *
   (#2555 + #4307 * EConst CS2 - #3542 * EConst Cz2) * EPow P3 (EVar vMt) + #200 * EVar vMt * (- #3449 + #13806 *
   EConst CS2 + #4392 * EConst Cz2) * EPow P3 (EVar vMst2) * EPow P3 (EVar vs2t) + #16 * (- #297379 + #2116350 *
   EConst CS2 - #1349100 * EConst Cz2) * EPow P4 (EVar vMt) + #3 * (- #165199 + #24000 * EConst CS2 + #20250 * EConst
   Cz2) * EPow P4 (EVar vMst2) * EPow P4 (EVar vs2t)) * EPow P6 (EVar vMst1) + #66150 * EPow P2 (EVar vMst1) * (- #664
   * EPow P2 (EVar vMst2) * EPow P2 (EVar vMt) * EPow P2 (EVar vs2t) + #1024 * EVar vMst2 * EVar vs2t * EPow P3 (EVar
   vMt) - #256 * EVar vMt * EPow P3 (EVar vMst2) * EPow P3 (EVar vs2t) - #208 * EPow P4 (EVar vMt) + #211 * EPow P4
   (EVar vMst2) * EPow P4 (EVar vs2t)) * EPow P6 (EVar vMst2) + (#72 * (- #4261807 + #33912900 * EConst CS2 - #73500 *
   EConst Cz2) * EPow P2 (EVar vMst2) * EPow P2 (EVar vMt) * EPow P2 (EVar vs2t) - #78400 * EVar vMst2 * EVar vs2t *
   (- #4724 + #115785 * EConst CS2 - #29484 * EConst Cz2) * EPow P3 (EVar vMt) + #4900 * EVar vMt * (#18652 + #140139
   * EConst CS2 - #38826 * EConst Cz2) * EPow P3 (EVar vMst2) * EPow P3 (EVar vs2t) + #80 * (#42300121 + #49233240 *
   EConst CS2 - #64139040 * EConst Cz2) * EPow P4 (EVar vMt) + (#8287903 - #185175900 * EConst CS2 + #9525600 * EConst
   Cz2) * EPow P4 (EVar vMst2) * EPow P4 (EVar vs2t)) * EPow P8 (EVar vMst1) + #1058400 * (#8 * EPow P2 (EVar vMst2) *
   EPow P2 (EVar vMt) * EPow P2 (EVar vs2t) - #16 * EPow P4 (EVar vMt) + EPow P4 (EVar vMst2) * EPow P4 (EVar vs2t)) *
   EPow P8 (EVar vMst2)))) + #1587600 * EPow P2 (ELog (EPow P2 (EVar vMst1) / EPow P2 (EVar vMst2))) * (#90 * EPow P2
   (EVar vDmsqst2) * EPow P2 (EVar vMgl) * EPow P4 (EVar vMst1) * (- #280 * EPow P2 (EVar vMst2) * EPow P4 (EVar vMt)
   + #15 * EPow P4 (EVar vMst1) * (#12 * EPow P2 (EVar vMt) * EPow P2 (EVar vs2t) - #5 * EPow P2 (EVar vMst2) * EPow
   P4 (EVar vs2t)) + #14 * EPow P2 (EVar vMst1) * (#14 * EPow P2 (EVar vMst2) * EPow P2 (EVar vMt) * EPow P2 (EVar
   vs2t) + #32 * EPow P4 (EVar vMt) - #3 * EPow P4 (EVar vMst2) * EPow P4 (EVar vs2t))) + EPow P2 (EVar vMst2) * (- #2
   * EVar vDmglst2 * EVar vMgl * (- #140 * EPow P4 (EVar vMst1) * EPow P4 (EVar vMst2) * (#1806 * EPow P2 (EVar vMst2)
   * EPow P2 (EVar vMt) * EPow P2 (EVar vs2t) + #1592 * EVar vMst2 * EVar vs2t * EPow P3 (EVar vMt) + #1104 * EVar vMt
   * EPow P3 (EVar vMst2) * EPow P3 (EVar vs2t) - #3808 * EPow P4 (EVar vMt) + #213 * EPow P4 (EVar vMst2) * EPow P4
   (EVar vs2t)) + #7 * EPow P2 (EVar vMst2) * (- #12992 * EPow P2 (EVar vMst2) * EPow P2 (EVar vMt) * EPow P2 (EVar
   vs2t) - #175520 * EVar vMst2 * EVar vs2t * EPow P3 (EVar vMt) + #3600 * EVar vMt * EPow P3 (EVar vMst2) * EPow P3
   (EVar vs2t) + #285744 * EPow P4 (EVar vMt) + #4969 * EPow P4 (EVar vMst2) * EPow P4 (EVar vs2t)) * EPow P6 (EVar
   vMst1) - #105 * EPow P2 (EVar vMst1) * (- #728 * EPow P2 (EVar vMst2) * EPow P2 (EVar vMt) * EPow P2 (EVar vs2t) -
   #1536 * EVar vMst2 * EVar vs2t * EPow P3 (EVar vMt) + #384 * EVar vMt * EPow P3 (EVar vMst2) * EPow P3 (EVar vs2t)
   + #944 * EPow P4 (EVar vMt) + #187 * EPow P4 (EVar vMst2) * EPow P4 (EVar vs2t)) * EPow P6 (EVar vMst2) + (-
   #420096 * EPow P2 (EVar vMst2) * EPow P2 (EVar vMt) * EPow P2 (EVar vs2t) - #1672160 * EVar vMst2 * EVar vs2t *
   EPow P3 (EVar vMt) + #68880 * EVar vMt * EPow P3 (EVar vMst2) * EPow P3 (EVar vs2t) + #3253120 * EPow P4 (EVar vMt)
   + #1377 * EPow P4 (EVar vMst2) * EPow P4 (EVar vs2t)) * EPow P8 (EVar vMst1) - #26880 * EPow P2 (EVar vMt) * (- #2
   * EPow P2 (EVar vMt) + EPow P2 (EVar vMst2) * EPow P2 (EVar vs2t)) * EPow P8 (EVar vMst2)) + EPow P2 (EVar vMgl) *
   (#70 * EPow P4 (EVar vMst1) * EPow P4 (EVar vMst2) * (#3192 * EPow P2 (EVar vMst2) * EPow P2 (EVar vMt) * EPow P2
   (EVar vs2t) - #14880 * EVar vMst2 * EVar vs2t * EPow P3 (EVar vMt) + #5664 * EVar vMt * EPow P3 (EVar vMst2) * EPow
   P3 (EVar vs2t) + #7744 * EPow P4 (EVar vMt) + #1113 * EPow P4 (EVar vMst2) * EPow P4 (EVar vs2t)) + #560 * EPow P2
   (EVar vMst2) * (#479 * EPow P2 (EVar vMst2) * EPow P2 (EVar vMt) * EPow P2 (EVar vs2t) - #2448 * EVar vMst2 * EVar
   vs2t * EPow P3 (EVar vMt) + #366 * EVar vMt * EPow P3 (EVar vMst2) * EPow P3 (EVar vs2t) + #1136 * EPow P4 (EVar
   vMt) + #23 * EPow P4 (EVar vMst2) * EPow P4 (EVar vs2t)) * EPow P6 (EVar vMst1) + #105 * EPow P2 (EVar vMst1) * (-
   #600 * EPow P2 (EVar vMst2) * EPow P2 (EVar vMt) * EPow P2 (EVar vs2t) - #1024 * EVar vMst2 * EVar vs2t * EPow P3
   (EVar vMt) + #256 * EVar vMt * EPow P3 (EVar vMst2) * EPow P3 (EVar vs2t) + #944 * EPow P4 (EVar vMt) + #123 * EPow
   P4 (EVar vMst2) * EPow P4 (EVar vs2t)) * EPow P6 (EVar vMst2) + #4 * (#73657 * EPow P2 (EVar vMst2) * EPow P2 (EVar
   vMt) * EPow P2 (EVar vs2t) - #316400 * EVar vMst2 * EVar vs2t * EPow P3 (EVar vMt) + #35000 * EVar vMt * EPow P3
   (EVar vMst2) * EPow P3 (EVar vs2t) + #68678 * EPow P4 (EVar vMt) + #11764 * EPow P4 (EVar vMst2) * EPow P4 (EVar
   vs2t)) * EPow P8 (EVar vMst1) + #13440 * EPow P2 (EVar vMt) * (- #2 * EPow P2 (EVar vMt) + EPow P2 (EVar vMst2) *
   EPow P2 (EVar vs2t)) * EPow P8 (EVar vMst2)) - EPow P2 (EVar vDmglst2) * (#14 * EPow P4 (EVar vMst1) * EPow P4
   (EVar vMst2) * (- #28380 * EPow P2 (EVar vMst2) * EPow P2 (EVar vMt) * EPow P2 (EVar vs2t) - #93600 * EVar vMst2 *
   EVar vs2t * EPow P3 (EVar vMt) - #3600 * EVar vMt * EPow P3 (EVar vMst2) * EPow P3 (EVar vs2t) + #9952 * EPow P4
   (EVar vMt) + #195 * EPow P4 (EVar vMst2) * EPow P4 (EVar vs2t)) + #7 * EPow P2 (EVar vMst2) * (#107792 * EPow P2
   (EVar vMst2) * EPow P2 (EVar vMt) * EPow P2 (EVar vs2t) + #47200 * EVar vMst2 * EVar vs2t * EPow P3 (EVar vMt) +
   #32160 * EVar vMt * EPow P3 (EVar vMst2) * EPow P3 (EVar vs2t) - #695632 * EPow P4 (EVar vMt) + #14231 * EPow P4
   (EVar vMst2) * EPow P4 (EVar vs2t)) * EPow P6 (EVar vMst1) - #105 * EPow P2 (EVar vMst1) * (- #2696 * EPow P2 (EVar
   vMst2) * EPow P2 (EVar vMt) * EPow P2 (EVar vs2t) - #6144 * EVar vMst2 * EVar vs2t * EPow P3 (EVar vMt) + #1536 *
   EVar vMt * EPow P3 (EVar vMst2) * EPow P3 (EVar vs2t) + #2832 * EPow P4 (EVar vMt) + #817 * EPow P4 (EVar vMst2) *
   EPow P4 (EVar vs2t)) * EPow P6 (EVar vMst2) + #2 * (- #420096 * EPow P2 (EVar vMst2) * EPow P2 (EVar vMt) * EPow P2
   (EVar vs2t) - #1672160 * EVar vMst2 * EVar vs2t * EPow P3 (EVar vMt) + #68880 * EVar vMt * EPow P3 (EVar vMst2) *
   EPow P3 (EVar vs2t) + #3253120 * EPow P4 (EVar vMt) + #1377 * EPow P4 (EVar vMst2) * EPow P4 (EVar vs2t)) * EPow P8
   (EVar vMst1) + #3360 * (- #40 * EPow P2 (EVar vMst2) * EPow P2 (EVar vMt) * EPow P2 (EVar vs2t) + #80 * EPow P4
   (EVar vMt) + #3 * EPow P4 (EVar vMst2) * EPow P4 (EVar vs2t)) * EPow P8 (EVar vMst2))) - #90 * EVar vDmsqst2 *
   (#2240 * EVar vDmglst2 * EVar vMgl * EVar vMst2 * (- (EVar vMst2 * EVar vMt) + #3 * EVar vs2t * EPow P2 (EVar
   vMst1)) * EPow P3 (EVar vMt) * EPow P6 (EVar vMst1) + #2240 * EVar vMst2 * EPow P2 (EVar vDmglst2) * (- (EVar vMst2
   * EVar vMt) + #3 * EVar vs2t * EPow P2 (EVar vMst1)) * EPow P3 (EVar vMt) * EPow P6 (EVar vMst1) + EPow P2 (EVar
   vMgl) * EPow P4 (EVar vMst1) * (#2 * EPow P4 (EVar vMst1) * (#74 * EPow P2 (EVar vMst2) * EPow P2 (EVar vMt) * EPow
   P2 (EVar vs2t) - #1120 * EVar vMst2 * EVar vs2t * EPow P3 (EVar vMt) + #2736 * EPow P4 (EVar vMt) - #53 * EPow P4
   (EVar vMst2) * EPow P4 (EVar vs2t)) - #7 * EPow P2 (EVar vMst1) * (- #48 * EPow P2 (EVar vMt) * EPow P2 (EVar vs2t)
   * EPow P4 (EVar vMst2) - #144 * EPow P2 (EVar vMst2) * EPow P4 (EVar vMt) + #31 * EPow P4 (EVar vs2t) * EPow P6
   (EVar vMst2)) + #140 * (- #4 * EPow P4 (EVar vMst2) * EPow P4 (EVar vMt) + EPow P4 (EVar vs2t) * EPow P8 (EVar
   vMst2)))))) / (#500094000 * EPow P2 (EVar vMgl) * EPow P4 (EVar vMst1) * EPow P4 (EVar vMt) * EPow P6 (EVar vMst2)).

(** H6b2qg2.cpp:3946-4065 *)
Definition H6b2qg2_coef1 : expr :=
  (#6000 * EPow P2 (EVar vDmsqst2) * EPow P2 (EVar vMgl) * (#72 * (#2 * EVar vMst2 * EVar vs2t * (#3 - #2 * EConst Cz2)
   + EVar vMt * (- #7 + #5 * EConst Cz2)) * EPow P2 (EVar vMst1) + (#36 * EVar vMst2 * EVar vs2t * (#7 - #4 * EConst
   Cz2) + EVar vMt * (- #161 + #108 * EConst Cz2)) * EPow P2 (EVar vMst2)) * EPow P3 (EVar vMt) * EPow P4 (EVar vMst1)
   + #450 * EPow P2 (EVar vMst2) * EPow P2 (ELog (EPow P2 (EVar vMst1) / EPow P2 (EVar vMst2))) * EPow P4 (EVar vMst1)
   * (- #8 * EVar vDmglst2 * EVar vMgl * (#8 * EVar vMt * (- #157 * EVar vMst2 * EVar vs2t * EPow P2 (EVar vMt) - #108
   * EVar vMt * EPow P2 (EVar vMst2) * EPow P2 (EVar vs2t) + #398 * EPow P3 (EVar vMt) - #16 * EPow P3 (EVar vMst2) *
   EPow P3 (EVar vs2t)) * EPow P4 (EVar vMst1) + EPow P4 (EVar vMst2) * (- #320 * EPow P2 (EVar vMst2) * EPow P2 (EVar
   vMt) * EPow P2 (EVar vs2t) + #848 * EVar vMst2 * EVar vs2t * EPow P3 (EVar vMt) - #532 * EVar vMt * EPow P3 (EVar
   vMst2) * EPow P3 (EVar vs2t) + #512 * EPow P4 (EVar vMt) - #99 * EPow P4 (EVar vMst2) * EPow P4 (EVar vs2t)) + EPow
   P2 (EVar vMst1) * EPow P2 (EVar vMst2) * (- #768 * EPow P2 (EVar vMst2) * EPow P2 (EVar vMt) * EPow P2 (EVar vs2t)
   - #448 * EVar vMst2 * EVar vs2t * EPow P3 (EVar vMt) - #212 * EVar vMt * EPow P3 (EVar vMst2) * EPow P3 (EVar vs2t)
   + #1896 * EPow P4 (EVar vMt) + #35 * EPow P4 (EVar vMst2) * EPow P4 (EVar vs2t))) - #4 * EPow P2 (EVar vDmglst2) *
   (#16 * EVar vMt * (- #157 * EVar vMst2 * EVar vs2t * EPow P2 (EVar vMt) - #108 * EVar vMt * EPow P2 (EVar vMst2) *
   EPow P2 (EVar vs2t) + #398 * EPow P3 (EVar vMt) - #16 * EPow P3 (EVar vMst2) * EPow P3 (EVar vs2t)) * EPow P4 (EVar
   vMst1) + EPow P4 (EVar vMst2) * (- #960 * EPow P2 (EVar vMst2) * EPow P2 (EVar vMt) * EPow P2 (EVar vs2t) + #1696 *
   EVar vMst2 * EVar vs2t * EPow P3 (EVar vMt) - #1832 * EVar vMt * EPow P3 (EVar vMst2) * EPow P3 (EVar vs2t) + #1536
   * EPow P4 (EVar vMt) - #297 * EPow P4 (EVar vMst2) * EPow P4 (EVar vs2t)) + EPow P2 (EVar vMst1) * EPow P2 (EVar
   vMst2) * (- #2304 * EPow P2 (EVar vMst2) * EPow P2 (EVar vMt) * EPow P2 (EVar vs2t) + #256 * EVar vMst2 * EVar vs2t
   * EPow P3 (EVar vMt) - #424 * EVar vMt * EPow P3 (EVar vMst2) * EPow P3 (EVar vs2t) + #152 * EPow P4 (EVar vMt) +
   #105 * EPow P4 (EVar vMst2) * EPow P4 (EVar vs2t))) + EPow P2 (EVar vMgl) * (#8 * EPow P2 (EVar vMst1) * EPow P2
   (EVar vMst2) * (#425 * EPow P2 (EVar vMst2) * EPow P2 (EVar vMt) * EPow P2 (EVar vs2t) - #704 * EVar vMst2 * EVar
   vs2t * EPow P3 (EVar vMt) + #212 * EVar vMt * EPow P3 (EVar vMst2) * EPow P3 (EVar vs2t) - #76 * EPow P4 (EVar vMt)
   + #3 * EPow P4 (EVar vMst2) * EPow P4 (EVar vs2t)) + EPow P4 (EVar vMst1) * (#2688 * EPow P2 (EVar vMst2) * EPow P2
   (EVar vMt) * EPow P2 (EVar vs2t) - #5056 * EVar vMst2 * EVar vs2t * EPow P3 (EVar vMt) + #1024 * EVar vMt * EPow P3
   (EVar vMst2) * EPow P3 (EVar vs2t) - #2848 * EPow P4 (EVar vMt) + #41 * EPow P4 (EVar vMst2) * EPow P4 (EVar vs2t))
   + EPow P4 (EVar vMst2) * (#296 * EPow P2 (EVar vMst2) * EPow P2 (EVar vMt) * EPow P2 (EVar vs2t) - #6784 * EVar
   vMst2 * EVar vs2t * EPow P3 (EVar vMt) + #2208 * EVar vMt * EPow P3 (EVar vMst2) * EPow P3 (EVar vs2t) - #672 *
   EPow P4 (EVar vMt) + #519 * EPow P4 (EVar vMst2) * EPow P4 (EVar vs2t)))) + #3000 * EVar vDmsqst2 * EPow P2 (EVar
   vMst1) * (#8 * EVar vDmglst2 * EVar vMgl * EVar vMst2 * EPow P2 (EVar vMst1) * EPow P3 (EVar vMt) * (#36 * EVar
   vMst2 * (EVar vMt * (#33 - #18 * EConst Cz2) + #2 * EVar vMst2 * EVar vs2t * (- #12 + #7 * EConst Cz2)) * EPow P2
   (EVar vMst1) + (EVar vMt * (#283 - #180 * EConst Cz2) + #12 * EVar vMst2 * EVar vs2t * (- #29 + #18 * EConst Cz2))
   * EPow P3 (EVar vMst2) + #18 * EVar vs2t * (- #83 + #44 * EConst Cz2) * EPow P4 (EVar vMst1)) + #8 * EVar vMst2 *
   EPow P2 (EVar vDmglst2) * EPow P2 (EVar vMst1) * EPow P3 (EVar vMt) * (#36 * EVar vMst2 * (EVar vMt * (#33 - #18 *
   EConst Cz2) + #2 * EVar vMst2 * EVar vs2t * (- #12 + #7 * EConst Cz2)) * EPow P2 (EVar vMst1) + (EVar vMt * (#283 -
   #180 * EConst Cz2) + #12 * EVar vMst2 * EVar vs2t * (- #29 + #18 * EConst Cz2)) * EPow P3 (EVar vMst2) + #18 * EVar
   vs2t * (- #83 + #44 * EConst Cz2) * EPow P4 (EVar vMst1)) + #3 * EPow P2 (EVar vMgl) * (#3 * EPow P2 (EVar vMst2) *
   EPow P4 (EVar vMst1) * (#8 * EPow P2 (EVar vMst2) * EPow P2 (EVar vMt) * EPow P2 (EVar vs2t) - #64 * EVar vMst2 *
   EVar vs2t * (- #2 + EConst Cz2) * EPow P3 (EVar vMt) + #16 * (- #9 + #4 * EConst Cz2) * EPow P4 (EVar vMt) + EPow
   P4 (EVar vMst2) * EPow P4 (EVar vs2t)) + EPow P2 (EVar vMst1) * EPow P4 (EVar vMst2) * (- #48 * EPow P2 (EVar
   vMst2) * EPow P2 (EVar vMt) * EPow P2 (EVar vs2t) - #96 * EVar vMst2 * EVar vs2t * (- #3 + #2 * EConst Cz2) * EPow
   P3 (EVar vMt) + #32 * (- #8 + #3 * EConst Cz2) * EPow P4 (EVar vMt) + #3 * EPow P4 (EVar vMst2) * EPow P4 (EVar
   vs2t)) + #3 * (- #16 * EVar vMst2 * EVar vs2t * (- #9 + #4 * EConst Cz2) * EPow P3 (EVar vMt) + #8 * (- #31 + #12 *
   EConst Cz2) * EPow P4 (EVar vMt) - EPow P4 (EVar vMst2) * EPow P4 (EVar vs2t)) * EPow P6 (EVar vMst1) - #3 * EPow
   P2 (- #4 * EPow P2 (EVar vMt) + EPow P2 (EVar vMst2) * EPow P2 (EVar vs2t)) * EPow P6 (EVar vMst2))) + EPow P2
   (EVar vMst2) * (- #100 * EVar vDmglst2 * EVar vMgl * (#2 * EPow P4 (EVar vMst1) * EPow P4 (EVar vMst2) * (#12 * (-
   #3565 + #1728 * EConst Cz2) * EPow P2 (EVar vMst2) * EPow P2 (EVar vMt) * EPow P2 (EVar vs2t) + #8 * EVar vMst2 *
   EVar vs2t * (- #3659 + #252 * EConst Cz2) * EPow P3 (EVar vMt) + #72 * EVar vMt * (- #192 + #91 * EConst Cz2) *
   EPow P3 (EVar vMst2) * EPow P3 (EVar vs2t) + #44 * (#427 + #432 * EConst Cz2) * EPow P4 (EVar vMt) + #9 * (#211 -
   #86 * EConst Cz2) * EPow P4 (EVar vMst2) * EPow P4 (EVar vs2t)) + #6 * EPow P2 (EVar vMst2) * (#4 * (- #1955 +
   #1152 * EConst Cz2) * EPow P2 (EVar vMst2) * EPow P2 (EVar vMt) * EPow P2 (EVar vs2t) - #48 * EVar vMst2 * EVar
   vs2t * (- #13 + #262 * EConst Cz2) * EPow P3 (EVar vMt) + #24 * EVar vMt * (#111 - #17 * EConst Cz2) * EPow P3
   (EVar vMst2) * EPow P3 (EVar vs2t) + #8 * (- #1471 + #3240 * EConst Cz2) * EPow P4 (EVar vMt) + #3 * (- #1 + #86 *
   EConst Cz2) * EPow P4 (EVar vMst2) * EPow P4 (EVar vs2t)) * EPow P6 (EVar vMst1) - #18 * EPow P2 (EVar vMst1) * (-
   #536 * EPow P2 (EVar vMst2) * EPow P2 (EVar vMt) * EPow P2 (EVar vs2t) - #512 * EVar vMst2 * EVar vs2t * EPow P3
   (EVar vMt) + #128 * EVar vMt * EPow P3 (EVar vMst2) * EPow P3 (EVar vs2t) + #560 * EPow P4 (EVar vMt) + #131 * EPow
   P4 (EVar vMst2) * EPow P4 (EVar vs2t)) * EPow P6 (EVar vMst2) + #3 * (#192 * (- #77 + #48 * EConst Cz2) * EPow P2
   (EVar vMst2) * EPow P2 (EVar vMt) * EPow P2 (EVar vs2t) - #48 * EVar vMst2 * EVar vs2t * (- #867 + #1012 * EConst
   Cz2) * EPow P3 (EVar vMt) - #276 * EVar vMt * EPow P3 (EVar vMst2) * EPow P3 (EVar vs2t) + #16 * (- #6445 + #6768 *
   EConst Cz2) * EPow P4 (EVar vMt) - #441 * EPow P4 (EVar vMst2) * EPow P4 (EVar vs2t)) * EPow P8 (EVar vMst1) -
   #2304 * EPow P2 (EVar vMt) * (- #2 * EPow P2 (EVar vMt) + EPow P2 (EVar vMst2) * EPow P2 (EVar vs2t)) * EPow P8
   (EVar vMst2)) + #25 * EPow P2 (EVar vMgl) * (#4 * EPow P4 (EVar vMst1) * EPow P4 (EVar vMst2) * (- #72 * (- #445 +
   #96 * EConst Cz2) * EPow P2 (EVar vMst2) * EPow P2 (EVar vMt) * EPow P2 (EVar vs2t) - #144 * EVar vMst2 * EVar vs2t
   * (- #121 + #296 * EConst Cz2) * EPow P3 (EVar vMt) - #144 * EVar vMt * (- #151 + #19 * EConst Cz2) * EPow P3 (EVar
   vMst2) * EPow P3 (EVar vs2t) + #8 * (- #1993 + #2151 * EConst Cz2 + #216 * EConst Cz3) * EPow P4 (EVar vMt) + #81 *
   (#8 + #5 * EConst Cz2) * EPow P4 (EVar vMst2) * EPow P4 (EVar vs2t)) - #36 * EPow P2 (EVar vMst2) * (- #696 * EPow
   P2 (EVar vMst2) * EPow P2 (EVar vMt) * EPow P2 (EVar vs2t) + #32 * EVar vMst2 * EVar vs2t * (- #179 + #128 * EConst
   Cz2) * EPow P3 (EVar vMt) + #16 * EVar vMt * (#148 - #17 * EConst Cz2) * EPow P3 (EVar vMst2) * EPow P3 (EVar vs2t)
   - #8 * (- #403 + #300 * EConst Cz2) * EPow P4 (EVar vMt) + (#551 + #86 * EConst Cz2) * EPow P4 (EVar vMst2) * EPow
   P4 (EVar vs2t)) * EPow P6 (EVar vMst1) + #36 * EPow P2 (EVar vMst1) * (- #744 * EPow P2 (EVar vMst2) * EPow P2
   (EVar vMt) * EPow P2 (EVar vs2t) - #1024 * EVar vMst2 * EVar vs2t * EPow P3 (EVar vMt) + #256 * EVar vMt * EPow P3
   (EVar vMst2) * EPow P3 (EVar vs2t) + #1232 * EPow P4 (EVar vMt) + #141 * EPow P4 (EVar vMst2) * EPow P4 (EVar
   vs2t)) * EPow P6 (EVar vMst2) + #9 * (#864 * EPow P2 (EVar vMst2) * EPow P2 (EVar vMt) * EPow P2 (EVar vs2t) - #512
   * EVar vMst2 * EVar vs2t * (- #49 + #31 * EConst Cz2) * EPow P3 (EVar vMt) - #784 * EVar vMt * EPow P3 (EVar vMst2)
   * EPow P3 (EVar vs2t) + #8 * (- #2503 + #1408 * EConst Cz2) * EPow P4 (EVar vMt) + (#1547 + #164 * EConst Cz2) *
   EPow P4 (EVar vMst2) * EPow P4 (EVar vs2t)) * EPow P8 (EVar vMst1) + #4608 * EPow P2 (EVar vMt) * (- #2 * EPow P2
   (EVar vMt) + EPow P2 (EVar vMst2) * EPow P2 (EVar vs2t)) * EPow P8 (EVar vMst2)) - #4 * EPow P2 (EVar vDmglst2) *
   (- #2 * EPow P4 (EVar vMst1) * EPow P4 (EVar vMst2) * (- #150 * (- #14251 + #9792 * EConst Cz2) * EPow P2 (EVar
   vMst2) * EPow P2 (EVar vMt) * EPow P2 (EVar vs2t) - #600 * EVar vMst2 * EVar vs2t * (- #2509 + #1278 * EConst Cz2)
   * EPow P3 (EVar vMt) - #300 * EVar vMt * (- #2027 + #1194 * EConst Cz2) * EPow P3 (EVar vMst2) * EPow P3 (EVar
   vs2t) + #4 * (#25949 + #33300 * EConst Cz2) * EPow P4 (EVar vMt) + #75 * (- #838 + #387 * EConst Cz2) * EPow P4
   (EVar vMst2) * EPow P4 (EVar vs2t)) + #25 * EPow P2 (EVar vMst2) * (#12 * (- #11813 + #8064 * EConst Cz2) * EPow P2
   (EVar vMst2) * EPow P2 (EVar vMt) * EPow P2 (EVar vs2t) + #96 * EVar vMst2 * EVar vs2t * (- #1016 + #1395 * EConst
   Cz2) * EPow P3 (EVar vMt) - #24 * EVar vMt * (- #83 + #102 * EConst Cz2) * EPow P3 (EVar vMst2) * EPow P3 (EVar
   vs2t) - #64 * (#347 + #3330 * EConst Cz2) * EPow P4 (EVar vMt) + #3 * (- #415 + #774 * EConst Cz2) * EPow P4 (EVar
   vMst2) * EPow P4 (EVar vs2t)) * EPow P6 (EVar vMst1) - #225 * EPow P2 (EVar vMst1) * (- #408 * EPow P2 (EVar vMst2)
   * EPow P2 (EVar vMt) * EPow P2 (EVar vs2t) + #1024 * EVar vMst2 * EVar vs2t * EPow P3 (EVar vMt) - #256 * EVar vMt
   * EPow P3 (EVar vMst2) * EPow P3 (EVar vs2t) - #720 * EPow P4 (EVar vMt) + #179 * EPow P4 (EVar vMst2) * EPow P4
   (EVar vs2t)) * EPow P6 (EVar vMst2) + #75 * (#192 * (- #77 + #48 * EConst Cz2) * EPow P2 (EVar vMst2) * EPow P2
   (EVar vMt) * EPow P2 (EVar vs2t) - #48 * EVar vMst2 * EVar vs2t * (- #867 + #1012 * EConst Cz2) * EPow P3 (EVar
   vMt) - #276 * EVar vMt * EPow P3 (EVar vMst2) * EPow P3 (EVar vs2t) + #16 * (- #6445 + #6768 * EConst Cz2) * EPow
   P4 (EVar vMt) - #441 * EPow P4 (EVar vMst2) * EPow P4 (EVar vs2t)) * EPow P8 (EVar vMst1) - #3600 * (#8 * EPow P2
   (EVar vMst2) * EPow P2 (EVar vMt) * EPow P2 (EVar vs2t) - #16 * EPow P4 (EVar vMt) + EPow P4 (EVar vMst2) * EPow P4
   (EVar vs2t)) * EPow P8 (EVar vMst2))) + #30 * ELog (EPow P2 (EVar vMst1) / EPow P2 (EVar vMst2)) * (#7200 * EPow P2
   (EVar vDmsqst2) * EPow P2 (EVar vMgl) * (EPow P2 (EVar vMst1) - EPow P2 (EVar vMst2)) * EPow P4 (EVar vMst1) * EPow
   P4 (EVar vMt) - #1800 * EVar vDmsqst2 * (#16 * EVar vDmglst2 * EVar vMgl * EVar vMst2 * (- (EVar vMst2 * EVar vMt)
   + #3 * EVar vs2t * EPow P2 (EVar vMst1)) * EPow P3 (EVar vMt) * EPow P6 (EVar vMst1) + #16 * EVar vMst2 * EPow P2
   (EVar vDmglst2) * (- (EVar vMst2 * EVar vMt) + #3 * EVar vs2t * EPow P2 (EVar vMst1)) * EPow P3 (EVar vMt) * EPow
   P6 (EVar vMst1) + EPow P2 (EVar vMgl) * EPow P4 (EVar vMst1) * (#8 * (#5 * EVar vMt - #2 * EVar vMst2 * EVar vs2t)
   * EPow P3 (EVar vMt) * EPow P4 (EVar vMst1) - #8 * EPow P4 (EVar vMst2) * EPow P4 (EVar vMt) + EPow P2 (EVar vMst1)
   * (#8 * EPow P2 (EVar vMst2) * EPow P4 (EVar vMt) - EPow P4 (EVar vs2t) * EPow P6 (EVar vMst2)) + EPow P4 (EVar
   vs2t) * EPow P8 (EVar vMst2))) + EPow P2 (EVar vMst2) * (- #20 * EVar vDmglst2 * EVar vMgl * (- #4 * EPow P4 (EVar
   vMst1) * EPow P4 (EVar vMst2) * (#1860 * EPow P2 (EVar vMst2) * EPow P2 (EVar vMt) * EPow P2 (EVar vs2t) + #1472 *
   EVar vMst2 * EVar vs2t * EPow P3 (EVar vMt) + #774 * EVar vMt * EPow P3 (EVar vMst2) * EPow P3 (EVar vs2t) - #2464
   * EPow P4 (EVar vMt) + #15 * EPow P4 (EVar vMst2) * EPow P4 (EVar vs2t)) + #2 * EPow P2 (EVar vMst2) * (- #432 *
   EPow P2 (EVar vMst2) * EPow P2 (EVar vMt) * EPow P2 (EVar vs2t) - #11656 * EVar vMst2 * EVar vs2t * EPow P3 (EVar
   vMt) + #996 * EVar vMt * EPow P3 (EVar vMst2) * EPow P3 (EVar vs2t) + #18748 * EPow P4 (EVar vMt) + #207 * EPow P4
   (EVar vMst2) * EPow P4 (EVar vs2t)) * EPow P6 (EVar vMst1) - #3 * EPow P2 (EVar vMst1) * (- #856 * EPow P2 (EVar
   vMst2) * EPow P2 (EVar vMt) * EPow P2 (EVar vs2t) - #1536 * EVar vMst2 * EVar vs2t * EPow P3 (EVar vMt) + #384 *
   EVar vMt * EPow P3 (EVar vMst2) * EPow P3 (EVar vs2t) + #1200 * EPow P4 (EVar vMt) + #203 * EPow P4 (EVar vMst2) *
   EPow P4 (EVar vs2t)) * EPow P6 (EVar vMst2) + #4 * (- #738 * EPow P2 (EVar vMst2) * EPow P2 (EVar vMt) * EPow P2
   (EVar vs2t) - #10004 * EVar vMst2 * EVar vs2t * EPow P3 (EVar vMt) + #135 * EVar vMt * EPow P3 (EVar vMst2) * EPow
   P3 (EVar vs2t) + #17532 * EPow P4 (EVar vMt) + #12 * EPow P4 (EVar vMst2) * EPow P4 (EVar vs2t)) * EPow P8 (EVar
   vMst1) - #768 * EPow P2 (EVar vMt) * (- #2 * EPow P2 (EVar vMt) + EPow P2 (EVar vMst2) * EPow P2 (EVar vs2t)) *
   EPow P8 (EVar vMst2)) + #5 * EPow P2 (EVar vMgl) * (#4 * EPow P4 (EVar vMst1) * EPow P4 (EVar vMst2) * (#3372 *
   EPow P2 (EVar vMst2) * EPow P2 (EVar vMt) * EPow P2 (EVar vs2t) - #9024 * EVar vMst2 * EVar vs2t * EPow P3 (EVar
   vMt) + #3912 * EVar vMt * EPow P3 (EVar vMst2) * EPow P3 (EVar vs2t) + #6112 * EPow P4 (EVar vMt) + #579 * EPow P4
   (EVar vMst2) * EPow P4 (EVar vs2t)) - #24 * EPow P2 (EVar vMst2) * (- #534 * EPow P2 (EVar vMst2) * EPow P2 (EVar
   vMt) * EPow P2 (EVar vs2t) + #1824 * EVar vMst2 * EVar vs2t * EPow P3 (EVar vMt) - #60 * EVar vMt * EPow P3 (EVar
   vMst2) * EPow P3 (EVar vs2t) - #934 * EPow P4 (EVar vMt) + #97 * EPow P4 (EVar vMst2) * EPow P4 (EVar vs2t)) * EPow
   P6 (EVar vMst1) + #6 * EPow P2 (EVar vMst1) * (- #728 * EPow P2 (EVar vMst2) * EPow P2 (EVar vMt) * EPow P2 (EVar
   vs2t) - #1024 * EVar vMst2 * EVar vs2t * EPow P3 (EVar vMt) + #256 * EVar vMt * EPow P3 (EVar vMst2) * EPow P3
   (EVar vs2t) + #1200 * EPow P4 (EVar vMt) + #139 * EPow P4 (EVar vMst2) * EPow P4 (EVar vs2t)) * EPow P6 (EVar
   vMst2) + #3 * (#4640 * EPow P2 (EVar vMst2) * EPow P2 (EVar vMt) * EPow P2 (EVar vs2t) - #15296 * EVar vMst2 * EVar
   vs2t * EPow P3 (EVar vMt) + #240 * EVar vMt * EPow P3 (EVar vMst2) * EPow P3 (EVar vs2t) + #7128 * EPow P4 (EVar
   vMt) - #279 * EPow P4 (EVar vMst2) * EPow P4 (EVar vs2t)) * EPow P8 (EVar vMst1) + #768 * EPow P2 (EVar vMt) * (-
   #2 * EPow P2 (EVar vMt) + EPow P2 (EVar vMst2) * EPow P2 (EVar vs2t)) * EPow P8 (EVar vMst2)) - #2 * EPow P2 (EVar
   vDmglst2) * (#2 * EPow P4 (EVar vMst1) * EPow P4 (EVar vMst2) * (- #40440 * EPow P2 (EVar vMst2) * EPow P2 (EVar
   vMt) * EPow P2 (EVar vs2t) - #75360 * EVar vMst2 * EVar vs2t * EPow P3 (EVar vMt) - #5760 * EVar vMt * EPow P3
   (EVar vMst2) * EPow P3 (EVar vs2t) + #11872 * EPow P4 (EVar vMt) + #4335 * EPow P4 (EVar vMst2) * EPow P4 (EVar
   vs2t)) + #2 * EPow P2 (EVar vMst2) * (#29760 * EPow P2 (EVar vMst2) * EPow P2 (EVar vMt) * EPow P2 (EVar vs2t) +
   #31000 * EVar vMst2 * EVar vs2t * EPow P3 (EVar vMt) + #15840 * EVar vMt * EPow P3 (EVar vMst2) * EPow P3 (EVar
   vs2t) - #228452 * EPow P4 (EVar vMt) + #1065 * EPow P4 (EVar vMst2) * EPow P4 (EVar vs2t)) * EPow P6 (EVar vMst1) -
   #15 * EPow P2 (EVar vMst1) * (- #3080 * EPow P2 (EVar vMst2) * EPow P2 (EVar vMt) * EPow P2 (EVar vs2t) - #6144 *
   EVar vMst2 * EVar vs2t * EPow P3 (EVar vMt) + #1536 * EVar vMt * EPow P3 (EVar vMst2) * EPow P3 (EVar vs2t) + #3600
   * EPow P4 (EVar vMt) + #865 * EPow P4 (EVar vMst2) * EPow P4 (EVar vs2t)) * EPow P6 (EVar vMst2) + #40 * (- #738 *
   EPow P2 (EVar vMst2) * EPow P2 (EVar vMt) * EPow P2 (EVar vs2t) - #10004 * EVar vMst2 * EVar vs2t * EPow P3 (EVar
   vMt) + #135 * EVar vMt * EPow P3 (EVar vMst2) * EPow P3 (EVar vs2t) + #17532 * EPow P4 (EVar vMt) + #12 * EPow P4
   (EVar vMst2) * EPow P4 (EVar vs2t)) * EPow P8 (EVar vMst1) + #480 * (- #40 * EPow P2 (EVar vMst2) * EPow P2 (EVar
   vMt) * EPow P2 (EVar vs2t) + #80 * EPow P4 (EVar vMt) + #3 * EPow P4 (EVar vMst2) * EPow P4 (EVar vs2t)) * EPow P8
   (EVar vMst2))))) / (#1350 * EPow P2 (EVar vMgl) * EPow P4 (EVar vMst1) * EPow P4 (EVar vMt) * EPow P6 (EVar vMst2)).

(** H6b2qg2.cpp:4070-4142 *)
Definition H6b2qg2_coef2 : expr :=
  (- #3600 * EPow P2 (EVar vDmsqst2) * EPow P2 (EVar vMgl) * EPow P4 (EVar vMst1) * EPow P4 (EVar vMt) + #7200 * EVar
   vDmsqst2 * EPow P2 (EVar vMgl) * EPow P2 (EVar vMst2) * EPow P4 (EVar vMst1) * EPow P4 (EVar vMt) - #48160 * EVar
   vDmglst2 * EVar vMgl * EPow P4 (EVar vMst1) * EPow P4 (EVar vMst2) * EPow P4 (EVar vMt) - #29264 * EPow P2 (EVar
   vDmglst2) * EPow P4 (EVar vMst1) * EPow P4 (EVar vMst2) * EPow P4 (EVar vMt) + #21280 * EPow P2 (EVar vMgl) * EPow
   P4 (EVar vMst1) * EPow P4 (EVar vMst2) * EPow P4 (EVar vMt) - #1440 * EPow P12 (EVar vMst2) * EPow P2 (EVar
   vDmglst2) * EPow P4 (EVar vs2t) + #46400 * EVar vDmglst2 * EVar vMgl * EVar vs2t * EPow P3 (EVar vMt) * EPow P4
   (EVar vMst1) * EPow P5 (EVar vMst2) + #98880 * EVar vs2t * EPow P2 (EVar vDmglst2) * EPow P3 (EVar vMt) * EPow P4
   (EVar vMst1) * EPow P5 (EVar vMst2) - #24000 * EVar vs2t * EPow P2 (EVar vMgl) * EPow P3 (EVar vMt) * EPow P4 (EVar
   vMst1) * EPow P5 (EVar vMst2) + #74880 * EVar vDmglst2 * EVar vMgl * EVar vs2t * EPow P3 (EVar vMst2) * EPow P3
   (EVar vMt) * EPow P6 (EVar vMst1) - #38400 * EVar vs2t * EPow P2 (EVar vDmglst2) * EPow P3 (EVar vMst2) * EPow P3
   (EVar vMt) * EPow P6 (EVar vMst1) + #1920 * EVar vs2t * EPow P2 (EVar vMgl) * EPow P3 (EVar vMst2) * EPow P3 (EVar
   vMt) * EPow P6 (EVar vMst1) - #14160 * EVar vDmglst2 * EVar vMgl * EPow P2 (EVar vMt) * EPow P2 (EVar vs2t) * EPow
   P4 (EVar vMst2) * EPow P6 (EVar vMst1) - #13560 * EPow P2 (EVar vDmglst2) * EPow P2 (EVar vMt) * EPow P2 (EVar
   vs2t) * EPow P4 (EVar vMst2) * EPow P6 (EVar vMst1) - #9000 * EPow P2 (EVar vMgl) * EPow P2 (EVar vMt) * EPow P2
   (EVar vs2t) * EPow P4 (EVar vMst2) * EPow P6 (EVar vMst1) - #100800 * EVar vDmglst2 * EVar vMgl * EPow P2 (EVar
   vMst2) * EPow P4 (EVar vMt) * EPow P6 (EVar vMst1) + #161120 * EPow P2 (EVar vDmglst2) * EPow P2 (EVar vMst2) *
   EPow P4 (EVar vMt) * EPow P6 (EVar vMst1) - #10080 * EPow P2 (EVar vMgl) * EPow P2 (EVar vMst2) * EPow P4 (EVar
   vMt) * EPow P6 (EVar vMst1) - #31200 * EVar vDmglst2 * EVar vMgl * EVar vMt * EPow P3 (EVar vs2t) * EPow P5 (EVar
   vMst2) * EPow P6 (EVar vMst1) - #42720 * EVar vMt * EPow P2 (EVar vDmglst2) * EPow P3 (EVar vs2t) * EPow P5 (EVar
   vMst2) * EPow P6 (EVar vMst1) - #23520 * EVar vMt * EPow P2 (EVar vMgl) * EPow P3 (EVar vs2t) * EPow P5 (EVar
   vMst2) * EPow P6 (EVar vMst1) + #82080 * EVar vDmglst2 * EVar vMgl * EPow P2 (EVar vMt) * EPow P2 (EVar vs2t) *
   EPow P4 (EVar vMst1) * EPow P6 (EVar vMst2) + #115440 * EPow P2 (EVar vDmglst2) * EPow P2 (EVar vMt) * EPow P2
   (EVar vs2t) * EPow P4 (EVar vMst1) * EPow P6 (EVar vMst2) + #42960 * EPow P2 (EVar vMgl) * EPow P2 (EVar vMt) *
   EPow P2 (EVar vs2t) * EPow P4 (EVar vMst1) * EPow P6 (EVar vMst2) + #43680 * EVar vDmglst2 * EVar vMgl * EPow P2
   (EVar vMst1) * EPow P4 (EVar vMt) * EPow P6 (EVar vMst2) + #65520 * EPow P2 (EVar vDmglst2) * EPow P2 (EVar vMst1)
   * EPow P4 (EVar vMt) * EPow P6 (EVar vMst2) + #21840 * EPow P2 (EVar vMgl) * EPow P2 (EVar vMst1) * EPow P4 (EVar
   vMt) * EPow P6 (EVar vMst2) + #1110 * EVar vDmglst2 * EVar vMgl * EPow P4 (EVar vs2t) * EPow P6 (EVar vMst1) * EPow
   P6 (EVar vMst2) + #5505 * EPow P2 (EVar vDmglst2) * EPow P4 (EVar vs2t) * EPow P6 (EVar vMst1) * EPow P6 (EVar
   vMst2) - #5325 * EPow P2 (EVar vMgl) * EPow P4 (EVar vs2t) * EPow P6 (EVar vMst1) * EPow P6 (EVar vMst2) - #30 *
   ELog (EPow P2 (EVar vMst1) / EPow P2 (EVar vMst2)) * EPow P4 (EVar vMst1) * (EPow P2 (EVar vMgl) * (- #4 * EPow P4
   (EVar vMst2) * (#14 * EPow P2 (EVar vMst2) * EPow P2 (EVar vMt) * EPow P2 (EVar vs2t) - #456 * EVar vMst2 * EVar
   vs2t * EPow P3 (EVar vMt) + #146 * EVar vMt * EPow P3 (EVar vMst2) * EPow P3 (EVar vs2t) - #166 * EPow P4 (EVar
   vMt) + #33 * EPow P4 (EVar vMst2) * EPow P4 (EVar vs2t)) + EPow P4 (EVar vMst1) * (- #768 * EPow P2 (EVar vMst2) *
   EPow P2 (EVar vMt) * EPow P2 (EVar vs2t) + #1216 * EVar vMst2 * EVar vs2t * EPow P3 (EVar vMt) + #400 * EPow P4
   (EVar vMt) + #41 * EPow P4 (EVar vMst2) * EPow P4 (EVar vs2t)) + EPow P2 (EVar vMst1) * EPow P2 (EVar vMst2) * (-
   #1096 * EPow P2 (EVar vMst2) * EPow P2 (EVar vMt) * EPow P2 (EVar vs2t) + #1280 * EVar vMst2 * EVar vs2t * EPow P3
   (EVar vMt) - #328 * EVar vMt * EPow P3 (EVar vMst2) * EPow P3 (EVar vs2t) + #32 * EPow P4 (EVar vMt) + #91 * EPow
   P4 (EVar vMst2) * EPow P4 (EVar vs2t))) + #2 * EVar vDmglst2 * EVar vMgl * (#32 * EPow P2 (EVar vMt) * (- #57 *
   EVar vMst2 * EVar vMt * EVar vs2t + #119 * EPow P2 (EVar vMt) - #24 * EPow P2 (EVar vMst2) * EPow P2 (EVar vs2t)) *
   EPow P4 (EVar vMst1) + EPow P4 (EVar vMst2) * (- #384 * EPow P2 (EVar vMst2) * EPow P2 (EVar vMt) * EPow P2 (EVar
   vs2t) + #912 * EVar vMst2 * EVar vs2t * EPow P3 (EVar vMt) - #548 * EVar vMt * EPow P3 (EVar vMst2) * EPow P3 (EVar
   vs2t) + #512 * EPow P4 (EVar vMt) - #91 * EPow P4 (EVar vMst2) * EPow P4 (EVar vs2t)) + EPow P2 (EVar vMst1) * EPow
   P2 (EVar vMst2) * (- #768 * EPow P2 (EVar vMst2) * EPow P2 (EVar vMt) * EPow P2 (EVar vs2t) - #640 * EVar vMst2 *
   EVar vs2t * EPow P3 (EVar vMt) - #164 * EVar vMt * EPow P3 (EVar vMst2) * EPow P3 (EVar vs2t) + #2016 * EPow P4
   (EVar vMt) + #91 * EPow P4 (EVar vMst2) * EPow P4 (EVar vs2t))) + EPow P2 (EVar vDmglst2) * (#64 * EPow P2 (EVar
   vMt) * (- #57 * EVar vMst2 * EVar vMt * EVar vs2t + #119 * EPow P2 (EVar vMt) - #24 * EPow P2 (EVar vMst2) * EPow
   P2 (EVar vs2t)) * EPow P4 (EVar vMst1) + EPow P4 (EVar vMst2) * (- #1152 * EPow P2 (EVar vMst2) * EPow P2 (EVar
   vMt) * EPow P2 (EVar vs2t) + #1824 * EVar vMst2 * EVar vs2t * EPow P3 (EVar vMt) - #1864 * EVar vMt * EPow P3 (EVar
   vMst2) * EPow P3 (EVar vs2t) + #1536 * EPow P4 (EVar vMt) - #273 * EPow P4 (EVar vMst2) * EPow P4 (EVar vs2t)) +
   EPow P2 (EVar vMst1) * (- #2304 * EPow P2 (EVar vMt) * EPow P2 (EVar vs2t) * EPow P4 (EVar vMst2) + #32 * EPow P2
   (EVar vMst2) * EPow P4 (EVar vMt) - #328 * EVar vMt * EPow P3 (EVar vs2t) * EPow P5 (EVar vMst2) + #273 * EPow P4
   (EVar vs2t) * EPow P6 (EVar vMst2)))) - #46080 * EVar vDmglst2 * EVar vMgl * EVar vs2t * EPow P2 (EVar vMst1) *
   EPow P3 (EVar vMt) * EPow P7 (EVar vMst2) - #92160 * EVar vs2t * EPow P2 (EVar vDmglst2) * EPow P2 (EVar vMst1) *
   EPow P3 (EVar vMt) * EPow P7 (EVar vMst2) - #15360 * EVar vs2t * EPow P2 (EVar vMgl) * EPow P2 (EVar vMst1) * EPow
   P3 (EVar vMt) * EPow P7 (EVar vMst2) + #19680 * EVar vDmglst2 * EVar vMgl * EVar vMt * EPow P3 (EVar vs2t) * EPow
   P4 (EVar vMst1) * EPow P7 (EVar vMst2) + #19680 * EVar vMt * EPow P2 (EVar vDmglst2) * EPow P3 (EVar vs2t) * EPow
   P4 (EVar vMst1) * EPow P7 (EVar vMst2) + #19680 * EVar vMt * EPow P2 (EVar vMgl) * EPow P3 (EVar vs2t) * EPow P4
   (EVar vMst1) * EPow P7 (EVar vMst2) + #67200 * EVar vDmglst2 * EVar vMgl * EVar vMst2 * EVar vs2t * EPow P3 (EVar
   vMt) * EPow P8 (EVar vMst1) + #67200 * EVar vMst2 * EVar vs2t * EPow P2 (EVar vDmglst2) * EPow P3 (EVar vMt) * EPow
   P8 (EVar vMst1) + #1920 * EVar vMst2 * EVar vs2t * EPow P2 (EVar vMgl) * EPow P3 (EVar vMt) * EPow P8 (EVar vMst1)
   - #112320 * EVar vDmglst2 * EVar vMgl * EPow P4 (EVar vMt) * EPow P8 (EVar vMst1) - #112320 * EPow P2 (EVar
   vDmglst2) * EPow P4 (EVar vMt) * EPow P8 (EVar vMst1) - #12000 * EPow P2 (EVar vMgl) * EPow P4 (EVar vMt) * EPow P8
   (EVar vMst1) + #1770 * EVar vDmglst2 * EVar vMgl * EPow P4 (EVar vMst2) * EPow P4 (EVar vs2t) * EPow P8 (EVar
   vMst1) + #1770 * EPow P2 (EVar vDmglst2) * EPow P4 (EVar vMst2) * EPow P4 (EVar vs2t) * EPow P8 (EVar vMst1) +
   #3585 * EPow P2 (EVar vMgl) * EPow P4 (EVar vMst2) * EPow P4 (EVar vs2t) * EPow P8 (EVar vMst1) - #29520 * EVar
   vDmglst2 * EVar vMgl * EPow P2 (EVar vMst1) * EPow P2 (EVar vMt) * EPow P2 (EVar vs2t) * EPow P8 (EVar vMst2) -
   #51960 * EPow P2 (EVar vDmglst2) * EPow P2 (EVar vMst1) * EPow P2 (EVar vMt) * EPow P2 (EVar vs2t) * EPow P8 (EVar
   vMst2) - #12840 * EPow P2 (EVar vMgl) * EPow P2 (EVar vMst1) * EPow P2 (EVar vMt) * EPow P2 (EVar vs2t) * EPow P8
   (EVar vMst2) - #15360 * EVar vDmglst2 * EVar vMgl * EPow P4 (EVar vMt) * EPow P8 (EVar vMst2) - #38400 * EPow P2
   (EVar vDmglst2) * EPow P4 (EVar vMt) * EPow P8 (EVar vMst2) - #3840 * EPow P2 (EVar vMgl) * EPow P4 (EVar vMt) *
   EPow P8 (EVar vMst2) - #8490 * EVar vDmglst2 * EVar vMgl * EPow P4 (EVar vMst1) * EPow P4 (EVar vs2t) * EPow P8
   (EVar vMst2) - #18495 * EPow P2 (EVar vDmglst2) * EPow P4 (EVar vMst1) * EPow P4 (EVar vs2t) * EPow P8 (EVar vMst2)
   - #345 * EPow P2 (EVar vMgl) * EPow P4 (EVar vMst1) * EPow P4 (EVar vs2t) * EPow P8 (EVar vMst2) + #11520 * EVar
   vDmglst2 * EVar vMgl * EVar vMt * EPow P2 (EVar vMst1) * EPow P3 (EVar vs2t) * EPow P9 (EVar vMst2) + #23040 * EVar
   vMt * EPow P2 (EVar vDmglst2) * EPow P2 (EVar vMst1) * EPow P3 (EVar vs2t) * EPow P9 (EVar vMst2) + #3840 * EVar
   vMt * EPow P2 (EVar vMgl) * EPow P2 (EVar vMst1) * EPow P3 (EVar vs2t) * EPow P9 (EVar vMst2) + #7680 * EVar
   vDmglst2 * EVar vMgl * EPow P2 (EVar vMt) * EPow P2 (EVar vs2t) * EPow P10 (EVar vMst2) + #19200 * EPow P2 (EVar
   vDmglst2) * EPow P2 (EVar vMt) * EPow P2 (EVar vs2t) * EPow P10 (EVar vMst2) + #1920 * EPow P2 (EVar vMgl) * EPow
   P2 (EVar vMt) * EPow P2 (EVar vs2t) * EPow P10 (EVar vMst2) + #6570 * EVar vDmglst2 * EVar vMgl * EPow P2 (EVar
   vMst1) * EPow P4 (EVar vs2t) * EPow P10 (EVar vMst2) + #13695 * EPow P2 (EVar vDmglst2) * EPow P2 (EVar vMst1) *
   EPow P4 (EVar vs2t) * EPow P10 (EVar vMst2) + #2325 * EPow P2 (EVar vMgl) * EPow P2 (EVar vMst1) * EPow P4 (EVar
   vs2t) * EPow P10 (EVar vMst2)) / (#45 * EPow P2 (EVar vMgl) * EPow P4 (EVar vMst1) * EPow P4 (EVar vMst2) * EPow P4
   (EVar vMt)).

(** H6b2qg2.cpp:4147-4153 *)
Definition H6b2qg2_coef3 : expr :=
  - EDec 2986666666666667 13.

(** the constructor, H6b2qg2.cpp:38-70: value of each data member (members it does not assign are zero, H6b2qg2.hpp) *)
Definition H6b2qg2_ctor {T : Type} {N : Num T} (d : Depth) (a_Al4p a_beta a_Dmglst2 a_Dmsqst2 a_lmMt a_lmMst1 a_lmMst2
   a_Mgl a_Mt a_Mst1 a_Mst2 a_MuSUSY a_s2t : T) (mdr f1 f2 f3 : Z) (v : hvar) : T :=
  match v with
  | vTbeta => ntan a_beta
  | vSbeta => nsin a_beta
  | vDmglst2 => a_Dmglst2
  | vDmsqst2 => a_Dmsqst2
  | vlmMt => a_lmMt
  | vlmMst1 => a_lmMst1
  | vlmMst2 => a_lmMst2
  | vMgl => a_Mgl
  | vMt => a_Mt
  | vMst1 => a_Mst1
  | vMst2 => a_Mst2
  | vMuSUSY => a_MuSUSY
  | vs2t => a_s2t
  | voneLoopFlag => nint f1
  | vtwoLoopFlag => nint f2
  | vthreeLoopFlag => nint f3
  | vAl4p => a_Al4p
  | vshiftst1 => nint mdr
  | vshiftst2 => nint mdr
  | vshiftst3 => nint mdr
  | vxDR2DRMOD => nint mdr
  | vxDmglst2 => nint (x_Dmglst2 d)
  | vxDmsqst2 => nint (x_Dmsqst2 d)
  | vxMst => nint (x_Mst d)
  | _ => nint 0
  end.
