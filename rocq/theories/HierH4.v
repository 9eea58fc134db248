(** * Class H4
    GENERATED by tools/gen_hier.py from source/himalaya/hierarchies/H4.cpp (expressions are transcribed operator by operator;
    no subexpression is an integer division, and integer subexpressions stay below 2^31 when the flags are 0 or 1). *)
From Coq Require Import ZArith List.
From Verif Require Import Num HierExpr HierCalc.
Local Open Scope hx_scope.

(** H4.cpp:65-70 *)
Definition H4_getS1 : expr :=
  #2 * EVar vthreeLoopFlag * EVar vxAt * EPow P2 (EVar vAl4p) * EPow P2 (EVar vAt) * (#349 - #56 * EVar vlmMsusy + #24 *
   EVar vlmMt - #282 * EConst Cz3 - #32 * EPow P2 (EVar vlmMsusy)) * EPow P4 (EVar vMt) * (EPow P12 (EVar vSbeta) +
   EPow P2 (EVar vCbeta) * (EPow P2 (EVar vSbeta) + EPow P4 (EVar vSbeta) + EPow P6 (EVar vSbeta) + EPow P8 (EVar
   vSbeta) + EPow P10 (EVar vSbeta))) / (#27 * EPow P2 (EVar vCbeta) * EPow P2 (EVar vMsusy)).

(** H4.cpp:75-113 *)
Definition H4_getS2 : expr :=
  - (EPow P4 (EVar vMt) * ((EVar vlmMsusy - EVar vlmMt) * EVar voneLoopFlag + #8 * EVar vAl4p * EVar vtwoLoopFlag *
   (EVar vAt * (#1 + EVar vlmMsusy + EVar vlmMt) + EVar vMsusy * (#1 + EVar vlmMsusy - EVar vlmMt + #2 * EVar vlmMsusy
   * EVar vlmMt + EPow P2 (EVar vlmMsusy) - #3 * EPow P2 (EVar vlmMt))) / (#3 * EVar vMsusy) + EVar vthreeLoopFlag *
   EPow P2 (EVar vAl4p) * (EDec 20474074074074073 14 + #800 * EVar vlmMsq / #9 + #4 * (#1 - #2 * EVar vlmMsusy) * EVar
   vshiftst3 / #3 - #400 * EPow P2 (EVar vlmMsq) / #9 + #8 * EVar vlmMsusy * (- #554 + #270 * EVar vlmMsq + #135 *
   EPow P2 (EVar vlmMsq)) / #81 - #1288 * EPow P2 (EVar vlmMsusy) / #27 - #8 * EVar vlmMt * (#125 - #71 * EVar
   vlmMsusy + #30 * EVar vlmMsq * (- #7 + #3 * EVar vlmMsusy) + #39 * EPow P2 (EVar vlmMsusy)) / #27 + #8 * (- #18 +
   #5 * EVar vlmMsq + #23 * EVar vlmMsusy) * EPow P2 (EVar vlmMt) / #3 + #8 * (#10589 + EVar vlmMsusy * (#4910 - #3750
   * EVar vlmMt) - #2250 * EVar vlmMt + #10 * EVar vlmMsq * (- #266 + #285 * EVar vlmMsusy + #375 * EVar vlmMt) -
   #3300 * EPow P2 (EVar vlmMsq) + #450 * EPow P2 (EVar vlmMsusy)) * EPow P2 (EVar vMsusy) / (#675 * EPow P2 (EVar
   vMsq)) + #2 * (- #636 * EVar vAt * EVar vMsusy * EConst Cz3 + EVar vxAt * EPow P2 (EVar vAt) * (- #349 + #56 * EVar
   vlmMsusy - #24 * EVar vlmMt + #282 * EConst Cz3 + #32 * EPow P2 (EVar vlmMsusy)) - #180 * (- #1 + #2 * EVar vlmMsq)
   * (- #2 + EVar vshiftst1 + EVar vshiftst2) * EVar vxMsq * EPow P2 (EVar vMsq) - #24 * (- #1 + #6 * EVar vlmMsusy -
   #6 * EVar vlmMt) * EConst Cz3 * EPow P2 (EVar vMsusy)) / (#27 * EPow P2 (EVar vMsusy)) - #40 * EPow P3 (EVar
   vlmMsq) / #9 + #16 * EVar vxlmMsusy * EPow P3 (EVar vlmMsusy) - #184 * EPow P3 (EVar vlmMt) / #3 - #4 * (- #85750 *
   EVar vAt * (- #33 + #2 * EVar vlmMsusy * (- #11 + #6 * EVar vlmMt) - #2 * EVar vlmMsq * (- #11 + #6 * EVar vlmMsusy
   + #6 * EVar vlmMt) + #12 * EPow P2 (EVar vlmMsq)) + EVar vMsusy * (- #5638838 + #385875 * EVar vlmMt - #70 * EVar
   vlmMsq * (- #47521 + #20685 * EVar vlmMsusy + #25725 * EVar vlmMt) + #35 * EVar vlmMsusy * (- #106067 + #51450 *
   EVar vlmMt) + #1624350 * EPow P2 (EVar vlmMsq) - #176400 * EPow P2 (EVar vlmMsusy))) * EPow P3 (EVar vMsusy) /
   (#231525 * EPow P4 (EVar vMsq)) - #10 * (- #222264 * EVar vAt * (- #17 + #2 * EVar vlmMsusy * (- #7 + #3 * EVar
   vlmMt) - #2 * EVar vlmMsq * (- #7 + #3 * EVar vlmMsusy + #3 * EVar vlmMt) + #6 * EPow P2 (EVar vlmMsq)) + EVar
   vMsusy * (- #6262157 + #222264 * EVar vlmMt + #252 * EVar vlmMsusy * (- #20233 + #7938 * EVar vlmMt) - #252 * EVar
   vlmMsq * (- #19351 + #6678 * EVar vlmMsusy + #7938 * EVar vlmMt) + #1841616 * EPow P2 (EVar vlmMsq) - #158760 *
   EPow P2 (EVar vlmMsusy))) * EPow P5 (EVar vMsusy) / (#750141 * EPow P6 (EVar vMsq)) + (EVar vxMsusy * (EDec
   7653372960293683 14 - #687056 * EVar vlmMsq / #9801 + (EDec 7176726864605652 14 + #700 * EVar vlmMsq / #33) * EVar
   vlmMsusy + #5 * (- #3 + #44 * EVar vlmMsq - #44 * EVar vlmMsusy) * EVar vlmMt / #9 - #2260 * EPow P2 (EVar vlmMsq)
   / #99 + #160 * EPow P2 (EVar vlmMsusy) / #99) * EPow P8 (EVar vMsusy) + #2 * EVar vAt * (#240 * (- #9 + EVar vlmMsq
   * (#4 - #3 * EVar vlmMsusy - #3 * EVar vlmMt) + EVar vlmMsusy * (- #4 + #3 * EVar vlmMt) + #3 * EPow P2 (EVar
   vlmMsq)) * EPow P2 (EVar vMsusy) * EPow P6 (EVar vMsq) + #8 * (#104 + #157 * EVar vlmMsusy + #84 * EVar vlmMt + #24
   * EVar vlmMsusy * EVar vlmMt - #30 * EVar vlmMsq * (#5 + #6 * EVar vlmMsusy + #3 * EVar vlmMt) + #135 * EPow P2
   (EVar vlmMsq) + #228 * EPow P2 (EVar vlmMsusy) + #108 * EPow P2 (EVar vlmMt)) * EPow P8 (EVar vMsq) + #5 * (- #419
   + #36 * EVar vlmMsusy * (- #11 + #4 * EVar vlmMt) - #36 * EVar vlmMsq * (- #11 + #4 * EVar vlmMsusy + #4 * EVar
   vlmMt) + #144 * EPow P2 (EVar vlmMsq)) * EPow P8 (EVar vMsusy)) / (#81 * EVar vMsusy) - #8 * EConst Cz2 * (#100 *
   EPow P4 (EVar vMsusy) * EPow P6 (EVar vMsq) + #70 * EPow P4 (EVar vMsq) * EPow P6 (EVar vMsusy) + #3 * (#30 + #20 *
   EVar vlmMsq - #10 * (EVar vlmMsusy + EVar vlmMt) + EVar vshiftst3) * EPow P2 (EVar vMsusy) * EPow P8 (EVar vMsq) -
   #20 * EVar vAt * (#2 * EPow P3 (EVar vMsusy) * (EPow P2 (EVar vMsusy) * EPow P4 (EVar vMsq) + EPow P2 (EVar vMsq) *
   EPow P4 (EVar vMsusy) + EPow P6 (EVar vMsq) + EPow P6 (EVar vMsusy)) + #3 * EVar vMsusy * EPow P8 (EVar vMsq)) +
   #60 * EPow P2 (EVar vMsq) * EPow P8 (EVar vMsusy) + #30 * (- #2 + EVar vshiftst1 + EVar vshiftst2) * EVar vxMsq *
   EPow P10 (EVar vMsq) + #55 * EVar vxMsusy * EPow P10 (EVar vMsusy)) / (#9 * EPow P2 (EVar vMsusy))) / EPow P8 (EVar
   vMsq)))).

(** H4.cpp:118-132 *)
Definition H4_getS12 : expr :=
  EVar vAl4p * EVar vAt * EVar vSbeta * EPow P4 (EVar vMt) * (#108 * (#1 + EVar vlmMsusy + EVar vlmMt) * EVar vMsusy *
   EVar vtwoLoopFlag * EPow P8 (EVar vMsq) - EVar vAl4p * EVar vthreeLoopFlag * (#60 * (#33 - #22 * EVar vlmMsq + #2 *
   EVar vlmMsusy * (#11 - #6 * EVar vlmMt) + #12 * EVar vlmMsq * (EVar vlmMsusy + EVar vlmMt) - #24 * EConst Cz2 - #12
   * EPow P2 (EVar vlmMsq)) * EPow P4 (EVar vMsq) * EPow P5 (EVar vMsusy) + #240 * (#9 - #4 * EVar vlmMsq + EVar
   vlmMsusy * (#4 - #3 * EVar vlmMt) + #3 * EVar vlmMsq * (EVar vlmMsusy + EVar vlmMt) - #6 * EConst Cz2 - #3 * EPow
   P2 (EVar vlmMsq)) * EPow P3 (EVar vMsusy) * EPow P6 (EVar vMsq) + #120 * (#17 - #14 * EVar vlmMsq + #2 * EVar
   vlmMsusy * (#7 - #3 * EVar vlmMt) + #6 * EVar vlmMsq * (EVar vlmMsusy + EVar vlmMt) - #12 * EConst Cz2 - #6 * EPow
   P2 (EVar vlmMsq)) * EPow P2 (EVar vMsq) * EPow P7 (EVar vMsusy) - #2 * (#3 * EVar vAt * EVar vxAt * (- #349 + #56 *
   EVar vlmMsusy - #24 * EVar vlmMt + #282 * EConst Cz3 + #32 * EPow P2 (EVar vlmMsusy)) + #2 * EVar vMsusy * (#208 +
   #314 * EVar vlmMsusy + #24 * (#7 + #2 * EVar vlmMsusy) * EVar vlmMt - #60 * EVar vlmMsq * (#5 + #6 * EVar vlmMsusy
   + #3 * EVar vlmMt) + #540 * EConst Cz2 - #477 * EConst Cz3 + #270 * EPow P2 (EVar vlmMsq) + #456 * EPow P2 (EVar
   vlmMsusy) + #216 * EPow P2 (EVar vlmMt))) * EPow P8 (EVar vMsq) + #5 * (#419 + #36 * EVar vlmMsusy * (#11 - #4 *
   EVar vlmMt) + #36 * EVar vlmMsq * (- #11 + #4 * EVar vlmMsusy + #4 * EVar vlmMt) - #288 * EConst Cz2 - #144 * EPow
   P2 (EVar vlmMsq)) * EPow P9 (EVar vMsusy))) / (#81 * EVar vCbeta * EPow P2 (EVar vMsusy) * EPow P8 (EVar vMsq)).

(** H4.cpp:137-156 *)
Definition H4_coef0 : expr :=
  - (EPow P4 (EVar vMt) * (- #591666768 * (- #10589 + #7500 * EConst Cz2) * EPow P4 (EVar vMsusy) * EPow P6 (EVar vMsq)
   - #1724976 * (- #2819419 + #1800750 * EConst Cz2) * EPow P4 (EVar vMsq) * EPow P6 (EVar vMsusy) - #14791669200 * (-
   #691 + #270 * EConst Cz2 - #6 * EConst Cz3) * EPow P2 (EVar vMsusy) * EPow P8 (EVar vMsq) + #221875038000 * EPow P2
   (EVar vMsusy) * EPow P3 (ELog (EPow P2 (EVar vMsq) / EPow P2 (EVar vMsusy))) * EPow P8 (EVar vMsq) - #665500 * (-
   #6262157 + #4000752 * EConst Cz2) * EPow P2 (EVar vMsq) * EPow P8 (EVar vMsusy) - #96049800 * EPow P2 (EVar vMsusy)
   * EPow P2 (ELog (EPow P2 (EVar vMsq) / EPow P2 (EVar vMsusy))) * (#14586 * EPow P4 (EVar vMsq) * EPow P4 (EVar
   vMsusy) + #20328 * EPow P2 (EVar vMsusy) * EPow P6 (EVar vMsq) + #12760 * EPow P2 (EVar vMsq) * EPow P6 (EVar
   vMsusy) + #23100 * EPow P8 (EVar vMsq) + #11865 * EPow P8 (EVar vMsusy)) + #1331250228000 * (- #1 + #2 * EConst
   Cz2) * EPow P10 (EVar vMsq) - #55440 * ELog (EPow P2 (EVar vMsq) / EPow P2 (EVar vMsusy)) * (- #28388052 * EPow P4
   (EVar vMsusy) * EPow P6 (EVar vMsq) - #51750369 * EPow P4 (EVar vMsq) * EPow P6 (EVar vMsusy) - #16008300 * (- #5 +
   #3 * EConst Cz2) * EPow P2 (EVar vMsusy) * EPow P8 (EVar vMsq) - #58536775 * EPow P2 (EVar vMsq) * EPow P8 (EVar
   vMsusy) + #48024900 * EPow P10 (EVar vMsq) - #63123270 * EPow P10 (EVar vMsusy)) - #5145 * (- #742606013 +
   #474368400 * EConst Cz2) * EPow P10 (EVar vMsusy))) / (#49921883550 * EPow P2 (EVar vMsusy) * EPow P8 (EVar vMsq))
   / EPow P4 (EVar vMt) * #12.

(** H4.cpp:161-172 *)
Definition H4_coef1 : expr :=
  - (EPow P4 (EVar vMt) * (#2160 * EPow P4 (EVar vMsusy) * EPow P6 (EVar vMsq) + #540 * EPow P4 (EVar vMsq) * EPow P6
   (EVar vMsusy) - #16 * (- #173 + #135 * EConst Cz2 + #54 * EConst Cz3) * EPow P2 (EVar vMsusy) * EPow P8 (EVar vMsq)
   + #240 * EPow P2 (EVar vMsq) * EPow P8 (EVar vMsusy) + #180 * ELog (EPow P2 (EVar vMsq) / EPow P2 (EVar vMsusy)) *
   EPow P2 (EVar vMsusy) * (#14 * EPow P4 (EVar vMsq) * EPow P4 (EVar vMsusy) + #20 * EPow P2 (EVar vMsusy) * EPow P6
   (EVar vMsq) + #12 * EPow P2 (EVar vMsq) * EPow P6 (EVar vMsusy) + #28 * EPow P8 (EVar vMsq) + #11 * EPow P8 (EVar
   vMsusy)) + #4320 * EPow P10 (EVar vMsq) + #135 * EPow P10 (EVar vMsusy))) / (#81 * EPow P2 (EVar vMsusy) * EPow P8
   (EVar vMsq)) / EPow P4 (EVar vMt) * #12.

(** H4.cpp:177-184 *)
Definition H4_coef2 : expr :=
  #8 * (#221 + #45 * ELog (EPow P2 (EVar vMsq) / EPow P2 (EVar vMsusy))) * EPow P4 (EVar vMt) / #27 / EPow P4 (EVar vMt)
   * #12.

(** H4.cpp:189-195 *)
Definition H4_coef3 : expr :=
  - #224 * EPow P4 (EVar vMt) / #9 / EPow P4 (EVar vMt) * #12.

(** the constructor, H4.cpp:34-60: value of each data member (members it does not assign are zero, H4.hpp) *)
Definition H4_ctor {T : Type} {N : Num T} (d : Depth) (a_Al4p a_At a_beta a_lmMt a_lmMsq a_lmMsusy a_Mt a_Msusy a_Msq
   : T) (mdr f1 f2 f3 : Z) (v : hvar) : T :=
  match v with
  | vCbeta => ncos a_beta
  | vSbeta => nsin a_beta
  | vAt => a_At
  | vlmMt => a_lmMt
  | vlmMsq => a_lmMsq
  | vlmMsusy => a_lmMsusy
  | vMt => a_Mt
  | vMsusy => a_Msusy
  | vMsq => a_Msq
  | vshiftst1 => nint mdr
  | vshiftst2 => nint mdr
  | vshiftst3 => nint mdr
  | voneLoopFlag => nint f1
  | vtwoLoopFlag => nint f2
  | vthreeLoopFlag => nint f3
  | vAl4p => a_Al4p
  | vxAt => nint (x_At d)
  | vxMsq => nint (x_Msq d)
  | vxlmMsusy => nint (x_lmMsusy d)
  | vxMsusy => nint (x_Msusy d)
  | _ => nint 0
  end.
