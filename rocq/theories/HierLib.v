(** * The hierarchy classes as a library for HierCalc
    GENERATED by tools/gen_hier.py: calculateHierarchy (HierarchyCalculator.cpp:477-815) constructs an object of the class
    and calls its member functions; [hier_lib] is that, as a value for the field [env_hier] of [Env]. *)
From Coq Require Import ZArith List.
From Verif Require Import Num HierExpr HierCalc.
From Verif Require Import HierH3 HierH32q2g HierH3q22g HierH4 HierH5 HierH5g1 HierH6 HierH6b HierH6b2qg2 HierH6bq22g HierH6bq2g2 HierH6g2 HierH9 HierH9q2.
Import ListNotations.

(** the seven expressions of the class with hierarchy number h (hierarchies/HierarchyFlags.hpp:17-34) *)
Record HExprs := mkHExprs { xS1 : expr; xS2 : expr; xS12 : expr; xc0 : expr; xc1 : expr; xc2 : expr; xc3 : expr }.
Definition hier_exprs (h : Z) : HExprs :=
  match h with
  | 0%Z => mkHExprs H3_getS1 H3_getS2 H3_getS12 H3_coef0 H3_coef1 H3_coef2 H3_coef3
  | 1%Z => mkHExprs H32q2g_getS1 H32q2g_getS2 H32q2g_getS12 H32q2g_coef0 H32q2g_coef1 H32q2g_coef2 H32q2g_coef3
  | 2%Z => mkHExprs H3q22g_getS1 H3q22g_getS2 H3q22g_getS12 H3q22g_coef0 H3q22g_coef1 H3q22g_coef2 H3q22g_coef3
  | 3%Z => mkHExprs H4_getS1 H4_getS2 H4_getS12 H4_coef0 H4_coef1 H4_coef2 H4_coef3
  | 4%Z => mkHExprs H5_getS1 H5_getS2 H5_getS12 H5_coef0 H5_coef1 H5_coef2 H5_coef3
  | 5%Z => mkHExprs H5g1_getS1 H5g1_getS2 H5g1_getS12 H5g1_coef0 H5g1_coef1 H5g1_coef2 H5g1_coef3
  | 6%Z => mkHExprs H6_getS1 H6_getS2 H6_getS12 H6_coef0 H6_coef1 H6_coef2 H6_coef3
  | 7%Z => mkHExprs H6b_getS1 H6b_getS2 H6b_getS12 H6b_coef0 H6b_coef1 H6b_coef2 H6b_coef3
  | 8%Z => mkHExprs H6b2qg2_getS1 H6b2qg2_getS2 H6b2qg2_getS12 H6b2qg2_coef0 H6b2qg2_coef1 H6b2qg2_coef2 H6b2qg2_coef3
  | 9%Z => mkHExprs H6bq22g_getS1 H6bq22g_getS2 H6bq22g_getS12 H6bq22g_coef0 H6bq22g_coef1 H6bq22g_coef2 H6bq22g_coef3
  | 10%Z => mkHExprs H6bq2g2_getS1 H6bq2g2_getS2 H6bq2g2_getS12 H6bq2g2_coef0 H6bq2g2_coef1 H6bq2g2_coef2 H6bq2g2_coef3
  | 11%Z => mkHExprs H6g2_getS1 H6g2_getS2 H6g2_getS12 H6g2_coef0 H6g2_coef1 H6g2_coef2 H6g2_coef3
  | 12%Z => mkHExprs H9_getS1 H9_getS2 H9_getS12 H9_coef0 H9_coef1 H9_coef2 H9_coef3
  | 13%Z => mkHExprs H9q2_getS1 H9q2_getS2 H9q2_getS12 H9q2_coef0 H9q2_coef1 H9q2_coef2 H9q2_coef3
  | _ => mkHExprs (EInt 0) (EInt 0) (EInt 0) (EInt 0) (EInt 0) (EInt 0) (EInt 0)
  end.

(** the data members of the object that the constructor of class number h makes from the double arguments [args];
    an argument list of another length does not occur (it does not compile) *)
Definition hier_members {T} {N : Num T} (h : Z) (d : Depth) (args : list T) (mdr f1 f2 f3 : Z) : hvar -> T :=
  match h, args with
  | 0%Z, [y0; y1; y2; y3; y4; y5; y6; y7; y8; y9; y10; y11; y12; y13] => H3_ctor d y0 y1 y2 y3 y4 y5 y6 y7 y8 y9 y10 y11 y12 y13 mdr f1 f2 f3
  | 1%Z, [y0; y1; y2; y3; y4; y5; y6; y7; y8; y9; y10; y11] => H32q2g_ctor d y0 y1 y2 y3 y4 y5 y6 y7 y8 y9 y10 y11 mdr f1 f2 f3
  | 2%Z, [y0; y1; y2; y3; y4; y5; y6; y7; y8; y9; y10; y11; y12] => H3q22g_ctor d y0 y1 y2 y3 y4 y5 y6 y7 y8 y9 y10 y11 y12 mdr f1 f2 f3
  | 3%Z, [y0; y1; y2; y3; y4; y5; y6; y7; y8] => H4_ctor d y0 y1 y2 y3 y4 y5 y6 y7 y8 mdr f1 f2 f3
  | 4%Z, [y0; y1; y2; y3; y4; y5; y6; y7; y8; y9; y10; y11; y12] => H5_ctor d y0 y1 y2 y3 y4 y5 y6 y7 y8 y9 y10 y11 y12 mdr f1 f2 f3
  | 5%Z, [y0; y1; y2; y3; y4; y5; y6; y7; y8; y9; y10; y11; y12; y13] => H5g1_ctor d y0 y1 y2 y3 y4 y5 y6 y7 y8 y9 y10 y11 y12 y13 mdr f1 f2 f3
  | 6%Z, [y0; y1; y2; y3; y4; y5; y6; y7; y8; y9; y10; y11; y12] => H6_ctor d y0 y1 y2 y3 y4 y5 y6 y7 y8 y9 y10 y11 y12 mdr f1 f2 f3
  | 7%Z, [y0; y1; y2; y3; y4; y5; y6; y7; y8; y9; y10; y11] => H6b_ctor d y0 y1 y2 y3 y4 y5 y6 y7 y8 y9 y10 y11 mdr f1 f2 f3
  | 8%Z, [y0; y1; y2; y3; y4; y5; y6; y7; y8; y9; y10; y11; y12] => H6b2qg2_ctor d y0 y1 y2 y3 y4 y5 y6 y7 y8 y9 y10 y11 y12 mdr f1 f2 f3
  | 9%Z, [y0; y1; y2; y3; y4; y5; y6; y7; y8; y9; y10; y11; y12] => H6bq22g_ctor d y0 y1 y2 y3 y4 y5 y6 y7 y8 y9 y10 y11 y12 mdr f1 f2 f3
  | 10%Z, [y0; y1; y2; y3; y4; y5; y6; y7; y8; y9; y10; y11; y12; y13] => H6bq2g2_ctor d y0 y1 y2 y3 y4 y5 y6 y7 y8 y9 y10 y11 y12 y13 mdr f1 f2 f3
  | 11%Z, [y0; y1; y2; y3; y4; y5; y6; y7; y8; y9; y10; y11; y12; y13] => H6g2_ctor d y0 y1 y2 y3 y4 y5 y6 y7 y8 y9 y10 y11 y12 y13 mdr f1 f2 f3
  | 12%Z, [y0; y1; y2; y3; y4; y5; y6; y7; y8; y9; y10; y11; y12] => H9_ctor d y0 y1 y2 y3 y4 y5 y6 y7 y8 y9 y10 y11 y12 mdr f1 f2 f3
  | 13%Z, [y0; y1; y2; y3; y4; y5; y6; y7; y8; y9; y10; y11; y12; y13] => H9q2_ctor d y0 y1 y2 y3 y4 y5 y6 y7 y8 y9 y10 y11 y12 y13 mdr f1 f2 f3
  | _, _ => fun _ => nint 0
  end.

(** the members that the constructor of class number h assigns *)
Definition hier_sets (h : Z) (v : hvar) : bool :=
  match h with
| 0%Z => match v with vTbeta | vSbeta | vDmglst1 | vDmst12 | vDmsqst1 | vlmMst1 | vMgl | vMt | vMst1 | vMst2 | vMsq |
   vMuSUSY | vs2t | vlmMt | voneLoopFlag | vtwoLoopFlag | vthreeLoopFlag | vAl4p | vshiftst1 | vshiftst2 | vshiftst3 |
   vxDmglst1 | vxDmst12 | vxDmsqst1 => true | _ => false end
| 1%Z => match v with vTbeta | vSbeta | vDmglst1 | vDmst12 | vDmsqst1 | vlmMst1 | vMt | vMst1 | vMst2 | vMuSUSY | vs2t
   | vlmMt | voneLoopFlag | vtwoLoopFlag | vthreeLoopFlag | vAl4p | vshiftst1 | vshiftst2 | vshiftst3 | vxDmglst1 |
   vxDmst12 | vxDmsqst1 => true | _ => false end
| 2%Z => match v with vTbeta | vSbeta | vDmglst1 | vDmst12 | vDmsqst1 | vlmMst1 | vMt | vMst1 | vMst2 | vMsq | vMuSUSY
   | vs2t | vlmMt | voneLoopFlag | vtwoLoopFlag | vthreeLoopFlag | vAl4p | vshiftst1 | vshiftst2 | vshiftst3 |
   vxDmglst1 | vxDmst12 | vxDmsqst1 => true | _ => false end
| 3%Z => match v with vCbeta | vSbeta | vAt | vlmMt | vlmMsq | vlmMsusy | vMt | vMsusy | vMsq | vshiftst1 | vshiftst2
   | vshiftst3 | voneLoopFlag | vtwoLoopFlag | vthreeLoopFlag | vAl4p | vxAt | vxMsq | vxlmMsusy | vxMsusy => true | _
   => false end
| 4%Z => match v with vTbeta | vCbeta | vSbeta | vDmglst1 | vlmMt | vlmMst1 | vlmMst2 | vlmMsq | vMt | vMst1 | vMst2 |
   vMsq | vMuSUSY | vs2t | voneLoopFlag | vtwoLoopFlag | vthreeLoopFlag | vAl4p | vshiftst1 | vshiftst2 | vshiftst3 |
   vxDmglst1 | vxMsq => true | _ => false end
| 5%Z => match v with vTbeta | vSbeta | vCbeta | vDmglst1 | vlmMt | vlmMst1 | vlmMst2 | vlmMsq | vMgl | vMt | vMst1 |
   vMst2 | vMsq | vMuSUSY | vs2t | voneLoopFlag | vtwoLoopFlag | vthreeLoopFlag | vAl4p | vshiftst1 | vshiftst2 |
   vshiftst3 | vxDmglst1 | vxMsq => true | _ => false end
| 6%Z => match v with vTbeta | vSbeta | vDmglst2 | vlmMt | vlmMst1 | vlmMst2 | vlmMsq | vMt | vMst1 | vMst2 | vMsq |
   vMuSUSY | vs2t | voneLoopFlag | vtwoLoopFlag | vthreeLoopFlag | vAl4p | vshiftst1 | vshiftst2 | vshiftst3 |
   vxDR2DRMOD | vxDmglst2 | vxMsq | vxMst => true | _ => false end
| 7%Z => match v with vTbeta | vSbeta | vDmglst2 | vDmsqst2 | vlmMt | vlmMst1 | vlmMst2 | vMt | vMst1 | vMst2 |
   vMuSUSY | vs2t | voneLoopFlag | vtwoLoopFlag | vthreeLoopFlag | vAl4p | vshiftst1 | vshiftst2 | vshiftst3 |
   vxDR2DRMOD | vxDmglst2 | vxDmsqst2 | vxMst => true | _ => false end
| 8%Z => match v with vTbeta | vSbeta | vDmglst2 | vDmsqst2 | vlmMt | vlmMst1 | vlmMst2 | vMgl | vMt | vMst1 | vMst2 |
   vMuSUSY | vs2t | voneLoopFlag | vtwoLoopFlag | vthreeLoopFlag | vAl4p | vshiftst1 | vshiftst2 | vshiftst3 |
   vxDR2DRMOD | vxDmglst2 | vxDmsqst2 | vxMst => true | _ => false end
| 9%Z => match v with vTbeta | vSbeta | vDmglst2 | vDmsqst2 | vlmMt | vlmMst1 | vlmMst2 | vMt | vMst1 | vMst2 | vMsq |
   vMuSUSY | vs2t | voneLoopFlag | vtwoLoopFlag | vthreeLoopFlag | vAl4p | vshiftst1 | vshiftst2 | vshiftst3 |
   vxDR2DRMOD | vxDmglst2 | vxDmsqst2 | vxMst => true | _ => false end
| 10%Z => match v with vTbeta | vSbeta | vDmglst2 | vDmsqst2 | vlmMt | vlmMst1 | vlmMst2 | vMgl | vMt | vMst1 | vMst2
   | vMsq | vMuSUSY | vs2t | voneLoopFlag | vtwoLoopFlag | vthreeLoopFlag | vAl4p | vshiftst1 | vshiftst2 | vshiftst3
   | vxDR2DRMOD | vxDmglst2 | vxDmsqst2 | vxMst => true | _ => false end
| 11%Z => match v with vTbeta | vSbeta | vDmglst2 | vlmMt | vlmMst1 | vlmMst2 | vlmMsq | vMgl | vMt | vMst1 | vMst2 |
   vMsq | vMuSUSY | vs2t | voneLoopFlag | vtwoLoopFlag | vthreeLoopFlag | vAl4p | vshiftst1 | vshiftst2 | vshiftst3 |
   vxDR2DRMOD | vxDmglst2 | vxMsq | vxMst => true | _ => false end
| 12%Z => match v with vTbeta | vSbeta | vDmst12 | vDmsqst1 | vlmMt | vlmMgl | vlmMst1 | vMgl | vMt | vMst1 | vMst2 |
   vMuSUSY | vs2t | voneLoopFlag | vtwoLoopFlag | vthreeLoopFlag | vAl4p | vshiftst1 | vshiftst2 | vshiftst3 | vx |
   vxDmst12 | vxDmsqst1 | vxMgl => true | _ => false end
| 13%Z => match v with vTbeta | vSbeta | vDmst12 | vDmsqst1 | vlmMt | vlmMgl | vlmMst1 | vMgl | vMt | vMst1 | vMst2 |
   vMsq | vMuSUSY | vs2t | voneLoopFlag | vtwoLoopFlag | vthreeLoopFlag | vAl4p | vshiftst1 | vshiftst2 | vshiftst3 |
   vx | vxDmst12 | vxDmsqst1 | vxMgl => true | _ => false end
  | _ => false
  end.

(** [lit] is the value of a floating literal: [ndec] in the program *)
Definition hier_lib_lit {T} {N : Num T} (lit : Z -> Z -> T) (h : Z) (d : Depth) (args : list T) (mdr f1 f2 f3 : Z) : HierOut T :=
  let r := hier_members h d args mdr f1 f2 f3 in
  let x := hier_exprs h in
  let ev := eval_lit lit r in
  mkHierOut (ev (xS1 x)) (ev (xS2 x)) (ev (xS12 x)) (ev (xc0 x)) (ev (xc1 x)) (ev (xc2 x)) (ev (xc3 x)).
Definition hier_lib {T} {N : Num T} := hier_lib_lit (T := T) ndec.
