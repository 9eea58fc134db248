(** * Expressions of the hierarchy classes (source/himalaya/hierarchies/H*.cpp)
    Every member function getS1, getS2, getS12, calc_coef_at_as2_no_sm_logs_log0..3 of the fourteen
    classes is one arithmetic expression over the data members of the class, the constants of
    Constants.hpp, the powers of Powers.hpp and std::log.  The files HierH*.v contain these
    expressions as syntax (type [expr], transcribed operator by operator by tools/gen_hier.py);
    [eval] gives them their meaning in any number type.  *)
From Coq Require Import ZArith List.
From Verif Require Import Num.

(** the data members of the classes, hierarchies/H*.hpp (private sections) *)
Inductive hvar :=
  | vDmglst1 | vDmglst2 | vDmst12 | vDmsqst1 | vDmsqst2 | vlmMt | vlmMst1 | vlmMst2 | vlmMsq | vlmMgl | vlmMsusy
  | vMgl | vMt | vMst1 | vMst2 | vMsq | vMsusy | vMuSUSY | vAt | vs2t | vTbeta | vSbeta | vCbeta | vAl4p
  | vshiftst1 | vshiftst2 | vshiftst3 | vxDR2DRMOD | vx | vxDmglst1 | vxDmglst2 | vxDmst12 | vxDmsqst1 | vxDmsqst2
  | vxMsq | vxMst | vxMgl | vxAt | vxlmMsusy | vxMsusy
  | voneLoopFlag | vtwoLoopFlag | vthreeLoopFlag.

(** the functions pow2, ..., pow9, power10, pow11, ..., pow20 of misc/Powers.hpp:13-31 *)
Inductive hpow := P2 | P3 | P4 | P5 | P6 | P7 | P8 | P9 | P10 | P11 | P12 | P13 | P14 | P15 | P16 | P17 | P18 | P19 | P20.

Inductive expr :=
  | EInt (z : Z)                 (* integer, or floating literal with an integer value *)
  | EDec (m k : Z)               (* floating literal m / 10^k *)
  | EConst (c : mathconst)
  | EVar (v : hvar)
  | EAdd (a b : expr) | ESub (a b : expr) | EMul (a b : expr) | EDiv (a b : expr)
  | ENeg (a : expr)
  | EPow (n : hpow) (a : expr)
  | ELog (a : expr).

Definition hpow_fun {T} {N : Num T} (n : hpow) : T -> T :=
  match n with
  | P2 => pow2 | P3 => pow3 | P4 => pow4 | P5 => pow5 | P6 => pow6 | P7 => pow7 | P8 => pow8 | P9 => pow9
  | P10 => power10 | P11 => pow11 | P12 => pow12 | P13 => pow13 | P14 => pow14 | P15 => pow15 | P16 => pow16
  | P17 => pow17 | P18 => pow18 | P19 => pow19 | P20 => pow20
  end.

(** [lit] is the value given to a floating literal that is not an integer: [ndec] in the program *)
Fixpoint eval_lit {T} {N : Num T} (lit : Z -> Z -> T) (r : hvar -> T) (e : expr) : T :=
  match e with
  | EInt z => nint z
  | EDec m k => lit m k
  | EConst c => nconst c
  | EVar v => r v
  | EAdd a b => nadd (eval_lit lit r a) (eval_lit lit r b)
  | ESub a b => nsub (eval_lit lit r a) (eval_lit lit r b)
  | EMul a b => nmul (eval_lit lit r a) (eval_lit lit r b)
  | EDiv a b => ndiv (eval_lit lit r a) (eval_lit lit r b)
  | ENeg a => nneg (eval_lit lit r a)
  | EPow n a => hpow_fun n (eval_lit lit r a)
  | ELog a => nlog (eval_lit lit r a)
  end.
Definition eval {T} {N : Num T} (r : hvar -> T) (e : expr) : T := eval_lit ndec r e.

Declare Scope hx_scope.
Delimit Scope hx_scope with hx.
Infix "+" := EAdd : hx_scope.
Infix "-" := ESub : hx_scope.
Infix "*" := EMul : hx_scope.
Infix "/" := EDiv : hx_scope.
Notation "- x" := (ENeg x) : hx_scope.
Notation "# z" := (EInt z) (at level 1, z constr at level 0, format "# z") : hx_scope.
