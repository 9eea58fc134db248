(** * Syntax trees for straight-line code with conditions
    Statements over the expressions of FieldNF.v.  GENERATED by tools/gen_threshdeep.py.  Proof tool only, nothing here models code. *)
From Coq Require Import Reals ZArith Bool String.
From Verif Require Import Num Except Params HierFormulas Dilog LoopFun Thresh ThreshTwo FieldNF.

Inductive cx := CLt (a b : rx) | CRel (a b c : rx) | CB (b : bool) | CAnd (a b : cx) | COr (a b : cx).
Inductive rs := SRet (e : rx) | SIf (c : cx) (a b : rs) | SThrow (m : string).

(** the functions called by the corrections *)
Definition fun1 (f : positive) : R -> R :=
  match f with
  | 1%positive => @dilog R NumR
  | 2%positive => @Num.nsin R NumR
  | 3%positive => @Num.ncos R NumR
  | 4%positive => @Num.ntan R NumR
  | 5%positive => @F1 R NumR
  | 6%positive => @F2 R NumR
  | 7%positive => @F3 R NumR
  | 8%positive => @F4 R NumR
  | 9%positive => @F5 R NumR
  | 10%positive => @F6 R NumR
  | 11%positive => @F7 R NumR
  | 12%positive => @f1 R NumR
  | 13%positive => @f2 R NumR
  | 14%positive => @f3 R NumR
  | 15%positive => @f4 R NumR
  | 16%positive => @f1HD R NumR
  | 17%positive => @f2HD R NumR
  | 18%positive => @f3HD R NumR
  | _ => fun _ => 0%R
  end.
Definition fun2 (f : positive) : R -> R -> R :=
  match f with
  | 1%positive => @F9 R NumR
  | 2%positive => @f5 R NumR
  | 3%positive => @f6 R NumR
  | 4%positive => @f7 R NumR
  | 5%positive => @f8 R NumR
  | 6%positive => @F8 R NumR
  | _ => fun _ _ => 0%R
  end.
Definition fun3 (f : positive) : R -> R -> R -> R :=
  match f with 1%positive => @phi_xyz R NumR | _ => fun _ _ _ => 0%R end.

Section Sem.
  Variables (G3 : positive -> R -> R -> R -> R) (u : positive -> R).
  Notation ev := (rev u fun1 fun2 G3).
  Fixpoint cev (c : cx) : bool :=
    match c with
    | CLt a b => nltb (ev a) (ev b)
    | CRel a b c => is_equal_rel (ev a) (ev b) (ev c)
    | CB b => b
    | CAnd a b => andb (cev a) (cev b)
    | COr a b => orb (cev a) (cev b)
    end.
  Fixpoint sevG (x : rs) : res R :=
    match x with
    | SRet e => Ok (ev e)
    | SIf c a b => if cev c then sevG a else sevG b
    | SThrow m => Throw m
    end.
  (** for functions that do not throw *)
  Fixpoint sevTG (x : rs) : R :=
    match x with
    | SRet e => ev e
    | SIf c a b => if cev c then sevTG a else sevTG b
    | SThrow m => 0%R
    end.
End Sem.
Definition sev := sevG fun3.
Definition sevT := sevTG fun3.
