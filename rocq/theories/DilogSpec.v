(** * The real dilogarithm: specification *)
From Coq Require Import Reals Lra.
From Coquelicot Require Import Coquelicot.
Open Scope R_scope.

(** real part of the dilogarithm on the whole real axis: Li2(x) = - int_0^x ln|1 - t| / t dt, i.e. the continuous function which vanishes at
    0 and has this derivative; there is exactly one (see [ReLi2_unique], [ReLi2_exists]) *)
Definition is_ReLi2 (L : R -> R) : Prop :=
  L 0 = 0 /\ (forall x, continuous L x) /\
  forall x, x <> 0 -> x <> 1 -> is_derive L x (- ln (Rabs (1 - x)) / x).
