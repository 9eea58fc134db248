(** * The Clausen function: specification *)
From Coq Require Import Reals Lra.
From Coquelicot Require Import Coquelicot.
Open Scope R_scope.

(** Cl2(x) = - int_0^x ln|2 sin(t/2)| dt: the odd function with period 2 pi that is continuous (at 0; elsewhere this follows) and
    has this derivative between 0 and 2 pi; there is exactly one (see [Cl2_unique], [Cl2_exists]) *)
Definition is_Cl2 (C : R -> R) : Prop :=
  (forall x, C (- x) = - C x) /\ (forall x, C (x + 2 * PI) = C x) /\ continuous C 0 /\
  forall x, 0 < x < 2 * PI -> is_derive C x (- ln (2 * sin (x / 2))).
