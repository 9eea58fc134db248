(** * Specification of the one-loop integrals (real part, finite part, MSbar/DRbar subtraction)

    The textbook Feynman-parameter representations, over the real numbers; they mention no function of the
    model.  [RInt] is the Riemann integral of Coquelicot. *)
From Coq Require Import Reals.
From Coquelicot Require Import Coquelicot.
Open Scope R_scope.

(** B0(p^2; m1^2, m2^2) at the scale q^2, below the threshold *)
Definition B0_int (p2 m12 m22 q2 : R) : R :=
  - RInt (fun x => ln ((x * m12 + (1 - x) * m22 - x * (1 - x) * p2) / q2)) 0 1.
(** its derivative with respect to p^2 at p^2 = 0 *)
Definition dB0_int (m12 m22 : R) : R := RInt (fun x => x * (1 - x) / (x * m12 + (1 - x) * m22)) 0 1.
(** equal masses above the threshold p^2 > 4 m^2 (real part) *)
Definition B0_above (p2 m2 q2 : R) : R :=
  2 - ln (m2 / q2) + sqrt (1 - 4 * m2 / p2) * ln ((1 - sqrt (1 - 4 * m2 / p2)) / (1 + sqrt (1 - 4 * m2 / p2))).
(** one massless line *)
Definition B0_massless (p2 m2 q2 : R) : R := 2 - ln (m2 / q2) + (m2 - p2) / p2 * ln (Rabs (m2 - p2) / m2).
