(** * Closed forms of the threshold loop functions (specification)

    Written from the definitions of arXiv:1407.4081, appendix A, over the real numbers.
    They mention no function of the model.  All logarithms are natural. *)
From Coq Require Import Reals.
Open Scope R_scope.

Definition F1c (x : R) := x * ln (x^2) / (x^2 - 1).
Definition F2c (x : R) := 6 * x^2 * (2 - 2 * x^2 + (1 + x^2) * ln (x^2)) / (x^2 - 1)^3.
Definition F3c (x : R) := 2 * x * (5 * (1 - x^2) + (1 + 4 * x^2) * ln (x^2)) / (3 * (x^2 - 1)^2).
Definition F4c (x : R) := 2 * x * (x^2 - 1 - ln (x^2)) / (x^2 - 1)^2.
Definition F5c (x : R) := 3 * x * (1 - x^4 + 2 * x^2 * ln (x^2)) / (1 - x^2)^3.
Definition F6c (x : R) := (x^2 - 3) / (4 * (1 - x^2)) + x^2 * (x^2 - 2) / (2 * (1 - x^2)^2) * ln (x^2).
Definition F7c (x : R) :=
  -3 * (x^4 - 6 * x^2 + 1) / (2 * (x^2 - 1)^2) + 3 * x^4 * (x^2 - 3) / (x^2 - 1)^3 * ln (x^2).
Definition f1c (r : R) := 6 * (r^2 + 3) * r^2 / (7 * (r^2 - 1)^2) + 6 * (r^2 - 5) * r^4 * ln (r^2) / (7 * (r^2 - 1)^3).
Definition f2c (r : R) := 2 * (r^2 + 11) * r^2 / (9 * (r^2 - 1)^2) + 2 * (5 * r^2 - 17) * r^4 * ln (r^2) / (9 * (r^2 - 1)^3).
Definition f3c (r : R) :=
  2 * (r^4 + 9 * r^2 + 2) / (3 * (r^2 - 1)^2) + 2 * (r^4 - 7 * r^2 - 6) * r^2 * ln (r^2) / (3 * (r^2 - 1)^3).
Definition f4c (r : R) :=
  2 * (5 * r^4 + 25 * r^2 + 6) / (7 * (r^2 - 1)^2) + 2 * (r^4 - 19 * r^2 - 18) * r^2 * ln (r^2) / (7 * (r^2 - 1)^3).

(** Two arguments *)
Definition F8c (x1 x2 : R) :=
  -2 + 2 / (x1^2 - x2^2) * (x1^4 / (x1^2 - 1) * ln (x1^2) - x2^4 / (x2^2 - 1) * ln (x2^2)).
Definition F9c (x1 x2 : R) :=
  2 / (x1^2 - x2^2) * (x1^2 / (x1^2 - 1) * ln (x1^2) - x2^2 / (x2^2 - 1) * ln (x2^2)).
Definition f5c (r1 r2 : R) :=
  3 / 4 * ((1 + (r1 + r2)^2 - r1^2 * r2^2) / ((r1^2 - 1) * (r2^2 - 1))
           + r1^3 * (r1^2 + 1) * ln (r1^2) / ((r1^2 - 1)^2 * (r1 - r2))
           - r2^3 * (r2^2 + 1) * ln (r2^2) / ((r1 - r2) * (r2^2 - 1)^2)).
Definition f6c (r1 r2 : R) :=
  6 / 7 * ((r1^2 + r2^2 + r1 * r2 - r1^2 * r2^2) / ((r1^2 - 1) * (r2^2 - 1))
           + r1^5 * ln (r1^2) / ((r1^2 - 1)^2 * (r1 - r2))
           - r2^5 * ln (r2^2) / ((r1 - r2) * (r2^2 - 1)^2)).
Definition f7c (r1 r2 : R) :=
  6 * ((1 + r1 * r2) / ((r1^2 - 1) * (r2^2 - 1))
       + r1^3 * ln (r1^2) / ((r1^2 - 1)^2 * (r1 - r2))
       - r2^3 * ln (r2^2) / ((r1 - r2) * (r2^2 - 1)^2)).
Definition f8c (r1 r2 : R) :=
  3 / 2 * ((r1 + r2) / ((r1^2 - 1) * (r2^2 - 1))
           + r1^4 * ln (r1^2) / ((r1^2 - 1)^2 * (r1 - r2))
           - r2^4 * ln (r2^2) / ((r1 - r2) * (r2^2 - 1)^2)).
