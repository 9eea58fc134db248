(** * Specification of the fixed-order properties (C37-C42, C52-C55) *)
From Coq Require Import Reals ZArith Bool List.
From Verif Require Import Num Except Params ParamsSpec Spectrum.
Import ListNotations.
Open Scope R_scope.

(** ** Eigenvalues of a 2x2 matrix: the roots of the characteristic polynomial, in increasing order *)
Definition char_poly (M : mat2 R) (z : R) : R := (m00 M - z) * (m11 M - z) - m01 M * m10 M.
Definition ordered_eigenvalues (M : mat2 R) (l1 l2 : R) : Prop :=
  l1 <= l2 /\ forall z, char_poly M z = (z - l1) * (z - l2).
Definition symmetric (M : mat2 R) : Prop := m01 M = m10 M.
Definition trace (M : mat2 R) : R := m00 M + m11 M.
(** m0 + t m1 + t^2 m2 + t^3 m3 *)
Definition series (m0 m1 m2 m3 : mat2 R) (t : R) : mat2 R :=
  let f (g : mat2 R -> R) := g m0 + t * g m1 + t^2 * g m2 + t^3 * g m3 in mkM2 (f m00) (f m01) (f m10) (f m11).
Definition cubic (a b c d t : R) : R := a + b * t + c * t^2 + d * t^3.

(** ** Electroweak sector: masses from couplings and vevs (g1 is GUT normalised) *)
Definition MW2_of (p : Params R) : R := g2 p ^ 2 * (vu p ^ 2 + vd p ^ 2) / 4.
Definition MZ2_of (p : Params R) : R := (3/5 * g1 p ^ 2 + g2 p ^ 2) * (vu p ^ 2 + vd p ^ 2) / 4.
Definition cos2b (p : Params R) : R := (vd p ^ 2 - vu p ^ 2) / (vd p ^ 2 + vu p ^ 2).
(** weak mixing angle: sin^2 = g'^2 / (g'^2 + g2^2) *)
Definition sw2 (p : Params R) : R := 3/5 * g1 p ^ 2 / (3/5 * g1 p ^ 2 + g2 p ^ 2).
(** textbook sfermion mass matrix; soft masses, fermion mass, isospin, charge, mixing parameter *)
Definition sfermion (p : Params R) (mll mrr mf T3 q X : R) : mat2 R :=
  mkM2 (mll + mf^2 + (T3 - q * sw2 p) * MZ2_of p * cos2b p) (mf * X)
       (mf * X) (mrr + mf^2 + q * sw2 p * MZ2_of p * cos2b p).
(** eigenvalues w and rows of z: M = z^T diag(w) z with orthogonal z *)
Definition diagonalises (M : mat2 R) (w : vec2 R) (z : mat2 R) : Prop :=
  (forall i j, (i < 2)%nat -> (j < 2)%nat ->
     mget M i j = mget z 0 i * vget w 0 * mget z 0 j + mget z 1 i * vget w 1 * mget z 1 j) /\
  (forall i j, (i < 2)%nat -> (j < 2)%nat ->
     mget z i 0 * mget z j 0 + mget z i 1 * mget z j 1 = if Nat.eqb i j then 1 else 0).
