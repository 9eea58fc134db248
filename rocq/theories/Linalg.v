(** * Diagonalisation of 2x2 matrices
    GENERATED by tools/gen_fo.py from source/himalaya/mh2_fo/Linalg.cpp; fs_diagonalize_hermitian (Linalg.hpp:1391-1437) by hand. *)
From Coq Require Import ZArith Bool.
From Verif Require Import Num Except Params.

Section Linalg.
  Context {T : Type} {N : Num T}.
  Open Scope num_scope.

  (** source/himalaya/mh2_fo/Linalg.hpp:1391-1437 for N = 2.  Eigen's SelfAdjointEigenSolver returns m = z diag(w) z^T with
      increasing w ([eig2], external); std::sort of the two indices by |w| swaps them iff |w(1)| < |w(0)|; z is transposed. *)
  Definition fs_diagonalize_hermitian (E : EigenLib T) (m : mat2 T) : vec2 T * mat2 T :=
    let '(w, z) := eig2 E m in
    if nabs (v1 w) <? nabs (v0 w)
    then (mkV2 (v1 w) (v0 w), mkM2 (m01 z) (m11 z) (m00 z) (m10 z))
    else (w, mkM2 (m00 z) (m10 z) (m01 z) (m11 z)).

  (** source/himalaya/mh2_fo/Linalg.cpp:46-88: eigenvalue pairs of order 0, 1, 2 and 3 *)
  Definition fs_diagonalize_hermitian_perturbatively (m0 m1 m2 m3 : mat2 T) : vec2 T * vec2 T * vec2 T * vec2 T :=
    let a11 := m00 m0 in
    let a12 := m01 m0 in
    let a22 := m11 m0 in
    let c1 := a11 + a22 in
    let c2 := nsqrt (pow2 a11 + #4 * pow2 a12 - #2 * a11 * a22 + pow2 a22) in
    let mh2_0L := mkV2 (ndec 5 1 * (c1 - c2)) (ndec 5 1 * (c1 + c2)) in
    let b11 := m00 m1 in
    let b12 := m01 m1 in
    let b22 := m11 m1 in
    let c3 := b11 + b22 in
    let c4 := (a11 * b11 - a22 * b11 + #4 * a12 * b12 - a11 * b22 + a22 * b22) / c2 in
    let mh2_1L := mkV2 (ndec 5 1 * (c3 - c4)) (ndec 5 1 * (c3 + c4)) in
    let d11 := m00 m2 in
    let d12 := m01 m2 in
    let d22 := m11 m2 in
    let c5 := d11 + d22 in
    let c6 := ndec 5 1 * (pow2 b11 + #4 * pow2 b12 - #2 * b11 * b22 + pow2 b22 - pow2 c4 + #2 * a11 * d11 - #2 *
      a22 * d11 + #8 * a12 * d12 - #2 * a11 * d22 + #2 * a22 * d22) / c2 in
    let mh2_2L := mkV2 (ndec 5 1 * (c5 - c6)) (ndec 5 1 * (c5 + c6)) in
    let e11 := m00 m3 in
    let e12 := m01 m3 in
    let e22 := m11 m3 in
    let c7 := e11 + e22 in
    let c8 := ndec 5 1 / c2 * (#2 * (#4 * b12 * d12 + b11 * (d11 - d22) + b22 * (- d11 + d22) + a11 * e11 - a22 *
      e11 + #4 * a12 * e12 - a11 * e22 + a22 * e22) + c4 * (#2 * b11 * b22 - #2 * a11 * d11 + #2 * a22 *
      d11 - #8 * a12 * d12 + #2 * a11 * d22 - #2 * a22 * d22 - pow2 b11 - #4 * pow2 b12 - pow2 b22 + pow2
      c4) / c2) in
    let mh2_3L := mkV2 (ndec 5 1 * (c7 - c8)) (ndec 5 1 * (c7 + c8)) in
    (mh2_0L, mh2_1L, mh2_2L, mh2_3L).
End Linalg.
