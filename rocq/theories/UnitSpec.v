(** * Change of the mass unit
    [rescale s p]: the same physical point with all quantities expressed in a unit smaller by the factor s: masses, vacuum expectation
    values, trilinear couplings, mu and the renormalization scale are multiplied by s, squared masses by s^2; couplings, mixing angles
    and flags are pure numbers. *)
From Coq Require Import Reals ZArith.
From Verif Require Import Num Except Params Thresh Threshold.
Open Scope R_scope.

Definition m3map (f : R -> R) (m : mat3 R) : mat3 R :=
  mkM3 (f (a00 m)) (f (a01 m)) (f (a02 m)) (f (a10 m)) (f (a11 m)) (f (a12 m)) (f (a20 m)) (f (a21 m)) (f (a22 m)).
Definition v2map (f : R -> R) (v : vec2 R) : vec2 R := mkV2 (f (v0 v)) (f (v1 v)).

Definition rescale (s : R) (p : Params R) : Params R :=
  let m := fun x => s * x in        (* mass dimension 1 *)
  let m2 := fun x => s ^ 2 * x in   (* mass dimension 2 *)
  mkParams (m (scale p)) (m (mu p)) (g1 p) (g2 p) (g3 p) (m (vd p)) (m (vu p))
    (m3map m2 (mq2 p)) (m3map m2 (md2 p)) (m3map m2 (mu2 p)) (m3map m2 (ml2 p)) (m3map m2 (me2 p))
    (m3map m (Au p)) (m3map m (Ad p)) (m3map m (Ae p)) (Yu p) (Yd p) (Ye p)
    (m (M1 p)) (m (M2 p)) (m (MG p)) (m (MW p)) (m (MZ p)) (m (Mt p)) (m (Mb p)) (m (Mtau p)) (m (MA p))
    (v2map m (MSt p)) (v2map m (MSb p)) (v2map m (MStau p))
    (s2t p) (s2b p) (s2tau p) (theta_t p) (theta_b p) (theta_tau p) (massLimit3LThreshold p).

(** a constructed ThresholdCalculator: its parameters, its squared light-squark mass, its Xt order *)
Definition rescaleTC (s : R) (c : TC R) : TC R := mkTC (rescale s (tc_p c)) (s ^ 2 * tc_msq2 c) (tc_xt c).

(** the same for the sign of the gaugino and higgsino mass parameters and of the trilinear couplings: multiply mu, M1, M2, MG, A by s = -1 *)
Definition rephase (s : R) (p : Params R) : Params R :=
  let m := fun x => s * x in
  mkParams (scale p) (m (mu p)) (g1 p) (g2 p) (g3 p) (vd p) (vu p) (mq2 p) (md2 p) (mu2 p) (ml2 p) (me2 p)
    (m3map m (Au p)) (m3map m (Ad p)) (m3map m (Ae p)) (Yu p) (Yd p) (Ye p)
    (m (M1 p)) (m (M2 p)) (m (MG p)) (MW p) (MZ p) (Mt p) (Mb p) (Mtau p) (MA p)
    (MSt p) (MSb p) (MStau p) (s2t p) (s2b p) (s2tau p) (theta_t p) (theta_b p) (theta_tau p) (massLimit3LThreshold p).
Definition rephaseTC (s : R) (c : TC R) : TC R := mkTC (rephase s (tc_p c)) (tc_msq2 c) (tc_xt c).
