(** * Specification: the one-loop matching of the Higgs quartic coupling from the effective potential (C61)

    Textbook input, independent of the code: for the background H^+ H = phi every scalar with field-dependent squared mass m^2 contributes
    m^4 (ln(m^2/Q^2) - 3/2) / (64 pi^2) per real degree of freedom to the effective potential.  The tree-level potential is
    (lambda/4) phi^2 in the normalisation of the library (its lambda is twice the one of V = (lambda/2) (H^+H)^2), so that, in units of
    1/(4 pi)^2, a real scalar contributes one half of the second derivative of [cw] to lambda, a complex one the full second derivative. *)
From Coq Require Import Reals List.
From Coquelicot Require Import Coquelicot.
Import ListNotations.
Open Scope R_scope.

(** the contribution of one squared mass to the potential *)
Definition cw (Q2 x : R) : R := x ^ 2 * (ln (x / Q2) - 3 / 2).
(** eigenvalues of [[A, B], [B, D]], B^2 = [B2] *)
Definition ev_plus (A B2 D : R) : R := (A + D + sqrt ((A - D) ^ 2 + 4 * B2)) / 2.
Definition ev_minus (A B2 D : R) : R := (A + D - sqrt ((A - D) ^ 2 + 4 * B2)) / 2.
(** [s] is the second derivative of V at 0 *)
Definition second_derivative (V : R -> R) (s : R) : Prop :=
  exists (V' : R -> R) (r : R), 0 < r /\ (forall t, Rabs t < r -> is_derive V t (V' t)) /\ is_derive V' 0 s.

(** D-term of the field with weak isospin T3 and hypercharge Y: m^2 gets [dterm] * phi; g1 is GUT normalised, g'^2 = 3/5 g1^2 *)
Definition dterm (g1 g2 c2b T3 Y : R) : R := c2b / 2 * (g2 ^ 2 * T3 - 3 / 5 * g1 ^ 2 * Y).

(** a left- and a right-handed sfermion (soft masses [mL2], [mR2]) whose fermion has mass y sqrt(phi), mixing y X sqrt(phi) *)
Definition sfermion_potential (Q2 g1 g2 c2b T3 YL YR mL2 mR2 y X phi : R) : R :=
  let A := mL2 + (y ^ 2 + dterm g1 g2 c2b T3 YL) * phi in
  let D := mR2 + (y ^ 2 + dterm g1 g2 c2b 0 YR) * phi in
  let B2 := y ^ 2 * X ^ 2 * phi in
  cw Q2 (ev_plus A B2 D) + cw Q2 (ev_minus A B2 D).
(** a sfermion without Yukawa coupling *)
Definition scalar_potential (Q2 g1 g2 c2b T3 Y m2 phi : R) : R := cw Q2 (m2 + dterm g1 g2 c2b T3 Y * phi).

(** field renormalisation of the light Higgs by the loop of two scalars with squared masses a, d and coupling k: Z = 1 + k^2 * [wfr] *)
Definition wfr (a d : R) : R := RInt (fun x => x * (1 - x) / (x * a + (1 - x) * d)) 0 1.

(** heavy Higgs doublet with tree-level quartic couplings of the MSSM in the basis (light, heavy) doublet;
    G = g2^2 + g'^2, c = cos 2beta, s = sin 2beta *)
Section Heavy.
  Context (g1 g2 s c : R).
  Definition GG : R := g2 ^ 2 + 3 / 5 * g1 ^ 2.
  Definition Z1 : R := GG / 4 * c ^ 2.
  Definition Z5 : R := GG / 4 * s ^ 2.
  Definition Z3 : R := Z5 + (g2 ^ 2 - 3 / 5 * g1 ^ 2) / 4.
  Definition Z4 : R := Z5 - g2 ^ 2 / 2.
  Definition Z6 : R := - (GG / 4 * s * c).
  (** the heavier eigenvalue of a light-heavy pair: light entry zl*phi, heavy entry M2 + zh*phi, mixing zm*phi *)
  Definition heavy_mass (M2 zl zh zm phi : R) : R := ev_plus (M2 + zh * phi) ((zm * phi) ^ 2) (zl * phi).
  (** H (with h), A (with the neutral Goldstone boson), and the two real components of H+ (with the charged one) *)
  Definition heavy_potential (Q2 M2 phi : R) : R :=
    cw Q2 (heavy_mass M2 (3 * Z1) (Z3 + Z4 + Z5) (3 * Z6) phi)
    + cw Q2 (heavy_mass M2 Z1 (Z3 + Z4 - Z5) Z6 phi)
    + 2 * cw Q2 (heavy_mass M2 Z1 Z3 Z6 phi).
End Heavy.

(** tree-level coupling in the normalisation of the library *)
Definition lambda_tree2 (g1 g2 c2b : R) : R := (g2 ^ 2 + 3 / 5 * g1 ^ 2) / 2 * c2b ^ 2.
(** one-loop beta-function coefficients of a complex scalar multiplet: [n] states, hypercharge Y; doublets count *)
Definition b1_scalar (n Y : R) : R := n * (3 / 5 * Y ^ 2) / 3.
Definition b2_scalar (doublets : R) : R := doublets / 6.
(** the tree-level coupling expressed by the gauge couplings of the effective theory: 1/g^2 -> 1/g^2 + b ln(m^2/Q^2) *)
Definition gauge_shift (g1 g2 c2b n dbl Y l : R) : R :=
  - (c2b ^ 2 / 2 * (g2 ^ 4 * b2_scalar dbl + 3 / 5 * g1 ^ 4 * b1_scalar n Y) * l).
(** change from DRbar' to MSbar: vector boson masses mW^2 = g2^2 phi/2, mZ^2 = G phi/2 (the constant 3/2 -> 5/6 for the three polarisations),
    and g2^2(DR) = g2^2(MS) (1 + 2/3 g2^2) *)
Definition msbar_shift (g1 g2 c2b : R) : R :=
  let mW2 := g2 ^ 2 / 2 in let mZ2 := (g2 ^ 2 + 3 / 5 * g1 ^ 2) / 2 in
  4 * (1 / 4 * (3 * (5 / 6 - 3 / 2)) * (2 * mW2 ^ 2 + mZ2 ^ 2)) + c2b ^ 2 / 2 * (2 / 3 * g2 ^ 4).

(** ** The complete scalar sector of the MSSM *)
From Verif Require Import Num Params.
Section MSSM.
  Context (p : Params R) (g1 g2 yt yb ytau : R).   (* SM-like couplings: the fermion masses are y * sqrt(phi) *)
  Definition Q2 : R := scale p ^ 2.
  Definition c2b : R := (vd p ^ 2 - vu p ^ 2) / (vu p ^ 2 + vd p ^ 2).
  Definition s2b : R := 2 * vu p * vd p / (vu p ^ 2 + vd p ^ 2).
  Definition X_t : R := a22 (Au p) - mu p * (vd p / vu p).
  Definition X_b : R := a22 (Ad p) - mu p * (vu p / vd p).
  Definition X_tau : R := a22 (Ae p) - mu p * (vu p / vd p).
  (** one generation without Yukawa couplings *)
  Definition light_generation (mQ2 mU2 mD2 mL2 mE2 phi : R) : R :=
    3 * (scalar_potential Q2 g1 g2 c2b (1/2) (1/6) mQ2 phi + scalar_potential Q2 g1 g2 c2b (-1/2) (1/6) mQ2 phi
         + scalar_potential Q2 g1 g2 c2b 0 (-2/3) mU2 phi + scalar_potential Q2 g1 g2 c2b 0 (1/3) mD2 phi)
    + (scalar_potential Q2 g1 g2 c2b (1/2) (-1/2) mL2 phi + scalar_potential Q2 g1 g2 c2b (-1/2) (-1/2) mL2 phi
       + scalar_potential Q2 g1 g2 c2b 0 1 mE2 phi).
  Definition third_generation (phi : R) : R :=
    3 * sfermion_potential Q2 g1 g2 c2b (1/2) (1/6) (-2/3) (a22 (mq2 p)) (a22 (mu2 p)) yt X_t phi
    + 3 * sfermion_potential Q2 g1 g2 c2b (-1/2) (1/6) (1/3) (a22 (mq2 p)) (a22 (md2 p)) yb X_b phi
    + sfermion_potential Q2 g1 g2 c2b (-1/2) (-1/2) 1 (a22 (ml2 p)) (a22 (me2 p)) ytau X_tau phi
    + scalar_potential Q2 g1 g2 c2b (1/2) (-1/2) (a22 (ml2 p)) phi.
  (** times (4 pi)^2, complex fields counted once, the four real heavy Higgs fields with 1/2 *)
  Definition potential (phi : R) : R :=
    light_generation (a00 (mq2 p)) (a00 (mu2 p)) (a00 (md2 p)) (a00 (ml2 p)) (a00 (me2 p)) phi
    + light_generation (a11 (mq2 p)) (a11 (mu2 p)) (a11 (md2 p)) (a11 (ml2 p)) (a11 (me2 p)) phi
    + third_generation phi
    + 1/2 * heavy_potential g1 g2 s2b c2b Q2 (MA p ^ 2) phi.
  (** field renormalisation of the light Higgs boson *)
  Definition field_renormalisation : R :=
    3 * yt ^ 2 * X_t ^ 2 * wfr (a22 (mq2 p)) (a22 (mu2 p)) + 3 * yb ^ 2 * X_b ^ 2 * wfr (a22 (mq2 p)) (a22 (md2 p))
    + ytau ^ 2 * X_tau ^ 2 * wfr (a22 (ml2 p)) (a22 (me2 p)).
  (** redefinition of the gauge couplings *)
  Definition lnm (m2 : R) : R := ln (m2 / Q2).
  Definition gauge_generation (mQ2 mU2 mD2 mL2 mE2 : R) : R :=
    gauge_shift g1 g2 c2b 6 3 (1/6) (lnm mQ2) + gauge_shift g1 g2 c2b 3 0 (-2/3) (lnm mU2) + gauge_shift g1 g2 c2b 3 0 (1/3) (lnm mD2)
    + gauge_shift g1 g2 c2b 2 1 (-1/2) (lnm mL2) + gauge_shift g1 g2 c2b 1 0 1 (lnm mE2).
  Definition gauge_redefinition : R :=
    gauge_generation (a00 (mq2 p)) (a00 (mu2 p)) (a00 (md2 p)) (a00 (ml2 p)) (a00 (me2 p))
    + gauge_generation (a11 (mq2 p)) (a11 (mu2 p)) (a11 (md2 p)) (a11 (ml2 p)) (a11 (me2 p))
    + gauge_generation (a22 (mq2 p)) (a22 (mu2 p)) (a22 (md2 p)) (a22 (ml2 p)) (a22 (me2 p))
    + gauge_shift g1 g2 c2b 2 1 (1/2) (lnm (MA p ^ 2)).
End MSSM.
