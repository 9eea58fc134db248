(** * Exchange of up- and down-type quantities
    [mirror p]: the point with the two Higgs doublets and the right-handed top and bottom superfields exchanged: vu and vd, the trilinear
    couplings Au and Ad, the soft masses mu2 and md2, the Yukawa matrices, and what belongs to the quarks and squarks.  Under it
    Xt = At - mu/tan(beta) and Xb = Ab - mu tan(beta) are exchanged.
    [lepton p]: the exchange of the third-generation down squarks with the sleptons (Q3 and L3, D3 and E3, Ab and Atau).
    [reflect_b p]: mu and Ab with the opposite sign; Xb changes sign. *)
From Coq Require Import Reals ZArith.
From Verif Require Import Num Except Params HierFormulas LoopFun Thresh Threshold.
Open Scope R_scope.

Definition mirror {T} (p : Params T) : Params T :=
  mkParams (scale p) (mu p) (g1 p) (g2 p) (g3 p) (vu p) (vd p) (mq2 p) (mu2 p) (md2 p) (ml2 p) (me2 p)
    (Ad p) (Au p) (Ae p) (Yd p) (Yu p) (Ye p)
    (M1 p) (M2 p) (MG p) (MW p) (MZ p) (Mb p) (Mt p) (Mtau p) (MA p)
    (MSb p) (MSt p) (MStau p) (s2b p) (s2t p) (s2tau p) (theta_b p) (theta_t p) (theta_tau p) (massLimit3LThreshold p).
Definition lepton {T} (p : Params T) : Params T :=
  mkParams (scale p) (mu p) (g1 p) (g2 p) (g3 p) (vd p) (vu p) (ml2 p) (me2 p) (mu2 p) (mq2 p) (md2 p)
    (Au p) (Ae p) (Ad p) (Yu p) (Ye p) (Yd p)
    (M1 p) (M2 p) (MG p) (MW p) (MZ p) (Mt p) (Mtau p) (Mb p) (MA p)
    (MSt p) (MStau p) (MSb p) (s2t p) (s2tau p) (s2b p) (theta_t p) (theta_tau p) (theta_b p) (massLimit3LThreshold p).
Definition m3neg (m : mat3 R) : mat3 R :=
  mkM3 (- a00 m) (- a01 m) (- a02 m) (- a10 m) (- a11 m) (- a12 m) (- a20 m) (- a21 m) (- a22 m).
Definition reflect_b (p : Params R) : Params R :=
  mkParams (scale p) (- mu p) (g1 p) (g2 p) (g3 p) (vd p) (vu p) (mq2 p) (md2 p) (mu2 p) (ml2 p) (me2 p)
    (Au p) (m3neg (Ad p)) (Ae p) (Yu p) (Yd p) (Ye p)
    (M1 p) (M2 p) (MG p) (MW p) (MZ p) (Mt p) (Mb p) (Mtau p) (MA p)
    (MSt p) (MSb p) (MStau p) (s2t p) (s2b p) (s2tau p) (theta_t p) (theta_b p) (theta_tau p) (massLimit3LThreshold p).

(** masses of the third generation of down squarks, gluino mass, scale *)
Definition mQ (p : Params R) : R := sqrt (a22 (mq2 p)).
Definition mD (p : Params R) : R := sqrt (a22 (md2 p)).
(** masses of the third generation of sleptons *)
Definition mL (p : Params R) : R := sqrt (a22 (ml2 p)).
Definition mE (p : Params R) : R := sqrt (a22 (me2 p)).
Record phys_b (p : Params R) : Prop := {
  pb_q : 0 < a22 (mq2 p); pb_d : 0 < a22 (md2 p); pb_g : 0 < MG p; pb_r : 0 < scale p; pb_st : 0 < v0 (MSt p); pb_sb : 0 < v0 (MSb p);
  pb_vu : 0 < vu p; pb_vd : 0 < vd p }.
Record phys_y (p : Params R) : Prop := {
  py_q : 0 < a22 (mq2 p); py_d : 0 < a22 (md2 p); py_l : 0 < a22 (ml2 p); py_e : 0 < a22 (me2 p); py_r : 0 < scale p; py_vu : 0 < vu p; py_vd : 0 < vd p }.

(** which masses the O(ab^2 as) correction treats as equal: the distance is compared with 1% of mQ3 *)
Definition close (x y p : R) : Prop := Rabs (x - y) < 1 / 100 * p.
Definition apart (x y p : R) : Prop := 1 / 100 * p <= Rabs (x - y).
Definition b_limit (p : Params R) (limit : Z) : Prop :=
  let a x y := apart x y (mQ p) in let c x y := close x y (mQ p) in
  (limit = GENERAL /\ a (mQ p) (mD p) /\ a (mQ p) (MG p) /\ a (mD p) (MG p)) \/
  (limit = MQ3_EQ_MU3 /\ c (mQ p) (mD p) /\ a (mQ p) (MG p) /\ a (mD p) (MG p)) \/
  (limit = MQ3_EQ_M3 /\ a (mQ p) (mD p) /\ c (mQ p) (MG p)) \/
  (limit = MU3_EQ_M3 /\ a (mQ p) (mD p) /\ a (mQ p) (MG p) /\ c (mD p) (MG p)) \/
  (limit = MQ3_EQ_MU3_EQ_M3 /\ c (mQ p) (mD p) /\ c (mQ p) (MG p) /\ c (mD p) (MG p)).

(** ** The three-mass function
    The two-loop formulas of the literature contain Phi(x, y, z) with Phi(x, y, z) / z invariant under permutations of the masses. *)
Definition three_mass (phi : R -> R -> R -> R) : Prop := forall x y z, 0 < x -> 0 < y -> 0 < z -> phi x z y / y = phi x y z / z.
Definition delta3 (x y z : R) : R := x ^ 2 + y ^ 2 + z ^ 2 - 2 * (x * y + x * z + y * z).
(** the literature's normalisation in terms of the implemented function *)
Definition phi_lit (x y z : R) : R := 2 * z * phi_xyz x y z / delta3 x y z.

(** conditions on the masses of third-generation squarks, mu and MA: physical, not degenerate, no squared ratio equal to 2 *)
Definition mU (p : Params R) : R := sqrt (a22 (mu2 p)).
Definition generic (x y : R) : Prop := x <> y /\ x ^ 2 <> 2 * y ^ 2 /\ y ^ 2 <> 2 * x ^ 2.
Definition outside (x y : R) : Prop := 1 / 10000 < x / y /\ 2 / 100 < Rabs (x / y - 1).
Record phys_m (p : Params R) : Prop := {
  pm_q : 0 < a22 (mq2 p); pm_d : 0 < a22 (md2 p); pm_u : 0 < a22 (mu2 p); pm_r : 0 < scale p; pm_mu : 0 < mu p; pm_A : 0 < MA p;
  pm_vu : 0 < vu p; pm_vd : 0 < vd p; pm_st : 0 < v0 (MSt p) }.
Record generic_b (p : Params R) : Prop := {
  gn_qd : generic (mQ p) (mD p); gn_qm : generic (mQ p) (mu p); gn_dm : generic (mD p) (mu p);
  gn_qA : mQ p <> MA p; gn_dA : mD p <> MA p; gn_del : delta3 (mQ p ^ 2) (mD p ^ 2) (MA p ^ 2) <> 0 }.
Record generic_t (p : Params R) : Prop := {
  gn_b : generic_b p; gn_qu : generic (mQ p) (mU p); gn_du : generic (mD p) (mU p); gn_um : generic (mU p) (mu p);
  gn_del1 : delta3 (mQ p ^ 2) (mU p ^ 2) (MA p ^ 2) <> 0; gn_del2 : delta3 (mD p ^ 2) (mU p ^ 2) (MA p ^ 2) <> 0 }.
(** the third generation of sleptons has the masses and the trilinear coupling of the sbottoms *)
Definition sleptons_as_sbottoms (p : Params R) : Prop :=
  a22 (ml2 p) = a22 (mq2 p) /\ a22 (me2 p) = a22 (md2 p) /\ a22 (Ae p) = a22 (Ad p).
(** the correction that relates the two mixed top-bottom terms *)
Definition bottom_shift (p : Params R) : R :=
  let c2 := calcCosBeta p ^ 2 in let s2 := calcSinBeta p ^ 2 in let Xb := calcXb p in
  - (c2 * Xb ^ 2 * F5 (mQ p / mD p)) / (4 * (mQ p * mD p)) + F6 (mD p / mu p) / 2
  - vd p / vu p * Xb * F9 (mQ p / mu p) (mD p / mu p) / (2 * mu p)
  + (2 * ln (mu p ^ 2 / scale p ^ 2) - 8 * c2 - s2 + 2 * ln (MA p ^ 2 / scale p ^ 2) * (4 * c2 + s2)) / 8.
