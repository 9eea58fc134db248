(** * Tree-level DR' spectrum
    GENERATED by tools/gen_fo.py from source/himalaya/mh2_fo/MSSM_spectrum.cpp, statement by statement.  The stream operator
    (:658-713) is left out.  4-vectors and 4x4 matrices are functions of the (0-based) indices. *)
From Coq Require Import ZArith Bool List.
From Verif Require Import Num Except Params PV Linalg.

Section Access.
  Context {T : Type}.
  Definition vget (v : vec2 T) (i : nat) : T := match i with O => v0 v | _ => v1 v end.
  Definition mget (m : mat2 T) (i j : nat) : T :=
    match i, j with O, O => m00 m | O, _ => m01 m | _, O => m10 m | _, _ => m11 m end.
End Access.

(** external decompositions (Linalg.hpp): fs_diagonalize_symmetric for a real 4x4 matrix (masses; complex mixing matrix as pairs
    re, im) and fs_svd for a real 2x2 matrix (singular values, u, v) *)
Record FermionLib (T : Type) := mkFermionLib {
  lib_sym4 : (nat -> nat -> T) -> (nat -> T) * (nat -> nat -> T * T);
  lib_svd2 : mat2 T -> vec2 T * mat2 T * mat2 T }.
Arguments mkFermionLib {T}. Arguments lib_sym4 {T}. Arguments lib_svd2 {T}.

(** source/himalaya/mh2_fo/MSSM_spectrum.hpp:33-76 *)
Record Spectrum (T : Type) := mkSpectrum {
  sp_pars : Params T;
  M2VWm : T; M2VZ : T; MFt : T; MFb : T; MFtau : T; M2SveL : T; M2SvmL : T; M2SvtL : T;
  M2Su : vec2 T; M2Sd : vec2 T; M2Sc : vec2 T; M2Ss : vec2 T; M2St : vec2 T; M2Sb : vec2 T; M2Se : vec2 T; M2Sm : vec2 T; M2Stau : vec2 T; M2hh : vec2 T; M2Ah : vec2 T; M2Hpm : vec2 T;
  MChi : nat -> T; MCha : vec2 T;
  ZU : mat2 T; ZD : mat2 T; ZC : mat2 T; ZS : mat2 T; ZT : mat2 T; ZB : mat2 T; ZE : mat2 T; ZM : mat2 T; ZTau : mat2 T; ZH : mat2 T; ZA : mat2 T; ZP : mat2 T;
  ZN : nat -> nat -> T; UM : mat2 T; UP : mat2 T }.
Arguments mkSpectrum {T}. Arguments sp_pars {T}.
Arguments M2VWm {T}. Arguments M2VZ {T}. Arguments MFt {T}. Arguments MFb {T}. Arguments MFtau {T}. Arguments M2SveL {T}. Arguments M2SvmL {T}. Arguments M2SvtL {T}. Arguments M2Su {T}. Arguments M2Sd {T}. Arguments M2Sc {T}. Arguments M2Ss {T}. Arguments M2St {T}. Arguments M2Sb {T}. Arguments M2Se {T}. Arguments M2Sm {T}. Arguments M2Stau {T}. Arguments M2hh {T}. Arguments M2Ah {T}. Arguments M2Hpm {T}. Arguments MChi {T}. Arguments MCha {T}. Arguments ZU {T}. Arguments ZD {T}. Arguments ZC {T}. Arguments ZS {T}. Arguments ZT {T}. Arguments ZB {T}. Arguments ZE {T}. Arguments ZM {T}. Arguments ZTau {T}. Arguments ZH {T}. Arguments ZA {T}. Arguments ZP {T}. Arguments ZN {T}. Arguments UM {T}. Arguments UP {T}.

Section Spectrum.
  Context {T : Type} {N : Num T}.
  Open Scope num_scope.

  (** normalize_to_interval for real matrices (MSSM_spectrum.cpp:70-81), one entry *)
  Definition clamp (x : T) : T := if x <? #(-1) then #(-1) else if x >? #1 then #1 else x.
  Definition normalize_to_interval (m : mat2 T) : mat2 T :=
    mkM2 (clamp (m00 m)) (clamp (m01 m)) (clamp (m10 m)) (clamp (m11 m)).
  (** normalize_to_interval for complex matrices (:92-102), one entry: polar(1, arg z) = z/|z| *)
  Definition normalize_c (z : T * T) : T * T :=
    let a := hypot (fst z) (snd z) in if a >? #1 then (fst z / a, snd z / a) else z.
  (** cwiseAbs().maxCoeff() of the imaginary parts of row i of a 4x4 matrix (:49) *)
  Definition max_imag (z : nat -> nat -> T * T) (i : nat) : T :=
    fold_left (fun m j => stdmax m (nabs (snd (z i j)))) (1 :: 2 :: 3 :: nil)%nat (nabs (snd (z i 0%nat))).
  (** convert_symmetric_fermion_mixings_to_slha (:43-55): masses and the real part of the converted mixing matrix;
      i*(a + i b) has real part -b *)
  Definition to_slha (m : nat -> T) (z : nat -> nat -> T * T) : (nat -> T) * (nat -> nat -> T) :=
    (fun i => if negb (is_zero (max_imag z i) eps_default) then m i * #(-1) else m i,
     fun i j => if negb (is_zero (max_imag z i) eps_default) then #0 * fst (z i j) - #1 * snd (z i j) else fst (z i j)).
  (** symmetrize (:110-121) *)
  Definition symmetrize (m : nat -> nat -> T) (i j : nat) : T := if Nat.ltb j i then m j i else m i j.

  (** source/himalaya/mh2_fo/MSSM_spectrum.cpp:165-172 *)
  Definition calculate_MVWm (pars : Params T) : T :=
    let g2 := g2 pars in
    let vu := vu pars in
    let vd := vd pars in
    ndec 25 2 * pow2 g2 * (pow2 vd + pow2 vu).

  (** source/himalaya/mh2_fo/MSSM_spectrum.cpp:174-182 *)
  Definition calculate_MVZ (pars : Params T) : T :=
    let gY := g1 pars * nconst Csqrt35 in
    let g2 := g2 pars in
    let vu := vu pars in
    let vd := vd pars in
    ndec 25 2 * (pow2 gY + pow2 g2) * (pow2 vd + pow2 vu).

  (** source/himalaya/mh2_fo/MSSM_spectrum.cpp:184-187 *)
  Definition calculate_MFt (pars : Params T) : T :=
    a22 (Yu pars) * vu pars * nconst Cinv_sqrt2.

  (** source/himalaya/mh2_fo/MSSM_spectrum.cpp:189-192 *)
  Definition calculate_MFb (pars : Params T) : T :=
    a22 (Yd pars) * vd pars * nconst Cinv_sqrt2.

  (** source/himalaya/mh2_fo/MSSM_spectrum.cpp:194-197 *)
  Definition calculate_MFtau (pars : Params T) : T :=
    a22 (Ye pars) * vd pars * nconst Cinv_sqrt2.

  (** source/himalaya/mh2_fo/MSSM_spectrum.cpp:199-209 *)
  Definition calculate_MSveL (pars : Params T) : T :=
    let g1 := g1 pars in
    let g2 := g2 pars in
    let vu := vu pars in
    let vd := vd pars in
    let ml2 := a00 (ml2 pars) in
    ndec 125 3 * (#8 * ml2 - ndec 6 1 * pow2 g1 * (- pow2 vd + pow2 vu) - pow2 g2 * (- pow2 vd + pow2
      vu)).

  (** source/himalaya/mh2_fo/MSSM_spectrum.cpp:211-221 *)
  Definition calculate_MSvmL (pars : Params T) : T :=
    let g1 := g1 pars in
    let g2 := g2 pars in
    let vu := vu pars in
    let vd := vd pars in
    let ml2 := a11 (ml2 pars) in
    ndec 125 3 * (#8 * ml2 - ndec 6 1 * pow2 g1 * (- pow2 vd + pow2 vu) - pow2 g2 * (- pow2 vd + pow2
      vu)).

  (** source/himalaya/mh2_fo/MSSM_spectrum.cpp:223-233 *)
  Definition calculate_MSvtL (pars : Params T) : T :=
    let g1 := g1 pars in
    let g2 := g2 pars in
    let vu := vu pars in
    let vd := vd pars in
    let ml2 := a22 (ml2 pars) in
    ndec 125 3 * (#8 * ml2 - ndec 6 1 * pow2 g1 * (- pow2 vd + pow2 vu) - pow2 g2 * (- pow2 vd + pow2
      vu)).

  (** source/himalaya/mh2_fo/MSSM_spectrum.cpp:235-258 *)
  Definition get_mass_matrix_Su (pars : Params T) : mat2 T :=
    let g1 := g1 pars in
    let g2 := g2 pars in
    let yu := #0 in
    let vu := vu pars in
    let vd := vd pars in
    let mu := mu pars in
    let Tyu := a00 (Au pars) * yu in
    let mq2 := a00 (mq2 pars) in
    let mu2 := a00 (mu2 pars) in
    let m00 := mq2 - ndec 25 3 * pow2 g1 * pow2 vd + ndec 125 3 * pow2 g2 * pow2 vd + ndec 5 1 * pow2 yu * pow2 vu
      + ndec 25 3 * pow2 g1 * pow2 vu - ndec 125 3 * pow2 g2 * pow2 vu in
    let m01 := nconst Cinv_sqrt2 * vu * Tyu - nconst Cinv_sqrt2 * vd * yu * mu in
    let m10 := m01 in
    let m11 := mu2 + ndec 1 1 * pow2 g1 * pow2 vd + ndec 5 1 * pow2 yu * pow2 vu - ndec 1 1 * pow2 g1 * pow2 vu in
    mkM2 m00 m01 m10 m11.

  (** source/himalaya/mh2_fo/MSSM_spectrum.cpp:267-290 *)
  Definition get_mass_matrix_Sd (pars : Params T) : mat2 T :=
    let g1 := g1 pars in
    let g2 := g2 pars in
    let yd := #0 in
    let vu := vu pars in
    let vd := vd pars in
    let mu := mu pars in
    let Tyd := a00 (Ad pars) * yd in
    let mq2 := a00 (mq2 pars) in
    let md2 := a00 (md2 pars) in
    let m00 := mq2 + ndec 5 1 * pow2 yd * pow2 vd - ndec 25 3 * pow2 g1 * pow2 vd - ndec 125 3 * pow2 g2 * pow2 vd
      + ndec 25 3 * pow2 g1 * pow2 vu + ndec 125 3 * pow2 g2 * pow2 vu in
    let m01 := nconst Cinv_sqrt2 * vd * Tyd - nconst Cinv_sqrt2 * vu * yd * mu in
    let m10 := m01 in
    let m11 := md2 + ndec 5 1 * pow2 yd * pow2 vd - ndec 5 2 * pow2 g1 * pow2 vd + ndec 5 2 * pow2 g1 * pow2 vu in
    mkM2 m00 m01 m10 m11.

  (** source/himalaya/mh2_fo/MSSM_spectrum.cpp:299-322 *)
  Definition get_mass_matrix_Sc (pars : Params T) : mat2 T :=
    let g1 := g1 pars in
    let g2 := g2 pars in
    let yc := #0 in
    let vu := vu pars in
    let vd := vd pars in
    let mu := mu pars in
    let Tyc := a11 (Au pars) * yc in
    let mq2 := a11 (mq2 pars) in
    let mu2 := a11 (mu2 pars) in
    let m00 := mq2 - ndec 25 3 * pow2 g1 * pow2 vd + ndec 125 3 * pow2 g2 * pow2 vd + ndec 5 1 * pow2 yc * pow2 vu
      + ndec 25 3 * pow2 g1 * pow2 vu - ndec 125 3 * pow2 g2 * pow2 vu in
    let m01 := nconst Cinv_sqrt2 * vu * Tyc - nconst Cinv_sqrt2 * vd * yc * mu in
    let m10 := m01 in
    let m11 := mu2 + ndec 1 1 * pow2 g1 * pow2 vd + ndec 5 1 * pow2 yc * pow2 vu - ndec 1 1 * pow2 g1 * pow2 vu in
    mkM2 m00 m01 m10 m11.

  (** source/himalaya/mh2_fo/MSSM_spectrum.cpp:331-354 *)
  Definition get_mass_matrix_Ss (pars : Params T) : mat2 T :=
    let g1 := g1 pars in
    let g2 := g2 pars in
    let ys := #0 in
    let vu := vu pars in
    let vd := vd pars in
    let mu := mu pars in
    let Tys := a11 (Ad pars) * ys in
    let mq2 := a11 (mq2 pars) in
    let md2 := a11 (md2 pars) in
    let m00 := mq2 + ndec 5 1 * pow2 ys * pow2 vd - ndec 25 3 * pow2 g1 * pow2 vd - ndec 125 3 * pow2 g2 * pow2 vd
      + ndec 25 3 * pow2 g1 * pow2 vu + ndec 125 3 * pow2 g2 * pow2 vu in
    let m01 := nconst Cinv_sqrt2 * vd * Tys - nconst Cinv_sqrt2 * vu * ys * mu in
    let m10 := m01 in
    let m11 := md2 + ndec 5 1 * pow2 ys * pow2 vd - ndec 5 2 * pow2 g1 * pow2 vd + ndec 5 2 * pow2 g1 * pow2 vu in
    mkM2 m00 m01 m10 m11.

  (** source/himalaya/mh2_fo/MSSM_spectrum.cpp:363-386 *)
  Definition get_mass_matrix_St (pars : Params T) : mat2 T :=
    let g1 := g1 pars in
    let g2 := g2 pars in
    let yt := a22 (Yu pars) in
    let vu := vu pars in
    let vd := vd pars in
    let mu := mu pars in
    let Tyt := a22 (Au pars) * yt in
    let mq2 := a22 (mq2 pars) in
    let mu2 := a22 (mu2 pars) in
    let m00 := mq2 - ndec 25 3 * pow2 g1 * pow2 vd + ndec 125 3 * pow2 g2 * pow2 vd + ndec 5 1 * pow2 yt * pow2 vu
      + ndec 25 3 * pow2 g1 * pow2 vu - ndec 125 3 * pow2 g2 * pow2 vu in
    let m01 := nconst Cinv_sqrt2 * vu * Tyt - nconst Cinv_sqrt2 * vd * yt * mu in
    let m10 := m01 in
    let m11 := mu2 + ndec 1 1 * pow2 g1 * pow2 vd + ndec 5 1 * pow2 yt * pow2 vu - ndec 1 1 * pow2 g1 * pow2 vu in
    mkM2 m00 m01 m10 m11.

  (** source/himalaya/mh2_fo/MSSM_spectrum.cpp:395-418 *)
  Definition get_mass_matrix_Sb (pars : Params T) : mat2 T :=
    let g1 := g1 pars in
    let g2 := g2 pars in
    let yb := a22 (Yd pars) in
    let vu := vu pars in
    let vd := vd pars in
    let mu := mu pars in
    let Tyb := a22 (Ad pars) * yb in
    let mq2 := a22 (mq2 pars) in
    let md2 := a22 (md2 pars) in
    let m00 := mq2 + ndec 5 1 * pow2 yb * pow2 vd - ndec 25 3 * pow2 g1 * pow2 vd - ndec 125 3 * pow2 g2 * pow2 vd
      + ndec 25 3 * pow2 g1 * pow2 vu + ndec 125 3 * pow2 g2 * pow2 vu in
    let m01 := nconst Cinv_sqrt2 * vd * Tyb - nconst Cinv_sqrt2 * vu * yb * mu in
    let m10 := m01 in
    let m11 := md2 + ndec 5 1 * pow2 yb * pow2 vd - ndec 5 2 * pow2 g1 * pow2 vd + ndec 5 2 * pow2 g1 * pow2 vu in
    mkM2 m00 m01 m10 m11.

  (** source/himalaya/mh2_fo/MSSM_spectrum.cpp:427-450 *)
  Definition get_mass_matrix_Se (pars : Params T) : mat2 T :=
    let g1 := g1 pars in
    let g2 := g2 pars in
    let ye := #0 in
    let vu := vu pars in
    let vd := vd pars in
    let mu := mu pars in
    let Tye := a00 (Ae pars) * ye in
    let ml2 := a00 (ml2 pars) in
    let me2 := a00 (me2 pars) in
    let m00 := ml2 + ndec 5 1 * pow2 ye * pow2 vd + ndec 75 3 * pow2 g1 * pow2 vd - ndec 125 3 * pow2 g2 * pow2 vd
      - ndec 75 3 * pow2 g1 * pow2 vu + ndec 125 3 * pow2 g2 * pow2 vu in
    let m01 := nconst Cinv_sqrt2 * vd * Tye - nconst Cinv_sqrt2 * vu * ye * mu in
    let m10 := m01 in
    let m11 := me2 + ndec 5 1 * pow2 ye * pow2 vd - ndec 15 2 * pow2 g1 * pow2 vd + ndec 15 2 * pow2 g1 * pow2 vu in
    mkM2 m00 m01 m10 m11.

  (** source/himalaya/mh2_fo/MSSM_spectrum.cpp:459-482 *)
  Definition get_mass_matrix_Sm (pars : Params T) : mat2 T :=
    let g1 := g1 pars in
    let g2 := g2 pars in
    let ym := #0 in
    let vu := vu pars in
    let vd := vd pars in
    let mu := mu pars in
    let Tym := a11 (Ae pars) * ym in
    let ml2 := a11 (ml2 pars) in
    let me2 := a11 (me2 pars) in
    let m00 := ml2 + ndec 5 1 * pow2 ym * pow2 vd + ndec 75 3 * pow2 g1 * pow2 vd - ndec 125 3 * pow2 g2 * pow2 vd
      - ndec 75 3 * pow2 g1 * pow2 vu + ndec 125 3 * pow2 g2 * pow2 vu in
    let m01 := nconst Cinv_sqrt2 * vd * Tym - nconst Cinv_sqrt2 * vu * ym * mu in
    let m10 := m01 in
    let m11 := me2 + ndec 5 1 * pow2 ym * pow2 vd - ndec 15 2 * pow2 g1 * pow2 vd + ndec 15 2 * pow2 g1 * pow2 vu in
    mkM2 m00 m01 m10 m11.

  (** source/himalaya/mh2_fo/MSSM_spectrum.cpp:491-514 *)
  Definition get_mass_matrix_Stau (pars : Params T) : mat2 T :=
    let g1 := g1 pars in
    let g2 := g2 pars in
    let ytau := a22 (Ye pars) in
    let vu := vu pars in
    let vd := vd pars in
    let mu := mu pars in
    let Tytau := a22 (Ae pars) * ytau in
    let ml2 := a22 (ml2 pars) in
    let me2 := a22 (me2 pars) in
    let m00 := ml2 + ndec 5 1 * pow2 ytau * pow2 vd + ndec 75 3 * pow2 g1 * pow2 vd - ndec 125 3 * pow2 g2 * pow2
      vd - ndec 75 3 * pow2 g1 * pow2 vu + ndec 125 3 * pow2 g2 * pow2 vu in
    let m01 := nconst Cinv_sqrt2 * vd * Tytau - nconst Cinv_sqrt2 * vu * ytau * mu in
    let m10 := m01 in
    let m11 := me2 + ndec 5 1 * pow2 ytau * pow2 vd - ndec 15 2 * pow2 g1 * pow2 vd + ndec 15 2 * pow2 g1 * pow2 vu in
    mkM2 m00 m01 m10 m11.

  (** source/himalaya/mh2_fo/MSSM_spectrum.cpp:523-541 *)
  Definition get_mass_matrix_hh (pars : Params T) : mat2 T :=
    let g1 := g1 pars in
    let g2 := g2 pars in
    let vu := vu pars in
    let vd := vd pars in
    let mA2 := pow2 (MA pars) in
    let v2 := pow2 vu + pow2 vd in
    let Bmu := mA2 * vu * vd / v2 in
    let m00 := Bmu * vu / vd + (#3 * pow2 g1 + #5 * pow2 g2) * pow2 vd / #20 in
    let m01 := - Bmu - vd * vu * (#3 * pow2 g1 + #5 * pow2 g2) / #20 in
    let m10 := m01 in
    let m11 := Bmu * vd / vu + (#3 * pow2 g1 + #5 * pow2 g2) * pow2 vu / #20 in
    mkM2 m00 m01 m10 m11.

  (** source/himalaya/mh2_fo/MSSM_spectrum.cpp:550-569 *)
  Definition get_mass_matrix_Ah (pars : Params T) : mat2 T :=
    let g1 := g1 pars in
    let g2 := g2 pars in
    let vu := vu pars in
    let vd := vd pars in
    let mA2 := pow2 (MA pars) in
    let v2 := pow2 vu + pow2 vd in
    let Bmu := mA2 * vu * vd / v2 in
    let xi := #1 in
    let m00 := (#20 * Bmu * vu + pow3 vd * xi * (#3 * pow2 g1 + #5 * pow2 g2)) / (#20 * vd) in
    let m01 := Bmu - vd * vu * xi * (#3 * pow2 g1 + #5 * pow2 g2) / #20 in
    let m10 := m01 in
    let m11 := (#20 * Bmu * vd + pow3 vu * xi * (#3 * pow2 g1 + #5 * pow2 g2)) / (#20 * vu) in
    mkM2 m00 m01 m10 m11.

  (** source/himalaya/mh2_fo/MSSM_spectrum.cpp:578-596 *)
  Definition get_mass_matrix_Hpm (pars : Params T) : mat2 T :=
    let g2 := g2 pars in
    let vu := vu pars in
    let vd := vd pars in
    let mA2 := pow2 (MA pars) in
    let v2 := pow2 vu + pow2 vd in
    let Bmu := mA2 * vu * vd / v2 in
    let xi := #1 in
    let m00 := (#4 * Bmu * vu + vd * pow2 g2 * (xi * pow2 vd + pow2 vu)) / (#4 * vd) in
    let m01 := Bmu - vd * vu * (#(-1) + xi) * pow2 g2 / #4 in
    let m10 := m01 in
    let m11 := (#4 * Bmu * vd + vu * pow2 g2 * (pow2 vd + xi * pow2 vu)) / (#4 * vu) in
    mkM2 m00 m01 m10 m11.

  (** source/himalaya/mh2_fo/MSSM_spectrum.cpp:646-662 *)
  Definition get_mass_matrix_Cha (pars : Params T) : mat2 T :=
    let g2 := g2 pars in
    let vu := vu pars in
    let vd := vd pars in
    let mu := mu pars in
    let M2 := M2 pars in
    let m00 := M2 in
    let m01 := nconst Cinv_sqrt2 * g2 * vu in
    let m10 := nconst Cinv_sqrt2 * g2 * vd in
    let m11 := mu in
    mkM2 m00 m01 m10 m11.

  (** source/himalaya/mh2_fo/MSSM_spectrum.cpp:605-631.  Entries not assigned before symmetrize are #0 here; symmetrize
      overwrites all of them. *)
  Definition get_mass_matrix_Chi (pars : Params T) : nat -> nat -> T :=
    let g1 := g1 pars in
    let g2 := g2 pars in
    let vu := vu pars in
    let vd := vd pars in
    let mu := mu pars in
    let M1 := M1 pars in
    let M2 := M2 pars in
    symmetrize (fun i j => match i, j with
      | 0%nat, 0%nat => M1
      | 0%nat, 1%nat => #0
      | 0%nat, 2%nat => - ndec 3872983346207417 16 * g1 * vd
      | 0%nat, 3%nat => ndec 3872983346207417 16 * g1 * vu
      | 1%nat, 1%nat => M2
      | 1%nat, 2%nat => ndec 5 1 * g2 * vd
      | 1%nat, 3%nat => - ndec 5 1 * g2 * vu
      | 2%nat, 2%nat => #0
      | 2%nat, 3%nat => - mu
      | 3%nat, 3%nat => #0
      | _, _ => #0 end).

  (** the calculate_M* functions of the scalars with a 2x2 mass matrix all have this body *)
  Definition diagonalise (E : EigenLib T) (m : mat2 T) : vec2 T * mat2 T :=
    let '(w, z) := fs_diagonalize_hermitian E m in (w, normalize_to_interval z).

  (** MSSM_spectrum::MSSM_spectrum, calculate_spectrum (source/himalaya/mh2_fo/MSSM_spectrum.cpp:139-163, 142-167) *)
  Definition newSpectrum (E : EigenLib T) (F : FermionLib T) (pars : Params T) : Spectrum T :=
    let '(s_M2Su, s_ZU) := diagonalise E (get_mass_matrix_Su pars) in
    let '(s_M2Sd, s_ZD) := diagonalise E (get_mass_matrix_Sd pars) in
    let '(s_M2Sc, s_ZC) := diagonalise E (get_mass_matrix_Sc pars) in
    let '(s_M2Ss, s_ZS) := diagonalise E (get_mass_matrix_Ss pars) in
    let '(s_M2St, s_ZT) := diagonalise E (get_mass_matrix_St pars) in
    let '(s_M2Sb, s_ZB) := diagonalise E (get_mass_matrix_Sb pars) in
    let '(s_M2Se, s_ZE) := diagonalise E (get_mass_matrix_Se pars) in
    let '(s_M2Sm, s_ZM) := diagonalise E (get_mass_matrix_Sm pars) in
    let '(s_M2Stau, s_ZTau) := diagonalise E (get_mass_matrix_Stau pars) in
    let '(s_M2hh, s_ZH) := diagonalise E (get_mass_matrix_hh pars) in
    let '(s_M2Ah, s_ZA) := diagonalise E (get_mass_matrix_Ah pars) in
    let '(s_M2Hpm, s_ZP) := diagonalise E (get_mass_matrix_Hpm pars) in
    let '(mchi, zn) := lib_sym4 F (get_mass_matrix_Chi pars) in
    let '(mchi, zn) := to_slha mchi (fun i j => normalize_c (zn i j)) in
    let '(mcha, um, up) := lib_svd2 F (get_mass_matrix_Cha pars) in
    mkSpectrum pars (calculate_MVWm pars) (calculate_MVZ pars) (calculate_MFt pars) (calculate_MFb pars) (calculate_MFtau pars)
      (calculate_MSveL pars) (calculate_MSvmL pars) (calculate_MSvtL pars)
      s_M2Su s_M2Sd s_M2Sc s_M2Ss s_M2St s_M2Sb s_M2Se s_M2Sm s_M2Stau s_M2hh s_M2Ah s_M2Hpm mchi mcha
      s_ZU s_ZD s_ZC s_ZS s_ZT s_ZB s_ZE s_ZM s_ZTau s_ZH s_ZA s_ZP zn um up.

  (** masses.M2hh(0) = x *)
  Definition set_M2hh0 (s : Spectrum T) (x : T) : Spectrum T :=
    mkSpectrum (sp_pars s) (M2VWm s) (M2VZ s) (MFt s) (MFb s) (MFtau s) (M2SveL s) (M2SvmL s) (M2SvtL s)
      (M2Su s) (M2Sd s) (M2Sc s) (M2Ss s) (M2St s) (M2Sb s) (M2Se s) (M2Sm s) (M2Stau s) (mkV2 x (v1 (M2hh s))) (M2Ah s) (M2Hpm s) (MChi s) (MCha s)
      (ZU s) (ZD s) (ZC s) (ZS s) (ZT s) (ZB s) (ZE s) (ZM s) (ZTau s) (ZH s) (ZA s) (ZP s) (ZN s) (UM s) (UP s).
End Spectrum.
