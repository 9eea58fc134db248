(** * Model of struct Parameters
    include/himalaya/Himalaya_interface.hpp:32-78,
    source/himalaya/Himalaya_interface.cpp:34-285. *)
From Coq Require Import String ZArith List Bool.
From Verif Require Import Num Except.
Import ListNotations.

(** Eigen::Matrix3d *)
Record mat3 (T : Type) := mkM3 {
  a00 : T; a01 : T; a02 : T; a10 : T; a11 : T; a12 : T; a20 : T; a21 : T; a22 : T }.
Arguments mkM3 {T}. Arguments a00 {T}. Arguments a01 {T}. Arguments a02 {T}. Arguments a10 {T}.
Arguments a11 {T}. Arguments a12 {T}. Arguments a20 {T}. Arguments a21 {T}. Arguments a22 {T}.
Definition mat3_entries {T} (m : mat3 T) : list T :=
  [a00 m; a10 m; a20 m; a01 m; a11 m; a21 m; a02 m; a12 m; a22 m].
Definition mat3_set22 {T} (m : mat3 T) (x : T) : mat3 T :=
  mkM3 (a00 m) (a01 m) (a02 m) (a10 m) (a11 m) (a12 m) (a20 m) (a21 m) x.

(** The two Eigen decompositions used: SelfAdjointEigenSolver<Matrix2d> (eigenvalues in increasing
    order, eigenvectors as columns) and the singular values of JacobiSVD<Matrix3d> (decreasing).
    External code: an argument of the model. *)
Record EigenLib (T : Type) := mkEigen {
  eig2 : mat2 T -> vec2 T * mat2 T;
  sv3 : mat3 T -> T * T * T
}.
Arguments mkEigen {T}. Arguments eig2 {T}. Arguments sv3 {T}.

(** Himalaya_interface.hpp:32-74 *)
Record Params (T : Type) := mkParams {
  scale : T; mu : T; g1 : T; g2 : T; g3 : T; vd : T; vu : T;
  mq2 : mat3 T; md2 : mat3 T; mu2 : mat3 T; ml2 : mat3 T; me2 : mat3 T;
  Au : mat3 T; Ad : mat3 T; Ae : mat3 T; Yu : mat3 T; Yd : mat3 T; Ye : mat3 T;
  M1 : T; M2 : T; MG : T; MW : T; MZ : T; Mt : T; Mb : T; Mtau : T; MA : T;
  MSt : vec2 T; MSb : vec2 T; MStau : vec2 T;
  s2t : T; s2b : T; s2tau : T; theta_t : T; theta_b : T; theta_tau : T;
  massLimit3LThreshold : Z
}.
Arguments mkParams {T}.
Arguments scale {T}. Arguments mu {T}. Arguments g1 {T}. Arguments g2 {T}. Arguments g3 {T}.
Arguments vd {T}. Arguments vu {T}. Arguments mq2 {T}. Arguments md2 {T}. Arguments mu2 {T}.
Arguments ml2 {T}. Arguments me2 {T}. Arguments Au {T}. Arguments Ad {T}. Arguments Ae {T}.
Arguments Yu {T}. Arguments Yd {T}. Arguments Ye {T}. Arguments M1 {T}. Arguments M2 {T}.
Arguments MG {T}. Arguments MW {T}. Arguments MZ {T}. Arguments Mt {T}. Arguments Mb {T}.
Arguments Mtau {T}. Arguments MA {T}. Arguments MSt {T}. Arguments MSb {T}. Arguments MStau {T}.
Arguments s2t {T}. Arguments s2b {T}. Arguments s2tau {T}. Arguments theta_t {T}.
Arguments theta_b {T}. Arguments theta_tau {T}. Arguments massLimit3LThreshold {T}.

Section Params.
  Context {T : Type} {N : Num T}.
  Open Scope num_scope.

  (** Himalaya_interface.cpp:34-37 *)
  Definition sign (x : T) : Z := if x >=? #0 then 1%Z else (-1)%Z.
  (** :39-43 *)
  Definition calc_cw2 (mW mZ : T) : T :=
    let cw2 := pow2 (mW / mZ) in if nisfin cw2 then cw2 else #1.
  (** :45-48 *)
  Definition calc_sw2 (mW mZ : T) : T := #1 - calc_cw2 mW mZ.
  (** :50-53 *)
  Definition calc_v2 (vu vd : T) : T := pow2 vu + pow2 vd.
  (** :55-58 *)
  Definition calc_cos2beta (vu vd : T) : T := (pow2 vd - pow2 vu) / calc_v2 vu vd.

  (** the literals 0.5 and 0.6 *)
  Definition half : T := ndec 5 1.

  (** :61-68 (theta += 0.5*Pi; s2t *= -1) *)
  Definition sort_ev (ev : vec2 T) (theta s2t : T) : vec2 T * T * T :=
    if v0 ev >? v1 ev
    then (mkV2 (v1 ev) (v0 ev), theta + half * nconst CPi, s2t * (- #1))
    else (ev, theta, s2t).

  (** ew.minCoeff(), for a 2-vector.  Simplification: with NaN entries Eigen leaves the result
      unspecified; here the second entry is taken only if it is smaller. *)
  Definition vec2_min (v : vec2 T) : T := stdmin (v0 v) (v1 v).
  (** Matrix3d::minCoeff() over all nine entries (same remark) *)
  Definition mat3_min (m : mat3 T) : T :=
    fold_left stdmin (tl (mat3_entries m)) (a00 m).

  (** :78-108.  Simplification: the error text omits the numbers. *)
  Definition calculate_MSf_s2f (E : EigenLib T) (M : mat2 T) : res (vec2 T * T * T) :=
    let '(ew, ev) := eig2 E M in
    if vec2_min ew <? #0 then Throw "DR sfermion masses are tachyonic"%string
    else
      let ew := mkV2 (nsqrt (v0 ew)) (nsqrt (v1 ew)) in
      let '(theta, ew) :=
        if (sign (m00 ev) =? sign (m11 ev))%Z
        then (nacos (nabs (m00 ev)), ew)
        else (nacos (nabs (m01 ev)), mkV2 (v1 ew) (v0 ew)) in
      let theta := #(sign (m01 M / (m00 M - m11 M))) * nabs theta in
      let '(ew, theta, _) := sort_ev ew theta #0 in
      Ok (ew, nsin (#2 * theta), theta).

  (** :112-119; returns (theta, s2t) *)
  Definition calc_theta (theta s2t : T) : T * T :=
    if negb (nisnan theta) && nisnan s2t then (theta, nsin (#2 * theta))
    else if nisnan theta && negb (nisnan s2t) then (half * nasin s2t, s2t)
    else (theta, s2t).

  (** :121-125: singular values in increasing order on the diagonal *)
  Definition h_svd (E : EigenLib T) (M : mat3 T) : mat3 T :=
    let '(x0, x1, x2) := sv3 E M in
    mkM3 x2 #0 #0 #0 x1 #0 #0 #0 x0.

  (** :129-143; products associate to the left as in C++ *)
  Definition msq2_factors (p : Params T) : T :=
    let cos_2beta := calc_cos2beta (vu p) (vd p) in
    let sw2 := calc_sw2 (MW p) (MZ p) in
    a00 (mq2 p) * a00 (mu2 p) * a00 (mq2 p) * a00 (md2 p)
    * a11 (mq2 p) * a11 (mu2 p) * a11 (mq2 p) * a11 (md2 p)
    * (a22 (mq2 p) + pow2 (Mb p) - (half - sw2 / #3) * pow2 (MZ p) * cos_2beta)
    * (a22 (md2 p) + pow2 (Mb p) - sw2 / #3 * pow2 (MZ p) * cos_2beta).
  Definition calculateMsq2 (p : Params T) : T := npow (msq2_factors p) (ndec 1 1).

  (** :155-156 *)
  Definition soft_masses_negative (p : Params T) : bool :=
    (mat3_min (mq2 p) <? #0) || (mat3_min (md2 p) <? #0) || (mat3_min (mu2 p) <? #0)
    || (mat3_min (ml2 p) <? #0) || (mat3_min (me2 p) <? #0).

  (** :214-216, 232-234, 250-252 *)
  Definition stopMatrix (vu vd mu mq33 mu33 At Mt MW MZ : T) : mat2 T :=
    let tan_beta := vu / vd in
    let cos_2beta := calc_cos2beta vu vd in
    let Xt := Mt * (At - mu / tan_beta) in
    let sw2 := calc_sw2 MW MZ in
    mkM2 (mq33 + pow2 Mt + (half - #2 * sw2 / #3) * pow2 MZ * cos_2beta) Xt
         Xt (mu33 + pow2 Mt + #2 * sw2 / #3 * pow2 MZ * cos_2beta).
  Definition sbottomMatrix (vu vd mu mq33 md33 Ab Mb MW MZ : T) : mat2 T :=
    let tan_beta := vu / vd in
    let cos_2beta := calc_cos2beta vu vd in
    let Xb := Mb * (Ab - mu * tan_beta) in
    let sw2 := calc_sw2 MW MZ in
    mkM2 (mq33 + pow2 Mb - (half - sw2 / #3) * pow2 MZ * cos_2beta) Xb
         Xb (md33 + pow2 Mb - sw2 / #3 * pow2 MZ * cos_2beta).
  Definition stauMatrix (vu vd mu ml33 me33 Atau Mtau MW MZ : T) : mat2 T :=
    let tan_beta := vu / vd in
    let cos_2beta := calc_cos2beta vu vd in
    let Xtau := Mtau * (Atau - mu * tan_beta) in
    let sw2 := calc_sw2 MW MZ in
    mkM2 (ml33 + pow2 Mtau - (half - sw2) * pow2 MZ * cos_2beta) Xtau
         Xtau (me33 + pow2 Mtau - sw2 * pow2 MZ * cos_2beta).

  (** :209-225 and the two repetitions :227-261: (masses, s2f, theta) of one sfermion doublet *)
  Definition fill_doublet (E : EigenLib T) (m : vec2 T) (s2f theta : T) (M : mat2 T)
    : res (vec2 T * T * T) :=
    if nisnan (v0 m) || nisnan (v1 m) || nisnan s2f || nisnan theta
    then calculate_MSf_s2f E M else Ok (m, s2f, theta).

  (** eps = 1e-8, :272 *)
  Definition eps8 : T := ndec 1 8.
  (** :274-276 *)
  Definition shift_MSt (m : vec2 T) : vec2 T :=
    if nabs (v0 m - v1 m) <? eps8 then mkV2 (v1 m / (#1 + eps8)) (v1 m) else m.
  (** :278-280 (divides MSb(0), not MSb(1)) *)
  Definition shift_MSb (m : vec2 T) : vec2 T :=
    if nabs (v0 m - v1 m) <? eps8 then mkV2 (v0 m / (#1 + eps8)) (v1 m) else m.
  (** :282-284 *)
  Definition shift_mq2 (q u : mat3 T) : mat3 T :=
    if nabs (a22 q - a22 u) <? eps8 then mat3_set22 q (a22 u / (#1 + eps8)) else q.

  (** :187-201 *)
  Definition fill_MW (p : Params T) : T :=
    if nisnan (MW p) then half * g2 p * nsqrt (calc_v2 (vu p) (vd p)) else MW p.
  Definition fill_MZ (p : Params T) : T :=
    if nisnan (MZ p)
    then half * nsqrt ((ndec 6 1 * pow2 (g1 p) + pow2 (g2 p)) * calc_v2 (vu p) (vd p))
    else MZ p.
  Definition fill_fermion (m : T) (Y : mat3 T) (v : T) : T :=
    if nisnan m then nconst Cinv_sqrt2 * a22 Y * v else m.

  (** Parameters::validate, :152-285.  Not modelled: the log output ([verbose]) and the state
      of the struct after an exception (every caller in the library lets the exception propagate). *)
  Definition validate (E : EigenLib T) (p : Params T) : res (Params T) :=
    if soft_masses_negative p then
      Throw "Soft-breaking squared sfermion mass parameters must be greater than zero!"%string
    else if MG p <? #0 then Throw "Gluino mass parameter must not be negative!"%string
    else
      let MG' := nabs (MG p) in
      let Yu' := h_svd E (Yu p) in
      let Yd' := h_svd E (Yd p) in
      let Ye' := h_svd E (Ye p) in
      if nisnan (vu p) || (vu p <=? #0) then Throw "Invalid value of vu given!"%string
      else if nisnan (vd p) || (vd p <=? #0) then Throw "Invalid value of vd given!"%string
      else
        let MW' := fill_MW p in
        let MZ' := fill_MZ p in
        let Mt' := fill_fermion (Mt p) Yu' (vu p) in
        let Mb' := fill_fermion (Mb p) Yd' (vd p) in
        let Mtau' := fill_fermion (Mtau p) Ye' (vd p) in
        let '(th_t, s_t) := calc_theta (theta_t p) (s2t p) in
        let '(th_b, s_b) := calc_theta (theta_b p) (s2b p) in
        let '(th_tau, s_tau) := calc_theta (theta_tau p) (s2tau p) in
        do (m_t, s_t, th_t) <- fill_doublet E (MSt p) s_t th_t
             (stopMatrix (vu p) (vd p) (mu p) (a22 (mq2 p)) (a22 (mu2 p)) (a22 (Au p)) Mt' MW' MZ');
        do (m_b, s_b, th_b) <- fill_doublet E (MSb p) s_b th_b
             (sbottomMatrix (vu p) (vd p) (mu p) (a22 (mq2 p)) (a22 (md2 p)) (a22 (Ad p)) Mb' MW' MZ');
        do (m_tau, s_tau, th_tau) <- fill_doublet E (MStau p) s_tau th_tau
             (stauMatrix (vu p) (vd p) (mu p) (a22 (ml2 p)) (a22 (me2 p)) (a22 (Ae p)) Mtau' MW' MZ');
        let '(m_t, th_t, s_t) := sort_ev m_t th_t s_t in
        let '(m_b, th_b, s_b) := sort_ev m_b th_b s_b in
        let '(m_tau, th_tau, s_tau) := sort_ev m_tau th_tau s_tau in
        Ok (mkParams (scale p) (mu p) (g1 p) (g2 p) (g3 p) (vd p) (vu p)
              (shift_mq2 (mq2 p) (mu2 p)) (md2 p) (mu2 p) (ml2 p) (me2 p)
              (Au p) (Ad p) (Ae p) Yu' Yd' Ye'
              (M1 p) (M2 p) MG' MW' MZ' Mt' Mb' Mtau' (MA p)
              (shift_MSt m_t) (shift_MSb m_b) m_tau
              s_t s_b s_tau th_t th_b th_tau
              (massLimit3LThreshold p)).
End Params.
