(** * Specifications for struct Parameters, in plain real arithmetic. *)
From Coq Require Import Reals List ZArith.
From Verif Require Import Num Except Params.
Import ListNotations.
Open Scope R_scope.

(** ** Textbook formulas *)
Definition cos2b_of (u d : R) : R := (d * d - u * u) / (u * u + d * d).
(** sin^2 of the weak mixing angle; the code uses 0 if MZ = 0 *)
Definition sw2_of (mw mz : R) : R := if Req_EM_T mz 0 then 0 else 1 - (mw / mz) ^ 2.

(** Sfermion mass matrix: LL and RR soft masses, fermion mass, isospin T3, charge q,
    left-right mixing x (trilinear minus mu times cot or tan beta). *)
Definition sfermion_matrix (mll mrr mf T3 q x mw mz c2b : R) : mat2 R :=
  let sw2 := sw2_of mw mz in
  mkM2 (mll + mf ^ 2 + (T3 - q * sw2) * mz ^ 2 * c2b) (mf * x)
       (mf * x) (mrr + mf ^ 2 + q * sw2 * mz ^ 2 * c2b).

(** A symmetric matrix has a negative eigenvalue iff its quadratic form takes a negative value. *)
Definition takes_negative (M : mat2 R) : Prop :=
  exists x y, m00 M * x * x + (m01 M + m10 M) * x * y + m11 M * y * y < 0.

(** ** What is assumed of Eigen *)
Definition eigenpair (M : mat2 R) (l x y : R) : Prop :=
  m00 M * x + m01 M * y = l * x /\ m10 M * x + m11 M * y = l * y.
(** the documented contract of SelfAdjointEigenSolver: increasing eigenvalues, orthonormal columns *)
Record eig_spec (M : mat2 R) (ew : vec2 R) (ev : mat2 R) : Prop := {
  es_ord : v0 ew <= v1 ew;
  es_pair0 : eigenpair M (v0 ew) (m00 ev) (m10 ev);
  es_pair1 : eigenpair M (v1 ew) (m01 ev) (m11 ev);
  es_norm0 : m00 ev * m00 ev + m10 ev * m10 ev = 1;
  es_norm1 : m01 ev * m01 ev + m11 ev * m11 ev = 1;
  es_orth : m00 ev * m01 ev + m10 ev * m11 ev = 0
}.
Definition eig_ok (E : EigenLib R) : Prop :=
  forall M, m01 M = m10 M -> eig_spec M (fst (eig2 E M)) (snd (eig2 E M)).

(** Numbers that are given: lifting reals to the partial reading. *)
Definition someV (v : vec2 R) : vec2 PR := mkV2 (Some (v0 v)) (Some (v1 v)).
Definition someM (m : mat2 R) : mat2 PR := mkM2 (Some (m00 m)) (Some (m01 m)) (Some (m10 m)) (Some (m11 m)).
Definition someM3 (m : mat3 R) : mat3 PR :=
  mkM3 (Some (a00 m)) (Some (a01 m)) (Some (a02 m)) (Some (a10 m)) (Some (a11 m)) (Some (a12 m))
       (Some (a20 m)) (Some (a21 m)) (Some (a22 m)).
(** [E] acts on given numbers as [ER] does *)
Definition lifts (E : EigenLib PR) (ER : EigenLib R) : Prop :=
  (forall M, eig2 E (someM M) = (someV (fst (eig2 ER M)), someM (snd (eig2 ER M))))
  /\ (forall M, sv3 E (someM3 M) = let '(x, y, z) := sv3 ER M in (Some x, Some y, Some z)).

(** Input point: the running parameters [r] are given; the fields that may be left NaN ([None])
    are those of the record [o]. *)
Record optional := mkOpt {
  oMW : PR; oMZ : PR; oMt : PR; oMb : PR; oMtau : PR;
  oMSt : vec2 PR; oMSb : vec2 PR; oMStau : vec2 PR;
  os2t : PR; os2b : PR; os2tau : PR; oth_t : PR; oth_b : PR; oth_tau : PR; ovu : PR; ovd : PR }.

Definition point (r : Params R) (o : optional) : Params PR :=
  mkParams (Some (scale r)) (Some (mu r)) (Some (g1 r)) (Some (g2 r)) (Some (g3 r)) (ovd o) (ovu o)
    (someM3 (mq2 r)) (someM3 (md2 r)) (someM3 (mu2 r)) (someM3 (ml2 r)) (someM3 (me2 r))
    (someM3 (Au r)) (someM3 (Ad r)) (someM3 (Ae r)) (someM3 (Yu r)) (someM3 (Yd r)) (someM3 (Ye r))
    (Some (M1 r)) (Some (M2 r)) (Some (MG r)) (oMW o) (oMZ o) (oMt o) (oMb o) (oMtau o) (Some (MA r))
    (oMSt o) (oMSb o) (oMStau o) (os2t o) (os2b o) (os2tau o) (oth_t o) (oth_b o) (oth_tau o)
    (massLimit3LThreshold r).

(** the value given, or the one computed from running parameters *)
Definition given_or (x : PR) (d : R) : R := match x with Some v => v | None => d end.
Definition mW_of (r : Params R) (o : optional) (u d : R) : R :=
  given_or (oMW o) (g2 r / 2 * sqrt (u ^ 2 + d ^ 2)).
Definition mZ_of (r : Params R) (o : optional) (u d : R) : R :=
  given_or (oMZ o) (/ 2 * sqrt ((3 / 5 * g1 r ^ 2 + g2 r ^ 2) * (u ^ 2 + d ^ 2))).
(** largest singular value of a Yukawa matrix *)
Definition ymax (ER : EigenLib R) (Y : mat3 R) : R := let '(x, _, _) := sv3 ER Y in x.
Definition mt_of (ER : EigenLib R) (r : Params R) (o : optional) (u : R) : R :=
  given_or (oMt o) (ymax ER (Yu r) * u / sqrt 2).
Definition mb_of (ER : EigenLib R) (r : Params R) (o : optional) (d : R) : R :=
  given_or (oMb o) (ymax ER (Yd r) * d / sqrt 2).
Definition mtau_of (ER : EigenLib R) (r : Params R) (o : optional) (d : R) : R :=
  given_or (oMtau o) (ymax ER (Ye r) * d / sqrt 2).

Definition stop_matrix ER r o u d : mat2 R :=
  sfermion_matrix (a22 (mq2 r)) (a22 (mu2 r)) (mt_of ER r o u) (1 / 2) (2 / 3)
    (a22 (Au r) - mu r * d / u) (mW_of r o u d) (mZ_of r o u d) (cos2b_of u d).
Definition sbottom_matrix ER r o u d : mat2 R :=
  sfermion_matrix (a22 (mq2 r)) (a22 (md2 r)) (mb_of ER r o d) (- (1 / 2)) (- (1 / 3))
    (a22 (Ad r) - mu r * u / d) (mW_of r o u d) (mZ_of r o u d) (cos2b_of u d).
Definition stau_matrix ER r o u d : mat2 R :=
  sfermion_matrix (a22 (ml2 r)) (a22 (me2 r)) (mtau_of ER r o d) (- (1 / 2)) (- 1)
    (a22 (Ae r) - mu r * u / d) (mW_of r o u d) (mZ_of r o u d) (cos2b_of u d).

(** A doublet is complete if both masses are given and the mixing is: by the angle, by sin(2 theta)
    in [-1,1], or by both.  [mixing] gives (sin 2theta, theta) in that case. *)
Definition mixing (s th : PR) : option (R * R) :=
  match s, th with
  | Some s, Some t => Some (s, t)
  | None, Some t => Some (sin (2 * t), t)
  | Some s, None => if Rle_dec (-1) s then if Rle_dec s 1 then Some (s, asin s / 2) else None else None
  | None, None => None
  end.
Definition complete (m : vec2 PR) (s th : PR) : Prop :=
  (exists a b, m = mkV2 (Some a) (Some b)) /\ mixing s th <> None.

Definition negative_entry (m : mat3 R) : Prop := exists x, In x (mat3_entries m) /\ x < 0.
Definition bad_vev (v : PR) : Prop := match v with None => True | Some x => x <= 0 end.

(** C06: the conditions under which a point is rejected *)
Definition rejected (ER : EigenLib R) (r : Params R) (o : optional) : Prop :=
  negative_entry (mq2 r) \/ negative_entry (md2 r) \/ negative_entry (mu2 r) \/ negative_entry (ml2 r)
  \/ negative_entry (me2 r)
  \/ MG r < 0 \/ bad_vev (ovu o) \/ bad_vev (ovd o)
  \/ exists u d, ovu o = Some u /\ ovd o = Some d /\ 0 < u /\ 0 < d /\
     (~ complete (oMSt o) (os2t o) (oth_t o) /\ takes_negative (stop_matrix ER r o u d)
      \/ ~ complete (oMSb o) (os2b o) (oth_b o) /\ takes_negative (sbottom_matrix ER r o u d)
      \/ ~ complete (oMStau o) (os2tau o) (oth_tau o) /\ takes_negative (stau_matrix ER r o u d)).

(** Mass matrix described by two masses and a mixing angle (convention of hep-ph/0105096) *)
Definition mass_matrix (m : vec2 R) (th : R) : mat2 R :=
  mkM2 (cos th ^ 2 * v0 m ^ 2 + sin th ^ 2 * v1 m ^ 2)
       (sin th * cos th * (v0 m ^ 2 - v1 m ^ 2))
       (sin th * cos th * (v0 m ^ 2 - v1 m ^ 2))
       (sin th ^ 2 * v0 m ^ 2 + cos th ^ 2 * v1 m ^ 2).

(** C11: the ten squared masses whose geometric mean is the average squark mass *)
Definition ten_masses (p : Params R) : list R :=
  let c2b := cos2b_of (vu p) (vd p) in
  let sw2 := sw2_of (MW p) (MZ p) in
  [a00 (mq2 p); a00 (mq2 p); a00 (mu2 p); a00 (md2 p);
   a11 (mq2 p); a11 (mq2 p); a11 (mu2 p); a11 (md2 p);
   a22 (mq2 p) + Mb p ^ 2 - (1 / 2 - sw2 / 3) * MZ p ^ 2 * c2b;
   a22 (md2 p) + Mb p ^ 2 - sw2 / 3 * MZ p ^ 2 * c2b].
Definition product (l : list R) : R := fold_right Rmult 1 l.
