(** * Property theorems C06-C11, C46 (struct Parameters).

    Partial-real reading: [Some x] is a number, [None] is NaN.  [point r o] is a parameter point whose
    running parameters [r] are given and whose optional fields are those of [o] (possibly [None]). *)
From Coq Require Import Reals ZArith List Bool String.
From Verif Require Import Num Except Params ParamsSpec ParamsProofs ParamsProofs2 ParamsExamples.
Import ListNotations.
Open Scope R_scope.

(** C06.  Validation throws exactly on the rejected points ([rejected]: ParamsSpec.v). *)
Theorem C06_validate_throws_iff :
  forall (E : EigenLib PR) (ER : EigenLib R) (r : Params R) (o : optional),
    lifts E ER -> eig_ok ER ->
    ((exists msg, validate E (point r o) = Throw msg) <-> rejected ER r o).
Proof. exact validate_throws. Qed.
Print Assumptions C06_validate_throws_iff.

Example C06_example_accept : lifts E0 ER0 /\ eig_ok ER0 /\ exists p', validate E0 (point (r_ex 1500) o_ex) = Ok p'.
Proof. exact (conj E0_lifts (conj ER0_ok ex_ok)). Qed.
Example C06_example_reject : exists msg, validate E0 (point (r_ex (-1500)) o_ex) = Throw msg.
Proof. exact ex_rejected. Qed.
Example C06_example_tachyon : exists msg, validate E0 (point r_tachyon o_tachyon) = Throw msg.
Proof. exact ex_tachyon. Qed.

(** C07.  Frame, for every number type: what validation never touches, or only if NaN. *)
Theorem C07_frame :
  forall (T : Type) (N : Num T) (E : EigenLib T) (p p' : Params T), validate E p = Ok p' ->
    scale p' = scale p /\ mu p' = mu p /\ g1 p' = g1 p /\ g2 p' = g2 p /\ g3 p' = g3 p /\
    vd p' = vd p /\ vu p' = vu p /\ md2 p' = md2 p /\ mu2 p' = mu2 p /\ ml2 p' = ml2 p /\
    me2 p' = me2 p /\ Au p' = Au p /\ Ad p' = Ad p /\ Ae p' = Ae p /\ M1 p' = M1 p /\ M2 p' = M2 p /\
    MA p' = MA p /\ massLimit3LThreshold p' = massLimit3LThreshold p /\ MG p' = nabs (MG p) /\
    (nisnan (MW p) = false -> MW p' = MW p) /\ (nisnan (MZ p) = false -> MZ p' = MZ p) /\
    (nisnan (Mt p) = false -> Mt p' = Mt p) /\ (nisnan (Mb p) = false -> Mb p' = Mb p) /\
    (nisnan (Mtau p) = false -> Mtau p' = Mtau p) /\
    (nltb (nabs (nsub (a22 (mq2 p)) (a22 (mu2 p)))) (ndec 1 8) = false -> mq2 p' = mq2 p).
Proof. exact @validate_frame. Qed.
Print Assumptions C07_frame.

(** C07.  Fields left NaN are filled from the running parameters ([mW_of] etc.: ParamsSpec.v). *)
Theorem C07_filled :
  forall (E : EigenLib PR) (ER : EigenLib R) (r : Params R) (o : optional) (p' : Params PR) (u d : R),
    lifts E ER -> ovu o = Some u -> ovd o = Some d -> validate E (point r o) = Ok p' ->
    MW p' = Some (mW_of r o u d) /\ MZ p' = Some (mZ_of r o u d) /\ Mt p' = Some (mt_of ER r o u) /\
    Mb p' = Some (mb_of ER r o d) /\ Mtau p' = Some (mtau_of ER r o d).
Proof. exact validate_values. Qed.
Print Assumptions C07_filled.

(** C07.  A complete doublet is kept: ascending order, angle and sine adjusted, and only if
    the masses agree to 1e-8 the lower one is pulled down. *)
Theorem C07_doublets :
  forall (E : EigenLib PR) (r : Params R) (o : optional) (p' : Params PR), validate E (point r o) = Ok p' ->
  (forall a b s t, oMSt o = mkV2 (Some a) (Some b) -> mixing (os2t o) (oth_t o) = Some (s, t) ->
     MSt p' = mkV2 (Some (lower_mass (Rmin a b) (Rmax a b))) (Some (Rmax a b)) /\
     s2t p' = Some (if Rlt_dec b a then - s else s) /\
     theta_t p' = Some (if Rlt_dec b a then t + PI / 2 else t)) /\
  (forall a b s t, oMSb o = mkV2 (Some a) (Some b) -> mixing (os2b o) (oth_b o) = Some (s, t) ->
     MSb p' = mkV2 (Some (lower_mass_b (Rmin a b) (Rmax a b))) (Some (Rmax a b)) /\
     s2b p' = Some (if Rlt_dec b a then - s else s) /\
     theta_b p' = Some (if Rlt_dec b a then t + PI / 2 else t)) /\
  (forall a b s t, oMStau o = mkV2 (Some a) (Some b) -> mixing (os2tau o) (oth_tau o) = Some (s, t) ->
     MStau p' = mkV2 (Some (Rmin a b)) (Some (Rmax a b)) /\
     s2tau p' = Some (if Rlt_dec b a then - s else s) /\
     theta_tau p' = Some (if Rlt_dec b a then t + PI / 2 else t)).
Proof. exact validate_doublets. Qed.
Print Assumptions C07_doublets.
Example C07_example : complete (oMSt o_ex) (os2t o_ex) (oth_t o_ex) /\ complete (oMSb o_ex) (os2b o_ex) (oth_b o_ex)
  /\ complete (oMStau o_ex) (os2tau o_ex) (oth_tau o_ex).
Proof. exact ex_complete. Qed.

(** C08.  Any input, any Eigen: if the masses that come out are numbers they are ordered, and
    strictly so for stops and sbottoms of positive mass. *)
Theorem C08_ordered :
  forall (E : EigenLib PR) (p p' : Params PR), validate E p = Ok p' ->
  (forall a b, MSt p' = mkV2 (Some a) (Some b) -> 0 <= b -> a <= b /\ (0 < b -> a < b)) /\
  (forall a b, MSb p' = mkV2 (Some a) (Some b) -> 0 <= b -> a <= b /\ (0 < b -> a < b)) /\
  (forall a b, MStau p' = mkV2 (Some a) (Some b) -> a <= b).
Proof. exact validate_ordered. Qed.
Print Assumptions C08_ordered.

(** C09.  Sorting keeps the mass matrix described by (masses, angle), keeps the relation between
    sine and angle, and sorts. *)
Theorem C09_sort_preserves_matrix :
  forall (m : vec2 R) (t s : R),
    let '(m', t', s') := sort_ev m t s in
    mass_matrix m' t' = mass_matrix m t /\ (s = sin (2 * t) -> s' = sin (2 * t')) /\ v0 m' <= v1 m'.
Proof. exact sort_preserves. Qed.
Print Assumptions C09_sort_preserves_matrix.

(** C10 holds if the sbottoms are heavier than (1 + 2e-8) units or not degenerate ... *)
Theorem C10_idempotent_partial :
  forall (E : EigenLib PR) (r : Params R) (o : optional) (p' : Params PR),
    sv3_diag_ok E -> validate E (point r o) = Ok p' -> all_given p' ->
    (forall a b, MSt p' = mkV2 (Some a) (Some b) -> 0 <= b) ->
    (forall a b, MSb p' = mkV2 (Some a) (Some b) -> 1 + 2 * eps <= b \/ eps <= b - a /\ 0 <= b) ->
    validate E p' = Ok p'.
Proof. exact validate_idem. Qed.
Print Assumptions C10_idempotent_partial.
(** ... and fails otherwise, in binary64, for every math library and every Eigen: the sbottom shift
    tests an absolute difference of 1e-8 but divides MSb(0) by (1 + 1e-8). *)
Theorem C10_idempotent_refuted : forall (lm : Libm) (E : EigenLib F64),
  exists p p' p'' : Params F64,
    @validate _ (NumF lm) E p = Ok p' /\ @validate _ (NumF lm) E p' = Ok p'' /\ MSb p'' <> MSb p'.
Proof. exact idem_refuted. Qed.
Print Assumptions C10_idempotent_refuted.

(** C11.  Tenth root of the product of the ten squared masses; between the extremes. *)
Theorem C11_msq2 : forall p : Params R,
    MZ p <> 0 -> (forall x, In x (ten_masses p) -> 0 < x) ->
    0 < calculateMsq2 p /\ calculateMsq2 p ^ 10 = product (ten_masses p) /\
    (forall lo hi, 0 < lo -> (forall x, In x (ten_masses p) -> lo <= x <= hi) -> lo <= calculateMsq2 p <= hi).
Proof. exact msq2_R. Qed.
Print Assumptions C11_msq2.

(** C46.  The masses and the angle computed from a mass matrix describe that matrix, provided
    Eigen returns a proper rotation iff M(0,0) < M(1,1) ... *)
Theorem C46_mixing_angle_partial :
  forall (E : EigenLib R) (M : mat2 R) (ms : vec2 R) (s th : R),
    eig_ok E -> m01 M = m10 M -> m00 M <> m11 M ->
    rotation_convention M (snd (eig2 E M)) ->
    calculate_MSf_s2f E M = Ok (ms, s, th) ->
    mass_matrix ms th = M /\ s = sin (2 * th) /\ 0 <= v0 ms <= v1 ms.
Proof. exact MSf_correct. Qed.
Print Assumptions C46_mixing_angle_partial.
Example C46_example : eig_ok ER0 /\ forall M, m01 M = m10 M -> rotation_convention M (snd (eig2 ER0 M)).
Proof. split; [exact ER0_ok|]. intros M HM. exact (proj2 (eig_explicit_ok M HM)). Qed.
(** ... which Eigen does not document: with the other sign of one eigenvector, allowed by the
    eigenvector equations, the sign of the mixing angle is wrong. *)
Theorem C46_mixing_angle_refuted : exists (E : EigenLib R) (M : mat2 R) ms s th,
  m01 M = m10 M /\ m00 M <> m11 M /\ eig_spec M (fst (eig2 E M)) (snd (eig2 E M)) /\
  calculate_MSf_s2f E M = Ok (ms, s, th) /\ mass_matrix ms th <> M.
Proof. exact angle_refuted. Qed.
Print Assumptions C46_mixing_angle_refuted.
