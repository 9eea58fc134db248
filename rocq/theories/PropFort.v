(** * The two-loop wrappers with the FORTRAN routines they are linked with: property theorems C53, C54, C55 *)
From Coq Require Import Reals ZArith Bool List Lra Lia Psatz.
From Verif Require Import Num NumFacts Except Linalg DSZ Fortran FOSpec FOProofs PropFO2 FortProofs FortRelabel.
Open Scope R_scope.

(** ** C53: reflection of the up-type Higgs doublet
    Replacing the field H_u by -H_u replaces mu by -mu and tan(beta) by -tan(beta) and leaves all particle masses and mixing angles alone.
    In the basis (H_d, H_u) the mass matrix keeps its diagonal and its off-diagonal element changes sign. *)
Definition off_diagonal_reversed (m m' : mat2 R) : Prop :=
  m00 m' = m00 m /\ m11 m' = m11 m /\ m01 m' = - m01 m /\ m10 m' = - m10 m.

Lemma rotate_odd (d tb : R) : rotate_by d (- tb) = odd_mat (rotate_by d tb).
Proof. rewrite !rotate_form, sin_atan_opp, cos_atan_opp. unfold odd_mat. cbn [m00 m01 m10 m11]. f_equal; ring. Qed.
Lemma odd_add (A B : mat2 R) : mat2_add (odd_mat A) (odd_mat B) = odd_mat (mat2_add A B).
Proof. destruct A as [n1 n2 n3 n4], B as [n5 n6 n7 n8]. unfold odd_mat, mat2_add. unR. cbn [m00 m01 m10 m11]. f_equal; ring. Qed.
Lemma odd_reversed (A B : mat2 R) : B = odd_mat A -> off_diagonal_reversed A B.
Proof. intros ->. unfold off_diagonal_reversed, odd_mat. cbn [m00 m01 m10 m11]. auto. Qed.
Lemma sym_odd (r : R * R * R) : sym_result (odd3 r) = odd_mat (sym_result r).
Proof. destruct r as [[x y] z]. reflexivity. Qed.

Section C53.
  Variable fx : FExt R.
  Lemma degenerate_odd m g a b s c q u tb v h os : tb <> 0 ->
    delta_mh2_2loop_at_as_st_0_mst1_eq_mst2 (fortran fx) m g a b s c q (- u) (- tb) v h os =
    odd_mat (delta_mh2_2loop_at_as_st_0_mst1_eq_mst2 (fortran fx) m g a b s c q u tb v h os).
  Proof.
    intros Ht. unfold delta_mh2_2loop_at_as_st_0_mst1_eq_mst2. cbv zeta. unR. rewrite sin_atan_opp, !pow2_opp.
    unfold odd_mat. cbn [m00 m01 m10 m11]. f_equal; unfold Rdiv; try rewrite (Rinv_opp tb); ring.
  Qed.
  Lemma ma_odd m g a b s c q u tb v h : tb <> 0 ->
    delta_ma2_2loop_at_as (fortran fx) m g a b s c q (- u) (- tb) v h = delta_ma2_2loop_at_as (fortran fx) m g a b s c q u tb v h.
  Proof.
    intros Ht. unfold delta_ma2_2loop_at_as, delta_ma2_2loop_at_as_general, delta_ma2_2loop_at_as_mst1_eq_mst2. cbv zeta.
    assert (HA : calc_At m a b s c (- u) (- tb) = calc_At m a b s c u tb).
    { unfold calc_At. cbv zeta. unR. rewrite quot_opp by exact Ht. reflexivity. }
    rewrite HA. cbn [ft_dszodd fortran]. rewrite dszodd_odd by exact Ht. unR. rewrite sin_atan_opp, !pow2_opp.
    match goal with |- (if ?x then if ?y then _ else ?A else _) = (if _ then if _ then _ else ?B else _) => assert (HE : A = B) end.
    { unfold Rdiv. rewrite Rinv_opp. ring. }
    rewrite HE. reflexivity.
  Qed.
  Lemma at_as_odd m g a b s c q u tb v h i : tb <> 0 ->
    delta_mh2_2loop_at_as (fortran fx) m g a b s c q (- u) (- tb) v h i = odd_mat (delta_mh2_2loop_at_as (fortran fx) m g a b s c q u tb v h i).
  Proof.
    intros Ht. unfold delta_mh2_2loop_at_as, delta_mh2_2loop_at_as_general. cbv zeta. rewrite degenerate_odd, ma_odd by exact Ht.
    cbn [ft_dszhiggs fortran]. rewrite dszhiggs_odd by exact Ht. rewrite sym_odd, rotate_odd, <- odd_add. f_equal.
    destruct (nltb _ _); reflexivity.
  Qed.

Theorem C53_up_reflection (m g k l a b s c q u tb v h : R) (i : Z) : tb <> 0 ->
  off_diagonal_reversed (delta_mh2_2loop_at_as (fortran fx) m g a b s c q u tb v h i) (delta_mh2_2loop_at_as (fortran fx) m g a b s c q (- u) (- tb) v h i) /\
  off_diagonal_reversed (delta_mh2_2loop_ab_as (fortran fx) m g a b s c q u tb v h i) (delta_mh2_2loop_ab_as (fortran fx) m g a b s c q (- u) (- tb) v h i) /\
  off_diagonal_reversed (delta_mh2_2loop_atau_atau (fortran fx) m k l a b s c q u tb v i) (delta_mh2_2loop_atau_atau (fortran fx) m k l a b s c q (- u) (- tb) v i).
  Proof.
    intros Ht. split; [|split]; apply odd_reversed.
    - apply at_as_odd, Ht.
    - unfold delta_mh2_2loop_ab_as. cbv zeta. rewrite at_as_odd by exact Ht. reflexivity.
    - unfold delta_mh2_2loop_atau_atau. cbv zeta. cbn [ft_tausqhiggs fortran]. rewrite tausqhiggs_odd by exact Ht.
      rewrite sym_odd, rotate_odd, <- odd_add. f_equal. f_equal.
      unfold delta_ma2_2loop_atau_atau. cbn [ft_tausqodd fortran]. rewrite tausqodd_odd by exact Ht. reflexivity.
  Qed.

  (** finding: in the O(ab atau) correction the elements (1,1) and (0,1) are exchanged.  The routine stores S11, S12, S22, the
      caller passes the addresses of the elements (0,0), (1,1), (0,1). *)
Theorem C53_ab_atau_elements (m mb a b e f s c x y q u tb v : R) :
    let '(S11, S12, S22) := f_taubot m mb a b e f s c x y q u tb v in
    delta_mh2_2loop_ab_atau (fortran fx) m mb a b e f s c x y q u tb v 0 = mkM2 S11 S22 S22 S12.
  Proof.
    unfold delta_mh2_2loop_ab_atau. cbv zeta. cbn [ft_taubot fortran Z.eqb negb].
    destruct (f_taubot m mb a b e f s c x y q u tb v) as [[S11 S12] S22]. cbn [sym_result].
    rewrite rotate_form. unfold mat2_add. unR. cbn [m00 m01 m10 m11]. f_equal; ring.
  Qed.
  (** so the reflected matrix has the sign change in the wrong place ... *)
Theorem C53_ab_atau_wrong_parity (m mb a b e f s c x y q u tb v : R) :
    let M := delta_mh2_2loop_ab_atau (fortran fx) m mb a b e f s c x y q u tb v 0 in
    let M' := delta_mh2_2loop_ab_atau (fortran fx) m mb a b e f s c x y q (- u) (- tb) v 0 in
    m00 M' = m00 M /\ m11 M' = - m11 M /\ m01 M' = m01 M /\ m10 M' = m10 M.
  Proof.
    cbv zeta. assert (H1 := C53_ab_atau_elements m mb a b e f s c x y q u tb v).
    assert (H2 := C53_ab_atau_elements m mb a b e f s c x y q (- u) (- tb) v). rewrite taubot_odd in H2.
    destruct (f_taubot m mb a b e f s c x y q u tb v) as [[S11 S12] S22]. rewrite H1, H2. cbn [m00 m01 m10 m11]. auto.
  Qed.
End C53.

(** a concrete point: all quark and lepton masses 1, sfermion masses squared 1 and e, maximal mixing, tan(beta) = 1, Q = 1 *)
Lemma cos_atan_1 : cos (atan 1) * cos (atan 1) = / 2.
Proof. rewrite cos_atan. unfold Rsqr. replace (1 + 1 * 1) with 2 by ring. unfold Rdiv. rewrite Rmult_1_l.
  assert (H := sqrt_sqrt 2 ltac:(lra)). assert (0 < sqrt 2) by (apply sqrt_lt_R0; lra).
  rewrite <- Rinv_mult. rewrite H. reflexivity. Qed.
Lemma ab_atau_point : forall u : R, exists S11 S12,
  f_taubot 1 1 1 (exp 1) 1 (exp 1) (sin (PI/4)) (cos (PI/4)) (sin (PI/4)) (cos (PI/4)) 1 u 1 2 =
  (S11, S12, 3 / pow2 (16 * pow2 pi_f) * (- 2 * u * u * (1 + exp 1) / (exp 1 * (exp 1 - 1)))).
Proof.
  intros u. unfold f_taubot, f_makefuncstau. cbv zeta.
  match goal with |- exists _ _, (?a, ?b, ?c) = _ => exists a, b end. f_equal.
  unfold f_tauf3q, f_tauf5q. cbv zeta. unfold pow2. unR.
  replace (2 * cos (PI / 4) * sin (PI / 4)) with 1.
  2: { replace (2 * cos (PI / 4) * sin (PI / 4)) with (sin (2 * (PI / 4))) by (rewrite sin_2a; ring).
       replace (2 * (PI / 4)) with (PI / 2) by field. symmetry. apply sin_PI2. }
  replace (cos (PI / 4) * cos (PI / 4) - sin (PI / 4) * sin (PI / 4)) with 0.
  2: { rewrite cos_PI4, sin_PI4. ring. }
  replace (exp 1 / 1) with (exp 1) by field. replace (1 / exp 1) with (exp (-1)).
  2: { replace (-1) with (Ropp 1) by ring. rewrite exp_Ropp. field. apply Rgt_not_eq, exp_pos. }
  replace (1 / 1) with 1 by field. rewrite !ln_exp, !ln_1.
  replace (2 * 1 / 2) with 1 by field. replace (2 / 2) with 1 by field. rewrite !sqrt_1.
  assert (HC := cos_atan_1). assert (HP : 0 < cos (atan 1)) by (rewrite cos_atan; apply Rdiv_lt_0_compat; [lra|apply sqrt_lt_R0; unfold Rsqr; lra]).
  set (C := cos (atan 1)) in *. set (K := pi_f). replace (Rdec 5 1) with (/ 2) by (unfold Rdec; simpl; field).
  assert (HE : 2 < exp 1) by (assert (H := exp_ineq1 1 ltac:(lra)); lra). set (E := exp 1) in *.
  replace (1 * 1 / C) with (/ C) by (field; lra). replace (1 / C) with (/ C) by (field; lra).
  assert (HI : / C * / C = 2). { rewrite <- Rinv_mult, HC. field. }
  set (I := / C) in *. 
  assert (HD : E - 1 <> 0) by lra. assert (E <> 0) by lra. assert (HD' : 1 - E <> 0) by lra.
  apply (f_equal (Rmult (3 / (16 * (K * K) * (16 * (K * K)))))).
  match goal with |- ?L = _ => replace L with (u * u * (I * I) * (I * I) * (- (1 + E) / (E * (E - 1)) / 2)) end.
  { rewrite HI. field. lra. }
  field. lra.
Qed.
Theorem C53_ab_atau_refuted (fx : FExt R) (i : Z) :
  exists m mb a b e f th q u tb v : R,
    0 < m /\ 0 < mb /\ 0 < a < b /\ 0 < e < f /\ 0 < q /\ u <> 0 /\ 0 < tb /\ 0 < v /\
    ~ off_diagonal_reversed (delta_mh2_2loop_ab_atau (fortran fx) m mb a b e f (sin th) (cos th) (sin th) (cos th) q u tb v i)
                            (delta_mh2_2loop_ab_atau (fortran fx) m mb a b e f (sin th) (cos th) (sin th) (cos th) q (- u) (- tb) v i).
Proof.
  assert (HE : 2 < exp 1) by (assert (H := exp_ineq1 1 ltac:(lra)); lra).
  exists 1, 1, 1, (exp 1), 1, (exp 1), (PI / 4), 1, 1, 1, 2. repeat (split; [lra|]).
  intros (_ & _ & H & _). unfold delta_mh2_2loop_ab_atau in H. cbv zeta in H. cbn [ft_taubot fortran] in H.
  rewrite taubot_odd in H. destruct (ab_atau_point 1) as (S11 & S12 & HS). rewrite HS in H. cbn [sym_result] in H.
  replace (delta_ma2_2loop_ab_atau (fortran fx) 1 1 1 (exp 1) 1 (exp 1) (sin (PI / 4)) (cos (PI / 4)) (sin (PI / 4)) (cos (PI / 4)) 1 (- (1)) (- (1)) 2)
    with (delta_ma2_2loop_ab_atau (fortran fx) 1 1 1 (exp 1) 1 (exp 1) (sin (PI / 4)) (cos (PI / 4)) (sin (PI / 4)) (cos (PI / 4)) 1 1 1 2) in H
    by (unfold delta_ma2_2loop_ab_atau; cbn [ft_taubotodd fortran]; symmetry; apply taubotodd_odd).
  rewrite rotate_odd in H. unfold mat2_add, odd_mat in H. cbn [m01] in H. unR.
  set (r := m01 _) in H. set (Z := 3 / _ * _) in H. assert (HZ : Z = 0) by lra.
  assert (HK : @pi_f R NumR <> 0) by (unfold pi_f; unR; unfold Rdec; simpl; lra).
  revert HZ. unfold Z, pow2, Rdiv. unR. set (E := exp 1) in *. intros HZ.
  apply Rmult_integral in HZ. destruct HZ as [HZ|HZ].
  - apply Rmult_integral in HZ. destruct HZ as [HZ|HZ]; [lra|]. revert HZ. apply Rinv_neq_0_compat.
    assert (0 < pi_f * pi_f) by nra. nra.
  - assert (0 < / (E * (E - 1))) by (apply Rinv_0_lt_compat; nra). nra.
Qed.

(** ** C54: the O(at^2) correction is evaluated for the stop and sbottom parameters that it is given *)
Section C54.
  Context {T : Type} {N : Num T}.
  (** one guard: keep x at a relative distance of at least eps from y *)
  Definition push (x y eps : T) : T :=
    if nltb (nabs (ndiv (nsub x y) x)) eps
    then if nltb y x then ndiv y (nsub (nint 1) eps) else ndiv y (nadd (nint 1) eps)
    else x.
  Definition away (x eps : T) : T :=
    if nltb (nabs x) eps then if nleb (nint 0) x then eps else nneg eps else x.
  Lemma guards_form (t1 t2 b1 b2 st ct sb cb : T) :
    dds_guards t1 t2 b1 b2 st ct sb cb =
      let st := away st (ndec 1 5) in let sb := away sb (ndec 1 8) in
      let t1 := push t1 t2 (ndec 1 5) in
      let b1 := push (push (push b1 b2 (ndec 1 5)) t1 (ndec 1 6)) t2 (ndec 1 7) in
      let b2 := push (push b2 t1 (ndec 1 8)) t2 (ndec 1 9) in
      (t1, b1, b2, st, nsqrt (nsub (nint 1) (nmul st st)), sb, nsqrt (nsub (nint 1) (nmul sb sb))).
  Proof. reflexivity. Qed.
End C54.

(** finding: the cosines are ignored, whatever the arithmetic *)
Theorem C54_cosines_ignored {T : Type} {N : Num T} (fx : FExt T) (m mb k a b e f s c c' x y y' q u tb v : T) (i atat : Z) :
  delta_mh2_2loop_at_at (fortran fx) m mb k a b e f s c x y q u tb v i atat =
  delta_mh2_2loop_at_at (fortran fx) m mb k a b e f s c' x y' q u tb v i atat.
Proof. reflexivity. Qed.

Lemma Rdec_eps (k : Z) : (0 < k)%Z -> 0 < Rdec 1 k.
Proof. intros H. unfold Rdec. apply Rdiv_lt_0_compat; [lra|]. apply IZR_lt. apply Z.pow_pos_nonneg; lia. Qed.
Lemma push_spec (x y eps : R) : 0 < x -> 0 < y -> 0 < eps <= / 100000 ->
  let x' := push x y eps in
  0 < x' /\ - (eps * x') <= x' - x <= eps * x' /\ (eps * x' <= x' - y \/ eps * x' <= y - x') /\ (eps * x <= Rabs (x - y) -> x' = x).
Proof.
  intros Hx Hy He. unfold push. unR. cbv zeta.
  assert (HM : eps * x <= Rabs (x - y) <-> eps <= Rabs ((x - y) / x)).
  { unfold Rdiv. rewrite Rabs_mult, (Rabs_pos_eq (/ x)) by (left; apply Rinv_0_lt_compat, Hx). split; intros H.
    - apply (Rmult_le_reg_r x); [exact Hx|]. rewrite Rmult_assoc, Rinv_l by lra. lra.
    - apply (Rmult_le_compat_r x) in H; [|lra]. rewrite Rmult_assoc, Rinv_l in H by lra. lra. }
  destruct (Rltb_spec (Rabs ((x - y) / x)) eps) as [H|H].
  - assert (HN : Rabs (x - y) < eps * x) by (apply Rnot_le_lt; intros HH; apply HM in HH; lra).
    destruct (Rltb_spec y x) as [Hl|Hl].
    + rewrite Rabs_pos_eq in HN by lra. set (z := y / (1 - eps)). assert (Hz : z * (1 - eps) = y) by (unfold z; field; lra).
      assert (0 < z) by (unfold z; apply Rdiv_lt_0_compat; lra).
      split; [assumption|]. split; [split; nra|]. split; [left; nra|]. intros HC. rewrite Rabs_pos_eq in HC by lra. lra.
    + rewrite Rabs_left1 in HN by lra. set (z := y / (1 + eps)). assert (Hz : z * (1 + eps) = y) by (unfold z; field; lra).
      assert (0 < z) by (unfold z; apply Rdiv_lt_0_compat; lra).
      split; [assumption|]. split; [split; nra|]. split; [right; nra|]. intros HC. rewrite Rabs_left1 in HC by lra. lra.
  - apply HM in H. split; [exact Hx|]. split; [split; nra|]. split; [|reflexivity].
    destruct (Rle_dec y x); [rewrite Rabs_pos_eq in H by lra|rewrite Rabs_left in H by lra]; [left|right]; lra.
Qed.
Lemma away_spec (x eps : R) : 0 < eps -> let x' := away x eps in eps <= Rabs x' /\ Rabs (x' - x) <= eps /\ (eps <= Rabs x -> x' = x) /\ 0 <= x * x'.
Proof.
  intros He. unfold away. unR. cbv zeta. destruct (Rltb_spec (Rabs x) eps) as [H|H].
  - unfold Rleb. destruct (Rle_dec 0 x).
    + rewrite Rabs_pos_eq in H by lra. rewrite !Rabs_pos_eq by lra. repeat split; try lra. nra.
    + rewrite Rabs_left in H by lra. rewrite Rabs_Ropp, Rabs_pos_eq by lra. rewrite Rabs_left1 by lra. rewrite (Rabs_left x) by lra. repeat split; try lra. nra.
  - split; [lra|]. split; [replace (x - x) with 0 by ring; rewrite Rabs_R0; lra|]. split; [reflexivity|nra].
Qed.
Lemma eps_vals : Rdec 1 5 = / 100000 /\ Rdec 1 6 = / 1000000 /\ Rdec 1 7 = / 10000000 /\ Rdec 1 8 = / 100000000 /\ Rdec 1 9 = / 1000000000.
Proof. unfold Rdec. simpl Z.pow. repeat split; field. Qed.

(** what the guards are for: after them no two of the masses on which the formulas have poles coincide, the sines are not zero, and nothing
    has moved by more than 2 * 10^-5 *)
Theorem C54_guards (t1 t2 b1 b2 st ct sb cb : R) : 0 < t1 -> 0 < t2 -> 0 < b1 -> 0 < b2 ->
  let '(t1', b1', b2', st', ct', sb', cb') := dds_guards t1 t2 b1 b2 st ct sb cb in
  (0 < t1' /\ 0 < b1' /\ 0 < b2') /\
  (t1' <> t2 /\ b1' <> b2' /\ b1' <> t1' /\ b1' <> t2 /\ b2' <> t1' /\ b2' <> t2) /\
  (st' <> 0 /\ sb' <> 0) /\
  (Rabs (t1' - t1) <= 2 / 100000 * t1 /\ Rabs (b1' - b1) <= 2 / 100000 * b1 /\ Rabs (b2' - b2) <= 2 / 100000000 * b2) /\
  (Rabs (st' - st) <= / 100000 /\ Rabs (sb' - sb) <= / 100000000).
Proof.
  intros H1 H2 H3 H4. rewrite guards_form. cbv zeta. unR. destruct eps_vals as (-> & -> & -> & -> & ->).
  destruct (away_spec st (/ 100000) ltac:(lra)) as (A1 & A2 & _). destruct (away_spec sb (/ 100000000) ltac:(lra)) as (A3 & A4 & _).
  destruct (push_spec t1 t2 (/ 100000) H1 H2 ltac:(lra)) as (T0 & T1 & T2 & _). set (p1 := push t1 t2 _) in *.
  destruct (push_spec b1 b2 (/ 100000) H3 H4 ltac:(lra)) as (B0 & B1 & B2 & _). set (c1 := push b1 b2 _) in *.
  destruct (push_spec c1 p1 (/ 1000000) B0 T0 ltac:(lra)) as (C0 & C1 & C2 & _). set (c2 := push c1 p1 _) in *.
  destruct (push_spec c2 t2 (/ 10000000) C0 H2 ltac:(lra)) as (D0 & D1 & D2 & _). set (c3 := push c2 t2 _) in *.
  destruct (push_spec b2 p1 (/ 100000000) H4 T0 ltac:(lra)) as (E0 & E1 & E2 & _). set (d1 := push b2 p1 _) in *.
  destruct (push_spec d1 t2 (/ 1000000000) E0 H2 ltac:(lra)) as (F0 & F1 & F2 & _). set (d2 := push d1 t2 _) in *.
  clearbody p1 c1 c2 c3 d1 d2.
  split; [repeat split; assumption|]. split.
  { repeat split; intro; destruct T2, B2, C2, D2, E2, F2; lra. }
  split; [split; intros HH; rewrite HH, Rabs_R0 in *; lra|].
  split; [repeat split; apply Rabs_le; lra|]. split; assumption.
Qed.
(** finding: the poles are at sin(2 theta) = 0, and the guard does not keep theta away from pi/2 *)
Theorem C54_right_angle_refuted (t1 t2 b1 b2 sb cb : R) :
  let '(_, _, _, st', ct', _, _) := dds_guards t1 t2 b1 b2 (sin (PI / 2)) (cos (PI / 2)) sb cb in 2 * ct' * st' = 0.
Proof.
  rewrite guards_form. cbv zeta. unR. destruct eps_vals as (-> & _). rewrite sin_PI2.
  destruct (away_spec 1 (/ 100000) ltac:(lra)) as (_ & _ & H & _). rewrite H by (rewrite Rabs_pos_eq; lra).
  replace (1 - 1 * 1) with 0 by ring. rewrite sqrt_0. ring.
Qed.

(** away from the guards and for non-negative cosines: the matrix of the routine's S11, S12, S22 for the given parameters, plus the rotated
    shift of the CP-odd mass for the same parameters *)
Definition apart (x y eps : R) : Prop := eps * x <= Rabs (x - y).
Definition given_parameters (fx : FExt R) (m mb k a b e f s c x y q u tb v : R) (i atat : Z) : mat2 R :=
  let '(S11, S12, S22) := f_ddshiggs_core fx m mb k a b e f s c x y q u tb v atat in
  mat2_add (mkM2 S11 S12 S12 S22)
    (rotate_by (if (i =? 0)%Z then 0 else f_ddsodd_core fx m mb k a b e f s c x y q u tb v atat) tb).
Theorem C54_partial (fx : FExt R) (m mb k a b e f q u tb v tht thb : R) (i atat : Z) :
  0 < a -> 0 < b -> 0 < e -> 0 < f ->
  apart a b (/ 100000) -> apart e f (/ 100000) -> apart e a (/ 1000000) -> apart e b (/ 10000000) -> apart f a (/ 100000000) -> apart f b (/ 1000000000) ->
  / 100000 <= Rabs (sin tht) -> / 100000000 <= Rabs (sin thb) ->
  delta_mh2_2loop_at_at (fortran fx) m mb k a b e f (sin tht) (cos tht) (sin thb) (cos thb) q u tb v i atat =
  given_parameters fx m mb k a b e f (sin tht) (Rabs (cos tht)) (sin thb) (Rabs (cos thb)) q u tb v i atat.
Proof.
  intros H1 H2 H3 H4 D1 D2 D3 D4 D5 D6 S1 S2. unfold apart in *.
  assert (HG : forall c y, dds_guards a b e f (sin tht) c (sin thb) y = (a, e, f, sin tht, Rabs (cos tht), sin thb, Rabs (cos thb))).
  { intros c y. rewrite guards_form. cbv zeta. unR. destruct eps_vals as (-> & -> & -> & -> & ->).
    destruct (away_spec (sin tht) (/ 100000) ltac:(lra)) as (_ & _ & A1 & _). destruct (away_spec (sin thb) (/ 100000000) ltac:(lra)) as (_ & _ & A2 & _).
    destruct (push_spec a b (/ 100000) H1 H2 ltac:(lra)) as (_ & _ & _ & P1). rewrite P1, A1, A2 by assumption.
    destruct (push_spec e f (/ 100000) H3 H4 ltac:(lra)) as (_ & _ & _ & P2). rewrite P2 by assumption.
    destruct (push_spec e a (/ 1000000) H3 H1 ltac:(lra)) as (_ & _ & _ & P3). rewrite P3 by assumption.
    destruct (push_spec e b (/ 10000000) H3 H2 ltac:(lra)) as (_ & _ & _ & P4). rewrite P4 by assumption.
    destruct (push_spec f a (/ 100000000) H4 H1 ltac:(lra)) as (_ & _ & _ & P5). rewrite P5 by assumption.
    destruct (push_spec f b (/ 1000000000) H4 H2 ltac:(lra)) as (_ & _ & _ & P6). rewrite P6 by assumption.
    assert (HC : forall z, sqrt (1 - sin z * sin z) = Rabs (cos z)).
    { intros z. assert (HH := sin2_cos2 z). unfold Rsqr in HH. replace (1 - sin z * sin z) with (Rsqr (cos z)) by (unfold Rsqr; lra). apply sqrt_Rsqr_abs. }
    rewrite !HC. reflexivity. }
  unfold delta_mh2_2loop_at_at, given_parameters. cbn [ft_ddshiggs fortran]. unfold f_ddshiggs. rewrite HG.
  destruct (f_ddshiggs_core fx m mb k a b e f _ _ _ _ q u tb v atat) as [[S11 S12] S22]. cbv zeta. cbn [sym_result'].
  unfold delta_ma2_2loop_at_at. cbn [ft_ddsodd fortran]. unfold f_ddsodd. rewrite HG.
  destruct (i =? 0)%Z; reflexivity.
Qed.
(** the physical content of the sign: the stop mixing parameter X_t = (m1^2 - m2^2) sin(theta) cos(theta) / mt for which the correction is
    evaluated has the opposite sign when cos(theta) < 0 *)
Theorem C54_negative_cosine_refuted (fx : FExt R) (m mb k a b e f q u tb v tht thb : R) (i atat : Z) :
  0 < a -> 0 < b -> 0 < e -> 0 < f ->
  apart a b (/ 100000) -> apart e f (/ 100000) -> apart e a (/ 1000000) -> apart e b (/ 10000000) -> apart f a (/ 100000000) -> apart f b (/ 1000000000) ->
  / 100000 <= Rabs (sin tht) -> / 100000000 <= Rabs (sin thb) -> cos tht < 0 -> 0 <= cos thb ->
  delta_mh2_2loop_at_at (fortran fx) m mb k a b e f (sin tht) (cos tht) (sin thb) (cos thb) q u tb v i atat =
  given_parameters fx m mb k a b e f (sin (PI - tht)) (cos (PI - tht)) (sin thb) (cos thb) q u tb v i atat /\
  (a - b) * sin (PI - tht) * cos (PI - tht) / sqrt m = - ((a - b) * sin tht * cos tht / sqrt m).
Proof.
  intros H1 H2 H3 H4 D1 D2 D3 D4 D5 D6 S1 S2 C1 C2. rewrite (C54_partial fx m mb k a b e f q u tb v tht thb) by assumption.
  rewrite Rabs_left, (Rabs_pos_eq (cos thb)) by assumption.
  rewrite sin_PI_x. replace (cos (PI - tht)) with (- cos tht).
  2: { rewrite cos_minus, cos_PI, sin_PI. ring. }
  split; [reflexivity|]. unfold Rdiv. ring.
Qed.
(** the hypotheses are satisfiable *)
Example C54_example : apart 1 4 (/ 100000) /\ apart 2 3 (/ 100000) /\ apart 2 1 (/ 1000000) /\ apart 2 4 (/ 10000000) /\ apart 3 1 (/ 100000000) /\
  apart 3 4 (/ 1000000000) /\ / 100000 <= Rabs (sin (3 * (PI / 4))) /\ cos (3 * (PI / 4)) < 0.
Proof.
  unfold apart. replace (3 * (PI / 4)) with (PI - PI / 4) by field. rewrite sin_PI_x, cos_minus, cos_PI, sin_PI, cos_PI4, sin_PI4.
  assert (H : 0 < / sqrt 2) by (apply Rinv_0_lt_compat, sqrt_lt_R0; lra).
  assert (H' : / 2 <= / sqrt 2). { apply Rinv_le_contravar; [apply sqrt_lt_R0; lra|]. replace 2 with (sqrt 4) at 2 by (replace 4 with (2 * 2) by ring; apply sqrt_square; lra). apply sqrt_le_1; lra. }
  unfold Rdiv. rewrite (Rabs_left (1 - 4)), (Rabs_left (2 - 3)), (Rabs_pos_eq (2 - 1)), (Rabs_left (2 - 4)), (Rabs_pos_eq (3 - 1)), (Rabs_left (3 - 4)), (Rabs_pos_eq (1 * / sqrt 2)) by lra.
  repeat split; lra.
Qed.

(** ** C55: the names of the two sfermions do not matter
    Exchanging the masses of the two stops (sbottoms, staus) and turning the mixing angle by pi/2 describes the same particles. *)
Definition separated (x y : R) : Prop := / 100000000 <= Rabs ((x - y) / x).
Lemma separated_ne (x y : R) : 0 < x -> separated x y -> x <> y.
Proof. unfold separated. intros Hx H ->. replace ((y - y) / y) with 0 in H by (field; lra). rewrite Rabs_R0 in H. lra. Qed.
Lemma separated_bool (x y : R) : separated x y -> Rltb (Rabs ((x - y) / x)) (Rdec 1 8) = false.
Proof. unfold separated. intros H. apply Rltb_false. destruct eps_vals as (_ & _ & _ & -> & _). exact H. Qed.
Theorem C55 (fx : FExt R) (m mb g k l a b e f q u tb v h th ph : R) (i : Z) :
  0 < a -> 0 < b -> 0 < e -> 0 < f -> separated a b -> separated b a -> e <> f ->
  delta_mh2_2loop_at_as (fortran fx) m g b a (sin (th + PI / 2)) (cos (th + PI / 2)) q u tb v h i =
    delta_mh2_2loop_at_as (fortran fx) m g a b (sin th) (cos th) q u tb v h i /\
  delta_mh2_2loop_ab_as (fortran fx) m g b a (sin (th + PI / 2)) (cos (th + PI / 2)) q u tb v h i =
    delta_mh2_2loop_ab_as (fortran fx) m g a b (sin th) (cos th) q u tb v h i /\
  delta_mh2_2loop_atau_atau (fortran fx) m k l b a (sin (th + PI / 2)) (cos (th + PI / 2)) q u tb v i =
    delta_mh2_2loop_atau_atau (fortran fx) m k l a b (sin th) (cos th) q u tb v i /\
  (sin (2 * th) <> 0 -> sin (2 * ph) <> 0 ->
   delta_mh2_2loop_ab_atau (fortran fx) m mb b a e f (sin (th + PI / 2)) (cos (th + PI / 2)) (sin ph) (cos ph) q u tb v i =
     delta_mh2_2loop_ab_atau (fortran fx) m mb a b e f (sin th) (cos th) (sin ph) (cos ph) q u tb v i /\
   delta_mh2_2loop_ab_atau (fortran fx) m mb a b f e (sin th) (cos th) (sin (ph + PI / 2)) (cos (ph + PI / 2)) q u tb v i =
     delta_mh2_2loop_ab_atau (fortran fx) m mb a b e f (sin th) (cos th) (sin ph) (cos ph) q u tb v i).
Proof.
  intros Ha Hb He Hf S1 S2 Hef. assert (Hne := separated_ne a b Ha S1).
  assert (HS : forall z, sin (z + PI / 2) = cos z) by (intros z; rewrite sin_plus, sin_PI2, cos_PI2; ring).
  assert (HC : forall z, cos (z + PI / 2) = - sin z) by (intros z; rewrite cos_plus, sin_PI2, cos_PI2; ring).
  rewrite !HS, !HC.
  assert (HT : forall tb, delta_mh2_2loop_at_as (fortran fx) m g b a (cos th) (- sin th) q u tb v h i = delta_mh2_2loop_at_as (fortran fx) m g a b (sin th) (cos th) q u tb v h i).
  { intros tb'. unfold delta_mh2_2loop_at_as, delta_ma2_2loop_at_as, delta_mh2_2loop_at_as_general, delta_ma2_2loop_at_as_general. cbv zeta.
    unR. rewrite !separated_bool by assumption. cbn [ft_dszhiggs ft_dszodd fortran].
    rewrite dszhiggs_swap, dszodd_swap by assumption. reflexivity. }
  split; [apply HT|]. split; [unfold delta_mh2_2loop_ab_as; rewrite HT; reflexivity|]. split.
  - unfold delta_mh2_2loop_atau_atau, delta_ma2_2loop_atau_atau. cbn [ft_tausqhiggs ft_tausqodd fortran].
    rewrite tausqhiggs_swap, tausqodd_swap by assumption. reflexivity.
  - intros D1 D2. rewrite sin_2a in D1, D2.
    assert (E1 : 2 * cos th * sin th <> 0) by lra. assert (E2 : 2 * cos ph * sin ph <> 0) by lra.
    unfold delta_mh2_2loop_ab_atau, delta_ma2_2loop_ab_atau. cbn [ft_taubot ft_taubotodd fortran].
    destruct (taubot_swap m a b q u tb v Ha Hb Hne mb e f (sin ph) (cos ph) He Hf Hef (sin th) (cos th) E1 E2) as [-> ->].
    destruct (taubot_swap_b m a b q u tb v Ha Hb Hne mb e f (sin ph) (cos ph) He Hf Hef (sin th) (cos th) E1 E2) as [-> ->].
    split; reflexivity.
Qed.
