(** * Fixed-order calculation: property theorems C35 (fixed-order part), C40, C41, C42 *)
From Coq Require Import Reals ZArith Bool List String Lra Lia Psatz.
From Verif Require Import Num NumFacts Except Params ParamsSpec PV Linalg Spectrum DSZ Mh2EFT EFTSpec FixedOrder FOSpec FOProofs.
Import ListNotations.
Open Scope R_scope.

(** ** C40 *)
(** the iteration as a mathematical sequence: p_0 is the tree-level mass, p_(n+1) the lightest eigenvalue of M_0 + Sigma(p_n) *)
Section C40.
  Context {T : Type} {N : Num T}.
  Definition light (E : EigenLib T) (m : mat2 T) : T := v0 (fst (fs_diagonalize_hermitian E m)).
  Fixpoint momentum (E : EigenLib T) (me : ME T) (n : nat) : T :=
    match n with
    | O => v0 (M2hh (me_masses me))
    | S n => light E (mat2_add (fo_mass_matrix_hh me) (delta_mh2_1loop me (momentum E me n)))
    end.
  (** the corrected mass matrix after n iterations; the zero matrix before the first one *)
  Definition matrix_after (E : EigenLib T) (me : ME T) (n : nat) : mat2 T :=
    match n with O => mat2_zero | S k => mat2_add (fo_mass_matrix_hh me) (delta_mh2_1loop me (momentum E me k)) end.

  Lemma loop_spec (E : EigenLib T) (me : ME T) (goal : T) (k n : nat) :
    exists m, (n <= m <= n + k)%nat /\
      mom_it_loop E me goal k (matrix_after E me n) (momentum E me n) n = (matrix_after E me m, momentum E me m, (if Nat.ltb m (n + k) then true else is_equal_rel (momentum E me m) (momentum E me (Nat.pred m)) goal && Nat.ltb n m)%bool, m) /\
      (forall i, (n <= i)%nat -> (S i < m)%nat -> is_equal_rel (momentum E me (S i)) (momentum E me i) goal = false) /\
      ((m < n + k)%nat -> (n < m)%nat /\ is_equal_rel (momentum E me m) (momentum E me (Nat.pred m)) goal = true).
  Proof.
    revert n. induction k as [|k IH]; intros n.
    - exists n. cbn [mom_it_loop]. rewrite Nat.add_0_r, Nat.ltb_irrefl, andb_false_r. split; [lia|]. split; [reflexivity|]. split; intros; lia.
    - cbn [mom_it_loop]. cbv zeta.
      change (v0 (fst (fs_diagonalize_hermitian E (mat2_add (fo_mass_matrix_hh me) (delta_mh2_1loop me (momentum E me n)))))) with (momentum E me (S n)).
      change (mat2_add (fo_mass_matrix_hh me) (delta_mh2_1loop me (momentum E me n))) with (matrix_after E me (S n)).
      destruct (is_equal_rel (momentum E me (S n)) (momentum E me n) goal) eqn:HE.
      + exists (S n). split; [lia|]. split; [|split; intros; [lia|split; [lia|exact HE]]].
        cbn [Nat.pred]. rewrite HE. replace (Nat.ltb n (S n)) with true by (symmetry; apply Nat.ltb_lt; lia). cbn [andb].
        destruct (Nat.ltb _ _); reflexivity.
      + destruct (IH (S n)) as (m & Hm & HL & HF & HS). exists m. split; [lia|]. split; [|split].
        * rewrite HL. replace (S n + k)%nat with (n + S k)%nat by lia. f_equal. f_equal.
          destruct (Nat.ltb m (n + S k)) eqn:HX; [reflexivity|]. apply Nat.ltb_ge in HX.
          replace (Nat.ltb n m) with true by (symmetry; apply Nat.ltb_lt; lia).
          destruct (Nat.ltb (S n) m) eqn:HY; [reflexivity|]. apply Nat.ltb_ge in HY. assert (m = S n) by lia. subst m. cbn [Nat.pred]. rewrite HE. reflexivity.
        * intros i Hi Hi'. destruct (Nat.eq_dec i n) as [->|]; [exact HE|]. apply HF; lia.
        * intros HX. destruct HS; [lia|]. split; [lia|assumption].
  Qed.

  (** at most max_iterations iterations; an earlier stop means that the last two masses agree within the goal, and no earlier
      pair did.  Holds for every number type (so also for NaN in any place) and every limit, negative ones included. *)
Theorem C40 (E : EigenLib T) (me : ME T) (goal : T) (max_iterations : Z) :
    exists n : nat, (Z.of_nat n <= Z.max 0 max_iterations)%Z /\
      delta_mh2_2loop_mom_it_num E me goal max_iterations =
        mat2_sub (mat2_sub (matrix_after E me n) (fo_mass_matrix_hh me)) (delta_mh2_1loop me (v0 (M2hh (me_masses me)))) /\
      ((Z.of_nat n < max_iterations)%Z ->
         (0 < n)%nat /\ is_equal_rel (momentum E me n) (momentum E me (Nat.pred n)) goal = true) /\
      (forall i, (S i < n)%nat -> is_equal_rel (momentum E me (S i)) (momentum E me i) goal = false).
  Proof.
    destruct (loop_spec E me goal (Z.to_nat max_iterations) 0) as (m & Hm & HL & HF & HS).
    exists m. split; [lia|]. split; [|split].
    - unfold delta_mh2_2loop_mom_it_num. cbv zeta. change (@mat2_zero T N) with (matrix_after E me 0).
      change (v0 (M2hh (me_masses me))) with (momentum E me 0) at 1. rewrite HL. reflexivity.
    - intros HX. apply HS. lia.
    - intros i Hi. apply HF; lia.
  Qed.
  (** finding: with max_iterations <= 0 the zero matrix is taken for the corrected mass matrix, so that the "two-loop
      correction" is minus the tree-level matrix minus the one-loop correction *)
Theorem C40_no_iterations (E : EigenLib T) (me : ME T) (goal : T) (max_iterations : Z) : (max_iterations <= 0)%Z ->
    delta_mh2_2loop_mom_it_num E me goal max_iterations =
      mat2_sub (mat2_sub mat2_zero (fo_mass_matrix_hh me)) (delta_mh2_1loop me (v0 (M2hh (me_masses me)))).
  Proof.
    intros H. destruct (C40 E me goal max_iterations) as (n & Hn & HR & _). assert (n = 0%nat) by lia. subst n. exact HR.
  Qed.
End C40.
(** what the stopping test means over the reals: the change is below machine epsilon, or it is at most goal relative to the larger
    value (absolute, if one of the values is below machine epsilon) *)
Lemma dabs_R (x : R) : @dabs R NumR x = Rabs x.
Proof. unfold dabs. unR. unfold Rleb, Rabs. destruct Rle_dec, Rcase_abs; lra. Qed.
Lemma stdmax_R (a b : R) : @stdmax R NumR a b = Rmax a b.
Proof. unfold stdmax. unR. unfold Rltb, Rmax. destruct Rlt_dec, Rle_dec; lra. Qed.
Lemma stdmin_R (a b : R) : @stdmin R NumR a b = Rmin a b.
Proof. unfold stdmin. unR. unfold Rltb, Rmin. destruct Rlt_dec, Rle_dec; lra. Qed.
Lemma eps_R : @eps_default R NumR = / 2 ^ 52.
Proof. unfold eps_default. unR. field. Qed.
Theorem C40_relative_change (a b goal : R) : is_equal_rel a b goal = true ->
  Rabs (a - b) <= / 2 ^ 52 \/
  (Rmin (Rabs a) (Rabs b) < / 2 ^ 52 /\ Rabs (a - b) <= goal) \/
  Rabs (a - b) <= goal * Rmax (Rabs a) (Rabs b).
Proof.
  unfold is_equal_rel, is_equal, is_zero. cbv zeta. rewrite !dabs_R, stdmax_R, stdmin_R, eps_R. unR.
  unfold Rleb, Rltb. repeat (destruct Rle_dec || destruct Rlt_dec); intros H; try discriminate H; auto.
Qed.
(** non-vacuity: over the reals with masses in the TeV range the third alternative is the one that applies *)
Example C40_relative_change_example : is_equal_rel 15625 15625.1 (1/100000) = true.
Proof.
  unfold is_equal_rel, is_equal, is_zero. cbv zeta. rewrite !dabs_R, stdmax_R, stdmin_R, eps_R. unR.
  rewrite (Rabs_left (15625 - 15625.1)), !Rabs_pos_eq by lra. unfold Rmin, Rmax, Rleb, Rltb.
  repeat (destruct Rle_dec || destruct Rlt_dec); try reflexivity; lra.
Qed.
(** the momentum is the eigenvalue of smallest magnitude of the corrected mass matrix *)
Theorem C40_momentum_eigenvalue (E : EigenLib R) (me : ME R) (n : nat) : eig_ok E ->
  symmetric (get_mass_matrix_hh (sp_pars (me_masses me))) ->
  let M := matrix_after E me (S n) in
  char_poly M (momentum E me (S n)) = 0 /\ forall z, char_poly M z = 0 -> Rabs (momentum E me (S n)) <= Rabs z.
Proof.
  intros HE HS M. cbn [momentum]. change (mat2_add (fo_mass_matrix_hh me) (delta_mh2_1loop me (momentum E me n))) with M.
  assert (SM : symmetric M).
  { unfold symmetric in *. unfold M, matrix_after, mat2_add, delta_mh2_1loop, se_matrix, fo_mass_matrix_hh. cbv zeta. cbn [m01 m10]. rewrite HS. reflexivity. }
  assert (HH := fs_herm_ok E M HE SM). unfold light.
  destruct (fs_diagonalize_hermitian E M) as [w z]. cbn [fst] in *. destruct HH as [HD HO].
  assert (HC := diagonalises_char _ _ _ SM HD). rewrite HC. split; [ring|].
  intros x Hx. rewrite HC in Hx. apply Rmult_integral in Hx. destruct Hx as [Hx|Hx].
  - replace x with (v0 w) by lra. lra.
  - replace x with (v1 w) by lra. exact HO.
Qed.

(** ** C41 *)
Section C41.
  Context {T : Type} {N : Num T}.
  (** the public two-loop functions with the arguments the class passes *)
  Definition contribution (ft : Fort T) (me : ME T) (k : cord) : mat2 T :=
    let p := me_pars me in let s := me_gaugeless me in
    let mf2 (f : Spectrum T -> T) := pow2 (f s) in
    let m2 (v : vec2 T) (i : nat) := pow2 (vget v i) in
    let sn (x : T) := nsin x in let cs (x : T) := ncos x in
    let Q2 := pow2 (scale p) in let mu' := nneg (mu p) in
    let tanb := ndiv (vu p) (vd p) in
    let v2 := nadd (pow2 (vu p)) (pow2 (vd p)) in
    match k with
    | G32YT4 => delta_mh2_2loop_at_as ft (mf2 MFt) (MG p) (m2 (MSt p) 0%nat) (m2 (MSt p) 1%nat) (sn (theta_t p)) (cs (theta_t p)) Q2 mu' tanb v2 (g3 p) 1
    | G32YB4 => delta_mh2_2loop_ab_as ft (mf2 MFb) (MG p) (m2 (MSb p) 0%nat) (m2 (MSb p) 1%nat) (sn (theta_b p)) (cs (theta_b p)) Q2 mu' (ndiv (nint 1) tanb) v2 (g3 p) 1
    | YT6 => delta_mh2_2loop_at_at ft (mf2 MFt) (mf2 MFb) (pow2 (MA p)) (m2 (MSt p) 0%nat) (m2 (MSt p) 1%nat) (m2 (MSb p) 0%nat) (m2 (MSb p) 1%nat)
               (sn (theta_t p)) (cs (theta_t p)) (sn (theta_b p)) (cs (theta_b p)) Q2 mu' tanb v2 1 (me_orders me ONLY_AT_AS)
    | YTAU6 => delta_mh2_2loop_atau_atau ft (mf2 MFtau) (pow2 (MA p)) (M2SvtL s) (m2 (MStau p) 0%nat) (m2 (MStau p) 1%nat)
               (sn (theta_tau p)) (cs (theta_tau p)) Q2 mu' tanb v2 1
    | YTAU4YB2 => delta_mh2_2loop_ab_atau ft (mf2 MFtau) (mf2 MFb) (m2 (MStau p) 0%nat) (m2 (MStau p) 1%nat) (m2 (MSb p) 0%nat) (m2 (MSb p) 1%nat)
               (sn (theta_tau p)) (cs (theta_tau p)) (sn (theta_b p)) (cs (theta_b p)) Q2 mu' tanb v2 1
    | _ => mat2_zero
    end.
  (** which contributions are switched on; the orders YTAU2YB4 and YTAU4YB2 belong to one and the same function *)
  Definition switched_on (me : ME T) (k : cord) : bool :=
    let on k := negb (me_orders me k =? 0)%Z in
    match k with YTAU4YB2 => on YTAU2YB4 || on YTAU4YB2 | _ => on k end.
  Definition momentum_part (E : EigenLib T) (me : ME T) : list (mat2 T) :=
    match me_mom_it me with
    | mi_off => []
    | mi_pert => [delta_mh2_2loop_mom_it_pert me]
    | mi_num => [delta_mh2_2loop_mom_it_num E me (me_precision me) (me_max_iterations me)]
    end.
  Definition add_up (l : list (mat2 T)) : mat2 T := fold_left mat2_add l mat2_zero.
  (** exactly the enabled contributions, each once, in this order (the order matters for rounding) *)
Theorem C41 (E : EigenLib T) (ft : Fort T) (me : ME T) :
    delta_mh2_2loop E ft me =
      add_up (momentum_part E me ++ map (contribution ft me) (filter (switched_on me) [G32YT4; G32YB4; YT6; YTAU6; YTAU4YB2])).
  Proof.
    unfold delta_mh2_2loop, add_up, momentum_part. cbv zeta. cbn [filter]. unfold switched_on. cbv zeta iota.
    unfold contribution. cbv zeta. cbn [vget].
    rewrite fold_left_app.
    destruct (me_mom_it me); destruct (negb (me_orders me G32YT4 =? 0)%Z), (negb (me_orders me G32YB4 =? 0)%Z), (negb (me_orders me YT6 =? 0)%Z),
      (negb (me_orders me YTAU6 =? 0)%Z), (negb (me_orders me YTAU2YB4 =? 0)%Z || negb (me_orders me YTAU4YB2 =? 0)%Z);
      cbn [map fold_left]; reflexivity.
  Qed.
  (** disabled orders are not evaluated: the result does not depend on what the routines behind them would return *)
Theorem C41_disabled_not_evaluated (E : EigenLib T) (ft ft' : Fort T) (me : ME T) :
    let off k := me_orders me k = 0%Z in
    (off G32YT4 /\ off G32YB4 \/ ft_dszhiggs ft = ft_dszhiggs ft' /\ ft_dszodd ft = ft_dszodd ft' /\ ft_li2 ft = ft_li2 ft') ->
    (off YT6 \/ ft_ddshiggs ft = ft_ddshiggs ft' /\ ft_ddsodd ft = ft_ddsodd ft') ->
    (off YTAU6 \/ ft_tausqhiggs ft = ft_tausqhiggs ft' /\ ft_tausqodd ft = ft_tausqodd ft') ->
    (off YTAU2YB4 /\ off YTAU4YB2 \/ ft_taubot ft = ft_taubot ft' /\ ft_taubotodd ft = ft_taubotodd ft') ->
    delta_mh2_2loop E ft me = delta_mh2_2loop E ft' me.
  Proof.
    intros off H1 H2 H3 H4. rewrite !C41. unfold off in *. cbn [filter]. unfold switched_on. cbv zeta.
    assert (X1 : (negb (me_orders me G32YT4 =? 0)%Z = false /\ negb (me_orders me G32YB4 =? 0)%Z = false) \/
                 (contribution ft me G32YT4 = contribution ft' me G32YT4 /\ contribution ft me G32YB4 = contribution ft' me G32YB4)).
    { destruct H1 as [[-> ->]|(A & B & C)]; [left; split; reflexivity|right].
      destruct ft as [f1 f2 f3 f4 f5 f6 f7 f8 f9], ft' as [h1 h2 h3 h4 h5 h6 h7 h8 h9]. cbn in A, B, C. subst. split; reflexivity. }
    assert (X2 : negb (me_orders me YT6 =? 0)%Z = false \/ contribution ft me YT6 = contribution ft' me YT6).
    { destruct H2 as [->|(A & B)]; [left; reflexivity|right].
      destruct ft as [f1 f2 f3 f4 f5 f6 f7 f8 f9], ft' as [h1 h2 h3 h4 h5 h6 h7 h8 h9]. cbn in A, B. subst. reflexivity. }
    assert (X3 : negb (me_orders me YTAU6 =? 0)%Z = false \/ contribution ft me YTAU6 = contribution ft' me YTAU6).
    { destruct H3 as [->|(A & B)]; [left; reflexivity|right].
      destruct ft as [f1 f2 f3 f4 f5 f6 f7 f8 f9], ft' as [h1 h2 h3 h4 h5 h6 h7 h8 h9]. cbn in A, B. subst. reflexivity. }
    assert (X4 : negb (me_orders me YTAU2YB4 =? 0)%Z || negb (me_orders me YTAU4YB2 =? 0)%Z = false \/ contribution ft me YTAU4YB2 = contribution ft' me YTAU4YB2).
    { destruct H4 as [[-> ->]|(A & B)]; [left; reflexivity|right].
      destruct ft as [f1 f2 f3 f4 f5 f6 f7 f8 f9], ft' as [h1 h2 h3 h4 h5 h6 h7 h8 h9]. cbn in A, B. subst. reflexivity. }
    clear H1 H2 H3 H4. f_equal. f_equal.
    destruct X1 as [[-> ->]|[E1 E2]]; destruct X2 as [->|E3]; destruct X3 as [->|E4]; destruct X4 as [->|E5];
      repeat match goal with |- context [if ?b then _ else _] => destruct b end; cbn [map]; congruence.
  Qed.
  (** finding: every other flag is without effect on the two-loop result, in particular YB6; an int other than 0 means "on" *)
Theorem C41_relevant_flags (E : EigenLib T) (ft : Fort T) (me : ME T) (o : cord -> Z) :
    (forall k, In k [G32YT4; G32YB4; YT6; YTAU6; YTAU2YB4; YTAU4YB2] -> (o k = 0 <-> me_orders me k = 0)%Z) ->
    o ONLY_AT_AS = me_orders me ONLY_AT_AS ->
    delta_mh2_2loop E ft (mkME (me_pars me) (me_masses me) (me_gaugeless me) o (me_mom_it me) (me_precision me) (me_max_iterations me) (me_diag me))
    = delta_mh2_2loop E ft me.
  Proof.
    intros H HO.
    assert (HB : forall k, In k [G32YT4; G32YB4; YT6; YTAU6; YTAU2YB4; YTAU4YB2] -> (o k =? 0)%Z = (me_orders me k =? 0)%Z).
    { intros k Hk. specialize (H k Hk). destruct (Z.eqb_spec (o k) 0), (Z.eqb_spec (me_orders me k) 0); try reflexivity; exfalso; tauto. }
    set (me' := mkME _ _ _ o _ _ _ _).
    rewrite !C41. f_equal. f_equal.
    - unfold momentum_part, me'. cbn [me_mom_it me_precision me_max_iterations]. destruct (me_mom_it me); [reflexivity| |].
      + f_equal. unfold delta_mh2_2loop_mom_it_pert, fo_mass_matrix_hh_gaugeless, delta_mh2_1loop_gaugeless, delta_mh2_1loop_gaugeless_deriv.
        cbn [me_pars me_gaugeless me_orders]. unfold gl_se11, gl_se12, gl_se22, gd_se11, gd_se12, gd_se22. rewrite HO. reflexivity.
      + f_equal. unfold delta_mh2_2loop_mom_it_num. cbv zeta.
        change (fo_mass_matrix_hh (mkME _ _ _ o _ _ _ _)) with (fo_mass_matrix_hh me).
        assert (HL : forall k D x n g, mom_it_loop E me' g k D x n = mom_it_loop E me g k D x n).
        { induction k as [|k IH]; intros; [reflexivity|]. cbn [mom_it_loop]. cbv zeta.
          change (fo_mass_matrix_hh me') with (fo_mass_matrix_hh me). change (delta_mh2_1loop me' x) with (delta_mh2_1loop me x).
          rewrite IH. reflexivity. }
        change (M2hh (me_masses (mkME _ _ _ o _ _ _ _))) with (M2hh (me_masses me)).
        fold me'. rewrite HL. reflexivity.
    - replace (filter (switched_on me') [G32YT4; G32YB4; YT6; YTAU6; YTAU4YB2]) with (filter (switched_on me) [G32YT4; G32YB4; YT6; YTAU6; YTAU4YB2]).
      2: { cbn [filter]. unfold switched_on. cbv zeta. change (me_orders me') with o. rewrite !HB by (cbn [In]; tauto). reflexivity. }
      apply map_ext. intros k. unfold contribution, me'. cbn [me_pars me_gaugeless me_orders]. rewrite HO. reflexivity.
  Qed.
End C41.

(** ** C35, fixed-order part *)
Theorem C35_fo_refuted (me : ME R) : me_orders me YT6 = 1%Z -> exists me',
  set_correction me YT6 7 = Ok me' /\ me_orders me' YT6 = 7%Z.
Proof. intros _. eexists. split; reflexivity. Qed.
Theorem C35_fo_partial {T} {N : Num T} (me : ME T) (k : cord) (f : Z) :
  (In k all_orders -> exists me', set_correction me k f = Ok me' /\ me_pars me' = me_pars me /\ me_masses me' = me_masses me /\
     me_gaugeless me' = me_gaugeless me /\ me_mom_it me' = me_mom_it me /\ me_precision me' = me_precision me /\
     me_max_iterations me' = me_max_iterations me /\ me_diag me' = me_diag me /\
     forall o, In o all_orders -> me_orders me' o = if cord_eqb o k then f else me_orders me o) /\
  ((cord_index k < 0 \/ 22 < cord_index k)%Z -> exists msg, set_correction me k f = Throw msg).
Proof.
  unfold set_correction. split.
  - intros Hk. cbn in Hk. assert (HI : (0 <=? cord_index k)%Z && (cord_index k <? 23)%Z = true).
    { repeat destruct Hk as [<-|Hk]; try contradiction Hk; reflexivity. }
    rewrite HI. eexists. repeat split.
  - intros Hk. assert (HI : (0 <=? cord_index k)%Z && (cord_index k <? 23)%Z = false).
    { destruct (Z.leb_spec 0 (cord_index k)), (Z.ltb_spec (cord_index k) 23); try reflexivity. lia. }
    rewrite HI. eexists. reflexivity.
Qed.

(** ** C42 *)
Definition det (M : mat2 R) : R := m00 M * m11 M - m01 M * m10 M.
Definition applied (M : mat2 R) (x y : R) : R * R := (m00 M * x + m01 M * y, m10 M * x + m11 M * y).
Lemma rotate_form (dm2 tanb : R) : let b := atan tanb in
  rotate_by dm2 tanb = mkM2 (dm2 * sin b ^ 2) (- dm2 * sin b * cos b) (- dm2 * sin b * cos b) (dm2 * cos b ^ 2).
Proof.
  cbv zeta. unfold rotate_by, sqrtabs, pow2. cbv zeta. unR. rewrite sin_atan, cos_atan. unfold Rsqr.
  assert (H : 0 <= tanb * tanb) by nra. rewrite Rabs_pos_eq by lra. f_equal; ring.
Qed.
Theorem C42_rotate (dm2 tanb : R) : let M := rotate_by dm2 tanb in let b := atan tanb in
  symmetric M /\ trace M = dm2 /\ det M = 0 /\
  applied M (cos b) (sin b) = (0, 0) /\
  applied M (- sin b) (cos b) = (dm2 * - sin b, dm2 * cos b).
Proof.
  cbv zeta. rewrite rotate_form. set (b := atan tanb).
  assert (H := sin2_cos2 b). unfold Rsqr in H. set (s := sin b) in *. set (c := cos b) in *.
  unfold symmetric, trace, det, applied. cbn [m00 m01 m10 m11]. split; [reflexivity|]. split.
  { transitivity (dm2 * (s * s + c * c)); [ring|]. rewrite H. ring. }
  split; [ring|]. split; f_equal; try ring.
  - transitivity (dm2 * - s * (s * s + c * c)); [ring|]. rewrite H. ring.
  - transitivity (dm2 * c * (s * s + c * c)); [ring|]. rewrite H. ring.
Qed.
(** the CP-odd shift that each wrapper adds with include_heavy_higgs, and nothing else changes.  For the bottom version, which is
    called with cot(beta) and exchanges the two Higgs doublets, it is the same rotation with tan(beta).  For O(at^2) the shift is computed
    with the stop and sbottom parameters as changed by the FORTRAN routine for the CP-even part, see C53. *)
Theorem C42_heavy_higgs (ft : Fort R) (m g a b s c q u tb v h k l e f x y : R) (atat i : Z) : i <> 0%Z ->
  delta_mh2_2loop_at_as ft m g a b s c q u tb v h i =
    mat2_add (delta_mh2_2loop_at_as ft m g a b s c q u tb v h 0) (rotate_by (delta_ma2_2loop_at_as ft m g a b s c q u tb v h) tb) /\
  (let '((a', e', f', s', c', x', y'), _) := ft_ddshiggs ft m g k a b e f s c x y q u tb v atat in
   delta_mh2_2loop_at_at ft m g k a b e f s c x y q u tb v i atat =
    mat2_add (delta_mh2_2loop_at_at ft m g k a b e f s c x y q u tb v 0 atat) (rotate_by (delta_ma2_2loop_at_at ft m g k a' b e' f' s' c' x' y' q u tb v atat) tb)) /\
  delta_mh2_2loop_atau_atau ft m k l a b s c q u tb v i =
    mat2_add (delta_mh2_2loop_atau_atau ft m k l a b s c q u tb v 0) (rotate_by (delta_ma2_2loop_atau_atau ft m k l a b s c q u tb v) tb) /\
  delta_mh2_2loop_ab_atau ft m g a b e f s c x y q u tb v i =
    mat2_add (delta_mh2_2loop_ab_atau ft m g a b e f s c x y q u tb v 0) (rotate_by (delta_ma2_2loop_ab_atau ft m g a b e f s c x y q u tb v) tb) /\
  (0 < tb ->
   delta_mh2_2loop_ab_as ft m g a b s c q u (/ tb) v h i =
    mat2_add (delta_mh2_2loop_ab_as ft m g a b s c q u (/ tb) v h 0) (rotate_by (delta_ma2_2loop_at_as ft m g a b s c q u (/ tb) v h) tb)).
Proof.
  intros Hi. assert (HB : negb (i =? 0)%Z = true) by (destruct (Z.eqb_spec i 0); [contradiction|reflexivity]).
  assert (H0 : forall t, rotate_by (0 : R) t = mkM2 0 0 0 0).
  { intros t. rewrite rotate_form. f_equal; ring. }
  assert (HA : forall (A B : mat2 R) t, mat2_add A B = mat2_add (mat2_add A (rotate_by (0 : R) t)) B).
  { intros A B t. rewrite H0. destruct A as [n1 n2 n3 n4], B as [n5 n6 n7 n8]. unfold mat2_add. unR. cbn [m00 m01 m10 m11]. f_equal; ring. }
  assert (HS : forall (A B : mat2 R), mkM2 (m11 (mat2_add A B)) (m01 (mat2_add A B)) (m10 (mat2_add A B)) (m00 (mat2_add A B)) =
               mat2_add (mkM2 (m11 A) (m01 A) (m10 A) (m00 A)) (mkM2 (m11 B) (m01 B) (m10 B) (m00 B))) by reflexivity.
  assert (HR : 0 < tb -> forall d, mkM2 (m11 (rotate_by d (/ tb))) (m01 (rotate_by d (/ tb))) (m10 (rotate_by d (/ tb))) (m00 (rotate_by d (/ tb))) = rotate_by d tb).
  { intros Ht d. rewrite !rotate_form. cbn [m00 m01 m10 m11]. rewrite atan_inv by exact Ht.
    rewrite sin_shift, cos_shift. f_equal; ring. }
  unfold delta_mh2_2loop_ab_as, delta_mh2_2loop_at_as, delta_mh2_2loop_at_at, delta_mh2_2loop_atau_atau, delta_mh2_2loop_ab_atau.
  cbv zeta. rewrite HB. cbn [Z.eqb negb].
  split; [apply HA|]. split.
  { destruct (ft_ddshiggs ft m g k a b e f s c x y q u tb v atat) as [[[[[[[a' e'] f'] s'] c'] x'] y'] o']. apply HA. }
  split; [apply HA|]. split; [apply HA|].
  intros Ht. rewrite HS. unR. rewrite HS, !(HR Ht). apply HA.
Qed.
