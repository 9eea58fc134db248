(** * Fixed-order calculation: property theorems C58, C59 *)
From Coq Require Import Reals ZArith Bool List Lra Lia String.
From Verif Require Import Num NumFacts Except Params ParamsSpec HierFormulas Mh2EFT Linalg Spectrum DSZ FixedOrder FOSpec FOProofs PropFO.
Import ListNotations.
Open Scope R_scope.

(** ** C59: every matrix is symmetric *)
Section Sym.
  Context {T : Type} {N : Num T}.
  Definition sym (M : mat2 T) : Prop := m01 M = m10 M.
  Lemma sym_add a b : sym a -> sym b -> sym (mat2_add a b).
  Proof. unfold sym, mat2_add. cbn. intros -> ->. reflexivity. Qed.
  Lemma sym_sub a b : sym a -> sym b -> sym (mat2_sub a b).
  Proof. unfold sym, mat2_sub. cbn. intros -> ->. reflexivity. Qed.
  Lemma sym_times a x : sym a -> sym (mat2_times a x).
  Proof. unfold sym, mat2_times. cbn. intros ->. reflexivity. Qed.
  Lemma sym_zero : sym mat2_zero. Proof. reflexivity. Qed.
  Lemma sym_se a b c : sym (se_matrix a b c). Proof. reflexivity. Qed.
  Lemma sym_rot a b : sym (rotate_by a b). Proof. reflexivity. Qed.
  Lemma sym_res a : sym (sym_result a). Proof. unfold sym, sym_result. destruct a as [[a b] c]. reflexivity. Qed.
  Lemma sym_res' a : sym (sym_result' a). Proof. unfold sym, sym_result'. destruct a as [[a b] c]. reflexivity. Qed.
  Lemma sym_atas ft a b c d e f g h i j k l : sym (delta_mh2_2loop_at_as ft a b c d e f g h i j k l).
  Proof.
    unfold delta_mh2_2loop_at_as. cbv zeta. apply sym_add; [|apply sym_rot].
    destruct (nltb _ _); [|unfold delta_mh2_2loop_at_as_general; apply sym_res]. reflexivity.
  Qed.
  Lemma sym_loop E me goal k : sym (fo_mass_matrix_hh me) -> forall DMH p2 n, sym DMH -> sym (fst (fst (fst (mom_it_loop E me goal k DMH p2 n)))).
  Proof.
    intros HS. induction k as [|k IH]; intros DMH p2 n HD; cbn [mom_it_loop]; [exact HD|]. cbv zeta.
    assert (HA : sym (mat2_add (fo_mass_matrix_hh me) (delta_mh2_1loop me p2))) by (apply sym_add; [exact HS|apply sym_se]).
    destruct (is_equal_rel _ _ _); [exact HA|apply IH; exact HA].
  Qed.
  Lemma sym_2loop (E : EigenLib T) (ft : Fort T) (me : ME T) : sym (fo_mass_matrix_hh me) -> sym (delta_mh2_2loop E ft me).
  Proof.
    intros HS. unfold delta_mh2_2loop. cbv zeta.
    repeat match goal with
    | |- sym (if ?c then _ else _) => destruct c
    | |- sym (mat2_add _ _) => apply sym_add
    | |- sym (delta_mh2_2loop_at_as _ _ _ _ _ _ _ _ _ _ _ _ _) => apply sym_atas
    | |- sym mat2_zero => apply sym_zero
    end.
    all: try (destruct (me_mom_it me); [apply sym_zero|apply sym_add; [apply sym_zero|]..]).
    all: try (unfold delta_mh2_2loop_mom_it_pert; cbv zeta; destruct (fs_diagonalize_hermitian_perturbatively _ _ _ _) as [[[a b] c] d]; apply sym_times, sym_se).
    all: try (unfold delta_mh2_2loop_mom_it_num; cbv zeta;
      match goal with |- context [mom_it_loop ?E0 ?m ?g ?k ?D ?q ?n] => assert (HL := sym_loop E0 m g k HS D q n sym_zero); destruct (mom_it_loop E0 m g k D q n) as [[[a b] c] d] end;
      cbn [fst] in HL; repeat apply sym_sub; [exact HL|exact HS|apply sym_se]).
    all: match goal with
    | |- sym (delta_mh2_2loop_ab_as _ _ _ _ _ _ _ _ _ _ _ _ _) => unfold delta_mh2_2loop_ab_as; cbv zeta; unfold sym; cbn [m01 m10]; apply sym_atas
    | |- sym (delta_mh2_2loop_at_at _ _ _ _ _ _ _ _ _ _ _ _ _ _ _ _ _ _) => unfold delta_mh2_2loop_at_at;
        match goal with |- context [ft_ddshiggs ?f ?a ?b ?c ?d ?e ?g ?h ?i ?j ?k ?l ?m ?n ?o ?p ?q] => destruct (ft_ddshiggs f a b c d e g h i j k l m n o p q) as [[[[[[[x1 x2] x3] x4] x5] x6] x7] out] end;
        cbv zeta; apply sym_add; [apply sym_res'|apply sym_rot]
    | |- sym (delta_mh2_2loop_atau_atau _ _ _ _ _ _ _ _ _ _ _ _ _) => unfold delta_mh2_2loop_atau_atau; cbv zeta; apply sym_add; [apply sym_res|apply sym_rot]
    | |- sym (delta_mh2_2loop_ab_atau _ _ _ _ _ _ _ _ _ _ _ _ _ _ _ _) => unfold delta_mh2_2loop_ab_atau; cbv zeta; apply sym_add; [apply sym_res|apply sym_rot]
    end.
  Qed.
End Sym.

Lemma sym_tree {T} {N : Num T} (p : Params T) : sym (get_mass_matrix_hh p).
Proof. reflexivity. Qed.
(** whatever the arithmetic, the inputs, the external routines and the settings: the returned matrices are symmetric *)
Theorem C59 {T} {N : Num T} (E : EigenLib T) (ft : Fort T) (me : ME T) (p2 : T) :
  forall M, In M [fo_mass_matrix_hh me; fo_mass_matrix_hh_gaugeless me; delta_mh2_1loop me p2; delta_mh2_1loop_gaugeless me;
                  delta_mh2_1loop_gaugeless_deriv me; delta_mh2_2loop E ft me] -> m01 M = m10 M.
Proof.
  intros M H. cbn [In] in H. destruct H as [<-|[<-|[<-|[<-|[<-|[<-|[]]]]]]]; try reflexivity.
  apply sym_2loop. apply sym_tree.
Qed.

(** ** C58: the three numbers returned for the light Higgs mass *)
(** [x] is the eigenvalue of smallest magnitude *)
Definition smallest_eigenvalue (M : mat2 R) (x : R) : Prop := char_poly M x = 0 /\ forall z, char_poly M z = 0 -> Rabs x <= Rabs z.
Lemma smallest (E : EigenLib R) (M : mat2 R) : eig_ok E -> symmetric M -> smallest_eigenvalue M (v0 (fst (fs_diagonalize_hermitian E M))).
Proof.
  intros HE SM. assert (HH := fs_herm_ok E M HE SM). destruct (fs_diagonalize_hermitian E M) as [w z]. cbn [fst] in *. destruct HH as [HD HO].
  assert (HC := diagonalises_char _ _ _ SM HD). split; [rewrite HC; ring|].
  intros x Hx. rewrite HC in Hx. apply Rmult_integral in Hx. destruct Hx as [Hx|Hx].
  - replace x with (v0 w) by lra. lra.
  - replace x with (v1 w) by lra. exact HO.
Qed.
(** the tree-level light Higgs mass squared: the smaller eigenvalue of the tree-level matrix *)
Lemma tree_mass (me : ME R) l1 l2 : ordered_eigenvalues (fo_mass_matrix_hh me) l1 l2 -> v0 (calculate_Mh2_tree me) = l1.
Proof.
  intros H. unfold calculate_Mh2_tree, fs_diagonalize_hermitian_perturbatively. cbv zeta. cbn [v0]. unR. change (@ndec R NumR 5 1) with (Rdec 5 1).
  replace (Rdec 5 1) with (/ 2) by (unfold Rdec; simpl; field). unfold pow2; unR.
  assert (HF := ordered_ev_formula _ _ _ (eq_refl : symmetric (fo_mass_matrix_hh me)) H). destruct HF as [-> _].
  set (a := m00 (fo_mass_matrix_hh me)). set (b := m01 (fo_mass_matrix_hh me)). set (d := m11 (fo_mass_matrix_hh me)). unfold trace. fold a d.
  replace (a * a + 4 * (b * b) - 2 * a * d + d * d) with ((a - d) ^ 2 + 4 * b ^ 2) by ring. lra.
Qed.

(** numerical diagonalisation: the three numbers add up to the smallest eigenvalue of the tree-level, one-loop and two-loop corrected matrix;
    the self-energy is taken at the tree-level mass of the light Higgs *)
Theorem C58_numerical (E : EigenLib R) (ft : Fort R) (me : ME R) : eig_ok E -> me_diag me = di_num ->
  let '(h0, h1, h2) := calculate_Mh2 E ft me in
  let M0 := fo_mass_matrix_hh me in
  forall l1 l2, ordered_eigenvalues M0 l1 l2 ->
  let M1L := mat2_add M0 (delta_mh2_1loop me l1) in
  smallest_eigenvalue M0 h0 /\ smallest_eigenvalue M1L (h0 + h1) /\ smallest_eigenvalue (mat2_add M1L (delta_mh2_2loop E ft me)) (h0 + h1 + h2).
Proof.
  intros HE HD. unfold calculate_Mh2. cbv zeta. rewrite HD. unR. intros l1 l2 HO.
  rewrite (tree_mass me l1 l2 HO).
  assert (S0 : symmetric (fo_mass_matrix_hh me)) by reflexivity.
  assert (S1 : symmetric (mat2_add (fo_mass_matrix_hh me) (delta_mh2_1loop me l1))) by reflexivity.
  assert (S2 : symmetric (mat2_add (mat2_add (fo_mass_matrix_hh me) (delta_mh2_1loop me l1)) (delta_mh2_2loop E ft me))).
  { apply sym_add; [exact S1|apply sym_2loop, S0]. }
  split; [apply smallest; assumption|]. split.
  - match goal with |- smallest_eigenvalue _ (?a + (?b - ?a)) => replace (a + (b - a)) with b by ring end. apply smallest; assumption.
  - match goal with |- smallest_eigenvalue _ (?a + (?b - ?a) + (?c - ?b)) => replace (a + (b - a) + (c - b)) with c by ring end. apply smallest; assumption.
Qed.

Lemma first_order (M0 M1 : mat2 R) (o0 o1 o2 o3 : vec2 R) :
  (exists C d, 0 < d /\ forall t l1 l2, Rabs t < d -> ordered_eigenvalues (series M0 M1 mat2_zero mat2_zero t) l1 l2 ->
     Rabs (l1 - cubic (v0 o0) (v0 o1) (v0 o2) (v0 o3) t) <= C * t^4 /\ Rabs (l2 - cubic (v1 o0) (v1 o1) (v1 o2) (v1 o3) t) <= C * t^4) ->
  exists C d, 0 < d /\ forall t e1 e2, Rabs t < d -> ordered_eigenvalues (series M0 M1 mat2_zero mat2_zero t) e1 e2 ->
     Rabs (e1 - (v0 o0 + v0 o1 * t)) <= C * t ^ 2.
Proof.
  intros (C & d & Hd & HB). exists (Rabs C + Rabs (v0 o2) + Rabs (v0 o3)), (Rmin d 1). split; [apply Rmin_pos; lra|].
  intros t e1 e2 Ht HE. assert (A1 := Rmin_l d 1). assert (A2 := Rmin_r d 1). destruct (HB t e1 e2 ltac:(lra) HE) as [HB1 _].
  unfold cubic in HB1. replace (e1 - (v0 o0 + v0 o1 * t)) with ((e1 - (v0 o0 + v0 o1 * t + v0 o2 * t ^ 2 + v0 o3 * t ^ 3)) + (v0 o2 * t ^ 2 + v0 o3 * t * t ^ 2)) by ring.
  assert (T2 : 0 <= t ^ 2) by apply pow2_ge_0. assert (T1 : Rabs t <= 1) by lra. assert (T0 : 0 <= Rabs t) by apply Rabs_pos.
  assert (T21 : t ^ 2 <= 1). { rewrite <- pow2_abs. nra. }
  assert (T4 : t ^ 4 = t ^ 2 * t ^ 2) by ring. set (w := t ^ 2) in *. clearbody w. rewrite T4 in HB1.
  eapply Rle_trans; [apply Rabs_triang|]. assert (X1 : Rabs (v0 o2 * w + v0 o3 * t * w) <= (Rabs (v0 o2) + Rabs (v0 o3)) * w).
  { eapply Rle_trans; [apply Rabs_triang|]. rewrite !Rabs_mult, (Rabs_pos_eq w) by exact T2. assert (0 <= Rabs (v0 o3)) by apply Rabs_pos.
    assert (Rabs (v0 o3) * Rabs t <= Rabs (v0 o3)) by nra. nra. }
  assert (X2 : C * (w * w) <= Rabs C * w). { assert (HC := Rle_abs C). assert (0 <= Rabs C) by apply Rabs_pos. assert (0 <= w * w <= w) by nra. nra. }
  lra.
Qed.
(** perturbative diagonalisation: tree level and one loop are the expansion of the smaller eigenvalue of M0 + t M1 with gauge couplings;
    the two-loop number is the t^2 coefficient of the smaller eigenvalue of M0 + t M1 + t^2 M2 in the gaugeless limit *)
Theorem C58_perturbative (E : EigenLib R) (ft : Fort R) (me : ME R) : me_diag me = di_pert ->
  let '(h0, h1, h2) := calculate_Mh2 E ft me in
  let M0 := fo_mass_matrix_hh me in let G0 := fo_mass_matrix_hh_gaugeless me in
  forall l1 l2 k1 k2, ordered_eigenvalues M0 l1 l2 -> l1 <> l2 -> ordered_eigenvalues G0 k1 k2 -> k1 <> k2 ->
  h0 = l1 /\
  (exists C d, 0 < d /\ forall t e1 e2, Rabs t < d -> ordered_eigenvalues (series M0 (delta_mh2_1loop me l1) mat2_zero mat2_zero t) e1 e2 ->
     Rabs (e1 - (h0 + h1 * t)) <= C * t ^ 2) /\
  (exists C d a b, 0 < d /\ forall t e1 e2, Rabs t < d ->
     ordered_eigenvalues (series G0 (delta_mh2_1loop_gaugeless me) (delta_mh2_2loop E ft me) mat2_zero t) e1 e2 ->
     Rabs (e1 - (a + b * t + h2 * t ^ 2)) <= C * Rabs t ^ 3).
Proof.
  intros HD. unfold calculate_Mh2. cbv zeta. rewrite HD.
  destruct (fs_diagonalize_hermitian_perturbatively (fo_mass_matrix_hh me) (delta_mh2_1loop me (v0 (calculate_Mh2_tree me))) mat2_zero mat2_zero) as [[[o0 o1] o2] o3] eqn:E1.
  destruct (fs_diagonalize_hermitian_perturbatively (fo_mass_matrix_hh_gaugeless me) (delta_mh2_1loop_gaugeless me) (delta_mh2_2loop E ft me) mat2_zero) as [[[p0 p1] p2] p3] eqn:E2.
  intros l1 l2 k1 k2 HL NL HK NK. rewrite (tree_mass me l1 l2 HL) in E1.
  assert (U : forall M a b a' b', ordered_eigenvalues M a b -> ordered_eigenvalues M a' b' -> symmetric M -> a = a' /\ b = b').
  { intros M a b a' b' H H' HS. destruct (ordered_ev_formula M a b HS H) as [-> ->]. destruct (ordered_ev_formula M a' b' HS H') as [-> ->]. split; reflexivity. }
  assert (S0 : symmetric (fo_mass_matrix_hh me)) by reflexivity. assert (G0' : symmetric (fo_mass_matrix_hh_gaugeless me)) by reflexivity.
  assert (C1 := C37 (fo_mass_matrix_hh me) (delta_mh2_1loop me l1) mat2_zero mat2_zero S0 eq_refl eq_refl eq_refl).
  rewrite E1 in C1. destruct C1 as (B1 & V1 & _).
  { intros a b H. destruct (U _ _ _ _ _ H HL S0) as [-> ->]. exact NL. }
  assert (C2 := C37 (fo_mass_matrix_hh_gaugeless me) (delta_mh2_1loop_gaugeless me) (delta_mh2_2loop E ft me) mat2_zero G0' eq_refl (sym_2loop E ft me S0) eq_refl).
  rewrite E2 in C2. destruct C2 as (B2 & V2 & _).
  { intros a b H. destruct (U _ _ _ _ _ H HK G0') as [-> ->]. exact NK. }
  split; [apply (U _ _ _ _ _ V1 HL S0)|]. split.
  - exact (first_order _ _ o0 o1 o2 o3 B1).
  - destruct B2 as (C & d & Hd & HB). exists (Rabs C + Rabs (v0 p3)), (Rmin d 1), (v0 p0), (v0 p1). split; [apply Rmin_pos; lra|].
    intros t e1 e2 Ht HE. assert (A1 := Rmin_l d 1). assert (A2 := Rmin_r d 1). destruct (HB t e1 e2 ltac:(lra) HE) as [HB1 _].
    unfold cubic in HB1. replace (e1 - (v0 p0 + v0 p1 * t + v0 p2 * t ^ 2)) with ((e1 - (v0 p0 + v0 p1 * t + v0 p2 * t ^ 2 + v0 p3 * t ^ 3)) + v0 p3 * t ^ 3) by ring.
    eapply Rle_trans; [apply Rabs_triang|]. rewrite (Rabs_mult (v0 p3)), <- RPow_abs.
    assert (T0 : 0 <= Rabs t) by apply Rabs_pos. assert (T3 : 0 <= Rabs t ^ 3) by (apply pow_le; exact T0).
    assert (T4 : t ^ 4 <= Rabs t ^ 3). { replace (t ^ 4) with (Rabs t ^ 3 * Rabs t). 2: { replace (Rabs t ^ 3 * Rabs t) with (Rabs t ^ 2 * Rabs t ^ 2) by ring. rewrite pow2_abs. ring. } nra. }
    assert (0 <= t ^ 4) by (replace (t ^ 4) with (t ^ 2 * t ^ 2) by ring; assert (0 <= t ^ 2) by apply pow2_ge_0; nra).
    assert (C * t ^ 4 <= Rabs C * Rabs t ^ 3). { assert (HC := Rle_abs C). assert (0 <= Rabs C) by apply Rabs_pos. nra. }
    lra.
Qed.
(** with the perturbative momentum iteration the two-loop matrix contains the derivative of the one-loop self energy times the one-loop shift of the
    light Higgs mass, both in the gaugeless limit *)
Theorem C58_momentum (me : ME R) (k1 k2 : R) : ordered_eigenvalues (fo_mass_matrix_hh_gaugeless me) k1 k2 -> k1 <> k2 ->
  exists s, delta_mh2_2loop_mom_it_pert me = mat2_times (delta_mh2_1loop_gaugeless_deriv me) s /\
  exists C d, 0 < d /\ forall t e1 e2, Rabs t < d ->
     ordered_eigenvalues (series (fo_mass_matrix_hh_gaugeless me) (delta_mh2_1loop_gaugeless me) mat2_zero mat2_zero t) e1 e2 ->
     Rabs (e1 - (k1 + s * t)) <= C * t ^ 2.
Proof.
  intros HK NK. unfold delta_mh2_2loop_mom_it_pert. cbv zeta.
  destruct (fs_diagonalize_hermitian_perturbatively (fo_mass_matrix_hh_gaugeless me) (delta_mh2_1loop_gaugeless me) mat2_zero mat2_zero) as [[[o0 o1] o2] o3] eqn:E1.
  assert (G0 : symmetric (fo_mass_matrix_hh_gaugeless me)) by reflexivity.
  assert (U : forall a b, ordered_eigenvalues (fo_mass_matrix_hh_gaugeless me) a b -> a = k1 /\ b = k2).
  { intros a b H. destruct (ordered_ev_formula _ a b G0 H) as [-> ->]. destruct (ordered_ev_formula _ k1 k2 G0 HK) as [-> ->]. split; reflexivity. }
  assert (C1 := C37 (fo_mass_matrix_hh_gaugeless me) (delta_mh2_1loop_gaugeless me) mat2_zero mat2_zero G0 eq_refl eq_refl eq_refl).
  rewrite E1 in C1. destruct C1 as (B1 & V1 & _).
  { intros a b H. destruct (U _ _ H) as [-> ->]. exact NK. }
  exists (v0 o1). split; [reflexivity|]. destruct (U _ _ V1) as [<- _]. exact (first_order _ _ o0 o1 o2 o3 B1).
Qed.

(** ** C60: which corrections a new fixed-order calculation includes *)
(** [only_at]: exactly the top corrections; otherwise all, except those of a (numerically) massless fermion; the top-only switch is set iff [only_at] *)
Definition massless (m : R) : Prop := Rabs m < 1 / 10 ^ 10.
Definition included (p : Params R) (only_at : bool) (k : cord) : Prop :=
  match k with
  | G32YT4 => ~ massless (Mt p)
  | YT6 => ~ massless (Mt p) /\ ~ massless (Mb p)
  | G32YB4 => ~ massless (Mb p) /\ only_at = false
  | YB6 => ~ massless (Mt p) /\ ~ massless (Mb p) /\ only_at = false
  | YTAU6 => ~ massless (Mtau p) /\ only_at = false
  | YTAU2YB4 | YTAU4YB2 => ~ massless (Mb p) /\ ~ massless (Mtau p) /\ only_at = false
  | ONLY_AT_AS => only_at = true
  | _ => True
  end.
Theorem C60 (E : EigenLib R) (F : FermionLib R) (p : Params R) (only_at : bool) (me : ME R) : newME E F p only_at = Ok me ->
  forall k, (forall z, k <> ord_other z) -> (me_orders me k = 1%Z \/ me_orders me k = 0%Z) /\ (me_orders me k = 1%Z <-> included p only_at k).
Proof.
  unfold newME. cbv zeta. unR. change (Rdec 1 10) with (1 / IZR (10 ^ 10)). replace (1 / IZR (10 ^ 10)) with (1 / 10 ^ 10) by (simpl; lra).
  assert (HM : forall m, Rltb (Rabs m) (1 / 10 ^ 10) = true <-> massless m).
  { intros m. unfold massless. destruct (Rltb_spec (Rabs m) (1 / 10 ^ 10)); split; intros; try assumption; try reflexivity; try discriminate; exfalso; lra. }
  assert (HT := HM (Mt p)). assert (HB := HM (Mb p)). assert (HA := HM (Mtau p)). clear HM.
  set (bt := Rltb (Rabs (Mt p)) (1 / 10 ^ 10)) in *. set (bb := Rltb (Rabs (Mb p)) (1 / 10 ^ 10)) in *. set (ba := Rltb (Rabs (Mtau p)) (1 / 10 ^ 10)) in *. clearbody bt bb ba.
  intros H k Hk.
  assert (HO : me_orders me = (let o := fun _ : cord => 1%Z in
    let o := if bt then setFlags [(G32YT4, 0); (YT6, 0); (YB6, 0)]%Z o else o in
    let o := if bb then setFlags [(G32YB4, 0); (YT6, 0); (YB6, 0); (YTAU2YB4, 0); (YTAU4YB2, 0)]%Z o else o in
    let o := if ba then setFlags [(YTAU6, 0); (YTAU2YB4, 0); (YTAU4YB2, 0)]%Z o else o in
    if only_at then setFlags [(YB6, 0); (YTAU6, 0); (YTAU2YB4, 0); (YTAU4YB2, 0); (G32YB4, 0)]%Z o else setFlags [(ONLY_AT_AS, 0)]%Z o)).
  { destruct only_at.
    - destruct (make_3rd_gen E (make_gaugeless p)) as [g|]; cbn [bind] in H; [|discriminate]. injection H as <-. reflexivity.
    - injection H as <-. reflexivity. }
  rewrite HO. clear H HO.
  assert (KT : if bt then massless (Mt p) else ~ massless (Mt p)) by (destruct bt; [apply HT; reflexivity|intros C; apply HT in C; discriminate]).
  assert (KB : if bb then massless (Mb p) else ~ massless (Mb p)) by (destruct bb; [apply HB; reflexivity|intros C; apply HB in C; discriminate]).
  assert (KA : if ba then massless (Mtau p) else ~ massless (Mtau p)) by (destruct ba; [apply HA; reflexivity|intros C; apply HA in C; discriminate]).
  clear HT HB HA. revert KT KB KA. unfold included. generalize (massless (Mt p)) (massless (Mb p)) (massless (Mtau p)). intros PT PB PA KT KB KA.
  destruct k eqn:Ek; try (exfalso; exact (Hk _ eq_refl)); clear Hk Ek; destruct bt, bb, ba, only_at; cbn; (split; [auto|]); split; intros;
    repeat match goal with |- _ /\ _ => split | H : _ /\ _ |- _ => destruct H end; try reflexivity; try discriminate; try assumption; try contradiction; try exact I.
Qed.

(** the hypotheses are met: the construction succeeds for every parameter point; the tree-level eigenvalues of C58 exist for every symmetric matrix *)
Example C60_case (E : EigenLib R) (F : FermionLib R) (p : Params R) : exists me, newME E F p false = Ok me.
Proof. unfold newME. cbv zeta. eexists. reflexivity. Qed.
Example C58_case (a b d : R) : b <> 0 -> let s := sqrt ((a - d) ^ 2 + 4 * b ^ 2) in
  ordered_eigenvalues (mkM2 a b b d) ((a + d - s) / 2) ((a + d + s) / 2) /\ (a + d - s) / 2 <> (a + d + s) / 2.
Proof.
  intros Hb s. assert (0 < (a - d) ^ 2 + 4 * b ^ 2) by (assert (0 <= (a - d) ^ 2) by apply pow2_ge_0; assert (0 < b ^ 2) by (replace (b ^ 2) with (Rsqr b) by (unfold Rsqr; ring); apply Rlt_0_sqr; exact Hb); lra). assert (0 < s) by (apply sqrt_lt_R0; assumption).
  assert (s * s = (a - d) ^ 2 + 4 * b ^ 2) by (apply sqrt_sqrt; lra). split; [|lra].
  unfold ordered_eigenvalues, char_poly. cbn [m00 m01 m10 m11]. split; [lra|]. intros z. lra.
Qed.
