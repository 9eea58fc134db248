(** * Special-case branches of the two-argument loop functions: corners
    One ratio near 0 and the other near 1; both near 0. *)
From Coq Require Import Reals ZArith List Bool Lra Lia.
From Verif Require Import Num NumFacts HierExpr HierPoly FieldPoly FieldNF MirrorNF LoopFun LoopSpec LoopProofs LoopProofs4 Taylor WindowNF WindowTab WindowProofs WindowProofs2.
Import ListNotations.
Open Scope R_scope.

Lemma wtD_else v : (153 <= v)%positive -> wtD v = 0%Z.
Proof. intros L. unfold wtD. repeat (destruct v as [v|v|]; try lia; try reflexivity). Qed.
Lemma wtE_else v : (153 <= v)%positive -> wtE v = 0%Z.
Proof. intros L. unfold wtE. repeat (destruct v as [v|v|]; try lia; try reflexivity). Qed.
Lemma mid_D v : (102 <= v < 150)%positive -> wtD v = 0%Z.
Proof. intros L. unfold wtD. repeat (destruct v as [v|v|]; try lia; try reflexivity). Qed.
Lemma mid_E v : (107 <= v < 150)%positive -> wtE v = 0%Z.
Proof. intros L. unfold wtE. repeat (destruct v as [v|v|]; try lia; try reflexivity). Qed.
Lemma lbD_else v : (151 <= v)%positive -> lbD v = false.
Proof. intros L. unfold lbD, inl. cbn [existsb orb]. rewrite (proj2 (Pos.leb_gt v 149)) by lia. apply andb_false_r. Qed.
Lemma dlnd d : 0 < Rabs d < 1 -> Rabs (d * ln (d * d)) <= 4 * sqrt (Rabs d).
Proof.
  intros H. pose proof (ln_sq_small d H) as X. pose proof (sqrt_lt_R0 (Rabs d) (proj1 H)) as S0. pose proof (sqrt_sqrt (Rabs d) (Rlt_le _ _ (proj1 H))) as S1.
  rewrite Rabs_mult. set (q := sqrt (Rabs d)) in *. rewrite <- S1. replace (4 * q) with (q * q * (4 / q)) by (field; lra). apply Rmult_le_compat_l; [nra|exact X].
Qed.
Lemma sq_lb s : s * (s * 1) = powerRZ s 2. Proof. reflexivity. Qed.

(** ** r1 near 0, r2 = 1 + r *)
Section D.
  Variables (s r d : R).
  Hypothesis Hs : 0 < s <= 1.
  Hypothesis Hr : 0 < Rabs r <= 1 / 4. Hypothesis Hd : 0 < Rabs d <= 1 / 4.
  Hypothesis Sr : Rabs r <= s * s. Hypothesis Sd : Rabs d <= s * s.
  Definition loD := loW 0 (d * ln (d * d)) ((ln ((1 + r) * (1 + r)) - 2 * lnS 7 r) / (r * r)).
  Lemma goodD : goodw wtD lbD dsD lgD 16 s loD (hiW d r).
  Proof.
    assert (r0 : r <> 0) by (intros ->; rewrite Rabs_R0 in Hr; lra). assert (d0 : d <> 0) by (intros ->; rewrite Rabs_R0 in Hd; lra).
    assert (Er : -1 / 4 <= r <= 1 / 4) by (destruct Hr as (_ & X); revert X; unfold Rabs; destruct (Rcase_abs r); lra).
    assert (Ed : -1 / 4 <= d <= 1 / 4) by (destruct Hd as (_ & X); revert X; unfold Rabs; destruct (Rcase_abs d); lra).
    assert (i1 : inB 4 (r + 2)) by (unfold inB; rewrite Rabs_pos_eq; lra).
    assert (i2 : inB 2 (d * d - 1)) by (unfold inB; rewrite Rabs_left; nra).
    assert (i3 : inB 2 (d - (1 + r))) by (unfold inB; rewrite Rabs_left; lra).
    assert (i4 : inB 2 (d + (1 + r))) by (unfold inB; rewrite Rabs_pos_eq; lra).
    constructor.
    - reflexivity.
    - apply hiW_nz; assumption.
    - unfold dsD, numb. repeat apply Forall_cons; try apply Forall_nil; cbn [fst snd].
      + change (wtD 102) with 0%Z. apply den_ok with (c := 4) (y := r + 2); [pev_is|lra|lra|assumption].
      + change (wtD (102 + 1)) with 0%Z. apply den_ok with (c := 2) (y := d * d - 1); [pev_is|lra|lra|assumption].
      + change (wtD (102 + 1 + 1)) with 0%Z. apply den_ok with (c := 2) (y := d - (1 + r)); [pev_is|lra|lra|assumption].
      + change (wtD (102 + 1 + 1 + 1)) with 0%Z. apply den_ok with (c := 2 * 2) (y := (d - (1 + r)) * (d + (1 + r))); [pev_is|lra|lra|apply inB_mul; lra || assumption].
    - unfold lgD. repeat apply Forall_cons; try apply Forall_nil; cbn [fst snd].
      + match goal with |- ln ?a = ?b => replace a with ((1 + r) * (1 + r)) by (symmetry; lev_is) end. symmetry.
        cbv -[Rplus Rmult Rinv Ropp IZR Rminus Rdiv ln lnS]. cbv [lnS INR]. field. assumption.
      + match goal with |- ln ?a = ?b => replace a with (d * d) by (symmetry; lev_is); replace b with (ln (d * d)) by (symmetry; lev_is) end. reflexivity.
    - unfold loD. apply cases10; [| | |intros v L; rewrite loW_else by assumption].
      + change (wtD 1) with 0%Z. cbn [loW powerRZ]. rewrite Rabs_R0. lra.
      + change (wtD 2) with 1%Z. cbn [loW]. rewrite powerRZ_1. pose proof (dlnd d ltac:(lra)) as X. assert (sqrt (Rabs d) <= s) by (rewrite <- (sqrt_square s) by lra; apply sqrt_le_1_alt; exact Sd). lra.
      + change (wtD 3) with 12%Z. cbn [loW]. pose proof (ln_sq_ser r ltac:(lra)) as X.
        set (E := ln ((1 + r) * (1 + r)) - 2 * lnS 7 r) in *. unfold Rdiv. rewrite Rabs_mult, Rabs_inv, (Rabs_pos_eq (r * r)) by nra.
        change (powerRZ s 12) with (s ^ 12). apply Rmult_le_reg_r with (r * r); [nra|]. rewrite Rmult_assoc, Rinv_l by nra. rewrite <- (Rabs_sq r).
        assert (Q : Rabs r ^ 6 <= s ^ 12) by (replace (s ^ 12) with ((s * s) ^ 6) by ring; apply pow_incr; split; [apply Rabs_pos|exact Sr]).
        replace (Rabs r ^ 8) with (Rabs r ^ 6 * (Rabs r * Rabs r)) in X by ring. nra.
      + rewrite Rabs_R0. apply Rmult_le_pos; [lra|]. apply powerRZ_le. lra.
    - apply cases151; [| |intros v L; rewrite hiW_else, wtD_else, lbD_else by (assumption || lia)].
      + change (wtD 151) with 2%Z. cbn [hiW]. rewrite <- sq_lb. split; [nra|intros X; discriminate X].
      + change (wtD 152) with 2%Z. cbn [hiW]. rewrite <- sq_lb. split; [nra|intros X; discriminate X].
      + rewrite Rabs_R1. cbn [powerRZ]. split; [lra|discriminate].
    - intros v L _. apply mid_D. exact L.
  Qed.
End D.
Definition zero_one (s r1 r2 : R) : Prop := 0 < s <= 1 /\ (0 < Rabs r1 <= 1 / 4) /\ (0 < Rabs (r2 - 1) <= 1 / 4) /\ Rabs r1 <= s * s /\ Rabs (r2 - 1) <= s * s.
Lemma winD n e : bound wtD lbD eD n e = true -> exists C, 0 <= C /\ forall s r1 r2, zero_one s r1 r2 -> Rabs (revW r1 r2 e) <= C * powerRZ s n.
Proof.
  intros Hb. destruct (wbound wtD lbD (lm2 lD r2D) dsD lgD g1 g2 g3 n e eq_refl Hb 16 ltac:(lra)) as (C & HC & K).
  exists C. split; [exact HC|]. intros s d r2 (Hs & Hd & Hr & Sd & Sr). set (r := r2 - 1) in *. assert (E1 : r2 = 1 + r) by (unfold r; ring).
  specialize (K s (loD r d) (hiW d r)). rewrite <- (revW_ext (loD r d) (hiW d r) lD r2D d r2 e); [apply K| |].
  - exact Hs.
  - apply goodD; assumption.
  - lev_is.
  - rewrite E1. lev_is.
Qed.

(** ** both near 0, r1 the smaller one *)
Section E.
  Variables (r d : R).
  Hypothesis Hr : 0 < Rabs r <= 1 / 2. Hypothesis Hd : 0 < Rabs d <= Rabs r / 2.
  Definition loE := loW (ln (r * r)) (d * ln (d * d)) 0.
  Let s := sqrt (Rabs r).
  Lemma goodE' lg : (forall x, In x lg -> In x lgE) -> (0 < r \/ (forall x, In x lg -> In x lgE')) -> goodw wtE lbE dsE lg 16 s loE (hiW d r).
  Proof.
    intros Hlg Hpos.
    assert (r0 : r <> 0) by (intros ->; rewrite Rabs_R0 in Hr; lra). assert (d0 : d <> 0) by (intros ->; rewrite Rabs_R0 in Hd; lra).
    pose proof (sqrt_lt_R0 (Rabs r) (proj1 Hr)) as S0. pose proof (sqrt_sqrt (Rabs r) (Rlt_le _ _ (proj1 Hr))) as S1. fold s in S0, S1.
    assert (T1 : forall a b : R, Rabs (a + b) <= Rabs a + Rabs b) by apply Rabs_triang.
    assert (i1 : inB 2 (r * r - 1)) by (unfold inB; pose proof (Rabs_sq r); rewrite Rabs_left; nra).
    assert (i2 : inB 2 (d * d - 1)) by (unfold inB; pose proof (Rabs_sq d); rewrite Rabs_left; nra).
    assert (i3 : s * s / 2 <= Rabs (d - r) <= 2 * (s * s)).
    { rewrite S1. split.
      - pose proof (T1 (d - r) (- d)) as X. rewrite Rabs_Ropp in X. replace (d - r + - d) with (- r) in X by ring. rewrite Rabs_Ropp in X. lra.
      - pose proof (T1 d (- r)) as X. rewrite Rabs_Ropp in X. unfold Rminus. lra. }
    assert (i4 : s * s / 2 <= Rabs (d + r) <= 2 * (s * s)).
    { rewrite S1. split.
      - pose proof (T1 (d + r) (- d)) as X. rewrite Rabs_Ropp in X. replace (d + r + - d) with r in X by ring. lra.
      - pose proof (T1 d r) as X. lra. }
    assert (s2 : powerRZ s 2 = s * s) by (rewrite <- sq_lb; ring).
    assert (s4 : powerRZ s 4 = (s * s) * (s * s)) by (change (powerRZ s 4) with (s * (s * (s * (s * 1)))); ring).
    assert (P2 : 0 < s * s) by nra.
    assert (w2 : forall x y, x = y -> s * s / 2 <= Rabs y <= 2 * (s * s) -> x <> 0 /\ Rabs x <= 16 * powerRZ s 2 /\ powerRZ s 2 <= 16 * Rabs x).
    { intros x y -> Hy. rewrite s2. split; [intros ->; rewrite Rabs_R0 in Hy; lra|lra]. }
    constructor.
    - reflexivity.
    - apply hiW_nz; assumption.
    - unfold dsE, numb. repeat apply Forall_cons; try apply Forall_nil; cbn [fst snd].
      + change (wtE 102) with 0%Z. apply den_ok with (c := 2) (y := r * r - 1); [pev_is|lra|lra|assumption].
      + change (wtE (102 + 1)) with 0%Z. apply den_ok with (c := 2) (y := d * d - 1); [pev_is|lra|lra|assumption].
      + change (wtE (102 + 1 + 1)) with 2%Z. apply w2 with (d - r); [pev_is|assumption].
      + change (wtE (102 + 1 + 1 + 1)) with 2%Z. apply w2 with (d + r); [pev_is|assumption].
      + change (wtE (102 + 1 + 1 + 1 + 1)) with 4%Z. match goal with |- ?x <> 0 /\ _ => replace x with ((d - r) * (d + r)) by (symmetry; pev_is) end.
        rewrite s4, Rabs_mult. set (z := s * s) in *. assert (A1 : z / 2 * (z / 2) <= Rabs (d - r) * Rabs (d + r)) by (apply Rmult_le_compat; lra).
        assert (A2 : Rabs (d - r) * Rabs (d + r) <= 2 * z * (2 * z)) by (apply Rmult_le_compat; try apply Rabs_pos; lra).
        split; [|nra]. intros X. apply Rmult_integral in X. destruct X as [X|X]; rewrite X in *; rewrite Rabs_R0 in *; lra.
    - apply Forall_forall. intros x Hx. specialize (Hlg x Hx).
      assert (F1 : ln (FieldPoly.lev (bs loE (hiW d r)) (fst (nth 0 lgE (one, one)))) = FieldPoly.lev (bs loE (hiW d r)) (snd (nth 0 lgE (one, one)))).
      { match goal with |- ln ?a = ?b => replace a with (r * r) by (symmetry; lev_is); replace b with (ln (r * r)) by (symmetry; lev_is) end. reflexivity. }
      assert (F2 : ln (FieldPoly.lev (bs loE (hiW d r)) (fst (nth 1 lgE (one, one)))) = FieldPoly.lev (bs loE (hiW d r)) (snd (nth 1 lgE (one, one)))).
      { match goal with |- ln ?a = ?b => replace a with (d * d) by (symmetry; lev_is); replace b with (ln (d * d)) by (symmetry; lev_is) end. reflexivity. }
      assert (F3 : 0 < r -> ln (FieldPoly.lev (bs loE (hiW d r)) (fst (nth 2 lgE (one, one)))) = FieldPoly.lev (bs loE (hiW d r)) (snd (nth 2 lgE (one, one)))).
      { intros Pr. match goal with |- ln ?a = ?b => replace a with r by (symmetry; lev_is); replace b with (ln (r * r) / 2) by (symmetry; lev_is) end. rewrite ln_mult by assumption. field. }
      destruct Hlg as [<-|[<-|[<-|[]]]]; [exact F1|exact F2|]. destruct Hpos as [Pr|Hp]; [exact (F3 Pr)|]. exfalso. destruct (Hp _ Hx) as [Y|[Y|[]]]; discriminate Y.
    - unfold loE. apply cases10; [| | |intros v L; rewrite loW_else by assumption].
      + change (wtE 1) with (-1)%Z. cbn [loW]. change (powerRZ s (-1)) with (/ (s ^ 1)). rewrite pow_1. pose proof (ln_sq_small r ltac:(lra)) as X. fold s in X. unfold Rdiv in X.
        pose proof (Rinv_0_lt_compat _ S0). lra.
      + change (wtE 2) with 1%Z. cbn [loW]. rewrite powerRZ_1. pose proof (dlnd d ltac:(lra)) as X. assert (sqrt (Rabs d) <= s) by (apply sqrt_le_1_alt; lra). lra.
      + change (wtE 3) with 0%Z. cbn [loW powerRZ]. rewrite Rabs_R0. lra.
      + rewrite Rabs_R0. apply Rmult_le_pos; [lra|]. apply powerRZ_le. exact S0.
    - apply cases151; [| |intros v L; rewrite hiW_else, wtE_else by assumption].
      + change (wtE 151) with 2%Z. cbn [hiW]. rewrite s2. split; [lra|intros X; discriminate X].
      + change (wtE 152) with 2%Z. cbn [hiW]. rewrite s2. split; [lra|intros _; lra].
      + rewrite Rabs_R1. cbn [powerRZ]. lra.
    - intros v L N. apply mid_E. split; [|lia]. apply Pos.leb_le. destruct (Pos.leb_spec 107 v) as [|Lv]; [reflexivity|]. exfalso.
      assert (E5 : (v = 102 \/ v = 103 \/ v = 104 \/ v = 105 \/ v = 106)%positive) by lia. destruct E5 as [->|[->|[->|[->| ->]]]]; vm_compute in N; discriminate N.
  Qed.
End E.
Definition both_small (r1 r2 : R) : Prop := (0 < Rabs r2 <= 1 / 2) /\ (0 < Rabs r1 <= Rabs r2 / 2).
Lemma sqrt_rng r : 0 < Rabs r <= 1 / 2 -> 0 < sqrt (Rabs r) <= 1.
Proof. intros H. split; [apply sqrt_lt_R0; lra|]. rewrite <- sqrt_1. apply sqrt_le_1_alt. lra. Qed.
Lemma winE n e : bound wtE lbE eE n e = true -> exists C, 0 <= C /\ forall r1 r2, 0 < r2 -> both_small r1 r2 -> Rabs (revW r1 r2 e) <= C * powerRZ (sqrt (Rabs r2)) n.
Proof.
  intros Hb. destruct (wbound wtE lbE (lm2 lD lR) dsE lgE g1 g2 g3 n e eq_refl Hb 16 ltac:(lra)) as (C & HC & K).
  exists C. split; [exact HC|]. intros d r Pr (Hr & Hd).
  specialize (K (sqrt (Rabs r)) (loE r d) (hiW d r)). rewrite <- (revW_ext (loE r d) (hiW d r) lD lR d r e); [apply K| |].
  - apply sqrt_rng. exact Hr.
  - apply goodE'; try assumption; tauto.
  - lev_is.
  - lev_is.
Qed.
Lemma winE' n e : bound wtE lbE eE' n e = true -> exists C, 0 <= C /\ forall r1 r2, both_small r1 r2 -> Rabs (revW r1 r2 e) <= C * powerRZ (sqrt (Rabs r2)) n.
Proof.
  intros Hb. destruct (wbound wtE lbE (lm2 lD lR) dsE lgE' g1 g2 g3 n e eq_refl Hb 16 ltac:(lra)) as (C & HC & K).
  exists C. split; [exact HC|]. intros d r (Hr & Hd).
  specialize (K (sqrt (Rabs r)) (loE r d) (hiW d r)). rewrite <- (revW_ext (loE r d) (hiW d r) lD lR d r e); [apply K| |].
  - apply sqrt_rng. exact Hr.
  - apply goodE'; try assumption; [intros x [X|[X|[]]]; subst; cbn [lgE In]; tauto|right; tauto].
  - lev_is.
  - lev_is.
Qed.

(** ** The branches *)
Lemma chkD_ok : chkD = true. Proof. vm_compute. reflexivity. Qed.
Lemma chkE_ok : chkE = true. Proof. vm_compute. reflexivity. Qed.
Lemma chkE'_ok : chkE' = true. Proof. vm_compute. reflexivity. Qed.
Definition bdD (f g : R -> R -> R) (n : nat) : Prop := exists C, 0 <= C /\ forall s r1 r2, zero_one s r1 r2 -> Rabs (f r1 r2 - g r1 r2) <= C * s ^ n.
Ltac winD_ k := match k with (?n, ?e) => destruct (winD n e (nth_bound _ _ (n, e) chkD_ok ltac:(cbn [In]; tauto))) as (C & HC & K);
  exists C; split; [exact HC|]; intros s r1 r2 H; rewrite <- powZ; exact (K s r1 r2 H) end.
Open Scope num_scope.
Lemma D_F8 : bdD F8w01 F8c 6. Proof. winD_ (6%Z, F8w01 xa xb - F8x xa xb). Qed.
Lemma D_f5 : bdD f5w01 f5c 5. Proof. winD_ (5%Z, f5w01 xa xb - f5x xa xb). Qed.
Lemma D_f6 : bdD f6_0_1 f6c 9. Proof. winD_ (9%Z, f6_0_1 xa xb - f6x xa xb). Qed.
Lemma D_f7 : bdD f7_0_1 f7c 5. Proof. winD_ (5%Z, f7_0_1 xa xb - f7x xa xb). Qed.
Lemma D_f8 : bdD f8_0_1 f8c 7. Proof. winD_ (7%Z, f8_0_1 xa xb - f8x xa xb). Qed.
Definition xE5 : FieldNF.rx := f5_0_0 xa xb - f5x xa xb. Definition xE6 : FieldNF.rx := f6_0_0 xa xb - f6x xa xb.
Definition xE7 : FieldNF.rx := f7_0_0 xa xb - f7x xa xb. Definition xE8 : FieldNF.rx := f8_0_0 xa xb - f8x xa xb.
Lemma E_f5 : exists C, (0 <= C)%R /\ forall r1 r2, (0 < r2)%R -> both_small r1 r2 -> (Rabs (revW r1 r2 xE5) <= C * powerRZ (sqrt (Rabs r2)) 3)%R.
Proof. exact (winE 3%Z xE5 chkE_ok). Qed.
Ltac kE n e := exact (winE' n e (nth_bound _ _ (n, e) chkE'_ok ltac:(cbn [In]; tauto))).
Definition bdE (e : FieldNF.rx) (n : Z) : Prop := exists C, (0 <= C)%R /\ forall r1 r2, both_small r1 r2 -> (Rabs (revW r1 r2 e) <= C * powerRZ (sqrt (Rabs r2)) n)%R.
Lemma E_F8 : bdE (F8_0_x2 xa xb - F8x xa xb) 3. Proof. kE 3%Z (F8_0_x2 xa xb - F8x xa xb). Qed.
Lemma E_f6 : bdE xE6 7. Proof. kE 7%Z (f6_0_0 xa xb - f6x xa xb). Qed.
Lemma E_f7 : bdE xE7 3. Proof. kE 3%Z (f7_0_0 xa xb - f7x xa xb). Qed.
Lemma E_f8 : bdE xE8 5. Proof. kE 5%Z (f8_0_0 xa xb - f8x xa xb). Qed.
