(** * Special-case branches of the two-argument loop functions: the bounds
    The symbols of WindowTab.v are given their values; [wbound] then bounds the difference of each branch and its closed form. *)
From Coq Require Import Reals ZArith List Bool Lra Lia.
From Verif Require Import Num NumFacts HierExpr HierPoly FieldPoly FieldNF MirrorNF LoopFun LoopSpec LoopProofs LoopProofs4 Taylor WindowNF WindowTab.
Import ListNotations.
Open Scope R_scope.

Definition loW (a b c : R) (v : positive) : R := match v with 1%positive => a | 2%positive => b | 3%positive => c | _ => 0 end.
Definition hiW (d r : R) (v : positive) : R := match v with 150%positive => 3 / 4 | 151%positive => d | 152%positive => r | _ => 1 end.
Definition uW (r1 r2 : R) (v : positive) : R := match v with 1%positive => r1 | 2%positive => r2 | _ => 0 end.
Definition g1 (f : positive) (a : R) : R := 0. Definition g2 (f : positive) (a b : R) : R := 0. Definition g3 (f : positive) (a b c : R) : R := 0.
Notation revW r1 r2 e := (FieldNF.rev (uW r1 r2) g1 g2 g3 e).

Lemma assoc_lm2 base x y v : FieldPoly.lev base (assoc (lm2 x y) v) = uW (FieldPoly.lev base x) (FieldPoly.lev base y) v.
Proof. unfold assoc, lm2. destruct v as [p|p|]; [|destruct p|]; cbn [find fst snd Pos.eqb]; try reflexivity; unfold FieldPoly.lev; cbn; lra. Qed.

Lemma ln_sq_abs r : r <> 0 -> ln (r * r) = 2 * ln (Rabs r).
Proof. intros H. pose proof (Rabs_pos_lt r H). replace (r * r) with (Rabs r * Rabs r) by (rewrite <- Rabs_mult; apply Rabs_pos_eq; nra). rewrite ln_mult by assumption. ring. Qed.
Lemma ln_le_id x : 0 < x -> ln x <= x.
Proof. intros H. pose proof (exp_ineq1_le (ln x)). rewrite exp_ln in H0 by assumption. lra. Qed.
Lemma ln_sq_bd r Mx : 0 < Mx -> 1 / Mx <= Rabs r -> Rabs r <= Mx -> Rabs (ln (r * r)) <= 2 * Mx.
Proof.
  intros HM H1 H2. assert (0 < 1 / Mx) by (apply Rdiv_lt_0_compat; lra). assert (r <> 0) by (intros ->; rewrite Rabs_R0 in H1; lra).
  rewrite ln_sq_abs by assumption. set (a := Rabs r) in *. assert (0 < a) by lra. pose proof (ln_le_id a H3) as A.
  pose proof (ln_le_id (/ a) (Rinv_0_lt_compat _ H3)) as Bq. rewrite ln_Rinv in Bq by assumption.
  assert (/ a <= Mx). { apply Rmult_le_reg_l with a; [assumption|]. rewrite Rinv_r by lra. apply Rmult_le_reg_r with (1 / Mx); [assumption|]. replace (a * Mx * (1 / Mx)) with a by (field; lra). lra. }
  apply Rabs_le. lra.
Qed.
(** the series of the logarithm of a square *)
Lemma ln_sq_ser t : Rabs t <= 1 / 2 -> Rabs (ln ((1 + t) * (1 + t)) - 2 * lnS 7 t) <= 4 * Rabs t ^ 8.
Proof.
  intros H. pose proof (ln_taylor 7 t H) as X. assert (0 < 1 + t) by (apply Rabs_le_inv in H || (revert H; unfold Rabs; destruct (Rcase_abs t)); lra).
  rewrite ln_mult by assumption. replace (ln (1 + t) + ln (1 + t) - 2 * lnS 7 t) with (2 * (ln (1 + t) - lnS 7 t)) by ring.
  rewrite Rabs_mult, (Rabs_pos_eq 2) by lra. lra.
Qed.
Lemma Rabs_sq r : Rabs r * Rabs r = r * r. Proof. rewrite <- Rabs_mult. apply Rabs_pos_eq. nra. Qed.

Lemma hiW_nz d r : d <> 0 -> r <> 0 -> forall v, (150 <= v)%positive -> hiW d r v <> 0.
Proof.
  intros Hd Hr v L. unfold hiW. destruct (Pos.eq_dec v 150) as [->|N1]; [lra|]. destruct (Pos.eq_dec v 151) as [->|N2]; [assumption|].
  destruct (Pos.eq_dec v 152) as [->|N3]; [assumption|]. repeat (destruct v as [v|v|]; try lia; try lra).
Qed.
Lemma hiW_else d r v : (153 <= v)%positive -> hiW d r v = 1.
Proof. intros L. unfold hiW. repeat (destruct v as [v|v|]; try lia; try reflexivity). Qed.
Lemma wtA_else v : (153 <= v)%positive -> wtA v = 0%Z.
Proof. intros L. unfold wtA. repeat (destruct v as [v|v|]; try lia; try reflexivity). Qed.
Lemma wtC_else v : (153 <= v)%positive -> wtC v = 0%Z.
Proof. intros L. unfold wtC. repeat (destruct v as [v|v|]; try lia; try reflexivity). Qed.
Lemma cases10 (P : positive -> Prop) : P 1%positive -> P 2%positive -> P 3%positive -> (forall v, (4 <= v <= 10)%positive -> P v) -> forall v, (v <= 10)%positive -> P v.
Proof. intros H1 H2 H3 H4 v L. destruct (Pos.eq_dec v 1) as [->|]; [assumption|]. destruct (Pos.eq_dec v 2) as [->|]; [assumption|]. destruct (Pos.eq_dec v 3) as [->|]; [assumption|]. apply H4. lia. Qed.
Lemma cases151 (P : positive -> Prop) : P 151%positive -> P 152%positive -> (forall v, (153 <= v)%positive -> P v) -> forall v, (151 <= v)%positive -> P v.
Proof. intros H1 H2 H3 v L. destruct (Pos.eq_dec v 151) as [->|]; [assumption|]. destruct (Pos.eq_dec v 152) as [->|]; [assumption|]. apply H3. lia. Qed.
Lemma loW_else a b c v : (4 <= v <= 10)%positive -> loW a b c v = 0.
Proof. intros L. unfold loW. repeat (destruct v as [v|v|]; try lia; try reflexivity). Qed.
Lemma mid_A v : (102 <= v < 150)%positive -> wtA v = 0%Z /\ wtC v = 0%Z.
Proof. intros L. unfold wtA, wtC. repeat (destruct v as [v|v|]; try lia; try (split; reflexivity)). Qed.

(** a value bounded from both sides *)
Definition inB (c x : R) : Prop := 1 / c <= Rabs x <= c.
Lemma inB_mul c c' x y : 0 < c -> 0 < c' -> inB c x -> inB c' y -> inB (c * c') (x * y).
Proof.
  intros Hc Hc' (A1 & A2) (B1 & B2). unfold inB. rewrite Rabs_mult. assert (0 < 1 / c) by (apply Rdiv_lt_0_compat; lra). assert (0 < 1 / c') by (apply Rdiv_lt_0_compat; lra).
  replace (1 / (c * c')) with (1 / c * (1 / c')) by (field; lra). split; apply Rmult_le_compat; lra.
Qed.
Lemma inB_mono c c' x : 0 < c -> c <= c' -> inB c x -> inB c' x.
Proof. intros Hc L (A & B). split; [|lra]. eapply Rle_trans; [|exact A]. unfold Rdiv. rewrite !Rmult_1_l. apply Rinv_le_contravar; lra. Qed.
Lemma inB_two c c' x : 0 < c -> c <= c' -> 1 / c <= Rabs x -> Rabs x <= c' -> inB c' x.
Proof. intros Hc L A B. split; [|lra]. eapply Rle_trans; [|exact A]. unfold Rdiv. rewrite !Rmult_1_l. apply Rinv_le_contravar; lra. Qed.
Lemma den_ok s c B x y : x = y -> 0 < c -> c <= B -> inB c y -> x <> 0 /\ Rabs x <= B * powerRZ s 0 /\ powerRZ s 0 <= B * Rabs x.
Proof.
  intros -> Hc L H. destruct (inB_mono c B y Hc L H) as (A1 & A2). assert (0 < 1 / B) by (apply Rdiv_lt_0_compat; lra). cbn [powerRZ].
  split; [intros ->; rewrite Rabs_R0 in A1; lra|]. split; [lra|]. apply Rmult_le_reg_l with (1 / B); [assumption|]. replace (1 / B * (B * Rabs y)) with (Rabs y) by (field; lra). lra.
Qed.
Ltac pev_is := cbv -[Rplus Rmult Rinv Ropp IZR Rminus Rdiv ln lnS]; ring.
Ltac lev_is := cbv -[Rplus Rmult Rinv Ropp IZR Rminus Rdiv ln lnS]; field; repeat split; assumption || lra.

(** ** equal arguments *)
Section A.
  Variables (Mx r d : R).
  Hypothesis HM : 1 <= Mx.
  Hypothesis Hr : 1 / Mx <= Rabs r <= Mx.
  Hypothesis Hd : 0 < Rabs d <= Rabs r / 2.
  Hypothesis Hd1 : Rabs d <= 1.
  Hypothesis H1 : 1 / Mx <= Rabs (r - 1). Hypothesis H2 : 1 / Mx <= Rabs (r + 1).
  Hypothesis H3 : 1 / Mx <= Rabs (r + d - 1). Hypothesis H4 : 1 / Mx <= Rabs (r + d + 1).
  Definition loA := loW (ln (r * r)) 0 ((ln ((r + d) * (r + d)) - ln (r * r) - 2 * lnS 7 (d / r)) / (d * d)).
  Lemma goodA : goodw wtA lbA dsA lgA (16 * Mx ^ 8) (Rabs d) loA (hiW d r).
  Proof.
    assert (P : 0 < 1 / Mx) by (apply Rdiv_lt_0_compat; lra). assert (r0 : r <> 0) by (intros ->; rewrite Rabs_R0 in Hr; lra). assert (d0 : d <> 0) by (intros ->; rewrite Rabs_R0 in Hd; lra).
    assert (PM : forall n m, (n <= m)%nat -> Mx ^ n <= Mx ^ m) by (intros n m; apply Rle_pow; exact HM).
    assert (B1 : Mx * Mx <= Mx ^ 8) by (pose proof (PM 2%nat 8%nat ltac:(lia)); lra).
    assert (B0 : Mx <= Mx * Mx) by nra.
    assert (T1 : forall a b : R, Rabs (a + b) <= Rabs a + Rabs b) by apply Rabs_triang. pose proof Rabs_R1 as R1. assert (Rm : Rabs (-1) = 1) by (rewrite Rabs_left; lra).
    assert (i1 : inB (2 * Mx) (r - 1)) by (apply inB_two with Mx; try lra; pose proof (T1 r (-1)); replace (r - 1) with (r + -1) by ring; lra).
    assert (i2 : inB (2 * Mx) (r + 1)) by (apply inB_two with Mx; try lra; pose proof (T1 r 1); lra).
    assert (i3 : inB (3 * Mx) (r + d - 1)) by (apply inB_two with Mx; try lra; pose proof (T1 (r + d) (-1)); pose proof (T1 r d); replace (r + d - 1) with (r + d + -1) by ring; lra).
    assert (i4 : inB (3 * Mx) (r + d + 1)) by (apply inB_two with Mx; try lra; pose proof (T1 (r + d) 1); pose proof (T1 r d); lra).
    assert (i5 : inB (3 * Mx) (2 * r + d)).
    { apply inB_two with Mx; try lra.
      - pose proof (T1 (2 * r + d) (- d)) as X. rewrite Rabs_Ropp in X. replace (2 * r + d + - d) with (2 * r) in X by ring. rewrite Rabs_mult, (Rabs_pos_eq 2) in X by lra. lra.
      - pose proof (T1 (2 * r) d) as X. rewrite Rabs_mult, (Rabs_pos_eq 2) in X by lra. lra. }
    constructor.
    - reflexivity.
    - apply hiW_nz; assumption.
    - unfold dsA, numb. repeat apply Forall_cons; try apply Forall_nil; cbn [fst snd].
      + change (wtA 102) with 0%Z. apply den_ok with (c := 2 * Mx) (y := r - 1); [pev_is|lra|lra|assumption].
      + change (wtA (102 + 1)) with 0%Z. apply den_ok with (c := 2 * Mx) (y := r + 1); [pev_is|lra|lra|assumption].
      + change (wtA (102 + 1 + 1)) with 0%Z. apply den_ok with (c := (2 * Mx) * (2 * Mx)) (y := (r - 1) * (r + 1)); [pev_is|nra|nra|apply inB_mul; lra || assumption].
      + change (wtA (102 + 1 + 1 + 1)) with 0%Z. apply den_ok with (c := (3 * Mx) * (3 * Mx)) (y := (r + d - 1) * (r + d + 1)); [pev_is|nra|nra|apply inB_mul; lra || assumption].
      + change (wtA (102 + 1 + 1 + 1 + 1)) with 0%Z. apply den_ok with (c := 3 * Mx) (y := 2 * r + d); [pev_is|lra|lra|assumption].
    - unfold lgA. repeat apply Forall_cons; try apply Forall_nil; cbn [fst snd].
      + match goal with |- ln ?a = ?b => replace a with (r * r) by (symmetry; lev_is); replace b with (ln (r * r)) by (symmetry; lev_is) end. reflexivity.
      + match goal with |- ln ?a = ?b => replace a with ((r + d) * (r + d)) by (symmetry; lev_is) end. symmetry.
        cbv -[Rplus Rmult Rinv Ropp IZR Rminus Rdiv ln lnS]. cbv [lnS INR]. field. split; assumption.
    - unfold loA. apply cases10; [| | |intros v L; rewrite loW_else by assumption].
      + change (wtA 1) with 0%Z. cbn [loW powerRZ]. pose proof (ln_sq_bd r Mx ltac:(lra) (proj1 Hr) (proj2 Hr)). lra.
      + change (wtA 2) with 0%Z. cbn [loW powerRZ]. rewrite Rabs_R0. lra.
      + change (wtA 3) with 6%Z. cbn [loW].
        assert (Ht : Rabs (d / r) <= 1 / 2).
        { unfold Rdiv. rewrite Rabs_mult, Rabs_inv. apply Rmult_le_reg_r with (Rabs r); [apply Rabs_pos_lt; assumption|]. rewrite Rmult_assoc, Rinv_l by (apply Rabs_no_R0; assumption). lra. }
        pose proof (ln_sq_ser (d / r) Ht) as X.
        assert (0 < r * r) by nra. assert (0 < 1 + d / r) by (revert Ht; unfold Rabs; destruct (Rcase_abs (d / r)); lra).
        replace (ln ((r + d) * (r + d)) - ln (r * r)) with (ln ((1 + d / r) * (1 + d / r))).
        2: { replace ((r + d) * (r + d)) with ((r * r) * ((1 + d / r) * (1 + d / r))) by (field; assumption). rewrite (ln_mult (r * r)) by nra. ring. }
        set (E := ln ((1 + d / r) * (1 + d / r)) - 2 * lnS 7 (d / r)) in *. unfold Rdiv. rewrite Rabs_mult, Rabs_inv, (Rabs_pos_eq (d * d)) by nra.
        assert (Q : Rabs (d / r) ^ 8 <= Rabs d ^ 8 * Mx ^ 8).
        { rewrite <- Rpow_mult_distr. apply pow_incr. split; [apply Rabs_pos|]. unfold Rdiv. rewrite Rabs_mult, Rabs_inv. apply Rmult_le_compat_l; [apply Rabs_pos|].
          apply Rmult_le_reg_l with (Rabs r); [apply Rabs_pos_lt; assumption|]. rewrite Rinv_r by (apply Rabs_no_R0; assumption).
          apply Rmult_le_reg_r with (1 / Mx); [assumption|]. replace (Rabs r * Mx * (1 / Mx)) with (Rabs r) by (field; lra). lra. }
        change (powerRZ (Rabs d) 6) with (Rabs d ^ 6). apply Rmult_le_reg_r with (d * d); [nra|]. rewrite Rmult_assoc, Rinv_l by nra. rewrite <- (Rabs_sq d).
        assert (0 <= Rabs d ^ 8 * Mx ^ 8) by (apply Rmult_le_pos; apply pow_le; [apply Rabs_pos|lra]).
        replace (16 * Mx ^ 8 * Rabs d ^ 6 * (Rabs d * Rabs d)) with (16 * (Rabs d ^ 8 * Mx ^ 8)) by ring. lra.
      + rewrite Rabs_R0. apply Rmult_le_pos; [lra|]. apply powerRZ_le. lra.
    - apply cases151; [| |intros v L; rewrite hiW_else, wtA_else by assumption].
      + change (wtA 151) with 1%Z. cbn [hiW]. rewrite powerRZ_1. nra.
      + change (wtA 152) with 0%Z. cbn [hiW powerRZ]. split; [lra|intros _]. assert (1 <= Mx * Rabs r). { apply Rmult_le_reg_l with (1 / Mx); [assumption|]. replace (1 / Mx * (Mx * Rabs r)) with (Rabs r) by (field; lra). lra. }
        pose proof (Rabs_pos r). nra.
      + rewrite R1. cbn [powerRZ]. lra.
    - intros v L _. apply mid_A. exact L.
  Qed.
End A.
Definition near_equal (Mx r1 r2 : R) : Prop :=
  (1 / Mx <= Rabs r2 <= Mx) /\ (0 < Rabs (r1 - r2) <= Rabs r2 / 2) /\ Rabs (r1 - r2) <= 1 /\
  1 / Mx <= Rabs (r2 - 1) /\ 1 / Mx <= Rabs (r2 + 1) /\ 1 / Mx <= Rabs (r1 - 1) /\ 1 / Mx <= Rabs (r1 + 1).
Lemma revW_ext lo hi x y r1 r2 e : FieldPoly.lev (bs lo hi) x = r1 -> FieldPoly.lev (bs lo hi) y = r2 ->
  FieldNF.rev (fun v => FieldPoly.lev (bs lo hi) (assoc (lm2 x y) v)) g1 g2 g3 e = revW r1 r2 e.
Proof. intros <- <-. apply rev_ext. apply assoc_lm2. Qed.
Lemma B16 Mx : 1 <= Mx -> 1 <= 16 * Mx ^ 8.
Proof. intros H. pose proof (pow_R1_Rle Mx 8 H). lra. Qed.
Lemma winA n e : bound wtA lbA eA n e = true -> forall Mx, 1 <= Mx -> exists C, 0 <= C /\
  forall r1 r2, near_equal Mx r1 r2 -> Rabs (revW r1 r2 e) <= C * powerRZ (Rabs (r1 - r2)) n.
Proof.
  intros Hb Mx HM. destruct (wbound wtA lbA (lm2 r1A lR) dsA lgA g1 g2 g3 n e eq_refl Hb (16 * Mx ^ 8) (B16 Mx HM)) as (C & HC & K).
  exists C. split; [exact HC|]. intros r1 r2 (Hr & Hd & Hd1 & H1 & H2 & H3 & H4). set (d := r1 - r2) in *. assert (E1 : r1 = r2 + d) by (unfold d; ring).
  specialize (K (Rabs d) (loA r2 d) (hiW d r2)). rewrite <- (revW_ext (loA r2 d) (hiW d r2) r1A lR r1 r2 e); [apply K| |].
  - lra.
  - rewrite E1 in H3, H4. apply goodA; assumption.
  - rewrite E1. lev_is.
  - lev_is.
Qed.

(** ** one argument near 1 *)
Section B.
  Variables (Mx r d : R).
  Hypothesis HM : 1 <= Mx.
  Hypothesis Hr : 1 / Mx <= Rabs r <= Mx.
  Hypothesis Hd : 0 < Rabs d <= 1 / 2.
  Hypothesis H1 : 1 / Mx <= Rabs (r - 1). Hypothesis H2 : 1 / Mx <= Rabs (r + 1).
  Hypothesis H3 : 1 / Mx <= Rabs (1 + d - r). Hypothesis H4 : 1 / Mx <= Rabs (1 + d + r).
  Definition loB := loW (ln (r * r)) 0 ((ln ((1 + d) * (1 + d)) - 2 * lnS 7 d) / (d * d)).
  Lemma goodB : goodw wtA lbA dsB lgB (16 * Mx ^ 8) (Rabs d) loB (hiW d r).
  Proof.
    assert (P : 0 < 1 / Mx) by (apply Rdiv_lt_0_compat; lra). assert (r0 : r <> 0) by (intros ->; rewrite Rabs_R0 in Hr; lra). assert (d0 : d <> 0) by (intros ->; rewrite Rabs_R0 in Hd; lra).
    assert (PM : forall n m, (n <= m)%nat -> Mx ^ n <= Mx ^ m) by (intros n m; apply Rle_pow; exact HM).
    assert (B1 : Mx * Mx <= Mx ^ 8) by (pose proof (PM 2%nat 8%nat ltac:(lia)); lra).
    assert (B0 : Mx <= Mx * Mx) by nra. assert (B2 : 1 <= Mx * Mx) by nra.
    assert (T1 : forall a b : R, Rabs (a + b) <= Rabs a + Rabs b) by apply Rabs_triang. pose proof Rabs_R1 as R1. assert (Rm : Rabs (-1) = 1) by (rewrite Rabs_left; lra).
    assert (i1 : inB (2 * Mx) (r - 1)) by (apply inB_two with Mx; try lra; pose proof (T1 r (-1)); replace (r - 1) with (r + -1) by ring; lra).
    assert (i2 : inB (2 * Mx) (r + 1)) by (apply inB_two with Mx; try lra; pose proof (T1 r 1); lra).
    assert (i3 : inB (3 * Mx) (1 + d - r)) by (apply inB_two with Mx; try lra; pose proof (T1 (1 + d) (- r)) as X; pose proof (T1 1 d); rewrite Rabs_Ropp in X; unfold Rminus; lra).
    assert (i4 : inB (3 * Mx) (1 + d + r)) by (apply inB_two with Mx; try lra; pose proof (T1 (1 + d) r); pose proof (T1 1 d); lra).
    assert (i5 : inB 3 (2 + d)).
    { unfold inB. assert (-1 / 2 <= d <= 1 / 2) by (destruct Hd as (_ & X); revert X; unfold Rabs; destruct (Rcase_abs d); lra). rewrite Rabs_pos_eq; lra. }
    constructor.
    - reflexivity.
    - apply hiW_nz; assumption.
    - unfold dsB, numb. repeat apply Forall_cons; try apply Forall_nil; cbn [fst snd].
      + change (wtA 102) with 0%Z. apply den_ok with (c := (2 * Mx) * (2 * Mx)) (y := (r - 1) * (r + 1)); [pev_is|nra|nra|apply inB_mul; lra || assumption].
      + change (wtA (102 + 1)) with 0%Z. apply den_ok with (c := 2 * Mx) (y := r - 1); [pev_is|lra|lra|assumption].
      + change (wtA (102 + 1 + 1)) with 0%Z. apply den_ok with (c := 2 * Mx) (y := r + 1); [pev_is|lra|lra|assumption].
      + change (wtA (102 + 1 + 1 + 1)) with 0%Z. apply den_ok with (c := 3) (y := 2 + d); [pev_is|lra|lra|assumption].
      + change (wtA (102 + 1 + 1 + 1 + 1)) with 0%Z. apply den_ok with (c := 3 * Mx) (y := 1 + d - r); [pev_is|lra|lra|assumption].
      + change (wtA (102 + 1 + 1 + 1 + 1 + 1)) with 0%Z. apply den_ok with (c := (3 * Mx) * (3 * Mx)) (y := (1 + d - r) * (1 + d + r)); [pev_is|nra|nra|apply inB_mul; lra || assumption].
    - unfold lgB. repeat apply Forall_cons; try apply Forall_nil; cbn [fst snd].
      + match goal with |- ln ?a = ?b => replace a with (r * r) by (symmetry; lev_is); replace b with (ln (r * r)) by (symmetry; lev_is) end. reflexivity.
      + match goal with |- ln ?a = ?b => replace a with ((1 + d) * (1 + d)) by (symmetry; lev_is) end. symmetry.
        cbv -[Rplus Rmult Rinv Ropp IZR Rminus Rdiv ln lnS]. cbv [lnS INR]. field. assumption.
    - unfold loB. apply cases10; [| | |intros v L; rewrite loW_else by assumption].
      + change (wtA 1) with 0%Z. cbn [loW powerRZ]. pose proof (ln_sq_bd r Mx ltac:(lra) (proj1 Hr) (proj2 Hr)). lra.
      + change (wtA 2) with 0%Z. cbn [loW powerRZ]. rewrite Rabs_R0. lra.
      + change (wtA 3) with 6%Z. cbn [loW]. pose proof (ln_sq_ser d (proj2 Hd)) as X.
        set (E := ln ((1 + d) * (1 + d)) - 2 * lnS 7 d) in *. unfold Rdiv. rewrite Rabs_mult, Rabs_inv, (Rabs_pos_eq (d * d)) by nra.
        change (powerRZ (Rabs d) 6) with (Rabs d ^ 6). apply Rmult_le_reg_r with (d * d); [nra|]. rewrite Rmult_assoc, Rinv_l by nra. rewrite <- (Rabs_sq d).
        assert (0 <= Rabs d ^ 8) by (apply pow_le; apply Rabs_pos). assert (1 <= Mx ^ 8) by (apply pow_R1_Rle; exact HM).
        replace (16 * Mx ^ 8 * Rabs d ^ 6 * (Rabs d * Rabs d)) with (16 * (Rabs d ^ 8 * Mx ^ 8)) by ring. nra.
      + rewrite Rabs_R0. apply Rmult_le_pos; [lra|]. apply powerRZ_le. lra.
    - apply cases151; [| |intros v L; rewrite hiW_else, wtA_else by assumption].
      + change (wtA 151) with 1%Z. cbn [hiW]. rewrite powerRZ_1. nra.
      + change (wtA 152) with 0%Z. cbn [hiW powerRZ]. split; [lra|intros _]. assert (1 <= Mx * Rabs r). { apply Rmult_le_reg_l with (1 / Mx); [assumption|]. replace (1 / Mx * (Mx * Rabs r)) with (Rabs r) by (field; lra). lra. }
        pose proof (Rabs_pos r). nra.
      + rewrite R1. cbn [powerRZ]. lra.
    - intros v L _. apply mid_A. exact L.
  Qed.
End B.
Definition near_one (Mx r1 r2 : R) : Prop :=
  (1 / Mx <= Rabs r2 <= Mx) /\ (0 < Rabs (r1 - 1) <= 1 / 2) /\
  1 / Mx <= Rabs (r2 - 1) /\ 1 / Mx <= Rabs (r2 + 1) /\ 1 / Mx <= Rabs (r1 - r2) /\ 1 / Mx <= Rabs (r1 + r2).
Lemma winB n e : bound wtA lbA eB n e = true -> forall Mx, 1 <= Mx -> exists C, 0 <= C /\
  forall r1 r2, near_one Mx r1 r2 -> Rabs (revW r1 r2 e) <= C * powerRZ (Rabs (r1 - 1)) n.
Proof.
  intros Hb Mx HM. destruct (wbound wtA lbA (lm2 r1B lR) dsB lgB g1 g2 g3 n e eq_refl Hb (16 * Mx ^ 8) (B16 Mx HM)) as (C & HC & K).
  exists C. split; [exact HC|]. intros r1 r2 (Hr & Hd & H1 & H2 & H3 & H4). set (d := r1 - 1) in *. assert (E1 : r1 = 1 + d) by (unfold d; ring).
  specialize (K (Rabs d) (loB r2 d) (hiW d r2)). rewrite <- (revW_ext (loB r2 d) (hiW d r2) r1B lR r1 r2 e); [apply K| |].
  - lra.
  - rewrite E1 in H3, H4. apply goodB; assumption.
  - rewrite E1. lev_is.
  - lev_is.
Qed.

(** ** one argument near 0 *)
Lemma ln_sq_small d : 0 < Rabs d < 1 -> Rabs (ln (d * d)) <= 4 / sqrt (Rabs d).
Proof.
  intros (H1 & H2). assert (d0 : d <> 0) by (intros ->; rewrite Rabs_R0 in H1; lra). rewrite ln_sq_abs by exact d0. pose proof (xlnx_small (Rabs d) H1 H2) as X.
  set (a := Rabs d) in *. pose proof (sqrt_lt_R0 a H1) as S0. pose proof (sqrt_sqrt a (Rlt_le _ _ H1)) as S1. set (q := sqrt a) in *.
  rewrite Rabs_mult, (Rabs_pos_eq 2) by lra. apply Rmult_le_reg_l with a; [exact H1|]. replace (a * (4 / q)) with (4 * q) by (rewrite <- S1; field; lra).
  replace (a * (2 * Rabs (ln a))) with (2 * Rabs (a * ln a)) by (rewrite Rabs_mult, (Rabs_pos_eq a) by lra; ring).
  assert (Rabs (a * ln a) <= 2 * q) by (apply Rabs_le; lra). lra.
Qed.
Section C.
  Variables (Mx r d : R).
  Hypothesis HM : 1 <= Mx.
  Hypothesis Hr : 1 / Mx <= Rabs r <= Mx.
  Hypothesis Hd : 0 < Rabs d <= 1 / 2. Hypothesis Hd1 : Rabs d <= Rabs r / 2.
  Hypothesis H1 : 1 / Mx <= Rabs (r * r - 1).
  Definition loC := loW (ln (r * r)) (ln (d * d)) 0.
  Lemma goodC : goodw wtC lbA dsC lgC (16 * Mx ^ 8) (sqrt (Rabs d)) loC (hiW d r).
  Proof.
    assert (P : 0 < 1 / Mx) by (apply Rdiv_lt_0_compat; lra). assert (r0 : r <> 0) by (intros ->; rewrite Rabs_R0 in Hr; lra). assert (d0 : d <> 0) by (intros ->; rewrite Rabs_R0 in Hd; lra).
    assert (PM : forall n m, (n <= m)%nat -> Mx ^ n <= Mx ^ m) by (intros n m; apply Rle_pow; exact HM).
    assert (B1 : Mx * Mx <= Mx ^ 8) by (pose proof (PM 2%nat 8%nat ltac:(lia)); lra).
    assert (B0 : Mx <= Mx * Mx) by nra. assert (B2 : 1 <= Mx * Mx) by nra.
    assert (T1 : forall a b : R, Rabs (a + b) <= Rabs a + Rabs b) by apply Rabs_triang. pose proof Rabs_R1 as R1. assert (Rm : Rabs (-1) = 1) by (rewrite Rabs_left; lra).
    pose proof (sqrt_lt_R0 (Rabs d) (proj1 Hd)) as S0. pose proof (sqrt_sqrt (Rabs d) (Rlt_le _ _ (proj1 Hd))) as S1.
    assert (i1 : inB (2 * (Mx * Mx)) (r * r - 1)).
    { apply inB_two with Mx; try lra. replace (r * r - 1) with (r * r + -1) by ring. pose proof (T1 (r * r) (-1)) as X. rewrite Rabs_mult in X. pose proof (Rabs_pos r). nra. }
    assert (i2 : inB 2 (d * d - 1)).
    { unfold inB. pose proof (Rabs_sq d). rewrite Rabs_left; nra. }
    assert (HL : 1 / (2 * Mx) <= Rabs r / 2) by (replace (1 / (2 * Mx)) with (1 / Mx / 2) by (field; lra); lra).
    assert (i3 : inB (2 * Mx) (d - r)).
    { split.
      - pose proof (T1 (d - r) (- d)) as X. rewrite Rabs_Ropp in X. replace (d - r + - d) with (- r) in X by ring. rewrite Rabs_Ropp in X. lra.
      - pose proof (T1 d (- r)) as X. rewrite Rabs_Ropp in X. unfold Rminus. lra. }
    assert (i4 : inB (2 * Mx) (d + r)).
    { split.
      - pose proof (T1 (d + r) (- d)) as X. rewrite Rabs_Ropp in X. replace (d + r + - d) with r in X by ring. lra.
      - pose proof (T1 d r) as X. lra. }
    constructor.
    - reflexivity.
    - apply hiW_nz; assumption.
    - unfold dsC, numb. repeat apply Forall_cons; try apply Forall_nil; cbn [fst snd].
      + change (wtC 102) with 0%Z. apply den_ok with (c := 2 * (Mx * Mx)) (y := r * r - 1); [pev_is|nra|nra|assumption].
      + change (wtC (102 + 1)) with 0%Z. apply den_ok with (c := 2) (y := d * d - 1); [pev_is|lra|lra|assumption].
      + change (wtC (102 + 1 + 1)) with 0%Z. apply den_ok with (c := 2 * Mx) (y := d - r); [pev_is|lra|lra|assumption].
      + change (wtC (102 + 1 + 1 + 1)) with 0%Z. apply den_ok with (c := (2 * Mx) * (2 * Mx)) (y := (d - r) * (d + r)); [pev_is|nra|nra|apply inB_mul; lra || assumption].
    - unfold lgC. repeat apply Forall_cons; try apply Forall_nil; cbn [fst snd].
      + match goal with |- ln ?a = ?b => replace a with (r * r) by (symmetry; lev_is); replace b with (ln (r * r)) by (symmetry; lev_is) end. reflexivity.
      + match goal with |- ln ?a = ?b => replace a with (d * d) by (symmetry; lev_is); replace b with (ln (d * d)) by (symmetry; lev_is) end. reflexivity.
    - unfold loC. apply cases10; [| | |intros v L; rewrite loW_else by assumption].
      + change (wtC 1) with 0%Z. cbn [loW powerRZ]. pose proof (ln_sq_bd r Mx ltac:(lra) (proj1 Hr) (proj2 Hr)). lra.
      + change (wtC 2) with (-1)%Z. cbn [loW]. change (powerRZ (sqrt (Rabs d)) (-1)) with (/ (sqrt (Rabs d) ^ 1)). rewrite pow_1. pose proof (ln_sq_small d ltac:(lra)) as X. unfold Rdiv in X.
        pose proof (Rinv_0_lt_compat _ S0). nra.
      + change (wtC 3) with 0%Z. cbn [loW powerRZ]. rewrite Rabs_R0. lra.
      + rewrite Rabs_R0. apply Rmult_le_pos; [lra|]. apply powerRZ_le. lra.
    - apply cases151; [| |intros v L; rewrite hiW_else, wtC_else by assumption].
      + change (wtC 151) with 2%Z. cbn [hiW]. change (powerRZ (sqrt (Rabs d)) 2) with (sqrt (Rabs d) * (sqrt (Rabs d) * 1)). rewrite Rmult_1_r, S1. nra.
      + change (wtC 152) with 0%Z. cbn [hiW powerRZ]. split; [lra|intros _]. assert (1 <= Mx * Rabs r). { apply Rmult_le_reg_l with (1 / Mx); [assumption|]. replace (1 / Mx * (Mx * Rabs r)) with (Rabs r) by (field; lra). lra. }
        pose proof (Rabs_pos r). nra.
      + rewrite R1. cbn [powerRZ]. lra.
    - intros v L _. apply mid_A. exact L.
  Qed.
End C.
Definition near_zero (Mx r1 r2 : R) : Prop := (1 / Mx <= Rabs r2 <= Mx) /\ (0 < Rabs r1 <= 1 / 2) /\ Rabs r1 <= Rabs r2 / 2 /\ 1 / Mx <= Rabs (r2 * r2 - 1).
Lemma winC n e : bound wtC lbA eC n e = true -> forall Mx, 1 <= Mx -> exists C, 0 <= C /\
  forall r1 r2, near_zero Mx r1 r2 -> Rabs (revW r1 r2 e) <= C * powerRZ (sqrt (Rabs r1)) n.
Proof.
  intros Hb Mx HM. destruct (wbound wtC lbA (lm2 lD lR) dsC lgC g1 g2 g3 n e eq_refl Hb (16 * Mx ^ 8) (B16 Mx HM)) as (C & HC & K).
  exists C. split; [exact HC|]. intros d r (Hr & Hd & Hd1 & H1).
  specialize (K (sqrt (Rabs d)) (loC r d) (hiW d r)). rewrite <- (revW_ext (loC r d) (hiW d r) lD lR d r e); [apply K| |].
  - split; [apply sqrt_lt_R0; lra|]. rewrite <- sqrt_1. apply sqrt_le_1_alt. lra.
  - apply goodC; assumption.
  - lev_is.
  - lev_is.
Qed.
