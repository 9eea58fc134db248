(** * Second derivatives of the effective potential (C61) *)
From Coq Require Import Reals Lra Lia List.
From Coquelicot Require Import Coquelicot.
From Verif Require Import PotSpec.
Open Scope R_scope.

Lemma pos_near (f : R -> R) (x : R) : continuous f x -> 0 < f x -> exists r, 0 < r /\ forall t, Rabs (t - x) < r -> 0 < f t.
Proof.
  intros C H. assert (HB := C (fun y => 0 < y)). assert (HL : locally (f x) (fun y => 0 < y)).
  { exists (mkposreal (f x) H). intros y Hy. change (Rabs (y - f x) < f x) in Hy. apply Rabs_lt_between in Hy. lra. }
  destruct (HB HL) as [[r Hr] Hb]. exists r. split; [exact Hr|]. intros t Ht. apply Hb. exact Ht.
Qed.

(** one eigenvalue, the one that starts at [a] *)
Section Ev.
  Context (a al d de b2 k2 sg : R) (Hsg : sg = 1 \/ sg = -1) (Had : 0 < sg * (a - d)) .
  Let De (t : R) : R := (a + al * t - (d + de * t)) ^ 2 + 4 * (b2 * t + k2 * t ^ 2).
  Let De' (t : R) : R := 2 * (a + al * t - (d + de * t)) * (al - de) + 4 * (b2 + 2 * k2 * t).
  Let E (t : R) : R := (a + al * t + (d + de * t) + sg * sqrt (De t)) / 2.
  Let E' (t : R) : R := (al + de + sg * (De' t / (2 * sqrt (De t)))) / 2.
  Let l1 := b2 / (a - d).
  Let q := 2 * ((k2 - l1 * (al - de + l1)) / (a - d)).

  Lemma Hs : sg ^ 2 = 1.
  Proof. destruct Hsg as [-> | ->]; ring. Qed.
  Lemma had : a - d <> 0.
  Proof. intros H. rewrite H in Had. lra. Qed.
  Lemma De0 : sqrt (De 0) = sg * (a - d).
  Proof. unfold De. replace ((a + al * 0 - (d + de * 0)) ^ 2 + 4 * (b2 * 0 + k2 * 0 ^ 2)) with ((sg * (a - d)) ^ 2).
    - apply sqrt_pow2. lra.
    - replace ((sg * (a - d)) ^ 2) with (sg ^ 2 * (a - d) ^ 2) by ring. rewrite Hs. ring. Qed.
  Lemma E0 : E 0 = a.
  Proof. unfold E. rewrite De0. replace (sg * (sg * (a - d))) with (sg ^ 2 * (a - d)) by ring. rewrite Hs. lra. Qed.
  Lemma De_pos0 : 0 < De 0.
  Proof. unfold De. replace ((a + al * 0 - (d + de * 0)) ^ 2 + 4 * (b2 * 0 + k2 * 0 ^ 2)) with ((sg * (a - d)) ^ 2).
    - apply pow_lt. exact Had.
    - replace ((sg * (a - d)) ^ 2) with (sg ^ 2 * (a - d) ^ 2) by ring. rewrite Hs. ring. Qed.
  Lemma E_derive t : 0 < De t -> is_derive E t (E' t).
  Proof.
    intros H. unfold E, E'. unfold De at 1. auto_derive.
    - unfold De in H. match goal with |- 0 < ?X => replace X with ((a + al * t - (d + de * t)) ^ 2 + 4 * (b2 * t + k2 * t ^ 2)) by ring end. exact H.
    - unfold De', De. match goal with |- context [sqrt ?X] => replace X with (De t) by (unfold De; ring) end.
      match goal with |- context [sqrt ((a + al * t - (d + de * t)) ^ 2 + ?Y)] => change (sqrt ((a + al * t - (d + de * t)) ^ 2 + Y)) with (sqrt (De t)) end.
      assert (sqrt (De t) <> 0) by (apply Rgt_not_eq, sqrt_lt_R0; exact H). field. assumption.
  Qed.
  Lemma E0' : E' 0 = al + l1.
  Proof.
    unfold E', De', l1. rewrite De0. assert (H := had). assert (sg <> 0) by (destruct Hsg as [-> | ->]; lra).
    replace (sg * ((2 * (a + al * 0 - (d + de * 0)) * (al - de) + 4 * (b2 + 2 * k2 * 0)) / (2 * (sg * (a - d))))) with (((a - d) * (al - de) + 2 * b2) / (a - d)) by (field; auto).
    field. exact H.
  Qed.
  Lemma E_derive2 : is_derive E' 0 q.
  Proof.
    assert (HD := De_pos0). assert (HS := De0). assert (H := had). assert (sg <> 0) by (destruct Hsg as [-> | ->]; lra).
    unfold E', De', De. auto_derive.
    - assert (EQ : (a + al * 0 + - (d + de * 0)) * ((a + al * 0 + - (d + de * 0)) * 1) + 4 * (b2 * 0 + k2 * (0 * (0 * 1))) = De 0) by (unfold De; ring).
      rewrite EQ, HS. split; [exact HD|]. split; [|exact I]. apply Rmult_integral_contrapositive; split; [lra|apply Rmult_integral_contrapositive; auto].
    - assert (EQ : (a + al * 0 + - (d + de * 0)) * ((a + al * 0 + - (d + de * 0)) * 1) + 4 * (b2 * 0 + k2 * (0 * (0 * 1))) = De 0) by (unfold De; ring).
      rewrite EQ, HS. unfold q, l1. clear - Hsg H. destruct Hsg as [-> | ->]; field; exact H.
  Qed.

  Context (Q2 : R) (HQ : 0 < Q2) (Ha : 0 < a).
  Lemma cw_derive x : 0 < x -> is_derive (cw Q2) x (2 * x * ln (x / Q2) - 2 * x).
  Proof. intros H. unfold cw. auto_derive; [apply Rdiv_lt_0_compat; assumption|]. change (x * / Q2) with (x / Q2). field. split; lra. Qed.
  Lemma cw_derive2 x : 0 < x -> is_derive (fun x => (2 * x * ln (x / Q2) - 2 * x : R)) x (2 * ln (x / Q2)).
  Proof. intros H. auto_derive; [apply Rdiv_lt_0_compat; assumption|]. change (x * / Q2) with (x / Q2). field. split; lra. Qed.

  Lemma ev_second : exists (V' : R -> R) (r : R), 0 < r /\ (forall t, Rabs t < r -> is_derive (fun t => cw Q2 (E t)) t (V' t)) /\
    is_derive V' 0 (2 * ln (a / Q2) * (al + l1) ^ 2 + (2 * a * ln (a / Q2) - 2 * a) * q).
  Proof.
    assert (CD : continuous De 0). { apply (ex_derive_continuous De). unfold De. auto_derive. exact I. }
    destruct (pos_near De 0 CD De_pos0) as (r1 & Hr1 & P1).
    assert (CE : continuous E 0). { apply (ex_derive_continuous E). eexists. apply E_derive, De_pos0. }
    assert (PE : 0 < E 0) by (rewrite E0; exact Ha). destruct (pos_near E 0 CE PE) as (r2 & Hr2 & P2).
    exists (fun t => ((2 * E t * ln (E t / Q2) - 2 * E t) * E' t : R)), (Rmin r1 r2). split; [apply Rmin_pos; assumption|]. split.
    - intros t Ht. assert (X1 := Rmin_l r1 r2). assert (X2 := Rmin_r r1 r2).
      assert (Y1 : 0 < De t) by (apply P1; replace (t - 0) with t by ring; lra). assert (Y2 : 0 < E t) by (apply P2; replace (t - 0) with t by ring; lra).
      assert (HC := is_derive_comp (cw Q2) E t _ _ (cw_derive (E t) Y2) (E_derive t Y1)).
      replace ((2 * E t * ln (E t / Q2) - 2 * E t) * E' t) with (scal (E' t) (2 * E t * ln (E t / Q2) - 2 * E t)) by (unfold scal; simpl; unfold mult; simpl; ring).
      exact HC.
    - assert (H1 := is_derive_comp (fun x => (2 * x * ln (x / Q2) - 2 * x : R)) E 0 _ _ (cw_derive2 (E 0) PE) (E_derive 0 De_pos0)).
      assert (H2 := is_derive_mult (fun t => (2 * E t * ln (E t / Q2) - 2 * E t : R)) E' 0 _ _ H1 E_derive2 Rmult_comm).
      match type of H2 with is_derive _ _ ?X => replace (2 * ln (a / Q2) * (al + l1) ^ 2 + (2 * a * ln (a / Q2) - 2 * a) * q) with X end.
      + exact H2.
      + unfold plus, mult, scal; simpl; unfold mult; simpl. rewrite E0, E0'. ring.
  Qed.
End Ev.

Lemma sd_ext (V W : R -> R) (s : R) : (exists r, 0 < r /\ forall t, Rabs t < r -> W t = V t) -> second_derivative V s -> second_derivative W s.
Proof.
  intros (r & Hr & HE) (V' & r' & Hr' & HV & H2). exists V', (Rmin r r'). split; [apply Rmin_pos; assumption|]. split; [|exact H2].
  intros t Ht. assert (X1 := Rmin_l r r'). assert (X2 := Rmin_r r r'). apply (is_derive_ext_loc V W).
  - assert (P : 0 < r - Rabs t) by lra. exists (mkposreal _ P). intros y Hy. change (Rabs (y - t) < r - Rabs t) in Hy.
    symmetry. apply HE. replace y with ((y - t) + t) by ring. eapply Rle_lt_trans; [apply Rabs_triang|]. lra.
  - apply HV. lra.
Qed.
Lemma sd_plus (V W : R -> R) (s u : R) : second_derivative V s -> second_derivative W u -> second_derivative (fun t => (V t + W t : R)) (s + u).
Proof.
  intros (V' & r & Hr & HV & H2) (W' & r' & Hr' & HW & H2'). exists (fun t => (V' t + W' t : R)), (Rmin r r'). split; [apply Rmin_pos; assumption|]. split.
  - intros t Ht. assert (X1 := Rmin_l r r'). assert (X2 := Rmin_r r r'). apply (is_derive_plus (V := R_NormedModule) V W); [apply HV|apply HW]; lra.
  - apply (is_derive_plus (V := R_NormedModule) V' W'); assumption.
Qed.
Lemma sd_scal (V : R -> R) (s k : R) : second_derivative V s -> second_derivative (fun t => (k * V t : R)) (k * s).
Proof.
  intros (V' & r & Hr & HV & H2). exists (fun t => (k * V' t : R)), r. split; [exact Hr|]. split.
  - intros t Ht. apply is_derive_scal. apply HV, Ht.
  - apply is_derive_scal. exact H2.
Qed.
Lemma sd_unique (V : R -> R) (s u : R) : second_derivative V s -> second_derivative V u -> s = u.
Proof.
  intros (V' & r & Hr & HV & H2) (W' & r' & Hr' & HW & H2').
  assert (H3 : is_derive V' 0 u).
  { apply (is_derive_ext_loc W' V'); [|exact H2']. assert (P : 0 < Rmin r r') by (apply Rmin_pos; assumption). exists (mkposreal _ P). intros y Hy.
    change (Rabs (y - 0) < Rmin r r') in Hy. assert (X1 := Rmin_l r r'). assert (X2 := Rmin_r r r'). rewrite Rminus_0_r in Hy.
    assert (A := is_derive_unique _ _ _ (HV y ltac:(lra))). assert (B := is_derive_unique _ _ _ (HW y ltac:(lra))). rewrite <- A, <- B. reflexivity. }
  assert (A := is_derive_unique _ _ _ H2). assert (B := is_derive_unique _ _ _ H3). rewrite <- A, <- B. reflexivity.
Qed.

(** contribution of the eigenvalue that starts at [a] *)
Definition ev2 (Q2 a al d de b2 k2 : R) : R :=
  2 * ln (a / Q2) * (al + b2 / (a - d)) ^ 2 + (2 * a * ln (a / Q2) - 2 * a) * (2 * ((k2 - b2 / (a - d) * (al - de + b2 / (a - d))) / (a - d))).
Lemma sd_pair Q2 a al d de b2 : 0 < Q2 -> 0 < a -> 0 < d -> a <> d ->
  second_derivative (fun t => (cw Q2 (ev_plus (a + al * t) (b2 * t) (d + de * t)) + cw Q2 (ev_minus (a + al * t) (b2 * t) (d + de * t)) : R))
    (ev2 Q2 a al d de b2 0 + ev2 Q2 d de a al b2 0).
Proof.
  intros HQ Ha Hd N.
  assert (HEQ : forall t, ((a + al * t - (d + de * t)) ^ 2 + 4 * (b2 * t)) = (a + al * t - (d + de * t)) ^ 2 + 4 * (b2 * t + 0 * t ^ 2)) by (intros; ring).
  assert (HEQ' : forall t, ((a + al * t - (d + de * t)) ^ 2 + 4 * (b2 * t)) = (d + de * t - (a + al * t)) ^ 2 + 4 * (b2 * t + 0 * t ^ 2)) by (intros; ring).
  destruct (Rlt_or_le d a) as [L|L].
  - assert (A := ev_second a al d de b2 0 1 (or_introl eq_refl) ltac:(lra) Q2 HQ Ha).
    assert (B := ev_second d de a al b2 0 (-1) (or_intror eq_refl) ltac:(lra) Q2 HQ Hd).
    eapply sd_ext; [|exact (sd_plus _ _ _ _ A B)]. exists 1. split; [lra|]. intros t _. unfold ev_plus, ev_minus.
    f_equal; f_equal; [rewrite HEQ|rewrite HEQ']; unfold Rdiv; ring.
  - assert (A := ev_second a al d de b2 0 (-1) (or_intror eq_refl) ltac:(lra) Q2 HQ Ha).
    assert (B := ev_second d de a al b2 0 1 (or_introl eq_refl) ltac:(lra) Q2 HQ Hd).
    eapply sd_ext; [|exact (sd_plus _ _ _ _ A B)]. exists 1. split; [lra|]. intros t _. unfold ev_plus, ev_minus.
    rewrite Rplus_comm. f_equal; f_equal; [rewrite HEQ|rewrite HEQ']; unfold Rdiv; ring.
Qed.
Lemma sd_single Q2 a al : 0 < Q2 -> 0 < a -> second_derivative (fun t => (cw Q2 (a + al * t) : R)) (2 * ln (a / Q2) * al ^ 2).
Proof.
  intros HQ Ha. assert (A := ev_second a al 0 al 0 0 1 (or_introl eq_refl) ltac:(lra) Q2 HQ Ha).
  replace (2 * ln (a / Q2) * al ^ 2) with (2 * ln (a / Q2) * (al + 0 / (a - 0)) ^ 2 + (2 * a * ln (a / Q2) - 2 * a) * (2 * ((0 - 0 / (a - 0) * (al - al + 0 / (a - 0))) / (a - 0)))) by (field; lra).
  eapply sd_ext; [|exact A]. exists 1. split; [lra|]. intros t _. f_equal.
  replace ((a + al * t - (0 + al * t)) ^ 2 + 4 * (0 * t + 0 * t ^ 2)) with (a ^ 2) by ring. rewrite sqrt_pow2 by lra. field.
Qed.
Lemma sd_heavy Q2 M2 zl zh zm : 0 < Q2 -> 0 < M2 -> second_derivative (fun t => (cw Q2 (heavy_mass M2 zl zh zm t) : R)) (ev2 Q2 M2 zh 0 zl 0 (zm ^ 2)).
Proof.
  intros HQ HM. assert (A := ev_second M2 zh 0 zl 0 (zm ^ 2) 1 (or_introl eq_refl) ltac:(lra) Q2 HQ HM).
  eapply sd_ext; [|exact A]. exists 1. split; [lra|]. intros t _. unfold heavy_mass, ev_plus. f_equal.
  replace ((M2 + zh * t - zl * t) ^ 2 + 4 * (zm * t) ^ 2) with ((M2 + zh * t - (0 + zl * t)) ^ 2 + 4 * (0 * t + zm ^ 2 * t ^ 2)) by ring. unfold Rdiv; ring.
Qed.

(** ** Field renormalisation integral *)
Lemma wfr_value a d : 0 < a -> 0 < d -> a <> d -> wfr a d = (a ^ 2 - d ^ 2 - 2 * a * d * ln (a / d)) / (2 * (a - d) ^ 3).
Proof.
  intros Ha Hd N. unfold wfr. assert (N' : a - d <> 0) by lra.
  set (F := fun x : R => ((a + d) * (x * a + (1 - x) * d) - (x * a + (1 - x) * d) ^ 2 / 2 - a * d * ln (x * a + (1 - x) * d)) / (a - d) ^ 3).
  assert (P : forall x, 0 <= x <= 1 -> 0 < x * a + (1 - x) * d).
  { intros x Hx. destruct (Rlt_or_le 0 x); [assert (0 < x * a) by (apply Rmult_lt_0_compat; lra); assert (0 <= (1 - x) * d) by (apply Rmult_le_pos; lra); lra|]. replace x with 0 by lra. lra. }
  assert (HI : is_RInt (fun x => x * (1 - x) / (x * a + (1 - x) * d)) 0 1 (F 1 - F 0)).
  { apply (is_RInt_derive F).
    - intros x Hx. rewrite Rmin_left, Rmax_right in Hx by lra. specialize (P x Hx). unfold F. auto_derive.
      + replace (1 + - x) with (1 - x) by ring. exact P.
      + replace (1 + - x) with (1 - x) by ring. field. split; [lra|exact N'].
    - intros x Hx. rewrite Rmin_left, Rmax_right in Hx by lra. specialize (P x Hx).
      apply (ex_derive_continuous (fun x => x * (1 - x) / (x * a + (1 - x) * d))). auto_derive. replace (1 + - x) with (1 - x) by ring. lra. }
  rewrite (is_RInt_unique _ _ _ _ HI). unfold F. replace (1 * a + (1 - 1) * d) with a by ring. replace (0 * a + (1 - 0) * d) with d by ring.
  rewrite ln_div by assumption. field. exact N'.
Qed.
