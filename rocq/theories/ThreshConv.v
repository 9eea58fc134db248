(** * Scheme conversion of the threshold corrections (C32) *)
From Coq Require Import Reals ZArith Bool List Lra Psatz.
From Verif Require Import Num NumFacts Except Params HierFormulas LoopFun Thresh ThreshTwo Threshold ThreshSpec.
Open Scope R_scope.

(** f(h) = a + b h + c h^2 + O(h^3) on |h| <= 1 *)
Definition ser3 (f : R -> R) (a b c : R) : Prop := exists K, forall h, Rabs h <= 1 -> Rabs (f h - (a + b * h + c * h^2)) <= K * Rabs h ^ 3.

Lemma abs1 h : Rabs h <= 1 -> 0 <= Rabs h /\ Rabs h ^ 3 <= Rabs h ^ 2 /\ Rabs h ^ 2 <= Rabs h /\ Rabs h ^ 3 <= 1 /\ 0 <= Rabs h ^ 3.
Proof. intros. pose proof (Rabs_pos h). repeat split; simpl; nra. Qed.
Lemma ser3_ext f g a b c : (forall h, f h = g h) -> ser3 g a b c -> ser3 f a b c.
Proof. intros E [K H]. exists K. intros h Hh. rewrite E. apply H, Hh. Qed.
Lemma ser3_const k : ser3 (fun _ => k) k 0 0.
Proof. exists 0. intros. replace (k - _) with 0 by ring. rewrite Rabs_R0. nra. Qed.
Lemma ser3_id : ser3 (fun h => h) 0 1 0.
Proof. exists 0. intros. replace (_ - _) with 0 by ring. rewrite Rabs_R0. nra. Qed.
Lemma ser3_add f g a b c a' b' c' : ser3 f a b c -> ser3 g a' b' c' -> ser3 (fun h => f h + g h) (a + a') (b + b') (c + c').
Proof.
  intros [K H] [K' H']. exists (K + K'). intros h Hh. specialize (H h Hh). specialize (H' h Hh).
  replace (f h + g h - _) with ((f h - (a + b * h + c * h^2)) + (g h - (a' + b' * h + c' * h^2))) by ring.
  eapply Rle_trans; [apply Rabs_triang|]. lra.
Qed.
Lemma ser3_mul f g a b c a' b' c' : ser3 f a b c -> ser3 g a' b' c' ->
  ser3 (fun h => f h * g h) (a * a') (a * b' + b * a') (a * c' + b * b' + c * a').
Proof.
  intros [K H] [K' H'].
  assert (K0 : 0 <= K). { specialize (H 1). rewrite Rabs_R1 in H. specialize (H ltac:(lra)). pose proof (Rabs_pos (f 1 - (a + b * 1 + c * 1 ^ 2))). lra. }
  assert (K1 : 0 <= K'). { specialize (H' 1). rewrite Rabs_R1 in H'. specialize (H' ltac:(lra)). pose proof (Rabs_pos (g 1 - (a' + b' * 1 + c' * 1 ^ 2))). lra. }
  set (A := Rabs a + Rabs b + Rabs c). set (B := Rabs a' + Rabs b' + Rabs c').
  exists (Rabs (b * c' + c * b') + Rabs (c * c') + K * (B + K') + A * K').
  intros h Hh. specialize (H h Hh). specialize (H' h Hh).
  set (P := a + b * h + c * h^2) in *. set (P' := a' + b' * h + c' * h^2) in *.
  destruct (abs1 h Hh) as (h0 & h1 & h2 & h3 & h4).
  assert (HP : Rabs P <= A).
  { unfold P, A. eapply Rle_trans; [apply Rabs_triang|]. eapply Rle_trans; [apply Rplus_le_compat_r, Rabs_triang|].
    rewrite !Rabs_mult. rewrite <- RPow_abs. pose proof (Rabs_pos a). pose proof (Rabs_pos b). pose proof (Rabs_pos c). nra. }
  assert (HP' : Rabs P' <= B).
  { unfold P', B. eapply Rle_trans; [apply Rabs_triang|]. eapply Rle_trans; [apply Rplus_le_compat_r, Rabs_triang|].
    rewrite !Rabs_mult. rewrite <- RPow_abs. pose proof (Rabs_pos a'). pose proof (Rabs_pos b'). pose proof (Rabs_pos c'). nra. }
  assert (Hg : Rabs (g h) <= B + K').
  { replace (g h) with (P' + (g h - P')) by ring. eapply Rle_trans; [apply Rabs_triang|]. nra. }
  replace (f h * g h - _) with (((b * c' + c * b') * h^3 + (c * c') * h * h^3) + ((f h - P) * g h + P * (g h - P'))) by (unfold P, P'; ring).
  eapply Rle_trans; [apply Rabs_triang|]. 
  assert (E1 : Rabs ((b * c' + c * b') * h ^ 3 + c * c' * h * h ^ 3) <= (Rabs (b * c' + c * b') + Rabs (c * c')) * Rabs h ^ 3).
  { eapply Rle_trans; [apply Rabs_triang|]. rewrite (Rabs_mult _ (h^3)), (Rabs_mult _ (h^3)), (Rabs_mult (c * c') h), <- RPow_abs.
    pose proof (Rabs_pos (c * c')) as Hcc.
    assert (Rabs (c * c') * Rabs h <= Rabs (c * c')) by nra.
    assert (Rabs (c * c') * Rabs h * Rabs h ^ 3 <= Rabs (c * c') * Rabs h ^ 3) by (apply Rmult_le_compat_r; lra).
    lra. }
  assert (E2 : Rabs ((f h - P) * g h + P * (g h - P')) <= (K * (B + K') + A * K') * Rabs h ^ 3).
  { eapply Rle_trans; [apply Rabs_triang|]. rewrite !Rabs_mult.
    pose proof (Rabs_pos (g h)). pose proof (Rabs_pos (f h - P)). pose proof (Rabs_pos (g h - P')). pose proof (Rabs_pos P).
    assert (Rabs (f h - P) * Rabs (g h) <= K * Rabs h ^ 3 * (B + K')) by (apply Rmult_le_compat; lra).
    assert (Rabs P * Rabs (g h - P') <= A * (K' * Rabs h ^ 3)) by (apply Rmult_le_compat; lra). lra. }
  lra.
Qed.
Lemma ser3_agree f g a b c a' b' c' : ser3 f a b c -> ser3 g a' b' c' -> a = a' -> b = b' -> c = c' -> agree_h2 f g.
Proof.
  intros [K H] [K' H'] <- <- <-. exists (K + K'). intros h Hh. specialize (H h Hh). specialize (H' h Hh).
  replace (f h - g h) with ((f h - (a + b * h + c * h^2)) + - (g h - (a + b * h + c * h^2))) by ring.
  eapply Rle_trans; [apply Rabs_triang|]. rewrite Rabs_Ropp. lra.
Qed.
Lemma ser3_poly k : forall a b c, ser3 (fun h => k * (a + b * h + c * h^2)) (k * a) (k * b) (k * c).
Proof. intros. exists 0. intros. replace (_ - _) with 0 by ring. rewrite Rabs_R0. nra. Qed.
Lemma ser3_poly' a b c : ser3 (fun h => a + b * h + c * h^2) a b c.
Proof. intros. exists 0. intros. replace (_ - _) with 0 by ring. rewrite Rabs_R0. nra. Qed.

(** values of one calculator in two schemes *)
Definition val (c : TC R) (o : tco) (s : scheme) (l : Z) (x : R) : Prop := getThresholdCorrection c o s l = Ok x.

Lemma ok_inj {A} (x y : A) : Ok x = Ok y -> x = y. Proof. congruence. Qed.

(** The y_t conversion to the DR' scheme is the inverse of the raw one, re-expressed in the converted g3 *)
Lemma yt_inverse c l a b g a' b' : val c YT_AS S_TEST l a -> val c YT_AS2 S_TEST l b -> val c G3_AS S_TEST l g ->
  val c YT_AS S_DRBARPRIME l a' -> val c YT_AS2 S_DRBARPRIME l b' ->
  a' = - a /\ b' = 2 * g * a + a^2 - b.
Proof.
  unfold val, getThresholdCorrection. intros Ha Hb Hg Ha' Hb'.
  destruct (getDeltaYtAlphas (tc_p c) _ l) as [y|e]; cbn [bind] in *; [|discriminate].
  destruct (getDeltaYtAlphas2 (tc_p c) _ _ l) as [y2|e]; cbn [bind] in *; [|discriminate].
  apply ok_inj in Ha, Hb, Hg, Ha', Hb'. subst. split; [reflexivity|]. unfold pow2. unR. ring.
Qed.

Theorem yt_conversion c l a b g a' b' : val c YT_AS S_TEST l a -> val c YT_AS2 S_TEST l b -> val c G3_AS S_TEST l g ->
  val c YT_AS S_DRBARPRIME l a' -> val c YT_AS2 S_DRBARPRIME l b' ->
  agree_h2 (fun h => (1 + a * h + b * h^2) * (let h' := h * (1 + g * h)^2 in 1 + a' * h' + b' * h'^2)) (fun _ => 1).
Proof.
  intros Ha Hb Hg Ha' Hb'. destruct (yt_inverse _ _ _ _ _ _ _ Ha Hb Hg Ha' Hb') as [E1 E2].
  assert (H1 : ser3 (fun h => 1 + g * h) 1 g 0) by (apply (ser3_ext _ (fun h => 1 + g * h + 0 * h^2)); [intros; ring | apply ser3_poly']).
  assert (Hh : ser3 (fun h => h * (1 + g * h)^2) (0 * (1 * 1)) (0 * (1 * g + g * 1) + 1 * (1 * 1)) (0 * (1 * 0 + g * g + 0 * 1) + 1 * (1 * g + g * 1) + 0 * (1 * 1))).
  { apply (ser3_ext _ (fun h => h * ((1 + g * h) * (1 + g * h)))); [intros; ring|].
    exact (ser3_mul _ _ _ _ _ _ _ _ ser3_id (ser3_mul _ _ _ _ _ _ _ _ H1 H1)). }
  pose proof (ser3_mul _ _ _ _ _ _ _ _ Hh Hh) as Hh2.
  pose proof (ser3_mul _ _ _ _ _ _ _ _ (ser3_const a') Hh) as T1.
  pose proof (ser3_mul _ _ _ _ _ _ _ _ (ser3_const b') Hh2) as T2.
  pose proof (ser3_add _ _ _ _ _ _ _ _ (ser3_add _ _ _ _ _ _ _ _ (ser3_const 1) T1) T2) as T3.
  pose proof (ser3_mul _ _ _ _ _ _ _ _ (ser3_poly' 1 a b) T3) as T4.
  eapply ser3_agree; [| apply ser3_const | | |].
  - eapply ser3_ext; [|exact T4]. intros h. cbv zeta beta. ring.
  - rewrite E1, E2. ring.
  - rewrite E1, E2. ring.
  - rewrite E1, E2. ring.
Qed.

Theorem lambda_conversion c l L1 L2 L3 M1 M2 M3 a' b' g' :
  val c LAMBDA_AT S_TEST l L1 -> val c LAMBDA_AT_AS S_TEST l L2 -> val c LAMBDA_AT_AS2 S_TEST l L3 ->
  val c LAMBDA_AT S_DRBARPRIME l M1 -> val c LAMBDA_AT_AS S_DRBARPRIME l M2 -> val c LAMBDA_AT_AS2 S_DRBARPRIME l M3 ->
  val c YT_AS S_DRBARPRIME l a' -> val c YT_AS2 S_DRBARPRIME l b' -> val c G3_AS S_DRBARPRIME l g' ->
  agree_h2
    (fun h => (1 + a' * h + b' * h^2)^4 * (let h' := h * (1 + g' * h)^2 in L1 + L2 * h' + L3 * h'^2))
    (fun h => M1 + M2 * h + M3 * h^2).
Proof.
  intros H1 H2 H3 K1 K2 K3 Ka Kb Kg.
  assert (E : M1 = L1 /\ M2 = L2 + 4 * a' * L1 /\ M3 = L3 + L2 * (2 * g' + 4 * a') + L1 * (4 * b' + 6 * a'^2)).
  { unfold val, getThresholdCorrection in *.
    destruct (getDeltaYtAlphas (tc_p c) _ l) as [y|e]; cbn [bind] in *; [|discriminate].
    destruct (getDeltaYtAlphas2 (tc_p c) _ _ l) as [y2|e]; cbn [bind] in *; [|discriminate].
    destruct (getDeltaLambdaAlphat (tc_p c) _ l) as [x1|e]; cbn [bind] in *; [|discriminate].
    destruct (getDeltaLambdaAlphatAlphas (tc_p c) _ l) as [x2|e]; cbn [bind] in *; [|discriminate].
    destruct (getDeltaLambdaAlphatAlphas2 (tc_p c) _ _ _ l) as [x3|e]; cbn [bind] in *; [|discriminate].
    apply ok_inj in H1, H2, H3, K1, K2, K3, Ka, Kb, Kg. subst. unfold pow2. unR. repeat split; ring. }
  destruct E as (E1 & E2 & E3).
  assert (G1 : ser3 (fun h => 1 + g' * h) 1 g' 0) by (apply (ser3_ext _ (fun h => 1 + g' * h + 0 * h^2)); [intros; ring | apply ser3_poly']).
  pose proof (ser3_mul _ _ _ _ _ _ _ _ ser3_id (ser3_mul _ _ _ _ _ _ _ _ G1 G1)) as Hh.
  pose proof (ser3_mul _ _ _ _ _ _ _ _ Hh Hh) as Hh2.
  pose proof (ser3_mul _ _ _ _ _ _ _ _ (ser3_const L2) Hh) as T1.
  pose proof (ser3_mul _ _ _ _ _ _ _ _ (ser3_const L3) Hh2) as T2.
  pose proof (ser3_add _ _ _ _ _ _ _ _ (ser3_add _ _ _ _ _ _ _ _ (ser3_const L1) T1) T2) as T3.
  pose proof (ser3_poly' 1 a' b') as Y1.
  pose proof (ser3_mul _ _ _ _ _ _ _ _ Y1 Y1) as Y2.
  pose proof (ser3_mul _ _ _ _ _ _ _ _ Y2 Y2) as Y4.
  pose proof (ser3_mul _ _ _ _ _ _ _ _ Y4 T3) as T4.
  eapply ser3_agree; [| apply ser3_poly' | | |].
  - eapply ser3_ext; [|exact T4]. intros h. cbv zeta beta. ring.
  - rewrite E1. ring.
  - rewrite E2. ring.
  - rewrite E3. ring.
Qed.

(** orders for which the scheme matters *)
Definition scheme_dependent (o : tco) : bool :=
  match o with G3_AS | YT_AS | YT_AS2 | LAMBDA_AT_AS | LAMBDA_AT_AS2 => true | _ => false end.
Section Generic.
  Context {T : Type} {N : Num T}.
  Lemma scheme_free (c : TC T) o s s' l : scheme_dependent o = false ->
    getThresholdCorrection c o s l = getThresholdCorrection c o s' l.
  Proof. destruct o; try discriminate; reflexivity. Qed.
  Lemma scheme_raw (c : TC T) o s l : s <> S_DRBARPRIME -> getThresholdCorrection c o s l = getThresholdCorrection c o S_TEST l.
  Proof. intros H. destruct s; try congruence; destruct o; cbn [getThresholdCorrection]; try reflexivity;
    match goal with |- bind ?x _ = bind ?x _ => destruct x; reflexivity end. Qed.
  Lemma unknown_order (c : TC T) z s l : getThresholdCorrection c (tco_other z) s l = Ok (nint 0).
  Proof. reflexivity. Qed.
End Generic.
