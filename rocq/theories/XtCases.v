(** * The DR'-to-MSbar conversion as a polynomial in Xt, for each mass limit
    GENERATED by tools/gen_xt3.py; only used in proofs. *)
From Coq Require Import Reals Lra Lia List ZArith Bool String.
From Verif Require Import Num NumFacts Except Params HierFormulas Dilog LoopFun Thresh ThreshTwo Threshold ThreshSpec ThreshProofs PotSpec PropPot2 ThreshViews XtCoef XtIdent XtProofs.
Import ListNotations.
Open Scope R_scope.

Lemma root x : 0 < x -> exists q, 0 < q /\ x = q * q /\ sqrt x = q.
Proof. intros H. exists (sqrt x). split; [apply sqrt_lt_R0; exact H|]. split; [symmetry; apply sqrt_sqrt; lra|reflexivity]. Qed.
Lemma g3_value (c : TC R) o : phys_tc c -> let p := tc_p c in
  getDeltaG3Alphas p (tc_msq2 c) o = g3v (LQ p o) (ln (a22 (mq2 p))) (ln (a22 (mu2 p))) (ln (pow2 (MG p))) (ln (tc_msq2 c)).
Proof.
  intros [(Hm & HQ & _ & _ & _ & _ & HG & HS & _) Hs] p. destruct (Hm (mq2 p)) as (_ & _ & H1); [left; reflexivity|]. destruct (Hm (mu2 p)) as (_ & _ & H2); [right; right; left; reflexivity|].
  fold p in HQ, HG, HS. unfold getDeltaG3Alphas, LQ, g3v, pow2. unR. assert (0 < v0 (MSt p) * v0 (MSt p)) by nra. assert (0 < MG p * MG p) by nra.
  rewrite !(ln_quot _ (v0 (MSt p) * v0 (MSt p))) by assumption. field.
Qed.
Lemma sq_ne a b : a * a <> b * b -> a <> b. Proof. intros H E. apply H. rewrite E. reflexivity. Qed.
Lemma sq_eq a b : 0 < a -> 0 < b -> a * a = b * b -> a = b. Proof. intros Ha Hb E. assert (F : (a - b) * (a + b) = 0) by lra. apply Rmult_integral in F. destruct F; lra. Qed.
Definition free_of_two (l : list R) : Prop := forall a b, In a l -> In b l -> a <> 2 * b.

Section Case_G.
  Context (c : TC R) (HP : phys_tc c) (HL : massLimit3LThreshold (tc_p c) = GENERAL).
  Let p := tc_p c.
  Context (H0 : (a22 (mq2 p)) <> (a22 (mu2 p))) (H1 : (pow2 (MG p)) <> (a22 (mq2 p))) (H2 : (pow2 (MG p)) <> (a22 (mu2 p)))
    (HT : free_of_two [a22 (mq2 p); a22 (mu2 p); pow2 (MG p); tc_msq2 c]).
  Definition co_G (o : Z) : nat -> R := coefs ((fun o => yta_G_0 (a22 (mq2 p)) (a22 (mu2 p)) (pow2 (MG p)) (sqrt (a22 (mq2 p))) (sqrt (a22 (mu2 p))) (sqrt (pow2 (MG p))) (LQ p o)) o)
    ((fun o => yta_G_1 (a22 (mq2 p)) (a22 (mu2 p)) (pow2 (MG p)) (sqrt (a22 (mq2 p))) (sqrt (a22 (mu2 p))) (sqrt (pow2 (MG p))) (LQ p o)) o)
    ((fun o => yta2_G_0 dilog (a22 (mq2 p)) (a22 (mu2 p)) (pow2 (MG p)) (sqrt (a22 (mq2 p))) (sqrt (a22 (mu2 p))) (sqrt (pow2 (MG p))) (tc_msq2 c) (sqrt (tc_msq2 c)) (LQ p o)) o)
    ((fun o => yta2_G_1 dilog (a22 (mq2 p)) (a22 (mu2 p)) (pow2 (MG p)) (sqrt (a22 (mq2 p))) (sqrt (a22 (mu2 p))) (sqrt (pow2 (MG p))) (tc_msq2 c) (sqrt (tc_msq2 c)) (LQ p o)) o)
    ((fun o => yta2_G_2 dilog (a22 (mq2 p)) (a22 (mu2 p)) (pow2 (MG p)) (sqrt (a22 (mq2 p))) (sqrt (a22 (mu2 p))) (sqrt (pow2 (MG p))) (tc_msq2 c) (sqrt (tc_msq2 c)) (LQ p o)) o)
    ((fun o => lat_G_0 (a22 (mq2 p)) (a22 (mu2 p)) (LQ p o)) o)
    ((fun o => lat_G_1 (a22 (mq2 p)) (a22 (mu2 p)) (LQ p o)) o)
    ((fun o => lat_G_2 (a22 (mq2 p)) (a22 (mu2 p)) (LQ p o)) o)
    ((fun o => lat_G_3 (a22 (mq2 p)) (a22 (mu2 p)) (LQ p o)) o)
    ((fun o => lat_G_4 (a22 (mq2 p)) (a22 (mu2 p)) (LQ p o)) o)
    ((fun o => lata_G_0 dilog (a22 (mq2 p)) (a22 (mu2 p)) (pow2 (MG p)) (sqrt (a22 (mq2 p))) (sqrt (a22 (mu2 p))) (sqrt (pow2 (MG p))) (LQ p o)) o)
    ((fun o => lata_G_1 dilog (a22 (mq2 p)) (a22 (mu2 p)) (pow2 (MG p)) (sqrt (a22 (mq2 p))) (sqrt (a22 (mu2 p))) (sqrt (pow2 (MG p))) (LQ p o)) o)
    ((fun o => lata_G_2 dilog (a22 (mq2 p)) (a22 (mu2 p)) (pow2 (MG p)) (sqrt (a22 (mq2 p))) (sqrt (a22 (mu2 p))) (sqrt (pow2 (MG p))) (LQ p o)) o)
    ((fun o => lata_G_3 dilog (a22 (mq2 p)) (a22 (mu2 p)) (pow2 (MG p)) (sqrt (a22 (mq2 p))) (sqrt (a22 (mu2 p))) (sqrt (pow2 (MG p))) (LQ p o)) o)
    ((fun o => lata_G_4 dilog (a22 (mq2 p)) (a22 (mu2 p)) (pow2 (MG p)) (sqrt (a22 (mq2 p))) (sqrt (a22 (mu2 p))) (sqrt (pow2 (MG p))) (LQ p o)) o)
    ((fun o => lata_G_5 dilog (a22 (mq2 p)) (a22 (mu2 p)) (pow2 (MG p)) (sqrt (a22 (mq2 p))) (sqrt (a22 (mu2 p))) (sqrt (pow2 (MG p))) (LQ p o)) o)
    ((fun o => g3v (LQ p o) (ln (a22 (mq2 p))) (ln (a22 (mu2 p))) (ln (pow2 (MG p))) (ln (tc_msq2 c))) o).
  Lemma pos_G : 0 < a22 (mq2 p) /\ 0 < a22 (mu2 p) /\ 0 < MG p /\ 0 < tc_msq2 c.
  Proof. destruct HP as [(Hm & _ & _ & _ & _ & _ & HG & _) Hs]. repeat split; try assumption; apply Hm; simpl; tauto. Qed.
  Lemma id_case_G_4 (o : Z) : (fun o => xtt_G_4 dilog (a22 (mq2 p)) (a22 (mu2 p)) (pow2 (MG p)) (sqrt (a22 (mq2 p))) (sqrt (a22 (mu2 p))) (sqrt (pow2 (MG p))) (tc_msq2 c) (sqrt (tc_msq2 c)) (LQ p o)) o = k4 ((fun o => yta_G_0 (a22 (mq2 p)) (a22 (mu2 p)) (pow2 (MG p)) (sqrt (a22 (mq2 p))) (sqrt (a22 (mu2 p))) (sqrt (pow2 (MG p))) (LQ p o)) o)
    ((fun o => yta_G_1 (a22 (mq2 p)) (a22 (mu2 p)) (pow2 (MG p)) (sqrt (a22 (mq2 p))) (sqrt (a22 (mu2 p))) (sqrt (pow2 (MG p))) (LQ p o)) o)
    ((fun o => yta2_G_0 dilog (a22 (mq2 p)) (a22 (mu2 p)) (pow2 (MG p)) (sqrt (a22 (mq2 p))) (sqrt (a22 (mu2 p))) (sqrt (pow2 (MG p))) (tc_msq2 c) (sqrt (tc_msq2 c)) (LQ p o)) o)
    ((fun o => yta2_G_1 dilog (a22 (mq2 p)) (a22 (mu2 p)) (pow2 (MG p)) (sqrt (a22 (mq2 p))) (sqrt (a22 (mu2 p))) (sqrt (pow2 (MG p))) (tc_msq2 c) (sqrt (tc_msq2 c)) (LQ p o)) o)
    ((fun o => yta2_G_2 dilog (a22 (mq2 p)) (a22 (mu2 p)) (pow2 (MG p)) (sqrt (a22 (mq2 p))) (sqrt (a22 (mu2 p))) (sqrt (pow2 (MG p))) (tc_msq2 c) (sqrt (tc_msq2 c)) (LQ p o)) o)
    ((fun o => lat_G_0 (a22 (mq2 p)) (a22 (mu2 p)) (LQ p o)) o)
    ((fun o => lat_G_1 (a22 (mq2 p)) (a22 (mu2 p)) (LQ p o)) o)
    ((fun o => lat_G_2 (a22 (mq2 p)) (a22 (mu2 p)) (LQ p o)) o)
    ((fun o => lat_G_3 (a22 (mq2 p)) (a22 (mu2 p)) (LQ p o)) o)
    ((fun o => lat_G_4 (a22 (mq2 p)) (a22 (mu2 p)) (LQ p o)) o)
    ((fun o => lata_G_0 dilog (a22 (mq2 p)) (a22 (mu2 p)) (pow2 (MG p)) (sqrt (a22 (mq2 p))) (sqrt (a22 (mu2 p))) (sqrt (pow2 (MG p))) (LQ p o)) o)
    ((fun o => lata_G_1 dilog (a22 (mq2 p)) (a22 (mu2 p)) (pow2 (MG p)) (sqrt (a22 (mq2 p))) (sqrt (a22 (mu2 p))) (sqrt (pow2 (MG p))) (LQ p o)) o)
    ((fun o => lata_G_2 dilog (a22 (mq2 p)) (a22 (mu2 p)) (pow2 (MG p)) (sqrt (a22 (mq2 p))) (sqrt (a22 (mu2 p))) (sqrt (pow2 (MG p))) (LQ p o)) o)
    ((fun o => lata_G_3 dilog (a22 (mq2 p)) (a22 (mu2 p)) (pow2 (MG p)) (sqrt (a22 (mq2 p))) (sqrt (a22 (mu2 p))) (sqrt (pow2 (MG p))) (LQ p o)) o)
    ((fun o => lata_G_4 dilog (a22 (mq2 p)) (a22 (mu2 p)) (pow2 (MG p)) (sqrt (a22 (mq2 p))) (sqrt (a22 (mu2 p))) (sqrt (pow2 (MG p))) (LQ p o)) o)
    ((fun o => lata_G_5 dilog (a22 (mq2 p)) (a22 (mu2 p)) (pow2 (MG p)) (sqrt (a22 (mq2 p))) (sqrt (a22 (mu2 p))) (sqrt (pow2 (MG p))) (LQ p o)) o)
    ((fun o => g3v (LQ p o) (ln (a22 (mq2 p))) (ln (a22 (mu2 p))) (ln (pow2 (MG p))) (ln (tc_msq2 c))) o).
  Proof.
    clear HL. cbv beta. generalize (LQ p o) as L. intros L. destruct pos_G as (P1 & P2 & P3 & P4). clear HP.
    destruct (root _ P1) as (q & Pq & Eq & Sq). destruct (root _ P2) as (u & Pu & Eu & Su). destruct (root _ P4) as (s & Ps & Es & Ss).
    set (m := MG p) in *. assert (Sm : sqrt (pow2 m) = m) by (unfold pow2; unR; apply sqrt_square; lra). assert (Em : pow2 m = m * m) by reflexivity.
    rewrite ?Sq, ?Su, ?Ss, ?Sm, ?Eq, ?Eu, ?Es, ?Em. rewrite ?Eq, ?Eu, ?Es, ?Em in *. clear Sq Su Ss Sm Eq Eu Es Em P1 P2 P4. clearbody m p.
    apply sq_ne in H0.
    apply sq_ne in H1.
    apply sq_ne in H2.
    apply id_G_4; try assumption; try (apply landen_sq; try assumption; apply HT; simpl; tauto).
  Qed.
  Lemma id_case_G_5 (o : Z) : (fun o => xtt_G_5 dilog (a22 (mq2 p)) (a22 (mu2 p)) (pow2 (MG p)) (sqrt (a22 (mq2 p))) (sqrt (a22 (mu2 p))) (sqrt (pow2 (MG p))) (tc_msq2 c) (sqrt (tc_msq2 c)) (LQ p o)) o = k5 ((fun o => yta_G_0 (a22 (mq2 p)) (a22 (mu2 p)) (pow2 (MG p)) (sqrt (a22 (mq2 p))) (sqrt (a22 (mu2 p))) (sqrt (pow2 (MG p))) (LQ p o)) o)
    ((fun o => yta_G_1 (a22 (mq2 p)) (a22 (mu2 p)) (pow2 (MG p)) (sqrt (a22 (mq2 p))) (sqrt (a22 (mu2 p))) (sqrt (pow2 (MG p))) (LQ p o)) o)
    ((fun o => yta2_G_0 dilog (a22 (mq2 p)) (a22 (mu2 p)) (pow2 (MG p)) (sqrt (a22 (mq2 p))) (sqrt (a22 (mu2 p))) (sqrt (pow2 (MG p))) (tc_msq2 c) (sqrt (tc_msq2 c)) (LQ p o)) o)
    ((fun o => yta2_G_1 dilog (a22 (mq2 p)) (a22 (mu2 p)) (pow2 (MG p)) (sqrt (a22 (mq2 p))) (sqrt (a22 (mu2 p))) (sqrt (pow2 (MG p))) (tc_msq2 c) (sqrt (tc_msq2 c)) (LQ p o)) o)
    ((fun o => yta2_G_2 dilog (a22 (mq2 p)) (a22 (mu2 p)) (pow2 (MG p)) (sqrt (a22 (mq2 p))) (sqrt (a22 (mu2 p))) (sqrt (pow2 (MG p))) (tc_msq2 c) (sqrt (tc_msq2 c)) (LQ p o)) o)
    ((fun o => lat_G_0 (a22 (mq2 p)) (a22 (mu2 p)) (LQ p o)) o)
    ((fun o => lat_G_1 (a22 (mq2 p)) (a22 (mu2 p)) (LQ p o)) o)
    ((fun o => lat_G_2 (a22 (mq2 p)) (a22 (mu2 p)) (LQ p o)) o)
    ((fun o => lat_G_3 (a22 (mq2 p)) (a22 (mu2 p)) (LQ p o)) o)
    ((fun o => lat_G_4 (a22 (mq2 p)) (a22 (mu2 p)) (LQ p o)) o)
    ((fun o => lata_G_0 dilog (a22 (mq2 p)) (a22 (mu2 p)) (pow2 (MG p)) (sqrt (a22 (mq2 p))) (sqrt (a22 (mu2 p))) (sqrt (pow2 (MG p))) (LQ p o)) o)
    ((fun o => lata_G_1 dilog (a22 (mq2 p)) (a22 (mu2 p)) (pow2 (MG p)) (sqrt (a22 (mq2 p))) (sqrt (a22 (mu2 p))) (sqrt (pow2 (MG p))) (LQ p o)) o)
    ((fun o => lata_G_2 dilog (a22 (mq2 p)) (a22 (mu2 p)) (pow2 (MG p)) (sqrt (a22 (mq2 p))) (sqrt (a22 (mu2 p))) (sqrt (pow2 (MG p))) (LQ p o)) o)
    ((fun o => lata_G_3 dilog (a22 (mq2 p)) (a22 (mu2 p)) (pow2 (MG p)) (sqrt (a22 (mq2 p))) (sqrt (a22 (mu2 p))) (sqrt (pow2 (MG p))) (LQ p o)) o)
    ((fun o => lata_G_4 dilog (a22 (mq2 p)) (a22 (mu2 p)) (pow2 (MG p)) (sqrt (a22 (mq2 p))) (sqrt (a22 (mu2 p))) (sqrt (pow2 (MG p))) (LQ p o)) o)
    ((fun o => lata_G_5 dilog (a22 (mq2 p)) (a22 (mu2 p)) (pow2 (MG p)) (sqrt (a22 (mq2 p))) (sqrt (a22 (mu2 p))) (sqrt (pow2 (MG p))) (LQ p o)) o)
    ((fun o => g3v (LQ p o) (ln (a22 (mq2 p))) (ln (a22 (mu2 p))) (ln (pow2 (MG p))) (ln (tc_msq2 c))) o).
  Proof.
    clear HL. cbv beta. generalize (LQ p o) as L. intros L. destruct pos_G as (P1 & P2 & P3 & P4). clear HP.
    destruct (root _ P1) as (q & Pq & Eq & Sq). destruct (root _ P2) as (u & Pu & Eu & Su). destruct (root _ P4) as (s & Ps & Es & Ss).
    set (m := MG p) in *. assert (Sm : sqrt (pow2 m) = m) by (unfold pow2; unR; apply sqrt_square; lra). assert (Em : pow2 m = m * m) by reflexivity.
    rewrite ?Sq, ?Su, ?Ss, ?Sm, ?Eq, ?Eu, ?Es, ?Em. rewrite ?Eq, ?Eu, ?Es, ?Em in *. clear Sq Su Ss Sm Eq Eu Es Em P1 P2 P4. clearbody m p.
    apply sq_ne in H0.
    apply sq_ne in H1.
    apply sq_ne in H2.
    apply id_G_5; try assumption; try (apply landen_sq; try assumption; apply HT; simpl; tauto).
  Qed.
  Lemma id_case_G_6 (o : Z) : (fun o => xtt_G_6 dilog (a22 (mq2 p)) (a22 (mu2 p)) (pow2 (MG p)) (sqrt (a22 (mq2 p))) (sqrt (a22 (mu2 p))) (sqrt (pow2 (MG p))) (tc_msq2 c) (sqrt (tc_msq2 c)) (LQ p o)) o = k6 ((fun o => yta_G_0 (a22 (mq2 p)) (a22 (mu2 p)) (pow2 (MG p)) (sqrt (a22 (mq2 p))) (sqrt (a22 (mu2 p))) (sqrt (pow2 (MG p))) (LQ p o)) o)
    ((fun o => yta_G_1 (a22 (mq2 p)) (a22 (mu2 p)) (pow2 (MG p)) (sqrt (a22 (mq2 p))) (sqrt (a22 (mu2 p))) (sqrt (pow2 (MG p))) (LQ p o)) o)
    ((fun o => yta2_G_0 dilog (a22 (mq2 p)) (a22 (mu2 p)) (pow2 (MG p)) (sqrt (a22 (mq2 p))) (sqrt (a22 (mu2 p))) (sqrt (pow2 (MG p))) (tc_msq2 c) (sqrt (tc_msq2 c)) (LQ p o)) o)
    ((fun o => yta2_G_1 dilog (a22 (mq2 p)) (a22 (mu2 p)) (pow2 (MG p)) (sqrt (a22 (mq2 p))) (sqrt (a22 (mu2 p))) (sqrt (pow2 (MG p))) (tc_msq2 c) (sqrt (tc_msq2 c)) (LQ p o)) o)
    ((fun o => yta2_G_2 dilog (a22 (mq2 p)) (a22 (mu2 p)) (pow2 (MG p)) (sqrt (a22 (mq2 p))) (sqrt (a22 (mu2 p))) (sqrt (pow2 (MG p))) (tc_msq2 c) (sqrt (tc_msq2 c)) (LQ p o)) o)
    ((fun o => lat_G_0 (a22 (mq2 p)) (a22 (mu2 p)) (LQ p o)) o)
    ((fun o => lat_G_1 (a22 (mq2 p)) (a22 (mu2 p)) (LQ p o)) o)
    ((fun o => lat_G_2 (a22 (mq2 p)) (a22 (mu2 p)) (LQ p o)) o)
    ((fun o => lat_G_3 (a22 (mq2 p)) (a22 (mu2 p)) (LQ p o)) o)
    ((fun o => lat_G_4 (a22 (mq2 p)) (a22 (mu2 p)) (LQ p o)) o)
    ((fun o => lata_G_0 dilog (a22 (mq2 p)) (a22 (mu2 p)) (pow2 (MG p)) (sqrt (a22 (mq2 p))) (sqrt (a22 (mu2 p))) (sqrt (pow2 (MG p))) (LQ p o)) o)
    ((fun o => lata_G_1 dilog (a22 (mq2 p)) (a22 (mu2 p)) (pow2 (MG p)) (sqrt (a22 (mq2 p))) (sqrt (a22 (mu2 p))) (sqrt (pow2 (MG p))) (LQ p o)) o)
    ((fun o => lata_G_2 dilog (a22 (mq2 p)) (a22 (mu2 p)) (pow2 (MG p)) (sqrt (a22 (mq2 p))) (sqrt (a22 (mu2 p))) (sqrt (pow2 (MG p))) (LQ p o)) o)
    ((fun o => lata_G_3 dilog (a22 (mq2 p)) (a22 (mu2 p)) (pow2 (MG p)) (sqrt (a22 (mq2 p))) (sqrt (a22 (mu2 p))) (sqrt (pow2 (MG p))) (LQ p o)) o)
    ((fun o => lata_G_4 dilog (a22 (mq2 p)) (a22 (mu2 p)) (pow2 (MG p)) (sqrt (a22 (mq2 p))) (sqrt (a22 (mu2 p))) (sqrt (pow2 (MG p))) (LQ p o)) o)
    ((fun o => lata_G_5 dilog (a22 (mq2 p)) (a22 (mu2 p)) (pow2 (MG p)) (sqrt (a22 (mq2 p))) (sqrt (a22 (mu2 p))) (sqrt (pow2 (MG p))) (LQ p o)) o)
    ((fun o => g3v (LQ p o) (ln (a22 (mq2 p))) (ln (a22 (mu2 p))) (ln (pow2 (MG p))) (ln (tc_msq2 c))) o).
  Proof.
    clear HL. cbv beta. generalize (LQ p o) as L. intros L. destruct pos_G as (P1 & P2 & P3 & P4). clear HP.
    destruct (root _ P1) as (q & Pq & Eq & Sq). destruct (root _ P2) as (u & Pu & Eu & Su). destruct (root _ P4) as (s & Ps & Es & Ss).
    set (m := MG p) in *. assert (Sm : sqrt (pow2 m) = m) by (unfold pow2; unR; apply sqrt_square; lra). assert (Em : pow2 m = m * m) by reflexivity.
    rewrite ?Sq, ?Su, ?Ss, ?Sm, ?Eq, ?Eu, ?Es, ?Em. rewrite ?Eq, ?Eu, ?Es, ?Em in *. clear Sq Su Ss Sm Eq Eu Es Em P1 P2 P4. clearbody m p.
    apply sq_ne in H0.
    apply sq_ne in H1.
    apply sq_ne in H2.
    apply id_G_6; try assumption; try (apply landen_sq; try assumption; apply HT; simpl; tauto).
  Qed.
  Lemma case_G A Ab Atau : result (with_trilinears c A Ab Atau) co_G (calcXt (tc_p (with_trilinears c A Ab Atau))).
  Proof.
    set (c' := with_trilinears c A Ab Atau). set (X := calcXt (tc_p c')).
    apply (assemble c' X (fun o => yta_G_0 (a22 (mq2 p)) (a22 (mu2 p)) (pow2 (MG p)) (sqrt (a22 (mq2 p))) (sqrt (a22 (mu2 p))) (sqrt (pow2 (MG p))) (LQ p o))
    (fun o => yta_G_1 (a22 (mq2 p)) (a22 (mu2 p)) (pow2 (MG p)) (sqrt (a22 (mq2 p))) (sqrt (a22 (mu2 p))) (sqrt (pow2 (MG p))) (LQ p o))
    (fun o => yta2_G_0 dilog (a22 (mq2 p)) (a22 (mu2 p)) (pow2 (MG p)) (sqrt (a22 (mq2 p))) (sqrt (a22 (mu2 p))) (sqrt (pow2 (MG p))) (tc_msq2 c) (sqrt (tc_msq2 c)) (LQ p o))
    (fun o => yta2_G_1 dilog (a22 (mq2 p)) (a22 (mu2 p)) (pow2 (MG p)) (sqrt (a22 (mq2 p))) (sqrt (a22 (mu2 p))) (sqrt (pow2 (MG p))) (tc_msq2 c) (sqrt (tc_msq2 c)) (LQ p o))
    (fun o => yta2_G_2 dilog (a22 (mq2 p)) (a22 (mu2 p)) (pow2 (MG p)) (sqrt (a22 (mq2 p))) (sqrt (a22 (mu2 p))) (sqrt (pow2 (MG p))) (tc_msq2 c) (sqrt (tc_msq2 c)) (LQ p o))
    (fun o => lat_G_0 (a22 (mq2 p)) (a22 (mu2 p)) (LQ p o))
    (fun o => lat_G_1 (a22 (mq2 p)) (a22 (mu2 p)) (LQ p o))
    (fun o => lat_G_2 (a22 (mq2 p)) (a22 (mu2 p)) (LQ p o))
    (fun o => lat_G_3 (a22 (mq2 p)) (a22 (mu2 p)) (LQ p o))
    (fun o => lat_G_4 (a22 (mq2 p)) (a22 (mu2 p)) (LQ p o))
    (fun o => lata_G_0 dilog (a22 (mq2 p)) (a22 (mu2 p)) (pow2 (MG p)) (sqrt (a22 (mq2 p))) (sqrt (a22 (mu2 p))) (sqrt (pow2 (MG p))) (LQ p o))
    (fun o => lata_G_1 dilog (a22 (mq2 p)) (a22 (mu2 p)) (pow2 (MG p)) (sqrt (a22 (mq2 p))) (sqrt (a22 (mu2 p))) (sqrt (pow2 (MG p))) (LQ p o))
    (fun o => lata_G_2 dilog (a22 (mq2 p)) (a22 (mu2 p)) (pow2 (MG p)) (sqrt (a22 (mq2 p))) (sqrt (a22 (mu2 p))) (sqrt (pow2 (MG p))) (LQ p o))
    (fun o => lata_G_3 dilog (a22 (mq2 p)) (a22 (mu2 p)) (pow2 (MG p)) (sqrt (a22 (mq2 p))) (sqrt (a22 (mu2 p))) (sqrt (pow2 (MG p))) (LQ p o))
    (fun o => lata_G_4 dilog (a22 (mq2 p)) (a22 (mu2 p)) (pow2 (MG p)) (sqrt (a22 (mq2 p))) (sqrt (a22 (mu2 p))) (sqrt (pow2 (MG p))) (LQ p o))
    (fun o => lata_G_5 dilog (a22 (mq2 p)) (a22 (mu2 p)) (pow2 (MG p)) (sqrt (a22 (mq2 p))) (sqrt (a22 (mu2 p))) (sqrt (pow2 (MG p))) (LQ p o))
    (fun o => g3v (LQ p o) (ln (a22 (mq2 p))) (ln (a22 (mu2 p))) (ln (pow2 (MG p))) (ln (tc_msq2 c)))
    (fun o => xtt_G_4 dilog (a22 (mq2 p)) (a22 (mu2 p)) (pow2 (MG p)) (sqrt (a22 (mq2 p))) (sqrt (a22 (mu2 p))) (sqrt (pow2 (MG p))) (tc_msq2 c) (sqrt (tc_msq2 c)) (LQ p o))
    (fun o => xtt_G_5 dilog (a22 (mq2 p)) (a22 (mu2 p)) (pow2 (MG p)) (sqrt (a22 (mq2 p))) (sqrt (a22 (mu2 p))) (sqrt (pow2 (MG p))) (tc_msq2 c) (sqrt (tc_msq2 c)) (LQ p o))
    (fun o => xtt_G_6 dilog (a22 (mq2 p)) (a22 (mu2 p)) (pow2 (MG p)) (sqrt (a22 (mq2 p))) (sqrt (a22 (mu2 p))) (sqrt (pow2 (MG p))) (tc_msq2 c) (sqrt (tc_msq2 c)) (LQ p o))); intros o; change (massLimit3LThreshold (tc_p c')) with (massLimit3LThreshold p); unfold p at 1; try rewrite HL.
    - eexists. exact (lata2_G_eq (tc_p c') (tc_msq2 c) _ o).
    - exact (g3_value c o HP).
    - exact (eq_trans (yta_G_eq (tc_p c') o) (f_equal Ok (yta_G_poly (a22 (mq2 p)) (a22 (mu2 p)) (pow2 (MG p)) (sqrt (a22 (mq2 p))) (sqrt (a22 (mu2 p))) (sqrt (pow2 (MG p))) X (LQ p o)))).
    - exact (eq_trans (yta2_G_eq (tc_p c') (tc_msq2 c) o) (f_equal Ok (yta2_G_poly dilog (a22 (mq2 p)) (a22 (mu2 p)) (pow2 (MG p)) (sqrt (a22 (mq2 p))) (sqrt (a22 (mu2 p))) (sqrt (pow2 (MG p))) (tc_msq2 c) (sqrt (tc_msq2 c)) X (LQ p o)))).
    - exact (eq_trans (lat_G_eq (tc_p c') o) (f_equal Ok (lat_G_poly (a22 (mq2 p)) (a22 (mu2 p)) X (LQ p o)))).
    - exact (eq_trans (lata_G_eq (tc_p c') o) (f_equal Ok (lata_G_poly dilog (a22 (mq2 p)) (a22 (mu2 p)) (pow2 (MG p)) (sqrt (a22 (mq2 p))) (sqrt (a22 (mu2 p))) (sqrt (pow2 (MG p))) X (LQ p o)))).
    - refine (eq_trans (xtt_G_eq (tc_p c') (tc_msq2 c) 4 o) _). simpl negb. cbv iota. rewrite p4. exact (f_equal Ok (xtt_G_poly dilog (a22 (mq2 p)) (a22 (mu2 p)) (pow2 (MG p)) (sqrt (a22 (mq2 p))) (sqrt (a22 (mu2 p))) (sqrt (pow2 (MG p))) (tc_msq2 c) (sqrt (tc_msq2 c)) (X^4) (0) (0) (LQ p o))).
    - refine (eq_trans (xtt_G_eq (tc_p c') (tc_msq2 c) 5 o) _). simpl negb. cbv iota. rewrite p5. exact (f_equal Ok (xtt_G_poly dilog (a22 (mq2 p)) (a22 (mu2 p)) (pow2 (MG p)) (sqrt (a22 (mq2 p))) (sqrt (a22 (mu2 p))) (sqrt (pow2 (MG p))) (tc_msq2 c) (sqrt (tc_msq2 c)) (0) (X^5) (0) (LQ p o))).
    - refine (eq_trans (xtt_G_eq (tc_p c') (tc_msq2 c) 6 o) _). simpl negb. cbv iota. rewrite p6. exact (f_equal Ok (xtt_G_poly dilog (a22 (mq2 p)) (a22 (mu2 p)) (pow2 (MG p)) (sqrt (a22 (mq2 p))) (sqrt (a22 (mu2 p))) (sqrt (pow2 (MG p))) (tc_msq2 c) (sqrt (tc_msq2 c)) (0) (0) (X^6) (LQ p o))).
    - exact (id_case_G_4 o).
    - exact (id_case_G_5 o).
    - exact (id_case_G_6 o).
  Qed.
End Case_G.

Section Case_QU.
  Context (c : TC R) (HP : phys_tc c) (HL : massLimit3LThreshold (tc_p c) = MQ3_EQ_MU3).
  Let p := tc_p c.
  Context (H0 : (a22 (mu2 p)) = (a22 (mq2 p))) (H1 : (pow2 (MG p)) <> (a22 (mq2 p)))
    (HT : free_of_two [a22 (mq2 p); a22 (mu2 p); pow2 (MG p); tc_msq2 c]).
  Definition co_QU (o : Z) : nat -> R := coefs ((fun o => yta_QU_0 (a22 (mq2 p)) (pow2 (MG p)) (sqrt (a22 (mq2 p))) (sqrt (pow2 (MG p))) (LQ p o)) o)
    ((fun o => yta_QU_1 (a22 (mq2 p)) (pow2 (MG p)) (sqrt (a22 (mq2 p))) (sqrt (pow2 (MG p))) (LQ p o)) o)
    ((fun o => yta2_QU_0 dilog (a22 (mq2 p)) (pow2 (MG p)) (sqrt (a22 (mq2 p))) (sqrt (pow2 (MG p))) (tc_msq2 c) (sqrt (tc_msq2 c)) (LQ p o)) o)
    ((fun o => yta2_QU_1 dilog (a22 (mq2 p)) (pow2 (MG p)) (sqrt (a22 (mq2 p))) (sqrt (pow2 (MG p))) (tc_msq2 c) (sqrt (tc_msq2 c)) (LQ p o)) o)
    ((fun o => yta2_QU_2 dilog (a22 (mq2 p)) (pow2 (MG p)) (sqrt (a22 (mq2 p))) (sqrt (pow2 (MG p))) (tc_msq2 c) (sqrt (tc_msq2 c)) (LQ p o)) o)
    ((fun o => lat_QU_0 (a22 (mq2 p)) (LQ p o)) o)
    ((fun o => lat_QU_1 (a22 (mq2 p)) (LQ p o)) o)
    ((fun o => lat_QU_2 (a22 (mq2 p)) (LQ p o)) o)
    ((fun o => lat_QU_3 (a22 (mq2 p)) (LQ p o)) o)
    ((fun o => lat_QU_4 (a22 (mq2 p)) (LQ p o)) o)
    ((fun o => lata_QU_0 dilog (a22 (mq2 p)) (pow2 (MG p)) (sqrt (a22 (mq2 p))) (sqrt (pow2 (MG p))) (LQ p o)) o)
    ((fun o => lata_QU_1 dilog (a22 (mq2 p)) (pow2 (MG p)) (sqrt (a22 (mq2 p))) (sqrt (pow2 (MG p))) (LQ p o)) o)
    ((fun o => lata_QU_2 dilog (a22 (mq2 p)) (pow2 (MG p)) (sqrt (a22 (mq2 p))) (sqrt (pow2 (MG p))) (LQ p o)) o)
    ((fun o => lata_QU_3 dilog (a22 (mq2 p)) (pow2 (MG p)) (sqrt (a22 (mq2 p))) (sqrt (pow2 (MG p))) (LQ p o)) o)
    ((fun o => lata_QU_4 dilog (a22 (mq2 p)) (pow2 (MG p)) (sqrt (a22 (mq2 p))) (sqrt (pow2 (MG p))) (LQ p o)) o)
    ((fun o => lata_QU_5 dilog (a22 (mq2 p)) (pow2 (MG p)) (sqrt (a22 (mq2 p))) (sqrt (pow2 (MG p))) (LQ p o)) o)
    ((fun o => g3v (LQ p o) (ln (a22 (mq2 p))) (ln (a22 (mu2 p))) (ln (pow2 (MG p))) (ln (tc_msq2 c))) o).
  Lemma pos_QU : 0 < a22 (mq2 p) /\ 0 < a22 (mu2 p) /\ 0 < MG p /\ 0 < tc_msq2 c.
  Proof. destruct HP as [(Hm & _ & _ & _ & _ & _ & HG & _) Hs]. repeat split; try assumption; apply Hm; simpl; tauto. Qed.
  Lemma id_case_QU_4 (o : Z) : (fun o => xtt_QU_4 dilog (a22 (mq2 p)) (pow2 (MG p)) (sqrt (a22 (mq2 p))) (sqrt (pow2 (MG p))) (tc_msq2 c) (sqrt (tc_msq2 c)) (LQ p o)) o = k4 ((fun o => yta_QU_0 (a22 (mq2 p)) (pow2 (MG p)) (sqrt (a22 (mq2 p))) (sqrt (pow2 (MG p))) (LQ p o)) o)
    ((fun o => yta_QU_1 (a22 (mq2 p)) (pow2 (MG p)) (sqrt (a22 (mq2 p))) (sqrt (pow2 (MG p))) (LQ p o)) o)
    ((fun o => yta2_QU_0 dilog (a22 (mq2 p)) (pow2 (MG p)) (sqrt (a22 (mq2 p))) (sqrt (pow2 (MG p))) (tc_msq2 c) (sqrt (tc_msq2 c)) (LQ p o)) o)
    ((fun o => yta2_QU_1 dilog (a22 (mq2 p)) (pow2 (MG p)) (sqrt (a22 (mq2 p))) (sqrt (pow2 (MG p))) (tc_msq2 c) (sqrt (tc_msq2 c)) (LQ p o)) o)
    ((fun o => yta2_QU_2 dilog (a22 (mq2 p)) (pow2 (MG p)) (sqrt (a22 (mq2 p))) (sqrt (pow2 (MG p))) (tc_msq2 c) (sqrt (tc_msq2 c)) (LQ p o)) o)
    ((fun o => lat_QU_0 (a22 (mq2 p)) (LQ p o)) o)
    ((fun o => lat_QU_1 (a22 (mq2 p)) (LQ p o)) o)
    ((fun o => lat_QU_2 (a22 (mq2 p)) (LQ p o)) o)
    ((fun o => lat_QU_3 (a22 (mq2 p)) (LQ p o)) o)
    ((fun o => lat_QU_4 (a22 (mq2 p)) (LQ p o)) o)
    ((fun o => lata_QU_0 dilog (a22 (mq2 p)) (pow2 (MG p)) (sqrt (a22 (mq2 p))) (sqrt (pow2 (MG p))) (LQ p o)) o)
    ((fun o => lata_QU_1 dilog (a22 (mq2 p)) (pow2 (MG p)) (sqrt (a22 (mq2 p))) (sqrt (pow2 (MG p))) (LQ p o)) o)
    ((fun o => lata_QU_2 dilog (a22 (mq2 p)) (pow2 (MG p)) (sqrt (a22 (mq2 p))) (sqrt (pow2 (MG p))) (LQ p o)) o)
    ((fun o => lata_QU_3 dilog (a22 (mq2 p)) (pow2 (MG p)) (sqrt (a22 (mq2 p))) (sqrt (pow2 (MG p))) (LQ p o)) o)
    ((fun o => lata_QU_4 dilog (a22 (mq2 p)) (pow2 (MG p)) (sqrt (a22 (mq2 p))) (sqrt (pow2 (MG p))) (LQ p o)) o)
    ((fun o => lata_QU_5 dilog (a22 (mq2 p)) (pow2 (MG p)) (sqrt (a22 (mq2 p))) (sqrt (pow2 (MG p))) (LQ p o)) o)
    ((fun o => g3v (LQ p o) (ln (a22 (mq2 p))) (ln (a22 (mu2 p))) (ln (pow2 (MG p))) (ln (tc_msq2 c))) o).
  Proof.
    clear HL. cbv beta. generalize (LQ p o) as L. intros L. destruct pos_QU as (P1 & P2 & P3 & P4). clear HP.
    destruct (root _ P1) as (q & Pq & Eq & Sq). destruct (root _ P2) as (u & Pu & Eu & Su). destruct (root _ P4) as (s & Ps & Es & Ss).
    set (m := MG p) in *. assert (Sm : sqrt (pow2 m) = m) by (unfold pow2; unR; apply sqrt_square; lra). assert (Em : pow2 m = m * m) by reflexivity.
    rewrite ?Sq, ?Su, ?Ss, ?Sm, ?Eq, ?Eu, ?Es, ?Em. rewrite ?Eq, ?Eu, ?Es, ?Em in *. clear Sq Su Ss Sm Eq Eu Es Em P1 P2 P4. clearbody m p.
    apply sq_eq in H0; [|assumption|assumption]. subst u.
    apply sq_ne in H1.
    apply id_QU_4; try assumption; try (apply landen_sq; try assumption; apply HT; simpl; tauto).
  Qed.
  Lemma id_case_QU_5 (o : Z) : (fun o => xtt_QU_5 dilog (a22 (mq2 p)) (pow2 (MG p)) (sqrt (a22 (mq2 p))) (sqrt (pow2 (MG p))) (tc_msq2 c) (sqrt (tc_msq2 c)) (LQ p o)) o = k5 ((fun o => yta_QU_0 (a22 (mq2 p)) (pow2 (MG p)) (sqrt (a22 (mq2 p))) (sqrt (pow2 (MG p))) (LQ p o)) o)
    ((fun o => yta_QU_1 (a22 (mq2 p)) (pow2 (MG p)) (sqrt (a22 (mq2 p))) (sqrt (pow2 (MG p))) (LQ p o)) o)
    ((fun o => yta2_QU_0 dilog (a22 (mq2 p)) (pow2 (MG p)) (sqrt (a22 (mq2 p))) (sqrt (pow2 (MG p))) (tc_msq2 c) (sqrt (tc_msq2 c)) (LQ p o)) o)
    ((fun o => yta2_QU_1 dilog (a22 (mq2 p)) (pow2 (MG p)) (sqrt (a22 (mq2 p))) (sqrt (pow2 (MG p))) (tc_msq2 c) (sqrt (tc_msq2 c)) (LQ p o)) o)
    ((fun o => yta2_QU_2 dilog (a22 (mq2 p)) (pow2 (MG p)) (sqrt (a22 (mq2 p))) (sqrt (pow2 (MG p))) (tc_msq2 c) (sqrt (tc_msq2 c)) (LQ p o)) o)
    ((fun o => lat_QU_0 (a22 (mq2 p)) (LQ p o)) o)
    ((fun o => lat_QU_1 (a22 (mq2 p)) (LQ p o)) o)
    ((fun o => lat_QU_2 (a22 (mq2 p)) (LQ p o)) o)
    ((fun o => lat_QU_3 (a22 (mq2 p)) (LQ p o)) o)
    ((fun o => lat_QU_4 (a22 (mq2 p)) (LQ p o)) o)
    ((fun o => lata_QU_0 dilog (a22 (mq2 p)) (pow2 (MG p)) (sqrt (a22 (mq2 p))) (sqrt (pow2 (MG p))) (LQ p o)) o)
    ((fun o => lata_QU_1 dilog (a22 (mq2 p)) (pow2 (MG p)) (sqrt (a22 (mq2 p))) (sqrt (pow2 (MG p))) (LQ p o)) o)
    ((fun o => lata_QU_2 dilog (a22 (mq2 p)) (pow2 (MG p)) (sqrt (a22 (mq2 p))) (sqrt (pow2 (MG p))) (LQ p o)) o)
    ((fun o => lata_QU_3 dilog (a22 (mq2 p)) (pow2 (MG p)) (sqrt (a22 (mq2 p))) (sqrt (pow2 (MG p))) (LQ p o)) o)
    ((fun o => lata_QU_4 dilog (a22 (mq2 p)) (pow2 (MG p)) (sqrt (a22 (mq2 p))) (sqrt (pow2 (MG p))) (LQ p o)) o)
    ((fun o => lata_QU_5 dilog (a22 (mq2 p)) (pow2 (MG p)) (sqrt (a22 (mq2 p))) (sqrt (pow2 (MG p))) (LQ p o)) o)
    ((fun o => g3v (LQ p o) (ln (a22 (mq2 p))) (ln (a22 (mu2 p))) (ln (pow2 (MG p))) (ln (tc_msq2 c))) o).
  Proof.
    clear HL. cbv beta. generalize (LQ p o) as L. intros L. destruct pos_QU as (P1 & P2 & P3 & P4). clear HP.
    destruct (root _ P1) as (q & Pq & Eq & Sq). destruct (root _ P2) as (u & Pu & Eu & Su). destruct (root _ P4) as (s & Ps & Es & Ss).
    set (m := MG p) in *. assert (Sm : sqrt (pow2 m) = m) by (unfold pow2; unR; apply sqrt_square; lra). assert (Em : pow2 m = m * m) by reflexivity.
    rewrite ?Sq, ?Su, ?Ss, ?Sm, ?Eq, ?Eu, ?Es, ?Em. rewrite ?Eq, ?Eu, ?Es, ?Em in *. clear Sq Su Ss Sm Eq Eu Es Em P1 P2 P4. clearbody m p.
    apply sq_eq in H0; [|assumption|assumption]. subst u.
    apply sq_ne in H1.
    apply id_QU_5; try assumption; try (apply landen_sq; try assumption; apply HT; simpl; tauto).
  Qed.
  Lemma id_case_QU_6 (o : Z) : (fun o => xtt_QU_6 dilog (a22 (mq2 p)) (pow2 (MG p)) (sqrt (a22 (mq2 p))) (sqrt (pow2 (MG p))) (tc_msq2 c) (sqrt (tc_msq2 c)) (LQ p o)) o = k6 ((fun o => yta_QU_0 (a22 (mq2 p)) (pow2 (MG p)) (sqrt (a22 (mq2 p))) (sqrt (pow2 (MG p))) (LQ p o)) o)
    ((fun o => yta_QU_1 (a22 (mq2 p)) (pow2 (MG p)) (sqrt (a22 (mq2 p))) (sqrt (pow2 (MG p))) (LQ p o)) o)
    ((fun o => yta2_QU_0 dilog (a22 (mq2 p)) (pow2 (MG p)) (sqrt (a22 (mq2 p))) (sqrt (pow2 (MG p))) (tc_msq2 c) (sqrt (tc_msq2 c)) (LQ p o)) o)
    ((fun o => yta2_QU_1 dilog (a22 (mq2 p)) (pow2 (MG p)) (sqrt (a22 (mq2 p))) (sqrt (pow2 (MG p))) (tc_msq2 c) (sqrt (tc_msq2 c)) (LQ p o)) o)
    ((fun o => yta2_QU_2 dilog (a22 (mq2 p)) (pow2 (MG p)) (sqrt (a22 (mq2 p))) (sqrt (pow2 (MG p))) (tc_msq2 c) (sqrt (tc_msq2 c)) (LQ p o)) o)
    ((fun o => lat_QU_0 (a22 (mq2 p)) (LQ p o)) o)
    ((fun o => lat_QU_1 (a22 (mq2 p)) (LQ p o)) o)
    ((fun o => lat_QU_2 (a22 (mq2 p)) (LQ p o)) o)
    ((fun o => lat_QU_3 (a22 (mq2 p)) (LQ p o)) o)
    ((fun o => lat_QU_4 (a22 (mq2 p)) (LQ p o)) o)
    ((fun o => lata_QU_0 dilog (a22 (mq2 p)) (pow2 (MG p)) (sqrt (a22 (mq2 p))) (sqrt (pow2 (MG p))) (LQ p o)) o)
    ((fun o => lata_QU_1 dilog (a22 (mq2 p)) (pow2 (MG p)) (sqrt (a22 (mq2 p))) (sqrt (pow2 (MG p))) (LQ p o)) o)
    ((fun o => lata_QU_2 dilog (a22 (mq2 p)) (pow2 (MG p)) (sqrt (a22 (mq2 p))) (sqrt (pow2 (MG p))) (LQ p o)) o)
    ((fun o => lata_QU_3 dilog (a22 (mq2 p)) (pow2 (MG p)) (sqrt (a22 (mq2 p))) (sqrt (pow2 (MG p))) (LQ p o)) o)
    ((fun o => lata_QU_4 dilog (a22 (mq2 p)) (pow2 (MG p)) (sqrt (a22 (mq2 p))) (sqrt (pow2 (MG p))) (LQ p o)) o)
    ((fun o => lata_QU_5 dilog (a22 (mq2 p)) (pow2 (MG p)) (sqrt (a22 (mq2 p))) (sqrt (pow2 (MG p))) (LQ p o)) o)
    ((fun o => g3v (LQ p o) (ln (a22 (mq2 p))) (ln (a22 (mu2 p))) (ln (pow2 (MG p))) (ln (tc_msq2 c))) o).
  Proof.
    clear HL. cbv beta. generalize (LQ p o) as L. intros L. destruct pos_QU as (P1 & P2 & P3 & P4). clear HP.
    destruct (root _ P1) as (q & Pq & Eq & Sq). destruct (root _ P2) as (u & Pu & Eu & Su). destruct (root _ P4) as (s & Ps & Es & Ss).
    set (m := MG p) in *. assert (Sm : sqrt (pow2 m) = m) by (unfold pow2; unR; apply sqrt_square; lra). assert (Em : pow2 m = m * m) by reflexivity.
    rewrite ?Sq, ?Su, ?Ss, ?Sm, ?Eq, ?Eu, ?Es, ?Em. rewrite ?Eq, ?Eu, ?Es, ?Em in *. clear Sq Su Ss Sm Eq Eu Es Em P1 P2 P4. clearbody m p.
    apply sq_eq in H0; [|assumption|assumption]. subst u.
    apply sq_ne in H1.
    apply id_QU_6; try assumption; try (apply landen_sq; try assumption; apply HT; simpl; tauto).
  Qed.
  Lemma case_QU A Ab Atau : result (with_trilinears c A Ab Atau) co_QU (calcXt (tc_p (with_trilinears c A Ab Atau))).
  Proof.
    set (c' := with_trilinears c A Ab Atau). set (X := calcXt (tc_p c')).
    apply (assemble c' X (fun o => yta_QU_0 (a22 (mq2 p)) (pow2 (MG p)) (sqrt (a22 (mq2 p))) (sqrt (pow2 (MG p))) (LQ p o))
    (fun o => yta_QU_1 (a22 (mq2 p)) (pow2 (MG p)) (sqrt (a22 (mq2 p))) (sqrt (pow2 (MG p))) (LQ p o))
    (fun o => yta2_QU_0 dilog (a22 (mq2 p)) (pow2 (MG p)) (sqrt (a22 (mq2 p))) (sqrt (pow2 (MG p))) (tc_msq2 c) (sqrt (tc_msq2 c)) (LQ p o))
    (fun o => yta2_QU_1 dilog (a22 (mq2 p)) (pow2 (MG p)) (sqrt (a22 (mq2 p))) (sqrt (pow2 (MG p))) (tc_msq2 c) (sqrt (tc_msq2 c)) (LQ p o))
    (fun o => yta2_QU_2 dilog (a22 (mq2 p)) (pow2 (MG p)) (sqrt (a22 (mq2 p))) (sqrt (pow2 (MG p))) (tc_msq2 c) (sqrt (tc_msq2 c)) (LQ p o))
    (fun o => lat_QU_0 (a22 (mq2 p)) (LQ p o))
    (fun o => lat_QU_1 (a22 (mq2 p)) (LQ p o))
    (fun o => lat_QU_2 (a22 (mq2 p)) (LQ p o))
    (fun o => lat_QU_3 (a22 (mq2 p)) (LQ p o))
    (fun o => lat_QU_4 (a22 (mq2 p)) (LQ p o))
    (fun o => lata_QU_0 dilog (a22 (mq2 p)) (pow2 (MG p)) (sqrt (a22 (mq2 p))) (sqrt (pow2 (MG p))) (LQ p o))
    (fun o => lata_QU_1 dilog (a22 (mq2 p)) (pow2 (MG p)) (sqrt (a22 (mq2 p))) (sqrt (pow2 (MG p))) (LQ p o))
    (fun o => lata_QU_2 dilog (a22 (mq2 p)) (pow2 (MG p)) (sqrt (a22 (mq2 p))) (sqrt (pow2 (MG p))) (LQ p o))
    (fun o => lata_QU_3 dilog (a22 (mq2 p)) (pow2 (MG p)) (sqrt (a22 (mq2 p))) (sqrt (pow2 (MG p))) (LQ p o))
    (fun o => lata_QU_4 dilog (a22 (mq2 p)) (pow2 (MG p)) (sqrt (a22 (mq2 p))) (sqrt (pow2 (MG p))) (LQ p o))
    (fun o => lata_QU_5 dilog (a22 (mq2 p)) (pow2 (MG p)) (sqrt (a22 (mq2 p))) (sqrt (pow2 (MG p))) (LQ p o))
    (fun o => g3v (LQ p o) (ln (a22 (mq2 p))) (ln (a22 (mu2 p))) (ln (pow2 (MG p))) (ln (tc_msq2 c)))
    (fun o => xtt_QU_4 dilog (a22 (mq2 p)) (pow2 (MG p)) (sqrt (a22 (mq2 p))) (sqrt (pow2 (MG p))) (tc_msq2 c) (sqrt (tc_msq2 c)) (LQ p o))
    (fun o => xtt_QU_5 dilog (a22 (mq2 p)) (pow2 (MG p)) (sqrt (a22 (mq2 p))) (sqrt (pow2 (MG p))) (tc_msq2 c) (sqrt (tc_msq2 c)) (LQ p o))
    (fun o => xtt_QU_6 dilog (a22 (mq2 p)) (pow2 (MG p)) (sqrt (a22 (mq2 p))) (sqrt (pow2 (MG p))) (tc_msq2 c) (sqrt (tc_msq2 c)) (LQ p o))); intros o; change (massLimit3LThreshold (tc_p c')) with (massLimit3LThreshold p); unfold p at 1; try rewrite HL.
    - eexists. exact (lata2_QU_eq (tc_p c') (tc_msq2 c) _ o).
    - exact (g3_value c o HP).
    - exact (eq_trans (yta_QU_eq (tc_p c') o) (f_equal Ok (yta_QU_poly (a22 (mq2 p)) (pow2 (MG p)) (sqrt (a22 (mq2 p))) (sqrt (pow2 (MG p))) X (LQ p o)))).
    - exact (eq_trans (yta2_QU_eq (tc_p c') (tc_msq2 c) o) (f_equal Ok (yta2_QU_poly dilog (a22 (mq2 p)) (pow2 (MG p)) (sqrt (a22 (mq2 p))) (sqrt (pow2 (MG p))) (tc_msq2 c) (sqrt (tc_msq2 c)) X (LQ p o)))).
    - exact (eq_trans (lat_QU_eq (tc_p c') o) (f_equal Ok (lat_QU_poly (a22 (mq2 p)) X (LQ p o)))).
    - exact (eq_trans (lata_QU_eq (tc_p c') o) (f_equal Ok (lata_QU_poly dilog (a22 (mq2 p)) (pow2 (MG p)) (sqrt (a22 (mq2 p))) (sqrt (pow2 (MG p))) X (LQ p o)))).
    - refine (eq_trans (xtt_QU_eq (tc_p c') (tc_msq2 c) 4 o) _). simpl negb. cbv iota. rewrite p4. exact (f_equal Ok (xtt_QU_poly dilog (a22 (mq2 p)) (pow2 (MG p)) (sqrt (a22 (mq2 p))) (sqrt (pow2 (MG p))) (tc_msq2 c) (sqrt (tc_msq2 c)) (X^4) (0) (0) (LQ p o))).
    - refine (eq_trans (xtt_QU_eq (tc_p c') (tc_msq2 c) 5 o) _). simpl negb. cbv iota. rewrite p5. exact (f_equal Ok (xtt_QU_poly dilog (a22 (mq2 p)) (pow2 (MG p)) (sqrt (a22 (mq2 p))) (sqrt (pow2 (MG p))) (tc_msq2 c) (sqrt (tc_msq2 c)) (0) (X^5) (0) (LQ p o))).
    - refine (eq_trans (xtt_QU_eq (tc_p c') (tc_msq2 c) 6 o) _). simpl negb. cbv iota. rewrite p6. exact (f_equal Ok (xtt_QU_poly dilog (a22 (mq2 p)) (pow2 (MG p)) (sqrt (a22 (mq2 p))) (sqrt (pow2 (MG p))) (tc_msq2 c) (sqrt (tc_msq2 c)) (0) (0) (X^6) (LQ p o))).
    - exact (id_case_QU_4 o).
    - exact (id_case_QU_5 o).
    - exact (id_case_QU_6 o).
  Qed.
End Case_QU.

Section Case_QM.
  Context (c : TC R) (HP : phys_tc c) (HL : massLimit3LThreshold (tc_p c) = MQ3_EQ_M3).
  Let p := tc_p c.
  Context (H0 : (pow2 (MG p)) = (a22 (mq2 p))) (H1 : (a22 (mq2 p)) <> (a22 (mu2 p))) (H2 : (tc_msq2 c) <> (a22 (mq2 p)))
    (HT : free_of_two [a22 (mq2 p); a22 (mu2 p); pow2 (MG p); tc_msq2 c]).
  Definition co_QM (o : Z) : nat -> R := coefs ((fun o => yta_QM_0 (a22 (mq2 p)) (a22 (mu2 p)) (sqrt (a22 (mq2 p))) (LQ p o)) o)
    ((fun o => yta_QM_1 (a22 (mq2 p)) (a22 (mu2 p)) (sqrt (a22 (mq2 p))) (LQ p o)) o)
    ((fun o => yta2_QM_0 dilog (a22 (mq2 p)) (a22 (mu2 p)) (sqrt (a22 (mq2 p))) (sqrt (a22 (mu2 p))) (tc_msq2 c) (sqrt (tc_msq2 c)) (LQ p o)) o)
    ((fun o => yta2_QM_1 dilog (a22 (mq2 p)) (a22 (mu2 p)) (sqrt (a22 (mq2 p))) (sqrt (a22 (mu2 p))) (tc_msq2 c) (sqrt (tc_msq2 c)) (LQ p o)) o)
    ((fun o => yta2_QM_2 dilog (a22 (mq2 p)) (a22 (mu2 p)) (sqrt (a22 (mq2 p))) (sqrt (a22 (mu2 p))) (tc_msq2 c) (sqrt (tc_msq2 c)) (LQ p o)) o)
    ((fun o => lat_G_0 (a22 (mq2 p)) (a22 (mu2 p)) (LQ p o)) o)
    ((fun o => lat_G_1 (a22 (mq2 p)) (a22 (mu2 p)) (LQ p o)) o)
    ((fun o => lat_G_2 (a22 (mq2 p)) (a22 (mu2 p)) (LQ p o)) o)
    ((fun o => lat_G_3 (a22 (mq2 p)) (a22 (mu2 p)) (LQ p o)) o)
    ((fun o => lat_G_4 (a22 (mq2 p)) (a22 (mu2 p)) (LQ p o)) o)
    ((fun o => lata_QM_0 dilog (a22 (mq2 p)) (a22 (mu2 p)) (sqrt (a22 (mq2 p))) (sqrt (a22 (mu2 p))) (LQ p o)) o)
    ((fun o => lata_QM_1 dilog (a22 (mq2 p)) (a22 (mu2 p)) (sqrt (a22 (mq2 p))) (sqrt (a22 (mu2 p))) (LQ p o)) o)
    ((fun o => lata_QM_2 dilog (a22 (mq2 p)) (a22 (mu2 p)) (sqrt (a22 (mq2 p))) (sqrt (a22 (mu2 p))) (LQ p o)) o)
    ((fun o => lata_QM_3 dilog (a22 (mq2 p)) (a22 (mu2 p)) (sqrt (a22 (mq2 p))) (sqrt (a22 (mu2 p))) (LQ p o)) o)
    ((fun o => lata_QM_4 dilog (a22 (mq2 p)) (a22 (mu2 p)) (sqrt (a22 (mq2 p))) (sqrt (a22 (mu2 p))) (LQ p o)) o)
    ((fun o => lata_QM_5 dilog (a22 (mq2 p)) (a22 (mu2 p)) (sqrt (a22 (mq2 p))) (sqrt (a22 (mu2 p))) (LQ p o)) o)
    ((fun o => g3v (LQ p o) (ln (a22 (mq2 p))) (ln (a22 (mu2 p))) (ln (pow2 (MG p))) (ln (tc_msq2 c))) o).
  Lemma pos_QM : 0 < a22 (mq2 p) /\ 0 < a22 (mu2 p) /\ 0 < MG p /\ 0 < tc_msq2 c.
  Proof. destruct HP as [(Hm & _ & _ & _ & _ & _ & HG & _) Hs]. repeat split; try assumption; apply Hm; simpl; tauto. Qed.
  Lemma id_case_QM_4 (o : Z) : (fun o => xtt_QM_4 dilog (a22 (mq2 p)) (a22 (mu2 p)) (sqrt (a22 (mq2 p))) (sqrt (a22 (mu2 p))) (tc_msq2 c) (sqrt (tc_msq2 c)) (LQ p o)) o = k4 ((fun o => yta_QM_0 (a22 (mq2 p)) (a22 (mu2 p)) (sqrt (a22 (mq2 p))) (LQ p o)) o)
    ((fun o => yta_QM_1 (a22 (mq2 p)) (a22 (mu2 p)) (sqrt (a22 (mq2 p))) (LQ p o)) o)
    ((fun o => yta2_QM_0 dilog (a22 (mq2 p)) (a22 (mu2 p)) (sqrt (a22 (mq2 p))) (sqrt (a22 (mu2 p))) (tc_msq2 c) (sqrt (tc_msq2 c)) (LQ p o)) o)
    ((fun o => yta2_QM_1 dilog (a22 (mq2 p)) (a22 (mu2 p)) (sqrt (a22 (mq2 p))) (sqrt (a22 (mu2 p))) (tc_msq2 c) (sqrt (tc_msq2 c)) (LQ p o)) o)
    ((fun o => yta2_QM_2 dilog (a22 (mq2 p)) (a22 (mu2 p)) (sqrt (a22 (mq2 p))) (sqrt (a22 (mu2 p))) (tc_msq2 c) (sqrt (tc_msq2 c)) (LQ p o)) o)
    ((fun o => lat_G_0 (a22 (mq2 p)) (a22 (mu2 p)) (LQ p o)) o)
    ((fun o => lat_G_1 (a22 (mq2 p)) (a22 (mu2 p)) (LQ p o)) o)
    ((fun o => lat_G_2 (a22 (mq2 p)) (a22 (mu2 p)) (LQ p o)) o)
    ((fun o => lat_G_3 (a22 (mq2 p)) (a22 (mu2 p)) (LQ p o)) o)
    ((fun o => lat_G_4 (a22 (mq2 p)) (a22 (mu2 p)) (LQ p o)) o)
    ((fun o => lata_QM_0 dilog (a22 (mq2 p)) (a22 (mu2 p)) (sqrt (a22 (mq2 p))) (sqrt (a22 (mu2 p))) (LQ p o)) o)
    ((fun o => lata_QM_1 dilog (a22 (mq2 p)) (a22 (mu2 p)) (sqrt (a22 (mq2 p))) (sqrt (a22 (mu2 p))) (LQ p o)) o)
    ((fun o => lata_QM_2 dilog (a22 (mq2 p)) (a22 (mu2 p)) (sqrt (a22 (mq2 p))) (sqrt (a22 (mu2 p))) (LQ p o)) o)
    ((fun o => lata_QM_3 dilog (a22 (mq2 p)) (a22 (mu2 p)) (sqrt (a22 (mq2 p))) (sqrt (a22 (mu2 p))) (LQ p o)) o)
    ((fun o => lata_QM_4 dilog (a22 (mq2 p)) (a22 (mu2 p)) (sqrt (a22 (mq2 p))) (sqrt (a22 (mu2 p))) (LQ p o)) o)
    ((fun o => lata_QM_5 dilog (a22 (mq2 p)) (a22 (mu2 p)) (sqrt (a22 (mq2 p))) (sqrt (a22 (mu2 p))) (LQ p o)) o)
    ((fun o => g3v (LQ p o) (ln (a22 (mq2 p))) (ln (a22 (mu2 p))) (ln (pow2 (MG p))) (ln (tc_msq2 c))) o).
  Proof.
    clear HL. cbv beta. generalize (LQ p o) as L. intros L. destruct pos_QM as (P1 & P2 & P3 & P4). clear HP.
    destruct (root _ P1) as (q & Pq & Eq & Sq). destruct (root _ P2) as (u & Pu & Eu & Su). destruct (root _ P4) as (s & Ps & Es & Ss).
    set (m := MG p) in *. assert (Sm : sqrt (pow2 m) = m) by (unfold pow2; unR; apply sqrt_square; lra). assert (Em : pow2 m = m * m) by reflexivity.
    rewrite ?Sq, ?Su, ?Ss, ?Sm, ?Eq, ?Eu, ?Es, ?Em. rewrite ?Eq, ?Eu, ?Es, ?Em in *. clear Sq Su Ss Sm Eq Eu Es Em P1 P2 P4. clearbody m p.
    apply sq_eq in H0; [|assumption|assumption]. subst m.
    apply sq_ne in H1.
    apply sq_ne in H2.
    apply id_QM_4; try assumption; try (apply landen_sq; try assumption; apply HT; simpl; tauto).
  Qed.
  Lemma id_case_QM_5 (o : Z) : (fun o => xtt_QM_5 dilog (a22 (mq2 p)) (a22 (mu2 p)) (sqrt (a22 (mq2 p))) (sqrt (a22 (mu2 p))) (tc_msq2 c) (sqrt (tc_msq2 c)) (LQ p o)) o = k5 ((fun o => yta_QM_0 (a22 (mq2 p)) (a22 (mu2 p)) (sqrt (a22 (mq2 p))) (LQ p o)) o)
    ((fun o => yta_QM_1 (a22 (mq2 p)) (a22 (mu2 p)) (sqrt (a22 (mq2 p))) (LQ p o)) o)
    ((fun o => yta2_QM_0 dilog (a22 (mq2 p)) (a22 (mu2 p)) (sqrt (a22 (mq2 p))) (sqrt (a22 (mu2 p))) (tc_msq2 c) (sqrt (tc_msq2 c)) (LQ p o)) o)
    ((fun o => yta2_QM_1 dilog (a22 (mq2 p)) (a22 (mu2 p)) (sqrt (a22 (mq2 p))) (sqrt (a22 (mu2 p))) (tc_msq2 c) (sqrt (tc_msq2 c)) (LQ p o)) o)
    ((fun o => yta2_QM_2 dilog (a22 (mq2 p)) (a22 (mu2 p)) (sqrt (a22 (mq2 p))) (sqrt (a22 (mu2 p))) (tc_msq2 c) (sqrt (tc_msq2 c)) (LQ p o)) o)
    ((fun o => lat_G_0 (a22 (mq2 p)) (a22 (mu2 p)) (LQ p o)) o)
    ((fun o => lat_G_1 (a22 (mq2 p)) (a22 (mu2 p)) (LQ p o)) o)
    ((fun o => lat_G_2 (a22 (mq2 p)) (a22 (mu2 p)) (LQ p o)) o)
    ((fun o => lat_G_3 (a22 (mq2 p)) (a22 (mu2 p)) (LQ p o)) o)
    ((fun o => lat_G_4 (a22 (mq2 p)) (a22 (mu2 p)) (LQ p o)) o)
    ((fun o => lata_QM_0 dilog (a22 (mq2 p)) (a22 (mu2 p)) (sqrt (a22 (mq2 p))) (sqrt (a22 (mu2 p))) (LQ p o)) o)
    ((fun o => lata_QM_1 dilog (a22 (mq2 p)) (a22 (mu2 p)) (sqrt (a22 (mq2 p))) (sqrt (a22 (mu2 p))) (LQ p o)) o)
    ((fun o => lata_QM_2 dilog (a22 (mq2 p)) (a22 (mu2 p)) (sqrt (a22 (mq2 p))) (sqrt (a22 (mu2 p))) (LQ p o)) o)
    ((fun o => lata_QM_3 dilog (a22 (mq2 p)) (a22 (mu2 p)) (sqrt (a22 (mq2 p))) (sqrt (a22 (mu2 p))) (LQ p o)) o)
    ((fun o => lata_QM_4 dilog (a22 (mq2 p)) (a22 (mu2 p)) (sqrt (a22 (mq2 p))) (sqrt (a22 (mu2 p))) (LQ p o)) o)
    ((fun o => lata_QM_5 dilog (a22 (mq2 p)) (a22 (mu2 p)) (sqrt (a22 (mq2 p))) (sqrt (a22 (mu2 p))) (LQ p o)) o)
    ((fun o => g3v (LQ p o) (ln (a22 (mq2 p))) (ln (a22 (mu2 p))) (ln (pow2 (MG p))) (ln (tc_msq2 c))) o).
  Proof.
    clear HL. cbv beta. generalize (LQ p o) as L. intros L. destruct pos_QM as (P1 & P2 & P3 & P4). clear HP.
    destruct (root _ P1) as (q & Pq & Eq & Sq). destruct (root _ P2) as (u & Pu & Eu & Su). destruct (root _ P4) as (s & Ps & Es & Ss).
    set (m := MG p) in *. assert (Sm : sqrt (pow2 m) = m) by (unfold pow2; unR; apply sqrt_square; lra). assert (Em : pow2 m = m * m) by reflexivity.
    rewrite ?Sq, ?Su, ?Ss, ?Sm, ?Eq, ?Eu, ?Es, ?Em. rewrite ?Eq, ?Eu, ?Es, ?Em in *. clear Sq Su Ss Sm Eq Eu Es Em P1 P2 P4. clearbody m p.
    apply sq_eq in H0; [|assumption|assumption]. subst m.
    apply sq_ne in H1.
    apply sq_ne in H2.
    apply id_QM_5; try assumption; try (apply landen_sq; try assumption; apply HT; simpl; tauto).
  Qed.
  Lemma id_case_QM_6 (o : Z) : (fun o => xtt_QM_6 dilog (a22 (mq2 p)) (a22 (mu2 p)) (sqrt (a22 (mq2 p))) (sqrt (a22 (mu2 p))) (tc_msq2 c) (sqrt (tc_msq2 c)) (LQ p o)) o = k6 ((fun o => yta_QM_0 (a22 (mq2 p)) (a22 (mu2 p)) (sqrt (a22 (mq2 p))) (LQ p o)) o)
    ((fun o => yta_QM_1 (a22 (mq2 p)) (a22 (mu2 p)) (sqrt (a22 (mq2 p))) (LQ p o)) o)
    ((fun o => yta2_QM_0 dilog (a22 (mq2 p)) (a22 (mu2 p)) (sqrt (a22 (mq2 p))) (sqrt (a22 (mu2 p))) (tc_msq2 c) (sqrt (tc_msq2 c)) (LQ p o)) o)
    ((fun o => yta2_QM_1 dilog (a22 (mq2 p)) (a22 (mu2 p)) (sqrt (a22 (mq2 p))) (sqrt (a22 (mu2 p))) (tc_msq2 c) (sqrt (tc_msq2 c)) (LQ p o)) o)
    ((fun o => yta2_QM_2 dilog (a22 (mq2 p)) (a22 (mu2 p)) (sqrt (a22 (mq2 p))) (sqrt (a22 (mu2 p))) (tc_msq2 c) (sqrt (tc_msq2 c)) (LQ p o)) o)
    ((fun o => lat_G_0 (a22 (mq2 p)) (a22 (mu2 p)) (LQ p o)) o)
    ((fun o => lat_G_1 (a22 (mq2 p)) (a22 (mu2 p)) (LQ p o)) o)
    ((fun o => lat_G_2 (a22 (mq2 p)) (a22 (mu2 p)) (LQ p o)) o)
    ((fun o => lat_G_3 (a22 (mq2 p)) (a22 (mu2 p)) (LQ p o)) o)
    ((fun o => lat_G_4 (a22 (mq2 p)) (a22 (mu2 p)) (LQ p o)) o)
    ((fun o => lata_QM_0 dilog (a22 (mq2 p)) (a22 (mu2 p)) (sqrt (a22 (mq2 p))) (sqrt (a22 (mu2 p))) (LQ p o)) o)
    ((fun o => lata_QM_1 dilog (a22 (mq2 p)) (a22 (mu2 p)) (sqrt (a22 (mq2 p))) (sqrt (a22 (mu2 p))) (LQ p o)) o)
    ((fun o => lata_QM_2 dilog (a22 (mq2 p)) (a22 (mu2 p)) (sqrt (a22 (mq2 p))) (sqrt (a22 (mu2 p))) (LQ p o)) o)
    ((fun o => lata_QM_3 dilog (a22 (mq2 p)) (a22 (mu2 p)) (sqrt (a22 (mq2 p))) (sqrt (a22 (mu2 p))) (LQ p o)) o)
    ((fun o => lata_QM_4 dilog (a22 (mq2 p)) (a22 (mu2 p)) (sqrt (a22 (mq2 p))) (sqrt (a22 (mu2 p))) (LQ p o)) o)
    ((fun o => lata_QM_5 dilog (a22 (mq2 p)) (a22 (mu2 p)) (sqrt (a22 (mq2 p))) (sqrt (a22 (mu2 p))) (LQ p o)) o)
    ((fun o => g3v (LQ p o) (ln (a22 (mq2 p))) (ln (a22 (mu2 p))) (ln (pow2 (MG p))) (ln (tc_msq2 c))) o).
  Proof.
    clear HL. cbv beta. generalize (LQ p o) as L. intros L. destruct pos_QM as (P1 & P2 & P3 & P4). clear HP.
    destruct (root _ P1) as (q & Pq & Eq & Sq). destruct (root _ P2) as (u & Pu & Eu & Su). destruct (root _ P4) as (s & Ps & Es & Ss).
    set (m := MG p) in *. assert (Sm : sqrt (pow2 m) = m) by (unfold pow2; unR; apply sqrt_square; lra). assert (Em : pow2 m = m * m) by reflexivity.
    rewrite ?Sq, ?Su, ?Ss, ?Sm, ?Eq, ?Eu, ?Es, ?Em. rewrite ?Eq, ?Eu, ?Es, ?Em in *. clear Sq Su Ss Sm Eq Eu Es Em P1 P2 P4. clearbody m p.
    apply sq_eq in H0; [|assumption|assumption]. subst m.
    apply sq_ne in H1.
    apply sq_ne in H2.
    apply id_QM_6; try assumption; try (apply landen_sq; try assumption; apply HT; simpl; tauto).
  Qed.
  Lemma case_QM A Ab Atau : result (with_trilinears c A Ab Atau) co_QM (calcXt (tc_p (with_trilinears c A Ab Atau))).
  Proof.
    set (c' := with_trilinears c A Ab Atau). set (X := calcXt (tc_p c')).
    apply (assemble c' X (fun o => yta_QM_0 (a22 (mq2 p)) (a22 (mu2 p)) (sqrt (a22 (mq2 p))) (LQ p o))
    (fun o => yta_QM_1 (a22 (mq2 p)) (a22 (mu2 p)) (sqrt (a22 (mq2 p))) (LQ p o))
    (fun o => yta2_QM_0 dilog (a22 (mq2 p)) (a22 (mu2 p)) (sqrt (a22 (mq2 p))) (sqrt (a22 (mu2 p))) (tc_msq2 c) (sqrt (tc_msq2 c)) (LQ p o))
    (fun o => yta2_QM_1 dilog (a22 (mq2 p)) (a22 (mu2 p)) (sqrt (a22 (mq2 p))) (sqrt (a22 (mu2 p))) (tc_msq2 c) (sqrt (tc_msq2 c)) (LQ p o))
    (fun o => yta2_QM_2 dilog (a22 (mq2 p)) (a22 (mu2 p)) (sqrt (a22 (mq2 p))) (sqrt (a22 (mu2 p))) (tc_msq2 c) (sqrt (tc_msq2 c)) (LQ p o))
    (fun o => lat_G_0 (a22 (mq2 p)) (a22 (mu2 p)) (LQ p o))
    (fun o => lat_G_1 (a22 (mq2 p)) (a22 (mu2 p)) (LQ p o))
    (fun o => lat_G_2 (a22 (mq2 p)) (a22 (mu2 p)) (LQ p o))
    (fun o => lat_G_3 (a22 (mq2 p)) (a22 (mu2 p)) (LQ p o))
    (fun o => lat_G_4 (a22 (mq2 p)) (a22 (mu2 p)) (LQ p o))
    (fun o => lata_QM_0 dilog (a22 (mq2 p)) (a22 (mu2 p)) (sqrt (a22 (mq2 p))) (sqrt (a22 (mu2 p))) (LQ p o))
    (fun o => lata_QM_1 dilog (a22 (mq2 p)) (a22 (mu2 p)) (sqrt (a22 (mq2 p))) (sqrt (a22 (mu2 p))) (LQ p o))
    (fun o => lata_QM_2 dilog (a22 (mq2 p)) (a22 (mu2 p)) (sqrt (a22 (mq2 p))) (sqrt (a22 (mu2 p))) (LQ p o))
    (fun o => lata_QM_3 dilog (a22 (mq2 p)) (a22 (mu2 p)) (sqrt (a22 (mq2 p))) (sqrt (a22 (mu2 p))) (LQ p o))
    (fun o => lata_QM_4 dilog (a22 (mq2 p)) (a22 (mu2 p)) (sqrt (a22 (mq2 p))) (sqrt (a22 (mu2 p))) (LQ p o))
    (fun o => lata_QM_5 dilog (a22 (mq2 p)) (a22 (mu2 p)) (sqrt (a22 (mq2 p))) (sqrt (a22 (mu2 p))) (LQ p o))
    (fun o => g3v (LQ p o) (ln (a22 (mq2 p))) (ln (a22 (mu2 p))) (ln (pow2 (MG p))) (ln (tc_msq2 c)))
    (fun o => xtt_QM_4 dilog (a22 (mq2 p)) (a22 (mu2 p)) (sqrt (a22 (mq2 p))) (sqrt (a22 (mu2 p))) (tc_msq2 c) (sqrt (tc_msq2 c)) (LQ p o))
    (fun o => xtt_QM_5 dilog (a22 (mq2 p)) (a22 (mu2 p)) (sqrt (a22 (mq2 p))) (sqrt (a22 (mu2 p))) (tc_msq2 c) (sqrt (tc_msq2 c)) (LQ p o))
    (fun o => xtt_QM_6 dilog (a22 (mq2 p)) (a22 (mu2 p)) (sqrt (a22 (mq2 p))) (sqrt (a22 (mu2 p))) (tc_msq2 c) (sqrt (tc_msq2 c)) (LQ p o))); intros o; change (massLimit3LThreshold (tc_p c')) with (massLimit3LThreshold p); unfold p at 1; try rewrite HL.
    - eexists. exact (lata2_QM_eq (tc_p c') (tc_msq2 c) _ o).
    - exact (g3_value c o HP).
    - exact (eq_trans (yta_QM_eq (tc_p c') o) (f_equal Ok (yta_QM_poly (a22 (mq2 p)) (a22 (mu2 p)) (sqrt (a22 (mq2 p))) X (LQ p o)))).
    - exact (eq_trans (yta2_QM_eq (tc_p c') (tc_msq2 c) o) (f_equal Ok (yta2_QM_poly dilog (a22 (mq2 p)) (a22 (mu2 p)) (sqrt (a22 (mq2 p))) (sqrt (a22 (mu2 p))) (tc_msq2 c) (sqrt (tc_msq2 c)) X (LQ p o)))).
    - exact (eq_trans (lat_G_eq (tc_p c') o) (f_equal Ok (lat_G_poly (a22 (mq2 p)) (a22 (mu2 p)) X (LQ p o)))).
    - exact (eq_trans (lata_QM_eq (tc_p c') o) (f_equal Ok (lata_QM_poly dilog (a22 (mq2 p)) (a22 (mu2 p)) (sqrt (a22 (mq2 p))) (sqrt (a22 (mu2 p))) X (LQ p o)))).
    - refine (eq_trans (xtt_QM_eq (tc_p c') (tc_msq2 c) 4 o) _). simpl negb. cbv iota. rewrite p4. exact (f_equal Ok (xtt_QM_poly dilog (a22 (mq2 p)) (a22 (mu2 p)) (sqrt (a22 (mq2 p))) (sqrt (a22 (mu2 p))) (tc_msq2 c) (sqrt (tc_msq2 c)) (X^4) (0) (0) (LQ p o))).
    - refine (eq_trans (xtt_QM_eq (tc_p c') (tc_msq2 c) 5 o) _). simpl negb. cbv iota. rewrite p5. exact (f_equal Ok (xtt_QM_poly dilog (a22 (mq2 p)) (a22 (mu2 p)) (sqrt (a22 (mq2 p))) (sqrt (a22 (mu2 p))) (tc_msq2 c) (sqrt (tc_msq2 c)) (0) (X^5) (0) (LQ p o))).
    - refine (eq_trans (xtt_QM_eq (tc_p c') (tc_msq2 c) 6 o) _). simpl negb. cbv iota. rewrite p6. exact (f_equal Ok (xtt_QM_poly dilog (a22 (mq2 p)) (a22 (mu2 p)) (sqrt (a22 (mq2 p))) (sqrt (a22 (mu2 p))) (tc_msq2 c) (sqrt (tc_msq2 c)) (0) (0) (X^6) (LQ p o))).
    - exact (id_case_QM_4 o).
    - exact (id_case_QM_5 o).
    - exact (id_case_QM_6 o).
  Qed.
End Case_QM.

Section Case_UM.
  Context (c : TC R) (HP : phys_tc c) (HL : massLimit3LThreshold (tc_p c) = MU3_EQ_M3).
  Let p := tc_p c.
  Context (H0 : (pow2 (MG p)) = (a22 (mu2 p))) (H1 : (a22 (mq2 p)) <> (a22 (mu2 p))) (H2 : (tc_msq2 c) <> (a22 (mu2 p)))
    (HT : free_of_two [a22 (mq2 p); a22 (mu2 p); pow2 (MG p); tc_msq2 c]).
  Definition co_UM (o : Z) : nat -> R := coefs ((fun o => yta_UM_0 (a22 (mq2 p)) (a22 (mu2 p)) (sqrt (a22 (mq2 p))) (sqrt (a22 (mu2 p))) (LQ p o)) o)
    ((fun o => yta_UM_1 (a22 (mq2 p)) (a22 (mu2 p)) (sqrt (a22 (mq2 p))) (sqrt (a22 (mu2 p))) (LQ p o)) o)
    ((fun o => yta2_UM_0 dilog (a22 (mq2 p)) (a22 (mu2 p)) (sqrt (a22 (mq2 p))) (sqrt (a22 (mu2 p))) (tc_msq2 c) (sqrt (tc_msq2 c)) (LQ p o)) o)
    ((fun o => yta2_UM_1 dilog (a22 (mq2 p)) (a22 (mu2 p)) (sqrt (a22 (mq2 p))) (sqrt (a22 (mu2 p))) (tc_msq2 c) (sqrt (tc_msq2 c)) (LQ p o)) o)
    ((fun o => yta2_UM_2 dilog (a22 (mq2 p)) (a22 (mu2 p)) (sqrt (a22 (mq2 p))) (sqrt (a22 (mu2 p))) (tc_msq2 c) (sqrt (tc_msq2 c)) (LQ p o)) o)
    ((fun o => lat_G_0 (a22 (mq2 p)) (a22 (mu2 p)) (LQ p o)) o)
    ((fun o => lat_G_1 (a22 (mq2 p)) (a22 (mu2 p)) (LQ p o)) o)
    ((fun o => lat_G_2 (a22 (mq2 p)) (a22 (mu2 p)) (LQ p o)) o)
    ((fun o => lat_G_3 (a22 (mq2 p)) (a22 (mu2 p)) (LQ p o)) o)
    ((fun o => lat_G_4 (a22 (mq2 p)) (a22 (mu2 p)) (LQ p o)) o)
    ((fun o => lata_UM_0 dilog (a22 (mq2 p)) (a22 (mu2 p)) (sqrt (a22 (mq2 p))) (sqrt (a22 (mu2 p))) (LQ p o)) o)
    ((fun o => lata_UM_1 dilog (a22 (mq2 p)) (a22 (mu2 p)) (sqrt (a22 (mq2 p))) (sqrt (a22 (mu2 p))) (LQ p o)) o)
    ((fun o => lata_UM_2 dilog (a22 (mq2 p)) (a22 (mu2 p)) (sqrt (a22 (mq2 p))) (sqrt (a22 (mu2 p))) (LQ p o)) o)
    ((fun o => lata_UM_3 dilog (a22 (mq2 p)) (a22 (mu2 p)) (sqrt (a22 (mq2 p))) (sqrt (a22 (mu2 p))) (LQ p o)) o)
    ((fun o => lata_UM_4 dilog (a22 (mq2 p)) (a22 (mu2 p)) (sqrt (a22 (mq2 p))) (sqrt (a22 (mu2 p))) (LQ p o)) o)
    ((fun o => lata_UM_5 dilog (a22 (mq2 p)) (a22 (mu2 p)) (sqrt (a22 (mq2 p))) (sqrt (a22 (mu2 p))) (LQ p o)) o)
    ((fun o => g3v (LQ p o) (ln (a22 (mq2 p))) (ln (a22 (mu2 p))) (ln (pow2 (MG p))) (ln (tc_msq2 c))) o).
  Lemma pos_UM : 0 < a22 (mq2 p) /\ 0 < a22 (mu2 p) /\ 0 < MG p /\ 0 < tc_msq2 c.
  Proof. destruct HP as [(Hm & _ & _ & _ & _ & _ & HG & _) Hs]. repeat split; try assumption; apply Hm; simpl; tauto. Qed.
  Lemma id_case_UM_4 (o : Z) : (fun o => xtt_UM_4 dilog (a22 (mq2 p)) (a22 (mu2 p)) (sqrt (a22 (mq2 p))) (sqrt (a22 (mu2 p))) (tc_msq2 c) (sqrt (tc_msq2 c)) (LQ p o)) o = k4 ((fun o => yta_UM_0 (a22 (mq2 p)) (a22 (mu2 p)) (sqrt (a22 (mq2 p))) (sqrt (a22 (mu2 p))) (LQ p o)) o)
    ((fun o => yta_UM_1 (a22 (mq2 p)) (a22 (mu2 p)) (sqrt (a22 (mq2 p))) (sqrt (a22 (mu2 p))) (LQ p o)) o)
    ((fun o => yta2_UM_0 dilog (a22 (mq2 p)) (a22 (mu2 p)) (sqrt (a22 (mq2 p))) (sqrt (a22 (mu2 p))) (tc_msq2 c) (sqrt (tc_msq2 c)) (LQ p o)) o)
    ((fun o => yta2_UM_1 dilog (a22 (mq2 p)) (a22 (mu2 p)) (sqrt (a22 (mq2 p))) (sqrt (a22 (mu2 p))) (tc_msq2 c) (sqrt (tc_msq2 c)) (LQ p o)) o)
    ((fun o => yta2_UM_2 dilog (a22 (mq2 p)) (a22 (mu2 p)) (sqrt (a22 (mq2 p))) (sqrt (a22 (mu2 p))) (tc_msq2 c) (sqrt (tc_msq2 c)) (LQ p o)) o)
    ((fun o => lat_G_0 (a22 (mq2 p)) (a22 (mu2 p)) (LQ p o)) o)
    ((fun o => lat_G_1 (a22 (mq2 p)) (a22 (mu2 p)) (LQ p o)) o)
    ((fun o => lat_G_2 (a22 (mq2 p)) (a22 (mu2 p)) (LQ p o)) o)
    ((fun o => lat_G_3 (a22 (mq2 p)) (a22 (mu2 p)) (LQ p o)) o)
    ((fun o => lat_G_4 (a22 (mq2 p)) (a22 (mu2 p)) (LQ p o)) o)
    ((fun o => lata_UM_0 dilog (a22 (mq2 p)) (a22 (mu2 p)) (sqrt (a22 (mq2 p))) (sqrt (a22 (mu2 p))) (LQ p o)) o)
    ((fun o => lata_UM_1 dilog (a22 (mq2 p)) (a22 (mu2 p)) (sqrt (a22 (mq2 p))) (sqrt (a22 (mu2 p))) (LQ p o)) o)
    ((fun o => lata_UM_2 dilog (a22 (mq2 p)) (a22 (mu2 p)) (sqrt (a22 (mq2 p))) (sqrt (a22 (mu2 p))) (LQ p o)) o)
    ((fun o => lata_UM_3 dilog (a22 (mq2 p)) (a22 (mu2 p)) (sqrt (a22 (mq2 p))) (sqrt (a22 (mu2 p))) (LQ p o)) o)
    ((fun o => lata_UM_4 dilog (a22 (mq2 p)) (a22 (mu2 p)) (sqrt (a22 (mq2 p))) (sqrt (a22 (mu2 p))) (LQ p o)) o)
    ((fun o => lata_UM_5 dilog (a22 (mq2 p)) (a22 (mu2 p)) (sqrt (a22 (mq2 p))) (sqrt (a22 (mu2 p))) (LQ p o)) o)
    ((fun o => g3v (LQ p o) (ln (a22 (mq2 p))) (ln (a22 (mu2 p))) (ln (pow2 (MG p))) (ln (tc_msq2 c))) o).
  Proof.
    clear HL. cbv beta. generalize (LQ p o) as L. intros L. destruct pos_UM as (P1 & P2 & P3 & P4). clear HP.
    destruct (root _ P1) as (q & Pq & Eq & Sq). destruct (root _ P2) as (u & Pu & Eu & Su). destruct (root _ P4) as (s & Ps & Es & Ss).
    set (m := MG p) in *. assert (Sm : sqrt (pow2 m) = m) by (unfold pow2; unR; apply sqrt_square; lra). assert (Em : pow2 m = m * m) by reflexivity.
    rewrite ?Sq, ?Su, ?Ss, ?Sm, ?Eq, ?Eu, ?Es, ?Em. rewrite ?Eq, ?Eu, ?Es, ?Em in *. clear Sq Su Ss Sm Eq Eu Es Em P1 P2 P4. clearbody m p.
    apply sq_eq in H0; [|assumption|assumption]. subst m.
    apply sq_ne in H1.
    apply sq_ne in H2.
    apply id_UM_4; try assumption; try (apply landen_sq; try assumption; apply HT; simpl; tauto).
  Qed.
  Lemma id_case_UM_5 (o : Z) : (fun o => xtt_UM_5 dilog (a22 (mq2 p)) (a22 (mu2 p)) (sqrt (a22 (mq2 p))) (sqrt (a22 (mu2 p))) (tc_msq2 c) (sqrt (tc_msq2 c)) (LQ p o)) o = k5 ((fun o => yta_UM_0 (a22 (mq2 p)) (a22 (mu2 p)) (sqrt (a22 (mq2 p))) (sqrt (a22 (mu2 p))) (LQ p o)) o)
    ((fun o => yta_UM_1 (a22 (mq2 p)) (a22 (mu2 p)) (sqrt (a22 (mq2 p))) (sqrt (a22 (mu2 p))) (LQ p o)) o)
    ((fun o => yta2_UM_0 dilog (a22 (mq2 p)) (a22 (mu2 p)) (sqrt (a22 (mq2 p))) (sqrt (a22 (mu2 p))) (tc_msq2 c) (sqrt (tc_msq2 c)) (LQ p o)) o)
    ((fun o => yta2_UM_1 dilog (a22 (mq2 p)) (a22 (mu2 p)) (sqrt (a22 (mq2 p))) (sqrt (a22 (mu2 p))) (tc_msq2 c) (sqrt (tc_msq2 c)) (LQ p o)) o)
    ((fun o => yta2_UM_2 dilog (a22 (mq2 p)) (a22 (mu2 p)) (sqrt (a22 (mq2 p))) (sqrt (a22 (mu2 p))) (tc_msq2 c) (sqrt (tc_msq2 c)) (LQ p o)) o)
    ((fun o => lat_G_0 (a22 (mq2 p)) (a22 (mu2 p)) (LQ p o)) o)
    ((fun o => lat_G_1 (a22 (mq2 p)) (a22 (mu2 p)) (LQ p o)) o)
    ((fun o => lat_G_2 (a22 (mq2 p)) (a22 (mu2 p)) (LQ p o)) o)
    ((fun o => lat_G_3 (a22 (mq2 p)) (a22 (mu2 p)) (LQ p o)) o)
    ((fun o => lat_G_4 (a22 (mq2 p)) (a22 (mu2 p)) (LQ p o)) o)
    ((fun o => lata_UM_0 dilog (a22 (mq2 p)) (a22 (mu2 p)) (sqrt (a22 (mq2 p))) (sqrt (a22 (mu2 p))) (LQ p o)) o)
    ((fun o => lata_UM_1 dilog (a22 (mq2 p)) (a22 (mu2 p)) (sqrt (a22 (mq2 p))) (sqrt (a22 (mu2 p))) (LQ p o)) o)
    ((fun o => lata_UM_2 dilog (a22 (mq2 p)) (a22 (mu2 p)) (sqrt (a22 (mq2 p))) (sqrt (a22 (mu2 p))) (LQ p o)) o)
    ((fun o => lata_UM_3 dilog (a22 (mq2 p)) (a22 (mu2 p)) (sqrt (a22 (mq2 p))) (sqrt (a22 (mu2 p))) (LQ p o)) o)
    ((fun o => lata_UM_4 dilog (a22 (mq2 p)) (a22 (mu2 p)) (sqrt (a22 (mq2 p))) (sqrt (a22 (mu2 p))) (LQ p o)) o)
    ((fun o => lata_UM_5 dilog (a22 (mq2 p)) (a22 (mu2 p)) (sqrt (a22 (mq2 p))) (sqrt (a22 (mu2 p))) (LQ p o)) o)
    ((fun o => g3v (LQ p o) (ln (a22 (mq2 p))) (ln (a22 (mu2 p))) (ln (pow2 (MG p))) (ln (tc_msq2 c))) o).
  Proof.
    clear HL. cbv beta. generalize (LQ p o) as L. intros L. destruct pos_UM as (P1 & P2 & P3 & P4). clear HP.
    destruct (root _ P1) as (q & Pq & Eq & Sq). destruct (root _ P2) as (u & Pu & Eu & Su). destruct (root _ P4) as (s & Ps & Es & Ss).
    set (m := MG p) in *. assert (Sm : sqrt (pow2 m) = m) by (unfold pow2; unR; apply sqrt_square; lra). assert (Em : pow2 m = m * m) by reflexivity.
    rewrite ?Sq, ?Su, ?Ss, ?Sm, ?Eq, ?Eu, ?Es, ?Em. rewrite ?Eq, ?Eu, ?Es, ?Em in *. clear Sq Su Ss Sm Eq Eu Es Em P1 P2 P4. clearbody m p.
    apply sq_eq in H0; [|assumption|assumption]. subst m.
    apply sq_ne in H1.
    apply sq_ne in H2.
    apply id_UM_5; try assumption; try (apply landen_sq; try assumption; apply HT; simpl; tauto).
  Qed.
  Lemma id_case_UM_6 (o : Z) : (fun o => xtt_UM_6 dilog (a22 (mq2 p)) (a22 (mu2 p)) (sqrt (a22 (mq2 p))) (sqrt (a22 (mu2 p))) (tc_msq2 c) (sqrt (tc_msq2 c)) (LQ p o)) o = k6 ((fun o => yta_UM_0 (a22 (mq2 p)) (a22 (mu2 p)) (sqrt (a22 (mq2 p))) (sqrt (a22 (mu2 p))) (LQ p o)) o)
    ((fun o => yta_UM_1 (a22 (mq2 p)) (a22 (mu2 p)) (sqrt (a22 (mq2 p))) (sqrt (a22 (mu2 p))) (LQ p o)) o)
    ((fun o => yta2_UM_0 dilog (a22 (mq2 p)) (a22 (mu2 p)) (sqrt (a22 (mq2 p))) (sqrt (a22 (mu2 p))) (tc_msq2 c) (sqrt (tc_msq2 c)) (LQ p o)) o)
    ((fun o => yta2_UM_1 dilog (a22 (mq2 p)) (a22 (mu2 p)) (sqrt (a22 (mq2 p))) (sqrt (a22 (mu2 p))) (tc_msq2 c) (sqrt (tc_msq2 c)) (LQ p o)) o)
    ((fun o => yta2_UM_2 dilog (a22 (mq2 p)) (a22 (mu2 p)) (sqrt (a22 (mq2 p))) (sqrt (a22 (mu2 p))) (tc_msq2 c) (sqrt (tc_msq2 c)) (LQ p o)) o)
    ((fun o => lat_G_0 (a22 (mq2 p)) (a22 (mu2 p)) (LQ p o)) o)
    ((fun o => lat_G_1 (a22 (mq2 p)) (a22 (mu2 p)) (LQ p o)) o)
    ((fun o => lat_G_2 (a22 (mq2 p)) (a22 (mu2 p)) (LQ p o)) o)
    ((fun o => lat_G_3 (a22 (mq2 p)) (a22 (mu2 p)) (LQ p o)) o)
    ((fun o => lat_G_4 (a22 (mq2 p)) (a22 (mu2 p)) (LQ p o)) o)
    ((fun o => lata_UM_0 dilog (a22 (mq2 p)) (a22 (mu2 p)) (sqrt (a22 (mq2 p))) (sqrt (a22 (mu2 p))) (LQ p o)) o)
    ((fun o => lata_UM_1 dilog (a22 (mq2 p)) (a22 (mu2 p)) (sqrt (a22 (mq2 p))) (sqrt (a22 (mu2 p))) (LQ p o)) o)
    ((fun o => lata_UM_2 dilog (a22 (mq2 p)) (a22 (mu2 p)) (sqrt (a22 (mq2 p))) (sqrt (a22 (mu2 p))) (LQ p o)) o)
    ((fun o => lata_UM_3 dilog (a22 (mq2 p)) (a22 (mu2 p)) (sqrt (a22 (mq2 p))) (sqrt (a22 (mu2 p))) (LQ p o)) o)
    ((fun o => lata_UM_4 dilog (a22 (mq2 p)) (a22 (mu2 p)) (sqrt (a22 (mq2 p))) (sqrt (a22 (mu2 p))) (LQ p o)) o)
    ((fun o => lata_UM_5 dilog (a22 (mq2 p)) (a22 (mu2 p)) (sqrt (a22 (mq2 p))) (sqrt (a22 (mu2 p))) (LQ p o)) o)
    ((fun o => g3v (LQ p o) (ln (a22 (mq2 p))) (ln (a22 (mu2 p))) (ln (pow2 (MG p))) (ln (tc_msq2 c))) o).
  Proof.
    clear HL. cbv beta. generalize (LQ p o) as L. intros L. destruct pos_UM as (P1 & P2 & P3 & P4). clear HP.
    destruct (root _ P1) as (q & Pq & Eq & Sq). destruct (root _ P2) as (u & Pu & Eu & Su). destruct (root _ P4) as (s & Ps & Es & Ss).
    set (m := MG p) in *. assert (Sm : sqrt (pow2 m) = m) by (unfold pow2; unR; apply sqrt_square; lra). assert (Em : pow2 m = m * m) by reflexivity.
    rewrite ?Sq, ?Su, ?Ss, ?Sm, ?Eq, ?Eu, ?Es, ?Em. rewrite ?Eq, ?Eu, ?Es, ?Em in *. clear Sq Su Ss Sm Eq Eu Es Em P1 P2 P4. clearbody m p.
    apply sq_eq in H0; [|assumption|assumption]. subst m.
    apply sq_ne in H1.
    apply sq_ne in H2.
    apply id_UM_6; try assumption; try (apply landen_sq; try assumption; apply HT; simpl; tauto).
  Qed.
  Lemma case_UM A Ab Atau : result (with_trilinears c A Ab Atau) co_UM (calcXt (tc_p (with_trilinears c A Ab Atau))).
  Proof.
    set (c' := with_trilinears c A Ab Atau). set (X := calcXt (tc_p c')).
    apply (assemble c' X (fun o => yta_UM_0 (a22 (mq2 p)) (a22 (mu2 p)) (sqrt (a22 (mq2 p))) (sqrt (a22 (mu2 p))) (LQ p o))
    (fun o => yta_UM_1 (a22 (mq2 p)) (a22 (mu2 p)) (sqrt (a22 (mq2 p))) (sqrt (a22 (mu2 p))) (LQ p o))
    (fun o => yta2_UM_0 dilog (a22 (mq2 p)) (a22 (mu2 p)) (sqrt (a22 (mq2 p))) (sqrt (a22 (mu2 p))) (tc_msq2 c) (sqrt (tc_msq2 c)) (LQ p o))
    (fun o => yta2_UM_1 dilog (a22 (mq2 p)) (a22 (mu2 p)) (sqrt (a22 (mq2 p))) (sqrt (a22 (mu2 p))) (tc_msq2 c) (sqrt (tc_msq2 c)) (LQ p o))
    (fun o => yta2_UM_2 dilog (a22 (mq2 p)) (a22 (mu2 p)) (sqrt (a22 (mq2 p))) (sqrt (a22 (mu2 p))) (tc_msq2 c) (sqrt (tc_msq2 c)) (LQ p o))
    (fun o => lat_G_0 (a22 (mq2 p)) (a22 (mu2 p)) (LQ p o))
    (fun o => lat_G_1 (a22 (mq2 p)) (a22 (mu2 p)) (LQ p o))
    (fun o => lat_G_2 (a22 (mq2 p)) (a22 (mu2 p)) (LQ p o))
    (fun o => lat_G_3 (a22 (mq2 p)) (a22 (mu2 p)) (LQ p o))
    (fun o => lat_G_4 (a22 (mq2 p)) (a22 (mu2 p)) (LQ p o))
    (fun o => lata_UM_0 dilog (a22 (mq2 p)) (a22 (mu2 p)) (sqrt (a22 (mq2 p))) (sqrt (a22 (mu2 p))) (LQ p o))
    (fun o => lata_UM_1 dilog (a22 (mq2 p)) (a22 (mu2 p)) (sqrt (a22 (mq2 p))) (sqrt (a22 (mu2 p))) (LQ p o))
    (fun o => lata_UM_2 dilog (a22 (mq2 p)) (a22 (mu2 p)) (sqrt (a22 (mq2 p))) (sqrt (a22 (mu2 p))) (LQ p o))
    (fun o => lata_UM_3 dilog (a22 (mq2 p)) (a22 (mu2 p)) (sqrt (a22 (mq2 p))) (sqrt (a22 (mu2 p))) (LQ p o))
    (fun o => lata_UM_4 dilog (a22 (mq2 p)) (a22 (mu2 p)) (sqrt (a22 (mq2 p))) (sqrt (a22 (mu2 p))) (LQ p o))
    (fun o => lata_UM_5 dilog (a22 (mq2 p)) (a22 (mu2 p)) (sqrt (a22 (mq2 p))) (sqrt (a22 (mu2 p))) (LQ p o))
    (fun o => g3v (LQ p o) (ln (a22 (mq2 p))) (ln (a22 (mu2 p))) (ln (pow2 (MG p))) (ln (tc_msq2 c)))
    (fun o => xtt_UM_4 dilog (a22 (mq2 p)) (a22 (mu2 p)) (sqrt (a22 (mq2 p))) (sqrt (a22 (mu2 p))) (tc_msq2 c) (sqrt (tc_msq2 c)) (LQ p o))
    (fun o => xtt_UM_5 dilog (a22 (mq2 p)) (a22 (mu2 p)) (sqrt (a22 (mq2 p))) (sqrt (a22 (mu2 p))) (tc_msq2 c) (sqrt (tc_msq2 c)) (LQ p o))
    (fun o => xtt_UM_6 dilog (a22 (mq2 p)) (a22 (mu2 p)) (sqrt (a22 (mq2 p))) (sqrt (a22 (mu2 p))) (tc_msq2 c) (sqrt (tc_msq2 c)) (LQ p o))); intros o; change (massLimit3LThreshold (tc_p c')) with (massLimit3LThreshold p); unfold p at 1; try rewrite HL.
    - eexists. exact (lata2_UM_eq (tc_p c') (tc_msq2 c) _ o).
    - exact (g3_value c o HP).
    - exact (eq_trans (yta_UM_eq (tc_p c') o) (f_equal Ok (yta_UM_poly (a22 (mq2 p)) (a22 (mu2 p)) (sqrt (a22 (mq2 p))) (sqrt (a22 (mu2 p))) X (LQ p o)))).
    - exact (eq_trans (yta2_UM_eq (tc_p c') (tc_msq2 c) o) (f_equal Ok (yta2_UM_poly dilog (a22 (mq2 p)) (a22 (mu2 p)) (sqrt (a22 (mq2 p))) (sqrt (a22 (mu2 p))) (tc_msq2 c) (sqrt (tc_msq2 c)) X (LQ p o)))).
    - exact (eq_trans (lat_G_eq (tc_p c') o) (f_equal Ok (lat_G_poly (a22 (mq2 p)) (a22 (mu2 p)) X (LQ p o)))).
    - exact (eq_trans (lata_UM_eq (tc_p c') o) (f_equal Ok (lata_UM_poly dilog (a22 (mq2 p)) (a22 (mu2 p)) (sqrt (a22 (mq2 p))) (sqrt (a22 (mu2 p))) X (LQ p o)))).
    - refine (eq_trans (xtt_UM_eq (tc_p c') (tc_msq2 c) 4 o) _). simpl negb. cbv iota. rewrite p4. exact (f_equal Ok (xtt_UM_poly dilog (a22 (mq2 p)) (a22 (mu2 p)) (sqrt (a22 (mq2 p))) (sqrt (a22 (mu2 p))) (tc_msq2 c) (sqrt (tc_msq2 c)) (X^4) (0) (0) (LQ p o))).
    - refine (eq_trans (xtt_UM_eq (tc_p c') (tc_msq2 c) 5 o) _). simpl negb. cbv iota. rewrite p5. exact (f_equal Ok (xtt_UM_poly dilog (a22 (mq2 p)) (a22 (mu2 p)) (sqrt (a22 (mq2 p))) (sqrt (a22 (mu2 p))) (tc_msq2 c) (sqrt (tc_msq2 c)) (0) (X^5) (0) (LQ p o))).
    - refine (eq_trans (xtt_UM_eq (tc_p c') (tc_msq2 c) 6 o) _). simpl negb. cbv iota. rewrite p6. exact (f_equal Ok (xtt_UM_poly dilog (a22 (mq2 p)) (a22 (mu2 p)) (sqrt (a22 (mq2 p))) (sqrt (a22 (mu2 p))) (tc_msq2 c) (sqrt (tc_msq2 c)) (0) (0) (X^6) (LQ p o))).
    - exact (id_case_UM_4 o).
    - exact (id_case_UM_5 o).
    - exact (id_case_UM_6 o).
  Qed.
End Case_UM.

Section Case_QUM.
  Context (c : TC R) (HP : phys_tc c) (HL : massLimit3LThreshold (tc_p c) = MQ3_EQ_MU3_EQ_M3).
  Let p := tc_p c.
  Context (H0 : (a22 (mu2 p)) = (a22 (mq2 p))) (H1 : (pow2 (MG p)) = (a22 (mq2 p))) (H2 : (tc_msq2 c) <> (a22 (mq2 p)))
    (HT : free_of_two [a22 (mq2 p); a22 (mu2 p); pow2 (MG p); tc_msq2 c]).
  Definition co_QUM (o : Z) : nat -> R := coefs ((fun o => yta_QUM_0 (sqrt (a22 (mq2 p))) (LQ p o)) o)
    ((fun o => yta_QUM_1 (sqrt (a22 (mq2 p))) (LQ p o)) o)
    ((fun o => yta2_QUM_0 dilog (a22 (mq2 p)) (sqrt (a22 (mq2 p))) (tc_msq2 c) (LQ p o)) o)
    ((fun o => yta2_QUM_1 dilog (a22 (mq2 p)) (sqrt (a22 (mq2 p))) (tc_msq2 c) (LQ p o)) o)
    ((fun o => yta2_QUM_2 dilog (a22 (mq2 p)) (sqrt (a22 (mq2 p))) (tc_msq2 c) (LQ p o)) o)
    ((fun o => lat_QU_0 (a22 (mq2 p)) (LQ p o)) o)
    ((fun o => lat_QU_1 (a22 (mq2 p)) (LQ p o)) o)
    ((fun o => lat_QU_2 (a22 (mq2 p)) (LQ p o)) o)
    ((fun o => lat_QU_3 (a22 (mq2 p)) (LQ p o)) o)
    ((fun o => lat_QU_4 (a22 (mq2 p)) (LQ p o)) o)
    ((fun o => lata_QUM_0 (a22 (mq2 p)) (sqrt (a22 (mq2 p))) (LQ p o)) o)
    ((fun o => lata_QUM_1 (a22 (mq2 p)) (sqrt (a22 (mq2 p))) (LQ p o)) o)
    ((fun o => lata_QUM_2 (a22 (mq2 p)) (sqrt (a22 (mq2 p))) (LQ p o)) o)
    ((fun o => lata_QUM_3 (a22 (mq2 p)) (sqrt (a22 (mq2 p))) (LQ p o)) o)
    ((fun o => lata_QUM_4 (a22 (mq2 p)) (sqrt (a22 (mq2 p))) (LQ p o)) o)
    ((fun o => lata_QUM_5 (a22 (mq2 p)) (sqrt (a22 (mq2 p))) (LQ p o)) o)
    ((fun o => g3v (LQ p o) (ln (a22 (mq2 p))) (ln (a22 (mu2 p))) (ln (pow2 (MG p))) (ln (tc_msq2 c))) o).
  Lemma pos_QUM : 0 < a22 (mq2 p) /\ 0 < a22 (mu2 p) /\ 0 < MG p /\ 0 < tc_msq2 c.
  Proof. destruct HP as [(Hm & _ & _ & _ & _ & _ & HG & _) Hs]. repeat split; try assumption; apply Hm; simpl; tauto. Qed.
  Lemma id_case_QUM_4 (o : Z) : (fun o => xtt_QUM_4 dilog (a22 (mq2 p)) (sqrt (a22 (mq2 p))) (tc_msq2 c) (sqrt (tc_msq2 c)) (LQ p o)) o = k4 ((fun o => yta_QUM_0 (sqrt (a22 (mq2 p))) (LQ p o)) o)
    ((fun o => yta_QUM_1 (sqrt (a22 (mq2 p))) (LQ p o)) o)
    ((fun o => yta2_QUM_0 dilog (a22 (mq2 p)) (sqrt (a22 (mq2 p))) (tc_msq2 c) (LQ p o)) o)
    ((fun o => yta2_QUM_1 dilog (a22 (mq2 p)) (sqrt (a22 (mq2 p))) (tc_msq2 c) (LQ p o)) o)
    ((fun o => yta2_QUM_2 dilog (a22 (mq2 p)) (sqrt (a22 (mq2 p))) (tc_msq2 c) (LQ p o)) o)
    ((fun o => lat_QU_0 (a22 (mq2 p)) (LQ p o)) o)
    ((fun o => lat_QU_1 (a22 (mq2 p)) (LQ p o)) o)
    ((fun o => lat_QU_2 (a22 (mq2 p)) (LQ p o)) o)
    ((fun o => lat_QU_3 (a22 (mq2 p)) (LQ p o)) o)
    ((fun o => lat_QU_4 (a22 (mq2 p)) (LQ p o)) o)
    ((fun o => lata_QUM_0 (a22 (mq2 p)) (sqrt (a22 (mq2 p))) (LQ p o)) o)
    ((fun o => lata_QUM_1 (a22 (mq2 p)) (sqrt (a22 (mq2 p))) (LQ p o)) o)
    ((fun o => lata_QUM_2 (a22 (mq2 p)) (sqrt (a22 (mq2 p))) (LQ p o)) o)
    ((fun o => lata_QUM_3 (a22 (mq2 p)) (sqrt (a22 (mq2 p))) (LQ p o)) o)
    ((fun o => lata_QUM_4 (a22 (mq2 p)) (sqrt (a22 (mq2 p))) (LQ p o)) o)
    ((fun o => lata_QUM_5 (a22 (mq2 p)) (sqrt (a22 (mq2 p))) (LQ p o)) o)
    ((fun o => g3v (LQ p o) (ln (a22 (mq2 p))) (ln (a22 (mu2 p))) (ln (pow2 (MG p))) (ln (tc_msq2 c))) o).
  Proof.
    clear HL. cbv beta. generalize (LQ p o) as L. intros L. destruct pos_QUM as (P1 & P2 & P3 & P4). clear HP.
    destruct (root _ P1) as (q & Pq & Eq & Sq). destruct (root _ P2) as (u & Pu & Eu & Su). destruct (root _ P4) as (s & Ps & Es & Ss).
    set (m := MG p) in *. assert (Sm : sqrt (pow2 m) = m) by (unfold pow2; unR; apply sqrt_square; lra). assert (Em : pow2 m = m * m) by reflexivity.
    rewrite ?Sq, ?Su, ?Ss, ?Sm, ?Eq, ?Eu, ?Es, ?Em. rewrite ?Eq, ?Eu, ?Es, ?Em in *. clear Sq Su Ss Sm Eq Eu Es Em P1 P2 P4. clearbody m p.
    apply sq_eq in H0; [|assumption|assumption]. subst u.
    apply sq_eq in H1; [|assumption|assumption]. subst m.
    apply sq_ne in H2.
    apply id_QUM_4; try assumption; try (apply landen_sq; try assumption; apply HT; simpl; tauto).
  Qed.
  Lemma id_case_QUM_5 (o : Z) : (fun o => xtt_QUM_5 dilog (a22 (mq2 p)) (sqrt (a22 (mq2 p))) (tc_msq2 c) (sqrt (tc_msq2 c)) (LQ p o)) o = k5 ((fun o => yta_QUM_0 (sqrt (a22 (mq2 p))) (LQ p o)) o)
    ((fun o => yta_QUM_1 (sqrt (a22 (mq2 p))) (LQ p o)) o)
    ((fun o => yta2_QUM_0 dilog (a22 (mq2 p)) (sqrt (a22 (mq2 p))) (tc_msq2 c) (LQ p o)) o)
    ((fun o => yta2_QUM_1 dilog (a22 (mq2 p)) (sqrt (a22 (mq2 p))) (tc_msq2 c) (LQ p o)) o)
    ((fun o => yta2_QUM_2 dilog (a22 (mq2 p)) (sqrt (a22 (mq2 p))) (tc_msq2 c) (LQ p o)) o)
    ((fun o => lat_QU_0 (a22 (mq2 p)) (LQ p o)) o)
    ((fun o => lat_QU_1 (a22 (mq2 p)) (LQ p o)) o)
    ((fun o => lat_QU_2 (a22 (mq2 p)) (LQ p o)) o)
    ((fun o => lat_QU_3 (a22 (mq2 p)) (LQ p o)) o)
    ((fun o => lat_QU_4 (a22 (mq2 p)) (LQ p o)) o)
    ((fun o => lata_QUM_0 (a22 (mq2 p)) (sqrt (a22 (mq2 p))) (LQ p o)) o)
    ((fun o => lata_QUM_1 (a22 (mq2 p)) (sqrt (a22 (mq2 p))) (LQ p o)) o)
    ((fun o => lata_QUM_2 (a22 (mq2 p)) (sqrt (a22 (mq2 p))) (LQ p o)) o)
    ((fun o => lata_QUM_3 (a22 (mq2 p)) (sqrt (a22 (mq2 p))) (LQ p o)) o)
    ((fun o => lata_QUM_4 (a22 (mq2 p)) (sqrt (a22 (mq2 p))) (LQ p o)) o)
    ((fun o => lata_QUM_5 (a22 (mq2 p)) (sqrt (a22 (mq2 p))) (LQ p o)) o)
    ((fun o => g3v (LQ p o) (ln (a22 (mq2 p))) (ln (a22 (mu2 p))) (ln (pow2 (MG p))) (ln (tc_msq2 c))) o).
  Proof.
    clear HL. cbv beta. generalize (LQ p o) as L. intros L. destruct pos_QUM as (P1 & P2 & P3 & P4). clear HP.
    destruct (root _ P1) as (q & Pq & Eq & Sq). destruct (root _ P2) as (u & Pu & Eu & Su). destruct (root _ P4) as (s & Ps & Es & Ss).
    set (m := MG p) in *. assert (Sm : sqrt (pow2 m) = m) by (unfold pow2; unR; apply sqrt_square; lra). assert (Em : pow2 m = m * m) by reflexivity.
    rewrite ?Sq, ?Su, ?Ss, ?Sm, ?Eq, ?Eu, ?Es, ?Em. rewrite ?Eq, ?Eu, ?Es, ?Em in *. clear Sq Su Ss Sm Eq Eu Es Em P1 P2 P4. clearbody m p.
    apply sq_eq in H0; [|assumption|assumption]. subst u.
    apply sq_eq in H1; [|assumption|assumption]. subst m.
    apply sq_ne in H2.
    apply id_QUM_5; try assumption; try (apply landen_sq; try assumption; apply HT; simpl; tauto).
  Qed.
  Lemma id_case_QUM_6 (o : Z) : (fun o => xtt_QUM_6 dilog (a22 (mq2 p)) (sqrt (a22 (mq2 p))) (tc_msq2 c) (sqrt (tc_msq2 c)) (LQ p o)) o = k6 ((fun o => yta_QUM_0 (sqrt (a22 (mq2 p))) (LQ p o)) o)
    ((fun o => yta_QUM_1 (sqrt (a22 (mq2 p))) (LQ p o)) o)
    ((fun o => yta2_QUM_0 dilog (a22 (mq2 p)) (sqrt (a22 (mq2 p))) (tc_msq2 c) (LQ p o)) o)
    ((fun o => yta2_QUM_1 dilog (a22 (mq2 p)) (sqrt (a22 (mq2 p))) (tc_msq2 c) (LQ p o)) o)
    ((fun o => yta2_QUM_2 dilog (a22 (mq2 p)) (sqrt (a22 (mq2 p))) (tc_msq2 c) (LQ p o)) o)
    ((fun o => lat_QU_0 (a22 (mq2 p)) (LQ p o)) o)
    ((fun o => lat_QU_1 (a22 (mq2 p)) (LQ p o)) o)
    ((fun o => lat_QU_2 (a22 (mq2 p)) (LQ p o)) o)
    ((fun o => lat_QU_3 (a22 (mq2 p)) (LQ p o)) o)
    ((fun o => lat_QU_4 (a22 (mq2 p)) (LQ p o)) o)
    ((fun o => lata_QUM_0 (a22 (mq2 p)) (sqrt (a22 (mq2 p))) (LQ p o)) o)
    ((fun o => lata_QUM_1 (a22 (mq2 p)) (sqrt (a22 (mq2 p))) (LQ p o)) o)
    ((fun o => lata_QUM_2 (a22 (mq2 p)) (sqrt (a22 (mq2 p))) (LQ p o)) o)
    ((fun o => lata_QUM_3 (a22 (mq2 p)) (sqrt (a22 (mq2 p))) (LQ p o)) o)
    ((fun o => lata_QUM_4 (a22 (mq2 p)) (sqrt (a22 (mq2 p))) (LQ p o)) o)
    ((fun o => lata_QUM_5 (a22 (mq2 p)) (sqrt (a22 (mq2 p))) (LQ p o)) o)
    ((fun o => g3v (LQ p o) (ln (a22 (mq2 p))) (ln (a22 (mu2 p))) (ln (pow2 (MG p))) (ln (tc_msq2 c))) o).
  Proof.
    clear HL. cbv beta. generalize (LQ p o) as L. intros L. destruct pos_QUM as (P1 & P2 & P3 & P4). clear HP.
    destruct (root _ P1) as (q & Pq & Eq & Sq). destruct (root _ P2) as (u & Pu & Eu & Su). destruct (root _ P4) as (s & Ps & Es & Ss).
    set (m := MG p) in *. assert (Sm : sqrt (pow2 m) = m) by (unfold pow2; unR; apply sqrt_square; lra). assert (Em : pow2 m = m * m) by reflexivity.
    rewrite ?Sq, ?Su, ?Ss, ?Sm, ?Eq, ?Eu, ?Es, ?Em. rewrite ?Eq, ?Eu, ?Es, ?Em in *. clear Sq Su Ss Sm Eq Eu Es Em P1 P2 P4. clearbody m p.
    apply sq_eq in H0; [|assumption|assumption]. subst u.
    apply sq_eq in H1; [|assumption|assumption]. subst m.
    apply sq_ne in H2.
    apply id_QUM_6; try assumption; try (apply landen_sq; try assumption; apply HT; simpl; tauto).
  Qed.
  Lemma case_QUM A Ab Atau : result (with_trilinears c A Ab Atau) co_QUM (calcXt (tc_p (with_trilinears c A Ab Atau))).
  Proof.
    set (c' := with_trilinears c A Ab Atau). set (X := calcXt (tc_p c')).
    apply (assemble c' X (fun o => yta_QUM_0 (sqrt (a22 (mq2 p))) (LQ p o))
    (fun o => yta_QUM_1 (sqrt (a22 (mq2 p))) (LQ p o))
    (fun o => yta2_QUM_0 dilog (a22 (mq2 p)) (sqrt (a22 (mq2 p))) (tc_msq2 c) (LQ p o))
    (fun o => yta2_QUM_1 dilog (a22 (mq2 p)) (sqrt (a22 (mq2 p))) (tc_msq2 c) (LQ p o))
    (fun o => yta2_QUM_2 dilog (a22 (mq2 p)) (sqrt (a22 (mq2 p))) (tc_msq2 c) (LQ p o))
    (fun o => lat_QU_0 (a22 (mq2 p)) (LQ p o))
    (fun o => lat_QU_1 (a22 (mq2 p)) (LQ p o))
    (fun o => lat_QU_2 (a22 (mq2 p)) (LQ p o))
    (fun o => lat_QU_3 (a22 (mq2 p)) (LQ p o))
    (fun o => lat_QU_4 (a22 (mq2 p)) (LQ p o))
    (fun o => lata_QUM_0 (a22 (mq2 p)) (sqrt (a22 (mq2 p))) (LQ p o))
    (fun o => lata_QUM_1 (a22 (mq2 p)) (sqrt (a22 (mq2 p))) (LQ p o))
    (fun o => lata_QUM_2 (a22 (mq2 p)) (sqrt (a22 (mq2 p))) (LQ p o))
    (fun o => lata_QUM_3 (a22 (mq2 p)) (sqrt (a22 (mq2 p))) (LQ p o))
    (fun o => lata_QUM_4 (a22 (mq2 p)) (sqrt (a22 (mq2 p))) (LQ p o))
    (fun o => lata_QUM_5 (a22 (mq2 p)) (sqrt (a22 (mq2 p))) (LQ p o))
    (fun o => g3v (LQ p o) (ln (a22 (mq2 p))) (ln (a22 (mu2 p))) (ln (pow2 (MG p))) (ln (tc_msq2 c)))
    (fun o => xtt_QUM_4 dilog (a22 (mq2 p)) (sqrt (a22 (mq2 p))) (tc_msq2 c) (sqrt (tc_msq2 c)) (LQ p o))
    (fun o => xtt_QUM_5 dilog (a22 (mq2 p)) (sqrt (a22 (mq2 p))) (tc_msq2 c) (sqrt (tc_msq2 c)) (LQ p o))
    (fun o => xtt_QUM_6 dilog (a22 (mq2 p)) (sqrt (a22 (mq2 p))) (tc_msq2 c) (sqrt (tc_msq2 c)) (LQ p o))); intros o; change (massLimit3LThreshold (tc_p c')) with (massLimit3LThreshold p); unfold p at 1; try rewrite HL.
    - eexists. exact (lata2_QUM_eq (tc_p c') (tc_msq2 c) _ o).
    - exact (g3_value c o HP).
    - exact (eq_trans (yta_QUM_eq (tc_p c') o) (f_equal Ok (yta_QUM_poly (sqrt (a22 (mq2 p))) X (LQ p o)))).
    - exact (eq_trans (yta2_QUM_eq (tc_p c') (tc_msq2 c) o) (f_equal Ok (yta2_QUM_poly dilog (a22 (mq2 p)) (sqrt (a22 (mq2 p))) (tc_msq2 c) X (LQ p o)))).
    - exact (eq_trans (lat_QU_eq (tc_p c') o) (f_equal Ok (lat_QU_poly (a22 (mq2 p)) X (LQ p o)))).
    - exact (eq_trans (lata_QUM_eq (tc_p c') o) (f_equal Ok (lata_QUM_poly (a22 (mq2 p)) (sqrt (a22 (mq2 p))) X (LQ p o)))).
    - refine (eq_trans (xtt_QUM_eq (tc_p c') (tc_msq2 c) 4 o) _). simpl negb. cbv iota. rewrite p4. exact (f_equal Ok (xtt_QUM_poly dilog (a22 (mq2 p)) (sqrt (a22 (mq2 p))) (tc_msq2 c) (sqrt (tc_msq2 c)) (X^4) (0) (0) (LQ p o))).
    - refine (eq_trans (xtt_QUM_eq (tc_p c') (tc_msq2 c) 5 o) _). simpl negb. cbv iota. rewrite p5. exact (f_equal Ok (xtt_QUM_poly dilog (a22 (mq2 p)) (sqrt (a22 (mq2 p))) (tc_msq2 c) (sqrt (tc_msq2 c)) (0) (X^5) (0) (LQ p o))).
    - refine (eq_trans (xtt_QUM_eq (tc_p c') (tc_msq2 c) 6 o) _). simpl negb. cbv iota. rewrite p6. exact (f_equal Ok (xtt_QUM_poly dilog (a22 (mq2 p)) (sqrt (a22 (mq2 p))) (tc_msq2 c) (sqrt (tc_msq2 c)) (0) (0) (X^6) (LQ p o))).
    - exact (id_case_QUM_4 o).
    - exact (id_case_QUM_5 o).
    - exact (id_case_QUM_6 o).
  Qed.
End Case_QUM.

Section Case_D.
  Context (c : TC R) (HP : phys_tc c) (HL : massLimit3LThreshold (tc_p c) = DEGENERATE).
  Let p := tc_p c.
  Context (H0 : (a22 (mu2 p)) = (a22 (mq2 p))) (H1 : (pow2 (MG p)) = (a22 (mq2 p))) (H2 : (tc_msq2 c) = (a22 (mq2 p)))
    (HT : free_of_two [a22 (mq2 p); a22 (mu2 p); pow2 (MG p); tc_msq2 c]).
  Definition co_D (o : Z) : nat -> R := coefs ((fun o => yta_QUM_0 (sqrt (a22 (mq2 p))) (LQ p o)) o)
    ((fun o => yta_QUM_1 (sqrt (a22 (mq2 p))) (LQ p o)) o)
    ((fun o => yta2_D_0 (a22 (mq2 p)) (sqrt (a22 (mq2 p))) (LQ p o)) o)
    ((fun o => yta2_D_1 (a22 (mq2 p)) (sqrt (a22 (mq2 p))) (LQ p o)) o)
    ((fun o => yta2_D_2 (a22 (mq2 p)) (sqrt (a22 (mq2 p))) (LQ p o)) o)
    ((fun o => lat_QU_0 (a22 (mq2 p)) (LQ p o)) o)
    ((fun o => lat_QU_1 (a22 (mq2 p)) (LQ p o)) o)
    ((fun o => lat_QU_2 (a22 (mq2 p)) (LQ p o)) o)
    ((fun o => lat_QU_3 (a22 (mq2 p)) (LQ p o)) o)
    ((fun o => lat_QU_4 (a22 (mq2 p)) (LQ p o)) o)
    ((fun o => lata_QUM_0 (a22 (mq2 p)) (sqrt (a22 (mq2 p))) (LQ p o)) o)
    ((fun o => lata_QUM_1 (a22 (mq2 p)) (sqrt (a22 (mq2 p))) (LQ p o)) o)
    ((fun o => lata_QUM_2 (a22 (mq2 p)) (sqrt (a22 (mq2 p))) (LQ p o)) o)
    ((fun o => lata_QUM_3 (a22 (mq2 p)) (sqrt (a22 (mq2 p))) (LQ p o)) o)
    ((fun o => lata_QUM_4 (a22 (mq2 p)) (sqrt (a22 (mq2 p))) (LQ p o)) o)
    ((fun o => lata_QUM_5 (a22 (mq2 p)) (sqrt (a22 (mq2 p))) (LQ p o)) o)
    ((fun o => g3v (LQ p o) (ln (a22 (mq2 p))) (ln (a22 (mu2 p))) (ln (pow2 (MG p))) (ln (tc_msq2 c))) o).
  Lemma pos_D : 0 < a22 (mq2 p) /\ 0 < a22 (mu2 p) /\ 0 < MG p /\ 0 < tc_msq2 c.
  Proof. destruct HP as [(Hm & _ & _ & _ & _ & _ & HG & _) Hs]. repeat split; try assumption; apply Hm; simpl; tauto. Qed.
  Lemma id_case_D_4 (o : Z) : (fun o => xtt_D_4 (sqrt (a22 (mq2 p))) (LQ p o)) o = k4 ((fun o => yta_QUM_0 (sqrt (a22 (mq2 p))) (LQ p o)) o)
    ((fun o => yta_QUM_1 (sqrt (a22 (mq2 p))) (LQ p o)) o)
    ((fun o => yta2_D_0 (a22 (mq2 p)) (sqrt (a22 (mq2 p))) (LQ p o)) o)
    ((fun o => yta2_D_1 (a22 (mq2 p)) (sqrt (a22 (mq2 p))) (LQ p o)) o)
    ((fun o => yta2_D_2 (a22 (mq2 p)) (sqrt (a22 (mq2 p))) (LQ p o)) o)
    ((fun o => lat_QU_0 (a22 (mq2 p)) (LQ p o)) o)
    ((fun o => lat_QU_1 (a22 (mq2 p)) (LQ p o)) o)
    ((fun o => lat_QU_2 (a22 (mq2 p)) (LQ p o)) o)
    ((fun o => lat_QU_3 (a22 (mq2 p)) (LQ p o)) o)
    ((fun o => lat_QU_4 (a22 (mq2 p)) (LQ p o)) o)
    ((fun o => lata_QUM_0 (a22 (mq2 p)) (sqrt (a22 (mq2 p))) (LQ p o)) o)
    ((fun o => lata_QUM_1 (a22 (mq2 p)) (sqrt (a22 (mq2 p))) (LQ p o)) o)
    ((fun o => lata_QUM_2 (a22 (mq2 p)) (sqrt (a22 (mq2 p))) (LQ p o)) o)
    ((fun o => lata_QUM_3 (a22 (mq2 p)) (sqrt (a22 (mq2 p))) (LQ p o)) o)
    ((fun o => lata_QUM_4 (a22 (mq2 p)) (sqrt (a22 (mq2 p))) (LQ p o)) o)
    ((fun o => lata_QUM_5 (a22 (mq2 p)) (sqrt (a22 (mq2 p))) (LQ p o)) o)
    ((fun o => g3v (LQ p o) (ln (a22 (mq2 p))) (ln (a22 (mu2 p))) (ln (pow2 (MG p))) (ln (tc_msq2 c))) o).
  Proof.
    clear HL. cbv beta. generalize (LQ p o) as L. intros L. destruct pos_D as (P1 & P2 & P3 & P4). clear HP.
    destruct (root _ P1) as (q & Pq & Eq & Sq). destruct (root _ P2) as (u & Pu & Eu & Su). destruct (root _ P4) as (s & Ps & Es & Ss).
    set (m := MG p) in *. assert (Sm : sqrt (pow2 m) = m) by (unfold pow2; unR; apply sqrt_square; lra). assert (Em : pow2 m = m * m) by reflexivity.
    rewrite ?Sq, ?Su, ?Ss, ?Sm, ?Eq, ?Eu, ?Es, ?Em. rewrite ?Eq, ?Eu, ?Es, ?Em in *. clear Sq Su Ss Sm Eq Eu Es Em P1 P2 P4. clearbody m p.
    apply sq_eq in H0; [|assumption|assumption]. subst u.
    apply sq_eq in H1; [|assumption|assumption]. subst m.
    apply sq_eq in H2; [|assumption|assumption]. subst s.
    apply id_D_4; try assumption; idtac.
  Qed.
  Lemma id_case_D_5 (o : Z) : (fun o => xtt_D_5 (sqrt (a22 (mq2 p))) (LQ p o)) o = k5 ((fun o => yta_QUM_0 (sqrt (a22 (mq2 p))) (LQ p o)) o)
    ((fun o => yta_QUM_1 (sqrt (a22 (mq2 p))) (LQ p o)) o)
    ((fun o => yta2_D_0 (a22 (mq2 p)) (sqrt (a22 (mq2 p))) (LQ p o)) o)
    ((fun o => yta2_D_1 (a22 (mq2 p)) (sqrt (a22 (mq2 p))) (LQ p o)) o)
    ((fun o => yta2_D_2 (a22 (mq2 p)) (sqrt (a22 (mq2 p))) (LQ p o)) o)
    ((fun o => lat_QU_0 (a22 (mq2 p)) (LQ p o)) o)
    ((fun o => lat_QU_1 (a22 (mq2 p)) (LQ p o)) o)
    ((fun o => lat_QU_2 (a22 (mq2 p)) (LQ p o)) o)
    ((fun o => lat_QU_3 (a22 (mq2 p)) (LQ p o)) o)
    ((fun o => lat_QU_4 (a22 (mq2 p)) (LQ p o)) o)
    ((fun o => lata_QUM_0 (a22 (mq2 p)) (sqrt (a22 (mq2 p))) (LQ p o)) o)
    ((fun o => lata_QUM_1 (a22 (mq2 p)) (sqrt (a22 (mq2 p))) (LQ p o)) o)
    ((fun o => lata_QUM_2 (a22 (mq2 p)) (sqrt (a22 (mq2 p))) (LQ p o)) o)
    ((fun o => lata_QUM_3 (a22 (mq2 p)) (sqrt (a22 (mq2 p))) (LQ p o)) o)
    ((fun o => lata_QUM_4 (a22 (mq2 p)) (sqrt (a22 (mq2 p))) (LQ p o)) o)
    ((fun o => lata_QUM_5 (a22 (mq2 p)) (sqrt (a22 (mq2 p))) (LQ p o)) o)
    ((fun o => g3v (LQ p o) (ln (a22 (mq2 p))) (ln (a22 (mu2 p))) (ln (pow2 (MG p))) (ln (tc_msq2 c))) o).
  Proof.
    clear HL. cbv beta. generalize (LQ p o) as L. intros L. destruct pos_D as (P1 & P2 & P3 & P4). clear HP.
    destruct (root _ P1) as (q & Pq & Eq & Sq). destruct (root _ P2) as (u & Pu & Eu & Su). destruct (root _ P4) as (s & Ps & Es & Ss).
    set (m := MG p) in *. assert (Sm : sqrt (pow2 m) = m) by (unfold pow2; unR; apply sqrt_square; lra). assert (Em : pow2 m = m * m) by reflexivity.
    rewrite ?Sq, ?Su, ?Ss, ?Sm, ?Eq, ?Eu, ?Es, ?Em. rewrite ?Eq, ?Eu, ?Es, ?Em in *. clear Sq Su Ss Sm Eq Eu Es Em P1 P2 P4. clearbody m p.
    apply sq_eq in H0; [|assumption|assumption]. subst u.
    apply sq_eq in H1; [|assumption|assumption]. subst m.
    apply sq_eq in H2; [|assumption|assumption]. subst s.
    apply id_D_5; try assumption; idtac.
  Qed.
  Lemma id_case_D_6 (o : Z) : (fun o => xtt_D_6 (sqrt (a22 (mq2 p))) (LQ p o)) o = k6 ((fun o => yta_QUM_0 (sqrt (a22 (mq2 p))) (LQ p o)) o)
    ((fun o => yta_QUM_1 (sqrt (a22 (mq2 p))) (LQ p o)) o)
    ((fun o => yta2_D_0 (a22 (mq2 p)) (sqrt (a22 (mq2 p))) (LQ p o)) o)
    ((fun o => yta2_D_1 (a22 (mq2 p)) (sqrt (a22 (mq2 p))) (LQ p o)) o)
    ((fun o => yta2_D_2 (a22 (mq2 p)) (sqrt (a22 (mq2 p))) (LQ p o)) o)
    ((fun o => lat_QU_0 (a22 (mq2 p)) (LQ p o)) o)
    ((fun o => lat_QU_1 (a22 (mq2 p)) (LQ p o)) o)
    ((fun o => lat_QU_2 (a22 (mq2 p)) (LQ p o)) o)
    ((fun o => lat_QU_3 (a22 (mq2 p)) (LQ p o)) o)
    ((fun o => lat_QU_4 (a22 (mq2 p)) (LQ p o)) o)
    ((fun o => lata_QUM_0 (a22 (mq2 p)) (sqrt (a22 (mq2 p))) (LQ p o)) o)
    ((fun o => lata_QUM_1 (a22 (mq2 p)) (sqrt (a22 (mq2 p))) (LQ p o)) o)
    ((fun o => lata_QUM_2 (a22 (mq2 p)) (sqrt (a22 (mq2 p))) (LQ p o)) o)
    ((fun o => lata_QUM_3 (a22 (mq2 p)) (sqrt (a22 (mq2 p))) (LQ p o)) o)
    ((fun o => lata_QUM_4 (a22 (mq2 p)) (sqrt (a22 (mq2 p))) (LQ p o)) o)
    ((fun o => lata_QUM_5 (a22 (mq2 p)) (sqrt (a22 (mq2 p))) (LQ p o)) o)
    ((fun o => g3v (LQ p o) (ln (a22 (mq2 p))) (ln (a22 (mu2 p))) (ln (pow2 (MG p))) (ln (tc_msq2 c))) o).
  Proof.
    clear HL. cbv beta. generalize (LQ p o) as L. intros L. destruct pos_D as (P1 & P2 & P3 & P4). clear HP.
    destruct (root _ P1) as (q & Pq & Eq & Sq). destruct (root _ P2) as (u & Pu & Eu & Su). destruct (root _ P4) as (s & Ps & Es & Ss).
    set (m := MG p) in *. assert (Sm : sqrt (pow2 m) = m) by (unfold pow2; unR; apply sqrt_square; lra). assert (Em : pow2 m = m * m) by reflexivity.
    rewrite ?Sq, ?Su, ?Ss, ?Sm, ?Eq, ?Eu, ?Es, ?Em. rewrite ?Eq, ?Eu, ?Es, ?Em in *. clear Sq Su Ss Sm Eq Eu Es Em P1 P2 P4. clearbody m p.
    apply sq_eq in H0; [|assumption|assumption]. subst u.
    apply sq_eq in H1; [|assumption|assumption]. subst m.
    apply sq_eq in H2; [|assumption|assumption]. subst s.
    apply id_D_6; try assumption; idtac.
  Qed.
  Lemma case_D A Ab Atau : result (with_trilinears c A Ab Atau) co_D (calcXt (tc_p (with_trilinears c A Ab Atau))).
  Proof.
    set (c' := with_trilinears c A Ab Atau). set (X := calcXt (tc_p c')).
    apply (assemble c' X (fun o => yta_QUM_0 (sqrt (a22 (mq2 p))) (LQ p o))
    (fun o => yta_QUM_1 (sqrt (a22 (mq2 p))) (LQ p o))
    (fun o => yta2_D_0 (a22 (mq2 p)) (sqrt (a22 (mq2 p))) (LQ p o))
    (fun o => yta2_D_1 (a22 (mq2 p)) (sqrt (a22 (mq2 p))) (LQ p o))
    (fun o => yta2_D_2 (a22 (mq2 p)) (sqrt (a22 (mq2 p))) (LQ p o))
    (fun o => lat_QU_0 (a22 (mq2 p)) (LQ p o))
    (fun o => lat_QU_1 (a22 (mq2 p)) (LQ p o))
    (fun o => lat_QU_2 (a22 (mq2 p)) (LQ p o))
    (fun o => lat_QU_3 (a22 (mq2 p)) (LQ p o))
    (fun o => lat_QU_4 (a22 (mq2 p)) (LQ p o))
    (fun o => lata_QUM_0 (a22 (mq2 p)) (sqrt (a22 (mq2 p))) (LQ p o))
    (fun o => lata_QUM_1 (a22 (mq2 p)) (sqrt (a22 (mq2 p))) (LQ p o))
    (fun o => lata_QUM_2 (a22 (mq2 p)) (sqrt (a22 (mq2 p))) (LQ p o))
    (fun o => lata_QUM_3 (a22 (mq2 p)) (sqrt (a22 (mq2 p))) (LQ p o))
    (fun o => lata_QUM_4 (a22 (mq2 p)) (sqrt (a22 (mq2 p))) (LQ p o))
    (fun o => lata_QUM_5 (a22 (mq2 p)) (sqrt (a22 (mq2 p))) (LQ p o))
    (fun o => g3v (LQ p o) (ln (a22 (mq2 p))) (ln (a22 (mu2 p))) (ln (pow2 (MG p))) (ln (tc_msq2 c)))
    (fun o => xtt_D_4 (sqrt (a22 (mq2 p))) (LQ p o))
    (fun o => xtt_D_5 (sqrt (a22 (mq2 p))) (LQ p o))
    (fun o => xtt_D_6 (sqrt (a22 (mq2 p))) (LQ p o))); intros o; change (massLimit3LThreshold (tc_p c')) with (massLimit3LThreshold p); unfold p at 1; try rewrite HL.
    - eexists. exact (lata2_QUM_eq (tc_p c') (tc_msq2 c) _ o).
    - exact (g3_value c o HP).
    - exact (eq_trans (yta_QUM_eq (tc_p c') o) (f_equal Ok (yta_QUM_poly (sqrt (a22 (mq2 p))) X (LQ p o)))).
    - exact (eq_trans (yta2_D_eq (tc_p c') (tc_msq2 c) o) (f_equal Ok (yta2_D_poly (a22 (mq2 p)) (sqrt (a22 (mq2 p))) X (LQ p o)))).
    - exact (eq_trans (lat_QU_eq (tc_p c') o) (f_equal Ok (lat_QU_poly (a22 (mq2 p)) X (LQ p o)))).
    - exact (eq_trans (lata_QUM_eq (tc_p c') o) (f_equal Ok (lata_QUM_poly (a22 (mq2 p)) (sqrt (a22 (mq2 p))) X (LQ p o)))).
    - refine (eq_trans (xtt_D_eq (tc_p c') (tc_msq2 c) 4 o) _). simpl negb. cbv iota. rewrite p4. exact (f_equal Ok (xtt_D_poly (sqrt (a22 (mq2 p))) (X^4) (0) (0) (LQ p o))).
    - refine (eq_trans (xtt_D_eq (tc_p c') (tc_msq2 c) 5 o) _). simpl negb. cbv iota. rewrite p5. exact (f_equal Ok (xtt_D_poly (sqrt (a22 (mq2 p))) (0) (X^5) (0) (LQ p o))).
    - refine (eq_trans (xtt_D_eq (tc_p c') (tc_msq2 c) 6 o) _). simpl negb. cbv iota. rewrite p6. exact (f_equal Ok (xtt_D_poly (sqrt (a22 (mq2 p))) (0) (0) (X^6) (LQ p o))).
    - exact (id_case_D_4 o).
    - exact (id_case_D_5 o).
    - exact (id_case_D_6 o).
  Qed.
End Case_D.

