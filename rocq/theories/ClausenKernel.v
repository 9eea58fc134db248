(** * The rational approximations used by [clausen_2] (proof tool for C28) *)
From Coq Require Import Reals ZArith List Bool Lra Lia QArith Qreals.
From Coquelicot Require Import Coquelicot.
From Verif Require Import DilogKernel DilogApprox QInterval ConstBounds ClausenSpec ClausenExists ClausenData ClausenSeries ClausenSeries2.
Import ListNotations.
Open Scope R_scope.

(** ** |P/Q - S/w| <= b/10^20 on [0, 5/2] *)
Definition rat_D (P Q S : list Z) (w : Z) : list Z := padd (pscal w P) (pscal (-1) (pmul Q S)).
Definition rat_check (P Q S : list Z) (w b : Z) (l : list (Z * Z)) : bool :=
  let D := rat_D P Q S w in let '(rD, fD) := pgrow 64 D in let '(rQ, fQ) := pgrow 64 Q in cover 0 160 l && forallb (wpiece_ok rD rQ (b * w * fD) (10 ^ 20 * fQ)) l.
Lemma rat_ok P Q S w b l t : rat_check P Q S w b l = true -> (0 < w)%Z -> 0 <= t <= 5 / 2 -> 0 < pev Q t /\ Rabs (pev P t / pev Q t - pev S t / IZR w) <= IZR b / 10 ^ 20.
Proof.
  unfold rat_check. intros HC Hw Ht. set (D := rat_D P Q S w) in *.
  assert (HD := pgrow_ok 64 D t ltac:(lia)). assert (HQ := pgrow_ok 64 Q t ltac:(lia)). destruct (pgrow 64 D) as [rD fD]. destruct (pgrow 64 Q) as [rQ fQ].
  destruct HD as [FD HD]. destruct HQ as [FQ HQ].
  destruct (andb_prop _ _ HC) as [PC1 PC2]. assert (HB := wpieces_sound rD rQ (b * w * fD) (10 ^ 20 * fQ) l ltac:(lia) PC2 0%Z 160%Z (64 * t) PC1 ltac:(split; lra)). destruct HB as [B1 B2].
  rewrite !mult_IZR in B2. replace (IZR (10 ^ 20)) with (10 ^ 20) in B2 by (simpl; lra). apply IZR_lt in FD, FQ, Hw.
  set (fd := IZR fD) in *. set (fq := IZR fQ) in *. clearbody fd fq.
  assert (HQP : 0 < pev Q t). { assert (0 < 64 * pev rQ (64 * t)) by lra. rewrite HQ in H. apply (Rmult_lt_reg_l fq); [exact FQ|lra]. }
  split; [exact HQP|].
  assert (HDE : pev D t = IZR w * pev P t - pev Q t * pev S t) by (unfold D, rat_D; rewrite padd_ok, !pscal_ok, pmul_ok; ring).
  assert (HDB : Rabs (pev D t) * 10 ^ 20 <= IZR b * IZR w * pev Q t).
  { assert (E1 : pev rD (64 * t) = fd * pev D t / 64) by lra. assert (E2 : pev rQ (64 * t) = fq * pev Q t / 64) by lra.
    rewrite E1, E2 in B2. unfold Rdiv in B2. rewrite !Rabs_mult in B2. rewrite (Rabs_pos_eq fd) in B2 by lra. rewrite (Rabs_pos_eq (/ 64)) in B2 by lra.
    apply (Rmult_le_reg_l (fd * fq / 64)). { assert (0 < fd * fq) by (apply Rmult_lt_0_compat; assumption). lra. }
    unfold Rdiv. lra. }
  replace (pev P t / pev Q t - pev S t / IZR w) with (pev D t / (IZR w * pev Q t)) by (rewrite HDE; field; split; lra).
  apply scaled_abs; [nra|apply pow_lt; lra|]. rewrite <- Rmult_assoc. exact HDB.
Qed.

(** ** below pi/2 (Li2.cpp:262-275); coefficients times 10^25 *)
Definition P1Z : list Z := [ 138888888888888890000000; -4328693020374307100000; 32779814789973427000; -36001540369575084 ]%Z.
Definition Q1Z : list Z := [ 10000000000000000000000000; -361665897466941210000000; 3601582728120263900000; -8364618284218442800 ]%Z.
Definition PL1 : list (Z * Z) := Eval vm_compute in
  (let '(rD, fD) := pgrow 64 (rat_D P1Z Q1Z (tl S1Z) wS1) in let '(rQ, fQ) := pgrow 64 Q1Z in propose 300 (wpiece_ok rD rQ (400 * wS1 * fD) (10 ^ 20 * fQ)) 0 160 4)%Z.
Lemma k1_check : rat_check P1Z Q1Z (tl S1Z) wS1 400 PL1 = true. Proof. vm_compute. reflexivity. Qed.
Lemma k1 y : 0 <= y <= 5 / 2 -> 0 < pev Q1Z y /\ Rabs (y * pev P1Z y / pev Q1Z y - pev S1Z y / IZR wS1) <= y * (400 / 10 ^ 20).
Proof.
  intros Hy. destruct (rat_ok P1Z Q1Z (tl S1Z) wS1 400 PL1 y k1_check eq_refl Hy) as [A B]. split; [exact A|]. assert (WP := wS1_pos).
  change S1Z with (0%Z :: tl S1Z). cbn [pev]. rewrite Rplus_0_l.
  replace (y * pev P1Z y / pev Q1Z y - y * pev (tl S1Z) y / IZR wS1) with (y * (pev P1Z y / pev Q1Z y - pev (tl S1Z) y / IZR wS1)) by (field; lra).
  rewrite Rabs_mult, (Rabs_pos_eq y) by lra. apply Rmult_le_compat_l; lra.
Qed.

(** ** above pi/2 (Li2.cpp:277-290); coefficients times 10^24 *)
Definition P2Z : list Z := [ 640057024461955120000000; -206416553513387830000000; 24175305223497718000000; -1235595528785572800000; 25649833551291124000; -147838291287733200 ]%Z.
Definition Q2Z : list Z := [ 1000000000000000000000000; -252991020156663560000000; 22148751048467057000000; -781839204624574960000; 9543254219631067000; -18184302880448247 ]%Z.
Definition KZ : Z := (8 * 10 ^ 34)%Z.
Definition CZ : Z := (314159265358979324 * 314159265358979324)%Z.
Definition f2 : Z := Eval vm_compute in snd (pgrow KZ P2Z).
Definition P2T : list Z := Eval vm_compute in pstr KZ 1 (pshift (- CZ) (fst (pgrow KZ P2Z))).
Definition Q2T : list Z := Eval vm_compute in pstr KZ 1 (pshift (- CZ) (fst (pgrow KZ Q2Z))).
Definition S2L : list Z := Eval vm_compute in padd [ (ln2Z * wS2)%Z ] (pscal (- 10 ^ 30) S2Z).
Definition PL2 : list (Z * Z) := Eval vm_compute in
  (let '(rD, fD) := pgrow 64 (rat_D P2T Q2T S2L (wS2 * 10 ^ 30)) in let '(rQ, fQ) := pgrow 64 Q2T in propose 300 (wpiece_ok rD rQ (1000 * (wS2 * 10 ^ 30) * fD) (10 ^ 20 * fQ)) 0 160 4)%Z.
Lemma k2_check : rat_check P2T Q2T S2L (wS2 * 10 ^ 30) 1000 PL2 = true. Proof. vm_compute. reflexivity. Qed.
Lemma p10 (n : nat) : IZR (10 ^ Z.of_nat n) = 10 ^ n. Proof. rewrite <- pow_IZR. reflexivity. Qed.
Lemma ln2_near : 0 <= ln 2 - IZR ln2Z / 10 ^ 30 <= 1 / 10 ^ 29.
Proof.
  assert (H := ln2_in). unfold qin in H. assert (P := pow_lt 10 29 ltac:(lra)). assert (P30 : 10 ^ 30 = 10 * 10 ^ 29) by reflexivity.
  assert (A : Q2R (ln2Z # 10 ^ 30) <= Q2R (fst ln2_bounds)) by (apply Qle_Rle; vm_compute; discriminate).
  assert (B : Q2R (snd ln2_bounds) <= Q2R ((ln2Z + 10) # 10 ^ 30)) by (apply Qle_Rle; vm_compute; discriminate).
  assert (E : forall z, Q2R (z # 10 ^ 30) = IZR z * / 10 ^ 30).
  { intros z. unfold Q2R. cbn [Qnum Qden]. change (Z.pos (10 ^ 30)) with (10 ^ Z.of_nat 30)%Z. rewrite p10. reflexivity. }
  rewrite E in A, B. rewrite plus_IZR in B.
  replace (1 / 10 ^ 29) with (10 * / 10 ^ 30) by (rewrite P30; field; lra). unfold Rdiv. set (l := IZR ln2Z) in *. set (w := / 10 ^ 30) in *. set (q1 := Q2R (fst ln2_bounds)) in *. set (q2 := Q2R (snd ln2_bounds)) in *. clearbody l w q1 q2. lra.
Qed.
Lemma k2 t z : 0 <= t <= 5 / 2 -> z = t - IZR CZ / IZR KZ -> 0 < pev Q2Z z /\ Rabs (pev P2Z z / pev Q2Z z - (ln 2 - pev S2Z t / IZR wS2)) <= 1001 / 10 ^ 20.
Proof.
  intros Ht Ez. assert (WP := wS2_pos). assert (KP : 0 < IZR KZ) by (apply IZR_lt; reflexivity).
  destruct (rat_ok P2T Q2T S2L (wS2 * 10 ^ 30) 1000 PL2 t k2_check eq_refl Ht) as [A B].
  assert (HP : pev P2T t = IZR f2 / IZR KZ * pev P2Z z).
  { change P2T with (pstr KZ 1 (pshift (- CZ) (fst (pgrow KZ P2Z)))). rewrite pstr_ok, pshift_ok, opp_IZR, Rmult_1_l.
    assert (G := pgrow_ok KZ P2Z z eq_refl). rewrite (surjective_pairing (pgrow KZ P2Z)) in G. destruct G as [_ G]. change (snd (pgrow KZ P2Z)) with f2 in G.
    replace (IZR KZ * t + - IZR CZ) with (IZR KZ * z) by (rewrite Ez; field; lra). apply (Rmult_eq_reg_l (IZR KZ)); [|lra]. rewrite G. field. lra. }
  assert (HQ : pev Q2T t = IZR f2 / IZR KZ * pev Q2Z z).
  { change Q2T with (pstr KZ 1 (pshift (- CZ) (fst (pgrow KZ Q2Z)))). rewrite pstr_ok, pshift_ok, opp_IZR, Rmult_1_l.
    assert (G := pgrow_ok KZ Q2Z z eq_refl). rewrite (surjective_pairing (pgrow KZ Q2Z)) in G. destruct G as [_ G]. change (snd (pgrow KZ Q2Z)) with f2 in G.
    replace (IZR KZ * t + - IZR CZ) with (IZR KZ * z) by (rewrite Ez; field; lra). apply (Rmult_eq_reg_l (IZR KZ)); [|lra]. rewrite G. field. lra. }
  assert (FK : 0 < IZR f2 / IZR KZ) by (apply Rdiv_lt_0_compat; [apply IZR_lt; reflexivity|exact KP]). set (fk := IZR f2 / IZR KZ) in *. clearbody fk.
  assert (QP : 0 < pev Q2Z z) by (apply (Rmult_lt_reg_l fk); [exact FK|]; rewrite <- HQ, Rmult_0_r; exact A). split; [exact QP|].
  assert (HS : pev S2L t / IZR (wS2 * 10 ^ 30) = IZR ln2Z / 10 ^ 30 - pev S2Z t / IZR wS2).
  { change S2L with (padd [ (ln2Z * wS2)%Z ] (pscal (- 10 ^ 30) S2Z)). rewrite padd_ok, pscal_ok. cbn [pev]. rewrite !mult_IZR, opp_IZR. change (10 ^ 30)%Z with (10 ^ Z.of_nat 30)%Z; rewrite p10; assert (P := pow_lt 10 30 ltac:(lra)); set (w := 10 ^ 30) in *; clearbody w; field; repeat split; lra. }
  rewrite HP, HQ, HS in B. clear HP HQ HS A.
  assert (EQ : fk * pev P2Z z / (fk * pev Q2Z z) = pev P2Z z / pev Q2Z z). { set (p := pev P2Z z) in *. set (q := pev Q2Z z) in *. clearbody p q. field. split; lra. }
  rewrite EQ in B. clear EQ.
  assert (L := ln2_near). set (a := pev P2Z z / pev Q2Z z) in *. set (s := pev S2Z t / IZR wS2) in *. set (l := IZR ln2Z / 10 ^ 30) in *. clearbody a s l.
  assert (N : 1 / 10 ^ 29 <= 1 / 10 ^ 20). { assert (P := pow_lt 10 20 ltac:(lra)). replace (10 ^ 29) with (10 ^ 20 * 10 ^ 9) by (rewrite <- pow_add; reflexivity). unfold Rdiv. rewrite !Rmult_1_l. apply Rinv_le_contravar; [exact P|]. assert (1 <= 10 ^ 9) by (apply pow_R1_Rle; lra). nra. }
  clear - B L N. set (e := 1 / 10 ^ 20) in *. replace (1001 / 10 ^ 20) with (1001 * e) by (unfold e; field; apply pow_nonzero; lra). replace (1000 / 10 ^ 20) with (1000 * e) in B by (unfold e; field; apply pow_nonzero; lra). set (d := 1 / 10 ^ 29) in *. clearbody e d.
  replace (a - (ln 2 - s)) with ((a - (l - s)) + - (ln 2 - l)) by ring. eapply Rle_trans; [apply Rabs_triang|]. rewrite Rabs_Ropp, (Rabs_pos_eq (ln 2 - l)) by lra. lra.
Qed.
