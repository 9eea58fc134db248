(** * The rational approximation used by [dilog] on [0, 1/2] (real-number semantics) *)
From Coq Require Import Reals ZArith List Bool Lra Lia.
From Coquelicot Require Import Coquelicot.
From Verif Require Import DilogSpec DilogProofs DilogKernel.
Import ListNotations.
Open Scope R_scope.

(** numerator and denominator coefficients (Li2.cpp:72-88) times 10^23 *)
Definition PZ : list Z := [ 99999999999999995020000; -268839268185654234300000; 264772226994731096920000; -115385596078874163550000; 20886077795020607837000; -1085977713415246308400 ]%Z.
Definition QZ : list Z := [ 100000000000000000000000; -293839268185656354850000; 327120932930186353890000; -170767021739542894210000; 41596017228400603836000; -3980134375408448295600; 82743668974466659035 ]%Z.
Definition nS : nat := 48.
Definition wS : Z := Eval vm_compute in (let l := fold_left Z.lcm (map (fun k => Z.of_nat (S k)) (seq 0 nS)) 1%Z in l * l)%Z.
Fixpoint sZ (k : nat) : list Z := match k with O => [] | S k' => sZ k' ++ [ (wS / (Z.of_nat k * Z.of_nat k))%Z ] end.
Definition SZ : list Z := sZ nS.
Definition DZ : list Z := padd (pscal wS PZ) (pscal (-1) (pmul QZ SZ)).
Definition rD := fst (pgrow 512 DZ).
Definition fD := snd (pgrow 512 DZ).
Definition rQ := fst (pgrow 512 QZ).
Definition fQ := snd (pgrow 512 QZ).

Definition PL : list (Z * Z) := [ (1, 1); (4, 2); (10, 4); (18, 4); (26, 4); (38, 8); (50, 4); (62, 8); (78, 8); (94, 8); (110, 8); (126, 8); (142, 8); (158, 8); (170, 4); (178, 4); (186, 4); (194, 4); (202, 4); (210, 4); (218, 4); (226, 4); (234, 4); (240, 2); (244, 2); (248, 2); (251, 1); (253, 1); (255, 1) ]%Z.
Lemma pieces_checked : cover 0 256 PL && forallb (wpiece_ok rD rQ (90 * wS * fD) (10 ^ 18 * fQ)) PL = true.
Proof. vm_compute. reflexivity. Qed.

Lemma div_checked : forallb (fun k => (wS mod (Z.of_nat (S k) * Z.of_nat (S k)) =? 0)%Z) (seq 0 nS) = true.
Proof. vm_compute. reflexivity. Qed.

Lemma pev_app a b x : pev (a ++ b) x = pev a x + x ^ (length a) * pev b x.
Proof. induction a as [|k a IH]; cbn [app pev length pow]; [ring|]. rewrite IH. ring. Qed.
Lemma sZ_length k : length (sZ k) = k.
Proof. induction k as [|k IH]; cbn [sZ]; [reflexivity|]. rewrite app_length, IH. cbn. lia. Qed.
Lemma sZ_ok k x : (S k <= nS)%nat -> x * pev (sZ (S k)) x = IZR wS * sd k x.
Proof.
  assert (HC := div_checked). rewrite forallb_forall in HC.
  assert (HC' : forall j, (j < nS)%nat -> IZR (wS / (Z.of_nat (S j) * Z.of_nat (S j))) = IZR wS / INR (S j) ^ 2).
  { intros j Hj. assert (HM := HC j ltac:(apply in_seq; lia)). apply Z.eqb_eq in HM.
    assert (HE := Z.div_mod wS (Z.of_nat (S j) * Z.of_nat (S j)) ltac:(nia)). rewrite HM in HE.
    assert (HN : INR (S j) <> 0) by (apply not_0_INR; lia). rewrite HE at 2. rewrite Z.add_0_r, !mult_IZR, <- INR_IZR_INZ.
    generalize dependent (INR (S j)). intros r Hr. field. exact Hr. }
  induction k as [|k IH]; intros Hk.
  - change (sZ 1) with [ (wS / (Z.of_nat 1 * Z.of_nat 1))%Z ]. cbn [pev]. rewrite HC' by lia. rewrite <- sd0. simpl. field.
  - change (sZ (S (S k))) with (sZ (S k) ++ [ (wS / (Z.of_nat (S (S k)) * Z.of_nat (S (S k))))%Z ]).
    rewrite pev_app, sZ_length, Rmult_plus_distr_l, IH by lia. cbn [pev]. rewrite HC' by lia.
    unfold sd. rewrite tech5. replace (S k + 1)%nat with (S (S k)) by lia.
    assert (HN : INR (S (S k)) <> 0) by (apply not_0_INR; lia). set (r := INR (S (S k))) in *. clearbody r.
    change (x ^ S (S k)) with (x * x ^ S k). field. exact HN.
Qed.

Lemma wS_pos : 0 < IZR wS. Proof. apply IZR_lt. vm_compute. reflexivity. Qed.

Lemma approx_series y : 0 <= y <= / 2 -> 0 < pev QZ y /\ Rabs (y * pev PZ y / pev QZ y - sd 47 y) <= y * (90 / 10 ^ 18).
Proof.
  intros Hy.
  assert (HD := pgrow_ok 512 DZ y ltac:(lia)). assert (HQ := pgrow_ok 512 QZ y ltac:(lia)).
  destruct (andb_prop _ _ pieces_checked) as [PC1 PC2]. assert (HB := wpieces_sound rD rQ (90 * wS * fD) (10 ^ 18 * fQ) PL).
  rewrite (surjective_pairing (pgrow 512 DZ)) in HD. rewrite (surjective_pairing (pgrow 512 QZ)) in HQ.
  fold rD in HD; fold fD in HD; fold rQ in HQ; fold fQ in HQ. destruct HD as [FD HD]. destruct HQ as [FQ HQ].
  specialize (HB ltac:(lia) PC2 0%Z 256%Z (512 * y) PC1 ltac:(split; lra)). destruct HB as [B1 B2].
  rewrite !mult_IZR in B2. replace (IZR (10 ^ 18)) with (10 ^ 18) in B2 by (simpl; lra).
  apply IZR_lt in FD, FQ. assert (HW := wS_pos).
  set (fd := IZR fD) in *. set (fq := IZR fQ) in *. clearbody fd fq.
  assert (HQP : 0 < pev QZ y).
  { assert (0 < 512 * pev rQ (512 * y)) by lra. rewrite HQ in H. apply (Rmult_lt_reg_l fq); [exact FQ|lra]. }
  split; [exact HQP|].
  assert (HDE : pev DZ y = IZR wS * pev PZ y - pev QZ y * pev SZ y).
  { unfold DZ. rewrite padd_ok, !pscal_ok, pmul_ok. ring. }
  assert (HSE : y * pev SZ y = IZR wS * sd 47 y) by (apply (sZ_ok 47); unfold nS; lia).
  assert (HDB : Rabs (pev DZ y) * 10 ^ 18 <= 90 * IZR wS * pev QZ y).
  { assert (E1 : pev rD (512 * y) = fd * pev DZ y / 512) by lra. assert (E2 : pev rQ (512 * y) = fq * pev QZ y / 512) by lra.
    rewrite E1, E2 in B2. unfold Rdiv in B2. rewrite !Rabs_mult in B2. rewrite (Rabs_pos_eq fd) in B2 by lra. rewrite (Rabs_pos_eq (/ 512)) in B2 by lra.
    apply (Rmult_le_reg_l (fd * fq / 512)). { assert (0 < fd * fq) by (apply Rmult_lt_0_compat; assumption). lra. }
    unfold Rdiv. lra. }
  assert (HX : y * pev PZ y / pev QZ y - sd 47 y = y * (pev DZ y / (IZR wS * pev QZ y))).
  { rewrite HDE. apply (Rmult_eq_reg_l (IZR wS)); [|lra].
    replace (IZR wS * (y * pev PZ y / pev QZ y - sd 47 y)) with (IZR wS * y * pev PZ y / pev QZ y - IZR wS * sd 47 y) by (field; lra).
    rewrite <- HSE. field. split; lra. }
  rewrite HX, Rabs_mult, (Rabs_pos_eq y) by lra. apply Rmult_le_compat_l; [lra|].
  assert (HWQ : 0 < IZR wS * pev QZ y) by (apply Rmult_lt_0_compat; assumption).
  unfold Rdiv. rewrite Rabs_mult, (Rabs_pos_eq (/ _)) by (apply Rlt_le, Rinv_0_lt_compat; exact HWQ).
  apply (Rmult_le_reg_r (IZR wS * pev QZ y)); [exact HWQ|]. rewrite Rmult_assoc, Rinv_l by lra. 
  apply (Rmult_le_reg_r (10 ^ 18)); [apply pow_lt; lra|].
  replace (90 * / 10 ^ 18 * (IZR wS * pev QZ y) * 10 ^ 18) with (90 * (IZR wS * pev QZ y)) by (field; apply pow_nonzero; lra). lra.
Qed.

Theorem approx_li2 L y : is_ReLi2 L -> 0 <= y <= / 2 ->
  0 < pev QZ y /\ Rabs (y * pev PZ y / pev QZ y - L y) <= y * (1 / 10 ^ 16).
Proof.
  intros HL Hy. destruct (approx_series y Hy) as [HQ HA]. split; [exact HQ|].
  destruct (li2_tail L 47 y HL Hy) as [T1 T2].
  assert (HT : 2 * y ^ (47 + 2) / INR (47 + 2) ^ 2 <= y * (1 / 10 ^ 17)).
  { change (47 + 2)%nat with 49%nat. replace (INR 49) with 49 by (simpl; ring). change (y ^ 49) with (y * y ^ 48).
    assert (H48 : y ^ 48 <= (/ 2) ^ 48) by (apply pow_incr; exact Hy).
    assert ((/ 2) ^ 48 <= 1 / 10 ^ 14) by (simpl; lra). 
    replace (2 * (y * y ^ 48) / 49 ^ 2) with (y * (2 * y ^ 48 / 49 ^ 2)) by field. apply Rmult_le_compat_l; [lra|].
    replace (1 / 10 ^ 17) with (1 / 10 ^ 14 / 1000) by (simpl; lra). unfold Rdiv in *. simpl (49 ^ 2). lra. }
  apply Rabs_le_between in HA. apply Rabs_le. 
  assert (y * (90 / 10 ^ 18) + y * (1 / 10 ^ 17) <= y * (1 / 10 ^ 16)).
  { rewrite <- Rmult_plus_distr_l. apply Rmult_le_compat_l; [lra|]. simpl; lra. }
  lra.
Qed.
