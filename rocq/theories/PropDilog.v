(** * C27: the library's real dilogarithm is the dilogarithm, on the whole real axis *)
From Coq Require Import Reals ZArith QArith Qreals List Bool Lra Lia.
From Coquelicot Require Import Coquelicot.
From Verif Require Import Num NumFacts Dilog QInterval ConstBounds DilogSpec DilogProofs DilogExists DilogKernel DilogApprox.
Import ListNotations.
Open Scope R_scope.

(** ** the constant of the functional equations *)
Definition qsd (n : nat) : Q := Qmake 1 (2 ^ Pos.of_succ_nat n * (Pos.of_succ_nat n * Pos.of_succ_nat n)).
Lemma qsd_ok n : Q2R (qsd n) = (/ 2) ^ (n + 1) / INR (n + 1) ^ 2.
Proof.
  unfold qsd. rewrite Q2R_make. rewrite !Pos2Z.inj_mul, !mult_IZR. replace (n + 1)%nat with (S n) by lia.
  rewrite (inv_pow_pos 2 n). replace (INR (S n)) with (IZR (Zpos (Pos.of_succ_nat n))) by (rewrite INR_IZR_INZ; f_equal).
  field. split; apply not_0_IZR; discriminate.
Qed.
Definition half_gen (n : nat) : Q * Q := (fst (isum qsd n), snd (isum qsd n) + Qmake 2 (2 ^ Pos.of_succ_nat (S n)))%Q.
Lemma half_gen_in L n : is_ReLi2 L -> qin (L (/ 2)) (half_gen n).
Proof.
  intros HL. destruct (li2_tail L n (/ 2) HL ltac:(lra)) as [T1 T2]. destruct (isum_ok qsd (fun k => (/ 2) ^ (k + 1) / INR (k + 1) ^ 2) n qsd_ok) as [S1 S2].
  change (sum_f_R0 (fun k : nat => (/ 2) ^ (k + 1) / INR (k + 1) ^ 2) n) with (sd n (/ 2)) in S1, S2. unfold half_gen, qin. cbn [fst snd]. split; [lra|]. rewrite Q2R_plus.
  assert (2 * (/ 2) ^ (n + 2) / INR (n + 2) ^ 2 <= Q2R (Qmake 2 (2 ^ Pos.of_succ_nat (S n)))).
  { rewrite Q2R_make. replace (n + 2)%nat with (S (S n)) by lia. rewrite (inv_pow_pos 2 (S n)).
    assert (HI : 1 <= INR (S (S n))) by (apply (le_INR 1); lia). assert (HI2 : 1 <= INR (S (S n)) ^ 2) by (set (r := INR (S (S n))) in *; clearbody r; nra).
    assert (HP : 0 < / IZR (Z.pos (2 ^ Pos.of_succ_nat (S n)))) by (apply Rinv_0_lt_compat, IZR_lt; reflexivity).
    unfold Rdiv at 2. set (w := / IZR (Z.pos (2 ^ Pos.of_succ_nat (S n)))) in *. set (m := INR (S (S n)) ^ 2) in *. clearbody w m.
    apply (Rmult_le_reg_r m); [lra|]. replace (2 * w / m * m) with (2 * w) by (field; lra). nra. }
  lra.
Qed.
Definition half_b : Q * Q := half_gen 60.
Lemma half_in L : is_ReLi2 L -> qin (L (/ 2)) half_b.
Proof. apply half_gen_in. Qed.
(** PI of Li2.cpp *)
Definition pil : R := Rdec 31415926535897932 16.
Definition pilQ : Q := Qmake 31415926535897932 10000000000000000.
Lemma pil_Q : pil = Q2R pilQ.
Proof. unfold pil, Rdec, pilQ. rewrite Q2R_make. reflexivity. Qed.
Definition kexp : aexp := AAdd (AAdd (AMul (AQ 2) (AVar 1)) (AMul (AVar 0) (AVar 0))) (AOpp (AMul (AMul (AQ pilQ) (AQ pilQ)) (AQ (Qmake 1 6)))).
Lemma K_checked : acheck [ ln2_bounds; half_b ] kexp (Qmake (-5) 100000000000000000) (Qmake 5 100000000000000000) = true.
Proof. vm_compute. reflexivity. Qed.
Lemma K_near L : is_ReLi2 L -> Rabs (K L - pil * pil / 6) <= 5 / 10 ^ 17.
Proof.
  intros HL. assert (HF : Forall2 qin [ ln 2; L (/ 2) ] [ ln2_bounds; half_b ]) by (constructor; [apply ln2_in|constructor; [apply half_in, HL|constructor]]).
  assert (H := acheck_ok _ _ _ _ _ HF K_checked).
  unfold kexp in H. cbn [aeval nth] in H. rewrite <- pil_Q in H. rewrite !Q2R_make in H. unfold K.
  replace (Q2R 2) with 2 in H by (unfold Q2R; simpl; lra). replace (Q2R (Qmake 1 6)) with (/ 6) in H by (unfold Q2R; simpl; lra).
  apply Rabs_le. simpl. lra.
Qed.

(** ** the quotient of polynomials in the code *)
Definition pk (y : R) : R :=
  Rdec 9999999999999999502 19 + y * - Rdec 2688392681856542343 18 + y * y * (Rdec 26477222699473109692 19 + y * - Rdec 11538559607887416355 19)
  + y * y * (y * y) * (Rdec 20886077795020607837 20 + y * - Rdec 10859777134152463084 21).
Definition qk (y : R) : R :=
  1 + y * - Rdec 29383926818565635485 19 + y * y * (Rdec 32712093293018635389 19 + y * - Rdec 17076702173954289421 19)
  + y * y * (y * y) * (Rdec 41596017228400603836 20 + y * - Rdec 39801343754084482956 21 + y * y * Rdec 82743668974466659035 23).
Ltac zpows := repeat match goal with |- context [IZR (10 ^ ?k)] => let v := eval vm_compute in (10 ^ k)%Z in change (10 ^ k)%Z with v end.
Lemma pk_ok y : pev PZ y = 10 ^ 23 * pk y.
Proof. unfold pk, PZ, Rdec. cbn [pev]. zpows. replace (10 ^ 23) with 100000000000000000000000 by (simpl; ring). field. Qed.
Lemma qk_ok y : pev QZ y = 10 ^ 23 * qk y.
Proof. unfold qk, QZ, Rdec. cbn [pev]. zpows. replace (10 ^ 23) with 100000000000000000000000 by (simpl; ring). field. Qed.
Lemma kernel L y : is_ReLi2 L -> 0 <= y <= / 2 -> qk y <> 0 /\ Rabs (y * pk y / qk y - L y) <= y * (1 / 10 ^ 16).
Proof.
  intros HL Hy. destruct (approx_li2 L y HL Hy) as [HQ HA]. rewrite pk_ok, qk_ok in *.
  assert (P : 0 < 10 ^ 23) by (apply pow_lt; lra).
  assert (0 < qk y) by (apply (Rmult_lt_reg_l (10 ^ 23)); [exact P|lra]). split; [lra|].
  replace (y * pk y / qk y) with (y * (10 ^ 23 * pk y) / (10 ^ 23 * qk y)); [exact HA|]. 
  set (t := 10 ^ 23) in *. clearbody t. field. lra.
Qed.
Close Scope Q_scope.
Lemma half_lit : Rdec 5 1 = / 2. Proof. unfold Rdec. simpl. field. Qed.

(** value of the code in every branch *)
Definition kval (y r s : R) : R := r + s * y * pk y / qk y.
Lemma case_lt (a b : R) : a < b -> Rltb a b = true. Proof. intros. destruct (Rltb_spec a b); [reflexivity|lra]. Qed.
Lemma case_ge (a b : R) : b <= a -> Rltb a b = false. Proof. intros. destruct (Rltb_spec a b); [lra|reflexivity]. Qed.
Lemma case_ne (a b : R) : a <> b -> Reqb a b = false. Proof. intros. destruct (Reqb_spec a b); [contradiction|reflexivity]. Qed.
Lemma case_eq (a b : R) : a = b -> Reqb a b = true. Proof. intros. destruct (Reqb_spec a b); [reflexivity|contradiction]. Qed.
Ltac dil_open :=
  unfold dilog; unP; cbv beta iota zeta delta [p1 p2 pdiv pguard pcmp option_map];
  repeat first [rewrite case_lt by (assumption || lra) | rewrite case_ge by (assumption || lra) | rewrite case_ne by (assumption || lra) | rewrite case_eq by (assumption || lra)];
  cbv beta iota.

Ltac fold_q Hq := match type of Hq with ?q <> 0 => match goal with |- context [Reqb ?t 0] => change t with q; rewrite (case_ne q 0 Hq) end end.

(** the value the code computes: one line per branch of Li2.cpp:98-131 *)
Lemma branch_1 x : x < -1 -> qk (1 / (1 - x)) <> 0 ->
  dilog (Some x : PR) = Some (kval (1 / (1 - x)) (- pil * pil / 6 + ln (1 - x) * (Rdec 5 1 * ln (1 - x) - ln (- x))) 1).
Proof. intros H Hq. dil_open. try fold_q Hq. reflexivity. Qed.
Lemma branch_2 : dilog (Some (-1) : PR) = Some (- pil * pil / 12).
Proof. dil_open. reflexivity. Qed.
Lemma branch_3 x : -1 < x < 0 -> qk (x / (x - 1)) <> 0 ->
  dilog (Some x : PR) = Some (kval (x / (x - 1)) (- Rdec 5 1 * ln (1 + - x) * ln (1 + - x)) (-1)).
Proof. intros H Hq. dil_open. try fold_q Hq. reflexivity. Qed.
Lemma branch_4 : dilog (Some 0 : PR) = Some 0.
Proof. dil_open. reflexivity. Qed.
Lemma branch_5 x : 0 < x < / 2 -> qk x <> 0 -> dilog (Some x : PR) = Some (kval x 0 1).
Proof. intros H Hq. assert (Hh := half_lit). dil_open. try fold_q Hq. reflexivity. Qed.
Lemma branch_6 x : / 2 <= x < 1 -> qk (1 - x) <> 0 ->
  dilog (Some x : PR) = Some (kval (1 - x) (pil * pil / 6 - ln x * ln (1 + - x)) (-1)).
Proof. intros H Hq. assert (Hh := half_lit). dil_open. try fold_q Hq. reflexivity. Qed.
Lemma branch_7 : dilog (Some 1 : PR) = Some (pil * pil / 6).
Proof. assert (Hh := half_lit). dil_open. reflexivity. Qed.
Lemma branch_8 x : 1 < x < 2 -> qk (1 - 1 / x) <> 0 -> 0 < 1 - 1 / x ->
  dilog (Some x : PR) = Some (kval (1 - 1 / x) (pil * pil / 6 - ln x * (ln (1 - 1 / x) + Rdec 5 1 * ln x)) 1).
Proof. intros H Hq Hp. assert (Hh := half_lit). dil_open. try fold_q Hq. reflexivity. Qed.
Lemma branch_9 x : 2 <= x -> qk (1 / x) <> 0 ->
  dilog (Some x : PR) = Some (kval (1 / x) (pil * pil / 3 - Rdec 5 1 * ln x * ln x) (-1)).
Proof. intros H Hq. assert (Hh := half_lit). dil_open. try fold_q Hq. reflexivity. Qed.

Lemma tot (d e a b : R) : Rabs d <= a -> Rabs e <= b -> a + b <= 2 / 10 ^ 16 -> Rabs (d + e) <= 2 / 10 ^ 16.
Proof. intros. eapply Rle_trans; [apply Rabs_triang|lra]. Qed.

(** [dilog] is defined for every real number and differs from the dilogarithm by at most 2e-16; for -1 < x < 1/2 the relative error with
    respect to x is at most 1e-16 *)
Theorem C27_dilog : forall L, is_ReLi2 L -> forall x : R, exists v,
  dilog (Some x : PR) = Some v /\ Rabs (v - L x) <= 2 / 10 ^ 16 /\ (-1 < x < / 2 -> Rabs (v - L x) <= Rabs x * (1 / 10 ^ 16)).
Proof.
  intros L HL x. assert (HK := K_near L HL). assert (Hh := half_lit).
  assert (HY : forall y, 0 <= y <= / 2 -> y * (1 / 10 ^ 16) <= 5 / 10 ^ 17) by (intros y Hy; simpl; lra).
  destruct (Rlt_dec x (-1)) as [C1|C1].
  { assert (Hy : 0 <= 1 / (1 - x) <= / 2).
    { unfold Rdiv. rewrite Rmult_1_l. split; [apply Rlt_le, Rinv_0_lt_compat; lra|]. apply Rinv_le_contravar; lra. }
    destruct (kernel L _ HL Hy) as [HQ HA]. eexists. split; [apply branch_1; assumption|]. split; [|lra].
    rewrite (below L HL x) by lra. rewrite Hh. unfold kval. replace (/ (1 - x)) with (1 / (1 - x)) by (unfold Rdiv; ring).
    set (y := 1 / (1 - x)) in *. clearbody y.
    match goal with |- Rabs ?t <= _ => replace t with ((K L - pil * pil / 6) + (y * pk y / qk y - L y)) by (field; exact HQ) end.
    eapply tot; [exact HK|exact HA|]. specialize (HY y Hy). simpl in *; lra. }
  destruct (Req_EM_T x (-1)) as [->|C2].
  { eexists. split; [apply branch_2|]. split; [|lra]. rewrite (at_minus_one L HL).
    match goal with |- Rabs ?t <= _ => replace t with (/ 2 * (K L - pil * pil / 6)) by field end. rewrite Rabs_mult, (Rabs_pos_eq (/ 2)) by lra. simpl in *; lra. }
  destruct (Rlt_dec x 0) as [C3|C3].
  { assert (Hy : 0 <= x / (x - 1) <= / 2 /\ x / (x - 1) <= - x).
    { replace (x / (x - 1)) with (- x * / (1 - x)) by (field; lra). assert (0 < / (1 - x)) by (apply Rinv_0_lt_compat; lra).
      assert (/ (1 - x) * (1 - x) = 1) by (apply Rinv_l; lra). repeat split; nra. }
    destruct Hy as [Hy Hyx]. destruct (kernel L _ HL Hy) as [HQ HA]. eexists. split; [apply branch_3; [lra|assumption]|].
    match goal with |- ?a /\ ?b => assert (HR : b) end.
    { intros _. rewrite (landen L HL x C3), Hh. unfold kval. change (1 + - x) with (1 - x). set (y := x / (x - 1)) in *. clearbody y.
      match goal with |- Rabs ?t <= _ => replace t with (- (y * pk y / qk y - L y)) by (field; exact HQ) end.
      rewrite Rabs_Ropp, (Rabs_left x) by exact C3. eapply Rle_trans; [exact HA|]. apply Rmult_le_compat_r; [simpl; lra|exact Hyx]. }
    split; [|exact HR]. eapply Rle_trans; [apply HR; lra|]. rewrite Rabs_left by exact C3. simpl; lra. }
  destruct (Req_EM_T x 0) as [->|C4].
  { eexists. split; [apply branch_4|]. rewrite (proj1 HL), Rminus_0_r, Rabs_R0. split; [simpl; lra|intros _; lra]. }
  destruct (Rlt_dec x (/ 2)) as [C5|C5].
  { destruct (kernel L x HL ltac:(lra)) as [HQ HA]. eexists. split; [apply branch_5; [lra|assumption]|].
    match goal with |- ?a /\ ?b => assert (HR : b) end.
    { intros _. unfold kval. match goal with |- Rabs ?t <= _ => replace t with (x * pk x / qk x - L x) by (field; exact HQ) end. rewrite (Rabs_pos_eq x) by lra. exact HA. }
    split; [|exact HR]. eapply Rle_trans; [apply HR; lra|]. rewrite Rabs_pos_eq by lra. simpl; lra. }
  destruct (Rlt_dec x 1) as [C6|C6].
  { assert (Hy : 0 <= 1 - x <= / 2) by lra. destruct (kernel L _ HL Hy) as [HQ HA]. eexists. split; [apply branch_6; [lra|assumption]|]. split; [|lra].
    rewrite (reflect L HL x) by lra. unfold kval. change (1 + - x) with (1 - x). set (u := ln x * ln (1 - x)). set (y := 1 - x) in *. clearbody y u.
    match goal with |- Rabs ?t <= _ => replace t with (- (K L - pil * pil / 6) + - (y * pk y / qk y - L y)) by (field; exact HQ) end.
    eapply tot; [rewrite Rabs_Ropp; exact HK|rewrite Rabs_Ropp; exact HA|]. specialize (HY y Hy). simpl in *; lra. }
  destruct (Req_EM_T x 1) as [->|C7].
  { eexists. split; [apply branch_7|]. split; [|lra]. rewrite (at_one L HL). rewrite <- Rabs_Ropp, Ropp_minus_distr. simpl in *; lra. }
  destruct (Rlt_dec x 2) as [C8|C8].
  { assert (Hy : 0 < 1 - 1 / x <= / 2).
    { unfold Rdiv. rewrite Rmult_1_l. assert (/ x < 1) by (rewrite <- Rinv_1; apply Rinv_lt_contravar; lra). assert (/ 2 <= / x) by (apply Rinv_le_contravar; lra). lra. }
    destruct (kernel L _ HL ltac:(split; [apply Rlt_le|]; apply Hy)) as [HQ HA]. eexists. split; [apply branch_8; [lra|assumption|lra]|]. split; [|lra].
    rewrite (above1 L HL x) by lra. rewrite Hh. unfold kval. replace (/ x) with (1 / x) by (unfold Rdiv; ring).
    set (y := 1 - 1 / x) in *. clearbody y.
    match goal with |- Rabs ?t <= _ => replace t with (- (K L - pil * pil / 6) + (y * pk y / qk y - L y)) by (field; exact HQ) end.
    eapply tot; [rewrite Rabs_Ropp; exact HK|exact HA|]. specialize (HY y ltac:(lra)). simpl in *; lra. }
  { assert (Hy : 0 <= 1 / x <= / 2).
    { unfold Rdiv. rewrite Rmult_1_l. split; [apply Rlt_le, Rinv_0_lt_compat; lra|]. apply Rinv_le_contravar; lra. }
    destruct (kernel L _ HL Hy) as [HQ HA]. eexists. split; [apply branch_9; [lra|assumption]|]. split; [|lra].
    rewrite (invert L HL x) by lra. rewrite Hh. unfold kval. replace (/ x) with (1 / x) by (unfold Rdiv; ring). set (y := 1 / x) in *. clearbody y.
    match goal with |- Rabs ?t <= _ => replace t with (- (2 * (K L - pil * pil / 6)) + - (y * pk y / qk y - L y)) by (field; exact HQ) end.
    eapply tot; [rewrite Rabs_Ropp, Rabs_mult, (Rabs_pos_eq 2) by lra; apply Rmult_le_compat_l; [lra|exact HK]|rewrite Rabs_Ropp; exact HA|]. specialize (HY y Hy). simpl in *; lra. }
Qed.

(** the reference function of C27 exists and is unique, so the theorem speaks about one definite function *)
Theorem C27_reference : (exists L, is_ReLi2 L) /\ forall L1 L2, is_ReLi2 L1 -> is_ReLi2 L2 -> forall x, L1 x = L2 x.
Proof. split; [exact ReLi2_exists|exact ReLi2_unique]. Qed.
