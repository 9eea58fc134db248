(** * The two rational approximations of [clausen_2] against the Clausen integral (proof tool for C28) *)
From Coq Require Import Reals ZArith List Bool Lra Lia QArith Qreals.
From Coquelicot Require Import Coquelicot.
From Verif Require Import Num DilogKernel QInterval ConstBounds ClausenSpec ClausenExists ClausenData ClausenSeries ClausenSeries2 ClausenKernel.
Import ListNotations.
Close Scope Q_scope.
Open Scope R_scope.

(** the literals of Li2.cpp:236 and 253-254 *)
Definition pl : R := Rdec 314159265358979324 17.
Definition pll : R := Rdec 628125 5 + Rdec 19353071795864769253 22.
Lemma pl_val : pl = 314159265358979324 / 100000000000000000. Proof. unfold pl, Rdec. change (10 ^ 17)%Z with 100000000000000000%Z. reflexivity. Qed.
Lemma pll_val : pll = 62831853071795864769253 / 10000000000000000000000.
Proof. unfold pll, Rdec. change (10 ^ 5)%Z with 100000%Z. change (10 ^ 22)%Z with 10000000000000000000000%Z. field. Qed.
Lemma pi_near : 0 < pl - PI < 2 / 10 ^ 18 /\ 0 < pll - 2 * PI < 2 / 10 ^ 23.
Proof.
  assert (H := pi_in). unfold qin in H.
  assert (A : Q2R (Qmake 3141592653589793238462643 (10 ^ 24)) <= Q2R (fst pi_bounds)) by (apply Qle_Rle; vm_compute; discriminate).
  assert (B : Q2R (snd pi_bounds) <= Q2R (Qmake 31415926535897932384626434 (10 ^ 25))) by (apply Qle_Rle; vm_compute; discriminate).
  unfold Q2R in A at 1. unfold Q2R in B at 2. cbn [Qnum Qden] in A, B. change (Z.pos (10 ^ 24)) with 1000000000000000000000000%Z in A. change (Z.pos (10 ^ 25)) with 10000000000000000000000000%Z in B.
  set (q1 := Q2R (fst pi_bounds)) in *. set (q2 := Q2R (snd pi_bounds)) in *. clearbody q1 q2.
  rewrite pl_val, pll_val. simpl pow. lra.
Qed.
Definition p1k (y : R) : R := Rdec 13888888888888889 18 + y * - Rdec 43286930203743071 20 + y * y * (Rdec 32779814789973427 22 + y * - Rdec 36001540369575084 25).
Definition q1k (y : R) : R := 1 + y * - Rdec 36166589746694121 18 + y * y * (Rdec 36015827281202639 20 + y * - Rdec 83646182842184428 23).
Definition p2k (z : R) : R := Rdec 64005702446195512 17 + z * - Rdec 20641655351338783 17 + z * z * (Rdec 24175305223497718 18 + z * - Rdec 12355955287855728 19)
  + z * z * (z * z) * (Rdec 25649833551291124 21 + z * - Rdec 1478382912877332 22).
Definition q2k (z : R) : R := 1 + z * - Rdec 25299102015666356 17 + z * z * (Rdec 22148751048467057 18 + z * - Rdec 78183920462457496 20)
  + z * z * (z * z) * (Rdec 9543254219631067 21 + z * - Rdec 18184302880448247 24).
Ltac zpows := repeat match goal with |- context [IZR (10 ^ ?k)] => let v := eval vm_compute in (10 ^ k)%Z in change (10 ^ k)%Z with v end.
Lemma p1k_ok y : pev P1Z y = 10 ^ 25 * p1k y.
Proof. unfold p1k, P1Z, Rdec. cbn [pev]. zpows. replace (10 ^ 25) with 10000000000000000000000000 by (simpl; ring). field. Qed.
Lemma q1k_ok y : pev Q1Z y = 10 ^ 25 * q1k y.
Proof. unfold q1k, Q1Z, Rdec. cbn [pev]. zpows. replace (10 ^ 25) with 10000000000000000000000000 by (simpl; ring). field. Qed.
Lemma p2k_ok y : pev P2Z y = 10 ^ 24 * p2k y.
Proof. unfold p2k, P2Z, Rdec. cbn [pev]. zpows. replace (10 ^ 24) with 1000000000000000000000000 by (simpl; ring). field. Qed.
Lemma q2k_ok y : pev Q2Z y = 10 ^ 24 * q2k y.
Proof. unfold q2k, Q2Z, Rdec. cbn [pev]. zpows. replace (10 ^ 24) with 1000000000000000000000000 by (simpl; ring). field. Qed.
Lemma quo w p q : 0 < w -> 0 < w * q -> 0 < q /\ w * p / (w * q) = p / q.
Proof. intros Hw H. assert (0 < q) by (apply (Rmult_lt_reg_l w); lra). split; [assumption|]. field. lra. Qed.

(** ** below pi/2 *)
Definition h1 (x : R) : R := x * (1 - ln x + x * x * p1k (x * x) / q1k (x * x)).
Lemma h1_ok x : 0 < x < pl / 2 -> 0 < q1k (x * x) /\ Rabs (h1 x - J x) <= 2 / 10 ^ 17.
Proof.
  intros Hx. rewrite pl_val in Hx. assert (Hx2 : x * x <= 5 / 2) by nra. assert (Hv : x / 2 * (x / 2) <= vb) by (unfold vb; nra).
  assert (SR := series1 x ltac:(lra) Hv). destruct (k1 (x * x) ltac:(nra)) as [Q K].
  assert (P25 := pow_lt 10 25 ltac:(lra)). rewrite q1k_ok in Q, K. rewrite p1k_ok in K. destruct (quo _ (p1k (x * x)) _ P25 Q) as [Q' E]. split; [exact Q'|].
  unfold Rdiv in K, E. rewrite (Rmult_assoc (x * x)) in K. rewrite E in K.
  unfold h1, J. destruct (Req_EM_T x 0) as [Z|_]; [lra|]. unfold Rdiv. rewrite (Rmult_assoc (x * x)).
  set (r := p1k (x * x) * / q1k (x * x)) in *. set (s := pev S1Z (x * x) * / IZR wS1) in *. unfold Rdiv in SR. fold s in SR.
  replace (x * (1 - ln x + x * x * r) - (x - x * ln x - IS x)) with (x * (x * x * r - s) + (IS x + x * s)) by ring.
  clearbody r s. eapply Rle_trans; [apply Rabs_triang|]. rewrite Rabs_mult, (Rabs_pos_eq x) by lra.
  assert (N : x * (x * x * (400 / 10 ^ 20)) + x * (4 / 10 ^ 19) <= 2 / 10 ^ 17). { simpl pow. nra. }
  eapply Rle_trans; [|exact N]. apply Rplus_le_compat; [apply Rmult_le_compat_l; [lra|exact K]|exact SR].
Qed.

(** ** between pi/2 and pi *)
Definition h2 (x : R) : R := (pl - x) * p2k ((pl - x) * (pl - x) - pl * pl / 8) / q2k ((pl - x) * (pl - x) - pl * pl / 8).
Lemma h2_ok x : pl / 2 <= x < pl -> 0 < q2k ((pl - x) * (pl - x) - pl * pl / 8) /\ Rabs (h2 x - J (PI - (pl - x))) <= 2 / 10 ^ 17.
Proof.
  intros Hx. unfold h2. assert (Hy : 0 < pl - x <= pl / 2) by lra. set (y := pl - x) in *. clearbody y. rewrite pl_val in Hy.
  assert (Hy2 : y * y <= 5 / 2) by nra. assert (Hv : y / 2 * (y / 2) <= vb) by (unfold vb; nra).
  assert (SR := series2 y ltac:(lra) Hv).
  destruct (k2 (y * y) (y * y - pl * pl / 8)) as [Q K]. { nra. } { f_equal. rewrite pl_val. unfold CZ, KZ. rewrite !mult_IZR. change (10 ^ 34)%Z with 10000000000000000000000000000000000%Z. field. }
  assert (P24 := pow_lt 10 24 ltac:(lra)). set (z := y * y - pl * pl / 8) in *. clearbody z. rewrite q2k_ok in Q, K. rewrite p2k_ok in K. destruct (quo _ (p2k z) _ P24 Q) as [Q' E]. split; [exact Q'|].
  rewrite E in K. unfold Rdiv at 1. rewrite Rmult_assoc. change (p2k z * / q2k z) with (p2k z / q2k z).
  set (r := p2k z / q2k z) in *. set (s := ln 2 - pev S2Z (y * y) / IZR wS2) in *. clearbody r s.
  replace (y * r - J (PI - y)) with (y * (r - s) + (y * s - J (PI - y))) by ring.
  eapply Rle_trans; [apply Rabs_triang|]. rewrite Rabs_mult, (Rabs_pos_eq y) by lra.
  assert (N : y * (1001 / 10 ^ 20) + y * (4 / 10 ^ 19) <= 2 / 10 ^ 17) by (simpl pow; lra).
  eapply Rle_trans; [|exact N]. apply Rplus_le_compat; [apply Rmult_le_compat_l; [lra|exact K]|exact SR].
Qed.

(** ** how fast the integral can change *)
Lemma J_mvt a b K : 0 < a -> a <= b -> b < 2 * PI -> (forall t, a <= t <= b -> Rabs (ln (2 * sin (t / 2))) <= K) -> Rabs (J b - J a) <= K * (b - a).
Proof.
  intros Ha Hab Hb HK. destruct (Req_EM_T a b) as [->|N]. { rewrite !Rminus_eq_0, Rabs_R0. lra. }
  destruct (MVT_gen J a b (fun t => - ln (2 * sin (t / 2)))) as [c [Hc E]].
  - intros t Ht. rewrite Rmin_left, Rmax_right in Ht by lra. apply J_d. lra.
  - intros t Ht. rewrite Rmin_left, Rmax_right in Ht by lra. apply continuity_pt_filterlim, J_cont. lra.
  - rewrite Rmin_left, Rmax_right in Hc by lra. rewrite E, Rabs_mult, Rabs_Ropp, (Rabs_pos_eq (b - a)) by lra. apply Rmult_le_compat_r; [lra|]. apply HK, Hc.
Qed.
Lemma ln_in a x : 1 <= a -> / a <= x <= a -> Rabs (ln x) <= ln a.
Proof.
  intros Ha [A B]. assert (0 < / a) by (apply Rinv_0_lt_compat; lra). apply Rabs_le. split; [rewrite <- ln_Rinv by lra|]; apply ln_le; lra.
Qed.
Lemma pi_rough : 3 < PI < 4. Proof. assert (H := pi_near). rewrite pl_val in H. simpl pow in H. lra. Qed.
Lemma ln2_1 : 0 < ln 2 < 1.
Proof. split; [rewrite <- ln_1; apply ln_increasing; lra|]. rewrite <- (ln_exp 1). apply ln_increasing; [lra|]. assert (H := exp_ineq1 1 ltac:(lra)). lra. Qed.
Lemma sin_mid t : PI / 3 <= t <= 5 * PI / 3 -> Rabs (ln (2 * sin (t / 2))) <= 1.
Proof.
  intros Ht. assert (PP := pi_rough). eapply Rle_trans; [apply (ln_in 2)|apply Rlt_le, ln2_1]. lra.
  assert (S1 := SIN_bound (t / 2)). assert (/ 2 <= sin (t / 2)); [|lra]. replace (/ 2) with (sin (PI / 6)) by (rewrite sin_PI6; lra).
  destruct (Rle_dec (t / 2) (PI / 2)).
  - apply sin_incr_1; lra.
  - rewrite <- (sin_PI_x (t / 2)). apply sin_incr_1; lra.
Qed.
Lemma J_shift x : pl / 2 <= x <= pl -> Rabs (J (PI - (pl - x)) - J x) <= 2 / 10 ^ 18.
Proof.
  intros Hx. assert (HP := pi_near). assert (PP := pi_rough). rewrite Rabs_minus_sym.
  assert (N : 1 * (x - (PI - (pl - x))) <= 2 / 10 ^ 18) by lra. eapply Rle_trans; [|exact N]. assert (2 / 10 ^ 18 < / 10) by (simpl pow; lra).
  apply J_mvt; [lra|lra|lra|]. intros t Ht. apply sin_mid. lra.
Qed.
Lemma IS_small x : 0 < x <= 1 -> Rabs (IS x) <= x.
Proof.
  intros Hx. assert (PP := pi_rough). rewrite <- (Rmult_1_l x) at 2. apply (int0 IS sinc 1 1); [| | |exact Hx].
  - intros t Ht. apply IS_d. lra.
  - apply cont_lim0; [|apply IS_0]. apply (ex_derive_continuous IS). exists (sinc 0). apply IS_d. lra.
  - intros t Ht. unfold sinc. destruct (Req_EM_T t 0); [lra|]. eapply Rle_trans; [apply (ln_in 2)|apply Rlt_le, ln2_1]. lra.
    assert (L := sin_low (t / 2) ltac:(lra) ltac:(unfold vb; nra)). assert (U := sin_lt_x (t / 2) ltac:(lra)).
    assert (IP : 0 < / t) by (apply Rinv_0_lt_compat; lra). assert (I : / t * t = 1) by (field; lra). unfold Rdiv. split; nra.
Qed.
(** 2^70 > 10^21 *)
Lemma ln_tiny x : / 10 ^ 21 <= x -> x <= 1 -> 0 <= - ln x <= 70.
Proof.
  intros A B. assert (P := pow_lt 10 21 ltac:(lra)). assert (IP := Rinv_0_lt_compat _ P). assert (L2 := ln2_1). split.
  - assert (ln x <= ln 1) by (apply ln_le; lra). rewrite ln_1 in H. lra.
  - assert (ln (/ 10 ^ 21) <= ln x) by (apply ln_le; lra). rewrite ln_Rinv in H by lra. assert (ln (10 ^ 21) <= ln (2 ^ 70)) by (apply ln_le; [lra|simpl; lra]). rewrite (ln_pow 2) in H0 by lra.
    replace (INR 70) with 70 in H0 by (rewrite INR_IZR_INZ; reflexivity). lra.
Qed.
Lemma J_tiny x : 0 <= x <= 2 / 10 ^ 20 -> Rabs (J x) <= 2 / 10 ^ 18.
Proof.
  intros Hx. assert (B1 : 2 / 10 ^ 20 <= 1) by (simpl pow; lra). unfold J. destruct (Req_EM_T x 0) as [_|N]. { rewrite Rabs_R0. simpl pow. lra. }
  assert (SI := IS_small x ltac:(lra)). set (b := 2 / 10 ^ 20) in *. assert (Bp : 0 < b) by lra.
  assert (T : 0 <= - ln b <= 70) by (apply ln_tiny; [unfold b; simpl pow; lra|exact B1]).
  assert (LX : 0 <= - ln x) by (assert (ln x <= ln 1) by (apply ln_le; lra); rewrite ln_1 in *; lra).
  assert (E : - ln x = ln (b / x) - ln b). { unfold Rdiv. rewrite ln_mult by (try apply Rinv_0_lt_compat; lra). rewrite ln_Rinv by lra. ring. }
  assert (U : ln (b / x) <= b / x - 1). { assert (0 < b / x) by (apply Rdiv_lt_0_compat; lra). assert (H1 := exp_ineq1_le (ln (b / x))). rewrite exp_ln in H1 by assumption. lra. }
  assert (X1 : x * - ln x <= b + x * 70). { rewrite E. assert (x * (b / x - 1) = b - x) by (field; lra). assert (0 <= x * (b / x - 1 - ln (b / x))) by (apply Rmult_le_pos; lra). assert (0 <= x * (70 + ln b)) by (apply Rmult_le_pos; lra). lra. }
  assert (X0 : 0 <= x * - ln x) by (apply Rmult_le_pos; lra).
  replace (x - x * ln x - IS x) with (x + (x * - ln x) + - IS x) by ring. eapply Rle_trans; [apply Rabs_triang|]. rewrite Rabs_Ropp, (Rabs_pos_eq (x + x * - ln x)) by lra.
  assert (b = 2 / 10 ^ 20) by reflexivity. simpl pow in *. lra.
Qed.
Lemma J_eta t e : 0 <= t -> t + e <= pl -> 0 < e < 2 / 10 ^ 23 -> Rabs (J (t + e) - J t) <= 4 / 10 ^ 18.
Proof.
  intros Ht Hp He. assert (HP := pi_near). assert (PP := pi_rough). destruct (Rlt_dec t (/ 10 ^ 20)) as [C|C].
  - assert (A := J_tiny t). assert (B := J_tiny (t + e)). 
    assert (A' : Rabs (J t) <= 2 / 10 ^ 18) by (apply A; simpl pow in *; lra). assert (B' : Rabs (J (t + e)) <= 2 / 10 ^ 18) by (apply B; simpl pow in *; lra).
    unfold Rminus. eapply Rle_trans; [apply Rabs_triang|]. rewrite Rabs_Ropp. lra.
  - assert (Hs : pl < 3142 / 1000) by (rewrite pl_val; lra). assert (N : 70 * (t + e - t) <= 4 / 10 ^ 18) by (simpl pow in *; lra). assert (P20 : 0 < / 10 ^ 20) by (apply Rinv_0_lt_compat, pow_lt; lra).
    eapply Rle_trans; [|exact N]. apply J_mvt; [lra|lra|simpl pow in *; lra|].
    intros s Hsr. destruct (Rle_dec (PI / 3) s) as [M|M]. { eapply Rle_trans; [apply sin_mid|lra]. lra. }
    assert (L := sin_low (s / 2) ltac:(lra) ltac:(unfold vb; nra)). assert (U := sin_lt_x (s / 2) ltac:(lra)).
    assert (SL : s / 2 <= 2 * sin (s / 2)) by lra. destruct (Rle_dec (2 * sin (s / 2)) 1) as [S1|S1].
    + assert (T := ln_tiny (2 * sin (s / 2)) ltac:(simpl pow in *; lra) S1). apply Rabs_le. lra.
    + assert (SB := SIN_bound (s / 2)). eapply Rle_trans; [apply (ln_in 2)|]; [lra|lra|]. assert (T := ln2_1). lra.
Qed.
