(** * Rational enclosures of zeta(3), Li4(1/2), Cl2(pi/3), Im Li3(e^(-i pi/6)/sqrt 3) and ln 3 (proof tool for C47) *)
From Coq Require Import ZArith QArith Qreals Reals Lra Lia List.
From Coquelicot Require Import Coquelicot.
From Verif Require Import QInterval ConstBounds Num ConstSpec.
Import ListNotations.
Local Open Scope R_scope.

(** bracketing a limit *)
Lemma cv_shift0 (s g : nat -> R) l : Un_cv s l -> Un_cv g 0 -> Un_cv (fun n => s n + g n) l.
Proof. intros A B. rewrite <- (Rplus_0_r l). apply CV_plus; assumption. Qed.
Lemma bracket_low (s g : nat -> R) l : Un_cv s l -> Un_cv g 0 ->
  (forall n, s n + g n <= s (S n) + g (S n)) -> forall n, s n + g n <= l.
Proof. intros A B H n. apply (growing_ineq (fun n => s n + g n) l); [exact H|apply cv_shift0; assumption]. Qed.
Lemma bracket_up (s g : nat -> R) l : Un_cv s l -> Un_cv g 0 ->
  (forall n, s (S n) + g (S n) <= s n + g n) -> forall n, l <= s n + g n.
Proof. intros A B H n. apply (decreasing_ineq (fun n => s n + g n) l); [exact H|apply cv_shift0; assumption]. Qed.

Lemma cv_le_inv (g : nat -> R) K : 0 < K -> (forall n, Rabs (g n) <= K * / INR (S n)) -> Un_cv g 0.
Proof.
  intros HK H eps He. pose proof (RinvN_cv) as C. destruct (C (eps / K)) as [N HN]; [apply Rdiv_lt_0_compat; lra|].
  exists N. intros n Hn. specialize (HN n Hn). unfold R_dist in *. rewrite Rminus_0_r in *.
  eapply Rle_lt_trans; [apply H|]. unfold RinvN in HN. cbn in HN.
  assert (P : 0 < / INR (S n)) by (apply Rinv_0_lt_compat, lt_0_INR; lia).
  assert (E : Rabs (/ (INR n + 1)) = / INR (S n)) by (rewrite S_INR in *; apply Rabs_pos_eq; lra).
  change (Rabs (/ (INR n + 1)) < eps / K) in HN. rewrite E in HN.
  apply Rmult_lt_compat_l with (r := K) in HN; [|lra]. replace (K * (eps / K)) with eps in HN by (field; lra). exact HN.
Qed.

(** ** zeta(3) *)
Definition z3G (c : R) (x : R) : R := / (2 * x ^ 2) - / (8 * x ^ 4) + c / (96 * x ^ 6).
Lemma frac_nonneg a b : 0 <= a -> 0 < b -> 0 <= a / b.
Proof. intros A B. apply Rmult_le_pos; [exact A|]. apply Rlt_le, Rinv_0_lt_compat, B. Qed.
Lemma z3_low y : 1 <= y -> z3G 0 (y - /2) - z3G 0 (y + /2) <= / y ^ 3.
Proof.
  intros Hy. unfold z3G. apply Rminus_le_0.
  replace (/ y ^ 3 - (/ (2 * (y - /2) ^ 2) - / (8 * (y - /2) ^ 4) + 0 / (96 * (y - /2) ^ 6) - (/ (2 * (y + /2) ^ 2) - / (8 * (y + /2) ^ 4) + 0 / (96 * (y + /2) ^ 6))))
    with ((7 * (4 * y ^ 2) ^ 2 - 4 * (4 * y ^ 2) + 1) / (y ^ 3 * ((2 * y - 1) * (2 * y + 1)) ^ 4)) by (field; repeat split; lra).
  apply frac_nonneg; [assert (1 <= 4 * y ^ 2) by nra; nra|].
  apply Rmult_lt_0_compat; apply pow_lt; nra.
Qed.
Lemma z3_up y : 1 <= y -> / y ^ 3 <= z3G 7 (y - /2) - z3G 7 (y + /2).
Proof.
  intros Hy. unfold z3G. apply Rminus_le_0.
  replace ((/ (2 * (y - /2) ^ 2) - / (8 * (y - /2) ^ 4) + 7 / (96 * (y - /2) ^ 6) - (/ (2 * (y + /2) ^ 2) - / (8 * (y + /2) ^ 4) + 7 / (96 * (y + /2) ^ 6))) - / y ^ 3)
    with ((7936 / 3 * y ^ 6 - 144 * y ^ 4 + 24 * y ^ 2 - 1) / (y ^ 3 * ((2 * y - 1) * (2 * y + 1)) ^ 6)) by (field; repeat split; lra).
  apply frac_nonneg.
  - assert (1 <= y ^ 2) by nra. replace (7936 / 3 * y ^ 6 - 144 * y ^ 4 + 24 * y ^ 2 - 1)
      with ((y ^ 2) ^ 2 * (7936 / 3 * y ^ 2 - 144) + (24 * y ^ 2 - 1)) by ring.
    assert (0 <= (y ^ 2) ^ 2) by nra. assert (0 <= 7936 / 3 * y ^ 2 - 144) by lra.
    pose proof (Rmult_le_pos _ _ H0 H1). lra.
  - apply Rmult_lt_0_compat; apply pow_lt; nra.
Qed.
Lemma z3G_cv c : 0 <= c <= 7 -> Un_cv (fun n => z3G c (INR n + 3 / 2)) 0.
Proof.
  intros Hc. apply (cv_le_inv _ 1); [lra|]. intros n. rewrite S_INR. pose proof (pos_INR n) as P. set (x := INR n + 3 / 2) in *.
  replace (INR n + 1) with (x - /2) by (unfold x; lra). assert (X : 3 / 2 <= x) by (unfold x; lra). clearbody x. clear P n.
  unfold z3G. assert (Y : 1 <= x ^ 2) by nra.
  assert (I1 : 0 < / x ^ 2) by (apply Rinv_0_lt_compat; lra).
  assert (I1' : / x ^ 2 <= 4 / 9). { replace (4 / 9) with (/ (9 / 4)) by field. apply Rinv_le_contravar; nra. }
  replace (/ (2 * x ^ 2) - / (8 * x ^ 4) + c / (96 * x ^ 6)) with (/2 * (/ x ^ 2) - /8 * (/ x ^ 2) ^ 2 + c / 96 * (/ x ^ 2) ^ 3) by (field; lra).
  assert (J : / x ^ 2 <= / (x - / 2)). { apply Rinv_le_contravar; nra. }
  set (v := / x ^ 2) in *. rewrite Rmult_1_l. apply Rle_trans with v; [|exact J].
  assert (0 <= v ^ 2 <= 4 / 9 * v) by nra. assert (0 <= v ^ 3 <= 4 / 9 * v).
  { split; [nra|]. assert (v ^ 3 <= v ^ 2) by nra. lra. }
  apply Rabs_le. split; nra.
Qed.
Definition z3t (n : nat) : Q := Qmake 1 (Pos.pow (Pos.of_succ_nat n) 3).
Lemma z3t_ok n : Q2R (z3t n) = / INR (S n) ^ 3.
Proof.
  unfold z3t. rewrite Q2R_make, Pos2Z.inj_pow. rewrite INR_IZR_INZ, pow_IZR.
  replace (Z.of_nat (S n)) with (Zpos (Pos.of_succ_nat n)) by lia. unfold Rdiv. apply Rmult_1_l.
Qed.
Lemma z3_bracket z n : zeta3_is z ->
  sum_f_R0 (fun n => / INR (S n) ^ 3) n + z3G 0 (INR n + 3 / 2) <= z <= sum_f_R0 (fun n => / INR (S n) ^ 3) n + z3G 7 (INR n + 3 / 2).
Proof.
  intros H. change (Un_cv (fun n => sum_f_R0 (fun n => / INR (S n) ^ 3) n) z) in H.
  split.
  - apply (bracket_low (fun n => sum_f_R0 (fun n => / INR (S n) ^ 3) n) (fun n => z3G 0 (INR n + 3 / 2))); [exact H|apply z3G_cv; lra|].
    clear n. intros n. cbn [sum_f_R0]. pose proof (z3_low (INR (S (S n)))) as L. rewrite S_INR in L.
    replace (INR (S n) + 1 - /2) with (INR n + 3 / 2) in L by (rewrite S_INR; field).
    replace (INR (S n) + 1 + /2) with (INR (S n) + 3 / 2) in L by field.
    rewrite <- S_INR in L. assert (1 <= INR (S (S n))) by (rewrite !S_INR; pose proof (pos_INR n); lra). specialize (L H0). lra.
  - apply (bracket_up (fun n => sum_f_R0 (fun n => / INR (S n) ^ 3) n) (fun n => z3G 7 (INR n + 3 / 2))); [exact H|apply z3G_cv; lra|].
    clear n. intros n. cbn [sum_f_R0]. pose proof (z3_up (INR (S (S n)))) as L. rewrite S_INR in L.
    replace (INR (S n) + 1 - /2) with (INR n + 3 / 2) in L by (rewrite S_INR; field).
    replace (INR (S n) + 1 + /2) with (INR (S n) + 3 / 2) in L by field.
    rewrite <- S_INR in L. assert (1 <= INR (S (S n))) by (rewrite !S_INR; pose proof (pos_INR n); lra). specialize (L H0). lra.
Qed.
Definition qinv_pow (q : Q) (n : nat) : Q := (/ Qpower q (Z.of_nat n))%Q.
Definition z3Gq (c : Z) (n : positive) : Q :=   (* x = n/2 *)
  (Qmake 4 (2 * Pos.pow n 2) - Qmake 16 (8 * Pos.pow n 4) + Qmake (64 * c) (96 * Pos.pow n 6))%Q.
Lemma z3Gq_ok c (n : positive) : Q2R (z3Gq c n) = z3G (IZR c) (IZR (Zpos n) / 2).
Proof.
  unfold z3Gq, z3G. rewrite Q2R_plus, Q2R_minus, !Q2R_make, !Pos2Z.inj_mul, !Pos2Z.inj_pow, !mult_IZR.
  rewrite <- !(pow_IZR _ 2), <- !(pow_IZR _ 4), <- !(pow_IZR _ 6). field. apply not_0_IZR. discriminate.
Qed.
Definition z3_b (n : nat) : Q * Q :=
  iround (fst (isum z3t n) + z3Gq 0 (Pos.of_nat (2 * n + 3)), snd (isum z3t n) + z3Gq 7 (Pos.of_nat (2 * n + 3)))%Q.
Lemma z3_b_in z n : zeta3_is z -> qin z (z3_b n).
Proof.
  intros H. apply iround_ok. unfold qin. cbn [fst snd].
  pose proof (isum_ok z3t _ n z3t_ok) as [A B]. pose proof (z3_bracket z n H) as [L U].
  rewrite !Q2R_plus, !z3Gq_ok.
  replace (IZR (Zpos (Pos.of_nat (2 * n + 3))) / 2) with (INR n + 3 / 2).
  - split; [eapply Rle_trans; [|exact L]; apply Rplus_le_compat_r, A|eapply Rle_trans; [exact U|]; apply Rplus_le_compat_r, B].
  - replace (Zpos (Pos.of_nat (2 * n + 3))) with (2 * Z.of_nat n + 3)%Z by lia. rewrite plus_IZR, mult_IZR, <- INR_IZR_INZ. field.
Qed.
Definition z3_bounds : Q * Q := z3_b 1000.

(** ** Li4(1/2) *)
Definition l4t (n : nat) : Q := Qmake 1 (Pos.pow 2 (Pos.of_succ_nat n) * Pos.pow (Pos.of_succ_nat n) 4).
Lemma l4t_ok n : Q2R (l4t n) = (/ 2) ^ (S n) / INR (S n) ^ 4.
Proof.
  unfold l4t. rewrite Q2R_make, Pos2Z.inj_mul, mult_IZR. rewrite (inv_pow_pos 2 n).
  rewrite (Pos2Z.inj_pow (Pos.of_succ_nat n) 4), INR_IZR_INZ, pow_IZR.
  replace (Z.of_nat (S n)) with (Zpos (Pos.of_succ_nat n)) by lia. change (Z.of_nat 4) with 4%Z. unfold Rdiv. rewrite Rinv_mult. ring.
Qed.
Lemma half_cv : Un_cv (fun n => (/ 2) ^ (S n)) 0.
Proof.
  apply (cv_le_inv _ 1); [lra|]. intros n. rewrite Rabs_pos_eq by (apply pow_le; lra). rewrite pow_inv, Rmult_1_l.
  apply Rinv_le_contravar; [apply lt_0_INR; lia|]. induction n as [|n IH]; [cbn; lra|].
  rewrite S_INR. cbn [pow] in *. assert (1 <= 2 * 2 ^ n) by (assert (1 <= 2 ^ n) by (apply pow_R1_Rle; lra); lra). lra.
Qed.
Lemma zero_cv : Un_cv (fun _ => 0) 0.
Proof. intros e He. exists 0%nat. intros n _. unfold R_dist. rewrite Rminus_0_r, Rabs_R0. exact He. Qed.
Lemma l4_bracket l n : li4_half_is l ->
  sum_f_R0 (fun n => (/ 2) ^ (S n) / INR (S n) ^ 4) n <= l <= sum_f_R0 (fun n => (/ 2) ^ (S n) / INR (S n) ^ 4) n + (/ 2) ^ (S n).
Proof.
  intros H. change (Un_cv (fun n => sum_f_R0 (fun n => (/ 2) ^ (S n) / INR (S n) ^ 4) n) l) in H.
  assert (T : forall n, 0 <= (/ 2) ^ (S n) / INR (S n) ^ 4 <= (/ 2) ^ (S n)).
  { clear n. intros n. assert (1 <= INR (S n)) by (rewrite S_INR; pose proof (pos_INR n); lra).
    assert (1 <= INR (S n) ^ 4) by (apply pow_R1_Rle; lra). assert (0 < (/2) ^ S n) by (apply pow_lt; lra). split.
    - apply frac_nonneg; lra.
    - apply Rmult_le_reg_r with (INR (S n) ^ 4); [lra|]. unfold Rdiv. rewrite Rmult_assoc, Rinv_l, Rmult_1_r by lra.
      rewrite <- (Rmult_1_r ((/2) ^ S n)) at 1. apply Rmult_le_compat_l; lra. }
  split.
  - rewrite <- (Rplus_0_r (sum_f_R0 _ n)). apply (bracket_low (fun n => sum_f_R0 _ n) (fun _ => 0)); [exact H|exact zero_cv|].
    clear n. intros n. cbn [sum_f_R0]. destruct (T (S n)). lra.
  - apply (bracket_up (fun n => sum_f_R0 _ n) (fun n => (/2) ^ (S n))); [exact H|exact half_cv|].
    clear n. intros n. cbn [sum_f_R0]. destruct (T (S n)). change ((/2) ^ S (S n)) with (/2 * (/2) ^ S n) in *. lra.
Qed.
Definition l4_b (n : nat) : Q * Q :=
  iround (fst (isum l4t n), snd (isum l4t n) + Qmake 1 (Pos.pow 2 (Pos.of_succ_nat n)))%Q.
Lemma l4_b_in l n : li4_half_is l -> qin l (l4_b n).
Proof.
  intros H. apply iround_ok. unfold qin. cbn [fst snd].
  pose proof (isum_ok l4t _ n l4t_ok) as [A B]. pose proof (l4_bracket l n H) as [L U].
  rewrite Q2R_plus, Q2R_make. unfold Rdiv. rewrite Rmult_1_l, <- (inv_pow_pos 2 n).
  split; [exact (Rle_trans _ _ _ A L)|eapply Rle_trans; [exact U|]; apply Rplus_le_compat_r, B].
Qed.
Definition l4_bounds : Q * Q := l4_b 80.

(** ** Cl2(pi/3) *)
Definition clb (m : nat) : R :=
  / (6 * INR m + 1) ^ 2 + / (6 * INR m + 2) ^ 2 - / (6 * INR m + 4) ^ 2 - / (6 * INR m + 5) ^ 2.
Lemma sin_6 n : sin (INR (S (6 * n)) * (PI / 3)) = sqrt 3 / 2 /\ sin (INR (S (6 * n + 1)) * (PI / 3)) = sqrt 3 / 2 /\
  sin (INR (S (6 * n + 2)) * (PI / 3)) = 0 /\ sin (INR (S (6 * n + 3)) * (PI / 3)) = - (sqrt 3 / 2) /\
  sin (INR (S (6 * n + 4)) * (PI / 3)) = - (sqrt 3 / 2) /\ sin (INR (S (6 * n + 5)) * (PI / 3)) = 0.
Proof.
  assert (E : forall j, sin (INR (S (6 * n + j)) * (PI / 3)) = sin (INR (S j) * (PI / 3))).
  { intros j. replace (INR (S (6 * n + j)) * (PI / 3)) with (INR (S j) * (PI / 3) + 2 * INR n * PI);
      [apply sin_period|]. rewrite !S_INR, plus_INR, mult_INR. change (INR 6) with (1 + 1 + 1 + 1 + 1 + 1). field. }
  pose proof (E 0%nat) as E0. rewrite Nat.add_0_r in E0. rewrite E0, !E. clear E E0.
  cbn [INR]. repeat split.
  - replace (1 * (PI / 3)) with (PI / 3) by ring. apply sin_PI3.
  - replace ((1 + 1) * (PI / 3)) with (2 * (PI / 3)) by ring. apply sin_2PI3.
  - replace ((1 + 1 + 1) * (PI / 3)) with PI by field. apply sin_PI.
  - replace ((1 + 1 + 1 + 1) * (PI / 3)) with (PI / 3 + PI) by field. rewrite neg_sin, sin_PI3. ring.
  - replace ((1 + 1 + 1 + 1 + 1) * (PI / 3)) with (2 * (PI / 3) + PI) by field. rewrite neg_sin, sin_2PI3. ring.
  - replace ((1 + 1 + 1 + 1 + 1 + 1) * (PI / 3)) with (PI + PI) by field. rewrite neg_sin, sin_PI. ring.
Qed.
Lemma cl_sum n : sum_f_R0 (fun k => sin (INR (S k) * (PI / 3)) / INR (S k) ^ 2) (6 * n + 5) = sqrt 3 / 2 * sum_f_R0 clb n.
Proof.
  assert (B : forall m, let f := fun k => sin (INR (S k) * (PI / 3)) / INR (S k) ^ 2 in
     f (6 * m)%nat + f (6 * m + 1)%nat + f (6 * m + 2)%nat + f (6 * m + 3)%nat + f (6 * m + 4)%nat + f (6 * m + 5)%nat = sqrt 3 / 2 * clb m).
  { intros m. cbv zeta. destruct (sin_6 m) as (-> & -> & -> & -> & -> & ->). unfold clb.
    rewrite !S_INR, !plus_INR, !mult_INR. cbn [INR]. pose proof (pos_INR m). field. repeat split; lra. }
  induction n as [|n IH].
  - specialize (B 0%nat). cbv zeta in B. cbn [sum_f_R0 Nat.mul Nat.add] in *. rewrite <- B. reflexivity.
  - replace (6 * S n + 5)%nat with (S (S (S (S (S (S (6 * n + 5))))))) by lia.
    rewrite !tech5, IH. specialize (B (S n)). cbv zeta in B. rewrite Rmult_plus_distr_l, <- B.
    replace (6 * S n)%nat with (S (6 * n + 5)) by lia. replace (S (6 * n + 5) + 1)%nat with (S (S (6 * n + 5))) by lia.
    replace (S (6 * n + 5) + 2)%nat with (S (S (S (6 * n + 5)))) by lia. replace (S (6 * n + 5) + 3)%nat with (S (S (S (S (6 * n + 5))))) by lia.
    replace (S (6 * n + 5) + 4)%nat with (S (S (S (S (S (6 * n + 5)))))) by lia.
    replace (S (6 * n + 5) + 5)%nat with (S (S (S (S (S (S (6 * n + 5))))))) by lia. ring.
Qed.
Lemma cl_blocks c : cl2_pi3_is c -> Un_cv (fun n => sum_f_R0 clb n) (2 / sqrt 3 * c).
Proof.
  intros H. assert (Q3 : 0 < sqrt 3) by (apply sqrt_lt_R0; lra).
  apply Un_cv_ext with (fun n => 2 / sqrt 3 * sum_f_R0 (fun k => sin (INR (S k) * (PI / 3)) / INR (S k) ^ 2) (6 * n + 5)).
  { intros n. rewrite cl_sum. field. lra. }
  apply (CV_mult (fun _ => 2 / sqrt 3)).
  - intros e He. exists 0%nat. intros n _. unfold R_dist. rewrite Rminus_eq_0, Rabs_R0. exact He.
  - intros e He. destruct (H e He) as [N HN]. exists N. intros n Hn. apply HN. lia.
Qed.
Definition clG (c : R) (x : R) : R := / x ^ 2 - 6 / x ^ 4 + c / x ^ 6.
Definition clf (C : R) : R := / (C - 2) ^ 2 + / (C - 1) ^ 2 - / (C + 1) ^ 2 - / (C + 2) ^ 2.
Lemma clf_low C : 9 <= C -> clG 0 (C - 3) - clG 0 (C + 3) <= clf C.
Proof.
  intros HC. unfold clG, clf. apply Rminus_le_0.
  match goal with |- 0 <= ?t => replace t with
   (C * (3960 * C ^ 8 - 51792 * C ^ 6 + 249792 * C ^ 4 - 532080 * C ^ 2 + 477576) /
    (((C - 2) * (C + 2)) ^ 2 * ((C - 1) * (C + 1)) ^ 2 * ((C - 3) * (C + 3)) ^ 4)) by (field; repeat split; lra) end.
  apply frac_nonneg.
  - apply Rmult_le_pos; [lra|]. assert (Q : 81 <= C ^ 2) by nra.
    replace (3960 * C ^ 8 - 51792 * C ^ 6 + 249792 * C ^ 4 - 532080 * C ^ 2 + 477576)
      with ((C ^ 2) ^ 3 * (3960 * C ^ 2 - 51792) + C ^ 2 * (249792 * C ^ 2 - 532080) + 477576) by ring.
    assert (0 <= (C ^ 2) ^ 3) by (apply pow_le; lra).
    assert (0 <= (C ^ 2) ^ 3 * (3960 * C ^ 2 - 51792)) by (apply Rmult_le_pos; lra).
    assert (0 <= C ^ 2 * (249792 * C ^ 2 - 532080)) by (apply Rmult_le_pos; lra). lra.
  - repeat apply Rmult_lt_0_compat; try apply pow_lt; nra.
Qed.
Lemma clf_up C : 9 <= C -> clf C <= clG 110 (C - 3) - clG 110 (C + 3).
Proof.
  intros HC. unfold clG, clf. apply Rminus_le_0.
  match goal with |- 0 <= ?t => replace t with
   (C * (202272 * C ^ 10 - 2239368 * C ^ 8 + 9777888 * C ^ 6 - 24391728 * C ^ 4 + 40765248 * C ^ 2 - 33551496) /
    (((C - 2) * (C + 2)) ^ 2 * ((C - 1) * (C + 1)) ^ 2 * ((C - 3) * (C + 3)) ^ 6)) by (field; repeat split; lra) end.
  apply frac_nonneg.
  - apply Rmult_le_pos; [lra|]. assert (Q : 81 <= C ^ 2) by nra.
    replace (202272 * C ^ 10 - 2239368 * C ^ 8 + 9777888 * C ^ 6 - 24391728 * C ^ 4 + 40765248 * C ^ 2 - 33551496)
      with ((C ^ 2) ^ 4 * (202272 * C ^ 2 - 2239368) + (C ^ 2) ^ 2 * (9777888 * C ^ 2 - 24391728) + (40765248 * C ^ 2 - 33551496)) by ring.
    assert (0 <= (C ^ 2) ^ 4) by (apply pow_le; lra). assert (0 <= (C ^ 2) ^ 2) by (apply pow_le; lra).
    assert (0 <= (C ^ 2) ^ 4 * (202272 * C ^ 2 - 2239368)) by (apply Rmult_le_pos; lra).
    assert (0 <= (C ^ 2) ^ 2 * (9777888 * C ^ 2 - 24391728)) by (apply Rmult_le_pos; lra). lra.
  - repeat apply Rmult_lt_0_compat; try apply pow_lt; nra.
Qed.
Lemma clG_cv c : 0 <= c <= 110 -> Un_cv (fun n => clG c (6 * INR n + 6)) 0.
Proof.
  intros Hc. apply (cv_le_inv _ 1); [lra|]. intros n. rewrite S_INR. pose proof (pos_INR n) as P. set (x := INR n + 1) in *.
  replace (6 * INR n + 6) with (6 * x) by (unfold x; lra). assert (X : 1 <= x) by (unfold x; lra). clearbody x. clear P n.
  unfold clG. assert (Y : x <= x ^ 2) by nra.
  assert (I1 : 0 < / x ^ 2) by (apply Rinv_0_lt_compat; lra).
  assert (I1' : / x ^ 2 <= 1). { rewrite <- Rinv_1. apply Rinv_le_contravar; lra. }
  replace (/ (6 * x) ^ 2 - 6 / (6 * x) ^ 4 + c / (6 * x) ^ 6) with (/36 * (/ x ^ 2) - /216 * (/ x ^ 2) ^ 2 + c / 46656 * (/ x ^ 2) ^ 3) by (field; lra).
  assert (J : / x ^ 2 <= / x). { apply Rinv_le_contravar; lra. }
  set (v := / x ^ 2) in *. rewrite Rmult_1_l. apply Rle_trans with v; [|exact J].
  assert (0 <= v ^ 2 <= v) by nra. assert (0 <= v ^ 3 <= v). { split; [nra|]. assert (v ^ 3 <= v ^ 2) by nra. lra. }
  apply Rabs_le. split; nra.
Qed.
Lemma cl_bracket c n : cl2_pi3_is c ->
  sum_f_R0 clb n + clG 0 (6 * INR n + 6) <= 2 / sqrt 3 * c <= sum_f_R0 clb n + clG 110 (6 * INR n + 6).
Proof.
  intros H. apply cl_blocks in H.
  assert (B : forall n, clb (S n) = clf (6 * INR n + 9) /\ 9 <= 6 * INR n + 9 /\ 6 * INR n + 9 - 3 = 6 * INR n + 6 /\ 6 * INR n + 9 + 3 = 6 * INR (S n) + 6).
  { clear n. intros n. pose proof (pos_INR n). rewrite S_INR. repeat split; [|lra|lra|lra]. unfold clb, clf. rewrite S_INR. 
    f_equal; [f_equal; [f_equal|]|]; f_equal; f_equal; ring. }
  split.
  - apply (bracket_low (fun n => sum_f_R0 clb n) (fun n => clG 0 (6 * INR n + 6))); [exact H|apply clG_cv; lra|].
    clear n. intros n. cbn [sum_f_R0]. destruct (B n) as (-> & Hn & E1 & E2). pose proof (clf_low _ Hn) as L. rewrite E1, E2 in L. lra.
  - apply (bracket_up (fun n => sum_f_R0 clb n) (fun n => clG 110 (6 * INR n + 6))); [exact H|apply clG_cv; lra|].
    clear n. intros n. cbn [sum_f_R0]. destruct (B n) as (-> & Hn & E1 & E2). pose proof (clf_up _ Hn) as L. rewrite E1, E2 in L. lra.
Qed.
Definition clt (m : nat) : Q :=
  let p := (6 * Pos.of_succ_nat m)%positive in   (* 6m + 6 *)
  (Qmake 1 (Pos.pow (p - 5) 2) + Qmake 1 (Pos.pow (p - 4) 2) - Qmake 1 (Pos.pow (p - 2) 2) - Qmake 1 (Pos.pow (p - 1) 2))%Q.
Lemma inv_sq_ok p : Q2R (Qmake 1 (Pos.pow p 2)) = / IZR (Zpos p) ^ 2.
Proof. rewrite Q2R_make, Pos2Z.inj_pow, pow_IZR. unfold Rdiv. apply Rmult_1_l. Qed.
Lemma clt_ok m : Q2R (clt m) = clb m.
Proof.
  unfold clt, clb. cbv zeta. rewrite !Q2R_minus, Q2R_plus, !inv_sq_ok.
  assert (E : forall j k, (j + k = 6)%positive -> IZR (Zpos (6 * Pos.of_succ_nat m - j)) = 6 * INR m + IZR (Zpos k)).
  { intros j k Hj. replace (Zpos (6 * Pos.of_succ_nat m - j)) with (6 * Z.of_nat m + Zpos k)%Z by lia.
    rewrite plus_IZR, mult_IZR, <- INR_IZR_INZ. reflexivity. }
  rewrite (E 5 1)%positive, (E 4 2)%positive, (E 2 4)%positive, (E 1 5)%positive by reflexivity. reflexivity.
Qed.
Definition clGq (c : Z) (n : positive) : Q :=
  (Qmake 1 (Pos.pow n 2) - Qmake 6 (Pos.pow n 4) + Qmake c (Pos.pow n 6))%Q.
Lemma clGq_ok c (n : positive) : Q2R (clGq c n) = clG (IZR c) (IZR (Zpos n)).
Proof.
  unfold clGq, clG. rewrite Q2R_plus, Q2R_minus, !Q2R_make, !Pos2Z.inj_pow.
  rewrite <- !(pow_IZR _ 2), <- !(pow_IZR _ 4), <- !(pow_IZR _ 6). field. apply not_0_IZR. discriminate.
Qed.
(** enclosure of 2/sqrt 3 * Cl2(pi/3) *)
Definition cl_b (n : nat) : Q * Q :=
  iround (fst (isum clt n) + clGq 0 (6 * Pos.of_succ_nat n), snd (isum clt n) + clGq 110 (6 * Pos.of_succ_nat n))%Q.
Lemma cl_b_in c n : cl2_pi3_is c -> qin (2 / sqrt 3 * c) (cl_b n).
Proof.
  intros H. apply iround_ok. unfold qin. cbn [fst snd].
  pose proof (isum_ok clt _ n clt_ok) as [A B]. pose proof (cl_bracket c n H) as [L U].
  rewrite !Q2R_plus, !clGq_ok.
  replace (IZR (Zpos (6 * Pos.of_succ_nat n))) with (6 * INR n + 6).
  - split; [eapply Rle_trans; [|exact L]; apply Rplus_le_compat_r, A|eapply Rle_trans; [exact U|]; apply Rplus_le_compat_r, B].
  - replace (Zpos (6 * Pos.of_succ_nat n)) with (6 * Z.of_nat n + 6)%Z by lia. rewrite plus_IZR, mult_IZR, <- INR_IZR_INZ. field.
Qed.
Definition cl_bounds : Q * Q := cl_b 400.

(** ** Im Li3(e^(-i pi/6)/sqrt 3) *)
Fixpoint zpow (n : nat) : Q * Q :=    (* z^n = a - i sqrt 3 b, z = e^(-i pi/6)/sqrt 3 *)
  match n with
  | O => (1, 0)%Q
  | S m => let '(a, b) := zpow m in (Qred (a * (Qmake 1 2) - b * (Qmake 1 2)), Qred (b * (Qmake 1 2) + a * (Qmake 1 6)))%Q
  end.
(** the same with the common denominator 6^n *)
Fixpoint zpz (n : nat) : Z * Z :=
  match n with
  | O => (1, 0)%Z
  | S m => let '(a, b) := zpz m in let d := (a - b)%Z in (d + d + d, b + b + b + a)%Z
  end.
Lemma Qred_R q : Q2R (Qred q) = Q2R q.
Proof. apply Qeq_eqR, Qred_correct. Qed.
Lemma zpow_ok n : cos (INR n * (PI / 6)) * (/ sqrt 3) ^ n = Q2R (fst (zpow n)) /\
  sin (INR n * (PI / 6)) * (/ sqrt 3) ^ n = sqrt 3 * Q2R (snd (zpow n)).
Proof.
  assert (Q3 : 0 < sqrt 3) by (apply sqrt_lt_R0; lra).
  assert (S3 : sqrt 3 * sqrt 3 = 3) by (apply sqrt_sqrt; lra).
  assert (I3 : / sqrt 3 * sqrt 3 = 1) by (field; lra). assert (J3 : 3 * / sqrt 3 = sqrt 3) by (apply (Rmult_eq_reg_r (sqrt 3)); [|lra]; rewrite Rmult_assoc, I3, S3; ring).
  induction n as [|n [IH1 IH2]].
  - cbn [INR pow zpow fst snd]. rewrite Rmult_0_l, cos_0, sin_0. unfold Q2R. cbn. lra.
  - rewrite S_INR, Rmult_plus_distr_r, Rmult_1_l, cos_plus, sin_plus, cos_PI6, sin_PI6. cbn [zpow].
    destruct (zpow n) as [a b]. cbn [fst snd] in *. rewrite !Qred_R, Q2R_plus, Q2R_minus, !Q2R_mult.
    replace (Q2R (Qmake 1 2)) with (/2) by (unfold Q2R; cbn; lra). replace (Q2R (Qmake 1 6)) with (/6) by (unfold Q2R; cbn; lra).
    cbn [pow]. set (s := (/ sqrt 3) ^ n) in *. split.
    + replace ((cos (INR n * (PI / 6)) * (sqrt 3 / 2) - sin (INR n * (PI / 6)) * (1 / 2)) * (/ sqrt 3 * s))
        with (cos (INR n * (PI / 6)) * s * (/ sqrt 3 * sqrt 3) / 2 - sin (INR n * (PI / 6)) * s * / sqrt 3 / 2) by (field; lra).
      rewrite IH1, IH2, I3. field. lra.
    + replace ((sin (INR n * (PI / 6)) * (sqrt 3 / 2) + cos (INR n * (PI / 6)) * (1 / 2)) * (/ sqrt 3 * s))
        with (sin (INR n * (PI / 6)) * s * (/ sqrt 3 * sqrt 3) / 2 + cos (INR n * (PI / 6)) * s * / sqrt 3 / 2) by (field; lra).
      rewrite IH1, IH2, I3. apply (Rmult_eq_reg_r (sqrt 3)); [|lra]. field_simplify; [|lra]. 
      replace (sqrt 3 ^ 2) with 3 by (rewrite <- (Rsqr_pow2 (sqrt 3)); unfold Rsqr; symmetry; exact S3). field.
Qed.
Lemma zpz_ok n : Q2R (fst (zpow n)) = IZR (fst (zpz n)) / 6 ^ n /\ Q2R (snd (zpow n)) = IZR (snd (zpz n)) / 6 ^ n.
Proof.
  induction n as [|n [IH1 IH2]]; [cbn [zpow zpz fst snd pow]; unfold Q2R; cbn; lra|].
  cbn [zpow zpz]. destruct (zpow n) as [a b], (zpz n) as [x y]. cbn [fst snd] in *. cbv zeta.
  rewrite !Qred_R, Q2R_plus, Q2R_minus, !Q2R_mult, IH1, IH2.
  replace (Q2R (Qmake 1 2)) with (/2) by (unfold Q2R; cbn; lra). replace (Q2R (Qmake 1 6)) with (/6) by (unfold Q2R; cbn; lra).
  rewrite !plus_IZR, !minus_IZR. cbn [pow]. assert (6 ^ n <> 0) by (apply pow_nonzero; lra). split; field; assumption.
Qed.
Definition i3t (n : nat) : Q := Qmake (- snd (zpz (S n))) (Pos.pow 6 (Pos.of_succ_nat n) * Pos.pow (Pos.of_succ_nat n) 3).
Lemma i3t_zpow n : Q2R (i3t n) = Q2R (- snd (zpow (S n)) * Qmake 1 (Pos.pow (Pos.of_succ_nat n) 3))%Q.
Proof.
  unfold i3t. rewrite Q2R_mult, Q2R_opp, (proj2 (zpz_ok (S n))), !Q2R_make, opp_IZR, Pos2Z.inj_mul, mult_IZR.
  replace (IZR (Zpos (Pos.pow 6 (Pos.of_succ_nat n)))) with (6 ^ S n).
  - assert (6 ^ S n <> 0) by (apply pow_nonzero; lra). assert (IZR (Zpos (Pos.of_succ_nat n ^ 3)) <> 0) by (apply not_0_IZR; discriminate). field. split; assumption.
  - rewrite Pos2Z.inj_pow. rewrite <- (SuccNat2Pos.id_succ n) at 1. rewrite <- (positive_nat_Z (Pos.of_succ_nat n)), <- pow_IZR. reflexivity.
Qed.
Lemma i3t_ok n : sqrt 3 * Q2R (i3t n) = sin (INR (S n) * (- (PI / 6))) * (/ sqrt 3) ^ (S n) / INR (S n) ^ 3.
Proof.
  rewrite i3t_zpow. rewrite Q2R_mult, Q2R_opp. rewrite Ropp_mult_distr_r_reverse, sin_neg.
  destruct (zpow_ok (S n)) as [_ E]. rewrite (Ropp_mult_distr_l_reverse (sin (INR (S n) * (PI / 6)))), E.
  fold (z3t n). rewrite z3t_ok. unfold Rdiv. ring.
Qed.
Lemma i3_term n : Rabs (Q2R (i3t n)) <= (3 / 5) ^ S n.
Proof.
  assert (Q3 : 1 < sqrt 3). { rewrite <- sqrt_1. apply sqrt_lt_1; lra. }
  assert (Q4 : / sqrt 3 <= 3 / 5). { replace (3 / 5) with (/ (5 / 3)) by field. apply Rinv_le_contravar; [lra|].
    rewrite <- (sqrt_square (5 / 3)) by lra. apply sqrt_le_1; lra. }
  assert (Q5 : 0 < / sqrt 3) by (apply Rinv_0_lt_compat; lra).
  replace (Q2R (i3t n)) with (/ sqrt 3 * (sqrt 3 * Q2R (i3t n))) by (field; lra). rewrite i3t_ok.
  unfold Rdiv. rewrite !Rabs_mult.
  assert (A : Rabs (sin (INR (S n) * - (PI * / 6))) <= 1) by (apply Rabs_le, SIN_bound).
  rewrite (Rabs_pos_eq (/ sqrt 3)) by lra. rewrite <- RPow_abs, (Rabs_pos_eq (/ sqrt 3)) by lra.
  assert (B : (/ sqrt 3) ^ S n <= (3 / 5) ^ S n) by (apply pow_incr; lra).
  assert (B0 : 0 < (/ sqrt 3) ^ S n) by (apply pow_lt; lra).
  assert (N : 1 <= INR (S n)) by (rewrite S_INR; pose proof (pos_INR n); lra).
  assert (C0 : 1 <= INR (S n) ^ 3) by (apply pow_R1_Rle; lra).
  assert (C : 0 < / INR (S n) ^ 3 <= 1). { split; [apply Rinv_0_lt_compat; lra|]. rewrite <- Rinv_1. apply Rinv_le_contravar; lra. }
  rewrite (Rabs_pos_eq (/ INR (S n) ^ 3)) by lra.
  pose proof (Rabs_pos (sin (INR (S n) * - (PI * / 6)))) as P.
  set (a := Rabs (sin (INR (S n) * - (PI * / 6)))) in *. set (b := (/ sqrt 3) ^ S n) in *. set (c := / INR (S n) ^ 3) in *.
  fold (Rdiv 3 5) in *. set (d := (3 / 5) ^ S n) in *. set (q := / sqrt 3) in *.
  assert (0 <= a * b <= d) by (split; [apply Rmult_le_pos; lra|nra]). assert (0 <= a * b * c <= d) by nra.
  assert (q <= 1) by lra. nra.
Qed.
Lemma geo_cv : Un_cv (fun n => 3 / 2 * (3 / 5) ^ (S n)) 0.
Proof.
  rewrite <- (Rmult_0_r (3 / 2)). apply (CV_mult (fun _ => 3 / 2)).
  - intros e He. exists 0%nat. intros n _. unfold R_dist. rewrite Rminus_eq_0, Rabs_R0. exact He.
  - intros e He. destruct (pow_lt_1_zero (3 / 5)) with (y := e) as [N HN]; [rewrite Rabs_pos_eq; lra|exact He|].
    exists N. intros n Hn. unfold R_dist. rewrite Rminus_0_r. apply HN. lia.
Qed.
Lemma geo_neg_cv : Un_cv (fun n => - (3 / 2 * (3 / 5) ^ (S n))) 0.
Proof. rewrite <- Ropp_0. apply CV_opp, geo_cv. Qed.
Lemma i3_cv c : im_li3_is c -> Un_cv (fun n => sum_f_R0 (fun k => Q2R (i3t k)) n) (c / sqrt 3).
Proof.
  intros H. assert (Q3 : 0 < sqrt 3) by (apply sqrt_lt_R0; lra).
  apply Un_cv_ext with (fun n => / sqrt 3 * sum_f_R0 (fun k => sin (INR (S k) * (- (PI / 6))) * (/ sqrt 3) ^ (S k) / INR (S k) ^ 3) n).
  { intros n. rewrite scal_sum. apply sum_eq. intros k _. rewrite <- i3t_ok. field. lra. }
  unfold Rdiv. rewrite (Rmult_comm c). apply (CV_mult (fun _ => / sqrt 3)); [|exact H].
  intros e He. exists 0%nat. intros n _. unfold R_dist. rewrite Rminus_eq_0, Rabs_R0. exact He.
Qed.
Lemma i3_bracket c n : im_li3_is c ->
  sum_f_R0 (fun k => Q2R (i3t k)) n - 3 / 2 * (3 / 5) ^ (S n) <= c / sqrt 3 <= sum_f_R0 (fun k => Q2R (i3t k)) n + 3 / 2 * (3 / 5) ^ (S n).
Proof.
  intros H. apply i3_cv in H.
  assert (T : forall n, - (3 / 5) ^ S (S n) <= Q2R (i3t (S n)) <= (3 / 5) ^ S (S n)).
  { clear. intros n. pose proof (i3_term (S n)) as A. split; [|eapply Rle_trans; [apply Rle_abs|exact A]].
    pose proof (Rle_abs (- Q2R (i3t (S n)))) as B. rewrite Rabs_Ropp in B. lra. }
  split.
  - apply (bracket_low (fun n => sum_f_R0 (fun k => Q2R (i3t k)) n) (fun n => - (3 / 2 * (3 / 5) ^ (S n)))); [exact H|exact geo_neg_cv|].
    clear n. intros n. rewrite tech5. specialize (T n). change ((3 / 5) ^ S (S n)) with (3 / 5 * (3 / 5) ^ S n) in *. lra.
  - apply (bracket_up (fun n => sum_f_R0 (fun k => Q2R (i3t k)) n) (fun n => (3 / 2 * (3 / 5) ^ (S n)))); [exact H|exact geo_cv|].
    clear n. intros n. rewrite tech5. specialize (T n). change ((3 / 5) ^ S (S n)) with (3 / 5 * (3 / 5) ^ S n) in *. lra.
Qed.
(** enclosure of Im Li3 / sqrt 3 *)
Definition geoq (n : nat) : Q := Qmake (3 * 3 ^ (Zpos (Pos.of_succ_nat n))) (2 * Pos.pow 5 (Pos.of_succ_nat n)).
Lemma geoq_ok n : Q2R (geoq n) = 3 / 2 * (3 / 5) ^ (S n).
Proof.
  unfold geoq. rewrite Q2R_make, mult_IZR, Pos2Z.inj_mul, mult_IZR. change ((3 / 5) ^ S n) with ((3 * / 5) ^ S n). rewrite Rpow_mult_distr.
  rewrite (inv_pow_pos 5 n). rewrite (pow_IZR 3 (S n)). replace (Z.of_nat (S n)) with (Zpos (Pos.of_succ_nat n)) by lia.
  field. apply not_0_IZR. discriminate.
Qed.
Definition i3_b (n : nat) : Q * Q := iround (fst (isum i3t n) - geoq n, snd (isum i3t n) + geoq n)%Q.
Lemma i3_b_in c n : im_li3_is c -> qin (c / sqrt 3) (i3_b n).
Proof.
  intros H. apply iround_ok. unfold qin. cbn [fst snd].
  pose proof (isum_ok i3t (fun k => Q2R (i3t k)) n (fun k => eq_refl)) as [A B]. pose proof (i3_bracket c n H) as [L U].
  rewrite Q2R_plus, Q2R_minus, geoq_ok.
  split; [eapply Rle_trans; [|exact L]; apply Rplus_le_compat_r, A|eapply Rle_trans; [exact U|]; apply Rplus_le_compat_r, B].
Qed.
Definition i3_bounds : Q * Q := i3_b 120.

(** ** the sums exist *)
Lemma inv_sq_sum : ex_series (fun n => / INR (S n) ^ 2).
Proof.
  destruct (growing_cv (fun n => sum_f_R0 (fun n => / INR (S n) ^ 2) n)) as [l Hl].
  - intros n. cbn [sum_f_R0]. assert (0 < / INR (S (S n)) ^ 2); [|lra]. apply Rinv_0_lt_compat, pow_lt, lt_0_INR. lia.
  - exists 2. intros x [n ->]. assert (B : sum_f_R0 (fun n => / INR (S n) ^ 2) n <= 2 - / INR (S n)).
    { induction n as [|n IH]; [cbn; lra|]. rewrite tech5. rewrite (S_INR (S n)) in *.
      set (x := INR (S n)) in *. assert (X : 1 <= x) by (unfold x; rewrite S_INR; pose proof (pos_INR n); lra). clearbody x.
      assert (/ (x + 1) ^ 2 <= / x - / (x + 1)); [|lra].
      replace (/ x - / (x + 1)) with (/ (x * (x + 1))) by (field; lra). apply Rinv_le_contravar; nra. }
    assert (0 < / INR (S n)) by (apply Rinv_0_lt_compat, lt_0_INR; lia). lra.
  - exists l. apply is_series_Reals. exact Hl.
Qed.
Lemma ex_by_sq (f : nat -> R) : (forall n, Rabs (f n) <= / INR (S n) ^ 2) -> exists l, infinite_sum f l.
Proof.
  intros H. destruct (ex_series_le (K := R_AbsRing) (V := R_CompleteNormedModule) f (fun n => / INR (S n) ^ 2)) as [l Hl].
  - exact H.
  - exact inv_sq_sum.
  - exists l. apply is_series_Reals, Hl.
Qed.
Lemma abs_frac a b n k : (k >= 2)%nat -> Rabs a <= 1 -> 0 <= b <= 1 -> Rabs (a * b / INR (S n) ^ k) <= / INR (S n) ^ 2.
Proof.
  intros Hk A B. assert (N : 1 <= INR (S n)) by (rewrite S_INR; pose proof (pos_INR n); lra).
  unfold Rdiv. rewrite !Rabs_mult, (Rabs_pos_eq b) by lra.
  assert (P : 0 < / INR (S n) ^ k) by (apply Rinv_0_lt_compat, pow_lt; lra). rewrite (Rabs_pos_eq (/ _)) by lra.
  assert (Q : / INR (S n) ^ k <= / INR (S n) ^ 2). { apply Rinv_le_contravar; [apply pow_lt; lra|]. apply Rle_pow; [exact N|lia]. }
  pose proof (Rabs_pos a). assert (0 <= Rabs a * b <= 1) by nra. nra.
Qed.
Lemma pow_le1 x n : 0 <= x <= 1 -> 0 <= x ^ n <= 1.
Proof. intros H. split; [apply pow_le; lra|]. rewrite <- (pow1 n). apply pow_incr. exact H. Qed.
Lemma zeta3_ex : exists z, zeta3_is z.
Proof.
  apply ex_by_sq. intros n. replace (/ INR (S n) ^ 3) with (1 * 1 / INR (S n) ^ 3) by (unfold Rdiv; ring).
  apply abs_frac; [lia|rewrite Rabs_R1; lra|lra].
Qed.
Lemma li4_ex : exists l, li4_half_is l.
Proof.
  apply ex_by_sq. intros n. replace ((/2) ^ S n / INR (S n) ^ 4) with (1 * (/2) ^ S n / INR (S n) ^ 4) by (unfold Rdiv; ring).
  apply abs_frac; [lia|rewrite Rabs_R1; lra|apply pow_le1; lra].
Qed.
Lemma cl2_ex : exists c, cl2_pi3_is c.
Proof.
  apply ex_by_sq. intros n. rewrite <- (Rmult_1_r (sin _)). apply abs_frac; [lia|apply Rabs_le, SIN_bound|lra].
Qed.
Lemma li3_ex : exists c, im_li3_is c.
Proof.
  apply ex_by_sq. intros n. apply abs_frac; [lia|apply Rabs_le, SIN_bound|]. apply pow_le1.
  assert (1 < sqrt 3). { rewrite <- sqrt_1. apply sqrt_lt_1; lra. }
  split; [apply Rlt_le, Rinv_0_lt_compat; lra|]. rewrite <- Rinv_1. apply Rinv_le_contravar; lra.
Qed.
