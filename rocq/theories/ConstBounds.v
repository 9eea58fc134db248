(** * Rational enclosures of pi, ln 2 and square roots (proof tool for C47) *)
From Coq Require Import ZArith QArith Qreals Reals Lra Lia List Machin.
From Coquelicot Require Import Coquelicot.
From Verif Require Import QInterval.
Import ListNotations.
Local Open Scope R_scope.

(** 1/(b^(2n+1) (2n+1)) *)
Definition qterm (b : positive) (n : nat) : Q :=
  Qmake 1 (Pos.pow b (Pos.of_succ_nat (2 * n)) * Pos.of_succ_nat (2 * n)).
Lemma inv_pow_pos b n : (/ IZR (Zpos b)) ^ (S n) = / IZR (Zpos (Pos.pow b (Pos.of_succ_nat n))).
Proof.
  rewrite pow_inv. f_equal. rewrite pow_IZR. f_equal.
  rewrite Pos2Z.inj_pow. f_equal.
Qed.
Lemma qterm_ok b n : Q2R (qterm b n) = (/ IZR (Zpos b)) ^ (2 * n + 1) / INR (2 * n + 1).
Proof.
  unfold qterm. rewrite Q2R_make. replace (2 * n + 1)%nat with (S (2 * n)) by lia.
  rewrite inv_pow_pos, INR_IZR_INZ. rewrite Pos2Z.inj_mul, mult_IZR.
  replace (Z.of_nat (S (2 * n))) with (Zpos (Pos.of_succ_nat (2 * n))) by lia.
  field. split; apply not_0_IZR; discriminate.
Qed.

(** rounded partial sums *)
Fixpoint zlo (f : nat -> Q) (n : nat) : Z :=
  match n with O => Qnum (qdown (f 0%nat)) | S m => (zlo f m + Qnum (qdown (f n)))%Z end.
Fixpoint zhi (f : nat -> Q) (n : nat) : Z :=
  match n with O => Qnum (qup (f 0%nat)) | S m => (zhi f m + Qnum (qup (f n)))%Z end.
(** every term is rounded to a multiple of 1/den *)
Definition isum (f : nat -> Q) (n : nat) : Q * Q := (Qmake (zlo f n) den, Qmake (zhi f n) den).
Lemma isum_ok f g n : (forall k, Q2R (f k) = g k) -> qin (sum_f_R0 g n) (isum f n).
Proof.
  intros H. unfold isum, qin; cbn [fst snd].
  assert (D : IZR (Zpos den) <> 0) by (apply not_0_IZR; discriminate).
  assert (A : forall a b, Q2R (Qmake (a + b) den) = Q2R (Qmake a den) + Q2R (Qmake b den)).
  { intros a b. rewrite !Q2R_make, plus_IZR. field. exact D. }
  induction n as [|n IH]; cbn [zlo zhi sum_f_R0].
  - rewrite <- H. split; [exact (qdown_le (f 0%nat))|exact (qup_ge (f 0%nat))].
  - rewrite !A, <- H. pose proof (qdown_le (f (S n))) as L. pose proof (qup_ge (f (S n))) as U.
    change (Q2R (Qmake (Qnum (qdown (f (S n)))) den)) with (Q2R (qdown (f (S n)))). change (Q2R (Qmake (Qnum (qup (f (S n)))) den)) with (Q2R (qup (f (S n)))). lra.
Qed.

(** ** pi (Machin-like series of the standard library) *)
Definition qpi (n : nat) : Q :=
  ((if Nat.even n then 1 else - (1)) * ((2 # 1) * qterm 3 n + qterm 7 n))%Q.
Lemma qpi_ok n : Q2R (qpi n) = tg_alt PI_2_3_7_tg n.
Proof.
  unfold qpi, tg_alt, PI_2_3_7_tg, Ratan_seq. rewrite Q2R_mult, Q2R_plus, Q2R_mult, !qterm_ok.
  replace (Q2R (2 # 1)) with 2 by (unfold Q2R; cbn; lra).
  replace (Q2R (if Nat.even n then 1 else - (1))) with ((-1) ^ n); [reflexivity|].
  induction n as [|n IH]; [unfold Q2R; cbn; lra|].
  rewrite Nat.even_succ. cbn [pow]. rewrite IH. rewrite <- Nat.negb_even. destruct (Nat.even n); unfold Q2R; cbn; lra.
Qed.
Definition pi_b (n : nat) : Q * Q :=
  iround ((4 # 1) * fst (isum qpi (S (2 * n))), (4 # 1) * snd (isum qpi (2 * n)))%Q.
Lemma scale4 a b x c d : a <= b -> b <= x / 4 -> x / 4 <= c -> c <= d -> 4 * a <= x <= 4 * d.
Proof. lra. Qed.
Lemma pi_b_in n : qin PI (pi_b n).
Proof.
  apply iround_ok. unfold qin. cbn [fst snd].
  pose proof (PI_2_3_7_ineq n) as [L U].
  pose proof (isum_ok qpi _ (S (2 * n)) qpi_ok) as [L' _]. pose proof (isum_ok qpi _ (2 * n) qpi_ok) as [_ U'].
  rewrite !Q2R_mult. replace (Q2R (4 # 1)) with 4 by (unfold Q2R; cbn; lra).
  exact (scale4 _ _ _ _ _ L' L U U').
Qed.
Definition pi_bounds : Q * Q := pi_b 19.
Lemma pi_in : qin PI pi_bounds.
Proof. apply pi_b_in. Qed.

(** ** ln 2 = 2 artanh(1/3) *)
Lemma sum_geo x n : sum_f_R0 (fun k => (x * x) ^ k) n * (1 - x * x) = 1 - (x * x) ^ (S n).
Proof. induction n as [|n IH]; [cbn; ring|]. rewrite tech5, Rmult_plus_distr_r, IH. cbn [pow]. ring. Qed.
Lemma derive_odd n x :
  is_derive (fun y : R => sum_f_R0 (fun k => y ^ (2 * k + 1) / INR (2 * k + 1)) n : R) x
    (sum_f_R0 (fun k => (x * x) ^ k) n).
Proof.
  assert (T : forall k, is_derive (fun y : R => y ^ (2 * k + 1) / INR (2 * k + 1) : R) x ((x * x) ^ k)).
  { intros k. auto_derive; [exact I|]. replace (Init.Nat.pred (k + (k + 0) + 1)) with (2 * k)%nat by lia.
    rewrite pow_mult. replace (x ^ 2) with (x * x) by ring. field. apply not_0_INR. lia. }
  induction n as [|n IH]; [exact (T 0%nat)|]. cbn [sum_f_R0]. apply (is_derive_plus (V := R_NormedModule)); [exact IH|apply T].
Qed.
Lemma artanh_gen q n : 0 < q <= /3 -> let Sn := sum_f_R0 (fun k => q ^ (2 * k + 1) / INR (2 * k + 1)) n in
  2 * Sn <= ln ((1 + q) / (1 - q)) <= 2 * Sn + 3 / 4 * (q * q) ^ (S n).
Proof.
  intros Hq Sn.
  set (g := fun y : R => ln ((1 + y) / (1 - y)) - 2 * sum_f_R0 (fun k => y ^ (2 * k + 1) / INR (2 * k + 1)) n).
  assert (D : forall x, 0 <= x <= q -> is_derive (fun y => g y : R) x (2 / (1 - x * x) - 2 * sum_f_R0 (fun k => (x * x) ^ k) n)).
  { intros x Hx. unfold g. apply (is_derive_minus (V := R_NormedModule)).
    - auto_derive.
      + repeat split; [lra|]. apply Rmult_lt_0_compat; [lra|]. apply Rinv_0_lt_compat. lra.
      + field. repeat split; nra.
    - apply is_derive_scal. apply derive_odd. }
  destruct (MVT_gen g 0 q (fun x => 2 / (1 - x * x) - 2 * sum_f_R0 (fun k => (x * x) ^ k) n)) as [c [Hc E]].
  { intros x Hx. rewrite Rmin_left, Rmax_right in Hx by lra. apply D. lra. }
  { intros x Hx. rewrite Rmin_left, Rmax_right in Hx by lra. apply continuity_pt_filterlim.
    apply (ex_derive_continuous (V := R_NormedModule)). eexists. apply D. lra. }
  rewrite Rmin_left, Rmax_right in Hc by lra.
  assert (G0 : g 0 = 0).
  { unfold g. replace ((1 + 0) / (1 - 0)) with 1 by field. rewrite ln_1.
    replace (sum_f_R0 (fun k => 0 ^ (2 * k + 1) / INR (2 * k + 1)) n) with 0; [ring|].
    symmetry. apply sum_eq_R0. intros k _. rewrite pow_i by lia. unfold Rdiv. ring. }
  assert (G1 : g q = ln ((1 + q) / (1 - q)) - 2 * Sn).
  { reflexivity. }
  rewrite G0, G1 in E.
  assert (Q : 1 - c * c > 0) by nra.
  pose proof (sum_geo c n) as GS.
  assert (V : 2 / (1 - c * c) - 2 * sum_f_R0 (fun k => (c * c) ^ k) n = 2 * ((c * c) ^ (S n) / (1 - c * c))).
  { apply Rmult_eq_reg_r with (1 - c * c); [|lra]. unfold Rminus at 1. rewrite Rmult_plus_distr_r.
    replace (2 / (1 - c * c) * (1 - c * c)) with 2 by (field; lra).
    replace (- (2 * sum_f_R0 (fun k => (c * c) ^ k) n) * (1 - c * c))
      with (- 2 * (sum_f_R0 (fun k => (c * c) ^ k) n * (1 - c * c))) by ring.
    rewrite GS. field. lra. }
  rewrite V in E. clear V.
  assert (P0 : 0 <= (c * c) ^ (S n)) by (apply pow_le; nra).
  assert (P1 : (c * c) ^ (S n) <= (q * q) ^ (S n)) by (apply pow_incr; nra).
  assert (P2 : / (1 - c * c) <= 9 / 8).
  { replace (9 / 8) with (/ (8 / 9)) by field. apply Rinv_le_contravar; nra. }
  assert (P3 : 0 < / (1 - c * c)) by (apply Rinv_0_lt_compat; lra).
  set (w := (c * c) ^ (S n)) in *. set (u := (q * q) ^ (S n)) in *.
  assert (0 <= w / (1 - c * c) <= 9 / 8 * u).
  { unfold Rdiv at 1 2. split; [apply Rmult_le_pos; lra|]. rewrite Rmult_comm. apply Rmult_le_compat; lra. }
  nra.
Qed.
Lemma artanh_bound n : let Sn := sum_f_R0 (fun k => (/3) ^ (2 * k + 1) / INR (2 * k + 1)) n in
  2 * Sn <= ln 2 <= 2 * Sn + 3 / 4 * (/9) ^ (S n).
Proof.
  pose proof (artanh_gen (/3) n ltac:(lra)) as H. replace ((1 + /3) / (1 - /3)) with 2 in H by field.
  replace (/3 * /3) with (/9) in H by field. exact H.
Qed.
Lemma artanh_5 n : let Sn := sum_f_R0 (fun k => (/5) ^ (2 * k + 1) / INR (2 * k + 1)) n in
  2 * Sn <= ln 3 - ln 2 <= 2 * Sn + 3 / 4 * (/25) ^ (S n).
Proof.
  pose proof (artanh_gen (/5) n ltac:(lra)) as H. replace ((1 + /5) / (1 - /5)) with (3 / 2) in H by field.
  replace (/5 * /5) with (/25) in H by field. cbv zeta in *.
  replace (ln (3 / 2)) with (ln 3 - ln 2) in H by (unfold Rdiv; rewrite ln_mult, ln_Rinv by lra; ring). exact H.
Qed.
Definition ln2_b (n : nat) : Q * Q :=
  iround ((2 # 1) * fst (isum (qterm 3) n), (2 # 1) * snd (isum (qterm 3) n) + Qmake 3 (4 * Pos.pow 9 (Pos.of_succ_nat n)))%Q.
Lemma scale2 a s b x e : a <= s -> s <= b -> 2 * s <= x -> x <= 2 * s + e -> 2 * a <= x <= 2 * b + e.
Proof. lra. Qed.
Lemma ln2_b_in n : qin (ln 2) (ln2_b n).
Proof.
  apply iround_ok. unfold qin. cbn [fst snd]. pose proof (artanh_bound n) as H. cbv zeta in H.
  assert (A : qin (sum_f_R0 (fun k => (/3) ^ (2 * k + 1) / INR (2 * k + 1)) n) (isum (qterm 3) n)).
  { apply isum_ok. intros k. apply qterm_ok. }
  destruct A as [A1 A2]. destruct H as [H1 H2]. rewrite Q2R_plus, !Q2R_mult.
  replace (Q2R (2 # 1)) with 2 by (unfold Q2R; cbn; lra).
  rewrite Q2R_make. replace (IZR 3 / IZR (Zpos (4 * Pos.pow 9 (Pos.of_succ_nat n)))) with (3 / 4 * (/ 9) ^ (S n)).
  { exact (scale2 _ _ _ _ _ A1 A2 H1 H2). }
  rewrite Pos2Z.inj_mul, mult_IZR. rewrite (inv_pow_pos 9 n). field. apply not_0_IZR. discriminate.
Qed.
Definition ln2_bounds : Q * Q := ln2_b 37.
Lemma ln2_in : qin (ln 2) ln2_bounds.
Proof. apply ln2_b_in. Qed.

Definition ln32_b (n : nat) : Q * Q :=
  iround ((2 # 1) * fst (isum (qterm 5) n), (2 # 1) * snd (isum (qterm 5) n) + Qmake 3 (4 * Pos.pow 25 (Pos.of_succ_nat n)))%Q.
Lemma ln32_b_in n : qin (ln 3 - ln 2) (ln32_b n).
Proof.
  apply iround_ok. unfold qin. cbn [fst snd]. pose proof (artanh_5 n) as H. cbv zeta in H.
  assert (A : qin (sum_f_R0 (fun k => (/5) ^ (2 * k + 1) / INR (2 * k + 1)) n) (isum (qterm 5) n)).
  { apply isum_ok. intros k. apply qterm_ok. }
  destruct A as [A1 A2]. destruct H as [H1 H2]. rewrite Q2R_plus, !Q2R_mult.
  replace (Q2R (2 # 1)) with 2 by (unfold Q2R; cbn; lra).
  rewrite Q2R_make. replace (IZR 3 / IZR (Zpos (4 * Pos.pow 25 (Pos.of_succ_nat n)))) with (3 / 4 * (/ 25) ^ (S n)).
  { exact (scale2 _ _ _ _ _ A1 A2 H1 H2). }
  rewrite Pos2Z.inj_mul, mult_IZR. rewrite (inv_pow_pos 25 n). field. apply not_0_IZR. discriminate.
Qed.
Definition ln32_bounds : Q * Q := ln32_b 27.

(** ** square roots *)
Definition sqrt_bounds (n d : positive) : Q * Q :=
  (* sqrt(n/d): integer square root of n/d * den^2 *)
  let s := Z.sqrt (Z.div (Zpos n * Zpos den * Zpos den) (Zpos d)) in
  (Qmake s den, Qmake (s + 1) den).
Lemma sqrt_in x i : 0 <= x -> Qle_bool 0 (fst i) = true -> Qle_bool 0 (snd i) = true ->
  Q2R (fst i * fst i) <= x <= Q2R (snd i * snd i) -> qin (sqrt x) i.
Proof.
  intros Hx H1 H2 [A B]. apply Qle_bool_iff, Qle_Rle in H1. apply Qle_bool_iff, Qle_Rle in H2.
  replace (Q2R 0) with 0 in * by (unfold Q2R; cbn; lra). rewrite Q2R_mult in A, B. split.
  - rewrite <- (sqrt_square (Q2R (fst i))) by exact H1. apply sqrt_le_1_alt. exact A.
  - rewrite <- (sqrt_square (Q2R (snd i))) by exact H2. apply sqrt_le_1_alt. exact B.
Qed.
Lemma sqrt_q_in (n d : positive) : 
  Qle_bool 0 (fst (sqrt_bounds n d)) = true -> Qle_bool 0 (snd (sqrt_bounds n d)) = true ->
  Qle_bool (fst (sqrt_bounds n d) * fst (sqrt_bounds n d)) (Qmake (Zpos n) d) = true ->
  Qle_bool (Qmake (Zpos n) d) (snd (sqrt_bounds n d) * snd (sqrt_bounds n d)) = true ->
  qin (sqrt (IZR (Zpos n) / IZR (Zpos d))) (sqrt_bounds n d).
Proof.
  intros H1 H2 H3 H4. apply sqrt_in; auto.
  - apply Rmult_le_pos; [apply IZR_le; discriminate|]. apply Rlt_le, Rinv_0_lt_compat, IZR_lt. reflexivity.
  - apply Qle_bool_iff, Qle_Rle in H3. apply Qle_bool_iff, Qle_Rle in H4. rewrite Q2R_make in H3, H4. split; assumption.
Qed.
