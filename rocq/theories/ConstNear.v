(** * Nearest doubles: a computable sufficient criterion (proof tool for C47) *)
From Coq Require Import ZArith QArith Qreals Reals Lra Lia List Floats.SpecFloat.
From Verif Require Import Num QInterval ConstSpec.
Import ListNotations.
Local Open Scope R_scope.

Lemma pow2_pos e : 0 < powerRZ 2 e.
Proof. apply powerRZ_lt. lra. Qed.
Lemma pow2_split a b : powerRZ 2 (a + b) = powerRZ 2 a * powerRZ 2 b.
Proof. apply powerRZ_add. lra. Qed.
Lemma pow2_nat n : powerRZ 2 (Z.of_nat n) = IZR (2 ^ Z.of_nat n).
Proof. rewrite <- pow_powerRZ, <- pow_IZR. reflexivity. Qed.

Lemma digits_lt m : (Zpos (digits2_pos m) <= 53)%Z -> (Zpos m < 2 ^ 53)%Z.
Proof.
  intros H. assert (G : (Zpos m < 2 ^ Zpos (digits2_pos m))%Z).
  { clear H. induction m as [m IH|m IH|]; cbn [digits2_pos]; [| |reflexivity].
    - rewrite Pos2Z.inj_succ, Z.pow_succ_r by discriminate. lia.
    - rewrite Pos2Z.inj_succ, Z.pow_succ_r by discriminate. lia. }
  eapply Z.lt_le_trans; [exact G|]. apply Z.pow_le_mono_r; lia.
Qed.
Lemma valid_mant s m e : valid_binary f64_prec f64_emax (S754_finite s m e) = true -> (Zpos m < 2 ^ 53)%Z.
Proof.
  intros H. cbn [valid_binary] in H. unfold bounded in H. apply andb_prop in H. destruct H as [H _].
  unfold canonical_mantissa in H. apply Zeq_bool_eq in H. unfold fexp, emin in H. apply digits_lt.
  unfold f64_prec, f64_emax in H. lia.
Qed.

Definition sgnZ (s : bool) (m : positive) : Z := if s then Zneg m else Zpos m.
Lemma f64_value_sgn s m e : f64_value (S754_finite s m e) = IZR (sgnZ s m) * powerRZ 2 e.
Proof. unfold f64_value, sgnZ. destruct s; [|ring]. change (Zneg m) with (- Zpos m)%Z. rewrite opp_IZR. ring. Qed.

Lemma apart a : a <> 0%Z -> 1 <= Rabs (IZR a).
Proof. intros H. rewrite Rabs_Zabs. apply IZR_le. lia. Qed.

Lemma gap s m e y : (2 ^ 52 < Zpos m)%Z -> valid_binary f64_prec f64_emax y = true -> F64isfin y = true ->
  f64_value y = f64_value (S754_finite s m e) \/ powerRZ 2 e <= Rabs (f64_value (S754_finite s m e) - f64_value y).
Proof.
  intros Hm Hv Hf. rewrite f64_value_sgn. pose proof (pow2_pos e) as P.
  assert (Z0 : sgnZ s m <> 0%Z) by (destruct s; discriminate).
  destruct y as [sy| | |sy my ey]; try discriminate Hf.
  - right. cbn [f64_value]. rewrite Rminus_0_r, Rabs_mult, (Rabs_pos_eq (powerRZ 2 e)) by lra.
    rewrite <- (Rmult_1_l (powerRZ 2 e)) at 1. apply Rmult_le_compat_r; [lra|]. apply apart. exact Z0.
  - rewrite f64_value_sgn. apply valid_mant in Hv.
    destruct (Z_le_gt_dec e ey) as [H|H].
    + replace ey with ((ey - e) + e)%Z by ring. rewrite pow2_split.
      replace (ey - e)%Z with (Z.of_nat (Z.to_nat (ey - e))) by lia. rewrite pow2_nat.
      set (k := (2 ^ Z.of_nat (Z.to_nat (ey - e)))%Z). rewrite <- Rmult_assoc, <- mult_IZR.
      destruct (Z.eq_dec (sgnZ sy my * k) (sgnZ s m)) as [E|E]; [left; now rewrite E|right].
      rewrite <- Rmult_minus_distr_r, <- minus_IZR, Rabs_mult, (Rabs_pos_eq (powerRZ 2 e)) by lra.
      rewrite <- (Rmult_1_l (powerRZ 2 e)) at 1. apply Rmult_le_compat_r; [lra|]. apply apart. lia.
    + right. assert (B : Rabs (IZR (sgnZ sy my) * powerRZ 2 ey) <= IZR (2 ^ 52) * powerRZ 2 e).
      { rewrite Rabs_mult, (Rabs_pos_eq (powerRZ 2 ey)) by (apply Rlt_le, pow2_pos).
        replace e with (Z.of_nat (Z.to_nat (e - 1 - ey)) + (1 + ey))%Z at 1 by lia.
        rewrite pow2_split, pow2_split, pow2_nat.
        rewrite <- !Rmult_assoc. apply Rmult_le_compat_r; [apply Rlt_le, pow2_pos|].
        rewrite Rabs_Zabs. change (powerRZ 2 1) with (IZR 2 * 1)%R. rewrite Rmult_1_r, <- !mult_IZR. apply IZR_le.
        assert (1 <= 2 ^ Z.of_nat (Z.to_nat (e - 1 - ey)))%Z by (apply (Z.pow_le_mono_r 2 0); lia).
        assert (Z.abs (sgnZ sy my) = Zpos my) by (destruct sy; reflexivity). nia. }
      assert (A : Rabs (IZR (sgnZ s m) * powerRZ 2 e) >= (IZR (2 ^ 52) + 1) * powerRZ 2 e).
      { rewrite Rabs_mult, (Rabs_pos_eq (powerRZ 2 e)) by lra. apply Rle_ge, Rmult_le_compat_r; [lra|].
        rewrite Rabs_Zabs, <- plus_IZR. apply IZR_le. destruct s; cbn [sgnZ Z.abs]; lia. }
      pose proof (Rabs_triang_inv (IZR (sgnZ s m) * powerRZ 2 e) (IZR (sgnZ sy my) * powerRZ 2 ey)). lra.
Qed.

Lemma nearest_intro r s m e : (2 ^ 52 < Zpos m)%Z ->
  Rabs (r - f64_value (S754_finite s m e)) <= powerRZ 2 e / 2 -> nearest_double r (S754_finite s m e).
Proof.
  intros Hm H. split; [reflexivity|]. intros y Hv Hf. destruct (gap s m e y Hm Hv Hf) as [E|G]; [rewrite E; lra|].
  pose proof (Rabs_triang_inv (f64_value (S754_finite s m e) - f64_value y) (f64_value (S754_finite s m e) - r)) as T.
  replace (f64_value (S754_finite s m e) - f64_value y - (f64_value (S754_finite s m e) - r)) with (r - f64_value y) in T by ring.
  rewrite (Rabs_minus_sym (f64_value (S754_finite s m e)) r) in T. lra.
Qed.

(** computable interval of reals that round to a given double: (m -+ 1/2) 2^e *)
Definition half_ulp (x : F64) : option (Q * Q) :=
  match x with
  | S754_finite s m (Zneg e) =>
      if Z.ltb (2 ^ 52) (Zpos m) then
        let n := sgnZ s m in
        Some (Qmake (2 * n - 1) (Pos.pow 2 (Pos.succ e)), Qmake (2 * n + 1) (Pos.pow 2 (Pos.succ e)))
      else None
  | _ => None
  end.
Lemma pow2_neg e : powerRZ 2 (Zneg e) = 2 / IZR (Zpos (Pos.pow 2 (Pos.succ e))).
Proof.
  rewrite Pos2Z.inj_pow, Pos2Z.inj_succ, Z.pow_succ_r, mult_IZR by discriminate.
  cbn [powerRZ]. rewrite <- (positive_nat_Z e), <- pow_IZR. field. apply pow_nonzero. lra.
Qed.
Lemma half_ulp_ok r x i : half_ulp x = Some i -> Q2R (fst i) < r < Q2R (snd i) -> nearest_double r x.
Proof.
  destruct x as [| | |s m [|e|e]]; try discriminate. cbn [half_ulp].
  destruct (Z.ltb_spec (2 ^ 52) (Zpos m)) as [Hm|]; [|discriminate]. intros E.
  set (n := sgnZ s m) in *. apply (f_equal (fun o => match o with Some j => j | None => i end)) in E. rewrite <- E. cbn [fst snd].
  rewrite !Q2R_make. intros H. apply nearest_intro; [exact Hm|]. rewrite f64_value_sgn, pow2_neg. fold n.
  rewrite minus_IZR, plus_IZR, !mult_IZR in H. set (d := IZR (Zpos (2 ^ Pos.succ e))) in *.
  assert (D : 0 < / d) by (apply Rinv_0_lt_compat, IZR_lt; reflexivity). unfold Rdiv in *.
  apply Rabs_le. nra.
Qed.

(** the reverse: a number outside the closed interval is strictly closer to a neighbour *)
Lemma not_nearest r s m e (y : F64) : valid_binary f64_prec f64_emax y = true -> F64isfin y = true ->
  Rabs (r - f64_value y) < Rabs (r - f64_value (S754_finite s m e)) -> ~ nearest_double r (S754_finite s m e).
Proof. intros Hv Hf H [_ N]. specialize (N y Hv Hf). lra. Qed.
