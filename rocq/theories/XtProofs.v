(** * Proofs about the Xt dependence of the DR'-to-MSbar conversion *)
From Coq Require Import Reals Lra Lia List ZArith Bool String.
From Verif Require Import Num NumFacts Except Params HierFormulas Dilog LoopFun Thresh ThreshTwo Threshold ThreshSpec ThreshProofs PotSpec PropPot2 ThreshViews XtCoef XtIdent.
Import ListNotations.
Open Scope R_scope.

(** ** The library's dilogarithm satisfies Landen's identity exactly, except at the switching points *)
Lemma dilog_landen_aux (z : R) : 1 < z -> z <> 2 -> dilog (1 - z) = - / 2 * ln z ^ 2 - dilog (1 - 1 / z).
Proof.
  intros Hz N2. assert (Hi : 0 < 1 / z < 1). { split; [apply Rdiv_lt_0_compat; lra|]. apply (Rmult_lt_reg_r z); [lra|]. field_simplify; lra. }
  assert (Hl : ln (1 / z) = - ln z) by (unfold Rdiv; rewrite Rmult_1_l; apply ln_Rinv; lra).
  assert (Hm : ln (1 - 1 / z) = ln (z - 1) - ln z). { replace (1 - 1 / z) with ((z - 1) / z) by (field; lra). apply ln_quot; lra. }
  destruct (Rlt_dec z 2) as [L2|L2].
  - assert (Hh : 1 - 1 / z < 1 / 2). { apply (Rmult_lt_reg_r z); [lra|]. field_simplify; lra. }
    unfold dilog. unR.
    rewrite (Rltb_false (1 - z) (-1)) by lra. rewrite (Reqb_false (1 - z) (-1)) by lra. rewrite (Rltb_true (1 - z) 0) by lra.
    rewrite (Rltb_false (1 - 1 / z) (-1)) by lra. rewrite (Reqb_false (1 - 1 / z) (-1)) by lra. rewrite (Rltb_false (1 - 1 / z) 0) by lra.
    rewrite (Reqb_false (1 - 1 / z) 0) by lra. rewrite (Rltb_true (1 - 1 / z) (Rdec 5 1)) by (unfold Rdec; simpl; lra).
    replace ((1 - z) / (1 - z - 1)) with (1 - 1 / z) by (field; lra). replace (1 + - (1 - z)) with z by ring.
    set (l := ln z). set (y := 1 - 1 / z). clearbody l y. unfold Rdec at 1. cbv zeta.
    match goal with |- context [_ + _ * ?p / ?q] => set (pp := p); set (qq := q); clearbody pp qq end.
    unfold Rdec; simpl. replace (5e-1) with (/ 2) by lra. unfold Rdiv. ring.
  - assert (Hh : 1 / 2 < 1 - 1 / z). { apply (Rmult_lt_reg_r z); [lra|]. field_simplify; lra. }
    unfold dilog. unR.
    rewrite (Rltb_true (1 - z) (-1)) by lra.
    rewrite (Rltb_false (1 - 1 / z) (-1)) by lra. rewrite (Reqb_false (1 - 1 / z) (-1)) by lra. rewrite (Rltb_false (1 - 1 / z) 0) by lra.
    rewrite (Reqb_false (1 - 1 / z) 0) by lra. rewrite (Rltb_false (1 - 1 / z) (Rdec 5 1)) by (unfold Rdec; simpl; lra).
    rewrite (Rltb_true (1 - 1 / z) 1) by lra.
    replace (1 - (1 - z)) with z by ring. replace (- (1 - z)) with (z - 1) by ring. replace (1 - (1 - 1 / z)) with (1 / z) by ring.
    replace (1 + - (1 - 1 / z)) with (1 / z) by ring. rewrite Hm, Hl.
    set (l := ln z). set (k := ln (z - 1)). set (y := 1 / z). clearbody l k y. cbv zeta.
    match goal with |- context [_ + _ * ?p / ?q] => set (pp := p); set (qq := q); clearbody pp qq end.
    unfold Rdec; simpl. replace (5e-1) with (/ 2) by lra. unfold Rdiv. set (iq := / qq). clearbody iq. field.
Qed.
Lemma dilog_landen (z : R) : 0 < z -> z <> 1 -> z <> 2 -> z <> / 2 -> dilog (1 - z) = - / 2 * ln z ^ 2 - dilog (1 - 1 / z).
Proof.
  intros Hz N1 N2 N3. destruct (Rlt_dec 1 z) as [H|H]; [apply dilog_landen_aux; assumption|].
  assert (G : 1 < 1 / z). { apply (Rmult_lt_reg_r z); [lra|]. field_simplify; lra. }
  assert (N4 : 1 / z <> 2). { intros E. apply N3. apply (f_equal (fun x => x * z)) in E. field_simplify in E; lra. }
  pose proof (dilog_landen_aux (1 / z) G N4) as E. replace (1 / (1 / z)) with z in E by (field; lra).
  assert (Hl : ln (1 / z) = - ln z) by (unfold Rdiv; rewrite Rmult_1_l; apply ln_Rinv; lra). rewrite Hl in E. rewrite E. ring.
Qed.
Lemma dilog_landen_1 : dilog (1 - 1) = - / 2 * ln 1 ^ 2 - dilog (1 - 1 / 1).
Proof.
  replace (1 / 1) with 1 by field. replace (1 - 1) with 0 by ring. rewrite ln_1. assert (E : dilog 0 = 0); [|rewrite E; ring].
  unfold dilog. unR. rewrite (Rltb_false 0 (-1)) by lra. rewrite (Reqb_false 0 (-1)) by lra. rewrite (Rltb_false 0 0) by lra. rewrite (Reqb_true 0 0) by lra. reflexivity.
Qed.
Lemma landen_sq a b : 0 < a -> 0 < b -> a * a <> 2 * (b * b) -> b * b <> 2 * (a * a) -> landen_at dilog a b.
Proof.
  intros Ha Hb H1 H2. unfold landen_at. assert (Qa : 0 < a * a) by nra. assert (Qb : 0 < b * b) by nra. set (x := a * a) in *. set (y := b * b) in *. clearbody x y.
  rewrite <- ln_quot by assumption. assert (P : 0 < x / y) by (apply Rdiv_lt_0_compat; assumption).
  replace (y / x) with (1 / (x / y)) by (field; lra).
  destruct (Req_dec (x / y) 1) as [E|E]; [rewrite E; apply dilog_landen_1|].
  apply dilog_landen; [exact P|exact E| |]; intros F; apply (f_equal (fun t => t * y)) in F; field_simplify in F; lra.
Qed.

(** ** Assembling the conversion *)
Definition k3 (y0 y1 z0 z1 z2 l0 l1 l2 l3 l4 a0 a1 a2 a3 a4 a5 g : R) : R :=
  -2 * (l3 * (3*y0^2 + 2*z0) + l2 * (6*y0*y1 + 2*z1) + l1 * (3*y1^2 + 2*z2) + (a3 - 4*(y0*l3 + y1*l2)) * (g + 2*y0) + (a2 - 4*(y0*l2 + y1*l1)) * (2*y1)).
Definition k2 (y0 y1 z0 z1 z2 l0 l1 l2 l3 l4 a0 a1 a2 a3 a4 a5 g : R) : R :=
  -2 * (l2 * (3*y0^2 + 2*z0) + l1 * (6*y0*y1 + 2*z1) + l0 * (3*y1^2 + 2*z2) + (a2 - 4*(y0*l2 + y1*l1)) * (g + 2*y0) + (a1 - 4*(y0*l1 + y1*l0)) * (2*y1)).
Definition k1 (y0 y1 z0 z1 z2 l0 l1 l2 l3 l4 a0 a1 a2 a3 a4 a5 g : R) : R :=
  -2 * (l1 * (3*y0^2 + 2*z0) + l0 * (6*y0*y1 + 2*z1) + (a1 - 4*(y0*l1 + y1*l0)) * (g + 2*y0) + (a0 - 4*y0*l0) * (2*y1)).
Definition k0 (y0 y1 z0 z1 z2 l0 l1 l2 l3 l4 a0 a1 a2 a3 a4 a5 g : R) : R :=
  -2 * (l0 * (3*y0^2 + 2*z0) + (a0 - 4*y0*l0) * (g + 2*y0)).

Definition coefs (y0 y1 z0 z1 z2 l0 l1 l2 l3 l4 a0 a1 a2 a3 a4 a5 g : R) (k : nat) : R :=
  - match k with
    | 0%nat => k0 y0 y1 z0 z1 z2 l0 l1 l2 l3 l4 a0 a1 a2 a3 a4 a5 g
    | 1%nat => k1 y0 y1 z0 z1 z2 l0 l1 l2 l3 l4 a0 a1 a2 a3 a4 a5 g
    | 2%nat => k2 y0 y1 z0 z1 z2 l0 l1 l2 l3 l4 a0 a1 a2 a3 a4 a5 g
    | 3%nat => k3 y0 y1 z0 z1 z2 l0 l1 l2 l3 l4 a0 a1 a2 a3 a4 a5 g
    | 4%nat => k4 y0 y1 z0 z1 z2 l0 l1 l2 l3 l4 a0 a1 a2 a3 a4 a5 g
    | 5%nat => k5 y0 y1 z0 z1 z2 l0 l1 l2 l3 l4 a0 a1 a2 a3 a4 a5 g
    | 6%nat => k6 y0 y1 z0 z1 z2 l0 l1 l2 l3 l4 a0 a1 a2 a3 a4 a5 g
    | _ => 0
    end.

(** the terms with powers lo, ..., hi of X *)
Definition powers (a : nat -> R) (X : R) (lo hi : nat) : R := fold_right Rplus 0 (map (fun k => a k * X ^ k) (seq lo (S hi - lo))).

Definition result (c : TC R) (a : Z -> nat -> R) (X : R) : Prop :=
  (forall o, exists v w, getThresholdCorrection c LAMBDA_AT_AS2 S_H3m o = Ok v /\ getThresholdCorrection c LAMBDA_AT_AS2 S_DRBARPRIME o = Ok w /\
     v - w = powers (a o) X 0 6) /\
  (forall x o o', (x <= 3)%Z -> getDRbarPrimeToMSbarShift c x o o' = Ok (powers (a o) X 0 6 - powers (a o') X 4 6)) /\
  (forall x o o', (3 < x)%Z -> getDRbarPrimeToMSbarShift c x o o' = Ok (powers (a o) X 0 6 - powers (a o') X 5 6)).

Section Assemble.
  Context (c : TC R) (X : R) (y0 y1 z0 z1 z2 l0 l1 l2 l3 l4 a0 a1 a2 a3 a4 a5 g x4 x5 x6 : Z -> R).
  Let p := tc_p c.
  Let lim := massLimit3LThreshold p.
  Let cf (o : Z) := coefs (y0 o) (y1 o) (z0 o) (z1 o) (z2 o) (l0 o) (l1 o) (l2 o) (l3 o) (l4 o) (a0 o) (a1 o) (a2 o) (a3 o) (a4 o) (a5 o) (g o).
  Context (HA : forall o, exists v, getDeltaLambdaAlphatAlphas2 p (tc_msq2 c) (tc_xt c) lim o = Ok v)
    (HG : forall o, getDeltaG3Alphas p (tc_msq2 c) o = g o)
    (HY : forall o, getDeltaYtAlphas p lim o = Ok (y0 o * X^0 + y1 o * X^1))
    (HZ : forall o, getDeltaYtAlphas2 p (tc_msq2 c) lim o = Ok (z0 o * X^0 + z1 o * X^1 + z2 o * X^2))
    (HL : forall o, getDeltaLambdaAlphat p lim o = Ok (l0 o * X^0 + l1 o * X^1 + l2 o * X^2 + l3 o * X^3 + l4 o * X^4))
    (HLA : forall o, getDeltaLambdaAlphatAlphas p lim o = Ok (a0 o * X^0 + a1 o * X^1 + a2 o * X^2 + a3 o * X^3 + a4 o * X^4 + a5 o * X^5))
    (H4 : forall o, getDRbarPrimeToMSbarXtTerms p (tc_msq2 c) lim 4 o = Ok (x6 o * 0 + x5 o * 0 + x4 o * X^4))
    (H5 : forall o, getDRbarPrimeToMSbarXtTerms p (tc_msq2 c) lim 5 o = Ok (x6 o * 0 + x5 o * X^5 + x4 o * 0))
    (H6 : forall o, getDRbarPrimeToMSbarXtTerms p (tc_msq2 c) lim 6 o = Ok (x6 o * X^6 + x5 o * 0 + x4 o * 0))
    (K4 : forall o, x4 o = k4 (y0 o) (y1 o) (z0 o) (z1 o) (z2 o) (l0 o) (l1 o) (l2 o) (l3 o) (l4 o) (a0 o) (a1 o) (a2 o) (a3 o) (a4 o) (a5 o) (g o))
    (K5 : forall o, x5 o = k5 (y0 o) (y1 o) (z0 o) (z1 o) (z2 o) (l0 o) (l1 o) (l2 o) (l3 o) (l4 o) (a0 o) (a1 o) (a2 o) (a3 o) (a4 o) (a5 o) (g o))
    (K6 : forall o, x6 o = k6 (y0 o) (y1 o) (z0 o) (z1 o) (z2 o) (l0 o) (l1 o) (l2 o) (l3 o) (l4 o) (a0 o) (a1 o) (a2 o) (a3 o) (a4 o) (a5 o) (g o)).
  Lemma assemble : result c cf X.
  Proof.
    split; [|split].
    - intros o. destruct (HA o) as [v Hv]. exists v. eexists. unfold getThresholdCorrection. fold p. fold lim. rewrite Hv, HG, HY, HZ, HL, HLA. unfold bind.
      split; [reflexivity|]. split; [reflexivity|].
      unfold powers, cf, coefs, k0, k1, k2, k3, k4, k5, k6. simpl. unfold pow2. unR. ring.
    - intros x o o' Hx. unfold getDRbarPrimeToMSbarShift. fold p. fold lim. rewrite (proj2 (Z.leb_le x 3) Hx), H4, H5, H6, HG, HY, HZ, HL, HLA. unfold bind. f_equal.
      rewrite K4, K5, K6. unfold powers, cf, coefs, k0, k1, k2, k3. simpl.
      set (q4 := k4 _ _ _ _ _ _ _ _ _ _ _ _ _ _ _ _ (g o')). set (q5 := k5 _ _ _ _ _ _ _ _ _ _ _ _ _ _ _ _ (g o')). set (q6 := k6 _ _ _ _ _ _ _ _ _ _ _ _ _ _ _ _ (g o')). clearbody q4 q5 q6.
      unfold k4, k5, k6, pow2. unR. ring.
    - intros x o o' Hx. unfold getDRbarPrimeToMSbarShift. fold p. fold lim. rewrite (proj2 (Z.leb_gt x 3) Hx), H5, H6, HG, HY, HZ, HL, HLA. unfold bind. f_equal.
      rewrite K4, K5, K6. unfold powers, cf, coefs, k0, k1, k2, k3. simpl.
      set (q4 := k4 _ _ _ _ _ _ _ _ _ _ _ _ _ _ _ _ (g o')). set (q5 := k5 _ _ _ _ _ _ _ _ _ _ _ _ _ _ _ _ (g o')). set (q6 := k6 _ _ _ _ _ _ _ _ _ _ _ _ _ _ _ _ (g o')). clearbody q4 q5 q6.
      unfold k4, k5, k6, pow2. unR. ring.
  Qed.
End Assemble.
