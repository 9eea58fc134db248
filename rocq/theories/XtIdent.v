(** * The terms with high powers of Xt in the DR'-to-MSbar conversion
    GENERATED by tools/gen_xt2.py; only used in proofs. *)
From Coq Require Import Reals Lra ZArith Bool String.
From Verif Require Import Num Except Params HierFormulas Dilog LoopFun Thresh ThreshTwo NumFacts ThreshViews XtCoef.
Open Scope R_scope.

(** coefficient of Xt^k of -2 (l (3 y^2 + 2 z) + (a - 4 y l) (g + 2 y)) *)
Definition k4 (y0 y1 z0 z1 z2 l0 l1 l2 l3 l4 a0 a1 a2 a3 a4 a5 g : R) : R :=
  -2 * (l4 * (3*y0^2 + 2*z0) + l3 * (6*y0*y1 + 2*z1) + l2 * (3*y1^2 + 2*z2) + (a4 - 4*(y0*l4 + y1*l3)) * (g + 2*y0) + (a3 - 4*(y0*l3 + y1*l2)) * (2*y1)).
Definition k5 (y0 y1 z0 z1 z2 l0 l1 l2 l3 l4 a0 a1 a2 a3 a4 a5 g : R) : R :=
  -2 * (l4 * (6*y0*y1 + 2*z1) + l3 * (3*y1^2 + 2*z2) + (a5 - 4*y1*l4) * (g + 2*y0) + (a4 - 4*(y0*l4 + y1*l3)) * (2*y1)).
Definition k6 (y0 y1 z0 z1 z2 l0 l1 l2 l3 l4 a0 a1 a2 a3 a4 a5 g : R) : R :=
  -2 * (l4 * (3*y1^2 + 2*z2) + (a5 - 4*y1*l4) * (2*y1)).
(** the strong-coupling threshold *)
Definition g3v (L lq lu lm ls : R) : R := 1/2 - (L + lm - lq) - (L + 10 * (L + ls - lq) + (L + lu - lq)) / 12.

Lemma ln_quot a b : 0 < a -> 0 < b -> ln (a / b) = ln a - ln b.
Proof. intros. unfold Rdiv. rewrite ln_mult by (try apply Rinv_0_lt_compat; assumption). rewrite ln_Rinv by assumption. ring. Qed.
Definition landen_at (f : R -> R) (a b : R) : Prop := f (1 - a * a / (b * b)) = - / 2 * (ln (a * a) - ln (b * b)) ^ 2 - f (1 - b * b / (a * a)).
Ltac opn := unfold pow20, pow19, pow18, pow17, pow16, pow15, pow14, pow13, pow12, pow11, power10, pow9, pow8, pow7, pow6, pow5, pow4, pow3, pow2; unR.
Lemma sqd a b : 0 < a -> 0 < b -> a <> b -> a * a - b * b <> 0.
Proof. intros Ha Hb N E. apply N. assert (F : (a - b) * (a + b) = 0) by lra. apply Rmult_integral in F. destruct F; lra. Qed.
Lemma sqc c a b : 0 < c -> 0 < a -> 0 < b -> a <> b -> c * (a * a - b * b) <> 0.
Proof. intros Hc Ha Hb N E. apply Rmult_integral in E. destruct E as [E|E]; [lra|]. exact (sqd a b Ha Hb N E). Qed.
Ltac tr c a b H := apply (sqc c a b); [repeat apply Rmult_lt_0_compat; assumption|assumption|assumption|exact H|lra].
Ltac nzq := let E := fresh in intros E; match goal with | H : ?a <> ?b |- _ => first [tr a a b H|tr b a b H|tr (a*a) a b H|tr (b*b) a b H|tr (a*b) a b H|tr (a*a*a) a b H|tr (b*b*b) a b H|tr (a*a*a*a) a b H|tr (b*b*b*b) a b H] end.
Ltac nz := let E := fresh in intros E; match goal with | H : ?a <> ?b |- _ => apply (sqd a b); [assumption|assumption|exact H|lra] end.

Lemma id_G_4 (Li2 : R -> R) (q u m s L : R) : 0 < q -> 0 < u -> 0 < m -> 0 < s -> q <> u -> m <> q -> m <> u -> landen_at Li2 s m -> landen_at Li2 u q -> 
  (xtt_G_4 Li2 (q*q) (u*u) (m*m) q u m (s*s) s L) = k4 (yta_G_0 (q*q) (u*u) (m*m) q u m L)
    (yta_G_1 (q*q) (u*u) (m*m) q u m L)
    (yta2_G_0 Li2 (q*q) (u*u) (m*m) q u m (s*s) s L)
    (yta2_G_1 Li2 (q*q) (u*u) (m*m) q u m (s*s) s L)
    (yta2_G_2 Li2 (q*q) (u*u) (m*m) q u m (s*s) s L)
    (lat_G_0 (q*q) (u*u) L)
    (lat_G_1 (q*q) (u*u) L)
    (lat_G_2 (q*q) (u*u) L)
    (lat_G_3 (q*q) (u*u) L)
    (lat_G_4 (q*q) (u*u) L)
    (lata_G_0 Li2 (q*q) (u*u) (m*m) q u m L)
    (lata_G_1 Li2 (q*q) (u*u) (m*m) q u m L)
    (lata_G_2 Li2 (q*q) (u*u) (m*m) q u m L)
    (lata_G_3 Li2 (q*q) (u*u) (m*m) q u m L)
    (lata_G_4 Li2 (q*q) (u*u) (m*m) q u m L)
    (lata_G_5 Li2 (q*q) (u*u) (m*m) q u m L)
    (g3v L (ln (q*q)) (ln (u*u)) (ln (m*m)) (ln (s*s))).
Proof.
  intros Pq Pu Pm Ps N0 N1 N2 E0 E1. unfold k4, g3v, lat_G_0, lat_G_1, lat_G_2, lat_G_3, lat_G_4, lata_G_0, lata_G_1, lata_G_2, lata_G_3, lata_G_4, lata_G_5, xtt_G_4, yta2_G_0, yta2_G_1, yta2_G_2, yta_G_0, yta_G_1.
  opn. unfold landen_at in *.
  try rewrite E0.
  try rewrite E1.
  assert (Qq : 0 < q * q) by (apply Rmult_lt_0_compat; assumption).
  assert (Qu : 0 < u * u) by (apply Rmult_lt_0_compat; assumption).
  assert (Qm : 0 < m * m) by (apply Rmult_lt_0_compat; assumption).
  assert (Qs : 0 < s * s) by (apply Rmult_lt_0_compat; assumption).
  rewrite ?ln_quot by assumption.
  set (lq := ln (q * q)) in *; clearbody lq.
  set (lu := ln (u * u)) in *; clearbody lu.
  set (lm := ln (m * m)) in *; clearbody lm.
  set (ls := ln (s * s)) in *; clearbody ls.
  repeat match goal with |- context [Li2 ?x] => let d := fresh "D" in set (d := Li2 x) in *; clearbody d end.
  field. repeat split; first [lra|nz|nzq].
Qed.
Lemma id_G_5 (Li2 : R -> R) (q u m s L : R) : 0 < q -> 0 < u -> 0 < m -> 0 < s -> q <> u -> m <> q -> m <> u -> landen_at Li2 s m -> landen_at Li2 u q -> 
  (xtt_G_5 Li2 (q*q) (u*u) (m*m) q u m (s*s) s L) = k5 (yta_G_0 (q*q) (u*u) (m*m) q u m L)
    (yta_G_1 (q*q) (u*u) (m*m) q u m L)
    (yta2_G_0 Li2 (q*q) (u*u) (m*m) q u m (s*s) s L)
    (yta2_G_1 Li2 (q*q) (u*u) (m*m) q u m (s*s) s L)
    (yta2_G_2 Li2 (q*q) (u*u) (m*m) q u m (s*s) s L)
    (lat_G_0 (q*q) (u*u) L)
    (lat_G_1 (q*q) (u*u) L)
    (lat_G_2 (q*q) (u*u) L)
    (lat_G_3 (q*q) (u*u) L)
    (lat_G_4 (q*q) (u*u) L)
    (lata_G_0 Li2 (q*q) (u*u) (m*m) q u m L)
    (lata_G_1 Li2 (q*q) (u*u) (m*m) q u m L)
    (lata_G_2 Li2 (q*q) (u*u) (m*m) q u m L)
    (lata_G_3 Li2 (q*q) (u*u) (m*m) q u m L)
    (lata_G_4 Li2 (q*q) (u*u) (m*m) q u m L)
    (lata_G_5 Li2 (q*q) (u*u) (m*m) q u m L)
    (g3v L (ln (q*q)) (ln (u*u)) (ln (m*m)) (ln (s*s))).
Proof.
  intros Pq Pu Pm Ps N0 N1 N2 E0 E1. unfold k5, g3v, lat_G_0, lat_G_1, lat_G_2, lat_G_3, lat_G_4, lata_G_0, lata_G_1, lata_G_2, lata_G_3, lata_G_4, lata_G_5, xtt_G_5, yta2_G_0, yta2_G_1, yta2_G_2, yta_G_0, yta_G_1.
  opn. unfold landen_at in *.
  try rewrite E0.
  try rewrite E1.
  assert (Qq : 0 < q * q) by (apply Rmult_lt_0_compat; assumption).
  assert (Qu : 0 < u * u) by (apply Rmult_lt_0_compat; assumption).
  assert (Qm : 0 < m * m) by (apply Rmult_lt_0_compat; assumption).
  assert (Qs : 0 < s * s) by (apply Rmult_lt_0_compat; assumption).
  rewrite ?ln_quot by assumption.
  set (lq := ln (q * q)) in *; clearbody lq.
  set (lu := ln (u * u)) in *; clearbody lu.
  set (lm := ln (m * m)) in *; clearbody lm.
  set (ls := ln (s * s)) in *; clearbody ls.
  repeat match goal with |- context [Li2 ?x] => let d := fresh "D" in set (d := Li2 x) in *; clearbody d end.
  field. repeat split; first [lra|nz|nzq].
Qed.
Lemma id_G_6 (Li2 : R -> R) (q u m s L : R) : 0 < q -> 0 < u -> 0 < m -> 0 < s -> q <> u -> m <> q -> m <> u -> landen_at Li2 s m -> landen_at Li2 u q -> 
  (xtt_G_6 Li2 (q*q) (u*u) (m*m) q u m (s*s) s L) = k6 (yta_G_0 (q*q) (u*u) (m*m) q u m L)
    (yta_G_1 (q*q) (u*u) (m*m) q u m L)
    (yta2_G_0 Li2 (q*q) (u*u) (m*m) q u m (s*s) s L)
    (yta2_G_1 Li2 (q*q) (u*u) (m*m) q u m (s*s) s L)
    (yta2_G_2 Li2 (q*q) (u*u) (m*m) q u m (s*s) s L)
    (lat_G_0 (q*q) (u*u) L)
    (lat_G_1 (q*q) (u*u) L)
    (lat_G_2 (q*q) (u*u) L)
    (lat_G_3 (q*q) (u*u) L)
    (lat_G_4 (q*q) (u*u) L)
    (lata_G_0 Li2 (q*q) (u*u) (m*m) q u m L)
    (lata_G_1 Li2 (q*q) (u*u) (m*m) q u m L)
    (lata_G_2 Li2 (q*q) (u*u) (m*m) q u m L)
    (lata_G_3 Li2 (q*q) (u*u) (m*m) q u m L)
    (lata_G_4 Li2 (q*q) (u*u) (m*m) q u m L)
    (lata_G_5 Li2 (q*q) (u*u) (m*m) q u m L)
    (g3v L (ln (q*q)) (ln (u*u)) (ln (m*m)) (ln (s*s))).
Proof.
  intros Pq Pu Pm Ps N0 N1 N2 E0 E1. unfold k6, g3v, lat_G_0, lat_G_1, lat_G_2, lat_G_3, lat_G_4, lata_G_0, lata_G_1, lata_G_2, lata_G_3, lata_G_4, lata_G_5, xtt_G_6, yta2_G_0, yta2_G_1, yta2_G_2, yta_G_0, yta_G_1.
  opn. unfold landen_at in *.
  try rewrite E0.
  try rewrite E1.
  assert (Qq : 0 < q * q) by (apply Rmult_lt_0_compat; assumption).
  assert (Qu : 0 < u * u) by (apply Rmult_lt_0_compat; assumption).
  assert (Qm : 0 < m * m) by (apply Rmult_lt_0_compat; assumption).
  assert (Qs : 0 < s * s) by (apply Rmult_lt_0_compat; assumption).
  rewrite ?ln_quot by assumption.
  set (lq := ln (q * q)) in *; clearbody lq.
  set (lu := ln (u * u)) in *; clearbody lu.
  set (lm := ln (m * m)) in *; clearbody lm.
  set (ls := ln (s * s)) in *; clearbody ls.
  repeat match goal with |- context [Li2 ?x] => let d := fresh "D" in set (d := Li2 x) in *; clearbody d end.
  field. repeat split; first [lra|nz|nzq].
Qed.
Lemma id_QU_4 (Li2 : R -> R) (q m s L : R) : 0 < q -> 0 < m -> 0 < s -> m <> q -> landen_at Li2 s m -> 
  (xtt_QU_4 Li2 (q*q) (m*m) q m (s*s) s L) = k4 (yta_QU_0 (q*q) (m*m) q m L)
    (yta_QU_1 (q*q) (m*m) q m L)
    (yta2_QU_0 Li2 (q*q) (m*m) q m (s*s) s L)
    (yta2_QU_1 Li2 (q*q) (m*m) q m (s*s) s L)
    (yta2_QU_2 Li2 (q*q) (m*m) q m (s*s) s L)
    (lat_QU_0 (q*q) L)
    (lat_QU_1 (q*q) L)
    (lat_QU_2 (q*q) L)
    (lat_QU_3 (q*q) L)
    (lat_QU_4 (q*q) L)
    (lata_QU_0 Li2 (q*q) (m*m) q m L)
    (lata_QU_1 Li2 (q*q) (m*m) q m L)
    (lata_QU_2 Li2 (q*q) (m*m) q m L)
    (lata_QU_3 Li2 (q*q) (m*m) q m L)
    (lata_QU_4 Li2 (q*q) (m*m) q m L)
    (lata_QU_5 Li2 (q*q) (m*m) q m L)
    (g3v L (ln (q*q)) (ln (q*q)) (ln (m*m)) (ln (s*s))).
Proof.
  intros Pq Pm Ps N0 E0. unfold k4, g3v, lat_QU_0, lat_QU_1, lat_QU_2, lat_QU_3, lat_QU_4, lata_QU_0, lata_QU_1, lata_QU_2, lata_QU_3, lata_QU_4, lata_QU_5, xtt_QU_4, yta2_QU_0, yta2_QU_1, yta2_QU_2, yta_QU_0, yta_QU_1.
  opn. unfold landen_at in *.
  try rewrite E0.
  assert (Qq : 0 < q * q) by (apply Rmult_lt_0_compat; assumption).
  assert (Qm : 0 < m * m) by (apply Rmult_lt_0_compat; assumption).
  assert (Qs : 0 < s * s) by (apply Rmult_lt_0_compat; assumption).
  rewrite ?ln_quot by assumption.
  set (lq := ln (q * q)) in *; clearbody lq.
  set (lm := ln (m * m)) in *; clearbody lm.
  set (ls := ln (s * s)) in *; clearbody ls.
  repeat match goal with |- context [Li2 ?x] => let d := fresh "D" in set (d := Li2 x) in *; clearbody d end.
  field. repeat split; first [lra|nz|nzq].
Qed.
Lemma id_QU_5 (Li2 : R -> R) (q m s L : R) : 0 < q -> 0 < m -> 0 < s -> m <> q -> landen_at Li2 s m -> 
  (xtt_QU_5 Li2 (q*q) (m*m) q m (s*s) s L) = k5 (yta_QU_0 (q*q) (m*m) q m L)
    (yta_QU_1 (q*q) (m*m) q m L)
    (yta2_QU_0 Li2 (q*q) (m*m) q m (s*s) s L)
    (yta2_QU_1 Li2 (q*q) (m*m) q m (s*s) s L)
    (yta2_QU_2 Li2 (q*q) (m*m) q m (s*s) s L)
    (lat_QU_0 (q*q) L)
    (lat_QU_1 (q*q) L)
    (lat_QU_2 (q*q) L)
    (lat_QU_3 (q*q) L)
    (lat_QU_4 (q*q) L)
    (lata_QU_0 Li2 (q*q) (m*m) q m L)
    (lata_QU_1 Li2 (q*q) (m*m) q m L)
    (lata_QU_2 Li2 (q*q) (m*m) q m L)
    (lata_QU_3 Li2 (q*q) (m*m) q m L)
    (lata_QU_4 Li2 (q*q) (m*m) q m L)
    (lata_QU_5 Li2 (q*q) (m*m) q m L)
    (g3v L (ln (q*q)) (ln (q*q)) (ln (m*m)) (ln (s*s))).
Proof.
  intros Pq Pm Ps N0 E0. unfold k5, g3v, lat_QU_0, lat_QU_1, lat_QU_2, lat_QU_3, lat_QU_4, lata_QU_0, lata_QU_1, lata_QU_2, lata_QU_3, lata_QU_4, lata_QU_5, xtt_QU_5, yta2_QU_0, yta2_QU_1, yta2_QU_2, yta_QU_0, yta_QU_1.
  opn. unfold landen_at in *.
  try rewrite E0.
  assert (Qq : 0 < q * q) by (apply Rmult_lt_0_compat; assumption).
  assert (Qm : 0 < m * m) by (apply Rmult_lt_0_compat; assumption).
  assert (Qs : 0 < s * s) by (apply Rmult_lt_0_compat; assumption).
  rewrite ?ln_quot by assumption.
  set (lq := ln (q * q)) in *; clearbody lq.
  set (lm := ln (m * m)) in *; clearbody lm.
  set (ls := ln (s * s)) in *; clearbody ls.
  repeat match goal with |- context [Li2 ?x] => let d := fresh "D" in set (d := Li2 x) in *; clearbody d end.
  field. repeat split; first [lra|nz|nzq].
Qed.
Lemma id_QU_6 (Li2 : R -> R) (q m s L : R) : 0 < q -> 0 < m -> 0 < s -> m <> q -> landen_at Li2 s m -> 
  (xtt_QU_6 Li2 (q*q) (m*m) q m (s*s) s L) = k6 (yta_QU_0 (q*q) (m*m) q m L)
    (yta_QU_1 (q*q) (m*m) q m L)
    (yta2_QU_0 Li2 (q*q) (m*m) q m (s*s) s L)
    (yta2_QU_1 Li2 (q*q) (m*m) q m (s*s) s L)
    (yta2_QU_2 Li2 (q*q) (m*m) q m (s*s) s L)
    (lat_QU_0 (q*q) L)
    (lat_QU_1 (q*q) L)
    (lat_QU_2 (q*q) L)
    (lat_QU_3 (q*q) L)
    (lat_QU_4 (q*q) L)
    (lata_QU_0 Li2 (q*q) (m*m) q m L)
    (lata_QU_1 Li2 (q*q) (m*m) q m L)
    (lata_QU_2 Li2 (q*q) (m*m) q m L)
    (lata_QU_3 Li2 (q*q) (m*m) q m L)
    (lata_QU_4 Li2 (q*q) (m*m) q m L)
    (lata_QU_5 Li2 (q*q) (m*m) q m L)
    (g3v L (ln (q*q)) (ln (q*q)) (ln (m*m)) (ln (s*s))).
Proof.
  intros Pq Pm Ps N0 E0. unfold k6, g3v, lat_QU_0, lat_QU_1, lat_QU_2, lat_QU_3, lat_QU_4, lata_QU_0, lata_QU_1, lata_QU_2, lata_QU_3, lata_QU_4, lata_QU_5, xtt_QU_6, yta2_QU_0, yta2_QU_1, yta2_QU_2, yta_QU_0, yta_QU_1.
  opn. unfold landen_at in *.
  try rewrite E0.
  assert (Qq : 0 < q * q) by (apply Rmult_lt_0_compat; assumption).
  assert (Qm : 0 < m * m) by (apply Rmult_lt_0_compat; assumption).
  assert (Qs : 0 < s * s) by (apply Rmult_lt_0_compat; assumption).
  rewrite ?ln_quot by assumption.
  set (lq := ln (q * q)) in *; clearbody lq.
  set (lm := ln (m * m)) in *; clearbody lm.
  set (ls := ln (s * s)) in *; clearbody ls.
  repeat match goal with |- context [Li2 ?x] => let d := fresh "D" in set (d := Li2 x) in *; clearbody d end.
  field. repeat split; first [lra|nz|nzq].
Qed.
Lemma id_QM_4 (Li2 : R -> R) (q u s L : R) : 0 < q -> 0 < u -> 0 < s -> q <> u -> s <> q -> landen_at Li2 u q -> landen_at Li2 q s -> 
  (xtt_QM_4 Li2 (q*q) (u*u) q u (s*s) s L) = k4 (yta_QM_0 (q*q) (u*u) q L)
    (yta_QM_1 (q*q) (u*u) q L)
    (yta2_QM_0 Li2 (q*q) (u*u) q u (s*s) s L)
    (yta2_QM_1 Li2 (q*q) (u*u) q u (s*s) s L)
    (yta2_QM_2 Li2 (q*q) (u*u) q u (s*s) s L)
    (lat_G_0 (q*q) (u*u) L)
    (lat_G_1 (q*q) (u*u) L)
    (lat_G_2 (q*q) (u*u) L)
    (lat_G_3 (q*q) (u*u) L)
    (lat_G_4 (q*q) (u*u) L)
    (lata_QM_0 Li2 (q*q) (u*u) q u L)
    (lata_QM_1 Li2 (q*q) (u*u) q u L)
    (lata_QM_2 Li2 (q*q) (u*u) q u L)
    (lata_QM_3 Li2 (q*q) (u*u) q u L)
    (lata_QM_4 Li2 (q*q) (u*u) q u L)
    (lata_QM_5 Li2 (q*q) (u*u) q u L)
    (g3v L (ln (q*q)) (ln (u*u)) (ln (q*q)) (ln (s*s))).
Proof.
  intros Pq Pu Ps N0 N1 E0 E1. unfold k4, g3v, lat_G_0, lat_G_1, lat_G_2, lat_G_3, lat_G_4, lata_QM_0, lata_QM_1, lata_QM_2, lata_QM_3, lata_QM_4, lata_QM_5, xtt_QM_4, yta2_QM_0, yta2_QM_1, yta2_QM_2, yta_QM_0, yta_QM_1.
  opn. unfold landen_at in *.
  try rewrite E0.
  try rewrite E1.
  assert (Qq : 0 < q * q) by (apply Rmult_lt_0_compat; assumption).
  assert (Qu : 0 < u * u) by (apply Rmult_lt_0_compat; assumption).
  assert (Qs : 0 < s * s) by (apply Rmult_lt_0_compat; assumption).
  rewrite ?ln_quot by assumption.
  set (lq := ln (q * q)) in *; clearbody lq.
  set (lu := ln (u * u)) in *; clearbody lu.
  set (ls := ln (s * s)) in *; clearbody ls.
  repeat match goal with |- context [Li2 ?x] => let d := fresh "D" in set (d := Li2 x) in *; clearbody d end.
  field. repeat split; first [lra|nz|nzq].
Qed.
Lemma id_QM_5 (Li2 : R -> R) (q u s L : R) : 0 < q -> 0 < u -> 0 < s -> q <> u -> s <> q -> landen_at Li2 u q -> landen_at Li2 q s -> 
  (xtt_QM_5 Li2 (q*q) (u*u) q u (s*s) s L) = k5 (yta_QM_0 (q*q) (u*u) q L)
    (yta_QM_1 (q*q) (u*u) q L)
    (yta2_QM_0 Li2 (q*q) (u*u) q u (s*s) s L)
    (yta2_QM_1 Li2 (q*q) (u*u) q u (s*s) s L)
    (yta2_QM_2 Li2 (q*q) (u*u) q u (s*s) s L)
    (lat_G_0 (q*q) (u*u) L)
    (lat_G_1 (q*q) (u*u) L)
    (lat_G_2 (q*q) (u*u) L)
    (lat_G_3 (q*q) (u*u) L)
    (lat_G_4 (q*q) (u*u) L)
    (lata_QM_0 Li2 (q*q) (u*u) q u L)
    (lata_QM_1 Li2 (q*q) (u*u) q u L)
    (lata_QM_2 Li2 (q*q) (u*u) q u L)
    (lata_QM_3 Li2 (q*q) (u*u) q u L)
    (lata_QM_4 Li2 (q*q) (u*u) q u L)
    (lata_QM_5 Li2 (q*q) (u*u) q u L)
    (g3v L (ln (q*q)) (ln (u*u)) (ln (q*q)) (ln (s*s))).
Proof.
  intros Pq Pu Ps N0 N1 E0 E1. unfold k5, g3v, lat_G_0, lat_G_1, lat_G_2, lat_G_3, lat_G_4, lata_QM_0, lata_QM_1, lata_QM_2, lata_QM_3, lata_QM_4, lata_QM_5, xtt_QM_5, yta2_QM_0, yta2_QM_1, yta2_QM_2, yta_QM_0, yta_QM_1.
  opn. unfold landen_at in *.
  try rewrite E0.
  try rewrite E1.
  assert (Qq : 0 < q * q) by (apply Rmult_lt_0_compat; assumption).
  assert (Qu : 0 < u * u) by (apply Rmult_lt_0_compat; assumption).
  assert (Qs : 0 < s * s) by (apply Rmult_lt_0_compat; assumption).
  rewrite ?ln_quot by assumption.
  set (lq := ln (q * q)) in *; clearbody lq.
  set (lu := ln (u * u)) in *; clearbody lu.
  set (ls := ln (s * s)) in *; clearbody ls.
  repeat match goal with |- context [Li2 ?x] => let d := fresh "D" in set (d := Li2 x) in *; clearbody d end.
  field. repeat split; first [lra|nz|nzq].
Qed.
Lemma id_QM_6 (Li2 : R -> R) (q u s L : R) : 0 < q -> 0 < u -> 0 < s -> q <> u -> s <> q -> landen_at Li2 u q -> landen_at Li2 q s -> 
  (xtt_QM_6 Li2 (q*q) (u*u) q u (s*s) s L) = k6 (yta_QM_0 (q*q) (u*u) q L)
    (yta_QM_1 (q*q) (u*u) q L)
    (yta2_QM_0 Li2 (q*q) (u*u) q u (s*s) s L)
    (yta2_QM_1 Li2 (q*q) (u*u) q u (s*s) s L)
    (yta2_QM_2 Li2 (q*q) (u*u) q u (s*s) s L)
    (lat_G_0 (q*q) (u*u) L)
    (lat_G_1 (q*q) (u*u) L)
    (lat_G_2 (q*q) (u*u) L)
    (lat_G_3 (q*q) (u*u) L)
    (lat_G_4 (q*q) (u*u) L)
    (lata_QM_0 Li2 (q*q) (u*u) q u L)
    (lata_QM_1 Li2 (q*q) (u*u) q u L)
    (lata_QM_2 Li2 (q*q) (u*u) q u L)
    (lata_QM_3 Li2 (q*q) (u*u) q u L)
    (lata_QM_4 Li2 (q*q) (u*u) q u L)
    (lata_QM_5 Li2 (q*q) (u*u) q u L)
    (g3v L (ln (q*q)) (ln (u*u)) (ln (q*q)) (ln (s*s))).
Proof.
  intros Pq Pu Ps N0 N1 E0 E1. unfold k6, g3v, lat_G_0, lat_G_1, lat_G_2, lat_G_3, lat_G_4, lata_QM_0, lata_QM_1, lata_QM_2, lata_QM_3, lata_QM_4, lata_QM_5, xtt_QM_6, yta2_QM_0, yta2_QM_1, yta2_QM_2, yta_QM_0, yta_QM_1.
  opn. unfold landen_at in *.
  try rewrite E0.
  try rewrite E1.
  assert (Qq : 0 < q * q) by (apply Rmult_lt_0_compat; assumption).
  assert (Qu : 0 < u * u) by (apply Rmult_lt_0_compat; assumption).
  assert (Qs : 0 < s * s) by (apply Rmult_lt_0_compat; assumption).
  rewrite ?ln_quot by assumption.
  set (lq := ln (q * q)) in *; clearbody lq.
  set (lu := ln (u * u)) in *; clearbody lu.
  set (ls := ln (s * s)) in *; clearbody ls.
  repeat match goal with |- context [Li2 ?x] => let d := fresh "D" in set (d := Li2 x) in *; clearbody d end.
  field. repeat split; first [lra|nz|nzq].
Qed.
Lemma id_UM_4 (Li2 : R -> R) (q u s L : R) : 0 < q -> 0 < u -> 0 < s -> q <> u -> s <> u -> landen_at Li2 q u -> landen_at Li2 u s -> 
  (xtt_UM_4 Li2 (q*q) (u*u) q u (s*s) s L) = k4 (yta_UM_0 (q*q) (u*u) q u L)
    (yta_UM_1 (q*q) (u*u) q u L)
    (yta2_UM_0 Li2 (q*q) (u*u) q u (s*s) s L)
    (yta2_UM_1 Li2 (q*q) (u*u) q u (s*s) s L)
    (yta2_UM_2 Li2 (q*q) (u*u) q u (s*s) s L)
    (lat_G_0 (q*q) (u*u) L)
    (lat_G_1 (q*q) (u*u) L)
    (lat_G_2 (q*q) (u*u) L)
    (lat_G_3 (q*q) (u*u) L)
    (lat_G_4 (q*q) (u*u) L)
    (lata_UM_0 Li2 (q*q) (u*u) q u L)
    (lata_UM_1 Li2 (q*q) (u*u) q u L)
    (lata_UM_2 Li2 (q*q) (u*u) q u L)
    (lata_UM_3 Li2 (q*q) (u*u) q u L)
    (lata_UM_4 Li2 (q*q) (u*u) q u L)
    (lata_UM_5 Li2 (q*q) (u*u) q u L)
    (g3v L (ln (q*q)) (ln (u*u)) (ln (u*u)) (ln (s*s))).
Proof.
  intros Pq Pu Ps N0 N1 E0 E1. unfold k4, g3v, lat_G_0, lat_G_1, lat_G_2, lat_G_3, lat_G_4, lata_UM_0, lata_UM_1, lata_UM_2, lata_UM_3, lata_UM_4, lata_UM_5, xtt_UM_4, yta2_UM_0, yta2_UM_1, yta2_UM_2, yta_UM_0, yta_UM_1.
  opn. unfold landen_at in *.
  try rewrite E0.
  try rewrite E1.
  assert (Qq : 0 < q * q) by (apply Rmult_lt_0_compat; assumption).
  assert (Qu : 0 < u * u) by (apply Rmult_lt_0_compat; assumption).
  assert (Qs : 0 < s * s) by (apply Rmult_lt_0_compat; assumption).
  rewrite ?ln_quot by assumption.
  set (lq := ln (q * q)) in *; clearbody lq.
  set (lu := ln (u * u)) in *; clearbody lu.
  set (ls := ln (s * s)) in *; clearbody ls.
  repeat match goal with |- context [Li2 ?x] => let d := fresh "D" in set (d := Li2 x) in *; clearbody d end.
  field. repeat split; first [lra|nz|nzq].
Qed.
Lemma id_UM_5 (Li2 : R -> R) (q u s L : R) : 0 < q -> 0 < u -> 0 < s -> q <> u -> s <> u -> landen_at Li2 q u -> landen_at Li2 u s -> 
  (xtt_UM_5 Li2 (q*q) (u*u) q u (s*s) s L) = k5 (yta_UM_0 (q*q) (u*u) q u L)
    (yta_UM_1 (q*q) (u*u) q u L)
    (yta2_UM_0 Li2 (q*q) (u*u) q u (s*s) s L)
    (yta2_UM_1 Li2 (q*q) (u*u) q u (s*s) s L)
    (yta2_UM_2 Li2 (q*q) (u*u) q u (s*s) s L)
    (lat_G_0 (q*q) (u*u) L)
    (lat_G_1 (q*q) (u*u) L)
    (lat_G_2 (q*q) (u*u) L)
    (lat_G_3 (q*q) (u*u) L)
    (lat_G_4 (q*q) (u*u) L)
    (lata_UM_0 Li2 (q*q) (u*u) q u L)
    (lata_UM_1 Li2 (q*q) (u*u) q u L)
    (lata_UM_2 Li2 (q*q) (u*u) q u L)
    (lata_UM_3 Li2 (q*q) (u*u) q u L)
    (lata_UM_4 Li2 (q*q) (u*u) q u L)
    (lata_UM_5 Li2 (q*q) (u*u) q u L)
    (g3v L (ln (q*q)) (ln (u*u)) (ln (u*u)) (ln (s*s))).
Proof.
  intros Pq Pu Ps N0 N1 E0 E1. unfold k5, g3v, lat_G_0, lat_G_1, lat_G_2, lat_G_3, lat_G_4, lata_UM_0, lata_UM_1, lata_UM_2, lata_UM_3, lata_UM_4, lata_UM_5, xtt_UM_5, yta2_UM_0, yta2_UM_1, yta2_UM_2, yta_UM_0, yta_UM_1.
  opn. unfold landen_at in *.
  try rewrite E0.
  try rewrite E1.
  assert (Qq : 0 < q * q) by (apply Rmult_lt_0_compat; assumption).
  assert (Qu : 0 < u * u) by (apply Rmult_lt_0_compat; assumption).
  assert (Qs : 0 < s * s) by (apply Rmult_lt_0_compat; assumption).
  rewrite ?ln_quot by assumption.
  set (lq := ln (q * q)) in *; clearbody lq.
  set (lu := ln (u * u)) in *; clearbody lu.
  set (ls := ln (s * s)) in *; clearbody ls.
  repeat match goal with |- context [Li2 ?x] => let d := fresh "D" in set (d := Li2 x) in *; clearbody d end.
  field. repeat split; first [lra|nz|nzq].
Qed.
Lemma id_UM_6 (Li2 : R -> R) (q u s L : R) : 0 < q -> 0 < u -> 0 < s -> q <> u -> s <> u -> landen_at Li2 q u -> landen_at Li2 u s -> 
  (xtt_UM_6 Li2 (q*q) (u*u) q u (s*s) s L) = k6 (yta_UM_0 (q*q) (u*u) q u L)
    (yta_UM_1 (q*q) (u*u) q u L)
    (yta2_UM_0 Li2 (q*q) (u*u) q u (s*s) s L)
    (yta2_UM_1 Li2 (q*q) (u*u) q u (s*s) s L)
    (yta2_UM_2 Li2 (q*q) (u*u) q u (s*s) s L)
    (lat_G_0 (q*q) (u*u) L)
    (lat_G_1 (q*q) (u*u) L)
    (lat_G_2 (q*q) (u*u) L)
    (lat_G_3 (q*q) (u*u) L)
    (lat_G_4 (q*q) (u*u) L)
    (lata_UM_0 Li2 (q*q) (u*u) q u L)
    (lata_UM_1 Li2 (q*q) (u*u) q u L)
    (lata_UM_2 Li2 (q*q) (u*u) q u L)
    (lata_UM_3 Li2 (q*q) (u*u) q u L)
    (lata_UM_4 Li2 (q*q) (u*u) q u L)
    (lata_UM_5 Li2 (q*q) (u*u) q u L)
    (g3v L (ln (q*q)) (ln (u*u)) (ln (u*u)) (ln (s*s))).
Proof.
  intros Pq Pu Ps N0 N1 E0 E1. unfold k6, g3v, lat_G_0, lat_G_1, lat_G_2, lat_G_3, lat_G_4, lata_UM_0, lata_UM_1, lata_UM_2, lata_UM_3, lata_UM_4, lata_UM_5, xtt_UM_6, yta2_UM_0, yta2_UM_1, yta2_UM_2, yta_UM_0, yta_UM_1.
  opn. unfold landen_at in *.
  try rewrite E0.
  try rewrite E1.
  assert (Qq : 0 < q * q) by (apply Rmult_lt_0_compat; assumption).
  assert (Qu : 0 < u * u) by (apply Rmult_lt_0_compat; assumption).
  assert (Qs : 0 < s * s) by (apply Rmult_lt_0_compat; assumption).
  rewrite ?ln_quot by assumption.
  set (lq := ln (q * q)) in *; clearbody lq.
  set (lu := ln (u * u)) in *; clearbody lu.
  set (ls := ln (s * s)) in *; clearbody ls.
  repeat match goal with |- context [Li2 ?x] => let d := fresh "D" in set (d := Li2 x) in *; clearbody d end.
  field. repeat split; first [lra|nz|nzq].
Qed.
Lemma id_QUM_4 (Li2 : R -> R) (q s L : R) : 0 < q -> 0 < s -> s <> q -> landen_at Li2 q s -> 
  (xtt_QUM_4 Li2 (q*q) q (s*s) s L) = k4 (yta_QUM_0 q L)
    (yta_QUM_1 q L)
    (yta2_QUM_0 Li2 (q*q) q (s*s) L)
    (yta2_QUM_1 Li2 (q*q) q (s*s) L)
    (yta2_QUM_2 Li2 (q*q) q (s*s) L)
    (lat_QU_0 (q*q) L)
    (lat_QU_1 (q*q) L)
    (lat_QU_2 (q*q) L)
    (lat_QU_3 (q*q) L)
    (lat_QU_4 (q*q) L)
    (lata_QUM_0 (q*q) q L)
    (lata_QUM_1 (q*q) q L)
    (lata_QUM_2 (q*q) q L)
    (lata_QUM_3 (q*q) q L)
    (lata_QUM_4 (q*q) q L)
    (lata_QUM_5 (q*q) q L)
    (g3v L (ln (q*q)) (ln (q*q)) (ln (q*q)) (ln (s*s))).
Proof.
  intros Pq Ps N0 E0. unfold k4, g3v, lat_QU_0, lat_QU_1, lat_QU_2, lat_QU_3, lat_QU_4, lata_QUM_0, lata_QUM_1, lata_QUM_2, lata_QUM_3, lata_QUM_4, lata_QUM_5, xtt_QUM_4, yta2_QUM_0, yta2_QUM_1, yta2_QUM_2, yta_QUM_0, yta_QUM_1.
  opn. unfold landen_at in *.
  try rewrite E0.
  assert (Qq : 0 < q * q) by (apply Rmult_lt_0_compat; assumption).
  assert (Qs : 0 < s * s) by (apply Rmult_lt_0_compat; assumption).
  rewrite ?ln_quot by assumption.
  set (lq := ln (q * q)) in *; clearbody lq.
  set (ls := ln (s * s)) in *; clearbody ls.
  repeat match goal with |- context [Li2 ?x] => let d := fresh "D" in set (d := Li2 x) in *; clearbody d end.
  field. repeat split; first [lra|nz|nzq].
Qed.
Lemma id_QUM_5 (Li2 : R -> R) (q s L : R) : 0 < q -> 0 < s -> s <> q -> landen_at Li2 q s -> 
  (xtt_QUM_5 Li2 (q*q) q (s*s) s L) = k5 (yta_QUM_0 q L)
    (yta_QUM_1 q L)
    (yta2_QUM_0 Li2 (q*q) q (s*s) L)
    (yta2_QUM_1 Li2 (q*q) q (s*s) L)
    (yta2_QUM_2 Li2 (q*q) q (s*s) L)
    (lat_QU_0 (q*q) L)
    (lat_QU_1 (q*q) L)
    (lat_QU_2 (q*q) L)
    (lat_QU_3 (q*q) L)
    (lat_QU_4 (q*q) L)
    (lata_QUM_0 (q*q) q L)
    (lata_QUM_1 (q*q) q L)
    (lata_QUM_2 (q*q) q L)
    (lata_QUM_3 (q*q) q L)
    (lata_QUM_4 (q*q) q L)
    (lata_QUM_5 (q*q) q L)
    (g3v L (ln (q*q)) (ln (q*q)) (ln (q*q)) (ln (s*s))).
Proof.
  intros Pq Ps N0 E0. unfold k5, g3v, lat_QU_0, lat_QU_1, lat_QU_2, lat_QU_3, lat_QU_4, lata_QUM_0, lata_QUM_1, lata_QUM_2, lata_QUM_3, lata_QUM_4, lata_QUM_5, xtt_QUM_5, yta2_QUM_0, yta2_QUM_1, yta2_QUM_2, yta_QUM_0, yta_QUM_1.
  opn. unfold landen_at in *.
  try rewrite E0.
  assert (Qq : 0 < q * q) by (apply Rmult_lt_0_compat; assumption).
  assert (Qs : 0 < s * s) by (apply Rmult_lt_0_compat; assumption).
  rewrite ?ln_quot by assumption.
  set (lq := ln (q * q)) in *; clearbody lq.
  set (ls := ln (s * s)) in *; clearbody ls.
  repeat match goal with |- context [Li2 ?x] => let d := fresh "D" in set (d := Li2 x) in *; clearbody d end.
  field. repeat split; first [lra|nz|nzq].
Qed.
Lemma id_QUM_6 (Li2 : R -> R) (q s L : R) : 0 < q -> 0 < s -> s <> q -> landen_at Li2 q s -> 
  (xtt_QUM_6 Li2 (q*q) q (s*s) s L) = k6 (yta_QUM_0 q L)
    (yta_QUM_1 q L)
    (yta2_QUM_0 Li2 (q*q) q (s*s) L)
    (yta2_QUM_1 Li2 (q*q) q (s*s) L)
    (yta2_QUM_2 Li2 (q*q) q (s*s) L)
    (lat_QU_0 (q*q) L)
    (lat_QU_1 (q*q) L)
    (lat_QU_2 (q*q) L)
    (lat_QU_3 (q*q) L)
    (lat_QU_4 (q*q) L)
    (lata_QUM_0 (q*q) q L)
    (lata_QUM_1 (q*q) q L)
    (lata_QUM_2 (q*q) q L)
    (lata_QUM_3 (q*q) q L)
    (lata_QUM_4 (q*q) q L)
    (lata_QUM_5 (q*q) q L)
    (g3v L (ln (q*q)) (ln (q*q)) (ln (q*q)) (ln (s*s))).
Proof.
  intros Pq Ps N0 E0. unfold k6, g3v, lat_QU_0, lat_QU_1, lat_QU_2, lat_QU_3, lat_QU_4, lata_QUM_0, lata_QUM_1, lata_QUM_2, lata_QUM_3, lata_QUM_4, lata_QUM_5, xtt_QUM_6, yta2_QUM_0, yta2_QUM_1, yta2_QUM_2, yta_QUM_0, yta_QUM_1.
  opn. unfold landen_at in *.
  try rewrite E0.
  assert (Qq : 0 < q * q) by (apply Rmult_lt_0_compat; assumption).
  assert (Qs : 0 < s * s) by (apply Rmult_lt_0_compat; assumption).
  rewrite ?ln_quot by assumption.
  set (lq := ln (q * q)) in *; clearbody lq.
  set (ls := ln (s * s)) in *; clearbody ls.
  repeat match goal with |- context [Li2 ?x] => let d := fresh "D" in set (d := Li2 x) in *; clearbody d end.
  field. repeat split; first [lra|nz|nzq].
Qed.
Lemma id_D_4 (q L : R) : 0 < q -> 
  (xtt_D_4 q L) = k4 (yta_QUM_0 q L)
    (yta_QUM_1 q L)
    (yta2_D_0 (q*q) q L)
    (yta2_D_1 (q*q) q L)
    (yta2_D_2 (q*q) q L)
    (lat_QU_0 (q*q) L)
    (lat_QU_1 (q*q) L)
    (lat_QU_2 (q*q) L)
    (lat_QU_3 (q*q) L)
    (lat_QU_4 (q*q) L)
    (lata_QUM_0 (q*q) q L)
    (lata_QUM_1 (q*q) q L)
    (lata_QUM_2 (q*q) q L)
    (lata_QUM_3 (q*q) q L)
    (lata_QUM_4 (q*q) q L)
    (lata_QUM_5 (q*q) q L)
    (g3v L (ln (q*q)) (ln (q*q)) (ln (q*q)) (ln (q*q))).
Proof.
  intros Pq  . unfold k4, g3v, lat_QU_0, lat_QU_1, lat_QU_2, lat_QU_3, lat_QU_4, lata_QUM_0, lata_QUM_1, lata_QUM_2, lata_QUM_3, lata_QUM_4, lata_QUM_5, xtt_D_4, yta2_D_0, yta2_D_1, yta2_D_2, yta_QUM_0, yta_QUM_1.
  opn. unfold landen_at in *.
  assert (Qq : 0 < q * q) by (apply Rmult_lt_0_compat; assumption).
  rewrite ?ln_quot by assumption.
  set (lq := ln (q * q)) in *; clearbody lq.
  field. repeat split; first [lra|nz|nzq].
Qed.
Lemma id_D_5 (q L : R) : 0 < q -> 
  (xtt_D_5 q L) = k5 (yta_QUM_0 q L)
    (yta_QUM_1 q L)
    (yta2_D_0 (q*q) q L)
    (yta2_D_1 (q*q) q L)
    (yta2_D_2 (q*q) q L)
    (lat_QU_0 (q*q) L)
    (lat_QU_1 (q*q) L)
    (lat_QU_2 (q*q) L)
    (lat_QU_3 (q*q) L)
    (lat_QU_4 (q*q) L)
    (lata_QUM_0 (q*q) q L)
    (lata_QUM_1 (q*q) q L)
    (lata_QUM_2 (q*q) q L)
    (lata_QUM_3 (q*q) q L)
    (lata_QUM_4 (q*q) q L)
    (lata_QUM_5 (q*q) q L)
    (g3v L (ln (q*q)) (ln (q*q)) (ln (q*q)) (ln (q*q))).
Proof.
  intros Pq  . unfold k5, g3v, lat_QU_0, lat_QU_1, lat_QU_2, lat_QU_3, lat_QU_4, lata_QUM_0, lata_QUM_1, lata_QUM_2, lata_QUM_3, lata_QUM_4, lata_QUM_5, xtt_D_5, yta2_D_0, yta2_D_1, yta2_D_2, yta_QUM_0, yta_QUM_1.
  opn. unfold landen_at in *.
  assert (Qq : 0 < q * q) by (apply Rmult_lt_0_compat; assumption).
  rewrite ?ln_quot by assumption.
  set (lq := ln (q * q)) in *; clearbody lq.
  field. repeat split; first [lra|nz|nzq].
Qed.
Lemma id_D_6 (q L : R) : 0 < q -> 
  (xtt_D_6 q L) = k6 (yta_QUM_0 q L)
    (yta_QUM_1 q L)
    (yta2_D_0 (q*q) q L)
    (yta2_D_1 (q*q) q L)
    (yta2_D_2 (q*q) q L)
    (lat_QU_0 (q*q) L)
    (lat_QU_1 (q*q) L)
    (lat_QU_2 (q*q) L)
    (lat_QU_3 (q*q) L)
    (lat_QU_4 (q*q) L)
    (lata_QUM_0 (q*q) q L)
    (lata_QUM_1 (q*q) q L)
    (lata_QUM_2 (q*q) q L)
    (lata_QUM_3 (q*q) q L)
    (lata_QUM_4 (q*q) q L)
    (lata_QUM_5 (q*q) q L)
    (g3v L (ln (q*q)) (ln (q*q)) (ln (q*q)) (ln (q*q))).
Proof.
  intros Pq  . unfold k6, g3v, lat_QU_0, lat_QU_1, lat_QU_2, lat_QU_3, lat_QU_4, lata_QUM_0, lata_QUM_1, lata_QUM_2, lata_QUM_3, lata_QUM_4, lata_QUM_5, xtt_D_6, yta2_D_0, yta2_D_1, yta2_D_2, yta_QUM_0, yta_QUM_1.
  opn. unfold landen_at in *.
  assert (Qq : 0 < q * q) by (apply Rmult_lt_0_compat; assumption).
  rewrite ?ln_quot by assumption.
  set (lq := ln (q * q)) in *; clearbody lq.
  field. repeat split; first [lra|nz|nzq].
Qed.
