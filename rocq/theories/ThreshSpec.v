(** * Specification of the threshold corrections (C30-C33, C50) *)
From Coq Require Import Reals ZArith Bool List.
From Coquelicot Require Import Coquelicot.
From Verif Require Import Num Except Params HierFormulas Thresh Threshold.
Import ListNotations.
Open Scope R_scope.

(** ** The same calculator at another renormalisation scale *)
Definition with_scale {T} (p : Params T) (Q : T) : Params T :=
  mkParams Q (mu p) (g1 p) (g2 p) (g3 p) (vd p) (vu p) (mq2 p) (md2 p) (mu2 p) (ml2 p) (me2 p)
    (Au p) (Ad p) (Ae p) (Yu p) (Yd p) (Ye p) (M1 p) (M2 p) (MG p) (MW p) (MZ p) (Mt p) (Mb p) (Mtau p) (MA p)
    (MSt p) (MSb p) (MStau p) (s2t p) (s2b p) (s2tau p) (theta_t p) (theta_b p) (theta_tau p)
    (massLimit3LThreshold p).
Definition at_scale {T} (c : TC T) (Q : T) : TC T := mkTC (with_scale (tc_p c) Q) (tc_msq2 c) (tc_xt c).

(** squared masses, mu, MA, M2, MG, MSt as they come out of a successful construction for a physical point *)
Definition phys (p : Params R) : Prop :=
  (forall m, In m [mq2 p; md2 p; mu2 p; ml2 p; me2 p] -> 0 < a00 m /\ 0 < a11 m /\ 0 < a22 m) /\
  0 < scale p /\ mu p <> 0 /\ MA p <> 0 /\ M1 p <> 0 /\ M2 p <> 0 /\ 0 < MG p /\ 0 < v0 (MSt p) /\ 0 < vu p /\ 0 < vd p.
Definition phys_tc (c : TC R) : Prop := phys (tc_p c) /\ 0 < tc_msq2 c.

(** the coefficient [k] of the scale logarithm of a correction: at every pair of scales,
    v(Q') = v(Q) + omitLogs * k * ln(Q'^2/Q^2) *)
Definition log_coefficient (c : TC R) (o : tco) (s : scheme) (k : R) : Prop :=
  forall (omitLogs : Z) Q Q', 0 < Q -> 0 < Q' ->
  match getThresholdCorrection (at_scale c Q) o s omitLogs, getThresholdCorrection (at_scale c Q') o s omitLogs with
  | Ok v, Ok v' => v' = v + IZR omitLogs * k * ln (Q'^2 / Q^2)
  | _, _ => False
  end.

(** ** One-loop beta functions (16 pi^2 d/dlnQ), textbook *)
(** gauge couplings g1 (GUT normalised), g2, g3:  dg = b g^3 *)
Definition bSM (i : nat) : R := nth i [41/10; -19/6; -7] 0.
Definition bMSSM (i : nat) : R := nth i [33/5; 1; -3] 0.
(** SM Yukawa couplings: dy/y *)
Definition sm_yt (g3 yt yb ytau : R) : R := 9/2 * yt^2 + 3/2 * yb^2 + ytau^2 - 8 * g3^2.
Definition sm_yb (g3 yt yb ytau : R) : R := 3/2 * yt^2 + 9/2 * yb^2 + ytau^2 - 8 * g3^2.
Definition sm_ytau (yt yb ytau : R) : R := 3 * yt^2 + 3 * yb^2 + 5/2 * ytau^2.
(** MSSM Yukawa couplings: dY/Y *)
Definition mssm_yt (g3 Yt Yb Ytau : R) : R := 6 * Yt^2 + Yb^2 - 16/3 * g3^2.
Definition mssm_yb (g3 Yt Yb Ytau : R) : R := Yt^2 + 6 * Yb^2 + Ytau^2 - 16/3 * g3^2.
Definition mssm_ytau (Yt Yb Ytau : R) : R := 3 * Yb^2 + 4 * Ytau^2.
(** d tan(beta) / tan(beta) *)
Definition mssm_tanb (Yt Yb Ytau : R) : R := - 3 * Yt^2 + 3 * Yb^2 + Ytau^2.
(** SM quartic coupling for V = (lambda/2) (H^+ H)^2 *)
Definition sm_lambda (lam g1 g2 yt yb ytau : R) : R :=
  12 * lam^2 + lam * (12 * yt^2 + 12 * yb^2 + 4 * ytau^2) - lam * (9/5 * g1^2 + 9 * g2^2)
  - 12 * yt^4 - 12 * yb^4 - 4 * ytau^4 + 27/100 * g1^4 + 9/10 * g1^2 * g2^2 + 9/4 * g2^4.
(** tree-level matching lambda = (g2^2 + 3/5 g1^2)/4 cos^2(2 beta) *)
Definition lambda_tree (g1 g2 c2b : R) : R := (g2^2 + 3/5 * g1^2) / 4 * c2b^2.
(** d(lambda_tree): SM gauge couplings, MSSM tan(beta); SM yukawas y_t = Y_t sin(beta), y_b = Y_b cos(beta) *)
Definition d_lambda_tree (g1 g2 sb cb yt yb ytau : R) : R :=
  (bSM 1 * g2^4 + 3/5 * (bSM 0 * g1^4)) / 2 * (cb^2 - sb^2)^2
  + (g2^2 + 3/5 * g1^2) / 4 * (2 * (cb^2 - sb^2) * (- 4 * (sb * cb)^2) * mssm_tanb (yt / sb) (yb / cb) (ytau / cb)).

(** The one-loop correction to lambda assembled from all its pieces, for SM couplings. *)
Definition lambda_orders : list (tco * (R -> R -> R -> R -> R -> R)) :=
  [ (LAMBDA_AT, fun g1 g2 yt yb ytau => yt^4);
    (LAMBDA_YB4, fun g1 g2 yt yb ytau => yb^4);
    (LAMBDA_YTAU4, fun g1 g2 yt yb ytau => ytau^4);
    (LAMBDA_YT2_G12, fun g1 g2 yt yb ytau => yt^2 * g1^2);
    (LAMBDA_YT2_G22, fun g1 g2 yt yb ytau => yt^2 * g2^2);
    (LAMBDA_YB2_G12, fun g1 g2 yt yb ytau => yb^2 * g1^2);
    (LAMBDA_YB2_G22, fun g1 g2 yt yb ytau => yb^2 * g2^2);
    (LAMBDA_YTAU2_G12, fun g1 g2 yt yb ytau => ytau^2 * g1^2);
    (LAMBDA_YTAU2_G22, fun g1 g2 yt yb ytau => ytau^2 * g2^2);
    (LAMBDA_G14, fun g1 g2 yt yb ytau => g1^4);
    (LAMBDA_REG_G14, fun g1 g2 yt yb ytau => g1^4);
    (LAMBDA_CHI_G14, fun g1 g2 yt yb ytau => g1^4);
    (LAMBDA_G24, fun g1 g2 yt yb ytau => g2^4);
    (LAMBDA_REG_G24, fun g1 g2 yt yb ytau => g2^4);
    (LAMBDA_CHI_G24, fun g1 g2 yt yb ytau => g2^4);
    (LAMBDA_G12_G22, fun g1 g2 yt yb ytau => g1^2 * g2^2);
    (LAMBDA_REG_G12_G22, fun g1 g2 yt yb ytau => g1^2 * g2^2);
    (LAMBDA_CHI_G12_G22, fun g1 g2 yt yb ytau => g1^2 * g2^2) ].
Definition lambda_one_loop (c : TC R) (g1 g2 yt yb ytau : R) : res R :=
  fold_right (fun x acc => let '(o, f) := x in
      do a <- acc; do v <- getThresholdCorrection c o S_DRBARPRIME 1; Ok (f g1 g2 yt yb ytau * v + a))
    (Ok 0) lambda_orders.

(** ** Soft-breaking parameters under an infinitesimal one-loop SUSY-QCD step [t] = g3^2/(4 pi)^2 * dln(Q^2) *)
Definition soft_step (c : TC R) (t : R) : TC R :=
  let p := tc_p c in
  let M3 := MG p in
  let up (m : mat3 R) (x : R) := mkM3 (a00 m) (a01 m) (a02 m) (a10 m) (a11 m) (a12 m) (a20 m) (a21 m) (a22 m + x) in
  mkTC
    (mkParams (scale p) (mu p) (g1 p) (g2 p) (g3 p) (vd p) (vu p)
       (up (mq2 p) (- (16/3) * M3^2 * t)) (md2 p) (up (mu2 p) (- (16/3) * M3^2 * t)) (ml2 p) (me2 p)
       (up (Au p) (16/3 * M3 * t)) (Ad p) (Ae p) (Yu p) (Yd p) (Ye p) (M1 p) (M2 p) (M3 * (1 - 3 * t)) (MW p) (MZ p)
       (Mt p) (Mb p) (Mtau p) (MA p) (MSt p) (MSb p) (MStau p) (s2t p) (s2b p) (s2tau p)
       (theta_t p) (theta_b p) (theta_tau p) (massLimit3LThreshold p))
    (tc_msq2 c - 16/3 * M3^2 * t) (tc_xt c).
Definition value (x : res R) : R := match x with Ok v => v | Throw _ => 0 end.
(** the calculator at Q = exp(L/2), i.e. ln(Q^2) = L *)
Definition at_lnQ2 (c : TC R) (L : R) : TC R := at_scale c (exp (L / 2)).
Definition lnQ2 (c : TC R) : R := ln (scale (tc_p c) ^ 2).

(** ** Agreement of two functions of the coupling through order h^2, h = g^2 *)
Definition agree_h2 (f g : R -> R) : Prop := exists K, forall h, Rabs h <= 1 -> Rabs (f h - g h) <= K * Rabs h ^ 3.

(** ** Mass limits: which of the four masses (mQ3, mU3, m3, msq) a limit declares equal *)
Definition declared (l : Z) : list (nat * nat) :=
  if (l =? MQ3_EQ_MU3)%Z then [(0, 1)]%nat
  else if (l =? MQ3_EQ_M3)%Z then [(0, 2)]%nat
  else if (l =? MU3_EQ_M3)%Z then [(1, 2)]%nat
  else if (l =? MQ3_EQ_MU3_EQ_M3)%Z then [(0, 1); (1, 2)]%nat
  else if (l =? DEGENERATE)%Z then [(0, 1); (1, 2); (2, 3)]%nat
  else [].
Definition masses {T} {N : Num T} (p : Params T) (msq2 : T) : list T :=
  [nsqrt (a22 (mq2 p)); nsqrt (a22 (mu2 p)); MG p; nsqrt msq2].
(** all declared pairs agree to 1% of the reference mass *)
Definition near (ms : list R) (l : Z) : Prop :=
  forall i j, In (i, j) (declared l) ->
  Rabs (nth i ms 0 - nth j ms 0) < nth (if (l =? MU3_EQ_M3)%Z then 1 else 0) ms 0 / 100.

(** The limit of f at x0 (x <> x0) is v *)
Definition tends_to (f : R -> res R) (x0 : R) (v : res R) : Prop :=
  exists l, v = Ok l /\ forall eps, 0 < eps -> exists delta, 0 < delta /\
  forall x, x <> x0 -> Rabs (x - x0) < delta -> exists y, f x = Ok y /\ Rabs (y - l) < eps.
