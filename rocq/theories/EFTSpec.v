(** * Specification of the EFT calculator properties (C34-C36, C51) *)
From Coq Require Import Reals ZArith Bool List.
From Coquelicot Require Import Coquelicot.
From Verif Require Import Num Except Params HierFormulas Thresh Threshold ThreshSpec Mh2EFT.
Import ListNotations.
Open Scope R_scope.

(** the 23 documented coupling orders (CouplingOrders.hpp) *)
Definition all_orders : list cord :=
  [G12G22; G14; G24; G12YB2; G22YB2; YB4; G12YTAU2; G22YTAU2; YTAU4; G12YT2; G22YT2; YT4; G32YB4; YB6; YT6;
   YTAU2YB4; YTAU2YT4; YTAU6; YT2YB4; G32YT4; YB2YT4; YTAU4YB2; ONLY_AT_AS].
(** flags with exactly one order switched on *)
Definition only (k : cord) : cord -> Z := fun o => if cord_eqb o k then 1%Z else 0%Z.
(** the sum of [r k] over the orders whose flag is not 0 *)
Definition sum_enabled (o : cord -> Z) (r : cord -> R) : R :=
  fold_right (fun k s => (if (o k =? 0)%Z then 0 else r k) + s) 0 all_orders.
(** the couplings are numbers *)
Definition couplings_defined (p : Params PR) : Prop :=
  (exists g1' g2' g3' Mt' Mb' Mtau' vu' vd', g1 p = Some g1' /\ g2 p = Some g2' /\ g3 p = Some g3' /\ Mt p = Some Mt' /\
    Mb p = Some Mb' /\ Mtau p = Some Mtau' /\ vu p = Some vu' /\ vd p = Some vd' /\ vu' <> 0 /\ vd' <> 0).

(** ** One-loop SUSY-QCD running of the parameters of the O(at), O(at as) corrections,
    [t] = g3^2/(4 pi)^2 * dln(Q^2): third-generation squark masses, A_t, gluino mass (as in ThreshSpec.soft_step)
    and the top mass, d ln(Mt) / d ln(Q) = -16/3 g3^2/(4 pi)^2.  The scale argument itself is varied separately. *)
Definition qcd_step (p : Params R) (t : R) : Params R :=
  let M3 := MG p in
  let up (m : mat3 R) (x : R) := mkM3 (a00 m) (a01 m) (a02 m) (a10 m) (a11 m) (a12 m) (a20 m) (a21 m) (a22 m + x) in
  mkParams (scale p) (mu p) (g1 p) (g2 p) (g3 p) (vd p) (vu p)
    (up (mq2 p) (- (16/3) * M3^2 * t)) (md2 p) (up (mu2 p) (- (16/3) * M3^2 * t)) (ml2 p) (me2 p)
    (up (Au p) (16/3 * M3 * t)) (Ad p) (Ae p) (Yu p) (Yd p) (Ye p) (M1 p) (M2 p) (M3 * (1 - 3 * t)) (MW p) (MZ p)
    (Mt p * (1 - 8/3 * t)) (Mb p) (Mtau p) (MA p) (MSt p) (MSb p) (MStau p) (s2t p) (s2b p) (s2tau p)
    (theta_t p) (theta_b p) (theta_tau p) (massLimit3LThreshold p).
(** a valid parameter point with positive masses whose stop and gluino mass parameters differ pairwise by more than 1% *)
Definition eft_point (p : Params R) : Prop :=
  (forall m, In m [mq2 p; md2 p; mu2 p; ml2 p; me2 p] ->
     0 <= a00 m /\ 0 <= a01 m /\ 0 <= a02 m /\ 0 <= a10 m /\ 0 <= a11 m /\ 0 <= a12 m /\ 0 <= a20 m /\ 0 <= a21 m /\ 0 <= a22 m) /\
  0 < a22 (mq2 p) /\ 0 < a22 (mu2 p) /\ 0 < MG p /\ 0 < scale p /\ 0 < Mt p /\ 0 < vu p /\ 0 < vd p /\
  0 < v0 (MSt p) /\ 0 < v1 (MSt p) /\ massLimit3LThreshold p = GENERAL /\
  / 100000000 < Rabs (a22 (mq2 p) - a22 (mu2 p)) /\
  (let q := sqrt (a22 (mq2 p)) in let u := sqrt (a22 (mu2 p)) in let g := MG p in
   q / 100 < Rabs (q - u) /\ q / 100 < Rabs (q - g) /\ u / 100 < Rabs (u - g)).
