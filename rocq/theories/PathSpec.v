(** * Specification for C30: limits, and paths along which masses coincide *)
From Coq Require Import Reals Lra ZArith List.
From Verif Require Import Num NumFacts Except Params Thresh Threshold ThreshSpec.
Import ListNotations.
Open Scope R_scope.

(** f(x) -> v for x -> x0, x <> x0 *)
Definition Lim (f : R -> R) (x0 v : R) : Prop :=
  forall eps, 0 < eps -> exists delta, 0 < delta /\ forall x, x <> x0 -> Rabs (x - x0) < delta -> Rabs (f x - v) < eps.

(** the calculator with the masses (mQ3, mU3, m3, msq); all other parameters, and the limit, are kept *)
Definition with_a22 (m : mat3 R) (x : R) : mat3 R := mkM3 (a00 m) (a01 m) (a02 m) (a10 m) (a11 m) (a12 m) (a20 m) (a21 m) x.
Definition at_masses (c : TC R) (ms : R * R * R * R) : TC R :=
  let '(mQ, mU, m3, msq) := ms in let p := tc_p c in
  mkTC (mkParams (scale p) (mu p) (g1 p) (g2 p) (g3 p) (vd p) (vu p) (with_a22 (mq2 p) (mQ * mQ)) (md2 p) (with_a22 (mu2 p) (mU * mU)) (ml2 p) (me2 p)
      (Au p) (Ad p) (Ae p) (Yu p) (Yd p) (Ye p) (M1 p) (M2 p) m3 (MW p) (MZ p) (Mt p) (Mb p) (Mtau p) (MA p)
      (MSt p) (MSb p) (MStau p) (s2t p) (s2b p) (s2tau p) (theta_t p) (theta_b p) (theta_tau p) (massLimit3LThreshold p)) (msq * msq) (tc_xt c).

(** A mass, or a pair of equal masses, approaches another mass; [approaches l l' path m0]: for m -> m0 the masses [path m]
    approach a point at which the masses declared equal by the limit l' coincide, while before only those of l do. *)
Inductive approaches : Z -> Z -> (R -> R * R * R * R) -> R -> Prop :=
  | mU_to_mQ mQ m3 msq : 0 < mQ -> 0 < m3 -> 0 < msq -> m3 <> mQ -> approaches GENERAL MQ3_EQ_MU3 (fun mU => (mQ, mU, m3, msq)) mQ
  | m3_to_mQ mQ mU msq : 0 < mQ -> 0 < mU -> 0 < msq -> mU <> mQ -> msq <> mQ -> approaches GENERAL MQ3_EQ_M3 (fun m3 => (mQ, mU, m3, msq)) mQ
  | m3_to_mU mQ mU msq : 0 < mQ -> 0 < mU -> 0 < msq -> mQ <> mU -> msq <> mU -> approaches GENERAL MU3_EQ_M3 (fun m3 => (mQ, mU, m3, msq)) mU
  | m3_to_both mQ msq : 0 < mQ -> 0 < msq -> msq <> mQ -> approaches MQ3_EQ_MU3 MQ3_EQ_MU3_EQ_M3 (fun m3 => (mQ, mQ, m3, msq)) mQ
  | mU_to_both mQ msq : 0 < mQ -> 0 < msq -> msq <> mQ -> approaches MQ3_EQ_M3 MQ3_EQ_MU3_EQ_M3 (fun mU => (mQ, mU, mQ, msq)) mQ
  | both_to_mQ mQ msq : 0 < mQ -> 0 < msq -> msq <> mQ -> approaches MU3_EQ_M3 MQ3_EQ_MU3_EQ_M3 (fun m => (mQ, m, m, msq)) mQ
  | msq_to_all mQ : 0 < mQ -> approaches MQ3_EQ_MU3_EQ_M3 DEGENERATE (fun msq => (mQ, mQ, mQ, msq)) mQ.

(** the limit of a result: no exception on the path and at the end point, and the values converge *)
Definition converges (f : R -> res R) (x0 : R) (v : res R) : Prop := exists g w, (forall x, f x = Ok (g x)) /\ v = Ok w /\ Lim g x0 w.
Lemma nsqrt_sq m : 0 < m -> @nsqrt R NumR (m * m) = m.
Proof. intros H. apply sqrt_square. lra. Qed.
