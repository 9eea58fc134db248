(** * Polynomial data for the large-momentum series of b0xx and for d1_b0 (checked in PVProofs4.v) *)
From Coq Require Import Reals QArith Qreals List Bool Lra Lia ZArith.
From Verif Require Import Taylor LoopWindows.
Import ListNotations.
(** t = -u, d = u (1-u) = -t (1+t) *)
Definition dpol : poly := [0; -1; -1]%Q.
Fixpoint phorner (l : list Q) (x : poly) : poly := match l with [] => [] | c :: l' => padd [c] (pmul x (phorner l' x)) end.
Lemma pev_phorner l x t : pev (phorner l x) t = pev l (pev x t).
Proof.
  induction l as [|c l IH]; [reflexivity|]. cbn [phorner]. rewrite pev_add, pev_mul, IH. cbn [pev]. ring.
Qed.
Definition xxA : list Q := [0; 2; -1; -10#3; -59#6; -449#15; -1417#15; -32254#105; -429697#420]%Q.
Definition xxB : list Q := [0; -2; -2; -4; -10; -28; -84; -264; -858]%Q.
(** A(d) + (B(d) + 2 - 2u) ln(1-u) *)
Definition wxx := {| wA := phorner xxA dpol; wB := padd (phorner xxB dpol) [2; 2]%Q; wD := [1]%Q; wm := 0;
  wP := []; wk := 9; wr := 11#1000; wC := 20000 |}.
(** B(d) + 2u *)
Definition xxB2u : poly := padd (phorner xxB dpol) [0; -2]%Q.
(** d1_b0: r = m22/m12 = 1 + t *)
Definition wd1 := {| wA := [0; -2; -1]%Q; wB := [2; 2]%Q; wD := [-2]%Q; wm := 3;
  wP := [1#6; -1#12; 1#20; -1#30; 1#42; -1#56]%Q; wk := 6; wr := 1#20; wC := 1#5 |}.
