(** * Polynomial data of the Taylor windows (proof data, checked in LoopProofs.v) *)
From Coq Require Import Reals QArith Qreals List Bool Lra Lia ZArith.
From Verif Require Import Taylor.
Import ListNotations.
Open Scope R_scope.

(** polynomial building blocks *)
Definition X1 : poly := [1; 1]%Q.          (* 1 + t *)
Definition Y2 : poly := [2; 1]%Q.          (* 2 + t *)
Fixpoint pprod (l : list poly) : poly := match l with [] => [1%Q] | p :: q => pmul p (pprod q) end.
Lemma pev_prod_cons p l t : pev (pprod (p :: l)) t = pev p t * pev (pprod l) t.
Proof. apply pev_mul. Qed.
Lemma pev_prod_nil t : pev (pprod []) t = 1.
Proof. cbn. rewrite Q2R_1'. ring. Qed.

Definition wF1 := {| wA := []; wB := pprod [[2]%Q; X1]; wD := Y2; wm := 1;
  wP := [1; 0; -1#6; 1#6; -2#15]%Q; wk := 5; wr := 1#100; wC := 1#8 |}.
Definition wF3 := {| wA := pprod [[-10]%Q; X1; [0; 2; 1]%Q]; wB := pprod [[4]%Q; X1; [5; 8; 4]%Q]; wD := pprod [[3]%Q; Y2; Y2]; wm := 2;
  wP := [1; 5#9; -4#9; 2#9; -7#90]%Q; wk := 5; wr := 1#100; wC := 1#20 |}.
Definition wF4 := {| wA := pprod [[2]%Q; X1; [0; 2; 1]%Q]; wB := pprod [[-4]%Q; X1]; wD := pprod [Y2; Y2]; wm := 2;
  wP := [1; -1#3; 0; 2#15; -1#6]%Q; wk := 5; wr := 1#100; wC := 1#5 |}.
Definition wF5 := {| wA := pprod [[-3]%Q; X1; [0; 4; 6; 4; 1]%Q]; wB := pprod [[12]%Q; X1; X1; X1]; wD := pprod [[-1]%Q; Y2; Y2; Y2]; wm := 3;
  wP := [1; 0; -3#10; 3#10; -3#14]%Q; wk := 5; wr := 1#100; wC := 1#5 |}.
Definition wF2 := {| wA := pprod [[0; -12]%Q; X1]; wB := pprod [[6]%Q; X1; Y2]; wD := [1]%Q; wm := 3;
  wP := [1; 0; -1#10; 1#10; -3#35]%Q; wk := 5; wr := 201#10000; wC := 3#5 |}.
Definition wF6g (c : Q) (k : nat) := {| wA := [0; 2; -1]%Q; wB := [-2; 0; 2]%Q; wD := [4]%Q; wm := 2;
  wP := [0; 1#3; -1#8; 1#15; c]%Q; wk := k; wr := 1#100; wC := 1#10 |}.
Definition wF7 := {| wA := pprod [[0; -3]%Q; [-4; -4; 1]%Q]; wB := pprod [[6]%Q; X1; X1; [-2; 1]%Q]; wD := [2]%Q; wm := 3;
  wP := [1; 3#2; -9#20; 1#5; -3#28]%Q; wk := 5; wr := 1#100; wC := 1#5 |}.
Definition wf1 := {| wA := pprod [[0; 6]%Q; [4; 1]%Q; X1]; wB := pprod [[6]%Q; [-4; 1]%Q; X1; X1]; wD := [7]%Q; wm := 3;
  wP := [1; 4#7; -13#70; 3#35; -23#490]%Q; wk := 5; wr := 201#10000; wC := 1#5 |}.
Definition wf2 := {| wA := pprod [[0; 2]%Q; [12; 1]%Q; X1]; wB := pprod [[2]%Q; [-12; 5]%Q; X1; X1]; wD := [9]%Q; wm := 3;
  wP := [1; 16#27; -49#270; 11#135; -83#1890]%Q; wk := 5; wr := 201#10000; wC := 3#20 |}.
Definition wf3 := {| wA := pprod [[0; 2]%Q; [12; 11; 1]%Q]; wB := pprod [[2]%Q; [-12; -5; 1]%Q; X1]; wD := [3]%Q; wm := 3;
  wP := [1; 2#9; 1#90; -2#45; 29#630]%Q; wk := 5; wr := 201#10000; wC := 2#5 |}.
Definition wf4 := {| wA := pprod [[0; 2]%Q; [36; 35; 5]%Q]; wB := pprod [[2]%Q; [-36; -17; 1]%Q; X1]; wD := [7]%Q; wm := 3;
  wP := [1; 2#21; 13#210; -8#105; 101#1470]%Q; wk := 5; wr := 201#10000; wC := 13#25 |}.

(** two-argument functions: the function whose divided difference they are *)
Definition wG8 := {| wA := []; wB := pprod [X1; X1]; wD := [1]%Q; wm := 1;
  wP := [1; 3#2; 1#3; -1#12; 1#30; -1#60]%Q; wk := 6; wr := 201#10000; wC := 1#10 |}.
Definition wG9 := {| wA := []; wB := X1; wD := [1]%Q; wm := 1;
  wP := [1; 1#2; -1#6; 1#12; -1#20; 1#30]%Q; wk := 6; wr := 201#10000; wC := 1#10 |}.
Definition Dq : poly := pprod [[0;1]%Q; Y2].    (* r^2 - 1 *)
Definition wg5 := {| wA := padd (pprod [[-1]%Q; X1; Dq; Dq]) (pprod [[-2]%Q; X1; Dq]); wB := pprod [[2]%Q; X1; X1; X1; [2;2;1]%Q]; wD := pprod [Y2; Y2]; wm := 2;
  wP := [1; 4#3; 1#2; 1#30; -1#15; 3#70]%Q; wk := 6; wr := 1#100; wC := 1#20 |}.
Definition wg6 := {| wA := padd (pprod [[-1]%Q; X1; Dq; Dq]) (pprod [[-1]%Q; X1; Dq]); wB := pprod [[2]%Q; X1; X1; X1; X1; X1]; wD := pprod [Y2; Y2]; wm := 2;
  wP := [1#2; 7#6; 2#3; -1#15; -1#60; 3#140]%Q; wk := 6; wr := 2#100; wC := 1#20 |}.
Definition wg7 := {| wA := pprod [[-1]%Q; X1; Dq]; wB := pprod [[2]%Q; X1; X1; X1]; wD := pprod [Y2; Y2]; wm := 2;
  wP := [1#2; 1#6; -1#6; 1#10; -1#20; 3#140]%Q; wk := 6; wr := 2#100; wC := 1#25 |}.
Definition wg8 := {| wA := pprod [[-1]%Q; Dq]; wB := pprod [[2]%Q; X1; X1; X1; X1]; wD := pprod [Y2; Y2]; wm := 2;
  wP := [3#2; 2#3; 0; -1#15; 1#20; -1#35]%Q; wk := 6; wr := 1#100; wC := 1#20 |}.
