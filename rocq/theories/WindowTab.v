(** * Special-case branches of the two-argument loop functions: tables and checks
    The branches of LoopFun.v evaluated on expressions (FieldNF.v) minus the closed forms of LoopSpec.v.  Proof tool only, nothing here models code. *)
From Coq Require Import Reals ZArith List Bool.
From Verif Require Import Num NumFacts HierExpr HierPoly FieldPoly FieldNF MirrorNF LoopFun WindowNF.
Import ListNotations.
Local Open Scope num_scope.

Definition xa := XV 1%positive. Definition xb := XV 2%positive.
Definition x2 (x : rx) := x * (x * #1). Definition x3 (x : rx) := x * (x * (x * #1)).
Definition x4 (x : rx) := x * (x * (x * (x * #1))). Definition x5 (x : rx) := x * (x * (x * (x * (x * #1)))).
(** the closed forms *)
Definition F8x a b := #(-2) + #2 / (x2 a - x2 b) * (x4 a / (x2 a - #1) * nlog (x2 a) - x4 b / (x2 b - #1) * nlog (x2 b)).
Definition F9x a b := #2 / (x2 a - x2 b) * (x2 a / (x2 a - #1) * nlog (x2 a) - x2 b / (x2 b - #1) * nlog (x2 b)).
Definition f5x a b := #3 / #4 * ((#1 + x2 (a + b) - x2 a * x2 b) / ((x2 a - #1) * (x2 b - #1)) + x3 a * (x2 a + #1) * nlog (x2 a) / (x2 (x2 a - #1) * (a - b))
  - x3 b * (x2 b + #1) * nlog (x2 b) / ((a - b) * x2 (x2 b - #1))).
Definition f6x a b := #6 / #7 * ((x2 a + x2 b + a * b - x2 a * x2 b) / ((x2 a - #1) * (x2 b - #1)) + x5 a * nlog (x2 a) / (x2 (x2 a - #1) * (a - b))
  - x5 b * nlog (x2 b) / ((a - b) * x2 (x2 b - #1))).
Definition f7x a b := #6 * ((#1 + a * b) / ((x2 a - #1) * (x2 b - #1)) + x3 a * nlog (x2 a) / (x2 (x2 a - #1) * (a - b))
  - x3 b * nlog (x2 b) / ((a - b) * x2 (x2 b - #1))).
Definition f8x a b := #3 / #2 * ((a + b) / ((x2 a - #1) * (x2 b - #1)) + x4 a * nlog (x2 a) / (x2 (x2 a - #1) * (a - b))
  - x4 b * nlog (x2 b) / ((a - b) * x2 (x2 b - #1))).

Definition sq (x : lp) : lp := lmul x x.
Definition cz (z : Z) : lp := cst z.
Definition lm2 (x y : lp) : list (positive * lp) := [(1%positive, x); (2%positive, y)].
Definition inl (l : list positive) (v : positive) : bool := existsb (Pos.eqb v) l || (Pos.leb 102 v && Pos.leb v 149).

(** r1 = r2 + d *)
Definition r1A := Eval vm_compute in pl lR lD.
Definition dsA := Eval vm_compute in map fst [mi lR one; pl lR one; mi (sq lR) one; mi (sq r1A) one; pl (ti (cz 2) lR) lD].
Definition lgA := Eval vm_compute in
  [(sq lR, V 1); (sq r1A, pl (pl (V 1) (lnser (lmul lD (mon vr_ (-1)%Z)) 7%nat)) (lmul (mon vd_ 2%Z) (V 3)))]%positive.
Definition eA := envw (lm2 r1A lR) dsA lgA.
Definition wtA (v : positive) : Z := match v with 151%positive => 1 | 3%positive => 6 | _ => 0 end%Z.
Definition lbA := inl [151; 152]%positive.
(** r1 = 1 + d *)
Definition r1B := Eval vm_compute in pl one lD.
Definition dsB := Eval vm_compute in map fst [mi (sq lR) one; mi lR one; pl lR one; pl (cz 2) lD; mi (pl one lD) lR; mi (sq (pl one lD)) (sq lR)].
Definition lgB := Eval vm_compute in [(sq lR, V 1); (sq r1B, pl (lnser lD 7%nat) (lmul (mon vd_ 2%Z) (V 3)))]%positive.
Definition eB := envw (lm2 r1B lR) dsB lgB.
(** r1 = d *)
Definition dsC := Eval vm_compute in map fst [mi (sq lR) one; mi (sq lD) one; mi lD lR; mi (sq lD) (sq lR)].
Definition lgC := Eval vm_compute in [(sq lR, V 1); (sq lD, V 2)]%positive.
Definition eC := envw (lm2 lD lR) dsC lgC.
Definition wtC (v : positive) : Z := match v with 151%positive => 2 | 2%positive => -1 | _ => 0 end%Z.
(** r1 = d, r2 = 1 + e *)
Definition r2D := Eval vm_compute in pl one lR.
Definition dsD := Eval vm_compute in map fst [pl lR (cz 2); mi (sq lD) one; mi lD r2D; mi (sq lD) (sq r2D)].
Definition lgD := Eval vm_compute in [(sq r2D, pl (lnser lR 7%nat) (lmul (mon vr_ 2%Z) (V 3))); (sq lD, lmul (mon vd_ (-1)%Z) (V 2))]%positive.
Definition eD := envw (lm2 lD r2D) dsD lgD.
Definition wtD (v : positive) : Z := match v with 151%positive => 2 | 152%positive => 2 | 2%positive => 1 | 3%positive => 12 | _ => 0 end%Z.
Definition lbD := inl [].
(** both small *)
Definition dsE := Eval vm_compute in map fst [mi (sq lR) one; mi (sq lD) one; mi lD lR; pl lD lR; mi (sq lD) (sq lR)].
Definition lgE := Eval vm_compute in [(sq lR, V 1); (sq lD, lmul (mon vd_ (-1)%Z) (V 2)); (lR, lmul (qz 1%Z 2) (V 1))]%positive.
Definition lgE' := Eval vm_compute in firstn 2 lgE.
Definition eE := envw (lm2 lD lR) dsE lgE. Definition eE' := envw (lm2 lD lR) dsE lgE'.
Definition wtE (v : positive) : Z :=
  match v with 151%positive => 2 | 152%positive => 2 | 104%positive => 2 | 105%positive => 2 | 106%positive => 4 | 2%positive => 1 | 1%positive => -1 | _ => 0 end%Z.
Definition lbE := inl [152]%positive.

(** branches inside the functions *)
Definition F8w01 {T} {N : Num T} (a b : T) : T := let x22 := pow2 a in let d := (b - #1) * (b + #1) in #2 * x22 + d * (#1 - x22 + d * (#(-1) / #3 + #2 / #3 * x22)).
Definition f5w01 {T} {N : Num T} (a b : T) : T := let d := b - #1 in ndec 75%Z 2%Z * (#1 + d * (#1 / #3 + d / #6 + a / #3)).

(** xlogx below its threshold *)
Definition f7w0 {T} {N : Num T} (a b : T) : T := let r12 := pow2 a in let r22 := pow2 b in let lr22 := nlog r22 in let r12lr12 := #0 in
    #6 * (r22 * (#1 + (#(-1) + lr22) * r22) + a * (b * (- r12lr12 + r22 * (#1 + lr22 + #2 * r12lr12 +
      (#(-1) - r12lr12) * r22)) + a * (- r12lr12 + r22 * (#1 + lr22 + #2 * r12lr12 + (#(-1) - r12lr12) *
      r22) + a * (a * (lr22 + r22 * (#1 - r22)) + b * (lr22 + r22 * (#1 - r22)))))) / (r22 * pow2
      (#(-1) + r22)).
Definition f8w0 {T} {N : Num T} (a b : T) : T := let r12 := pow2 a in let r22 := pow2 b in let lr22 := nlog r22 in let r12lr12 := #0 in
    (r22 * (#3 + (#(-3) + #3 * lr22) * r22) + a * (b * (#3 + (#(-3) + #3 * lr22) * r22) + a * (#(-3)
      * r12lr12 + r22 * (#3 + #3 * lr22 + #6 * r12lr12 + (#(-3) - #3 * r12lr12) * r22) + a * (b * (#3 +
      #3 * lr22 - #3 * r22) + a * (#3 * lr22 + r22 * (#3 - #3 * r22)))))) / (#2 * b * pow2 (#(-1) +
      r22)).
Definition chkA := forallb (fun ne => bound wtA lbA eA (fst ne) (snd ne))
  [(4%Z, F8_x1_x2 xa xb - F8x xa xb); (4%Z, F9_x1_x2 xa xb - F9x xa xb); (4%Z, f5_r1_r2 xa xb - f5x xa xb); (5%Z, f6_r1_r2 xa xb - f6x xa xb);
   (5%Z, f7_r1_r2 xa xb - f7x xa xb); (5%Z, f8_r1_r2 xa xb - f8x xa xb)].
Definition chkB := forallb (fun e => bound wtA lbA eB 5%Z e)
  [F8_1_x2 xa xb - F8x xa xb; F9_1_x2 xa xb - F9x xa xb; f5_1_r2 xa xb - f5x xa xb; f6_1_r2 xa xb - f6x xa xb; f7_1_r2 xa xb - f7x xa xb; f8_1_r2 xa xb - f8x xa xb].
Definition chkC := forallb (fun ne => bound wtC lbA eC (fst ne) (snd ne))
  [(7%Z, F8_0_x2 xa xb - F8x xa xb); (3%Z, F9_0_x2 xa xb - F9x xa xb); (5%Z, f5_0_r2 xa xb - f5x xa xb); (9%Z, f6_0_r2 xa xb - f6x xa xb);
   (9%Z, f7_0_r2 xa xb - f7x xa xb); (9%Z, f8_0_r2 xa xb - f8x xa xb); (5%Z, f7w0 xa xb - f7x xa xb); (7%Z, f8w0 xa xb - f8x xa xb)].
Definition chkD := forallb (fun ne => bound wtD lbD eD (fst ne) (snd ne))
  [(6%Z, F8w01 xa xb - F8x xa xb); (5%Z, f5w01 xa xb - f5x xa xb); (9%Z, f6_0_1 xa xb - f6x xa xb); (5%Z, f7_0_1 xa xb - f7x xa xb); (7%Z, f8_0_1 xa xb - f8x xa xb)].
Definition chkE := bound wtE lbE eE 3%Z (f5_0_0 xa xb - f5x xa xb).
Definition chkE' := forallb (fun ne => bound wtE lbE eE' (fst ne) (snd ne))
  [(3%Z, F8_0_x2 xa xb - F8x xa xb); (7%Z, f6_0_0 xa xb - f6x xa xb); (3%Z, f7_0_0 xa xb - f7x xa xb); (5%Z, f8_0_0 xa xb - f8x xa xb)].
