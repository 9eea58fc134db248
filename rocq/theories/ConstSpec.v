(** * C47: what it means for a literal of Constants.hpp to be accurate (specification) *)
From Coq Require Import ZArith Reals Floats.SpecFloat.
From Verif Require Import Num.
Local Open Scope R_scope.

(** the real number denoted by a finite double *)
Definition f64_value (x : F64) : R :=
  match x with
  | S754_finite s m e => (if s then -1 else 1) * IZR (Zpos m) * powerRZ 2 e
  | _ => 0
  end.
(** [x] is one of the doubles nearest to the real number [r] (no finite double is closer) *)
Definition nearest_double (r : R) (x : F64) : Prop :=
  F64isfin x = true /\
  forall y : F64, valid_binary f64_prec f64_emax y = true -> F64isfin y = true ->
    Rabs (r - f64_value x) <= Rabs (r - f64_value y).
(** the decimal literal m/10^k agrees with [r] to its last printed digit (half a unit) *)
Definition to_last_digit (r : R) (m k : Z) : Prop :=
  Rabs (r - IZR m / IZR (10 ^ k)) <= / 2 / IZR (10 ^ k).
(** what the doc comments of Constants.hpp:13-25 say the constants are *)
Definition zeta3_is (z : R) : Prop := infinite_sum (fun n => / INR (S n) ^ 3) z.
Definition li4_half_is (l : R) : Prop := infinite_sum (fun n => (/ 2) ^ (S n) / INR (S n) ^ 4) l.
(** Im PolyLog[2, Exp[I Pi/3]] and Im PolyLog[3, Exp[-I Pi/6]/Sqrt[3]] *)
Definition cl2_pi3_is (c : R) : Prop := infinite_sum (fun n => sin (INR (S n) * (PI / 3)) / INR (S n) ^ 2) c.
Definition im_li3_is (c : R) : Prop :=
  infinite_sum (fun n => sin (INR (S n) * (- (PI / 6))) * (/ sqrt 3) ^ (S n) / INR (S n) ^ 3) c.

(** [constant_is c r]: the doc comment of constant [c] defines the real number [r] *)
Definition constant_is (c : mathconst) (r : R) : Prop :=
  let z2 := PI ^ 2 / 6 in
  let z4 := PI ^ 4 / 90 in
  match c with
  | CPi => r = PI
  | Cz2 => r = z2
  | Cz3 => zeta3_is r
  | Cz4 => r = z4
  | Csqrt2 => r = sqrt 2
  | Csqrt3 => r = sqrt 3
  | Csqrt15 => r = sqrt 15
  | Csqrt35 => r = sqrt (3 / 5)
  | Cinv_sqrt2 => r = 1 / sqrt 2
  | Clog2 => r = ln 2
  | ConeLoop => r = 1 / (4 * PI) ^ 2
  | CtwoLoop => r = 1 / (4 * PI) ^ 4
  | CthreeLoop => r = 1 / (4 * PI) ^ 6
  | CB4 => exists l4, li4_half_is l4 /\ r = -4 * z2 * ln 2 ^ 2 + 2 / 3 * ln 2 ^ 4 - 13 / 2 * z4 + 16 * l4
  | CD3 => exists z3 c2, zeta3_is z3 /\ cl2_pi3_is c2 /\ r = 6 * z3 - 15 / 4 * z4 - 6 * c2 ^ 2
  | CDN => exists z3 l4, zeta3_is z3 /\ li4_half_is l4 /\
           r = 6 * z3 - 4 * z2 * ln 2 ^ 2 + 2 / 3 * ln 2 ^ 4 - 21 / 2 * z4 + 16 * l4
  | COepS2 => exists z3 c2 i3, zeta3_is z3 /\ cl2_pi3_is c2 /\ im_li3_is i3 /\
           r = - 763 / 32 - 9 * PI * sqrt 3 * ln 3 ^ 2 / 16 - 35 * PI ^ 3 * sqrt 3 / 48 + 195 / 16 * z2
               - 15 / 4 * z3 + 57 / 16 * z4 + 45 * sqrt 3 / 2 * c2 - 27 * sqrt 3 * i3
  | CS2 => exists c2, cl2_pi3_is c2 /\ r = 4 * c2 / (9 * sqrt 3)
  | CT1ep => exists z3 c2 i3, zeta3_is z3 /\ cl2_pi3_is c2 /\ im_li3_is i3 /\
           r = - 45 / 2 - PI * sqrt 3 * ln 3 ^ 2 / 8 - 35 * PI ^ 3 * sqrt 3 / 216 - 9 / 2 * z2 + z3
               + 6 * sqrt 3 * c2 - 6 * sqrt 3 * i3
  end.
