(** * Numbers: the C++ type [double] as an interface, with three meanings.

    The library's code is written over C++ [double].  Every model function in
    this development is written once, over the class [Num] below, and can be
    read in three ways:
     - [NumR]   : exact real arithmetic (stdlib [R]); the analytic theorems use it;
     - [NumP]   : partial reals ([option R]); [None] is "not a real number": division by 0,
                  logarithm of a non-positive number, root of a negative one;
                  used to state that a formula is defined, with no totalisation trick;
     - [NumF lm]: IEEE-754 binary64 (stdlib [SpecFloat], precision 53, emax 1024,
                  round to nearest even), with the C math library [lm] as a parameter;
                  used for NaN / infinity / control-flow statements. *)
From Coq Require Import Reals ZArith Bool.
From Coq Require Import Floats.SpecFloat.

(** The named mathematical constants of source/himalaya/misc/Constants.hpp:13-31. *)
Inductive mathconst :=
  | CPi | Cz2 | Cz3 | Cz4 | Csqrt2 | Csqrt3 | Csqrt15 | Csqrt35 | Cinv_sqrt2 | Clog2
  | ConeLoop | CtwoLoop | CthreeLoop | CB4 | CD3 | CDN | COepS2 | CS2 | CT1ep.

(** The decimal literal of each constant, as mantissa and number of decimals
    (Constants.hpp:13-31). *)
Definition const_decimal (c : mathconst) : Z * Z :=
  (match c with
   | CPi => (314159265358979324, 17)
   | Cz2 => (164493406684822644, 17)
   | Cz3 => (120205690315959429, 17)
   | Cz4 => (108232323371113819, 17)
   | Csqrt2 => (141421356237309505, 17)
   | Csqrt3 => (173205080756887729, 17)
   | Csqrt15 => (387298334620741689, 17)
   | Csqrt35 => (774596669241483377, 18)
   | Cinv_sqrt2 => (707106781186547524, 18)
   | Clog2 => (693147180559945309, 18)
   | ConeLoop => (6332573977646110963, 21)
   | CtwoLoop => (4010149318236068752, 23)
   | CthreeLoop => (2539456721913701978, 25)
   | CB4 => (-17628000870737709, 16)
   | CD3 => (-30270094939876520, 16)
   | CDN => (11202483970392421, 16)
   | COepS2 => (78517428364255312, 16)
   | CS2 => (26043413763216210, 17)
   | CT1ep => (-24208928021203593, 15)
   end)%Z.

Class Num (T : Type) := {
  nadd : T -> T -> T;
  nsub : T -> T -> T;
  nmul : T -> T -> T;
  ndiv : T -> T -> T;
  nneg : T -> T;
  nabs : T -> T;             (* std::abs / std::fabs *)
  nsqrt : T -> T;            (* std::sqrt *)
  nlog : T -> T;             (* std::log *)
  nlog1p : T -> T;           (* std::log1p *)
  nsin : T -> T;
  ncos : T -> T;
  ntan : T -> T;
  natan : T -> T;
  nasin : T -> T;
  nacos : T -> T;
  npow : T -> T -> T;        (* std::pow(double,double) *)
  nfmod : T -> T -> T;       (* std::fmod *)
  nint : Z -> T;             (* conversion of an integer (literal or variable) *)
  ndec : Z -> Z -> T;        (* decimal literal: [ndec m k] is m / 10^k *)
  nconst : mathconst -> T;   (* named constants of Constants.hpp *)
  nltb : T -> T -> bool;     (* a <  b ; false if one is NaN *)
  nleb : T -> T -> bool;     (* a <= b *)
  neqb : T -> T -> bool;     (* a == b *)
  nisnan : T -> bool;        (* std::isnan *)
  nisfin : T -> bool         (* std::isfinite *)
}.

Declare Scope num_scope.
Delimit Scope num_scope with num.
Infix "+" := nadd : num_scope.
Infix "-" := nsub : num_scope.
Infix "*" := nmul : num_scope.
Infix "/" := ndiv : num_scope.
Notation "- x" := (nneg x) : num_scope.
Infix "<?" := nltb : num_scope.
Infix "<=?" := nleb : num_scope.
Infix "=?" := neqb : num_scope.
Notation "x >? y" := (nltb y x) (at level 70, no associativity) : num_scope.
Notation "x >=? y" := (nleb y x) (at level 70, no associativity) : num_scope.
Notation "# z" := (nint z) (at level 1, z constr at level 0, format "# z") : num_scope.

(** source/himalaya/misc/Powers.hpp:13-31 (same association of the products). *)
Section Powers.
  Context {T : Type} {N : Num T}.
  Open Scope num_scope.
  Definition pow2 (x : T) : T := x * x.
  Definition pow3 (x : T) : T := x * x * x.
  Definition pow4 (x : T) : T := pow2 (pow2 x).
  Definition pow5 (x : T) : T := pow4 x * x.
  Definition pow6 (x : T) : T := pow2 (pow2 x * x).
  Definition pow7 (x : T) : T := pow6 x * x.
  Definition pow8 (x : T) : T := pow2 (pow4 x).
  Definition pow9 (x : T) : T := pow8 x * x.
  Definition power10 (x : T) : T := pow2 (pow5 x).
  Definition pow11 (x : T) : T := power10 x * x.
  Definition pow12 (x : T) : T := pow2 (pow6 x).
  Definition pow13 (x : T) : T := pow4 x * pow9 x.
  Definition pow14 (x : T) : T := pow2 (pow7 x).
  Definition pow15 (x : T) : T := pow6 x * pow9 x.
  Definition pow16 (x : T) : T := pow2 (pow8 x).
  Definition pow17 (x : T) : T := pow16 x * x.
  Definition pow18 (x : T) : T := pow2 (pow9 x).
  Definition pow19 (x : T) : T := pow18 x * x.
  Definition pow20 (x : T) : T := pow2 (power10 x).
End Powers.

(** source/himalaya/misc/Numerics.hpp:17-66.  [prec] is explicit: the C++ default is
    std::numeric_limits<double>::epsilon() = 2^-52, here [eps_default]. *)
Section Numerics.
  Context {T : Type} {N : Num T}.
  Open Scope num_scope.
  (** 2^-52, exact also as a quotient of two integers in binary64 *)
  Definition eps_default : T := #1 / #4503599627370496.
  Definition dabs (a : T) : T := if a >=? #0 then a else - a.
  Definition is_zero (a prec : T) : bool := dabs a <=? prec.
  Definition is_equal (a b prec : T) : bool := is_zero (a - b) prec.
  (** std::min(a,b) returns b if b < a, else a; std::max(a,b) returns b if a < b, else a *)
  Definition stdmin (a b : T) : T := if b <? a then b else a.
  Definition stdmax (a b : T) : T := if a <? b then b else a.
  Definition is_equal_rel (a b prec : T) : bool :=
    if is_equal a b eps_default then true
    else
      let mn := stdmin (dabs a) (dabs b) in
      if mn <? eps_default then is_equal a b prec
      else
        let mx := stdmax (dabs a) (dabs b) in
        is_equal a b (prec * mx).
  Definition is_close (a b prec : T) : bool :=
    let mx := stdmax (dabs a) (dabs b) in
    is_zero (a - b) (prec * (#1 + mx)).
End Numerics.

(** ** Reading 1: exact reals *)
Definition Rltb (a b : R) : bool := if Rlt_dec a b then true else false.
Definition Rleb (a b : R) : bool := if Rle_dec a b then true else false.
Definition Reqb (a b : R) : bool := if Req_EM_T a b then true else false.

Definition Rdec (m k : Z) : R := (IZR m / IZR (Z.pow 10 k))%R.

(** Meaning of the named constants in the exact-real reading: the number given in the
    doc comment of Constants.hpp:13-25 where it has an elementary closed form, the decimal literal
    otherwise (z3, B4, D3, DN, OepS2, S2, T1ep).  SIMPLIFICATION: the code uses the decimal
    literal for all of them; that the literals are accurate is proved in PropConst.v (C47). *)
Definition Rconst (c : mathconst) : R :=
  (match c with
   | CPi => PI
   | Cz2 => PI * PI / 6
   | Cz4 => PI * PI * PI * PI / 90
   | Csqrt2 => sqrt 2
   | Csqrt3 => sqrt 3
   | Csqrt15 => sqrt 15
   | Csqrt35 => sqrt (3 / 5)
   | Cinv_sqrt2 => 1 / sqrt 2
   | Clog2 => ln 2
   | ConeLoop => 1 / ((4 * PI) * (4 * PI))
   | CtwoLoop => 1 / ((4 * PI) * (4 * PI) * ((4 * PI) * (4 * PI)))
   | CthreeLoop => 1 / ((4 * PI) * (4 * PI) * ((4 * PI) * (4 * PI)) * ((4 * PI) * (4 * PI)))
   | Cz3 | CB4 | CD3 | CDN | COepS2 | CS2 | CT1ep =>
       let '(m, k) := const_decimal c in Rdec m k
   end)%R.

(** std::fmod: x - n*y, n = x/y rounded towards 0 *)
Definition Rtrunc (x : R) : Z := if Rle_dec 0 x then Int_part x else (- Int_part (- x))%Z.
Definition Rfmod (x y : R) : R := (x - IZR (Rtrunc (x / y)) * y)%R.

#[export] Instance NumR : Num R := {
  nadd := Rplus; nsub := Rminus; nmul := Rmult; ndiv := Rdiv; nneg := Ropp;
  nabs := Rabs; nsqrt := sqrt; nlog := ln; nlog1p := fun x => ln (1 + x);
  nsin := sin; ncos := cos; ntan := tan; natan := atan; nasin := asin; nacos := acos;
  npow := Rpower; nfmod := Rfmod; nint := IZR; ndec := Rdec; nconst := Rconst;
  nltb := Rltb; nleb := Rleb; neqb := Reqb;
  nisnan := fun _ => false; nisfin := fun _ => true
}.

(** ** Reading 2: partial reals *)
Definition PR := option R.
Definition p1 (f : R -> R) (a : PR) : PR := option_map f a.
Definition p2 (f : R -> R -> R) (a b : PR) : PR :=
  match a, b with Some x, Some y => Some (f x y) | _, _ => None end.
Definition pguard (c : R -> bool) (f : R -> R) (a : PR) : PR :=
  match a with Some x => if c x then Some (f x) else None | None => None end.
Definition pcmp (f : R -> R -> bool) (a b : PR) : bool :=
  match a, b with Some x, Some y => f x y | _, _ => false end.
Definition pdiv (a b : PR) : PR :=
  match a, b with
  | Some x, Some y => if Reqb y 0 then None else Some (x / y)%R
  | _, _ => None
  end.

#[export] Instance NumP : Num PR := {
  nadd := p2 Rplus; nsub := p2 Rminus; nmul := p2 Rmult; ndiv := pdiv; nneg := p1 Ropp;
  nabs := p1 Rabs;
  nsqrt := pguard (fun x => Rleb 0 x) sqrt;
  nlog := pguard (fun x => Rltb 0 x) ln;
  nlog1p := pguard (fun x => Rltb (-1) x) (fun x => ln (1 + x));
  nsin := p1 sin; ncos := p1 cos;
  ntan := pguard (fun x => negb (Reqb (cos x) 0)) tan;
  natan := p1 atan;
  nasin := pguard (fun x => Rleb (-1) x && Rleb x 1) asin;
  nacos := pguard (fun x => Rleb (-1) x && Rleb x 1) acos;
  npow := fun a b => match a, b with
                     | Some x, Some y => if Rltb 0 x then Some (Rpower x y) else None
                     | _, _ => None end;
  nfmod := fun a b => match a, b with
                     | Some x, Some y => if Reqb y 0 then None else Some (Rfmod x y)
                     | _, _ => None end;
  nint := fun z => Some (IZR z); ndec := fun m k => Some (Rdec m k);
  nconst := fun c => Some (Rconst c);
  nltb := pcmp Rltb; nleb := pcmp Rleb; neqb := pcmp Reqb;
  nisnan := fun a => match a with Some _ => false | None => true end;
  nisfin := fun a => match a with Some _ => true | None => false end
}.

(** ** Reading 3: IEEE-754 binary64 *)
Definition F64 := spec_float.
Definition f64_prec : Z := 53.
Definition f64_emax : Z := 1024.
(** correctly rounded quotient of two integers: used for decimal literals *)
Definition F64frac (n : Z) (d : positive) : F64 :=
  match n with
  | Z0 => S754_zero false
  | Zpos p => let '(q, e, l) := SFdiv_core_binary f64_prec f64_emax (Zpos p) 0 (Zpos d) 0 in
              binary_round_aux f64_prec f64_emax false q e l
  | Zneg p => let '(q, e, l) := SFdiv_core_binary f64_prec f64_emax (Zpos p) 0 (Zpos d) 0 in
              binary_round_aux f64_prec f64_emax true q e l
  end.
Definition F64int (z : Z) : F64 := F64frac z 1.
Definition F64dec (m k : Z) : F64 :=
  F64frac m (Z.to_pos (Z.pow 10 k)).
Definition F64isnan (x : F64) : bool := match x with S754_nan => true | _ => false end.
Definition F64isfin (x : F64) : bool :=
  match x with S754_zero _ | S754_finite _ _ _ => true | _ => false end.
Definition F64inf : F64 := S754_infinity false.
Definition F64ninf : F64 := S754_infinity true.

(** The C math library: unspecified functions on binary64 ... *)
Record Libm := {
  lm_log : F64 -> F64; lm_log1p : F64 -> F64; lm_sin : F64 -> F64; lm_cos : F64 -> F64;
  lm_tan : F64 -> F64; lm_atan : F64 -> F64; lm_asin : F64 -> F64; lm_acos : F64 -> F64;
  lm_pow : F64 -> F64 -> F64; lm_fmod : F64 -> F64 -> F64
}.
(** ... that satisfy the special-case rules of C11 Annex F used here (F.10.3.7 for log,
    NaN in - NaN out for the rest). *)
Record libm_ok (lm : Libm) : Prop := {
  lm_log_zero : forall s, lm_log lm (S754_zero s) = F64ninf;
  lm_log_neg  : forall m e, lm_log lm (S754_finite true m e) = S754_nan;
  lm_log_ninf : lm_log lm F64ninf = S754_nan;
  lm_log_inf  : lm_log lm F64inf = F64inf;
  lm_log_nan  : lm_log lm S754_nan = S754_nan;
  lm_log1p_nan : lm_log1p lm S754_nan = S754_nan;
  lm_sin_nan : lm_sin lm S754_nan = S754_nan;
  lm_cos_nan : lm_cos lm S754_nan = S754_nan;
  lm_atan_nan : lm_atan lm S754_nan = S754_nan;
  lm_asin_nan : lm_asin lm S754_nan = S754_nan;
  lm_acos_nan : lm_acos lm S754_nan = S754_nan
}.

#[export] Instance NumF (lm : Libm) : Num F64 := {
  nadd := SFadd f64_prec f64_emax; nsub := SFsub f64_prec f64_emax;
  nmul := SFmul f64_prec f64_emax; ndiv := SFdiv f64_prec f64_emax;
  nneg := SFopp; nabs := SFabs; nsqrt := SFsqrt f64_prec f64_emax;
  nlog := lm_log lm; nlog1p := lm_log1p lm; nsin := lm_sin lm; ncos := lm_cos lm;
  ntan := lm_tan lm; natan := lm_atan lm; nasin := lm_asin lm; nacos := lm_acos lm;
  npow := lm_pow lm; nfmod := lm_fmod lm; nint := F64int; ndec := F64dec;
  nconst := fun c => let '(m, k) := const_decimal c in F64dec m k;
  nltb := SFltb; nleb := SFleb; neqb := SFeqb;
  nisnan := F64isnan; nisfin := F64isfin
}.
