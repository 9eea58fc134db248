(** * C++ exceptions and small containers *)
From Coq Require Import String ZArith List.
From Verif Require Import Num.

(** Outcome of a C++ call: normal return or [throw std::runtime_error(msg)]. *)
Inductive res (A : Type) := Ok (a : A) | Throw (msg : string).
Arguments Ok {A} a.
Arguments Throw {A} msg.

Definition bind {A B} (x : res A) (f : A -> res B) : res B :=
  match x with Ok a => f a | Throw m => Throw m end.
Notation "'do' x <- e ; k" := (bind e (fun x => k))
  (at level 200, x pattern, e at level 100, k at level 200, right associativity).
Definition is_ok {A} (x : res A) : bool := match x with Ok _ => true | Throw _ => false end.

(** std::array<T,4> indexed by loop order *)
Record arr4 (A : Type) := mkArr4 { e0 : A; e1 : A; e2 : A; e3 : A }.
Arguments mkArr4 {A} _ _ _ _. Arguments e0 {A}. Arguments e1 {A}. Arguments e2 {A}. Arguments e3 {A}.

(** array::at; the callers in HierarchyObject.cpp check the range first, so the
    out-of-range outcome of [at] is never reached (and is [None] here). *)
Definition arr4_at {A} (a : arr4 A) (i : Z) : option A :=
  match i with
  | Z0 => Some (e0 a) | 1%Z => Some (e1 a) | 2%Z => Some (e2 a) | 3%Z => Some (e3 a)
  | _ => None
  end.
Definition arr4_put {A} (a : arr4 A) (i : Z) (x : A) : arr4 A :=
  match i with
  | Z0 => mkArr4 x (e1 a) (e2 a) (e3 a)
  | 1%Z => mkArr4 (e0 a) x (e2 a) (e3 a)
  | 2%Z => mkArr4 (e0 a) (e1 a) x (e3 a)
  | 3%Z => mkArr4 (e0 a) (e1 a) (e2 a) x
  | _ => a
  end.
Definition arr4_const {A} (x : A) : arr4 A := mkArr4 x x x x.

(** Eigen::Vector2d and Eigen::Matrix2d *)
Record vec2 (T : Type) := mkV2 { v0 : T; v1 : T }.
Arguments mkV2 {T} _ _. Arguments v0 {T}. Arguments v1 {T}.
Record mat2 (T : Type) := mkM2 { m00 : T; m01 : T; m10 : T; m11 : T }.
Arguments mkM2 {T} _ _ _ _. Arguments m00 {T}. Arguments m01 {T}. Arguments m10 {T}. Arguments m11 {T}.

Section Mat2.
  Context {T : Type} {N : Num T}.
  Open Scope num_scope.
  Definition mat2_zero : mat2 T := mkM2 #0 #0 #0 #0.
  Definition mat2_add (a b : mat2 T) : mat2 T :=
    mkM2 (m00 a + m00 b) (m01 a + m01 b) (m10 a + m10 b) (m11 a + m11 b).
  Definition mat2_sub (a b : mat2 T) : mat2 T :=
    mkM2 (m00 a - m00 b) (m01 a - m01 b) (m10 a - m10 b) (m11 a - m11 b).
  Definition mat2_neg (a : mat2 T) : mat2 T :=
    mkM2 (- m00 a) (- m01 a) (- m10 a) (- m11 a).
  Definition mat2_scale (c : T) (a : mat2 T) : mat2 T :=
    mkM2 (c * m00 a) (c * m01 a) (c * m10 a) (c * m11 a).
End Mat2.
Definition mat2_sym {T} (a : mat2 T) : Prop := m01 a = m10 a.
