(** * Property theorems C01-C05 (HierarchyObject). *)
From Coq Require Import String ZArith List Bool Reals.
From Verif Require Import Num Except HObj HObjSpec HObjProofs.
Import ListNotations.
Open Scope Z_scope.

(** C01.  For any constructor argument, any history of setter calls (accepted or rejected) and
    any getter call that is in range, the getter returns the value of the last accepted write to its slot, or the
    documented initial value.  For every number type (so for binary64 as well). *)
Theorem C01_registers :
  forall (T : Type) (N : Num T) (alphab : bool) (hist : list (setop T)) (g : getop) (s : slot),
    spec_read g = Some s ->
    get (exec (newHO alphab) hist) g = Ok (spec_value alphab hist s).
Proof. exact @registers. Qed.
Print Assumptions C01_registers.

(** Two different loop orders of the same quantity are different slots; a rejected write is
    ignored; the sorted pair comes back. *)
Example C01_example :
  let hist := [SetDMh2 2 4%R; SetDMh2 1 5%R; SetDMh2 7 6%R; SetDLambda 2 9%R] in
  get (exec (newHO true) hist) (GetDMh2 2) = Ok (VDouble 4%R)
  /\ get (exec (newHO true) hist) (GetDMh2 0) = Ok (VDouble 0%R)
  /\ get (exec (newHO true) hist) GetRenormalizationScheme = Ok (VInt 1).
Proof. repeat split. Qed.

(** C01, frame form, from an arbitrary object state: a call whose slot is not the getter's leaves
    the getter's outcome unchanged. *)
Theorem C01_frame :
  forall (T : Type) (N : Num T) (o : HO T) (op : setop T) (g : getop) (s : slot),
    spec_read g = Some s ->
    (forall s' v, spec_write op = Some (s', v) -> s' <> s) ->
    get (exec1 o op) g = get o g.
Proof. exact @frame. Qed.
Print Assumptions C01_frame.

(** C02.  Setters and getters throw exactly on the calls the specification rejects, in every
    object state; a throwing setter leaves the whole object as it was. *)
Theorem C02_setter_rejects :
  forall (T : Type) (N : Num T) (o : HO T) (op : setop T),
    spec_write op = None <-> exists msg, set o op = Throw msg.
Proof. exact @set_none. Qed.
Print Assumptions C02_setter_rejects.

Theorem C02_getter_rejects :
  forall (T : Type) (o : HO T) (g : getop),
    spec_read g = None <-> exists msg, get o g = Throw msg.
Proof. exact @getter_rejects. Qed.
Print Assumptions C02_getter_rejects.

Theorem C02_rejected_unchanged :
  forall (T : Type) (N : Num T) (o : HO T) (op : setop T),
    spec_write op = None -> exec1 o op = o.
Proof. exact @rejected_unchanged. Qed.
Print Assumptions C02_rejected_unchanged.

Theorem C02_uncertainty_rejects :
  forall (T : Type) (N : Num T) (o : HO T) (l : Z),
    (exists msg, getDLambdaUncertainty o l = Throw msg) <-> ~ (0 <= l <= 3).
Proof. exact @uncertainty_range. Qed.
Print Assumptions C02_uncertainty_rejects.

Example C02_example : spec_write (SetDMhExpUncertainty 0 1%R) = None
  /\ spec_write (SetMDRFlag (T := R) 2) = None /\ spec_write (SetRenormalizationScheme (T := R) 4) = None
  /\ spec_read (GetDMh (-1)) = None /\ spec_write (SetDMh2 0 1%R) <> None.
Proof. repeat split; discriminate. Qed.

(** C03.  Permutation for every number type (NaN included); minimum and maximum over the reals;
    in binary64, ascending if no entry is NaN; sorting a sorted pair changes nothing, NaN included. *)
Theorem C03_permutation :
  forall (T : Type) (N : Num T) (v : vec2 T),
    sortVector v = v \/ sortVector v = mkV2 (v1 v) (v0 v).
Proof. exact @sort_perm. Qed.
Print Assumptions C03_permutation.

Theorem C03_min_max : forall v : vec2 R,
    sortVector v = mkV2 (Rmin (v0 v) (v1 v)) (Rmax (v0 v) (v1 v)).
Proof. exact sort_R. Qed.
Print Assumptions C03_min_max.

Theorem C03_sorted_binary64 : forall (lm : Libm) (v : vec2 F64),
    F64isnan (v0 v) = false -> F64isnan (v1 v) = false ->
    @nleb _ (NumF lm) (v0 (@sortVector _ (NumF lm) v)) (v1 (@sortVector _ (NumF lm) v)) = true.
Proof. exact sort_F_sorted. Qed.
Print Assumptions C03_sorted_binary64.

Theorem C03_idempotent_binary64 : forall (lm : Libm) (v : vec2 F64),
    @sortVector _ (NumF lm) (@sortVector _ (NumF lm) v) = @sortVector _ (NumF lm) v.
Proof. exact sort_idem_F. Qed.
Print Assumptions C03_idempotent_binary64.

(** C04.  Order 3 over the reals: value, sign, bounds, and exactly when it vanishes. *)
Theorem C04_uncertainty : forall (o : HO R) (u : R),
    getDLambdaUncertainty o 3 = Ok u ->
    (u = Rabs (dLambdaXtUncertainty o) + Rabs (dLambdaEFT o - dLambdaH3m o) /\ 0 <= u /\
     Rabs (dLambdaXtUncertainty o) <= u /\ Rabs (dLambdaEFT o - dLambdaH3m o) <= u /\
     (u = 0 <-> dLambdaXtUncertainty o = 0 /\ dLambdaEFT o = dLambdaH3m o))%R.
Proof. exact uncertainty_R. Qed.
Print Assumptions C04_uncertainty.

Theorem C04_low_orders : forall (T : Type) (N : Num T) (o : HO T) (l : Z),
    0 <= l <= 2 -> getDLambdaUncertainty o l = Ok (nint 0).
Proof. exact @uncertainty_low. Qed.
Print Assumptions C04_low_orders.

(** C05. *)
Theorem C05_injective : forall h1 h2 : Z, 0 <= h1 <= 13 ->
    getH3mHierarchyNotation h1 = getH3mHierarchyNotation h2 -> h1 = h2.
Proof. exact notation_injective. Qed.
Print Assumptions C05_injective.

Theorem C05_out_of_range : forall h : Z, ~ (0 <= h <= 13) ->
    getH3mHierarchyNotation h = ("Hierarchy " ++ to_string h ++ " not included")%string.
Proof. exact notation_out_of_range. Qed.
Print Assumptions C05_out_of_range.

Example C05_example : getH3mHierarchyNotation 10 = "h6bq2g2"%string
  /\ getH3mHierarchyNotation (-1) = "Hierarchy -1 not included"%string.
Proof. split; reflexivity. Qed.
