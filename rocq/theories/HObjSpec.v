(** * Specification of HierarchyObject: a map from slots to values.

    Independent of the class layout: a slot is a name (plus a loop order), every public setter
    writes one slot, every getter reads one slot.  *)
From Coq Require Import ZArith List Bool.
From Verif Require Import Num Except HObj.
Import ListNotations.
Open Scope Z_scope.

Inductive slot :=
| SlAlphab | SlHierarchy | SlAbsDiff2L | SlRelDiff2L | SlExpUncertainty (loops : Z) | SlDMh (loops : Z)
| SlDMh2 (loops : Z) | SlMDRShift | SlH3mShift | SlMDRMasses | SlMDRFlag | SlScheme | SlDLambdaH3m
| SlDLambdaEFT | SlDLambdaNonLog | SlDLambdaXt | SlDLambda (loops : Z) | SlDMh2EFT (loops : Z)
| SlDMh2FO (loops : Z) | SlDMh2FOAt (loops : Z) | SlDLambdaShift (loops : Z).

Definition slot_eq_dec (a b : slot) : {a = b} + {a <> b}.
Proof. decide equality; apply Z.eq_dec. Defined.

Section Spec.
  Context {T : Type} {N : Num T}.

  (** The slot and value a setter call stores; [None]: the call must be rejected. *)
  Definition spec_write (op : setop T) : option (slot * value T) :=
    let lim lo l (sv : slot * value T) := if (lo <=? l) && (l <=? 3) then Some sv else None in
    match op with
    | SetSuitableHierarchy h => Some (SlHierarchy, VInt h)
    | SetAbsDiff2L x => Some (SlAbsDiff2L, VDouble x)
    | SetRelDiff2L x => Some (SlRelDiff2L, VDouble x)
    | SetDMhExpUncertainty l x => lim 1 l (SlExpUncertainty l, VDouble x)
    | SetDMh l m => lim 0 l (SlDMh l, VMat m)
    | SetDMh2 l x => lim 0 l (SlDMh2 l, VDouble x)
    | SetMDRShift m => Some (SlMDRShift, VMat m)
    | SetH3mShift m => Some (SlH3mShift, VMat m)
    | SetMDRMasses (mkV2 a b) =>
        Some (SlMDRMasses, VVec (if nltb b a then mkV2 b a else mkV2 a b))
    | SetMDRFlag f => if (f =? 0) || (f =? 1) then Some (SlMDRFlag, VInt f) else None
    | SetRenormalizationScheme s =>
        if (0 <=? s) && (s <=? 3) then Some (SlScheme, VInt s) else None
    | SetDLambdaH3m x => Some (SlDLambdaH3m, VDouble x)
    | SetDLambdaEFT x => Some (SlDLambdaEFT, VDouble x)
    | SetDLambdaNonLog x => Some (SlDLambdaNonLog, VDouble x)
    | SetDLambdaXtUncertainty x => Some (SlDLambdaXt, VDouble x)
    | SetDLambda l x => lim 0 l (SlDLambda l, VDouble x)
    | SetDMh2EFT l x => lim 0 l (SlDMh2EFT l, VDouble x)
    | SetDMh2FO l x => lim 0 l (SlDMh2FO l, VDouble x)
    | SetDMh2FOAt l x => lim 0 l (SlDMh2FOAt l, VDouble x)
    | SetDLambdaShift l x => lim 0 l (SlDLambdaShift l, VDouble x)
    end.

  (** The slot a getter call reads; [None]: the call must be rejected. *)
  Definition spec_read (g : getop) : option slot :=
    let lim lo l (s : slot) := if (lo <=? l) && (l <=? 3) then Some s else None in
    match g with
    | GetIsAlphab => Some SlAlphab
    | GetSuitableHierarchy => Some SlHierarchy
    | GetAbsDiff2L => Some SlAbsDiff2L
    | GetRelDiff2L => Some SlRelDiff2L
    | GetDMhExpUncertainty l => lim 1 l (SlExpUncertainty l)
    | GetDMh l => lim 0 l (SlDMh l)
    | GetDMh2 l => lim 0 l (SlDMh2 l)
    | GetMDRShift => Some SlMDRShift
    | GetH3mShift => Some SlH3mShift
    | GetMDRMasses => Some SlMDRMasses
    | GetMDRFlag => Some SlMDRFlag
    | GetRenormalizationScheme => Some SlScheme
    | GetDLambdaH3m => Some SlDLambdaH3m
    | GetDLambdaEFT => Some SlDLambdaEFT
    | GetDLambdaNonLog => Some SlDLambdaNonLog
    | GetDLambda l => lim 0 l (SlDLambda l)
    | GetDMh2EFTAt l => lim 0 l (SlDMh2EFT l)
    | GetDMh2FO l => lim 0 l (SlDMh2FO l)
    | GetDMh2FOAt l => lim 0 l (SlDMh2FOAt l)
    | GetDLambdaShift l => lim 0 l (SlDLambdaShift l)
    end.

  (** Documented initial values: everything is 0 except the constructor argument and the
      renormalization scheme, which is DRBARPRIME = 1. *)
  Definition spec_init (ab : bool) (s : slot) : value T :=
    match s with
    | SlAlphab => VBool ab
    | SlHierarchy | SlMDRFlag => VInt 0
    | SlScheme => VInt 1
    | SlDMh _ | SlMDRShift | SlH3mShift => VMat (mkM2 (nint 0) (nint 0) (nint 0) (nint 0))
    | SlMDRMasses => VVec (mkV2 (nint 0) (nint 0))
    | _ => VDouble (nint 0)
    end.

  (** Last value stored into slot [s] by the accepted calls of a history (oldest call first). *)
  Fixpoint last_write (hist : list (setop T)) (s : slot) : option (value T) :=
    match hist with
    | [] => None
    | op :: rest =>
        match last_write rest s with
        | Some v => Some v
        | None => match spec_write op with
                  | Some (s', v) => if slot_eq_dec s s' then Some v else None
                  | None => None
                  end
        end
    end.

  Definition spec_value (ab : bool) (hist : list (setop T)) (s : slot) : value T :=
    match last_write hist s with Some v => v | None => spec_init ab s end.
End Spec.
