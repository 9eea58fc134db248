(** * Model of class HierarchyObject
    include/himalaya/HierarchyObject.hpp:244-273 (data members),
    source/himalaya/HierarchyObject.cpp (member functions). *)
From Coq Require Import String ZArith List Bool.
From Coq Require Import DecimalString.
From Verif Require Import Num Except.
Open Scope string_scope.

(** std::to_string(int) *)
Definition to_string (z : Z) : string := NilZero.string_of_int (Z.to_int z).

Section HObj.
  Context {T : Type} {N : Num T}.
  Open Scope num_scope.

  (** HierarchyObject.hpp:244-273 *)
  Record HO := mkHO {
    isAlphab : bool;
    hierarchy : Z;
    mdrFlag : Z;
    renormalizationScheme : Z;
    absDiff2L : T;
    relDiff2L : T;
    expUncertainties : arr4 T;
    dMhMap : arr4 (mat2 T);
    dMh2Map : arr4 T;
    mdrShift : mat2 T;
    mdrMasses : vec2 T;
    dLambdaH3m : T;
    dLambdaEFT : T;
    dLambdaNonLog : T;
    dLambdaXtUncertainty : T;
    h3mShift : mat2 T;
    dLambdaMap : arr4 T;
    dLambdaShiftMap : arr4 T;  (* dLambdaDRbarPrimeToMSbarShiftMap *)
    dMh2EFTMap : arr4 T;
    dMh2FOMap : arr4 T;
    dMh2FOAtMap : arr4 T
  }.

  (** HierarchyObject.cpp:59-63 and the in-class initialisers; RenSchemes::DRBARPRIME = 1 (EFTFlags.hpp:24) *)
  Definition newHO (ab : bool) : HO :=
    mkHO ab 0 0 1 #0 #0 (arr4_const #0) (arr4_const mat2_zero) (arr4_const #0)
         mat2_zero (mkV2 #0 #0) #0 #0 #0 #0 mat2_zero
         (arr4_const #0) (arr4_const #0) (arr4_const #0) (arr4_const #0) (arr4_const #0).

  (** HierarchyObject.cpp:44-51 *)
  Definition sortVector (v : vec2 T) : vec2 T :=
    if v0 v >? v1 v then mkV2 (v1 v) (v0 v) else v.

  (** loops >= 0 && loops <= 3 *)
  Definition loop03 (loops : Z) : bool := (0 <=? loops)%Z && (loops <=? 3)%Z.
  (** loops > 0 && loops <= 3 *)
  Definition loop13 (loops : Z) : bool := (0 <? loops)%Z && (loops <=? 3)%Z.

  (** array.at(loops) after the range check *)
  Definition at_checked {A} (ok : Z -> bool) (a : arr4 A) (loops : Z) (msg : string) : res A :=
    if ok loops then
      match arr4_at a loops with Some x => Ok x | None => Throw "array::at" end
    else Throw msg.

  (** The setters: HierarchyObject.cpp:77-80, 94-97, 111-114, 130-138, 161-170, 177-186, 220-223, 233-236,
      248-251, 266-274, 289-299, 314-317, 331-334, 348-351, 365-368, 403-411, 457-495, 516-525 *)
  Inductive setop :=
  | SetSuitableHierarchy (h : Z)
  | SetAbsDiff2L (x : T)
  | SetRelDiff2L (x : T)
  | SetDMhExpUncertainty (loops : Z) (x : T)
  | SetDMh (loops : Z) (m : mat2 T)
  | SetDMh2 (loops : Z) (x : T)
  | SetMDRShift (m : mat2 T)          (* setDMhDRbarPrimeToMDRbarPrimeShift *)
  | SetH3mShift (m : mat2 T)          (* setDMhDRbarPrimeToH3mShift *)
  | SetMDRMasses (v : vec2 T)
  | SetMDRFlag (f : Z)
  | SetRenormalizationScheme (s : Z)
  | SetDLambdaH3m (x : T)
  | SetDLambdaEFT (x : T)
  | SetDLambdaNonLog (x : T)
  | SetDLambdaXtUncertainty (x : T)
  | SetDLambda (loops : Z) (x : T)
  | SetDMh2EFT (loops : Z) (x : T)
  | SetDMh2FO (loops : Z) (x : T)
  | SetDMh2FOAt (loops : Z) (x : T)
  | SetDLambdaShift (loops : Z) (x : T). (* setDLambdaDRbarPrimeToMSbarShift *)

  Definition with_hierarchy (o : HO) h := mkHO (isAlphab o) h (mdrFlag o) (renormalizationScheme o) (absDiff2L o) (relDiff2L o) (expUncertainties o) (dMhMap o) (dMh2Map o) (mdrShift o) (mdrMasses o) (dLambdaH3m o) (dLambdaEFT o) (dLambdaNonLog o) (dLambdaXtUncertainty o) (h3mShift o) (dLambdaMap o) (dLambdaShiftMap o) (dMh2EFTMap o) (dMh2FOMap o) (dMh2FOAtMap o).
  Definition with_mdrFlag (o : HO) f := mkHO (isAlphab o) (hierarchy o) f (renormalizationScheme o) (absDiff2L o) (relDiff2L o) (expUncertainties o) (dMhMap o) (dMh2Map o) (mdrShift o) (mdrMasses o) (dLambdaH3m o) (dLambdaEFT o) (dLambdaNonLog o) (dLambdaXtUncertainty o) (h3mShift o) (dLambdaMap o) (dLambdaShiftMap o) (dMh2EFTMap o) (dMh2FOMap o) (dMh2FOAtMap o).
  Definition with_scheme (o : HO) s := mkHO (isAlphab o) (hierarchy o) (mdrFlag o) s (absDiff2L o) (relDiff2L o) (expUncertainties o) (dMhMap o) (dMh2Map o) (mdrShift o) (mdrMasses o) (dLambdaH3m o) (dLambdaEFT o) (dLambdaNonLog o) (dLambdaXtUncertainty o) (h3mShift o) (dLambdaMap o) (dLambdaShiftMap o) (dMh2EFTMap o) (dMh2FOMap o) (dMh2FOAtMap o).
  Definition with_absDiff2L (o : HO) x := mkHO (isAlphab o) (hierarchy o) (mdrFlag o) (renormalizationScheme o) x (relDiff2L o) (expUncertainties o) (dMhMap o) (dMh2Map o) (mdrShift o) (mdrMasses o) (dLambdaH3m o) (dLambdaEFT o) (dLambdaNonLog o) (dLambdaXtUncertainty o) (h3mShift o) (dLambdaMap o) (dLambdaShiftMap o) (dMh2EFTMap o) (dMh2FOMap o) (dMh2FOAtMap o).
  Definition with_relDiff2L (o : HO) x := mkHO (isAlphab o) (hierarchy o) (mdrFlag o) (renormalizationScheme o) (absDiff2L o) x (expUncertainties o) (dMhMap o) (dMh2Map o) (mdrShift o) (mdrMasses o) (dLambdaH3m o) (dLambdaEFT o) (dLambdaNonLog o) (dLambdaXtUncertainty o) (h3mShift o) (dLambdaMap o) (dLambdaShiftMap o) (dMh2EFTMap o) (dMh2FOMap o) (dMh2FOAtMap o).
  Definition with_expUncertainties (o : HO) x := mkHO (isAlphab o) (hierarchy o) (mdrFlag o) (renormalizationScheme o) (absDiff2L o) (relDiff2L o) x (dMhMap o) (dMh2Map o) (mdrShift o) (mdrMasses o) (dLambdaH3m o) (dLambdaEFT o) (dLambdaNonLog o) (dLambdaXtUncertainty o) (h3mShift o) (dLambdaMap o) (dLambdaShiftMap o) (dMh2EFTMap o) (dMh2FOMap o) (dMh2FOAtMap o).
  Definition with_dMhMap (o : HO) x := mkHO (isAlphab o) (hierarchy o) (mdrFlag o) (renormalizationScheme o) (absDiff2L o) (relDiff2L o) (expUncertainties o) x (dMh2Map o) (mdrShift o) (mdrMasses o) (dLambdaH3m o) (dLambdaEFT o) (dLambdaNonLog o) (dLambdaXtUncertainty o) (h3mShift o) (dLambdaMap o) (dLambdaShiftMap o) (dMh2EFTMap o) (dMh2FOMap o) (dMh2FOAtMap o).
  Definition with_dMh2Map (o : HO) x := mkHO (isAlphab o) (hierarchy o) (mdrFlag o) (renormalizationScheme o) (absDiff2L o) (relDiff2L o) (expUncertainties o) (dMhMap o) x (mdrShift o) (mdrMasses o) (dLambdaH3m o) (dLambdaEFT o) (dLambdaNonLog o) (dLambdaXtUncertainty o) (h3mShift o) (dLambdaMap o) (dLambdaShiftMap o) (dMh2EFTMap o) (dMh2FOMap o) (dMh2FOAtMap o).
  Definition with_mdrShift (o : HO) x := mkHO (isAlphab o) (hierarchy o) (mdrFlag o) (renormalizationScheme o) (absDiff2L o) (relDiff2L o) (expUncertainties o) (dMhMap o) (dMh2Map o) x (mdrMasses o) (dLambdaH3m o) (dLambdaEFT o) (dLambdaNonLog o) (dLambdaXtUncertainty o) (h3mShift o) (dLambdaMap o) (dLambdaShiftMap o) (dMh2EFTMap o) (dMh2FOMap o) (dMh2FOAtMap o).
  Definition with_mdrMasses (o : HO) x := mkHO (isAlphab o) (hierarchy o) (mdrFlag o) (renormalizationScheme o) (absDiff2L o) (relDiff2L o) (expUncertainties o) (dMhMap o) (dMh2Map o) (mdrShift o) x (dLambdaH3m o) (dLambdaEFT o) (dLambdaNonLog o) (dLambdaXtUncertainty o) (h3mShift o) (dLambdaMap o) (dLambdaShiftMap o) (dMh2EFTMap o) (dMh2FOMap o) (dMh2FOAtMap o).
  Definition with_dLambdaH3m (o : HO) x := mkHO (isAlphab o) (hierarchy o) (mdrFlag o) (renormalizationScheme o) (absDiff2L o) (relDiff2L o) (expUncertainties o) (dMhMap o) (dMh2Map o) (mdrShift o) (mdrMasses o) x (dLambdaEFT o) (dLambdaNonLog o) (dLambdaXtUncertainty o) (h3mShift o) (dLambdaMap o) (dLambdaShiftMap o) (dMh2EFTMap o) (dMh2FOMap o) (dMh2FOAtMap o).
  Definition with_dLambdaEFT (o : HO) x := mkHO (isAlphab o) (hierarchy o) (mdrFlag o) (renormalizationScheme o) (absDiff2L o) (relDiff2L o) (expUncertainties o) (dMhMap o) (dMh2Map o) (mdrShift o) (mdrMasses o) (dLambdaH3m o) x (dLambdaNonLog o) (dLambdaXtUncertainty o) (h3mShift o) (dLambdaMap o) (dLambdaShiftMap o) (dMh2EFTMap o) (dMh2FOMap o) (dMh2FOAtMap o).
  Definition with_dLambdaNonLog (o : HO) x := mkHO (isAlphab o) (hierarchy o) (mdrFlag o) (renormalizationScheme o) (absDiff2L o) (relDiff2L o) (expUncertainties o) (dMhMap o) (dMh2Map o) (mdrShift o) (mdrMasses o) (dLambdaH3m o) (dLambdaEFT o) x (dLambdaXtUncertainty o) (h3mShift o) (dLambdaMap o) (dLambdaShiftMap o) (dMh2EFTMap o) (dMh2FOMap o) (dMh2FOAtMap o).
  Definition with_dLambdaXtUncertainty (o : HO) x := mkHO (isAlphab o) (hierarchy o) (mdrFlag o) (renormalizationScheme o) (absDiff2L o) (relDiff2L o) (expUncertainties o) (dMhMap o) (dMh2Map o) (mdrShift o) (mdrMasses o) (dLambdaH3m o) (dLambdaEFT o) (dLambdaNonLog o) x (h3mShift o) (dLambdaMap o) (dLambdaShiftMap o) (dMh2EFTMap o) (dMh2FOMap o) (dMh2FOAtMap o).
  Definition with_h3mShift (o : HO) x := mkHO (isAlphab o) (hierarchy o) (mdrFlag o) (renormalizationScheme o) (absDiff2L o) (relDiff2L o) (expUncertainties o) (dMhMap o) (dMh2Map o) (mdrShift o) (mdrMasses o) (dLambdaH3m o) (dLambdaEFT o) (dLambdaNonLog o) (dLambdaXtUncertainty o) x (dLambdaMap o) (dLambdaShiftMap o) (dMh2EFTMap o) (dMh2FOMap o) (dMh2FOAtMap o).
  Definition with_dLambdaMap (o : HO) x := mkHO (isAlphab o) (hierarchy o) (mdrFlag o) (renormalizationScheme o) (absDiff2L o) (relDiff2L o) (expUncertainties o) (dMhMap o) (dMh2Map o) (mdrShift o) (mdrMasses o) (dLambdaH3m o) (dLambdaEFT o) (dLambdaNonLog o) (dLambdaXtUncertainty o) (h3mShift o) x (dLambdaShiftMap o) (dMh2EFTMap o) (dMh2FOMap o) (dMh2FOAtMap o).
  Definition with_dLambdaShiftMap (o : HO) x := mkHO (isAlphab o) (hierarchy o) (mdrFlag o) (renormalizationScheme o) (absDiff2L o) (relDiff2L o) (expUncertainties o) (dMhMap o) (dMh2Map o) (mdrShift o) (mdrMasses o) (dLambdaH3m o) (dLambdaEFT o) (dLambdaNonLog o) (dLambdaXtUncertainty o) (h3mShift o) (dLambdaMap o) x (dMh2EFTMap o) (dMh2FOMap o) (dMh2FOAtMap o).
  Definition with_dMh2EFTMap (o : HO) x := mkHO (isAlphab o) (hierarchy o) (mdrFlag o) (renormalizationScheme o) (absDiff2L o) (relDiff2L o) (expUncertainties o) (dMhMap o) (dMh2Map o) (mdrShift o) (mdrMasses o) (dLambdaH3m o) (dLambdaEFT o) (dLambdaNonLog o) (dLambdaXtUncertainty o) (h3mShift o) (dLambdaMap o) (dLambdaShiftMap o) x (dMh2FOMap o) (dMh2FOAtMap o).
  Definition with_dMh2FOMap (o : HO) x := mkHO (isAlphab o) (hierarchy o) (mdrFlag o) (renormalizationScheme o) (absDiff2L o) (relDiff2L o) (expUncertainties o) (dMhMap o) (dMh2Map o) (mdrShift o) (mdrMasses o) (dLambdaH3m o) (dLambdaEFT o) (dLambdaNonLog o) (dLambdaXtUncertainty o) (h3mShift o) (dLambdaMap o) (dLambdaShiftMap o) (dMh2EFTMap o) x (dMh2FOAtMap o).
  Definition with_dMh2FOAtMap (o : HO) x := mkHO (isAlphab o) (hierarchy o) (mdrFlag o) (renormalizationScheme o) (absDiff2L o) (relDiff2L o) (expUncertainties o) (dMhMap o) (dMh2Map o) (mdrShift o) (mdrMasses o) (dLambdaH3m o) (dLambdaEFT o) (dLambdaNonLog o) (dLambdaXtUncertainty o) (h3mShift o) (dLambdaMap o) (dLambdaShiftMap o) (dMh2EFTMap o) (dMh2FOMap o) x.

  (** assignment array.at(loops) = x after the range check *)
  Definition put_checked {A} (ok : Z -> bool) (a : arr4 A) (loops : Z) (x : A) (msg : string) : res (arr4 A) :=
    if ok loops then Ok (arr4_put a loops x) else Throw msg.

  Definition set (o : HO) (s : setop) : res HO :=
    match s with
    | SetSuitableHierarchy h => Ok (with_hierarchy o h)                                  (* :77-80 *)
    | SetAbsDiff2L x => Ok (with_absDiff2L o x)                                          (* :94-97 *)
    | SetRelDiff2L x => Ok (with_relDiff2L o x)                                          (* :111-114 *)
    | SetDMhExpUncertainty l x =>                                                        (* :130-138 *)
        do a <- put_checked loop13 (expUncertainties o) l x
                  ("Expansion uncertainty for " ++ to_string l ++ " loop(s) is not available.");
        Ok (with_expUncertainties o a)
    | SetDMh l m =>                                                                      (* :161-170 *)
        do a <- put_checked loop03 (dMhMap o) l m
                  ("Higgs mass matrix for " ++ to_string l ++ " loop(s) is not available.");
        Ok (with_dMhMap o a)
    | SetDMh2 l x =>                                                                     (* :177-186 *)
        do a <- put_checked loop03 (dMh2Map o) l x
                  ("squared Higgs mass correction for " ++ to_string l ++ " loop(s) is not available.");
        Ok (with_dMh2Map o a)
    | SetMDRShift m => Ok (with_mdrShift o m)                                            (* :220-223 *)
    | SetH3mShift m => Ok (with_h3mShift o m)                                            (* :233-236 *)
    | SetMDRMasses v => Ok (with_mdrMasses o (sortVector v))                             (* :248-251 *)
    | SetMDRFlag f =>                                                                    (* :266-274 *)
        if negb (f =? 0)%Z && negb (f =? 1)%Z
        then Throw ("The MDR-flag has to be 0 (DR-scheme) or 1 (MDR-scheme). Input: " ++ to_string f ++ ".")
        else Ok (with_mdrFlag o f)
    | SetRenormalizationScheme s =>                                                      (* :289-299 *)
        if (s <? 0)%Z || (4 <=? s)%Z
        then Throw ("The renormalization scheme has to be 0 (H3m), 1 (DR'), 2 (H3m with MDR), 3 (MDR'). Input: "
                    ++ to_string s ++ ".")
        else Ok (with_scheme o s)
    | SetDLambdaH3m x => Ok (with_dLambdaH3m o x)                                        (* :314-317 *)
    | SetDLambdaEFT x => Ok (with_dLambdaEFT o x)                                        (* :331-334 *)
    | SetDLambdaNonLog x => Ok (with_dLambdaNonLog o x)                                  (* :348-351 *)
    | SetDLambdaXtUncertainty x => Ok (with_dLambdaXtUncertainty o x)                    (* :365-368 *)
    | SetDLambda l x =>                                                                  (* :403-411 *)
        do a <- put_checked loop03 (dLambdaMap o) l x
                  ("Delta lambda for " ++ to_string l ++ " loop(s) is not available.");
        Ok (with_dLambdaMap o a)
    | SetDMh2EFT l x =>                                                                  (* :457-465 *)
        do a <- put_checked loop03 (dMh2EFTMap o) l x
                  ("Higgs mass for " ++ to_string l ++ " loop(s) is not available.");
        Ok (with_dMh2EFTMap o a)
    | SetDMh2FO l x =>                                                                   (* :472-480 *)
        do a <- put_checked loop03 (dMh2FOMap o) l x
                  ("Higgs mass for " ++ to_string l ++ " loop(s) is not available.");
        Ok (with_dMh2FOMap o a)
    | SetDMh2FOAt l x =>                                                                 (* :487-495 *)
        do a <- put_checked loop03 (dMh2FOAtMap o) l x
                  ("Higgs mass for " ++ to_string l ++ " loop(s) is not available.");
        Ok (with_dMh2FOAtMap o a)
    | SetDLambdaShift l x =>                                                             (* :516-525 *)
        do a <- put_checked loop03 (dLambdaShiftMap o) l x
                  ("DR' -> MS shift for " ++ to_string l ++ " loop(s) is not available.");
        Ok (with_dLambdaShiftMap o a)
    end.

  (** A call that throws leaves the object in its current state (the checks come before any write). *)
  Definition exec1 (o : HO) (s : setop) : HO := match set o s with Ok o' => o' | Throw _ => o end.
  Definition exec (o : HO) (h : list setop) : HO := fold_left exec1 h o.

  (** Getters: HierarchyObject.cpp:68-71, 85-88, 102-105, 119-122, 144-154, 192-214, 228-231, 238-241,
      256-259, 279-282, 304-307, 322-325, 339-342, 356-359, 388-396, 417-450, 501-509 *)
  Inductive getop :=
  | GetIsAlphab | GetSuitableHierarchy | GetAbsDiff2L | GetRelDiff2L
  | GetDMhExpUncertainty (loops : Z) | GetDMh (loops : Z) | GetDMh2 (loops : Z)
  | GetMDRShift | GetH3mShift | GetMDRMasses | GetMDRFlag | GetRenormalizationScheme
  | GetDLambdaH3m | GetDLambdaEFT | GetDLambdaNonLog
  | GetDLambda (loops : Z) | GetDMh2EFTAt (loops : Z) | GetDMh2FO (loops : Z)
  | GetDMh2FOAt (loops : Z) | GetDLambdaShift (loops : Z).

  (** what a getter returns *)
  Inductive value := VBool (b : bool) | VInt (z : Z) | VDouble (x : T) | VMat (m : mat2 T) | VVec (v : vec2 T).

  Definition getDMhExpUncertainty (o : HO) (l : Z) : res T :=
    at_checked loop13 (expUncertainties o) l
      ("Expansion uncertainty for " ++ to_string l ++ " loop(s) is not available.").
  Definition getDMh (o : HO) (l : Z) : res (mat2 T) :=
    at_checked loop03 (dMhMap o) l ("Higgs mass matrix for " ++ to_string l ++ " loop(s) is not available.").
  Definition getDMh2 (o : HO) (l : Z) : res T :=
    at_checked loop03 (dMh2Map o) l ("Higgs mass correction for " ++ to_string l ++ " loop(s) is not available.").
  Definition getDLambda (o : HO) (l : Z) : res T :=
    at_checked loop03 (dLambdaMap o) l ("Delta lambda for " ++ to_string l ++ " loop(s) is not available.").
  Definition getDMh2EFTAt (o : HO) (l : Z) : res T :=
    at_checked loop03 (dMh2EFTMap o) l ("Higgs mass for " ++ to_string l ++ " loop(s) is not available.").
  Definition getDMh2FO (o : HO) (l : Z) : res T :=
    at_checked loop03 (dMh2FOMap o) l ("Higgs mass for " ++ to_string l ++ " loop(s) is not available.").
  Definition getDMh2FOAt (o : HO) (l : Z) : res T :=
    at_checked loop03 (dMh2FOAtMap o) l ("Higgs mass for " ++ to_string l ++ " loop(s) is not available.").
  Definition getDLambdaShift (o : HO) (l : Z) : res T :=
    at_checked loop03 (dLambdaShiftMap o) l ("DR' -> MS shift for " ++ to_string l ++ " loop(s) is not available.").

  Definition get (o : HO) (g : getop) : res value :=
    match g with
    | GetIsAlphab => Ok (VBool (isAlphab o))
    | GetSuitableHierarchy => Ok (VInt (hierarchy o))
    | GetAbsDiff2L => Ok (VDouble (absDiff2L o))
    | GetRelDiff2L => Ok (VDouble (relDiff2L o))
    | GetDMhExpUncertainty l => do x <- getDMhExpUncertainty o l; Ok (VDouble x)
    | GetDMh l => do x <- getDMh o l; Ok (VMat x)
    | GetDMh2 l => do x <- getDMh2 o l; Ok (VDouble x)
    | GetMDRShift => Ok (VMat (mdrShift o))
    | GetH3mShift => Ok (VMat (h3mShift o))
    | GetMDRMasses => Ok (VVec (mdrMasses o))
    | GetMDRFlag => Ok (VInt (mdrFlag o))
    | GetRenormalizationScheme => Ok (VInt (renormalizationScheme o))
    | GetDLambdaH3m => Ok (VDouble (dLambdaH3m o))
    | GetDLambdaEFT => Ok (VDouble (dLambdaEFT o))
    | GetDLambdaNonLog => Ok (VDouble (dLambdaNonLog o))
    | GetDLambda l => do x <- getDLambda o l; Ok (VDouble x)
    | GetDMh2EFTAt l => do x <- getDMh2EFTAt o l; Ok (VDouble x)
    | GetDMh2FO l => do x <- getDMh2FO o l; Ok (VDouble x)
    | GetDMh2FOAt l => do x <- getDMh2FOAt o l; Ok (VDouble x)
    | GetDLambdaShift l => do x <- getDLambdaShift o l; Ok (VDouble x)
    end.

  (** HierarchyObject.cpp:370-382 *)
  Definition getDLambdaUncertainty (o : HO) (loops : Z) : res T :=
    if (0 <=? loops)%Z && (loops <=? 2)%Z then Ok #0
    else if (loops =? 3)%Z then
      Ok (nabs (dLambdaXtUncertainty o) + nabs (dLambdaEFT o - dLambdaH3m o))
    else Throw ("Delta lambda uncertainty " ++ to_string loops ++ " loop(s) is not available.").
End HObj.
Arguments HO T : clear implicits.
Arguments setop T : clear implicits.
Arguments value T : clear implicits.

(** HierarchyObject.cpp:532-568 (enum values: HierarchyFlags.hpp:18-34) *)
Definition getH3mHierarchyNotation (h : Z) : string :=
  match h with
  | 0%Z => "h3" | 1%Z => "h32q2g" | 2%Z => "h3q22g" | 3%Z => "h4" | 4%Z => "h5" | 5%Z => "h5g1"
  | 6%Z => "h6" | 7%Z => "h6b" | 8%Z => "h6b2qg2" | 9%Z => "h6bq22g" | 10%Z => "h6bq2g2"
  | 11%Z => "h6g2" | 12%Z => "h9" | 13%Z => "h9q2"
  | _ => "Hierarchy " ++ to_string h ++ " not included"
  end.
