(** * Model of class HierarchyCalculator
    include/himalaya/HierarchyCalculator.hpp, source/himalaya/HierarchyCalculator.cpp.
    The closed formulas (mass shifts, one-loop matrix, scheme shifts) are in HierFormulas.v. *)
From Coq Require Import String ZArith List Bool.
From Verif Require Import Num Except HObj Params HierFormulas.
Import ListNotations.
Open Scope string_scope.

(** std::array<int,12> expansionDepth, indexed by the enum of HierarchyFlags.hpp:38-54 *)
Inductive depth_flag :=
  | DthreeLoop | DMst | DDmglst1 | DDmsqst1 | DDmst12 | DAt | DlmMsusy | DMsq | DMsusy
  | DDmglst2 | DDmsqst2 | DMgl.
Record Depth := mkDepth {
  x_threeLoop : Z; x_Mst : Z; x_Dmglst1 : Z; x_Dmsqst1 : Z; x_Dmst12 : Z; x_At : Z;
  x_lmMsusy : Z; x_Msq : Z; x_Msusy : Z; x_Dmglst2 : Z; x_Dmsqst2 : Z; x_Mgl : Z }.
Definition depth_get (d : Depth) (f : depth_flag) : Z :=
  match f with
  | DthreeLoop => x_threeLoop d | DMst => x_Mst d | DDmglst1 => x_Dmglst1 d
  | DDmsqst1 => x_Dmsqst1 d | DDmst12 => x_Dmst12 d | DAt => x_At d | DlmMsusy => x_lmMsusy d
  | DMsq => x_Msq d | DMsusy => x_Msusy d | DDmglst2 => x_Dmglst2 d | DDmsqst2 => x_Dmsqst2 d
  | DMgl => x_Mgl d
  end.
Definition depth_put (d : Depth) (f : depth_flag) (v : Z) : Depth :=
  let '(mkDepth a b c d e f' g h i j k l) := d in
  match f with
  | DthreeLoop => mkDepth v b c d e f' g h i j k l
  | DMst => mkDepth a v c d e f' g h i j k l
  | DDmglst1 => mkDepth a b v d e f' g h i j k l
  | DDmsqst1 => mkDepth a b c v e f' g h i j k l
  | DDmst12 => mkDepth a b c d v f' g h i j k l
  | DAt => mkDepth a b c d e v g h i j k l
  | DlmMsusy => mkDepth a b c d e f' v h i j k l
  | DMsq => mkDepth a b c d e f' g v i j k l
  | DMsusy => mkDepth a b c d e f' g h v j k l
  | DDmglst2 => mkDepth a b c d e f' g h i v k l
  | DDmsqst2 => mkDepth a b c d e f' g h i j v l
  | DMgl => mkDepth a b c d e f' g h i j k v
  end.
(** expansionDepth.fill(1), HierarchyCalculator.cpp:163 *)
Definition depth_ones : Depth := mkDepth 1 1 1 1 1 1 1 1 1 1 1 1.

(** A member function that may throw and that may change expansionDepth.  The state survives an
    exception (that is what the destructors of RAII.hpp are for). *)
Definition Calc (A : Type) := Depth -> res A * Depth.
Definition ret {A} (a : A) : Calc A := fun d => (Ok a, d).
Definition lift {A} (r : res A) : Calc A := fun d => (r, d).
Definition get_depth : Calc Depth := fun d => (Ok d, d).
Definition bindC {A B} (m : Calc A) (k : A -> Calc B) : Calc B :=
  fun d => match m d with
           | (Ok a, d') => k a d'
           | (Throw e, d') => (Throw e, d')
           end.
Notation "'run' x <- e ; k" := (bindC e (fun x => k))
  (at level 200, x pattern, e at level 100, k at level 200, right associativity).
(** misc/RAII.hpp:14-33: the constructor saves the old value and assigns the new one, the
    destructor assigns the saved value, on normal exit and on stack unwinding. *)
Definition temporarily_set {A} (f : depth_flag) (v : Z) (body : Calc A) : Calc A :=
  fun d => let old := depth_get d f in
           let '(r, d') := body (depth_put d f v) in
           (r, depth_put d' f old).

(** What a hierarchy class H3, ..., H9q2 computes: getS1, getS2, getS12 and the four
    coefficients calc_coef_at_as2_no_sm_logs_log0..3 (hierarchies/H*.hpp). *)
Record HierOut (T : Type) := mkHierOut {
  getS1 : T; getS2 : T; getS12 : T; coef0 : T; coef1 : T; coef2 : T; coef3 : T }.
Arguments mkHierOut {T}. Arguments getS1 {T}. Arguments getS2 {T}. Arguments getS12 {T}.
Arguments coef0 {T}. Arguments coef1 {T}. Arguments coef2 {T}. Arguments coef3 {T}.

(** The parts of the library called from HierarchyCalculator.cpp whose bodies are not needed here:
    arguments of the model, so every theorem holds for whatever they compute. *)
Record Env (T : Type) := mkEnv {
  (** Eigen decompositions used by Parameters::validate *)
  env_eigen : EigenLib T;
  (** Eigen::EigenSolver<Matrix2d>::eigenvalues().real() *)
  env_eigenvalues : mat2 T -> vec2 T;
  (** constructor arguments (double ones, in order) and flags -> values of the hierarchy classes *)
  env_hier : Z -> Depth -> list T -> Z -> Z -> Z -> Z -> HierOut T;
  (** mh2l::delta_mh2_2loop_at_as: (0,0), (0,1) and (1,1) entries; DSZHiggs.cpp fills (1,0) := (0,1) *)
  env_at_as : T -> T -> T -> T -> T -> T -> T -> T -> T -> T -> T -> Z -> T * T * T;
  (** Mh2EFTCalculator(p): ctor may throw; flag: disable_non_as_terms called *)
  env_eft0 : Params T -> bool -> res T;
  env_eft1 : Params T -> bool -> Z -> Z -> res T;
  env_eft2 : Params T -> bool -> Z -> Z -> res T;
  env_eft3 : Params T -> bool -> Z -> Z -> Z -> res T;
  (** ThresholdCalculator(p), setXtOrderOfDeltaLambdaAtAs2 argument (4 = default, no call):
      getThresholdCorrection(var, DRBARPRIME, omitLogs) *)
  env_threshold : Params T -> Z -> Z -> Z -> res T;
  (** getDRbarPrimeToMSbarShift(xtOrder, omitLogs, omitXtLogs) *)
  env_msbar_shift : Params T -> Z -> Z -> Z -> Z -> res T;
  (** getDRbarPrimeToMSbarXtTerms(getLimit(), xtOrder, omitLogs) *)
  env_xt_terms : Params T -> Z -> Z -> Z -> res T;
  (** MSSM_mass_eigenstates(p, only_at).calculate_Mh2() *)
  env_fo : Params T -> bool -> res (T * T * T);
  (** fs_diagonalize_hermitian_perturbatively: first component of each order *)
  env_pert : mat2 T -> mat2 T -> mat2 T -> mat2 T -> T * T * T * T
}.
Arguments mkEnv {T}. Arguments env_eigen {T}. Arguments env_eigenvalues {T}. Arguments env_hier {T}.
Arguments env_at_as {T}. Arguments env_eft0 {T}. Arguments env_eft1 {T}. Arguments env_eft2 {T}.
Arguments env_eft3 {T}. Arguments env_threshold {T}. Arguments env_msbar_shift {T}.
Arguments env_xt_terms {T}. Arguments env_fo {T}. Arguments env_pert {T}.

(** ThresholdCouplingOrders used here, mh2_eft/EFTFlags.hpp:34-40 *)
Definition YT_AS := 1%Z. Definition LAMBDA_AT := 3%Z. Definition LAMBDA_AT_AS := 4%Z.
Definition LAMBDA_AT_AS2 := 5%Z.

Section HierCalc.
  Context {T : Type} {N : Num T}.
  Variable X : Env T.
  Variable p : Params T.   (* the validated parameters, HierarchyCalculator.cpp:153-164 *)
  Open Scope num_scope.

  (** HierarchyCalculator.cpp:51-57 *)
  Definition calcSmallestEigenvalue (m : mat2 T) : T :=
    let ev := env_eigenvalues X m in
    let e0 := nsqrt (v0 ev) in
    let e1 := nsqrt (v1 ev) in
    if e0 <? e1 then e0 else e1.

  (** HierarchyCalculator.cpp:393-439 *)
  Definition isHierarchySuitable (ab : bool) (h : Z) : bool :=
    let Mst1 := sfMass1 p ab in
    let Mst2 := sfMass2 p ab in
    let delta := ndec 13 1 in
    let Mgl := MG p in
    let Msq := calcMeanMsq p in
    if Mst2 >? delta * Msq then false
    else if Mgl >? delta * Msq then false
    else
      let gap := Mst2 - Mst1 >? ndec 1 1 * Mst1 in
      let near1 := (Mgl - Mst1) <? nabs (Mgl - Mst2) in
      let near2 := (Mst2 - Mgl) <? nabs (Mgl - Mst1) in
      match h with
      | 0%Z  => Mgl >? Mst2                                                      (* h3 *)
      | 1%Z  => (Mst2 >=? Msq) && (Mst2 >? Mgl)                                  (* h32q2g *)
      | 2%Z  => (Msq >? Mst2) && (Mst2 >? Mgl)                                   (* h3q22g *)
      | 3%Z  => (Mst1 <? Msq) && (Mst1 >=? Mgl)                                  (* h4 *)
      | 4%Z  => gap && near1 && (Mst2 <? Msq) && (Mst1 >=? Mgl)                  (* h5 *)
      | 5%Z  => gap && near1 && (Mst2 <? Msq) && (Mgl >? Mst1)                   (* h5g1 *)
      | 6%Z  => gap && near2 && (Mst2 * ndec 13 1 <? Msq) && (Mst2 >=? Mgl)      (* h6 *)
      | 11%Z => gap && near2 && (Mst2 * ndec 13 1 <? Msq) && (Mgl >? Mst2)       (* h6g2 *)
      | 7%Z  => gap && near2 && (Mst2 >=? Msq) && (Mst2 >=? Mgl)                 (* h6b *)
      | 8%Z  => gap && near2 && (Mst2 >=? Msq) && (Mgl >? Mst2)                  (* h6b2qg2 *)
      | 9%Z  => gap && near2 && (Msq >? Mst2) && (Mst2 >=? Mgl)                  (* h6bq22g *)
      | 10%Z => gap && near2 && (Msq >? Mst2) && (Mgl >? Mst2)                   (* h6bq2g2 *)
      | 12%Z => (Mst2 >=? Msq) && ((Mst2 - Mst1) <? (Mst1 - Mgl))                (* h9 *)
      | 13%Z => (Msq >? Mst2) && ((Mst1 - Mst1) <? (Mst1 - Mgl))                 (* h9q2, as written *)
      | _ => false
      end.

  (** HierarchyCalculator.cpp:442-457 *)
  Definition calcMsfMDRFlag (ab : bool) (h mdr loopOrder : Z) : res (T * T) :=
    let go f1 f2 :=
      do a <- shiftMst1ToMDR p ab h f1 f2;
      do b <- shiftMst2ToMDR p ab h f1 f2;
      Ok (a, b) in
    if (loopOrder =? 1)%Z then go 0%Z 0%Z
    else if (loopOrder =? 2)%Z then go mdr 0%Z
    else if (loopOrder =? 3)%Z then go mdr mdr
    else Throw "There are no tree-level hierarchies included!".

  (** The double arguments of the constructor call for each hierarchy, in order
      (HierarchyCalculator.cpp:540-793), after expansionDepth and before the flags; [None] is the
      default branch of the switch (:795-797). *)
  Definition hier_args (ab : bool) (h : Z) (Msf1 Msf2 : T) : option (list T) :=
    let Mf := fMass p ab in
    let s2f := sfS2 p ab in
    let Msq := calcMeanMsq p in
    let lmMf := nlog (pow2 (scale p / Mf)) in
    let al := calcAsOver4Pi p in
    let beta := calcBeta p in
    let Dmglst1 := MG p - Msf1 in
    let Dmglst2 := MG p - Msf2 in
    let Dmsqst1 := pow2 Msq - pow2 Msf1 in
    let Dmsqst2 := Msq - Msf2 in
    let Dmsf12 := pow2 Msf1 - pow2 Msf2 in
    let lmMsf1 := nlog (pow2 (scale p / Msf1)) in
    let lmMsf2 := nlog (pow2 (scale p / Msf2)) in
    let lmMsq := nlog (pow2 (scale p / calcMeanMsq p)) in
    let lmMgl := nlog (pow2 (scale p / MG p)) in
    let Msusy := (Msf1 + Msf2 + MG p) / #3 in
    let lmMsusy := nlog (pow2 (scale p / Msusy)) in
    let At := if ab then a22 (Ad p) else a22 (Au p) in
    match h with
    | 0%Z  => Some [al; beta; Dmglst1; Dmsf12; Dmsqst1; lmMf; lmMsf1; MG p; Mf; Msf1; Msf2; Msq; mu p; s2f]
    | 1%Z  => Some [al; beta; Dmglst1; Dmsf12; Dmsqst1; lmMf; lmMsf1; Mf; Msf1; Msf2; mu p; s2f]
    | 2%Z  => Some [al; beta; Dmglst1; Dmsf12; Dmsqst1; lmMf; lmMsf1; Mf; Msf1; Msf2; Msq; mu p; s2f]
    | 3%Z  => Some [al; At; beta; lmMf; lmMsq; lmMsusy; Mf; Msusy; Msq]
    | 4%Z  => Some [al; beta; Dmglst1; lmMf; lmMsf1; lmMsf2; lmMsq; Mf; Msf1; Msf2; Msq; mu p; s2f]
    | 5%Z  => Some [al; beta; Dmglst1; lmMf; lmMsf1; lmMsf2; lmMsq; MG p; Mf; Msf1; Msf2; Msq; mu p; s2f]
    | 6%Z  => Some [al; beta; Dmglst2; lmMf; lmMsf1; lmMsf2; lmMsq; Mf; Msf1; Msf2; Msq; mu p; s2f]
    | 11%Z => Some [al; beta; Dmglst2; lmMf; lmMsf1; lmMsf2; lmMsq; MG p; Mf; Msf1; Msf2; Msq; mu p; s2f]
    | 7%Z  => Some [al; beta; Dmglst2; Dmsqst2; lmMf; lmMsf1; lmMsf2; Mf; Msf1; Msf2; mu p; s2f]
    | 8%Z  => Some [al; beta; Dmglst2; Dmsqst2; lmMf; lmMsf1; lmMsf2; MG p; Mf; Msf1; Msf2; mu p; s2f]
    | 9%Z  => Some [al; beta; Dmglst2; Dmsqst2; lmMf; lmMsf1; lmMsf2; Mf; Msf1; Msf2; Msq; mu p; s2f]
    | 10%Z => Some [al; beta; Dmglst2; Dmsqst2; lmMf; lmMsf1; lmMsf2; MG p; Mf; Msf1; Msf2; Msq; mu p; s2f]
    | 12%Z => Some [al; beta; Dmsf12; Dmsqst1; lmMf; lmMgl; lmMsf1; MG p; Mf; Msf1; Msf2; mu p; s2f]
    | 13%Z => Some [al; beta; Dmsf12; Dmsqst1; lmMf; lmMgl; lmMsf1; MG p; Mf; Msf1; Msf2; Msq; mu p; s2f]
    | _ => None
    end.

  (** one pass of the loop :528-800: the self energies of one loop order *)
  Definition hier_order (d : Depth) (ab : bool) (h mdr loopOrder : Z) : res (HierOut T * T) :=
    do (Msf1, Msf2) <- calcMsfMDRFlag ab h mdr loopOrder;
    match hier_args ab h Msf1 Msf2 with
    | None => Throw "calculateHierarchy: non-handled hierarchy"
    | Some args =>
        let fl n := if (loopOrder =? n)%Z then 1%Z else 0%Z in
        Ok (env_hier X h d args mdr (fl 1%Z) (fl 2%Z) (fl 3%Z), nlog (pow2 (scale p / Msf1)))
    end.

  (** HierarchyCalculator.cpp:477-815: (changed ho, returned matrix) *)
  Definition calculateHierarchy (d : Depth) (ho : HO T) (l1 l2 l3 : Z) : res (HO T * mat2 T) :=
    let ab := isAlphab ho in
    let h := hierarchy ho in
    let onlyThreeLoop := (l1 =? 0)%Z && (l2 =? 0)%Z && (l3 =? 1)%Z in
    let step (st : res (HO T * T * T * T)) (order flag : Z) : res (HO T * T * T * T) :=
      do (o, s11, s22, s12) <- st;
      if (flag =? 0)%Z then Ok (o, s11, s22, s12)
      else
        do (out, lm) <- hier_order d (isAlphab o) h (mdrFlag o) order;
        do o <- (if onlyThreeLoop then
                   let c := coef0 out in
                   do o <- set o (SetDLambdaH3m (c + lm * coef1 out + pow2 lm * coef2 out
                                                 + pow3 lm * coef3 out));
                   set o (SetDLambdaNonLog c)
                 else Ok o);
        Ok (o, s11 + getS1 out, s22 + getS2 out, s12 + getS12 out) in
    do (o, s11, s22, s12) <- step (step (step (Ok (ho, #0, #0, #0)) 1%Z l1) 2%Z l2) 3%Z l3;
    do o <- (if onlyThreeLoop then
               do (a, b) <- calcMsfMDRFlag ab h (mdrFlag o) 3%Z;
               set o (SetMDRMasses (mkV2 a b))
             else Ok o);
    Ok (o, mat2_scale (calcHiggsMassMatrixPrefactor p) (mkM2 s11 s12 s12 s22)).

  (** HierarchyCalculator.cpp:1217-1242 *)
  Definition getMt42L (ab : bool) (h shiftOneLoop shiftTwoLoop : Z) : res (mat2 T) :=
    let theta := sfTheta p ab in
    do a <- shiftMst1ToMDR p ab h shiftOneLoop shiftTwoLoop;
    do b <- shiftMst2ToMDR p ab h shiftOneLoop shiftTwoLoop;
    let '(s00, s01, s11) :=
      env_at_as X (pow2 (fMass p ab)) (MG p) (pow2 a) (pow2 b) (nsin theta) (ncos theta)
        (pow2 (scale p)) (- mu p) (calcTanBeta p) (calcV2 p) (g3 p) 0 in
    Ok (mkM2 s00 s01 s01 s11).

  (** HierarchyCalculator.cpp:1252-1268 *)
  Definition calcDRbarToMDRbarShift (ab : bool) (h : Z) (one two : bool) : res (mat2 T) :=
    do s <- (if one then
               do a <- getMt41L p ab h 1 1; do b <- getMt41L p ab h 0 0;
               Ok (mat2_add mat2_zero (mat2_sub a b))
             else Ok mat2_zero);
    if two then
      do a <- getMt42L ab h 1 1; do b <- getMt42L ab h 0 0;
      Ok (mat2_add s (mat2_sub a b))
    else Ok s.

  (** p_mass_ES, HierarchyCalculator.cpp:211-213, 1358-1360 *)
  Definition p_mass_ES : Params T :=
    mkParams (scale p) (mu p) (g1 p) (g2 p) (g3 p) (vd p) (vu p)
      (mat3_set22 (mq2 p) (pow2 (v1 (MSt p)))) (md2 p) (mat3_set22 (mu2 p) (pow2 (v0 (MSt p))))
      (ml2 p) (me2 p) (Au p) (Ad p) (Ae p) (Yu p) (Yd p) (Ye p)
      (M1 p) (M2 p) (MG p) (MW p) (MZ p) (Mt p) (Mb p) (Mtau p) (MA p)
      (MSt p) (MSb p) (MStau p) (s2t p) (s2b p) (s2tau p) (theta_t p) (theta_b p) (theta_tau p)
      (massLimit3LThreshold p).

  (** HierarchyCalculator.cpp:1337-1421 *)
  Definition calcDeltaLambda3L (ho : HO T) (omitXtOrders : bool) : res (HO T) :=
    let h := hierarchy ho in
    let xtOrder := if xt3_hierarchy h then 3%Z else 4%Z in
    let v2 := calcV2 p in
    let gt2 := #2 * pow2 (Mt p) / v2 in
    let pref := nconst CthreeLoop * gt2 * pow2 (Mt p * pow2 (g3 p)) in
    let q := p_mass_ES in
    do subH3m <- env_eft3 X q true 0 1 0;
    do subEFT <- env_eft3 X q true 0 0 0;
    let xt := if omitXtOrders then xtOrder else 4%Z in
    do a <- env_threshold X q xt LAMBDA_AT_AS2 1;
    do b <- env_threshold X q xt LAMBDA_AT_AS2 0;
    let eftLogs := pref * (a - b) in
    let nonLog := pref * (dLambdaNonLog ho + shiftH3mToDRbarPrimeMh2 p h 0) - subEFT in
    do ho <- set ho (SetDLambdaH3m ((pref * (dLambdaH3m ho + shiftH3mToDRbarPrimeMh2 p h 1) - subH3m) / v2));
    do ho <- set ho (SetDLambdaEFT ((nonLog + eftLogs) / v2));
    do ho <- set ho (SetDLambdaNonLog (nonLog / v2));
    do s10 <- env_msbar_shift X q xt xtOrder 1 0;
    do ho <- set ho (SetDLambdaShift 3 (pref * s10 / v2));
    do ho <- (if omitXtOrders then
                do s11 <- env_msbar_shift X q xt xtOrder 1 1;
                set ho (SetDLambdaEFT (dLambdaEFT ho + pref * (s10 - s11) / v2))
              else Ok ho);
    let xt4Flag := if (xtOrder =? 3)%Z then 1%Z else 0%Z in
    do t <- env_xt_terms X q xt 4 1;
    set ho (SetDLambdaXtUncertainty (nabs (#xt4Flag * pref / v2 * t))).

  (** HierarchyCalculator.cpp:1433-1501; [ho] is a copy, its changes are kept from one call of
      calculateHierarchy to the next (ho_tmp) and dropped at the end *)
  Definition recomputeMh (massMatrix : mat2 T) (l1 l2 l3 : Z) (ho_tmp : HO T) : Calc (HO T * T) :=
    run d <- get_depth;
    run (o, m) <- lift (calculateHierarchy d ho_tmp l1 l2 l3);
    ret (o, calcSmallestEigenvalue (mat2_add massMatrix m)).

  Definition truncations (mother : Z) : list depth_flag :=
    match mother with
    | 0%Z => [DDmglst1; DDmsqst1; DDmst12]
    | 3%Z => [DAt; DlmMsusy; DMsq; DMsusy]
    | 4%Z => [DDmglst1; DMsq]
    | 6%Z => [DDmglst2; DMsq]
    | 7%Z => [DDmglst2; DDmsqst2]
    | 12%Z => [DDmsqst1; DDmst12; DMgl]
    | _ => []
    end.

  Fixpoint sum_truncations (massMatrix : mat2 T) (l1 l2 l3 : Z) (Mh : T) (fs : list depth_flag)
      (ho_tmp : HO T) (unc : T) : Calc T :=
    match fs with
    | [] => ret unc
    | f :: fs =>
        run (o, m) <- temporarily_set f 0 (recomputeMh massMatrix l1 l2 l3 ho_tmp);
        sum_truncations massMatrix l1 l2 l3 Mh fs o (unc + pow2 (Mh - m))
    end.

  Definition getExpansionUncertainty (ho : HO T) (massMatrix : mat2 T) (l1 l2 l3 : Z) : Calc T :=
    temporarily_set DMst 1 (temporarily_set DthreeLoop 1 (
      run (o, Mh) <- recomputeMh massMatrix l1 l2 l3 ho;
      run mother <- lift (getMotherHierarchy (hierarchy ho));
      run u <- sum_truncations massMatrix l1 l2 l3 Mh (truncations mother) o #0;
      ret (nsqrt u))).

  (** HierarchyCalculator.cpp:319-327 *)
  Definition treelvl : mat2 T :=
    let s2b := nsin (#2 * calcBeta p) in
    let tb := calcTanBeta p in
    let a := half * s2b * (pow2 (MZ p) / tb + pow2 (MA p) * tb) in
    let b := half * s2b * (- pow2 (MZ p) - pow2 (MA p)) in
    let c := half * s2b * (pow2 (MZ p) * tb + pow2 (MA p) / tb) in
    mkM2 a b b c.

  (** one suitable candidate, :338-371: (ho, currError, twoLoopError, twoLoopError/Mh2l, exp2L, exp3L) *)
  Definition candidate (ho : HO T) : Calc (HO T * (T * T * T * T * T)) :=
    let ab := isAlphab ho in
    let h := hierarchy ho in
    run Mt41L <- lift (getMt41L p ab h (mdrFlag ho) 0);
    run Mt42L <- lift (getMt42L ab h (mdrFlag ho) 0);
    let Mh2l := calcSmallestEigenvalue (mat2_add (mat2_add treelvl Mt41L) Mt42L) in
    run d <- get_depth;
    run (ho, m) <- lift (calculateHierarchy d ho 0 1 0);
    let Mh2LExpanded := calcSmallestEigenvalue (mat2_add (mat2_add treelvl Mt41L) m) in
    let twoLoopError := nabs (Mh2l - Mh2LExpanded) in
    run exp2L <- getExpansionUncertainty ho (mat2_add treelvl Mt41L) 0 1 0;
    run exp3L <- getExpansionUncertainty ho (mat2_add (mat2_add treelvl Mt41L) Mt42L) 0 0 1;
    run ho <- lift (calcDeltaLambda3L ho true);
    let currError := nsqrt (pow2 (twoLoopError / Mh2l) + pow2 (exp2L / Mh2LExpanded)) in
    ret (ho, (currError, twoLoopError, twoLoopError / Mh2l, exp2L, exp3L)).

  (** body of the loop :330-380 for one hierarchy; state (ho, error, suitableHierarchy) *)
  Definition compare_step (st : HO T * T * Z) (h : Z) : Calc (HO T * T * Z) :=
    let '(ho, error, suitable) := st in
    run ho <- lift (set ho (SetSuitableHierarchy h));
    if isHierarchySuitable (isAlphab ho) h then
      run (ho, (currError, e2, r2, x2, x3)) <- candidate ho;
      if (error <? #0) || (currError <? error) then
        run ho <- lift (
          do ho <- set ho (SetAbsDiff2L e2);
          do ho <- set ho (SetRelDiff2L r2);
          do ho <- set ho (SetDMhExpUncertainty 2 x2);
          set ho (SetDMhExpUncertainty 3 x3));
        ret (ho, currError, h)
      else ret (ho, error, suitable)
    else ret (ho, error, suitable).

  Fixpoint compare_loop (st : HO T * T * Z) (hs : list Z) : Calc (HO T * T * Z) :=
    match hs with
    | [] => ret st
    | h :: hs => run st <- compare_step st h; compare_loop st hs
    end.

  Definition all_hierarchies : list Z := [0;1;2;3;4;5;6;7;8;9;10;11;12;13]%Z.

  (** HierarchyCalculator.cpp:307-386 *)
  Definition compareHierarchies (ho : HO T) : Calc (HO T * Z) :=
    temporarily_set DthreeLoop 0 (temporarily_set DMst 0 (
      run ho <- lift (set ho (SetDMh 0 treelvl));
      run (ho, _, suitable) <- compare_loop (ho, - #1, (-1)%Z) all_hierarchies;
      run ho <- lift (set ho (SetSuitableHierarchy suitable));
      ret (ho, suitable))).

  (** The rest of calculateDMh3L after compareHierarchies, HierarchyCalculator.cpp:180-299, in
      seven consecutive pieces. *)
  (** :182-205: mass matrices, expansion uncertainty, scheme shift *)
  Definition finish_matrices (ho : HO T) : Calc (HO T) :=
    run d <- get_depth;
    run (ho, m3) <- lift (calculateHierarchy d ho 0 0 1);
    run ho <- lift (
      do s <- shiftH3mToDRbarPrime p (isAlphab ho) (hierarchy ho) (mdrFlag ho);
      do ho <- set ho (SetDMh 3 (mat2_add m3 s));
      do m1 <- getMt41L p (isAlphab ho) (hierarchy ho) 0 0;
      do ho <- set ho (SetDMh 1 m1);
      do m2 <- getMt42L (isAlphab ho) (hierarchy ho) 0 0;
      set ho (SetDMh 2 m2));
    run (d0, d1, d2) <- lift (do d0 <- getDMh ho 0; do d1 <- getDMh ho 1; do d2 <- getDMh ho 2; Ok (d0, d1, d2));
    run u3 <- getExpansionUncertainty ho (mat2_add (mat2_add d0 d1) d2) 0 0 1;
    lift (
      do ho <- set ho (SetDMhExpUncertainty 3 u3);
      do ho <- set ho (SetDMhExpUncertainty 1 #0);
      do s <- shiftH3mToDRbarPrime p (isAlphab ho) (hierarchy ho) (mdrFlag ho);
      set ho (SetH3mShift (mat2_neg s))).

  (** :208-247: delta lambda *)
  Definition finish_lambda (ho : HO T) : res (HO T) :=
    let ab := isAlphab ho in
    let v2 := calcV2 p in
    let gt := nconst Csqrt2 * Mt p / nsqrt v2 in
    let q := p_mass_ES in
    let pref_1L := nconst ConeLoop * pow2 (Mt p * gt) in
    let pref_2L := nconst CtwoLoop * pow2 (Mt p * gt * g3 p) in
    do mh2_eft <- env_eft0 X q true;
    do ho <- set ho (SetDLambda 0 (mh2_eft / v2));
    do t1 <- env_threshold X q 4 LAMBDA_AT 1;
    do ho <- set ho (SetDLambda 1 (pref_1L * t1 / v2));
    do t2 <- env_threshold X q 4 LAMBDA_AT_AS 1;
    do ho <- set ho (SetDLambda 2 (pref_2L * t2 / v2));
    do ho <- set ho (SetDLambdaShift 0 #0);
    do ho <- set ho (SetDLambdaShift 1 #0);
    if negb ab then
      do ho <- set ho (SetDLambda 3 (dLambdaEFT ho));
      do l1 <- getDLambda ho 1;
      do y <- env_threshold X q 4 YT_AS 1;
      set ho (SetDLambdaShift 2 (pref_2L * (#(-4) * l1 * y) / v2))
    else
      do ho <- set ho (SetDLambdaH3m #0);
      do ho <- set ho (SetDLambdaEFT #0);
      do ho <- set ho (SetDLambdaNonLog #0);
      do ho <- set ho (SetDLambdaXtUncertainty #0);
      do ho <- set ho (SetDLambda 3 #0);
      set ho (SetDLambdaShift 3 #0).

  (** :249-262: fixed-order masses *)
  Definition finish_fo (ho : HO T) : res (HO T) :=
    do (f0, f1, f2) <- env_fo X p false;
    do ho <- set ho (SetDMh2FO 0 f0);
    do ho <- set ho (SetDMh2FO 1 f1);
    do ho <- set ho (SetDMh2FO 2 f2);
    do ho <- set ho (SetDMh2FO 3 #0);
    do (_, a1, a2) <- env_fo X p true;
    do ho <- set ho (SetDMh2FOAt 0 #0);
    do ho <- set ho (SetDMh2FOAt 1 a1);
    do ho <- set ho (SetDMh2FOAt 2 a2);
    set ho (SetDMh2FOAt 3 #0).

  (** :264-272: EFT masses *)
  Definition finish_eft (ho : HO T) : res (HO T) :=
    do e0 <- env_eft0 X p false;
    do ho <- set ho (SetDMh2EFT 0 e0);
    do e1 <- env_eft1 X p false 1 1;
    do ho <- set ho (SetDMh2EFT 1 e1);
    do e2 <- env_eft2 X p false 1 1;
    do ho <- set ho (SetDMh2EFT 2 e2);
    do e3 <- env_eft3 X p false 1 1 0;
    set ho (SetDMh2EFT 3 (e3 + dLambdaEFT ho * calcV2 p)).

  (** :274-288: shift to the MDR scheme, on a copy of the object *)
  Definition finish_mdr (d : Depth) (ho : HO T) : res (HO T) :=
    do mdr <- set ho (SetMDRFlag 1);
    do s <- calcDRbarToMDRbarShift (isAlphab mdr) (hierarchy mdr) true true;
    do mdr <- set mdr (SetMDRShift s);
    do (mdr, m3) <- calculateHierarchy d mdr 0 0 1;
    do s3 <- shiftH3mToDRbarPrime p (isAlphab mdr) (hierarchy mdr) (mdrFlag mdr);
    do mdr <- set mdr (SetDMh 3 (mat2_add m3 s3));
    do ho <- set ho (SetMDRMasses (mdrMasses mdr));
    do a <- getDMh mdr 3;
    do b <- getDMh ho 3;
    set ho (SetMDRShift (mat2_sub (mat2_add (mdrShift mdr) a) b)).

  (** :290-299: squared masses by perturbative diagonalization *)
  Definition finish_dmh2 (ho : HO T) : res (HO T) :=
    do a0 <- getDMh ho 0; do a1 <- getDMh ho 1; do a2 <- getDMh ho 2; do a3 <- getDMh ho 3;
    let '(x0, x1, x2, x3) := env_pert X a0 a1 a2 a3 in
    do ho <- set ho (SetDMh2 0 x0);
    do ho <- set ho (SetDMh2 1 x1);
    do ho <- set ho (SetDMh2 2 x2);
    do ho <- set ho (SetDMh2 3 x3);
    do ho <- set ho (SetDMh2FO 3 x3);
    set ho (SetDMh2FOAt 3 x3).

  Definition finishDMh3L (ho : HO T) : Calc (HO T) :=
    run ho <- finish_matrices ho;
    run ho <- lift (calcDeltaLambda3L ho false);
    run ho <- lift (finish_lambda ho);
    run ho <- lift (finish_fo ho);
    run ho <- lift (finish_eft ho);
    run d <- get_depth;
    run ho <- lift (finish_mdr d ho);
    lift (finish_dmh2 ho).

  (** HierarchyCalculator.cpp:171-300 *)
  Definition calculateDMh3L (ab : bool) : Calc (HO T) :=
    run ho <- lift (set (newHO ab) (SetMDRFlag 0));
    run (ho, _) <- compareHierarchies ho;
    finishDMh3L ho.

  (** calls a user can make on a calculator object (the const member functions do not
      change expansionDepth); HierarchyCalculator.hpp:34-104 *)
  Inductive call :=
  | CallCalculateDMh3L (ab : bool)
  | CallCompareHierarchies (ho : HO T)
  | CallGetExpansionUncertainty (ho : HO T) (m : mat2 T) (l1 l2 l3 : Z)
  | CallCalculateHierarchy (ho : HO T) (l1 l2 l3 : Z).
  Definition exec_call (c : call) : Calc (option (HO T)) :=
    match c with
    | CallCalculateDMh3L ab => run o <- calculateDMh3L ab; ret (Some o)
    | CallCompareHierarchies ho => run (o, _) <- compareHierarchies ho; ret (Some o)
    | CallGetExpansionUncertainty ho m l1 l2 l3 =>
        run _ <- getExpansionUncertainty ho m l1 l2 l3; ret None
    | CallCalculateHierarchy ho l1 l2 l3 =>
        run d <- get_depth; run (o, _) <- lift (calculateHierarchy d ho l1 l2 l3); ret (Some o)
    end.
End HierCalc.
Arguments call T : clear implicits.

(** HierarchyCalculator.cpp:153-164: constructor (printing not modelled): the validated
    parameters and the initial expansion flags *)
Definition newCalculator {T} {N : Num T} (X : Env T) (p : Params T) : res (Params T * Depth) :=
  do q <- validate (env_eigen X) p;
  Ok (q, depth_ones).
