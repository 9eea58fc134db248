(** * Specification of the hierarchy selection and of calculateDMh3L *)
From Coq Require Import String ZArith List Bool Reals.
From Verif Require Import Num Except HObj Params HierFormulas HierCalc.
Import ListNotations.

(** the 14 hierarchies *)
Definition is_hierarchy (h : Z) : Prop := (0 <= h <= 13)%Z.

(** [h] is a best element of the suitable ones w.r.t. the error [err], the first one on ties *)
Definition best (suitable : Z -> Prop) (err : Z -> R) (h : Z) : Prop :=
  is_hierarchy h /\ suitable h /\
  forall k, is_hierarchy k -> suitable k -> (err h <= err k)%R /\ ((k < h)%Z -> (err h < err k)%R).

(** error table of one candidate *)
Record estimate_t (T : Type) := mkEst {
  est_error : T;    (* sqrt((abs/exact)^2 + (exp2/expanded)^2) *)
  est_abs : T;      (* |exact - expanded| two-loop Higgs mass *)
  est_rel : T;      (* est_abs / exact *)
  est_exp2 : T;     (* expansion uncertainty at two loops *)
  est_exp3 : T      (* expansion uncertainty at three loops *)
}.
Arguments mkEst {T}. Arguments est_error {T}. Arguments est_abs {T}. Arguments est_rel {T}.
Arguments est_exp2 {T}. Arguments est_exp3 {T}.

Section Spec.
  Context {T : Type} {N : Num T}.
  Variables (X : Env T) (p : Params T).

  (** sqrt of the smaller eigenvalue, the light Higgs mass *)
  Definition light_mass (m : mat2 T) : T := calcSmallestEigenvalue X m.

  (** The error estimate of hierarchy [h] for the spectrum, obtained by public calls on a
      calculator with settings [d] and an object like [ho] whose hierarchy is set to [h]:
      exact 1- and 2-loop matrices, the 2-loop matrix expanded in [h], and the expansion
      uncertainties. *)
  Definition estimate (d : Depth) (ho : HO T) (h : Z) : res (estimate_t T) :=
    let ho := with_hierarchy ho h in
    let tree := treelvl p in
    do one <- getMt41L p (isAlphab ho) h (mdrFlag ho) 0;
    do two <- getMt42L X p (isAlphab ho) h (mdrFlag ho) 0;
    do (_, two_expanded) <- calculateHierarchy X p d ho 0 1 0;
    let exact := light_mass (mat2_add (mat2_add tree one) two) in
    let expanded := light_mass (mat2_add (mat2_add tree one) two_expanded) in
    do u2 <- fst (getExpansionUncertainty X p ho (mat2_add tree one) 0 1 0 d);
    do u3 <- fst (getExpansionUncertainty X p ho (mat2_add (mat2_add tree one) two) 0 0 1 d);
    let diff := nabs (nsub exact expanded) in
    Ok (mkEst (nsqrt (nadd (pow2 (ndiv diff exact)) (pow2 (ndiv u2 expanded))))
              diff (ndiv diff exact) u2 u3).

  (** settings during the selection: the two truncation flags are off *)
  Definition selection_depth (d : Depth) : Depth := depth_put (depth_put d DthreeLoop 0) DMst 0.

  (** the mass of [ho] at the given orders with settings [d] *)
  Definition mass_with (ho : HO T) (m : mat2 T) (l1 l2 l3 : Z) (d : Depth) : res T :=
    do (_, c) <- calculateHierarchy X p d ho l1 l2 l3; Ok (light_mass (mat2_add m c)).

  (** calculateDMh3L of an object that has not been through the selection, but is told its result *)
  Definition told (ab : bool) (h : Z) (e : T * T * T) : HO T :=
    let '(a, r, x2) := e in
    let o := newHO ab in
    let o := with_hierarchy o h in
    let o := with_absDiff2L o a in
    let o := with_relDiff2L o r in
    let o := with_expUncertainties o (arr4_put (expUncertainties o) 2 x2) in
    with_dMhMap o (arr4_put (dMhMap o) 0 (treelvl p)).
End Spec.

(** expansion variables of each hierarchy (hep-ph/1005.5709; HierarchyFlags.hpp:38-54) *)
Definition expansion_variables (h : Z) : list depth_flag :=
  if (h <=? 2)%Z then [DDmglst1; DDmsqst1; DDmst12]              (* h3, h32q2g, h3q22g *)
  else if (h =? 3)%Z then [DAt; DlmMsusy; DMsq; DMsusy]          (* h4 *)
  else if (h <=? 5)%Z then [DDmglst1; DMsq]                      (* h5, h5g1 *)
  else if (h =? 6)%Z || (h =? 11)%Z then [DDmglst2; DMsq]        (* h6, h6g2 *)
  else if (h <=? 10)%Z then [DDmglst2; DDmsqst2]                 (* h6b, h6b2qg2, h6bq22g, h6bq2g2 *)
  else [DDmsqst1; DDmst12; DMgl].                                (* h9, h9q2 *)

Fixpoint Rsum_sq (l : list R) : R :=
  match l with [] => 0%R | x :: l => (x * x + Rsum_sq l)%R end.

(** outcome of a list of computations *)
Fixpoint all_ok {A B} (f : A -> res B) (l : list A) : res (list B) :=
  match l with
  | [] => Ok []
  | a :: l => do b <- f a; do bs <- all_ok f l; Ok (b :: bs)
  end.

(** settings used by the expansion uncertainty: the two truncation flags are on *)
Definition full_depth (d : Depth) : Depth := depth_put (depth_put d DMst 1) DthreeLoop 1.

(** [m] is what the loop order [order] contributes: nothing if its flag is 0, otherwise the matrix
    returned by calculateHierarchy with only this order switched on *)
Definition contribution (X : Env R) (p : Params R) (d : Depth) (ho : HO R) (order flag : Z) (m : mat2 R) : Prop :=
  if Z.eq_dec flag 0 then m = mkM2 0%R 0%R 0%R 0%R
  else exists o, calculateHierarchy X p d ho (if (order =? 1)%Z then 1%Z else 0%Z)
                   (if (order =? 2)%Z then 1%Z else 0%Z) (if (order =? 3)%Z then 1%Z else 0%Z) = Ok (o, m).

(** the lowest-numbered suitable hierarchy, binary64 *)
Definition lowest_suitable (lm : Libm) (p : Params F64) ab (h : Z) : Prop :=
  is_hierarchy h /\ @isHierarchySuitable _ (NumF lm) p ab h = true /\
  forall k, is_hierarchy k -> (k < h)%Z -> @isHierarchySuitable _ (NumF lm) p ab k = false.

(** a sequence of calls on one calculator, exceptions caught by the caller: outcomes and final settings *)
Fixpoint session {T} {N : Num T} (X : Env T) (p : Params T) (d : Depth) (cs : list (call T))
  : list (res (option (HO T))) * Depth :=
  match cs with
  | [] => ([], d)
  | c :: cs => let '(r, d') := exec_call X p c d in
               let '(rs, d'') := session X p d' cs in (r :: rs, d'')
  end.

(** the EFT and threshold routines called by the hierarchy calculator do not throw *)
Definition no_throw {T} (X : Env T) : Prop :=
  (forall q f, exists v, env_eft0 X q f = Ok v) /\
  (forall q f a b, exists v, env_eft1 X q f a b = Ok v) /\
  (forall q f a b, exists v, env_eft2 X q f a b = Ok v) /\
  (forall q f a b c, exists v, env_eft3 X q f a b c = Ok v) /\
  (forall q a b c, exists v, env_threshold X q a b c = Ok v) /\
  (forall q a b c e, exists v, env_msbar_shift X q a b c e = Ok v) /\
  (forall q a b c, exists v, env_xt_terms X q a b c = Ok v) /\
  (forall q f, exists v, env_fo X q f = Ok v).

(** a spectrum as the selection sees it *)
Record spectrum (p : Params R) (ab : bool) (m1 m2 mg mq : R) : Prop := {
  sp_m1 : (if ab then v0 (MSb p) else v0 (MSt p)) = m1;
  sp_m2 : (if ab then v1 (MSb p) else v1 (MSt p)) = m2;
  sp_mg : MG p = mg;
  sp_mq : sqrt (Rabs (Rpower (msq2_factors p) (1/10))) = mq
}.

(** What each hierarchy name stands for (Mst1 <= Mst2; "near" compares distances to the gluino):
    which mass ordering must hold when the hierarchy is used.  *)
Definition meaning (h : Z) (m1 m2 mg mq : R) : Prop :=
  (match h with
   | 0%Z => m2 < mg                                    (* h3: gluino above both stops *)
   | 1%Z => mq <= m2 /\ mg < m2                        (* h32q2g *)
   | 2%Z => m2 < mq /\ mg < m2                         (* h3q22g *)
   | 3%Z => mg <= m1 < mq                              (* h4 *)
   | 4%Z => m1 < m2 < mq /\ mg <= m1 /\ Rabs (mg - m1) < Rabs (mg - m2)     (* h5 *)
   | 5%Z => m1 < m2 < mq /\ m1 < mg /\ Rabs (mg - m1) < Rabs (mg - m2)      (* h5g1 *)
   | 6%Z => m1 < m2 < mq /\ mg <= m2 /\ Rabs (m2 - mg) < Rabs (mg - m1)     (* h6 *)
   | 11%Z => m1 < m2 < mq /\ m2 < mg /\ Rabs (m2 - mg) < Rabs (mg - m1)     (* h6g2 *)
   | 7%Z => m1 < m2 /\ mq <= m2 /\ mg <= m2 /\ Rabs (m2 - mg) < Rabs (mg - m1)  (* h6b *)
   | 8%Z => m1 < m2 /\ mq <= m2 /\ m2 < mg /\ Rabs (m2 - mg) < Rabs (mg - m1)   (* h6b2qg2 *)
   | 9%Z => m1 < m2 < mq /\ mg <= m2 /\ Rabs (m2 - mg) < Rabs (mg - m1)     (* h6bq22g *)
   | 10%Z => m1 < m2 < mq /\ m2 < mg /\ Rabs (m2 - mg) < Rabs (mg - m1)     (* h6bq2g2 *)
   | 12%Z => mq <= m2 /\ mg < m1 /\ m2 - m1 < m1 - mg  (* h9 *)
   | 13%Z => m2 < mq /\ mg < m1 /\ m2 - m1 < m1 - mg   (* h9q2 *)
   | _ => False
   end)%R.

(** [m] is a mother hierarchy of [h]: one of the six, and its name is the longest one of the six
    names that starts the name of [h]. *)
Definition is_mother_of (m h : Z) : Prop :=
  let mothers := [0; 3; 4; 6; 7; 12]%Z in
  In m mothers /\ String.prefix (getH3mHierarchyNotation m) (getH3mHierarchyNotation h) = true /\
  forall k, In k mothers -> String.prefix (getH3mHierarchyNotation k) (getH3mHierarchyNotation h) = true ->
    (String.length (getH3mHierarchyNotation k) <= String.length (getH3mHierarchyNotation m))%nat.

(** two-loop change of lambda when y_t is re-expressed in its MS-bar value: lambda(1 loop) ~ y_t^4 and
    y_t(DR') = y_t(MS) (1 + kappa g3^2 y), to first order, sign as in the code *)
Definition msbar_shift_2L (p : Params R) (dlambda1 y : R) : R :=
  (-4 * dlambda1 * (1 / ((4 * PI) * (4 * PI)) * (g3 p * g3 p)) * y)%R.
