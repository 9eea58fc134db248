(** * Choice of the mass limit by the constructor of ThresholdCalculator (C33) *)
From Coq Require Import Reals ZArith Bool List Lra Lia.
From Verif Require Import Num NumFacts Except Params HierFormulas LoopFun Thresh ThreshTwo Threshold ThreshSpec.
Import ListNotations.

Section Generic.
  Context {T : Type} {N : Num T}.
  Open Scope num_scope.

  (** "the general formula is numerically unstable" *)
  Definition unstable (exact shifted lim : T) : Prop :=
    nisfin exact = false \/ nisfin shifted = false \/
    ((#1 <? nabs exact) = true /\ (#1 <? nabs shifted) = true) \/
    (nabs (shifted - lim) <? nabs (exact - lim)) = false.
  Lemma unstable_iff e s l : unstable e s l <-> isGeneralStable e s l = false.
  Proof.
    unfold unstable, isGeneralStable. destruct (nisfin e), (nisfin s); cbn [negb orb]; try (split; [reflexivity|tauto]).
    destruct (#1 <? nabs e), (#1 <? nabs s); cbn [andb]; try (split; [reflexivity|tauto]);
    destruct (nabs (s - l) <? nabs (e - l)); split; intros; try reflexivity; try discriminate; try tauto;
    repeat match goal with H : _ \/ _ |- _ => destruct H | H : _ /\ _ |- _ => destruct H end; discriminate.
  Qed.

  (** the pairs declared equal agree: comparison as done by the code, tolerance 1% of mQ3 (mU3 for MU3_EQ_M3) *)
  Definition nearb (ms : list T) (l : Z) : bool :=
    let tol := (if (l =? MU3_EQ_M3)%Z then nth 1 ms (#0) else nth 0 ms (#0)) * ndec 1 2 in
    forallb (fun ij => nabs (nth (fst ij) ms (#0) - nth (snd ij) ms (#0)) <? tol) (declared l).

  (** the limits in the order in which they are tried: each declares at least as much as the ones after it that
      it is compatible with *)
  Definition tried : list Z := [DEGENERATE; MQ3_EQ_MU3_EQ_M3; MQ3_EQ_MU3; MQ3_EQ_M3; MU3_EQ_M3].
  Definition first_near (ms : list T) : option Z := find (nearb ms) tried.

  (** The three numbers compared for a candidate limit [l] *)
  Definition probe (p : Params T) (msq2 : T) (l : Z) : res (T * T * T) :=
    let mQ3 := nsqrt (a22 (mq2 p)) in
    let pref := nconst CtwoLoop * nconst Csqrt2 * Mt p * pow4 (g3 p) / calcV p in
    let half m := mQ3 + nabs (m - mQ3) / #2 in
    let q := with_mU32_m3 p (pow2 (half (nsqrt (a22 (mu2 p))))) (half (MG p)) in
    let msq2' := if (l =? DEGENERATE)%Z then pow2 (half (nsqrt msq2)) else msq2 in
    do a <- getDeltaYtAlphas2 p msq2 l 1;
    do e <- getDeltaYtAlphas2 p msq2 GENERAL 1;
    do s <- getDeltaYtAlphas2 q msq2' GENERAL 1;
    Ok (pref * e, pref * s, pref * a).

  Lemma choose_branch_probe p msq2 l : 
    let mQ3 := nsqrt (a22 (mq2 p)) in
    let pref := nconst CtwoLoop * nconst Csqrt2 * Mt p * pow4 (g3 p) / calcV p in
    choose_branch p msq2 (if (l =? DEGENERATE)%Z then pow2 (mQ3 + nabs (nsqrt msq2 - mQ3) / #2) else msq2) pref
      (pow2 (mQ3 + nabs (nsqrt (a22 (mu2 p)) - mQ3) / #2)) (mQ3 + nabs (MG p - mQ3) / #2) l =
    do x <- probe p msq2 l; let '(e, s, a) := x in Ok (if isGeneralStable e s a then massLimit3LThreshold p else l).
  Proof.
    intros. unfold choose_branch, probe. fold mQ3 pref.
    destruct (getDeltaYtAlphas2 p msq2 l 1); [cbn [bind]|reflexivity].
    destruct (getDeltaYtAlphas2 p msq2 GENERAL 1); [cbn [bind]|reflexivity].
    match goal with |- bind ?x _ = _ => destruct x; reflexivity end.
  Qed.

  Theorem choose_spec p msq2 :
    choose_limit p msq2 =
    match first_near (masses p msq2) with
    | None => Ok (massLimit3LThreshold p)
    | Some l => do x <- probe p msq2 l; let '(e, s, a) := x in Ok (if isGeneralStable e s a then massLimit3LThreshold p else l)
    end.
  Proof.
    unfold choose_limit, first_near, tried, find, nearb, masses.
    cbn [declared forallb Z.eqb Pos.eqb DEGENERATE MQ3_EQ_MU3_EQ_M3 MQ3_EQ_MU3 MQ3_EQ_M3 MU3_EQ_M3 nth fst snd].
    rewrite !andb_true_r, ?andb_assoc.
    pose proof (choose_branch_probe p msq2 DEGENERATE) as E1.
    pose proof (choose_branch_probe p msq2 MQ3_EQ_MU3_EQ_M3) as E2.
    pose proof (choose_branch_probe p msq2 MQ3_EQ_MU3) as E3.
    pose proof (choose_branch_probe p msq2 MQ3_EQ_M3) as E4.
    pose proof (choose_branch_probe p msq2 MU3_EQ_M3) as E5.
    cbv zeta in *. cbn [Z.eqb Pos.eqb DEGENERATE MQ3_EQ_MU3_EQ_M3 MQ3_EQ_MU3 MQ3_EQ_M3 MU3_EQ_M3] in E1, E2, E3, E4, E5.
    repeat match goal with |- (if ?b then _ else _) = _ => destruct b; [assumption|] end.
    reflexivity.
  Qed.
End Generic.
