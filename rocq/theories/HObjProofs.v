From Coq Require Import String ZArith List Bool Lia Reals Lra.
From Verif Require Import Num Except HObj HObjSpec.
Import ListNotations.
Open Scope Z_scope.

Section P.
  Context {T : Type} {N : Num T}.

  Definition at_def {A} (a : arr4 A) (i : Z) : A :=
    if i =? 0 then e0 a else if i =? 1 then e1 a else if i =? 2 then e2 a else e3 a.

  Definition lookup (o : HO T) (s : slot) : value T :=
    match s with
    | SlAlphab => VBool (isAlphab o)
    | SlHierarchy => VInt (hierarchy o)
    | SlAbsDiff2L => VDouble (absDiff2L o)
    | SlRelDiff2L => VDouble (relDiff2L o)
    | SlExpUncertainty l => VDouble (at_def (expUncertainties o) l)
    | SlDMh l => VMat (at_def (dMhMap o) l)
    | SlDMh2 l => VDouble (at_def (dMh2Map o) l)
    | SlMDRShift => VMat (mdrShift o)
    | SlH3mShift => VMat (h3mShift o)
    | SlMDRMasses => VVec (mdrMasses o)
    | SlMDRFlag => VInt (mdrFlag o)
    | SlScheme => VInt (renormalizationScheme o)
    | SlDLambdaH3m => VDouble (dLambdaH3m o)
    | SlDLambdaEFT => VDouble (dLambdaEFT o)
    | SlDLambdaNonLog => VDouble (dLambdaNonLog o)
    | SlDLambdaXt => VDouble (dLambdaXtUncertainty o)
    | SlDLambda l => VDouble (at_def (dLambdaMap o) l)
    | SlDMh2EFT l => VDouble (at_def (dMh2EFTMap o) l)
    | SlDMh2FO l => VDouble (at_def (dMh2FOMap o) l)
    | SlDMh2FOAt l => VDouble (at_def (dMh2FOAtMap o) l)
    | SlDLambdaShift l => VDouble (at_def (dLambdaShiftMap o) l)
    end.

  Definition valid_slot (s : slot) : bool :=
    match s with
    | SlExpUncertainty l => (1 <=? l) && (l <=? 3)
    | SlDMh l | SlDMh2 l | SlDLambda l | SlDMh2EFT l | SlDMh2FO l | SlDMh2FOAt l | SlDLambdaShift l =>
        (0 <=? l) && (l <=? 3)
    | _ => true
    end.

  Lemma range4 l : 0 <= l <= 3 -> l = 0 \/ l = 1 \/ l = 2 \/ l = 3.
  Proof. lia. Qed.

  Lemma at_put {A} (a : arr4 A) i j x :
    0 <= i <= 3 -> 0 <= j <= 3 -> at_def (arr4_put a i x) j = if Z.eq_dec j i then x else at_def a j.
  Proof.
    intros Hi Hj. apply range4 in Hi. apply range4 in Hj.
    destruct Hi as [->|[->|[->| ->]]]; destruct Hj as [->|[->|[->| ->]]]; reflexivity.
  Qed.

  Lemma set_none o op : spec_write op = None <-> exists m, set o op = Throw m.
  Proof.
    destruct op; cbn -[to_string Z.leb Z.ltb]; unfold put_checked, loop03, loop13;
      cbn -[to_string Z.leb Z.ltb];
      try (split; [discriminate|intros [m' Hm]; discriminate]).
    all: repeat match goal with
      | |- context[(0 <? ?l)] => replace (0 <? l) with (1 <=? l) by (destruct (Z.leb_spec 1 l), (Z.ltb_spec 0 l); lia)
      | |- context[((1 <=? ?l) && (?l <=? 3))%bool] => destruct ((1 <=? l) && (l <=? 3))%bool
      | |- context[((0 <=? ?l) && (?l <=? 3))%bool] => destruct ((0 <=? l) && (l <=? 3))%bool eqn:?
      end; cbn -[to_string Z.leb Z.ltb];
      try (split; [discriminate|intros [m' Hm]; discriminate]);
      try (split; [intros _; eexists; reflexivity|reflexivity]).
    - destruct v. split; [discriminate|intros [m' Hm]; discriminate].
    - destruct (f =? 0), (f =? 1); cbn; (split; [discriminate|intros [m' Hm]; discriminate]) || (split; [intros _; eexists; reflexivity|reflexivity]).
    - destruct (Z.ltb_spec s 0), (Z.leb_spec 4 s); cbn -[to_string]; try lia.
      split; [discriminate|intros [m' Hm]; discriminate].
    - destruct (Z.ltb_spec s 0), (Z.leb_spec 4 s); cbn -[to_string]; try lia; (split; [intros _; eexists; reflexivity|reflexivity]).
  Qed.

  Lemma slot_eq_refl (s : slot) {A} (x y : A) : (if slot_eq_dec s s then x else y) = x.
  Proof. destruct (slot_eq_dec s s); congruence. Qed.

  Lemma exec1_lookup o op s :
    valid_slot s = true ->
    lookup (exec1 o op) s =
    match spec_write op with
    | Some (s', v) => if slot_eq_dec s s' then v else lookup o s
    | None => lookup o s
    end.
  Proof.
    intros Hs. unfold exec1.
    destruct (spec_write op) as [[s' v]|] eqn:E.
    2:{ apply (proj1 (set_none o op)) in E. destruct E as [m E]. rewrite E. reflexivity. }
    destruct op; cbn -[to_string Z.leb Z.ltb] in E |- *;
      unfold put_checked, loop03, loop13 in *;
      cbn -[to_string Z.leb Z.ltb] in E |- *.
    all: try (injection E as <- <-; destruct (slot_eq_dec s _) as [->|Hn];
              [reflexivity | destruct s; try reflexivity; congruence]).
    all: try (match type of E with (if ?c then _ else _) = _ => destruct c eqn:Hc; [|discriminate] end;
      injection E as <- <-; apply andb_prop in Hc as [H1 H2];
      apply Z.leb_le in H1; apply Z.leb_le in H2;
      try (replace (0 <? loops) with true by (symmetry; apply Z.ltb_lt; lia));
      try (replace (0 <=? loops) with true by (symmetry; apply Z.leb_le; lia));
      try (replace (loops <=? 3) with true by (symmetry; apply Z.leb_le; lia));
      cbn -[to_string Z.leb Z.ltb];
      destruct s as [ | | | |l|l|l| | | | | | | | | |l|l|l|l|l];
      try (destruct (slot_eq_dec _ _) as [He|He]; [discriminate He|]; reflexivity);
      cbn [valid_slot] in Hs; apply andb_prop in Hs as [Hs1 Hs2];
      apply Z.leb_le in Hs1; apply Z.leb_le in Hs2;
      cbn -[at_def arr4_put slot_eq_dec]; rewrite at_put by lia;
      destruct (Z.eq_dec l loops) as [->|Hn];
      [rewrite slot_eq_refl; reflexivity
      |destruct (slot_eq_dec _ _) as [He|He]; [injection He; congruence|reflexivity]]).
    - match goal with w : vec2 T |- _ => destruct w as [a b] end. injection E as <- <-.
      destruct (slot_eq_dec s _) as [->|Hn].
      + cbn. unfold sortVector; cbn. destruct (nltb b a); reflexivity.
      + destruct s; try reflexivity; congruence.
    - destruct (f =? 0) eqn:E0; destruct (f =? 1) eqn:E1; cbn in E; try discriminate;
        injection E as <- <-; cbn;
        (destruct (slot_eq_dec s _) as [->|Hn]; [reflexivity | destruct s; try reflexivity; congruence]).
    - destruct (Z.leb_spec 0 s0); cbn in E; [|discriminate].
      destruct (Z.leb_spec s0 3); cbn in E; [|discriminate]. injection E as <- <-.
      destruct (Z.ltb_spec s0 0), (Z.leb_spec 4 s0); try lia; cbn -[to_string].
      destruct (slot_eq_dec s _) as [->|Hn]; [reflexivity | destruct s; try reflexivity; congruence].
  Qed.

  Lemma lookup_init ab s : lookup (newHO ab) s = spec_init ab s.
  Proof.
    destruct s; cbn; unfold at_def, mat2_zero; cbn; try reflexivity;
      repeat match goal with |- context[if ?c then _ else _] => destruct c end; reflexivity.
  Qed.

  Lemma exec_lookup hist : forall o s, valid_slot s = true ->
    lookup (exec o hist) s = match last_write hist s with Some v => v | None => lookup o s end.
  Proof.
    induction hist as [|op rest IH]; intros o s Hs; cbn [exec fold_left last_write]; [reflexivity|].
    change (fold_left exec1 rest (exec1 o op)) with (exec (exec1 o op) rest).
    rewrite IH by assumption. rewrite exec1_lookup by assumption.
    destruct (last_write rest s); [reflexivity|].
    destruct (spec_write op) as [[s' v]|]; [|reflexivity].
    destruct (slot_eq_dec s s'); reflexivity.
  Qed.

  Lemma spec_read_valid g s : spec_read g = Some s -> valid_slot s = true.
  Proof.
    destruct g; cbn -[Z.leb]; intros E;
      try (injection E as <-; reflexivity);
      match type of E with (if ?c then _ else _) = _ => destruct c eqn:Hc; [|discriminate] end;
      injection E as <-; exact Hc.
  Qed.

  Lemma at_checked_ok {A} (ok : Z -> bool) (a : arr4 A) l m :
    (forall x, ok x = true -> 0 <= x <= 3) -> ok l = true -> at_checked ok a l m = Ok (at_def a l).
  Proof.
    intros H Hl. unfold at_checked. rewrite Hl. apply H in Hl. apply range4 in Hl.
    destruct Hl as [->|[->|[->| ->]]]; reflexivity.
  Qed.
  Lemma loop03_range x : loop03 x = true -> 0 <= x <= 3.
  Proof. unfold loop03. rewrite andb_true_iff, !Z.leb_le. lia. Qed.
  Lemma loop13_range x : loop13 x = true -> 0 <= x <= 3.
  Proof. unfold loop13. rewrite andb_true_iff, Z.leb_le, Z.ltb_lt. lia. Qed.
  Lemma loop13_eq l : loop13 l = (1 <=? l) && (l <=? 3).
  Proof. unfold loop13. destruct (Z.leb_spec 1 l), (Z.ltb_spec 0 l); lia || reflexivity. Qed.

  Lemma get_lookup o g :
    match spec_read g with
    | Some s => get o g = Ok (lookup o s)
    | None => exists m, get o g = Throw m
    end.
  Proof.
    destruct g; cbn -[to_string Z.leb at_checked]; try reflexivity;
    unfold getDMhExpUncertainty, getDMh, getDMh2, getDLambda, getDMh2EFTAt, getDMh2FO, getDMh2FOAt, getDLambdaShift.
    all: match goal with
      | |- context[at_checked loop13 _ ?l ?m] =>
          rewrite <- loop13_eq; destruct (loop13 l) eqn:El;
          [rewrite at_checked_ok by (auto using loop13_range); reflexivity
          |unfold at_checked; rewrite El; cbn; eauto]
      | |- context[at_checked loop03 _ ?l ?m] =>
          change ((0 <=? l) && (l <=? 3))%bool with (loop03 l); destruct (loop03 l) eqn:El;
          [rewrite at_checked_ok by (auto using loop03_range); reflexivity
          |unfold at_checked; rewrite El; cbn; eauto]
      end.
  Qed.

  (** C01 *)
  Lemma registers ab hist g s :
    spec_read g = Some s -> get (exec (newHO ab) hist) g = Ok (spec_value ab hist s).
  Proof.
    intros E. pose proof (get_lookup (exec (newHO ab) hist) g) as H. rewrite E in H. rewrite H.
    rewrite exec_lookup by (eauto using spec_read_valid). rewrite lookup_init. reflexivity.
  Qed.
  Lemma frame (o : HO T) op g s :
    spec_read g = Some s ->
    (forall s' v, spec_write op = Some (s', v) -> s' <> s) -> get (exec1 o op) g = get o g.
  Proof.
    intros E H. pose proof (get_lookup (exec1 o op) g) as H1. pose proof (get_lookup o g) as H2.
    rewrite E in *. rewrite H1, H2. rewrite exec1_lookup by (eauto using spec_read_valid).
    destruct (spec_write op) as [[s' v]|]; [|reflexivity].
    destruct (slot_eq_dec s s') as [->|]; [|reflexivity]. destruct (H s' v eq_refl eq_refl).
  Qed.
  (** C02 *)
  Lemma getter_rejects (o : HO T) g : spec_read g = None <-> exists m, get o g = Throw m.
  Proof.
    pose proof (get_lookup o g) as H. destruct (spec_read g).
    - split; [discriminate|]. intros [m Hm]. congruence.
    - tauto.
  Qed.
  Lemma rejected_unchanged (o : HO T) op : spec_write op = None -> exec1 o op = o.
  Proof. intros E. apply (proj1 (set_none o op)) in E as [m E]. unfold exec1. rewrite E. reflexivity. Qed.

  Lemma uncertainty_range (o : HO T) l :
    (exists m, getDLambdaUncertainty o l = Throw m) <-> ~ (0 <= l <= 3).
  Proof.
    unfold getDLambdaUncertainty.
    destruct (Z.leb_spec 0 l), (Z.leb_spec l 2), (Z.eqb_spec l 3); cbn -[to_string];
      (split; [intros [m Hm]; try discriminate; lia | intros; eauto; lia]).
  Qed.
  Lemma uncertainty_low (o : HO T) l : 0 <= l <= 2 -> getDLambdaUncertainty o l = Ok (nint 0).
  Proof.
    intros H. unfold getDLambdaUncertainty.
    destruct (Z.leb_spec 0 l), (Z.leb_spec l 2); try lia; reflexivity.
  Qed.
End P.

(** C03 *)
Definition permutation2 {T} (v w : vec2 T) : Prop :=
  w = v \/ w = mkV2 (v1 v) (v0 v).
Lemma sort_perm {T} {N : Num T} (v : vec2 T) : permutation2 v (sortVector v).
Proof. unfold permutation2, sortVector. destruct (nltb _ _); auto. Qed.
Lemma sort_idem_R (v : vec2 R) : sortVector (sortVector v) = sortVector v.
Proof.
  unfold sortVector; cbn; unfold Rltb. destruct (Rlt_dec (v1 v) (v0 v)) as [H|H]; cbn.
  - destruct (Rlt_dec (v0 v) (v1 v)); [lra|reflexivity].
  - destruct (Rlt_dec (v1 v) (v0 v)); [contradiction|reflexivity].
Qed.
Lemma sort_R (v : vec2 R) : sortVector v = mkV2 (Rmin (v0 v) (v1 v)) (Rmax (v0 v) (v1 v)).
Proof.
  unfold sortVector; cbn; unfold Rltb, Rmin, Rmax.
  destruct (Rlt_dec (v1 v) (v0 v)); destruct (Rle_dec (v0 v) (v1 v)); try lra; destruct v; reflexivity.
Qed.

From Coq Require Import Floats.SpecFloat.
(** comparison of binary64 numbers is antisymmetric: never both a < b and b < a *)
Lemma SFcompare_antisym (a b : spec_float) :
  SFcompare b a = match SFcompare a b with Some c => Some (CompOpp c) | None => None end.
Proof.
  destruct a as [[]|[]| |[] m e], b as [[]|[]| |[] m' e']; try reflexivity; cbn -[Z.compare Pcompare].
  - rewrite (Z.compare_antisym e e'). destruct (e ?= e')%Z; cbn -[Pcompare]; try reflexivity.
    f_equal. change Eq with (CompOpp Eq) at 1. rewrite <- Pos.compare_cont_antisym.
    destruct (Pos.compare_cont _ _ _); reflexivity.
  - rewrite (Z.compare_antisym e e'). destruct (e ?= e')%Z; cbn -[Pcompare]; try reflexivity.
    f_equal. change Eq with (CompOpp Eq) at 1. rewrite <- Pos.compare_cont_antisym. reflexivity.
Qed.
Lemma SFltb_asym a b : SFltb a b = true -> SFltb b a = false.
Proof.
  unfold SFltb. rewrite (SFcompare_antisym a b). destruct (SFcompare a b) as [[]|]; try discriminate; reflexivity.
Qed.
Lemma SF_notlt_le a b : F64isnan a = false -> F64isnan b = false -> SFltb b a = false -> SFleb a b = true.
Proof.
  unfold SFltb, SFleb. rewrite (SFcompare_antisym a b). intros Ha Hb.
  destruct (SFcompare a b) as [[]|] eqn:E; try reflexivity; try discriminate.
  destruct a, b; cbn in *; try discriminate; repeat match goal with b : bool |- _ => destruct b end; discriminate.
Qed.
Lemma SFltb_le a b : SFltb a b = true -> SFleb a b = true.
Proof. unfold SFltb, SFleb. destruct (SFcompare a b) as [[]|]; congruence. Qed.

Lemma sort_idem_F lm (v : vec2 F64) : let _ := NumF lm in sortVector (sortVector v) = sortVector v.
Proof.
  unfold sortVector; cbn. destruct (SFltb (v1 v) (v0 v)) eqn:E; cbn; [|rewrite E; reflexivity].
  rewrite (SFltb_asym _ _ E). reflexivity.
Qed.
Lemma sort_F_sorted lm (v : vec2 F64) : let _ := NumF lm in
  F64isnan (v0 v) = false -> F64isnan (v1 v) = false ->
  SFleb (v0 (sortVector v)) (v1 (sortVector v)) = true.
Proof.
  unfold sortVector; cbn. intros H0 H1. destruct (SFltb (v1 v) (v0 v)) eqn:E; cbn.
  - apply SFltb_le, E.
  - apply SF_notlt_le; assumption.
Qed.

(** C04 over the reals *)
Lemma uncertainty_R (o : HO R) u : getDLambdaUncertainty o 3 = Ok u ->
  (u = Rabs (dLambdaXtUncertainty o) + Rabs (dLambdaEFT o - dLambdaH3m o) /\ 0 <= u /\
  Rabs (dLambdaXtUncertainty o) <= u /\ Rabs (dLambdaEFT o - dLambdaH3m o) <= u /\
  (u = 0 <-> dLambdaXtUncertainty o = 0 /\ dLambdaEFT o = dLambdaH3m o))%R.
Proof.
  cbn. intros E. injection E as <-.
  pose proof (Rabs_pos (dLambdaXtUncertainty o)). pose proof (Rabs_pos (dLambdaEFT o - dLambdaH3m o)).
  repeat split; try lra.
  - destruct (Req_dec (dLambdaXtUncertainty o) 0) as [|Hn]; [assumption|].
    apply Rabs_pos_lt in Hn. lra.
  - destruct (Req_dec (dLambdaEFT o - dLambdaH3m o) 0) as [|Hn]; [lra|].
    apply Rabs_pos_lt in Hn. lra.
  - intros [-> ->]. rewrite Rminus_diag_eq by reflexivity. rewrite Rabs_R0. lra.
Qed.

(** C05 *)
Definition names14 : list string := map getH3mHierarchyNotation (map Z.of_nat (seq 0 14)).
Lemma notation_out_of_range h : ~ (0 <= h <= 13) ->
  getH3mHierarchyNotation h = ("Hierarchy " ++ to_string h ++ " not included")%string.
Proof.
  intros H. unfold getH3mHierarchyNotation.
  destruct h as [|p|p]; [lia| |reflexivity].
  do 4 (destruct p as [p|p|]; try reflexivity; try lia).
Qed.
Lemma range14 h : 0 <= h <= 13 -> In h (map Z.of_nat (seq 0 14)).
Proof.
  intros H. apply in_map_iff. exists (Z.to_nat h). split; [lia|]. apply in_seq. lia.
Qed.
Lemma notation_injective h1 h2 : 0 <= h1 <= 13 ->
  getH3mHierarchyNotation h1 = getH3mHierarchyNotation h2 -> h1 = h2.
Proof.
  intros H1 E.
  assert (D : {0 <= h2 <= 13} + {~ (0 <= h2 <= 13)}).
  { destruct (Z_le_dec 0 h2), (Z_le_dec h2 13); auto; right; lia. }
  destruct D as [H2|H2].
  - apply range14 in H1. apply range14 in H2. cbn in H1, H2.
    repeat (destruct H1 as [<-|H1]; [repeat (destruct H2 as [<-|H2]; [reflexivity || discriminate E|]); destruct H2|]).
    destruct H1.
  - rewrite (notation_out_of_range h2 H2) in E. apply range14 in H1. cbn in H1.
    repeat (destruct H1 as [<-|H1]; [cbn -[to_string] in E; discriminate E|]). destruct H1.
Qed.
