(** * C44, C45: the Mathematica interface *)
From Coq Require Import String Ascii ZArith List Bool Lia Floats.SpecFloat Reals Lra.
From Verif Require Import Num Except HObj Params LibraryLink.
Import ListNotations.
Local Open Scope list_scope.

(** ** Specification *)

(** Mathematica expressions, and the sequence of items that transmits one over a link *)
Inductive expr (T : Type) :=
| EApply (head : string) (args : list (expr T))
| ESymbol (s : string)
| EString (s : string)
| EInteger (z : Z)
| EReals (l : list T)
| EMatrix (m : mat2 T).
Arguments EApply {T}. Arguments ESymbol {T}. Arguments EString {T}. Arguments EInteger {T}.
Arguments EReals {T}. Arguments EMatrix {T}.

Fixpoint items {T} (e : expr T) : list (tok T) :=
  match e with
  | EApply h args => TFunction h (length args) :: flat_map items args
  | ESymbol s => [TSymbol s]
  | EString s => [TString s]
  | EInteger z => [TInteger z]
  | EReals l => [TRealList l]
  | EMatrix m => [TArray2 m]
  end.

(** "msg1; msg2; ...; e" *)
Definition announce {T} (f : string) (msg : string) (e : expr T) : expr T :=
  EApply "CompoundExpression" [EApply f [EString msg]; e].
Definition after_messages {T} (msgs : list string) (e : expr T) : expr T :=
  fold_right (announce "HimalayaInfoMessage") e msgs.
(** the value of CompoundExpression[a, b] is the value of b *)
Fixpoint final_value {T} (e : expr T) : expr T :=
  match e with
  | EApply h [_; e'] => if String.eqb h "CompoundExpression" then final_value e' else e
  | _ => e
  end.

Definition rule {T} (name : string) (v : expr T) : expr T := EApply "Rule" [ESymbol name; v].
Definition four {T} (a : arr4 T) : expr T := EReals [e0 a; e1 a; e2 a; e3 a].
Definition zero3l {T} {N : Num T} (m : mat2 T) : expr T :=
  EApply "List" [EMatrix mat2_zero; EMatrix mat2_zero; EMatrix mat2_zero; EMatrix m].
(** what the documentation promises: a list of replacement rules, one per quantity, with {0L,1L,2L,3L} entries *)
Definition result_list {T} {N : Num T} (r : Results T) : expr T :=
  let ho := r_ho r in
  EApply "List"
    [ rule "hierarchyID" (EInteger (HObj.hierarchy ho));
      rule "hierarchyName" (ESymbol (getH3mHierarchyNotation (HObj.hierarchy ho)));
      rule (if isAlphab ho then "MsbottomMDRPrime" else "MstopMDRPrime")
           (EReals [v0 (mdrMasses ho); v1 (mdrMasses ho)]);
      rule "Mh2" (EApply "List" (map EMatrix [e0 (dMhMap ho); e1 (dMhMap ho); e2 (dMhMap ho); e3 (dMhMap ho)]));
      rule "Mh2ShiftDRbarPrimeToMDRPrime" (zero3l (mdrShift ho));
      rule "Mh2ShiftDRbarPrimeToH3m" (zero3l (h3mShift ho));
      rule "expansionUncertainty"
           (EReals [nint 0; e1 (expUncertainties ho); e2 (expUncertainties ho); e3 (expUncertainties ho)]);
      rule "Mh2EFTAt" (four (r_eft r));
      rule "Mh2FO" (four (r_fo r));
      rule "Mh2FOAt" (four (r_fo_dom r));
      rule "lambda" (four (dLambdaMap ho));
      rule "lambdaUncertainty"
           (EReals [nint 0; nint 0; nint 0;
                    nadd (nabs (dLambdaXtUncertainty ho)) (nabs (nsub (dLambdaEFT ho) (dLambdaH3m ho)))]);
      rule "lambdaShiftDRbarPrimeToMSbar" (four (dLambdaShiftMap ho)) ].

(** the lines of a text: separated (or ended) by newlines *)
Fixpoint has_newline (s : string) : bool :=
  match s with EmptyString => false | String c r => Ascii.eqb c newline || has_newline r end.
Fixpoint unlines (l : list string) : string :=
  match l with [] => EmptyString | x :: r => (x ++ String newline (unlines r))%string end.
Definition are_lines_of (l : list string) (s : string) : Prop :=
  Forall (fun x => has_newline x = false) l
  /\ (unlines l = s \/ unlines l = (s ++ String newline EmptyString)%string).

(** ** Proofs *)

Section ExprInd.
  Context {T : Type} (P : expr T -> Prop).
  Hypothesis HA : forall h args, Forall P args -> P (EApply h args).
  Hypothesis H1 : forall s, P (ESymbol s).
  Hypothesis H2 : forall s, P (EString s).
  Hypothesis H3 : forall z, P (EInteger z).
  Hypothesis H4 : forall l, P (EReals l).
  Hypothesis H5 : forall m, P (EMatrix m).
  Fixpoint expr_ind' (e : expr T) : P e :=
    match e with
    | EApply h args =>
        HA h args ((fix go l : Forall P l :=
                      match l with [] => Forall_nil P | x :: r => Forall_cons x (expr_ind' x) (go r) end) args)
    | ESymbol s => H1 s | EString s => H2 s | EInteger z => H3 z | EReals l => H4 l | EMatrix m => H5 m
    end.
End ExprInd.

(** No expression is a proper prefix of another: the items on the link determine the expression. *)
Lemma items_prefix_free {T} : forall (e1 e2 : expr T) r1 r2,
  items e1 ++ r1 = items e2 ++ r2 -> e1 = e2 /\ r1 = r2.
Proof.
  induction e1 as [h args IH|s|s|z|l|m] using expr_ind'; intros [h' args'|s'|s'|z'|l'|m'] r1 r2;
    cbn [items app]; try discriminate.
  2-6: intros HH; injection HH; intros; subst; split; reflexivity.
  intros HH. injection HH. intros HH2 Hlen Hh. subst h'.
  assert (G : args = args' /\ r1 = r2).
  { clear HH. revert args' Hlen HH2. induction IH as [|x l Hx Hl IHl]; intros [|y l'] Hlen HH2;
      cbn in Hlen; try discriminate.
    - split; [reflexivity|exact HH2].
    - cbn [flat_map] in HH2. rewrite <- !app_assoc in HH2. apply Hx in HH2. destruct HH2 as [-> HH2].
      apply IHl in HH2; [|lia]. destruct HH2 as [-> ->]. split; reflexivity. }
  destruct G as [-> ->]. split; reflexivity.
Qed.

Lemma getline_lines s l r : getline s = Some (l, r) ->
  has_newline l = false /\ (String.length r < String.length s)%nat /\
  (s = (l ++ String newline r)%string \/ (s = l /\ r = EmptyString)).
Proof.
  revert l r. induction s as [|c s IH]; cbn [getline]; intros l r HH; [discriminate|].
  destruct (Ascii.eqb c newline) eqn:Ec.
  - injection HH. intros. subst. apply Ascii.eqb_eq in Ec. subst c. cbn. repeat split; [lia|left; reflexivity].
  - destruct (getline s) as [[l' r']|] eqn:G.
    + injection HH. intros. subst. destruct (IH _ _ eq_refl) as (A & B & C).
      cbn. rewrite Ec, A. repeat split; [lia|]. destruct C as [C|[C1 C2]].
      * left. rewrite C. reflexivity.
      * right. subst. split; reflexivity.
    + injection HH. intros. subst. cbn. rewrite Ec.
      assert (s = EmptyString) as ->.
      { destruct s as [|c2 s2]; [reflexivity|]. cbn [getline] in G. destruct (Ascii.eqb c2 newline); [discriminate|].
        destruct (getline s2) as [[? ?]|]; discriminate. }
      repeat split; [cbn; lia|]. right. split; reflexivity.
Qed.
Lemma getline_none s : getline s = None -> s = EmptyString.
Proof.
  destruct s as [|c r]; [reflexivity|]. cbn [getline]. destruct (Ascii.eqb c newline); [discriminate|].
  destruct (getline r) as [[? ?]|]; discriminate.
Qed.

Lemma append_assoc a b c : ((a ++ b) ++ c)%string = (a ++ (b ++ c))%string.
Proof. induction a as [|x a IH]; cbn; [reflexivity|now rewrite IH]. Qed.

Lemma getlines_spec s n : (String.length s <= n)%nat -> are_lines_of (getlines n s) s.
Proof.
  revert s. induction n as [|n IH]; intros s Hn.
  - destruct s; cbn in Hn; [|lia]. split; [constructor|left; reflexivity].
  - cbn [getlines]. destruct (getline s) as [[l r]|] eqn:G.
    + destruct (getline_lines _ _ _ G) as (A & B & C). destruct (IH r ltac:(lia)) as [F D].
      split; [constructor; [exact A|exact F]|]. cbn [unlines].
      destruct C as [-> | [-> ->]].
      * destruct D as [-> | ->]; [left|right]; rewrite ?append_assoc; reflexivity.
      * right. f_equal. assert (getlines n EmptyString = []) as -> by (destruct n; reflexivity). reflexivity.
    + apply getline_none in G. subst. split; [constructor|left; reflexivity].
Qed.

Section C45.
  Context {T : Type} {N : Num T}.

  Lemma items_after_messages (msgs : list string) (e : expr T) :
    items (after_messages msgs e) = flat_map (put_message "HimalayaInfoMessage") msgs ++ items e.
  Proof.
    induction msgs as [|m r IH]; [reflexivity|].
    change (after_messages (m :: r) e) with (announce "HimalayaInfoMessage" m (after_messages r e)).
    cbn [flat_map]. rewrite <- app_assoc, <- IH. unfold announce, put_message.
    cbn [items flat_map length app]. rewrite app_nil_r. reflexivity.
  Qed.
  Lemma final_after_messages (msgs : list string) (e : expr T) :
    final_value (after_messages msgs e) = final_value e.
  Proof. induction msgs as [|m r IH]; [reflexivity|]. cbn. exact IH. Qed.

  Lemma run_put_result (r : Results T) : run_puts (put_result r) = (items (result_list r), None).
  Proof.
    destruct r as [ho eft fo fod]. unfold put_result, result_list, rule, four, zero3l.
    destruct (isAlphab ho) eqn:E; cbv zeta; cbn -[getH3mHierarchyNotation]; rewrite E; reflexivity.
  Qed.

  (** The three ways the calculation can end, for a given input *)
  Definition ends (E : EigenLib T) (toint : T -> Z) (calculate : Data T -> outcome (Results T))
      (arg : option (list (option T))) (newpacket : bool) : outcome (Results T) :=
    match read_list arg newpacket with
    | Throw m => ThrowsStd m
    | Ok v => match make_data E toint v with Throw m => ThrowsStd m | Ok d => calculate d end
    end.
  Definition failure (msg : string) : expr T := announce "HimalayaErrorMessage" msg (ESymbol "$Failed").
End C45.

Theorem C45 {T : Type} {N : Num T} (E : EigenLib T) (toint : T -> Z) (calculate : Data T -> outcome (Results T))
    (argc : Z) (arg : option (list (option T))) (newpacket : bool) (log_calc log_put : string) :
  let eff := HimalayaCalculateDMh3L E toint calculate argc arg newpacket log_calc log_put in
  (argc <> 1%Z -> on_link eff = [] /\ no_error eff = false /\ redirected eff = false)
  /\ (argc = 1%Z -> no_error eff = true /\ redirected eff = false /\
      exists msgs e, are_lines_of msgs log_calc
        /\ on_link eff = items (after_messages msgs e)
        /\ final_value (after_messages msgs e)
           = match ends E toint calculate arg newpacket with Returns r => result_list r | _ => ESymbol "$Failed" end
        /\ e = match ends E toint calculate arg newpacket with
               | Returns r => result_list r
               | ThrowsStd m => failure m
               | ThrowsOther => failure "An unknown exception has been thrown."
               end
        /\ (end_packet eff = true <-> exists r, ends E toint calculate arg newpacket = Returns r)).
Proof.
  cbv zeta. unfold HimalayaCalculateDMh3L. split; intros Ha.
  - apply Z.eqb_neq in Ha. rewrite Ha. cbn. repeat split.
  - subst argc. cbn [Z.eqb negb]. unfold ends. unfold bind at 1.
    change (match read_list arg newpacket with
            | Ok v => make_data E toint v | Throw m => Throw m end)
      with (do v <- read_list arg newpacket; make_data E toint v).
    assert (L : are_lines_of (getlines (String.length log_calc) log_calc) log_calc)
      by (apply getlines_spec; lia).
    set (o := match (do v <- read_list arg newpacket; make_data E toint v) with
              | Ok d => calculate d | Throw m => ThrowsStd m end).
    assert (Ho : match read_list arg newpacket with
                 | Ok v => match make_data E toint v with Ok d => calculate d | Throw m => ThrowsStd m end
                 | Throw m => ThrowsStd m end = o).
    { unfold o. destruct (read_list arg newpacket) as [v|m]; [|reflexivity]. cbn [bind].
      destruct (make_data E toint v); reflexivity. }
    assert (Ho2 : match read_list arg newpacket with
                 | Ok v => match make_data E toint v with Ok d => calculate d | Throw m => ThrowsStd m end
                 | Throw m => ThrowsStd m end = o) by exact Ho.
    rewrite Ho. clearbody o.
    destruct o as [r|m|]; cbn [flush b_fail b_text].
    + rewrite run_put_result. cbn [flush b_fail b_text no_error redirected on_link end_packet].
      repeat split. exists (getlines (String.length log_calc) log_calc), (result_list r).
      rewrite app_nil_r. rewrite items_after_messages, final_after_messages.
      repeat split; try exact L; try apply L. eauto.
    + cbn [no_error redirected on_link end_packet]. repeat split.
      exists (getlines (String.length log_calc) log_calc), (failure m).
      rewrite items_after_messages, final_after_messages.
      repeat split; try exact L; try apply L. discriminate. intros [? Q]; discriminate Q.
    + cbn [no_error redirected on_link end_packet]. repeat split.
      exists (getlines (String.length log_calc) log_calc), (failure unknown_exception).
      rewrite items_after_messages, final_after_messages.
      repeat split; try exact L; try apply L. discriminate. intros [? Q]; discriminate Q.
Qed.

(** "exactly one": what is on the link is not the transmission of any other expression, nor of one followed by more *)
Theorem C45_unique {T : Type} : forall (e1 e2 : expr T) rest,
  items e1 = items e2 ++ rest -> e1 = e2 /\ rest = [].
Proof.
  intros e1 e2 rest HH. destruct (items_prefix_free e1 e2 [] rest) as [A B]; [now rewrite app_nil_r|].
  subst. split; reflexivity.
Qed.

(** a non-trivial case: two lines of output (the second not ended by a newline), then an error *)
Example C45_example {T : Type} {N : Num T} (E : EigenLib T) toint calculate :
  on_link (HimalayaCalculateDMh3L E toint calculate 1 (Some [None]) true
             ("info 1" ++ String newline "info 2") "")
  = items (announce "HimalayaInfoMessage" "info 1" (announce "HimalayaInfoMessage" "info 2"
             (announce "HimalayaErrorMessage" "Cannot read value of parameter list!" (ESymbol "$Failed")))).
Proof. reflexivity. Qed.

(** ** C44 *)
(** The option value is used if it is valid and counts as "not given" otherwise *)
Definition optional_mass {T} {N : Num T} (x : T) : T := if nltb (nint 0) x then x else qNaN.
Definition doublet_valid {T} {N : Num T} (m : vec2 T) (s : T) : bool :=
  nltb (nint 0) (stdmin (v0 m) (v1 m)) && nleb (nabs s) (nint 1).
Definition understood {T} {N : Num T} (p : Params T) : Params T :=
  let m (x : vec2 T) s := if doublet_valid x s then x else mkV2 qNaN qNaN in
  let a (x : vec2 T) s := if doublet_valid x s then s else qNaN in
  mkParams (scale p) (mu p) (g1 p) (g2 p) (g3 p) (vd p) (vu p)
    (mq2 p) (md2 p) (mu2 p) (ml2 p) (me2 p) (Au p) (Ad p) (Ae p) (Yu p) (Yd p) (Ye p)
    (M1 p) (M2 p) (MG p)
    (optional_mass (MW p)) (optional_mass (MZ p)) (optional_mass (Mt p)) (optional_mass (Mb p))
    (optional_mass (Mtau p)) (MA p)
    (m (MSt p) (s2t p)) (m (MSb p) (s2b p)) (m (MStau p) (s2tau p))
    (a (MSt p) (s2t p)) (a (MSb p) (s2b p)) (a (MStau p) (s2tau p))
    qNaN qNaN qNaN 0.

(** lists of any other length are rejected, whatever they contain *)
Theorem C44_length {T : Type} {N : Num T} (E : EigenLib T) (toint : T -> Z) (v : list T) :
  length v <> 127%nat -> exists m, make_data E toint v = Throw m.
Proof.
  intros HL. unfold make_data, make_data_trace, N_input_parameters. apply Nat.eqb_neq in HL. rewrite HL. cbn. eauto.
Qed.

(** what the Mathematica side sends has the length the C++ side expects *)
Theorem C44_sender_length {T : Type} {N : Num T} b (lo : T) vb p : length (mma_arguments b lo vb p) = 127%nat.
Proof. reflexivity. Qed.

(** the field of every entry *)
Definition mat_at {T} (f : nat -> T) (i : nat) : mat3 T :=
  mkM3 (f i) (f (1 + i)) (f (2 + i)) (f (3 + i)) (f (4 + i)) (f (5 + i)) (f (6 + i)) (f (7 + i)) (f (8 + i))%nat.
Definition fields {T} {N : Num T} (f : nat -> T) : Params T :=
  mkParams (f 3) (f 4) (f 5) (f 6) (f 7) (f 8) (f 9)
    (mat_at f 10) (mat_at f 19) (mat_at f 28) (mat_at f 37) (mat_at f 46)
    (mat_at f 55) (mat_at f 64) (mat_at f 73) (mat_at f 82) (mat_at f 91) (mat_at f 100)
    (f 110) (f 111) (f 112) (f 113) (f 114) (f 115) (f 116) (f 117) (f 109)
    (mkV2 (f 118) (f 119)) (mkV2 (f 120) (f 121)) (mkV2 (f 122) (f 123)) (f 124) (f 125) (f 126)
    qNaN qNaN qNaN 0%Z.

Lemma list_as_map {T} (d : T) (v : list T) : v = map (fun i => nth i v d) (seq 0 (length v)).
Proof.
  induction v as [|x v IH]; [reflexivity|].
  cbn [length seq map nth]. f_equal. rewrite <- seq_shift, map_map. cbn [nth]. exact IH.
Qed.

Section C44.
  Context {T : Type} {N : Num T}.
  Opaque validate.

  Lemma make_data_fields (E : EigenLib T) (toint : T -> Z) (f : nat -> T) :
    make_data_trace E toint (map f (seq 0 127))
    = do p <- validate E (understood (fields f));
      Ok (mkData p (negb (neqb (f 0%nat) (nint 0))) (toint (f 1%nat)) (negb (neqb (f 2%nat) (nint 0))), mkRst 127 (seq 0 127)).
  Proof. reflexivity. Qed.
End C44.

(** Every list of 127 numbers is read completely, each entry once and in order, entry i goes to the field listed
    in [fields], and the call fails only if the parameter point is rejected. *)
Theorem C44_each_once {T : Type} {N : Num T} (E : EigenLib T) (toint : T -> Z) (v : list T) : length v = 127%nat ->
  let f i := nth i v (nint 0) in
  match validate E (understood (fields f)) with
  | Ok p => make_data_trace E toint v
            = Ok (mkData p (negb (neqb (f 0%nat) (nint 0))) (toint (f 1%nat)) (negb (neqb (f 2%nat) (nint 0))),
                  mkRst 127 (seq 0 127))
  | Throw m => make_data_trace E toint v = Throw m
  end.
Proof.
  intros HL f. rewrite (list_as_map (nint 0) v), HL.
  rewrite make_data_fields. fold f. destruct (validate E (understood (fields f))); reflexivity.
Qed.

Lemma eta3 {T} (m : mat3 T) : mkM3 (a00 m) (a01 m) (a02 m) (a10 m) (a11 m) (a12 m) (a20 m) (a21 m) (a22 m) = m.
Proof. destruct m; reflexivity. Qed.
Lemma eta2 {T} (m : vec2 T) : mkV2 (v0 m) (v1 m) = m.
Proof. destruct m; reflexivity. Qed.

(** The round trip *)
Theorem C44 {T : Type} {N : Num T} (E : EigenLib T) (toint : T -> Z) (bottom : bool) (loopOrder : T) (verbose : bool) (p : Params T) :
  neqb (nint 0) (nint 0 : T) = true -> neqb (nint 1) (nint 0 : T) = false ->
  make_data E toint (mma_arguments bottom loopOrder verbose p)
  = match validate E (understood p) with
    | Ok p' => Ok (mkData p' bottom (toint loopOrder) verbose)
    | Throw m => Throw m
    end.
Proof.
  intros H0 H1. unfold make_data.
  set (v := mma_arguments bottom loopOrder verbose p).
  rewrite (list_as_map (nint 0) v). unfold v at 2. rewrite C44_sender_length.
  rewrite make_data_fields.
  assert (HU : understood (fields (fun i => nth i v (nint 0))) = understood p).
  { unfold v. cbn [fields mat_at nth mma_arguments rows app Nat.add]. unfold fields, mat_at.
    cbn [nth mma_arguments rows app Nat.add]. rewrite !eta3, !eta2. destruct p; reflexivity. }
  rewrite HU. destruct (validate E (understood p)) as [p'|m]; [|reflexivity].
  cbn [bind]. unfold v. cbn [nth mma_arguments app]. unfold boole.
  destruct bottom, verbose; rewrite ?H0, ?H1; reflexivity.
Qed.

(** in double precision *)
Corollary C44_double (lm : Libm) (E : EigenLib F64) (toint : F64 -> Z) bottom loopOrder verbose (p : Params F64) :
  let N := NumF lm in
  make_data E toint (mma_arguments bottom loopOrder verbose p)
  = match validate E (understood p) with
    | Ok p' => Ok (mkData p' bottom (toint loopOrder) verbose)
    | Throw m => Throw m
    end.
Proof. cbv zeta. apply (@C44 F64 (NumF lm)); reflexivity. Qed.

(** ... and in exact arithmetic *)
Corollary C44_exact (E : EigenLib PR) (toint : PR -> Z) bottom loopOrder verbose (p : Params PR) :
  make_data E toint (mma_arguments bottom loopOrder verbose p)
  = match validate E (understood p) with
    | Ok p' => Ok (mkData p' bottom (toint loopOrder) verbose)
    | Throw m => Throw m
    end.
Proof.
  apply C44; cbn; unfold Reqb; destruct Req_EM_T; try reflexivity; try (exfalso; lra).
Qed.

(** A consequence the documentation does not mention (MSt, s2t are listed as separate optional parameters): stop masses given
    without a mixing angle are silently dropped - any masses give the same result as none. *)
Definition with_MSt {T} (p : Params T) (m : vec2 T) : Params T :=
  mkParams (scale p) (mu p) (g1 p) (g2 p) (g3 p) (vd p) (vu p)
    (mq2 p) (md2 p) (mu2 p) (ml2 p) (me2 p) (Au p) (Ad p) (Ae p) (Yu p) (Yd p) (Ye p)
    (M1 p) (M2 p) (MG p) (MW p) (MZ p) (Mt p) (Mb p) (Mtau p) (MA p)
    m (MSb p) (MStau p) (s2t p) (s2b p) (s2tau p) (theta_t p) (theta_b p) (theta_tau p) (massLimit3LThreshold p).
Theorem C44_masses_without_mixing_ignored (E : EigenLib PR) (toint : PR -> Z) bottom loopOrder verbose (p : Params PR)
    (m : vec2 PR) :
  s2t p = Some (-2)%R ->
  make_data E toint (mma_arguments bottom loopOrder verbose (with_MSt p m))
  = make_data E toint (mma_arguments bottom loopOrder verbose (with_MSt p (mkV2 (Some (-1)%R) (Some (-1)%R)))).
Proof.
  intros Hs. rewrite !C44_exact.
  assert (HU : understood (with_MSt p m) = understood (with_MSt p (mkV2 (Some (-1)%R) (Some (-1)%R)))).
  { unfold understood. cbn [with_MSt MSt s2t scale mu g1 g2 g3 vd vu mq2 md2 mu2 ml2 me2 Au Ad Ae Yu Yd Ye M1 M2 MG MW MZ
                            Mt Mb Mtau MA MSb MStau s2b s2tau].
    assert (D : forall x, doublet_valid x (s2t p) = false).
    { intros x. unfold doublet_valid. rewrite Hs.
      replace (nleb (nabs (Some (-2)%R : PR)) (nint 1)) with false; [now rewrite andb_false_r|].
      cbn. unfold Rleb. destruct Rle_dec as [C|C]; [|reflexivity]. exfalso. revert C. unfold Rabs.
      destruct Rcase_abs; lra. }
    rewrite !D. reflexivity. }
  rewrite HU. reflexivity.
Qed.
