(** * Model of the Mathematica interface
    source/himalaya/LibraryLink/Himalaya_LibraryLink.cpp and the argument list built by
    source/himalaya/LibraryLink/Himalaya_LibraryLink.m. *)
From Coq Require Import String Ascii ZArith List Bool.
From Verif Require Import Num Except HObj Params.
Import ListNotations.
Local Open Scope list_scope.

Section Decode.
  Context {T : Type} {N : Num T}.
  Open Scope num_scope.

  (** quiet_NaN: written 0/0, which is NaN in the IEEE reading and None in the partial-real reading *)
  Definition qNaN : T := #0 / #0.

  (** The reading position: the counter [c] and (ghost) the indices read so far, in order *)
  Record rst := mkRst { rc : nat; rtrace : list nat }.

  (** [parsvec.at(c++)]: bounds-checked access, then increment *)
  Definition at_next (v : list T) (st : rst) : res (T * rst) :=
    match nth_error v (rc st) with
    | Some x => Ok (x, mkRst (S (rc st)) (rtrace st ++ [rc st]))
    | None => Throw "vector::at"%string
    end.

  (** Himalaya_LibraryLink.cpp:277-308: the loops over i (row) and k (column) *)
  Definition read_mat3 (v : list T) (st : rst) : res (mat3 T * rst) :=
    do (x00, st) <- at_next v st; do (x01, st) <- at_next v st; do (x02, st) <- at_next v st;
    do (x10, st) <- at_next v st; do (x11, st) <- at_next v st; do (x12, st) <- at_next v st;
    do (x20, st) <- at_next v st; do (x21, st) <- at_next v st; do (x22, st) <- at_next v st;
    Ok (mkM3 x00 x01 x02 x10 x11 x12 x20 x21 x22, st).

  (** :237-242 *)
  Record Data := mkData { d_pars : Params T; d_bottom : bool; d_loopOrder : Z; d_verbose : bool }.

  (** conversion double -> bool (:258, :260) *)
  Definition to_bool (x : T) : bool := negb (x =? #0).
  (** [if (M > 0) pars.M = M;] starting from NaN (:318-322) *)
  Definition if_positive (x : T) : T := if x >? #0 then x else qNaN.
  (** :331-344: a doublet is used only if both masses are positive and |s2f| <= 1 *)
  Definition doublet_given (m : vec2 T) (s : T) : bool := (vec2_min m >? #0) && (nabs s <=? #1).
  Definition doublet_masses (m : vec2 T) (s : T) : vec2 T :=
    if doublet_given m s then m else mkV2 qNaN qNaN.
  Definition doublet_mixing (m : vec2 T) (s : T) : T :=
    if doublet_given m s then s else qNaN.

  Definition N_input_parameters : nat := 127.

  (** make_data, :246-357.  [toint] is the conversion double -> int of loopOrder (undefined behaviour in C++ when
      the value does not fit).  Simplifications: the error texts omit the numbers; the conditional
      assignments (which read nothing) are collected after the reads. *)
  Definition make_data_trace (E : EigenLib T) (toint : T -> Z) (v : list T) : res (Data * rst) :=
    if negb (Nat.eqb (length v) N_input_parameters)
    then Throw "HimalayaCalculateDMh3L expects 127 parameters"%string
    else
      let st := mkRst 0 [] in
      do (bottom, st) <- at_next v st;
      do (loopOrder, st) <- at_next v st;
      do (verbose, st) <- at_next v st;
      do (scale_, st) <- at_next v st;
      do (mu_, st) <- at_next v st;
      do (g1_, st) <- at_next v st;
      do (g2_, st) <- at_next v st;
      do (g3_, st) <- at_next v st;
      do (vd_, st) <- at_next v st;
      do (vu_, st) <- at_next v st;
      do (mq2_, st) <- read_mat3 v st;
      do (md2_, st) <- read_mat3 v st;
      do (mu2_, st) <- read_mat3 v st;
      do (ml2_, st) <- read_mat3 v st;
      do (me2_, st) <- read_mat3 v st;
      do (Au_, st) <- read_mat3 v st;
      do (Ad_, st) <- read_mat3 v st;
      do (Ae_, st) <- read_mat3 v st;
      do (Yu_, st) <- read_mat3 v st;
      do (Yd_, st) <- read_mat3 v st;
      do (Ye_, st) <- read_mat3 v st;
      do (MA_, st) <- at_next v st;
      do (M1_, st) <- at_next v st;
      do (M2_, st) <- at_next v st;
      do (MG_, st) <- at_next v st;
      do (MW_, st) <- at_next v st;
      do (MZ_, st) <- at_next v st;
      do (Mt_, st) <- at_next v st;
      do (Mb_, st) <- at_next v st;
      do (Mtau_, st) <- at_next v st;
      do (MSt0, st) <- at_next v st;
      do (MSt1, st) <- at_next v st;
      do (MSb0, st) <- at_next v st;
      do (MSb1, st) <- at_next v st;
      do (MStau0, st) <- at_next v st;
      do (MStau1, st) <- at_next v st;
      do (s2t_, st) <- at_next v st;
      do (s2b_, st) <- at_next v st;
      do (s2tau_, st) <- at_next v st;
      let MSt_ := mkV2 MSt0 MSt1 in
      let MSb_ := mkV2 MSb0 MSb1 in
      let MStau_ := mkV2 MStau0 MStau1 in
      do p <- validate E
        (mkParams scale_ mu_ g1_ g2_ g3_ vd_ vu_ mq2_ md2_ mu2_ ml2_ me2_ Au_ Ad_ Ae_ Yu_ Yd_ Ye_
           M1_ M2_ MG_ (if_positive MW_) (if_positive MZ_) (if_positive Mt_) (if_positive Mb_)
           (if_positive Mtau_) MA_
           (doublet_masses MSt_ s2t_) (doublet_masses MSb_ s2b_) (doublet_masses MStau_ s2tau_)
           (doublet_mixing MSt_ s2t_) (doublet_mixing MSb_ s2b_) (doublet_mixing MStau_ s2tau_)
           qNaN qNaN qNaN 0);
      if negb (Nat.eqb (rc st) N_input_parameters)
      then Throw "Bug: Expecting to read 127 input parameters"%string
      else Ok (mkData p (to_bool bottom) (toint loopOrder) (to_bool verbose), st).

  Definition make_data (E : EigenLib T) (toint : T -> Z) (v : list T) : res Data :=
    do (d, _) <- make_data_trace E toint v; Ok d.

  (** Himalaya_LibraryLink.m:226-370: the list the Mathematica function sends, for the option values
      bottom, loopOrder, verbose and the parameters [p] ([MG p] stands for the option M3; options that are
      not given have the values -1 and -2 of :201-211).  Row-major, [[1,1]], [[1,2]], ... *)
  Definition boole (b : bool) : T := if b then #1 else #0.
  Definition rows (m : mat3 T) : list T :=
    [a00 m; a01 m; a02 m; a10 m; a11 m; a12 m; a20 m; a21 m; a22 m].
  Definition mma_arguments (bottom : bool) (loopOrder : T) (verbose : bool) (p : Params T) : list T :=
    [boole bottom; loopOrder; boole verbose;
     scale p; mu p; g1 p; g2 p; g3 p; vd p; vu p]
    ++ rows (mq2 p) ++ rows (md2 p) ++ rows (mu2 p) ++ rows (ml2 p) ++ rows (me2 p)
    ++ rows (Au p) ++ rows (Ad p) ++ rows (Ae p) ++ rows (Yu p) ++ rows (Yd p) ++ rows (Ye p)
    ++ [MA p; M1 p; M2 p; MG p; MW p; MZ p; Mt p; Mb p; Mtau p;
        v0 (MSt p); v1 (MSt p); v0 (MSb p); v1 (MSb p); v0 (MStau p); v1 (MStau p);
        s2t p; s2b p; s2tau p].
End Decode.
Arguments Data T : clear implicits.

(** ** The link *)
Section Link.
  Context {T : Type} {N : Num T}.

  (** What one MLPut* call puts on the link: MLPutFunction announces a head and a number of arguments,
      the others put one complete item.  MLPutRealList and MLPutDoubleArray each put one packed array. *)
  Inductive tok :=
  | TFunction (head : string) (nargs : nat)
  | TSymbol (s : string)
  | TString (s : string)
  | TInteger (z : Z)
  | TRealList (l : list T)
  | TArray2 (m : mat2 T).

  (** MLPut, :27-30, :32-35, :58-65 and :67-72 (vectors), :74-85 (2x2 matrices) *)
  Definition put_string (s : string) : list tok := [TSymbol s].
  Definition put_int (z : Z) : list tok := [TInteger z].
  Definition put_vec2 (v : vec2 T) : list tok := [TRealList [v0 v; v1 v]].
  Definition put_vec4 (v : arr4 T) : list tok := [TRealList [e0 v; e1 v; e2 v; e3 v]].
  Definition put_mat2 (m : mat2 T) : list tok := [TArray2 m].
  (** :111-117, std::vector *)
  Definition put_vector {A} (put : A -> list tok) (v : list A) : list tok :=
    TFunction "List" (length v) :: flat_map put v.

  (** :121-125 *)
  Definition put_rule (name : string) : list tok := [TFunction "Rule" 2; TSymbol name].
  (** :127-132: the value is computed by the caller before anything is put *)
  Definition put_rule_to {A} (put : A -> list tok) (t : res A) (name : string) : res (list tok) :=
    do x <- t; Ok (put_rule name ++ put x).

  (** :136-143: the second argument of CompoundExpression is left open *)
  Definition put_message (message_function message_str : string) : list tok :=
    [TFunction "CompoundExpression" 2; TFunction message_function 1; TString message_str].

  (** A sequence of puts, each of which may throw while computing its value: what got on the link and the
      message of the exception, if any *)
  Fixpoint run_puts (l : list (res (list tok))) : list tok * option string :=
    match l with
    | [] => ([], None)
    | Ok ts :: r => let '(us, e) := run_puts r in (ts ++ us, e)
    | Throw m :: _ => ([], Some m)
    end.

  (** :361-368 *)
  Record Results := mkResults { r_ho : HO T; r_eft : arr4 T; r_fo : arr4 T; r_fo_dom : arr4 T }.

  Local Open Scope num_scope.
  Definition get4 {A} (f : Z -> res A) : res (arr4 A) :=
    do a <- f 0%Z; do b <- f 1%Z; do c <- f 2%Z; do d <- f 3%Z; Ok (mkArr4 a b c d).

  (** put_result, :428-505, in program order: the local variables are computed after List has been put *)
  Definition put_result (r : Results) : list (res (list tok)) :=
    let ho := r_ho r in
    let hierarchy := HObj.hierarchy ho in
    let msf := if isAlphab ho then "MsbottomMDRPrime"%string else "MstopMDRPrime"%string in
    let expansion_uncertainty :=
      do u1 <- getDMhExpUncertainty ho 1; do u2 <- getDMhExpUncertainty ho 2;
      do u3 <- getDMhExpUncertainty ho 3; Ok (mkArr4 #0 u1 u2 u3) in
    let lambda := get4 (getDLambda ho) in
    let lambda_uncertainty := do u <- getDLambdaUncertainty ho 3; Ok (mkArr4 #0 #0 #0 u) in
    let lambda_shift := get4 (getDLambdaShift ho) in
    let Mh2 := do a <- get4 (getDMh ho); Ok [e0 a; e1 a; e2 a; e3 a] in
    let skip {A} (x : res A) : res (list tok) := do _ <- x; Ok [] in
    [ Ok [TFunction "List" 13];
      skip expansion_uncertainty; skip lambda; skip lambda_uncertainty; skip lambda_shift; skip Mh2;
      put_rule_to put_int (Ok hierarchy) "hierarchyID";
      put_rule_to put_string (Ok (getH3mHierarchyNotation hierarchy)) "hierarchyName";
      put_rule_to put_vec2 (Ok (mdrMasses ho)) msf;
      put_rule_to (put_vector put_mat2) Mh2 "Mh2";
      put_rule_to (put_vector put_mat2) (Ok [mat2_zero; mat2_zero; mat2_zero; mdrShift ho])
        "Mh2ShiftDRbarPrimeToMDRPrime";
      put_rule_to (put_vector put_mat2) (Ok [mat2_zero; mat2_zero; mat2_zero; h3mShift ho])
        "Mh2ShiftDRbarPrimeToH3m";
      put_rule_to put_vec4 expansion_uncertainty "expansionUncertainty";
      put_rule_to put_vec4 (Ok (r_eft r)) "Mh2EFTAt";
      put_rule_to put_vec4 (Ok (r_fo r)) "Mh2FO";
      put_rule_to put_vec4 (Ok (r_fo_dom r)) "Mh2FOAt";
      put_rule_to put_vec4 lambda "lambda";
      put_rule_to put_vec4 lambda_uncertainty "lambdaUncertainty";
      put_rule_to put_vec4 lambda_shift "lambdaShiftDRbarPrimeToMSbar" ].

  (** ** Redirect_output, :147-179 *)
  Definition newline : ascii := "010"%char.
  (** one std::getline: None if nothing could be extracted, else the line and the rest of the buffer *)
  Fixpoint getline (s : string) : option (string * string) :=
    match s with
    | EmptyString => None
    | String c r =>
        if Ascii.eqb c newline then Some (EmptyString, r)
        else match getline r with
             | Some (l, r') => Some (String c l, r')
             | None => Some (String c EmptyString, EmptyString)
             end
    end.
  (** the loop [while (std::getline(buffer, line))]; every pass consumes a character, so the length of the
      buffer bounds the number of passes *)
  Fixpoint getlines (fuel : nat) (s : string) : list string :=
    match fuel with
    | O => []
    | S f => match getline s with Some (l, r) => l :: getlines f r | None => [] end
    end.
  (** buffered output and the state of the stringstream: after the loop has ended the fail bit is set, and
      every later getline fails at once, whatever has been written since *)
  Record buf := mkBuf { b_text : string; b_fail : bool }.
  Definition flush (b : buf) : list tok * buf :=
    if b_fail b then ([], b)
    else (flat_map (put_message "HimalayaInfoMessage") (getlines (String.length (b_text b)) (b_text b)),
          mkBuf EmptyString true).

  (** What the calculation does: prints text (to std::cout and std::cerr) and returns or throws; an exception that is
      not a std::exception has no message *)
  Inductive outcome A := Returns (a : A) | ThrowsStd (what : string) | ThrowsOther.
  Arguments Returns {A}. Arguments ThrowsStd {A}. Arguments ThrowsOther {A}.

  (** The effects the function leaves behind: items on the link, whether MLEndPacket was called after them, whether
      std::cout/std::cerr still point to the buffer, and the return value *)
  Record effects := mkEff { on_link : list tok; end_packet : bool; redirected : bool; no_error : bool }.

  (** :529-535 *)
  Definition failed (msg : string) : list tok :=
    put_message "HimalayaErrorMessage" msg ++ [TSymbol "$Failed"].
  Definition unknown_exception : string := "An unknown exception has been thrown.".

  (** read_list, :208-233.  The argument on the link: not a List, or a List of items each of which is (Some x) or is not
      (None) readable as a double; [newpacket]: the result of MLNewPacket. *)
  Definition read_list (arg : option (list (option T))) (newpacket : bool) : res (list T) :=
    match arg with
    | None => Throw "HimalayaCalculateDMh3L expects a list as the only argument!"
    | Some items =>
        do v <- fold_right (fun x r => match x with
                                       | None => Throw "Cannot read value of parameter list!"
                                       | Some y => do l <- r; Ok (y :: l)
                                       end) (Ok []) items;
        if newpacket then Ok v else Throw "Cannot create new packet!"
    end.

  (** HimalayaCalculateDMh3L, :513-538.  [argc]: number of arguments of the outer List on the link (0 if it is none,
      :183-191); [calculate]: calculate_results; [log_calc], [log_put]: text printed before put_result and while
      put_result runs.  Not modelled: failures of the MLPut* calls themselves. *)
  Definition HimalayaCalculateDMh3L (E : EigenLib T) (toint : T -> Z) (calculate : Data T -> outcome Results)
      (argc : Z) (arg : option (list (option T))) (newpacket : bool) (log_calc log_put : string) : effects :=
    if negb (argc =? 1)%Z then mkEff [] false false false
    else
      let r := match (do v <- read_list arg newpacket; make_data E toint v) with
               | Ok d => calculate d
               | Throw m => ThrowsStd m
               end in
      let b := mkBuf log_calc false in
      match r with
      | Returns res =>
          let '(t1, b) := flush b in
          let '(t2, e) := run_puts (put_result res) in
          let b := mkBuf (b_text b ++ log_put)%string (b_fail b) in
          let '(t3, _) := flush b in            (* ~Redirect_output *)
          match e with
          | None => mkEff (t1 ++ t2 ++ t3) true false true
          | Some m => mkEff (t1 ++ t2 ++ t3 ++ failed m) false false true
          end
      | ThrowsStd m => let '(t, _) := flush b in mkEff (t ++ failed m) false false true
      | ThrowsOther => let '(t, _) := flush b in mkEff (t ++ failed unknown_exception) false false true
      end.
End Link.
Arguments tok T : clear implicits.
Arguments Results T : clear implicits.
Arguments Returns {A}. Arguments ThrowsStd {A}. Arguments ThrowsOther {A}.
