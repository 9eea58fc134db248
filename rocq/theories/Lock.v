(** * Model of the thread-safety of the two-loop wrappers
    source/himalaya/mh2l/DSZHiggs.cpp:28-29 (the mutex), :250-266, :292-316 (the two locked regions),
    source/himalaya/mh2l/DSZHiggs.f:31-189, :191-334 (DDSHiggs, DDSodd), :476-602 (makefuncs), :607-3914 (makederiv),
    COMMON /listderiv/ (38 double precision variables).

    The unit of interleaving is one access to the mutex or to one COMMON variable.  Not modelled: weak memory (a
    consequence of mutual exclusion for a data-race-free program) and exceptions inside Fortran (there are none). *)
From Coq Require Import List Arith Lia Bool.
Import ListNotations.

Section Lock.
  (** values of COMMON variables, arguments of the Fortran routines and results of a wrapper call *)
  Context {V Args Res : Type}.

  (** ** Programs of one thread *)
  Inductive prog :=
  | Done
  | Lock (k : prog)              (* std::lock_guard constructor *)
  | Unlock (k : prog)            (* std::lock_guard destructor *)
  | Enter (k : prog)             (* call of a Fortran routine that uses COMMON *)
  | Leave (k : prog)             (* its return *)
  | Wr (i : nat) (v : V) (k : prog)      (* assignment to COMMON variable i *)
  | Rd (i : nat) (k : V -> prog)         (* use of COMMON variable i *)
  | Emit (r : Res) (k : prog).           (* the wrapper returns r to its caller *)

  (** What the routines compute, left abstract: [term a j] is the value added by the j-th assignment of makederiv for
      the arguments a; [swap] exchanges the top and bottom sectors (makefuncs:504-505); [higgs], [odd] build the
      results from the derivatives; [guard]: the in-place changes DDSHiggs makes to its arguments. *)
  Variable vplus : V -> V -> V.
  Variable term : Args -> nat -> V.
  Variable swap guard : Args -> Args.
  Context {F : Type}.
  Variable funcs : Args -> list V -> list V -> F.
  Variable higgs : Args -> F -> Res.
  Variable odd : Args -> F -> Res.
  Variable combine : Res -> Res -> Res.

  (** makederiv, DSZHiggs.f:607-3914: the 68 assignments to COMMON variables, in order (the numbers are positions
      in the COMMON statement).  The first assignment to a variable stores a value, later ones add to it. *)
  Definition makederiv_assigns : list nat :=
    [0; 0; 1; 1; 2; 2; 3; 3; 4; 4; 4; 4; 5; 5; 5; 5; 6; 6; 6; 6; 7; 7; 7; 7; 8; 9; 10; 11; 11; 12; 13;
     14; 14; 14; 15; 15; 16; 16; 17; 17; 18; 18; 19; 20; 21; 22; 23; 23; 23; 24; 25; 26; 26; 27; 27; 28; 28;
     29; 30; 31; 32; 33; 33; 34; 34; 35; 36; 37].
  Fixpoint assigns (a : Args) (l : list nat) (seen : list nat) (j : nat) (k : prog) : prog :=
    match l with
    | [] => k
    | i :: r =>
        if existsb (Nat.eqb i) seen
        then Rd i (fun x => Wr i (vplus x (term a j)) (assigns a r seen (S j) k))
        else Wr i (term a j) (assigns a r (i :: seen) (S j) k)
    end.
  Definition makederiv (a : Args) (k : prog) : prog := assigns a makederiv_assigns [] 0 k.

  (** reading a list of COMMON variables *)
  Fixpoint reads (l : list nat) (acc : list V) (k : list V -> prog) : prog :=
    match l with [] => k acc | i :: r => Rd i (fun x => reads r (acc ++ [x]) k) end.

  (** makefuncs, :476-602: derivatives with top and bottom exchanged, 15 of them copied to local variables (:507-521),
      derivatives again, then the Fi.  Simplification: each of the 38 variables is read once for the Fi. *)
  Definition copied : list nat := [0; 1; 2; 3; 4; 5; 6; 7; 8; 9; 10; 11; 12; 13; 23].
  Definition makefuncs (a : Args) (k : F -> prog) : prog :=
    makederiv (swap a) (reads copied [] (fun c =>
    makederiv a (reads (seq 0 38) [] (fun d => k (funcs a c d))))).

  (** DSZHiggs.cpp:250-266 *)
  Definition delta_ma2_2loop_at_at (a : Args) (k : Res -> prog) : prog :=
    Lock (Enter (makefuncs (guard a) (fun f => Leave (Unlock (k (odd (guard a) f)))))).
  (** DSZHiggs.cpp:292-316: the lock is released before delta_ma2_2loop_at_at takes it again *)
  Definition delta_mh2_2loop_at_at (a : Args) (k : Res -> prog) : prog :=
    Lock (Enter (makefuncs (guard a) (fun f => Leave (Unlock
      (delta_ma2_2loop_at_at (guard a) (fun r2 => k (combine (higgs (guard a) f) r2))))))).

  (** The calls a thread makes: the two wrappers above and any other wrapper (none of the other Fortran routines uses
      COMMON: dszhiggs, dszodd, tausqhiggs, tausqodd, taubot, taubotodd). *)
  Inductive call := CallHiggs (a : Args) | CallOdd (a : Args) | CallOther (r : Res).
  Definition run_call (c : call) (k : prog) : prog :=
    match c with
    | CallHiggs a => delta_mh2_2loop_at_at a (fun r => Emit r k)
    | CallOdd a => delta_ma2_2loop_at_at a (fun r => Emit r k)
    | CallOther r => Emit r k
    end.
  Definition thread_program (cs : list call) : prog := fold_right run_call Done cs.

  (** ** The machine: any number of threads, one mutex, one COMMON block *)
  Record thread := mkThread { t_prog : prog; t_inside : bool; t_results : list Res }.
  Record state := mkState { owner : option nat; common : nat -> V; threads : list thread }.

  Definition upd (c : nat -> V) (i : nat) (v : V) : nat -> V := fun j => if Nat.eqb j i then v else c j.
  Fixpoint set_nth {A} (l : list A) (n : nat) (x : A) : list A :=
    match l, n with
    | [], _ => []
    | _ :: r, O => x :: r
    | y :: r, S m => y :: set_nth r m x
    end.

  (** one step of thread [t] (None: it cannot move) *)
  Definition step (s : state) (t : nat) : option state :=
    match nth_error (threads s) t with
    | None => None
    | Some (mkThread p ins rs) =>
        let set p' ins' rs' := set_nth (threads s) t (mkThread p' ins' rs') in
        match p with
        | Done => None
        | Lock k => match owner s with
                    | None => Some (mkState (Some t) (common s) (set k ins rs))
                    | Some _ => None                        (* blocks; also if the owner is t itself *)
                    end
        | Unlock k => Some (mkState None (common s) (set k ins rs))
        | Enter k => Some (mkState (owner s) (common s) (set k true rs))
        | Leave k => Some (mkState (owner s) (common s) (set k false rs))
        | Wr i v k => Some (mkState (owner s) (upd (common s) i v) (set k ins rs))
        | Rd i k => Some (mkState (owner s) (common s) (set (k (common s i)) ins rs))
        | Emit r k => Some (mkState (owner s) (common s) (set k ins (rs ++ [r])))
        end
    end.

  (** a schedule is a sequence of thread numbers; a thread that cannot move is skipped *)
  Definition step_or_skip (s : state) (t : nat) : state := match step s t with Some s' => s' | None => s end.
  Definition run (s : state) (schedule : list nat) : state := fold_left step_or_skip schedule s.

  Definition initial (c : nat -> V) (calls : list (list call)) : state :=
    mkState None c (map (fun cs => mkThread (thread_program cs) false []) calls).
End Lock.
Arguments prog V Res : clear implicits.
Arguments thread V Res : clear implicits.
Arguments state V Res : clear implicits.
Arguments call Args Res : clear implicits.
