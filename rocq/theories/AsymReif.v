(** * Reification of the mass-limit cases of the strong corrections *)
From Coq Require Import Reals List ZArith Bool.
From Verif Require Import Num HierFormulas ThreshViews Defined Agree AsymNF.
Import ListNotations.
Open Scope R_scope.
Ltac reifL L vs t := lazymatch t with
  | nint ?z => constr:(EZ z)
  | ndec ?m ?k => constr:(EC m k)
  | nadd ?a ?b => let x := reifL L vs a in let y := reifL L vs b in constr:(EA x y)
  | nsub ?a ?b => let x := reifL L vs a in let y := reifL L vs b in constr:(Defined.ES x y)
  | nmul ?a ?b => let x := reifL L vs a in let y := reifL L vs b in constr:(EM x y)
  | ndiv ?a ?b => let x := reifL L vs a in let y := reifL L vs b in constr:(ED x y)
  | Rplus ?a ?b => let x := reifL L vs a in let y := reifL L vs b in constr:(EA x y)
  | Rminus ?a ?b => let x := reifL L vs a in let y := reifL L vs b in constr:(Defined.ES x y)
  | Rmult ?a ?b => let x := reifL L vs a in let y := reifL L vs b in constr:(EM x y)
  | Rdiv ?a ?b => let x := reifL L vs a in let y := reifL L vs b in constr:(ED x y)
  | Ropp ?a => let x := reifL L vs a in constr:(EN x)
  | nneg ?a => let x := reifL L vs a in constr:(EN x)
  | nlog ?a => let x := reifL L vs a in constr:(EL x)
  | nsqrt ?a => let x := reifL L vs a in constr:(ER x)
  | pow2 ?a => let x := reifL L vs a in constr:(EP 2 x)
  | pow3 ?a => let x := reifL L vs a in constr:(EP 3 x)
  | pow4 ?a => let x := reifL L vs a in constr:(EP 4 x)
  | pow5 ?a => let x := reifL L vs a in constr:(EP 5 x)
  | pow6 ?a => let x := reifL L vs a in constr:(EP 6 x)
  | pow7 ?a => let x := reifL L vs a in constr:(EP 7 x)
  | pow8 ?a => let x := reifL L vs a in constr:(EP 8 x)
  | pow9 ?a => let x := reifL L vs a in constr:(EP 9 x)
  | power10 ?a => let x := reifL L vs a in constr:(EP 10 x)
  | pow11 ?a => let x := reifL L vs a in constr:(EP 11 x)
  | pow12 ?a => let x := reifL L vs a in constr:(EP 12 x)
  | pow13 ?a => let x := reifL L vs a in constr:(EP 13 x)
  | pow14 ?a => let x := reifL L vs a in constr:(EP 14 x)
  | pow15 ?a => let x := reifL L vs a in constr:(EP 15 x)
  | pow16 ?a => let x := reifL L vs a in constr:(EP 16 x)
  | pow17 ?a => let x := reifL L vs a in constr:(EP 17 x)
  | pow18 ?a => let x := reifL L vs a in constr:(EP 18 x)
  | ?f ?a => lazymatch f with L => let x := reifL L vs a in constr:(EI x) end
  | ?x => let n := index x vs in constr:(EV n)
  end.
(** [f] holds the unfolded view applied to L and the variables *)
Definition F22 := (R -> R) -> R -> R -> R -> R -> R -> R -> R -> R -> R -> R -> R -> R -> R -> R -> R -> R -> R -> R -> R -> R -> R -> R -> R.
Definition reified (f : F22) := { e : ex | forall L a b c d a' b' c' d' i j k l i' j' k' l' X lam z X4 X5 X6,
  f L a b c d a' b' c' d' i j k l i' j' k' l' X lam z X4 X5 X6 = evL L [a; b; c; d; a'; b'; c'; d'; i; j; k; l; i'; j'; k'; l'; X; lam; z; X4; X5; X6] e }.
Ltac reify f := unfold reified; eexists; intros; cbv beta zeta delta [f]; match goal with |- ?t = evL ?L ?vs _ => let e := reifL L vs t in instantiate (1 := e); reflexivity end.
Definition r_yta_G : reified (fun L a b c d a' b' c' d' i j k l i' j' k' l' X lam z X4 X5 X6 => yta_G a b c i j k X lam).
Proof. reify yta_G. Defined.
Definition r_yta_QU : reified (fun L a b c d a' b' c' d' i j k l i' j' k' l' X lam z X4 X5 X6 => yta_QU a c i k X lam).
Proof. reify yta_QU. Defined.
Definition r_yta_QUs : reified (fun L a b c d a' b' c' d' i j k l i' j' k' l' X lam z X4 X5 X6 => yta_QU a' c' i' k' X lam).
Proof. reify yta_QU. Defined.
Definition r_yta_QM : reified (fun L a b c d a' b' c' d' i j k l i' j' k' l' X lam z X4 X5 X6 => yta_QM a b i X lam).
Proof. reify yta_QM. Defined.
Definition r_yta_QMs : reified (fun L a b c d a' b' c' d' i j k l i' j' k' l' X lam z X4 X5 X6 => yta_QM a' b' i' X lam).
Proof. reify yta_QM. Defined.
Definition r_yta_UM : reified (fun L a b c d a' b' c' d' i j k l i' j' k' l' X lam z X4 X5 X6 => yta_UM a b i j X lam).
Proof. reify yta_UM. Defined.
Definition r_yta_UMs : reified (fun L a b c d a' b' c' d' i j k l i' j' k' l' X lam z X4 X5 X6 => yta_UM a' b' i' j' X lam).
Proof. reify yta_UM. Defined.
Definition r_yta_QUM : reified (fun L a b c d a' b' c' d' i j k l i' j' k' l' X lam z X4 X5 X6 => yta_QUM i X lam).
Proof. reify yta_QUM. Defined.
Definition r_yta_QUMs : reified (fun L a b c d a' b' c' d' i j k l i' j' k' l' X lam z X4 X5 X6 => yta_QUM i' X lam).
Proof. reify yta_QUM. Defined.
Definition r_lat_G : reified (fun L a b c d a' b' c' d' i j k l i' j' k' l' X lam z X4 X5 X6 => lat_G a b X lam).
Proof. reify lat_G. Defined.
Definition r_lat_Gs : reified (fun L a b c d a' b' c' d' i j k l i' j' k' l' X lam z X4 X5 X6 => lat_G a' b' X lam).
Proof. reify lat_G. Defined.
Definition r_lat_QU : reified (fun L a b c d a' b' c' d' i j k l i' j' k' l' X lam z X4 X5 X6 => lat_QU a X lam).
Proof. reify lat_QU. Defined.
Definition r_lat_QUs : reified (fun L a b c d a' b' c' d' i j k l i' j' k' l' X lam z X4 X5 X6 => lat_QU a' X lam).
Proof. reify lat_QU. Defined.
Definition r_yta2_G : reified (fun L a b c d a' b' c' d' i j k l i' j' k' l' X lam z X4 X5 X6 => yta2_G L a b c i j k d l X lam).
Proof. reify yta2_G. Defined.
Definition r_yta2_QU : reified (fun L a b c d a' b' c' d' i j k l i' j' k' l' X lam z X4 X5 X6 => yta2_QU L a c i k d l X lam).
Proof. reify yta2_QU. Defined.
Definition r_yta2_QUs : reified (fun L a b c d a' b' c' d' i j k l i' j' k' l' X lam z X4 X5 X6 => yta2_QU L a' c' i' k' d' l' X lam).
Proof. reify yta2_QU. Defined.
Definition r_yta2_QM : reified (fun L a b c d a' b' c' d' i j k l i' j' k' l' X lam z X4 X5 X6 => yta2_QM L a b i j d l X lam).
Proof. reify yta2_QM. Defined.
Definition r_yta2_QMs : reified (fun L a b c d a' b' c' d' i j k l i' j' k' l' X lam z X4 X5 X6 => yta2_QM L a' b' i' j' d' l' X lam).
Proof. reify yta2_QM. Defined.
Definition r_yta2_UM : reified (fun L a b c d a' b' c' d' i j k l i' j' k' l' X lam z X4 X5 X6 => yta2_UM L a b i j d l X lam).
Proof. reify yta2_UM. Defined.
Definition r_yta2_UMs : reified (fun L a b c d a' b' c' d' i j k l i' j' k' l' X lam z X4 X5 X6 => yta2_UM L a' b' i' j' d' l' X lam).
Proof. reify yta2_UM. Defined.
Definition r_yta2_QUM : reified (fun L a b c d a' b' c' d' i j k l i' j' k' l' X lam z X4 X5 X6 => yta2_QUM L a i d X lam).
Proof. reify yta2_QUM. Defined.
Definition r_yta2_QUMs : reified (fun L a b c d a' b' c' d' i j k l i' j' k' l' X lam z X4 X5 X6 => yta2_QUM L a' i' d' X lam).
Proof. reify yta2_QUM. Defined.
Definition r_yta2_Ds : reified (fun L a b c d a' b' c' d' i j k l i' j' k' l' X lam z X4 X5 X6 => yta2_D a' i' X lam).
Proof. reify yta2_D. Defined.
Definition r_lata_G : reified (fun L a b c d a' b' c' d' i j k l i' j' k' l' X lam z X4 X5 X6 => lata_G L a b c i j k X lam).
Proof. reify lata_G. Defined.
Definition r_lata_QU : reified (fun L a b c d a' b' c' d' i j k l i' j' k' l' X lam z X4 X5 X6 => lata_QU L a c i k X lam).
Proof. reify lata_QU. Defined.
Definition r_lata_QUs : reified (fun L a b c d a' b' c' d' i j k l i' j' k' l' X lam z X4 X5 X6 => lata_QU L a' c' i' k' X lam).
Proof. reify lata_QU. Defined.
Definition r_lata_QM : reified (fun L a b c d a' b' c' d' i j k l i' j' k' l' X lam z X4 X5 X6 => lata_QM L a b i j X lam).
Proof. reify lata_QM. Defined.
Definition r_lata_QMs : reified (fun L a b c d a' b' c' d' i j k l i' j' k' l' X lam z X4 X5 X6 => lata_QM L a' b' i' j' X lam).
Proof. reify lata_QM. Defined.
Definition r_lata_UM : reified (fun L a b c d a' b' c' d' i j k l i' j' k' l' X lam z X4 X5 X6 => lata_UM L a b i j X lam).
Proof. reify lata_UM. Defined.
Definition r_lata_UMs : reified (fun L a b c d a' b' c' d' i j k l i' j' k' l' X lam z X4 X5 X6 => lata_UM L a' b' i' j' X lam).
Proof. reify lata_UM. Defined.
Definition r_lata_QUM : reified (fun L a b c d a' b' c' d' i j k l i' j' k' l' X lam z X4 X5 X6 => lata_QUM a i X lam).
Proof. reify lata_QUM. Defined.
Definition r_lata_QUMs : reified (fun L a b c d a' b' c' d' i j k l i' j' k' l' X lam z X4 X5 X6 => lata_QUM a' i' X lam).
Proof. reify lata_QUM. Defined.
Definition r_lata2_G : reified (fun L a b c d a' b' c' d' i j k l i' j' k' l' X lam z X4 X5 X6 => lata2_G L a b c i j k d X X4 X5 z lam).
Proof. reify lata2_G. Defined.
Definition r_lata2_QU : reified (fun L a b c d a' b' c' d' i j k l i' j' k' l' X lam z X4 X5 X6 => lata2_QU L a c i k d X X4 X5 z lam).
Proof. reify lata2_QU. Defined.
Definition r_lata2_QUs : reified (fun L a b c d a' b' c' d' i j k l i' j' k' l' X lam z X4 X5 X6 => lata2_QU L a' c' i' k' d' X X4 X5 z lam).
Proof. reify lata2_QU. Defined.
Definition r_lata2_QM : reified (fun L a b c d a' b' c' d' i j k l i' j' k' l' X lam z X4 X5 X6 => lata2_QM L a b i j d X X4 X5 z lam).
Proof. reify lata2_QM. Defined.
Definition r_lata2_QMs : reified (fun L a b c d a' b' c' d' i j k l i' j' k' l' X lam z X4 X5 X6 => lata2_QM L a' b' i' j' d' X X4 X5 z lam).
Proof. reify lata2_QM. Defined.
Definition r_lata2_UM : reified (fun L a b c d a' b' c' d' i j k l i' j' k' l' X lam z X4 X5 X6 => lata2_UM L a b i j d X X4 X5 z lam).
Proof. reify lata2_UM. Defined.
Definition r_lata2_UMs : reified (fun L a b c d a' b' c' d' i j k l i' j' k' l' X lam z X4 X5 X6 => lata2_UM L a' b' i' j' d' X X4 X5 z lam).
Proof. reify lata2_UM. Defined.
Definition r_lata2_QUM : reified (fun L a b c d a' b' c' d' i j k l i' j' k' l' X lam z X4 X5 X6 => lata2_QUM a i d X X4 X5 z lam).
Proof. reify lata2_QUM. Defined.
Definition r_lata2_QUMs : reified (fun L a b c d a' b' c' d' i j k l i' j' k' l' X lam z X4 X5 X6 => lata2_QUM a' i' d' X X4 X5 z lam).
Proof. reify lata2_QUM. Defined.
Definition r_xtt_G : reified (fun L a b c d a' b' c' d' i j k l i' j' k' l' X lam z X4 X5 X6 => xtt_G L a b c i j k d l X4 X5 X6 lam).
Proof. reify xtt_G. Defined.
Definition r_xtt_QU : reified (fun L a b c d a' b' c' d' i j k l i' j' k' l' X lam z X4 X5 X6 => xtt_QU L a c i k d l X4 X5 X6 lam).
Proof. reify xtt_QU. Defined.
Definition r_xtt_QUs : reified (fun L a b c d a' b' c' d' i j k l i' j' k' l' X lam z X4 X5 X6 => xtt_QU L a' c' i' k' d' l' X4 X5 X6 lam).
Proof. reify xtt_QU. Defined.
Definition r_xtt_QM : reified (fun L a b c d a' b' c' d' i j k l i' j' k' l' X lam z X4 X5 X6 => xtt_QM L a b i j d l X4 X5 X6 lam).
Proof. reify xtt_QM. Defined.
Definition r_xtt_QMs : reified (fun L a b c d a' b' c' d' i j k l i' j' k' l' X lam z X4 X5 X6 => xtt_QM L a' b' i' j' d' l' X4 X5 X6 lam).
Proof. reify xtt_QM. Defined.
Definition r_xtt_UM : reified (fun L a b c d a' b' c' d' i j k l i' j' k' l' X lam z X4 X5 X6 => xtt_UM L a b i j d l X4 X5 X6 lam).
Proof. reify xtt_UM. Defined.
Definition r_xtt_UMs : reified (fun L a b c d a' b' c' d' i j k l i' j' k' l' X lam z X4 X5 X6 => xtt_UM L a' b' i' j' d' l' X4 X5 X6 lam).
Proof. reify xtt_UM. Defined.
Definition r_xtt_QUM : reified (fun L a b c d a' b' c' d' i j k l i' j' k' l' X lam z X4 X5 X6 => xtt_QUM L a i d l X4 X5 X6 lam).
Proof. reify xtt_QUM. Defined.
Definition r_xtt_QUMs : reified (fun L a b c d a' b' c' d' i j k l i' j' k' l' X lam z X4 X5 X6 => xtt_QUM L a' i' d' l' X4 X5 X6 lam).
Proof. reify xtt_QUM. Defined.
Definition r_xtt_Ds : reified (fun L a b c d a' b' c' d' i j k l i' j' k' l' X lam z X4 X5 X6 => xtt_D i' X4 X5 X6 lam).
Proof. reify xtt_D. Defined.
Definition vev_QU (mQ32 Xt2 : R) : R := Xt2 / (nint 4 * mQ32).
Definition r_vev_G : reified (fun L a b c d a' b' c' d' i j k l i' j' k' l' X lam z X4 X5 X6 => vev_G a b X).
Proof. reify vev_G. Defined.
Definition r_vev_Gs : reified (fun L a b c d a' b' c' d' i j k l i' j' k' l' X lam z X4 X5 X6 => vev_G a' b' X).
Proof. reify vev_G. Defined.
Definition r_vev_QU : reified (fun L a b c d a' b' c' d' i j k l i' j' k' l' X lam z X4 X5 X6 => vev_QU a X).
Proof. reify vev_QU. Defined.
Definition r_vev_QUs : reified (fun L a b c d a' b' c' d' i j k l i' j' k' l' X lam z X4 X5 X6 => vev_QU a' X).
Proof. reify vev_QU. Defined.
