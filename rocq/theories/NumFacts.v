(** Basic facts about the three readings. *)
From Coq Require Import Reals ZArith Bool Lra Lia.
From Verif Require Import Num Except.
Open Scope R_scope.

Lemma Rltb_spec a b : BoolSpec (a < b) (b <= a) (Rltb a b).
Proof. unfold Rltb. destruct (Rlt_dec a b); constructor; lra. Qed.
Lemma Rleb_spec a b : BoolSpec (a <= b) (b < a) (Rleb a b).
Proof. unfold Rleb. destruct (Rle_dec a b); constructor; lra. Qed.
Lemma Reqb_spec a b : BoolSpec (a = b) (a <> b) (Reqb a b).
Proof. unfold Reqb. destruct (Req_EM_T a b); constructor; lra. Qed.
Lemma Rltb_true a b : a < b -> Rltb a b = true.
Proof. intros. destruct (Rltb_spec a b); [reflexivity|lra]. Qed.
Lemma Rltb_false a b : b <= a -> Rltb a b = false.
Proof. intros. destruct (Rltb_spec a b); [lra|reflexivity]. Qed.
Lemma Rleb_true a b : a <= b -> Rleb a b = true.
Proof. intros. destruct (Rleb_spec a b); [reflexivity|lra]. Qed.
Lemma Rleb_false a b : b < a -> Rleb a b = false.
Proof. intros. destruct (Rleb_spec a b); [lra|reflexivity]. Qed.
Lemma Reqb_false a b : a <> b -> Reqb a b = false.
Proof. intros. destruct (Reqb_spec a b); [contradiction|reflexivity]. Qed.
Lemma Reqb_true a b : a = b -> Reqb a b = true.
Proof. intros. destruct (Reqb_spec a b); [reflexivity|contradiction]. Qed.

Lemma pdiv_some x y : y <> 0 -> pdiv (Some x) (Some y) = Some (x / y).
Proof. intros. unfold pdiv. rewrite Reqb_false by assumption. reflexivity. Qed.
Lemma psqrt_some x : 0 <= x -> pguard (fun x => Rleb 0 x) sqrt (Some x) = Some (sqrt x).
Proof. intros. unfold pguard. rewrite Rleb_true by assumption. reflexivity. Qed.
Lemma plog_some x : 0 < x -> pguard (fun x => Rltb 0 x) ln (Some x) = Some (ln x).
Proof. intros. unfold pguard. rewrite Rltb_true by assumption. reflexivity. Qed.

(** Unfold the class methods of a concrete reading, leaving the real operations alone. *)
Ltac unR :=
  change (@nadd R NumR) with Rplus in *;
  change (@nsub R NumR) with Rminus in *;
  change (@nmul R NumR) with Rmult in *;
  change (@ndiv R NumR) with Rdiv in *;
  change (@nneg R NumR) with Ropp in *;
  change (@nabs R NumR) with Rabs in *;
  change (@nsqrt R NumR) with sqrt in *;
  change (@nlog R NumR) with ln in *;
  change (@nlog1p R NumR) with (fun x => ln (1 + x)) in *;
  change (@nsin R NumR) with sin in *;
  change (@ncos R NumR) with cos in *;
  change (@ntan R NumR) with tan in *;
  change (@natan R NumR) with atan in *;
  change (@nasin R NumR) with asin in *;
  change (@nacos R NumR) with acos in *;
  change (@npow R NumR) with Rpower in *;
  change (@nint R NumR) with IZR in *;
  change (@ndec R NumR) with Rdec in *;
  change (@nconst R NumR) with Rconst in *;
  change (@nltb R NumR) with Rltb in *;
  change (@nleb R NumR) with Rleb in *;
  change (@neqb R NumR) with Reqb in *;
  change (@nisnan R NumR) with (fun _ : R => false) in *;
  change (@nisfin R NumR) with (fun _ : R => true) in *.
Ltac unP :=
  change (@nadd PR NumP) with (p2 Rplus) in *;
  change (@nsub PR NumP) with (p2 Rminus) in *;
  change (@nmul PR NumP) with (p2 Rmult) in *;
  change (@ndiv PR NumP) with pdiv in *;
  change (@nneg PR NumP) with (p1 Ropp) in *;
  change (@nabs PR NumP) with (p1 Rabs) in *;
  change (@nsqrt PR NumP) with (pguard (fun x => Rleb 0 x) sqrt) in *;
  change (@nlog PR NumP) with (pguard (fun x => Rltb 0 x) ln) in *;
  change (@nlog1p PR NumP) with (pguard (fun x => Rltb (-1) x) (fun x => ln (1 + x))) in *;
  change (@nsin PR NumP) with (p1 sin) in *;
  change (@ncos PR NumP) with (p1 cos) in *;
  change (@ntan PR NumP) with (pguard (fun x => negb (Reqb (cos x) 0)) tan) in *;
  change (@natan PR NumP) with (p1 atan) in *;
  change (@nasin PR NumP) with (pguard (fun x => Rleb (-1) x && Rleb x 1) asin) in *;
  change (@nacos PR NumP) with (pguard (fun x => Rleb (-1) x && Rleb x 1) acos) in *;
  change (@nint PR NumP) with (fun z => Some (IZR z) : PR) in *;
  change (@ndec PR NumP) with (fun m k => Some (Rdec m k) : PR) in *;
  change (@nconst PR NumP) with (fun c => Some (Rconst c) : PR) in *;
  change (@nltb PR NumP) with (pcmp Rltb) in *;
  change (@nleb PR NumP) with (pcmp Rleb) in *;
  change (@neqb PR NumP) with (pcmp Reqb) in *;
  change (@nisnan PR NumP) with (fun a : PR => match a with Some _ => false | None => true end) in *;
  change (@nisfin PR NumP) with (fun a : PR => match a with Some _ => true | None => false end) in *.
