(** * Whenever an expression is defined over the partial reals, the total real model computes the same value *)
From Coq Require Import Reals Lra Lia List ZArith Bool String.
From Verif Require Import Num NumFacts Except Params HierFormulas Dilog LoopFun Thresh ThreshTwo Threshold Defined.
Import ListNotations.
Open Scope R_scope.

(** [a] is undefined, or [a] is [x] *)
Definition rho (a : PR) (x : R) : Prop := forall y, a = Some y -> y = x.
Lemma rho_some x : rho (Some x) x. Proof. intros y E. injection E as <-. reflexivity. Qed.
Lemma rho_1 f a x : rho a x -> rho (p1 f a) (f x). Proof. intros H y E. destruct a as [z|]; [|discriminate]. injection E as <-. rewrite (H z); reflexivity. Qed.
Lemma rho_2 f a b x y : rho a x -> rho b y -> rho (p2 f a b) (f x y).
Proof. intros H G z E. destruct a as [a|]; [|discriminate]. destruct b as [b|]; [|discriminate]. injection E as <-. rewrite (H a), (G b); reflexivity. Qed.
Lemma rho_g c f a x : rho a x -> rho (pguard c f a) (f x).
Proof. intros H y E. destruct a as [z|]; [|discriminate]. cbn [pguard] in E. destruct (c z); [|discriminate]. injection E as <-. rewrite (H z); reflexivity. Qed.
Lemma rho_add a b x y : rho a x -> rho b y -> rho (@nadd PR NumP a b) (@nadd R NumR x y). Proof. apply rho_2. Qed.
Lemma rho_sub a b x y : rho a x -> rho b y -> rho (@nsub PR NumP a b) (@nsub R NumR x y). Proof. apply rho_2. Qed.
Lemma rho_mul a b x y : rho a x -> rho b y -> rho (@nmul PR NumP a b) (@nmul R NumR x y). Proof. apply rho_2. Qed.
Lemma rho_div a b x y : rho a x -> rho b y -> rho (@ndiv PR NumP a b) (@ndiv R NumR x y).
Proof. intros H G z E. destruct a as [a|]; [|discriminate]. destruct b as [b|]; [|discriminate]. cbn in E. destruct (Reqb b 0); [discriminate|]. injection E as <-. rewrite (H a), (G b); reflexivity. Qed.
Lemma rho_neg a x : rho a x -> rho (@nneg PR NumP a) (@nneg R NumR x). Proof. apply rho_1. Qed.
Lemma rho_log a x : rho a x -> rho (@nlog PR NumP a) (@nlog R NumR x). Proof. apply rho_g. Qed.
Lemma rho_log1p a x : rho a x -> rho (@nlog1p PR NumP a) (@nlog1p R NumR x). Proof. apply (rho_g _ (fun x => ln (1 + x))). Qed.
Lemma rho_sqrt a x : rho a x -> rho (@nsqrt PR NumP a) (@nsqrt R NumR x). Proof. apply rho_g. Qed.
Lemma rho_int z : rho (@nint PR NumP z) (@nint R NumR z). Proof. apply rho_some. Qed.
Lemma rho_dec m k : rho (@ndec PR NumP m k) (@ndec R NumR m k). Proof. apply rho_some. Qed.
Lemma rho_if (b : bool) a a' x x' : rho a x -> rho a' x' -> rho (if b then a else a') (if b then x else x'). Proof. destruct b; auto. Qed.
Ltac rho := repeat first [assumption|apply rho_some|apply rho_add|apply rho_sub|apply rho_mul|apply rho_div|apply rho_neg|apply rho_log|apply rho_log1p|apply rho_sqrt|apply rho_int|apply rho_dec].
Lemma rho_dilog a x : rho a x -> rho (@dilog PR NumP a) (@dilog R NumR x).
Proof.
  intros H. destruct a as [z|]; [|rewrite dilog_none; intros y E; discriminate]. pose proof (H z eq_refl) as <-. clear H.
  unfold dilog. cbv zeta. 
  repeat match goal with |- rho (if ?b then _ else _) (if ?c then _ else _) => change b with c; apply rho_if end; rho.
Qed.
Lemma rho_pow2 a x : rho a x -> rho (pow2 a) (pow2 x). Proof. intros H. apply rho_mul; assumption. Qed.
Lemma rho_pow3 a x : rho a x -> rho (pow3 a) (pow3 x). Proof. intros H. unfold pow3. rho. Qed.
Definition powR (n : nat) : R -> R :=
  match n with 2 => pow2 | 3 => pow3 | 4 => pow4 | 5 => pow5 | 6 => pow6 | 7 => pow7 | 8 => pow8 | 9 => pow9 | 10 => power10 | 11 => pow11 | 12 => pow12
  | 13 => pow13 | 14 => pow14 | 15 => pow15 | 16 => pow16 | 17 => pow17 | 18 => pow18 | _ => fun x => x end%nat.
Fixpoint evF (v : list R) (e : ex) : R :=
  match e with
  | EV n => nth n v 0
  | EZ z => @nint R NumR z
  | EC m k => @ndec R NumR m k
  | EA a b => @nadd R NumR (evF v a) (evF v b)
  | ES a b => @nsub R NumR (evF v a) (evF v b)
  | EM a b => @nmul R NumR (evF v a) (evF v b)
  | EN a => @nneg R NumR (evF v a)
  | ED a b => @ndiv R NumR (evF v a) (evF v b)
  | EP n a => powR n (evF v a)
  | EL a => @nlog R NumR (evF v a)
  | EI a => @dilog R NumR (evF v a)
  | ER a => @nsqrt R NumR (evF v a)
  | EB b x y => if b then evF v x else evF v y
  end.
Lemma rho_pow n a x : rho a x -> rho (powP n a) (powR n x).
Proof.
  intros H. do 19 (destruct n as [|n]; [cbn [powP powR]; try (intros y E; discriminate);
    unfold pow18, pow17, pow16, pow15, pow14, pow13, pow12, pow11, power10, pow9, pow8, pow7, pow6, pow5, pow4, pow3, pow2; rho|]).
  intros y E; discriminate.
Qed.
Lemma rho_ev v e : rho (evP v e) (evF v e).
Proof.
  induction e; cbn [evP evF]; try (rho; fail).
  - apply rho_pow; assumption.
  - apply rho_dilog; assumption.
  - apply rho_if; assumption.
Qed.
(** both models return, and the partial one returns the defined number that the total one returns *)
Definition agree (r : res PR) (r' : res R) : Prop := exists v, r = Ok (Some v) /\ r' = Ok v.
Lemma agree_ev v e : Dd (evP v e) -> agree (Ok (evP v e)) (Ok (evF v e)).
Proof. intros [x E]. exists x. rewrite E. split; [reflexivity|]. rewrite <- (rho_ev v e x E). reflexivity. Qed.
Ltac stepA vs t := let e := reif vs t in change (agree (Ok (evP vs e)) (Ok (evF vs e))); apply agree_ev;
  let r := eval vm_compute in (conditions e) in lazymatch r with Some ?k => apply (conditions_defined vs e k); [vm_compute; reflexivity|] end.
