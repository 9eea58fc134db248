(** * Definedness of the loop functions (partial-real reading): proofs *)
From Coq Require Import Reals List Bool Lra Lia ZArith.
From Verif Require Import Num NumFacts Dilog LoopFun LoopProofs.
Open Scope R_scope.

(** [defd a]: the partial-real expression [a] denotes a real number *)
Definition defd (a : PR) : Prop := exists v, a = Some v.

Lemma d_int z : @nint PR NumP z = Some (IZR z). Proof. reflexivity. Qed.
Lemma d_dec m k : @ndec PR NumP m k = Some (Rdec m k). Proof. reflexivity. Qed.
Lemma d_add a b x y : a = Some x -> b = Some y -> @nadd PR NumP a b = Some (x + y). Proof. intros -> ->. reflexivity. Qed.
Lemma d_sub a b x y : a = Some x -> b = Some y -> @nsub PR NumP a b = Some (x - y). Proof. intros -> ->. reflexivity. Qed.
Lemma d_mul a b x y : a = Some x -> b = Some y -> @nmul PR NumP a b = Some (x * y). Proof. intros -> ->. reflexivity. Qed.
Lemma d_neg a x : a = Some x -> @nneg PR NumP a = Some (- x). Proof. intros ->. reflexivity. Qed.
Lemma d_abs a x : a = Some x -> @nabs PR NumP a = Some (Rabs x). Proof. intros ->. reflexivity. Qed.
Lemma d_div a b x y : a = Some x -> b = Some y -> y <> 0 -> @ndiv PR NumP a b = Some (x / y).
Proof. intros -> -> H. apply pdiv_some; auto. Qed.
Lemma d_log a x : a = Some x -> 0 < x -> @nlog PR NumP a = Some (ln x).
Proof. intros -> H. apply plog_some; auto. Qed.
Lemma d_sqrt a x : a = Some x -> 0 <= x -> @nsqrt PR NumP a = Some (sqrt x).
Proof. intros -> H. apply psqrt_some; auto. Qed.
Lemma d_pow2 a x : a = Some x -> @pow2 PR NumP a = Some (x * x). Proof. intros ->. reflexivity. Qed.
Lemma d_pow3 a x : a = Some x -> @pow3 PR NumP a = Some (x * x * x). Proof. intros ->. reflexivity. Qed.
Lemma d_pow4 a x : a = Some x -> @pow4 PR NumP a = Some (x * x * (x * x)). Proof. intros ->. reflexivity. Qed.
Lemma d_pow5 a x : a = Some x -> @pow5 PR NumP a = Some (x * x * (x * x) * x). Proof. intros ->. reflexivity. Qed.
Lemma d_eps : @eps_default PR NumP = Some (1 / 4503599627370496).
Proof. unfold eps_default. apply pdiv_some. lra. Qed.

Lemma is_zeroP a p x y : a = Some x -> p = Some y -> @is_zero PR NumP a p = Rleb (Rabs x) y.
Proof.
  intros -> ->. unfold is_zero, dabs. unP. unfold pcmp at 2, p1.
  unfold Rabs. destruct (Rleb_spec 0 x); destruct (Rcase_abs x); try lra; reflexivity.
Qed.
Lemma is_equalP a b p x y z : a = Some x -> b = Some y -> p = Some z -> @is_equal PR NumP a b p = Rleb (Rabs (x - y)) z.
Proof. intros -> -> ->. unfold is_equal. eapply is_zeroP; [apply d_sub; reflexivity|reflexivity]. Qed.
Lemma eqbP a b x y : a = Some x -> b = Some y -> @neqb PR NumP a b = Reqb x y. Proof. intros -> ->. reflexivity. Qed.
Lemma ltbP a b x y : a = Some x -> b = Some y -> @nltb PR NumP a b = Rltb x y. Proof. intros -> ->. reflexivity. Qed.

Lemma d_logx a x : a = Some x -> 0 < x -> @logx PR NumP a = Some (@logx R NumR x).
Proof.
  intros -> H. unfold logx. erewrite is_zeroP; [|reflexivity|eapply d_mul; [apply d_int|apply d_eps]].
  unR. rewrite is_zeroR, eps_defaultR. destruct Rleb; [reflexivity|apply plog_some; auto].
Qed.
Lemma d_xlogx a x : a = Some x -> 0 < x -> @xlogx PR NumP a = Some (@xlogx R NumR x).
Proof.
  intros -> H. unfold xlogx. erewrite is_zeroP; [|reflexivity|apply d_dec].
  unR. rewrite is_zeroR. destruct Rleb; [reflexivity|]. eapply d_mul; [reflexivity|]. apply plog_some; auto.
Qed.

Ltac pd :=
  lazymatch goal with
  | |- Some _ = Some _ => reflexivity
  | |- @nint PR NumP _ = _ => apply d_int
  | |- @ndec PR NumP _ _ = _ => apply d_dec
  | |- @nadd PR NumP _ _ = _ => eapply d_add; pd
  | |- @nsub PR NumP _ _ = _ => eapply d_sub; pd
  | |- @nmul PR NumP _ _ = _ => eapply d_mul; pd
  | |- @nneg PR NumP _ = _ => eapply d_neg; pd
  | |- @nabs PR NumP _ = _ => eapply d_abs; pd
  | |- @ndiv PR NumP _ _ = _ => eapply d_div; [pd|pd|]
  | |- @nlog PR NumP _ = _ => eapply d_log; [pd|]
  | |- @logx PR NumP _ = _ => eapply d_logx; [pd|]
  | |- @xlogx PR NumP _ = _ => eapply d_xlogx; [pd|]
  | |- @nsqrt PR NumP _ = _ => eapply d_sqrt; [pd|]
  | |- @pow2 PR NumP _ = _ => eapply d_pow2; pd
  | |- @pow3 PR NumP _ = _ => eapply d_pow3; pd
  | |- @pow4 PR NumP _ = _ => eapply d_pow4; pd
  | |- @pow5 PR NumP _ = _ => eapply d_pow5; pd
  | |- @eps_default PR NumP = _ => apply d_eps
  | |- _ => eassumption
  end.

Lemma sq1_ne x : 0 < x -> x <> 1 -> x * x - 1 <> 0.
Proof. intros H N E. assert ((x - 1) * (x + 1) = 0) by lra. apply Rmult_integral in H0. destruct H0; lra. Qed.
Lemma sq1_ne' x : 0 < x -> x <> 1 -> -1 + x * x <> 0.
Proof. intros H N. pose proof (sq1_ne x H N). lra. Qed.
Lemma sq1_ne'' x : 0 < x -> x <> 1 -> 1 - x * x <> 0.
Proof. intros H N. pose proof (sq1_ne x H N). lra. Qed.
Lemma sqd_ne x y : 0 < x -> 0 < y -> x <> y -> x * x - y * y <> 0.
Proof. intros H H' N E. assert ((x - y) * (x + y) = 0) by lra. apply Rmult_integral in H0. destruct H0; lra. Qed.
Lemma absne a e : e < Rabs a -> 0 <= e -> a <> 0.
Proof. intros H H' ->. rewrite Rabs_R0 in H. lra. Qed.

Ltac sl := solve [assumption | apply not_eq_sym; assumption | lra].
Ltac nz :=
  lazymatch goal with
  | |- _ * _ - 1 <> 0 => apply sq1_ne; sl
  | |- -1 + _ * _ <> 0 => apply sq1_ne'; sl
  | |- 1 - _ * _ <> 0 => apply sq1_ne''; sl
  | |- ?x * ?x - ?y * ?y <> 0 => apply sqd_ne; sl
  | |- _ * _ <> 0 => apply Rmult_integral_contrapositive_currified; nz
  | |- _ - _ <> 0 => apply Rminus_eq_contra; sl
  | |- _ <> 0 => sl
  | |- 0 < _ * _ => apply Rmult_lt_0_compat; lra
  | |- 0 < _ => lra
  end.

(** decide the head condition *)
Ltac cond :=
  lazymatch goal with
  | |- defd (if @is_zero PR NumP ?a ?p && ?c then _ else _) => 
      erewrite (is_zeroP a p) by pd; let H := fresh "C" in match goal with |- defd (if ?b then _ else _) => match b with context [Rleb ?u ?v] => destruct (Rleb_spec u v) as [H|H] end end; cbn [andb]
  | |- defd (if @is_equal PR NumP ?a ?b ?p && ?c then _ else _) =>
      erewrite (is_equalP a b p) by pd; let H := fresh "C" in match goal with |- defd (if ?b then _ else _) => match b with context [Rleb ?u ?v] => destruct (Rleb_spec u v) as [H|H] end end; cbn [andb]
  | |- defd (if @is_zero PR NumP ?a ?p then _ else _) => 
      erewrite (is_zeroP a p) by pd; let H := fresh "C" in match goal with |- defd (if ?b then _ else _) => match b with context [Rleb ?u ?v] => destruct (Rleb_spec u v) as [H|H] end end
  | |- defd (if @is_equal PR NumP ?a ?b ?p then _ else _) =>
      erewrite (is_equalP a b p) by pd; let H := fresh "C" in match goal with |- defd (if ?b then _ else _) => match b with context [Rleb ?u ?v] => destruct (Rleb_spec u v) as [H|H] end end
  | |- defd (if @neqb PR NumP ?a ?b then _ else _) =>
      erewrite (eqbP a b) by pd; let H := fresh "C" in match goal with |- defd (if Reqb ?u ?v then _ else _) => destruct (Reqb_spec u v) as [H|H] end
  | |- defd (if @nltb PR NumP ?a ?b then _ else _) =>
      erewrite (ltbP a b) by pd; let H := fresh "C" in match goal with |- defd (if Rltb ?u ?v then _ else _) => destruct (Rltb_spec u v) as [H|H] end
  end.
Ltac decs := unfold Rdec in *; cbn [Z.pow Z.pow_pos Pos.iter Z.mul Pos.mul] in *.
(** turn "p < |x - a|" into x <> a *)
Ltac facts :=
  repeat match goal with
  | H : ?e < Rabs (?x - ?a) |- _ =>
      let K := fresh "K" in assert (K : 0 <= e) by (unfold Rdec; simpl Z.pow; lra);
      apply (fun h => absne _ _ h K), Rminus_not_eq in H; clear K
  end.
Ltac leaf := eexists; pd; nz.

Section Single.
  Variable x : R.
  Hypothesis P : 0 < x.
  Lemma absx : Rabs x = x. Proof. apply Rabs_pos_eq. lra. Qed.
  Lemma F1_def : defd (F1 (Some x : PR)).
  Proof. unfold F1; cbv zeta. repeat cond; facts; leaf. Qed.
  Lemma F2_def : defd (F2 (Some x : PR)).
  Proof. unfold F2; cbv zeta. repeat cond; facts; leaf. Qed.
  Lemma F3_def : defd (F3 (Some x : PR)).
  Proof. unfold F3; cbv zeta. repeat cond; facts; leaf. Qed.
  Lemma F4_def : defd (F4 (Some x : PR)).
  Proof. unfold F4; cbv zeta. repeat cond; facts; leaf. Qed.
  Lemma F5_def : defd (F5 (Some x : PR)).
  Proof. unfold F5; cbv zeta. repeat cond; facts; leaf. Qed.
  Lemma sqne : x * x - 1 <> 0 -> x <> 1. Proof. intros H E. apply H. rewrite E. ring. Qed.
  Lemma sqne2 : x * x <> 1 -> x <> 1. Proof. intros H E. apply H. rewrite E. ring. Qed.
  Lemma F6_def : defd (F6 (Some x : PR)).
  Proof. unfold F6; cbv zeta. repeat cond; facts; try apply sqne2 in C0; leaf. Qed.
  Lemma F7_def : defd (F7 (Some x : PR)).
  Proof. unfold F7; cbv zeta. repeat cond; facts; try apply sqne2 in C0; leaf. Qed.
  Lemma f1_def : defd (f1 (Some x : PR)).
  Proof. unfold f1; cbv zeta. repeat cond; rewrite ?absx in *; facts; leaf. Qed.
  Lemma f2_def : defd (f2 (Some x : PR)).
  Proof. unfold f2; cbv zeta. repeat cond; rewrite ?absx in *; facts; leaf. Qed.
  Lemma f3_def : defd (f3 (Some x : PR)).
  Proof. unfold f3; cbv zeta. repeat cond; rewrite ?absx in *; facts; leaf. Qed.
  Lemma f4_def : defd (f4 (Some x : PR)).
  Proof. unfold f4; cbv zeta. repeat cond; rewrite ?absx in *; facts; leaf. Qed.
End Single.

(** two arguments, both positive *)
Section Two.
  Variables x1 x2 : R.
  Hypothesis P1 : 0 < x1.
  Hypothesis P2 : 0 < x2.
  Notation p1 := (Some x1 : PR).
  Notation p2 := (Some x2 : PR).
  Lemma F8_1_x2_def : x2 <> 1 -> defd (F8_1_x2 p1 p2).
  Proof. intros. unfold F8_1_x2; cbv zeta. repeat cond; leaf. Qed.
  Lemma F8_0_x2_def : x2 <> 1 -> defd (F8_0_x2 p1 p2).
  Proof. intros. unfold F8_0_x2; cbv zeta. repeat cond; leaf. Qed.
  Lemma F8_x1_x2_def : x2 <> 1 -> defd (F8_x1_x2 p1 p2).
  Proof. intros. unfold F8_x1_x2; cbv zeta. repeat cond; leaf. Qed.
  Lemma F8_1_1_def : defd (F8_1_1 p1 p2).
  Proof. unfold F8_1_1; cbv zeta. leaf. Qed.
  Lemma F9_1_x2_def : x2 <> 1 -> defd (F9_1_x2 p1 p2).
  Proof. intros. unfold F9_1_x2; cbv zeta. repeat cond; leaf. Qed.
  Lemma F9_0_x2_def : x2 <> 1 -> defd (F9_0_x2 p1 p2).
  Proof. intros. unfold F9_0_x2; cbv zeta. repeat cond; leaf. Qed.
  Lemma F9_x1_x2_def : x2 <> 1 -> defd (F9_x1_x2 p1 p2).
  Proof. intros. unfold F9_x1_x2; cbv zeta. repeat cond; leaf. Qed.
  Lemma F9_1_1_def : defd (F9_1_1 p1 p2).
  Proof. unfold F9_1_1; cbv zeta. leaf. Qed.
  Lemma f5_1_1_def : defd (f5_1_1 p1 p2).
  Proof. unfold f5_1_1; cbv zeta. leaf. Qed.
  Lemma f5_r1_r2_def : x2 <> 1 -> defd (f5_r1_r2 p1 p2).
  Proof. intros. unfold f5_r1_r2; cbv zeta. leaf. Qed.
  Lemma f5_0_r2_def : x2 <> 1 -> defd (f5_0_r2 p1 p2).
  Proof. intros. unfold f5_0_r2; cbv zeta. leaf. Qed.
  Lemma f6_1_1_def : defd (f6_1_1 p1 p2).
  Proof. unfold f6_1_1; cbv zeta. leaf. Qed.
  Lemma f6_0_1_def : defd (f6_0_1 p1 p2).
  Proof. unfold f6_0_1; cbv zeta. leaf. Qed.
  Lemma f6_r1_r2_def : x2 <> 1 -> defd (f6_r1_r2 p1 p2).
  Proof. intros. unfold f6_r1_r2; cbv zeta. leaf. Qed.
  Lemma f6_0_r2_def : x2 <> 1 -> defd (f6_0_r2 p1 p2).
  Proof. intros. unfold f6_0_r2; cbv zeta. leaf. Qed.
  Lemma f7_1_1_def : defd (f7_1_1 p1 p2).
  Proof. unfold f7_1_1; cbv zeta. leaf. Qed.
  Lemma f7_0_1_def : defd (f7_0_1 p1 p2).
  Proof. unfold f7_0_1; cbv zeta. leaf. Qed.
  Lemma f7_r1_r2_def : x2 <> 1 -> defd (f7_r1_r2 p1 p2).
  Proof. intros. unfold f7_r1_r2; cbv zeta. leaf. Qed.
  Lemma f7_0_r2_def : x2 <> 1 -> defd (f7_0_r2 p1 p2).
  Proof. intros. unfold f7_0_r2; cbv zeta. leaf. Qed.
  Lemma f8_1_1_def : defd (f8_1_1 p1 p2).
  Proof. unfold f8_1_1; cbv zeta. leaf. Qed.
  Lemma f8_0_1_def : defd (f8_0_1 p1 p2).
  Proof. unfold f8_0_1; cbv zeta. leaf. Qed.
  Lemma f8_r1_r2_def : x2 <> 1 -> defd (f8_r1_r2 p1 p2).
  Proof. intros. unfold f8_r1_r2; cbv zeta. leaf. Qed.
  Lemma f8_0_r2_def : x2 <> 1 -> defd (f8_0_r2 p1 p2).
  Proof. intros. unfold f8_0_r2; cbv zeta. leaf. Qed.
  Lemma f6_0_0_def : defd (f6_0_0 p1 p2).
  Proof. unfold f6_0_0; cbv zeta. repeat cond; leaf. Qed.
  Lemma swapP : (if nltb (nabs p2) (nabs p1) then (p2, p1) else (p1, p2)) = (if Rltb (Rabs x2) (Rabs x1) then (p2, p1) else (p1, p2)).
  Proof. reflexivity. Qed.
  Lemma f5_0_0_def : defd (f5_0_0 p1 p2).
  Proof. unfold f5_0_0; cbv zeta. repeat cond; try leaf.
    all: match goal with |- defd (let '(_, _) := if ?c then _ else _ in _) => destruct c end; cbv zeta; repeat cond; leaf. Qed.
  Lemma f7_0_0_def : defd (f7_0_0 p1 p2).
  Proof. unfold f7_0_0; cbv zeta. repeat cond; try leaf.
    all: match goal with |- defd (let '(_, _) := if ?c then _ else _ in _) => destruct c end; cbv zeta; repeat cond; leaf. Qed.
  Lemma f8_0_0_def : defd (f8_0_0 p1 p2).
  Proof. unfold f8_0_0; cbv zeta. repeat cond; try leaf.
    all: match goal with |- defd (let '(_, _) := if ?c then _ else _ in _) => destruct c end; cbv zeta; repeat cond; leaf. Qed.
End Two.

Section Two2.
  Variables x1 x2 : R.
  Hypothesis P1 : 0 < x1.
  Hypothesis P2 : 0 < x2.
  Notation p1 := (Some x1 : PR).
  Notation p2 := (Some x2 : PR).
  Lemma f5_1_r2_def : x2 <> 1 -> defd (f5_1_r2 p1 p2).
  Proof. intros. unfold f5_1_r2; cbv zeta. cond; leaf. Qed.
  Lemma f6_1_r2_def : x2 <> 1 -> defd (f6_1_r2 p1 p2).
  Proof. intros. unfold f6_1_r2; cbv zeta. cond; [apply (f6_0_1_def x2 x1)|leaf]. Qed.
  Lemma f7_1_r2_def : x2 <> 1 -> defd (f7_1_r2 p1 p2).
  Proof. intros. unfold f7_1_r2; cbv zeta. cond; [apply (f7_0_1_def x2 x1)|leaf]. Qed.
  Lemma f8_1_r2_def : x2 <> 1 -> defd (f8_1_r2 p1 p2).
  Proof. intros. unfold f8_1_r2; cbv zeta. cond; [apply (f8_0_1_def x2 x1)|leaf]. Qed.
End Two2.

Lemma absx' x : 0 < x -> Rabs x = x. Proof. intros. apply Rabs_pos_eq. lra. Qed.

Ltac known :=
  lazymatch goal with
  | |- defd (@F8_1_1 _ _ _ _) => apply F8_1_1_def; sl
  | |- defd (@F8_1_x2 _ _ _ _) => apply F8_1_x2_def; sl
  | |- defd (@F8_0_x2 _ _ _ _) => apply F8_0_x2_def; sl
  | |- defd (@F8_x1_x2 _ _ _ _) => apply F8_x1_x2_def; sl
  | |- defd (@F9_1_1 _ _ _ _) => apply F9_1_1_def; sl
  | |- defd (@F9_1_x2 _ _ _ _) => apply F9_1_x2_def; sl
  | |- defd (@F9_0_x2 _ _ _ _) => apply F9_0_x2_def; sl
  | |- defd (@F9_x1_x2 _ _ _ _) => apply F9_x1_x2_def; sl
  | |- defd (@f5_1_1 _ _ _ _) => apply f5_1_1_def; sl
  | |- defd (@f5_1_r2 _ _ _ _) => apply f5_1_r2_def; sl
  | |- defd (@f5_0_r2 _ _ _ _) => apply f5_0_r2_def; sl
  | |- defd (@f5_r1_r2 _ _ _ _) => apply f5_r1_r2_def; sl
  | |- defd (@f5_0_0 _ _ _ _) => apply f5_0_0_def; sl
  | |- defd (@f6_1_1 _ _ _ _) => apply f6_1_1_def; sl
  | |- defd (@f6_1_r2 _ _ _ _) => apply f6_1_r2_def; sl
  | |- defd (@f6_0_r2 _ _ _ _) => apply f6_0_r2_def; sl
  | |- defd (@f6_r1_r2 _ _ _ _) => apply f6_r1_r2_def; sl
  | |- defd (@f6_0_0 _ _ _ _) => apply f6_0_0_def; sl
  | |- defd (@f7_1_1 _ _ _ _) => apply f7_1_1_def; sl
  | |- defd (@f7_1_r2 _ _ _ _) => apply f7_1_r2_def; sl
  | |- defd (@f7_0_r2 _ _ _ _) => apply f7_0_r2_def; sl
  | |- defd (@f7_r1_r2 _ _ _ _) => apply f7_r1_r2_def; sl
  | |- defd (@f7_0_0 _ _ _ _) => apply f7_0_0_def; sl
  | |- defd (@f8_1_1 _ _ _ _) => apply f8_1_1_def; sl
  | |- defd (@f8_1_r2 _ _ _ _) => apply f8_1_r2_def; sl
  | |- defd (@f8_0_r2 _ _ _ _) => apply f8_0_r2_def; sl
  | |- defd (@f8_r1_r2 _ _ _ _) => apply f8_r1_r2_def; sl
  | |- defd (@f8_0_0 _ _ _ _) => apply f8_0_0_def; sl
  end.

Section Two3.
  Variables x1 x2 : R.
  Hypothesis P1 : 0 < x1.
  Hypothesis P2 : 0 < x2.
  Notation p1 := (Some x1 : PR).
  Notation p2 := (Some x2 : PR).
  Lemma F8_def : defd (F8 p1 p2).
  Proof. unfold F8; cbv zeta. repeat cond; rewrite ?(absx' x1 P1), ?(absx' x2 P2) in *; facts; first [known | leaf]. Qed.
  Lemma F9_def : defd (F9 p1 p2).
  Proof. unfold F9; cbv zeta. repeat cond; rewrite ?(absx' x1 P1), ?(absx' x2 P2) in *; facts; first [known | leaf]. Qed.
  Lemma f5_def : defd (f5 p1 p2).
  Proof. unfold f5; cbv zeta. repeat cond; try (exfalso; repeat match goal with H : Rabs (_ - - (1)) <= _ |- _ => apply absle in H end; unfold Rdec in *; simpl Z.pow in *; lra); facts; first [known | leaf]. Qed.
  Lemma f6_def : defd (f6 p1 p2).
  Proof. unfold f6; cbv zeta. repeat cond; try (exfalso; repeat match goal with H : Rabs (_ - - (1)) <= _ |- _ => apply absle in H end; unfold Rdec in *; simpl Z.pow in *; lra); facts; first [known | leaf]. Qed.
  Lemma f7_def : defd (f7 p1 p2).
  Proof. unfold f7; cbv zeta. repeat cond; try (exfalso; repeat match goal with H : Rabs (_ - - (1)) <= _ |- _ => apply absle in H end; unfold Rdec in *; simpl Z.pow in *; lra); facts; first [known | leaf]. Qed.
  Lemma f8_def : defd (f8 p1 p2).
  Proof. unfold f8; cbv zeta. repeat cond; try (exfalso; repeat match goal with H : Rabs (_ - - (1)) <= _ |- _ => apply absle in H end; unfold Rdec in *; simpl Z.pow in *; lra); facts; first [known | leaf]. Qed.
End Two3.
