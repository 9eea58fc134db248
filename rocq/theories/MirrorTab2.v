(** * Mirror identities of the Yukawa corrections with the three-mass function: the computations
    Proof tool; MirrorProofs3.v gives the meaning. *)
From Coq Require Import Reals ZArith List Bool.
From Verif Require Import Num NumFacts Except Params HierFormulas Thresh ThreshTwo Threshold HierExpr HierPoly FieldPoly FieldNF ThreshTree ThreshDeep MirrorNF MirrorTab.
Import ListNotations.

Definition vv := 161%positive.
(** masses q, d, u, mu, A, scale r, t = tan(beta), c = cos(beta), x_1 = Xb, x_2 = Xt, x_3 = Yb, x_4 = Yt *)
Definition lm5 : list (positive * lp) := [(1, mon vm 3); (2, cst 1); (3, mon vq 2); (4, mon vdd 2); (5, mon vr 1); (6, mon 1 1);
  (20, mon vuu 2); (21, mon vA 1); (22, mon vm 1); (25, mon 2 1); (27, mon 100 1); (28, lmul (mon 100 1) (mon vt 1)); (29, mon vt 1);
  (31, mon vv 1); (32, lmul (mon vv 1) (mon vt 1)); (34, mon vst 1); (35, mon 3 1); (36, mon 4 1)]%positive.
(** sleptons with the masses of the sbottoms *)
Definition lm7 : list (positive * lp) := ([(15, mon vq 2); (12, mon vdd 2); (26, mon 1 1); (37, mon 3 1)]%positive ++ lm5)%list.
Definition sym3 (n a b : positive) : list (lp * lp * lp * lp) :=
  [(mon vA 2, mon a 2, mon b 2, mon n 1); (mon vA 2, mon b 2, mon a 2, lmul (mon n 1) (lmul (mon a 2) (mon b (-2))))].
Definition ds7 := [dsub vq vdd; dsub vq vm; dsub vdd vm; dsub vq vA; dsub vdd vA; ddel vq vdd vA].
Definition li7 := (L3 30 vm vdd ++ L3 31 vm vq ++ L3 32 vdd vq)%list.
Definition ph7 := ([(mon vA 2, mon vdd 2, mon vdd 2, mon 50 1); (mon vA 2, mon vq 2, mon vq 2, mon 51 1)] ++ sym3 52 vq vdd)%list.
Definition ds5 := (ds7 ++ [dsub vq vuu; dsub vdd vuu; dsub vuu vm; ddel vq vuu vA; ddel vdd vuu vA])%list.
Definition li5 := (li7 ++ L3 33 vm vuu ++ L3 34 vuu vq ++ L3 35 vdd vuu)%list.
Definition ph5 := (ph7 ++ sym3 53 vuu vdd ++ sym3 54 vq vuu)%list.

Definition c2 := XMul (XV 27) (XV 27).
Definition id7 : rx := XSub (pick [false] d_getDeltaLambdaYb6)
  (XSub (XAdd (XMul (XZ 3) (XAdd (pick [false] d_getDeltaLambdaYtau6) (XMul (XDiv (XZ 4) c2) (XMul (pick [] d_getDeltaYtauYtau) (pick [] d_getDeltaLambdaYtau4)))))
   (XMul (XMul (XZ 2) (XV 29)) (pick [false; false; false] d_getDeltaLambdaYtau4Yb2)))
   (XMul (XDiv (XZ 8) (XZ 3)) (XMul (pick [false] d_getDeltaVevYb2) (pick [] d_getDeltaLambdaYb4)))).
Definition lv7 := [35; 37; 21; 22; 29; 26; 27; 28; 12; 15; 6; 4; 2; 3; 5]%positive.
Definition fa7 : list (positive * rx * rx * rx) :=
  let q := XSqrt (XV 3) in let d := XSqrt (XV 4) in let l := XSqrt (XV 15) in let e := XSqrt (XV 12) in let m := XV 22 in
  [(5%positive, q, d, d); (6%positive, q, d, d); (5%positive, l, e, e); (6%positive, l, e, e); (9%positive, l, e, e); (10%positive, e, m, m); (10%positive, l, m, m)].

Definition sw5 (v : positive) : positive := match v with 4 => 20 | 20 => 4 | 6 => 25 | 25 => 6 | 35 => 36 | 36 => 35 | 27 => 28 | 28 => 27 | 31 => 32 | 32 => 31 | v => v end%positive.
Definition lo5 (x : rx) := XLog (XDiv (xsq x) (xsq (XV 5))).
(** see MirrorSpec.v, [bottom_shift] *)
Definition D5 : rx :=
  let c2 := xsq (XV 27) in let s2 := xsq (XV 28) in let q := XSqrt (XV 3) in let d := XSqrt (XV 4) in
  XAdd (XSub (XAdd (XNeg (XDiv (XMul (XMul c2 (xsq (XV 6))) (XF1 9 (XDiv q d))) (XMul (XZ 4) (XMul q d))))
    (XDiv (XF1 10 (XDiv d (XV 22))) (XZ 2)))
    (XDiv (XMul (XMul (XDiv (XV 31) (XV 32)) (XV 6)) (XF2 1 (XDiv q (XV 22)) (XDiv d (XV 22)))) (XMul (XZ 2) (XV 22))))
    (XDiv (XAdd (XSub (XSub (XMul (XZ 2) (lo5 (XV 22))) (XMul (XZ 8) c2)) s2) (XMul (XMul (XZ 2) (lo5 (XV 21))) (XAdd (XMul (XZ 4) c2) s2))) (XZ 8)).
Definition id5 : rx := XSub (XSub (pick [false] d_getDeltaLambdaYt4Yb2) (xsub (fun v => XV (sw5 v)) (pick [false] d_getDeltaLambdaYt2Yb4)))
   (XSub (XZ 2) (XMul (XMul (XDiv (XZ 4) c2) D5) (pick [] (d_getDeltaLambdaAlphat GENERAL)))).
Definition lv5 := [1; 36; 35; 31; 32; 6; 4; 22; 21; 27; 28; 2; 5; 25; 20; 3]%positive.
Definition fa5 : list (positive * rx * rx * rx) :=
  let q := XSqrt (XV 3) in let d := XSqrt (XV 4) in let m := XV 22 in
  [(9%positive, q, d, d); (10%positive, d, m, m); (1%positive, q, d, m); (2%positive, m, m, m)].

Fixpoint rxb (a b : rx) : bool :=
  match a, b with XV v, XV w => Pos.eqb v w | XSqrt x, XSqrt y => rxb x y | _, _ => false end.
Lemma rxb_ok a : forall b, rxb a b = true -> a = b.
Proof. induction a; destruct b; cbn; intros H; try discriminate; [apply Pos.eqb_eq in H; subst; reflexivity|rewrite (IHa _ H); reflexivity]. Qed.
Definition f4b (x y : positive * rx * rx * rx) : bool :=
  let '(f, a, b, c) := x in let '(g, a', b', c') := y in Pos.eqb f g && rxb a a' && rxb b b' && rxb c c'.
Definition fsub (l k : list (positive * rx * rx * rx)) : bool := forallb (fun x => existsb (f4b x) k) l.
Lemma fsub_ok (Q : positive * rx * rx * rx -> Prop) l k : fsub l k = true -> Forall Q k -> Forall Q l.
Proof.
  unfold fsub. rewrite forallb_forall, !Forall_forall. intros H HQ x Hx. destruct (proj1 (existsb_exists _ _) (H x Hx)) as (y & Hy & E).
  assert (x = y); [|subst; apply HQ; exact Hy]. clear - E. destruct x as [[[f a] b] c], y as [[[g a'] b'] c']. cbn [f4b] in E. rewrite !andb_true_iff in E.
  destruct E as (((E1 & E2) & E3) & E4). apply Pos.eqb_eq in E1. apply rxb_ok in E2, E3, E4. subst. reflexivity.
Qed.
Lemma id7_check : fcheck (envm lm7 ds7 li7 ph7) (XMul c2 (xg id7)) = true /\ tabs_ok ds7 lm7 li7 ph7 = true /\ vin lv7 id7 = true /\ fsub (fargs id7) fa7 = true.
Proof. vm_compute. repeat split. Qed.
Lemma id5_check : fcheck (envm lm5 ds5 li5 ph5) (XMul c2 (XMul c2 (xg id5))) = true /\ tabs_ok ds5 lm5 li5 ph5 = true /\ fsub (fargs id5) fa5 = true /\
  vin lv5 (pick [false] d_getDeltaLambdaYt4Yb2) = true /\ vin lv5 (pick [false] d_getDeltaLambdaYt2Yb4) = true /\ vin lv5 D5 = true /\ vin (34%positive :: lv5) (pick [] (d_getDeltaLambdaAlphat GENERAL)) = true.
Proof. vm_compute. repeat split. Qed.

(** no three-mass function *)
Fixpoint no3 (e : rx) : bool :=
  match e with
  | XAdd a b | XSub a b | XMul a b | XDiv a b | XSel _ a b | XF2 _ a b => no3 a && no3 b
  | XNeg a | XLog a | XSqrt a | XAbs a | XF1 _ a => no3 a
  | XF3 _ _ _ _ => false
  | _ => true
  end.
Lemma no3_ok u G G' e : no3 e = true -> rev u fun1 fun2 G e = rev u fun1 fun2 G' e.
Proof.
  induction e; cbn [no3 rev]; rewrite ?andb_true_iff; intros H; try reflexivity; try discriminate; try (rewrite IHe by tauto; reflexivity); rewrite IHe1, IHe2 by tauto; reflexivity.
Qed.
Lemma no3_check : forallb no3 [pick [] d_getDeltaYtauYtau; pick [] d_getDeltaLambdaYtau4; pick [false; false; false] d_getDeltaLambdaYtau4Yb2;
  pick [false] d_getDeltaVevYb2; pick [] d_getDeltaLambdaYb4; pick [] (d_getDeltaLambdaAlphat GENERAL)] = true.
Proof. vm_compute. reflexivity. Qed.
