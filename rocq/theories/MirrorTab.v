(** * Mirror identities: the computations
    Each statement is a closed boolean computation; MirrorProofs.v gives its meaning.  Proof tool. *)
From Coq Require Import Reals ZArith List Bool.
From Verif Require Import Num NumFacts Except Params HierFormulas Thresh ThreshTwo Threshold HierExpr HierPoly FieldPoly FieldNF ThreshTree ThreshDeep MirrorNF.
Import ListNotations.

(** O(ab^2 as) and O(at^2 as): squark masses q, d, gluino mass g, scale r, light-stop mass, mixing parameter x_1 *)
Definition lmG : list (positive * lp) := [(2, cst 1); (3, mon vq 2); (4, mon vdd 2); (20, mon vdd 2); (5, mon vr 1); (6, lneg (mon 1 1)); (25, mon 1 1); (30, mon vg 1); (34, mon vst 1)]%positive.
Definition liG : list (lp * lp) :=
  [(one_sub vg vq, mon 30 1); (one_sub vg vdd, mon 31 1); (one_sub vdd vq, mon 32 1); (one_sub vq vdd, mon 33 1); (one_sub vq vg, mon 34 1); (one_sub vdd vg, mon 35 1)].
Definition idG (lim : Z) (l : list bool) : rx :=
  XSub (pick [] (d_getDeltaLambdaAlphatAlphas lim))
    (XAdd (pick l d_getDeltaLambdaYb4G32) (XMul (XZ 4) (XMul (pick [] (d_getDeltaYtAlphas lim)) (pick [] (d_getDeltaLambdaAlphat lim))))).
Definition dsG (k : nat) : list pol :=
  match k with
  | 0 => [dsub vq vdd; dsub vq vg; dsub vdd vg]
  | 1 => [dsub vq vg]
  | 2 => [dsub vq vdd]
  | 3 => [dsub vq vdd]
  | _ => []
  end%nat.
Definition limG (k : nat) : Z := match k with 0 => GENERAL | 1 => MQ3_EQ_MU3 | 2 => MQ3_EQ_M3 | 3 => MU3_EQ_M3 | _ => MQ3_EQ_MU3_EQ_M3 end%nat.
Definition brG (k : nat) : list bool :=
  match k with 0 => [false; false; false; false] | 1 => [false; true] | 2 => [false; false; true] | 3 => [false; false; false; true] | _ => [true] end%nat.
Lemma idG_check : forallb (fun k => fcheck (envm lmG (dsG k) liG []) (idG (limG k) (brG k)) && tabs_ok (dsG k) lmG liG []) [0; 1; 2; 3; 4]%nat = true.
Proof. vm_compute. reflexivity. Qed.
(** variables in use *)
Fixpoint vin (l : list positive) (e : rx) : bool :=
  match e with
  | XV v => existsb (Pos.eqb v) l
  | XAdd a b | XSub a b | XMul a b | XDiv a b | XSel _ a b | XF2 _ a b => vin l a && vin l b
  | XNeg a | XLog a | XSqrt a | XAbs a | XF1 _ a => vin l a
  | XF3 _ a b c => vin l a && vin l b && vin l c
  | _ => true
  end.
Lemma vin_ev G3 l u u' e : (forall v, In v l -> u v = u' v) -> vin l e = true -> rev u fun1 fun2 G3 e = rev u' fun1 fun2 G3 e.
Proof.
  intros Hu. induction e; cbn [vin rev]; rewrite ?andb_true_iff; intros H; try reflexivity; try (rewrite IHe by tauto; reflexivity);
    try (rewrite IHe1, IHe2 by tauto; reflexivity); try (rewrite IHe1, IHe2, IHe3 by tauto; reflexivity).
  apply existsb_exists in H. destruct H as (x & A & B). apply Pos.eqb_eq in B. subst x. apply Hu. exact A.
Qed.
Definition tG := [2; 3; 20; 5; 25; 30; 34]%positive.
Definition bG := [2; 3; 4; 5; 6; 30]%positive.
Lemma vinG : forallb (fun k => vin tG (pick [] (d_getDeltaLambdaAlphatAlphas (limG k))) && vin tG (pick [] (d_getDeltaYtAlphas (limG k))) &&
  vin tG (pick [] (d_getDeltaLambdaAlphat (limG k))) && vin bG (pick (brG k) d_getDeltaLambdaYb4G32)) [0; 1; 2; 3; 4]%nat = true.
Proof. vm_compute. reflexivity. Qed.

(** the O(as) corrections of the bottom and top Yukawa couplings *)
Definition lmA : list (positive * lp) := (6%positive, mon 1 1) :: lmG.
Definition idA : rx := XAdd (pick [] d_getDeltaYbAs) (pick [] (d_getDeltaYtAlphas GENERAL)).
Definition bA := [6; 3; 4; 2; 30; 5]%positive.
Lemma idA_check : fcheck (envm lmA (dsG 0) liG []) (xg idA) = true /\ tabs_ok (dsG 0) lmA liG [] = true /\
  vin bA (pick [] d_getDeltaYbAs) = true /\ vin tG (pick [] (d_getDeltaYtAlphas GENERAL)) = true.
Proof. vm_compute. repeat split. Qed.

(** the two mixed sbottom-stau corrections: masses q, d, L, E, mixing parameters x_1, x_5 *)
Definition lmY : list (positive * lp) :=
  [(2, cst 1); (3, mon vq 2); (4, mon vdd 2); (15, mon vL 2); (12, mon vE 2); (5, mon vr 1); (6, mon 1 1); (26, mon 5 1); (27, mon 100 1); (28, lmul (mon 100 1) (mon vt 1))]%positive.
Definition swY (v : positive) : positive := match v with 15 => 3 | 12 => 4 | 3 => 15 | 4 => 12 | 26 => 6 | 6 => 26 | v => v end%positive.
Definition dsY (a b : bool) : list pol := ((if a then [] else [dsub vL vE]) ++ (if b then [] else [dsub vq vdd]))%list.
(** branch taken if the sleptons (a) and the squarks (b) are nearly degenerate *)
Definition brY (a b : bool) : list bool := match a, b with true, true => [true] | true, false => [false; true] | false, true => [false; false; true] | _, _ => [false; false; false] end.
Definition idY (a b : bool) : rx := XSub (pick (brY a b) d_getDeltaLambdaYtau4Yb2) (xsub (fun v => XV (swY v)) (pick (brY b a) d_getDeltaLambdaYtau2Yb4)).
Definition yY := [2; 3; 4; 15; 12; 5; 6; 26; 27; 28]%positive.
Lemma idY_check : forallb (fun ab => let '(a, b) := ab in fcheck (envm lmY (dsY a b) [] []) (idY a b) && tabs_ok (dsY a b) lmY [] [] &&
    vin yY (pick (brY a b) d_getDeltaLambdaYtau4Yb2) && vin yY (pick (brY b a) d_getDeltaLambdaYtau2Yb4))
  [(false, false); (false, true); (true, false); (true, true)] = true.
Proof. vm_compute. reflexivity. Qed.
