(** * A small verified interval arithmetic over the rationals (a proof tool, not part of the model) *)
From Coq Require Import ZArith QArith Qreals Reals Lra Lia List.
Import ListNotations.
Local Open Scope R_scope.

Definition qin (x : R) (i : Q * Q) : Prop := Q2R (fst i) <= x <= Q2R (snd i).

(** rounding to multiples of 10^-45 *)
Definition den : positive := 1329227995784915872903807060280344576.
Definition qdown (q : Q) : Q := Qmake (Z.div (Qnum q * Zpos den) (Zpos (Qden q))) den.
Definition qup (q : Q) : Q := Qmake (- Z.div (- Qnum q * Zpos den) (Zpos (Qden q))) den.

Lemma Q2R_make n d : Q2R (Qmake n d) = IZR n / IZR (Zpos d).
Proof. reflexivity. Qed.
Lemma div_le n d k : (0 < d)%Z -> IZR (Z.div (n * k) d) <= IZR n * IZR k / IZR d.
Proof.
  intros Hd. pose proof (IZR_lt _ _ Hd). apply Rmult_le_reg_r with (IZR d); [assumption|].
  unfold Rdiv. rewrite Rmult_assoc, Rinv_l, Rmult_1_r by lra. rewrite <- !mult_IZR. apply IZR_le.
  rewrite Z.mul_comm. apply Z.mul_div_le. exact Hd.
Qed.
Lemma qdown_le q : Q2R (qdown q) <= Q2R q.
Proof.
  destruct q as [n d]. unfold qdown. cbn [Qnum Qden]. rewrite !Q2R_make.
  apply Rmult_le_reg_r with (IZR (Zpos den)); [apply IZR_lt; reflexivity|].
  unfold Rdiv at 1. rewrite Rmult_assoc, Rinv_l, Rmult_1_r by (apply not_0_IZR; discriminate).
  eapply Rle_trans; [apply div_le; reflexivity|]. apply Req_le. field. apply not_0_IZR. discriminate.
Qed.
Lemma qup_ge q : Q2R q <= Q2R (qup q).
Proof.
  destruct q as [n d]. unfold qup. cbn [Qnum Qden]. rewrite !Q2R_make.
  apply Rmult_le_reg_r with (IZR (Zpos den)); [apply IZR_lt; reflexivity|].
  unfold Rdiv at 2. rewrite Rmult_assoc, Rinv_l, Rmult_1_r by (apply not_0_IZR; discriminate).
  rewrite opp_IZR.
  assert (H : IZR (Z.div (- n * Zpos den) (Zpos d)) <= - IZR n * IZR (Zpos den) / IZR (Zpos d)).
  { rewrite <- opp_IZR. apply div_le. reflexivity. }
  replace (IZR n / IZR (Zpos d) * IZR (Zpos den)) with (- (- IZR n * IZR (Zpos den) / IZR (Zpos d)));
    [lra|]. field. apply not_0_IZR. discriminate.
Qed.

Definition iround (i : Q * Q) : Q * Q := (qdown (fst i), qup (snd i)).
Lemma iround_ok x i : qin x i -> qin x (iround i).
Proof. intros [H1 H2]. split; cbn [iround fst snd]; [pose proof (qdown_le (fst i))|pose proof (qup_ge (snd i))]; lra. Qed.

Definition qmin (a b : Q) : Q := if Qle_bool a b then a else b.
Definition qmax (a b : Q) : Q := if Qle_bool a b then b else a.
Lemma qmin_le a b : Q2R (qmin a b) <= Q2R a /\ Q2R (qmin a b) <= Q2R b.
Proof.
  unfold qmin. destruct (Qle_bool a b) eqn:E.
  - apply Qle_bool_iff, Qle_Rle in E. lra.
  - assert (~ (a <= b)%Q) as H by (intros C; apply Qle_bool_iff in C; congruence).
    apply Qnot_le_lt, Qlt_Rlt in H. lra.
Qed.
Lemma qmax_ge a b : Q2R a <= Q2R (qmax a b) /\ Q2R b <= Q2R (qmax a b).
Proof.
  unfold qmax. destruct (Qle_bool a b) eqn:E.
  - apply Qle_bool_iff, Qle_Rle in E. lra.
  - assert (~ (a <= b)%Q) as H by (intros C; apply Qle_bool_iff in C; congruence).
    apply Qnot_le_lt, Qlt_Rlt in H. lra.
Qed.

Inductive aexp :=
| AQ (q : Q) | AVar (n : nat) | AAdd (a b : aexp) | AMul (a b : aexp) | AOpp (a : aexp) | AInv (a : aexp).

Fixpoint aeval (env : list R) (e : aexp) : R :=
  match e with
  | AQ q => Q2R q
  | AVar n => nth n env 0
  | AAdd a b => aeval env a + aeval env b
  | AMul a b => aeval env a * aeval env b
  | AOpp a => - aeval env a
  | AInv a => / aeval env a
  end.

Definition imul (i j : Q * Q) : Q * Q :=
  let a := (fst i * fst j)%Q in let b := (fst i * snd j)%Q in
  let c := (snd i * fst j)%Q in let d := (snd i * snd j)%Q in
  iround (qmin (qmin a b) (qmin c d), qmax (qmax a b) (qmax c d)).

Fixpoint abound (env : list (Q * Q)) (e : aexp) : option (Q * Q) :=
  match e with
  | AQ q => Some (q, q)
  | AVar n => nth_error env n
  | AAdd a b => match abound env a, abound env b with
                | Some i, Some j => Some (iround (fst i + fst j, snd i + snd j)%Q)
                | _, _ => None end
  | AMul a b => match abound env a, abound env b with
                | Some i, Some j => Some (imul i j)
                | _, _ => None end
  | AOpp a => match abound env a with Some i => Some (- snd i, - fst i)%Q | None => None end
  | AInv a => match abound env a with
              | Some i => if Qle_bool (fst i) 0 then None else Some (iround (/ snd i, / fst i)%Q)
              | None => None end
  end.

Lemma mul_between x a b : a <= x <= b -> forall y, (a * y <= x * y <= b * y) \/ (b * y <= x * y <= a * y).
Proof. intros H y. destruct (Rle_dec 0 y); [left|right]; split; nra. Qed.
Lemma imul_ok x y i j : qin x i -> qin y j -> qin (x * y) (imul i j).
Proof.
  intros Hx Hy. apply iround_ok. unfold qin in *. cbn [fst snd].
  set (a := (fst i * fst j)%Q). set (b := (fst i * snd j)%Q).
  set (c := (snd i * fst j)%Q). set (d := (snd i * snd j)%Q).
  pose proof (qmin_le a b). pose proof (qmin_le c d). pose proof (qmin_le (qmin a b) (qmin c d)).
  pose proof (qmax_ge a b). pose proof (qmax_ge c d). pose proof (qmax_ge (qmax a b) (qmax c d)).
  assert (Q2R a = Q2R (fst i) * Q2R (fst j)) by apply Q2R_mult.
  assert (Q2R b = Q2R (fst i) * Q2R (snd j)) by apply Q2R_mult.
  assert (Q2R c = Q2R (snd i) * Q2R (fst j)) by apply Q2R_mult.
  assert (Q2R d = Q2R (snd i) * Q2R (snd j)) by apply Q2R_mult.
  clearbody a b c d.
  pose proof (mul_between _ _ _ Hx y) as M.
  pose proof (mul_between _ _ _ Hy (Q2R (fst i))) as M1.
  pose proof (mul_between _ _ _ Hy (Q2R (snd i))) as M2.
  rewrite (Rmult_comm _ (Q2R (fst i))), (Rmult_comm y (Q2R (fst i))), (Rmult_comm (Q2R (snd j)) (Q2R (fst i))) in M1.
  rewrite (Rmult_comm _ (Q2R (snd i))), (Rmult_comm y (Q2R (snd i))), (Rmult_comm (Q2R (snd j)) (Q2R (snd i))) in M2.
  lra.
Qed.

Lemma abound_ok env ienv : Forall2 qin env ienv -> forall e i, abound ienv e = Some i -> qin (aeval env e) i.
Proof.
  intros HE. induction e as [q|n|a IHa b IHb|a IHa b IHb|a IHa|a IHa]; intros i; cbn [abound aeval].
  - intros E. injection E. intros <-. split; apply Rle_refl.
  - intros E. clear - HE E. revert n E. induction HE as [|x j xs js Hx HE IH]; intros [|n] E; cbn in *; try discriminate.
    + injection E. intros <-. exact Hx.
    + apply IH, E.
  - destruct (abound ienv a) as [ia|]; [|discriminate]. destruct (abound ienv b) as [ib|]; [|discriminate].
    intros E. injection E. intros <-. apply iround_ok. specialize (IHa _ eq_refl). specialize (IHb _ eq_refl).
    unfold qin in *. cbn [fst snd]. rewrite !Q2R_plus. lra.
  - destruct (abound ienv a) as [ia|]; [|discriminate]. destruct (abound ienv b) as [ib|]; [|discriminate].
    intros E. injection E. intros <-. apply imul_ok; [apply (IHa _ eq_refl)|apply (IHb _ eq_refl)].
  - destruct (abound ienv a) as [ia|]; [|discriminate]. intros E. injection E. intros <-. specialize (IHa _ eq_refl).
    unfold qin in *. cbn [fst snd]. rewrite !Q2R_opp. lra.
  - destruct (abound ienv a) as [ia|]; [|discriminate]. destruct (Qle_bool (fst ia) 0) eqn:Ez; [discriminate|].
    intros E. injection E. intros <-. apply iround_ok. specialize (IHa _ eq_refl). unfold qin in *. cbn [fst snd].
    assert (P : 0 < Q2R (fst ia)).
    { assert (~ (fst ia <= 0)%Q) as H by (intros C; apply Qle_bool_iff in C; congruence).
      apply Qnot_le_lt, Qlt_Rlt in H. replace (Q2R 0) with 0 in H by (unfold Q2R; cbn; lra). exact H. }
    assert (P2 : 0 < Q2R (snd ia)) by lra.
    rewrite !Q2R_inv.
    + split; apply Rinv_le_contravar; lra.
    + intros C. apply Qeq_eqR in C. replace (Q2R 0) with 0 in C by (unfold Q2R; cbn; lra). lra.
    + intros C. apply Qeq_eqR in C. replace (Q2R 0) with 0 in C by (unfold Q2R; cbn; lra). lra.
Qed.

(** the check used in proofs: the value of [e] lies strictly between two rationals *)
Definition acheck (env : list (Q * Q)) (e : aexp) (lo hi : Q) : bool :=
  match abound env e with
  | Some i => negb (Qle_bool (fst i) lo) && negb (Qle_bool hi (snd i))
  | None => false
  end.
Lemma acheck_ok env ienv e lo hi : Forall2 qin env ienv -> acheck ienv e lo hi = true ->
  Q2R lo < aeval env e < Q2R hi.
Proof.
  intros HE. unfold acheck. destruct (abound ienv e) as [i|] eqn:E; [|discriminate]. intros H.
  apply andb_prop in H. destruct H as [H1 H2]. apply negb_true_iff in H1, H2.
  pose proof (abound_ok _ _ HE _ _ E) as [A B].
  assert (~ (fst i <= lo)%Q) as H by (intros C; apply Qle_bool_iff in C; congruence).
  assert (~ (hi <= snd i)%Q) as H' by (intros C; apply Qle_bool_iff in C; congruence).
  apply Qnot_le_lt, Qlt_Rlt in H. apply Qnot_le_lt, Qlt_Rlt in H'. lra.
Qed.
