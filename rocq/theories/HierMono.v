(** * Checks on the monomials of a normal form (proof tool)
    Independence of variables, weights, degree of the terms containing a flag, linear coefficients. *)
From Coq Require Import ZArith List Reals Lra Lia Bool.
From Verif Require Import Num NumFacts HierCalc HierExpr HierPoly HierLib HierInp HierNF HierOrder.
Import ListNotations.
Local Open Scope R_scope.

(** ** no variable of the set occurs *)
Fixpoint nooc (bad : positive -> bool) (p : pol) : bool :=
  match p with PC _ => true | PX v _ h t => negb (bad v) && nooc bad h && nooc bad t end.
Lemma pev_indep bad rho rho' p : (forall v, bad v = false -> rho v = rho' v) -> nooc bad p = true -> pev rho p = pev rho' p.
Proof.
  intros E. induction p as [z|v e h IHh t IHt]; intros H; [reflexivity|].
  cbn [nooc] in H. rewrite !andb_true_iff, negb_true_iff in H. destruct H as ((A & B) & C).
  cbn [pev]. unfold xp. rewrite (E v A), (IHh B), (IHt C). reflexivity.
Qed.
Lemma lev_indep bad rho rho' l : (forall v, bad v = false -> rho v = rho' v) -> nooc bad (fst l) = true -> lev rho l = lev rho' l.
Proof. intros E H. unfold lev. rewrite (pev_indep bad rho rho' _ E H). reflexivity. Qed.

(** ** every monomial has weight n *)
Fixpoint weight (w : positive -> Z) (n : Z) (p : pol) : bool :=
  match p with
  | PC z => (z =? 0)%Z || (n =? 0)%Z
  | PX v e h t => weight w (n - w v * e) h && weight w n t
  end.
Lemma powerRZ_powerRZ s w e : s <> 0 -> powerRZ (powerRZ s w) e = powerRZ s (w * e).
Proof.
  intros Hs.
  assert (N : forall n, powerRZ (powerRZ s w) (Z.of_nat n) = powerRZ s (w * Z.of_nat n)).
  { induction n as [|n I]; [cbn; rewrite Z.mul_0_r; reflexivity|].
    rewrite Nat2Z.inj_succ. unfold Z.succ. rewrite powerRZ_add by (apply powerRZ_NOR; exact Hs). rewrite I.
    change (powerRZ (powerRZ s w) 1) with (powerRZ s w * 1). rewrite Rmult_1_r, <- powerRZ_add by exact Hs. f_equal. lia. }
  destruct (Z.le_ge_cases 0 e) as [H|H].
  - rewrite <- (Z2Nat.id e) by exact H. apply N.
  - replace e with (- Z.of_nat (Z.to_nat (- e)))%Z by lia. rewrite powerRZ_neg' , N.
    rewrite <- powerRZ_neg'. f_equal. lia.
Qed.
Lemma pev_weight w s rho rho' : s <> 0 -> (forall v, rho' v = powerRZ s (w v) * rho v) ->
  (forall v, (v <= ninv)%positive -> rho v <> 0) ->
  forall p n, wf ninv p -> weight w n p = true -> pev rho' p = powerRZ s n * pev rho p.
Proof.
  intros Hs E HK. induction p as [z|v e h IHh t IHt]; intros n W H.
  - cbn [weight] in H. cbn [pev]. apply orb_true_iff in H. destruct H as [H|H]; apply Z.eqb_eq in H; subst; cbn; ring.
  - cbn [weight] in H. apply andb_true_iff in H. destruct H as (Hh & Ht). destruct W as (We & Wh & Wt).
    cbn [pev]. rewrite (IHh _ Wh Hh), (IHt _ Wt Ht).
    assert (X : xp rho' v e = powerRZ s (w v * e) * xp rho v e).
    { unfold xp. rewrite E. rewrite powerRZ_mult, powerRZ_powerRZ by exact Hs. reflexivity. }
    rewrite X. rewrite Rmult_plus_distr_l. f_equal.
    replace (powerRZ s n) with (powerRZ s (w v * e) * powerRZ s (n - w v * e)) by (rewrite <- powerRZ_add by exact Hs; f_equal; lia).
    ring.
Qed.

(** ** the terms that contain a flag have degree n in the small quantities *)
Fixpoint flagdeg (dv fv : positive -> bool) (n : nat) (p : pol) : bool :=
  match p with
  | PC _ => true
  | PX v e h t =>
      (if fv v then degok dv n h else if dv v then (0 <=? e)%Z && flagdeg dv fv (n - Z.to_nat e) h else flagdeg dv fv n h) && flagdeg dv fv n t
  end.
Section FlagBound.
  Variables (dv fv : positive -> bool) (M : R).
  Hypothesis HM : 1 <= M.
  Lemma flag_bound p : forall n, flagdeg dv fv n p = true -> wf ninv p ->
    exists C, 0 <= C /\ forall delta rho rho', bounded dv M delta rho -> bounded dv M delta rho' ->
      (forall v, fv v = false -> rho v = rho' v) -> Rabs (pev rho p - pev rho' p) <= C * delta ^ n.
  Proof.
    induction p as [z|v e h IHh t IHt]; intros n H W.
    - exists 0. split; [lra|]. intros. cbn [pev]. replace (IZR z - IZR z) with 0 by ring. rewrite Rabs_R0. lra.
    - cbn [flagdeg] in H. apply andb_true_iff in H. destruct H as (Hh & Ht). destruct W as (We & Wh & Wt).
      destruct (IHt n Ht Wt) as (Ct & PCt & Bt).
      assert (Sum : forall Ch, 0 <= Ch ->
        (forall delta rho rho', bounded dv M delta rho -> bounded dv M delta rho' -> (forall v, fv v = false -> rho v = rho' v) ->
           Rabs (xp rho v e * pev rho h - xp rho' v e * pev rho' h) <= Ch * delta ^ n) ->
        exists C, 0 <= C /\ forall delta rho rho', bounded dv M delta rho -> bounded dv M delta rho' ->
          (forall v, fv v = false -> rho v = rho' v) -> Rabs (pev rho (PX v e h t) - pev rho' (PX v e h t)) <= C * delta ^ n).
      { intros Ch P Q. exists (Ch + Ct). split; [lra|]. intros delta rho rho' B1 B2 E.
        specialize (Q delta rho rho' B1 B2 E). specialize (Bt delta rho rho' B1 B2 E). cbn [pev].
        replace (xp rho v e * pev rho h + pev rho t - (xp rho' v e * pev rho' h + pev rho' t))
          with ((xp rho v e * pev rho h - xp rho' v e * pev rho' h) + (pev rho t - pev rho' t)) by ring.
        eapply Rle_trans; [apply Rabs_triang|]. lra. }
      destruct (fv v) eqn:Fv.
      + destruct (deg_bound dv M HM h n Hh Wh) as (Ch & PCh & Bh).
        set (X := M ^ Z.to_nat (Z.abs e)). assert (PX' : 0 <= X) by (apply pow_le; lra).
        apply (Sum (X * Ch + X * Ch)); [pose proof (Rmult_le_pos _ _ PX' PCh); lra|].
        intros delta rho rho' B1 B2 E.
        assert (T : forall r, bounded dv M delta r -> Rabs (xp r v e * pev r h) <= X * (Ch * delta ^ n)).
        { intros r Br. rewrite Rabs_mult. apply Rmult_le_compat; try apply Rabs_pos; [apply (xp_bound dv M delta r v e Br We)|apply Bh; exact Br]. }
        pose proof (T rho B1). pose proof (T rho' B2).
        unfold Rminus. eapply Rle_trans; [apply Rabs_triang|]. rewrite Rabs_Ropp. lra.
      + destruct (dv v) eqn:Dv.
        * apply andb_true_iff in Hh. destruct Hh as (He & Hh). apply Z.leb_le in He.
          destruct (IHh _ Hh Wh) as (Ch & PCh & Bh). set (m := Z.to_nat e) in *.
          apply (Sum (M ^ m * Ch)); [apply Rmult_le_pos; [apply pow_le; lra|assumption]|].
          intros delta rho rho' B1 B2 E. specialize (Bh delta rho rho' B1 B2 E).
          assert (EX : xp rho' v e = xp rho v e) by (unfold xp; rewrite (E v Fv); reflexivity).
          rewrite EX. rewrite <- Rmult_minus_distr_l, Rabs_mult.
          destruct B1 as (D & _ & _ & B3). specialize (B3 v Dv).
          assert (X : Rabs (xp rho v e) = Rabs (rho v) ^ m).
          { unfold xp. rewrite <- (Z2Nat.id e) by exact He. fold m. rewrite <- pow_powerRZ. symmetry. apply RPow_abs. }
          rewrite X.
          assert (E1 : Rabs (rho v) ^ m <= delta ^ m) by (apply pow_incr; split; [apply Rabs_pos|exact B3]).
          assert (E2 : delta ^ m * delta ^ (n - m) <= M ^ m * delta ^ n).
          { destruct (Nat.le_gt_cases m n) as [L|L].
            - rewrite <- pow_add. replace (m + (n - m))%nat with n by lia.
              assert (1 <= M ^ m) by (apply pow_R1_Rle; exact HM).
              assert (0 <= delta ^ n) by (apply pow_le; lra).
              rewrite <- (Rmult_1_l (delta ^ n)) at 1. apply Rmult_le_compat_r; assumption.
            - replace (n - m)%nat with 0%nat by lia. rewrite Rmult_1_r.
              replace m with ((m - n) + n)%nat at 1 by lia. rewrite pow_add.
              apply Rmult_le_compat_r; [apply pow_le; lra|].
              apply Rle_trans with (M ^ (m - n)); [apply pow_incr; lra|apply Rle_pow; [exact HM|lia]]. }
          apply Rle_trans with (delta ^ m * (Ch * delta ^ (n - m))).
          { apply Rmult_le_compat; [apply pow_le; apply Rabs_pos|apply Rabs_pos|exact E1|exact Bh]. }
          replace (delta ^ m * (Ch * delta ^ (n - m))) with (Ch * (delta ^ m * delta ^ (n - m))) by ring.
          replace (M ^ m * Ch * delta ^ n) with (Ch * (M ^ m * delta ^ n)) by ring.
          apply Rmult_le_compat_l; assumption.
        * destruct (IHh n Hh Wh) as (Ch & PCh & Bh).
          apply (Sum (M ^ Z.to_nat (Z.abs e) * Ch)); [apply Rmult_le_pos; [apply pow_le; lra|assumption]|].
          intros delta rho rho' B1 B2 E. specialize (Bh delta rho rho' B1 B2 E).
          assert (EX : xp rho' v e = xp rho v e) by (unfold xp; rewrite (E v Fv); reflexivity).
          rewrite EX. rewrite <- Rmult_minus_distr_l, Rabs_mult. rewrite Rmult_assoc.
          apply Rmult_le_compat; try apply Rabs_pos; [apply (xp_bound dv M delta rho v e B1 We)|exact Bh].
  Qed.
End FlagBound.

(** ** the terms with x_v^k, divided by it *)
Fixpoint pget (v : positive) (k : Z) (p : pol) : pol :=
  match p with
  | PC _ => PC 0
  | PX w e h t =>
      if Pos.eqb v w then (if Z.eqb e k then padd h (pget v k t) else pget v k t)
      else pmk w e (pget v k h) (pget v k t)
  end.
Lemma wf_pget v k p : wf ninv p -> wf ninv (pget v k p).
Proof.
  induction p as [z|w e h IHh t IHt]; [intros; exact I|]. intros (A & B & C). cbn [pget].
  destruct (Pos.eqb v w).
  - destruct (Z.eqb e k); [apply wf_padd; [exact B|apply IHt; exact C]|apply IHt; exact C].
  - apply wf_pmk. cbn [wf]. auto.
Qed.
Definition lget v k (l : lp) : lp := (pget v k (fst l), snd l).
