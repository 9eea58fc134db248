(** * Laurent polynomials whose invertible variables are the high-numbered ones
    The same tool as HierPoly.v ([pol], [padd], [pmul] and [lp] are taken from there), with the low-numbered variables
    never inverted; proof tool only, nothing here models code. *)
From Coq Require Import ZArith List Reals Lra Lia Bool.
From Verif Require Import Num NumFacts HierExpr HierPoly.

(** inverse of a monomial in the invertible variables v >= K: (m, z) with p * m = z <> 0 *)
Fixpoint pinv (K : positive) (p : pol) : option (pol * Z) :=
  match p with
  | PC z => match z with Z0 => None | _ => Some (PC 1, z) end
  | PX v e h (PC Z0) =>
      if Pos.leb K v then match pinv K h with Some (m, z) => Some (PX v (- e) m (PC 0), z) | None => None end else None
  | _ => None
  end.
Definition linv (K : positive) (a : lp) : option lp :=
  match pinv K (fst a) with
  | Some (m, z) => match z with
                   | Zpos y => Some (pscale (Zpos (snd a)) m, y)
                   | Zneg y => Some (pscale (Zneg (snd a)) m, y)
                   | Z0 => None
                   end
  | None => None
  end.


(** ** Meaning *)
Section Sound.
  Variable rho : positive -> R.
  Variable K : positive.
  Hypothesis HK : forall v, (K <= v)%positive -> rho v <> 0%R.

  Definition xp (v : positive) (e : Z) : R := powerRZ (rho v) e.
  Fixpoint pev (p : pol) : R :=
    match p with PC z => IZR z | PX v e h t => (xp v e * pev h + pev t)%R end.
  Definition lev (a : lp) : R := (pev (fst a) / IZR (Zpos (snd a)))%R.

  (** negative exponents only for invertible variables *)
  Fixpoint wf (p : pol) : Prop :=
    match p with PC _ => True | PX v e h t => ((K <= v)%positive \/ (0 <= e)%Z) /\ wf h /\ wf t end.

  Lemma pev_pmk v e h t : pev (pmk v e h t) = (xp v e * pev h + pev t)%R.
  Proof. unfold pmk. destruct h as [[| |]|]; cbn [pev]; try ring. Qed.
  Lemma wf_pmk v e h t : wf (PX v e h t) -> wf (pmk v e h t).
  Proof. unfold pmk. destruct h as [[| |]|]; cbn [wf]; tauto. Qed.

  Lemma pev_padd p q : pev (padd p q) = (pev p + pev q)%R.
  Proof.
    revert q; induction p as [a|v e h IHh t IHt]; intros q.
    - destruct a as [|a|a]; [cbn [padd pev]; destruct q; cbn [pev]; ring| |].
      + induction q as [b|v e h IHh t IHt]; [cbn [padd pev]; apply plus_IZR|].
        change ((xp v e * pev h + pev (padd (PC (Zpos a)) t) = pev (PC (Zpos a)) + pev (PX v e h t))%R).
        rewrite IHt. cbn [pev]. ring.
      + induction q as [b|v e h IHh t IHt]; [cbn [padd pev]; apply plus_IZR|].
        change ((xp v e * pev h + pev (padd (PC (Zneg a)) t) = pev (PC (Zneg a)) + pev (PX v e h t))%R).
        rewrite IHt. cbn [pev]. ring.
    - induction q as [b|v' e' h' IHh' t' IHt'].
      + destruct b; cbn [padd pev]; try ring; rewrite IHt; cbn [pev]; ring.
      + cbn [padd].
        destruct (Pos.compare_spec v v') as [E|E|E].
        * subst v'. destruct (Z.compare_spec e e') as [F|F|F].
          -- subst e'. rewrite pev_pmk, IHh, IHt. cbn [pev]. ring.
          -- cbn [pev]. rewrite IHt. cbn [pev]. ring.
          -- change ((xp v e' * pev h' + pev (padd (PX v e h t) t') = pev (PX v e h t) + pev (PX v e' h' t'))%R).
             rewrite IHt'. cbn [pev]. ring.
        * cbn [pev]. rewrite IHt. cbn [pev]. ring.
        * change ((xp v' e' * pev h' + pev (padd (PX v e h t) t') = pev (PX v e h t) + pev (PX v' e' h' t'))%R).
          rewrite IHt'. cbn [pev]. ring.
  Qed.

  Lemma wf_padd p q : wf p -> wf q -> wf (padd p q).
  Proof.
    revert q; induction p as [a|v e h IHh t IHt]; intros q Hp.
    - destruct a as [|a|a]; [destruct q; cbn [padd]; tauto| |].
      + induction q as [b|v e h IHh t IHt]; intros Hq; [exact I|].
        change (((K <= v)%positive \/ (0 <= e)%Z) /\ wf h /\ wf (padd (PC (Zpos a)) t)).
        destruct Hq as (A & B & C). split; [exact A|split; [exact B|apply IHt; exact C]].
      + induction q as [b|v e h IHh t IHt]; intros Hq; [exact I|].
        change (((K <= v)%positive \/ (0 <= e)%Z) /\ wf h /\ wf (padd (PC (Zneg a)) t)).
        destruct Hq as (A & B & C). split; [exact A|split; [exact B|apply IHt; exact C]].
    - induction q as [b|v' e' h' IHh' t' IHt']; intros Hq.
      + destruct b; cbn [padd wf] in *; try tauto; (split; [tauto|split; [tauto|apply IHt; cbn; tauto]]).
      + cbn [padd].
        destruct (Pos.compare_spec v v') as [E|E|E].
        * subst v'. destruct (Z.compare_spec e e') as [F|F|F].
          -- subst e'. apply wf_pmk. cbn [wf] in *. split; [tauto|split; [apply IHh|apply IHt]; tauto].
          -- cbn [wf] in Hp |- *. split; [tauto|split; [tauto|apply IHt; tauto]].
          -- change (((K <= v)%positive \/ (0 <= e')%Z) /\ wf h' /\ wf (padd (PX v e h t) t')).
             destruct Hq as (A & B & C). split; [exact A|split; [exact B|apply IHt'; exact C]].
        * cbn [wf] in Hp |- *. split; [tauto|split; [tauto|apply IHt; tauto]].
        * change (((K <= v')%positive \/ (0 <= e')%Z) /\ wf h' /\ wf (padd (PX v e h t) t')).
          destruct Hq as (A & B & C). split; [exact A|split; [exact B|apply IHt'; exact C]].
  Qed.

  Lemma pev_pscale' a p : pev (pscale' a p) = (IZR a * pev p)%R.
  Proof. induction p as [z|v e h IHh t IHt]; cbn [pscale' pev]; [apply mult_IZR|rewrite IHh, IHt; ring]. Qed.
  Lemma pev_pscale a p : pev (pscale a p) = (IZR a * pev p)%R.
  Proof.
    unfold pscale. destruct a as [|a|a].
    - cbn. ring.
    - destruct a; try apply pev_pscale'. ring.
    - apply pev_pscale'.
  Qed.
  Lemma wf_pscale' a p : wf p -> wf (pscale' a p).
  Proof. induction p; cbn [pscale' wf]; tauto. Qed.
  Lemma wf_pscale a p : wf p -> wf (pscale a p).
  Proof. unfold pscale. destruct a as [|a|a]; [intros; exact I|destruct a; auto using wf_pscale'|apply wf_pscale']. Qed.

  Lemma xp_0 v : xp v 0 = 1%R. Proof. reflexivity. Qed.
  Lemma xp_add v e f : ((K <= v)%positive \/ (0 <= e)%Z) -> ((K <= v)%positive \/ (0 <= f)%Z) ->
    xp v (e + f) = (xp v e * xp v f)%R.
  Proof.
    intros A B. unfold xp.
    destruct (Pos.leb_spec K v) as [C|C].
    - apply powerRZ_add. apply HK. exact C.
    - assert (0 <= e)%Z by (destruct A; [lia|assumption]). assert (0 <= f)%Z by (destruct B; [lia|assumption]).
      rewrite <- (Z2Nat.id e), <- (Z2Nat.id f) by assumption. rewrite <- Nat2Z.inj_add, <- !pow_powerRZ. apply pow_add.
  Qed.

  Lemma pshift_ok v e p : ((K <= v)%positive \/ (0 <= e)%Z) -> wf p ->
    pev (pshift v e p) = (xp v e * pev p)%R /\ wf (pshift v e p).
  Proof.
    intros Hv. induction p as [z|v' e' h IHh t IHt]; intros Hp.
    - destruct z; cbn [pshift pev wf]; (split; [ring|tauto]).
    - cbn [pshift]. destruct Hp as (A & B & C). destruct (IHh B) as (I1 & I2), (IHt C) as (J1 & J2).
      destruct (Pos.compare_spec v v') as [E|E|E].
      + subst v'.
        assert (X := xp_add v e e' Hv A).
        assert (W : (K <= v)%positive \/ (0 <= e + e')%Z) by (destruct Hv, A; auto; right; lia).
        destruct (e + e')%Z as [|q|q].
        * rewrite xp_0 in X. split.
          -- rewrite pev_padd, J1. cbn [pev].
             transitivity ((xp v e * xp v e') * pev h + xp v e * pev t)%R; [rewrite <- X; ring|ring].
          -- apply wf_padd; assumption.
        * split.
          -- rewrite pev_padd, J1. cbn [pev]. rewrite X. ring.
          -- apply wf_padd; [cbn [wf]; tauto|assumption].
        * split.
          -- rewrite pev_padd, J1. cbn [pev]. rewrite X. ring.
          -- apply wf_padd; [cbn [wf]; tauto|assumption].
      + cbn [pev wf]. split; [ring|tauto].
      + cbn [pev wf]. rewrite I1, J1. split; [ring|tauto].
  Qed.

  Lemma pmul_ok p q : wf p -> wf q -> pev (pmul p q) = (pev p * pev q)%R /\ wf (pmul p q).
  Proof.
    intros Hp Hq. induction p as [a|v e h IHh t IHt].
    - cbn [pmul pev]. split; [apply pev_pscale|apply wf_pscale; exact Hq].
    - destruct Hp as (A & B & C). destruct (IHh B) as (I1 & I2), (IHt C) as (J1 & J2).
      destruct (pshift_ok v e (pmul h q) A I2) as (S1 & S2).
      assert (D : pev (padd (pshift v e (pmul h q)) (pmul t q)) = (pev (PX v e h t) * pev q)%R
                  /\ wf (padd (pshift v e (pmul h q)) (pmul t q))).
      { split; [rewrite pev_padd, S1, I1, J1; cbn [pev]; ring|apply wf_padd; assumption]. }
      cbn [pmul]. destruct t as [[| |]|]; try exact D.
      split; [rewrite S1, I1; cbn [pev]; ring|exact S2].
  Qed.

  Lemma pinv_ok p m z : pinv K p = Some (m, z) -> wf p -> (pev p * pev m)%R = IZR z /\ (z <> 0)%Z /\ wf m.
  Proof.
    revert m z. induction p as [a|v e h IHh t _]; intros m z H Hp.
    - cbn [pinv] in H. destruct a; inversion H; subst; cbn [pev wf]; (split; [ring|split; [discriminate|tauto]]).
    - cbn [pinv] in H. destruct t as [[| |]|]; try discriminate.
      destruct (Pos.leb_spec K v) as [E|E]; [|discriminate].
      destruct (pinv K h) as [[m' z']|] eqn:F; [|discriminate]. inversion H; subst.
      destruct Hp as (A & B & C). destruct (IHh m' z eq_refl B) as (I1 & I2 & I3).
      cbn [pev wf]. split; [|split; [exact I2|tauto]].
      assert (X : (xp v e * xp v (- e) = 1)%R).
      { rewrite <- xp_add by (left; assumption). rewrite Z.add_opp_diag_r. reflexivity. }
      transitivity ((xp v e * xp v (- e)) * (pev h * pev m'))%R; [ring|rewrite X, I1; ring].
  Qed.

  Definition lwf (a : lp) := wf (fst a).

  Lemma Zpos_neq0 d : IZR (Zpos d) <> 0%R. Proof. apply not_0_IZR. discriminate. Qed.

  Lemma ladd_ok a b : lwf a -> lwf b -> lev (ladd a b) = (lev a + lev b)%R /\ lwf (ladd a b).
  Proof.
    destruct a as [p d], b as [q d']. intros A B. unfold ladd.
    destruct (Pos.eqb_spec d d') as [E|E].
    - subst d'. unfold lev, lwf; cbn [fst snd]. split; [rewrite pev_padd; field; apply Zpos_neq0|apply wf_padd; assumption].
    - pose proof (Pos.ggcd_correct_divisors d d') as G.
      destruct (Pos.ggcd d d') as [g [x y]]. destruct G as [G1 G2].
      unfold lev, lwf; cbn [fst snd]. split; [|apply wf_padd; apply wf_pscale; assumption].
      rewrite pev_padd, !pev_pscale. rewrite G1, G2. rewrite !Pos2Z.inj_mul, !mult_IZR.
      pose proof (Zpos_neq0 g). pose proof (Zpos_neq0 x). pose proof (Zpos_neq0 y). field. tauto.
  Qed.
  Lemma lneg_ok a : lwf a -> lev (lneg a) = (- lev a)%R /\ lwf (lneg a).
  Proof.
    intros A. unfold lneg, lev, lwf; cbn [fst snd]. split; [|apply wf_pscale; exact A].
    rewrite pev_pscale. change (IZR (-1)) with (-1)%R. field. apply Zpos_neq0.
  Qed.
  Lemma lmul_ok a b : lwf a -> lwf b -> lev (lmul a b) = (lev a * lev b)%R /\ lwf (lmul a b).
  Proof.
    intros A B. destruct (pmul_ok (fst a) (fst b) A B) as (X & Y).
    unfold lmul, lev, lwf; cbn [fst snd]. split; [|exact Y].
    rewrite X, Pos2Z.inj_mul, mult_IZR. field. split; apply Zpos_neq0.
  Qed.
  Lemma linv_ok a b : linv K a = Some b -> lwf a -> (lev a * lev b)%R = 1%R /\ lwf b.
  Proof.
    unfold linv. destruct (pinv K (fst a)) as [[m z]|] eqn:E; [|discriminate]. intros H A.
    destruct (pinv_ok _ _ _ E A) as (I1 & I2 & I3).
    pose proof (Zpos_neq0 (snd a)) as Hd.
    destruct z as [|y|y]; [discriminate| |]; apply (f_equal (fun o => match o with Some w => w | None => b end)) in H; cbv beta iota in H; rewrite <- H; unfold lev, lwf; cbn [fst snd];
      (split; [|apply wf_pscale; exact I3]); rewrite pev_pscale; pose proof (Zpos_neq0 y) as Hy.
    - transitivity ((pev (fst a) * pev m) / IZR (Zpos y))%R; [field; tauto|rewrite I1; field; exact Hy].
    - transitivity (- (pev (fst a) * pev m) / IZR (Zpos y))%R.
      + change (Zneg (snd a)) with (- Zpos (snd a))%Z. rewrite opp_IZR. field; tauto.
      + rewrite I1. change (Zneg y) with (- Zpos y)%Z. rewrite opp_IZR. field; exact Hy.
  Qed.

  Lemma lpow_ok n a : lwf a -> lev (lpow n a) = (lev a ^ n)%R /\ lwf (lpow n a).
  Proof.
    intros A. induction n as [|n IH].
    - split; [unfold lev; cbn; field|exact I].
    - destruct n as [|n]; [cbn [lpow pow]; split; [ring|exact A]|].
      destruct IH as (I1 & I2).
      change (lpow (S (S n)) a) with (lmul a (lpow (S n) a)).
      destruct (lmul_ok a (lpow (S n) a) A I2) as (X & Y). split; [rewrite X, I1; reflexivity|exact Y].
  Qed.

End Sound.
