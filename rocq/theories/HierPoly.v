(** * Normal forms of the hierarchy expressions
    The expressions of HierH*.v are Laurent polynomials: every divisor is a monomial.  [nf] computes a
    normal form (an integer Laurent polynomial over a common denominator) of an expression whose
    variables have been replaced by Laurent polynomials; [nf_sound] says that, in the partial reals
    (NumFacts: [None] is "undefined"), the value of the expression is the value of the normal form -
    in particular that it is defined.  Nothing here models code: it is a proof tool. *)
From Coq Require Import ZArith List Reals Lra Lia Bool.
From Verif Require Import Num NumFacts HierExpr.

(** x_v^e * h + t, with e <> 0 and sorted in canonical forms *)
Inductive pol := PC (z : Z) | PX (v : positive) (e : Z) (h t : pol).

Definition pmk (v : positive) (e : Z) (h t : pol) : pol := match h with PC Z0 => t | _ => PX v e h t end.

Fixpoint padd (p : pol) : pol -> pol :=
  fix padd_p (q : pol) : pol :=
    match p with
    | PC a => match a with Z0 => q | _ =>
                match q with PC b => PC (a + b) | PX v e h t => PX v e h (padd_p t) end end
    | PX v e h t =>
        match q with
        | PC Z0 => p
        | PC _ => PX v e h (padd t q)
        | PX v' e' h' t' =>
            match Pos.compare v v' with
            | Lt => PX v e h (padd t q)
            | Gt => PX v' e' h' (padd_p t')
            | Eq => match Z.compare e e' with
                    | Lt => PX v e h (padd t q)
                    | Gt => PX v' e' h' (padd_p t')
                    | Eq => pmk v e (padd h h') (padd t t')
                    end
            end
        end
    end.

Fixpoint pscale' (a : Z) (p : pol) : pol :=
  match p with PC z => PC (a * z) | PX v e h t => PX v e (pscale' a h) (pscale' a t) end.
Definition pscale (a : Z) (p : pol) : pol := match a with Z0 => PC 0 | Zpos xH => p | _ => pscale' a p end.

Fixpoint pshift (v : positive) (e : Z) (p : pol) : pol :=
  match p with
  | PC z => match z with Z0 => p | _ => PX v e p (PC 0) end
  | PX v' e' h' t' =>
      match Pos.compare v v' with
      | Lt => PX v e p (PC 0)
      | Gt => PX v' e' (pshift v e h') (pshift v e t')
      | Eq => match (e + e')%Z with
              | Z0 => padd h' (pshift v e t')
              | e2 => padd (PX v e2 h' (PC 0)) (pshift v e t')
              end
      end
  end.

Fixpoint pmul (p q : pol) : pol :=
  match p with
  | PC a => pscale a q
  | PX v e h t =>
      match t with PC Z0 => pshift v e (pmul h q) | _ => padd (pshift v e (pmul h q)) (pmul t q) end
  end.

(** values: numerator and common denominator *)
Definition lp := (pol * positive)%type.
Definition ladd (a b : lp) : lp :=
  let '(p, d) := a in let '(q, d') := b in
  if Pos.eqb d d' then (padd p q, d)
  else let '(g, (x, y)) := Pos.ggcd d d' in (padd (pscale (Zpos y) p) (pscale (Zpos x) q), (d * y)%positive).
Definition lneg (a : lp) : lp := (pscale (-1) (fst a), snd a).
Definition lmul (a b : lp) : lp := (pmul (fst a) (fst b), (snd a * snd b)%positive).

(** inverse of a monomial in the invertible variables v <= K: (m, z) with p * m = z <> 0 *)
Fixpoint pinv (K : positive) (p : pol) : option (pol * Z) :=
  match p with
  | PC z => match z with Z0 => None | _ => Some (PC 1, z) end
  | PX v e h (PC Z0) =>
      if Pos.leb v K then match pinv K h with Some (m, z) => Some (PX v (- e) m (PC 0), z) | None => None end else None
  | _ => None
  end.
Definition linv (K : positive) (a : lp) : option lp :=
  match pinv K (fst a) with
  | Some (m, z) => match z with
                   | Zpos y => Some (pscale (Zpos (snd a)) m, y)
                   | Zneg y => Some (pscale (Zneg (snd a)) m, y)
                   | Z0 => None
                   end
  | None => None
  end.

Definition hpow_exp (n : hpow) : nat :=
  match n with P2 => 2 | P3 => 3 | P4 => 4 | P5 => 5 | P6 => 6 | P7 => 7 | P8 => 8 | P9 => 9 | P10 => 10 | P11 => 11
  | P12 => 12 | P13 => 13 | P14 => 14 | P15 => 15 | P16 => 16 | P17 => 17 | P18 => 18 | P19 => 19 | P20 => 20 end.
Definition zpow (n : hpow) (e : Z) : Z := (Z.of_nat (hpow_exp n) * e)%Z.
Fixpoint lpow (n : nat) (a : lp) : lp := match n with O => (PC 1, 1%positive) | S O => a | S m => lmul a (lpow m a) end.
(** powers of x^e are frequent *)
Definition lpown (n : hpow) (a : lp) : lp :=
  match a with
  | (PX v e (PC (Zpos xH)) (PC Z0), xH) => (PX v (zpow n e) (PC 1) (PC 0), xH)
  | _ => lpow (hpow_exp n) a
  end.

Record senv := mkSenv {
  s_inv : positive;                        (* the poly variables <= s_inv may be divided by *)
  s_var : hvar -> lp;
  s_const : mathconst -> lp;
  s_lit : Z -> Z -> lp;
  s_log : hvar -> hvar -> option lp        (* log(pow2(a)/pow2(b)) *)
}.

Fixpoint nf (s : senv) (e : expr) : option lp :=
  match e with
  | EInt z => Some (PC z, 1%positive)
  | EDec m k => if (0 <=? k)%Z then Some (s_lit s m k) else None
  | EConst c => Some (s_const s c)
  | EVar v => Some (s_var s v)
  | EAdd a b => match nf s a, nf s b with Some x, Some y => Some (ladd x y) | _, _ => None end
  | ESub a b => match nf s a, nf s b with Some x, Some y => Some (ladd x (lneg y)) | _, _ => None end
  | EMul a b => match nf s a, nf s b with Some x, Some y => Some (lmul x y) | _, _ => None end
  | EDiv a b => match nf s b with
                | Some y => match linv (s_inv s) y with
                            | Some z => match nf s a with Some x => Some (lmul z x) | None => None end
                            | None => None end
                | None => None end
  | ENeg a => match nf s a with Some x => Some (lneg x) | None => None end
  | EPow n a => match nf s a with Some x => Some (lpown n x) | None => None end
  | ELog (EDiv (EPow P2 (EVar a)) (EPow P2 (EVar b))) => s_log s a b
  | ELog _ => None
  end.

Definition lzero (a : option lp) : bool := match a with Some (PC Z0, _) => true | _ => false end.

(** ** Meaning *)
Section Sound.
  Variable rho : positive -> R.
  Variable K : positive.
  Hypothesis HK : forall v, (v <= K)%positive -> rho v <> 0%R.

  Definition xp (v : positive) (e : Z) : R := powerRZ (rho v) e.
  Fixpoint pev (p : pol) : R :=
    match p with PC z => IZR z | PX v e h t => (xp v e * pev h + pev t)%R end.
  Definition lev (a : lp) : R := (pev (fst a) / IZR (Zpos (snd a)))%R.

  (** negative exponents only for invertible variables *)
  Fixpoint wf (p : pol) : Prop :=
    match p with PC _ => True | PX v e h t => ((v <= K)%positive \/ (0 <= e)%Z) /\ wf h /\ wf t end.

  Lemma pev_pmk v e h t : pev (pmk v e h t) = (xp v e * pev h + pev t)%R.
  Proof. unfold pmk. destruct h as [[| |]|]; cbn [pev]; try ring. Qed.
  Lemma wf_pmk v e h t : wf (PX v e h t) -> wf (pmk v e h t).
  Proof. unfold pmk. destruct h as [[| |]|]; cbn [wf]; tauto. Qed.

  Lemma pev_padd p q : pev (padd p q) = (pev p + pev q)%R.
  Proof.
    revert q; induction p as [a|v e h IHh t IHt]; intros q.
    - destruct a as [|a|a]; [cbn [padd pev]; destruct q; cbn [pev]; ring| |].
      + induction q as [b|v e h IHh t IHt]; [cbn [padd pev]; apply plus_IZR|].
        change ((xp v e * pev h + pev (padd (PC (Zpos a)) t) = pev (PC (Zpos a)) + pev (PX v e h t))%R).
        rewrite IHt. cbn [pev]. ring.
      + induction q as [b|v e h IHh t IHt]; [cbn [padd pev]; apply plus_IZR|].
        change ((xp v e * pev h + pev (padd (PC (Zneg a)) t) = pev (PC (Zneg a)) + pev (PX v e h t))%R).
        rewrite IHt. cbn [pev]. ring.
    - induction q as [b|v' e' h' IHh' t' IHt'].
      + destruct b; cbn [padd pev]; try ring; rewrite IHt; cbn [pev]; ring.
      + cbn [padd].
        destruct (Pos.compare_spec v v') as [E|E|E].
        * subst v'. destruct (Z.compare_spec e e') as [F|F|F].
          -- subst e'. rewrite pev_pmk, IHh, IHt. cbn [pev]. ring.
          -- cbn [pev]. rewrite IHt. cbn [pev]. ring.
          -- change ((xp v e' * pev h' + pev (padd (PX v e h t) t') = pev (PX v e h t) + pev (PX v e' h' t'))%R).
             rewrite IHt'. cbn [pev]. ring.
        * cbn [pev]. rewrite IHt. cbn [pev]. ring.
        * change ((xp v' e' * pev h' + pev (padd (PX v e h t) t') = pev (PX v e h t) + pev (PX v' e' h' t'))%R).
          rewrite IHt'. cbn [pev]. ring.
  Qed.

  Lemma wf_padd p q : wf p -> wf q -> wf (padd p q).
  Proof.
    revert q; induction p as [a|v e h IHh t IHt]; intros q Hp.
    - destruct a as [|a|a]; [destruct q; cbn [padd]; tauto| |].
      + induction q as [b|v e h IHh t IHt]; intros Hq; [exact I|].
        change (((v <= K)%positive \/ (0 <= e)%Z) /\ wf h /\ wf (padd (PC (Zpos a)) t)).
        destruct Hq as (A & B & C). split; [exact A|split; [exact B|apply IHt; exact C]].
      + induction q as [b|v e h IHh t IHt]; intros Hq; [exact I|].
        change (((v <= K)%positive \/ (0 <= e)%Z) /\ wf h /\ wf (padd (PC (Zneg a)) t)).
        destruct Hq as (A & B & C). split; [exact A|split; [exact B|apply IHt; exact C]].
    - induction q as [b|v' e' h' IHh' t' IHt']; intros Hq.
      + destruct b; cbn [padd wf] in *; try tauto; (split; [tauto|split; [tauto|apply IHt; cbn; tauto]]).
      + cbn [padd].
        destruct (Pos.compare_spec v v') as [E|E|E].
        * subst v'. destruct (Z.compare_spec e e') as [F|F|F].
          -- subst e'. apply wf_pmk. cbn [wf] in *. split; [tauto|split; [apply IHh|apply IHt]; tauto].
          -- cbn [wf] in Hp |- *. split; [tauto|split; [tauto|apply IHt; tauto]].
          -- change (((v <= K)%positive \/ (0 <= e')%Z) /\ wf h' /\ wf (padd (PX v e h t) t')).
             destruct Hq as (A & B & C). split; [exact A|split; [exact B|apply IHt'; exact C]].
        * cbn [wf] in Hp |- *. split; [tauto|split; [tauto|apply IHt; tauto]].
        * change (((v' <= K)%positive \/ (0 <= e')%Z) /\ wf h' /\ wf (padd (PX v e h t) t')).
          destruct Hq as (A & B & C). split; [exact A|split; [exact B|apply IHt'; exact C]].
  Qed.

  Lemma pev_pscale' a p : pev (pscale' a p) = (IZR a * pev p)%R.
  Proof. induction p as [z|v e h IHh t IHt]; cbn [pscale' pev]; [apply mult_IZR|rewrite IHh, IHt; ring]. Qed.
  Lemma pev_pscale a p : pev (pscale a p) = (IZR a * pev p)%R.
  Proof.
    unfold pscale. destruct a as [|a|a].
    - cbn. ring.
    - destruct a; try apply pev_pscale'. ring.
    - apply pev_pscale'.
  Qed.
  Lemma wf_pscale' a p : wf p -> wf (pscale' a p).
  Proof. induction p; cbn [pscale' wf]; tauto. Qed.
  Lemma wf_pscale a p : wf p -> wf (pscale a p).
  Proof. unfold pscale. destruct a as [|a|a]; [intros; exact I|destruct a; auto using wf_pscale'|apply wf_pscale']. Qed.

  Lemma xp_0 v : xp v 0 = 1%R. Proof. reflexivity. Qed.
  Lemma xp_add v e f : ((v <= K)%positive \/ (0 <= e)%Z) -> ((v <= K)%positive \/ (0 <= f)%Z) ->
    xp v (e + f) = (xp v e * xp v f)%R.
  Proof.
    intros A B. unfold xp.
    destruct (Pos.leb_spec v K) as [C|C].
    - apply powerRZ_add. apply HK. exact C.
    - assert (0 <= e)%Z by (destruct A; [lia|assumption]). assert (0 <= f)%Z by (destruct B; [lia|assumption]).
      rewrite <- (Z2Nat.id e), <- (Z2Nat.id f) by assumption. rewrite <- Nat2Z.inj_add, <- !pow_powerRZ. apply pow_add.
  Qed.

  Lemma pshift_ok v e p : ((v <= K)%positive \/ (0 <= e)%Z) -> wf p ->
    pev (pshift v e p) = (xp v e * pev p)%R /\ wf (pshift v e p).
  Proof.
    intros Hv. induction p as [z|v' e' h IHh t IHt]; intros Hp.
    - destruct z; cbn [pshift pev wf]; (split; [ring|tauto]).
    - cbn [pshift]. destruct Hp as (A & B & C). destruct (IHh B) as (I1 & I2), (IHt C) as (J1 & J2).
      destruct (Pos.compare_spec v v') as [E|E|E].
      + subst v'.
        assert (X := xp_add v e e' Hv A).
        assert (W : (v <= K)%positive \/ (0 <= e + e')%Z) by (destruct Hv, A; auto; right; lia).
        destruct (e + e')%Z as [|q|q].
        * rewrite xp_0 in X. split.
          -- rewrite pev_padd, J1. cbn [pev].
             transitivity ((xp v e * xp v e') * pev h + xp v e * pev t)%R; [rewrite <- X; ring|ring].
          -- apply wf_padd; assumption.
        * split.
          -- rewrite pev_padd, J1. cbn [pev]. rewrite X. ring.
          -- apply wf_padd; [cbn [wf]; tauto|assumption].
        * split.
          -- rewrite pev_padd, J1. cbn [pev]. rewrite X. ring.
          -- apply wf_padd; [cbn [wf]; tauto|assumption].
      + cbn [pev wf]. split; [ring|tauto].
      + cbn [pev wf]. rewrite I1, J1. split; [ring|tauto].
  Qed.

  Lemma pmul_ok p q : wf p -> wf q -> pev (pmul p q) = (pev p * pev q)%R /\ wf (pmul p q).
  Proof.
    intros Hp Hq. induction p as [a|v e h IHh t IHt].
    - cbn [pmul pev]. split; [apply pev_pscale|apply wf_pscale; exact Hq].
    - destruct Hp as (A & B & C). destruct (IHh B) as (I1 & I2), (IHt C) as (J1 & J2).
      destruct (pshift_ok v e (pmul h q) A I2) as (S1 & S2).
      assert (D : pev (padd (pshift v e (pmul h q)) (pmul t q)) = (pev (PX v e h t) * pev q)%R
                  /\ wf (padd (pshift v e (pmul h q)) (pmul t q))).
      { split; [rewrite pev_padd, S1, I1, J1; cbn [pev]; ring|apply wf_padd; assumption]. }
      cbn [pmul]. destruct t as [[| |]|]; try exact D.
      split; [rewrite S1, I1; cbn [pev]; ring|exact S2].
  Qed.

  Lemma pinv_ok p m z : pinv K p = Some (m, z) -> wf p -> (pev p * pev m)%R = IZR z /\ (z <> 0)%Z /\ wf m.
  Proof.
    revert m z. induction p as [a|v e h IHh t _]; intros m z H Hp.
    - cbn [pinv] in H. destruct a; inversion H; subst; cbn [pev wf]; (split; [ring|split; [discriminate|tauto]]).
    - cbn [pinv] in H. destruct t as [[| |]|]; try discriminate.
      destruct (Pos.leb_spec v K) as [E|E]; [|discriminate].
      destruct (pinv K h) as [[m' z']|] eqn:F; [|discriminate]. inversion H; subst.
      destruct Hp as (A & B & C). destruct (IHh m' z eq_refl B) as (I1 & I2 & I3).
      cbn [pev wf]. split; [|split; [exact I2|tauto]].
      assert (X : (xp v e * xp v (- e) = 1)%R).
      { rewrite <- xp_add by (left; assumption). rewrite Z.add_opp_diag_r. reflexivity. }
      transitivity ((xp v e * xp v (- e)) * (pev h * pev m'))%R; [ring|rewrite X, I1; ring].
  Qed.

  Definition lwf (a : lp) := wf (fst a).

  Lemma Zpos_neq0 d : IZR (Zpos d) <> 0%R. Proof. apply not_0_IZR. discriminate. Qed.

  Lemma ladd_ok a b : lwf a -> lwf b -> lev (ladd a b) = (lev a + lev b)%R /\ lwf (ladd a b).
  Proof.
    destruct a as [p d], b as [q d']. intros A B. unfold ladd.
    destruct (Pos.eqb_spec d d') as [E|E].
    - subst d'. unfold lev, lwf; cbn [fst snd]. split; [rewrite pev_padd; field; apply Zpos_neq0|apply wf_padd; assumption].
    - pose proof (Pos.ggcd_correct_divisors d d') as G.
      destruct (Pos.ggcd d d') as [g [x y]]. destruct G as [G1 G2].
      unfold lev, lwf; cbn [fst snd]. split; [|apply wf_padd; apply wf_pscale; assumption].
      rewrite pev_padd, !pev_pscale. rewrite G1, G2. rewrite !Pos2Z.inj_mul, !mult_IZR.
      pose proof (Zpos_neq0 g). pose proof (Zpos_neq0 x). pose proof (Zpos_neq0 y). field. tauto.
  Qed.
  Lemma lneg_ok a : lwf a -> lev (lneg a) = (- lev a)%R /\ lwf (lneg a).
  Proof.
    intros A. unfold lneg, lev, lwf; cbn [fst snd]. split; [|apply wf_pscale; exact A].
    rewrite pev_pscale. change (IZR (-1)) with (-1)%R. field. apply Zpos_neq0.
  Qed.
  Lemma lmul_ok a b : lwf a -> lwf b -> lev (lmul a b) = (lev a * lev b)%R /\ lwf (lmul a b).
  Proof.
    intros A B. destruct (pmul_ok (fst a) (fst b) A B) as (X & Y).
    unfold lmul, lev, lwf; cbn [fst snd]. split; [|exact Y].
    rewrite X, Pos2Z.inj_mul, mult_IZR. field. split; apply Zpos_neq0.
  Qed.
  Lemma linv_ok a b : linv K a = Some b -> lwf a -> (lev a * lev b)%R = 1%R /\ lwf b.
  Proof.
    unfold linv. destruct (pinv K (fst a)) as [[m z]|] eqn:E; [|discriminate]. intros H A.
    destruct (pinv_ok _ _ _ E A) as (I1 & I2 & I3).
    pose proof (Zpos_neq0 (snd a)) as Hd.
    destruct z as [|y|y]; [discriminate| |]; apply (f_equal (fun o => match o with Some w => w | None => b end)) in H; cbv beta iota in H; rewrite <- H; unfold lev, lwf; cbn [fst snd];
      (split; [|apply wf_pscale; exact I3]); rewrite pev_pscale; pose proof (Zpos_neq0 y) as Hy.
    - transitivity ((pev (fst a) * pev m) / IZR (Zpos y))%R; [field; tauto|rewrite I1; field; exact Hy].
    - transitivity (- (pev (fst a) * pev m) / IZR (Zpos y))%R.
      + change (Zneg (snd a)) with (- Zpos (snd a))%Z. rewrite opp_IZR. field; tauto.
      + rewrite I1. change (Zneg y) with (- Zpos y)%Z. rewrite opp_IZR. field; exact Hy.
  Qed.

  Lemma lpow_ok n a : lwf a -> lev (lpow n a) = (lev a ^ n)%R /\ lwf (lpow n a).
  Proof.
    intros A. induction n as [|n IH].
    - split; [unfold lev; cbn; field|exact I].
    - destruct n as [|n]; [cbn [lpow pow]; split; [ring|exact A]|].
      destruct IH as (I1 & I2).
      change (lpow (S (S n)) a) with (lmul a (lpow (S n) a)).
      destruct (lmul_ok a (lpow (S n) a) A I2) as (X & Y). split; [rewrite X, I1; reflexivity|exact Y].
  Qed.

  Lemma xp_pow v e n : ((v <= K)%positive \/ (0 <= e)%Z) -> xp v (Z.of_nat n * e) = (xp v e ^ n)%R.
  Proof.
    intros H. induction n as [|n IH]; [reflexivity|].
    rewrite Nat2Z.inj_succ, Z.mul_succ_l, Z.add_comm. rewrite xp_add.
    - rewrite IH. reflexivity.
    - exact H.
    - destruct H; [left; assumption|right; nia].
  Qed.
  Lemma lpown_ok n a : lwf a -> lev (lpown n a) = (lev a ^ hpow_exp n)%R /\ lwf (lpown n a).
  Proof.
    intros A. unfold lpown.
    destruct a as [[z|v e [[|z|z]|] [[|z'|z']|]] d]; try (apply lpow_ok; exact A); try (destruct z; apply lpow_ok; exact A).
    destruct z; try (apply lpow_ok; exact A). destruct d; try (apply lpow_ok; exact A).
    unfold lwf, lev in *; cbn [fst snd pev wf] in *.
    assert (H := proj1 A). assert (X := xp_pow v e (hpow_exp n) H).
    change (zpow n e) with (Z.of_nat (hpow_exp n) * e)%Z. split.
    - rewrite X. replace ((xp v e * 1 + 0) / 1)%R with (xp v e) by field. field.
    - split; [|tauto]. destruct H; [left; assumption|right; nia].
  Qed.

  Lemma hpow_fun_R n (x : R) : hpow_fun n (Some x : PR) = (Some (x ^ hpow_exp n)%R : PR).
  Proof. destruct n; cbn; f_equal; ring. Qed.

  (** *** Soundness of [nf] *)
  Variable s : senv.
  Hypothesis HsK : s_inv s = K.
  Variable r : hvar -> PR.
  Variable lit : Z -> Z -> PR.
  Hypothesis Hvar : forall v, r v = Some (lev (s_var s v)) /\ lwf (s_var s v).
  Hypothesis Hconst : forall c, (nconst c : PR) = Some (lev (s_const s c)) /\ lwf (s_const s c).
  Hypothesis Hlit : forall m k, (0 <= k)%Z -> lit m k = Some (lev (s_lit s m k)) /\ lwf (s_lit s m k).
  Hypothesis Hlog : forall a b l, s_log s a b = Some l ->
    exists x y : R, r a = Some x /\ r b = Some y /\ (0 < x)%R /\ (0 < y)%R /\ ln (x ^ 2 / y ^ 2) = lev l /\ lwf l.

  Theorem nf_sound e l : nf s e = Some l -> eval_lit lit r e = (Some (lev l) : PR) /\ lwf l.
  Proof.
    revert l. induction e as [z|m k|c|v|a IHa b IHb|a IHa b IHb|a IHa b IHb|a IHa b IHb|a IHa|n a IHa|a IHa]; intros l H; cbn [nf] in H.
    - inversion H; subst. split; [|exact I]. cbn. f_equal. unfold lev; cbn. field.
    - destruct (Z.leb_spec 0 k) as [G|G]; [|discriminate]. inversion H; subst. apply Hlit. exact G.
    - inversion H; subst. apply Hconst.
    - inversion H; subst. apply Hvar.
    - destruct (nf s a) as [x|]; [|discriminate]. destruct (nf s b) as [y|]; [|discriminate]. inversion H; subst.
      destruct (IHa x eq_refl) as (A1 & A2), (IHb y eq_refl) as (B1 & B2).
      destruct (ladd_ok x y A2 B2) as (X & Y). cbn [eval_lit]. rewrite A1, B1, X. split; [reflexivity|exact Y].
    - destruct (nf s a) as [x|]; [|discriminate]. destruct (nf s b) as [y|]; [|discriminate]. inversion H; subst.
      destruct (IHa x eq_refl) as (A1 & A2), (IHb y eq_refl) as (B1 & B2).
      destruct (lneg_ok y B2) as (N1 & N2).
      destruct (ladd_ok x (lneg y) A2 N2) as (X & Y). cbn [eval_lit]. rewrite A1, B1, X, N1. split; [reflexivity|exact Y].
    - destruct (nf s a) as [x|]; [|discriminate]. destruct (nf s b) as [y|]; [|discriminate]. inversion H; subst.
      destruct (IHa x eq_refl) as (A1 & A2), (IHb y eq_refl) as (B1 & B2).
      destruct (lmul_ok x y A2 B2) as (X & Y). cbn [eval_lit]. rewrite A1, B1, X. split; [reflexivity|exact Y].
    - destruct (nf s b) as [y|]; [|discriminate]. destruct (linv (s_inv s) y) as [w|] eqn:W; [|discriminate].
      destruct (nf s a) as [x|]; [|discriminate]. inversion H; subst.
      destruct (IHa x eq_refl) as (A1 & A2), (IHb y eq_refl) as (B1 & B2).
      rewrite HsK in W. destruct (linv_ok y w W B2) as (C1 & C2).
      destruct (lmul_ok w x C2 A2) as (X & Y). cbn [eval_lit]. rewrite A1, B1.
      assert (Hy : lev y <> 0%R) by (intros E; rewrite E, Rmult_0_l in C1; lra).
      assert (Hw : lev w = (/ lev y)%R) by (apply (Rmult_eq_reg_l (lev y)); [rewrite C1; field; exact Hy|exact Hy]).
      split; [|exact Y].
      change (pdiv (Some (lev x)) (Some (lev y)) = Some (lev (lmul w x))).
      rewrite pdiv_some by exact Hy. rewrite X, Hw. f_equal. field. exact Hy.
    - destruct (nf s a) as [x|]; [|discriminate]. inversion H; subst.
      destruct (IHa x eq_refl) as (A1 & A2). destruct (lneg_ok x A2) as (N1 & N2).
      cbn [eval_lit]. rewrite A1, N1. split; [reflexivity|exact N2].
    - destruct (nf s a) as [x|]; [|discriminate]. inversion H; subst.
      destruct (IHa x eq_refl) as (A1 & A2). destruct (lpown_ok n x A2) as (N1 & N2).
      cbn [eval_lit]. rewrite A1, N1, hpow_fun_R. split; [reflexivity|exact N2].
    - destruct a as [| | | | | | |a b| | |]; try discriminate.
      destruct a as [| | | | | | | | |n a|]; try discriminate. destruct n; try discriminate.
      destruct a as [| | |a| | | | | | |]; try discriminate.
      destruct b as [| | | | | | | | |n b|]; try discriminate. destruct n; try discriminate.
      destruct b as [| | |b| | | | | | |]; try discriminate.
      destruct (Hlog a b l H) as (x & y & Ra & Rb & Px & Py & E & W).
      split; [|exact W]. cbn [eval_lit]. rewrite Ra, Rb, <- E.
      cbn [hpow_fun]. unfold pow2.
      change (nlog (pdiv (Some (x * x)%R) (Some (y * y)%R)) = (Some (ln (x ^ 2 / y ^ 2)) : PR)).
      assert (Hy : (y * y)%R <> 0%R) by (apply Rmult_integral_contrapositive; split; lra).
      rewrite pdiv_some by exact Hy.
      assert (P : (0 < x * x / (y * y))%R) by (apply Rdiv_lt_0_compat; apply Rmult_lt_0_compat; assumption).
      change (pguard (fun x => Rltb 0 x) ln (Some (x * x / (y * y))%R) = Some (ln (x ^ 2 / y ^ 2))).
      rewrite plog_some by exact P.
      f_equal. f_equal. field. lra.
  Qed.
End Sound.
