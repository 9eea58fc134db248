(** * A checker for identities of rational functions
    Expressions [rx] with division, logarithms, dilogarithms and the two-loop function Phi.  [fcheck] computes a normal
    form in which the listed divisors are symbols, splits it by the variables that no divisor contains, clears the
    divisors and compares with 0; [fcheck_sound]: if it answers [true] the expression is 0.
    Proof tool only, nothing here models code. *)
From Coq Require Import ZArith List Reals Lra Lia Bool.
From Verif Require Import Num NumFacts HierExpr HierPoly FieldPoly.
Import ListNotations.

Inductive rx :=
  | XZ (z : Z) | XDec (m k : Z) | XC (c : mathconst) | XV (v : positive)
  | XAdd (a b : rx) | XSub (a b : rx) | XMul (a b : rx) | XDiv (a b : rx) | XNeg (a : rx)
  | XSel (c : bool) (a b : rx) | XLog (a : rx) | XSqrt (a : rx) | XAbs (a : rx)
  | XF1 (f : positive) (a : rx) | XF2 (f : positive) (a b : rx) | XF3 (f : positive) (a b c : rx).

(** the model's functions, read over expressions: comparisons are not decided *)
#[export] Instance NumX : Num rx := {|
  nadd := XAdd; nsub := XSub; nmul := XMul; ndiv := XDiv; nneg := XNeg;
  nabs := XAbs; nsqrt := XSqrt; nlog := XLog; nlog1p := fun a => a; nsin := XF1 2; ncos := XF1 3; ntan := XF1 4;
  natan := fun a => a; nasin := fun a => a; nacos := fun a => a; npow := fun a _ => a; nfmod := fun a _ => a;
  nint := XZ; ndec := XDec; nconst := XC; nltb := fun _ _ => false; nleb := fun _ _ => false; neqb := fun _ _ => false;
  nisnan := fun _ => false; nisfin := fun _ => true |}.

Section Eval.
  Variables (u : positive -> R) (G1 : positive -> R -> R) (G2 : positive -> R -> R -> R) (G3 : positive -> R -> R -> R -> R).
  Fixpoint rev (e : rx) : R :=
    match e with
    | XZ z => IZR z
    | XDec m k => Rdec m k
    | XC c => Rconst c
    | XV v => u v
    | XAdd a b => rev a + rev b
    | XSub a b => rev a - rev b
    | XMul a b => rev a * rev b
    | XDiv a b => rev a / rev b
    | XNeg a => - rev a
    | XSel c a b => if c then rev a else rev b
    | XLog a => ln (rev a)
    | XSqrt a => R_sqrt.sqrt (rev a)
    | XAbs a => Rabs (rev a)
    | XF1 f a => G1 f (rev a)
    | XF2 f a b => G2 f (rev a) (rev b)
    | XF3 f a b c => G3 f (rev a) (rev b) (rev c)
    end%R.
End Eval.

Fixpoint peqb (p q : pol) : bool :=
  match p, q with
  | PC a, PC b => Z.eqb a b
  | PX v e h t, PX v' e' h' t' => Pos.eqb v v' && Z.eqb e e' && peqb h h' && peqb t t'
  | _, _ => false
  end.
Definition leqb (a b : lp) : bool := peqb (fst a) (fst b) && Pos.eqb (snd a) (snd b).
Lemma peqb_ok p q : peqb p q = true -> p = q.
Proof.
  revert q; induction p as [a|v e h IHh t IHt]; destruct q as [b|v' e' h' t']; cbn [peqb]; try discriminate.
  - intros H. apply Z.eqb_eq in H. congruence.
  - rewrite !andb_true_iff. intros (((A & B) & C) & D). apply Pos.eqb_eq in A. apply Z.eqb_eq in B.
    rewrite (IHh _ C), (IHt _ D). congruence.
Qed.
Lemma leqb_ok a b : leqb a b = true -> a = b.
Proof. unfold leqb. rewrite andb_true_iff. intros (A & B). apply peqb_ok in A. apply Pos.eqb_eq in B. destruct a, b; cbn in *; congruence. Qed.

(** reduced fraction, for constants *)
Definition lcn (x : lp) : lp :=
  match x with
  | (PC z, d) => let g := Z.gcd z (Zpos d) in (PC (z / g), Z.to_pos (Zpos d / g))
  | _ => x
  end.
Lemma lcn_ok rho x : lev rho (lcn x) = lev rho x.
Proof.
  destruct x as [[z|v e h t] d]; [|reflexivity]. unfold lcn, lev; cbn [fst snd pev].
  assert (G0 : (0 < Z.gcd z (Zpos d))%Z). { pose proof (Z.gcd_nonneg z (Zpos d)). destruct (Z.eq_dec (Z.gcd z (Zpos d)) 0) as [E|]; [|lia]. apply Z.gcd_eq_0_r in E. discriminate. }
  destruct (Z.gcd_divide_l z (Zpos d)) as (a & Ha), (Z.gcd_divide_r z (Zpos d)) as (b & Hb). set (g := Z.gcd z (Zpos d)) in *.
  assert (B0 : (0 < b)%Z) by nia.
  rewrite Hb, Ha, !Z.div_mul by lia. rewrite Z2Pos.id by exact B0. rewrite !mult_IZR. field. split; apply not_0_IZR; lia.
Qed.

Record fenv := mkFenv {
  f_K : positive;                       (* variables >= f_K may be inverted *)
  f_w : positive;                       (* rho f_K ^ 2 * rho f_w = 1 *)
  f_var : positive -> lp;
  f_const : mathconst -> lp;
  f_log : positive -> option lp;
  f_den : list (pol * positive);
  f_li : list (lp * lp);
  f_lgc : list (lp * lp);               (* logarithms and square roots of particular values *)
  f_sqc : list (lp * lp);
  f_phi : list (lp * lp * lp * lp) }.

(** x_1^e_1 ... x_n^e_n *)
Fixpoint pmono (p : pol) : option (list (positive * Z)) :=
  match p with
  | PC z => if Z.eqb z 1 then Some [] else None
  | PX v e h (PC Z0) => match pmono h with Some l => Some ((v, e) :: l) | None => None end
  | _ => None
  end.
Section NF.
  Variable s : fenv.
  Fixpoint llog (l : list (positive * Z)) : option lp :=
    match l with
    | [] => Some (PC 0, 1%positive)
    | (v, e) :: l => match f_log s v, llog l with Some a, Some b => Some (ladd ((pscale e (fst a)), snd a) b) | _, _ => None end
    end.
  (** square root of a monomial with even exponents of positive variables *)
  Fixpoint psqrt (p : pol) : option pol :=
    match p with
    | PC z => if Z.eqb z 1 then Some (PC 1) else None
    | PX v e h (PC Z0) => if Z.even e && Pos.leb (f_K s) v then
                            match f_log s v, psqrt h with Some _, Some q => Some (PX v (e / 2) q (PC 0)) | _, _ => None end
                          else None
    | _ => None
    end.
  (** a positive monomial *)
  Fixpoint ppos (p : pol) : bool :=
    match p with
    | PC z => Z.ltb 0 z
    | PX v e h (PC Z0) => match f_log s v with Some _ => ppos h | None => false end
    | _ => false
    end.
  Fixpoint dfind (p : pol) (l : list (pol * positive)) : option (positive * bool) :=
    match l with
    | [] => None
    | (D, v) :: l => if peqb p D then Some (v, true) else if peqb p (pscale (-1) D) then Some (v, false) else dfind p l
    end.
  (** inverse of the monomial that divides all terms (variables that may be inverted only) *)
  Fixpoint monos (p : pol) : list (list (positive * Z)) :=
    match p with
    | PC z => if Z.eqb z 0 then [] else [[]]
    | PX v e h t => map (cons (v, e)) (monos h) ++ monos t
    end.
  Definition expo (v : positive) (m : list (positive * Z)) : Z :=
    match find (fun x => Pos.eqb (fst x) v) m with Some x => snd x | None => 0 end.
  Definition mcont (p : pol) : pol :=
    match monos p with
    | [] => PC 1
    | m0 :: ms => fold_right (fun ve q => let e := fold_right (fun m k => Z.min (expo (fst ve) m) k) (snd ve) ms in
                    if Pos.leb (f_K s) (fst ve) && negb (Z.eqb e 0) then PX (fst ve) (- e) q (PC 0) else q) (PC 1) m0
    end.
  Definition linvd (a : lp) : option lp :=
    match linv (f_K s) a with
    | Some b => Some b
    | None => match dfind (fst a) (f_den s) with
              | Some (v, true) => Some (PX v (-1) (PC (Zpos (snd a))) (PC 0), 1%positive)
              | Some (v, false) => Some (PX v (-1) (PC (Zneg (snd a))) (PC 0), 1%positive)
              | None => let m := mcont (fst a) in
                        match dfind (pmul m (fst a)) (f_den s) with
                        | Some (v, b) => Some (pmul (PX v (-1) (PC (if b then Zpos (snd a) else Zneg (snd a))) (PC 0)) m, 1%positive)
                        | None => None
                        end
              end
    end.
  Fixpoint lifind (a : lp) (l : list (lp * lp)) : option lp :=
    match l with [] => None | (k, v) :: l => if leqb (lcn a) k then Some v else lifind a l end.
  Fixpoint phifind (a b c : lp) (l : list (lp * lp * lp * lp)) : option lp :=
    match l with [] => None | (k1, k2, k3, v) :: l => if leqb (lcn a) k1 && leqb (lcn b) k2 && leqb (lcn c) k3 then Some v else phifind a b c l end.

  Definition omul (a b : option lp) : option lp := match a, b with Some x, Some y => Some (lmul x y) | _, _ => None end.
  Definition oadd (a b : option lp) : option lp := match a, b with Some x, Some y => Some (ladd x y) | _, _ => None end.
  Definition oneg (a : option lp) : option lp := match a with Some x => Some (lneg x) | None => None end.
  Definition oinv (a : option lp) : option lp := match a with Some x => linvd x | None => None end.
  (** [fnf e false]: the value; [fnf e true]: its inverse *)
  Fixpoint fnf (e : rx) (i : bool) : option lp :=
    let fin (o : option lp) := if i then oinv o else o in
    match e with
    | XZ z => fin (Some (PC z, 1%positive))
    | XDec m k => fin (if (0 <=? k)%Z then Some (PC m, Z.to_pos (10 ^ k)) else None)
    | XC c => fin (Some (f_const s c))
    | XV v => fin (Some (f_var s v))
    | XAdd a b => fin (oadd (fnf a false) (fnf b false))
    | XSub a b => fin (oadd (fnf a false) (oneg (fnf b false)))
    | XMul a b => omul (fnf a i) (fnf b i)
    | XDiv a b => if i then match fnf b true with Some _ => omul (fnf a true) (fnf b false) | None => None end else omul (fnf b true) (fnf a false)
    | XNeg a => oneg (fnf a i)
    | XSel c a b => if c then fnf a i else fnf b i
    | XLog a => fin (match fnf a false with
                     | Some x => match lifind x (f_lgc s) with
                                 | Some v => Some v
                                 | None => match x with (p, xH) => match pmono p with Some l => llog l | None => None end | _ => None end
                                 end
                     | None => None end)
    | XSqrt a => fin (match fnf a false with
                     | Some x => match lifind x (f_sqc s) with
                                 | Some v => Some v
                                 | None => match x with (p, xH) => match psqrt p with Some q => Some (q, 1%positive) | None => None end | _ => None end
                                 end
                     | None => None end)
    | XAbs a => fin (match fnf a false with Some x => if ppos (fst x) then Some x else None | None => None end)
    | XF2 _ _ _ => None
    | XF1 f a => if Pos.eqb f 1 then fin (match fnf a false with Some x => lifind x (f_li s) | None => None end) else None
    | XF3 f a b c => if Pos.eqb f 1 then fin (match fnf a false, fnf b false, fnf c false with
                         | Some x, Some y, Some z => phifind x y z (f_phi s) | _, _, _ => None end) else None
    end.

  (** ** zero test *)
  Fixpoint chain (v : positive) (p : pol) : list (Z * pol) * pol :=
    match p with
    | PX v' e h t => if Pos.eqb v v' then let '(l, r) := chain v t in ((e, h) :: l, r) else ([], p)
    | _ => ([], p)
    end.
  Fixpoint ppow (p : pol) (n : nat) : pol := match n with O => PC 1 | S O => p | S m => pmul p (ppow p m) end.
  Fixpoint hor (D : pol) (l : list (Z * pol)) (r : pol) : option pol :=
    match l with
    | [] => None
    | [(e, h)] => match r with PC Z0 => Some h | _ => if (e <? 0)%Z then Some (padd h (pmul (ppow D (Z.to_nat (- e))) r)) else None end
    | (e, h) :: (((e2, _) :: _) as l') =>
        if (e <? e2)%Z then match hor D l' r with Some x => Some (padd h (pmul (ppow D (Z.to_nat (e2 - e))) x)) | None => None end else None
    end.
  Definition elim1 (Dv : pol * positive) (p : pol) : option pol :=
    let '(l, r) := chain (snd Dv) p in match l with [] => Some p | _ => hor (fst Dv) l r end.
  (** c^e = w^(-e/2) *)
  Fixpoint csub (l : list (Z * pol)) (r : pol) : option pol :=
    match l with
    | [] => Some r
    | (e, h) :: l => if Z.even e then match csub l r with Some x => Some (padd (pshift (f_w s) (- (e / 2)) h) x) | None => None end else None
    end.
  Definition elimc (p : pol) : option pol := let '(l, r) := chain (f_K s) p in csub l r.
  Fixpoint elims (ds : list (pol * positive)) (p : pol) : option pol :=
    match ds with [] => Some p | d :: ds => match elim1 d p with Some q => elims ds q | None => None end end.
  Definition iszero (o : option pol) : bool := match o with Some (PC Z0) => true | _ => false end.
  Fixpoint ztest (p : pol) : bool :=
    match p with
    | PC z => Z.eqb z 0
    | PX v e h t => if Pos.ltb v (f_K s) then ztest h && ztest t
                    else iszero (match elimc p with Some q => elims (f_den s) q | None => None end)
    end.
  Definition fcheck (e : rx) : bool := match fnf e false with Some l => ztest (fst l) | None => false end.

  (** ** Soundness *)
  Section Sound.
    Variables (rho u : positive -> R) (G1 : positive -> R -> R) (G2 : positive -> R -> R -> R) (G3 : positive -> R -> R -> R -> R).
    Notation Li := (G1 1%positive). Notation Phi := (G3 1%positive).
    Hypothesis HK : forall v, (f_K s <= v)%positive -> rho v <> 0%R.
    Hypothesis Hw : (f_K s <= f_w s)%positive /\ (rho (f_K s) * rho (f_K s) * rho (f_w s) = 1)%R.
    Notation ev := (lev rho). Notation ok := (lwf (f_K s)). Notation wfp := (wf (f_K s)).
    Hypothesis Hvar : forall v, u v = ev (f_var s v) /\ ok (f_var s v).
    Hypothesis Hconst : forall c, Rconst c = ev (f_const s c) /\ ok (f_const s c).
    Hypothesis Hlog : forall v l, f_log s v = Some l -> (0 < rho v)%R /\ ln (rho v) = ev l /\ ok l.
    Hypothesis Hden : forall D v, In (D, v) (f_den s) -> rho v = pev rho D /\ wfp D /\ (f_K s <= v)%positive.
    Hypothesis Hli : forall k v, In (k, v) (f_li s) -> Li (ev k) = ev v /\ ok v.
    Hypothesis Hlgc : forall k v, In (k, v) (f_lgc s) -> ln (ev k) = ev v /\ ok v.
    Hypothesis Hsqc : forall k v, In (k, v) (f_sqc s) -> R_sqrt.sqrt (ev k) = ev v /\ ok v.
    Hypothesis Hphi : forall a b c v, In (a, b, c, v) (f_phi s) -> Phi (ev a) (ev b) (ev c) = ev v /\ ok v.

    Lemma ln_powerRZ x e : (0 < x)%R -> ln (powerRZ x e) = (IZR e * ln x)%R /\ (0 < powerRZ x e)%R.
    Proof.
      intros Hx. assert (P : forall n, (0 < x ^ n)%R) by (intros; apply pow_lt; exact Hx).
      assert (L : forall n, ln (x ^ n) = (INR n * ln x)%R).
      { induction n as [|n IH]; [cbn; rewrite ln_1; ring|]. rewrite S_INR. cbn [pow]. rewrite ln_mult by auto. rewrite IH. ring. }
      destruct e as [|p|p]; cbn [powerRZ].
      - rewrite ln_1. split; [ring|lra].
      - rewrite L, INR_IZR_INZ, positive_nat_Z. split; [reflexivity|apply P].
      - rewrite ln_Rinv by apply P. rewrite L, INR_IZR_INZ, positive_nat_Z. split; [|apply Rinv_0_lt_compat, P].
        change (Zneg p) with (- Zpos p)%Z. rewrite opp_IZR. ring.
    Qed.
    Lemma llog_ok p : forall l r, pmono p = Some l -> llog l = Some r -> (0 < pev rho p)%R /\ ln (pev rho p) = ev r /\ ok r.
    Proof.
      induction p as [z|v e h IHh t IHt]; intros l r H H'; cbn [pmono] in H.
      - destruct (Z.eqb_spec z 1) as [->|]; [|discriminate]. assert (l = []) by congruence. subst l. cbn [llog] in H'.
        assert (r = (PC 0, 1%positive)) by congruence. subst r. cbn [pev]. split; [lra|]. unfold lev, lwf; cbn [fst snd pev wf].
        rewrite ln_1. split; [field|exact I].
      - destruct t as [[| |]|]; try discriminate. destruct (pmono h) as [l'|]; [|discriminate].
        assert (l = (v, e) :: l') by congruence. subst l. cbn [llog] in H'.
        destruct (f_log s v) as [a|] eqn:A; [|discriminate]. destruct (llog l') as [b|] eqn:B; [|discriminate].
        destruct (IHh _ _ eq_refl B) as (P1 & P2 & P3). destruct (Hlog _ _ A) as (Q1 & Q2 & Q3).
        assert (R0 : r = ladd (pscale e (fst a), snd a) b) by congruence. subst r.
        destruct (ln_powerRZ (rho v) e Q1) as (S1 & S2). cbn [pev]. unfold xp.
        assert (W : lwf (f_K s) (pscale e (fst a), snd a)) by (unfold lwf; cbn [fst]; apply wf_pscale; exact Q3).
        destruct (ladd_ok rho (f_K s) _ b W P3) as (T1 & T2).
        split; [|split].
        + rewrite Rplus_0_r. apply Rmult_lt_0_compat; assumption.
        + rewrite Rplus_0_r, ln_mult by assumption. rewrite S1, T1, P2, Q2. f_equal.
          unfold lev; cbn [fst snd]. rewrite pev_pscale. field. apply Zpos_neq0.
        + exact T2.
    Qed.
    Lemma psqrt_ok p : forall q, psqrt p = Some q -> (0 < pev rho p)%R /\ R_sqrt.sqrt (pev rho p) = pev rho q /\ wfp q.
    Proof.
      induction p as [z|v e h IHh t IHt]; intros q H; cbn [psqrt] in H.
      - destruct (Z.eqb_spec z 1) as [->|]; [|discriminate]. assert (q = PC 1) by congruence. subst q. cbn [pev wf]. rewrite sqrt_1. repeat split; lra.
      - destruct t as [[| |]|]; try discriminate. destruct (Z.even e) eqn:Ev; [|discriminate]. cbn [andb] in H.
        destruct (Pos.leb_spec (f_K s) v) as [Lv|]; [|discriminate]. destruct (f_log s v) as [a|] eqn:A; [|discriminate].
        destruct (psqrt h) as [r|] eqn:B; [|discriminate]. assert (q = PX v (e / 2) r (PC 0)) by congruence. subst q.
        destruct (IHh _ eq_refl) as (P1 & P2 & P3). destruct (Hlog _ _ A) as (Q1 & _ & _).
        destruct (ln_powerRZ (rho v) e Q1) as (_ & S2). destruct (ln_powerRZ (rho v) (e / 2) Q1) as (_ & S3).
        cbn [pev wf]. unfold xp. rewrite !Rplus_0_r. repeat split; [apply Rmult_lt_0_compat; assumption| |left; exact Lv|exact P3].
        rewrite sqrt_mult by lra. rewrite P2. f_equal.
        assert (E2 : e = (e / 2 + e / 2)%Z). { apply Z.even_spec in Ev. destruct Ev as (k & ->). rewrite Z.mul_comm, Z.div_mul by lia. lia. }
        rewrite E2 at 1. rewrite powerRZ_add by lra. apply sqrt_square. lra.
    Qed.
    Lemma ppos_ok p : ppos p = true -> (0 < pev rho p)%R.
    Proof.
      induction p as [z|v e h IHh t IHt]; cbn [ppos].
      - intros H. apply Z.ltb_lt in H. cbn [pev]. apply IZR_lt. exact H.
      - destruct t as [[| |]|]; try discriminate. destruct (f_log s v) as [a|] eqn:A; [|discriminate]. intros H.
        destruct (Hlog _ _ A) as (Q1 & _ & _). destruct (ln_powerRZ (rho v) e Q1) as (_ & S2).
        cbn [pev]. unfold xp. rewrite Rplus_0_r. apply Rmult_lt_0_compat; [exact S2|auto].
    Qed.
    Lemma dfind_ok p : forall l v b, (forall D w, In (D, w) l -> In (D, w) (f_den s)) -> dfind p l = Some (v, b) ->
      (f_K s <= v)%positive /\ pev rho p = (if b then rho v else - rho v)%R.
    Proof.
      induction l as [|[D w] l IH]; intros v b Hin H; cbn [dfind] in H; [discriminate|].
      destruct (Hden D w) as (E & _ & E'); [apply Hin; left; reflexivity|].
      destruct (peqb p D) eqn:A.
      - apply peqb_ok in A. subst p. assert (v = w /\ b = true) as (-> & ->) by (split; congruence). split; [exact E'|congruence].
      - destruct (peqb p (pscale (-1) D)) eqn:B.
        + apply peqb_ok in B. subst p. assert (v = w /\ b = false) as (-> & ->) by (split; congruence). split; [exact E'|].
          rewrite pev_pscale, E. ring.
        + apply IH; [|exact H]. intros; apply Hin; right; assumption.
    Qed.
    Lemma mcont_wf p : wfp (mcont p).
    Proof.
      unfold mcont. destruct (monos p) as [|m0 ms]; [exact I|]. induction m0 as [|[v e] m0 IH]; [exact I|]. cbn [fold_right fst].
      destruct (Pos.leb_spec (f_K s) v) as [L|]; cbn [andb]; [|exact IH]. destruct (negb _); [|exact IH]. cbn [wf]. repeat split; [left; exact L|exact IH].
    Qed.
    Lemma linvd_ok a b : linvd a = Some b -> ok a -> (ev a * ev b = 1)%R /\ ok b.
    Proof.
      unfold linvd. destruct (linv (f_K s) a) as [c|] eqn:L.
      - intros H A. assert (c = b) by congruence. subst c. apply (linv_ok rho (f_K s) HK a b L A).
      - destruct (dfind (fst a) (f_den s)) as [[v [|]]|] eqn:F.
        3: { cbv zeta. destruct (dfind (pmul (mcont (fst a)) (fst a)) (f_den s)) as [[v bb]|] eqn:F2; [|discriminate]. intros H A.
          assert (E : b = (pmul (PX v (-1) (PC (if bb then Zpos (snd a) else Zneg (snd a))) (PC 0)) (mcont (fst a)), 1%positive)) by congruence. subst b. clear H.
          apply dfind_ok in F2; [|tauto]. destruct F2 as (G1' & G2'). pose proof (mcont_wf (fst a)) as W. pose proof (Zpos_neq0 (snd a)) as N0. pose proof (HK v G1') as N1.
          assert (W2 : wfp (PX v (-1) (PC (if bb then Zpos (snd a) else Zneg (snd a))) (PC 0))) by (cbn [wf]; repeat split; left; exact G1').
          assert (E1 : (pev rho (mcont (fst a)) * pev rho (fst a) = if bb then rho v else - rho v)%R) by (rewrite <- G2', (proj1 (pmul_ok rho (f_K s) HK _ _ W A)); reflexivity).
          unfold lev, lwf; cbn [fst snd]. split; [|exact (proj2 (pmul_ok rho (f_K s) HK _ _ W2 W))].
          rewrite (proj1 (pmul_ok rho (f_K s) HK _ _ W2 W)). cbn [pev]. unfold xp. change (powerRZ (rho v) (-1)) with (/ (rho v * 1))%R.
          transitivity ((pev rho (mcont (fst a)) * pev rho (fst a)) * (/ (rho v * 1) * IZR (if bb then Zpos (snd a) else Zneg (snd a))) / IZR (Zpos (snd a)))%R; [field; split; assumption|].
          rewrite E1. destruct bb; [field; split; assumption|]. change (Zneg (snd a)) with (- Zpos (snd a))%Z. rewrite opp_IZR. field. split; assumption. }
        all: intros H A;
          apply dfind_ok in F; [|tauto]; destruct F as (F1 & F2); pose proof (Zpos_neq0 (snd a)) as N0; pose proof (HK v F1) as N1;
          apply (f_equal (fun o => match o with Some x => x | None => b end)) in H; cbv beta iota in H; rewrite <- H;
          unfold lev, lwf; cbn [fst snd pev wf]; (split; [|split; [left; exact F1|split; exact I]]); rewrite F2; unfold xp;
          change (powerRZ (rho v) (-1)) with (/ (rho v * 1))%R.
        + field. split; [exact N1|exact N0].
        + change (Zneg (snd a)) with (- Zpos (snd a))%Z. rewrite opp_IZR. field. split; [exact N1|exact N0].
    Qed.
    Lemma lifind_ok (F : R -> R) (t : list (lp * lp)) (Ht : forall k v, In (k, v) t -> F (ev k) = ev v /\ ok v) a :
      forall l v, (forall k w, In (k, w) l -> In (k, w) t) -> lifind a l = Some v -> F (ev a) = ev v /\ ok v.
    Proof.
      induction l as [|[k w] l IH]; intros v Hin H; cbn [lifind] in H; [discriminate|].
      destruct (leqb (lcn a) k) eqn:A.
      - apply leqb_ok in A. subst k. assert (w = v) by congruence. subst w. rewrite <- (lcn_ok rho a). apply Ht, Hin. left; reflexivity.
      - apply IH; [|exact H]. intros; apply Hin; right; assumption.
    Qed.
    Lemma phifind_ok a b c : forall l v, (forall x y z w, In (x, y, z, w) l -> In (x, y, z, w) (f_phi s)) -> phifind a b c l = Some v ->
      Phi (ev a) (ev b) (ev c) = ev v /\ ok v.
    Proof.
      induction l as [|[[[k1 k2] k3] w] l IH]; intros v Hin H; cbn [phifind] in H; [discriminate|].
      destruct (leqb (lcn a) k1 && leqb (lcn b) k2 && leqb (lcn c) k3) eqn:A.
      - rewrite !andb_true_iff in A. destruct A as ((A & B) & C). apply leqb_ok in A, B, C. subst. assert (w = v) by congruence. subst w.
        rewrite <- (lcn_ok rho a), <- (lcn_ok rho b), <- (lcn_ok rho c). apply Hphi, Hin. left; reflexivity.
      - apply IH; [|exact H]. intros; apply Hin; right; assumption.
    Qed.
    Definition val (i : bool) (x : R) (l : lp) : Prop := (if i then x * ev l = 1 else x = ev l)%R /\ ok l.
    Lemma fin_ok (i : bool) (x : R) (o : option lp) l : (if i then oinv o else o) = Some l -> (forall l', o = Some l' -> x = ev l' /\ ok l') -> val i x l.
    Proof.
      intros H H'. destruct i.
      - destruct o as [l'|]; [|discriminate]. destruct (H' l' eq_refl) as (A & B). cbn [oinv] in H. destruct (linvd_ok _ _ H B) as (C & D).
        split; [rewrite A; exact C|exact D].
      - exact (H' l H).
    Qed.
    Lemma fnf_ok e : forall i l, fnf e i = Some l -> val i (rev u G1 G2 G3 e) l.
    Proof.
      induction e as [z|m k|c|v|a IHa b IHb|a IHa b IHb|a IHa b IHb|a IHa b IHb|a IHa|c a IHa b IHb|a IHa|a IHa|a IHa|f a IHa|f a IHa b IHb|f a IHa b IHb c IHc]; intros i l H; cbn [fnf] in H; cbn [rev].
      - apply (fin_ok _ _ _ _ H). intros l' E. assert (l' = (PC z, 1%positive)) by congruence. subst l'. unfold lev, lwf; cbn [fst snd pev wf]. split; [field|exact I].
      - apply (fin_ok _ _ _ _ H). intros l' E. destruct (0 <=? k)%Z eqn:K0; [|discriminate].
        assert (l' = (PC m, Z.to_pos (10 ^ k))) by congruence. subst l'. unfold lev, lwf; cbn [fst snd pev wf]. split; [|exact I].
        unfold Rdec. rewrite Z2Pos.id; [reflexivity|]. apply Z.pow_pos_nonneg; [lia|apply Z.leb_le; exact K0].
      - apply (fin_ok _ _ _ _ H). intros l' E. assert (f_const s c = l') by congruence. subst l'. apply Hconst.
      - apply (fin_ok _ _ _ _ H). intros l' E. assert (f_var s v = l') by congruence. subst l'. apply Hvar.
      - apply (fin_ok _ _ _ _ H). intros l' E. unfold oadd in E. destruct (fnf a false) as [x|] eqn:A; [|discriminate]. destruct (fnf b false) as [y|] eqn:B; [|discriminate].
        assert (ladd x y = l') by congruence. subst l'. destruct (IHa _ _ A) as (P1 & P2), (IHb _ _ B) as (Q1 & Q2).
        destruct (ladd_ok rho (f_K s) x y P2 Q2) as (T1 & T2). split; [rewrite T1, P1, Q1; reflexivity|exact T2].
      - apply (fin_ok _ _ _ _ H). intros l' E. unfold oadd, oneg in E. destruct (fnf a false) as [x|] eqn:A; [|discriminate]. destruct (fnf b false) as [y|] eqn:B; [|discriminate].
        assert (ladd x (lneg y) = l') by congruence. subst l'. destruct (IHa _ _ A) as (P1 & P2), (IHb _ _ B) as (Q1 & Q2).
        destruct (lneg_ok rho (f_K s) y Q2) as (V1 & V2).
        destruct (ladd_ok rho (f_K s) x (lneg y) P2 V2) as (T1 & T2). split; [rewrite T1, V1, P1, Q1; reflexivity|exact T2].
      - unfold omul in H. destruct (fnf a i) as [x|] eqn:A; [|discriminate]. destruct (fnf b i) as [y|] eqn:B; [|discriminate].
        assert (lmul x y = l) by congruence. subst l. destruct (IHa _ _ A) as (P1 & P2), (IHb _ _ B) as (Q1 & Q2).
        destruct (lmul_ok rho (f_K s) HK x y P2 Q2) as (T1 & T2). split; [|exact T2]. destruct i; rewrite T1.
        + transitivity ((rev u G1 G2 G3 a * ev x) * (rev u G1 G2 G3 b * ev y))%R; [ring|rewrite P1, Q1; ring].
        + rewrite P1, Q1. reflexivity.
      - destruct i.
        + destruct (fnf b true) as [y'|] eqn:B'; [|discriminate]. destruct (IHb _ _ B') as (Q1' & _).
          unfold omul in H. destruct (fnf a true) as [x|] eqn:A; [|discriminate]. destruct (fnf b false) as [y|] eqn:B; [|discriminate].
          assert (lmul x y = l) by congruence. subst l. destruct (IHa _ _ A) as (P1 & P2), (IHb _ _ B) as (Q1 & Q2).
          destruct (lmul_ok rho (f_K s) HK x y P2 Q2) as (T1 & T2). split; [|exact T2].
          assert (rev u G1 G2 G3 b <> 0)%R by (intros ZZ; rewrite ZZ in Q1'; lra).
          rewrite T1. rewrite <- Q1. transitivity (rev u G1 G2 G3 a * ev x)%R; [field; assumption|exact P1].
        + unfold omul in H. destruct (fnf b true) as [y|] eqn:B; [|discriminate]. destruct (fnf a false) as [x|] eqn:A; [|discriminate].
          assert (lmul y x = l) by congruence. subst l. destruct (IHa _ _ A) as (P1 & P2), (IHb _ _ B) as (Q1 & Q2).
          destruct (lmul_ok rho (f_K s) HK y x Q2 P2) as (T1 & T2). split; [|exact T2]. rewrite T1, P1.
          assert (rev u G1 G2 G3 b <> 0)%R by (intros ZZ; rewrite ZZ in Q1; lra).
          apply Rmult_eq_reg_l with (rev u G1 G2 G3 b); [|assumption]. transitivity (ev x); [field; assumption|].
          transitivity ((rev u G1 G2 G3 b * ev y) * ev x)%R; [rewrite Q1; ring|ring].
      - unfold oneg in H. destruct (fnf a i) as [x|] eqn:A; [|discriminate]. assert (lneg x = l) by congruence. subst l.
        destruct (IHa _ _ A) as (P1 & P2). destruct (lneg_ok rho (f_K s) x P2) as (V1 & V2). split; [|exact V2].
        destruct i; rewrite V1; [rewrite <- P1; ring|rewrite P1; reflexivity].
      - destruct c; [exact (IHa _ _ H)|exact (IHb _ _ H)].
      - apply (fin_ok _ _ _ _ H). intros l' E. destruct (fnf a false) as [x|] eqn:A; try discriminate.
        destruct (lifind x (f_lgc s)) as [v|] eqn:LF.
        { assert (v = l') by congruence. subst v. destruct (IHa _ _ A) as (P1 & P2). rewrite P1. exact (lifind_ok ln (f_lgc s) Hlgc x _ _ (fun _ _ h => h) LF). }
        destruct x as [p [| |]]; try discriminate.
        destruct (pmono p) as [ml|] eqn:M; [|discriminate]. destruct (IHa _ _ A) as (P1 & P2). destruct (llog_ok p ml l' M E) as (Q1 & Q2 & Q3).
        split; [|exact Q3]. rewrite P1, <- Q2. f_equal. unfold lev; cbn [fst snd]. field.
      - apply (fin_ok _ _ _ _ H). intros l' E. destruct (fnf a false) as [x|] eqn:A; try discriminate.
        destruct (lifind x (f_sqc s)) as [v|] eqn:LF.
        { assert (v = l') by congruence. subst v. destruct (IHa _ _ A) as (P1 & P2). rewrite P1. exact (lifind_ok R_sqrt.sqrt (f_sqc s) Hsqc x _ _ (fun _ _ h => h) LF). }
        destruct x as [p [| |]]; try discriminate.
        destruct (psqrt p) as [q|] eqn:M; [|discriminate]. destruct (IHa _ _ A) as (P1 & P2). destruct (psqrt_ok p q M) as (Q1 & Q2 & Q3).
        assert (l' = (q, 1%positive)) by congruence. subst l'. split; [|exact Q3]. rewrite P1. unfold lev; cbn [fst snd].
        transitivity (R_sqrt.sqrt (pev rho p)); [f_equal; field|]. rewrite Q2. field.
      - apply (fin_ok _ _ _ _ H). intros l' E. destruct (fnf a false) as [x|] eqn:A; [|discriminate]. destruct (ppos (fst x)) eqn:PP; [|discriminate].
        assert (x = l') by congruence. subst x. destruct (IHa _ _ A) as (P1 & P2). split; [|exact P2]. rewrite P1. apply Rabs_pos_eq. apply ppos_ok in PP.
        unfold lev. left. apply Rdiv_lt_0_compat; [exact PP|]. apply IZR_lt. reflexivity.
      - destruct (Pos.eqb_spec f 1) as [-> |]; [|discriminate]. apply (fin_ok _ _ _ _ H). intros l' E. destruct (fnf a false) as [x|] eqn:A; [|discriminate]. destruct (IHa _ _ A) as (P1 & P2). rewrite P1.
        exact (lifind_ok Li (f_li s) Hli x _ _ (fun _ _ h => h) E).
      - discriminate.
      - destruct (Pos.eqb_spec f 1) as [-> |]; [|discriminate]. apply (fin_ok _ _ _ _ H). intros l' E. destruct (fnf a false) as [x|] eqn:A; [|discriminate]. destruct (fnf b false) as [y|] eqn:B; [|discriminate].
        destruct (fnf c false) as [z|] eqn:C; [|discriminate].
        destruct (IHa _ _ A) as (P1 & P2), (IHb _ _ B) as (Q1 & Q2), (IHc _ _ C) as (S1 & S2). rewrite P1, Q1, S1. apply phifind_ok in E; [exact E|tauto].
    Qed.

    (** zero test *)
    Notation pv := (pev rho).
    Fixpoint csum (v : positive) (l : list (Z * pol)) : R := match l with [] => 0 | (e, h) :: l => xp rho v e * pv h + csum v l end.
    Definition lok (v : positive) (l : list (Z * pol)) : Prop := Forall (fun eh => wfp (snd eh)) l.
    Lemma chain_ok v p l r : chain v p = (l, r) -> wfp p -> pv p = (csum v l + pv r)%R /\ lok v l /\ wfp r.
    Proof.
      revert l r; induction p as [z|v' e h IHh t IHt]; intros l r H W; cbn [chain] in H.
      - assert (l = [] /\ r = PC z) as (-> & ->) by (split; congruence). cbn [csum]. repeat split; [ring|constructor].
      - destruct (Pos.eqb_spec v v') as [->|].
        + destruct (chain v' t) as [l' r'] eqn:E. destruct W as (_ & W1 & W2). destruct (IHt _ _ eq_refl W2) as (A & B & C).
          assert (l = (e, h) :: l' /\ r = r') as (-> & ->) by (split; congruence). cbn [csum pev]. repeat split; [rewrite A; ring|constructor; assumption|assumption].
        + assert (l = [] /\ r = PX v' e h t) as (-> & ->) by (split; congruence). cbn [csum]. repeat split; [ring|constructor|apply W|apply W|apply W].
    Qed.
    Lemma ppow_ok p n : wfp p -> pv (ppow p n) = (pv p ^ n)%R /\ wfp (ppow p n).
    Proof.
      intros W. induction n as [|n (I1 & I2)]; [split; [reflexivity|exact I]|]. destruct n as [|n]; [split; [cbn; ring|exact W]|].
      change (ppow p (S (S n))) with (pmul p (ppow p (S n))). destruct (pmul_ok rho (f_K s) HK p (ppow p (S n)) W I2) as (A & B).
      split; [rewrite A, I1; reflexivity|exact B].
    Qed.
    Lemma xp_neg v e : (f_K s <= v)%positive -> (e <= 0)%Z -> (xp rho v e * rho v ^ Z.to_nat (- e) = 1)%R.
    Proof.
      intros Hv He. pose proof (HK v Hv). unfold xp. rewrite pow_powerRZ, Z2Nat.id by lia. rewrite <- powerRZ_add by assumption.
      replace (e + - e)%Z with 0%Z by ring. reflexivity.
    Qed.
    Lemma hor_ok D v : wfp D -> rho v = pv D -> (f_K s <= v)%positive -> forall l r x, lok v l -> wfp r -> hor D l r = Some x ->
      exists e, (csum v l + pv r = xp rho v e * pv x)%R /\ wfp x /\ match l with (e0, _) :: _ => e0 = e | [] => False end.
    Proof.
      intros WD ED Hv. induction l as [|[e h] l IH]; intros r x Hl Hr H; cbn [hor] in H; [discriminate|].
      pose proof (Forall_inv Hl) as Wh. pose proof (Forall_inv_tail Hl) as Hl'. cbn [snd] in Wh. exists e. destruct l as [|[e2 h2] l].
      - cbn [csum].
        assert (G : (if (e <? 0)%Z then Some (padd h (pmul (ppow D (Z.to_nat (- e))) r)) else None) = Some x ->
            (xp rho v e * pv h + 0 + pv r = xp rho v e * pv x)%R /\ wfp x /\ e = e).
        { destruct (Z.ltb_spec e 0) as [L|L]; [|discriminate]. intros H0. assert (E : x = padd h (pmul (ppow D (Z.to_nat (- e))) r)) by congruence. subst x.
          destruct (ppow_ok D (Z.to_nat (- e)) WD) as (A & B). destruct (pmul_ok rho (f_K s) HK _ r B Hr) as (C & F).
          split; [|split; [apply wf_padd; assumption|reflexivity]]. rewrite pev_padd, C, A, <- ED, Rmult_plus_distr_l, <- Rmult_assoc, xp_neg by (assumption || lia). ring. }
        destruct r as [[| |]|]; try exact (G H). assert (h = x) by congruence. subst x. cbn [pev]. repeat split; [ring|exact Wh].
      - destruct (Z.ltb_spec e e2) as [L|L]; [|discriminate]. destruct (hor D ((e2, h2) :: l) r) as [y|] eqn:Y; [|discriminate].
        destruct (IH r y Hl' Hr Y) as (e' & P1 & P2 & P3). subst e'.
        assert (E : x = padd h (pmul (ppow D (Z.to_nat (e2 - e))) y)) by congruence. subst x.
        destruct (ppow_ok D (Z.to_nat (e2 - e)) WD) as (A & B). destruct (pmul_ok rho (f_K s) HK _ y B P2) as (C & F).
        split; [|split; [apply wf_padd; assumption|reflexivity]]. rewrite pev_padd, C, A, <- ED.
        change (csum v ((e, h) :: (e2, h2) :: l)) with (xp rho v e * pv h + csum v ((e2, h2) :: l))%R.
        rewrite Rplus_assoc, P1. rewrite Rmult_plus_distr_l, <- Rmult_assoc. f_equal. f_equal.
        pose proof (HK v Hv). unfold xp. rewrite pow_powerRZ, Z2Nat.id by lia. rewrite <- powerRZ_add by assumption. f_equal. lia.
    Qed.
    Lemma elim1_ok D v p q : In (D, v) (f_den s) -> wfp p -> elim1 (D, v) p = Some q -> wfp q /\ (pv q = 0 -> pv p = 0)%R.
    Proof.
      intros Hi W H. unfold elim1 in H. cbn [fst snd] in H. destruct (chain v p) as [l r] eqn:E. destruct (chain_ok _ _ _ _ E W) as (A & B & C).
      destruct (Hden D v Hi) as (D1 & D2 & D3). destruct l as [|eh l].
      - assert (p = q) by congruence. subst q. tauto.
      - destruct (hor_ok D v D2 D1 D3 _ _ _ B C H) as (e & P1 & P2 & _). split; [exact P2|]. intros Q. rewrite A, P1, Q. ring.
    Qed.
    Lemma elims_ok ds : (forall D v, In (D, v) ds -> In (D, v) (f_den s)) -> forall p q, wfp p -> elims ds p = Some q -> (pv q = 0 -> pv p = 0)%R.
    Proof.
      induction ds as [|[D v] ds IH]; intros Hin p q W H; cbn [elims] in H; [assert (p = q) by congruence; subst; tauto|].
      destruct (elim1 (D, v) p) as [x|] eqn:E; [|discriminate]. destruct (elim1_ok D v p x (Hin _ _ (or_introl eq_refl)) W E) as (A & B).
      intros Q. apply B. apply (IH (fun D v h => Hin D v (or_intror h)) x q A H Q).
    Qed.
    Lemma csub_ok l : forall r x, lok (f_K s) l -> wfp r -> csub l r = Some x -> (csum (f_K s) l + pv r)%R = pv x /\ wfp x.
    Proof.
      destruct Hw as (W1 & W2).
      induction l as [|[e h] l IH]; intros r x Hl Hr H; cbn [csub] in H; [assert (r = x) by congruence; subst; cbn [csum]; split; [ring|assumption]|].
      destruct (Z.even e) eqn:Ev; [|discriminate]. destruct (csub l r) as [y|] eqn:Y; [|discriminate].
      destruct (IH r y (Forall_inv_tail Hl) Hr Y) as (A & B). pose proof (Forall_inv Hl) as Wh. cbn [snd] in Wh.
      assert (x = padd (pshift (f_w s) (- (e / 2)) h) y) by congruence. subst x.
      destruct (pshift_ok rho (f_K s) HK (f_w s) (- (e / 2)) h (or_introl W1) Wh) as (C & D). split; [|apply wf_padd; assumption].
      rewrite pev_padd, C. cbn [csum]. rewrite <- A, Rplus_assoc. f_equal. f_equal.
      assert (E2 : e = (e / 2 + e / 2)%Z). { apply Z.even_spec in Ev. destruct Ev as (k & ->). rewrite Z.mul_comm, Z.div_mul by lia. lia. }
      unfold xp. pose proof (HK (f_K s) (Pos.le_refl _)) as N0. pose proof (HK (f_w s) W1) as N1.
      rewrite E2 at 1. rewrite powerRZ_add by assumption. 
      apply Rmult_eq_reg_r with (powerRZ (rho (f_w s)) (e / 2)); [|apply powerRZ_NOR; assumption].
      rewrite <- (powerRZ_add (rho (f_w s)) (- (e / 2)) (e / 2)) by assumption. rewrite Z.add_opp_diag_l. cbn [powerRZ].
      rewrite <- !powerRZ_mult, W2. apply powerRZ_R1.
    Qed.
    Lemma ztest_ok p : wfp p -> ztest p = true -> pv p = 0%R.
    Proof.
      induction p as [z|v e h IHh t IHt]; intros W H; cbn [ztest] in H.
      - apply Z.eqb_eq in H. subst z. reflexivity.
      - destruct (Pos.ltb v (f_K s)).
        + rewrite andb_true_iff in H. destruct W as (_ & W1 & W2). cbn [pev]. rewrite IHh, IHt by tauto. ring.
        + destruct (elimc (PX v e h t)) as [q|] eqn:E; [|discriminate]. destruct (elims (f_den s) q) as [x|] eqn:F; [|discriminate].
          destruct x as [[| |]|]; try discriminate.
          unfold elimc in E. destruct (chain (f_K s) (PX v e h t)) as [l r] eqn:G. destruct (chain_ok _ _ _ _ G W) as (A & B & C).
          destruct (csub_ok _ _ _ B C E) as (P1 & P2). rewrite A, P1. apply (elims_ok (f_den s) (fun _ _ h => h) q (PC 0) P2 F). reflexivity.
    Qed.
    Theorem fcheck_sound e : fcheck e = true -> rev u G1 G2 G3 e = 0%R.
    Proof.
      unfold fcheck. destruct (fnf e false) as [l|] eqn:E; [|discriminate]. intros H. destruct (fnf_ok e false l E) as (A & B). rewrite A.
      unfold lev. rewrite (ztest_ok (fst l) B H). unfold Rdiv. ring.
    Qed.
  End Sound.
End NF.

(** substitution of expressions for variables *)
Fixpoint xsub (f : positive -> rx) (e : rx) : rx :=
  match e with
  | XZ z => XZ z | XDec m k => XDec m k | XC c => XC c | XV v => f v
  | XAdd a b => XAdd (xsub f a) (xsub f b) | XSub a b => XSub (xsub f a) (xsub f b)
  | XMul a b => XMul (xsub f a) (xsub f b) | XDiv a b => XDiv (xsub f a) (xsub f b)
  | XNeg a => XNeg (xsub f a) | XSel c a b => XSel c (xsub f a) (xsub f b)
  | XLog a => XLog (xsub f a) | XSqrt a => XSqrt (xsub f a) | XAbs a => XAbs (xsub f a)
  | XF1 g a => XF1 g (xsub f a) | XF2 g a b => XF2 g (xsub f a) (xsub f b) | XF3 g a b c => XF3 g (xsub f a) (xsub f b) (xsub f c)
  end.
Lemma xsub_ok u G1 G2 G3 f e : rev u G1 G2 G3 (xsub f e) = rev (fun v => rev u G1 G2 G3 (f v)) G1 G2 G3 e.
Proof. induction e; cbn [xsub rev]; congruence || (try destruct c; congruence). Qed.
Lemma rev_ext u u' G1 G2 G3 e : (forall v, u v = u' v) -> rev u G1 G2 G3 e = rev u' G1 G2 G3 e.
Proof. intros H. induction e; cbn [rev]; try congruence; try (rewrite H; reflexivity); destruct c; congruence. Qed.
