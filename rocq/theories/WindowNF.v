(** * Orders of the difference of two expressions
    The normal form of FieldNF.v, used to bound an expression by a power of a small quantity: each symbol has a weight, every term of the numerator
    must have at least the given weight.  Proof tool only, nothing here models code. *)
From Coq Require Import Reals ZArith List Bool Lra Lia.
From Verif Require Import Num NumFacts HierExpr HierPoly FieldPoly FieldNF MirrorNF.
Import ListNotations.
Open Scope R_scope.

Definition vd_ := 151%positive. Definition vr_ := 152%positive.
Definition envw (lm : list (positive * lp)) (ds : list pol) (lg : list (lp * lp)) : fenv := {|
  f_K := 100; f_w := 101; f_var := assoc lm; f_const := fun c => mon (cidx c) 1; f_log := fun _ => None;
  f_den := (wD, 101%positive) :: numb 102 ds; f_li := []; f_lgc := lg; f_sqc := []; f_phi := [] |}.

(** clear the divisors, remembering the exponents *)
Fixpoint elimsw (ds : list (pol * positive)) (p : pol) : option (list (positive * Z) * pol) :=
  match ds with
  | [] => Some ([], p)
  | (D, v) :: ds =>
      let '(l, r) := chain v p in
      match l with
      | [] => elimsw ds p
      | (e, _) :: _ => match hor D l r with
                       | Some q => match elimsw ds q with Some (es, x) => Some ((v, e) :: es, x) | None => None end
                       | None => None
                       end
      end
  end.
(** symbols that may occur *)
Definition okv (v : positive) : bool := Pos.leb v 10 || (Pos.leb 102 v && negb (Pos.eqb v 150)).
Section W.
  Variable wt : positive -> Z.
  Variable lbv : positive -> bool.      (* symbols with a lower bound, they may occur with negative exponents *)
  Fixpoint pwt (n : Z) (p : pol) : bool :=
    match p with PC z => Z.eqb z 0 || Z.leb n 0 | PX v e h t => okv v && (Z.leb 0 e || lbv v) && pwt (n - wt v * e) h && pwt n t end.
  (** the lowest weight *)
  Fixpoint pmin (p : pol) : option Z :=
    match p with
    | PC z => if Z.eqb z 0 then None else Some 0%Z
    | PX v e h t => match pmin h, pmin t with
                    | Some a, Some b => Some (Z.min (a + wt v * e) b) | Some a, None => Some (a + wt v * e)%Z | None, b => b end
    end.
End W.
Definition wsum (wt : positive -> Z) (es : list (positive * Z)) : Z := fold_right (fun ve k => (wt (fst ve) * snd ve + k)%Z) 0%Z es.
(** every term of p has weight n at least; the symbols below 100 are split off first *)
Section B.
  Variables (wt : positive -> Z) (lbv : positive -> bool) (ds : list (pol * positive)).
  Fixpoint bchk (n : Z) (p : pol) : bool :=
    match p with
    | PC z => Z.eqb z 0 || Z.leb n 0
    | PX v e h t => if Pos.ltb v 100 then okv v && bchk (n - wt v * e) h && bchk n t
                    else match elimsw ds p with Some (es, q) => forallb (fun ve => okv (fst ve) && lbv (fst ve)) es && pwt wt lbv (n - wsum wt es) q | None => false end
    end.
  Fixpoint bmin (p : pol) : option Z :=
    match p with
    | PC z => if Z.eqb z 0 then None else Some 0%Z
    | PX v e h t => if Pos.ltb v 100 then match bmin h, bmin t with
                    | Some a, Some b => Some (Z.min (a + wt v * e) b) | Some a, None => Some (a + wt v * e)%Z | None, b => b end
                    else match elimsw ds p with Some (es, q) => option_map (fun k => k + wsum wt es)%Z (pmin wt q) | None => Some (-1000)%Z end
    end.
End B.
Definition order (wt : positive -> Z) (s : fenv) (e : rx) : option (option Z) :=
  match fnf s e false with Some l => Some (bmin wt (f_den s) (fst l)) | None => None end.
Definition bound (wt : positive -> Z) (lbv : positive -> bool) (s : fenv) (n : Z) (e : rx) : bool :=
  match fnf s e false with Some l => bchk wt lbv (f_den s) n (fst l) | None => false end.
(** polynomials *)
Definition V (v : positive) : lp := mon v 1.
Definition pl (a b : lp) : lp := ladd a b. Definition mi (a b : lp) : lp := ladd a (lneg b). Definition ti (a b : lp) : lp := lmul a b.
Definition qz (n : Z) (d : positive) : lp := (PC n, d).
Fixpoint lnser (t : lp) (n : nat) : lp :=
  match n with O => cst 0 | S m => ladd (lnser t m) (lmul (qz (if Nat.even m then 2 else -2) (Pos.of_nat n)) (Nat.iter n (lmul t) (cst 1))) end.
Definition lD := V vd_. Definition lR := V vr_. Definition one := cst 1.

(** ** Soundness *)
Section Cof.
  Variable B : R.
  Definition cf1 (e : Z) : R := B ^ Z.abs_nat e.
  Fixpoint cof (p : pol) : R := match p with PC z => Rabs (IZR z) | PX v e h t => cf1 e * cof h + cof t end.
  Definition cofs (es : list (positive * Z)) : R := fold_right (fun ve k => cf1 (snd ve) * k) 1 es.
  Fixpoint bcof (ds : list (pol * positive)) (p : pol) : R :=
    match p with
    | PC z => Rabs (IZR z)
    | PX v e h t => if Pos.ltb v 100 then cf1 e * bcof ds h + bcof ds t
                    else match elimsw ds p with Some (es, q) => cofs es * cof q | None => 0 end
    end.
  Hypothesis HB : 1 <= B.
  Lemma cf1_pos e : 0 <= cf1 e. Proof. apply pow_le. lra. Qed.
  Lemma cof_pos p : 0 <= cof p.
  Proof. induction p as [z|v e h IHh t IHt]; cbn [cof]; [apply Rabs_pos|]. pose proof (Rmult_le_pos _ _ (cf1_pos e) IHh). lra. Qed.
  Lemma cofs_pos es : 0 <= cofs es.
  Proof. induction es as [|[v e] es IH]; cbn [cofs fold_right snd]; [lra|]. apply Rmult_le_pos; [apply cf1_pos|exact IH]. Qed.
  Lemma bcof_pos ds p : 0 <= bcof ds p.
  Proof.
    induction p as [z|v e h IHh t IHt]; cbn [bcof]; [apply Rabs_pos|]. destruct (Pos.ltb v 100).
    - pose proof (Rmult_le_pos _ _ (cf1_pos e) IHh). lra.
    - destruct (elimsw ds (PX v e h t)) as [[es q]|]; [|lra]. apply Rmult_le_pos; [apply cofs_pos|apply cof_pos].
  Qed.

  Variables (wt : positive -> Z) (lbv : positive -> bool) (sm : R) (rho : positive -> R) (ds : list (pol * positive)).
  Hypothesis Hs : 0 < sm <= 1.
  Hypothesis HK : forall v, (100 <= v)%positive -> rho v <> 0.
  Hypothesis Hden : forall D v, In (D, v) ds -> rho v = FieldPoly.pev rho D /\ FieldPoly.wf 100 D /\ (100 <= v)%positive.
  Hypothesis Hub : forall v, okv v = true -> Rabs (rho v) <= B * powerRZ sm (wt v).
  Hypothesis Hlb : forall v, okv v = true -> lbv v = true -> (100 <= v)%positive -> powerRZ sm (wt v) <= B * Rabs (rho v).
  Notation pz := (powerRZ sm).
  Lemma pz_pos n : 0 < pz n. Proof. apply powerRZ_lt. lra. Qed.
  Lemma pz_add a b : pz (a + b) = pz a * pz b. Proof. apply powerRZ_add. lra. Qed.
  Lemma pz_mul a n : pz (a * Z.of_nat n) = pz a ^ n.
  Proof.
    induction n as [|n IH]; [rewrite Z.mul_0_r; reflexivity|]. rewrite Nat2Z.inj_succ, Z.mul_succ_r, pz_add, IH. cbn [pow]. ring.
  Qed.
  Lemma pz_neg n : (n <= 0)%Z -> 1 <= pz n.
  Proof.
    intros Hn. replace n with (- Z.of_nat (Z.to_nat (- n)))%Z by lia. rewrite powerRZ_neg', <- pow_powerRZ.
    pose proof (pow_lt sm (Z.to_nat (- n)) (proj1 Hs)) as P. pose proof (pow_incr sm 1 (Z.to_nat (- n)) (conj (Rlt_le _ _ (proj1 Hs)) (proj2 Hs))) as Q.
    rewrite pow1 in Q. apply Rmult_le_reg_l with (sm ^ Z.to_nat (- n)); [exact P|]. rewrite Rinv_r by lra. lra.
  Qed.
  Lemma xpb v e : okv v = true -> (lbv v = true /\ (100 <= v)%positive) \/ (0 <= e)%Z -> Rabs (FieldPoly.xp rho v e) <= cf1 e * pz (wt v * e).
  Proof.
    intros Hv He. unfold FieldPoly.xp, cf1. destruct (Z.le_gt_cases 0 e) as [E|E].
    - replace (Z.abs_nat e) with (Z.to_nat e) by lia. rewrite <- (Z2Nat.id e) at 1 3 by exact E. rewrite <- pow_powerRZ, pz_mul, <- Rpow_mult_distr, <- RPow_abs.
      apply pow_incr. split; [apply Rabs_pos|apply Hub; exact Hv].
    - assert (L' : lbv v = true /\ (100 <= v)%positive) by (destruct He; [assumption|lia]). destruct L' as (Lb & L). pose proof (HK v L) as N0. pose proof (Rabs_pos_lt _ N0) as P0.
      set (n := Z.to_nat (- e)). replace (Z.abs_nat e) with n by lia. replace e with (- Z.of_nat n)%Z by lia.
      rewrite powerRZ_neg', <- pow_powerRZ, <- pow_inv, <- RPow_abs. replace (wt v * - Z.of_nat n)%Z with (- wt v * Z.of_nat n)%Z by ring.
      rewrite pz_mul, <- Rpow_mult_distr. apply pow_incr. split; [apply Rabs_pos|]. rewrite Rabs_inv, powerRZ_neg'.
      pose proof (pz_pos (wt v)) as P1. pose proof (Hlb v Hv Lb L) as P2. apply Rmult_le_reg_l with (Rabs (rho v)); [exact P0|]. rewrite Rinv_r by lra.
      apply Rmult_le_reg_r with (pz (wt v)); [exact P1|]. replace (Rabs (rho v) * (B * / pz (wt v)) * pz (wt v)) with (B * Rabs (rho v)) by (field; lra). lra.
  Qed.
  Lemma step v e a c n (x : R) : okv v = true -> (lbv v = true /\ (100 <= v)%positive) \/ (0 <= e)%Z -> 0 <= a -> Rabs x <= a * pz (n - wt v * e) -> c = cf1 e * a ->
    Rabs (FieldPoly.xp rho v e * x) <= c * pz n.
  Proof.
    intros Hv He Ha Hx ->. pose proof (xpb v e Hv He) as X. rewrite Rabs_mult.
    replace (cf1 e * a * pz n) with ((cf1 e * pz (wt v * e)) * (a * pz (n - wt v * e))).
    - apply Rmult_le_compat; [apply Rabs_pos|apply Rabs_pos|exact X|exact Hx].
    - replace n with (wt v * e + (n - wt v * e))%Z at 2 by ring. rewrite pz_add. ring.
  Qed.
  Lemma cst_ok z n : Z.eqb z 0 || Z.leb n 0 = true -> Rabs (IZR z) <= Rabs (IZR z) * pz n.
  Proof.
    intros H. apply orb_true_iff in H. destruct H as [H|H].
    - apply Z.eqb_eq in H. subst z. rewrite Rabs_R0. lra.
    - apply Z.leb_le in H. pose proof (pz_neg n H). pose proof (Rabs_pos (IZR z)). nra.
  Qed.
  Lemma pwt_ok p : forall n, FieldPoly.wf 100 p -> pwt wt lbv n p = true -> Rabs (FieldPoly.pev rho p) <= cof p * pz n.
  Proof.
    induction p as [z|v e h IHh t IHt]; intros n W H; cbn [pwt] in H; cbn [FieldPoly.pev cof]; [apply cst_ok; exact H|].
    destruct W as (W0 & W1 & W2). rewrite !andb_true_iff in H. destruct H as (((Hv & Hl) & H1) & H2).
    assert (W3 : (lbv v = true /\ (100 <= v)%positive) \/ (0 <= e)%Z) by (apply orb_true_iff in Hl; rewrite Z.leb_le in Hl; destruct Hl as [?|?], W0 as [?|?]; tauto).
    pose proof (step v e (cof h) _ n _ Hv W3 (cof_pos h) (IHh _ W1 H1) eq_refl) as A. pose proof (IHt n W2 H2) as C.
    eapply Rle_trans; [apply Rabs_triang|]. lra.
  Qed.
  Definition xps (es : list (positive * Z)) : R := fold_right (fun ve k => FieldPoly.xp rho (fst ve) (snd ve) * k) 1 es.
  Variable s : fenv.
  Hypothesis sK : f_K s = 100%positive.
  Lemma elimsw_ok l : (forall x, In x l -> In x ds) -> forall p es q, FieldPoly.wf 100 p -> elimsw l p = Some (es, q) ->
    FieldPoly.pev rho p = xps es * FieldPoly.pev rho q /\ FieldPoly.wf 100 q /\ Forall (fun ve => (100 <= fst ve)%positive) es.
  Proof.
    induction l as [|[D v] l IH]; intros Hin p es q W H; cbn [elimsw] in H.
    - injection H as <- <-. cbn [xps fold_right]. split; [ring|split; [exact W|constructor]].
    - destruct (chain v p) as [c r] eqn:E. rewrite <- sK in W. destruct (chain_ok s rho v p c r E W) as (A1 & A2 & A3). rewrite sK in *.
      destruct c as [|[e h] c]; [exact (IH (fun x hx => Hin x (or_intror hx)) p es q W H)|].
      destruct (hor D ((e, h) :: c) r) as [x|] eqn:F; [|discriminate]. destruct (elimsw l x) as [[es' q']|] eqn:G; [|discriminate]. injection H as <- <-.
      destruct (Hden D v (Hin _ (or_introl eq_refl))) as (D1 & D2 & D3).
      assert (HK' : forall w, (f_K s <= w)%positive -> rho w <> 0) by (rewrite sK; exact HK).
      pose proof (hor_ok s rho HK' D v) as X. rewrite sK in X. destruct (X D2 D1 D3 _ _ _ A2 A3 F) as (e' & Y1 & Y2 & Y3). subst e'.
      destruct (IH (fun x hx => Hin x (or_intror hx)) x es' q' Y2 G) as (Z1 & Z2 & Z3).
      split; [|split; [exact Z2|constructor; [exact D3|exact Z3]]]. rewrite A1, Y1, Z1. cbn [xps fold_right fst snd]. unfold xps. ring.
  Qed.
  Lemma xps_b es : Forall (fun ve => (100 <= fst ve)%positive) es -> forallb (fun ve => okv (fst ve) && lbv (fst ve)) es = true -> Rabs (xps es) <= cofs es * pz (wsum wt es).
  Proof.
    induction es as [|[v e] es IH]; intros H1 H2; cbn [xps cofs wsum fold_right fst snd].
    - rewrite Rabs_R1. cbn [powerRZ]. lra.
    - cbn [forallb fst] in H2. apply andb_true_iff in H2. destruct H2 as (H2 & H3). apply andb_true_iff in H2. destruct H2 as (H2 & H2'). inversion H1 as [|? ? H4 H5]; subst. cbn [fst] in H4. specialize (IH H5 H3).
      apply step with (a := cofs es); [exact H2|left; split; assumption|apply cofs_pos| |reflexivity]. fold (xps es).
      replace (wt v * e + fold_right (fun ve k => wt (fst ve) * snd ve + k) 0 es - wt v * e)%Z with (wsum wt es) by (unfold wsum; ring). exact IH.
  Qed.
  Lemma bchk_ok p : forall n, FieldPoly.wf 100 p -> bchk wt lbv ds n p = true -> Rabs (FieldPoly.pev rho p) <= bcof ds p * pz n.
  Proof.
    induction p as [z|v e h IHh t IHt]; intros n W H; cbn [bchk] in H; cbn [bcof]; [apply cst_ok; exact H|].
    destruct (Pos.ltb_spec v 100) as [Lv|Lv].
    - destruct W as (W0 & W1 & W2). rewrite !andb_true_iff in H. destruct H as ((Hv & H1) & H2). cbn [FieldPoly.pev].
      assert (W3 : (lbv v = true /\ (100 <= v)%positive) \/ (0 <= e)%Z) by (destruct W0 as [?|?]; [lia|tauto]).
      pose proof (step v e (bcof ds h) _ n _ Hv W3 (bcof_pos ds h) (IHh _ W1 H1) eq_refl) as A. pose proof (IHt n W2 H2) as C.
      eapply Rle_trans; [apply Rabs_triang|]. lra.
    - destruct (elimsw ds (PX v e h t)) as [[es q]|] eqn:E; [|discriminate]. apply andb_true_iff in H. destruct H as (H1 & H2).
      destruct (elimsw_ok ds (fun x hx => hx) _ _ _ W E) as (A1 & A2 & A3). rewrite A1, Rabs_mult.
      pose proof (xps_b es A3 H1) as X. pose proof (pwt_ok q _ A2 H2) as Y.
      replace (cofs es * cof q * pz n) with ((cofs es * pz (wsum wt es)) * (cof q * pz (n - wsum wt es))).
      + apply Rmult_le_compat; [apply Rabs_pos|apply Rabs_pos|exact X|exact Y].
      + replace n with (wsum wt es + (n - wsum wt es))%Z at 2 by ring. rewrite pz_add. ring.
  Qed.
End Cof.

Section Env.
  Variables (wt : positive -> Z) (lbv : positive -> bool) (lm : list (positive * lp)) (ds : list pol) (lg : list (lp * lp)).
  Definition tabsw : bool :=
    forallb (fun D => nod D && wfb D) ds && Nat.leb (List.length ds) 40 && forallb (fun kv => lnod (snd kv)) lm &&
    forallb (fun kv => lnod (fst kv) && lnod (snd kv)) lg.
  Definition bs (lo hi : positive -> R) : positive -> R := mkbase lo (fun _ => 0) hi (4 / 5).
  Record goodw (B sm : R) (lo hi : positive -> R) : Prop := {
    gw_t : hi 150%positive = 3 / 4; gw_hi : forall v, (150 <= v)%positive -> hi v <> 0;
    gw_den : Forall (fun Dv => FieldPoly.pev (bs lo hi) (fst Dv) <> 0 /\ Rabs (FieldPoly.pev (bs lo hi) (fst Dv)) <= B * powerRZ sm (wt (snd Dv)) /\
                                 powerRZ sm (wt (snd Dv)) <= B * Rabs (FieldPoly.pev (bs lo hi) (fst Dv))) (numb 102 ds);
    gw_lg : Forall (fun kv => ln (FieldPoly.lev (bs lo hi) (fst kv)) = FieldPoly.lev (bs lo hi) (snd kv)) lg;
    gw_lo : forall v, (v <= 10)%positive -> Rabs (lo v) <= B * powerRZ sm (wt v);
    gw_h1 : forall v, (151 <= v)%positive -> Rabs (hi v) <= B * powerRZ sm (wt v) /\ (lbv v = true -> powerRZ sm (wt v) <= B * Rabs (hi v));
    gw_0 : forall v, (102 <= v < 150)%positive -> den_of ds v = None -> wt v = 0%Z }.
  Variables (G1 : positive -> R -> R) (G2 : positive -> R -> R -> R) (G3 : positive -> R -> R -> R -> R).
  Theorem wbound n e : tabsw = true -> bound wt lbv (envw lm ds lg) n e = true -> forall B, 1 <= B -> exists C, 0 <= C /\
    forall sm lo hi, 0 < sm <= 1 -> goodw B sm lo hi -> Rabs (FieldNF.rev (fun v => FieldPoly.lev (bs lo hi) (assoc lm v)) G1 G2 G3 e) <= C * powerRZ sm n.
  Proof.
    unfold tabsw, bound. rewrite !andb_true_iff, !forallb_forall. intros (((T1 & T2) & T3) & T4). apply Nat.leb_le in T2.
    destruct (fnf (envw lm ds lg) e false) as [l|] eqn:E; [|discriminate]. intros Hb B HB. change (f_den (envw lm ds lg)) with ((wD, 101%positive) :: numb 102 ds) in Hb.
    exists (bcof B ((wD, 101%positive) :: numb 102 ds) (fst l)). split; [apply bcof_pos; exact HB|]. intros sm lo hi Hs Gd. set (base := bs lo hi) in *. set (rho := MirrorNF.rho ds base).
    assert (rlo : forall v, (v <= 100)%positive -> rho v = base v) by (intros v L; unfold rho, MirrorNF.rho; rewrite (proj2 (Pos.leb_le v 100) L); reflexivity).
    assert (rhi : forall v, (150 <= v)%positive -> rho v = hi v).
    { intros v L. unfold rho, MirrorNF.rho. rewrite (proj2 (Pos.leb_le 150 v) L), orb_true_r. apply base_hi. exact L. }
    assert (wDe : FieldPoly.pev base wD = 1 + hi 150%positive ^ 2).
    { change (FieldPoly.pev base wD) with (powerRZ (base 150%positive) 2 * 1 + 1). unfold base, bs. rewrite base_hi by lia. change (powerRZ (hi 150%positive) 2) with (hi 150%positive ^ 2). ring. }
    assert (r101 : rho 101%positive = 1 + hi 150%positive ^ 2) by (unfold rho, MirrorNF.rho, den_of; cbn [find snd Pos.eqb option_map fst]; exact wDe).
    assert (dn : forall D v, In (D, v) (numb 102 ds) -> rho v = FieldPoly.pev base D /\ In D ds /\ (102 <= v < 150)%positive).
    { intros D v H. destruct (numb_in _ _ _ _ H) as (A1 & A2). assert (R1 : (102 <= v < 150)%positive) by lia. split; [|split; assumption].
      unfold rho, MirrorNF.rho, den_of. rewrite (proj2 (Pos.leb_gt v 100)) by lia. rewrite (proj2 (Pos.leb_gt 150 v)) by lia. cbn [orb find snd].
      replace (101 =? v)%positive with false by (symmetry; apply Pos.eqb_neq; lia). rewrite (numb_find _ _ _ _ H). reflexivity. }
    assert (mid : forall v, (102 <= v < 150)%positive -> (exists D, In (D, v) (numb 102 ds)) \/ (rho v = 1 /\ wt v = 0%Z)).
    { intros v L. destruct (find (fun Dv => Pos.eqb (snd Dv) v) (numb 102 ds)) as [[D w]|] eqn:F.
      - left. apply find_some in F. destruct F as (F1 & F2). cbn [snd] in F2. apply Pos.eqb_eq in F2. subst w. exists D. exact F1.
      - right. assert (N0 : den_of ds v = None). { unfold den_of. cbn [find snd]. replace (101 =? v)%positive with false by (symmetry; apply Pos.eqb_neq; lia). rewrite F. reflexivity. }
        split; [|exact (gw_0 _ _ _ _ Gd v L N0)]. unfold rho, MirrorNF.rho. rewrite N0. rewrite (proj2 (Pos.leb_gt v 100)) by lia. rewrite (proj2 (Pos.leb_gt 150 v)) by lia. reflexivity. }
    assert (HK : forall v, (100 <= v)%positive -> rho v <> 0).
    { intros v L. destruct (Pos.leb_spec v 100) as [L1|L1]; [assert (v = 100%positive) by lia; subst v; rewrite rlo by lia; change (4 / 5 <> 0); lra|].
      destruct (Pos.leb_spec 150 v) as [L2|L2]; [rewrite rhi by exact L2; apply (gw_hi _ _ _ _ Gd); exact L2|].
      destruct (Pos.eqb_spec v 101) as [-> |N1]; [rewrite r101; pose proof (pow2_ge_0 (hi 150%positive)); lra|].
      destruct (mid v ltac:(lia)) as [(D & HD)|(M1 & _)]; [|rewrite M1; lra]. rewrite (proj1 (dn _ _ HD)).
      exact (proj1 (proj1 (Forall_forall _ _) (gw_den _ _ _ _ Gd) _ HD)). }
    assert (Hden : forall D v, In (D, v) ((wD, 101%positive) :: numb 102 ds) -> rho v = FieldPoly.pev rho D /\ FieldPoly.wf 100 D /\ (100 <= v)%positive).
    { intros D v [H|H].
      - injection H as <- <-. rewrite r101. unfold rho. rewrite nod_ev by reflexivity. split; [symmetry; exact wDe|]. split; [apply wfb_ok; reflexivity|lia].
      - destruct (dn _ _ H) as (A1 & A2 & A3). specialize (T1 _ A2). apply andb_true_iff in T1. destruct T1 as (T1 & T1').
        rewrite A1. unfold rho. rewrite nod_ev by exact T1. split; [reflexivity|]. split; [apply wfb_ok; exact T1'|lia]. }
    assert (F : FieldNF.rev (fun v => FieldPoly.lev base (assoc lm v)) G1 G2 G3 e = FieldPoly.lev rho l /\ FieldPoly.lwf 100 l).
    { refine (fnf_ok (envw lm ds lg) rho (fun v => FieldPoly.lev base (assoc lm v)) G1 G2 G3 _ _ _ _ _ _ _ _ _ _ e false l E);
        cbn [f_K f_w f_var f_const f_log f_den f_li f_lgc f_sqc f_phi envw].
      - exact HK.
      - split; [lia|]. rewrite r101, (rlo 100%positive) by lia. change (base 100%positive) with (4 / 5). rewrite (gw_t _ _ _ _ Gd). lra.
      - intros v. unfold assoc. destruct (find _ lm) as [kv|] eqn:F; [|split; [reflexivity|exact I]].
        apply find_some in F. destruct F as (F & _). unfold rho. destruct (lnod_ev ds base _ (T3 _ F)) as (A1 & A2). rewrite A1. split; [reflexivity|exact A2].
      - intros c. split.
        + unfold FieldPoly.lev, mon. cbn [fst snd FieldPoly.pev]. unfold FieldPoly.xp. rewrite pz1, rlo by (destruct c; cbn; lia).
          assert (K0 : base (cidx c) = Rconst c) by (destruct c; reflexivity). rewrite K0. field.
        + unfold FieldPoly.lwf, mon. cbn [fst FieldPoly.wf]. repeat split; right; lia.
      - intros v k H. discriminate.
      - exact Hden.
      - intros k v [].
      - intros k v H. pose proof (proj1 (Forall_forall _ _) (gw_lg _ _ _ _ Gd) _ H) as X. pose proof (T4 _ H) as Y. apply andb_true_iff in Y. destruct Y as (Y1 & Y2).
        cbn [fst snd] in *. unfold rho. rewrite (proj1 (lnod_ev ds base _ Y1)). destruct (lnod_ev ds base _ Y2) as (A1 & A2). rewrite A1. split; [exact X|exact A2].
      - intros k v [].
      - intros a b c v []. }
    destruct F as (F1 & F2). rewrite F1. unfold FieldPoly.lev, Rdiv. rewrite Rabs_mult.
    assert (HX : Rabs (FieldPoly.pev rho (fst l)) <= bcof B ((wD, 101%positive) :: numb 102 ds) (fst l) * powerRZ sm n).
    { apply (bchk_ok B HB wt lbv sm rho _ Hs HK Hden) with (s := envw lm ds lg); [| |reflexivity|exact F2|exact Hb].
      - intros v Hv. unfold okv in Hv. apply orb_true_iff in Hv. destruct Hv as [Hv|Hv].
        + apply Pos.leb_le in Hv. rewrite rlo by lia. replace (base v) with (lo v); [apply (gw_lo _ _ _ _ Gd); exact Hv|].
          unfold base, bs, mkbase. rewrite (proj2 (Pos.leb_le v 10) Hv). reflexivity.
        + rewrite andb_true_iff, negb_true_iff, Pos.leb_le, Pos.eqb_neq in Hv. destruct (Pos.leb_spec 151 v) as [L|L]; [rewrite rhi by lia; apply (gw_h1 _ _ _ _ Gd v L)|].
          destruct (mid v ltac:(lia)) as [(D & HD)|(M1 & M2)].
          * rewrite (proj1 (dn _ _ HD)). exact (proj1 (proj2 (proj1 (Forall_forall _ _) (gw_den _ _ _ _ Gd) _ HD))).
          * rewrite M1, M2, Rabs_R1. cbn [powerRZ]. lra.
      - intros v Hv Lb L0. unfold okv in Hv. apply orb_true_iff in Hv. destruct Hv as [Hv|Hv]; [apply Pos.leb_le in Hv; lia|].
        rewrite andb_true_iff, negb_true_iff, Pos.leb_le, Pos.eqb_neq in Hv. destruct (Pos.leb_spec 151 v) as [L|L]; [rewrite rhi by lia; apply (gw_h1 _ _ _ _ Gd v L); exact Lb|].
        destruct (mid v ltac:(lia)) as [(D & HD)|(M1 & M2)].
        * rewrite (proj1 (dn _ _ HD)). exact (proj2 (proj2 (proj1 (Forall_forall _ _) (gw_den _ _ _ _ Gd) _ HD))).
        * rewrite M1, M2, Rabs_R1. cbn [powerRZ]. lra. }
    assert (HY : Rabs (/ IZR (Zpos (snd l))) <= 1).
    { rewrite Rabs_inv. rewrite Rabs_pos_eq by (apply IZR_le; lia). assert (1 <= IZR (Zpos (snd l))) by (apply IZR_le; lia).
      rewrite <- Rinv_1. apply Rinv_le_contravar; lra. }
    pose proof (Rabs_pos (FieldPoly.pev rho (fst l))) as P0. pose proof (Rabs_pos (/ IZR (Zpos (snd l)))) as P1. nra.
  Qed.
End Env.
