(** * Environment for the mirror identities
    The checker of FieldNF.v applied to the syntax trees of ThreshDeep.v: positive masses as variables, their logarithms as symbols, sines and
    cosines through t = tan(beta) and c = cos(beta) with c^2 (1 + t^2) = 1.  Proof tool only, nothing here models code. *)
From Coq Require Import Reals ZArith List Bool String Lra Lia.
From Verif Require Import Num NumFacts Except Params HierFormulas Dilog LoopFun LoopSpec LoopProofs4 Thresh ThreshTwo Threshold HierExpr HierPoly FieldPoly FieldNF ThreshTree ThreshDeep.
Import ListNotations.
Open Scope R_scope.

(** ** the statement selected by given values of the conditions *)
Fixpoint pick (l : list bool) (s : rs) : rx :=
  match s with
  | SRet e => e
  | SIf (CB b) x y => if b then pick l x else pick l y
  | SIf _ x y => match l with b :: l => if b then pick l x else pick l y | [] => XZ 0 end
  | SThrow _ => XZ 0
  end.
Fixpoint conds (l : list bool) (s : rs) : option (list (cx * bool)) :=
  match s with
  | SRet e => Some []
  | SIf (CB b) x y => if b then conds l x else conds l y
  | SIf c x y => match l with
                 | b :: l => match (if b then conds l x else conds l y) with Some r => Some ((c, b) :: r) | None => None end
                 | [] => None
                 end
  | SThrow _ => None
  end.
Section Pick.
  Variables (G3 : positive -> R -> R -> R -> R) (u : positive -> R).
  Definition holds (cs : list (cx * bool)) : Prop := Forall (fun cb => cev G3 u (fst cb) = snd cb) cs.
  Lemma pick_ok s : forall l cs, conds l s = Some cs -> holds cs ->
    sevTG G3 u s = rev u fun1 fun2 G3 (pick l s) /\ sevG G3 u s = Ok (rev u fun1 fun2 G3 (pick l s)).
  Proof.
    induction s as [e|c x IHx y IHy|m]; intros l cs H Hh; [split; reflexivity| |discriminate].
    assert (Gen : forall (b : bool) (r : list bool), (if b then conds r x else conds r y) <> None -> forall cs', (if b then conds r x else conds r y) = Some cs' -> holds cs' ->
      cev G3 u c = b -> sevTG G3 u (SIf c x y) = rev u fun1 fun2 G3 (if b then pick r x else pick r y) /\
                        sevG G3 u (SIf c x y) = Ok (rev u fun1 fun2 G3 (if b then pick r x else pick r y))).
    { intros b r _ cs' H' Hh' E. cbn [sevTG sevG]. rewrite E. destruct b; [apply (IHx _ _ H' Hh')|apply (IHy _ _ H' Hh')]. }
    assert (Aux : forall c' (b0 : bool) (r : list bool), c = c' -> (match (if b0 then conds r x else conds r y) with Some z => Some ((c', b0) :: z) | None => None end) = Some cs ->
      sevTG G3 u (SIf c x y) = rev u fun1 fun2 G3 (if b0 then pick r x else pick r y) /\ sevG G3 u (SIf c x y) = Ok (rev u fun1 fun2 G3 (if b0 then pick r x else pick r y))).
    { intros c' b0 r Ec H'. destruct (if b0 then conds r x else conds r y) as [cs'|] eqn:E; [|discriminate]. inversion H'; subst cs.
      inversion Hh as [|? ? H1 H2]; subst. refine (Gen b0 r _ cs' E H2 H1). rewrite E. discriminate. }
    destruct c; cbn [conds] in H; cbn [pick];
      try (destruct l as [|b0 r]; [discriminate|]; exact (Aux _ b0 r eq_refl H)).
    refine (Gen b l _ cs H Hh eq_refl). rewrite H. discriminate.
  Qed.
End Pick.

(** ** loop functions by their formulas *)
Definition xsq (a : rx) := XMul a a.
Definition F1x a b := let x := xsq a in let y := xsq b in XDiv (XMul (XMul a b) (XLog (XDiv x y))) (XSub x y).
Definition F2x a b := let x := xsq a in let y := xsq b in
  XDiv (XMul (XMul (XMul (XZ 6) x) y) (XAdd (XMul (XZ 2) (XSub y x)) (XMul (XAdd x y) (XLog (XDiv x y))))) (XMul (XSub x y) (xsq (XSub x y))).
Definition F5x a b := let x := xsq a in let y := xsq b in
  XDiv (XMul (XMul (XMul (XZ 3) a) b) (XAdd (XSub (xsq y) (xsq x)) (XMul (XMul (XZ 2) (XMul x y)) (XLog (XDiv x y))))) (XMul (XSub y x) (xsq (XSub y x))).
Definition F6x a b := let x := xsq a in let y := xsq b in
  XAdd (XDiv (XSub x (XMul (XZ 3) y)) (XMul (XZ 4) (XSub y x))) (XMul (XDiv (XMul x (XSub x (XMul (XZ 2) y))) (XMul (XZ 2) (xsq (XSub y x)))) (XLog (XDiv x y))).
Definition F9x a b c := let x := xsq a in let y := xsq b in let z := xsq c in
  XMul (XDiv (XMul (XZ 2) z) (XSub x y)) (XSub (XMul (XDiv x (XSub x z)) (XLog (XDiv x z))) (XMul (XDiv y (XSub y z)) (XLog (XDiv y z)))).
Definition is_base (f : positive) : bool := match f with 5 | 6 | 9 | 10 => true | _ => false end%positive.
Definition F1sel (f : positive) a b := match f with 5 => F1x a b | 6 => F2x a b | 9 => F5x a b | _ => F6x a b end%positive.
Fixpoint xg (e : rx) : rx :=
  match e with
  | XAdd a b => XAdd (xg a) (xg b) | XSub a b => XSub (xg a) (xg b) | XMul a b => XMul (xg a) (xg b) | XDiv a b => XDiv (xg a) (xg b)
  | XNeg a => XNeg (xg a) | XSel c a b => XSel c (xg a) (xg b) | XLog a => XLog (xg a) | XSqrt a => XSqrt (xg a) | XAbs a => XAbs (xg a)
  | XF1 f x => if is_base f then match x with XDiv a b => F1sel f a b | _ => XF1 f x end else XF1 f (xg x)
  | XF2 f x y => match f, x, y with
                 | 1%positive, XDiv a c, XDiv b _ => F9x a b c
                 | _, _, _ => XF2 f x y
                 end
  | XF3 f a b c => XF3 f (xg a) (xg b) (xg c)
  | _ => e
  end.
(** the arguments for which the formulas are needed *)
Fixpoint fargs (e : rx) : list (positive * rx * rx * rx) :=
  match e with
  | XAdd a b | XSub a b | XMul a b | XDiv a b | XSel _ a b => fargs a ++ fargs b
  | XNeg a | XLog a | XSqrt a | XAbs a => fargs a
  | XF1 f x => if is_base f then match x with XDiv a b => [(f, a, b, b)] | _ => [] end else fargs x
  | XF2 f x y => match f, x, y with
                 | 1%positive, XDiv a c, XDiv b c' => [(1%positive, a, b, c); (2%positive, c, c', c)]
                 | _, _, _ => []
                 end
  | XF3 f a b c => fargs a ++ fargs b ++ fargs c
  | _ => []
  end%list.
Section Xg.
  Variables (G3 : positive -> R -> R -> R -> R) (u : positive -> R).
  Notation ev := (rev u fun1 fun2 G3).
  Definition fgood (q : positive * rx * rx * rx) : Prop :=
    let '(f, a, b, c) := q in
    match f with
    | 1%positive => 0 < ev a /\ 0 < ev b /\ 0 < ev c /\ F9 (ev a / ev c) (ev b / ev c) = F9c (ev a / ev c) (ev b / ev c) /\
                    ev a ^ 2 <> ev b ^ 2 /\ ev a ^ 2 <> ev c ^ 2 /\ ev b ^ 2 <> ev c ^ 2
    | 2%positive => ev a = ev b
    | _ => 0 < ev a /\ 0 < ev b /\ ev a ^ 2 <> ev b ^ 2 /\
      match f with
      | 5%positive => F1 (ev a / ev b) = F1c (ev a / ev b)
      | 6%positive => F2 (ev a / ev b) = F2c (ev a / ev b)
      | 9%positive => F5 (ev a / ev b) = F5c (ev a / ev b)
      | _ => F6 (ev a / ev b) = F6c (ev a / ev b)
      end
    end.
  Lemma sq_div x y : 0 < y -> (x / y) ^ 2 = x * x / (y * y). Proof. intros; field; lra. Qed.
  Lemma xg_ok e : Forall fgood (fargs e) -> ev e = ev (xg e).
  Proof.
    induction e as [z|m k|c|v|a IHa b IHb|a IHa b IHb|a IHa b IHb|a IHa b IHb|a IHa|c a IHa b IHb|a IHa|a IHa|a IHa|f a IHa|f a IHa b IHb|f a IHa b IHb c IHc];
      cbn [fargs]; intros H; try reflexivity;
      try (apply Forall_app in H; destruct H as (H1 & H2); cbn [xg rev]; rewrite IHa, IHb by assumption; reflexivity);
      try (cbn [xg rev]; rewrite IHa by assumption; reflexivity).
    - cbn [xg]. destruct (is_base f) eqn:B; [|cbn [rev]; rewrite IHa by exact H; reflexivity].
      destruct a as [| | | | | | |x y| | | | | | | |]; try reflexivity. inversion H as [|? ? G _]; subst. clear IHa H.
      assert (D : forall X Y : R, 0 < Y -> X ^ 2 <> Y ^ 2 -> X * X - Y * Y <> 0 /\ Y * Y - X * X <> 0) by (intros X Y ? N0; split; intros E; apply N0; lra).
      assert (B' : (f = 5 \/ f = 6 \/ f = 9 \/ f = 10)%positive) by (clear - B; do 4 (destruct f as [f|f|]; try discriminate B; try tauto)). clear B.
      destruct B' as [-> |[-> |[-> | ->]]]; destruct G as (P1 & P2 & P3 & P4); destruct (D _ _ P2 P3) as (D1 & D2);
        cbn [rev F1sel F1x F2x F5x F6x xsq]; cbv zeta;
        [change (fun1 5) with (@F1 R NumR)|change (fun1 6) with (@F2 R NumR)|change (fun1 9) with (@F5 R NumR)|change (fun1 10) with (@F6 R NumR)];
        rewrite P4; [unfold F1c|unfold F2c|unfold F5c|unfold F6c];
        rewrite ?(sq_div _ _ P2); set (l := ln (ev x * ev x / (ev y * ev y))); clearbody l; cbn [rev xsq];
        field; repeat split; try lra; try assumption.
      all: intros E; try (apply D1; lra).
    - cbn [xg]. destruct f; try reflexivity. destruct a as [| | | | | | |x c| | | | | | | |]; try reflexivity. destruct b as [| | | | | | |y c'| | | | | | | |]; try reflexivity.
      inversion H as [|? ? G H']; subst. inversion H' as [|? ? E' _]; subst. clear IHa IHb H H'. cbn [fgood] in G, E'.
      destruct G as (P1 & P2 & P3 & P4 & N1 & N2 & N3). cbn [rev F9x xsq]; cbv zeta; cbn [rev xsq]. rewrite <- E'. change (fun2 1) with (@F9 R NumR). rewrite P4.
      unfold F9c. rewrite !(sq_div _ _ P3). set (l := ln (ev x * ev x / (ev c * ev c))). set (m := ln (ev y * ev y / (ev c * ev c))). clearbody l m.
      field. repeat split; first [lra|intros E; first [apply N3; lra|apply N2; lra|apply N1; lra]].
    - apply Forall_app in H. destruct H as (H1 & H2). apply Forall_app in H2. destruct H2 as (H2 & H3). cbn [xg rev]. rewrite IHa, IHb, IHc by assumption. reflexivity.
  Qed.
End Xg.

(** ** variables *)
Definition mon (v : positive) (e : Z) : lp := (PX v e (PC 1) (PC 0), 1%positive).
Definition cst (z : Z) : lp := (PC z, 1%positive).
Definition vt := 150%positive. Definition vq := 151%positive. Definition vdd := 152%positive. Definition vuu := 153%positive. Definition vg := 154%positive.
Definition vr := 155%positive. Definition vst := 156%positive. Definition vm := 157%positive. Definition vA := 158%positive. Definition vL := 159%positive. Definition vE := 160%positive.
Definition dsub (a b : positive) : pol := fst (ladd (mon a 2) (lneg (mon b 2))).
(** Delta(a^2, b^2, c^2) *)
Definition ddel (a b c : positive) : pol :=
  let x := mon a 2 in let y := mon b 2 in let z := mon c 2 in
  fst (ladd (ladd (ladd (lmul x x) (lmul y y)) (lmul z z)) (lmul (cst (-2)) (ladd (lmul x y) (ladd (lmul x z) (lmul y z))))).
Definition one_sub (a b : positive) : lp := ladd (cst 1) (lneg (lmul (mon a 2) (mon b (-2)))).
Definition landen (l a b : positive) : lp :=
  let y := ladd (mon (a - 140) 1) (lneg (mon (b - 140) 1)) in ladd (lneg (mon l 1)) (lmul (cst (-2)) (lmul y y)).
Definition L3 (n a b : positive) := [(one_sub a b, mon n 1); (one_sub b a, landen n b a)].
Definition wD : pol := fst (ladd (cst 1) (mon vt 2)).
Definition assoc (l : list (positive * lp)) (v : positive) : lp := match find (fun kv => Pos.eqb (fst kv) v) l with Some kv => snd kv | None => cst 0 end.
Fixpoint numb (n : positive) (l : list pol) : list (pol * positive) := match l with [] => [] | D :: l => (D, n) :: numb (n + 1) l end.
Definition cidx (c : mathconst) : positive :=
  match c with CPi => 60 | Cz2 => 61 | Cz3 => 62 | Cz4 => 63 | Csqrt2 => 64 | Csqrt3 => 65 | Csqrt15 => 66 | Csqrt35 => 67 | Cinv_sqrt2 => 68 | Clog2 => 69 | ConeLoop => 70 | CtwoLoop => 71 | CthreeLoop => 72 | CB4 => 73 | CD3 => 74 | CDN => 75 | COepS2 => 76 | CS2 => 77 | CT1ep => 78 end%positive.
Definition envm (lm : list (positive * lp)) (ds : list pol) (li : list (lp * lp)) (ph : list (lp * lp * lp * lp)) : fenv := {|
  f_K := 100; f_w := 101; f_var := assoc lm; f_const := fun c => mon (cidx c) 1;
  f_log := fun v => if Pos.leb 151 v && Pos.leb v 160 then Some (mon (v - 140) 1) else None;
  f_den := (wD, 101%positive) :: numb 102 ds; f_li := li; f_lgc := []; f_sqc := []; f_phi := ph |}.

(** values of the symbols: [lo] for 1-10, [at_] for 21-59, [hi] for the masses, c for cos(beta) *)
Definition mkbase (lo at_ hi : positive -> R) (c : R) (v : positive) : R :=
  if Pos.leb v 10 then lo v else if Pos.leb v 20 then ln (hi (v + 140)%positive) else if Pos.leb v 59 then at_ v else
  if Pos.eqb v 100 then c else if Pos.leb 150 v then hi v else
  match v with
  | 60 => Rconst CPi
  | 61 => Rconst Cz2
  | 62 => Rconst Cz3
  | 63 => Rconst Cz4
  | 64 => Rconst Csqrt2
  | 65 => Rconst Csqrt3
  | 66 => Rconst Csqrt15
  | 67 => Rconst Csqrt35
  | 68 => Rconst Cinv_sqrt2
  | 69 => Rconst Clog2
  | 70 => Rconst ConeLoop
  | 71 => Rconst CtwoLoop
  | 72 => Rconst CthreeLoop
  | 73 => Rconst CB4
  | 74 => Rconst CD3
  | 75 => Rconst CDN
  | 76 => Rconst COepS2
  | 77 => Rconst CS2
  | 78 => Rconst CT1ep
  | _ => 0%R
  end%positive.

(** ** soundness *)
Lemma pz1 x : powerRZ x 1 = x. Proof. apply powerRZ_1. Qed.
Fixpoint wfb (p : pol) : bool := match p with PC _ => true | PX v e h t => (Pos.leb 100 v || Z.leb 0 e) && wfb h && wfb t end.
Lemma wfb_ok p : wfb p = true -> wf 100 p.
Proof.
  induction p as [z|v e h IHh t IHt]; cbn [wfb wf]; [trivial|]. rewrite !andb_true_iff, orb_true_iff, Pos.leb_le, Z.leb_le.
  intros ((A & B) & C). repeat split; auto.
Qed.
(** no symbol of a divisor *)
Fixpoint nod (p : pol) : bool := match p with PC _ => true | PX v e h t => (Pos.leb v 100 || Pos.leb 150 v) && nod h && nod t end.
Section Sound.
  Variable ds : list pol.
  Variable base : positive -> R.
  Definition den_of (v : positive) : option pol := option_map fst (find (fun Dv => Pos.eqb (snd Dv) v) ((wD, 101%positive) :: numb 102 ds)).
  Definition rho (v : positive) : R :=
    if Pos.leb v 100 || Pos.leb 150 v then base v else match den_of v with Some D => FieldPoly.pev base D | None => 1 end.
  Lemma nod_ev p : nod p = true -> FieldPoly.pev rho p = FieldPoly.pev base p.
  Proof.
    induction p as [z|v e h IHh t IHt]; cbn [nod FieldPoly.pev]; [reflexivity|]. rewrite !andb_true_iff. intros ((A & B) & C).
    rewrite IHh, IHt by assumption. unfold FieldPoly.xp, rho. rewrite A. reflexivity.
  Qed.
  Definition lnod (a : lp) : bool := nod (fst a) && wfb (fst a).
  Lemma lnod_ev a : lnod a = true -> FieldPoly.lev rho a = FieldPoly.lev base a /\ FieldPoly.lwf 100 a.
  Proof.
    unfold lnod. rewrite andb_true_iff. intros (A & B). split; [unfold FieldPoly.lev; rewrite nod_ev by exact A; reflexivity|].
    apply wfb_ok. exact B.
  Qed.
  Variables (lm : list (positive * lp)) (li : list (lp * lp)) (ph : list (lp * lp * lp * lp)) (G3 : positive -> R -> R -> R -> R).
  Definition tabs_ok : bool :=
    forallb (fun D => nod D && wfb D) ds && Nat.leb (List.length ds) 40 && forallb (fun kv => lnod (snd kv)) lm &&
    forallb (fun kv => lnod (fst kv) && lnod (snd kv)) li &&
    forallb (fun q => let '(a, b, c, v) := q in lnod a && lnod b && lnod c && lnod v) ph.
  Record good_base : Prop := {
    gb_c : base 100%positive <> 0; gb_w : base 100%positive ^ 2 * (1 + base vt ^ 2) = 1; gb_t : forall v, (150 <= v)%positive -> 0 < base v;
    gb_ln : forall v, (151 <= v <= 160)%positive -> base (v - 140)%positive = ln (base v);
    gb_cst : forall c, base (cidx c) = Rconst c;
    gb_den : Forall (fun D => FieldPoly.pev base D <> 0) ds;
    gb_li : Forall (fun kv => dilog (FieldPoly.lev base (fst kv)) = FieldPoly.lev base (snd kv)) li;
    gb_ph : Forall (fun q => let '(a, b, c, v) := q in G3 1%positive (FieldPoly.lev base a) (FieldPoly.lev base b) (FieldPoly.lev base c) = FieldPoly.lev base v) ph }.

  Lemma numb_in l : forall n D v, In (D, v) (numb n l) -> In D l /\ (n <= v < n + Pos.of_succ_nat (List.length l))%positive.
  Proof.
    induction l as [|E l IH]; cbn [numb]; intros n D v H; [destruct H|]. destruct H as [H|H].
    - injection H as <- <-. split; [left; reflexivity|]. cbn [List.length]. lia.
    - apply IH in H. destruct H as (A & B). split; [right; exact A|]. cbn [List.length]. lia.
  Qed.
  Lemma numb_find l : forall n D v, In (D, v) (numb n l) -> find (fun Dv => Pos.eqb (snd Dv) v) (numb n l) = Some (D, v).
  Proof.
    induction l as [|E l IH]; cbn [numb]; intros n D v H; [destruct H|]. destruct H as [H|H].
    - injection H as <- <-. cbn [find snd]. rewrite Pos.eqb_refl. reflexivity.
    - cbn [find snd]. destruct (Pos.eqb_spec n v) as [-> |N]; [apply numb_in in H; lia|]. apply IH. exact H.
  Qed.
  Lemma envm_sound e : tabs_ok = true -> good_base -> fcheck (envm lm ds li ph) e = true ->
    FieldNF.rev (fun v => FieldPoly.lev base (assoc lm v)) fun1 fun2 G3 e = 0.
  Proof.
    unfold tabs_ok. rewrite !andb_true_iff, !forallb_forall. intros ((((T1 & T2) & T3) & T4) & T5) B. apply Nat.leb_le in T2.
    assert (lo : forall v, (v <= 100)%positive -> rho v = base v) by (intros v L; unfold rho; rewrite (proj2 (Pos.leb_le v 100) L); reflexivity).
    assert (hi : forall v, (150 <= v)%positive -> rho v = base v) by (intros v L; unfold rho; rewrite (proj2 (Pos.leb_le 150 v) L), orb_true_r; reflexivity).
    assert (wDe : FieldPoly.pev base wD = 1 + base vt ^ 2).
    { change (FieldPoly.pev base wD) with (powerRZ (base vt) 2 * 1 + 1). change (powerRZ (base vt) 2) with (base vt ^ 2). ring. }
    assert (r101 : rho 101 = 1 + base vt ^ 2) by (unfold rho, den_of; cbn [find snd Pos.eqb option_map fst]; exact wDe).
    assert (dn : forall D v, In (D, v) (numb 102 ds) -> rho v = FieldPoly.pev base D /\ In D ds /\ (102 <= v < 150)%positive).
    { intros D v H. destruct (numb_in _ _ _ _ H) as (A1 & A2). assert (R1 : (102 <= v < 150)%positive) by lia. split; [|split; assumption].
      unfold rho, den_of. rewrite (proj2 (Pos.leb_gt v 100)) by lia. rewrite (proj2 (Pos.leb_gt 150 v)) by lia. cbn [orb find snd].
      replace (101 =? v)%positive with false by (symmetry; apply Pos.eqb_neq; lia). rewrite (numb_find _ _ _ _ H). reflexivity. }
    apply (fcheck_sound (envm lm ds li ph) rho (fun v => FieldPoly.lev base (assoc lm v)) fun1 fun2 G3); cbn [f_K f_w f_var f_const f_log f_den f_li f_lgc f_sqc f_phi envm].
    - intros v L. destruct (Pos.leb_spec v 100) as [L1|L1].
      { rewrite lo by exact L1. assert (v = 100%positive) by lia. subst v. apply gb_c. exact B. }
      destruct (Pos.leb_spec 150 v) as [L2|L2]; [rewrite hi by exact L2; apply Rgt_not_eq, (gb_t B); exact L2|].
      unfold rho. rewrite (proj2 (Pos.leb_gt v 100)) by lia. rewrite (proj2 (Pos.leb_gt 150 v)) by lia. cbn [orb].
      unfold den_of. cbn [find snd]. destruct (Pos.eqb_spec 101 v) as [<- |N].
      + cbn [option_map fst]. rewrite wDe. pose proof (pow2_ge_0 (base vt)). lra.
      + destruct (find _ (numb 102 ds)) as [[D w]|] eqn:E; cbn [option_map fst]; [|lra].
        apply find_some in E. destruct E as (E & _). destruct (dn _ _ E) as (_ & E1 & _).
        exact (proj1 (Forall_forall _ _) (gb_den B) D E1).
    - split; [lia|]. rewrite r101, (lo 100%positive) by lia. transitivity (base 100%positive ^ 2 * (1 + base vt ^ 2)); [ring|exact (gb_w B)].
    - intros v. unfold assoc. destruct (find _ lm) as [kv|] eqn:E.
      + apply find_some in E. destruct E as (E & _). destruct (lnod_ev _ (T3 _ E)) as (A1 & A2). rewrite A1. split; [reflexivity|exact A2].
      + split; [reflexivity|exact I].
    - intros c. split.
      + unfold FieldPoly.lev, mon. cbn [fst snd FieldPoly.pev]. unfold FieldPoly.xp. rewrite pz1, lo by (destruct c; cbn; lia). rewrite (gb_cst B). field.
      + unfold FieldPoly.lwf, mon. cbn [fst FieldPoly.wf]. repeat split; right; lia.
    - intros v l H. destruct (Pos.leb 151 v && Pos.leb v 160) eqn:E; [|discriminate]. injection H as <-. apply andb_true_iff in E. rewrite !Pos.leb_le in E.
      rewrite hi by lia. split; [apply (gb_t B); lia|]. split.
      + unfold FieldPoly.lev, mon. cbn [fst snd FieldPoly.pev]. unfold FieldPoly.xp. rewrite pz1, lo by lia. rewrite (gb_ln B) by lia. field.
      + unfold FieldPoly.lwf, mon. cbn [fst FieldPoly.wf]. repeat split; right; lia.
    - intros D v [H|H].
      + injection H as <- <-. rewrite r101, nod_ev by reflexivity. split; [symmetry; exact wDe|]. split; [apply wfb_ok; reflexivity|lia].
      + destruct (dn _ _ H) as (A1 & A2 & A3). specialize (T1 _ A2). apply andb_true_iff in T1. destruct T1 as (T1 & T1').
        rewrite A1, nod_ev by exact T1. split; [reflexivity|]. split; [apply wfb_ok; exact T1'|lia].
    - intros k v H. pose proof (proj1 (Forall_forall _ _) (gb_li B) _ H) as E. pose proof (T4 _ H) as F. apply andb_true_iff in F. destruct F as (F1' & F2').
      cbn [fst snd] in *. rewrite (proj1 (lnod_ev _ F1')). destruct (lnod_ev _ F2') as (A1 & A2). rewrite A1. split; [exact E|exact A2].
    - intros k v [].
    - intros k v [].
    - intros a b c v H. pose proof (proj1 (Forall_forall _ _) (gb_ph B) _ H) as E. pose proof (T5 _ H) as F. cbn beta iota in E, F. rewrite !andb_true_iff in F.
      destruct F as (((Fa & Fb) & Fc) & Fv). rewrite (proj1 (lnod_ev _ Fa)), (proj1 (lnod_ev _ Fb)), (proj1 (lnod_ev _ Fc)).
      destruct (lnod_ev _ Fv) as (A1 & A2). rewrite A1. split; [exact E|exact A2].
  Qed.
End Sound.

Section Base.
  Variables (lo at_ hi : positive -> R) (c : R).
  Notation base := (mkbase lo at_ hi c).
  Lemma base_hi v : (150 <= v)%positive -> base v = hi v.
  Proof.
    intros L. unfold mkbase. rewrite !(proj2 (Pos.leb_gt _ _)) by lia. replace (v =? 100)%positive with false by (symmetry; apply Pos.eqb_neq; lia).
    rewrite (proj2 (Pos.leb_le 150 v) L). reflexivity.
  Qed.
  Lemma base_ln v : (151 <= v <= 160)%positive -> base (v - 140)%positive = ln (hi v).
  Proof.
    intros L. unfold mkbase. rewrite (proj2 (Pos.leb_gt _ 10)) by lia. rewrite (proj2 (Pos.leb_le _ 20)) by lia. f_equal. f_equal. lia.
  Qed.
  Lemma good_mk ds li ph G3 : c <> 0 -> c ^ 2 * (1 + hi vt ^ 2) = 1 -> (forall v, (150 <= v)%positive -> 0 < hi v) ->
    Forall (fun D => FieldPoly.pev base D <> 0) ds ->
    Forall (fun kv => dilog (FieldPoly.lev base (fst kv)) = FieldPoly.lev base (snd kv)) li ->
    Forall (fun q => let '(a, b, c, v) := q in G3 1%positive (FieldPoly.lev base a) (FieldPoly.lev base b) (FieldPoly.lev base c) = FieldPoly.lev base v) ph ->
    good_base ds base li ph G3.
  Proof.
    intros H1 H2 H3 H4 H5 H6. constructor; try assumption.
    - intros v L. rewrite base_hi by exact L. apply H3. exact L.
    - intros v L. rewrite base_ln by exact L. rewrite base_hi by lia. reflexivity.
    - intros k. destruct k; reflexivity.
  Qed.
  Hypothesis Hc : c <> 0.
  Hypothesis Hhi : forall v, (150 <= v)%positive -> 0 < hi v.
  Lemma mon_ev v e : FieldPoly.lev base (mon v e) = powerRZ (base v) e.
  Proof. unfold FieldPoly.lev, mon. cbn [fst snd FieldPoly.pev]. unfold FieldPoly.xp. field. Qed.
  Lemma base_nz v : (150 <= v)%positive -> base v <> 0.
  Proof. intros L. rewrite base_hi by exact L. apply Rgt_not_eq, Hhi. exact L. Qed.
  Lemma dsub_ev a b : (150 <= a)%positive -> (150 <= b)%positive -> FieldPoly.pev base (dsub a b) = hi a ^ 2 - hi b ^ 2.
  Proof.
    intros La Lb. assert (Wa : forall v e, (150 <= v)%positive -> FieldPoly.lwf 150 (mon v e)) by (intros v e L; cbn; tauto).
    destruct (lneg_ok base 150 (mon b 2) (Wa b 2%Z Lb)) as (E1 & W1).
    destruct (ladd_ok base 150 (mon a 2) (lneg (mon b 2)) (Wa a 2%Z La) W1) as (E2 & W2).
    rewrite E1, !mon_ev, !base_hi in E2 by assumption. unfold dsub. unfold FieldPoly.lev in E2.
    assert (S1 : snd (ladd (mon a 2) (lneg (mon b 2))) = 1%positive) by (unfold ladd, lneg, mon; cbn [fst snd Pos.eqb]; reflexivity).
    rewrite S1 in E2. change (powerRZ (hi a) 2) with (hi a ^ 2) in E2. change (powerRZ (hi b) 2) with (hi b ^ 2) in E2. lra.
  Qed.
  Lemma one_sub_ev a b : (150 <= a)%positive -> (150 <= b)%positive -> FieldPoly.lev base (one_sub a b) = 1 - hi a ^ 2 / hi b ^ 2.
  Proof.
    intros La Lb. assert (Wa : forall v e, (150 <= v)%positive -> FieldPoly.lwf 150 (mon v e)) by (intros v e L; cbn; tauto).
    unfold one_sub. destruct (lmul_ok base 150 base_nz (mon a 2) (mon b (-2)) (Wa a 2%Z La) (Wa b (-2)%Z Lb)) as (E1 & W1).
    destruct (lneg_ok base 150 _ W1) as (E2 & W2). destruct (ladd_ok base 150 (cst 1) _ I W2) as (E3 & _).
    rewrite E3, E2, E1, !mon_ev, !base_hi by assumption. change (powerRZ (hi a) 2) with (hi a ^ 2). change (powerRZ (hi b) (-2)) with (/ hi b ^ 2).
    unfold FieldPoly.lev, cst. cbn [fst snd FieldPoly.pev]. field. apply Rgt_not_eq, Hhi. exact Lb.
  Qed.
  Lemma ddel_ev a b d : (150 <= a)%positive -> (150 <= b)%positive -> (150 <= d)%positive ->
    FieldPoly.pev base (ddel a b d) = (hi a ^ 2) ^ 2 + (hi b ^ 2) ^ 2 + (hi d ^ 2) ^ 2 - 2 * (hi a ^ 2 * hi b ^ 2 + hi a ^ 2 * hi d ^ 2 + hi b ^ 2 * hi d ^ 2).
  Proof.
    intros La Lb Ld. assert (Wm : forall v e, (150 <= v)%positive -> FieldPoly.lwf 150 (mon v e)) by (intros v e L; cbn; tauto).
    pose proof (Wm a 2%Z La) as Wa. pose proof (Wm b 2%Z Lb) as Wb. pose proof (Wm d 2%Z Ld) as Wd.
    assert (Em : forall v, (150 <= v)%positive -> FieldPoly.lev base (mon v 2) = hi v ^ 2) by (intros v L; rewrite mon_ev, base_hi by exact L; reflexivity).
    pose proof (Em a La) as Ea. pose proof (Em b Lb) as Eb. pose proof (Em d Ld) as Ed.
    unfold ddel. cbv zeta.
    assert (S1 : forall x y : lp, snd x = 1%positive -> snd y = 1%positive -> snd (ladd x y) = 1%positive).
    { intros [x dx] [y dy]. cbn [snd]. intros -> ->. reflexivity. }
    assert (S2 : forall x y : lp, snd x = 1%positive -> snd y = 1%positive -> snd (lmul x y) = 1%positive).
    { intros [x dx] [y dy]. cbn [snd]. intros -> ->. reflexivity. }
    set (x := mon a 2) in *. set (y := mon b 2) in *. set (z := mon d 2) in *.
    assert (Sx : snd x = 1%positive) by reflexivity. assert (Sy : snd y = 1%positive) by reflexivity. assert (Sz : snd z = 1%positive) by reflexivity.
    clearbody x y z.
    destruct (lmul_ok base 150 base_nz _ _ Wa Wa) as (M1' & W1). destruct (lmul_ok base 150 base_nz _ _ Wb Wb) as (M2' & W2). destruct (lmul_ok base 150 base_nz _ _ Wd Wd) as (M3' & W3).
    destruct (lmul_ok base 150 base_nz _ _ Wa Wb) as (M4' & W4). destruct (lmul_ok base 150 base_nz _ _ Wa Wd) as (M5' & W5). destruct (lmul_ok base 150 base_nz _ _ Wb Wd) as (M6' & W6).
    destruct (ladd_ok base 150 _ _ W1 W2) as (A1 & V1). destruct (ladd_ok base 150 _ _ V1 W3) as (A2 & V2).
    destruct (ladd_ok base 150 _ _ W5 W6) as (A3 & V3). destruct (ladd_ok base 150 _ _ W4 V3) as (A4 & V4).
    destruct (lmul_ok base 150 base_nz (cst (-2)) _ I V4) as (A5 & V5). destruct (ladd_ok base 150 _ _ V2 V5) as (A6 & V6).
    set (r := ladd (ladd (ladd (lmul x x) (lmul y y)) (lmul z z)) (lmul (cst (-2)) (ladd (lmul x y) (ladd (lmul x z) (lmul y z))))) in *.
    assert (Sr : snd r = 1%positive) by (subst r; repeat first [apply S1|apply S2]; assumption || reflexivity).
    replace (FieldPoly.pev base (fst r)) with (FieldPoly.lev base r) by (unfold FieldPoly.lev; rewrite Sr; field).
    rewrite A6, A2, A1, A5, A4, A3, M1', M2', M3', M4', M5', M6', Ea, Eb, Ed.
    unfold FieldPoly.lev at 1, cst. cbn [fst snd FieldPoly.pev]. field.
  Qed.
  Lemma landen_ev n a b : (151 <= a <= 160)%positive -> (151 <= b <= 160)%positive ->
    FieldPoly.lev base (landen n a b) = - base n - 2 * (ln (hi a) - ln (hi b)) ^ 2.
  Proof.
    intros La Lb. assert (Wm : forall v, FieldPoly.lwf 150 (mon v 1)) by (intros v; cbn; split; [right; lia|tauto]).
    assert (Em : forall v, FieldPoly.lev base (mon v 1) = base v) by (intros v; rewrite mon_ev; apply powerRZ_1).
    unfold landen. cbv zeta. destruct (lneg_ok base 150 _ (Wm (b - 140)%positive)) as (E1 & W1). destruct (ladd_ok base 150 _ _ (Wm (a - 140)%positive) W1) as (E2 & W2).
    destruct (lmul_ok base 150 base_nz _ _ W2 W2) as (E3 & W3). destruct (lmul_ok base 150 base_nz (cst (-2)) _ I W3) as (E4 & W4).
    destruct (lneg_ok base 150 _ (Wm n)) as (E5 & W5). destruct (ladd_ok base 150 _ _ W5 W4) as (E6 & W6).
    rewrite E6, E5, E4, E3, E2, E1, !Em, !base_ln by assumption. unfold FieldPoly.lev at 1, cst. cbn [fst snd FieldPoly.pev]. field.
  Qed.
End Base.
