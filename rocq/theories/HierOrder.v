(** * Orders of the expansions (proofs)
    Bounds for normal forms all of whose monomials contain a given power of small quantities; the
    sibling expansions of one family agree up to the order to which they are expanded, and a
    truncation flag only switches terms of high order. *)
From Coq Require Import ZArith List Reals Lra Lia Bool.
From Verif Require Import Num NumFacts HierCalc HierExpr HierPoly HierLib HierInp HierNF HierRead HierLit.
Import ListNotations.

(** every monomial contains at least n factors x_v with dv v *)
Fixpoint degok (dv : positive -> bool) (n : nat) (p : pol) : bool :=
  match p with
  | PC z => (z =? 0)%Z || (n =? 0)%nat
  | PX v e h t => (if dv v then (0 <=? e)%Z && degok dv (n - Z.to_nat e) h else degok dv n h) && degok dv n t
  end.

Section Bound.
  Local Open Scope R_scope.
  Variable dv : positive -> bool.
  Variable M : R.
  Hypothesis HM : 1 <= M.
  Definition bounded (delta : R) (rho : positive -> R) : Prop :=
    0 <= delta <= M /\ (forall v, Rabs (rho v) <= M) /\ (forall v, (v <= ninv)%positive -> rho v <> 0 /\ Rabs (/ rho v) <= M) /\
    (forall v, dv v = true -> Rabs (rho v) <= delta).

  Lemma pow_le1 n x : 0 <= x <= M -> 0 <= x ^ n <= M ^ n.
  Proof. intros H. split; [apply pow_le; lra|apply pow_incr; exact H]. Qed.

  Lemma xp_bound delta rho v e : bounded delta rho -> ((v <= ninv)%positive \/ (0 <= e)%Z) -> Rabs (xp rho v e) <= M ^ Z.to_nat (Z.abs e).
  Proof.
    intros (_ & B1 & B2 & _) H. unfold xp. destruct e as [|e|e].
    - cbn. rewrite Rabs_R1. lra.
    - change (powerRZ (rho v) (Zpos e)) with (rho v ^ Pos.to_nat e). change (Z.to_nat (Z.abs (Zpos e))) with (Pos.to_nat e).
      rewrite <- RPow_abs. apply pow_incr. split; [apply Rabs_pos|apply B1].
    - destruct H as [H|H]; [|lia]. destruct (B2 v H) as (N & B).
      change (powerRZ (rho v) (Zneg e)) with (/ rho v ^ Pos.to_nat e). change (Z.to_nat (Z.abs (Zneg e))) with (Pos.to_nat e).
      rewrite <- pow_inv. rewrite <- RPow_abs. apply pow_incr. split; [apply Rabs_pos|exact B].
  Qed.

  Lemma deg_bound p : forall n, degok dv n p = true -> wf ninv p ->
    exists C, 0 <= C /\ forall delta rho, bounded delta rho -> Rabs (pev rho p) <= C * delta ^ n.
  Proof.
    induction p as [z|v e h IHh t IHt]; intros n H W.
    - exists (Rabs (IZR z)). split; [apply Rabs_pos|]. intros delta rho (D & _). cbn [degok] in H. cbn [pev].
      apply orb_true_iff in H. destruct H as [H|H].
      + apply Z.eqb_eq in H. subst z. rewrite Rabs_R0. rewrite Rmult_0_l. lra.
      + apply Nat.eqb_eq in H. subst n. cbn. lra.
    - cbn [degok] in H. apply andb_true_iff in H. destruct H as (Hh & Ht). destruct W as (We & Wh & Wt).
      destruct (IHt n Ht Wt) as (Ct & PCt & Bt).
      destruct (dv v) eqn:Dv.
      + apply andb_true_iff in Hh. destruct Hh as (He & Hh). apply Z.leb_le in He.
        destruct (IHh _ Hh Wh) as (Ch & PCh & Bh).
        set (m := Z.to_nat e) in *.
        exists (M ^ m * Ch + Ct). split.
        { apply Rplus_le_le_0_compat; [apply Rmult_le_pos; [apply pow_le; lra|assumption]|assumption]. }
        intros delta rho HB. specialize (Bt delta rho HB). specialize (Bh delta rho HB).
        destruct HB as (D & B1 & _ & B3). specialize (B3 v Dv).
        cbn [pev]. eapply Rle_trans; [apply Rabs_triang|]. rewrite Rmult_plus_distr_r. apply Rplus_le_compat; [|exact Bt].
        rewrite Rabs_mult.
        assert (X : Rabs (xp rho v e) = Rabs (rho v) ^ m).
        { unfold xp. rewrite <- (Z2Nat.id e) by exact He. fold m. rewrite <- pow_powerRZ. symmetry. apply RPow_abs. }
        rewrite X.
        assert (E : Rabs (rho v) ^ m <= delta ^ m) by (apply pow_incr; split; [apply Rabs_pos|exact B3]).
        assert (E2 : delta ^ m * delta ^ (n - m) <= M ^ m * delta ^ n).
        { destruct (Nat.le_gt_cases m n) as [L|L].
          - rewrite <- pow_add. replace (m + (n - m))%nat with n by lia.
            assert (1 <= M ^ m) by (apply pow_R1_Rle; exact HM).
            assert (0 <= delta ^ n) by (apply pow_le; lra).
            rewrite <- (Rmult_1_l (delta ^ n)) at 1. apply Rmult_le_compat_r; assumption.
          - replace (n - m)%nat with 0%nat by lia. rewrite Rmult_1_r.
            replace m with ((m - n) + n)%nat at 1 by lia. rewrite pow_add.
            apply Rmult_le_compat_r; [apply pow_le; lra|].
            apply Rle_trans with (M ^ (m - n)); [apply pow_incr; lra|apply Rle_pow; [exact HM|lia]]. }
        apply Rle_trans with (delta ^ m * (Ch * delta ^ (n - m))).
        { apply Rmult_le_compat; [apply pow_le; apply Rabs_pos|apply Rabs_pos|exact E|exact Bh]. }
        replace (delta ^ m * (Ch * delta ^ (n - m))) with (Ch * (delta ^ m * delta ^ (n - m))) by ring.
        replace (M ^ m * Ch * delta ^ n) with (Ch * (M ^ m * delta ^ n)) by ring.
        apply Rmult_le_compat_l; assumption.
      + destruct (IHh n Hh Wh) as (Ch & PCh & Bh).
        exists (M ^ Z.to_nat (Z.abs e) * Ch + Ct). split.
        { apply Rplus_le_le_0_compat; [apply Rmult_le_pos; [apply pow_le; lra|assumption]|assumption]. }
        intros delta rho HB. specialize (Bt delta rho HB). specialize (Bh delta rho HB).
        pose proof (xp_bound delta rho v e HB We) as X.
        cbn [pev]. eapply Rle_trans; [apply Rabs_triang|]. rewrite Rmult_plus_distr_r. apply Rplus_le_compat; [|exact Bt].
        rewrite Rabs_mult. rewrite Rmult_assoc. apply Rmult_le_compat; [apply Rabs_pos|apply Rabs_pos|exact X|exact Bh].
  Qed.
  Lemma ldeg_bound l n : degok dv n (fst l) = true -> lwf ninv l ->
    exists C, 0 <= C /\ forall delta rho, bounded delta rho -> Rabs (lev rho l) <= C * delta ^ n.
  Proof.
    intros H W. destruct (deg_bound (fst l) n H W) as (C & PCC & B). exists C. split; [exact PCC|].
    intros delta rho HB. specialize (B delta rho HB). unfold lev, Rdiv. rewrite Rabs_mult.
    assert (1 <= IZR (Zpos (snd l))) by (apply IZR_le; lia).
    rewrite (Rabs_pos_eq (/ _)) by (left; apply Rinv_0_lt_compat; lra).
    assert (/ IZR (Zpos (snd l)) <= 1) by (rewrite <- Rinv_1; apply Rinv_le_contravar; lra).
    apply Rle_trans with (Rabs (pev rho (fst l)) * 1); [apply Rmult_le_compat_l; [apply Rabs_pos|assumption]|lra].
  Qed.
End Bound.

(** ** Replacing a variable: x_v^k = q *)
Fixpoint ppow (q : pol) (n : nat) : pol := match n with O => PC 1 | S O => q | S n => pmul q (ppow q n) end.
Fixpoint psub (v : positive) (q : pol) (k : Z) (p : pol) : pol :=
  match p with
  | PC _ => p
  | PX w e h t =>
      if Pos.eqb v w then padd (pmul (ppow q (Z.to_nat (e / k))) (psub v q k h)) (psub v q k t)
      else padd (pshift w e (psub v q k h)) (psub v q k t)
  end.
Fixpoint subok (v : positive) (k : Z) (p : pol) : bool :=
  match p with
  | PC _ => true
  | PX w e h t => (if Pos.eqb v w then (0 <=? e)%Z && (e mod k =? 0)%Z else true) && subok v k h && subok v k t
  end.
Section Sub.
  Local Open Scope R_scope.
  Variable rho : positive -> R.
  Hypothesis HK : forall v, (v <= ninv)%positive -> rho v <> 0.
  Variables (v : positive) (q : pol) (k : nat).
  Hypothesis Hk : (0 < k)%nat.
  Hypothesis Hq : pev rho q = rho v ^ k.
  Hypothesis Wq : wf ninv q.
  Lemma ppow_ok n : pev rho (ppow q n) = pev rho q ^ n /\ wf ninv (ppow q n).
  Proof.
    induction n as [|n (I1 & I2)]; [cbn; split; [reflexivity|tauto]|].
    destruct n as [|n]; [cbn [ppow]; split; [cbn; ring|exact Wq]|].
    destruct (pmul_ok rho ninv HK _ _ Wq I2) as (A & B). change (ppow q (S (S n))) with (pmul q (ppow q (S n))).
    rewrite A, I1. split; [reflexivity|exact B].
  Qed.
  Lemma psub_ok p : subok v (Z.of_nat k) p = true -> wf ninv p -> pev rho (psub v q (Z.of_nat k) p) = pev rho p /\ wf ninv (psub v q (Z.of_nat k) p).
  Proof.
    induction p as [z|w e h IHh t IHt]; intros H W; [split; [reflexivity|exact W]|].
    cbn [subok] in H. rewrite !andb_true_iff in H. destruct H as ((He & Hh) & Ht). destruct W as (We & Wh & Wt).
    destruct (IHh Hh Wh) as (A & B), (IHt Ht Wt) as (C & D). cbn [psub].
    destruct (Pos.eqb_spec v w) as [E|E].
    - subst w. apply andb_true_iff in He. destruct He as (E1 & E2). apply Z.leb_le in E1. apply Z.eqb_eq in E2.
      destruct (ppow_ok (Z.to_nat (e / Z.of_nat k))) as (F & G).
      destruct (pmul_ok rho ninv HK _ _ G B) as (I & J).
      rewrite pev_padd, I, F, A, C, Hq. split; [|apply wf_padd; assumption]. cbn [pev]. f_equal. f_equal.
      rewrite <- pow_mult. unfold xp. rewrite <- (Z2Nat.id e) at 2 by exact E1. rewrite <- pow_powerRZ. f_equal.
      rewrite <- (Nat2Z.id k) at 1. rewrite <- Z2Nat.inj_mul by (try apply Z.div_pos; lia).
      f_equal. symmetry. apply Z.div_exact; [lia|exact E2].
    - destruct (pshift_ok rho ninv HK w e _ We B) as (I & J). rewrite pev_padd, I, A, C. cbn [pev]. split; [reflexivity|apply wf_padd; assumption].
  Qed.
End Sub.

(** ** Boxes of inputs *)
Local Open Scope R_scope.
Definition in_box (B : R) (i : Inp) : Prop :=
  let within x := / B <= x <= B in
  within (i_scale i) /\ within (i_mf i) /\ within (i_m1 i) /\ within (i_m2 i) /\ within (i_msq i) /\ within (i_mg i) /\
  within (cos (i_beta i)) /\ within (sin (i_beta i)) /\ 0 < i_beta i < PI / 2 /\
  Rabs (i_al i) <= B /\ Rabs (i_mu i) <= B /\ Rabs (i_s2 i) <= B /\ Rabs (i_At i) <= B /\ Rabs (i_Dq2 i) <= B.
Definition flags_in (B : R) (d : Depth) (mdr f1 f2 f3 : Z) : Prop :=
  (forall f, Rabs (IZR (depth_get d f)) <= B) /\ Rabs (IZR mdr) <= B /\ Rabs (IZR f1) <= B /\ Rabs (IZR f2) <= B /\ Rabs (IZR f3) <= B.
Lemma in_box_ok B i : 1 <= B -> in_box B i -> inp_ok i.
Proof.
  intros HB (A1 & A2 & A3 & A4 & A5 & A6 & A7 & A8 & A9 & _). pose proof (Rinv_0_lt_compat B ltac:(lra)).
  unfold inp_ok. repeat split; lra.
Qed.

Definition all_consts : list mathconst :=
  [Cz2; Cz3; Cz4; CB4; CD3; CDN; COepS2; CS2; CT1ep; CPi; Csqrt2; Csqrt3; Csqrt15; Csqrt35; Cinv_sqrt2; Clog2; ConeLoop; CtwoLoop; CthreeLoop].
Fixpoint sumabs (l : list mathconst) : R := match l with [] => 0 | c :: l => Rabs (Rconst c) + sumabs l end.
Lemma sumabs_pos l : 0 <= sumabs l.
Proof. induction l as [|c l I]; cbn; [lra|]. pose proof (Rabs_pos (Rconst c)). lra. Qed.
Lemma sumabs_in l c : In c l -> Rabs (Rconst c) <= sumabs l.
Proof. induction l as [|x l I]; [intros []|]. intros [->|H]; cbn; [pose proof (sumabs_pos l)|pose proof (I H); pose proof (Rabs_pos (Rconst x))]; lra. Qed.
Definition bigM (B : R) : R := 4 * (B * B * B * B) + sumabs all_consts.

Lemma rho_cases (u : hvar -> R) t v :
  (exists w, rho_of u t v = u w) \/ rho_of u t v = t \/ (exists c, rho_of u t v = Rconst c) \/
  (exists a b, is_mass a = true /\ is_mass b = true /\ rho_of u t v = ln (u a ^ 2 / u b ^ 2)) \/ rho_of u t v = 0.
Proof.
  do 7 (try (destruct v as [v|v|]));
  first [ left; eexists; reflexivity | right; left; reflexivity | right; right; left; eexists; reflexivity
        | right; right; right; right; reflexivity
        | right; right; right; left; do 2 eexists; split; [|split; [|reflexivity]]; reflexivity ].
Qed.

Lemma ln_abs x Y : 0 < x -> x <= Y -> / x <= Y -> Rabs (ln x) <= Y.
Proof.
  intros H A B. pose proof (exp_ineq1_le (ln x)) as E1. rewrite exp_ln in E1 by exact H.
  pose proof (exp_ineq1_le (- ln x)) as E2. rewrite exp_Ropp, exp_ln in E2 by exact H.
  apply Rabs_le. lra.
Qed.
Lemma ratio_bound B x y : 1 <= B -> / B <= x <= B -> / B <= y <= B -> 0 < x / y /\ x / y <= B * B /\ / (x / y) <= B * B.
Proof.
  intros HB Hx Hy. assert (P : 0 < / B) by (apply Rinv_0_lt_compat; lra).
  assert (Ix : / x <= B). { rewrite <- (Rinv_inv B). apply Rinv_le_contravar; lra. }
  assert (Iy : / y <= B). { rewrite <- (Rinv_inv B). apply Rinv_le_contravar; lra. }
  assert (0 < / x) by (apply Rinv_0_lt_compat; lra). assert (0 < / y) by (apply Rinv_0_lt_compat; lra).
  split; [apply Rdiv_lt_0_compat; lra|]. split.
  - unfold Rdiv. apply Rmult_le_compat; lra.
  - replace (/ (x / y)) with (y * / x) by (field; lra). apply Rmult_le_compat; lra.
Qed.
Lemma lnr_bound B x y : 1 <= B -> / B <= x <= B -> / B <= y <= B -> Rabs (ln (x / y * (x / y))) <= B * B * (B * B).
Proof.
  intros HB Hx Hy. destruct (ratio_bound B x y HB Hx Hy) as (P & A & C).
  apply ln_abs.
  - apply Rmult_lt_0_compat; exact P.
  - apply Rmult_le_compat; lra.
  - rewrite Rinv_mult. assert (0 < / (x / y)) by (apply Rinv_0_lt_compat; exact P). apply Rmult_le_compat; lra.
Qed.

Section BoxBound.
  Variable B : R.
  Hypothesis HB : 1 <= B.
  Variable i : Inp. Variables (d : Depth) (mdr f1 f2 f3 : Z).
  Hypothesis Hi : in_box B i.
  Hypothesis Hf : flags_in B d mdr f1 f2 f3.
  Let BB : B <= B * B. Proof. rewrite <- (Rmult_1_l B) at 1. apply Rmult_le_compat_r; lra. Qed.
  Let BBB : B * B <= B * B * B * B.
  Proof. replace (B * B * B * B) with ((B * B) * (B * B)) by ring. rewrite <- (Rmult_1_l (B * B)) at 1. apply Rmult_le_compat_r; lra. Qed.
  Lemma msusy_box : / B <= msusy i <= B.
  Proof. destruct Hi as (A1 & A2 & A3 & A4 & A5 & A6 & _). unfold msusy. lra. Qed.
  Lemma mass_box v : is_mass v = true -> / B <= member i d mdr f1 f2 f3 v <= B.
  Proof. destruct Hi as (A1 & A2 & A3 & A4 & A5 & A6 & _). destruct v; try discriminate; intros _; cbn [member]; try assumption. apply msusy_box. Qed.
  Lemma lmass_box m : / B <= m <= B -> Rabs (lmass i m) <= B * B * (B * B).
  Proof. intros H. apply lnr_bound; [exact HB|apply Hi|exact H]. Qed.
  Lemma sq_box x : / B <= x <= B -> 0 <= x * x <= B * B.
  Proof. intros H. assert (0 < / B) by (apply Rinv_0_lt_compat; lra). split; [apply Rmult_le_pos; lra|apply Rmult_le_compat; lra]. Qed.
  Lemma member_box v : Rabs (member i d mdr f1 f2 f3 v) <= bigM B.
  Proof.
    assert (PS := sumabs_pos all_consts). assert (PB : 0 < / B) by (apply Rinv_0_lt_compat; lra).
    assert (G : forall x, Rabs x <= 4 * (B * B * B * B) -> Rabs x <= bigM B) by (intros x Hx; unfold bigM; lra).
    apply G. clear G.
    assert (W : forall x, Rabs x <= B -> Rabs x <= 4 * (B * B * B * B)) by (intros; lra).
    assert (L : forall m, / B <= m <= B -> Rabs (lmass i m) <= 4 * (B * B * B * B)) by (intros m Hm; pose proof (lmass_box m Hm); lra).
    assert (Wp : forall x, / B <= x <= B -> Rabs x <= 4 * (B * B * B * B)) by (intros x Hx; apply W; rewrite Rabs_pos_eq; lra).
    destruct Hi as (A1 & A2 & A3 & A4 & A5 & A6 & A7 & A8 & A9 & A10 & A11 & A12 & A13 & A14).
    destruct Hf as (F0 & F1 & F2 & F3 & F4).
    pose proof (sq_box _ A3). pose proof (sq_box _ A4). pose proof (sq_box _ A5).
    destruct v; cbn [member]; try (apply L; assumption); try (apply L; apply msusy_box); try (apply Wp; assumption); try (apply Wp; apply msusy_box);
      try (apply W; assumption); try (apply Rabs_le; lra);
      try (apply W; match goal with |- Rabs (IZR (?p d)) <= _ => idtac end;
           first [exact (F0 DthreeLoop)|exact (F0 DDmglst1)|exact (F0 DDmglst2)|exact (F0 DDmsqst1)|exact (F0 DDmsqst2)
                 |exact (F0 DMsq)|exact (F0 DMst)|exact (F0 DMgl)|exact (F0 DAt)|exact (F0 DlmMsusy)|exact (F0 DMsusy)]).
    unfold tan. destruct (ratio_bound B _ _ HB A8 A7) as (P & Q & _). rewrite Rabs_pos_eq; lra.
  Qed.
  Lemma bigM_1 : 1 <= bigM B.
  Proof. pose proof (sumabs_pos all_consts). unfold bigM. lra. Qed.
  Lemma rho_box v : Rabs (rho_of (member i d mdr f1 f2 f3) 1 v) <= bigM B.
  Proof.
    pose proof bigM_1. assert (PS := sumabs_pos all_consts).
    destruct (rho_cases (member i d mdr f1 f2 f3) 1 v) as [(w & ->)|[->|[(c & ->)|[(a & b & Ma & Mb & ->)| ->]]]].
    - apply member_box.
    - rewrite Rabs_R1. assumption.
    - apply Rle_trans with (sumabs all_consts); [apply sumabs_in; destruct c; cbn; tauto|unfold bigM; lra].
    - pose proof (mass_box a Ma) as Ba. pose proof (mass_box b Mb) as Bb.
      assert (0 < / B) by (apply Rinv_0_lt_compat; lra).
      set (x := member i d mdr f1 f2 f3 a) in *. set (y := member i d mdr f1 f2 f3 b) in *.
      replace (x ^ 2 / y ^ 2) with (x / y * (x / y)) by (field; lra).
      pose proof (lnr_bound B x y HB Ba Bb). unfold bigM. lra.
    - rewrite Rabs_R0. lra.
  Qed.
  Lemma rho_box_inv v : (v <= ninv)%positive -> Rabs (/ rho_of (member i d mdr f1 f2 f3) 1 v) <= bigM B.
  Proof.
    intros Hv. pose proof bigM_1. assert (PS := sumabs_pos all_consts). assert (PB : 0 < / B) by (apply Rinv_0_lt_compat; lra).
    assert (G : forall x, / B <= x <= B -> Rabs (/ x) <= bigM B).
    { intros x Hx. assert (/ x <= B). { rewrite <- (Rinv_inv B). apply Rinv_le_contravar; lra. }
      assert (0 < / x) by (apply Rinv_0_lt_compat; lra). rewrite Rabs_pos_eq by lra. unfold bigM. lra. }
    assert (v = 1 \/ v = 2 \/ v = 3 \/ v = 4 \/ v = 5 \/ v = 6 \/ v = 7 \/ v = 8 \/ v = 9)%positive as W by (unfold ninv in Hv; lia).
    destruct Hi as (A1 & A2 & A3 & A4 & A5 & A6 & A7 & A8 & _).
    repeat (destruct W as [->|W]; [cbn; first [apply G; assumption | rewrite Rinv_1, Rabs_R1; assumption]|]).
    subst v. cbn. apply G. apply msusy_box.
  Qed.
End BoxBound.
