(** * Truncated power series with polynomial coefficients, and fractions of them, as certificates for limits *)
From Coq Require Import Reals Lra Lia List ZArith Bool Setoid Ring_polynom Ring_theory BinList RealField.
Import ListNotations.
Open Scope R_scope.

(** ** Polynomials with integer coefficients *)
Definition P := Pol Z.
Definition padd : P -> P -> P := Padd 0%Z Z.add Zeq_bool.
Definition psub : P -> P -> P := Psub 0%Z Z.add Z.sub Z.opp Zeq_bool.
Definition pmul : P -> P -> P := Pmul 0%Z 1%Z Z.add Z.mul Zeq_bool.
Definition popp : P -> P := Popp Z.opp.
Definition pX (i : positive) : P := mk_X 0%Z 1%Z i.
Definition pc (z : Z) : P := Pc z.
Definition PE (l : list R) : P -> R := Pphi 0 Rplus Rmult IZR l.

Lemma Rsth : RelationClasses.Equivalence (@eq R). Proof. exact (Eqsth R). Qed.
Lemma Reqe : ring_eq_ext Rplus Rmult Ropp (@eq R). Proof. apply Eq_ext. Qed.
Lemma RARth : almost_ring_theory 0 1 Rplus Rmult Rminus Ropp (@eq R). Proof. apply (Rth_ARth Rsth Reqe RTheory). Qed.
Lemma Zmor : ring_morph 0 1 Rplus Rmult Rminus Ropp (@eq R) 0%Z 1%Z Z.add Z.mul Z.sub Z.opp Zeq_bool IZR.
Proof.
  constructor; try reflexivity; intros.
  - apply plus_IZR. - apply minus_IZR. - apply mult_IZR. - apply opp_IZR. - apply f_equal. apply Zeq_bool_eq; assumption.
Qed.
Lemma padd_ok p q l : PE l (padd p q) = PE l p + PE l q. Proof. exact (Padd_ok Rsth Reqe RARth Zmor q p l). Qed.
Lemma psub_ok p q l : PE l (psub p q) = PE l p - PE l q. Proof. exact (Psub_ok Rsth Reqe RARth Zmor q p l). Qed.
Lemma pmul_ok p q l : PE l (pmul p q) = PE l p * PE l q. Proof. exact (Pmul_ok Rsth Reqe RARth Zmor p q l). Qed.
Lemma popp_ok p l : PE l (popp p) = - PE l p. Proof. exact (Popp_ok Rsth Reqe RARth Zmor p l). Qed.
Lemma pX_ok i l : PE l (pX i) = nth 0 i l. Proof. symmetry. exact (mkX_ok Rsth Reqe RARth Zmor i l). Qed.
Lemma pc_ok z l : PE l (pc z) = IZR z. Proof. reflexivity. Qed.
Definition pz (p : P) : bool := match p with Pc z => Z.eqb z 0 | _ => false end.
Lemma pz_ok p l : pz p = true -> PE l p = 0.
Proof. destruct p; try discriminate. intros H. apply Z.eqb_eq in H. subst. reflexivity. Qed.

(** ** Series in one variable e *)
Section Series.
  Context (n : nat) (l : list R).   (* truncation: coefficients of e^0, ..., e^n are kept *)
  Fixpoint sem (s : list P) (e : R) : R := match s with [] => 0 | p :: t => PE l p + e * sem t e end.
  Fixpoint sadd (s t : list P) : list P := match s, t with [], _ => t | _, [] => s | p :: s', q :: t' => padd p q :: sadd s' t' end.
  Definition sopp (s : list P) : list P := map popp s.
  Definition sscal (p : P) (s : list P) : list P := if pz p then [] else map (pmul p) s.
  Fixpoint smul (k : nat) (s t : list P) : list P :=      (* keeps the first k coefficients *)
    match k with O => [] | S k' => match s with [] => [] | p :: s' => match sadd (sscal p (firstn k t)) (pc 0 :: smul k' s' t) with r => r end end end.
  Definition sshift (k : nat) (s : list P) : list P := firstn (S n) (repeat (pc 0) k ++ s).
  Lemma sadd_ok s : forall t e, sem (sadd s t) e = sem s e + sem t e.
  Proof. induction s as [|p s IH]; intros t e; [simpl; ring|]. destruct t as [|q t]; [simpl; ring|]. cbn [sadd sem]. rewrite padd_ok, IH. ring. Qed.
  Lemma sopp_ok s e : sem (sopp s) e = - sem s e.
  Proof. induction s as [|p s IH]; cbn [sopp map sem]; [ring|]. unfold sopp in IH. rewrite popp_ok, IH. ring. Qed.
  Lemma sscal_ok p s e : sem (sscal p s) e = PE l p * sem s e.
  Proof.
    unfold sscal. destruct (pz p) eqn:Z; [rewrite (pz_ok p l Z); simpl; ring|].
    induction s as [|q s IH]; cbn [map sem]; [ring|]. rewrite pmul_ok, IH. ring.
  Qed.
End Series.

(** ** O(e^m) as e -> 0 *)
Definition bigO (m : nat) (f : R -> R) : Prop := exists C d, 0 <= C /\ 0 < d /\ forall e, e <> 0 -> Rabs e < d -> Rabs (f e) <= C * Rabs e ^ m.
Lemma bigO_ext m f g : (forall e, f e = g e) -> bigO m f -> bigO m g.
Proof. intros H (C & d & HC & Hd & HB). exists C, d. repeat split; try assumption. intros e He1 He2. rewrite <- H. auto. Qed.
Lemma bigO_ext_near m f g d0 : 0 < d0 -> (forall e, e <> 0 -> Rabs e < d0 -> f e = g e) -> bigO m f -> bigO m g.
Proof. intros H0 H (C & d & HC & Hd & HB). exists C, (Rmin d d0). split; [assumption|]. split; [apply Rmin_glb_lt; assumption|].
  intros e He1 He2. rewrite <- H; [apply HB; try assumption|assumption|]. eapply Rlt_le_trans; [exact He2|apply Rmin_l]. eapply Rlt_le_trans; [exact He2|apply Rmin_r]. Qed.
Lemma bigO_add m f g : bigO m f -> bigO m g -> bigO m (fun e => f e + g e).
Proof.
  intros (C & d & HC & Hd & HB) (C' & d' & HC' & Hd' & HB'). exists (C + C'), (Rmin d d'). split; [lra|]. split; [apply Rmin_glb_lt; assumption|].
  intros e H1 H2. assert (Rabs e < d) by (eapply Rlt_le_trans; [exact H2|apply Rmin_l]). assert (Rabs e < d') by (eapply Rlt_le_trans; [exact H2|apply Rmin_r]).
  eapply Rle_trans; [apply Rabs_triang|]. rewrite Rmult_plus_distr_r. apply Rplus_le_compat; auto.
Qed.
Lemma bigO_mul m m' f g : bigO m f -> bigO m' g -> bigO (m + m') (fun e => f e * g e).
Proof.
  intros (C & d & HC & Hd & HB) (C' & d' & HC' & Hd' & HB'). exists (C * C'), (Rmin d d'). split; [apply Rmult_le_pos; assumption|]. split; [apply Rmin_glb_lt; assumption|].
  intros e H1 H2. assert (Rabs e < d) by (eapply Rlt_le_trans; [exact H2|apply Rmin_l]). assert (Rabs e < d') by (eapply Rlt_le_trans; [exact H2|apply Rmin_r]).
  rewrite Rabs_mult, pow_add. replace (C * C' * (Rabs e ^ m * Rabs e ^ m')) with ((C * Rabs e ^ m) * (C' * Rabs e ^ m')) by ring.
  apply Rmult_le_compat; try apply Rabs_pos; auto.
Qed.
Lemma bigO_const c : bigO 0 (fun _ => c).
Proof. exists (Rabs c), 1. split; [apply Rabs_pos|]. split; [lra|]. intros. simpl. lra. Qed.
Lemma bigO_pow k : bigO k (fun e => e ^ k).
Proof. exists 1, 1. split; [lra|]. split; [lra|]. intros. rewrite RPow_abs. lra. Qed.
Lemma bigO_zero m : bigO m (fun _ => 0).
Proof. exists 0, 1. split; [lra|]. split; [lra|]. intros. rewrite Rabs_R0. lra. Qed.
Lemma bigO_le m m' f : (m <= m')%nat -> bigO m' f -> bigO m f.
Proof.
  intros H (C & d & HC & Hd & HB). exists C, (Rmin d 1). split; [assumption|]. split; [apply Rmin_glb_lt; lra|].
  intros e H1 H2. assert (Rabs e < d) by (eapply Rlt_le_trans; [exact H2|apply Rmin_l]). assert (Rabs e < 1) by (eapply Rlt_le_trans; [exact H2|apply Rmin_r]).
  eapply Rle_trans; [apply HB; assumption|]. apply Rmult_le_compat_l; [assumption|].
  replace m' with (m + (m' - m))%nat by lia. rewrite pow_add. rewrite <- (Rmult_1_r (Rabs e ^ m)) at 2. apply Rmult_le_compat_l; [apply pow_le, Rabs_pos|].
  destruct (m' - m)%nat; [simpl; lra|]. apply Rlt_le. apply pow_lt_1_compat; [split; [apply Rabs_pos|assumption]|lia].
Qed.
Lemma bigO_scal m c f : bigO m f -> bigO m (fun e => c * f e).
Proof. intros H. exact (bigO_mul 0 m _ _ (bigO_const c) H). Qed.
Lemma bigO_opp m f : bigO m f -> bigO m (fun e => - f e).
Proof. intros H. apply (bigO_ext m (fun e => -1 * f e)); [intros; ring|]. apply bigO_scal; assumption. Qed.
Lemma bigO_sub m f g : bigO m f -> bigO m g -> bigO m (fun e => f e - g e).
Proof. intros H G. apply bigO_add; [assumption|apply bigO_opp; assumption]. Qed.
Lemma bigO_bmul m f g : bigO 0 f -> bigO m g -> bigO m (fun e => f e * g e).
Proof. exact (bigO_mul 0 m f g). Qed.

Section Series2.
  Context (l : list R).
  Notation sem := (sem l).
  Lemma sem_bounded s : bigO 0 (sem s).
  Proof.
    induction s as [|p s IH]; cbn [AsymPoly.sem]; [apply bigO_const|]. apply bigO_add; [apply bigO_const|].
    apply (bigO_le 0 1); [lia|]. apply (bigO_ext 1 (fun e => e ^ 1 * sem s e)); [intros; ring|]. apply (bigO_mul 1 0); [apply bigO_pow|exact IH].
  Qed.
  (** truncation *)
  Lemma firstn_ok k s : bigO k (fun e => sem (firstn k s) e - sem s e).
  Proof.
    revert s. induction k as [|k IH]; intros s; [cbn [firstn]; apply bigO_sub; apply sem_bounded|].
    destruct s as [|p s]; [apply (bigO_ext _ (fun _ => 0)); [intros; simpl; ring|apply bigO_zero]|].
    apply (bigO_ext _ (fun e => e ^ 1 * (sem (firstn k s) e - sem s e))); [intros; cbn [firstn AsymPoly.sem]; ring|].
    apply (bigO_mul 1 k); [apply bigO_pow|apply IH].
  Qed.
  Lemma smul_ok k : forall s t, bigO k (fun e => sem (smul k s t) e - sem s e * sem t e).
  Proof.
    induction k as [|k IH]; intros s t; [apply (bigO_ext _ (fun e => - (sem s e * sem t e))); [intros; cbn; ring|]; apply bigO_opp; apply bigO_bmul; apply sem_bounded|].
    destruct s as [|p s]; [apply (bigO_ext _ (fun _ => 0)); [intros; simpl; ring|apply bigO_zero]|].
    apply (bigO_ext _ (fun e => PE l p * (sem (firstn (S k) t) e - sem t e) + e ^ 1 * (sem (smul k s t) e - sem s e * sem t e))).
    - intros e. cbn [smul]. rewrite sadd_ok, sscal_ok. cbn [AsymPoly.sem]. rewrite pc_ok. ring.
    - apply bigO_add; [apply bigO_scal; apply firstn_ok|]. apply (bigO_mul 1 k); [apply bigO_pow|apply IH].
  Qed.
  Lemma repeat_ok k s e : sem (repeat (pc 0) k ++ s) e = e ^ k * sem s e.
  Proof. induction k as [|k IH]; cbn [repeat app AsymPoly.sem]; [simpl; ring|]. rewrite IH, pc_ok. simpl. ring. Qed.
  Lemma sshift_ok n k s : bigO (S n) (fun e => sem (sshift n k s) e - e ^ k * sem s e).
  Proof. apply (bigO_ext _ (fun e => sem (firstn (S n) (repeat (pc 0) k ++ s)) e - sem (repeat (pc 0) k ++ s) e)); [intros; rewrite repeat_ok; reflexivity|apply firstn_ok]. Qed.
  (** the first k coefficients vanish *)
  Definition szero (k : nat) (s : list P) : bool := forallb pz (firstn k s).
  Lemma szero_ok k : forall s, szero k s = true -> bigO k (sem s).
  Proof.
    induction k as [|k IH]; intros s H; [apply sem_bounded|]. destruct s as [|p s]; [apply bigO_zero|].
    cbn [szero firstn forallb] in H. apply andb_prop in H. destruct H as [H1 H2].
    apply (bigO_ext _ (fun e => e ^ 1 * sem s e)); [intros e; cbn [AsymPoly.sem]; rewrite (pz_ok p l H1); ring|]. apply (bigO_mul 1 k); [apply bigO_pow|apply IH; exact H2].
  Qed.
End Series2.

(** ** Fractions: series / (c * e^k * product of powers of the factors in a table) *)
Record frac := mkF { fnum : list P; fc : Z; fk : nat; fx : list nat }.
Section Frac.
  Context (n : nat) (tab : list (list P)) (l : list R).
  Notation sem := (sem l).
  Fixpoint dprod (t : list (list P)) (x : list nat) (e : R) : R :=
    match t, x with f :: t', a :: x' => sem f e ^ a * dprod t' x' e | _, _ => 1 end.
  Definition den (F : frac) (e : R) : R := IZR (fc F) * e ^ fk F * dprod tab (fx F) e.
  Definition rep (f : R -> R) (F : frac) : Prop := bigO (S n) (fun e => f e * den F e - sem (fnum F) e) /\ (length (fx F) <= length tab)%nat.
  Lemma pow_bounded f a : bigO 0 f -> bigO 0 (fun e => f e ^ a).
  Proof. intros H. induction a as [|a IH]; [exact (bigO_const 1)|]. apply (bigO_bmul 0 f (fun e => f e ^ a)); assumption. Qed.
  Lemma dprod_bounded t x : bigO 0 (dprod t x).
  Proof.
    revert x. induction t as [|f t IH]; intros x; [exact (bigO_const 1)|]. destruct x as [|a x]; [exact (bigO_const 1)|].
    apply (bigO_bmul 0 (fun e => sem f e ^ a) (dprod t x)); [apply pow_bounded; apply sem_bounded|apply IH].
  Qed.
  Fixpoint xadd (x y : list nat) : list nat := match x, y with [], _ => y | _, [] => x | a :: x', b :: y' => (a + b)%nat :: xadd x' y' end.
  Fixpoint xmax (x y : list nat) : list nat := match x, y with [], _ => y | _, [] => x | a :: x', b :: y' => Nat.max a b :: xmax x' y' end.
  Fixpoint xsub (x y : list nat) : list nat := match x, y with [], _ => [] | _, [] => x | a :: x', b :: y' => (a - b)%nat :: xsub x' y' end.
  Lemma xadd_ok t : forall x y e, (length x <= length t)%nat -> (length y <= length t)%nat -> dprod t (xadd x y) e = dprod t x e * dprod t y e.
  Proof.
    induction t as [|f t IH]; intros [|a x] [|b y] e H1 H2; cbn [xadd dprod length] in *; try lia; try ring.
    rewrite pow_add, IH by lia. ring.
  Qed.
  Lemma xadd_len x : forall y m, (length x <= m)%nat -> (length y <= m)%nat -> (length (xadd x y) <= m)%nat.
  Proof. induction x as [|a x IH]; intros [|b y] m; cbn [xadd length]; try lia. intros. destruct m; [lia|]. specialize (IH y m). lia. Qed.
  Lemma xmax_len x : forall y m, (length x <= m)%nat -> (length y <= m)%nat -> (length (xmax x y) <= m)%nat.
  Proof. induction x as [|a x IH]; intros [|b y] m; cbn [xmax length]; try lia. intros. destruct m; [lia|]. specialize (IH y m). lia. Qed.
  Lemma xsub_l t : forall x y e, dprod t (xmax x y) e = dprod t x e * dprod t (xsub (xmax x y) x) e.
  Proof.
    induction t as [|f t IH]; intros [|a x] [|b y] e; cbn [xmax xsub dprod]; try ring.
    - rewrite Nat.sub_diag. specialize (IH x [] e). replace (xmax x []) with x in IH by (destruct x; reflexivity). rewrite IH at 1. simpl. ring.
    - rewrite IH. replace (Nat.max a b) with (a + (Nat.max a b - a))%nat at 1 by lia. rewrite pow_add. ring.
  Qed.
  Lemma xsub_r t : forall x y e, dprod t (xmax x y) e = dprod t y e * dprod t (xsub (xmax x y) y) e.
  Proof.
    induction t as [|f t IH]; intros [|a x] [|b y] e; cbn [xmax xsub dprod]; try ring.
    - rewrite Nat.sub_diag. specialize (IH [] y e). replace (xmax [] y) with y in IH by reflexivity. rewrite IH at 1. simpl. ring.
    - rewrite IH. replace (Nat.max a b) with (b + (Nat.max a b - b))%nat at 1 by lia. rewrite pow_add. ring.
  Qed.
  (** multiplication of a series by a product of factors *)
  Fixpoint spow (k : nat) (f s : list P) : list P := match k with O => s | S k' => smul (S n) f (spow k' f s) end.
  Fixpoint sprod (t : list (list P)) (x : list nat) (s : list P) : list P := match t, x with f :: t', a :: x' => spow a f (sprod t' x' s) | _, _ => s end.
  Lemma spow_ok k f s : bigO (S n) (fun e => sem (spow k f s) e - sem f e ^ k * sem s e).
  Proof.
    induction k as [|k IH]; [apply (bigO_ext _ (fun _ => 0)); [intros; cbn [spow]; ring|apply bigO_zero]|].
    apply (bigO_ext _ (fun e => (sem (smul (S n) f (spow k f s)) e - sem f e * sem (spow k f s) e) + sem f e * (sem (spow k f s) e - sem f e ^ k * sem s e))).
    - intros e. cbn [spow pow]. ring.
    - apply bigO_add; [apply smul_ok|]. apply bigO_bmul; [apply sem_bounded|exact IH].
  Qed.
  Lemma sprod_ok t : forall x s, bigO (S n) (fun e => sem (sprod t x s) e - dprod t x e * sem s e).
  Proof.
    induction t as [|f t IH]; intros x s; [apply (bigO_ext _ (fun _ => 0)); [intros; cbn [sprod dprod]; ring|apply bigO_zero]|].
    destruct x as [|a x]; [apply (bigO_ext _ (fun _ => 0)); [intros; cbn [sprod dprod]; ring|apply bigO_zero]|].
    apply (bigO_ext _ (fun e => (sem (spow a f (sprod t x s)) e - sem f e ^ a * sem (sprod t x s) e) + sem f e ^ a * (sem (sprod t x s) e - dprod t x e * sem s e))).
    - intros e. cbn [sprod dprod]. ring.
    - apply bigO_add; [apply spow_ok|]. apply bigO_bmul; [apply pow_bounded, sem_bounded|apply IH].
  Qed.
  (** bring a fraction to a larger denominator *)
  Definition lift (c : Z) (k : nat) (x : list nat) (F : frac) : list P :=
    let s := sprod tab (xsub x (fx F)) (fnum F) in sshift n (k - fk F) (sscal (pc (c / fc F)) s).
  Lemma lift_ok f F c k x : rep f F -> (fc F | c)%Z -> fc F <> 0%Z -> (fk F <= k)%nat -> (forall e, dprod tab x e = dprod tab (fx F) e * dprod tab (xsub x (fx F)) e) ->
    bigO (S n) (fun e => f e * (IZR c * e ^ k * dprod tab x e) - sem (lift c k x F) e).
  Proof.
    intros [HF _] [m ->] H0 Hk Hx. unfold lift. rewrite Z.div_mul by exact H0.
    set (s := sprod tab (xsub x (fx F)) (fnum F)).
    apply (bigO_ext _ (fun e => (IZR m * e ^ (k - fk F) * dprod tab (xsub x (fx F)) e) * (f e * den F e - sem (fnum F) e)
       - ((IZR m * e ^ (k - fk F)) * (sem s e - dprod tab (xsub x (fx F)) e * sem (fnum F) e) + (sem (sshift n (k - fk F) (sscal (pc m) s)) e - e ^ (k - fk F) * sem (sscal (pc m) s) e)))).
    - intros e. unfold den. rewrite Hx, sscal_ok, pc_ok, mult_IZR. replace k with (fk F + (k - fk F))%nat at 5 by lia. rewrite pow_add. ring.
    - assert (B : bigO 0 (fun e => IZR m * e ^ (k - fk F))) by (apply bigO_bmul; [apply bigO_const|apply (bigO_le 0 (k - fk F)); [lia|apply bigO_pow]]).
      apply bigO_sub; [|apply bigO_add].
      + apply (bigO_bmul _ (fun e => IZR m * e ^ (k - fk F) * dprod tab (xsub x (fx F)) e)); [|exact HF]. apply bigO_bmul; [exact B|apply dprod_bounded].
      + apply bigO_bmul; [exact B|apply sprod_ok].
      + apply sshift_ok.
  Qed.
  Definition fadd (F G : frac) : option frac :=
    if (Z.eqb (fc F) 0 || Z.eqb (fc G) 0)%bool then None else
    let c := Z.lcm (fc F) (fc G) in let k := Nat.max (fk F) (fk G) in let x := xmax (fx F) (fx G) in
    Some (mkF (sadd (lift c k x F) (lift c k x G)) c k x).
  Lemma fadd_ok f g F G H : rep f F -> rep g G -> fadd F G = Some H -> rep (fun e => f e + g e) H.
  Proof.
    intros HF HG. unfold fadd. destruct (Z.eqb_spec (fc F) 0) as [|NF]; [discriminate|]. destruct (Z.eqb_spec (fc G) 0) as [|NG]; [discriminate|]. cbn [orb]. intros E. injection E as <-.
    split; [|apply xmax_len; [apply HF|apply HG]]. unfold den. cbn [fnum fc fk fx].
    set (c := Z.lcm (fc F) (fc G)). set (k := Nat.max (fk F) (fk G)). set (x := xmax (fx F) (fx G)).
    apply (bigO_ext _ (fun e => (f e * (IZR c * e ^ k * dprod tab x e) - sem (lift c k x F) e) + (g e * (IZR c * e ^ k * dprod tab x e) - sem (lift c k x G) e))).
    - intros e. rewrite sadd_ok. ring.
    - apply bigO_add; apply lift_ok; try assumption; unfold c, k, x; try lia; try apply Z.divide_lcm_l; try apply Z.divide_lcm_r; intros e; [apply xsub_l|apply xsub_r].
  Qed.
  Definition fopp (F : frac) : frac := mkF (sopp (fnum F)) (fc F) (fk F) (fx F).
  Lemma fopp_ok f F : rep f F -> rep (fun e => - f e) (fopp F).
  Proof. intros [H L]. split; [|exact L]. apply (bigO_ext _ (fun e => - (f e * den F e - sem (fnum F) e))); [intros e; unfold den, fopp; cbn [fnum fc fk fx]; rewrite sopp_ok; ring|apply bigO_opp; exact H]. Qed.
  Definition fmul (F G : frac) : frac := mkF (smul (S n) (fnum F) (fnum G)) (fc F * fc G) (fk F + fk G) (xadd (fx F) (fx G)).
  Lemma den_bounded F : bigO 0 (den F).
  Proof. apply bigO_bmul; [apply bigO_bmul; [apply bigO_const|apply (bigO_le 0 (fk F)); [lia|apply bigO_pow]]|apply dprod_bounded]. Qed.
  Lemma rep_bounded f F : rep f F -> bigO 0 (fun e => f e * den F e).
  Proof. intros [H _]. apply (bigO_ext _ (fun e => (f e * den F e - sem (fnum F) e) + sem (fnum F) e)); [intros; ring|]. apply bigO_add; [apply (bigO_le 0 (S n)); [lia|exact H]|apply sem_bounded]. Qed.
  Lemma fmul_ok f g F G : rep f F -> rep g G -> rep (fun e => f e * g e) (fmul F G).
  Proof.
    intros HF HG. split; [|apply xadd_len; [apply HF|apply HG]].
    apply (bigO_ext _ (fun e => (f e * den F e) * (g e * den G e - sem (fnum G) e) + sem (fnum G) e * (f e * den F e - sem (fnum F) e) - (sem (smul (S n) (fnum F) (fnum G)) e - sem (fnum F) e * sem (fnum G) e))).
    - intros e. unfold den, fmul. cbn [fnum fc fk fx]. rewrite xadd_ok, mult_IZR, pow_add by (apply HF || apply HG). ring.
    - apply bigO_sub; [apply bigO_add|apply smul_ok].
      + apply bigO_bmul; [apply rep_bounded; exact HF|apply HG].
      + apply bigO_bmul; [apply sem_bounded|apply HF].
  Qed.
  Definition fpoly (s : list P) : frac := mkF (firstn (S n) s) 1 0 [].
  Lemma fpoly_ok f s : (forall e, f e = sem s e) -> rep f (fpoly s).
  Proof.
    intros H. split; [|simpl; lia]. apply (bigO_ext _ (fun e => - (sem (firstn (S n) s) e - sem s e))); [|apply bigO_opp, firstn_ok].
    intros e. unfold den. cbn [fpoly fnum fc fk fx]. rewrite H. replace (dprod tab [] e) with 1 by (destruct tab; reflexivity). simpl. ring.
  Qed.
  Fixpoint fpow (k : nat) (F : frac) : frac := match k with O => fpoly [pc 1] | S O => F | S k' => fmul F (fpow k' F) end.
  Lemma fpow_ok k f F : rep f F -> rep (fun e => f e ^ k) (fpow k F).
  Proof.
    intros H. assert (E : forall k, rep (fun e => f e ^ S k) (fpow (S k) F)).
    { clear k. induction k as [|k IH]; [cbn [fpow]; destruct H as [H L]; split; [|exact L]; eapply bigO_ext; [|exact H]; intros; cbn beta; ring|].
      change (fpow (S (S k)) F) with (fmul F (fpow (S k) F)). apply (fmul_ok f (fun e => f e ^ S k)); assumption. }
    destruct k as [|k]; [|apply E]. cbn [fpow pow]. apply fpoly_ok. intros e. cbn [AsymPoly.sem]. rewrite pc_ok. ring.
  Qed.
  (** division by an exactly known denominator *)
  Definition fdiv (F : frac) (c : Z) (k : nat) (x : list nat) : frac := mkF (fnum F) (fc F * c) (fk F + k) (xadd (fx F) x).
  Lemma fdiv_ok f F g c k x d0 : rep f F -> (length x <= length tab)%nat -> 0 < d0 -> (forall e, e <> 0 -> Rabs e < d0 -> g e = IZR c * e ^ k * dprod tab x e /\ g e <> 0) ->
    rep (fun e => f e / g e) (fdiv F c k x).
  Proof.
    intros [H L] Lx H0 HG. split; [|apply xadd_len; assumption]. eapply (bigO_ext_near _ _ _ d0 H0); [|exact H].
    intros e H1 H2. destruct (HG e H1 H2) as [E N]. unfold den, fdiv. cbn [fnum fc fk fx]. rewrite xadd_ok, mult_IZR, pow_add by assumption. 
    replace (f e / g e * (IZR (fc F) * IZR c * (e ^ fk F * e ^ k) * (dprod tab (fx F) e * dprod tab x e))) with (f e * (IZR (fc F) * e ^ fk F * dprod tab (fx F) e) * ((IZR c * e ^ k * dprod tab x e) / g e)) by (field; exact N).
    rewrite <- E. replace (g e / g e) with 1 by (field; exact N). ring.
  Qed.
  (** the conclusion: if the numerator vanishes to one order more than the denominator, the represented function is O(e) *)
  Definition vanishes (F : frac) : bool := negb (Z.eqb (fc F) 0) && (fk F <? S n)%nat && szero (S (fk F)) (fnum F).
  Lemma vanishes_ok f F : rep f F -> vanishes F = true -> (exists m d, 0 < m /\ 0 < d /\ forall e, Rabs e < d -> m <= Rabs (dprod tab (fx F) e)) -> bigO 1 f.
  Proof.
    intros [H L] V (m & d & Hm & Hd & HD). unfold vanishes in V. apply andb_prop in V. destruct V as [V V3]. apply andb_prop in V. destruct V as [V1 V2].
    apply Nat.ltb_lt in V2. destruct (Z.eqb_spec (fc F) 0) as [|N]; [discriminate|]. apply (szero_ok l) in V3.
    assert (B : bigO (S (fk F)) (fun e => f e * den F e)).
    { apply (bigO_ext _ (fun e => (f e * den F e - sem (fnum F) e) + sem (fnum F) e)); [intros; ring|]. apply bigO_add; [apply (bigO_le _ (S n)); [lia|exact H]|exact V3]. }
    destruct B as (C & d' & HC & Hd' & HB). assert (NI : IZR (fc F) <> 0) by (apply not_0_IZR; exact N). assert (NA : 0 < Rabs (IZR (fc F))) by (apply Rabs_pos_lt; exact NI).
    exists (C / (Rabs (IZR (fc F)) * m)), (Rmin d d'). split; [apply Rmult_le_pos; [exact HC|apply Rlt_le, Rinv_0_lt_compat, Rmult_lt_0_compat; assumption]|].
    split; [apply Rmin_glb_lt; assumption|]. intros e H1 H2. assert (D1 : Rabs e < d) by (eapply Rlt_le_trans; [exact H2|apply Rmin_l]). assert (D2 : Rabs e < d') by (eapply Rlt_le_trans; [exact H2|apply Rmin_r]).
    specialize (HB e H1 D2). specialize (HD e D1). unfold den in HB. rewrite !Rabs_mult in HB. rewrite <- RPow_abs in HB. simpl (Rabs e ^ S (fk F)) in HB.
    assert (Pe : 0 < Rabs e) by (apply Rabs_pos_lt; exact H1). assert (Pk : 0 < Rabs e ^ fk F) by (apply pow_lt; exact Pe).
    apply (Rmult_le_reg_r (Rabs (IZR (fc F)) * Rabs e ^ fk F * m)); [apply Rmult_lt_0_compat; [apply Rmult_lt_0_compat|]; assumption|].
    apply Rle_trans with (C * (Rabs e * Rabs e ^ fk F)).
    - apply Rle_trans with (Rabs (f e) * (Rabs (IZR (fc F)) * Rabs e ^ fk F * Rabs (dprod tab (fx F) e))); [|exact HB].
      apply Rmult_le_compat_l; [apply Rabs_pos|]. apply Rmult_le_compat_l; [apply Rlt_le, Rmult_lt_0_compat; assumption|exact HD].
    - right. simpl. field. split; lra.
  Qed.
  Lemma sem_0 f : sem f 0 = match f with [] => 0 | p :: _ => PE l p end.
  Proof. destruct f as [|p f]; [reflexivity|]. cbn [AsymPoly.sem]. ring. Qed.
  Lemma sem_below f : sem f 0 <> 0 -> exists m d, 0 < m /\ 0 < d /\ forall e, Rabs e < d -> m <= Rabs (sem f e).
  Proof.
    destruct f as [|p f]; [intros H; elim H; reflexivity|]. rewrite sem_0. intros H. destruct (sem_bounded l f) as (C & d & HC & Hd & HB).
    assert (Pp : 0 < Rabs (PE l p)) by (apply Rabs_pos_lt; exact H). exists (Rabs (PE l p) / 2), (Rmin d (Rabs (PE l p) / (2 * (C + 1)))).
    split; [lra|]. split; [apply Rmin_glb_lt; [exact Hd|apply Rdiv_lt_0_compat; lra]|]. intros e He.
    assert (D1 : Rabs e < d) by (eapply Rlt_le_trans; [exact He|apply Rmin_l]). assert (D2 : Rabs e < Rabs (PE l p) / (2 * (C + 1))) by (eapply Rlt_le_trans; [exact He|apply Rmin_r]).
    cbn [AsymPoly.sem]. destruct (Req_dec e 0) as [->|N]; [replace (PE l p + 0 * sem f 0) with (PE l p) by ring; lra|].
    specialize (HB e N D1). simpl in HB. pose proof (Rabs_pos e). pose proof (Rabs_pos (sem f e)).
    assert (K : Rabs (e * sem f e) <= Rabs (PE l p) / 2).
    { rewrite Rabs_mult. apply Rle_trans with (Rabs (PE l p) / (2 * (C + 1)) * (C + 1)); [apply Rmult_le_compat; lra|right; field; lra]. }
    pose proof (Rabs_triang_inv (PE l p) (- (e * sem f e))) as T. rewrite Rabs_Ropp in T. replace (PE l p - - (e * sem f e)) with (PE l p + e * sem f e) in T by ring. lra.
  Qed.
  Lemma bounded_below t : (forall f, In f t -> sem f 0 <> 0) -> forall x, exists m d, 0 < m /\ 0 < d /\ forall e, Rabs e < d -> m <= Rabs (dprod t x e).
  Proof.
    induction t as [|f t IH]; intros HN x; [exists 1, 1; split; [lra|split; [lra|]]; intros; cbn [dprod]; rewrite Rabs_R1; lra|].
    destruct x as [|a x]; [exists 1, 1; split; [lra|split; [lra|]]; intros; cbn [dprod]; rewrite Rabs_R1; lra|].
    destruct (IH (fun g Hg => HN g (or_intror Hg)) x) as (m & d & Hm & Hd & HB). destruct (sem_below f (HN f (or_introl eq_refl))) as (m' & d' & Hm' & Hd' & HB').
    exists (m' ^ a * m), (Rmin d d'). split; [apply Rmult_lt_0_compat; [apply pow_lt|]; assumption|]. split; [apply Rmin_glb_lt; assumption|]. intros e He.
    assert (D1 : Rabs e < d) by (eapply Rlt_le_trans; [exact He|apply Rmin_l]). assert (D2 : Rabs e < d') by (eapply Rlt_le_trans; [exact He|apply Rmin_r]).
    cbn [dprod]. rewrite Rabs_mult, <- RPow_abs. apply Rmult_le_compat; [apply pow_le; lra|lra|apply pow_incr; split; [lra|apply HB'; exact D2]|apply HB; exact D1].
  Qed.
End Frac.
