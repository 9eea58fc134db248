(** * A checker for homogeneity
    If every variable is multiplied by s^weight, an expression accepted by [gr] is multiplied by s^(its weight).  Used with s > 0 and the
    mass dimension as weight, and with s = -1 and a sign charge.  Proof tool only, nothing here models code. *)
From Coq Require Import ZArith Reals Lra Lia Bool String.
From Verif Require Import Num NumFacts Except FieldNF ThreshTree.

(** [DZ]: the value is 0, of any weight *)
Inductive dm := DZ | DD (k : Z).
Definition dj (x y : option dm) : option dm :=
  match x, y with
  | Some DZ, Some y => Some y
  | Some x, Some DZ => Some x
  | Some (DD a), Some (DD b) => if Z.eqb a b then Some (DD a) else None
  | _, _ => None
  end.
Definition dw (x : dm) : Z := match x with DZ => 0 | DD k => k end.

Section Gr.
  Variables (d : positive -> Z) (nz : Z -> Z) (wsq wab : Z -> option Z) (wlt : Z -> bool)
    (w1 : positive -> Z -> option Z) (w2 : positive -> Z -> Z -> option Z) (w3 : positive -> Z -> Z -> Z -> option Z).
  Definition od (o : option Z) : option dm := match o with Some k => Some (DD k) | None => None end.
  Fixpoint gr (e : rx) : option dm :=
    match e with
    | XZ Z0 => Some DZ
    | XZ _ | XDec _ _ | XC _ => Some (DD 0)
    | XV v => Some (DD (nz (d v)))
    | XAdd a b | XSub a b | XSel _ a b => dj (gr a) (gr b)
    | XMul a b => match gr a, gr b with Some (DD k), Some (DD l) => Some (DD (nz (k + l))) | Some _, Some _ => Some DZ | _, _ => None end
    | XDiv a b => match gr a, gr b with Some (DD k), Some (DD l) => Some (DD (nz (k - l))) | Some DZ, Some _ => Some DZ | _, _ => None end
    | XNeg a => gr a
    | XLog a => match gr a with Some (DD Z0) => Some (DD 0) | _ => None end
    | XSqrt a => match gr a with Some (DD k) => od (wsq k) | _ => None end
    | XAbs a => match gr a with Some (DD k) => od (wab k) | _ => None end
    | XF1 f a => match gr a with Some x => od (w1 f (dw x)) | _ => None end
    | XF2 f a b => match gr a, gr b with Some x, Some y => od (w2 f (dw x) (dw y)) | _, _ => None end
    | XF3 f a b c => match gr a, gr b, gr c with Some x, Some y, Some z => od (w3 f (dw x) (dw y) (dw z)) | _, _, _ => None end
    end.
  Fixpoint gc (c : cx) : bool :=
    match c with
    | CLt a b => match dj (gr a) (gr b) with Some x => wlt (dw x) | None => false end
    | CRel _ _ _ => false
    | CB _ => true
    | CAnd a b | COr a b => gc a && gc b
    end.
  Fixpoint gs (x : rs) : option dm :=
    match x with
    | SRet e => gr e
    | SIf c a b => if gc c then dj (gs a) (gs b) else None
    | SThrow _ => Some DZ
    end.
  (** weight [k] *)
  Definition gsk (x : rs) (k : Z) : bool := match gs x with Some DZ => true | Some (DD l) => Z.eqb l k | None => false end.

  Section Sound.
    Variables (s : R) (G3 : positive -> R -> R -> R -> R) (u u' : positive -> R).
    Hypothesis Hs : s <> 0%R.
    Hypothesis Hu : forall v, u' v = (powerRZ s (d v) * u v)%R.
    Hypothesis Hnz : forall k, powerRZ s (nz k) = powerRZ s k.
    Hypothesis Hsq : forall k l, wsq k = Some l -> forall x, R_sqrt.sqrt (powerRZ s k * x) = (powerRZ s l * R_sqrt.sqrt x)%R.
    Hypothesis Hab : forall k l, wab k = Some l -> forall x, Rabs (powerRZ s k * x) = (powerRZ s l * Rabs x)%R.
    Hypothesis Hlt : forall k, wlt k = true -> (0 < powerRZ s k)%R.
    Hypothesis H1 : forall f k l, w1 f k = Some l -> forall x, fun1 f (powerRZ s k * x) = (powerRZ s l * fun1 f x)%R.
    Hypothesis H2 : forall f k k' l, w2 f k k' = Some l -> forall x y, fun2 f (powerRZ s k * x) (powerRZ s k' * y) = (powerRZ s l * fun2 f x y)%R.
    Hypothesis H3 : forall f k k' k'' l, w3 f k k' k'' = Some l -> forall x y z,
      G3 f (powerRZ s k * x)%R (powerRZ s k' * y)%R (powerRZ s k'' * z)%R = (powerRZ s l * G3 f x y z)%R.
    Notation ev := (rev u fun1 fun2 G3). Notation ev' := (rev u' fun1 fun2 G3).
    Definition rl (x : dm) (a a' : R) : Prop := match x with DZ => a = 0 /\ a' = 0 | DD k => a' = powerRZ s k * a end%R.
    Lemma rl_dw x a a' : rl x a a' -> a' = (powerRZ s (dw x) * a)%R.
    Proof. destruct x as [|k]; cbn [rl dw]; [intros (-> & ->); ring|tauto]. Qed.
    Lemma dj_rl x y z : dj x y = Some z -> exists a b, x = Some a /\ y = Some b /\
      (forall v v', rl a v v' -> rl z v v') /\ (forall v v', rl b v v' -> rl z v v').
    Proof.
      intros H. destruct x as [[|k]|]; destruct y as [[|l]|]; cbn [dj] in H; try discriminate.
      - exists DZ, DZ. assert (z = DZ) by congruence. subst. split; [reflexivity|split; [reflexivity|split]]; tauto.
      - exists DZ, (DD l). assert (z = DD l) by congruence. subst. split; [reflexivity|split; [reflexivity|split]]; cbn; (tauto || (intros v v' (-> & ->); ring)).
      - exists (DD k), DZ. assert (z = DD k) by congruence. subst. split; [reflexivity|split; [reflexivity|split]]; cbn; (tauto || (intros v v' (-> & ->); ring)).
      - destruct (Z.eqb_spec k l) as [->|]; [|discriminate]. exists (DD l), (DD l). assert (z = DD l) by congruence. subst. split; [reflexivity|split; [reflexivity|split]]; tauto.
    Qed.
    Lemma rl_add z a a' b b' : rl z a a' -> rl z b b' -> rl z (a + b)%R (a' + b')%R.
    Proof. destruct z; cbn; [intros (-> & ->) (-> & ->); split; ring|intros -> ->; ring]. Qed.
    Lemma rl_neg z a a' : rl z a a' -> rl z (- a)%R (- a')%R.
    Proof. destruct z; cbn; [intros (-> & ->); split; ring|intros ->; ring]. Qed.
    Lemma inv_mul a b : (/ (a * b) = / a * / b)%R.
    Proof. apply Rinv_mult. Qed.
    Lemma od_ok o z : od o = Some z -> exists l, o = Some l /\ z = DD l.
    Proof. destruct o; cbn; [intros H; eexists; split; [reflexivity|congruence]|discriminate]. Qed.
    Lemma gr_ok e : forall z, gr e = Some z -> rl z (ev e) (ev' e).
    Proof.
      induction e as [z0|m k|c|v|a IHa b IHb|a IHa b IHb|a IHa b IHb|a IHa b IHb|a IHa|c a IHa b IHb|a IHa|a IHa|a IHa|f a IHa|f a IHa b IHb|f a IHa b IHb c IHc];
        intros z H; cbn [gr] in H; cbn [rev].
      - destruct z0; [assert (z = DZ) by congruence|assert (z = DD 0) by congruence|assert (z = DD 0) by congruence]; subst z; cbn [rl powerRZ]; [split; reflexivity|ring|ring].
      - assert (z = DD 0) by congruence. subst z. cbn [rl powerRZ]. ring.
      - assert (z = DD 0) by congruence. subst z. cbn [rl powerRZ]. ring.
      - assert (z = DD (nz (d v))) by congruence. subst z. cbn [rl]. rewrite Hnz. apply Hu.
      - destruct (dj_rl _ _ _ H) as (x & y & E1 & E2 & A & B). apply rl_add; auto.
      - destruct (dj_rl _ _ _ H) as (x & y & E1 & E2 & A & B). apply rl_add; [auto|apply rl_neg; auto].
      - destruct (gr a) as [x|]; [|discriminate]. specialize (IHa _ eq_refl).
        destruct (gr b) as [y|]; [|destruct x; discriminate]. specialize (IHb _ eq_refl).
        destruct x as [|k]; destruct y as [|l]; cbn [rl] in IHa, IHb.
        + assert (z = DZ) by congruence. subst z. cbn. destruct IHa as (-> & ->). split; ring.
        + assert (z = DZ) by congruence. subst z. cbn. destruct IHa as (-> & ->). split; ring.
        + assert (z = DZ) by congruence. subst z. cbn. destruct IHb as (-> & ->). split; ring.
        + assert (z = DD (nz (k + l))) by congruence. subst z. cbn [rl]. rewrite Hnz, powerRZ_add by exact Hs. rewrite IHa, IHb. ring.
      - destruct (gr a) as [x|]; [|discriminate]. specialize (IHa _ eq_refl).
        destruct (gr b) as [y|]; [|destruct x; discriminate]. specialize (IHb _ eq_refl).
        destruct x as [|k]; destruct y as [|l]; cbn [rl] in IHa, IHb; try discriminate.
        + assert (z = DZ) by congruence. subst z. cbn. destruct IHa as (-> & ->). unfold Rdiv; split; ring.
        + assert (z = DZ) by congruence. subst z. cbn. destruct IHa as (-> & ->). unfold Rdiv; split; ring.
        + assert (z = DD (nz (k - l))) by congruence. subst z. cbn [rl]. rewrite Hnz. unfold Zminus. rewrite powerRZ_add by exact Hs. rewrite powerRZ_neg'. rewrite IHa, IHb.
          unfold Rdiv. rewrite inv_mul. ring.
      - apply rl_neg. auto.
      - destruct (dj_rl _ _ _ H) as (x & y & E1 & E2 & A & B). destruct c; auto.
      - destruct (gr a) as [[|[| |]]|]; try discriminate. specialize (IHa _ eq_refl). cbn [rl powerRZ] in IHa. rewrite Rmult_1_l in IHa.
        assert (z = DD 0) by congruence. subst z. cbn. rewrite IHa. ring.
      - destruct (gr a) as [[|k]|]; try discriminate. specialize (IHa _ eq_refl). cbn [rl] in IHa. destruct (od_ok _ _ H) as (l & E & ->). cbn [rl]. rewrite IHa. apply Hsq; exact E.
      - destruct (gr a) as [[|k]|]; try discriminate. specialize (IHa _ eq_refl). cbn [rl] in IHa. destruct (od_ok _ _ H) as (l & E & ->). cbn [rl]. rewrite IHa. apply Hab; exact E.
      - destruct (gr a) as [x|]; try discriminate. specialize (IHa _ eq_refl). apply rl_dw in IHa. destruct (od_ok _ _ H) as (l & E & ->). cbn [rl]. rewrite IHa. apply H1; exact E.
      - destruct (gr a) as [x|]; try discriminate. destruct (gr b) as [y|]; try discriminate. specialize (IHa _ eq_refl). specialize (IHb _ eq_refl).
        apply rl_dw in IHa, IHb. destruct (od_ok _ _ H) as (l & E & ->). cbn [rl]. rewrite IHa, IHb. apply H2; exact E.
      - destruct (gr a) as [x|]; try discriminate. destruct (gr b) as [y|]; try discriminate. destruct (gr c) as [w|]; try discriminate.
        specialize (IHa _ eq_refl). specialize (IHb _ eq_refl). specialize (IHc _ eq_refl).
        apply rl_dw in IHa, IHb, IHc. destruct (od_ok _ _ H) as (l & E & ->). cbn [rl]. rewrite IHa, IHb, IHc. apply H3; exact E.
    Qed.
    Lemma Rltb_scale t a b : (0 < t)%R -> nltb (t * a)%R (t * b)%R = nltb a b.
    Proof.
      intros Ht. cbn. unfold Rltb. destruct (Rlt_dec a b) as [L|L], (Rlt_dec (t * a) (t * b)) as [L'|L']; try reflexivity; exfalso.
      - apply L'. apply Rmult_lt_compat_l; assumption.
      - apply L. apply (Rmult_lt_reg_l t); assumption.
    Qed.
    Lemma gc_ok c : gc c = true -> cev G3 u' c = cev G3 u c.
    Proof.
      induction c as [a b|a b c|b|a IHa b IHb|a IHa b IHb]; cbn [gc cev]; try discriminate.
      - destruct (dj (gr a) (gr b)) as [x|] eqn:E; [|discriminate]. intros H. destruct (dj_rl _ _ _ E) as (y & z & E1 & E2 & A & B).
        rewrite (rl_dw _ _ _ (A _ _ (gr_ok _ _ E1))), (rl_dw _ _ _ (B _ _ (gr_ok _ _ E2))). apply Rltb_scale. apply Hlt. exact H.
      - reflexivity.
      - rewrite andb_true_iff. intros (A & B). rewrite IHa, IHb by assumption. reflexivity.
      - rewrite andb_true_iff. intros (A & B). rewrite IHa, IHb by assumption. reflexivity.
    Qed.
    Definition rres (z : dm) (a a' : res R) : Prop :=
      match a, a' with Ok x, Ok y => rl z x y | Throw m, Throw m' => m = m' | _, _ => False end.
    Lemma gs_ok x : forall z, gs x = Some z -> rres z (sevG G3 u x) (sevG G3 u' x) /\ rl z (sevTG G3 u x) (sevTG G3 u' x).
    Proof.
      induction x as [e|c a IHa b IHb|m]; intros z H; cbn [gs] in H; cbn [sevG sevTG rres].
      - split; apply gr_ok; exact H.
      - destruct (gc c) eqn:C; [|discriminate]. rewrite (gc_ok c C). destruct (dj_rl _ _ _ H) as (p & q & E1 & E2 & A & B).
        assert (AA : forall r r', rres p r r' -> rres z r r') by (intros [?|?] [?|?]; cbn; auto).
        assert (BB : forall r r', rres q r r' -> rres z r r') by (intros [?|?] [?|?]; cbn; auto).
        destruct (cev G3 u c); [destruct (IHa _ E1)|destruct (IHb _ E2)]; split; auto.
      - split; [reflexivity|]. assert (z = DZ) by congruence. subst z. split; reflexivity.
    Qed.
    Theorem gsk_T x k : gsk x k = true -> sevTG G3 u' x = (powerRZ s k * sevTG G3 u x)%R.
    Proof.
      unfold gsk. destruct (gs x) as [z|] eqn:E; [|discriminate]. destruct (gs_ok x z E) as (_ & H). destruct z as [|l]; cbn [rl] in H.
      - destruct H as (-> & ->). intros; ring.
      - intros K. apply Z.eqb_eq in K. subst l. exact H.
    Qed.
    Theorem gsk_0 x : gsk x 0 = true -> sevG G3 u' x = sevG G3 u x.
    Proof.
      unfold gsk. destruct (gs x) as [z|] eqn:E; [|discriminate]. destruct (gs_ok x z E) as (H & _). unfold rres in H.
      destruct (sevG G3 u x) as [a|m], (sevG G3 u' x) as [b|m']; try contradiction; intros K.
      - f_equal. destruct z as [|l]; cbn [rl] in H; [destruct H; congruence|]. apply Z.eqb_eq in K. subst l. cbn in H. rewrite H. ring.
      - congruence.
    Qed.
  End Sound.
End Gr.
