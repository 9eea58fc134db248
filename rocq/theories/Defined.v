(** * Definedness of the strong threshold corrections: tools *)
From Coq Require Import Reals Lra Lia List ZArith Bool.
From Verif Require Import Num NumFacts Except Params HierFormulas Dilog DilogExists PropDilog LoopFun Thresh ThreshTwo Threshold ThreshSpec XtIdent.
Import ListNotations.
Open Scope R_scope.

(** the parameters as arguments of the partial-real reading of the model *)
Definition lift3 (m : mat3 R) : mat3 PR := mkM3 (Some (a00 m)) (Some (a01 m)) (Some (a02 m)) (Some (a10 m)) (Some (a11 m)) (Some (a12 m)) (Some (a20 m)) (Some (a21 m)) (Some (a22 m)).
Definition lift2 (v : vec2 R) : vec2 PR := mkV2 (Some (v0 v)) (Some (v1 v)).
Definition liftP (p : Params R) : Params PR :=
  mkParams (Some (scale p)) (Some (mu p)) (Some (g1 p)) (Some (g2 p)) (Some (g3 p)) (Some (vd p)) (Some (vu p))
    (lift3 (mq2 p)) (lift3 (md2 p)) (lift3 (mu2 p)) (lift3 (ml2 p)) (lift3 (me2 p)) (lift3 (Au p)) (lift3 (Ad p)) (lift3 (Ae p)) (lift3 (Yu p)) (lift3 (Yd p)) (lift3 (Ye p))
    (Some (M1 p)) (Some (M2 p)) (Some (MG p)) (Some (MW p)) (Some (MZ p)) (Some (Mt p)) (Some (Mb p)) (Some (Mtau p)) (Some (MA p))
    (lift2 (MSt p)) (lift2 (MSb p)) (lift2 (MStau p)) (Some (s2t p)) (Some (s2b p)) (Some (s2tau p)) (Some (theta_t p)) (Some (theta_b p)) (Some (theta_tau p)) (massLimit3LThreshold p).
Definition liftTC (c : TC R) : TC PR := mkTC (liftP (tc_p c)) (Some (tc_msq2 c)) (tc_xt c).

Definition Dd (a : PR) : Prop := exists v, a = Some v.
Lemma D_some v : Dd (Some v). Proof. exists v; reflexivity. Qed.
Lemma D_int z : Dd (@nint PR NumP z). Proof. eexists; reflexivity. Qed.
Lemma D_dec m k : Dd (@ndec PR NumP m k). Proof. eexists; reflexivity. Qed.
Lemma D_add a b : Dd a -> Dd b -> Dd (@nadd PR NumP a b). Proof. intros [x ->] [y ->]. eexists; reflexivity. Qed.
Lemma D_sub a b : Dd a -> Dd b -> Dd (@nsub PR NumP a b). Proof. intros [x ->] [y ->]. eexists; reflexivity. Qed.
Lemma D_mul a b : Dd a -> Dd b -> Dd (@nmul PR NumP a b). Proof. intros [x ->] [y ->]. eexists; reflexivity. Qed.
Lemma D_neg a : Dd a -> Dd (@nneg PR NumP a). Proof. intros [x ->]. eexists; reflexivity. Qed.
Lemma D_pow2 a : Dd a -> Dd (pow2 a). Proof. intros [x ->]. eexists; reflexivity. Qed.
Lemma D_pow3 a : Dd a -> Dd (pow3 a). Proof. intros [x ->]. eexists; reflexivity. Qed.
Lemma D_pow4 a : Dd a -> Dd (pow4 a). Proof. intros [x ->]. eexists; reflexivity. Qed.
Lemma D_pow5 a : Dd a -> Dd (pow5 a). Proof. intros [x ->]. eexists; reflexivity. Qed.
Lemma D_pow6 a : Dd a -> Dd (pow6 a). Proof. intros [x ->]. eexists; reflexivity. Qed.
Lemma D_pow7 a : Dd a -> Dd (pow7 a). Proof. intros [x ->]. eexists; reflexivity. Qed.
Lemma D_pow8 a : Dd a -> Dd (pow8 a). Proof. intros [x ->]. eexists; reflexivity. Qed.
Lemma D_pow9 a : Dd a -> Dd (pow9 a). Proof. intros [x ->]. eexists; reflexivity. Qed.
Lemma D_power10 a : Dd a -> Dd (power10 a). Proof. intros [x ->]. eexists; reflexivity. Qed.
Lemma D_pow11 a : Dd a -> Dd (pow11 a). Proof. intros [x ->]. eexists; reflexivity. Qed.
Lemma D_pow12 a : Dd a -> Dd (pow12 a). Proof. intros [x ->]. eexists; reflexivity. Qed.
Lemma D_pow13 a : Dd a -> Dd (pow13 a). Proof. intros [x ->]. eexists; reflexivity. Qed.
Lemma D_pow14 a : Dd a -> Dd (pow14 a). Proof. intros [x ->]. eexists; reflexivity. Qed.
Lemma D_pow15 a : Dd a -> Dd (pow15 a). Proof. intros [x ->]. eexists; reflexivity. Qed.
Lemma D_pow16 a : Dd a -> Dd (pow16 a). Proof. intros [x ->]. eexists; reflexivity. Qed.
Lemma D_pow18 a : Dd a -> Dd (pow18 a). Proof. intros [x ->]. eexists; reflexivity. Qed.
Lemma D_dilog a : Dd a -> Dd (dilog a).
Proof. intros [x ->]. destruct ReLi2_exists as [L HL]. destruct (C27_dilog L HL x) as (v & Hv & _). exists v. exact Hv. Qed.
(** values *)
Lemma V_add a b x y : a = Some x -> b = Some y -> @nadd PR NumP a b = Some (x + y). Proof. intros -> ->. reflexivity. Qed.
Lemma V_sub a b x y : a = Some x -> b = Some y -> @nsub PR NumP a b = Some (x - y). Proof. intros -> ->. reflexivity. Qed.
Lemma V_mul a b x y : a = Some x -> b = Some y -> @nmul PR NumP a b = Some (x * y). Proof. intros -> ->. reflexivity. Qed.
Lemma V_neg a x : a = Some x -> @nneg PR NumP a = Some (- x). Proof. intros ->. reflexivity. Qed.
Lemma V_int z : @nint PR NumP z = Some (IZR z). Proof. reflexivity. Qed.
Lemma V_div a b x y : a = Some x -> b = Some y -> y <> 0 -> @ndiv PR NumP a b = Some (x / y).
Proof. intros -> -> H. change (pdiv (Some x) (Some y) = Some (x / y)). unfold pdiv. rewrite (Reqb_false _ _ H). reflexivity. Qed.
Ltac vpow := intros ->; unfold pow18, pow16, pow15, pow14, pow13, pow12, pow11, power10, pow9, pow8, pow7, pow6, pow5, pow4, pow3, pow2; cbn [nmul NumP p2]; apply f_equal; ring.
Lemma V_pow2 a x : a = Some x -> pow2 a = Some (x ^ 2). Proof. vpow. Qed.
Lemma V_pow3 a x : a = Some x -> pow3 a = Some (x ^ 3). Proof. vpow. Qed.
Lemma V_pow4 a x : a = Some x -> pow4 a = Some (x ^ 4). Proof. vpow. Qed.
Lemma V_pow5 a x : a = Some x -> pow5 a = Some (x ^ 5). Proof. vpow. Qed.
Lemma V_pow6 a x : a = Some x -> pow6 a = Some (x ^ 6). Proof. vpow. Qed.
Lemma V_pow7 a x : a = Some x -> pow7 a = Some (x ^ 7). Proof. vpow. Qed.
Lemma V_pow8 a x : a = Some x -> pow8 a = Some (x ^ 8). Proof. vpow. Qed.
Lemma V_pow9 a x : a = Some x -> pow9 a = Some (x ^ 9). Proof. vpow. Qed.
Lemma V_power10 a x : a = Some x -> power10 a = Some (x ^ 10). Proof. vpow. Qed.
Lemma V_pow11 a x : a = Some x -> pow11 a = Some (x ^ 11). Proof. vpow. Qed.
Lemma V_pow12 a x : a = Some x -> pow12 a = Some (x ^ 12). Proof. vpow. Qed.
Lemma V_sqrt x : 0 < x -> @nsqrt PR NumP (Some x) = Some (sqrt x).
Proof. intros H. change (pguard (fun x => Rleb 0 x) sqrt (Some x) = Some (sqrt x)). unfold pguard. rewrite (Rleb_true 0 x) by lra. reflexivity. Qed.
Lemma V_sqrt_sq q : 0 < q -> @nsqrt PR NumP (Some (q * q)) = Some q.
Proof. intros H. change (pguard (fun x => Rleb 0 x) sqrt (Some (q * q)) = Some q). unfold pguard. rewrite (Rleb_true 0 (q * q)) by nra. rewrite sqrt_square by lra. reflexivity. Qed.
Lemma V_sqrt_pow2 q : 0 < q -> @nsqrt PR NumP (@pow2 PR NumP (Some q)) = Some q.
Proof. intros H. exact (V_sqrt_sq q H). Qed.
Lemma D_div a b y : Dd a -> b = Some y -> y <> 0 -> Dd (@ndiv PR NumP a b).
Proof. intros [x ->] Hb H. eexists. apply V_div; [reflexivity|exact Hb|exact H]. Qed.
Lemma D_log a x : a = Some x -> 0 < x -> Dd (@nlog PR NumP a).
Proof. intros -> H. change (Dd (pguard (fun x => Rltb 0 x) ln (Some x))). unfold pguard. rewrite (Rltb_true _ _ H). eexists; reflexivity. Qed.


(** ** Reflection: syntax of the expressions, their partial value, and the conditions for it to exist *)
Inductive ex := EV (n : nat) | EZ (z : Z) | EC (m k : Z) | EA (a b : ex) | ES (a b : ex) | EM (a b : ex) | EN (a : ex) | ED (a b : ex) | EP (n : nat) (a : ex) | EL (a : ex) | EI (a : ex) | ER (a : ex) | EB (b : bool) (x y : ex).
Definition powP (n : nat) : PR -> PR :=
  match n with 2 => pow2 | 3 => pow3 | 4 => pow4 | 5 => pow5 | 6 => pow6 | 7 => pow7 | 8 => pow8 | 9 => pow9 | 10 => power10 | 11 => pow11 | 12 => pow12
  | 13 => pow13 | 14 => pow14 | 15 => pow15 | 16 => pow16 | 17 => pow17 | 18 => pow18 | _ => fun _ => None end%nat.
Fixpoint evP (v : list R) (e : ex) : PR :=
  match e with
  | EV n => Some (nth n v 0)
  | EZ z => @nint PR NumP z
  | EC m k => @ndec PR NumP m k
  | EA a b => @nadd PR NumP (evP v a) (evP v b)
  | ES a b => @nsub PR NumP (evP v a) (evP v b)
  | EM a b => @nmul PR NumP (evP v a) (evP v b)
  | EN a => @nneg PR NumP (evP v a)
  | ED a b => @ndiv PR NumP (evP v a) (evP v b)
  | EP n a => powP n (evP v a)
  | EL a => @nlog PR NumP (evP v a)
  | EI a => @dilog PR NumP (evP v a)
  | ER a => @nsqrt PR NumP (evP v a)
  | EB b x y => if b then evP v x else evP v y
  end.
(** the value of an expression without logarithms and dilogarithms *)
Fixpoint evR (v : list R) (e : ex) : R :=
  match e with
  | EV n => nth n v 0 | EZ z => IZR z | EC m k => Rdec m k
  | EA a b => evR v a + evR v b | ES a b => evR v a - evR v b | EM a b => evR v a * evR v b | EN a => - evR v a
  | ED a b => evR v a / evR v b | EP n a => evR v a ^ n | EL _ => 0 | EI _ => 0 | ER a => sqrt (evR v a) | EB b x y => if b then evR v x else evR v y
  end.
Fixpoint rational (e : ex) : bool :=
  match e with
  | EV _ | EZ _ | EC _ _ => true | EA a b | ES a b | EM a b => rational a && rational b | EN a => rational a | ED a b => rational a && rational b
  | EP n a => (2 <=? n)%nat && (n <=? 18)%nat && rational a | EL _ => false | EI _ => false | ER a => rational a | EB b x y => rational x && rational y
  end.
(** conditions: (true, e): e > 0; (false, e): e <> 0 *)
Fixpoint conds (e : ex) : option (list (bool * ex)) :=
  match e with
  | EV _ | EZ _ | EC _ _ => Some []
  | EA a b | ES a b | EM a b => match conds a, conds b with Some x, Some y => Some (x ++ y) | _, _ => None end
  | EN a | EI a => conds a
  | ED a b => match conds a, conds b with Some x, Some y => if rational b then Some ((false, b) :: x ++ y) else None | _, _ => None end
  | EP n a => if ((2 <=? n) && (n <=? 18))%nat then conds a else None
  | EL a | ER a => match conds a with Some x => if rational a then Some ((true, a) :: x) else None | None => None end
  | EB b a c => match conds a, conds c with Some x, Some y => Some (x ++ y) | _, _ => None end
  end.
Definition meets (v : list R) (c : bool * ex) : Prop := if fst c then 0 < evR v (snd c) else evR v (snd c) <> 0.
Lemma powP_value n x : (2 <= n <= 18)%nat -> powP n (Some x) = Some (x ^ n).
Proof.
  intros H. do 19 (destruct n as [|n]; [try (exfalso; lia); unfold powP; unfold pow18, pow17, pow16, pow15, pow14, pow13, pow12, pow11, power10, pow9, pow8, pow7, pow6, pow5, pow4, pow3, pow2; cbn [nmul NumP p2]; apply f_equal; ring|]).
  exfalso; lia.
Qed.
Lemma rational_value v e l : rational e = true -> conds e = Some l -> (forall c, In c l -> meets v c) -> evP v e = Some (evR v e).
Proof.
  revert l. induction e; intros l HR HC HM; cbn [rational conds evP evR] in *; try discriminate; try reflexivity.
  - apply andb_prop in HR. destruct HR. destruct (conds e1) as [x|]; [|discriminate]. destruct (conds e2) as [y|]; [|discriminate]. injection HC as <-.
    rewrite (IHe1 x), (IHe2 y); try assumption; try reflexivity; intros c Hc; apply HM; apply in_or_app; tauto.
  - apply andb_prop in HR. destruct HR. destruct (conds e1) as [x|]; [|discriminate]. destruct (conds e2) as [y|]; [|discriminate]. injection HC as <-.
    rewrite (IHe1 x), (IHe2 y); try assumption; try reflexivity; intros c Hc; apply HM; apply in_or_app; tauto.
  - apply andb_prop in HR. destruct HR. destruct (conds e1) as [x|]; [|discriminate]. destruct (conds e2) as [y|]; [|discriminate]. injection HC as <-.
    rewrite (IHe1 x), (IHe2 y); try assumption; try reflexivity; intros c Hc; apply HM; apply in_or_app; tauto.
  - rewrite (IHe l) by assumption. reflexivity.
  - apply andb_prop in HR. destruct HR as [R1 R2]. rewrite R2 in HC. destruct (conds e1) as [x|]; [|discriminate]. destruct (conds e2) as [y|]; [|discriminate]. injection HC as <-.
    apply V_div; [apply (IHe1 x)|apply (IHe2 y)|apply (HM (false, e2)); left; reflexivity]; try assumption; try reflexivity; intros c Hc; apply HM; right; apply in_or_app; tauto.
  - apply andb_prop in HR. destruct HR as [R1 R2]. rewrite R1 in HC. rewrite (IHe l) by assumption. apply powP_value. apply andb_prop in R1. destruct R1 as [A B]. apply Nat.leb_le in A, B. lia.
  - rewrite HR in HC. destruct (conds e) as [x|]; [|discriminate]. injection HC as <-. rewrite (IHe x); try assumption; try reflexivity; [|intros c Hc; apply HM; right; exact Hc].
    apply V_sqrt. apply (HM (true, e)). left; reflexivity.
  - apply andb_prop in HR. destruct HR. destruct (conds e1) as [x|]; [|discriminate]. destruct (conds e2) as [y|]; [|discriminate]. injection HC as <-.
    destruct b; [apply (IHe1 x)|apply (IHe2 y)]; try assumption; try reflexivity; intros c Hc; apply HM; apply in_or_app; tauto.
Qed.
Lemma conds_defined v e l : conds e = Some l -> (forall c, In c l -> meets v c) -> Dd (evP v e).
Proof.
  revert l. induction e; intros l HC HM; cbn [conds evP] in *; try (eexists; reflexivity).
  - destruct (conds e1) as [x|]; [|discriminate]. destruct (conds e2) as [y|]; [|discriminate]. injection HC as <-.
    apply D_add; [apply (IHe1 x)|apply (IHe2 y)]; try reflexivity; intros c Hc; apply HM; apply in_or_app; tauto.
  - destruct (conds e1) as [x|]; [|discriminate]. destruct (conds e2) as [y|]; [|discriminate]. injection HC as <-.
    apply D_sub; [apply (IHe1 x)|apply (IHe2 y)]; try reflexivity; intros c Hc; apply HM; apply in_or_app; tauto.
  - destruct (conds e1) as [x|]; [|discriminate]. destruct (conds e2) as [y|]; [|discriminate]. injection HC as <-.
    apply D_mul; [apply (IHe1 x)|apply (IHe2 y)]; try reflexivity; intros c Hc; apply HM; apply in_or_app; tauto.
  - apply D_neg. apply (IHe l); assumption.
  - destruct (conds e1) as [x|] eqn:C1; [|discriminate]. destruct (conds e2) as [y|] eqn:C2; [|discriminate]. destruct (rational e2) eqn:R; [|discriminate]. injection HC as <-.
    eapply D_div; [apply (IHe1 x)|apply (rational_value v e2 y)|apply (HM (false, e2)); left; reflexivity]; try assumption; try reflexivity; intros c Hc; apply HM; right; apply in_or_app; tauto.
  - destruct ((2 <=? n) && (n <=? 18))%nat eqn:B; [|discriminate]. destruct (IHe l HC HM) as [x ->]. exists (x ^ n). apply powP_value. apply andb_prop in B. destruct B as [A B]. apply Nat.leb_le in A, B. lia.
  - destruct (conds e) as [x|] eqn:C; [|discriminate]. destruct (rational e) eqn:R; [|discriminate]. injection HC as <-.
    eapply D_log; [apply (rational_value v e x)|apply (HM (true, e)); left; reflexivity]; try assumption. intros c Hc; apply HM; right; exact Hc.
  - apply D_dilog. apply (IHe l); assumption.
  - destruct (conds e) as [x|] eqn:C; [|discriminate]. destruct (rational e) eqn:R; [|discriminate]. injection HC as <-.
    rewrite (rational_value v e x R C) by (intros c Hc; apply HM; right; exact Hc). eexists. apply V_sqrt. apply (HM (true, e)). left; reflexivity.
  - destruct (conds e1) as [x|]; [|discriminate]. destruct (conds e2) as [y|]; [|discriminate]. injection HC as <-.
    destruct b; [apply (IHe1 x)|apply (IHe2 y)]; try reflexivity; intros c Hc; apply HM; apply in_or_app; tauto.
Qed.
(** duplicate conditions are removed, products and powers are split into factors *)
Fixpoint ex_eqb (a b : ex) : bool :=
  match a, b with
  | EV n, EV m => Nat.eqb n m | EZ x, EZ y => Z.eqb x y | EC x y, EC z w => Z.eqb x z && Z.eqb y w
  | EA x y, EA z w | ES x y, ES z w | EM x y, EM z w | ED x y, ED z w => ex_eqb x z && ex_eqb y w
  | EN x, EN y | EL x, EL y | EI x, EI y | ER x, ER y => ex_eqb x y | EB b x y, EB c z w => Bool.eqb b c && ex_eqb x z && ex_eqb y w | EP n x, EP m y => Nat.eqb n m && ex_eqb x y
  | _, _ => false
  end.
Lemma ex_eqb_eq a b : ex_eqb a b = true -> a = b.
Proof.
  revert b. induction a; intros bb; destruct bb; cbn [ex_eqb]; try discriminate; intros H; try (apply andb_prop in H; destruct H as [H1 H2]);
    try (apply Nat.eqb_eq in H; subst; reflexivity); try (apply Z.eqb_eq in H; subst; reflexivity); try (apply IHa in H; subst; reflexivity);
    try (apply IHa1 in H1; apply IHa2 in H2; subst; reflexivity).
  - apply Z.eqb_eq in H1, H2. subst. reflexivity.
  - apply Nat.eqb_eq in H1. apply IHa in H2. subst. reflexivity.
  - apply andb_prop in H1. destruct H1 as [H0 H1]. apply Bool.eqb_prop in H0. apply IHa1 in H1. apply IHa2 in H2. subst. reflexivity.
Qed.
Definition atoms (c : bool * ex) : list (bool * ex) :=
  let '(b, e) := c in
  (fix go (e : ex) : list (bool * ex) :=
    match e with EM x y => go x ++ go y | EP n x => go x | ED x y => if b then go x ++ go y else [(b, e)] | EN x => if b then [(b, e)] else go x
    | EZ z => if (0 <? z)%Z then [] else if b then [(b, e)] else if (z <? 0)%Z then [] else [(b, e)] | _ => [(b, e)] end) e.
Lemma mul_nz x y : x <> 0 -> y <> 0 -> x * y <> 0. Proof. intros. apply Rmult_integral_contrapositive. split; assumption. Qed.
Lemma atoms_ok v c : (forall d, In d (atoms c) -> meets v d) -> meets v c.
Proof.
  destruct c as [b e]. induction e; intros H; try (apply H; left; reflexivity).
  - cbn [atoms] in H. unfold meets; cbn [fst snd evR]. destruct (0 <? z)%Z eqn:Z0.
    + apply Z.ltb_lt in Z0. apply IZR_lt in Z0. destruct b; lra.
    + destruct b; [apply (H (true, EZ z)); left; reflexivity|]. destruct (z <? 0)%Z eqn:Z1; [|apply (H (false, EZ z)); left; reflexivity].
      apply Z.ltb_lt in Z1. apply IZR_lt in Z1. lra.
  - assert (A : meets v (b, e1)) by (apply IHe1; intros d Hd; apply H; cbn [atoms]; apply in_or_app; left; exact Hd).
    assert (B : meets v (b, e2)) by (apply IHe2; intros d Hd; apply H; cbn [atoms]; apply in_or_app; right; exact Hd).
    unfold meets in *; cbn [fst snd evR] in *. destruct b; [apply Rmult_lt_0_compat; assumption|apply mul_nz; assumption].
  - destruct b; [apply H; left; reflexivity|]. assert (A : meets v (false, e)) by (apply IHe; exact H). unfold meets in *; cbn [fst snd evR] in *. lra.
  - destruct b; [|apply H; left; reflexivity].
    assert (A : meets v (true, e1)) by (apply IHe1; intros d Hd; apply H; cbn [atoms]; apply in_or_app; left; exact Hd).
    assert (B : meets v (true, e2)) by (apply IHe2; intros d Hd; apply H; cbn [atoms]; apply in_or_app; right; exact Hd).
    unfold meets in *; cbn [fst snd evR] in *. apply Rdiv_lt_0_compat; assumption.
  - assert (A : meets v (b, e)) by (apply IHe; exact H). unfold meets in *; cbn [fst snd evR] in *. destruct b; [apply pow_lt; exact A|apply pow_nonzero; exact A].
Qed.
Definition c_eqb (a b : bool * ex) : bool := Bool.eqb (fst a) (fst b) && ex_eqb (snd a) (snd b).
Fixpoint dedup (l : list (bool * ex)) : list (bool * ex) :=
  match l with [] => [] | c :: t => let r := dedup t in if existsb (c_eqb c) r then r else c :: r end.
Lemma dedup_in c l : In c l -> In c (dedup l).
Proof.
  induction l as [|d t IH]; [intros []|]. intros [->|H]; cbn [dedup].
  - destruct (existsb (c_eqb c) (dedup t)) eqn:E; [|left; reflexivity]. apply existsb_exists in E. destruct E as (y & Hy & E). unfold c_eqb in E. apply andb_prop in E. destruct E as [A B].
    apply Bool.eqb_prop in A. apply ex_eqb_eq in B. destruct c, y; cbn in *; subst. exact Hy.
  - destruct (existsb (c_eqb d) (dedup t)); [apply IH; exact H|right; apply IH; exact H].
Qed.
Definition conditions (e : ex) : option (list (bool * ex)) := match conds e with Some l => Some (dedup (flat_map atoms l)) | None => None end.
Theorem conditions_defined v e l : conditions e = Some l -> Forall (meets v) l -> Dd (evP v e).
Proof.
  unfold conditions. destruct (conds e) as [k|] eqn:C; [|discriminate]. intros H HF. injection H as <-. rewrite Forall_forall in HF.
  apply (conds_defined v e k C). intros c Hc. apply atoms_ok. intros d Hd. apply HF. apply dedup_in. apply in_flat_map. exists c. split; assumption.
Qed.

(** reification; [vs] is the list of the reals that occur *)
Ltac index x vs := lazymatch vs with (x :: _)%list => constr:(0%nat) | (_ :: ?t)%list => let n := index x t in constr:(S n) end.
Ltac reif vs t := lazymatch t with
  | Some ?x => let n := index x vs in constr:(EV n)
  | nint ?z => constr:(EZ z)
  | ndec ?m ?k => constr:(EC m k)
  | nadd ?a ?b => let x := reif vs a in let y := reif vs b in constr:(EA x y)
  | nsub ?a ?b => let x := reif vs a in let y := reif vs b in constr:(ES x y)
  | nmul ?a ?b => let x := reif vs a in let y := reif vs b in constr:(EM x y)
  | ndiv ?a ?b => let x := reif vs a in let y := reif vs b in constr:(ED x y)
  | nneg ?a => let x := reif vs a in constr:(EN x)
  | nlog ?a => let x := reif vs a in constr:(EL x)
  | dilog ?a => let x := reif vs a in constr:(EI x)
  | nsqrt ?a => let x := reif vs a in constr:(ER x)
  | if ?b then ?a else ?c => let x := reif vs a in let y := reif vs c in constr:(EB b x y)
  | pow2 ?a => let x := reif vs a in constr:(EP 2 x)
  | pow3 ?a => let x := reif vs a in constr:(EP 3 x)
  | pow4 ?a => let x := reif vs a in constr:(EP 4 x)
  | pow5 ?a => let x := reif vs a in constr:(EP 5 x)
  | pow6 ?a => let x := reif vs a in constr:(EP 6 x)
  | pow7 ?a => let x := reif vs a in constr:(EP 7 x)
  | pow8 ?a => let x := reif vs a in constr:(EP 8 x)
  | pow9 ?a => let x := reif vs a in constr:(EP 9 x)
  | power10 ?a => let x := reif vs a in constr:(EP 10 x)
  | pow11 ?a => let x := reif vs a in constr:(EP 11 x)
  | pow12 ?a => let x := reif vs a in constr:(EP 12 x)
  | pow13 ?a => let x := reif vs a in constr:(EP 13 x)
  | pow14 ?a => let x := reif vs a in constr:(EP 14 x)
  | pow15 ?a => let x := reif vs a in constr:(EP 15 x)
  | pow16 ?a => let x := reif vs a in constr:(EP 16 x)
  | pow17 ?a => let x := reif vs a in constr:(EP 17 x)
  | pow18 ?a => let x := reif vs a in constr:(EP 18 x)
  end.
Lemma pow_nz x n : x <> 0 -> x ^ n <> 0. Proof. apply pow_nonzero. Qed.
Ltac tre c a b H := let E := fresh in intros E; apply (sqc c a b); [repeat apply Rmult_lt_0_compat; (assumption || lra)|assumption|assumption|exact H|lra].
Ltac nzb := match goal with
  | H : ?a <> ?b |- _ => first [tre 1 a b H|tre a a b H|tre b a b H|tre (a*a) a b H|tre (b*b) a b H|tre (a*b) a b H|tre (a*a*a) a b H|tre (b*b*b) a b H|tre (a*a*a*a) a b H|tre (b*b*b*b) a b H] end.
(** one condition *)
Ltac cond1 := unfold meets; cbn [fst snd evR nth]; first [assumption|apply Rmult_lt_0_compat; assumption|apply Rgt_not_eq; assumption|apply Rgt_not_eq; apply Rmult_lt_0_compat; assumption|nzb|lra].
Definition good (r : res PR) : Prop := exists v, r = Ok (Some v).
Lemma good_ok a : Dd a -> good (Ok a). Proof. intros [v ->]. exists v. reflexivity. Qed.

(** [e] is the reified form of the call [f]; unfolding is done by conversion *)
Ltac step f vs t := let e := reif vs t in change (good (Ok (evP vs e))); apply good_ok;
  let r := eval vm_compute in (conditions e) in lazymatch r with Some ?k => apply (conditions_defined vs e k); [vm_compute; reflexivity|] end.

(** ** Undefined expressions *)
Fixpoint factors (e : ex) : list ex := match e with EM x y => factors x ++ factors y | EP n x => factors x | EN x => factors x | _ => [e] end.
(** a division by an expression with the factor [z] occurs, outside conditionals *)
Definition allowed (al l : list (bool * ex)) : bool := forallb (fun c => existsb (c_eqb c) al) l.
Lemma allowed_meets v al l : allowed al l = true -> Forall (meets v) al -> forall c, In c l -> meets v c.
Proof.
  unfold allowed. rewrite forallb_forall, Forall_forall. intros H F c Hc. specialize (H c Hc). apply existsb_exists in H. destruct H as (y & Hy & E). unfold c_eqb in E. apply andb_prop in E. destruct E as [A B].
  apply Bool.eqb_prop in A. apply ex_eqb_eq in B. destruct c, y; cbn in *; subst. apply F. exact Hy.
Qed.
Fixpoint poisoned (al : list (bool * ex)) (z e : ex) : bool :=
  match e with
  | EV _ | EZ _ | EC _ _ | EB _ _ _ => false
  | EA a b | ES a b | EM a b => poisoned al z a || poisoned al z b
  | EN a | EL a | EI a | ER a => poisoned al z a
  | EP n a => ((2 <=? n) && (n <=? 18))%nat && poisoned al z a
  | ED a b => poisoned al z a || poisoned al z b || (rational b && match conds b with Some l => allowed al l | _ => false end && existsb (ex_eqb z) (factors b))
  end.
Lemma factors_zero v z e : existsb (ex_eqb z) (factors e) = true -> evR v z = 0 -> rational e = true -> evR v e = 0.
Proof.
  intros H Hz. induction e; cbn [factors rational evR] in *; intros HR; try (cbn [existsb] in H; rewrite orb_false_r in H; apply ex_eqb_eq in H; subst z; exact Hz); try discriminate.
  - apply andb_prop in HR. destruct HR. rewrite existsb_app in H. apply orb_prop in H. destruct H as [H|H]; [rewrite IHe1 by assumption|rewrite IHe2 by assumption]; ring.
  - rewrite (IHe H HR). ring.
  - apply andb_prop in HR. destruct HR as [HR1 HR2]. apply andb_prop in HR1. destruct HR1 as [A _]. apply Nat.leb_le in A. rewrite (IHe H HR2). apply pow_i. lia.
Qed.
Lemma dilog_none : @dilog PR NumP None = None.
Proof. unfold dilog. unP. cbv beta iota zeta delta [p1 p2 pdiv pguard pcmp option_map]. destruct (Reqb 3 0); reflexivity. Qed.
Lemma powP_none n : powP n None = None.
Proof. do 19 (destruct n as [|n]; [reflexivity|]). reflexivity. Qed.
Theorem poisoned_none v al z e : poisoned al z e = true -> Forall (meets v) al -> evR v z = 0 -> evP v e = None.
Proof.
  intros H HA Hz. induction e; cbn [poisoned evP] in *; try discriminate.
  - apply orb_prop in H. destruct H as [H|H]; [rewrite (IHe1 H)|rewrite (IHe2 H); destruct (evP v e1)]; reflexivity.
  - apply orb_prop in H. destruct H as [H|H]; [rewrite (IHe1 H)|rewrite (IHe2 H); destruct (evP v e1)]; reflexivity.
  - apply orb_prop in H. destruct H as [H|H]; [rewrite (IHe1 H)|rewrite (IHe2 H); destruct (evP v e1)]; reflexivity.
  - rewrite (IHe H). reflexivity.
  - apply orb_prop in H. destruct H as [H|H]; [apply orb_prop in H; destruct H as [H|H]; [rewrite (IHe1 H)|rewrite (IHe2 H); destruct (evP v e1)]; reflexivity|].
    apply andb_prop in H. destruct H as [H H3]. apply andb_prop in H. destruct H as [H1 H2]. destruct (conds e2) as [k|] eqn:C; try discriminate.
    rewrite (rational_value v e2 k H1 C) by (exact (allowed_meets v al k H2 HA)). rewrite (factors_zero v z e2 H3 Hz H1). destruct (evP v e1); [|reflexivity].
    change (pdiv (Some r) (Some 0) = None). unfold pdiv. rewrite (Reqb_true 0 0 eq_refl). reflexivity.
  - apply andb_prop in H. destruct H as [_ H]. rewrite (IHe H). apply powP_none.
  - rewrite (IHe H). reflexivity.
  - rewrite (IHe H). apply dilog_none.
  - rewrite (IHe H). reflexivity.
Qed.
