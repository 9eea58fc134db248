(** * The normal form represents the expression near the coincidence *)
From Coq Require Import Reals Lra Lia List ZArith Bool BinList.
From Coquelicot Require Import Coquelicot.
From Verif Require Import Num NumFacts HierFormulas DilogSpec Defined Agree AsymPoly AsymODE AsymNF.
Import ListNotations.
Open Scope R_scope.

Section OK.
  Context (n : nat) (cfg : list kind) (L : R -> R) (q x1 x2 : R) (X lam z X4 X5 X6 : R).
  Context (HL : is_ReLi2 L) (Hq : 0 < q) (H1 : 0 < x1) (H2 : 0 < x2) (N1 : x1 <> 1) (N2 : x2 <> 1) (N12 : x1 <> x2).
  Notation w := [X; lam; z; X4; X5; X6].
  Notation lin := (linR q x1 x2).
  Notation l := (env L q x1 x2 w).
  Definition vals (e : R) : list R := (map (fun k => lin k e * lin k e) cfg ++ map (fun k => lin k e) cfg ++ w)%list.
  Definition val (x : ex) (e : R) : R := evL L (vals e) x.
  Notation rep := (rep n tab l).
  Lemma lin_ok k e : lin k e = sem l (linS k) e.
  Proof. destruct k; cbn [linS linR sem]; rewrite ?pmul_ok, !pX_ok; cbn; ring. Qed.
  Lemma sq_ok k e : lin k e * lin k e = sem l (sqS k) e.
  Proof. destruct k; cbn [sqS linR sem]; unfold psq; rewrite ?pmul_ok, ?pc_ok, ?pX_ok; cbn; ring. Qed.
  Lemma lin_pos k e : Rabs e < 1 -> 0 < lin k e.
  Proof. intros He. assert (0 < 1 + e) by (unfold Rabs in He; destruct (Rcase_abs e); lra). destruct k; cbn [linR]; try apply Rmult_lt_0_compat; assumption. Qed.
  Lemma vals_sq i e : (i < nm cfg)%nat -> List.nth i (vals e) 0 = lin (kd cfg i) e * lin (kd cfg i) e.
  Proof.
    intros H. unfold vals. rewrite app_nth1 by (rewrite map_length; exact H).
    rewrite (nth_indep _ 0 (lin K0 e * lin K0 e)) by (rewrite map_length; exact H). rewrite (map_nth (fun k => lin k e * lin k e)). reflexivity.
  Qed.
  Lemma vals_lin i e : (nm cfg <= i < 2 * nm cfg)%nat -> List.nth i (vals e) 0 = lin (kd cfg (i - nm cfg)) e.
  Proof.
    intros H. unfold vals, nm in *. rewrite app_nth2 by (rewrite map_length; lia). rewrite map_length. rewrite app_nth1 by (rewrite map_length; lia).
    rewrite (nth_indep _ 0 (lin K0 e)) by (rewrite map_length; lia). rewrite (map_nth (fun k => lin k e)). reflexivity.
  Qed.
  Lemma vals_w i e p : (2 * nm cfg <= i)%nat -> wv (i - 2 * nm cfg) = Some p -> List.nth i (vals e) 0 = PE l p.
  Proof.
    intros H E. unfold vals, nm in *. rewrite app_nth2 by (rewrite map_length; lia). rewrite map_length. rewrite app_nth2 by (rewrite map_length; lia). rewrite map_length.
    replace (i - length cfg - length cfg)%nat with (i - 2 * length cfg)%nat by lia. set (j := (i - 2 * length cfg)%nat) in *.
    destruct j as [|[|[|[|[|[|j]]]]]]; cbn [wv] in E; try discriminate; apply (f_equal (fun o => match o with Some x => x | None => p end)) in E; cbn beta iota in E; subst p; rewrite pX_ok; reflexivity.
  Qed.
  (** ** exact denominators *)
  Definition dval (d : Z * nat * list nat) (e : R) : R := let '(c, k, x) := d in IZR c * e ^ k * dprod l tab x e.
  Definition dok (d : Z * nat * list nat) (f : R -> R) : Prop := (length (snd d) <= length tab)%nat /\ forall e, f e = dval d e.
  Lemma dmul_ok a b d f g : (forall x, a = Some x -> dok x f) -> (forall x, b = Some x -> dok x g) -> dmul a b = Some d -> dok d (fun e => f e * g e).
  Proof.
    intros Ha Hb E. destruct a as [[[c k] x]|]; [|discriminate]. destruct b as [[[c' k'] x']|]; [|discriminate]. injection E as <-.
    destruct (Ha _ eq_refl) as [La Ea]. destruct (Hb _ eq_refl) as [Lb Eb]. cbn [snd] in *. split; [cbn [snd]; apply xadd_len; assumption|].
    intros e. rewrite Ea, Eb. cbn [dval]. rewrite xadd_ok, mult_IZR, pow_add by assumption. ring.
  Qed.
  Lemma xscale_ok m t : forall x e, dprod l t (map (Nat.mul m) x) e = dprod l t x e ^ m.
  Proof. induction t as [|f t IH]; intros [|a x] e; cbn [map dprod]; try (rewrite pow1; reflexivity). rewrite IH, Rpow_mult_distr, pow_mult. rewrite <- !pow_mult. rewrite (Nat.mul_comm m a). reflexivity. Qed.
  Lemma dpow_ok m a d f : (forall x, a = Some x -> dok x f) -> dpow m a = Some d -> dok d (fun e => f e ^ m).
  Proof.
    intros Ha E. destruct a as [[[c k] x]|]; [|discriminate]. injection E as <-. destruct (Ha _ eq_refl) as [La Ea]. cbn [snd] in *. split; [cbn [snd]; rewrite map_length; exact La|].
    intros e. rewrite Ea. cbn [dval]. rewrite xscale_ok, <- pow_IZR, !Rpow_mult_distr, <- pow_mult. rewrite (Nat.mul_comm k m). reflexivity.
  Qed.
  Lemma dopp_ok a d f : (forall x, a = Some x -> dok x f) -> dopp a = Some d -> dok d (fun e => - f e).
  Proof. intros Ha E. destruct a as [[[c k] x]|]; [|discriminate]. injection E as <-. destruct (Ha _ eq_refl) as [La Ea]. split; [exact La|]. intros e. rewrite Ea. cbn [dval]. rewrite opp_IZR. ring. Qed.
  Ltac dp := cbn [dprod tab dval sem pow]; unfold psq; rewrite ?psub_ok, ?pmul_ok, ?pc_ok, ?pX_ok; cbn [BinList.nth env app hd jump tl].
  Definition mval (x : mexp) (e : R) : R := let '(a, b, c, d) := x in lin K0 e ^ a * lin KE e ^ b * lin K1 e ^ c * lin K2 e ^ d.
  Lemma dmono_ok x d : dmono x = Some d -> dok d (mval x).
  Proof.
    destruct x as [[[a b] c] d']. intros E. injection E as <-. split; [cbn; lia|]. intros e. cbn [mval linR]. dp.
    rewrite !Rmult_0_r, ?Rplus_0_r, ?Rmult_1_r, !Rpow_mult_distr, !pow_add. ring.
  Qed.
  Lemma ddiff_ok a b d : ddiff a b = Some d -> dok d (fun e => lin a e * lin a e - lin b e * lin b e).
  Proof. destruct a, b; intros E; try discriminate; injection E as <-; (split; [cbn; lia|]); intros e; cbn [linR]; dp; ring. Qed.
  Lemma m2_add x y e : mval (m2 Nat.add x y) e = mval x e * mval y e.
  Proof. destruct x as [[[a b] c] d], y as [[[a' b'] c'] d']. cbn [m2 mval]. rewrite !pow_add. ring. Qed.
  Lemma m2_mul k x e : mval (m2 Nat.mul (k, k, k, k) x) e = mval x e ^ k.
  Proof. destruct x as [[[a b] c] d]. cbn [m2 mval]. rewrite !Rpow_mult_distr, <- !pow_mult. rewrite !(Nat.mul_comm k). reflexivity. Qed.
  Lemma m1_ok k e : mval (m1 k) e = lin k e. Proof. destruct k; cbn [m1 mval]; simpl; ring. Qed.
  Lemma m2_sub_l x y e : mval x e = mval (m2 Nat.min x y) e * mval (m2 Nat.sub x (m2 Nat.min x y)) e.
  Proof.
    destruct x as [[[a b] c] d], y as [[[a' b'] c'] d']. cbn [m2 mval].
    assert (H : forall t s r, t ^ s = t ^ (Nat.min s r) * t ^ (s - Nat.min s r)) by (intros; rewrite <- pow_add; f_equal; lia).
    rewrite (H _ a a'), (H _ b b'), (H _ c c'), (H _ d d') at 1. ring.
  Qed.
  Lemma m2_sub_r x y e : mval y e = mval (m2 Nat.min x y) e * mval (m2 Nat.sub y (m2 Nat.min x y)) e.
  Proof.
    destruct x as [[[a b] c] d], y as [[[a' b'] c'] d']. cbn [m2 mval].
    assert (H : forall t s r, t ^ s = t ^ (Nat.min r s) * t ^ (s - Nat.min r s)) by (intros; rewrite <- pow_add; f_equal; lia).
    rewrite (H _ a' a), (H _ b' b), (H _ c' c), (H _ d' d) at 1. ring.
  Qed.
  Lemma unsq_ok x k e : unsq x = Some k -> mval x e = lin k e * lin k e.
  Proof.
    destruct x as [[[a b] c] d]. unfold unsq. intros E.
    destruct a as [|[|[|a]]]; try discriminate; destruct b as [|[|[|b]]]; try discriminate; destruct c as [|[|[|c]]]; try discriminate; destruct d as [|[|[|d]]]; try discriminate;
      injection E as <-; cbn [mval linR]; ring.
  Qed.
  Lemma mono_ok x m : mono cfg x = Some m -> forall e, val x e = mval m e.
  Proof.
    revert m. induction x as [i|z0|c0 c1|u IHu v IHv|u IHu v IHv|u IHu v IHv|u IHu|u IHu v IHv|i u IHu|u IHu|u IHu|u IHu|bb u IHu v IHv]; intros mm E e; cbn [mono] in E; try discriminate.
    - destruct (Nat.ltb_spec i (nm cfg)) as [A|A]; [injection E as <-; rewrite m2_add, !m1_ok; apply vals_sq; exact A|].
      destruct (Nat.ltb_spec i (2 * nm cfg)) as [B|B]; [|discriminate]. injection E as <-. rewrite m1_ok. apply vals_lin. lia.
    - destruct (mono cfg u) as [a|]; [|discriminate]. destruct (mono cfg v) as [b|]; [|discriminate]. apply (f_equal (fun o => match o with Some x => x | None => mm end)) in E; cbn beta iota in E; subst mm.
      rewrite m2_add, <- (IHu a eq_refl e), <- (IHv b eq_refl e). reflexivity.
    - destruct ((2 <=? i) && (i <=? 18))%nat eqn:B; [|discriminate]. destruct (mono cfg u) as [a|]; [|discriminate]. apply (f_equal (fun o => match o with Some x => x | None => mm end)) in E; cbn beta iota in E; subst mm.
      rewrite m2_mul, <- (IHu a eq_refl e). unfold val. cbn [evL]. apply powR_pow. apply andb_prop in B. destruct B as [A B]. apply Nat.leb_le in A, B. lia.
  Qed.
  Lemma dsub_ok a b d : dsub (mono cfg a) (mono cfg b) = Some d -> dok d (fun e => val a e - val b e).
  Proof.
    destruct (mono cfg a) as [x|] eqn:A; [|discriminate]. destruct (mono cfg b) as [y|] eqn:B; [|discriminate]. cbn [dsub].
    destruct (unsq (m2 Nat.sub x (m2 Nat.min x y))) as [s|] eqn:S1; [|discriminate]. destruct (unsq (m2 Nat.sub y (m2 Nat.min x y))) as [t|] eqn:T1; [|discriminate].
    intros E. destruct (dmul_ok _ _ d (mval (m2 Nat.min x y)) (fun e => lin s e * lin s e - lin t e * lin t e) (fun d H => dmono_ok _ d H) (fun d H => ddiff_ok _ _ d H) E) as [L1 E1].
    split; [exact L1|]. intros e. rewrite <- E1. rewrite (mono_ok a x A), (mono_ok b y B), (m2_sub_l x y), (m2_sub_r x y e) at 1. rewrite (unsq_ok _ s e S1), (unsq_ok _ t e T1). ring.
  Qed.
  Lemma dn_ok x d : dn cfg x = Some d -> dok d (val x).
  Proof.
    revert d. induction x as [i|z0|c0 c1|u IHu v IHv|u IHu v IHv|u IHu v IHv|u IHu|u IHu v IHv|i u IHu|u IHu|u IHu|u IHu|bb u IHu v IHv]; intros d E; cbn [dn] in E; try discriminate.
    - destruct (mono cfg (EV i)) as [m|] eqn:M; [|discriminate]. destruct (dmono_ok m d E) as [A B]. split; [exact A|]. intros e. rewrite <- B. apply mono_ok. exact M.
    - destruct (z0 =? 0)%Z; [discriminate|]. injection E as <-. split; [cbn; lia|]. intros e. unfold val. cbn [evL dval dprod tab pow nint NumR]. ring.
    - destruct u; try discriminate. destruct (dsub_ok _ _ d E) as [A B]. split; [exact A|]. intros e. rewrite <- B. unfold val. cbn [evL nadd nneg NumR]. ring.
    - destruct (dsub_ok _ _ d E) as [A B]. split; [exact A|]. intros e. rewrite <- B. reflexivity.
    - exact (dmul_ok _ _ d (val u) (val v) IHu IHv E).
    - exact (dopp_ok _ d (val u) IHu E).
    - destruct ((2 <=? i) && (i <=? 18))%nat eqn:B; [|discriminate]. destruct (dpow_ok i _ d (val u) IHu E) as [A C]. split; [exact A|]. intros e. rewrite <- C. unfold val. cbn [evL].
      apply powR_pow. apply andb_prop in B. destruct B as [B1 B]. apply Nat.leb_le in B1, B. lia.
  Qed.
  Lemma tab_nz f : In f tab -> sem l f 0 <> 0.
  Proof.
    intros H. rewrite sem_0. unfold tab in H. cbn [In] in H.
    assert (A : x1 * x1 - 1 <> 0) by (replace (x1 * x1 - 1) with ((x1 - 1) * (x1 + 1)) by ring; apply Rmult_integral_contrapositive; split; lra).
    assert (B : x2 * x2 - 1 <> 0) by (replace (x2 * x2 - 1) with ((x2 - 1) * (x2 + 1)) by ring; apply Rmult_integral_contrapositive; split; lra).
    assert (C : x1 * x1 - x2 * x2 <> 0) by (replace (x1 * x1 - x2 * x2) with ((x1 - x2) * (x1 + x2)) by ring; apply Rmult_integral_contrapositive; split; lra).
    repeat (destruct H as [<-|H]; [unfold psq; rewrite ?psub_ok, ?pmul_ok, ?pc_ok, ?pX_ok; cbn [BinList.nth env app hd jump tl]; lra|]). destruct H.
  Qed.
  Lemma dnz (d : Z * nat * list nat) : fst (fst d) <> 0%Z -> exists d0, 0 < d0 /\ forall e, e <> 0 -> Rabs e < d0 -> dval d e <> 0.
  Proof.
    destruct d as [[c k] x]. cbn [fst dval]. intros Hc. destruct (bounded_below l tab tab_nz x) as (m & d0 & Hm & Hd & HB). exists d0. split; [exact Hd|].
    intros e He1 He2. specialize (HB e He2). repeat apply Rmult_integral_contrapositive_currified; [apply not_0_IZR; exact Hc|apply pow_nonzero; exact He1|]. intros E. rewrite E, Rabs_R0 in HB. lra.
  Qed.
  Lemma rep_near f g F d0 : 0 < d0 -> (forall e, e <> 0 -> Rabs e < d0 -> f e = g e) -> rep f F -> rep g F.
  Proof. intros H0 H [HF HX]. split; [|exact HX]. eapply (bigO_ext_near _ _ _ d0 H0); [|exact HF]. intros e A B. cbn beta. rewrite (H e A B). reflexivity. Qed.
  Lemma rep_ext f g F : (forall e, f e = g e) -> rep f F -> rep g F.
  Proof. intros H. apply (rep_near f g F 1); [lra|]. intros. apply H. Qed.

  (** ** the logarithm *)
  Context (Hchk : chk n = true).
  Lemma chk_parts : lM n <> 0%Z /\ chk_ln n = true /\ chk_S0 n = true /\ chk_Sx n (pX 2) (pX 4) (pX 6) = true /\ chk_Sx n (pX 3) (pX 5) (pX 7) = true.
  Proof. unfold chk in Hchk. rewrite !andb_true_iff in Hchk. destruct Hchk as [[[[A B] C] D] E]. repeat split; try assumption. intros Z0. rewrite Z0 in A. discriminate. Qed.
  Lemma half_pos e : Rabs e < 1 / 2 -> 1 / 2 < 1 + e < 3 / 2.
  Proof. unfold Rabs. destruct (Rcase_abs e); lra. Qed.
  Lemma ln_cert : bigO (S n) (fun e => ln (1 + e) * IZR (lM n) - sem l (lnA n) e).
  Proof.
    destruct chk_parts as (_ & C & _).
    apply (ode_ok l n (fun e => ln (1 + e)) (fun e => / (1 + e)) (fun e => 1 + e) (fun _ => 1) (lnA n) (IZR (lM n)) (1 / 2) (1 / 2)); try lra.
    - intros e _ He. apply half_pos in He. auto_derive; [lra|]. match goal with |- ?a = ?b => change (@eq R a b) end. field. lra.
    - intros e He. apply half_pos in He. apply (ex_derive_continuous (V := R_NormedModule)). auto_derive. lra.
    - intros e _ He. apply half_pos in He. split; [field; lra|]. rewrite Rabs_pos_eq; lra.
    - unfold chk_ln in C. apply (szero_ok l) in C.
      apply (bigO_ext _ (fun e => sem l (sadd [pc (lM n)] (sopp (smul n (sder (lnA n)) [pc 1; pc 1]))) e + (sem l (smul n (sder (lnA n)) [pc 1; pc 1]) e - sem l (sder (lnA n)) e * sem l [pc 1; pc 1] e))).
      + intros e. rewrite sadd_ok, sopp_ok. cbn [sem]. rewrite !pc_ok. ring.
      + apply bigO_add; [exact C|apply smul_ok].
    - rewrite Rplus_0_r, ln_1, sem_0. unfold lnA. rewrite pc_ok. ring.
  Qed.
  Lemma bigO_div m f : bigO (S m) (fun e => e * f e) -> bigO m f.
  Proof.
    intros (C & d & HC & Hd & HB). exists C, d. repeat split; try assumption. intros e H0 H. specialize (HB e H0 H). rewrite Rabs_mult in HB. simpl in HB.
    assert (0 < Rabs e) by (apply Rabs_pos_lt; exact H0). apply (Rmult_le_reg_l (Rabs e)); [assumption|]. lra.
  Qed.
  (** ** the dilogarithm of 1 - (1+e)^2 *)
  Lemma S0_cert : bigO (S n) (fun e => L (1 - (1 + e) * (1 + e)) * IZR (S0K n) - sem l (S0A n) e).
  Proof.
    destruct chk_parts as (_ & _ & C & _). destruct HL as (L0 & LC & LD).
    apply (ode_ok l n (fun e => L (1 - (1 + e) * (1 + e))) (fun e => - 4 * (1 + e) * ln (1 + e) / (e * (2 + e))) (fun e => 2 + e) (fun e => - 4 * (1 + e) * ln (1 + e) / e) (S0A n) (IZR (S0K n)) (1 / 2) 1); try lra.
    - intros e H0 He. apply half_pos in He. assert (U : 1 - (1 + e) * (1 + e) <> 0) by (replace (1 - (1 + e) * (1 + e)) with (- (e * (2 + e))) by ring; apply Ropp_neq_0_compat, Rmult_integral_contrapositive; split; lra).
      assert (U1 : 1 - (1 + e) * (1 + e) <> 1) by (assert (0 < (1 + e) * (1 + e)) by (apply Rmult_lt_0_compat; lra); lra).
      pose proof (LD _ U U1) as D. replace (1 - (1 - (1 + e) * (1 + e))) with ((1 + e) * (1 + e)) in D by ring. rewrite Rabs_pos_eq, ln_mult in D by (try apply Rmult_le_pos; lra).
      assert (E1 : is_derive (fun e : R => (1 - (1 + e) * (1 + e) : R)) e (- 2 * (1 + e))) by (auto_derive; [exact I|match goal with |- ?a = ?b => change (@eq R a b) end; ring]).
      pose proof (is_derive_comp L (fun e : R => (1 - (1 + e) * (1 + e) : R)) e _ _ D E1) as G.
      match type of G with is_derive _ _ ?a => match goal with |- is_derive _ _ ?b => replace b with a; [exact G|] end end. unfold scal. simpl. unfold mult. simpl.
      field. split; [lra|]. split; [lra|]. replace (1 - (1 + e) * (1 + e)) with (- (e * (2 + e))) in U by ring. lra.
    - intros e He. apply (continuous_comp (fun x : R => (1 - (1 + x) * (1 + x) : R)) L); [|apply LC]. apply (ex_derive_continuous (V := R_NormedModule)). auto_derive. exact I.
    - intros e H0 He. apply half_pos in He. split; [field; lra|]. rewrite Rabs_pos_eq; lra.
    - apply bigO_div. unfold chk_S0 in C. apply (szero_ok l) in C. set (T := smul (S n) [pc (-4); pc (-4)] (lnA n)) in *. set (B := smul (S n) (pc 0 :: sder (S0A n)) [pc 2; pc 1]) in *.
      set (k := (lM n * 2 ^ Z.of_nat n)%Z) in *.
      apply (bigO_ext_near _ (fun e => sem l (sadd (sscal (pc k) T) (sopp B)) e - IZR k * (sem l T e - sem l [pc (-4); pc (-4)] e * sem l (lnA n) e)
         + IZR k * sem l [pc (-4); pc (-4)] e * (ln (1 + e) * IZR (lM n) - sem l (lnA n) e) + (sem l B e - sem l (pc 0 :: sder (S0A n)) e * sem l [pc 2; pc 1] e)) _ 1 ltac:(lra)).
      + intros e H0 _. rewrite sadd_ok, sopp_ok, sscal_ok. cbn [sem]. rewrite !pc_ok. unfold S0K. replace (lM n * lM n * 2 ^ Z.of_nat n)%Z with (k * lM n)%Z by (unfold k; ring). rewrite mult_IZR. field. exact H0.
      + apply bigO_add; [apply bigO_add; [apply bigO_sub; [exact C|apply bigO_scal; apply smul_ok]|]|apply smul_ok].
        apply (bigO_bmul _ (fun e => IZR k * sem l [pc (-4); pc (-4)] e)); [apply bigO_scal, sem_bounded|exact ln_cert].
    - replace (1 - (1 + 0) * (1 + 0)) with 0 by ring. rewrite L0, sem_0. unfold S0A. rewrite pc_ok. ring.
  Qed.
  Lemma ppow_ok p k : PE l (ppow p k) = PE l p ^ k.
  Proof. induction k as [|k IH]; cbn [ppow pow]; [apply pc_ok|]. rewrite pmul_ok, IH. reflexivity. Qed.
  (** ** the dilogarithm of 1 - (1+e)^2/x^2 *)
  Lemma Sx_cert x (px lx dx : P) : 0 < x -> x <> 1 -> PE l px = x -> PE l lx = ln (x * x) -> PE l dx = L (1 - 1 / (x * x)) -> chk_Sx n px lx dx = true ->
    bigO (S n) (fun e => L (1 - (1 + e) * (1 + e) / (x * x)) * (IZR (lM n * lM n) * (x * x - 1) ^ n) - sem l (SxA n px lx dx) e).
  Proof.
    intros Hx Nx Ex El Edx C. destruct HL as (L0 & LC & LD). assert (Hxx : 0 < x * x) by (apply Rmult_lt_0_compat; lra).
    assert (Y0 : x * x - 1 <> 0) by (replace (x * x - 1) with ((x - 1) * (x + 1)) by ring; apply Rmult_integral_contrapositive; split; lra).
    assert (Ey : PE l (Sxy px) = x * x - 1) by (unfold Sxy, psq; rewrite psub_ok, pmul_ok, pc_ok, Ex; ring).
    set (Y := Rabs (x * x - 1)). assert (PY : 0 < Y) by (apply Rabs_pos_lt; exact Y0).
    assert (B0 : 0 < Rmin (1 / 2) (Y / 10)) by (apply Rmin_glb_lt; lra).
    assert (G : forall e, Rabs e < Rmin (1 / 2) (Y / 10) -> Y / 2 <= Rabs (x * x - (1 + e) * (1 + e))).
    { intros e He. assert (E1 : Rabs e < 1 / 2) by (eapply Rlt_le_trans; [exact He|apply Rmin_l]). assert (E2 : Rabs e < Y / 10) by (eapply Rlt_le_trans; [exact He|apply Rmin_r]).
      pose proof (Rabs_triang_inv (x * x - 1) (e * (2 + e))) as T. fold Y in T. rewrite Rabs_mult in T. replace (x * x - 1 - e * (2 + e)) with (x * x - (1 + e) * (1 + e)) in T by ring.
      assert (Rabs (2 + e) <= 3) by (apply half_pos in E1; rewrite Rabs_pos_eq; lra). pose proof (Rabs_pos e). assert (Rabs e * Rabs (2 + e) <= Y / 10 * 3) by (apply Rmult_le_compat; try apply Rabs_pos; lra). lra. }
    apply (ode_ok l n (fun e => L (1 - (1 + e) * (1 + e) / (x * x))) (fun e => 2 * (1 + e) * (2 * ln (1 + e) - ln (x * x)) / (x * x - (1 + e) * (1 + e))) (fun e => x * x - (1 + e) * (1 + e)) (fun e => 2 * (1 + e) * (2 * ln (1 + e) - ln (x * x))) (SxA n px lx dx) (IZR (lM n * lM n) * (x * x - 1) ^ n) (Rmin (1 / 2) (Y / 10)) (Y / 2)); try lra.
    - intros e _ He. pose proof (G e He) as Ge. assert (Hh : Rabs e < 1 / 2) by (eapply Rlt_le_trans; [exact He|apply Rmin_l]). apply half_pos in Hh.
      assert (U0 : x * x - (1 + e) * (1 + e) <> 0) by (intros E; rewrite E, Rabs_R0 in Ge; lra).
      assert (P2 : 0 < (1 + e) * (1 + e)) by (apply Rmult_lt_0_compat; lra). assert (P3 : 0 < (1 + e) * (1 + e) / (x * x)) by (apply Rdiv_lt_0_compat; assumption).
      assert (U : 1 - (1 + e) * (1 + e) / (x * x) <> 0) by (intros E; apply U0; apply (f_equal (fun t => t * (x * x))) in E; field_simplify in E; [lra|lra]).
      assert (U1 : 1 - (1 + e) * (1 + e) / (x * x) <> 1) by lra.
      pose proof (LD _ U U1) as D. replace (1 - (1 - (1 + e) * (1 + e) / (x * x))) with ((1 + e) * (1 + e) / (x * x)) in D by ring.
      rewrite Rabs_pos_eq in D by lra. unfold Rdiv in D at 3. rewrite ln_mult, ln_Rinv, ln_mult in D by (try apply Rinv_0_lt_compat; assumption || lra).
      assert (E1 : is_derive (fun e : R => (1 - (1 + e) * (1 + e) / (x * x) : R)) e (- 2 * (1 + e) / (x * x))) by (auto_derive; [lra|match goal with |- ?a = ?b => change (@eq R a b) end; field; lra]).
      pose proof (is_derive_comp L (fun e : R => (1 - (1 + e) * (1 + e) / (x * x) : R)) e _ _ D E1) as GG.
      match type of GG with is_derive _ _ ?a => match goal with |- is_derive _ _ ?b => replace b with a; [exact GG|] end end. unfold scal. simpl. unfold mult. simpl.
      field. repeat split; first [exact U0|lra].
    - intros e He. apply (continuous_comp (fun t : R => (1 - (1 + t) * (1 + t) / (x * x) : R)) L); [|apply LC]. apply (ex_derive_continuous (V := R_NormedModule)). auto_derive. lra.
    - intros e _ He. split; [|apply G; exact He]. field. pose proof (G e He) as Ge. intros E. rewrite E, Rabs_R0 in Ge. lra.
    - unfold chk_Sx in C. apply (szero_ok l) in C. set (B := smul n (sder (SxA n px lx dx)) [Sxy px; pc (-2); pc (-1)]) in *.
      set (Hs := Sxh n lx) in *. set (T := sadd (sscal (pc 2) (lnA n)) [popp (pmul (pc (lM n)) lx)]).
      set (k := IZR (lM n) * (x * x - 1) ^ n).
      apply (bigO_ext _ (fun e => sem l (sadd (sscal (pmul (pc (lM n)) (ppow (Sxy px) n)) Hs) (sopp B)) e - k * (sem l Hs e - sem l [pc 2; pc 2] e * sem l T e)
         + k * sem l [pc 2; pc 2] e * 2 * (ln (1 + e) * IZR (lM n) - sem l (lnA n) e) + (sem l B e - sem l (sder (SxA n px lx dx)) e * sem l [Sxy px; pc (-2); pc (-1)] e))).
      + intros e. unfold T. rewrite !sadd_ok, sopp_ok, !sscal_ok. cbn [sem]. rewrite ?popp_ok, ?pmul_ok, !pc_ok, Ey, El, ppow_ok, Ey. unfold k. rewrite mult_IZR. ring.
      + apply bigO_add; [apply bigO_add; [apply bigO_sub; [exact C|apply bigO_scal; apply (bigO_le n (S n)); [lia|apply smul_ok]]|]|apply smul_ok].
        apply (bigO_bmul _ (fun e => k * sem l [pc 2; pc 2] e * 2)); [|apply (bigO_le n (S n)); [lia|exact ln_cert]].
        apply (bigO_bmul _ (fun e => k * sem l [pc 2; pc 2] e)); [apply bigO_scal, sem_bounded|exact (bigO_const 2)].
    - rewrite sem_0. unfold SxA. rewrite !pmul_ok, pc_ok, ppow_ok, Ey, Edx. replace ((1 + 0) * (1 + 0)) with 1 by ring. ring.
  Qed.

  (** ** logarithms and dilogarithms of ratios of squared masses *)
  Definition lk (k : kind) (e : R) : R := match k with K0 => 0 | KE => 2 * ln (1 + e) | K1 => ln (x1 * x1) | K2 => ln (x2 * x2) end.
  Lemma lk_ok k : bigO (S n) (fun e => lk k e * IZR (lM n) - sem l (lkS n k) e).
  Proof.
    destruct k; cbn [lk lkS].
    - apply (bigO_ext _ (fun _ => 0)); [intros; cbn [sem]; ring|apply bigO_zero].
    - apply (bigO_ext _ (fun e => 2 * (ln (1 + e) * IZR (lM n) - sem l (lnA n) e))); [intros; rewrite sscal_ok, pc_ok; ring|apply bigO_scal, ln_cert].
    - apply (bigO_ext _ (fun _ => 0)); [intros; cbn [sem]; rewrite pmul_ok, pc_ok, pX_ok; cbn [BinList.nth env app hd jump tl]; ring|apply bigO_zero].
    - apply (bigO_ext _ (fun _ => 0)); [intros; cbn [sem]; rewrite pmul_ok, pc_ok, pX_ok; cbn [BinList.nth env app hd jump tl]; ring|apply bigO_zero].
  Qed.
  Lemma ln_sq k e : Rabs e < 1 -> ln (lin k e * lin k e) = ln (q * q) + lk k e.
  Proof.
    intros He. assert (0 < 1 + e) by (unfold Rabs in He; destruct (Rcase_abs e); lra).
    destruct k; cbn [linR lk]; repeat rewrite ln_mult by (repeat apply Rmult_lt_0_compat; assumption); ring.
  Qed.
  Lemma ratio_log a b e : Rabs e < 1 -> ln (lin a e * lin a e / (lin b e * lin b e)) = lk a e - lk b e.
  Proof.
    intros He. pose proof (lin_pos a e He). pose proof (lin_pos b e He). unfold Rdiv. rewrite ln_mult, ln_Rinv, !ln_sq by (try apply Rinv_0_lt_compat; try apply Rmult_lt_0_compat; assumption). ring.
  Qed.
  Lemma logF_ok a b : rep (fun e => ln (lin a e * lin a e / (lin b e * lin b e))) (logF n a b).
  Proof.
    apply (rep_near (fun e => lk a e - lk b e) _ _ 1); [lra|intros; symmetry; apply ratio_log; assumption|].
    split; [|cbn; lia]. apply (bigO_ext _ (fun e => (lk a e * IZR (lM n) - sem l (lkS n a) e) - (lk b e * IZR (lM n) - sem l (lkS n b) e))).
    - intros e. unfold den, logF. cbn [fnum fc fk fx dprod tab pow]. rewrite sadd_ok, sopp_ok. ring.
    - apply bigO_sub; apply lk_ok.
  Qed.
  Lemma dlF_ok a b F : dlF n a b = Some F -> rep (fun e => L (1 - lin a e * lin a e / (lin b e * lin b e))) F.
  Proof.
    destruct chk_parts as (_ & _ & _ & CX1 & CX2). intros E.
    destruct a, b; cbn [dlF] in E; try discriminate; apply (f_equal (fun o => match o with Some x => x | None => F end)) in E; cbn beta iota in E; subst F.
    - apply fpoly_ok. intros e. cbn [sem linR]. rewrite pX_ok. cbn [BinList.nth env app hd jump tl]. rewrite Rmult_0_r, Rplus_0_r. f_equal. field. split; lra.
    - apply fpoly_ok. intros e. cbn [sem linR]. rewrite pX_ok. cbn [BinList.nth env app hd jump tl]. rewrite Rmult_0_r, Rplus_0_r. f_equal. field. split; lra.
    - apply (rep_ext (fun e => L (1 - (1 + e) * (1 + e)))); [intros e; cbn [linR]; f_equal; field; lra|]. split; [|cbn; lia]. eapply bigO_ext; [|exact S0_cert]. intros e. unfold den. cbn [fnum fc fk fx dprod tab pow]. cbn beta. ring.
    - apply (rep_ext (fun e => L (1 - (1 + e) * (1 + e) / (x1 * x1)))); [intros e; cbn [linR]; f_equal; field; split; lra|]. split; [|cbn; lia].
      eapply bigO_ext; [|apply (Sx_cert x1 (pX 2) (pX 4) (pX 6)); try assumption; rewrite pX_ok; reflexivity]. intros e. unfold den, S1A. cbn [fnum fc fk fx dprod tab]. cbn beta.
      cbn [sem]. unfold psq. rewrite ?psub_ok, ?pmul_ok, ?pc_ok, ?pX_ok. cbn [BinList.nth env app hd jump tl]. simpl (_ ^ 0). rewrite Rmult_0_r, Rplus_0_r. ring.
    - apply (rep_ext (fun e => L (1 - (1 + e) * (1 + e) / (x2 * x2)))); [intros e; cbn [linR]; f_equal; field; split; lra|]. split; [|cbn; lia].
      eapply bigO_ext; [|apply (Sx_cert x2 (pX 3) (pX 5) (pX 7)); try assumption; rewrite pX_ok; reflexivity]. intros e. unfold den, S2A. cbn [fnum fc fk fx dprod tab]. cbn beta.
      cbn [sem]. unfold psq. rewrite ?psub_ok, ?pmul_ok, ?pc_ok, ?pX_ok. cbn [BinList.nth env app hd jump tl]. simpl (_ ^ 0). rewrite Rmult_0_r, Rplus_0_r. ring.
    - apply fpoly_ok. intros e. cbn [sem linR]. rewrite pX_ok. cbn [BinList.nth env app hd jump tl]. rewrite Rmult_0_r, Rplus_0_r. f_equal. field. split; lra.
  Qed.
  Lemma dilF_ok a b F : dilF n a b = Some F -> rep (fun e => L (1 - lin a e * lin a e / (lin b e * lin b e))) F.
  Proof.
    unfold dilF. destruct (keqb a b) eqn:K.
    - intros E. injection E as <-. assert (a = b) by (destruct a, b; try discriminate; reflexivity). subst b.
      apply (rep_near (fun _ => 0) _ _ 1); [lra| |apply fpoly_ok; intros; cbn [sem]; reflexivity]. intros e _ He. pose proof (lin_pos a e He).
      replace (1 - lin a e * lin a e / (lin a e * lin a e)) with 0 by (field; lra). destruct HL as (-> & _). reflexivity.
    - destruct (dlF n a b) as [G|] eqn:D; [intros E; injection E as <-; apply dlF_ok; exact D|]. destruct (dlF n b a) as [G|] eqn:D'; [|discriminate]. intros E. apply dlF_ok in D'.
      set (lg := fun e => ln (lin b e * lin b e / (lin a e * lin a e))).
      apply (rep_near (fun e => - (lg e * lg e / 2) + - L (1 - lin b e * lin b e / (lin a e * lin a e))) _ _ 1); [lra| |].
      + intros e _ He. pose proof (lin_pos a e He) as Pa. pose proof (lin_pos b e He) as Pb.
        assert (Pw : 0 < lin b e * lin b e / (lin a e * lin a e)) by (apply Rdiv_lt_0_compat; apply Rmult_lt_0_compat; assumption).
        pose proof (Li2_landen L HL _ Pw) as La. replace (1 - 1 / (lin b e * lin b e / (lin a e * lin a e))) with (1 - lin a e * lin a e / (lin b e * lin b e)) in La by (field; split; lra). rewrite La. unfold lg. field.
      + eapply fadd_ok; [|apply (fopp_ok n tab l _ _ D')|exact E].
        apply fopp_ok. apply (fdiv_ok n tab l (fun e => lg e * lg e) _ (fun _ => 2) 2 0 [] 1); [apply fmul_ok; apply logF_ok|cbn; lia|lra|].
        intros e _ _. cbn [dprod tab pow]. lra.
  Qed.
  Lemma sqk_ok x k e : sqk cfg x = Some k -> val x e = lin k e * lin k e.
  Proof.
    unfold sqk. destruct x; try discriminate.
    - destruct (Nat.ltb_spec n0 (nm cfg)); [|discriminate]. intros E. injection E as <-. apply vals_sq. assumption.
    - destruct n0 as [|[|[|n0]]]; try discriminate. destruct x; try discriminate. destruct ((nm cfg <=? n0) && (n0 <? 2 * nm cfg))%nat eqn:B; [|discriminate]. intros E. injection E as <-.
      apply andb_prop in B. destruct B as [B1 B2]. apply Nat.leb_le in B1. apply Nat.ltb_lt in B2. unfold val. cbn [evL powR]. rewrite vals_lin by lia. reflexivity.
  Qed.
  Theorem nf_ok x : forall F, nf n cfg x = Some F -> rep (val x) F.
  Proof.
    induction x as [i|z0|c0 c1|u IHu v IHv|u IHu v IHv|u IHu v IHv|u IHu|u IHu v IHv|i u IHu|u IHu|u IHu|u IHu|bb u IHu v IHv]; intros F E; cbn [nf] in E; try discriminate.
    - destruct (Nat.ltb_spec i (nm cfg)) as [A|A]; [injection E as <-; apply fpoly_ok; intros e; rewrite <- sq_ok; apply vals_sq; exact A|].
      destruct (Nat.ltb_spec i (2 * nm cfg)) as [B|B]; [injection E as <-; apply fpoly_ok; intros e; rewrite <- lin_ok; apply vals_lin; lia|].
      destruct (wv (i - 2 * nm cfg)) as [p|] eqn:W; [|discriminate]. injection E as <-. apply fpoly_ok. intros e. cbn [sem]. rewrite Rmult_0_r, Rplus_0_r. apply vals_w; assumption.
    - injection E as <-. apply fpoly_ok. intros e. cbn [sem]. rewrite pc_ok. unfold val. cbn [evL nint NumR]. ring.
    - destruct (nf n cfg u) as [a|]; [|discriminate]. destruct (nf n cfg v) as [b|]; [|discriminate]. exact (fadd_ok n tab l _ _ a b F (IHu a eq_refl) (IHv b eq_refl) E).
    - destruct (nf n cfg u) as [a|]; [|discriminate]. destruct (nf n cfg v) as [b|]; [|discriminate]. cbn [o2] in E.
      apply (rep_ext (fun e => val u e + - val v e)); [intros e; unfold val; cbn [evL nsub NumR]; ring|]. exact (fadd_ok n tab l _ _ a (fopp b) F (IHu a eq_refl) (fopp_ok n tab l _ b (IHv b eq_refl)) E).
    - destruct (nf n cfg u) as [a|]; [|discriminate]. destruct (nf n cfg v) as [b|]; [|discriminate]. cbn [o2] in E. injection E as <-. exact (fmul_ok n tab l _ _ a b (IHu a eq_refl) (IHv b eq_refl)).
    - destruct (nf n cfg u) as [a|]; [|discriminate]. cbn [option_map] in E. injection E as <-. exact (fopp_ok n tab l _ a (IHu a eq_refl)).
    - destruct (nf n cfg u) as [a|]; [|discriminate]. destruct (dn cfg v) as [[[c k] x]|] eqn:D; [|discriminate]. destruct (Z.eqb_spec c 0) as [|Nc]; [discriminate|]. injection E as <-.
      destruct (dn_ok v _ D) as [Lx Ex]. destruct (dnz (c, k, x) Nc) as (d0 & Hd & HN).
      apply (fdiv_ok n tab l (val u) a (val v) c k x d0 (IHu a eq_refl) Lx Hd). intros e A B. split; [exact (Ex e)|]. rewrite Ex. apply HN; assumption.
    - destruct ((2 <=? i) && (i <=? 18))%nat eqn:B; [|discriminate]. destruct (nf n cfg u) as [a|]; [|discriminate]. cbn [option_map] in E. injection E as <-.
      apply andb_prop in B. destruct B as [B1 B2]. apply Nat.leb_le in B1, B2.
      apply (rep_ext (fun e => val u e ^ i)); [intros e; unfold val; cbn [evL]; symmetry; apply powR_pow; lia|]. apply fpow_ok. apply IHu. reflexivity.
    - destruct u; try discriminate. destruct (sqk cfg u1) as [s|] eqn:S1; [|discriminate]. destruct (sqk cfg u2) as [t|] eqn:S2; [|discriminate]. injection E as <-.
      apply (rep_ext (fun e => ln (lin s e * lin s e / (lin t e * lin t e)))); [|apply logF_ok]. intros e. rewrite <- (sqk_ok u1 s e S1), <- (sqk_ok u2 t e S2). reflexivity.
    - destruct u; try discriminate. destruct u1; try discriminate. destruct z0; try discriminate. destruct p; try discriminate. destruct u2; try discriminate.
      destruct (sqk cfg u2_1) as [s|] eqn:S1; [|discriminate]. destruct (sqk cfg u2_2) as [t|] eqn:S2; [|discriminate].
      apply (rep_ext (fun e => L (1 - lin s e * lin s e / (lin t e * lin t e)))); [|apply dilF_ok; exact E]. intros e. rewrite <- (sqk_ok u2_1 s e S1), <- (sqk_ok u2_2 t e S2). reflexivity.
  Qed.
  (** ** the certificate *)
  Definition limit_check (x : ex) : bool := match nf n cfg x with Some F => vanishes n F | None => false end.
  Theorem limit_check_ok x : limit_check x = true -> bigO 1 (val x).
  Proof.
    unfold limit_check. destruct (nf n cfg x) as [F|] eqn:E; [|discriminate]. intros V. apply (vanishes_ok n tab l (val x) F); [apply nf_ok; exact E|exact V|apply bounded_below; exact tab_nz].
  Qed.
End OK.
