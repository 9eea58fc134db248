From Coq Require Import Reals ZArith List Bool Lra Lia Psatz String.
From Verif Require Import Num NumFacts Except Params ParamsSpec.
Import ListNotations.
Open Scope R_scope.

(** ** Small facts in the partial reading *)
Lemma Rdec_51 : Rdec 5 1 = / 2. Proof. unfold Rdec. cbn. lra. Qed.
Lemma Rdec_61 : Rdec 6 1 = 3 / 5. Proof. unfold Rdec. cbn. lra. Qed.
Lemma Rdec_18 : Rdec 1 8 = / 100000000. Proof. unfold Rdec. cbn. lra. Qed.
Lemma Rdec_11 : Rdec 1 1 = / 10. Proof. unfold Rdec. cbn. lra. Qed.

Lemma stdmin_P a b : stdmin (Some a) (Some b) = Some (Rmin a b) :> PR.
Proof.
  unfold stdmin. cbn. unfold Rmin. destruct (Rltb_spec b a), (Rle_dec a b); try lra; try reflexivity.
Qed.

Lemma fold_min_P l : forall a, exists c,
  @fold_left PR PR stdmin (@map R PR Some l) (Some a) = Some c :> PR /\
  (c < 0 <-> a < 0 \/ exists x, In x l /\ x < 0).
Proof.
  induction l as [|b l IH]; intros a; cbn [map fold_left].
  - exists a. split; [reflexivity|]. split; [auto|]. intros [H|[x [[] _]]]; exact H.
  - rewrite stdmin_P. destruct (IH (Rmin a b)) as [c [Hc Hi]]. exists c. split; [exact Hc|].
    rewrite Hi. unfold Rmin. destruct (Rle_dec a b) as [Hab|Hab].
    + split.
      * intros [H|[x [Hx Hn]]]; [auto|right; exists x; cbn; auto].
      * intros [H|[x [[->|Hx] Hn]]]; [auto|left; lra|right; eauto].
    + split.
      * intros [H|[x [Hx Hn]]]; [right; exists b; cbn; auto|right; exists x; cbn; auto].
      * intros [H|[x [[->|Hx] Hn]]]; [left; lra|auto|right; eauto].
Qed.

Lemma mat3_min_neg (m : mat3 R) :
  nltb (mat3_min (someM3 m)) (nint 0) = true <-> negative_entry m.
Proof.
  unfold mat3_min. cbn [mat3_entries someM3 tl a00 a01 a02 a10 a11 a12 a20 a21 a22].
  destruct (fold_min_P [a10 m; a20 m; a01 m; a11 m; a21 m; a02 m; a12 m; a22 m] (a00 m)) as [c [Hc Hi]].
  cbn [map] in Hc. rewrite Hc. cbn. unfold negative_entry.
  destruct (Rltb_spec c 0) as [H|H].
  - split; [intros _|reflexivity]. apply Hi in H. destruct H as [H|[x [Hx Hn]]].
    + exists (a00 m). cbn. auto.
    + exists x. split; [right; exact Hx|exact Hn].
  - split; [discriminate|]. intros [x [Hx Hn]]. exfalso. assert (c < 0); [|lra]. apply Hi.
    destruct Hx as [->|Hx]; [auto|right; eauto].
Qed.

Lemma bool_or3 (P Q : Prop) a b : (a = true <-> P) -> (b = true <-> Q) -> ((a || b)%bool = true <-> P \/ Q).
Proof. intros <- <-. destruct a, b; cbn; intuition congruence. Qed.

Lemma soft_neg_P r o :
  soft_masses_negative (point r o) = true <->
  negative_entry (mq2 r) \/ negative_entry (md2 r) \/ negative_entry (mu2 r) \/ negative_entry (ml2 r)
  \/ negative_entry (me2 r).
Proof.
  unfold soft_masses_negative, point. cbn [mq2 md2 mu2 ml2 me2].
  rewrite !orb_true_iff, !mat3_min_neg. tauto.
Qed.

(** ** Values filled in *)
Lemma v2_pos u d : 0 < u -> 0 < d -> 0 < u * u + d * d.
Proof. nra. Qed.

Lemma fill_MW_P r o u d : 0 < u -> 0 < d -> ovu o = Some u -> ovd o = Some d ->
  fill_MW (point r o) = Some (mW_of r o u d).
Proof.
  intros Hu Hd Eu Ed. unfold fill_MW, mW_of, calc_v2, half, pow2, point. cbn [MW vu vd g2]. rewrite Eu, Ed.
  destruct (oMW o); [reflexivity|]. unP. cbn -[Rdec sqrt]. rewrite Rleb_true by nra. cbn -[sqrt].
  rewrite Rdec_51. f_equal. f_equal; [lra|]. f_equal; ring.
Qed.
Lemma fill_MZ_P r o u d : 0 < u -> 0 < d -> ovu o = Some u -> ovd o = Some d ->
  fill_MZ (point r o) = Some (mZ_of r o u d).
Proof.
  intros Hu Hd Eu Ed. unfold fill_MZ, mZ_of, calc_v2, half, pow2, point. cbn [MZ vu vd g1 g2]. rewrite Eu, Ed.
  destruct (oMZ o); [reflexivity|]. unP. cbn -[Rdec sqrt].
  rewrite Rdec_51, Rdec_61.
  rewrite Rleb_true.
  - cbn -[sqrt]. f_equal. f_equal. f_equal. ring.
  - apply Rmult_le_pos; nra.
Qed.
Lemma h_svd_P E ER Y : lifts E ER -> a22 (h_svd E (someM3 Y)) = Some (ymax ER Y).
Proof.
  intros [_ H]. unfold h_svd, ymax. rewrite H. destruct (sv3 ER Y) as [[x y] z]. reflexivity.
Qed.
Lemma fill_fermion_P E ER Y m v : lifts E ER ->
  fill_fermion m (h_svd E (someM3 Y)) (Some v) = Some (given_or m (ymax ER Y * v / sqrt 2)).
Proof.
  intros H. unfold fill_fermion. destruct m; [reflexivity|]. rewrite (h_svd_P E ER Y H).
  unP. cbn -[sqrt]. f_equal. unfold Rdiv. ring.
Qed.

Lemma calc_sw2_P a b : calc_sw2 (Some a) (Some b) = Some (sw2_of a b) :> PR.
Proof.
  unfold calc_sw2, calc_cw2, sw2_of, pow2. unP. cbn. unfold Reqb. destruct (Req_EM_T b 0); cbn; f_equal; ring.
Qed.
Lemma calc_cos2beta_P u d : 0 < u -> 0 < d -> calc_cos2beta (Some u) (Some d) = Some (cos2b_of u d) :> PR.
Proof.
  intros Hu Hd. unfold calc_cos2beta, calc_v2, cos2b_of, pow2. unP. cbn.
  rewrite Reqb_false by nra. f_equal.
Qed.

Ltac mstep := unfold sfermion_matrix, someM, pow2, half; unP; cbn -[Rdec sw2_of cos2b_of];
  rewrite ?Reqb_false by lra; cbn -[Rdec sw2_of cos2b_of]; rewrite ?Rdec_51.
Lemma mkM2_eq (a b c d a' b' c' d' : R) : a = a' -> b = b' -> c = c' -> d = d' ->
  mkM2 (Some a : PR) (Some b : PR) (Some c : PR) (Some d : PR) = mkM2 (Some a' : PR) (Some b' : PR) (Some c' : PR) (Some d' : PR).
Proof. intros -> -> -> ->. reflexivity. Qed.
Lemma stop_P u d m q x A f w z : 0 < u -> 0 < d ->
  stopMatrix (Some u) (Some d) (Some m) (Some q) (Some x) (Some A) (Some f) (Some w) (Some z)
  = someM (sfermion_matrix q x f (1/2) (2/3) (A - m * d / u) w z (cos2b_of u d)).
Proof.
  intros Hu Hd. unfold stopMatrix. cbv zeta. rewrite calc_sw2_P, calc_cos2beta_P by assumption.
  assert (Hud : u / d <> 0) by (apply Rgt_not_eq, Rdiv_lt_0_compat; assumption).
  unfold pow2, half. unP. cbn -[Rdec sw2_of cos2b_of]. rewrite (Reqb_false d 0) by lra.
  cbn -[Rdec sw2_of cos2b_of]. rewrite (Reqb_false (u / d) 0) by assumption.
  rewrite ?(Reqb_false 3 0) by lra. cbn -[Rdec sw2_of cos2b_of]. rewrite ?Rdec_51.
  unfold someM, sfermion_matrix. cbn [m00 m01 m10 m11].
  assert (Hx : m / (u / d) = m * d / u) by (field; lra). rewrite Hx.
  apply mkM2_eq; first [field; lra | field].
Qed.
Lemma sbottom_P u d m q x A f w z : 0 < u -> 0 < d ->
  sbottomMatrix (Some u) (Some d) (Some m) (Some q) (Some x) (Some A) (Some f) (Some w) (Some z)
  = someM (sfermion_matrix q x f (-(1/2)) (-(1/3)) (A - m * u / d) w z (cos2b_of u d)).
Proof.
  intros Hu Hd. unfold sbottomMatrix. cbv zeta. rewrite calc_sw2_P, calc_cos2beta_P by assumption.
  unfold pow2, half. unP. cbn -[Rdec sw2_of cos2b_of]. rewrite (Reqb_false d 0) by lra.
  rewrite ?(Reqb_false 3 0) by lra. cbn -[Rdec sw2_of cos2b_of]. rewrite ?Rdec_51.
  unfold someM, sfermion_matrix. cbn [m00 m01 m10 m11].
  assert (Hx : m * (u / d) = m * u / d) by (field; lra). rewrite Hx.
  apply mkM2_eq; first [field; lra | field].
Qed.
Lemma stau_P u d m q x A f w z : 0 < u -> 0 < d ->
  stauMatrix (Some u) (Some d) (Some m) (Some q) (Some x) (Some A) (Some f) (Some w) (Some z)
  = someM (sfermion_matrix q x f (-(1/2)) (-1) (A - m * u / d) w z (cos2b_of u d)).
Proof.
  intros Hu Hd. unfold stauMatrix. cbv zeta. rewrite calc_sw2_P, calc_cos2beta_P by assumption.
  unfold pow2, half. unP. cbn -[Rdec sw2_of cos2b_of]. rewrite (Reqb_false d 0) by lra.
  cbn -[Rdec sw2_of cos2b_of]. rewrite ?Rdec_51.
  unfold someM, sfermion_matrix. cbn [m00 m01 m10 m11].
  assert (Hx : m * (u / d) = m * u / d) by (field; lra). rewrite Hx.
  apply mkM2_eq; first [field; lra | field].
Qed.

(** ** Eigenvalues: negative iff the quadratic form takes a negative value *)
Lemma eig_decomp M ew ev : eig_spec M ew ev ->
  exists c s, m00 M = c*c * v0 ew + s*s * v1 ew /\ m11 M = s*s * v0 ew + c*c * v1 ew /\
              m01 M = c*s*(v0 ew - v1 ew) /\ m10 M = c*s*(v0 ew - v1 ew) /\ c*c + s*s = 1 /\
              m00 ev = c /\ m10 ev = s /\
              ((m01 ev = - s /\ m11 ev = c) \/ (m01 ev = s /\ m11 ev = - c)).
Proof.
  intros [Hord [H00 H01] [H10 H11] Hn0 Hn1 Ho].
  set (c := m00 ev) in *. set (s := m10 ev) in *.
  assert (Hcol : (m01 ev = - s /\ m11 ev = c) \/ (m01 ev = s /\ m11 ev = - c)).
  { set (x := m01 ev) in *. set (y := m11 ev) in *.
    assert (Hk : x * c + y * s = 0) by lra.
    (* (x,y) = k (-s,c) with k = y c - x s *)
    set (k := y * c - x * s).
    assert (Hx : x = - k * s). { unfold k. replace (- (y * c - x * s) * s) with (x * (c*c+s*s) - c * (x * c + y * s)) by ring. rewrite Hk, Hn0. ring. }
    assert (Hy : y = k * c). { unfold k. replace ((y * c - x * s) * c) with (y * (c*c+s*s) - s * (x * c + y * s)) by ring. rewrite Hk, Hn0. ring. }
    assert (Hk2 : k * k = 1).
    { rewrite Hx, Hy in Hn1. replace (- k * s * (- k * s) + k * c * (k * c)) with (k * k * (c*c+s*s)) in Hn1 by ring.
      rewrite Hn0 in Hn1. lra. }
    assert (Hf : (k - 1) * (k + 1) = 0) by lra.
    apply Rmult_integral in Hf. destruct Hf as [Hf|Hf].
    - left. assert (Hk1 : k = 1) by lra. split; [rewrite Hx|rewrite Hy]; rewrite Hk1; ring.
    - right. assert (Hk1 : k = -1) by lra. split; [rewrite Hx|rewrite Hy]; rewrite Hk1; ring. }
  exists c, s.
  set (l0 := v0 ew) in *. set (l1 := v1 ew) in *.
  assert (Hsq : forall a b x y, a * c + b * s = x -> a * (- s) + b * c = y -> a = x * c - y * s /\ b = x * s + y * c).
  { intros a b x y <- <-. split.
    - replace ((a * c + b * s) * c - (a * - s + b * c) * s) with (a * (c*c+s*s)) by ring. rewrite Hn0; ring.
    - replace ((a * c + b * s) * s + (a * - s + b * c) * c) with (b * (c*c+s*s)) by ring. rewrite Hn0; ring. }
  destruct Hcol as [[E1 E2]|[E1 E2]]; rewrite E1, E2 in H10, H11.
  - destruct (Hsq (m00 M) (m01 M) (l0 * c) (- l1 * s)) as [A B]; [exact H00|lra|].
    destruct (Hsq (m10 M) (m11 M) (l0 * s) (l1 * c)) as [C D]; [exact H01|lra|].
    repeat split; try (rewrite ?A, ?B, ?C, ?D; ring); try assumption; auto.
  - destruct (Hsq (m00 M) (m01 M) (l0 * c) (- l1 * s)) as [A B]; [exact H00|lra|].
    destruct (Hsq (m10 M) (m11 M) (l0 * s) (l1 * c)) as [C D]; [exact H01|lra|].
    repeat split; try (rewrite ?A, ?B, ?C, ?D; ring); try assumption; auto.
Qed.

Lemma neg_eigenvalue M ew ev : eig_spec M ew ev -> (v0 ew < 0 <-> takes_negative M).
Proof.
  intros H. destruct (eig_decomp M ew ev H) as [c [s [A [B [C [D [Hn _]]]]]]].
  destruct H as [Hord _ _ _ _ _].
  split.
  - intros Hl. exists c, s. rewrite A, B, C, D.
    replace (_ + _ + _) with (v0 ew * (c*c+s*s)*(c*c+s*s)) by ring. rewrite Hn. lra.
  - intros [x [y Hxy]]. rewrite A, B, C, D in Hxy.
    replace (_ + _ + _) with (v0 ew * (c*x+s*y)^2 + v1 ew * (s*x-c*y)^2) in Hxy by ring.
    destruct (Rlt_dec (v0 ew) 0) as [|Hge]; [assumption|]. exfalso.
    pose proof (pow2_ge_0 (c*x+s*y)). pose proof (pow2_ge_0 (s*x-c*y)). nra.
Qed.

(** ** Doublets *)
Lemma calc_theta_mixing (s th : PR) :
  match mixing s th with
  | Some (s', t') => calc_theta th s = (Some t', Some s')
  | None => fst (calc_theta th s) = None \/ snd (calc_theta th s) = None
  end.
Proof.
  destruct s as [s|], th as [t|]; cbn; try reflexivity.
  - unfold mixing, calc_theta. unP. cbn -[asin Rdec].
    unfold Rleb. destruct (Rle_dec (-1) s); cbn -[asin Rdec]; [|auto].
    destruct (Rle_dec s 1); cbn -[asin Rdec]; [|auto]. unfold half. unP. cbn -[asin Rdec]. rewrite Rdec_51.
    f_equal. f_equal. field.
  - auto.
Qed.

Lemma fill_doublet_complete (E : EigenLib PR) (m : vec2 PR) (s th : PR) (M : mat2 PR) a b s' t' :
  m = mkV2 (Some a) (Some b) -> mixing s th = Some (s', t') ->
  fill_doublet E m (snd (calc_theta th s)) (fst (calc_theta th s)) M = Ok (m, Some s', Some t').
Proof.
  intros -> Hm. pose proof (calc_theta_mixing s th) as H. rewrite Hm in H. rewrite H. reflexivity.
Qed.
Lemma fill_doublet_incomplete (E : EigenLib PR) (m : vec2 PR) (s th : PR) (M : mat2 PR) : ~ complete m s th ->
  fill_doublet E m (snd (calc_theta th s)) (fst (calc_theta th s)) M = calculate_MSf_s2f E M.
Proof.
  intros H. unfold fill_doublet. unP. pose proof (calc_theta_mixing s th) as Hc.
  destruct m as [[a|] [b|]]; cbn [v0 v1 orb]; try reflexivity.
  destruct (mixing s th) as [[s' t']|] eqn:Em.
  - exfalso. apply H. split; [eauto|congruence].
  - destruct Hc as [Hc|Hc]; rewrite Hc; [rewrite orb_true_r|]; reflexivity.
Qed.

Lemma calculate_MSf_throws E ER M : lifts E ER -> eig_ok ER -> m01 M = m10 M ->
  ((exists msg, calculate_MSf_s2f E (someM M) = Throw msg) <-> takes_negative M).
Proof.
  intros [HL _] HE HM. pose proof (HE M HM) as Hs. pose proof (neg_eigenvalue _ _ _ Hs) as Hneg.
  pose proof (es_ord _ _ _ Hs) as Hord.
  unfold calculate_MSf_s2f. rewrite HL. unfold vec2_min. cbn [someV v0 v1]. rewrite stdmin_P.
  rewrite Rmin_left by assumption.
  unP. cbn [pcmp]. destruct (Rltb_spec (v0 (fst (eig2 ER M))) 0) as [Hl|Hl].
  - split; [intros _; tauto|eauto].
  - split.
    + intros [msg Hmsg]. exfalso.
      repeat match type of Hmsg with context[let '(_, _) := ?x in _] => destruct x end. discriminate.
    + intros Ht. apply Hneg in Ht. lra.
Qed.

Lemma complete_dec m s th : {complete m s th} + {~ complete m s th}.
Proof.
  unfold complete. destruct m as [[a|] [b|]]; try (right; intros [[x [y H]] _]; discriminate H).
  destruct (mixing s th); [left; split; [eauto|discriminate] | right; intros [_ H]; auto].
Qed.

Lemma fill_doublet_throws (E : EigenLib PR) ER (m : vec2 PR) (s th : PR) M : lifts E ER -> eig_ok ER -> m01 M = m10 M ->
  ((exists msg, fill_doublet E m (snd (calc_theta th s)) (fst (calc_theta th s)) (someM M) = Throw msg)
   <-> ~ complete m s th /\ takes_negative M).
Proof.
  intros HL HE HM. destruct (complete_dec m s th) as [Hc|Hc].
  - split; [|tauto]. intros [msg Hmsg]. exfalso. destruct Hc as [[a [b Hab]] Hmix].
    destruct (mixing s th) as [[s' t']|] eqn:Em; [|auto].
    rewrite (fill_doublet_complete E m s th (someM M) a b s' t' Hab Em) in Hmsg. discriminate.
  - rewrite fill_doublet_incomplete by assumption. rewrite (calculate_MSf_throws E ER M) by assumption. tauto.
Qed.

Lemma bind_throw {A B} (x : res A) (f : A -> res B) :
  (exists m, bind x f = Throw m) <-> (exists m, x = Throw m) \/ (exists a, x = Ok a /\ exists m, f a = Throw m).
Proof.
  destruct x; cbn; split.
  - intros [m H]. right. eauto.
  - intros [[m H]|[a' [H [m Hm]]]]; [discriminate|injection H as <-; eauto].
  - intros _. left. eauto.
  - eauto.
Qed.

Lemma bad_vev_P v : (nisnan v || nleb v (nint 0))%bool = true <-> bad_vev v.
Proof.
  destruct v as [x|]; cbn; [|tauto]. destruct (Rleb_spec x 0); split; try tauto; try lra.
Qed.

(** C06 *)
Lemma validate_throws E ER r o : lifts E ER -> eig_ok ER ->
  ((exists msg, validate E (point r o) = Throw msg) <-> rejected ER r o).
Proof.
  intros HL HE. unfold validate, rejected.
  destruct (soft_masses_negative (point r o)) eqn:Es.
  { apply soft_neg_P in Es. split; [intros _; tauto|eauto]. }
  assert (Hs : ~ (negative_entry (mq2 r) \/ negative_entry (md2 r) \/ negative_entry (mu2 r) \/ negative_entry (ml2 r)
     \/ negative_entry (me2 r))).
  { rewrite <- (soft_neg_P r o). congruence. }
  unfold point at 1. cbn [MG]. unP. cbn [pcmp].
  destruct (Rltb_spec (MG r) 0) as [Hg|Hg].
  { split; [intros _; tauto|eauto]. }
  change (vu (point r o)) with (ovu o). change (vd (point r o)) with (ovd o).
  pose proof (bad_vev_P (ovu o)) as Hu. unP.
  destruct (match ovu o with Some _ => false | None => true end || pcmp Rleb (ovu o) (Some 0))%bool.
  { assert (bad_vev (ovu o)) by (apply Hu; reflexivity). split; [intros _; tauto|eauto]. }
  assert (Hu' : ~ bad_vev (ovu o)) by (rewrite <- Hu; discriminate). clear Hu.
  pose proof (bad_vev_P (ovd o)) as Hd. unP.
  destruct (match ovd o with Some _ => false | None => true end || pcmp Rleb (ovd o) (Some 0))%bool.
  { assert (bad_vev (ovd o)) by (apply Hd; reflexivity). split; [intros _; tauto|eauto]. }
  assert (Hd' : ~ bad_vev (ovd o)) by (rewrite <- Hd; discriminate). clear Hd.
  destruct (ovu o) as [u|] eqn:Eu; [|elim Hu'; exact I].
  destruct (ovd o) as [d|] eqn:Ed; [|elim Hd'; exact I].
  cbn in Hu', Hd'. assert (Pu : 0 < u) by lra. assert (Pd : 0 < d) by lra.
  rewrite (fill_MW_P r o u d Pu Pd Eu Ed), (fill_MZ_P r o u d Pu Pd Eu Ed).
  change (Mt (point r o)) with (oMt o). change (Mb (point r o)) with (oMb o). change (Mtau (point r o)) with (oMtau o).
  change (Yu (point r o)) with (someM3 (Yu r)). change (Yd (point r o)) with (someM3 (Yd r)).
  change (Ye (point r o)) with (someM3 (Ye r)).
  rewrite !(fill_fermion_P E ER _ _ _ HL).
  change (given_or (oMt o) (ymax ER (Yu r) * u / sqrt 2)) with (mt_of ER r o u).
  change (given_or (oMb o) (ymax ER (Yd r) * d / sqrt 2)) with (mb_of ER r o d).
  change (given_or (oMtau o) (ymax ER (Ye r) * d / sqrt 2)) with (mtau_of ER r o d).
  change (mu (point r o)) with (Some (mu r) : PR).
  change (a22 (mq2 (point r o))) with (Some (a22 (mq2 r)) : PR).
  change (a22 (md2 (point r o))) with (Some (a22 (md2 r)) : PR).
  change (a22 (mu2 (point r o))) with (Some (a22 (mu2 r)) : PR).
  change (a22 (ml2 (point r o))) with (Some (a22 (ml2 r)) : PR).
  change (a22 (me2 (point r o))) with (Some (a22 (me2 r)) : PR).
  change (a22 (Au (point r o))) with (Some (a22 (Au r)) : PR).
  change (a22 (Ad (point r o))) with (Some (a22 (Ad r)) : PR).
  change (a22 (Ae (point r o))) with (Some (a22 (Ae r)) : PR).
  rewrite stop_P, sbottom_P, stau_P by assumption.
  fold (stop_matrix ER r o u d) (sbottom_matrix ER r o u d) (stau_matrix ER r o u d).
  change (theta_t (point r o)) with (oth_t o). change (theta_b (point r o)) with (oth_b o).
  change (theta_tau (point r o)) with (oth_tau o).
  change (s2t (point r o)) with (os2t o). change (s2b (point r o)) with (os2b o). change (s2tau (point r o)) with (os2tau o).
  change (MSt (point r o)) with (oMSt o). change (MSb (point r o)) with (oMSb o). change (MStau (point r o)) with (oMStau o).
  pose proof (fill_doublet_throws E ER (oMSt o) (os2t o) (oth_t o) (stop_matrix ER r o u d) HL HE eq_refl) as Dt.
  pose proof (fill_doublet_throws E ER (oMSb o) (os2b o) (oth_b o) (sbottom_matrix ER r o u d) HL HE eq_refl) as Db.
  pose proof (fill_doublet_throws E ER (oMStau o) (os2tau o) (oth_tau o) (stau_matrix ER r o u d) HL HE eq_refl) as Dl.
  destruct (calc_theta (oth_t o) (os2t o)) as [tt st]. destruct (calc_theta (oth_b o) (os2b o)) as [tb sb].
  destruct (calc_theta (oth_tau o) (os2tau o)) as [tl sl]. cbn [fst snd] in Dt, Db, Dl.
  set (X := exists u0 d0, _).
  assert (HX : X <-> (~ complete (oMSt o) (os2t o) (oth_t o) /\ takes_negative (stop_matrix ER r o u d)
      \/ ~ complete (oMSb o) (os2b o) (oth_b o) /\ takes_negative (sbottom_matrix ER r o u d)
      \/ ~ complete (oMStau o) (os2tau o) (oth_tau o) /\ takes_negative (stau_matrix ER r o u d))).
  { unfold X. split.
    - intros [u0 [d0 [A [B [_ [_ H]]]]]]. injection A as <-. injection B as <-. exact H.
    - intros H. exists u, d. auto 6. }
  rewrite HX, <- Dt, <- Db, <- Dl.
  rewrite bind_throw.
  destruct (fill_doublet E (oMSt o) st tt _) as [[[mt st'] tt']|msg].
  2:{ split; [|intros _; left; eauto]. intros _. do 8 right. left. eauto. }
  destruct (fill_doublet E (oMSb o) sb tb _) as [[[mb sb'] tb']|msg].
  2:{ split; [|intros _; right; eexists; split; [reflexivity|]; cbn; eauto]. intros _. do 9 right. left. eauto. }
  destruct (fill_doublet E (oMStau o) sl tl _) as [[[ml sl'] tl']|msg].
  2:{ split; [|intros _; right; eexists; split; [reflexivity|]; cbn; eauto]. intros _. do 10 right. eauto. }
  split.
  - intros [[m H]|[a [H [m Hm]]]]; [discriminate|]. injection H as <-. cbn in Hm.
    destruct (sort_ev mt tt' st') as [[? ?] ?]. destruct (sort_ev mb tb' sb') as [[? ?] ?].
    destruct (sort_ev ml tl' sl') as [[? ?] ?]. discriminate.
  - intros H. exfalso.
    assert (F : forall A (x : A), ~ exists m, Ok x = Throw m) by (intros A x [m Hm]; discriminate).
    destruct H as [H|[H|[H|[H|[H|[H|[H|[H|[H|[H|H]]]]]]]]]]; try (apply F in H; exact H); try tauto; lra.
Qed.
