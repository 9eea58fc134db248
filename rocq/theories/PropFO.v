(** * Fixed-order calculation: property theorems C37, C38, C39, C52 *)
From Coq Require Import Reals ZArith Bool List Lra Lia Psatz.
From Verif Require Import Num NumFacts Except Params ParamsSpec Linalg Spectrum FOSpec FOProofs.
Import ListNotations.
Open Scope R_scope.

Ltac dec := repeat match goal with |- context[Rdec ?m ?k] =>
  let r := fresh "r" in let H := fresh "Hr" in
  assert (H : Rdec m k = IZR m / IZR (Z.pow 10 k)) by reflexivity; simpl Z.pow in H; rewrite H; clear H end.

(** ** C37 *)
Theorem C37 (m0 m1 m2 m3 : mat2 R) : symmetric m0 -> symmetric m1 -> symmetric m2 -> symmetric m3 ->
  (forall l1 l2, ordered_eigenvalues m0 l1 l2 -> l1 <> l2) ->
  let '(o0, o1, o2, o3) := fs_diagonalize_hermitian_perturbatively m0 m1 m2 m3 in
  (exists C d, 0 < d /\ forall t l1 l2, Rabs t < d -> ordered_eigenvalues (series m0 m1 m2 m3 t) l1 l2 ->
     Rabs (l1 - cubic (v0 o0) (v0 o1) (v0 o2) (v0 o3) t) <= C * t^4 /\
     Rabs (l2 - cubic (v1 o0) (v1 o1) (v1 o2) (v1 o3) t) <= C * t^4) /\
  ordered_eigenvalues m0 (v0 o0) (v1 o0) /\
  v0 o0 + v1 o0 = trace m0 /\ v0 o1 + v1 o1 = trace m1 /\ v0 o2 + v1 o2 = trace m2 /\ v0 o3 + v1 o3 = trace m3.
Proof.
  intros S0 S1 S2 S3 HN.
  set (D := (m00 m0 - m11 m0)^2 + 4 * m01 m0 ^2).
  assert (HD0 : 0 <= D).
  { unfold D. assert (X := pow2_ge_0 (m00 m0 - m11 m0)). assert (Y := pow2_ge_0 (m01 m0)). lra. }
  assert (HEV : ordered_eigenvalues m0 ((trace m0 - sqrt D) / 2) ((trace m0 + sqrt D) / 2)).
  { split. { assert (X := sqrt_pos D). lra. }
    intros z. unfold char_poly, trace. unfold symmetric in S0. rewrite <- S0.
    assert (X := sqrt_sqrt D HD0). unfold D in X at 3.
    transitivity (z * z - (m00 m0 + m11 m0) * z + ((m00 m0 + m11 m0)^2 - sqrt D * sqrt D) / 4); [rewrite X; field|field]. }
  assert (HD : D <> 0).
  { intros H. apply (HN _ _ HEV). rewrite H, sqrt_0. lra. }
  assert (HP := pert_diag m0 m1 m2 m3 S0 S1 S2 S3 HD).
  destruct (fs_diagonalize_hermitian_perturbatively m0 m1 m2 m3) as [[[o0 o1] o2] o3] eqn:EQ.
  split; [exact HP|].
  unfold fs_diagonalize_hermitian_perturbatively in EQ. cbv zeta in EQ. revert EQ. unR. change (@ndec R NumR 5 1) with (Rdec 5 1).
  replace (Rdec 5 1) with (/ 2) by (unfold Rdec; simpl; field).
  intros EQ. injection EQ as <- <- <- <-. cbn [v0 v1]. unfold trace.
  split; [|repeat split; lra].
  unfold pow2. unR.
  replace (m00 m0 * m00 m0 + 4 * (m01 m0 * m01 m0) - 2 * m00 m0 * m11 m0 + m11 m0 * m11 m0) with D by (unfold D; ring).
  unfold trace in HEV. replace (/ 2 * (m00 m0 + m11 m0 - sqrt D)) with ((m00 m0 + m11 m0 - sqrt D) / 2) by lra.
  replace (/ 2 * (m00 m0 + m11 m0 + sqrt D)) with ((m00 m0 + m11 m0 + sqrt D) / 2) by lra. exact HEV.
Qed.
(** the hypotheses are met, and the bound is not vacuous: ordered eigenvalues exist for every t *)
Example C37_hyp : let m0 := mkM2 1 2 2 5 in symmetric m0 /\ (forall l1 l2, ordered_eigenvalues m0 l1 l2 -> l1 <> l2).
Proof.
  cbv zeta. split; [reflexivity|]. intros l1 l2 [_ H] <-. unfold char_poly in H. cbn [m00 m01 m10 m11] in H.
  assert (H0 := H 0). assert (H1 := H 1). assert (H2 := H (-1)). assert (l1 = 3) by lra. subst. lra.
Qed.
Theorem C37_eigenvalues_exist (M : mat2 R) : symmetric M -> exists l1 l2, ordered_eigenvalues M l1 l2.
Proof.
  intros S0. set (D := (m00 M - m11 M)^2 + 4 * m01 M ^2).
  assert (HD0 : 0 <= D).
  { unfold D. assert (X := pow2_ge_0 (m00 M - m11 M)). assert (Y := pow2_ge_0 (m01 M)). lra. }
  exists ((trace M - sqrt D) / 2), ((trace M + sqrt D) / 2). split. { assert (X := sqrt_pos D). lra. }
  intros z. unfold char_poly, trace. unfold symmetric in S0. rewrite <- S0.
  assert (X := sqrt_sqrt D HD0). unfold D in X at 3.
  transitivity (z * z - (m00 M + m11 M) * z + ((m00 M + m11 M)^2 - sqrt D * sqrt D) / 4); [rewrite X; field|field].
Qed.
(** outside the hypothesis: with equal tree-level eigenvalues every correction is undefined (0/0 in the code) *)
Theorem C37_degenerate_undefined (a b11 b12 b22 : R) :
  let m0 := mkM2 (Some a) (Some 0) (Some 0) (Some a) : mat2 PR in
  let m1 := mkM2 (Some b11) (Some b12) (Some b12) (Some b22) : mat2 PR in
  forall m2 m3, let '(_, o1, o2, o3) := fs_diagonalize_hermitian_perturbatively m0 m1 m2 m3 in
  v0 o1 = None /\ v1 o1 = None /\ v0 o2 = None /\ v0 o3 = None.
Proof.
  cbv zeta. intros m2 m3. unfold fs_diagonalize_hermitian_perturbatively, pow2. cbv zeta. cbn [m00 m01 m10 m11 v0 v1].
  cbn [nadd nsub nmul nint NumP p2].
  replace (a * a + 4 * (0 * 0) - 2 * a * a + a * a) with 0 by ring.
  cbn [nsqrt NumP pguard]. unfold Rleb. destruct (Rle_dec 0 0) as [_|X]; [|exfalso; lra]. rewrite sqrt_0.
  cbn [ndiv NumP pdiv]. unfold Reqb. destruct (Req_EM_T 0 0) as [_|X]; [|exfalso; lra].
  cbn [nadd nsub nmul nint ndec NumP p2 pdiv].
  repeat match goal with |- context[p2 ?f ?x None] => replace (p2 f x None) with (@None R) by (destruct x; reflexivity) end.
  repeat split.
  all: repeat match goal with |- context[p2 ?f ?x None] => replace (p2 f x None) with (@None R) by (destruct x; reflexivity) end; try reflexivity.
  all: destruct (m00 m2), (m01 m2), (m11 m2), (m00 m3), (m01 m3), (m11 m3); reflexivity.
Qed.

(** ** C38 *)
Lemma two_roots a b c d : (forall x, (x - a) * (x - b) = (x - c) * (x - d)) -> (a = c /\ b = d) \/ (a = d /\ b = c).
Proof.
  intros H. assert (H1 := H a). assert (H2 := H 0). assert (H3 := H 1).
  assert (HX : (a - c) * (a - d) = 0) by lra. apply Rmult_integral in HX. destruct HX; [left|right]; split; lra.
Qed.
Lemma Ah_matrix (p : Params R) : 0 < vu p -> 0 < vd p -> symmetric (get_mass_matrix_Ah p) /\
  forall z, char_poly (get_mass_matrix_Ah p) z = (z - MZ2_of p) * (z - MA p ^ 2).
Proof.
  intros Hu Hd. unfold symmetric, char_poly, get_mass_matrix_Ah, MZ2_of, pow3, pow2. cbv zeta. unR. cbn [m00 m01 m10 m11].
  split; [reflexivity|]. intros z. field. repeat split; nra.
Qed.
Lemma Hpm_matrix (p : Params R) : 0 < vu p -> 0 < vd p -> symmetric (get_mass_matrix_Hpm p) /\
  forall z, char_poly (get_mass_matrix_Hpm p) z = (z - MW2_of p) * (z - (MA p ^ 2 + MW2_of p)).
Proof.
  intros Hu Hd. unfold symmetric, char_poly, get_mass_matrix_Hpm, MW2_of, pow2. cbv zeta. unR. cbn [m00 m01 m10 m11].
  split; [reflexivity|]. intros z. field. repeat split; nra.
Qed.
Lemma hh_matrix (p : Params R) : 0 < vu p -> 0 < vd p -> symmetric (get_mass_matrix_hh p) /\
  forall z, char_poly (get_mass_matrix_hh p) z = z^2 - (MA p ^ 2 + MZ2_of p) * z + MA p ^ 2 * MZ2_of p * cos2b p ^ 2.
Proof.
  intros Hu Hd. unfold symmetric, char_poly, get_mass_matrix_hh, MZ2_of, cos2b, pow2. cbv zeta. unR. cbn [m00 m01 m10 m11].
  split; [reflexivity|]. intros z. field. repeat split; nra.
Qed.
Lemma MZ_value (p : Params R) : calculate_MVZ p = MZ2_of p.
Proof.
  unfold calculate_MVZ, MZ2_of, pow2. cbv zeta. unR. change (Rconst Csqrt35) with (sqrt (3/5)). change (@ndec R NumR 25 2) with (Rdec 25 2).
  assert (Hq : sqrt (3/5) * sqrt (3/5) = 3/5) by (apply sqrt_sqrt; lra). set (s := sqrt (3/5)) in *. clearbody s. dec.
  replace (g1 p * s * (g1 p * s)) with (g1 p * g1 p * (s * s)) by ring. rewrite Hq. field.
Qed.
Lemma MW_value (p : Params R) : calculate_MVWm p = MW2_of p.
Proof. unfold calculate_MVWm, MW2_of, pow2. cbv zeta. unR. change (@ndec R NumR 25 2) with (Rdec 25 2). dec. field. Qed.

Theorem C38 (E : EigenLib R) (F : FermionLib R) (p : Params R) : eig_ok E -> 0 < vu p -> 0 < vd p ->
  let s := newSpectrum E F p in
  let mA2 := MA p ^ 2 in let mZ2 := MZ2_of p in let mW2 := MW2_of p in
  (* gauge bosons *)
  M2VZ s = mZ2 /\ M2VWm s = mW2 /\
  (* CP-odd: Goldstone boson and A *)
  v0 (M2Ah s) = Rmin mZ2 mA2 /\ v1 (M2Ah s) = Rmax mZ2 mA2 /\
  (* charged: Goldstone boson and H+ *)
  v0 (M2Hpm s) = mW2 /\ v1 (M2Hpm s) = mA2 + mW2 /\
  (* CP-even *)
  v0 (M2hh s) + v1 (M2hh s) = mA2 + mZ2 /\
  v0 (M2hh s) * v1 (M2hh s) = mA2 * mZ2 * cos2b p ^ 2 /\
  0 <= v0 (M2hh s) <= v1 (M2hh s) /\
  v0 (M2hh s) <= Rmin mA2 mZ2 * cos2b p ^ 2 /\
  (* the mixing matrices belong to these masses *)
  diagonalises (get_mass_matrix_hh p) (M2hh s) (ZH s) /\ diagonalises (get_mass_matrix_Ah p) (M2Ah s) (ZA s) /\
  diagonalises (get_mass_matrix_Hpm p) (M2Hpm s) (ZP s).
Proof.
  intros HE Hu Hd.
  destruct (Ah_matrix p Hu Hd) as [SA CA]. destruct (Hpm_matrix p Hu Hd) as [SP CP]. destruct (hh_matrix p Hu Hd) as [SH CH].
  destruct (diagonalise_ok E _ HE SA) as [DA OA]. destruct (diagonalise_ok E _ HE SP) as [DP OP]. destruct (diagonalise_ok E _ HE SH) as [DH OH].
  unfold newSpectrum.
  destruct (diagonalise E (get_mass_matrix_Ah p)) as [wA zA], (diagonalise E (get_mass_matrix_Hpm p)) as [wP zP], (diagonalise E (get_mass_matrix_hh p)) as [wH zH].
  repeat match goal with |- context[diagonalise E ?M] => destruct (diagonalise E M) as [?ww ?zz] end.
  destruct (lib_sym4 F _) as [mc zc]. unfold to_slha. destruct (lib_svd2 F _) as [[mch um] up].
  cbn [M2VZ M2VWm M2Ah M2Hpm M2hh ZH ZA ZP fst snd] in *.
  assert (HA := diagonalises_char _ _ _ SA DA). assert (HP := diagonalises_char _ _ _ SP DP). assert (HH := diagonalises_char _ _ _ SH DH).
  assert (RA : forall x, (x - v0 wA) * (x - v1 wA) = (x - MZ2_of p) * (x - MA p ^ 2)) by (intros x; rewrite <- HA; apply CA).
  assert (RP : forall x, (x - v0 wP) * (x - v1 wP) = (x - MW2_of p) * (x - (MA p ^ 2 + MW2_of p))) by (intros x; rewrite <- HP; apply CP).
  assert (RH : forall x, (x - v0 wH) * (x - v1 wH) = x^2 - (MA p ^ 2 + MZ2_of p) * x + MA p ^ 2 * MZ2_of p * cos2b p ^ 2) by (intros x; rewrite <- HH; apply CH).
  assert (PA : 0 <= MA p ^ 2) by apply pow2_ge_0.
  assert (PZ : 0 <= MZ2_of p).
  { unfold MZ2_of. assert (X := pow2_ge_0 (g1 p)). assert (Y := pow2_ge_0 (g2 p)). assert (Z := pow2_ge_0 (vu p)). assert (W := pow2_ge_0 (vd p)).
    assert (0 <= (3/5 * g1 p ^ 2 + g2 p ^ 2) * (vu p ^ 2 + vd p ^ 2)) by (apply Rmult_le_pos; lra). lra. }
  assert (PW : 0 <= MW2_of p).
  { unfold MW2_of. assert (Y := pow2_ge_0 (g2 p)). assert (Z := pow2_ge_0 (vu p)). assert (W := pow2_ge_0 (vd p)).
    assert (0 <= g2 p ^ 2 * (vu p ^ 2 + vd p ^ 2)) by (apply Rmult_le_pos; lra). lra. }
  assert (PC : 0 <= cos2b p ^ 2) by apply pow2_ge_0.
  assert (PC1 : cos2b p ^ 2 <= 1).
  { unfold cos2b. set (a := vd p ^ 2). set (b := vu p ^ 2).
    assert (0 < a) by (unfold a; apply pow_lt; lra). assert (0 < b) by (unfold b; apply pow_lt; lra).
    replace (((a - b) / (a + b)) ^ 2) with (1 - 4 * a * b / (a + b)^2) by (field; lra).
    assert (0 <= 4 * a * b / (a + b)^2); [|lra]. apply Rmult_le_pos; [nra|]. left. apply Rinv_0_lt_compat. apply pow_lt. lra. }
  split; [apply MZ_value|]. split; [apply MW_value|].
  assert (GA : v0 wA = Rmin (MZ2_of p) (MA p ^ 2) /\ v1 wA = Rmax (MZ2_of p) (MA p ^ 2)).
  { destruct (two_roots _ _ _ _ RA) as [[E0 E1]|[E0 E1]]; rewrite E0, E1 in *; rewrite !Rabs_pos_eq in OA by lra;
      unfold Rmin, Rmax; destruct Rle_dec; split; lra. }
  assert (GP : v0 wP = MW2_of p /\ v1 wP = MA p ^ 2 + MW2_of p).
  { destruct (two_roots _ _ _ _ RP) as [[E0 E1]|[E0 E1]]; rewrite E0, E1 in *; rewrite !Rabs_pos_eq in OP by lra; split; lra. }
  assert (R0 := RH 0). assert (R1 := RH 1).
  assert (HSum : v0 wH + v1 wH = MA p ^ 2 + MZ2_of p) by lra.
  assert (HProd : v0 wH * v1 wH = MA p ^ 2 * MZ2_of p * cos2b p ^ 2) by lra.
  assert (PP : 0 <= v0 wH * v1 wH) by (rewrite HProd; apply Rmult_le_pos; [apply Rmult_le_pos|]; lra).
  assert (H00 : 0 <= v0 wH /\ 0 <= v1 wH).
  { destruct (Rle_dec 0 (v0 wH)) as [X|X]; destruct (Rle_dec 0 (v1 wH)) as [Y|Y]; try (split; lra); exfalso; nra. }
  rewrite !Rabs_pos_eq in OH by lra.
  do 2 (split; [apply GA|]). split; [apply GP|]. split; [apply GP|]. split; [exact HSum|]. split; [exact HProd|]. split; [lra|]. split; [|auto].
  set (m := Rmin (MA p ^ 2) (MZ2_of p) * cos2b p ^ 2). assert (Rm := RH m).
  assert (Hle : (m - v0 wH) * (m - v1 wH) <= 0).
  { rewrite Rm. unfold m. unfold Rmin. destruct Rle_dec as [Hl|Hl].
    - replace (_ + _) with ((MA p ^ 2)^2 * (cos2b p ^2 * (cos2b p ^ 2 - 1))) by ring. assert (0 <= (MA p ^ 2)^2) by apply pow2_ge_0. assert (cos2b p ^2 * (cos2b p ^ 2 - 1) <= 0) by nra. nra.
    - replace (_ + _) with ((MZ2_of p)^2 * (cos2b p ^2 * (cos2b p ^ 2 - 1))) by ring. assert (0 <= (MZ2_of p)^2) by apply pow2_ge_0. assert (cos2b p ^2 * (cos2b p ^ 2 - 1) <= 0) by nra. nra. }
  destruct (Rle_dec (v0 wH) m) as [X|X]; [exact X|]. exfalso. nra.
Qed.

(** ** C39 *)
Definition X_up (A mu tb : R) : R := A - mu / tb.
Definition X_down (A mu tb : R) : R := A - mu * tb.
Definition tb (p : Params R) : R := vu p / vd p.
Theorem C39 (p : Params R) : 0 < vu p -> 0 < vd p -> g1 p <> 0 \/ g2 p <> 0 ->
  let mf Y v := Y * v / sqrt 2 in
  get_mass_matrix_Su p = sfermion p (a00 (mq2 p)) (a00 (mu2 p)) 0 (1/2) (2/3) (X_up (a00 (Au p)) (mu p) (tb p)) /\
  get_mass_matrix_Sd p = sfermion p (a00 (mq2 p)) (a00 (md2 p)) 0 (-1/2) (-1/3) (X_down (a00 (Ad p)) (mu p) (tb p)) /\
  get_mass_matrix_Sc p = sfermion p (a11 (mq2 p)) (a11 (mu2 p)) 0 (1/2) (2/3) (X_up (a11 (Au p)) (mu p) (tb p)) /\
  get_mass_matrix_Ss p = sfermion p (a11 (mq2 p)) (a11 (md2 p)) 0 (-1/2) (-1/3) (X_down (a11 (Ad p)) (mu p) (tb p)) /\
  get_mass_matrix_St p = sfermion p (a22 (mq2 p)) (a22 (mu2 p)) (mf (a22 (Yu p)) (vu p)) (1/2) (2/3) (X_up (a22 (Au p)) (mu p) (tb p)) /\
  get_mass_matrix_Sb p = sfermion p (a22 (mq2 p)) (a22 (md2 p)) (mf (a22 (Yd p)) (vd p)) (-1/2) (-1/3) (X_down (a22 (Ad p)) (mu p) (tb p)) /\
  get_mass_matrix_Se p = sfermion p (a00 (ml2 p)) (a00 (me2 p)) 0 (-1/2) (-1) (X_down (a00 (Ae p)) (mu p) (tb p)) /\
  get_mass_matrix_Sm p = sfermion p (a11 (ml2 p)) (a11 (me2 p)) 0 (-1/2) (-1) (X_down (a11 (Ae p)) (mu p) (tb p)) /\
  get_mass_matrix_Stau p = sfermion p (a22 (ml2 p)) (a22 (me2 p)) (mf (a22 (Ye p)) (vd p)) (-1/2) (-1) (X_down (a22 (Ae p)) (mu p) (tb p)) /\
  calculate_MSveL p = a00 (ml2 p) + MZ2_of p * cos2b p / 2 /\
  calculate_MSvmL p = a11 (ml2 p) + MZ2_of p * cos2b p / 2 /\
  calculate_MSvtL p = a22 (ml2 p) + MZ2_of p * cos2b p / 2.
Proof.
  intros Hu Hd Hg mf.
  assert (H2 : sqrt 2 * sqrt 2 = 2) by (apply sqrt_sqrt; lra).
  assert (HI : forall v, v / sqrt 2 * (v / sqrt 2) = v * v / 2).
  { intros v. assert (sqrt 2 <> 0) by (intros Z; rewrite Z in H2; lra). replace (v * v / 2) with (v * v / (sqrt 2 * sqrt 2)) by (rewrite H2; reflexivity). field. auto. }
  assert (Hs : sqrt 2 <> 0) by (intros Z; rewrite Z in H2; lra).
  assert (HG : 3 * g1 p ^ 2 + 5 * g2 p ^ 2 <> 0).
  { assert (X := pow2_ge_0 (g1 p)). assert (Y := pow2_ge_0 (g2 p)). destruct Hg as [Hg|Hg].
    - assert (0 < g1 p ^ 2) by nra. lra.
    - assert (0 < g2 p ^ 2) by nra. lra. }
  assert (HV : vd p ^ 2 + vu p ^ 2 <> 0) by nra.
  assert (HZ : forall a q, (a - q * sw2 p) * MZ2_of p * cos2b p = (a * (3/5 * g1 p ^ 2 + g2 p ^ 2) - q * (3/5 * g1 p ^ 2)) * (vd p ^ 2 - vu p ^ 2) / 4).
  { intros a q. unfold sw2, MZ2_of, cos2b. field. split; nra. }
  assert (HZ' : forall q, q * sw2 p * MZ2_of p * cos2b p = q * (3/5 * g1 p ^ 2) * (vd p ^ 2 - vu p ^ 2) / 4).
  { intros q. unfold sw2, MZ2_of, cos2b. field. split; nra. }
  assert (HS : forall mll mrr m T3 q X, sfermion p mll mrr m T3 q X =
    mkM2 (mll + m^2 + (T3 * (3/5 * g1 p ^ 2 + g2 p ^ 2) - q * (3/5 * g1 p ^ 2)) * (vd p ^ 2 - vu p ^ 2) / 4) (m * X) (m * X)
         (mrr + m^2 + q * (3/5 * g1 p ^ 2) * (vd p ^ 2 - vu p ^ 2) / 4)).
  { intros. unfold sfermion. rewrite HZ, HZ'. reflexivity. }
  assert (HM : forall Y v, (mf Y v)^2 = Y * Y * (v * v) / 2) by (intros Y v; unfold mf; replace ((Y * v / sqrt 2)^2) with (Y * v / sqrt 2 * (Y * v / sqrt 2)) by ring; rewrite HI; field).
  repeat split.
  1-9: rewrite HS; unfold get_mass_matrix_Su, get_mass_matrix_Sd, get_mass_matrix_Sc, get_mass_matrix_Ss, get_mass_matrix_St, get_mass_matrix_Sb,
    get_mass_matrix_Se, get_mass_matrix_Sm, get_mass_matrix_Stau, pow2; cbv zeta; unR; change (@ndec R NumR) with Rdec; dec;
    change (Rconst Cinv_sqrt2) with (1 / sqrt 2); rewrite ?HM; f_equal;
    unfold mf, X_up, X_down, tb; field; repeat split; lra.
  all: unfold calculate_MSveL, calculate_MSvmL, calculate_MSvtL, MZ2_of, cos2b, pow2; cbv zeta; unR; change (@ndec R NumR) with Rdec; dec; field; nra.
Qed.
(** D-term sum rules, generation by generation, without any condition on the couplings *)
Theorem C39_sum_rules (p : Params R) :
  trace (get_mass_matrix_Su p) + trace (get_mass_matrix_Sd p) = 2 * a00 (mq2 p) + a00 (mu2 p) + a00 (md2 p) /\
  trace (get_mass_matrix_Sc p) + trace (get_mass_matrix_Ss p) = 2 * a11 (mq2 p) + a11 (mu2 p) + a11 (md2 p) /\
  trace (get_mass_matrix_St p) + trace (get_mass_matrix_Sb p) =
    2 * a22 (mq2 p) + a22 (mu2 p) + a22 (md2 p) + (a22 (Yu p) * vu p) ^ 2 + (a22 (Yd p) * vd p) ^ 2 /\
  trace (get_mass_matrix_Se p) + calculate_MSveL p = 2 * a00 (ml2 p) + a00 (me2 p) /\
  trace (get_mass_matrix_Sm p) + calculate_MSvmL p = 2 * a11 (ml2 p) + a11 (me2 p) /\
  trace (get_mass_matrix_Stau p) + calculate_MSvtL p = 2 * a22 (ml2 p) + a22 (me2 p) + (a22 (Ye p) * vd p) ^ 2.
Proof.
  unfold trace, get_mass_matrix_Su, get_mass_matrix_Sd, get_mass_matrix_Sc, get_mass_matrix_Ss, get_mass_matrix_St, get_mass_matrix_Sb,
    get_mass_matrix_Se, get_mass_matrix_Sm, get_mass_matrix_Stau, calculate_MSveL, calculate_MSvmL, calculate_MSvtL, pow2; cbv zeta; cbn [m00 m11]; unR;
    change (@ndec R NumR) with Rdec; dec. repeat split; field.
Qed.
(** neutralinos and charginos *)
Definition half_sqrt35 : R := sqrt (3/5) / 2.
Theorem C39_inos (p : Params R) :
  (forall i j, get_mass_matrix_Chi p i j = get_mass_matrix_Chi p j i) /\
  (exists c, Rabs (c - half_sqrt35) < 1 / 10^16 /\
   forall i j, (i <= 3)%nat -> (j <= 3)%nat -> get_mass_matrix_Chi p i j =
     nth j (nth i [ [ M1 p;          0;              - c * g1 p * vd p;   c * g1 p * vu p   ];
                    [ 0;             M2 p;           g2 p * vd p / 2;     - g2 p * vu p / 2 ];
                    [ - c * g1 p * vd p;  g2 p * vd p / 2;    0;          - mu p            ];
                    [ c * g1 p * vu p;    - g2 p * vu p / 2;  - mu p;     0                 ] ] []) 0) /\
  get_mass_matrix_Cha p = mkM2 (M2 p) (g2 p * vu p / sqrt 2) (g2 p * vd p / sqrt 2) (mu p).
Proof.
  split; [|split].
  - intros i j. unfold get_mass_matrix_Chi, symmetrize. destruct (Nat.ltb_spec j i), (Nat.ltb_spec i j); try reflexivity; try lia.
    replace j with i by lia. reflexivity.
  - exists (Rdec 3872983346207417 16). split.
    + unfold half_sqrt35. assert (Hs : 0 <= sqrt (3/5)) by apply sqrt_pos. assert (Hq : sqrt (3/5) * sqrt (3/5) = 3/5) by (apply sqrt_sqrt; lra).
      change (Rdec 3872983346207417 16) with (3872983346207417 / IZR (Z.pow 10 16)). replace (IZR (Z.pow 10 16)) with (10^16) by (rewrite pow_IZR; reflexivity).
      set (s := sqrt (3/5)) in *. clearbody s.
      assert (H1 : 2 * (3872983346207417 / 10^16 - 1/10^16) < s).
      { apply Rsqr_incrst_0; [unfold Rsqr; rewrite Hq; lra| |exact Hs]. lra. }
      assert (H2 : s < 2 * (3872983346207417 / 10^16 + 1/10^16)).
      { apply Rsqr_incrst_0; [unfold Rsqr; rewrite Hq; lra|exact Hs|]. lra. }
      apply Rabs_def1; lra.
    + assert (HC : forall i j, (i <= 3)%nat -> (j <= 3)%nat -> get_mass_matrix_Chi p i j = get_mass_matrix_Chi p i j) by reflexivity. clear HC.
      intros i j Hi Hj. unfold get_mass_matrix_Chi, symmetrize. cbv zeta. unR. change (@ndec R NumR) with Rdec.
      destruct i as [|[|[|[|i]]]]; [| | | |lia]; (destruct j as [|[|[|[|j]]]]; [| | | |lia]); cbn [Nat.ltb Nat.leb nth]; try reflexivity; try ring.
      all: replace (Rdec 5 1) with (/ 2) by (unfold Rdec; simpl; field); field.
  - unfold get_mass_matrix_Cha. cbv zeta. unR. change (Rconst Cinv_sqrt2) with (1 / sqrt 2). f_equal; unfold Rdiv; ring.
Qed.

(** ** C52: the sfermion matrices of struct Parameters and of the fixed-order spectrum agree *)
Theorem C52 (p : Params R) : 0 < vu p -> 0 < vd p -> g1 p <> 0 \/ g2 p <> 0 ->
  MW p ^ 2 = MW2_of p -> MZ p ^ 2 = MZ2_of p ->
  Mt p = a22 (Yu p) * vu p / sqrt 2 -> Mb p = a22 (Yd p) * vd p / sqrt 2 -> Mtau p = a22 (Ye p) * vd p / sqrt 2 ->
  get_mass_matrix_St p = stopMatrix (vu p) (vd p) (mu p) (a22 (mq2 p)) (a22 (mu2 p)) (a22 (Au p)) (Mt p) (MW p) (MZ p) /\
  get_mass_matrix_Sb p = sbottomMatrix (vu p) (vd p) (mu p) (a22 (mq2 p)) (a22 (md2 p)) (a22 (Ad p)) (Mb p) (MW p) (MZ p) /\
  get_mass_matrix_Stau p = stauMatrix (vu p) (vd p) (mu p) (a22 (ml2 p)) (a22 (me2 p)) (a22 (Ae p)) (Mtau p) (MW p) (MZ p).
Proof.
  intros Hu Hd Hg HW HZ Ht Hb Hl. destruct (C39 p Hu Hd Hg) as (_ & _ & _ & _ & ES & EB & _ & _ & EL & _).
  rewrite ES, EB, EL, <- Ht, <- Hb, <- Hl. clear ES EB EL.
  assert (PZ : 0 < MZ2_of p).
  { unfold MZ2_of. assert (X := pow2_ge_0 (g1 p)). assert (Y := pow2_ge_0 (g2 p)). assert (0 < vu p ^ 2) by (apply pow_lt; lra). assert (0 < vd p ^ 2) by (apply pow_lt; lra).
    assert (0 < 3/5 * g1 p ^ 2 + g2 p ^ 2). { destruct Hg as [Hg|Hg]; [assert (0 < g1 p ^ 2) by nra|assert (0 < g2 p ^ 2) by nra]; lra. }
    assert (0 < (3/5 * g1 p ^ 2 + g2 p ^ 2) * (vu p ^ 2 + vd p ^ 2)) by (apply Rmult_lt_0_compat; lra). lra. }
  assert (NZ : MZ p <> 0) by (intros Z; rewrite Z in HZ; simpl in HZ; lra).
  assert (HSW : calc_sw2 (MW p) (MZ p) = sw2 p).
  { unfold calc_sw2, calc_cw2, pow2. unR. change (nisfin (MW p / MZ p * (MW p / MZ p))) with true. cbv iota.
    replace (MW p / MZ p * (MW p / MZ p)) with (MW p ^ 2 / MZ p ^ 2) by (field; exact NZ). rewrite HW, HZ.
    unfold MZ2_of in PZ. assert (X := pow2_ge_0 (g1 p)). assert (Y := pow2_ge_0 (g2 p)). assert (0 < vu p ^ 2) by (apply pow_lt; lra). assert (0 < vd p ^ 2) by (apply pow_lt; lra).
    assert (0 < 3/5 * g1 p ^ 2 + g2 p ^ 2). { destruct Hg as [Hg|Hg]; [assert (0 < g1 p ^ 2) by nra|assert (0 < g2 p ^ 2) by nra]; lra. }
    unfold sw2, MW2_of, MZ2_of. field. repeat split; nra. }
  assert (HC2 : calc_cos2beta (vu p) (vd p) = cos2b p).
  { unfold calc_cos2beta, calc_v2, cos2b, pow2. unR. assert (0 < vu p ^ 2) by (apply pow_lt; lra). assert (0 < vd p ^ 2) by (apply pow_lt; lra).
    field. nra. }
  unfold stopMatrix, sbottomMatrix, stauMatrix. cbv zeta. rewrite HSW, HC2. unfold sfermion, half, pow2, X_up, X_down, tb. unR.
  change (@ndec R NumR 5 1) with (Rdec 5 1). replace (Rdec 5 1) with (/ 2) by (unfold Rdec; simpl; field).
  replace (MZ p * MZ p) with (MZ2_of p) by (rewrite <- HZ; ring).
  repeat split; f_equal; field; lra.
Qed.
