(** * Linear algebra and tree-level spectrum: proofs *)
From Coq Require Import Reals ZArith Bool List Lra Lia Psatz.
From Verif Require Import Num NumFacts Except Params ParamsSpec Linalg Spectrum FOSpec.
Open Scope R_scope.

(** ** perturbative diagonalisation *)
Lemma ordered_ev_formula M l1 l2 : symmetric M -> ordered_eigenvalues M l1 l2 ->
  let D := (m00 M - m11 M)^2 + 4 * m01 M ^2 in
  l1 = (trace M - sqrt D) / 2 /\ l2 = (trace M + sqrt D) / 2.
Proof.
  intros HS [Ho Hc] D. unfold symmetric in HS.
  assert (H0 := Hc 0). assert (H1 := Hc 1). unfold char_poly in *. rewrite <- HS in *.
  assert (HT : l1 + l2 = trace M) by (unfold trace; nra).
  assert (HD : (l2 - l1)^2 = D) by (unfold D, trace in *; nra).
  assert (HQ : sqrt D = l2 - l1) by (rewrite <- HD; simpl; rewrite Rmult_1_r; apply sqrt_square; lra).
  rewrite HQ. lra.
Qed.

Lemma pert_diag (m0 m1 m2 m3 : mat2 R) : symmetric m0 -> symmetric m1 -> symmetric m2 -> symmetric m3 ->
  (m00 m0 - m11 m0)^2 + 4 * m01 m0 ^2 <> 0 ->
  let '(o0, o1, o2, o3) := fs_diagonalize_hermitian_perturbatively m0 m1 m2 m3 in
  exists C d, 0 < d /\ forall t l1 l2, Rabs t < d -> ordered_eigenvalues (series m0 m1 m2 m3 t) l1 l2 ->
    Rabs (l1 - cubic (v0 o0) (v0 o1) (v0 o2) (v0 o3) t) <= C * t^4 /\
    Rabs (l2 - cubic (v1 o0) (v1 o1) (v1 o2) (v1 o3) t) <= C * t^4.
Proof.
  intros S0 S1 S2 S3 HD. unfold fs_diagonalize_hermitian_perturbatively, pow2. cbv zeta. unR. change (ndec 5 1) with (Rdec 5 1). replace (Rdec 5 1) with (/ 2) by (unfold Rdec; simpl; field).
  cbn [v0 v1].
  destruct m0 as [a11 a12 a21 a22], m1 as [b11 b12 b21 b22], m2 as [d11 d12 d21 d22], m3 as [e11 e12 e21 e22].
  unfold symmetric in *. cbn [m00 m01 m10 m11] in *. subst a21 b21 d21 e21.
  set (c2 := sqrt _).
  assert (Hpos : 0 < (a11 - a22)^2 + 4 * a12^2).
  { assert (0 <= (a11 - a22)^2) by apply pow2_ge_0. assert (0 <= a12^2) by apply pow2_ge_0. lra. }
  assert (Hc2 : c2 * c2 = (a11 - a22)^2 + 4 * a12^2).
  { unfold c2. rewrite sqrt_sqrt; [ring|]. replace (a11 * a11 + 4 * (a12 * a12) - 2 * a11 * a22 + a22 * a22) with ((a11 - a22)^2 + 4 * a12^2) by ring. lra. }
  assert (Hcp : 0 < c2).
  { unfold c2. apply sqrt_lt_R0. replace (a11 * a11 + 4 * (a12 * a12) - 2 * a11 * a22 + a22 * a22) with ((a11 - a22)^2 + 4 * a12^2) by ring. lra. }
  clearbody c2.
  set (c4 := _ / c2).
  assert (Hc4 : c4 * c2 = (a11 - a22) * (b11 - b22) + 4 * a12 * b12) by (unfold c4; field; lra).
  clearbody c4.
  set (c6 := / 2 * _ / c2).
  assert (Hc6 : 2 * c6 * c2 + c4 * c4 = (b11 - b22)^2 + 4 * b12^2 + 2 * (a11 - a22) * (d11 - d22) + 8 * a12 * d12) by (unfold c6; field; lra).
  set (c8 := / 2 / c2 * _).
  assert (Hc8 : 2 * c8 * c2 + 2 * c4 * c6 = 2 * (b11 - b22) * (d11 - d22) + 8 * b12 * d12 + 2 * (a11 - a22) * (e11 - e22) + 8 * a12 * e12).
  { unfold c8, c6. field; lra. }
  clearbody c6 c8.
  (* sqrt(D) = c2 + c4 t + c6 t^2 + c8 t^3 + O(t^4) *)
  set (K4 := c6 * c6 + 2 * c4 * c8 - ((d11 - d22)^2 + 4 * d12^2 + 2 * (b11 - b22) * (e11 - e22) + 8 * b12 * e12)).
  set (K5 := 2 * c6 * c8 - (2 * (d11 - d22) * (e11 - e22) + 8 * d12 * e12)).
  set (K6 := c8 * c8 - ((e11 - e22)^2 + 4 * e12^2)).
  set (A := Rabs c4 + Rabs c6 + Rabs c8 + 1).
  assert (HA : 0 < A) by (unfold A; assert (H1 := Rabs_pos c4); assert (H2 := Rabs_pos c6); assert (H3 := Rabs_pos c8); lra).
  exists ((Rabs K4 + Rabs K5 + Rabs K6) / c2). exists (Rmin 1 (c2 / (2 * A))).
  split. { apply Rmin_glb_lt; [lra|]. apply Rdiv_lt_0_compat; lra. }
  intros t l1 l2 Ht Hev.
  assert (Ht1 : Rabs t < 1) by (eapply Rlt_le_trans; [apply Ht|apply Rmin_l]).
  assert (Ht2 : Rabs t * A <= c2 / 2).
  { assert (Rabs t <= c2 / (2 * A)) by (left; eapply Rlt_le_trans; [apply Ht|apply Rmin_r]).
    apply Rle_trans with (c2 / (2 * A) * A); [nra|]. right. field. lra. }
  match type of Hev with ordered_eigenvalues ?M _ _ => assert (HSs : symmetric M) by reflexivity end.
  assert (HF := ordered_ev_formula _ _ _ HSs Hev).
  cbv zeta in HF. unfold trace, series in HF. cbn [m00 m01 m10 m11] in HF. destruct HF as [HF1 HF2].
  set (S := c2 + c4 * t + c6 * t^2 + c8 * t^3).
  set (D := (a11 + t * b11 + t ^ 2 * d11 + t ^ 3 * e11 - (a22 + t * b22 + t ^ 2 * d22 + t ^ 3 * e22)) ^ 2 +
      4 * (a12 + t * b12 + t ^ 2 * d12 + t ^ 3 * e12) ^ 2) in *.
  assert (HSD : S * S - D = t^4 * (K4 + K5 * t + K6 * t^2)).
  { unfold S, D, K4, K5, K6.
    transitivity (t^4 * (K4 + K5 * t + K6 * t^2) + (c2 * c2 - ((a11 - a22)^2 + 4 * a12^2)) + 2 * t * (c4 * c2 - ((a11 - a22) * (b11 - b22) + 4 * a12 * b12))
      + t^2 * (2 * c6 * c2 + c4 * c4 - ((b11 - b22)^2 + 4 * b12^2 + 2 * (a11 - a22) * (d11 - d22) + 8 * a12 * d12))
      + t^3 * (2 * c8 * c2 + 2 * c4 * c6 - (2 * (b11 - b22) * (d11 - d22) + 8 * b12 * d12 + 2 * (a11 - a22) * (e11 - e22) + 8 * a12 * e12))).
    - unfold K4, K5, K6. ring.
    - unfold K4, K5, K6. rewrite Hc2, Hc4, Hc6, Hc8. ring. }
  assert (Habs1 : Rabs (c4 * t) <= Rabs c4 * Rabs t) by (rewrite Rabs_mult; lra).
  assert (Ht0 := Rabs_pos t).
  assert (Habs2 : Rabs (c6 * t^2) <= Rabs c6 * Rabs t).
  { rewrite Rabs_mult, <- RPow_abs. apply Rmult_le_compat_l; [apply Rabs_pos|]. simpl. nra. }
  assert (Habs3 : Rabs (c8 * t^3) <= Rabs c8 * Rabs t).
  { rewrite Rabs_mult, <- RPow_abs. apply Rmult_le_compat_l; [apply Rabs_pos|]. simpl. assert (Rabs t * Rabs t <= 1) by nra. nra. }
  assert (HSp : c2 / 2 <= S).
  { unfold S, A in *. assert (X1 := Rle_abs (- (c4 * t))). assert (X2 := Rle_abs (- (c6 * t^2))). assert (X3 := Rle_abs (- (c8 * t^3))). rewrite Rabs_Ropp in X1, X2, X3. nra. }
  assert (HDp : 0 <= D).
  { unfold D. apply Rplus_le_le_0_compat; [apply pow2_ge_0|]. apply Rmult_le_pos; [lra|apply pow2_ge_0]. }
  assert (HR : Rabs (K4 + K5 * t + K6 * t^2) <= Rabs K4 + Rabs K5 + Rabs K6).
  { eapply Rle_trans; [apply Rabs_triang|]. apply Rplus_le_compat.
    - eapply Rle_trans; [apply Rabs_triang|]. apply Rplus_le_compat_l. rewrite Rabs_mult. assert (X := Rabs_pos K5). nra.
    - rewrite Rabs_mult, <- RPow_abs. assert (X := Rabs_pos K6). simpl. assert (Rabs t * (Rabs t * 1) <= 1) by nra. nra. }
  assert (Hsq : Rabs (sqrt D - S) <= 2 * ((Rabs K4 + Rabs K5 + Rabs K6) / c2) * t^4).
  { assert (Hs0 := sqrt_pos D). assert (Hss := sqrt_sqrt D HDp).
    assert (HE : (sqrt D - S) * (sqrt D + S) = - (t^4 * (K4 + K5 * t + K6 * t^2))) by nra.
    assert (HEa : Rabs (sqrt D - S) * (sqrt D + S) = t^4 * Rabs (K4 + K5 * t + K6 * t^2)).
    { rewrite <- (Rabs_pos_eq (sqrt D + S)) by lra. rewrite <- Rabs_mult, HE, Rabs_Ropp, Rabs_mult. f_equal. apply Rabs_pos_eq.
      replace (t^4) with ((t^2)^2) by ring. apply pow2_ge_0. }
    assert (Ht4 : 0 <= t^4) by (replace (t^4) with ((t^2)^2) by ring; apply pow2_ge_0).
    assert (Ha := Rabs_pos (sqrt D - S)).
    assert (Rabs (sqrt D - S) * (c2 / 2) <= t^4 * (Rabs K4 + Rabs K5 + Rabs K6)) by nra.
    apply (Rmult_le_reg_r (c2 / 2)); [lra|]. replace (2 * ((Rabs K4 + Rabs K5 + Rabs K6) / c2) * t ^ 4 * (c2 / 2)) with (t^4 * (Rabs K4 + Rabs K5 + Rabs K6)) by (field; lra). lra. }
  unfold cubic. split.
  - replace (l1 - _) with ((S - sqrt D) / 2) by (rewrite HF1; unfold S; field).
    unfold Rdiv at 1. rewrite Rabs_mult, (Rabs_pos_eq (/ 2)) by lra. rewrite Rabs_minus_sym. lra.
  - replace (l2 - _) with ((sqrt D - S) / 2) by (rewrite HF2; unfold S; field).
    unfold Rdiv at 1. rewrite Rabs_mult, (Rabs_pos_eq (/ 2)) by lra. lra.
Qed.

(** ** fs_diagonalize_hermitian *)
Lemma fs_herm_ok (E : EigenLib R) (M : mat2 R) : eig_ok E -> symmetric M ->
  let '(w, z) := fs_diagonalize_hermitian E M in diagonalises M w z /\ Rabs (v0 w) <= Rabs (v1 w).
Proof.
  intros HE HS. unfold fs_diagonalize_hermitian. specialize (HE M HS). destruct (eig2 E M) as [w z]. cbn [fst snd] in HE.
  destruct HE as [Ho [P0 P0'] [P1 P1'] N0 N1 O]. unR. unfold symmetric in HS.
  destruct M as [a b b' d], w as [w0 w1], z as [x0 y0 x1 y1]. cbn [m00 m01 m10 m11 v0 v1] in *. subst b'.
  (* columns (x0,x1) and (y0,y1) orthonormal; rows too *)
  assert (R0 : x0 * x0 + y0 * y0 = 1).
  { assert (HH : (x0 * y1 - y0 * x1)^2 = 1) by (replace ((x0*y1 - y0*x1)^2) with ((x0*x0 + x1*x1)*(y0*y0+y1*y1) - (x0*y0 + x1*y1)^2) by ring; rewrite N0, N1, O; ring).
    assert (K1 : x0 * (x0 * y1 - y0 * x1) = y1) by (replace (x0 * (x0 * y1 - y0 * x1)) with ((x0*x0+x1*x1)*y1 - x1 * (x0*y0 + x1*y1)) by ring; rewrite N0, O; ring).
    assert (K2 : y1 * y1 = x0 * x0) by (apply (f_equal (fun u => u * u)) in K1; cbv beta in K1; rewrite <- K1; match goal with |- ?s * ?d * _ = _ => transitivity (x0 * x0 * d^2); [ring|rewrite HH; ring] end).
    lra. }
  assert (R1 : x1 * x1 + y1 * y1 = 1).
  { assert (HH : x0*x0 + y0*y0 + (x1*x1 + y1*y1) = 2) by lra. lra. }
  assert (R01 : x0 * x1 + y0 * y1 = 0).
  { assert (HZ : (x0 * x1 + y0 * y1)^2 = 0).
    { assert (HH : (x0 * y1 - y0 * x1)^2 = 1) by (replace ((x0*y1 - y0*x1)^2) with ((x0*x0 + x1*x1)*(y0*y0+y1*y1) - (x0*y0 + x1*y1)^2) by ring; rewrite N0, N1, O; ring).
      replace ((x0 * x1 + y0 * y1)^2) with ((x0*x0+y0*y0)*(x1*x1+y1*y1) - (x0*y1-y0*x1)^2) by ring. rewrite R0, R1, HH. ring. }
    apply Rsqr_0_uniq. unfold Rsqr. lra. }
  assert (EA : a = w0 * (x0*x0) + w1 * (y0*y0)) by (transitivity (a * (x0*x0+y0*y0) + b * (x0*x1+y0*y1)); [rewrite R0, R01; ring|]; replace (a * (x0*x0+y0*y0) + b * (x0*x1+y0*y1)) with ((a*x0+b*x1)*x0 + (a*y0+b*y1)*y0) by ring; rewrite P0, P1; ring).
  assert (EB : b = w0 * (x0*x1) + w1 * (y0*y1)) by (transitivity (a * (x0*x1+y0*y1) + b * (x1*x1+y1*y1)); [rewrite R1, R01; ring|]; replace (a * (x0*x1+y0*y1) + b * (x1*x1+y1*y1)) with ((a*x0+b*x1)*x1 + (a*y0+b*y1)*y1) by ring; rewrite P0, P1; ring).
  assert (ED : d = w0 * (x1*x1) + w1 * (y1*y1)) by (transitivity (b * (x0*x1+y0*y1) + d * (x1*x1+y1*y1)); [rewrite R1, R01; ring|]; replace (b * (x0*x1+y0*y1) + d * (x1*x1+y1*y1)) with ((b*x0+d*x1)*x1 + (b*y0+d*y1)*y1) by ring; rewrite P0', P1'; ring).
  change (@nltb R NumR) with Rltb. unfold Rltb. destruct Rlt_dec as [Hl|Hl]; (split; [|cbn [v0 v1]; lra]); split; intros i j Hi Hj;
    (destruct i as [|[|i]]; [| |lia]); (destruct j as [|[|j]]; [| |lia]); cbn [mget vget m00 m01 m10 m11 v0 v1 Nat.eqb]; lra.
Qed.
Lemma clamp_unit x : Rabs x <= 1 -> clamp x = x.
Proof.
  intros H. assert (HL := Rle_abs x). assert (HL' := Rle_abs (- x)). rewrite Rabs_Ropp in HL'. unfold clamp. unR. change (@nltb R NumR) with Rltb. unfold Rltb.
  destruct (Rlt_dec x (-1)); [lra|]. destruct (Rlt_dec 1 x); [lra|]. reflexivity.
Qed.
Lemma normalize_id M w z : diagonalises M w z -> normalize_to_interval z = z.
Proof.
  intros [_ H]. assert (H0 := H 0%nat 0%nat ltac:(lia) ltac:(lia)). assert (H1 := H 1%nat 1%nat ltac:(lia) ltac:(lia)).
  destruct z as [a b c d]. cbn [mget Nat.eqb m00 m01 m10 m11] in *. unfold normalize_to_interval. cbn [m00 m01 m10 m11].
  rewrite !clamp_unit; [reflexivity| | | |]; apply Rabs_le; split; nra.
Qed.
Lemma diagonalise_ok (E : EigenLib R) (M : mat2 R) : eig_ok E -> symmetric M ->
  diagonalises M (fst (diagonalise E M)) (snd (diagonalise E M)) /\ Rabs (v0 (fst (diagonalise E M))) <= Rabs (v1 (fst (diagonalise E M))).
Proof.
  intros HE HS. assert (H := fs_herm_ok E M HE HS). unfold diagonalise. destruct (fs_diagonalize_hermitian E M) as [w z].
  destruct H as [H1 H2]. cbn [fst snd]. rewrite (normalize_id _ _ _ H1). auto.
Qed.
(** the eigenvalues returned are those of the matrix *)
Lemma diagonalises_char M w z : symmetric M -> diagonalises M w z -> forall x, char_poly M x = (x - v0 w) * (x - v1 w).
Proof.
  intros HS [H1 H2] x. unfold char_poly. unfold symmetric in HS.
  assert (A := H1 0%nat 0%nat ltac:(lia) ltac:(lia)). assert (B := H1 0%nat 1%nat ltac:(lia) ltac:(lia)). assert (D := H1 1%nat 1%nat ltac:(lia) ltac:(lia)).
  assert (O00 := H2 0%nat 0%nat ltac:(lia) ltac:(lia)). assert (O01 := H2 0%nat 1%nat ltac:(lia) ltac:(lia)). assert (O11 := H2 1%nat 1%nat ltac:(lia) ltac:(lia)).
  destruct M as [a b b' d], w as [w0 w1], z as [x0 x1 y0 y1]. cbn [mget vget m00 m01 m10 m11 v0 v1 Nat.eqb] in *. subst b'.
  (* columns orthonormal *)
  assert (HH : (x0 * y1 - x1 * y0)^2 = 1) by (replace ((x0*y1 - x1*y0)^2) with ((x0*x0 + x1*x1)*(y0*y0+y1*y1) - (x0*y0 + x1*y1)^2) by ring; rewrite O00, O11, O01; ring).
  assert (K1 : x0 * (x0 * y1 - x1 * y0) = y1) by (replace (x0 * (x0 * y1 - x1 * y0)) with ((x0*x0+x1*x1)*y1 - x1 * (x0*y0 + x1*y1)) by ring; rewrite O00, O01; ring).
  assert (K2 : y1 * y1 = x0 * x0) by (apply (f_equal (fun u => u * u)) in K1; cbv beta in K1; rewrite <- K1; match goal with |- ?s * ?d * _ = _ => transitivity (x0 * x0 * d^2); [ring|rewrite HH; ring] end).
  assert (Htr : a + d = w0 + w1) by (rewrite A, D; replace (x0 * w0 * x0 + y0 * w1 * y0 + (x1 * w0 * x1 + y1 * w1 * y1)) with (w0 * (x0*x0+x1*x1) + w1 * (y0*y0+y1*y1)) by ring; rewrite O00, O11; ring).
  assert (Hdet : a * d - b * b = w0 * w1).
  { rewrite A, B, D. replace (_ - _) with (w0 * w1 * (x0 * y1 - x1 * y0)^2) by ring. rewrite HH. ring. }
  replace ((x - w0) * (x - w1)) with (x*x - (w0+w1)*x + w0*w1) by ring. rewrite <- Htr, <- Hdet. ring.
Qed.
