(** * C30 for the conversion of the three-loop corrections between the renormalisation schemes (HierarchyCalculator) *)
From Coq Require Import Reals Lra Lia List ZArith Bool.
From Verif Require Import Num NumFacts Except Params HierFormulas HierSpec HierProofs6 PathSpec PropLimit.
Open Scope R_scope.
Local Notation "# z" := (@nint R NumR z) (at level 1, z constr at level 0).

(** the parameters with the stop masses Mst1, Mst2 *)
Definition with_stops (p : Params R) (m1 m2 : R) : Params R :=
  mkParams (scale p) (mu p) (g1 p) (g2 p) (g3 p) (vd p) (vu p) (mq2 p) (md2 p) (mu2 p) (ml2 p) (me2 p)
      (Au p) (Ad p) (Ae p) (Yu p) (Yd p) (Ye p) (M1 p) (M2 p) (MG p) (MW p) (MZ p) (Mt p) (Mb p) (Mtau p) (MA p)
      (mkV2 m1 m2) (MSb p) (MStau p) (s2t p) (s2b p) (s2tau p) (theta_t p) (theta_b p) (theta_tau p) (massLimit3LThreshold p).

Lemma Lim_branch (d : R -> bool) (e : R -> R) x0 w : Lim e x0 w -> Lim (fun x => if d x then w else e x) x0 w.
Proof.
  intros H eps He. destruct (H eps He) as (dl & D & B). exists dl. split; [exact D|]. intros x Nx Hx. destruct (d x); [|apply B; assumption].
  replace (w - w) with 0 by ring. rewrite Rabs_R0. exact He.
Qed.
Lemma Lim_invsq x0 : 0 < x0 -> Lim (fun x => / (x * x)) x0 (/ (x0 * x0)).
Proof.
  intros H. apply (Lim_cont (fun x => / (x * x))). apply (continuity_pt_inv (fun x => x * x)); [|nra].
  apply (continuity_pt_mult (fun x => x) (fun x => x)); apply derivable_continuous_pt, derivable_pt_id.
Qed.
Lemma Lim_sq x0 : Lim (fun x => x * x) x0 (x0 * x0).
Proof. apply (Lim_cont (fun x => x * x)). apply (continuity_pt_mult (fun x => x) (fun x => x)); apply derivable_continuous_pt, derivable_pt_id. Qed.
Lemma Lim_lninv k x0 : 0 < x0 -> 0 < k -> Lim (fun x => ln (k / (x * x))) x0 (ln (k / (x0 * x0))).
Proof.
  intros H K. assert (E : forall x, x <> 0 -> ln (k / (x * x)) = - ln (x * x / k)).
  { intros x Hx. rewrite <- ln_Rinv; [f_equal; field; split; [lra|exact Hx]|]. apply Rdiv_lt_0_compat; [|exact K]. nra. }
  rewrite E by lra. apply (Lim_near _ (fun x => - ln (x * x / k)) _ _ x0 H); [intros x Hx; apply Rabs_def2 in Hx; apply E; lra|].
  apply Lim_opp, Lim_lnsq; assumption.
Qed.
Ltac numR := change (@nlog R NumR) with ln in *; change (@nint R NumR) with IZR in *; change (@nmul R NumR) with Rmult in *; change (@nsub R NumR) with Rminus in *;
  change (@nadd R NumR) with Rplus in *; change (@ndiv R NumR) with Rdiv in *; change (@nabs R NumR) with Rabs in *; change (@nneg R NumR) with Ropp in *; change (@nsqrt R NumR) with sqrt in *.
Lemma ln_ratio a b : 0 < a -> 0 < b -> ln (a * a / (b * b)) = 2 * ln (a / b).
Proof. intros A B. replace (a * a / (b * b)) with ((a / b) * (a / b)) by (field; lra). assert (0 < a / b) by (apply Rdiv_lt_0_compat; assumption). rewrite ln_mult by assumption. ring. Qed.
Lemma deg_at_equal M (a b l : R) : 0 < M -> a = b ->
  (if Rltb (Rabs (M - M)) (M * Rdec 1 2) then ((Rleb (Rabs (b - l)) (Rabs (a - l)) || negb true) || negb true)%bool else false) = true.
Proof.
  intros H <-. rewrite Rltb_true by (replace (M - M) with 0 by ring; rewrite Rabs_R0; unfold Rdec; simpl; nra).
  unfold Rleb. destruct (Rle_dec _ _); [reflexivity|lra].
Qed.
Lemma shifted_eq M : M + Rdec 5 1 * sqrt (Rabs (M * M - M * M)) = M.
Proof. replace (M * M - M * M) with 0 by ring. rewrite Rabs_R0, sqrt_0. ring. Qed.

(** the function that is convoluted with the mass logarithms: (2 a b ln(a/b) + b^2 - a^2) / (4 (b - a)^3) -> 1/(12 a) *)
Definition W (M m : R) : R := vev_formula 1 1 (M * M) (m * m).
Lemma W_lim M : 0 < M -> Lim (W M) M (1 / (12 * (M * M))).
Proof. intros H. replace (1 / (12 * (M * M))) with (1 / 12 * (1 / (M * M))) by (field; lra). apply (vev_formula_lim 1 1 M H). Qed.

Theorem C30_shift_mh2 p h omitLogs M : 0 < M -> 0 < scale p ->
  Lim (fun m => shiftH3mToDRbarPrimeMh2 (with_stops p M m) h omitLogs) M (shiftH3mToDRbarPrimeMh2 (with_stops p M M) h omitLogs).
Proof.
  intros HM HS. set (s2 := scale p * scale p). assert (K : 0 < s2) by (unfold s2; nra).
  set (X := (if (h =? h4)%Z then #0 else a22 (Au p) - mu p / calcTanBeta p)%num : R).
  set (t := IZR (truncateXt_of h)). set (q := calcMeanMsq p * calcMeanMsq p). set (g := MG p * MG p).
  set (l1 := IZR omitLogs * ln (s2 / (M * M))). set (lq := l1 - ln (q / (M * M))). set (lg := l1 - ln (g / (M * M))).
  set (l2 := fun m => l1 - ln (m * m / (M * M))).
  set (B := fun m => -6 * (1 + lg) * g + 10 * (1 + lq) * q + (1 + l1) * (M * M) + (1 + l2 m) * (m * m)).
  set (lim := 32 * (-3 * (1 + lg) * g + 5 * (1 + lq) * q + (1 + l1) * (M * M)) * (-6 * (X * X) * (M * M) + t * (X * X * (X * X)) + 6 * (M * M * (M * M))) / (3 * (M * M * M * (M * M * M)))).
  set (ex := fun b m => 16 * b * (4 * t * ln (m / M) * (M * M) * (m * m) * (X * X * (X * X)) - 2 * (X * X) * ((M * M - m * m) * (M * M - m * m) * (M * M - m * m)) +
      (M * M + m * m) * ((M * M - m * m) * (M * M - m * m) * (M * M - m * m)) + t * (X * X * (X * X)) * (M * M * (M * M) - m * m * (m * m))) / (M * M * (m * m) * ((M * M - m * m) * (M * M - m * m) * (M * M - m * m)))).
  assert (F : forall m, exists d : bool, shiftH3mToDRbarPrimeMh2 (with_stops p M m) h omitLogs = (if d then lim else ex (B m) m) /\ (m = M -> d = true)).
  { intros m. eexists. split; [reflexivity|]. intros ->. apply deg_at_equal; [exact HM|].
    numR. unfold pow2, pow3, pow4. rewrite shifted_eq. cbn [with_stops MSt v0 v1]. numR. unfold Rdiv.
    rewrite !Rmult_assoc. replace (M * / M) with 1 by (field; lra). rewrite ln_1. ring. }
  destruct (F M) as (d0 & E0 & T0). rewrite E0, (T0 eq_refl).
  apply (Lim_near _ (fun m => if Rltb 0 (if Req_EM_T (shiftH3mToDRbarPrimeMh2 (with_stops p M m) h omitLogs) lim then 1 else 0) then lim else ex (B m) m) _ _ 1 Rlt_0_1).
  { intros m _. destruct (F m) as (d & -> & _). destruct d; destruct (Req_EM_T _ _) as [E|E]; try (rewrite Rltb_true by lra); try (rewrite Rltb_false by lra); try reflexivity; congruence. }
  apply Lim_branch.
  apply (Lim_near' _ (fun m => 16 * (B m * ((-2 * (X * X) + (M * M + m * m) + t * (X * X * (X * X)) * 4 * W M m) * (/ (M * M) * / (m * m))))) _ _ M HM).
  { intros m Nm Hm. apply Rabs_def2 in Hm. assert (D : M * M - m * m <> 0) by (replace (M * M - m * m) with ((M - m) * (M + m)) by ring; apply Rmult_integral_contrapositive_currified; lra).
    unfold ex, W, vev_formula. rewrite ln_ratio by lra. replace (ln (M / m)) with (- ln (m / M)); [|rewrite <- ln_Rinv; [f_equal; field; lra|apply Rdiv_lt_0_compat; lra]].
    field. repeat split; try lra; intros E; apply D; lra. }
  replace lim with (16 * (B M * ((-2 * (X * X) + (M * M + M * M) + t * (X * X * (X * X)) * 4 * (1 / (12 * (M * M)))) * (/ (M * M) * / (M * M))))).
  2: { unfold B, lim, l2. replace (M * M / (M * M)) with 1 by (field; lra). rewrite ln_1. field. lra. }
  apply Lim_scal. refine (Lim_mult (fun m => _) (fun m => _) _ _ _ _ _).
  - unfold B, l2. refine (Lim_plus (fun m => _) (fun m => _) _ _ _ _ _); [apply Lim_const|]. refine (Lim_mult (fun m => _) (fun m => _) _ _ _ _ _); [|apply Lim_sq].
    refine (Lim_plus (fun m => _) (fun m => _) _ _ _ _ _); [apply Lim_const|]. refine (Lim_minus (fun m => _) (fun m => _) _ _ _ _ _); [apply Lim_const|]. apply Lim_lnsq; nra.
  - refine (Lim_mult (fun m => _) (fun m => _) _ _ _ _ _); [|apply Lim_scal, Lim_invsq; exact HM].
    refine (Lim_plus (fun m => _) (fun m => _) _ _ _ _ _); [|apply Lim_scal, W_lim; exact HM]. refine (Lim_plus (fun m => _) (fun m => _) _ _ _ _ _); [apply Lim_const|].
    refine (Lim_plus (fun m => _) (fun m => _) _ _ _ _ _); [apply Lim_const|apply Lim_sq].
Qed.

Definition entry (k : nat) (a : mat2 R) : R := match k with O => m00 a | S O => m01 a | S (S O) => m10 a | _ => m11 a end.
(** the matrix, for the masses in the DR-bar scheme (mdr flag 0): no exception for positive masses, and each entry is continuous
    where the two stop masses coincide *)
Theorem C30_shift_matrix p h M : is_hierarchy h -> 0 < M -> 0 < scale p -> calcMeanMsq p <> 0 -> vu p <> 0 -> vd p <> 0 ->
  exists g, (forall m, 0 < m -> shiftH3mToDRbarPrime (with_stops p M m) false h 0 = Ok (g m)) /\ forall k, Lim (fun m => entry k (g m)) M (entry k (g M)).
Proof.
  intros Hh HM HS NQ NU ND. set (s2 := scale p * scale p). assert (K : 0 < s2) by (unfold s2; nra).
  set (X := (if (h =? h4)%Z then #0 else a22 (Au p) - mu p / calcTanBeta p)%num : R).
  set (t := IZR (truncateXt_of h)). set (q := calcMeanMsq p * calcMeanMsq p). set (g := MG p * MG p). set (tb := calcTanBeta p). set (u := mu p).
  assert (TB : tb <> 0) by (unfold tb, calcTanBeta; numR; unfold Rdiv; apply Rmult_integral_contrapositive_currified; [exact NU|apply Rinv_neq_0_compat; exact ND]).
  set (lq := ln (s2 / q)). set (lg := ln (s2 / g)). set (l := fun m : R => ln (s2 / (m * m))).
  set (B := fun m => -6 * (1 + lg) * g + 10 * (1 + lq) * q + (1 + l M) * (M * M) + (1 + l m) * (m * m)).
  set (BB := -3 * (1 + lg) * g + 5 * (1 + lq) * q + (1 + l M) * (M * M)).
  set (D3 := fun m : R => (M * M - m * m) * (M * M - m * m) * (M * M - m * m)). set (M4 := M * M * (M * M)). set (M6 := M * M * M * (M * M * M)).
  set (L00 := 32 * (X * X) * BB * (u * u) / (3 * M6)).
  set (L10 := -32 * u * BB * (u * (X * X) - 3 * tb * X * (M * M) + tb * (X * X * X)) / (3 * tb * M6)).
  set (L11 := 32 * BB * (-6 * tb * (u * X + tb * (X * X)) * (M * M) + X * X * (u * u) + t * (tb * tb) * (X * X * (X * X)) + 2 * u * tb * (X * X * X) + 6 * (tb * tb) * M4) / (3 * (tb * tb) * M6)).
  set (E00 := fun m => 16 * (X * X) * B m * (u * u) * (-4 * ln (M / m) * (M * M) * (m * m) + M4 - m * m * (m * m)) / (M * M * (m * m) * D3 m)).
  set (E10 := fun m => 16 * u * B m * (4 * ln (M / m) * (M * M) * (m * m) * (u * (X * X) + tb * (X * X * X)) + u * (X * X) * (- M4 + m * m * (m * m)) +
     tb * X * (D3 m + X * X * (- M4 + m * m * (m * m)))) / (tb * (M * M) * (m * m) * D3 m)).
  set (E11 := fun m => 16 * B m * (-4 * ln (M / m) * (M * M) * (m * m) * (X * X * (u * u) + t * (tb * tb) * (X * X * (X * X)) + 2 * u * tb * (X * X * X)) +
     X * X * (-2 * (tb * tb) * D3 m + u * u * (M4 - m * m * (m * m))) + tb * (-2 * u * X * D3 m + tb * (M * M + m * m) * D3 m + 2 * u * (X * X * X) * (M4 - m * m * (m * m))) +
     t * (tb * tb) * (X * X * (X * X)) * (M4 - m * m * (m * m))) / (M * M * (m * m) * (tb * tb) * D3 m)).
  set (pre := (let yt := nconst Csqrt2 * Mt p / vu p in nconst CthreeLoop * pow2 (pow2 (g3 p) * Mt p * yt))%num : R).
  assert (F : forall m, 0 < m -> exists d : bool, shiftH3mToDRbarPrime (with_stops p M m) false h 0 =
     Ok (mat2_scale pre (if d then mkM2 L00 L10 L10 L11 else mkM2 (E00 m) (E10 m) (E10 m) (E11 m))) /\ (m = M -> d = true)).
  { intros m Hm. unfold shiftH3mToDRbarPrime. cbv zeta.
    destruct (no_shift (with_stops p M m) false h Hh) as [S1 S2]; [cbn; lra|cbn; lra|exact NQ|].
    rewrite S1, S2. cbn [bind]. eexists. split; [reflexivity|]. intros ->. apply deg_at_equal; [exact HM|].
    numR. unfold pow2, pow3, pow4. cbn [sfMass1 sfMass2 with_stops MSt v0 v1]. rewrite shifted_eq. reflexivity. }
  set (d := fun m => if Req_EM_T m M then true else match shiftH3mToDRbarPrime (with_stops p M m) false h 0 with
      Ok a => if Req_EM_T (m00 a) (pre * L00) then if Req_EM_T (m10 a) (pre * L10) then if Req_EM_T (m11 a) (pre * L11) then true else false else false else false | _ => false end).
  exists (fun m => mat2_scale pre (if d m then mkM2 L00 L10 L10 L11 else mkM2 (E00 m) (E10 m) (E10 m) (E11 m))).
  assert (dM : d M = true) by (unfold d; destruct (Req_EM_T M M); [reflexivity|congruence]).
  split.
  { intros m Hm. destruct (F m Hm) as (b & E & T). unfold d. destruct (Req_EM_T m M) as [e|n]; [rewrite E, (T e); reflexivity|].
    rewrite E. destruct b; unfold mat2_scale; cbn [m00 m01 m10 m11]; numR;
    repeat (destruct (Req_EM_T _ _) as [?H|?H]); cbv beta iota; cbn [m00 m01 m10 m11]; congruence. }
  assert (LB : Lim B M (2 * BB)).
  { unfold B, BB. replace (2 * (-3 * (1 + lg) * g + 5 * (1 + lq) * q + (1 + l M) * (M * M))) with (-6 * (1 + lg) * g + 10 * (1 + lq) * q + (1 + l M) * (M * M) + (1 + l M) * (M * M)) by ring.
    refine (Lim_plus (fun m => _) (fun m => _) _ _ _ _ _); [apply Lim_const|]. refine (Lim_mult (fun m => _) (fun m => _) _ _ _ _ _); [|apply Lim_sq].
    refine (Lim_plus (fun m => _) (fun m => _) _ _ _ _ _); [apply Lim_const|]. apply Lim_lninv; assumption. }
  assert (I : Lim (fun m => / (M * M) * / (m * m)) M (/ (M * M) * / (M * M))) by (apply Lim_scal, Lim_invsq; exact HM).
  assert (DD : forall m, m <> M -> Rabs (m - M) < M -> 0 < m /\ M * M - m * m <> 0 /\ m * m - M * M <> 0).
  { intros m Nm Hm. apply Rabs_def2 in Hm. assert (A : M * M - m * m <> 0) by (replace (M * M - m * m) with ((M - m) * (M + m)) by ring; apply Rmult_integral_contrapositive_currified; lra).
    repeat split; [lra|exact A|]. intros E; apply A; lra. }
  assert (C00 : Lim E00 M L00).
  { apply (Lim_near' _ (fun m => 64 * (X * X) * (u * u) * (B m * (W M m * (/ (M * M) * / (m * m))))) _ _ M HM).
    { intros m Nm Hm. destruct (DD m Nm Hm) as (P & D1 & D2). unfold E00, W, vev_formula, D3, M4. rewrite ln_ratio by lra. field. repeat split; lra. }
    replace L00 with (64 * (X * X) * (u * u) * (2 * BB * (1 / (12 * (M * M)) * (/ (M * M) * / (M * M))))) by (unfold L00, M6; field; lra).
    apply Lim_scal. apply Lim_mult; [exact LB|]. apply (Lim_mult (W M)); [apply W_lim; exact HM|exact I]. }
  assert (C10 : Lim E10 M L10).
  { apply (Lim_near' _ (fun m => 16 * u / tb * (B m * ((tb * X + -4 * (u * (X * X) + tb * (X * X * X)) * W M m) * (/ (M * M) * / (m * m))))) _ _ M HM).
    { intros m Nm Hm. destruct (DD m Nm Hm) as (P & D1 & D2). unfold E10, W, vev_formula, D3, M4. rewrite ln_ratio by lra. field. repeat split; lra. }
    replace L10 with (16 * u / tb * (2 * BB * ((tb * X + -4 * (u * (X * X) + tb * (X * X * X)) * (1 / (12 * (M * M)))) * (/ (M * M) * / (M * M))))) by (unfold L10, M6; field; lra).
    apply Lim_scal. apply Lim_mult; [exact LB|]. refine (Lim_mult (fun m => _) (fun m => _) _ _ _ _ _); [|exact I]. refine (Lim_plus (fun m => _) (fun m => _) _ _ _ _ _); [apply Lim_const|apply Lim_scal, W_lim; exact HM]. }
  assert (C11 : Lim E11 M L11).
  { apply (Lim_near' _ (fun m => 16 / (tb * tb) * (B m * ((-2 * (tb * tb) * (X * X) - 2 * u * tb * X + tb * tb * (M * M + m * m) + 4 * (X * X * (u * u) + t * (tb * tb) * (X * X * (X * X)) + 2 * u * tb * (X * X * X)) * W M m) * (/ (M * M) * / (m * m))))) _ _ M HM).
    { intros m Nm Hm. destruct (DD m Nm Hm) as (P & D1 & D2). unfold E11, W, vev_formula, D3, M4. rewrite ln_ratio by lra. field. repeat split; lra. }
    replace L11 with (16 / (tb * tb) * (2 * BB * ((-2 * (tb * tb) * (X * X) - 2 * u * tb * X + tb * tb * (M * M + M * M) + 4 * (X * X * (u * u) + t * (tb * tb) * (X * X * (X * X)) + 2 * u * tb * (X * X * X)) * (1 / (12 * (M * M)))) * (/ (M * M) * / (M * M)))))
      by (unfold L11, M6, M4; field; lra).
    apply Lim_scal. apply Lim_mult; [exact LB|]. refine (Lim_mult (fun m => _) (fun m => _) _ _ _ _ _); [|exact I]. refine (Lim_plus (fun m => _) (fun m => _) _ _ _ _ _); [|apply Lim_scal, W_lim; exact HM].
    refine (Lim_plus (fun m => _) (fun m => _) _ _ _ _ _); [apply Lim_const|]. apply Lim_scal. refine (Lim_plus (fun m => _) (fun m => _) _ _ _ _ _); [apply Lim_const|apply Lim_sq]. }
  assert (Fin : forall (E : R -> R) v, Lim E M v -> Lim (fun m => pre * (if d m then v else E m)) M (pre * v)) by (intros E v HE; apply (Lim_scal (fun m => if d m then v else E m)); apply Lim_branch; exact HE).
  assert (Ent : forall k b x y z w x' y' z' w', entry k (mat2_scale pre (if b : bool then mkM2 x y z w else mkM2 x' y' z' w')) = pre * (if b then entry k (mkM2 x y z w) else entry k (mkM2 x' y' z' w'))) by (intros [|[|[|k]]] []; reflexivity).
  intros k. rewrite dM. replace (entry k (mat2_scale pre (mkM2 L00 L10 L10 L11))) with (pre * entry k (mkM2 L00 L10 L10 L11)) by (destruct k as [|[|[|k]]]; reflexivity).
  apply (Lim_near _ (fun m => pre * (if d m then entry k (mkM2 L00 L10 L10 L11) else entry k (mkM2 (E00 m) (E10 m) (E10 m) (E11 m)))) _ _ 1 Rlt_0_1); [intros m _; apply Ent|].
  destruct k as [|[|[|k]]]; cbn [entry m00 m01 m10 m11]; apply Fin; assumption.
Qed.

(** ** The hypotheses are met: all seven kinds of approach exist, for the parameters of the example of C50 *)
From Verif Require Import Thresh Threshold PropThresh DilogSpec DilogExists LimitSpec.
Theorem C30_nonvacuous :
  0 < v0 (MSt (tc_p c_thr)) /\ (exists Li2, is_ReLi2 Li2) /\
  approaches GENERAL MQ3_EQ_MU3 (fun mU => (1000, mU, 1500, 1500)) 1000 /\ approaches GENERAL MQ3_EQ_M3 (fun m3 => (1000, 1200, m3, 1500)) 1000 /\
  approaches GENERAL MU3_EQ_M3 (fun m3 => (1000, 1200, m3, 1500)) 1200 /\ approaches MQ3_EQ_MU3 MQ3_EQ_MU3_EQ_M3 (fun m3 => (1000, 1000, m3, 1500)) 1000 /\
  approaches MQ3_EQ_M3 MQ3_EQ_MU3_EQ_M3 (fun mU => (1000, mU, 1000, 1500)) 1000 /\ approaches MU3_EQ_M3 MQ3_EQ_MU3_EQ_M3 (fun m => (1000, m, m, 1500)) 1000 /\
  approaches MQ3_EQ_MU3_EQ_M3 DEGENERATE (fun msq => (1000, 1000, 1000, msq)) 1000.
Proof. split; [cbn; lra|]. split; [exact ReLi2_exists|]. repeat split; constructor; lra. Qed.
