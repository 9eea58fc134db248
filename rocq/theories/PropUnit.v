(** * C72: the mass unit *)
From Coq Require Import Reals ZArith Bool String Lra Lia.
From Verif Require Import Num NumFacts Except Params HierFormulas Dilog LoopFun Thresh ThreshTwo Threshold FieldNF ThreshTree ThreshDeep Grading UnitSpec UnitProofs.
Open Scope R_scope.

(** the corrections for which the claim holds without conditions *)
Definition unit_free (o : tco) : bool :=
  match o with
  | LAMBDA_YB4_G32 | LAMBDA_YB6 | LAMBDA_YT6 | LAMBDA_YTAU6 | LAMBDA_YT2_YB4 | LAMBDA_YT4_YB2 => false
  | _ => true
  end.

Section C72.
  Variables (s : R) (p : Params R) (msq2 : R).
  Hypothesis Hs : 0 < s.
  Lemma H3c : forall x y z : R, fun3 1 (powerRZ s 2 * x) (powerRZ s 2 * y) (powerRZ s 2 * z) = powerRZ s 2 * fun3 1 x y z.
  Proof. intros x y z. exact (phi_dim s x y z Hs). Qed.
  Notation p' := (rescale s p). Notation m' := (s ^ 2 * msq2).
  Lemma uT x o : no1s x = true -> dimless 2 x = true -> sevT (leafR p' m' o) x = sevT (leafR p msq2 o) x.
  Proof. intros A B. exact (proj2 (unit_G s 2 fun3 Hs H3c p msq2 o x (or_intror A) B)). Qed.
  Lemma uG x o : no1s x = true -> dimless 2 x = true -> sev (leafR p' m' o) x = sev (leafR p msq2 o) x.
  Proof. intros A B. exact (proj1 (unit_G s 2 fun3 Hs H3c p msq2 o x (or_intror A) B)). Qed.
  Ltac go E := intros; rewrite ?(E p' m'), ?(E p msq2); (apply uT || apply uG); vm_compute; reflexivity.
  Lemma u_DeltaLambdaYb2G12 : forall (o : Z), getDeltaLambdaYb2G12 p' o = getDeltaLambdaYb2G12 p o.
  Proof. intros. rewrite (d_getDeltaLambdaYb2G12_eq p' m' o), (d_getDeltaLambdaYb2G12_eq p msq2 o). apply uT; vm_compute; reflexivity. Qed.
  Lemma u_DeltaLambdaG14 : forall (o : Z), getDeltaLambdaG14 p' o = getDeltaLambdaG14 p o.
  Proof. intros. rewrite (d_getDeltaLambdaG14_eq p' m' o), (d_getDeltaLambdaG14_eq p msq2 o). apply uT; vm_compute; reflexivity. Qed.
  Lemma u_DeltaLambdaRegG14 : getDeltaLambdaRegG14 p' = getDeltaLambdaRegG14 p.
  Proof. intros. rewrite (d_getDeltaLambdaRegG14_eq p' m' 0%Z), (d_getDeltaLambdaRegG14_eq p msq2 0%Z). apply uT; vm_compute; reflexivity. Qed.
  Lemma u_DeltaLambdaChiG14 : forall (o : Z), getDeltaLambdaChiG14 p' o = getDeltaLambdaChiG14 p o.
  Proof. intros. rewrite (d_getDeltaLambdaChiG14_eq p' m' o), (d_getDeltaLambdaChiG14_eq p msq2 o). apply uT; vm_compute; reflexivity. Qed.
  Lemma u_DeltaLambdaChiG24 : forall (o : Z), getDeltaLambdaChiG24 p' o = getDeltaLambdaChiG24 p o.
  Proof. intros. rewrite (d_getDeltaLambdaChiG24_eq p' m' o), (d_getDeltaLambdaChiG24_eq p msq2 o). apply uT; vm_compute; reflexivity. Qed.
  Lemma u_DeltaLambdaG24 : forall (o : Z), getDeltaLambdaG24 p' o = getDeltaLambdaG24 p o.
  Proof. intros. rewrite (d_getDeltaLambdaG24_eq p' m' o), (d_getDeltaLambdaG24_eq p msq2 o). apply uT; vm_compute; reflexivity. Qed.
  Lemma u_DeltaLambdaRegG24 : getDeltaLambdaRegG24 p' = getDeltaLambdaRegG24 p.
  Proof. intros. rewrite (d_getDeltaLambdaRegG24_eq p' m' 0%Z), (d_getDeltaLambdaRegG24_eq p msq2 0%Z). apply uT; vm_compute; reflexivity. Qed.
  Lemma u_DeltaLambdaG12G22 : forall (o : Z), getDeltaLambdaG12G22 p' o = getDeltaLambdaG12G22 p o.
  Proof. intros. rewrite (d_getDeltaLambdaG12G22_eq p' m' o), (d_getDeltaLambdaG12G22_eq p msq2 o). apply uT; vm_compute; reflexivity. Qed.
  Lemma u_DeltaLambdaRegG12G22 : getDeltaLambdaRegG12G22 p' = getDeltaLambdaRegG12G22 p.
  Proof. intros. rewrite (d_getDeltaLambdaRegG12G22_eq p' m' 0%Z), (d_getDeltaLambdaRegG12G22_eq p msq2 0%Z). apply uT; vm_compute; reflexivity. Qed.
  Lemma u_DeltaLambdaChiG12G22 : forall (o : Z), getDeltaLambdaChiG12G22 p' o = getDeltaLambdaChiG12G22 p o.
  Proof. intros. rewrite (d_getDeltaLambdaChiG12G22_eq p' m' o), (d_getDeltaLambdaChiG12G22_eq p msq2 o). apply uT; vm_compute; reflexivity. Qed.
  Lemma u_DeltaLambdaYb2G22 : forall (o : Z), getDeltaLambdaYb2G22 p' o = getDeltaLambdaYb2G22 p o.
  Proof. intros. rewrite (d_getDeltaLambdaYb2G22_eq p' m' o), (d_getDeltaLambdaYb2G22_eq p msq2 o). apply uT; vm_compute; reflexivity. Qed.
  Lemma u_DeltaLambdaYb4 : forall (o : Z), getDeltaLambdaYb4 p' o = getDeltaLambdaYb4 p o.
  Proof. intros. rewrite (d_getDeltaLambdaYb4_eq p' m' o), (d_getDeltaLambdaYb4_eq p msq2 o). apply uT; vm_compute; reflexivity. Qed.
  Lemma u_DeltaLambdaYt2G12 : forall (o : Z), getDeltaLambdaYt2G12 p' o = getDeltaLambdaYt2G12 p o.
  Proof. intros. rewrite (d_getDeltaLambdaYt2G12_eq p' m' o), (d_getDeltaLambdaYt2G12_eq p msq2 o). apply uT; vm_compute; reflexivity. Qed.
  Lemma u_DeltaLambdaYt2G22 : forall (o : Z), getDeltaLambdaYt2G22 p' o = getDeltaLambdaYt2G22 p o.
  Proof. intros. rewrite (d_getDeltaLambdaYt2G22_eq p' m' o), (d_getDeltaLambdaYt2G22_eq p msq2 o). apply uT; vm_compute; reflexivity. Qed.
  Lemma u_DeltaLambdaYtau2G12 : forall (o : Z), getDeltaLambdaYtau2G12 p' o = getDeltaLambdaYtau2G12 p o.
  Proof. intros. rewrite (d_getDeltaLambdaYtau2G12_eq p' m' o), (d_getDeltaLambdaYtau2G12_eq p msq2 o). apply uT; vm_compute; reflexivity. Qed.
  Lemma u_DeltaLambdaYtau2G22 : forall (o : Z), getDeltaLambdaYtau2G22 p' o = getDeltaLambdaYtau2G22 p o.
  Proof. intros. rewrite (d_getDeltaLambdaYtau2G22_eq p' m' o), (d_getDeltaLambdaYtau2G22_eq p msq2 o). apply uT; vm_compute; reflexivity. Qed.
  Lemma u_DeltaLambdaYtau4 : forall (o : Z), getDeltaLambdaYtau4 p' o = getDeltaLambdaYtau4 p o.
  Proof. intros. rewrite (d_getDeltaLambdaYtau4_eq p' m' o), (d_getDeltaLambdaYtau4_eq p msq2 o). apply uT; vm_compute; reflexivity. Qed.
  Lemma u_DeltaG1G1 : forall (o : Z), getDeltaG1G1 p' o = getDeltaG1G1 p o.
  Proof. intros. rewrite (d_getDeltaG1G1_eq p' m' o), (d_getDeltaG1G1_eq p msq2 o). apply uT; vm_compute; reflexivity. Qed.
  Lemma u_DeltaG2G2 : forall (o : Z), getDeltaG2G2 p' o = getDeltaG2G2 p o.
  Proof. intros. rewrite (d_getDeltaG2G2_eq p' m' o), (d_getDeltaG2G2_eq p msq2 o). apply uT; vm_compute; reflexivity. Qed.
  Lemma u_DeltaYtYt : forall (o : Z), getDeltaYtYt p' o = getDeltaYtYt p o.
  Proof. intros. rewrite (d_getDeltaYtYt_eq p' m' o), (d_getDeltaYtYt_eq p msq2 o). apply uT; vm_compute; reflexivity. Qed.
  Lemma u_DeltaYtauYtau : forall (o : Z), getDeltaYtauYtau p' o = getDeltaYtauYtau p o.
  Proof. intros. rewrite (d_getDeltaYtauYtau_eq p' m' o), (d_getDeltaYtauYtau_eq p msq2 o). apply uT; vm_compute; reflexivity. Qed.
  Lemma u_DeltaYbYb : forall (o : Z), getDeltaYbYb p' o = getDeltaYbYb p o.
  Proof. intros. rewrite (d_getDeltaYbYb_eq p' m' o), (d_getDeltaYbYb_eq p msq2 o). apply uT; vm_compute; reflexivity. Qed.
  Lemma u_DeltaYbYt : forall (o : Z), getDeltaYbYt p' o = getDeltaYbYt p o.
  Proof. intros. rewrite (d_getDeltaYbYt_eq p' m' o), (d_getDeltaYbYt_eq p msq2 o). apply uT; vm_compute; reflexivity. Qed.
  Lemma u_DeltaYbAs : forall (o : Z), getDeltaYbAs p' o = getDeltaYbAs p o.
  Proof. intros. rewrite (d_getDeltaYbAs_eq p' m' o), (d_getDeltaYbAs_eq p msq2 o). apply uT; vm_compute; reflexivity. Qed.
  Lemma u_DeltaYtYb : forall (o : Z), getDeltaYtYb p' o = getDeltaYtYb p o.
  Proof. intros. rewrite (d_getDeltaYtYb_eq p' m' o), (d_getDeltaYtYb_eq p msq2 o). apply uT; vm_compute; reflexivity. Qed.
  Lemma u_DeltaVevYt2 : forall (limit : Z), getDeltaVevYt2 p' limit = getDeltaVevYt2 p limit.
  Proof. intros. rewrite (d_getDeltaVevYt2_eq p' m' limit 0%Z), (d_getDeltaVevYt2_eq p msq2 limit 0%Z). apply uT; vm_compute; reflexivity. Qed.
  Lemma u_DeltaVevYb2 : getDeltaVevYb2 p' = getDeltaVevYb2 p.
  Proof. intros. rewrite (d_getDeltaVevYb2_eq p' m' 0%Z), (d_getDeltaVevYb2_eq p msq2 0%Z). apply uT; vm_compute; reflexivity. Qed.
  Lemma u_DeltaVevYtau2 : getDeltaVevYtau2 p' = getDeltaVevYtau2 p.
  Proof. intros. rewrite (d_getDeltaVevYtau2_eq p' m' 0%Z), (d_getDeltaVevYtau2_eq p msq2 0%Z). apply uT; vm_compute; reflexivity. Qed.
  Lemma u_DeltaYtauYb : getDeltaYtauYb p' = getDeltaYtauYb p.
  Proof. intros. rewrite (d_getDeltaYtauYb_eq p' m' 0%Z), (d_getDeltaYtauYb_eq p msq2 0%Z). apply uT; vm_compute; reflexivity. Qed.
  Lemma u_DeltaG3Alphas : forall (o : Z), getDeltaG3Alphas p' m' o = getDeltaG3Alphas p msq2 o.
  Proof. intros. rewrite (d_getDeltaG3Alphas_eq p' m' o), (d_getDeltaG3Alphas_eq p msq2 o). apply uT; vm_compute; reflexivity. Qed.
  Lemma u_DeltaYtAlphas : forall (limit : Z) (o : Z), getDeltaYtAlphas p' limit o = getDeltaYtAlphas p limit o.
  Proof. intros. rewrite (d_getDeltaYtAlphas_eq p' m' limit o), (d_getDeltaYtAlphas_eq p msq2 limit o). apply uG; vm_compute; reflexivity. Qed.
  Lemma u_DeltaLambdaAlphat : forall (limit : Z) (o : Z), getDeltaLambdaAlphat p' limit o = getDeltaLambdaAlphat p limit o.
  Proof. intros. rewrite (d_getDeltaLambdaAlphat_eq p' m' limit o), (d_getDeltaLambdaAlphat_eq p msq2 limit o). apply uG; vm_compute; reflexivity. Qed.
  Lemma u_DeltaLambdaYt6_SUSYHD : forall (o : Z), getDeltaLambdaYt6_SUSYHD p' o = getDeltaLambdaYt6_SUSYHD p o.
  Proof. intros. rewrite (d_getDeltaLambdaYt6_SUSYHD_eq p' m' o), (d_getDeltaLambdaYt6_SUSYHD_eq p msq2 o). apply uT; vm_compute; reflexivity. Qed.
  Lemma u_DeltaLambdaYtau4Yb2 : forall (o : Z), getDeltaLambdaYtau4Yb2 p' o = getDeltaLambdaYtau4Yb2 p o.
  Proof. intros. rewrite (d_getDeltaLambdaYtau4Yb2_eq p' m' o), (d_getDeltaLambdaYtau4Yb2_eq p msq2 o). apply uT; vm_compute; reflexivity. Qed.
  Lemma u_DeltaLambdaYtau2Yb4 : forall (o : Z), getDeltaLambdaYtau2Yb4 p' o = getDeltaLambdaYtau2Yb4 p o.
  Proof. intros. rewrite (d_getDeltaLambdaYtau2Yb4_eq p' m' o), (d_getDeltaLambdaYtau2Yb4_eq p msq2 o). apply uT; vm_compute; reflexivity. Qed.
  Lemma u_DeltaYtAlphas2 : forall (limit : Z) (o : Z), getDeltaYtAlphas2 p' m' limit o = getDeltaYtAlphas2 p msq2 limit o.
  Proof. intros. rewrite (d_getDeltaYtAlphas2_eq p' m' limit o), (d_getDeltaYtAlphas2_eq p msq2 limit o). apply uG; vm_compute; reflexivity. Qed.
  Lemma u_DeltaLambdaAlphatAlphas : forall (limit : Z) (o : Z), getDeltaLambdaAlphatAlphas p' limit o = getDeltaLambdaAlphatAlphas p limit o.
  Proof. intros. rewrite (d_getDeltaLambdaAlphatAlphas_eq p' m' limit o), (d_getDeltaLambdaAlphatAlphas_eq p msq2 limit o). apply uG; vm_compute; reflexivity. Qed.
  Lemma u_DeltaLambdaAlphatAlphas2 : forall (xtOrderLambdaAtAs2 : Z) (limit : Z) (o : Z), getDeltaLambdaAlphatAlphas2 p' m' xtOrderLambdaAtAs2 limit o = getDeltaLambdaAlphatAlphas2 p msq2 xtOrderLambdaAtAs2 limit o.
  Proof. intros. rewrite (d_getDeltaLambdaAlphatAlphas2_eq p' m' xtOrderLambdaAtAs2 limit o), (d_getDeltaLambdaAlphatAlphas2_eq p msq2 xtOrderLambdaAtAs2 limit o). apply uG; vm_compute; reflexivity. Qed.
  Lemma u_DRbarPrimeToMSbarXtTerms : forall (limit : Z) (xtOrder : Z) (o : Z), getDRbarPrimeToMSbarXtTerms p' m' limit xtOrder o = getDRbarPrimeToMSbarXtTerms p msq2 limit xtOrder o.
  Proof. intros. rewrite (d_getDRbarPrimeToMSbarXtTerms_eq p' m' limit xtOrder o), (d_getDRbarPrimeToMSbarXtTerms_eq p msq2 limit xtOrder o). apply uG; vm_compute; reflexivity. Qed.
End C72.

Ltac runit s c Hs := rewrite ?(u_DeltaLambdaYb2G12 s (tc_p c) (tc_msq2 c) Hs), ?(u_DeltaLambdaG14 s (tc_p c) (tc_msq2 c) Hs), ?(u_DeltaLambdaRegG14 s (tc_p c) (tc_msq2 c) Hs), ?(u_DeltaLambdaChiG14 s (tc_p c) (tc_msq2 c) Hs), ?(u_DeltaLambdaChiG24 s (tc_p c) (tc_msq2 c) Hs), ?(u_DeltaLambdaG24 s (tc_p c) (tc_msq2 c) Hs), ?(u_DeltaLambdaRegG24 s (tc_p c) (tc_msq2 c) Hs), ?(u_DeltaLambdaG12G22 s (tc_p c) (tc_msq2 c) Hs), ?(u_DeltaLambdaRegG12G22 s (tc_p c) (tc_msq2 c) Hs), ?(u_DeltaLambdaChiG12G22 s (tc_p c) (tc_msq2 c) Hs), ?(u_DeltaLambdaYb2G22 s (tc_p c) (tc_msq2 c) Hs), ?(u_DeltaLambdaYb4 s (tc_p c) (tc_msq2 c) Hs), ?(u_DeltaLambdaYt2G12 s (tc_p c) (tc_msq2 c) Hs), ?(u_DeltaLambdaYt2G22 s (tc_p c) (tc_msq2 c) Hs), ?(u_DeltaLambdaYtau2G12 s (tc_p c) (tc_msq2 c) Hs), ?(u_DeltaLambdaYtau2G22 s (tc_p c) (tc_msq2 c) Hs), ?(u_DeltaLambdaYtau4 s (tc_p c) (tc_msq2 c) Hs), ?(u_DeltaG1G1 s (tc_p c) (tc_msq2 c) Hs), ?(u_DeltaG2G2 s (tc_p c) (tc_msq2 c) Hs), ?(u_DeltaYtYt s (tc_p c) (tc_msq2 c) Hs), ?(u_DeltaYtauYtau s (tc_p c) (tc_msq2 c) Hs), ?(u_DeltaYbYb s (tc_p c) (tc_msq2 c) Hs), ?(u_DeltaYbYt s (tc_p c) (tc_msq2 c) Hs), ?(u_DeltaYbAs s (tc_p c) (tc_msq2 c) Hs), ?(u_DeltaYtYb s (tc_p c) (tc_msq2 c) Hs), ?(u_DeltaVevYt2 s (tc_p c) (tc_msq2 c) Hs), ?(u_DeltaVevYb2 s (tc_p c) (tc_msq2 c) Hs), ?(u_DeltaVevYtau2 s (tc_p c) (tc_msq2 c) Hs), ?(u_DeltaYtauYb s (tc_p c) (tc_msq2 c) Hs), ?(u_DeltaG3Alphas s (tc_p c) (tc_msq2 c) Hs), ?(u_DeltaYtAlphas s (tc_p c) (tc_msq2 c) Hs), ?(u_DeltaLambdaAlphat s (tc_p c) (tc_msq2 c) Hs), ?(u_DeltaLambdaYt6_SUSYHD s (tc_p c) (tc_msq2 c) Hs), ?(u_DeltaLambdaYtau4Yb2 s (tc_p c) (tc_msq2 c) Hs), ?(u_DeltaLambdaYtau2Yb4 s (tc_p c) (tc_msq2 c) Hs), ?(u_DeltaYtAlphas2 s (tc_p c) (tc_msq2 c) Hs), ?(u_DeltaLambdaAlphatAlphas s (tc_p c) (tc_msq2 c) Hs), ?(u_DeltaLambdaAlphatAlphas2 s (tc_p c) (tc_msq2 c) Hs), ?(u_DRbarPrimeToMSbarXtTerms s (tc_p c) (tc_msq2 c) Hs).

(** C72 (i): getThresholdCorrection *)
Theorem C72_threshold_unit (s : R) (c : TC R) (o : tco) (sch : scheme) (omitLogs : Z) : 0 < s -> unit_free o = true ->
  getThresholdCorrection (rescaleTC s c) o sch omitLogs = getThresholdCorrection c o sch omitLogs.
Proof.
  intros Hs Ho. unfold getThresholdCorrection, rescaleTC; cbn [tc_p tc_msq2 tc_xt].
  change (massLimit3LThreshold (rescale s (tc_p c))) with (massLimit3LThreshold (tc_p c)). cbv zeta.
  destruct o; try discriminate; runit s c Hs; reflexivity.
Qed.

(** C72 (ii): getDRbarPrimeToMSbarShift *)
Theorem C72_shift_unit (s : R) (c : TC R) (xtOrder omitLogs omitXtLogs : Z) : 0 < s ->
  getDRbarPrimeToMSbarShift (rescaleTC s c) xtOrder omitLogs omitXtLogs = getDRbarPrimeToMSbarShift c xtOrder omitLogs omitXtLogs.
Proof.
  intros Hs. unfold getDRbarPrimeToMSbarShift, rescaleTC; cbn [tc_p tc_msq2 tc_xt].
  change (massLimit3LThreshold (rescale s (tc_p c))) with (massLimit3LThreshold (tc_p c)). cbv zeta.
  runit s c Hs. reflexivity.
Qed.

(** C72 (iii): the mass limit chosen by the constructor *)
Theorem C72_limit_unit (s : R) (p : Params R) (msq2 : R) : 0 < s -> choose_limit (rescale s p) (s ^ 2 * msq2) = choose_limit p msq2.
Proof.
  intros Hs.
  assert (SQ : forall x, R_sqrt.sqrt (s ^ 2 * x) = s * R_sqrt.sqrt x).
  { intros x. rewrite sqrt_mult_alt by nra. replace (s ^ 2) with (s * s) by ring. rewrite sqrt_square by lra. reflexivity. }
  assert (AB : forall a b, Rabs (s * a - s * b) = s * Rabs (a - b)).
  { intros a b. replace (s * a - s * b) with (s * (a - b)) by ring. rewrite Rabs_mult, (Rabs_pos_eq s) by lra. reflexivity. }
  assert (BR : forall a b l1 (m : R) lim, choose_branch (rescale s p) (s ^ 2 * msq2) (s ^ 2 * m) l1 (s ^ 2 * a) (s * b) lim = choose_branch p msq2 m l1 a b lim).
  { intros a b l1 m lim. unfold choose_branch. rewrite !(u_DeltaYtAlphas2 s p msq2 Hs).
    change (with_mU32_m3 (rescale s p) (s ^ 2 * a) (s * b)) with (rescale s (with_mU32_m3 p a b)).
    rewrite !(u_DeltaYtAlphas2 s (with_mU32_m3 p a b) m Hs). reflexivity. }
  unfold choose_limit.
  change (a22 (mq2 (rescale s p))) with (s ^ 2 * a22 (mq2 p)). change (a22 (mu2 (rescale s p))) with (s ^ 2 * a22 (mu2 p)).
  change (MG (rescale s p)) with (s * MG p). change (Mt (rescale s p)) with (s * Mt p). change (g3 (rescale s p)) with (g3 p).
  change (massLimit3LThreshold (rescale s p)) with (massLimit3LThreshold p).
  rewrite calcV_s by exact Hs. cbn [nsqrt NumR]. rewrite !SQ. cbv zeta.
  set (mQ := R_sqrt.sqrt (a22 (mq2 p))). set (mU := R_sqrt.sqrt (a22 (mu2 p))). set (mS := R_sqrt.sqrt msq2).
  cbn [nabs nsub nmul nadd ndiv nltb ndec nint nconst NumR]. rewrite !AB.
  assert (LT : forall a e c, Rltb (s * Rabs a) (s * e * c) = Rltb (Rabs a) (e * c)).
  { intros a e c. rewrite Rmult_assoc. apply Rltb_s. exact Hs. }
  rewrite !LT.
  assert (PF : forall k, Rconst CtwoLoop * Rconst Csqrt2 * (s * Mt p) * k / (s * calcV p) = Rconst CtwoLoop * Rconst Csqrt2 * Mt p * k / calcV p).
  { intros k. unfold Rdiv. rewrite Rinv_mult. replace (Rconst CtwoLoop * Rconst Csqrt2 * (s * Mt p) * k * (/ s * / calcV p)) with ((s * / s) * (Rconst CtwoLoop * Rconst Csqrt2 * Mt p * k * / calcV p)) by ring. rewrite Rinv_r by lra. ring. }
  rewrite !PF.
  assert (SH : forall x, pow2 (s * mQ + s * Rabs x / IZR 2) = s ^ 2 * pow2 (mQ + Rabs x / IZR 2)).
  { intros x. unfold pow2. cbn. field. }
  rewrite !SH.
  assert (SH1 : forall x, s * mQ + s * Rabs x / IZR 2 = s * (mQ + Rabs x / IZR 2)) by (intros x; field).
  rewrite !SH1. rewrite !BR. reflexivity.
Qed.
