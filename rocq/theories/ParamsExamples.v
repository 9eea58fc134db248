(** Witnesses: the assumptions made about Eigen can be met, and concrete points. *)
From Coq Require Import Reals ZArith List Bool Lra Lia Psatz String.
From Verif Require Import Num NumFacts Except Params ParamsSpec ParamsProofs ParamsProofs2.
Import ListNotations.
Open Scope R_scope.

(** an explicit diagonalisation of a symmetric 2x2 matrix (closed form), proper rotation iff a < d *)
Definition eig_explicit (M : mat2 R) : vec2 R * mat2 R :=
  let a := m00 M in let b := m01 M in let d := m11 M in
  let k := if Rlt_dec a d then 1 else -1 in
  if Req_EM_T b 0 then
    if Rle_dec a d then (mkV2 a d, mkM2 1 (- k * 0) 0 (k * 1)) else (mkV2 d a, mkM2 0 (- k * 1) 1 (k * 0))
  else
    let q := sqrt (((a - d) / 2) ^ 2 + b ^ 2) in
    let l0 := (a + d) / 2 - q in let l1 := (a + d) / 2 + q in
    let n := sqrt (b ^ 2 + (l0 - a) ^ 2) in
    let x := b / n in let y := (l0 - a) / n in
    (mkV2 l0 l1, mkM2 x (- k * y) y (k * x)).
Definition ER0 : EigenLib R := mkEigen eig_explicit (fun _ => (0, 0, 0)).

Lemma eig_explicit_ok M : m01 M = m10 M ->
  eig_spec M (fst (eig_explicit M)) (snd (eig_explicit M)) /\ rotation_convention M (snd (eig_explicit M)).
Proof.
  intros HM. unfold eig_explicit, rotation_convention. destruct M as [a b b' d]. cbn [m00 m01 m10 m11] in *. subst b'.
  set (k := if Rlt_dec a d then 1 else -1).
  assert (Hk : k * k = 1) by (unfold k; destruct (Rlt_dec a d); lra).
  destruct (Req_EM_T b 0) as [Hb|Hb].
  - destruct (Rle_dec a d) as [Had|Had]; cbn [fst snd m00 m01 m10 m11].
    + split; [constructor; unfold eigenpair; cbn [v0 v1 m00 m01 m10 m11]; try split; subst b; nra|].
      fold k. ring.
    + split; [constructor; unfold eigenpair; cbn [v0 v1 m00 m01 m10 m11]; try split; subst b; nra|].
      fold k. ring.
  - set (q := sqrt (((a - d) / 2) ^ 2 + b ^ 2)).
    assert (Hb2 : 0 < b ^ 2) by nra.
    pose proof (pow2_ge_0 ((a - d) / 2)) as Hp2.
    assert (Hq2 : q * q = ((a - d) / 2) ^ 2 + b ^ 2) by (apply sqrt_sqrt; lra).
    assert (Hq : 0 < q) by (apply sqrt_lt_R0; lra).
    cbn [fst snd m00 m01 m10 m11]. cbv zeta.
    set (l0 := (a + d) / 2 - q). set (l1 := (a + d) / 2 + q).
    set (n := sqrt (b ^ 2 + (l0 - a) ^ 2)).
    pose proof (pow2_ge_0 (l0 - a)) as Hp3.
    assert (Hn2 : n * n = b ^ 2 + (l0 - a) ^ 2) by (apply sqrt_sqrt; lra).
    assert (Hn : 0 < n) by (apply sqrt_lt_R0; lra).
    assert (Hchar : (l0 - a) * (l0 - d) = b * b) by (unfold l0; nra).
    assert (Hl1 : l1 = a + d - l0) by (unfold l0, l1; lra).
    set (i := / n). assert (Hi : i * i * (n * n) = 1) by (unfold i; field; lra).
    unfold Rdiv. fold i.
    split.
    + constructor; unfold eigenpair; cbn [v0 v1 m00 m01 m10 m11].
      * unfold l0, l1; lra.
      * split.
        -- replace (l0 * (b * i)) with (i * (l0 * b)) by ring. replace (a * (b * i) + b * ((l0 - a) * i)) with (i * (l0 * b)) by ring. reflexivity.
        -- replace (b * (b * i) + d * ((l0 - a) * i)) with (i * (b * b + d * (l0 - a))) by ring. rewrite <- Hchar. ring.
      * rewrite Hl1. split.
        -- replace (a * (- k * ((l0 - a) * i)) + b * (k * (b * i))) with (k * i * (b * b - a * (l0 - a))) by ring. rewrite <- Hchar. ring.
        -- ring.
      * replace (_ + _) with (i * i * (b ^ 2 + (l0 - a) ^ 2)) by ring. rewrite <- Hn2. exact Hi.
      * replace (_ + _) with (k * k * (i * i * (b ^ 2 + (l0 - a) ^ 2))) by ring. rewrite <- Hn2, Hi, Hk. ring.
      * ring.
    + replace (_ - _) with (k * (i * i * (b ^ 2 + (l0 - a) ^ 2))) by ring. rewrite <- Hn2, Hi. fold k. ring.
Qed.
Lemma ER0_ok : eig_ok ER0.
Proof. intros M HM. apply eig_explicit_ok, HM. Qed.

Definition unsome (x : PR) : R := match x with Some v => v | None => 0 end.
Definition E0 : EigenLib PR :=
  mkEigen (fun M => let '(ew, ev) := eig_explicit (mkM2 (unsome (m00 M)) (unsome (m01 M)) (unsome (m10 M)) (unsome (m11 M)))
                    in (someV ew, someM ev))
          (fun _ => (Some 0, Some 0, Some 0)).
Lemma E0_lifts : lifts E0 ER0.
Proof.
  split; [|reflexivity]. intros [a b c d]. cbn [eig2 E0 ER0 someM m00 m01 m10 m11 unsome].
  destruct (eig_explicit _). reflexivity.
Qed.
Lemma E0_svd : sv3_diag_ok E0.
Proof. intros M. reflexivity. Qed.

Definition zero3 : mat3 R := mkM3 0 0 0 0 0 0 0 0 0.
Definition diag3 (x : R) : mat3 R := mkM3 x 0 0 0 x 0 0 0 x.
(** a complete point with masses m, stop and sbottom masses 900 and 1100 in the wrong order *)
Definition r_ex (g : R) : Params R :=
  mkParams 1000 500 (1/2) (2/3) 1 1 1 (diag3 1000000) (diag3 1000000) (diag3 1210000) (diag3 1000000) (diag3 1000000)
    zero3 zero3 zero3 zero3 zero3 zero3 1000 1000 g 0 0 0 0 0 800
    (mkV2 0 0) (mkV2 0 0) (mkV2 0 0) 0 0 0 0 0 0 1.
Definition o_ex : optional :=
  mkOpt (Some 80) None (Some 160) None None (mkV2 (Some 1100) (Some 900)) (mkV2 (Some 1000) (Some 1100))
    (mkV2 (Some 1000) (Some 1000)) (Some (1/2)) (Some 0) (Some 0) None (Some 0) None (Some 200) (Some 20).

Lemma nonneg_diag x : 0 <= x -> ~ negative_entry (diag3 x).
Proof. intros H [y [Hy Hn]]. cbn in Hy. repeat (destruct Hy as [Hy|Hy]; [lra|]). exact Hy. Qed.
Lemma ex_complete : complete (oMSt o_ex) (os2t o_ex) (oth_t o_ex) /\ complete (oMSb o_ex) (os2b o_ex) (oth_b o_ex)
  /\ complete (oMStau o_ex) (os2tau o_ex) (oth_tau o_ex).
Proof.
  repeat split; cbn; eauto; try discriminate.
  all: repeat match goal with |- context[Rle_dec ?a ?b] => destruct (Rle_dec a b); [|lra] end; discriminate.
Qed.
Lemma ex_accepted : ~ rejected ER0 (r_ex 1500) o_ex.
Proof.
  unfold rejected. destruct ex_complete as (C1 & C2 & C3).
  intros [H|[H|[H|[H|[H|[H|[H|[H|H]]]]]]]];
    try (cbn in H; lra); try (revert H; apply nonneg_diag; lra).
  destruct H as (u & d & _ & _ & _ & _ & H). tauto.
Qed.
Lemma ex_ok : exists p', validate E0 (point (r_ex 1500) o_ex) = Ok p'.
Proof.
  destruct (validate E0 (point (r_ex 1500) o_ex)) as [p'|msg] eqn:E; [eauto|].
  exfalso. apply ex_accepted. apply (validate_throws E0 ER0 _ _ E0_lifts ER0_ok). eauto.
Qed.
(** the same point with a negative gluino mass parameter is rejected *)
Lemma ex_rejected : exists msg, validate E0 (point (r_ex (-1500)) o_ex) = Throw msg.
Proof.
  apply (validate_throws E0 ER0 _ _ E0_lifts ER0_ok). unfold rejected. cbn [MG r_ex]. right; right; right; right; right; left. lra.
Qed.
(** sbottom masses not given and a huge mixing: rejected because of a negative eigenvalue *)
Definition o_tachyon : optional :=
  mkOpt (Some 80) None (Some 160) (Some 4) None (mkV2 (Some 1100) (Some 900)) (mkV2 None None)
    (mkV2 (Some 1000) (Some 1000)) (Some (1/2)) None (Some 0) None None None (Some 20) (Some 20).
Definition r_tachyon : Params R :=
  mkParams 1000 1000000 (1/2) (2/3) 1 1 1 (diag3 1000000) (diag3 1000000) (diag3 1210000) (diag3 1000000) (diag3 1000000)
    zero3 zero3 zero3 zero3 zero3 zero3 1000 1000 1500 0 0 0 0 0 800
    (mkV2 0 0) (mkV2 0 0) (mkV2 0 0) 0 0 0 0 0 0 1.
Lemma ex_tachyon : exists msg, validate E0 (point r_tachyon o_tachyon) = Throw msg.
Proof.
  apply (validate_throws E0 ER0 _ _ E0_lifts ER0_ok). unfold rejected. do 8 right.
  exists 20, 20. do 2 (split; [reflexivity|]). do 2 (split; [lra|]). right; left. split.
  - intros [(a & b & H) _]. discriminate H.
  - exists 1, 1. unfold sbottom_matrix, sfermion_matrix, mb_of, cos2b_of. cbn [given_or oMb o_tachyon m00 m01 m10 m11 a22 mq2 md2 Ad mu r_tachyon diag3 zero3].
    replace ((20 * 20 - 20 * 20) / (20 * 20 + 20 * 20)) with 0 by lra. lra.
Qed.

(** ** C10 is false of the code: sbottom masses below 1 (in the unit used) are shifted again and again.
    In binary64, for every C math library and every Eigen. *)
Definition F1 : F64 := F64int 1.
Definition m3F (x : F64) : mat3 F64 := mkM3 x x x x x x x x x.
Definition p_idem : Params F64 :=
  mkParams F1 F1 F1 F1 F1 F1 F1 (m3F F1) (m3F F1) (m3F (F64int 2)) (m3F F1) (m3F F1)
    (m3F F1) (m3F F1) (m3F F1) (m3F F1) (m3F F1) (m3F F1) F1 F1 F1 F1 F1 F1 F1 F1 F1
    (mkV2 F1 (F64int 2)) (mkV2 (F64dec 5 1) (F64dec 5 1)) (mkV2 F1 F1)
    (F64int 0) (F64int 0) (F64int 0) (F64int 0) (F64int 0) (F64int 0) 0.
Lemma idem_refuted (lm : Libm) (E : EigenLib F64) :
  exists p p' p'' : Params F64,
    @validate _ (NumF lm) E p = Ok p' /\ @validate _ (NumF lm) E p' = Ok p'' /\ MSb p'' <> MSb p'.
Proof.
  exists p_idem. eexists. eexists. split; [vm_compute; reflexivity|].
  split; [vm_compute; reflexivity|]. vm_compute. discriminate.
Qed.

(** ** The angle is wrong if Eigen returns the other sign of an eigenvector *)
Definition ev_bad : mat2 R := mkM2 (4/5) (3/5) (3/5) (-(4/5)).
Definition M_bad : mat2 R := mkM2 (9/25) (-(12/25)) (-(12/25)) (16/25).
Definition E_bad : EigenLib R := mkEigen (fun _ => (mkV2 0 1, ev_bad)) (fun _ => (0, 0, 0)).
Lemma angle_refuted : exists (E : EigenLib R) (M : mat2 R) ms s th,
  m01 M = m10 M /\ m00 M <> m11 M /\ eig_spec M (fst (eig2 E M)) (snd (eig2 E M)) /\
  calculate_MSf_s2f E M = Ok (ms, s, th) /\ mass_matrix ms th <> M.
Proof.
  exists E_bad, M_bad. eexists. eexists. eexists.
  split; [reflexivity|]. split; [cbn; lra|].
  split; [constructor; unfold eigenpair; cbn; try split; lra|].
  split.
  - unfold calculate_MSf_s2f. cbn [eig2 E_bad]. unfold vec2_min, stdmin. cbn [v0 v1]. unR.
    rewrite (Rltb_false 1 0) by lra. rewrite (Rltb_false 0 0) by lra.
    rewrite !sign_R. cbn [m00 m01 m11 ev_bad]. destruct (Rle_dec 0 (4/5)); [|lra]. destruct (Rle_dec 0 (-(4/5))); [lra|].
    cbn [Z.eqb]. unfold M_bad. cbn [m00 m01 m11].
    destruct (Rle_dec 0 (-(12/25) / (9/25 - 16/25))) as [_|Hn]; [|exfalso; apply Hn; replace (-(12/25) / (9/25 - 16/25)) with (12/7) by field; lra].
    unfold sort_ev. unR. cbn [v0 v1]. rewrite sqrt_0, sqrt_1. rewrite (Rltb_true 0 1) by lra. reflexivity.
  - unfold mass_matrix, M_bad, half. unR. cbn [v0 v1]. rewrite Rdec_51. cbn [Rconst]. intros H.
    injection H as _ H _ _. revert H.
    replace (/ 2 * PI) with (PI / 2) by field. rewrite !Rmult_1_l.
    destruct (acos_abs_facts (3/5) (4/5)) as (Ha & Hc & Hs); [lra|].
    rewrite (Rabs_right (acos (Rabs (3 / 5)))) by lra.
    rewrite cos_plus, sin_plus, cos_PI2, sin_PI2, Hc, Hs.
    rewrite !Rabs_right by lra. lra.
Qed.
