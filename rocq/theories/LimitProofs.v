(** * Limits of the building blocks of the strong corrections
    GENERATED by tools/gen_limitproofs.py *)
From Coq Require Import Reals Lra Lia List ZArith Bool.
From Verif Require Import Num NumFacts Except Params HierFormulas LoopFun Thresh ThreshTwo Threshold DilogSpec ThreshViews ThreshSpec ThreshProofs LimitSpec PathSpec AsymPoly AsymNF AsymReif AsymCases.
Import ListNotations.
Open Scope R_scope.
Local Notation "# z" := (@nint R NumR z) (at level 1, z constr at level 0).

Lemma bigO_lim (G : R -> R) q v : 0 < q -> bigO 1 (fun e => G (q * (1 + e)) - v) -> Lim G q v.
Proof.
  intros Hq (C & d & HC & Hd & HB) eps He. exists (Rmin (q * d) (q * (eps / (C + 1)))). split; [apply Rmin_glb_lt; apply Rmult_lt_0_compat; try assumption; apply Rdiv_lt_0_compat; lra|].
  intros m Hm1 Hm2. set (e := (m - q) / q). assert (E : m = q * (1 + e)) by (unfold e; field; lra). assert (Ne : e <> 0) by (intros Z0; apply Hm1; rewrite E, Z0; ring).
  assert (A : Rabs (m - q) = q * Rabs e) by (rewrite <- (Rabs_pos_eq q) at 2 by lra; rewrite <- Rabs_mult; f_equal; unfold e; field; lra). rewrite A in Hm2.
  assert (B1 : Rabs e < d) by (apply (Rmult_lt_reg_l q); [exact Hq|]; eapply Rlt_le_trans; [exact Hm2|apply Rmin_l]).
  assert (B2 : Rabs e < eps / (C + 1)) by (apply (Rmult_lt_reg_l q); [exact Hq|]; eapply Rlt_le_trans; [exact Hm2|apply Rmin_r]).
  rewrite E. eapply Rle_lt_trans; [apply HB; assumption|]. simpl. rewrite Rmult_1_r. apply Rle_lt_trans with ((C + 1) * Rabs e); [apply Rmult_le_compat_r; [apply Rabs_pos|lra]|].
  apply (Rmult_lt_compat_l (C + 1)) in B2; [|lra]. replace ((C + 1) * (eps / (C + 1))) with eps in B2 by (field; lra). exact B2.
Qed.
Definition m_vev (L : R -> R) (l : Z) (mQ mU m3 ms X lam z X4 X5 X6 : R) : R := pick l (vev_G (mQ * mQ) (mU * mU) X) (vev_QU (mQ * mQ) X) (vev_G (mQ * mQ) (mU * mU) X) (vev_G (mQ * mQ) (mU * mU) X) (vev_QU (mQ * mQ) X) (vev_QU (mQ * mQ) X).
Lemma vev_yt2_at L c mQ mU m3 ms l : 0 < mQ -> 0 < mU -> 0 < m3 -> 0 < ms -> vev_yt2 (tc_p (at_masses c (mQ, mU, m3, ms))) l = m_vev L l mQ mU m3 ms (pow2 (calcXt (tc_p c))) 0 0 0 0 0.
Proof. intros H1 H2 H3 H4. unfold vev_yt2, at_masses. cbn [tc_p tc_msq2 mq2 mu2 a22 with_a22 MG]. change (pow2 m3) with (m3 * m3). rewrite ?(nsqrt_sq mQ), ?(nsqrt_sq mU), ?(nsqrt_sq m3), ?(nsqrt_sq ms) by assumption. reflexivity. Qed.
Definition m_yta (L : R -> R) (l : Z) (mQ mU m3 ms X lam z X4 X5 X6 : R) : R := pick l (yta_G (mQ * mQ) (mU * mU) (m3 * m3) mQ mU m3 X lam) (yta_QU (mQ * mQ) (m3 * m3) mQ m3 X lam) (yta_QM (mQ * mQ) (mU * mU) mQ X lam) (yta_UM (mQ * mQ) (mU * mU) mQ mU X lam) (yta_QUM mQ X lam) (yta_QUM mQ X lam).
Lemma yt_as_at L c mQ mU m3 ms l o : 0 < mQ -> 0 < mU -> 0 < m3 -> 0 < ms -> yt_as L (tc_p (at_masses c (mQ, mU, m3, ms))) l o = m_yta L l mQ mU m3 ms (calcXt (tc_p c)) (#o * nlog (pow2 (v0 (MSt (tc_p c))) / pow2 (scale (tc_p c)))%num + nlog ((mQ * mQ) / pow2 (v0 (MSt (tc_p c))))%num) 0 0 0 0.
Proof. intros H1 H2 H3 H4. unfold yt_as, at_masses. cbn [tc_p tc_msq2 mq2 mu2 a22 with_a22 MG]. change (pow2 m3) with (m3 * m3). rewrite ?(nsqrt_sq mQ), ?(nsqrt_sq mU), ?(nsqrt_sq m3), ?(nsqrt_sq ms) by assumption. reflexivity. Qed.
Definition m_lat (L : R -> R) (l : Z) (mQ mU m3 ms X lam z X4 X5 X6 : R) : R := pick l (lat_G (mQ * mQ) (mU * mU) X lam) (lat_QU (mQ * mQ) X lam) (lat_G (mQ * mQ) (mU * mU) X lam) (lat_G (mQ * mQ) (mU * mU) X lam) (lat_QU (mQ * mQ) X lam) (lat_QU (mQ * mQ) X lam).
Lemma lambda_at_at L c mQ mU m3 ms l o : 0 < mQ -> 0 < mU -> 0 < m3 -> 0 < ms -> lambda_at L (tc_p (at_masses c (mQ, mU, m3, ms))) l o = m_lat L l mQ mU m3 ms (calcXt (tc_p c)) (#o * nlog (pow2 (v0 (MSt (tc_p c))) / pow2 (scale (tc_p c)))%num + nlog ((mQ * mQ) / pow2 (v0 (MSt (tc_p c))))%num) 0 0 0 0.
Proof. intros H1 H2 H3 H4. unfold lambda_at, at_masses. cbn [tc_p tc_msq2 mq2 mu2 a22 with_a22 MG]. change (pow2 m3) with (m3 * m3). rewrite ?(nsqrt_sq mQ), ?(nsqrt_sq mU), ?(nsqrt_sq m3), ?(nsqrt_sq ms) by assumption. reflexivity. Qed.
Definition m_yta2 (L : R -> R) (l : Z) (mQ mU m3 ms X lam z X4 X5 X6 : R) : R := pick l (yta2_G L (mQ * mQ) (mU * mU) (m3 * m3) mQ mU m3 (ms * ms) ms X lam) (yta2_QU L (mQ * mQ) (m3 * m3) mQ m3 (ms * ms) ms X lam) (yta2_QM L (mQ * mQ) (mU * mU) mQ mU (ms * ms) ms X lam) (yta2_UM L (mQ * mQ) (mU * mU) mQ mU (ms * ms) ms X lam) (yta2_QUM L (mQ * mQ) mQ (ms * ms) X lam) (yta2_D (mQ * mQ) mQ X lam).
Lemma yt_as2_at L c mQ mU m3 ms l o : 0 < mQ -> 0 < mU -> 0 < m3 -> 0 < ms -> yt_as2 L (tc_p (at_masses c (mQ, mU, m3, ms))) (tc_msq2 (at_masses c (mQ, mU, m3, ms))) l o = m_yta2 L l mQ mU m3 ms (calcXt (tc_p c)) (#o * nlog (pow2 (v0 (MSt (tc_p c))) / pow2 (scale (tc_p c)))%num + nlog ((mQ * mQ) / pow2 (v0 (MSt (tc_p c))))%num) 0 0 0 0.
Proof. intros H1 H2 H3 H4. unfold yt_as2, at_masses. cbn [tc_p tc_msq2 mq2 mu2 a22 with_a22 MG]. change (pow2 m3) with (m3 * m3). rewrite ?(nsqrt_sq mQ), ?(nsqrt_sq mU), ?(nsqrt_sq m3), ?(nsqrt_sq ms) by assumption. reflexivity. Qed.
Definition m_lata (L : R -> R) (l : Z) (mQ mU m3 ms X lam z X4 X5 X6 : R) : R := pick l (lata_G L (mQ * mQ) (mU * mU) (m3 * m3) mQ mU m3 X lam) (lata_QU L (mQ * mQ) (m3 * m3) mQ m3 X lam) (lata_QM L (mQ * mQ) (mU * mU) mQ mU X lam) (lata_UM L (mQ * mQ) (mU * mU) mQ mU X lam) (lata_QUM (mQ * mQ) mQ X lam) (lata_QUM (mQ * mQ) mQ X lam).
Lemma lambda_at_as_at L c mQ mU m3 ms l o : 0 < mQ -> 0 < mU -> 0 < m3 -> 0 < ms -> lambda_at_as L (tc_p (at_masses c (mQ, mU, m3, ms))) l o = m_lata L l mQ mU m3 ms (calcXt (tc_p c)) (#o * nlog (pow2 (v0 (MSt (tc_p c))) / pow2 (scale (tc_p c)))%num + nlog ((mQ * mQ) / pow2 (v0 (MSt (tc_p c))))%num) 0 0 0 0.
Proof. intros H1 H2 H3 H4. unfold lambda_at_as, at_masses. cbn [tc_p tc_msq2 mq2 mu2 a22 with_a22 MG]. change (pow2 m3) with (m3 * m3). rewrite ?(nsqrt_sq mQ), ?(nsqrt_sq mU), ?(nsqrt_sq m3), ?(nsqrt_sq ms) by assumption. reflexivity. Qed.
Definition m_lata2 (L : R -> R) (l : Z) (mQ mU m3 ms X lam z X4 X5 X6 : R) : R := pick l (lata2_G L (mQ * mQ) (mU * mU) (m3 * m3) mQ mU m3 (ms * ms) X X4 X5 z lam) (lata2_QU L (mQ * mQ) (m3 * m3) mQ m3 (ms * ms) X X4 X5 z lam) (lata2_QM L (mQ * mQ) (mU * mU) mQ mU (ms * ms) X X4 X5 z lam) (lata2_UM L (mQ * mQ) (mU * mU) mQ mU (ms * ms) X X4 X5 z lam) (lata2_QUM (mQ * mQ) mQ (ms * ms) X X4 X5 z lam) (lata2_QUM (mQ * mQ) mQ (ms * ms) X X4 X5 z lam).
Lemma lambda_at_as2_at L c mQ mU m3 ms xo l o : 0 < mQ -> 0 < mU -> 0 < m3 -> 0 < ms -> lambda_at_as2 L (tc_p (at_masses c (mQ, mU, m3, ms))) (tc_msq2 (at_masses c (mQ, mU, m3, ms))) xo l o = m_lata2 L l mQ mU m3 ms (calcXt (tc_p c)) (#o * nlog (pow2 (v0 (MSt (tc_p c))) / pow2 (scale (tc_p c)))%num + nlog ((mQ * mQ) / pow2 (v0 (MSt (tc_p c))))%num) (ndec 1202056903159594 15) (if (xo <? 4)%Z then #0 else pow4 (calcXt (tc_p c))) (if (xo <? 5)%Z then #0 else pow5 (calcXt (tc_p c))) 0.
Proof. intros H1 H2 H3 H4. unfold lambda_at_as2, at_masses. cbn [tc_p tc_msq2 mq2 mu2 a22 with_a22 MG]. change (pow2 m3) with (m3 * m3). rewrite ?(nsqrt_sq mQ), ?(nsqrt_sq mU), ?(nsqrt_sq m3), ?(nsqrt_sq ms) by assumption. reflexivity. Qed.
Definition m_xtt (L : R -> R) (l : Z) (mQ mU m3 ms X lam z X4 X5 X6 : R) : R := pick l (xtt_G L (mQ * mQ) (mU * mU) (m3 * m3) mQ mU m3 (ms * ms) ms X4 X5 X6 lam) (xtt_QU L (mQ * mQ) (m3 * m3) mQ m3 (ms * ms) ms X4 X5 X6 lam) (xtt_QM L (mQ * mQ) (mU * mU) mQ mU (ms * ms) ms X4 X5 X6 lam) (xtt_UM L (mQ * mQ) (mU * mU) mQ mU (ms * ms) ms X4 X5 X6 lam) (xtt_QUM L (mQ * mQ) mQ (ms * ms) ms X4 X5 X6 lam) (xtt_D mQ X4 X5 X6 lam).
Lemma xt_terms_at L c mQ mU m3 ms xo l o : 0 < mQ -> 0 < mU -> 0 < m3 -> 0 < ms -> xt_terms L (tc_p (at_masses c (mQ, mU, m3, ms))) (tc_msq2 (at_masses c (mQ, mU, m3, ms))) xo l o = m_xtt L l mQ mU m3 ms (calcXt (tc_p c)) (#o * nlog (pow2 (v0 (MSt (tc_p c))) / pow2 (scale (tc_p c)))%num + nlog ((mQ * mQ) / pow2 (v0 (MSt (tc_p c))))%num) 0 (if negb (xo =? 4)%Z then #0 else pow4 (calcXt (tc_p c))) (if negb (xo =? 5)%Z then #0 else pow5 (calcXt (tc_p c))) (if negb (xo =? 6)%Z then #0 else pow6 (calcXt (tc_p c))).
Proof. intros H1 H2 H3 H4. unfold xt_terms, at_masses. cbn [tc_p tc_msq2 mq2 mu2 a22 with_a22 MG]. change (pow2 m3) with (m3 * m3). rewrite ?(nsqrt_sq mQ), ?(nsqrt_sq mU), ?(nsqrt_sq m3), ?(nsqrt_sq ms) by assumption. reflexivity. Qed.
Section Lims.
  Context (L : R -> R) (q x1 x2 X lam z X4 X5 X6 : R) (HL : is_ReLi2 L) (Hq : 0 < q) (H1 : 0 < x1) (H2 : 0 < x2) (N1 : x1 <> 1) (N2 : x2 <> 1) (N12 : x1 <> x2).
  Lemma l_vev_GQU : Lim (fun m => m_vev L GENERAL q m (q * x1) (q * x2) X lam z X4 X5 X6) q (m_vev L MQ3_EQ_MU3 q q (q * x1) (q * x2) X lam z X4 X5 X6).
  Proof. exact (bigO_lim (fun m => m_vev L GENERAL q m (q * x1) (q * x2) X lam z X4 X5 X6) q _ Hq (c_vev_GQU L q x1 x2 X lam z X4 X5 X6 HL Hq H1 H2 N1 N2 N12)). Qed.
  Lemma l_vev_GQM : Lim (fun m => m_vev L GENERAL q (q * x1) m (q * x2) X lam z X4 X5 X6) q (m_vev L MQ3_EQ_M3 q (q * x1) q (q * x2) X lam z X4 X5 X6).
  Proof. exact (bigO_lim (fun m => m_vev L GENERAL q (q * x1) m (q * x2) X lam z X4 X5 X6) q _ Hq (c_vev_GQM L q x1 x2 X lam z X4 X5 X6 HL Hq H1 H2 N1 N2 N12)). Qed.
  Lemma l_vev_GUM : Lim (fun m => m_vev L GENERAL (q * x1) q m (q * x2) X lam z X4 X5 X6) q (m_vev L MU3_EQ_M3 (q * x1) q q (q * x2) X lam z X4 X5 X6).
  Proof. exact (bigO_lim (fun m => m_vev L GENERAL (q * x1) q m (q * x2) X lam z X4 X5 X6) q _ Hq (c_vev_GUM L q x1 x2 X lam z X4 X5 X6 HL Hq H1 H2 N1 N2 N12)). Qed.
  Lemma l_vev_QU : Lim (fun m => m_vev L MQ3_EQ_MU3 q q m (q * x1) X lam z X4 X5 X6) q (m_vev L MQ3_EQ_MU3_EQ_M3 q q q (q * x1) X lam z X4 X5 X6).
  Proof. exact (bigO_lim (fun m => m_vev L MQ3_EQ_MU3 q q m (q * x1) X lam z X4 X5 X6) q _ Hq (c_vev_QU L q x1 x2 X lam z X4 X5 X6 HL Hq H1 H2 N1 N2 N12)). Qed.
  Lemma l_vev_QM : Lim (fun m => m_vev L MQ3_EQ_M3 q m q (q * x1) X lam z X4 X5 X6) q (m_vev L MQ3_EQ_MU3_EQ_M3 q q q (q * x1) X lam z X4 X5 X6).
  Proof. exact (bigO_lim (fun m => m_vev L MQ3_EQ_M3 q m q (q * x1) X lam z X4 X5 X6) q _ Hq (c_vev_QM L q x1 x2 X lam z X4 X5 X6 HL Hq H1 H2 N1 N2 N12)). Qed.
  Lemma l_vev_UM : Lim (fun m => m_vev L MU3_EQ_M3 q m m (q * x1) X lam z X4 X5 X6) q (m_vev L MQ3_EQ_MU3_EQ_M3 q q q (q * x1) X lam z X4 X5 X6).
  Proof. exact (bigO_lim (fun m => m_vev L MU3_EQ_M3 q m m (q * x1) X lam z X4 X5 X6) q _ Hq (c_vev_UM L q x1 x2 X lam z X4 X5 X6 HL Hq H1 H2 N1 N2 N12)). Qed.
  Lemma l_vev_D : Lim (fun m => m_vev L MQ3_EQ_MU3_EQ_M3 q q q m X lam z X4 X5 X6) q (m_vev L DEGENERATE q q q q X lam z X4 X5 X6).
  Proof. exact (bigO_lim (fun m => m_vev L MQ3_EQ_MU3_EQ_M3 q q q m X lam z X4 X5 X6) q _ Hq (c_vev_D L q x1 x2 X lam z X4 X5 X6 HL Hq H1 H2 N1 N2 N12)). Qed.
  Lemma l_vev_GQUa : Lim (fun m => m_vev L GENERAL q m (q * x1) (q * x1) X lam z X4 X5 X6) q (m_vev L MQ3_EQ_MU3 q q (q * x1) (q * x1) X lam z X4 X5 X6).
  Proof. exact (bigO_lim (fun m => m_vev L GENERAL q m (q * x1) (q * x1) X lam z X4 X5 X6) q _ Hq (c_vev_GQUa L q x1 x2 X lam z X4 X5 X6 HL Hq H1 H2 N1 N2 N12)). Qed.
  Lemma l_vev_GQUb : Lim (fun m => m_vev L GENERAL q m (q * x1) q X lam z X4 X5 X6) q (m_vev L MQ3_EQ_MU3 q q (q * x1) q X lam z X4 X5 X6).
  Proof. exact (bigO_lim (fun m => m_vev L GENERAL q m (q * x1) q X lam z X4 X5 X6) q _ Hq (c_vev_GQUb L q x1 x2 X lam z X4 X5 X6 HL Hq H1 H2 N1 N2 N12)). Qed.
  Lemma l_vev_GQMa : Lim (fun m => m_vev L GENERAL q (q * x1) m (q * x1) X lam z X4 X5 X6) q (m_vev L MQ3_EQ_M3 q (q * x1) q (q * x1) X lam z X4 X5 X6).
  Proof. exact (bigO_lim (fun m => m_vev L GENERAL q (q * x1) m (q * x1) X lam z X4 X5 X6) q _ Hq (c_vev_GQMa L q x1 x2 X lam z X4 X5 X6 HL Hq H1 H2 N1 N2 N12)). Qed.
  Lemma l_vev_GUMa : Lim (fun m => m_vev L GENERAL (q * x1) q m (q * x1) X lam z X4 X5 X6) q (m_vev L MU3_EQ_M3 (q * x1) q q (q * x1) X lam z X4 X5 X6).
  Proof. exact (bigO_lim (fun m => m_vev L GENERAL (q * x1) q m (q * x1) X lam z X4 X5 X6) q _ Hq (c_vev_GUMa L q x1 x2 X lam z X4 X5 X6 HL Hq H1 H2 N1 N2 N12)). Qed.
  Lemma l_yta_GQU : Lim (fun m => m_yta L GENERAL q m (q * x1) (q * x2) X lam z X4 X5 X6) q (m_yta L MQ3_EQ_MU3 q q (q * x1) (q * x2) X lam z X4 X5 X6).
  Proof. exact (bigO_lim (fun m => m_yta L GENERAL q m (q * x1) (q * x2) X lam z X4 X5 X6) q _ Hq (c_yta_GQU L q x1 x2 X lam z X4 X5 X6 HL Hq H1 H2 N1 N2 N12)). Qed.
  Lemma l_yta_GQM : Lim (fun m => m_yta L GENERAL q (q * x1) m (q * x2) X lam z X4 X5 X6) q (m_yta L MQ3_EQ_M3 q (q * x1) q (q * x2) X lam z X4 X5 X6).
  Proof. exact (bigO_lim (fun m => m_yta L GENERAL q (q * x1) m (q * x2) X lam z X4 X5 X6) q _ Hq (c_yta_GQM L q x1 x2 X lam z X4 X5 X6 HL Hq H1 H2 N1 N2 N12)). Qed.
  Lemma l_yta_GUM : Lim (fun m => m_yta L GENERAL (q * x1) q m (q * x2) X lam z X4 X5 X6) q (m_yta L MU3_EQ_M3 (q * x1) q q (q * x2) X lam z X4 X5 X6).
  Proof. exact (bigO_lim (fun m => m_yta L GENERAL (q * x1) q m (q * x2) X lam z X4 X5 X6) q _ Hq (c_yta_GUM L q x1 x2 X lam z X4 X5 X6 HL Hq H1 H2 N1 N2 N12)). Qed.
  Lemma l_yta_QU : Lim (fun m => m_yta L MQ3_EQ_MU3 q q m (q * x1) X lam z X4 X5 X6) q (m_yta L MQ3_EQ_MU3_EQ_M3 q q q (q * x1) X lam z X4 X5 X6).
  Proof. exact (bigO_lim (fun m => m_yta L MQ3_EQ_MU3 q q m (q * x1) X lam z X4 X5 X6) q _ Hq (c_yta_QU L q x1 x2 X lam z X4 X5 X6 HL Hq H1 H2 N1 N2 N12)). Qed.
  Lemma l_yta_QM : Lim (fun m => m_yta L MQ3_EQ_M3 q m q (q * x1) X lam z X4 X5 X6) q (m_yta L MQ3_EQ_MU3_EQ_M3 q q q (q * x1) X lam z X4 X5 X6).
  Proof. exact (bigO_lim (fun m => m_yta L MQ3_EQ_M3 q m q (q * x1) X lam z X4 X5 X6) q _ Hq (c_yta_QM L q x1 x2 X lam z X4 X5 X6 HL Hq H1 H2 N1 N2 N12)). Qed.
  Lemma l_yta_UM : Lim (fun m => m_yta L MU3_EQ_M3 q m m (q * x1) X lam z X4 X5 X6) q (m_yta L MQ3_EQ_MU3_EQ_M3 q q q (q * x1) X lam z X4 X5 X6).
  Proof. exact (bigO_lim (fun m => m_yta L MU3_EQ_M3 q m m (q * x1) X lam z X4 X5 X6) q _ Hq (c_yta_UM L q x1 x2 X lam z X4 X5 X6 HL Hq H1 H2 N1 N2 N12)). Qed.
  Lemma l_yta_D : Lim (fun m => m_yta L MQ3_EQ_MU3_EQ_M3 q q q m X lam z X4 X5 X6) q (m_yta L DEGENERATE q q q q X lam z X4 X5 X6).
  Proof. exact (bigO_lim (fun m => m_yta L MQ3_EQ_MU3_EQ_M3 q q q m X lam z X4 X5 X6) q _ Hq (c_yta_D L q x1 x2 X lam z X4 X5 X6 HL Hq H1 H2 N1 N2 N12)). Qed.
  Lemma l_yta_GQUa : Lim (fun m => m_yta L GENERAL q m (q * x1) (q * x1) X lam z X4 X5 X6) q (m_yta L MQ3_EQ_MU3 q q (q * x1) (q * x1) X lam z X4 X5 X6).
  Proof. exact (bigO_lim (fun m => m_yta L GENERAL q m (q * x1) (q * x1) X lam z X4 X5 X6) q _ Hq (c_yta_GQUa L q x1 x2 X lam z X4 X5 X6 HL Hq H1 H2 N1 N2 N12)). Qed.
  Lemma l_yta_GQUb : Lim (fun m => m_yta L GENERAL q m (q * x1) q X lam z X4 X5 X6) q (m_yta L MQ3_EQ_MU3 q q (q * x1) q X lam z X4 X5 X6).
  Proof. exact (bigO_lim (fun m => m_yta L GENERAL q m (q * x1) q X lam z X4 X5 X6) q _ Hq (c_yta_GQUb L q x1 x2 X lam z X4 X5 X6 HL Hq H1 H2 N1 N2 N12)). Qed.
  Lemma l_yta_GQMa : Lim (fun m => m_yta L GENERAL q (q * x1) m (q * x1) X lam z X4 X5 X6) q (m_yta L MQ3_EQ_M3 q (q * x1) q (q * x1) X lam z X4 X5 X6).
  Proof. exact (bigO_lim (fun m => m_yta L GENERAL q (q * x1) m (q * x1) X lam z X4 X5 X6) q _ Hq (c_yta_GQMa L q x1 x2 X lam z X4 X5 X6 HL Hq H1 H2 N1 N2 N12)). Qed.
  Lemma l_yta_GUMa : Lim (fun m => m_yta L GENERAL (q * x1) q m (q * x1) X lam z X4 X5 X6) q (m_yta L MU3_EQ_M3 (q * x1) q q (q * x1) X lam z X4 X5 X6).
  Proof. exact (bigO_lim (fun m => m_yta L GENERAL (q * x1) q m (q * x1) X lam z X4 X5 X6) q _ Hq (c_yta_GUMa L q x1 x2 X lam z X4 X5 X6 HL Hq H1 H2 N1 N2 N12)). Qed.
  Lemma l_lat_GQU : Lim (fun m => m_lat L GENERAL q m (q * x1) (q * x2) X lam z X4 X5 X6) q (m_lat L MQ3_EQ_MU3 q q (q * x1) (q * x2) X lam z X4 X5 X6).
  Proof. exact (bigO_lim (fun m => m_lat L GENERAL q m (q * x1) (q * x2) X lam z X4 X5 X6) q _ Hq (c_lat_GQU L q x1 x2 X lam z X4 X5 X6 HL Hq H1 H2 N1 N2 N12)). Qed.
  Lemma l_lat_GQM : Lim (fun m => m_lat L GENERAL q (q * x1) m (q * x2) X lam z X4 X5 X6) q (m_lat L MQ3_EQ_M3 q (q * x1) q (q * x2) X lam z X4 X5 X6).
  Proof. exact (bigO_lim (fun m => m_lat L GENERAL q (q * x1) m (q * x2) X lam z X4 X5 X6) q _ Hq (c_lat_GQM L q x1 x2 X lam z X4 X5 X6 HL Hq H1 H2 N1 N2 N12)). Qed.
  Lemma l_lat_GUM : Lim (fun m => m_lat L GENERAL (q * x1) q m (q * x2) X lam z X4 X5 X6) q (m_lat L MU3_EQ_M3 (q * x1) q q (q * x2) X lam z X4 X5 X6).
  Proof. exact (bigO_lim (fun m => m_lat L GENERAL (q * x1) q m (q * x2) X lam z X4 X5 X6) q _ Hq (c_lat_GUM L q x1 x2 X lam z X4 X5 X6 HL Hq H1 H2 N1 N2 N12)). Qed.
  Lemma l_lat_QU : Lim (fun m => m_lat L MQ3_EQ_MU3 q q m (q * x1) X lam z X4 X5 X6) q (m_lat L MQ3_EQ_MU3_EQ_M3 q q q (q * x1) X lam z X4 X5 X6).
  Proof. exact (bigO_lim (fun m => m_lat L MQ3_EQ_MU3 q q m (q * x1) X lam z X4 X5 X6) q _ Hq (c_lat_QU L q x1 x2 X lam z X4 X5 X6 HL Hq H1 H2 N1 N2 N12)). Qed.
  Lemma l_lat_QM : Lim (fun m => m_lat L MQ3_EQ_M3 q m q (q * x1) X lam z X4 X5 X6) q (m_lat L MQ3_EQ_MU3_EQ_M3 q q q (q * x1) X lam z X4 X5 X6).
  Proof. exact (bigO_lim (fun m => m_lat L MQ3_EQ_M3 q m q (q * x1) X lam z X4 X5 X6) q _ Hq (c_lat_QM L q x1 x2 X lam z X4 X5 X6 HL Hq H1 H2 N1 N2 N12)). Qed.
  Lemma l_lat_UM : Lim (fun m => m_lat L MU3_EQ_M3 q m m (q * x1) X lam z X4 X5 X6) q (m_lat L MQ3_EQ_MU3_EQ_M3 q q q (q * x1) X lam z X4 X5 X6).
  Proof. exact (bigO_lim (fun m => m_lat L MU3_EQ_M3 q m m (q * x1) X lam z X4 X5 X6) q _ Hq (c_lat_UM L q x1 x2 X lam z X4 X5 X6 HL Hq H1 H2 N1 N2 N12)). Qed.
  Lemma l_lat_D : Lim (fun m => m_lat L MQ3_EQ_MU3_EQ_M3 q q q m X lam z X4 X5 X6) q (m_lat L DEGENERATE q q q q X lam z X4 X5 X6).
  Proof. exact (bigO_lim (fun m => m_lat L MQ3_EQ_MU3_EQ_M3 q q q m X lam z X4 X5 X6) q _ Hq (c_lat_D L q x1 x2 X lam z X4 X5 X6 HL Hq H1 H2 N1 N2 N12)). Qed.
  Lemma l_lat_GQUa : Lim (fun m => m_lat L GENERAL q m (q * x1) (q * x1) X lam z X4 X5 X6) q (m_lat L MQ3_EQ_MU3 q q (q * x1) (q * x1) X lam z X4 X5 X6).
  Proof. exact (bigO_lim (fun m => m_lat L GENERAL q m (q * x1) (q * x1) X lam z X4 X5 X6) q _ Hq (c_lat_GQUa L q x1 x2 X lam z X4 X5 X6 HL Hq H1 H2 N1 N2 N12)). Qed.
  Lemma l_lat_GQUb : Lim (fun m => m_lat L GENERAL q m (q * x1) q X lam z X4 X5 X6) q (m_lat L MQ3_EQ_MU3 q q (q * x1) q X lam z X4 X5 X6).
  Proof. exact (bigO_lim (fun m => m_lat L GENERAL q m (q * x1) q X lam z X4 X5 X6) q _ Hq (c_lat_GQUb L q x1 x2 X lam z X4 X5 X6 HL Hq H1 H2 N1 N2 N12)). Qed.
  Lemma l_lat_GQMa : Lim (fun m => m_lat L GENERAL q (q * x1) m (q * x1) X lam z X4 X5 X6) q (m_lat L MQ3_EQ_M3 q (q * x1) q (q * x1) X lam z X4 X5 X6).
  Proof. exact (bigO_lim (fun m => m_lat L GENERAL q (q * x1) m (q * x1) X lam z X4 X5 X6) q _ Hq (c_lat_GQMa L q x1 x2 X lam z X4 X5 X6 HL Hq H1 H2 N1 N2 N12)). Qed.
  Lemma l_lat_GUMa : Lim (fun m => m_lat L GENERAL (q * x1) q m (q * x1) X lam z X4 X5 X6) q (m_lat L MU3_EQ_M3 (q * x1) q q (q * x1) X lam z X4 X5 X6).
  Proof. exact (bigO_lim (fun m => m_lat L GENERAL (q * x1) q m (q * x1) X lam z X4 X5 X6) q _ Hq (c_lat_GUMa L q x1 x2 X lam z X4 X5 X6 HL Hq H1 H2 N1 N2 N12)). Qed.
  Lemma l_yta2_GQU : Lim (fun m => m_yta2 L GENERAL q m (q * x1) (q * x2) X lam z X4 X5 X6) q (m_yta2 L MQ3_EQ_MU3 q q (q * x1) (q * x2) X lam z X4 X5 X6).
  Proof. exact (bigO_lim (fun m => m_yta2 L GENERAL q m (q * x1) (q * x2) X lam z X4 X5 X6) q _ Hq (c_yta2_GQU L q x1 x2 X lam z X4 X5 X6 HL Hq H1 H2 N1 N2 N12)). Qed.
  Lemma l_yta2_GQM : Lim (fun m => m_yta2 L GENERAL q (q * x1) m (q * x2) X lam z X4 X5 X6) q (m_yta2 L MQ3_EQ_M3 q (q * x1) q (q * x2) X lam z X4 X5 X6).
  Proof. exact (bigO_lim (fun m => m_yta2 L GENERAL q (q * x1) m (q * x2) X lam z X4 X5 X6) q _ Hq (c_yta2_GQM L q x1 x2 X lam z X4 X5 X6 HL Hq H1 H2 N1 N2 N12)). Qed.
  Lemma l_yta2_GUM : Lim (fun m => m_yta2 L GENERAL (q * x1) q m (q * x2) X lam z X4 X5 X6) q (m_yta2 L MU3_EQ_M3 (q * x1) q q (q * x2) X lam z X4 X5 X6).
  Proof. exact (bigO_lim (fun m => m_yta2 L GENERAL (q * x1) q m (q * x2) X lam z X4 X5 X6) q _ Hq (c_yta2_GUM L q x1 x2 X lam z X4 X5 X6 HL Hq H1 H2 N1 N2 N12)). Qed.
  Lemma l_yta2_QU : Lim (fun m => m_yta2 L MQ3_EQ_MU3 q q m (q * x1) X lam z X4 X5 X6) q (m_yta2 L MQ3_EQ_MU3_EQ_M3 q q q (q * x1) X lam z X4 X5 X6).
  Proof. exact (bigO_lim (fun m => m_yta2 L MQ3_EQ_MU3 q q m (q * x1) X lam z X4 X5 X6) q _ Hq (c_yta2_QU L q x1 x2 X lam z X4 X5 X6 HL Hq H1 H2 N1 N2 N12)). Qed.
  Lemma l_yta2_QM : Lim (fun m => m_yta2 L MQ3_EQ_M3 q m q (q * x1) X lam z X4 X5 X6) q (m_yta2 L MQ3_EQ_MU3_EQ_M3 q q q (q * x1) X lam z X4 X5 X6).
  Proof. exact (bigO_lim (fun m => m_yta2 L MQ3_EQ_M3 q m q (q * x1) X lam z X4 X5 X6) q _ Hq (c_yta2_QM L q x1 x2 X lam z X4 X5 X6 HL Hq H1 H2 N1 N2 N12)). Qed.
  Lemma l_yta2_UM : Lim (fun m => m_yta2 L MU3_EQ_M3 q m m (q * x1) X lam z X4 X5 X6) q (m_yta2 L MQ3_EQ_MU3_EQ_M3 q q q (q * x1) X lam z X4 X5 X6).
  Proof. exact (bigO_lim (fun m => m_yta2 L MU3_EQ_M3 q m m (q * x1) X lam z X4 X5 X6) q _ Hq (c_yta2_UM L q x1 x2 X lam z X4 X5 X6 HL Hq H1 H2 N1 N2 N12)). Qed.
  Lemma l_yta2_D : Lim (fun m => m_yta2 L MQ3_EQ_MU3_EQ_M3 q q q m X lam z X4 X5 X6) q (m_yta2 L DEGENERATE q q q q X lam z X4 X5 X6).
  Proof. exact (bigO_lim (fun m => m_yta2 L MQ3_EQ_MU3_EQ_M3 q q q m X lam z X4 X5 X6) q _ Hq (c_yta2_D L q x1 x2 X lam z X4 X5 X6 HL Hq H1 H2 N1 N2 N12)). Qed.
  Lemma l_yta2_GQUa : Lim (fun m => m_yta2 L GENERAL q m (q * x1) (q * x1) X lam z X4 X5 X6) q (m_yta2 L MQ3_EQ_MU3 q q (q * x1) (q * x1) X lam z X4 X5 X6).
  Proof. exact (bigO_lim (fun m => m_yta2 L GENERAL q m (q * x1) (q * x1) X lam z X4 X5 X6) q _ Hq (c_yta2_GQUa L q x1 x2 X lam z X4 X5 X6 HL Hq H1 H2 N1 N2 N12)). Qed.
  Lemma l_yta2_GQUb : Lim (fun m => m_yta2 L GENERAL q m (q * x1) q X lam z X4 X5 X6) q (m_yta2 L MQ3_EQ_MU3 q q (q * x1) q X lam z X4 X5 X6).
  Proof. exact (bigO_lim (fun m => m_yta2 L GENERAL q m (q * x1) q X lam z X4 X5 X6) q _ Hq (c_yta2_GQUb L q x1 x2 X lam z X4 X5 X6 HL Hq H1 H2 N1 N2 N12)). Qed.
  Lemma l_yta2_GQMa : Lim (fun m => m_yta2 L GENERAL q (q * x1) m (q * x1) X lam z X4 X5 X6) q (m_yta2 L MQ3_EQ_M3 q (q * x1) q (q * x1) X lam z X4 X5 X6).
  Proof. exact (bigO_lim (fun m => m_yta2 L GENERAL q (q * x1) m (q * x1) X lam z X4 X5 X6) q _ Hq (c_yta2_GQMa L q x1 x2 X lam z X4 X5 X6 HL Hq H1 H2 N1 N2 N12)). Qed.
  Lemma l_yta2_GUMa : Lim (fun m => m_yta2 L GENERAL (q * x1) q m (q * x1) X lam z X4 X5 X6) q (m_yta2 L MU3_EQ_M3 (q * x1) q q (q * x1) X lam z X4 X5 X6).
  Proof. exact (bigO_lim (fun m => m_yta2 L GENERAL (q * x1) q m (q * x1) X lam z X4 X5 X6) q _ Hq (c_yta2_GUMa L q x1 x2 X lam z X4 X5 X6 HL Hq H1 H2 N1 N2 N12)). Qed.
  Lemma l_lata_GQU : Lim (fun m => m_lata L GENERAL q m (q * x1) (q * x2) X lam z X4 X5 X6) q (m_lata L MQ3_EQ_MU3 q q (q * x1) (q * x2) X lam z X4 X5 X6).
  Proof. exact (bigO_lim (fun m => m_lata L GENERAL q m (q * x1) (q * x2) X lam z X4 X5 X6) q _ Hq (c_lata_GQU L q x1 x2 X lam z X4 X5 X6 HL Hq H1 H2 N1 N2 N12)). Qed.
  Lemma l_lata_GQM : Lim (fun m => m_lata L GENERAL q (q * x1) m (q * x2) X lam z X4 X5 X6) q (m_lata L MQ3_EQ_M3 q (q * x1) q (q * x2) X lam z X4 X5 X6).
  Proof. exact (bigO_lim (fun m => m_lata L GENERAL q (q * x1) m (q * x2) X lam z X4 X5 X6) q _ Hq (c_lata_GQM L q x1 x2 X lam z X4 X5 X6 HL Hq H1 H2 N1 N2 N12)). Qed.
  Lemma l_lata_GUM : Lim (fun m => m_lata L GENERAL (q * x1) q m (q * x2) X lam z X4 X5 X6) q (m_lata L MU3_EQ_M3 (q * x1) q q (q * x2) X lam z X4 X5 X6).
  Proof. exact (bigO_lim (fun m => m_lata L GENERAL (q * x1) q m (q * x2) X lam z X4 X5 X6) q _ Hq (c_lata_GUM L q x1 x2 X lam z X4 X5 X6 HL Hq H1 H2 N1 N2 N12)). Qed.
  Lemma l_lata_QU : Lim (fun m => m_lata L MQ3_EQ_MU3 q q m (q * x1) X lam z X4 X5 X6) q (m_lata L MQ3_EQ_MU3_EQ_M3 q q q (q * x1) X lam z X4 X5 X6).
  Proof. exact (bigO_lim (fun m => m_lata L MQ3_EQ_MU3 q q m (q * x1) X lam z X4 X5 X6) q _ Hq (c_lata_QU L q x1 x2 X lam z X4 X5 X6 HL Hq H1 H2 N1 N2 N12)). Qed.
  Lemma l_lata_QM : Lim (fun m => m_lata L MQ3_EQ_M3 q m q (q * x1) X lam z X4 X5 X6) q (m_lata L MQ3_EQ_MU3_EQ_M3 q q q (q * x1) X lam z X4 X5 X6).
  Proof. exact (bigO_lim (fun m => m_lata L MQ3_EQ_M3 q m q (q * x1) X lam z X4 X5 X6) q _ Hq (c_lata_QM L q x1 x2 X lam z X4 X5 X6 HL Hq H1 H2 N1 N2 N12)). Qed.
  Lemma l_lata_UM : Lim (fun m => m_lata L MU3_EQ_M3 q m m (q * x1) X lam z X4 X5 X6) q (m_lata L MQ3_EQ_MU3_EQ_M3 q q q (q * x1) X lam z X4 X5 X6).
  Proof. exact (bigO_lim (fun m => m_lata L MU3_EQ_M3 q m m (q * x1) X lam z X4 X5 X6) q _ Hq (c_lata_UM L q x1 x2 X lam z X4 X5 X6 HL Hq H1 H2 N1 N2 N12)). Qed.
  Lemma l_lata_D : Lim (fun m => m_lata L MQ3_EQ_MU3_EQ_M3 q q q m X lam z X4 X5 X6) q (m_lata L DEGENERATE q q q q X lam z X4 X5 X6).
  Proof. exact (bigO_lim (fun m => m_lata L MQ3_EQ_MU3_EQ_M3 q q q m X lam z X4 X5 X6) q _ Hq (c_lata_D L q x1 x2 X lam z X4 X5 X6 HL Hq H1 H2 N1 N2 N12)). Qed.
  Lemma l_lata_GQUa : Lim (fun m => m_lata L GENERAL q m (q * x1) (q * x1) X lam z X4 X5 X6) q (m_lata L MQ3_EQ_MU3 q q (q * x1) (q * x1) X lam z X4 X5 X6).
  Proof. exact (bigO_lim (fun m => m_lata L GENERAL q m (q * x1) (q * x1) X lam z X4 X5 X6) q _ Hq (c_lata_GQUa L q x1 x2 X lam z X4 X5 X6 HL Hq H1 H2 N1 N2 N12)). Qed.
  Lemma l_lata_GQUb : Lim (fun m => m_lata L GENERAL q m (q * x1) q X lam z X4 X5 X6) q (m_lata L MQ3_EQ_MU3 q q (q * x1) q X lam z X4 X5 X6).
  Proof. exact (bigO_lim (fun m => m_lata L GENERAL q m (q * x1) q X lam z X4 X5 X6) q _ Hq (c_lata_GQUb L q x1 x2 X lam z X4 X5 X6 HL Hq H1 H2 N1 N2 N12)). Qed.
  Lemma l_lata_GQMa : Lim (fun m => m_lata L GENERAL q (q * x1) m (q * x1) X lam z X4 X5 X6) q (m_lata L MQ3_EQ_M3 q (q * x1) q (q * x1) X lam z X4 X5 X6).
  Proof. exact (bigO_lim (fun m => m_lata L GENERAL q (q * x1) m (q * x1) X lam z X4 X5 X6) q _ Hq (c_lata_GQMa L q x1 x2 X lam z X4 X5 X6 HL Hq H1 H2 N1 N2 N12)). Qed.
  Lemma l_lata_GUMa : Lim (fun m => m_lata L GENERAL (q * x1) q m (q * x1) X lam z X4 X5 X6) q (m_lata L MU3_EQ_M3 (q * x1) q q (q * x1) X lam z X4 X5 X6).
  Proof. exact (bigO_lim (fun m => m_lata L GENERAL (q * x1) q m (q * x1) X lam z X4 X5 X6) q _ Hq (c_lata_GUMa L q x1 x2 X lam z X4 X5 X6 HL Hq H1 H2 N1 N2 N12)). Qed.
  Lemma l_lata2_GQU : Lim (fun m => m_lata2 L GENERAL q m (q * x1) (q * x2) X lam z X4 X5 X6) q (m_lata2 L MQ3_EQ_MU3 q q (q * x1) (q * x2) X lam z X4 X5 X6).
  Proof. exact (bigO_lim (fun m => m_lata2 L GENERAL q m (q * x1) (q * x2) X lam z X4 X5 X6) q _ Hq (c_lata2_GQU L q x1 x2 X lam z X4 X5 X6 HL Hq H1 H2 N1 N2 N12)). Qed.
  Lemma l_lata2_GQM : Lim (fun m => m_lata2 L GENERAL q (q * x1) m (q * x2) X lam z X4 X5 X6) q (m_lata2 L MQ3_EQ_M3 q (q * x1) q (q * x2) X lam z X4 X5 X6).
  Proof. exact (bigO_lim (fun m => m_lata2 L GENERAL q (q * x1) m (q * x2) X lam z X4 X5 X6) q _ Hq (c_lata2_GQM L q x1 x2 X lam z X4 X5 X6 HL Hq H1 H2 N1 N2 N12)). Qed.
  Lemma l_lata2_GUM : Lim (fun m => m_lata2 L GENERAL (q * x1) q m (q * x2) X lam z X4 X5 X6) q (m_lata2 L MU3_EQ_M3 (q * x1) q q (q * x2) X lam z X4 X5 X6).
  Proof. exact (bigO_lim (fun m => m_lata2 L GENERAL (q * x1) q m (q * x2) X lam z X4 X5 X6) q _ Hq (c_lata2_GUM L q x1 x2 X lam z X4 X5 X6 HL Hq H1 H2 N1 N2 N12)). Qed.
  Lemma l_lata2_QU : Lim (fun m => m_lata2 L MQ3_EQ_MU3 q q m (q * x1) X lam z X4 X5 X6) q (m_lata2 L MQ3_EQ_MU3_EQ_M3 q q q (q * x1) X lam z X4 X5 X6).
  Proof. exact (bigO_lim (fun m => m_lata2 L MQ3_EQ_MU3 q q m (q * x1) X lam z X4 X5 X6) q _ Hq (c_lata2_QU L q x1 x2 X lam z X4 X5 X6 HL Hq H1 H2 N1 N2 N12)). Qed.
  Lemma l_lata2_QM : Lim (fun m => m_lata2 L MQ3_EQ_M3 q m q (q * x1) X lam z X4 X5 X6) q (m_lata2 L MQ3_EQ_MU3_EQ_M3 q q q (q * x1) X lam z X4 X5 X6).
  Proof. exact (bigO_lim (fun m => m_lata2 L MQ3_EQ_M3 q m q (q * x1) X lam z X4 X5 X6) q _ Hq (c_lata2_QM L q x1 x2 X lam z X4 X5 X6 HL Hq H1 H2 N1 N2 N12)). Qed.
  Lemma l_lata2_UM : Lim (fun m => m_lata2 L MU3_EQ_M3 q m m (q * x1) X lam z X4 X5 X6) q (m_lata2 L MQ3_EQ_MU3_EQ_M3 q q q (q * x1) X lam z X4 X5 X6).
  Proof. exact (bigO_lim (fun m => m_lata2 L MU3_EQ_M3 q m m (q * x1) X lam z X4 X5 X6) q _ Hq (c_lata2_UM L q x1 x2 X lam z X4 X5 X6 HL Hq H1 H2 N1 N2 N12)). Qed.
  Lemma l_lata2_D : Lim (fun m => m_lata2 L MQ3_EQ_MU3_EQ_M3 q q q m X lam z X4 X5 X6) q (m_lata2 L DEGENERATE q q q q X lam z X4 X5 X6).
  Proof. exact (bigO_lim (fun m => m_lata2 L MQ3_EQ_MU3_EQ_M3 q q q m X lam z X4 X5 X6) q _ Hq (c_lata2_D L q x1 x2 X lam z X4 X5 X6 HL Hq H1 H2 N1 N2 N12)). Qed.
  Lemma l_lata2_GQUa : Lim (fun m => m_lata2 L GENERAL q m (q * x1) (q * x1) X lam z X4 X5 X6) q (m_lata2 L MQ3_EQ_MU3 q q (q * x1) (q * x1) X lam z X4 X5 X6).
  Proof. exact (bigO_lim (fun m => m_lata2 L GENERAL q m (q * x1) (q * x1) X lam z X4 X5 X6) q _ Hq (c_lata2_GQUa L q x1 x2 X lam z X4 X5 X6 HL Hq H1 H2 N1 N2 N12)). Qed.
  Lemma l_lata2_GQUb : Lim (fun m => m_lata2 L GENERAL q m (q * x1) q X lam z X4 X5 X6) q (m_lata2 L MQ3_EQ_MU3 q q (q * x1) q X lam z X4 X5 X6).
  Proof. exact (bigO_lim (fun m => m_lata2 L GENERAL q m (q * x1) q X lam z X4 X5 X6) q _ Hq (c_lata2_GQUb L q x1 x2 X lam z X4 X5 X6 HL Hq H1 H2 N1 N2 N12)). Qed.
  Lemma l_lata2_GQMa : Lim (fun m => m_lata2 L GENERAL q (q * x1) m (q * x1) X lam z X4 X5 X6) q (m_lata2 L MQ3_EQ_M3 q (q * x1) q (q * x1) X lam z X4 X5 X6).
  Proof. exact (bigO_lim (fun m => m_lata2 L GENERAL q (q * x1) m (q * x1) X lam z X4 X5 X6) q _ Hq (c_lata2_GQMa L q x1 x2 X lam z X4 X5 X6 HL Hq H1 H2 N1 N2 N12)). Qed.
  Lemma l_lata2_GUMa : Lim (fun m => m_lata2 L GENERAL (q * x1) q m (q * x1) X lam z X4 X5 X6) q (m_lata2 L MU3_EQ_M3 (q * x1) q q (q * x1) X lam z X4 X5 X6).
  Proof. exact (bigO_lim (fun m => m_lata2 L GENERAL (q * x1) q m (q * x1) X lam z X4 X5 X6) q _ Hq (c_lata2_GUMa L q x1 x2 X lam z X4 X5 X6 HL Hq H1 H2 N1 N2 N12)). Qed.
  Lemma l_xtt_GQU : Lim (fun m => m_xtt L GENERAL q m (q * x1) (q * x2) X lam z X4 X5 X6) q (m_xtt L MQ3_EQ_MU3 q q (q * x1) (q * x2) X lam z X4 X5 X6).
  Proof. exact (bigO_lim (fun m => m_xtt L GENERAL q m (q * x1) (q * x2) X lam z X4 X5 X6) q _ Hq (c_xtt_GQU L q x1 x2 X lam z X4 X5 X6 HL Hq H1 H2 N1 N2 N12)). Qed.
  Lemma l_xtt_GQM : Lim (fun m => m_xtt L GENERAL q (q * x1) m (q * x2) X lam z X4 X5 X6) q (m_xtt L MQ3_EQ_M3 q (q * x1) q (q * x2) X lam z X4 X5 X6).
  Proof. exact (bigO_lim (fun m => m_xtt L GENERAL q (q * x1) m (q * x2) X lam z X4 X5 X6) q _ Hq (c_xtt_GQM L q x1 x2 X lam z X4 X5 X6 HL Hq H1 H2 N1 N2 N12)). Qed.
  Lemma l_xtt_GUM : Lim (fun m => m_xtt L GENERAL (q * x1) q m (q * x2) X lam z X4 X5 X6) q (m_xtt L MU3_EQ_M3 (q * x1) q q (q * x2) X lam z X4 X5 X6).
  Proof. exact (bigO_lim (fun m => m_xtt L GENERAL (q * x1) q m (q * x2) X lam z X4 X5 X6) q _ Hq (c_xtt_GUM L q x1 x2 X lam z X4 X5 X6 HL Hq H1 H2 N1 N2 N12)). Qed.
  Lemma l_xtt_QU : Lim (fun m => m_xtt L MQ3_EQ_MU3 q q m (q * x1) X lam z X4 X5 X6) q (m_xtt L MQ3_EQ_MU3_EQ_M3 q q q (q * x1) X lam z X4 X5 X6).
  Proof. exact (bigO_lim (fun m => m_xtt L MQ3_EQ_MU3 q q m (q * x1) X lam z X4 X5 X6) q _ Hq (c_xtt_QU L q x1 x2 X lam z X4 X5 X6 HL Hq H1 H2 N1 N2 N12)). Qed.
  Lemma l_xtt_QM : Lim (fun m => m_xtt L MQ3_EQ_M3 q m q (q * x1) X lam z X4 X5 X6) q (m_xtt L MQ3_EQ_MU3_EQ_M3 q q q (q * x1) X lam z X4 X5 X6).
  Proof. exact (bigO_lim (fun m => m_xtt L MQ3_EQ_M3 q m q (q * x1) X lam z X4 X5 X6) q _ Hq (c_xtt_QM L q x1 x2 X lam z X4 X5 X6 HL Hq H1 H2 N1 N2 N12)). Qed.
  Lemma l_xtt_UM : Lim (fun m => m_xtt L MU3_EQ_M3 q m m (q * x1) X lam z X4 X5 X6) q (m_xtt L MQ3_EQ_MU3_EQ_M3 q q q (q * x1) X lam z X4 X5 X6).
  Proof. exact (bigO_lim (fun m => m_xtt L MU3_EQ_M3 q m m (q * x1) X lam z X4 X5 X6) q _ Hq (c_xtt_UM L q x1 x2 X lam z X4 X5 X6 HL Hq H1 H2 N1 N2 N12)). Qed.
  Lemma l_xtt_D : Lim (fun m => m_xtt L MQ3_EQ_MU3_EQ_M3 q q q m X lam z X4 X5 X6) q (m_xtt L DEGENERATE q q q q X lam z X4 X5 X6).
  Proof. exact (bigO_lim (fun m => m_xtt L MQ3_EQ_MU3_EQ_M3 q q q m X lam z X4 X5 X6) q _ Hq (c_xtt_D L q x1 x2 X lam z X4 X5 X6 HL Hq H1 H2 N1 N2 N12)). Qed.
  Lemma l_xtt_GQUa : Lim (fun m => m_xtt L GENERAL q m (q * x1) (q * x1) X lam z X4 X5 X6) q (m_xtt L MQ3_EQ_MU3 q q (q * x1) (q * x1) X lam z X4 X5 X6).
  Proof. exact (bigO_lim (fun m => m_xtt L GENERAL q m (q * x1) (q * x1) X lam z X4 X5 X6) q _ Hq (c_xtt_GQUa L q x1 x2 X lam z X4 X5 X6 HL Hq H1 H2 N1 N2 N12)). Qed.
  Lemma l_xtt_GQUb : Lim (fun m => m_xtt L GENERAL q m (q * x1) q X lam z X4 X5 X6) q (m_xtt L MQ3_EQ_MU3 q q (q * x1) q X lam z X4 X5 X6).
  Proof. exact (bigO_lim (fun m => m_xtt L GENERAL q m (q * x1) q X lam z X4 X5 X6) q _ Hq (c_xtt_GQUb L q x1 x2 X lam z X4 X5 X6 HL Hq H1 H2 N1 N2 N12)). Qed.
  Lemma l_xtt_GQMa : Lim (fun m => m_xtt L GENERAL q (q * x1) m (q * x1) X lam z X4 X5 X6) q (m_xtt L MQ3_EQ_M3 q (q * x1) q (q * x1) X lam z X4 X5 X6).
  Proof. exact (bigO_lim (fun m => m_xtt L GENERAL q (q * x1) m (q * x1) X lam z X4 X5 X6) q _ Hq (c_xtt_GQMa L q x1 x2 X lam z X4 X5 X6 HL Hq H1 H2 N1 N2 N12)). Qed.
  Lemma l_xtt_GUMa : Lim (fun m => m_xtt L GENERAL (q * x1) q m (q * x1) X lam z X4 X5 X6) q (m_xtt L MU3_EQ_M3 (q * x1) q q (q * x1) X lam z X4 X5 X6).
  Proof. exact (bigO_lim (fun m => m_xtt L GENERAL (q * x1) q m (q * x1) X lam z X4 X5 X6) q _ Hq (c_xtt_GUMa L q x1 x2 X lam z X4 X5 X6 HL Hq H1 H2 N1 N2 N12)). Qed.
End Lims.
