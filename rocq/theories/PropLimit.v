(** * C30: the formulas for equal masses are the limits of the general ones
    The statements use LimitSpec.v (the corrections with the dilogarithm as a parameter, proved there to be the model when
    that parameter is the dilogarithm of the code) and PathSpec.v (limits, paths of masses). *)
From Coq Require Import Reals Lra Lia List ZArith Bool.
From Verif Require Import Num NumFacts Except Params HierFormulas Dilog LoopFun Thresh ThreshTwo Threshold DilogSpec DilogExists ThreshViews ThreshSpec ThreshProofs LimitSpec PathSpec LimitProofs ParamsExamples.
Import ListNotations.
Open Scope R_scope.
Local Notation "# z" := (@nint R NumR z) (at level 1, z constr at level 0).

(** ** Limits *)
Lemma Lim_const k x0 : Lim (fun _ => k) x0 k.
Proof. intros e He. exists 1. split; [lra|]. intros x _ _. replace (k - k) with 0 by ring. rewrite Rabs_R0. exact He. Qed.
Lemma Lim_near (f g : R -> R) x0 v d : 0 < d -> (forall x, Rabs (x - x0) < d -> f x = g x) -> Lim g x0 v -> Lim f x0 v.
Proof.
  intros Hd E H e He. destruct (H e He) as (d' & Hd' & B). exists (Rmin d d'). split; [apply Rmin_glb_lt; assumption|].
  intros x Nx Hx. rewrite E by (eapply Rlt_le_trans; [exact Hx|apply Rmin_l]). apply B; [exact Nx|]. eapply Rlt_le_trans; [exact Hx|apply Rmin_r].
Qed.
Lemma Lim_near' (f g : R -> R) x0 v d : 0 < d -> (forall x, x <> x0 -> Rabs (x - x0) < d -> f x = g x) -> Lim g x0 v -> Lim f x0 v.
Proof.
  intros Hd E H e He. destruct (H e He) as (d' & Hd' & B). exists (Rmin d d'). split; [apply Rmin_glb_lt; assumption|].
  intros x Nx Hx. rewrite E; [|exact Nx|eapply Rlt_le_trans; [exact Hx|apply Rmin_l]]. apply B; [exact Nx|]. eapply Rlt_le_trans; [exact Hx|apply Rmin_r].
Qed.
Lemma Lim_plus f g x0 a b : Lim f x0 a -> Lim g x0 b -> Lim (fun x => f x + g x) x0 (a + b).
Proof.
  intros F G e He. destruct (F (e / 2)) as (d1 & D1 & B1); [lra|]. destruct (G (e / 2)) as (d2 & D2 & B2); [lra|].
  exists (Rmin d1 d2). split; [apply Rmin_glb_lt; assumption|]. intros x Nx Hx.
  assert (X1 := B1 x Nx (Rlt_le_trans _ _ _ Hx (Rmin_l _ _))). assert (X2 := B2 x Nx (Rlt_le_trans _ _ _ Hx (Rmin_r _ _))).
  replace (f x + g x - (a + b)) with ((f x - a) + (g x - b)) by ring. eapply Rle_lt_trans; [apply Rabs_triang|]. lra.
Qed.
Lemma Lim_scal f x0 a k : Lim f x0 a -> Lim (fun x => k * f x) x0 (k * a).
Proof.
  intros F e He. destruct (F (e / (Rabs k + 1))) as (d & D & B); [apply Rdiv_lt_0_compat; [exact He|]; pose proof (Rabs_pos k); lra|].
  exists d. split; [exact D|]. intros x Nx Hx. specialize (B x Nx Hx). replace (k * f x - k * a) with (k * (f x - a)) by ring. rewrite Rabs_mult.
  pose proof (Rabs_pos k) as K. apply (Rmult_lt_compat_l (Rabs k + 1)) in B; [|lra]. replace ((Rabs k + 1) * (e / (Rabs k + 1))) with e in B by (field; lra).
  eapply Rle_lt_trans; [|exact B]. apply Rmult_le_compat_r; [apply Rabs_pos|lra].
Qed.
Lemma Lim_opp f x0 a : Lim f x0 a -> Lim (fun x => - f x) x0 (- a).
Proof. intros F. replace (- a) with (-1 * a) by ring. eapply (Lim_near _ (fun x => -1 * f x) _ _ 1 Rlt_0_1); [intros; ring|]. apply Lim_scal. exact F. Qed.
Lemma Lim_minus f g x0 a b : Lim f x0 a -> Lim g x0 b -> Lim (fun x => f x - g x) x0 (a - b).
Proof. intros F G. apply (Lim_plus f (fun x => - g x)); [exact F|]. apply Lim_opp. exact G. Qed.
Lemma Lim_null_mult f g x0 : Lim f x0 0 -> Lim g x0 0 -> Lim (fun x => f x * g x) x0 0.
Proof.
  intros F G e He. destruct (F 1) as (d1 & D1 & B1); [lra|]. destruct (G e He) as (d2 & D2 & B2).
  exists (Rmin d1 d2). split; [apply Rmin_glb_lt; assumption|]. intros x Nx Hx.
  assert (X1 := B1 x Nx (Rlt_le_trans _ _ _ Hx (Rmin_l _ _))). assert (X2 := B2 x Nx (Rlt_le_trans _ _ _ Hx (Rmin_r _ _))).
  rewrite Rminus_0_r in *. rewrite Rabs_mult. pose proof (Rabs_pos (f x)). pose proof (Rabs_pos (g x)). nra.
Qed.
Lemma Lim_mult f g x0 a b : Lim f x0 a -> Lim g x0 b -> Lim (fun x => f x * g x) x0 (a * b).
Proof.
  intros F G. assert (F0 : Lim (fun x => f x - a) x0 0) by (replace 0 with (a - a) by ring; apply Lim_minus; [exact F|apply Lim_const]).
  assert (G0 : Lim (fun x => g x - b) x0 0) by (replace 0 with (b - b) by ring; apply Lim_minus; [exact G|apply Lim_const]).
  replace (a * b) with (0 + (a * b + (b * 0 + a * 0))) by ring.
  apply (Lim_near _ (fun x => (f x - a) * (g x - b) + (a * b + (b * (f x - a) + a * (g x - b)))) _ _ 1 Rlt_0_1); [intros; ring|].
  apply (Lim_plus (fun x => (f x - a) * (g x - b))); [apply Lim_null_mult; assumption|]. apply (Lim_plus (fun _ => a * b)); [apply Lim_const|].
  apply (Lim_plus (fun x => b * (f x - a))); apply Lim_scal; assumption.
Qed.
Lemma Lim_cont f x0 : continuity_pt f x0 -> Lim f x0 (f x0).
Proof.
  intros H e He. destruct (H e He) as (d & D & B). exists d. split; [exact D|]. intros x Nx Hx. apply B. split; [split; [exact Logic.I|]|exact Hx].
  intros E; apply Nx; symmetry; exact E.
Qed.
Lemma Lim_lnsq k x0 : 0 < x0 -> 0 < k -> Lim (fun x => ln (x * x / k)) x0 (ln (x0 * x0 / k)).
Proof.
  intros H K. apply (Lim_cont (fun x => ln (x * x / k))). apply derivable_continuous_pt.
  assert (P : 0 < x0 * x0 / k) by (apply Rdiv_lt_0_compat; [nra|exact K]).
  exists (/ (x0 * x0 / k) * ((1 * x0 + x0 * 1) * / k)). apply (derivable_pt_lim_comp (fun x => x * x / k) ln).
  - replace ((1 * x0 + x0 * 1) * / k) with ((1 * x0 + x0 * 1) * / k + (x0 * x0) * 0) by ring.
    apply (derivable_pt_lim_mult (fun x => x * x) (fun _ => / k)); [|apply derivable_pt_lim_const].
    apply (derivable_pt_lim_mult (fun x => x) (fun x => x)); apply derivable_pt_lim_id.
  - apply derivable_pt_lim_ln. exact P.
Qed.

(** ** The building blocks *)
Definition on4 (f : R -> R -> R -> R -> R) (ms : R * R * R * R) : R := let '(a, b, c, d) := ms in f a b c d.
Lemma path_pos l l' path m0 : approaches l l' path m0 -> exists d, 0 < d /\ forall x, Rabs (x - m0) < d -> let '(a, b, c, e) := path x in 0 < a /\ 0 < b /\ 0 < c /\ 0 < e.
Proof.
  intros A. assert (P : 0 < m0) by (destruct A; assumption). exists m0. split; [exact P|]. intros x Hx. apply Rabs_def2 in Hx. destruct A; repeat split; lra.
Qed.
Lemma end_pos l l' path m0 : approaches l l' path m0 -> let '(a, b, c, e) := path m0 in 0 < a /\ 0 < b /\ 0 < c /\ 0 < e.
Proof. intros A. destruct A; repeat split; assumption. Qed.
Lemma frac_pos a q : 0 < q -> 0 < a -> 0 < a / q. Proof. intros. apply Rdiv_lt_0_compat; assumption. Qed.
Lemma frac_ne1 a q : 0 < q -> a <> q -> a / q <> 1. Proof. intros H N E. apply N. apply (Rmult_eq_reg_r (/ q)); [|apply Rinv_neq_0_compat; lra]. unfold Rdiv in E. rewrite E. field. lra. Qed.
Lemma frac_ne a b q : 0 < q -> a <> b -> a / q <> b / q. Proof. intros H N E. apply N. apply (Rmult_eq_reg_r (/ q)); [|apply Rinv_neq_0_compat; lra]. exact E. Qed.
Lemma frac_mul a q : 0 < q -> a = q * (a / q). Proof. intros. field. lra. Qed.
Lemma succ_ne x : x <> x + 1. Proof. lra. Qed.
Ltac side := first [assumption | apply frac_pos; assumption | apply frac_ne1; assumption | apply frac_ne; first [assumption | apply not_eq_sym; assumption] | lra].
(** [dummy x]: a positive number other than 1 and x *)
Lemma dummy x : exists y, 0 < y /\ y <> 1 /\ x <> y.
Proof. destruct (Req_dec x 2) as [-> |N]; [exists 3|exists 2]; repeat split; lra. Qed.
Ltac lim_case L f X lam z X4 X5 X6 HL lGQU lGQUa lGQUb lGQM lGQMa lGUM lGUMa lQU lQM lUM lD :=
  intros A; destruct A as [mQ m3 msq HQ H3 Hs N|mQ mU msq HQ HU Hs N Ns|mQ mU msq HQ HU Hs N Ns|mQ msq HQ Hs Ns|mQ msq HQ Hs Ns|mQ msq HQ Hs Ns|mQ HQ]; cbv beta iota delta [on4];
  [ destruct (Req_dec msq m3) as [-> |D1]; [|destruct (Req_dec msq mQ) as [-> |D2]];
    [ destruct (dummy (m3 / mQ)) as (y & Y0 & Y1 & Y2); rewrite (frac_mul m3 mQ HQ); apply (lGQUa L mQ (m3 / mQ) y X lam z X4 X5 X6); side
    | destruct (dummy (m3 / mQ)) as (y & Y0 & Y1 & Y2); rewrite (frac_mul m3 mQ HQ); apply (lGQUb L mQ (m3 / mQ) y X lam z X4 X5 X6); side
    | rewrite (frac_mul m3 mQ HQ), (frac_mul msq mQ HQ); apply (lGQU L mQ (m3 / mQ) (msq / mQ) X lam z X4 X5 X6); side ]
  | destruct (Req_dec msq mU) as [-> |D1];
    [ destruct (dummy (mU / mQ)) as (y & Y0 & Y1 & Y2); rewrite (frac_mul mU mQ HQ); apply (lGQMa L mQ (mU / mQ) y X lam z X4 X5 X6); side
    | rewrite (frac_mul mU mQ HQ), (frac_mul msq mQ HQ); apply (lGQM L mQ (mU / mQ) (msq / mQ) X lam z X4 X5 X6); side ]
  | destruct (Req_dec msq mQ) as [-> |D1];
    [ destruct (dummy (mQ / mU)) as (y & Y0 & Y1 & Y2); rewrite (frac_mul mQ mU HU); apply (lGUMa L mU (mQ / mU) y X lam z X4 X5 X6); side
    | rewrite (frac_mul mQ mU HU), (frac_mul msq mU HU); apply (lGUM L mU (mQ / mU) (msq / mU) X lam z X4 X5 X6); side ]
  | destruct (dummy (msq / mQ)) as (y & Y0 & Y1 & Y2); rewrite (frac_mul msq mQ HQ); apply (lQU L mQ (msq / mQ) y X lam z X4 X5 X6); side
  | destruct (dummy (msq / mQ)) as (y & Y0 & Y1 & Y2); rewrite (frac_mul msq mQ HQ); apply (lQM L mQ (msq / mQ) y X lam z X4 X5 X6); side
  | destruct (dummy (msq / mQ)) as (y & Y0 & Y1 & Y2); rewrite (frac_mul msq mQ HQ); apply (lUM L mQ (msq / mQ) y X lam z X4 X5 X6); side
  | apply (lD L mQ 2 3 X lam z X4 X5 X6); side ].

Section Blocks.
  Context (L : R -> R) (HL : is_ReLi2 L) (l l' : Z) (path : R -> R * R * R * R) (m0 : R) (X lam z X4 X5 X6 : R).
  Definition block (f : (R -> R) -> Z -> R -> R -> R -> R -> R -> R -> R -> R -> R -> R -> R) (k : Z) (ms : R * R * R * R) : R := on4 (fun a b c d => f L k a b c d X lam z X4 X5 X6) ms.
  Lemma lim_vev : approaches l l' path m0 -> Lim (fun x => block m_vev l (path x)) m0 (block m_vev l' (path m0)).
  Proof. unfold block. lim_case L m_vev X lam z X4 X5 X6 HL l_vev_GQU l_vev_GQUa l_vev_GQUb l_vev_GQM l_vev_GQMa l_vev_GUM l_vev_GUMa l_vev_QU l_vev_QM l_vev_UM l_vev_D. Qed.
  Lemma lim_yta : approaches l l' path m0 -> Lim (fun x => block m_yta l (path x)) m0 (block m_yta l' (path m0)).
  Proof. unfold block. lim_case L m_yta X lam z X4 X5 X6 HL l_yta_GQU l_yta_GQUa l_yta_GQUb l_yta_GQM l_yta_GQMa l_yta_GUM l_yta_GUMa l_yta_QU l_yta_QM l_yta_UM l_yta_D. Qed.
  Lemma lim_lat : approaches l l' path m0 -> Lim (fun x => block m_lat l (path x)) m0 (block m_lat l' (path m0)).
  Proof. unfold block. lim_case L m_lat X lam z X4 X5 X6 HL l_lat_GQU l_lat_GQUa l_lat_GQUb l_lat_GQM l_lat_GQMa l_lat_GUM l_lat_GUMa l_lat_QU l_lat_QM l_lat_UM l_lat_D. Qed.
  Lemma lim_yta2 : approaches l l' path m0 -> Lim (fun x => block m_yta2 l (path x)) m0 (block m_yta2 l' (path m0)).
  Proof. unfold block. lim_case L m_yta2 X lam z X4 X5 X6 HL l_yta2_GQU l_yta2_GQUa l_yta2_GQUb l_yta2_GQM l_yta2_GQMa l_yta2_GUM l_yta2_GUMa l_yta2_QU l_yta2_QM l_yta2_UM l_yta2_D. Qed.
  Lemma lim_lata : approaches l l' path m0 -> Lim (fun x => block m_lata l (path x)) m0 (block m_lata l' (path m0)).
  Proof. unfold block. lim_case L m_lata X lam z X4 X5 X6 HL l_lata_GQU l_lata_GQUa l_lata_GQUb l_lata_GQM l_lata_GQMa l_lata_GUM l_lata_GUMa l_lata_QU l_lata_QM l_lata_UM l_lata_D. Qed.
  Lemma lim_lata2 : approaches l l' path m0 -> Lim (fun x => block m_lata2 l (path x)) m0 (block m_lata2 l' (path m0)).
  Proof. unfold block. lim_case L m_lata2 X lam z X4 X5 X6 HL l_lata2_GQU l_lata2_GQUa l_lata2_GQUb l_lata2_GQM l_lata2_GQMa l_lata2_GUM l_lata2_GUMa l_lata2_QU l_lata2_QM l_lata2_UM l_lata2_D. Qed.
  Lemma lim_xtt : approaches l l' path m0 -> Lim (fun x => block m_xtt l (path x)) m0 (block m_xtt l' (path m0)).
  Proof. unfold block. lim_case L m_xtt X lam z X4 X5 X6 HL l_xtt_GQU l_xtt_GQUa l_xtt_GQUb l_xtt_GQM l_xtt_GQMa l_xtt_GUM l_xtt_GUMa l_xtt_QU l_xtt_QM l_xtt_UM l_xtt_D. Qed.
End Blocks.

(** ** The pieces of the corrections *)
Section Pieces.
  Context (L : R -> R) (HL : is_ReLi2 L) (c : TC R) (l l' : Z) (path : R -> R * R * R * R) (m0 : R) (A : approaches l l' path m0).
  Definition calc (k : Z) (x : R) : TC R := setLimit (at_masses c (path x)) k.
  Lemma calc_at k x : calc k x = at_masses (setLimit c k) (path x).
  Proof. unfold calc. destruct (path x) as [[[a b] d] e]. reflexivity. Qed.
  (** a piece that equals a block near the end point has the block's limit *)
  Lemma piece_lim (F : TC R -> Z -> R) (f : (R -> R) -> Z -> R -> R -> R -> R -> R -> R -> R -> R -> R -> R -> R) (X lam z X4 X5 X6 : R) (lamQ : R -> R) :
    (forall k x, let '(a, b, c', e) := path x in 0 < a -> 0 < b -> 0 < c' -> 0 < e -> F (calc k x) k = block L X (lamQ a) z X4 X5 X6 f k (path x)) ->
    (forall lam, Lim (fun x => block L X lam z X4 X5 X6 f l (path x)) m0 (block L X lam z X4 X5 X6 f l' (path m0))) ->
    Lim (fun x => F (calc l x) l) m0 (F (calc l' m0) l').
  Proof.
    intros HF HB. assert (K : forall x, fst (fst (fst (path x))) = fst (fst (fst (path m0)))) by (destruct A; reflexivity).
    destruct (path_pos _ _ _ _ A) as (d & D & P). pose proof (end_pos _ _ _ _ A) as Q. pose proof (HF l' m0) as H0.
    assert (E : F (calc l' m0) l' = block L X (lamQ (fst (fst (fst (path m0))))) z X4 X5 X6 f l' (path m0)).
    { destruct (path m0) as [[[a b] c'] e] eqn:E0. destruct Q as (Q1 & Q2 & Q3 & Q4). apply H0; assumption. }
    rewrite E. apply (Lim_near _ (fun x => block L X (lamQ (fst (fst (fst (path m0))))) z X4 X5 X6 f l (path x)) _ _ d D); [|apply HB].
    intros x Hx. specialize (P x Hx). pose proof (HF l x) as H. rewrite <- (K x). destruct (path x) as [[[a b] c'] e] eqn:Ex. destruct P as (Q1 & Q2 & Q3 & Q4). apply H; assumption.
  Qed.
  Definition logQ (o : Z) (a : R) : R := #o * nlog (pow2 (v0 (MSt (tc_p c))) / pow2 (scale (tc_p c)))%num + nlog ((a * a) / pow2 (v0 (MSt (tc_p c))))%num.
  Lemma lim_vev_yt2 : Lim (fun x => vev_yt2 (tc_p (calc l x)) l) m0 (vev_yt2 (tc_p (calc l' m0)) l').
  Proof.
    apply (piece_lim (fun t k => vev_yt2 (tc_p t) k) m_vev (pow2 (calcXt (tc_p c))) 0 0 0 0 0 (fun _ => 0)); [|intros lam; apply lim_vev; assumption].
    intros k x. rewrite calc_at. destruct (path x) as [[[a b] c'] e]. intros. unfold block, on4. rewrite (vev_yt2_at L) by assumption. reflexivity.
  Qed.
  Lemma lim_yt_as o : Lim (fun x => yt_as L (tc_p (calc l x)) l o) m0 (yt_as L (tc_p (calc l' m0)) l' o).
  Proof.
    apply (piece_lim (fun t k => yt_as L (tc_p t) k o) m_yta (calcXt (tc_p c)) 0 0 0 0 0 (logQ o)); [|intros lam; apply lim_yta; assumption].
    intros k x. rewrite calc_at. destruct (path x) as [[[a b] c'] e]. intros. unfold block, on4. rewrite yt_as_at by assumption. reflexivity.
  Qed.
  Lemma lim_lambda_at o : Lim (fun x => lambda_at L (tc_p (calc l x)) l o) m0 (lambda_at L (tc_p (calc l' m0)) l' o).
  Proof.
    apply (piece_lim (fun t k => lambda_at L (tc_p t) k o) m_lat (calcXt (tc_p c)) 0 0 0 0 0 (logQ o)); [|intros lam; apply lim_lat; assumption].
    intros k x. rewrite calc_at. destruct (path x) as [[[a b] c'] e]. intros. unfold block, on4. rewrite lambda_at_at by assumption. reflexivity.
  Qed.
  Lemma lim_yt_as2 o : Lim (fun x => yt_as2 L (tc_p (calc l x)) (tc_msq2 (calc l x)) l o) m0 (yt_as2 L (tc_p (calc l' m0)) (tc_msq2 (calc l' m0)) l' o).
  Proof.
    apply (piece_lim (fun t k => yt_as2 L (tc_p t) (tc_msq2 t) k o) m_yta2 (calcXt (tc_p c)) 0 0 0 0 0 (logQ o)); [|intros lam; apply lim_yta2; assumption].
    intros k x. rewrite calc_at. destruct (path x) as [[[a b] c'] e]. intros. unfold block, on4. rewrite yt_as2_at by assumption. reflexivity.
  Qed.
  Lemma lim_lambda_at_as o : Lim (fun x => lambda_at_as L (tc_p (calc l x)) l o) m0 (lambda_at_as L (tc_p (calc l' m0)) l' o).
  Proof.
    apply (piece_lim (fun t k => lambda_at_as L (tc_p t) k o) m_lata (calcXt (tc_p c)) 0 0 0 0 0 (logQ o)); [|intros lam; apply lim_lata; assumption].
    intros k x. rewrite calc_at. destruct (path x) as [[[a b] c'] e]. intros. unfold block, on4. rewrite lambda_at_as_at by assumption. reflexivity.
  Qed.
  Lemma lim_lambda_at_as2 xo o : Lim (fun x => lambda_at_as2 L (tc_p (calc l x)) (tc_msq2 (calc l x)) xo l o) m0 (lambda_at_as2 L (tc_p (calc l' m0)) (tc_msq2 (calc l' m0)) xo l' o).
  Proof.
    eapply (piece_lim (fun t k => lambda_at_as2 L (tc_p t) (tc_msq2 t) xo k o) m_lata2 (calcXt (tc_p c)) 0 (ndec 1202056903159594 15) (if (xo <? 4)%Z then #0 else pow4 (calcXt (tc_p c))) (if (xo <? 5)%Z then #0 else pow5 (calcXt (tc_p c))) 0 (logQ o)); [|intros lam; apply lim_lata2; assumption].
    intros k x. rewrite calc_at. destruct (path x) as [[[a b] c'] e]. intros. unfold block, on4. rewrite lambda_at_as2_at by assumption. reflexivity.
  Qed.
  Lemma lim_xt_terms xo o : Lim (fun x => xt_terms L (tc_p (calc l x)) (tc_msq2 (calc l x)) xo l o) m0 (xt_terms L (tc_p (calc l' m0)) (tc_msq2 (calc l' m0)) xo l' o).
  Proof.
    eapply (piece_lim (fun t k => xt_terms L (tc_p t) (tc_msq2 t) xo k o) m_xtt (calcXt (tc_p c)) 0 0 (if negb (xo =? 4)%Z then #0 else pow4 (calcXt (tc_p c))) (if negb (xo =? 5)%Z then #0 else pow5 (calcXt (tc_p c))) (if negb (xo =? 6)%Z then #0 else pow6 (calcXt (tc_p c))) (logQ o)); [|intros lam; apply lim_xtt; assumption].
    intros k x. rewrite calc_at. destruct (path x) as [[[a b] c'] e]. intros. unfold block, on4. rewrite xt_terms_at by assumption. reflexivity.
  Qed.
  Lemma lim_g3 o : 0 < v0 (MSt (tc_p c)) -> Lim (fun x => getDeltaG3Alphas (tc_p (calc l x)) (tc_msq2 (calc l x)) o) m0 (getDeltaG3Alphas (tc_p (calc l' m0)) (tc_msq2 (calc l' m0)) o).
  Proof.
    intros HS. set (k := pow2 (v0 (MSt (tc_p c)))). assert (K : 0 < k) by (unfold k; change (0 < v0 (MSt (tc_p c)) * v0 (MSt (tc_p c))); nra).
    set (b := (#o * nlog (k / pow2 (scale (tc_p c)))%num : R)).
    assert (G : forall y mQ mU m3 ms, getDeltaG3Alphas (tc_p (at_masses (setLimit c y) (mQ, mU, m3, ms))) (tc_msq2 (at_masses (setLimit c y) (mQ, mU, m3, ms))) o =
       1 / 2 - (b + ln (m3 * m3 / k)) - ((b + ln (mQ * mQ / k)) + 10 * (b + ln (ms * ms / k)) + (b + ln (mU * mU / k))) / 12) by reflexivity.
    rewrite calc_at. apply (Lim_near _ (fun x => let '(mQ, mU, m3, ms) := path x in 1 / 2 - (b + ln (m3 * m3 / k)) - ((b + ln (mQ * mQ / k)) + 10 * (b + ln (ms * ms / k)) + (b + ln (mU * mU / k))) * (/ 12)) _ _ 1 Rlt_0_1).
    { intros x _. rewrite calc_at. destruct (path x) as [[[mQ mU] m3] ms]. apply G. }
    assert (C : forall x0, 0 < x0 -> Lim (fun x => b + ln (x * x / k)) x0 (b + ln (x0 * x0 / k))) by (intros x0 Hx; apply (Lim_plus (fun _ => b)); [apply Lim_const|apply Lim_lnsq; assumption]).
    destruct A; rewrite G; unfold Rdiv at 3;
    refine (Lim_minus (fun x => _ - _) (fun x => _ * _) _ _ _ _ _); try (refine (Lim_minus (fun x => _) (fun x => _ + _) _ _ _ _ _)); try apply Lim_const; try (apply C; assumption);
    refine (Lim_mult (fun x => _ + _ + _) (fun x => _) _ _ _ _ _); try apply Lim_const; refine (Lim_plus (fun x => _ + _) (fun x => _ + _) _ _ _ _ _); try apply Lim_const; try (apply C; assumption);
    refine (Lim_plus (fun x => _ + _) (fun x => _ * _) _ _ _ _ _); try apply Lim_const; try apply Lim_scal; try (apply C; assumption).
  Qed.
End Pieces.

(** ** The theorems *)
Definition strong : list tco := [G3_AS; YT_AS; YT_AS2; LAMBDA_AT; LAMBDA_AT_AS; LAMBDA_AT_AS2; VEV_YT2].
Ltac lims HL A HS :=
  match goal with
  | |- Lim (fun x => _ + _) _ _ => refine (Lim_plus (fun x => _) (fun x => _) _ _ _ _ _)
  | |- Lim (fun x => _ - _) _ _ => refine (Lim_minus (fun x => _) (fun x => _) _ _ _ _ _)
  | |- Lim (fun x => _ * _) _ _ => refine (Lim_mult (fun x => _) (fun x => _) _ _ _ _ _)
  | |- Lim (fun x => - _) _ _ => refine (Lim_opp (fun x => _) _ _ _)
  | |- Lim (fun x => yt_as _ _ _ _) _ _ => apply (lim_yt_as _ HL _ _ _ _ _ A)
  | |- Lim (fun x => yt_as2 _ _ _ _ _) _ _ => apply (lim_yt_as2 _ HL _ _ _ _ _ A)
  | |- Lim (fun x => lambda_at _ _ _ _) _ _ => apply (lim_lambda_at _ HL _ _ _ _ _ A)
  | |- Lim (fun x => lambda_at_as _ _ _ _) _ _ => apply (lim_lambda_at_as _ HL _ _ _ _ _ A)
  | |- Lim (fun x => lambda_at_as2 _ _ _ _ _ _) _ _ => apply (lim_lambda_at_as2 _ HL _ _ _ _ _ A)
  | |- Lim (fun x => xt_terms _ _ _ _ _ _) _ _ => apply (lim_xt_terms _ HL _ _ _ _ _ A)
  | |- Lim (fun x => vev_yt2 _ _) _ _ => apply (lim_vev_yt2 _ HL _ _ _ _ _ A)
  | |- Lim (fun x => getDeltaG3Alphas _ _ _) _ _ => apply (lim_g3 _ _ _ _ _ A _ HS)
  | |- Lim (fun x => _) _ _ => apply Lim_const
  end.
(** C30 (corrections): when masses approach each other, the strong threshold corrections, in every scheme, with or without
    logarithms, converge to the corrections that are calculated with the formulas for equal masses.  [Li2] is the dilogarithm. *)
Theorem C30 Li2 c l l' path m0 o s omitLogs :
  is_ReLi2 Li2 -> approaches l l' path m0 -> 0 < v0 (MSt (tc_p c)) -> In o strong ->
  converges (fun m => correction_with Li2 (setLimit (at_masses c (path m)) l) o s omitLogs) m0
            (correction_with Li2 (setLimit (at_masses c (path m0)) l') o s omitLogs).
Proof.
  intros HL A HS Ho. change (converges (fun m => correction_with Li2 (calc c path l m) o s omitLogs) m0 (correction_with Li2 (calc c path l' m0) o s omitLogs)).
  assert (ML : forall k x, massLimit3LThreshold (tc_p (calc c path k x)) = k) by reflexivity.
  assert (XT : forall k x, tc_xt (calc c path k x) = tc_xt c) by (intros k x; unfold calc; destruct (path x) as [[[? ?] ?] ?]; reflexivity).
  cbn [In strong] in Ho; destruct Ho as [<-|[<-|[<-|[<-|[<-|[<-|[<-|[]]]]]]]]; destruct s; unfold correction_with; cbv beta iota zeta;
  (eexists; eexists; split; [intros x; cbv beta; rewrite ?ML; rewrite ?XT; reflexivity|split; [rewrite ?ML; rewrite ?XT; reflexivity|cbv beta; repeat lims HL A HS]]).
Qed.
(** C30 (conversion of the three-loop term between the schemes) *)
Theorem C30_shift Li2 c l l' path m0 xtOrder omitLogs omitXtLogs :
  is_ReLi2 Li2 -> approaches l l' path m0 -> 0 < v0 (MSt (tc_p c)) ->
  converges (fun m => shift_with Li2 (setLimit (at_masses c (path m)) l) xtOrder omitLogs omitXtLogs) m0
            (shift_with Li2 (setLimit (at_masses c (path m0)) l') xtOrder omitLogs omitXtLogs).
Proof.
  intros HL A HS. change (converges (fun m => shift_with Li2 (calc c path l m) xtOrder omitLogs omitXtLogs) m0 (shift_with Li2 (calc c path l' m0) xtOrder omitLogs omitXtLogs)).
  assert (ML : forall k x, massLimit3LThreshold (tc_p (calc c path k x)) = k) by reflexivity.
  unfold shift_with; cbv beta iota zeta; destruct (xtOrder <=? 3)%Z;
  (eexists; eexists; split; [intros x; cbv beta; rewrite ?ML; reflexivity|split; [rewrite ?ML; reflexivity|cbv beta; repeat lims HL A HS]]).
Qed.

(** C30 for the corrections without a dilogarithm, as a statement on the function of the API *)
Definition strong_one_loop : list tco := [G3_AS; YT_AS; LAMBDA_AT; VEV_YT2].
Lemma no_dilog L c o s omitLogs : In o strong_one_loop -> correction_with L c o s omitLogs = correction_with dilog c o s omitLogs.
Proof. intros Ho. cbn [In strong_one_loop] in Ho; destruct Ho as [<-|[<-|[<-|[<-|[]]]]]; destruct s; reflexivity. Qed.
Lemma known_at c k x : In k [GENERAL; MQ3_EQ_MU3; MQ3_EQ_M3; MU3_EQ_M3; MQ3_EQ_MU3_EQ_M3; DEGENERATE] -> known_limit (getLimit (setLimit (at_masses c x) k)).
Proof. intros H. cbn [In] in H. destruct H as [<-|[<-|[<-|[<-|[<-|[<-|[]]]]]]]; split; discriminate. Qed.
Lemma known_ends l l' path m0 : approaches l l' path m0 -> In l [GENERAL; MQ3_EQ_MU3; MQ3_EQ_M3; MU3_EQ_M3; MQ3_EQ_MU3_EQ_M3; DEGENERATE] /\ In l' [GENERAL; MQ3_EQ_MU3; MQ3_EQ_M3; MU3_EQ_M3; MQ3_EQ_MU3_EQ_M3; DEGENERATE].
Proof. intros A; destruct A; cbn [In]; intuition. Qed.
Theorem C30_code c l l' path m0 o s omitLogs :
  approaches l l' path m0 -> 0 < v0 (MSt (tc_p c)) -> In o strong_one_loop ->
  converges (fun m => getThresholdCorrection (setLimit (at_masses c (path m)) l) o s omitLogs) m0
            (getThresholdCorrection (setLimit (at_masses c (path m0)) l') o s omitLogs).
Proof.
  intros A HS Ho. destruct ReLi2_exists as (L & HL). destruct (known_ends _ _ _ _ A) as (K & K').
  assert (So : In o strong) by (cbn [In strong strong_one_loop] in *; intuition).
  destruct (C30 L c l l' path m0 o s omitLogs HL A HS So) as (g & w & G1 & G2 & G3). exists g, w. split; [|split; [|exact G3]].
  - intros x. rewrite <- correction_with_code by (apply known_at; exact K). rewrite <- (no_dilog L) by exact Ho. apply G1.
  - rewrite <- correction_with_code by (apply known_at; exact K'). rewrite <- (no_dilog L) by exact Ho. exact G2.
Qed.

(** C30 for the bottom and tau Yukawa corrections of the vacuum expectation value: outside the window around equal masses the
    code returns N X^2 (2 m1^2 m2^2 ln(m1^2/m2^2) + m2^4 - m1^4) / (4 (m2^2 - m1^2)^3) (N = 3 colours or 1), inside the window
    a constant, which is the limit of this formula. *)
Definition vev_formula (N X2 m12 m22 : R) : R := N * X2 * (2 * m22 * m12 * ln (m12 / m22) + m22 * m22 - m12 * m12) / (4 * ((m22 - m12) * (m22 - m12) * (m22 - m12))).
Lemma vev_formula_lim N X2 m : 0 < m -> Lim (fun x => vev_formula N X2 (m * m) (x * x)) m (N / 12 * (X2 / (m * m))).
Proof.
  intros Hm. destruct ReLi2_exists as (L & HL).
  assert (H := l_vev_GQU L m 2 3 X2 0 0 0 0 0 HL Hm ltac:(lra) ltac:(lra) ltac:(lra) ltac:(lra) ltac:(lra)).
  apply (Lim_scal _ _ _ (N / 3)) in H. replace (N / 12 * (X2 / (m * m))) with (N / 3 * m_vev L MQ3_EQ_MU3 m m (m * 2) (m * 3) X2 0 0 0 0 0).
  - apply (Lim_near' _ (fun x => N / 3 * m_vev L GENERAL m x (m * 2) (m * 3) X2 0 0 0 0 0) _ _ m Hm); [|exact H].
    intros x Nx Hx. apply Rabs_def2 in Hx. assert (D : x * x - m * m <> 0) by (replace (x * x - m * m) with ((x - m) * (x + m)) by ring; apply Rmult_integral_contrapositive_currified; lra). unfold vev_formula. change (m_vev L GENERAL m x (m * 2) (m * 3) X2 0 0 0 0 0) with (vev_G (m * m) (x * x) X2). unfold vev_G, pow2, pow3.
    change (@nlog R NumR) with ln. change (@nint R NumR) with IZR. change (@nmul R NumR) with Rmult. change (@nsub R NumR) with Rminus. change (@ndiv R NumR) with Rdiv.
    field. split; [|exact D]. intros E; apply D; lra.
  - change (m_vev L MQ3_EQ_MU3 m m (m * 2) (m * 3) X2 0 0 0 0 0) with (X2 / (4 * (m * m))). field. lra.
Qed.

Definition bottom_masses (c : TC R) (mQ mD : R) : TC R :=
  let p := tc_p c in
  mkTC (mkParams (scale p) (mu p) (g1 p) (g2 p) (g3 p) (vd p) (vu p) (with_a22 (mq2 p) (mQ * mQ)) (with_a22 (md2 p) (mD * mD)) (mu2 p) (ml2 p) (me2 p)
      (Au p) (Ad p) (Ae p) (Yu p) (Yd p) (Ye p) (M1 p) (M2 p) (MG p) (MW p) (MZ p) (Mt p) (Mb p) (Mtau p) (MA p)
      (MSt p) (MSb p) (MStau p) (s2t p) (s2b p) (s2tau p) (theta_t p) (theta_b p) (theta_tau p) (massLimit3LThreshold p)) (tc_msq2 c) (tc_xt c).
Definition tau_masses (c : TC R) (mL mE : R) : TC R :=
  let p := tc_p c in
  mkTC (mkParams (scale p) (mu p) (g1 p) (g2 p) (g3 p) (vd p) (vu p) (mq2 p) (md2 p) (mu2 p) (with_a22 (ml2 p) (mL * mL)) (with_a22 (me2 p) (mE * mE))
      (Au p) (Ad p) (Ae p) (Yu p) (Yd p) (Ye p) (M1 p) (M2 p) (MG p) (MW p) (MZ p) (Mt p) (Mb p) (Mtau p) (MA p)
      (MSt p) (MSb p) (MStau p) (s2t p) (s2b p) (s2tau p) (theta_t p) (theta_b p) (theta_tau p) (massLimit3LThreshold p)) (tc_msq2 c) (tc_xt c).
Theorem C30_vev_bottom c mQ s omitLogs : 0 < mQ ->
  let Xb2 := calcXb (tc_p c) * calcXb (tc_p c) in
  (forall mD, mQ * mQ / 100 <= Rabs (mQ * mQ - mD * mD) -> getThresholdCorrection (bottom_masses c mQ mD) VEV_YB2 s omitLogs = Ok (vev_formula 3 Xb2 (mQ * mQ) (mD * mD))) /\
  (forall mD, Rabs (mQ * mQ - mD * mD) < mQ * mQ / 100 -> getThresholdCorrection (bottom_masses c mQ mD) VEV_YB2 s omitLogs = getThresholdCorrection (bottom_masses c mQ mQ) VEV_YB2 s omitLogs) /\
  converges (fun mD => Ok (vev_formula 3 Xb2 (mQ * mQ) (mD * mD))) mQ (getThresholdCorrection (bottom_masses c mQ mQ) VEV_YB2 s omitLogs).
Proof.
  intros HQ Xb2.
  assert (G : forall mD, getThresholdCorrection (bottom_masses c mQ mD) VEV_YB2 s omitLogs = Ok (if Rltb (Rabs (mQ * mQ - mD * mD)) (mQ * mQ * Rdec 1 2) then Xb2 / (4 * (mQ * mQ)) else vev_formula 3 Xb2 (mQ * mQ) (mD * mD))).
  { intros mD. destruct s; cbn [getThresholdCorrection]; f_equal; unfold getDeltaVevYb2; (replace (calcXb (tc_p (bottom_masses c mQ mD))) with (calcXb (tc_p c)) by reflexivity); reflexivity. }
  assert (W : mQ * mQ * Rdec 1 2 = mQ * mQ / 100) by (unfold Rdec; simpl; field).
  split; [|split].
  - intros mD H. rewrite G. rewrite Rltb_false by (rewrite W; lra). reflexivity.
  - intros mD H. rewrite !G. rewrite !Rltb_true; [reflexivity| |]; rewrite W; [|exact H]. replace (mQ * mQ - mQ * mQ) with 0 by ring. rewrite Rabs_R0. nra.
  - exists (fun mD => vev_formula 3 Xb2 (mQ * mQ) (mD * mD)), (3 / 12 * (Xb2 / (mQ * mQ))). split; [reflexivity|]. split; [|apply vev_formula_lim; exact HQ].
    rewrite G. rewrite Rltb_true by (rewrite W; replace (mQ * mQ - mQ * mQ) with 0 by ring; rewrite Rabs_R0; nra). f_equal. field. lra.
Qed.
Theorem C30_vev_tau c mL s omitLogs : 0 < mL ->
  let Xtau2 := calcXtau (tc_p c) * calcXtau (tc_p c) in
  (forall mE, mL * mL / 100 <= Rabs (mL * mL - mE * mE) -> getThresholdCorrection (tau_masses c mL mE) VEV_YTAU2 s omitLogs = Ok (vev_formula 1 Xtau2 (mL * mL) (mE * mE))) /\
  (forall mE, Rabs (mL * mL - mE * mE) < mL * mL / 100 -> getThresholdCorrection (tau_masses c mL mE) VEV_YTAU2 s omitLogs = getThresholdCorrection (tau_masses c mL mL) VEV_YTAU2 s omitLogs) /\
  converges (fun mE => Ok (vev_formula 1 Xtau2 (mL * mL) (mE * mE))) mL (getThresholdCorrection (tau_masses c mL mL) VEV_YTAU2 s omitLogs).
Proof.
  intros HQ X2.
  assert (G : forall mE, getThresholdCorrection (tau_masses c mL mE) VEV_YTAU2 s omitLogs = Ok (if Rltb (Rabs (mL * mL - mE * mE)) (mL * mL * Rdec 1 2) then X2 / (12 * (mL * mL)) else vev_formula 1 X2 (mL * mL) (mE * mE))).
  { intros mE. destruct s; cbn [getThresholdCorrection]; f_equal; unfold getDeltaVevYtau2; (replace (calcXtau (tc_p (tau_masses c mL mE))) with (calcXtau (tc_p c)) by reflexivity).
    all: unfold vev_formula; change (@nltb R NumR) with Rltb; change (@ndec R NumR 1 2) with (Rdec 1 2); unfold X2, pow2, pow3; cbn [tau_masses tc_p ml2 me2 with_a22 a22].
    all: change (@nlog R NumR) with ln; change (@nint R NumR) with IZR; change (@nmul R NumR) with Rmult; change (@nsub R NumR) with Rminus; change (@nadd R NumR) with Rplus; change (@ndiv R NumR) with Rdiv; change (@nabs R NumR) with Rabs.
    all: destruct (Rltb (Rabs (mL * mL - mE * mE)) (mL * mL * Rdec 1 2)); [reflexivity|]; unfold Rdiv; f_equal; ring. }
  assert (W : mL * mL * Rdec 1 2 = mL * mL / 100) by (unfold Rdec; simpl; field).
  split; [|split].
  - intros mE H. rewrite G. rewrite Rltb_false by (rewrite W; lra). reflexivity.
  - intros mE H. rewrite !G. rewrite !Rltb_true; [reflexivity| |]; rewrite W; [|exact H]. replace (mL * mL - mL * mL) with 0 by ring. rewrite Rabs_R0. nra.
  - exists (fun mE => vev_formula 1 X2 (mL * mL) (mE * mE)), (1 / 12 * (X2 / (mL * mL))). split; [reflexivity|]. split; [|apply vev_formula_lim; exact HQ].
    rewrite G. rewrite Rltb_true by (rewrite W; replace (mL * mL - mL * mL) with 0 by ring; rewrite Rabs_R0; nra). f_equal. field. lra.
Qed.
