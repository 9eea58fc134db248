(** * The strong threshold corrections never divide by zero: one lemma for each correction and mass limit *)
From Coq Require Import Reals Lra Lia List ZArith Bool String.
From Verif Require Import Num NumFacts Except Params HierFormulas Dilog LoopFun Thresh ThreshTwo Threshold ThreshSpec XtIdent Defined Agree.
Open Scope R_scope.
Section Strong.
  Context (q u m s w Q v d h A : R) (x0 x1 x2 x3 x4 x5 x6 x7 x8 x9 x10 x11 x12 x13 x14 x15 x16 x17 : R) (n0 n1 n2 n3 n4 n5 n6 n7 n8 n9 : mat3 R)
    (y0 y1 y2 y3 y4 y5 y6 y7 z0 z1 z2 z3 z4 z5 z6 z7 t0 t1 t2 t3 t4 t5 t6 t7 k1 : R) (w1 w2 : vec2 R) (l xo o : Z).
  Context (Pq : 0 < q) (Pu : 0 < u) (Pm : 0 < m) (Ps : 0 < s) (PS : 0 < w) (PQ : 0 < Q) (PV : 0 < v) (PD : 0 < d).
  Definition PtR : Params R := mkParams Q h x1 x2 x3 d v
    (mkM3 y0 y1 y2 y3 y4 y5 y6 y7 (q * q)) n1 (mkM3 z0 z1 z2 z3 z4 z5 z6 z7 (u * u)) n2 n3 (mkM3 t0 t1 t2 t3 t4 t5 t6 t7 A) n4 n5 n6 n7 n8
    x4 x5 m x6 x7 x8 x9 x10 x11 (mkV2 w k1) w1 w2 x12 x13 x14 x15 x16 x17 l.
  Definition Pt : Params PR := liftP PtR.
  Ltac pt := unfold meets; cbn [fst snd evR nth];
    repeat match goal with |- context [sqrt (?x ^ 2)] => replace (sqrt (x ^ 2)) with x by (symmetry; apply sqrt_pow2; apply Rlt_le; assumption) end;
    repeat match goal with |- context [sqrt (?x * ?x)] => replace (sqrt (x * x)) with x by (symmetry; apply sqrt_square; apply Rlt_le; assumption) end;
    first [assumption|apply Rmult_lt_0_compat; assumption|apply pow_lt; assumption|apply Rgt_not_eq; assumption|apply Rgt_not_eq; apply Rmult_lt_0_compat; assumption|apply Rgt_not_eq; apply Rdiv_lt_0_compat; assumption|nzb|lra].
  Ltac run := lazymatch goal with |- agree ?t0 _ => let t := eval cbv beta iota zeta delta [getDeltaYtAlphas getDeltaLambdaAlphat getDeltaYtAlphas2 getDeltaLambdaAlphatAlphas getDeltaLambdaAlphatAlphas2 getDRbarPrimeToMSbarXtTerms getDeltaVevYt2 getDeltaG3Alphas
     GENERAL MQ3_EQ_MU3 MQ3_EQ_M3 MU3_EQ_M3 MQ3_EQ_MU3_EQ_M3 DEGENERATE Z.eqb Pos.eqb orb andb negb calcXt calcTanBeta Pt PtR liftP lift3 lift2 a22 mq2 mu2 MG v0 MSt scale vu vd mu Au] in t0 in
    lazymatch t with Ok ?x => stepA ((q * q) :: (u * u) :: s * s :: m :: w :: Q :: v :: d :: h :: A :: nil)%list x; repeat (apply Forall_cons; [pt|]); apply Forall_nil end end.
  Lemma def_yta_G : q <> u -> m <> q -> m <> u -> agree (getDeltaYtAlphas Pt GENERAL o) (getDeltaYtAlphas PtR GENERAL o).
  Proof. intros. run. Qed.
  Lemma def_yta_QU : m <> q -> agree (getDeltaYtAlphas Pt MQ3_EQ_MU3 o) (getDeltaYtAlphas PtR MQ3_EQ_MU3 o).
  Proof. intros. run. Qed.
  Lemma def_yta_QM : q <> u -> s <> q -> agree (getDeltaYtAlphas Pt MQ3_EQ_M3 o) (getDeltaYtAlphas PtR MQ3_EQ_M3 o).
  Proof. intros. run. Qed.
  Lemma def_yta_UM : q <> u -> s <> u -> agree (getDeltaYtAlphas Pt MU3_EQ_M3 o) (getDeltaYtAlphas PtR MU3_EQ_M3 o).
  Proof. intros. run. Qed.
  Lemma def_yta_QUM : s <> q -> agree (getDeltaYtAlphas Pt MQ3_EQ_MU3_EQ_M3 o) (getDeltaYtAlphas PtR MQ3_EQ_MU3_EQ_M3 o).
  Proof. intros. run. Qed.
  Lemma def_yta_D : agree (getDeltaYtAlphas Pt DEGENERATE o) (getDeltaYtAlphas PtR DEGENERATE o).
  Proof. intros. run. Qed.
  Lemma def_lat_G : q <> u -> m <> q -> m <> u -> agree (getDeltaLambdaAlphat Pt GENERAL o) (getDeltaLambdaAlphat PtR GENERAL o).
  Proof. intros. run. Qed.
  Lemma def_lat_QU : m <> q -> agree (getDeltaLambdaAlphat Pt MQ3_EQ_MU3 o) (getDeltaLambdaAlphat PtR MQ3_EQ_MU3 o).
  Proof. intros. run. Qed.
  Lemma def_lat_QM : q <> u -> s <> q -> agree (getDeltaLambdaAlphat Pt MQ3_EQ_M3 o) (getDeltaLambdaAlphat PtR MQ3_EQ_M3 o).
  Proof. intros. run. Qed.
  Lemma def_lat_UM : q <> u -> s <> u -> agree (getDeltaLambdaAlphat Pt MU3_EQ_M3 o) (getDeltaLambdaAlphat PtR MU3_EQ_M3 o).
  Proof. intros. run. Qed.
  Lemma def_lat_QUM : s <> q -> agree (getDeltaLambdaAlphat Pt MQ3_EQ_MU3_EQ_M3 o) (getDeltaLambdaAlphat PtR MQ3_EQ_MU3_EQ_M3 o).
  Proof. intros. run. Qed.
  Lemma def_lat_D : agree (getDeltaLambdaAlphat Pt DEGENERATE o) (getDeltaLambdaAlphat PtR DEGENERATE o).
  Proof. intros. run. Qed.
  Lemma def_yta2_G : q <> u -> m <> q -> m <> u -> agree (getDeltaYtAlphas2 Pt (Some (s * s)) GENERAL o) (getDeltaYtAlphas2 PtR (s * s) GENERAL o).
  Proof. intros. run. Qed.
  Lemma def_yta2_QU : m <> q -> agree (getDeltaYtAlphas2 Pt (Some (s * s)) MQ3_EQ_MU3 o) (getDeltaYtAlphas2 PtR (s * s) MQ3_EQ_MU3 o).
  Proof. intros. run. Qed.
  Lemma def_yta2_QM : q <> u -> s <> q -> agree (getDeltaYtAlphas2 Pt (Some (s * s)) MQ3_EQ_M3 o) (getDeltaYtAlphas2 PtR (s * s) MQ3_EQ_M3 o).
  Proof. intros. run. Qed.
  Lemma def_yta2_UM : q <> u -> s <> u -> agree (getDeltaYtAlphas2 Pt (Some (s * s)) MU3_EQ_M3 o) (getDeltaYtAlphas2 PtR (s * s) MU3_EQ_M3 o).
  Proof. intros. run. Qed.
  Lemma def_yta2_QUM : s <> q -> agree (getDeltaYtAlphas2 Pt (Some (s * s)) MQ3_EQ_MU3_EQ_M3 o) (getDeltaYtAlphas2 PtR (s * s) MQ3_EQ_MU3_EQ_M3 o).
  Proof. intros. run. Qed.
  Lemma def_yta2_D : agree (getDeltaYtAlphas2 Pt (Some (s * s)) DEGENERATE o) (getDeltaYtAlphas2 PtR (s * s) DEGENERATE o).
  Proof. intros. run. Qed.
  Lemma def_lata_G : q <> u -> m <> q -> m <> u -> agree (getDeltaLambdaAlphatAlphas Pt GENERAL o) (getDeltaLambdaAlphatAlphas PtR GENERAL o).
  Proof. intros. run. Qed.
  Lemma def_lata_QU : m <> q -> agree (getDeltaLambdaAlphatAlphas Pt MQ3_EQ_MU3 o) (getDeltaLambdaAlphatAlphas PtR MQ3_EQ_MU3 o).
  Proof. intros. run. Qed.
  Lemma def_lata_QM : q <> u -> s <> q -> agree (getDeltaLambdaAlphatAlphas Pt MQ3_EQ_M3 o) (getDeltaLambdaAlphatAlphas PtR MQ3_EQ_M3 o).
  Proof. intros. run. Qed.
  Lemma def_lata_UM : q <> u -> s <> u -> agree (getDeltaLambdaAlphatAlphas Pt MU3_EQ_M3 o) (getDeltaLambdaAlphatAlphas PtR MU3_EQ_M3 o).
  Proof. intros. run. Qed.
  Lemma def_lata_QUM : s <> q -> agree (getDeltaLambdaAlphatAlphas Pt MQ3_EQ_MU3_EQ_M3 o) (getDeltaLambdaAlphatAlphas PtR MQ3_EQ_MU3_EQ_M3 o).
  Proof. intros. run. Qed.
  Lemma def_lata_D : agree (getDeltaLambdaAlphatAlphas Pt DEGENERATE o) (getDeltaLambdaAlphatAlphas PtR DEGENERATE o).
  Proof. intros. run. Qed.
  Lemma def_lata2_G : q <> u -> m <> q -> m <> u -> agree (getDeltaLambdaAlphatAlphas2 Pt (Some (s * s)) xo GENERAL o) (getDeltaLambdaAlphatAlphas2 PtR (s * s) xo GENERAL o).
  Proof. intros. run. Qed.
  Lemma def_lata2_QU : m <> q -> agree (getDeltaLambdaAlphatAlphas2 Pt (Some (s * s)) xo MQ3_EQ_MU3 o) (getDeltaLambdaAlphatAlphas2 PtR (s * s) xo MQ3_EQ_MU3 o).
  Proof. intros. run. Qed.
  Lemma def_lata2_QM : q <> u -> s <> q -> agree (getDeltaLambdaAlphatAlphas2 Pt (Some (s * s)) xo MQ3_EQ_M3 o) (getDeltaLambdaAlphatAlphas2 PtR (s * s) xo MQ3_EQ_M3 o).
  Proof. intros. run. Qed.
  Lemma def_lata2_UM : q <> u -> s <> u -> agree (getDeltaLambdaAlphatAlphas2 Pt (Some (s * s)) xo MU3_EQ_M3 o) (getDeltaLambdaAlphatAlphas2 PtR (s * s) xo MU3_EQ_M3 o).
  Proof. intros. run. Qed.
  Lemma def_lata2_QUM : s <> q -> agree (getDeltaLambdaAlphatAlphas2 Pt (Some (s * s)) xo MQ3_EQ_MU3_EQ_M3 o) (getDeltaLambdaAlphatAlphas2 PtR (s * s) xo MQ3_EQ_MU3_EQ_M3 o).
  Proof. intros. run. Qed.
  Lemma def_lata2_D : agree (getDeltaLambdaAlphatAlphas2 Pt (Some (s * s)) xo DEGENERATE o) (getDeltaLambdaAlphatAlphas2 PtR (s * s) xo DEGENERATE o).
  Proof. intros. run. Qed.
  Lemma def_xtt_G : q <> u -> m <> q -> m <> u -> agree (getDRbarPrimeToMSbarXtTerms Pt (Some (s * s)) GENERAL xo o) (getDRbarPrimeToMSbarXtTerms PtR (s * s) GENERAL xo o).
  Proof. intros. run. Qed.
  Lemma def_xtt_QU : m <> q -> agree (getDRbarPrimeToMSbarXtTerms Pt (Some (s * s)) MQ3_EQ_MU3 xo o) (getDRbarPrimeToMSbarXtTerms PtR (s * s) MQ3_EQ_MU3 xo o).
  Proof. intros. run. Qed.
  Lemma def_xtt_QM : q <> u -> s <> q -> agree (getDRbarPrimeToMSbarXtTerms Pt (Some (s * s)) MQ3_EQ_M3 xo o) (getDRbarPrimeToMSbarXtTerms PtR (s * s) MQ3_EQ_M3 xo o).
  Proof. intros. run. Qed.
  Lemma def_xtt_UM : q <> u -> s <> u -> agree (getDRbarPrimeToMSbarXtTerms Pt (Some (s * s)) MU3_EQ_M3 xo o) (getDRbarPrimeToMSbarXtTerms PtR (s * s) MU3_EQ_M3 xo o).
  Proof. intros. run. Qed.
  Lemma def_xtt_QUM : s <> q -> agree (getDRbarPrimeToMSbarXtTerms Pt (Some (s * s)) MQ3_EQ_MU3_EQ_M3 xo o) (getDRbarPrimeToMSbarXtTerms PtR (s * s) MQ3_EQ_MU3_EQ_M3 xo o).
  Proof. intros. run. Qed.
  Lemma def_xtt_D : agree (getDRbarPrimeToMSbarXtTerms Pt (Some (s * s)) DEGENERATE xo o) (getDRbarPrimeToMSbarXtTerms PtR (s * s) DEGENERATE xo o).
  Proof. intros. run. Qed.
  Lemma def_vev_G : q <> u -> m <> q -> m <> u -> agree (Ok (getDeltaVevYt2 Pt GENERAL)) (Ok (getDeltaVevYt2 PtR GENERAL)).
  Proof. intros. run. Qed.
  Lemma def_vev_QU : m <> q -> agree (Ok (getDeltaVevYt2 Pt MQ3_EQ_MU3)) (Ok (getDeltaVevYt2 PtR MQ3_EQ_MU3)).
  Proof. intros. run. Qed.
  Lemma def_vev_QM : q <> u -> s <> q -> agree (Ok (getDeltaVevYt2 Pt MQ3_EQ_M3)) (Ok (getDeltaVevYt2 PtR MQ3_EQ_M3)).
  Proof. intros. run. Qed.
  Lemma def_vev_UM : q <> u -> s <> u -> agree (Ok (getDeltaVevYt2 Pt MU3_EQ_M3)) (Ok (getDeltaVevYt2 PtR MU3_EQ_M3)).
  Proof. intros. run. Qed.
  Lemma def_vev_QUM : s <> q -> agree (Ok (getDeltaVevYt2 Pt MQ3_EQ_MU3_EQ_M3)) (Ok (getDeltaVevYt2 PtR MQ3_EQ_MU3_EQ_M3)).
  Proof. intros. run. Qed.
  Lemma def_vev_D : agree (Ok (getDeltaVevYt2 Pt DEGENERATE)) (Ok (getDeltaVevYt2 PtR DEGENERATE)).
  Proof. intros. run. Qed.
  Lemma def_g3 : agree (Ok (getDeltaG3Alphas Pt (Some (s * s)) o)) (Ok (getDeltaG3Alphas PtR (s * s) o)).
  Proof. run. Qed.
  Ltac und z H := lazymatch goal with |- ?t0 = _ => let t := eval cbv beta iota zeta delta [getDeltaYtAlphas2 GENERAL MQ3_EQ_MU3 MQ3_EQ_M3 MU3_EQ_M3 MQ3_EQ_MU3_EQ_M3 DEGENERATE Z.eqb Pos.eqb orb andb negb calcXt calcTanBeta Pt PtR liftP lift3 lift2
     a22 mq2 mu2 MG v0 MSt scale vu vd mu Au] in t0 in
    lazymatch t with Ok ?x => let vs := constr:(((q * q) :: (u * u) :: s * s :: m :: w :: Q :: v :: d :: h :: A :: nil)%list) in let e := reif vs x in
      change (Ok (evP vs e) = Ok None); apply f_equal; apply (poisoned_none vs ((true, EV 0) :: (true, EV 1) :: (true, EV 2) :: (true, EP 2 (EV 3)) :: nil)%list z e); [vm_compute; reflexivity|repeat (apply Forall_cons; [pt|]); apply Forall_nil|cbn [evR nth]; rewrite H; ring] end end.
  (** ... and they do divide by zero if the masses violate the conditions above *)
  Lemma und_QM_s : s = q -> getDeltaYtAlphas2 Pt (Some (s * s)) MQ3_EQ_M3 o = Ok None.
  Proof. intros H. und (ES (EV 0) (EV 2)) H. Qed.
  Lemma und_UM_s : s = u -> getDeltaYtAlphas2 Pt (Some (s * s)) MU3_EQ_M3 o = Ok None.
  Proof. intros H. und (EA (EN (EV 2)) (EV 1)) H. Qed.
  Lemma und_QM_u : q = u -> getDeltaYtAlphas2 Pt (Some (s * s)) MQ3_EQ_M3 o = Ok None.
  Proof. intros H. und (ES (EV 0) (EV 1)) H. Qed.
  Lemma und_UM_q : q = u -> getDeltaYtAlphas2 Pt (Some (s * s)) MU3_EQ_M3 o = Ok None.
  Proof. intros H. und (ES (EV 0) (EV 1)) H. Qed.
  Lemma und_G_q : m = q -> getDeltaYtAlphas2 Pt (Some (s * s)) GENERAL o = Ok None.
  Proof. intros H. und (ES (EP 2 (EV 3)) (EV 0)) H. Qed.
  Lemma und_G_u : m = u -> getDeltaYtAlphas2 Pt (Some (s * s)) GENERAL o = Ok None.
  Proof. intros H. und (ES (EP 2 (EV 3)) (EV 1)) H. Qed.
  Lemma und_G_qu : q = u -> getDeltaYtAlphas2 Pt (Some (s * s)) GENERAL o = Ok None.
  Proof. intros H. und (ES (EV 0) (EV 1)) H. Qed.
  Lemma und_QU_m : m = q -> getDeltaYtAlphas2 Pt (Some (s * s)) MQ3_EQ_MU3 o = Ok None.
  Proof. intros H. und (ES (EP 2 (EV 3)) (EV 0)) H. Qed.
  Lemma und_QUM_s : s = q -> getDeltaYtAlphas2 Pt (Some (s * s)) MQ3_EQ_MU3_EQ_M3 o = Ok None.
  Proof. intros H. und (ES (EV 0) (EV 2)) H. Qed.
End Strong.
