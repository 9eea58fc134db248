From Coq Require Import Reals ZArith List Bool Lra Lia Psatz String.
From Verif Require Import Num NumFacts Except Params ParamsSpec ParamsProofs.
Import ListNotations.
Open Scope R_scope.

Section Inv.
  Context {T : Type} {N : Num T}.
  Lemma validate_inv (E : EigenLib T) (p p' : Params T) : validate E p = Ok p' ->
    soft_masses_negative p = false /\ nltb (MG p) (nint 0) = false /\
    (nisnan (vu p) || nleb (vu p) (nint 0))%bool = false /\
    (nisnan (vd p) || nleb (vd p) (nint 0))%bool = false /\
    exists mt st tt mb sb tb ml sl tl,
      fill_doublet E (MSt p) (snd (calc_theta (theta_t p) (s2t p))) (fst (calc_theta (theta_t p) (s2t p)))
        (stopMatrix (vu p) (vd p) (mu p) (a22 (mq2 p)) (a22 (mu2 p)) (a22 (Au p))
           (fill_fermion (Mt p) (h_svd E (Yu p)) (vu p)) (fill_MW p) (fill_MZ p)) = Ok (mt, st, tt) /\
      fill_doublet E (MSb p) (snd (calc_theta (theta_b p) (s2b p))) (fst (calc_theta (theta_b p) (s2b p)))
        (sbottomMatrix (vu p) (vd p) (mu p) (a22 (mq2 p)) (a22 (md2 p)) (a22 (Ad p))
           (fill_fermion (Mb p) (h_svd E (Yd p)) (vd p)) (fill_MW p) (fill_MZ p)) = Ok (mb, sb, tb) /\
      fill_doublet E (MStau p) (snd (calc_theta (theta_tau p) (s2tau p))) (fst (calc_theta (theta_tau p) (s2tau p)))
        (stauMatrix (vu p) (vd p) (mu p) (a22 (ml2 p)) (a22 (me2 p)) (a22 (Ae p))
           (fill_fermion (Mtau p) (h_svd E (Ye p)) (vd p)) (fill_MW p) (fill_MZ p)) = Ok (ml, sl, tl) /\
      p' = mkParams (scale p) (mu p) (g1 p) (g2 p) (g3 p) (vd p) (vu p)
              (shift_mq2 (mq2 p) (mu2 p)) (md2 p) (mu2 p) (ml2 p) (me2 p)
              (Au p) (Ad p) (Ae p) (h_svd E (Yu p)) (h_svd E (Yd p)) (h_svd E (Ye p))
              (M1 p) (M2 p) (nabs (MG p)) (fill_MW p) (fill_MZ p)
              (fill_fermion (Mt p) (h_svd E (Yu p)) (vu p)) (fill_fermion (Mb p) (h_svd E (Yd p)) (vd p))
              (fill_fermion (Mtau p) (h_svd E (Ye p)) (vd p)) (MA p)
              (shift_MSt (fst (fst (sort_ev mt tt st)))) (shift_MSb (fst (fst (sort_ev mb tb sb))))
              (fst (fst (sort_ev ml tl sl)))
              (snd (sort_ev mt tt st)) (snd (sort_ev mb tb sb)) (snd (sort_ev ml tl sl))
              (snd (fst (sort_ev mt tt st))) (snd (fst (sort_ev mb tb sb))) (snd (fst (sort_ev ml tl sl)))
              (massLimit3LThreshold p).
  Proof.
    unfold validate. intros H.
    destruct (soft_masses_negative p); [discriminate|].
    destruct (nltb (MG p) (nint 0)); [discriminate|].
    destruct (nisnan (vu p) || nleb (vu p) (nint 0))%bool; [discriminate|].
    destruct (nisnan (vd p) || nleb (vd p) (nint 0))%bool; [discriminate|].
    do 4 (split; [reflexivity|]).
    destruct (calc_theta (theta_t p) (s2t p)) as [tt st]. destruct (calc_theta (theta_b p) (s2b p)) as [tb sb].
    destruct (calc_theta (theta_tau p) (s2tau p)) as [tl sl].
    cbn [fst snd].
    destruct (fill_doublet E (MSt p) st tt _) as [[[mt' st'] tt']|]; [|discriminate].
    cbn [bind] in H.
    destruct (fill_doublet E (MSb p) sb tb _) as [[[mb' sb'] tb']|]; [|discriminate].
    cbn [bind] in H.
    destruct (fill_doublet E (MStau p) sl tl _) as [[[ml' sl'] tl']|]; [|discriminate].
    cbn [bind] in H.
    exists mt', st', tt', mb', sb', tb', ml', sl', tl'. do 3 (split; [reflexivity|]).
    destruct (sort_ev mt' tt' st') as [[? ?] ?]. destruct (sort_ev mb' tb' sb') as [[? ?] ?].
    destruct (sort_ev ml' tl' sl') as [[? ?] ?]. injection H as <-. reflexivity.
  Qed.

  (** C07, frame part: for every number type *)
  Lemma validate_frame (E : EigenLib T) (p p' : Params T) : validate E p = Ok p' ->
    scale p' = scale p /\ mu p' = mu p /\ g1 p' = g1 p /\ g2 p' = g2 p /\ g3 p' = g3 p /\
    vd p' = vd p /\ vu p' = vu p /\ md2 p' = md2 p /\ mu2 p' = mu2 p /\ ml2 p' = ml2 p /\
    me2 p' = me2 p /\ Au p' = Au p /\ Ad p' = Ad p /\ Ae p' = Ae p /\ M1 p' = M1 p /\ M2 p' = M2 p /\
    MA p' = MA p /\ massLimit3LThreshold p' = massLimit3LThreshold p /\ MG p' = nabs (MG p) /\
    (nisnan (MW p) = false -> MW p' = MW p) /\ (nisnan (MZ p) = false -> MZ p' = MZ p) /\
    (nisnan (Mt p) = false -> Mt p' = Mt p) /\ (nisnan (Mb p) = false -> Mb p' = Mb p) /\
    (nisnan (Mtau p) = false -> Mtau p' = Mtau p) /\
    (nltb (nabs (nsub (a22 (mq2 p)) (a22 (mu2 p)))) (ndec 1 8) = false -> mq2 p' = mq2 p).
  Proof.
    intros H. apply validate_inv in H. destruct H as (_ & _ & _ & _ & x1 & x2 & x3 & x4 & x5 & x6 & x7 & x8 & x9 & _ & _ & _ & ->).
    cbn. repeat (split; [reflexivity|]).
    unfold fill_MW, fill_MZ, fill_fermion, shift_mq2, eps8.
    repeat split; intros ->; reflexivity.
  Qed.
End Inv.

(** ** Doublets in the partial reading *)
Definition eps : R := / 100000000.

Lemma sort_P a b t s :
  sort_ev (T := PR) (mkV2 (Some a) (Some b)) (Some t) (Some s) =
  (if Rlt_dec b a then (mkV2 (Some b) (Some a), Some (t + PI / 2), Some (- s))
   else (mkV2 (Some a) (Some b), Some t, Some s)) :> vec2 PR * PR * PR.
Proof.
  unfold sort_ev, half. cbn [v0 v1]. unP. cbn [pcmp]. unfold Rltb.
  destruct (Rlt_dec b a); [|reflexivity]. cbn [p2 p1 option_map]. rewrite Rdec_51. cbn [Rconst].
  f_equal; [f_equal|]; f_equal; field.
Qed.

(** the doublet that must come out: ordered, the lower mass pulled down if degenerate *)
Definition lower_mass (lo hi : R) : R := if Rlt_dec (hi - lo) eps then hi / (1 + eps) else lo.

Lemma shift_MSt_P a b : a <= b ->
  shift_MSt (T := PR) (mkV2 (Some a) (Some b)) = mkV2 (Some (lower_mass a b)) (Some b) :> vec2 PR.
Proof.
  intros H. unfold shift_MSt, eps8, lower_mass. cbn [v0 v1]. unP. cbn [p1 p2 option_map pcmp].
  rewrite Rdec_18. fold eps. rewrite Rabs_left1 by lra. replace (- (a - b)) with (b - a) by ring.
  unfold Rltb. destruct (Rlt_dec (b - a) eps); [|reflexivity].
  rewrite pdiv_some by (unfold eps; lra). reflexivity.
Qed.

Lemma sorted_P a b t s :
  shift_MSt (fst (fst (sort_ev (T := PR) (mkV2 (Some a) (Some b)) (Some t) (Some s))))
  = mkV2 (Some (lower_mass (Rmin a b) (Rmax a b))) (Some (Rmax a b)) :> vec2 PR.
Proof.
  rewrite sort_P. unfold Rmin, Rmax. destruct (Rlt_dec b a), (Rle_dec a b); try lra; cbn [fst].
  - apply shift_MSt_P. lra.
  - apply shift_MSt_P. lra.
Qed.
Lemma sorted_P' a b t s :
  (fst (fst (sort_ev (T := PR) (mkV2 (Some a) (Some b)) (Some t) (Some s))))
  = mkV2 (Some (Rmin a b)) (Some (Rmax a b)) :> vec2 PR.
Proof.
  rewrite sort_P. unfold Rmin, Rmax. destruct (Rlt_dec b a), (Rle_dec a b); try lra; reflexivity.
Qed.

(** MSb: the lower mass itself is divided *)
Definition lower_mass_b (lo hi : R) : R := if Rlt_dec (hi - lo) eps then lo / (1 + eps) else lo.
Lemma shift_MSb_P a b : a <= b ->
  shift_MSb (T := PR) (mkV2 (Some a) (Some b)) = mkV2 (Some (lower_mass_b a b)) (Some b) :> vec2 PR.
Proof.
  intros H. unfold shift_MSb, eps8, lower_mass_b. cbn [v0 v1]. unP. cbn [p1 p2 option_map pcmp].
  rewrite Rdec_18. fold eps. rewrite Rabs_left1 by lra. replace (- (a - b)) with (b - a) by ring.
  unfold Rltb. destruct (Rlt_dec (b - a) eps); [|reflexivity].
  rewrite pdiv_some by (unfold eps; lra). reflexivity.
Qed.

(** C07 *)
Lemma validate_values E ER r o p' u d : lifts E ER -> ovu o = Some u -> ovd o = Some d ->
  validate E (point r o) = Ok p' ->
  MW p' = Some (mW_of r o u d) /\ MZ p' = Some (mZ_of r o u d) /\ Mt p' = Some (mt_of ER r o u) /\
  Mb p' = Some (mb_of ER r o d) /\ Mtau p' = Some (mtau_of ER r o d).
Proof.
  intros HL Eu Ed H. apply validate_inv in H.
  destruct H as (_ & _ & Hu & Hd & x1 & x2 & x3 & x4 & x5 & x6 & x7 & x8 & x9 & _ & _ & _ & ->).
  cbn [MW MZ Mt Mb Mtau].
  change (vu (point r o)) with (ovu o) in *. change (vd (point r o)) with (ovd o) in *.
  rewrite Eu in *. rewrite Ed in *.
  assert (Pu : 0 < u). { destruct (Rlt_dec 0 u); [assumption|]. exfalso.
    assert (Hb : bad_vev (Some u)) by (cbn; lra). apply bad_vev_P in Hb. congruence. }
  assert (Pd : 0 < d). { destruct (Rlt_dec 0 d); [assumption|]. exfalso.
    assert (Hb : bad_vev (Some d)) by (cbn; lra). apply bad_vev_P in Hb. congruence. }
  rewrite (fill_MW_P r o u d Pu Pd Eu Ed), (fill_MZ_P r o u d Pu Pd Eu Ed).
  change (Mt (point r o)) with (oMt o). change (Mb (point r o)) with (oMb o). change (Mtau (point r o)) with (oMtau o).
  change (Yu (point r o)) with (someM3 (Yu r)). change (Yd (point r o)) with (someM3 (Yd r)).
  change (Ye (point r o)) with (someM3 (Ye r)). rewrite !(fill_fermion_P E ER _ _ _ HL). auto.
Qed.

Lemma validate_doublets E r o p' : validate E (point r o) = Ok p' ->
  (forall a b s t, oMSt o = mkV2 (Some a) (Some b) -> mixing (os2t o) (oth_t o) = Some (s, t) ->
     MSt p' = mkV2 (Some (lower_mass (Rmin a b) (Rmax a b))) (Some (Rmax a b)) /\
     s2t p' = Some (if Rlt_dec b a then - s else s) /\
     theta_t p' = Some (if Rlt_dec b a then t + PI / 2 else t)) /\
  (forall a b s t, oMSb o = mkV2 (Some a) (Some b) -> mixing (os2b o) (oth_b o) = Some (s, t) ->
     MSb p' = mkV2 (Some (lower_mass_b (Rmin a b) (Rmax a b))) (Some (Rmax a b)) /\
     s2b p' = Some (if Rlt_dec b a then - s else s) /\
     theta_b p' = Some (if Rlt_dec b a then t + PI / 2 else t)) /\
  (forall a b s t, oMStau o = mkV2 (Some a) (Some b) -> mixing (os2tau o) (oth_tau o) = Some (s, t) ->
     MStau p' = mkV2 (Some (Rmin a b)) (Some (Rmax a b)) /\
     s2tau p' = Some (if Rlt_dec b a then - s else s) /\
     theta_tau p' = Some (if Rlt_dec b a then t + PI / 2 else t)).
Proof.
  intros H. apply validate_inv in H.
  destruct H as (_ & _ & _ & _ & mt & st & tt & mb & sb & tb & ml & sl & tl & Ht & Hb & Hl & ->).
  cbn [MSt MSb MStau s2t s2b s2tau theta_t theta_b theta_tau].
  repeat split.
  all: match goal with
       | Em : mixing (os2t _) _ = _, Ea : oMSt _ = _ |- _ =>
           unfold point in Ht; cbn [MSt theta_t s2t] in Ht;
           rewrite (fill_doublet_complete E _ _ _ _ _ _ _ _ Ea Em) in Ht; injection Ht as <- <- <-;
           rewrite Ea
       | Em : mixing (os2b _) _ = _, Ea : oMSb _ = _ |- _ =>
           unfold point in Hb; cbn [MSb theta_b s2b] in Hb;
           rewrite (fill_doublet_complete E _ _ _ _ _ _ _ _ Ea Em) in Hb; injection Hb as <- <- <-;
           rewrite Ea
       | Em : mixing (os2tau _) _ = _, Ea : oMStau _ = _ |- _ =>
           unfold point in Hl; cbn [MStau theta_tau s2tau] in Hl;
           rewrite (fill_doublet_complete E _ _ _ _ _ _ _ _ Ea Em) in Hl; injection Hl as <- <- <-;
           rewrite Ea
       end.
  all: rewrite ?sorted_P; try reflexivity.
  all: try (rewrite sorted_P'; first [reflexivity | apply shift_MSb_P; apply Rle_trans with a; [apply Rmin_l|apply Rmax_l]]).
  all: rewrite sort_P; destruct (Rlt_dec b a); reflexivity.
Qed.

(** C08 *)
Lemma sort_sorted (m : vec2 PR) t s a b :
  fst (fst (sort_ev m t s)) = mkV2 (Some a) (Some b) -> a <= b.
Proof.
  unfold sort_ev. unP. destruct (pcmp Rltb (v1 m) (v0 m)) eqn:E; cbn [fst]; intros H.
  - injection H as H1 H0. rewrite H1, H0 in E. cbn in E. destruct (Rltb_spec a b); [lra|discriminate].
  - rewrite H in E. cbn in E. destruct (Rltb_spec b a); [discriminate|lra].
Qed.
Lemma shift_MSt_inv (m : vec2 PR) a b : shift_MSt m = mkV2 (Some a) (Some b) ->
  (exists a0, m = mkV2 (Some a0) (Some b) /\ Rabs (a0 - b) < eps /\ a = b / (1 + eps)) \/
  (m = mkV2 (Some a) (Some b) /\ eps <= Rabs (a - b)).
Proof.
  unfold shift_MSt, eps8. unP. destruct m as [[x|] [y|]]; cbn [v0 v1 p2 p1 option_map pcmp]; try discriminate.
  rewrite Rdec_18. fold eps. destruct (Rltb_spec (Rabs (x - y)) eps).
  - cbn [p2]. rewrite pdiv_some by (unfold eps; lra). intros H1. injection H1 as <- <-. left; eauto.
  - intros H1. injection H1 as <- <-. right; auto.
Qed.
Lemma shift_MSb_inv (m : vec2 PR) a b : shift_MSb m = mkV2 (Some a) (Some b) ->
  (exists a0, m = mkV2 (Some a0) (Some b) /\ Rabs (a0 - b) < eps /\ a = a0 / (1 + eps)) \/
  (m = mkV2 (Some a) (Some b) /\ eps <= Rabs (a - b)).
Proof.
  unfold shift_MSb, eps8. unP. destruct m as [[x|] [y|]]; cbn [v0 v1 p2 p1 option_map pcmp]; try discriminate.
  rewrite Rdec_18. fold eps. destruct (Rltb_spec (Rabs (x - y)) eps).
  - cbn [p2]. rewrite pdiv_some by (unfold eps; lra). intros H1. injection H1 as <- <-. left; eauto.
  - intros H1. injection H1 as <- <-. right; auto.
Qed.
Lemma eps_pos : 0 < eps. Proof. unfold eps; lra. Qed.
Lemma div_eps x : x / (1 + eps) * (1 + eps) = x.
Proof. field. pose proof eps_pos; lra. Qed.

Lemma validate_ordered E (p p' : Params PR) : validate E p = Ok p' ->
  (forall a b, MSt p' = mkV2 (Some a) (Some b) -> 0 <= b -> a <= b /\ (0 < b -> a < b)) /\
  (forall a b, MSb p' = mkV2 (Some a) (Some b) -> 0 <= b -> a <= b /\ (0 < b -> a < b)) /\
  (forall a b, MStau p' = mkV2 (Some a) (Some b) -> a <= b).
Proof.
  intros H. apply validate_inv in H.
  destruct H as (_ & _ & _ & _ & mt & st & tt & mb & sb & tb & ml & sl & tl & _ & _ & _ & ->).
  cbn [MSt MSb MStau]. pose proof eps_pos as He.
  split; [|split]; intros a b Hm.
  - intros Hb0. apply shift_MSt_inv in Hm. destruct Hm as [(a0 & Hm & Hab & ->)|(Hm & Hab)].
    + pose proof (div_eps b). split; [|intros Hb1]; nra.
    + apply sort_sorted in Hm. split; [exact Hm|]. intros _.
      destruct (Req_dec a b) as [->|]; [|lra]. rewrite Rminus_diag_eq, Rabs_R0 in Hab by reflexivity. lra.
  - intros Hb0. apply shift_MSb_inv in Hm. destruct Hm as [(a0 & Hm & Hab & ->)|(Hm & Hab)].
    + apply sort_sorted in Hm. pose proof (div_eps a0). set (q := a0 / (1 + eps)) in *. clearbody q.
      destruct (Rle_dec q 0); split; [|intros Hb1| |intros Hb1]; nra.
    + apply sort_sorted in Hm. split; [exact Hm|]. intros _.
      destruct (Req_dec a b) as [->|]; [|lra]. rewrite Rminus_diag_eq, Rabs_R0 in Hab by reflexivity. lra.
  - apply sort_sorted in Hm. exact Hm.
Qed.

(** C09 *)
Lemma sort_preserves (m : vec2 R) (t s : R) :
  let '(m', t', s') := sort_ev m t s in
  mass_matrix m' t' = mass_matrix m t /\ (s = sin (2 * t) -> s' = sin (2 * t')) /\ v0 m' <= v1 m'.
Proof.
  unfold sort_ev, half. unR. rewrite Rdec_51. cbn [Rconst].
  destruct (Rltb_spec (v1 m) (v0 m)) as [H|H]; [|auto].
  replace (/ 2 * PI) with (PI / 2) by field.
  split; [|split].
  - unfold mass_matrix. cbn [v0 v1]. rewrite cos_plus, sin_plus, cos_PI2, sin_PI2.
    f_equal; ring.
  - intros ->. replace (2 * (t + PI / 2)) with (2 * t + PI) by field. rewrite neg_sin. ring.
  - cbn [v0 v1]. lra.
Qed.

(** C10 *)
Definition all_given (p : Params PR) : Prop :=
  nisnan (MW p) = false /\ nisnan (MZ p) = false /\ nisnan (Mt p) = false /\ nisnan (Mb p) = false /\
  nisnan (Mtau p) = false /\ (exists v, MSt p = someV v) /\ (exists v, MSb p = someV v) /\
  (exists v, MStau p = someV v) /\
  nisnan (s2t p) = false /\ nisnan (s2b p) = false /\ nisnan (s2tau p) = false /\
  nisnan (theta_t p) = false /\ nisnan (theta_b p) = false /\ nisnan (theta_tau p) = false.
(** the SVD of a diagonal matrix of non-negative increasing entries returns these entries *)
Definition sv3_diag_ok (E : EigenLib PR) : Prop :=
  forall M, h_svd E (h_svd E M) = h_svd E M.

Lemma calc_theta_given (t s : PR) : nisnan t = false -> nisnan s = false -> calc_theta t s = (t, s).
Proof. unfold calc_theta. intros -> ->. reflexivity. Qed.
Lemma fill_given (E : EigenLib PR) m s t M : (exists v, m = someV v) -> nisnan s = false -> nisnan t = false ->
  fill_doublet E m s t M = Ok (m, s, t).
Proof. intros [v ->] Hs Ht. unfold fill_doublet. rewrite Hs, Ht. reflexivity. Qed.
Lemma sort_id (m : vec2 PR) t s a b : m = mkV2 (Some a) (Some b) -> a <= b -> sort_ev m t s = (m, t, s).
Proof. intros -> H. unfold sort_ev. unP. cbn [v0 v1 pcmp]. rewrite Rltb_false by lra. reflexivity. Qed.


Lemma shift_MSt_idem (m : vec2 PR) a b : shift_MSt m = mkV2 (Some a) (Some b) -> shift_MSt (shift_MSt m) = shift_MSt m.
Proof.
  intros H. rewrite H. apply shift_MSt_inv in H. unfold shift_MSt, eps8. cbn [v0 v1]. unP.
  cbn [p2 p1 option_map pcmp]. rewrite Rdec_18. fold eps. destruct H as [(a0 & _ & _ & ->)|(_ & H)].
  - rewrite pdiv_some by (unfold eps; lra). destruct (Rltb _ _); reflexivity.
  - rewrite Rltb_false by assumption. reflexivity.
Qed.
Lemma shift_mq2_idem (q u : mat3 PR) x : a22 u = Some x -> shift_mq2 (shift_mq2 q u) u = shift_mq2 q u.
Proof.
  intros Hx. unfold shift_mq2.
  destruct (nltb (nabs (nsub (a22 q) (a22 u))) eps8) eqn:E.
  - cbn [a22 mat3_set22]. match goal with |- context[if ?c then _ else _] => destruct c end; reflexivity.
  - rewrite E. reflexivity.
Qed.

Lemma validate_idem E r o p' : sv3_diag_ok E -> validate E (point r o) = Ok p' -> all_given p' ->
  (forall a b, MSt p' = mkV2 (Some a) (Some b) -> 0 <= b) ->
  (forall a b, MSb p' = mkV2 (Some a) (Some b) -> 1 + 2 * eps <= b \/ eps <= b - a /\ 0 <= b) ->
  validate E p' = Ok p'.
Proof.
  intros HS H Hg Hpt Hpb.
  pose proof (validate_ordered E _ p' H) as (Ot & Ob & Ol).
  pose proof (validate_inv E _ p' H) as Hi.
  destruct Hg as (GW & GZ & Gt & Gb & Gl & Gmt & Gmb & Gml & Gst & Gsb & Gsl & Gtt & Gtb & Gtl).
  destruct Hi as (Hsoft & HMG & Hvu & Hvd & mt & st & tt & mb & sb & tb & ml & sl & tl & _ & _ & _ & E').
  (* soft masses *)
  assert (Hsoft' : soft_masses_negative p' = false).
  { assert (Hn : ~ negative_entry (mq2 r) /\ ~ negative_entry (mu2 r)).
    { rewrite <- not_true_iff_false in Hsoft. rewrite soft_neg_P in Hsoft. tauto. }
    destruct Hn as [Hq Hu].
    unfold soft_masses_negative in *.
    rewrite !orb_false_iff in *. destruct Hsoft as ((((H1 & H2) & H3) & H4) & H5).
    rewrite E'. cbn [mq2 md2 mu2 ml2 me2]. repeat split; try assumption.
    unfold shift_mq2.
    destruct (nltb (nabs (nsub (a22 (mq2 (point r o))) (a22 (mu2 (point r o))))) eps8) eqn:Es; [|assumption].
    change (a22 (mu2 (point r o))) with (Some (a22 (mu2 r)) : PR).
    unfold eps8. unP. cbn [p2]. rewrite Rdec_18. fold eps. rewrite pdiv_some by (unfold eps; lra).
    set (y := a22 (mu2 r) / (1 + eps)) in *.
    assert (Hy : 0 <= y).
    { assert (0 <= a22 (mu2 r)).
      { destruct (Rle_dec 0 (a22 (mu2 r))); [assumption|]. exfalso. apply Hu. exists (a22 (mu2 r)).
        cbn. split; [auto 10|lra]. }
      unfold y. apply Rmult_le_pos; [assumption|]. left. apply Rinv_0_lt_compat. unfold eps; lra. }
    clearbody y. change (mat3_set22 (mq2 (point r o)) (Some y)) with (someM3 (mat3_set22 (mq2 r) y)).
    rewrite <- not_true_iff_false. pose proof (mat3_min_neg (mat3_set22 (mq2 r) y)) as Hm. unP.
    rewrite Hm. intros [z [Hz Hz0]]. apply Hq.
    cbn in Hz. repeat (destruct Hz as [Hz|Hz]; [first [exfalso; lra | exists z; split; [rewrite <- Hz; cbn; tauto|exact Hz0]]|]). destruct Hz. }
  (* doublets are unchanged by sorting and shifting *)
  assert (St : sort_ev (MSt p') (theta_t p') (s2t p') = (MSt p', theta_t p', s2t p') /\ shift_MSt (MSt p') = MSt p').
  { destruct Gmt as [v Ev]. unfold someV in Ev. split.
    - apply sort_id with (a := v0 v) (b := v1 v); [exact Ev|]. apply (Ot _ _ Ev). apply (Hpt _ _ Ev).
    - rewrite E' in Ev |- *. cbn [MSt] in Ev |- *. eapply shift_MSt_idem; exact Ev. }
  assert (Sb : sort_ev (MSb p') (theta_b p') (s2b p') = (MSb p', theta_b p', s2b p') /\ shift_MSb (MSb p') = MSb p').
  { destruct Gmb as [v Ev]. unfold someV in Ev.
    assert (Hb0 : 0 <= v1 v) by (destruct (Hpb _ _ Ev); [unfold eps in *; lra|tauto]).
    pose proof (Ob _ _ Ev Hb0) as [Hle _]. split.
    - apply sort_id with (a := v0 v) (b := v1 v); [exact Ev|exact Hle].
    - rewrite Ev. rewrite shift_MSb_P by exact Hle. f_equal. f_equal. unfold lower_mass_b.
      destruct (Rlt_dec (v1 v - v0 v) eps) as [Hd|]; [exfalso|reflexivity].
      destruct (Hpb _ _ Ev) as [Hb1|]; [|lra].
      pose proof Ev as Ev2. rewrite E' in Ev2. cbn [MSb] in Ev2. apply shift_MSb_inv in Ev2.
      destruct Ev2 as [(a0 & Hm & Hab & Ha)|(Hm & Hab)].
      + apply sort_sorted in Hm. rewrite Rabs_left1 in Hab by lra.
        pose proof (div_eps a0) as Hdiv. rewrite <- Ha in Hdiv. unfold eps in *. lra.
      + rewrite Rabs_left1 in Hab by lra. lra. }
  assert (Sl : sort_ev (MStau p') (theta_tau p') (s2tau p') = (MStau p', theta_tau p', s2tau p')).
  { destruct Gml as [v Ev]. unfold someV in Ev. apply sort_id with (a := v0 v) (b := v1 v); [exact Ev|].
    apply (Ol _ _ Ev). }
  unfold validate. rewrite Hsoft'.
  assert (F : MG p' = nabs (MG (point r o)) /\ vu p' = ovu o /\ vd p' = ovd o /\
     Yu p' = h_svd E (Yu (point r o)) /\ Yd p' = h_svd E (Yd (point r o)) /\ Ye p' = h_svd E (Ye (point r o)) /\
     mq2 p' = shift_mq2 (mq2 (point r o)) (mu2 (point r o)) /\ mu2 p' = mu2 (point r o)).
  { rewrite E'. cbn. tauto. }
  destruct F as (F1 & F2 & F3 & F4 & F5 & F6 & F7 & F8).
  assert (HG : nltb (MG p') (nint 0) = false /\ nabs (MG p') = MG p').
  { rewrite F1. change (MG (point r o)) with (Some (MG r) : PR). unP. cbn [p1 option_map pcmp].
    rewrite Rabs_Rabsolu. split; [apply Rltb_false; apply Rabs_pos|reflexivity]. }
  destruct HG as [HG1 HG2]. rewrite HG1, HG2.
  assert (Hvu' : (nisnan (vu p') || nleb (vu p') (nint 0))%bool = false) by (rewrite F2; exact Hvu).
  assert (Hvd' : (nisnan (vd p') || nleb (vd p') (nint 0))%bool = false) by (rewrite F3; exact Hvd).
  rewrite Hvu', Hvd'.
  rewrite F4, F5, F6, !HS, <- F4, <- F5, <- F6.
  unfold fill_MW, fill_MZ, fill_fermion. rewrite GW, GZ, Gt, Gb, Gl.
  rewrite !calc_theta_given by assumption.
  rewrite !fill_given by assumption. cbn [bind].
  destruct St as [St1 St2]. destruct Sb as [Sb1 Sb2]. rewrite St1, Sb1, Sl, St2, Sb2.
  assert (HQ : shift_mq2 (mq2 p') (mu2 p') = mq2 p').
  { rewrite F7, F8. apply (shift_mq2_idem _ _ (a22 (mu2 r))). reflexivity. }
  rewrite HQ. destruct p'; reflexivity.
Qed.

(** C11 *)
Lemma msq2_factors_R p : MZ p <> 0 -> msq2_factors p = product (ten_masses p).
Proof.
  intros Hz. unfold msq2_factors, ten_masses, product, calc_sw2, calc_cw2, calc_cos2beta, calc_v2, sw2_of, cos2b_of, pow2, half.
  unR. cbv beta iota. rewrite Rdec_51. destruct (Req_EM_T (MZ p) 0); [contradiction|]. cbn [fold_right].
  cbv zeta. replace ((MW p / MZ p) ^ 2) with (MW p / MZ p * (MW p / MZ p)) by ring.
  set (c := (vd p * vd p - vu p * vu p) / (vu p * vu p + vd p * vd p)).
  set (s := 1 - MW p / MZ p * (MW p / MZ p)).
  replace (/ 2) with (1 / 2) by lra. ring.
Qed.
Lemma product_pos l : (forall x, In x l -> 0 < x) -> 0 < product l.
Proof.
  induction l as [|a l IH]; cbn; intros H; [lra|]. apply Rmult_lt_0_compat; auto.
Qed.
Lemma product_bounds l lo hi : 0 < lo -> (forall x, In x l -> lo <= x <= hi) ->
  lo ^ List.length l <= product l <= hi ^ List.length l.
Proof.
  intros Hlo. induction l as [|a l IH]; cbn; intros H; [lra|].
  assert (Ha : lo <= a <= hi) by auto. assert (Hl : lo ^ List.length l <= product l <= hi ^ List.length l) by auto.
  assert (0 < lo ^ List.length l) by (apply pow_lt; lra). unfold product in Hl.
  split; apply Rmult_le_compat; lra.
Qed.
Lemma pow10_incr x y : 0 <= x -> 0 <= y -> x ^ 10 <= y ^ 10 -> x <= y.
Proof.
  intros Hx Hy H. destruct (Rle_dec x y) as [|Hn]; [assumption|exfalso].
  assert (y < x) by lra. assert (y ^ 10 < x ^ 10).
  { assert (y*y < x*x) by nra. assert (y^4 < x^4) by nra. assert (y^8<x^8).
    { replace (y^8) with (y^4*y^4) by ring. replace (x^8) with (x^4*x^4) by ring. assert (0 <= y^4) by (apply pow_le; lra). nra. }
    replace (y^10) with (y^8*(y*y)) by ring. replace (x^10) with (x^8*(x*x)) by ring.
    assert (0 <= y^8) by (apply pow_le; lra). nra. }
  lra.
Qed.
Lemma msq2_R p : MZ p <> 0 -> (forall x, In x (ten_masses p) -> 0 < x) ->
  0 < calculateMsq2 p /\ calculateMsq2 p ^ 10 = product (ten_masses p) /\
  (forall lo hi, 0 < lo -> (forall x, In x (ten_masses p) -> lo <= x <= hi) -> lo <= calculateMsq2 p <= hi).
Proof.
  intros Hz Hp. pose proof (product_pos _ Hp) as Hpp.
  unfold calculateMsq2. rewrite (msq2_factors_R p Hz). unR. rewrite Rdec_11.
  set (P := product (ten_masses p)) in *.
  assert (H0 : 0 < Rpower P (/ 10)) by (unfold Rpower; apply exp_pos).
  assert (H10 : Rpower P (/ 10) ^ 10 = P).
  { rewrite <- Rpower_pow by assumption. rewrite Rpower_mult.
    replace (/ 10 * INR 10) with 1 by (simpl; field). apply Rpower_1; assumption. }
  split; [assumption|]. split; [assumption|]. intros lo hi Hlo Hb.
  pose proof (product_bounds _ lo hi Hlo Hb) as Hbd. change (List.length (ten_masses p)) with 10%nat in Hbd. fold P in Hbd.
  assert (lo <= hi). { destruct (Hb (a00 (mq2 p))) as [? ?]; [left; reflexivity|lra]. }
  split; apply pow10_incr; try lra; rewrite H10; lra.
Qed.

(** C46: masses and mixing angle computed by the code describe the mass matrix *)
Lemma mass_matrix_of M ew ev th (l0 l1 : R) :
  eig_spec M ew ev -> v0 ew = l0 -> v1 ew = l1 ->
  forall m0 m1, m0 ^ 2 = l0 -> m1 ^ 2 = l1 ->
  cos th * cos th - sin th * sin th = m00 ev * m00 ev - m10 ev * m10 ev ->
  sin th * cos th = m00 ev * m10 ev ->
  mass_matrix (mkV2 m0 m1) th = M.
Proof.
  intros Hs E0 E1 x0 x1 H0 H1 Hc2 Hs2.
  destruct (eig_decomp M ew ev Hs) as (c & s & A & B & C & D & Hn & Ec & Es & _).
  rewrite Ec, Es in *. unfold mass_matrix. cbn [v0 v1]. rewrite H0, H1. rewrite E0, E1 in *.
  pose proof (sin2_cos2 th) as Hsc. unfold Rsqr in Hsc.
  assert (Hcc : cos th * cos th = c * c) by lra. assert (Hss : sin th * sin th = s * s) by lra.
  destruct M as [a b b' d]. cbn [m00 m01 m10 m11] in *. subst a b b' d.
  f_equal; try (rewrite Hs2; ring).
  - replace (cos th ^ 2) with (cos th * cos th) by ring. replace (sin th ^ 2) with (sin th * sin th) by ring.
    rewrite Hcc, Hss. ring.
  - replace (cos th ^ 2) with (cos th * cos th) by ring. replace (sin th ^ 2) with (sin th * sin th) by ring.
    rewrite Hcc, Hss. ring.
Qed.

(** Convention relied upon by the code: proper rotation iff M(0,0) < M(1,1). *)
Definition rotation_convention (M ev : mat2 R) : Prop :=
  m00 ev * m11 ev - m01 ev * m10 ev = if Rlt_dec (m00 M) (m11 M) then 1 else -1.

Lemma acos_abs_facts x y : x * x + y * y = 1 ->
  0 <= acos (Rabs x) /\ cos (acos (Rabs x)) = Rabs x /\ sin (acos (Rabs x)) = Rabs y.
Proof.
  intros H. assert (Hx : -1 <= Rabs x <= 1).
  { split; [pose proof (Rabs_pos x); lra|]. apply Rabs_le. nra. }
  split; [apply acos_bound|]. split; [apply cos_acos; exact Hx|].
  rewrite sin_acos by exact Hx.
  replace (1 - (Rabs x)²) with (y * y). 2:{ rewrite <- Rsqr_abs. unfold Rsqr. lra. }
  replace (y * y) with (Rsqr y) by reflexivity. apply sqrt_Rsqr_abs.
Qed.
Lemma sign_R x : sign x = if Rle_dec 0 x then 1%Z else (-1)%Z.
Proof. unfold sign. unR. unfold Rleb. destruct (Rle_dec 0 x); reflexivity. Qed.

Lemma MSf_correct E M ms s th : eig_ok E -> m01 M = m10 M -> m00 M <> m11 M ->
  rotation_convention M (snd (eig2 E M)) ->
  calculate_MSf_s2f E M = Ok (ms, s, th) ->
  mass_matrix ms th = M /\ s = sin (2 * th) /\ 0 <= v0 ms <= v1 ms.
Proof.
  intros HE HM Hne Hconv. pose proof (HE M HM) as Hs.
  destruct (eig_decomp _ _ _ Hs) as (c & s0 & A & B & C & D & Hn & Ec & Es & Hcol).
  pose proof (es_ord _ _ _ Hs) as Hord.
  unfold calculate_MSf_s2f. destruct (eig2 E M) as [ew ev]. cbn [fst snd] in *.
  unfold rotation_convention in Hconv.
  set (l0 := v0 ew) in *. set (l1 := v1 ew) in *.
  unfold vec2_min, stdmin. unR. fold l0 l1.
  rewrite (Rltb_false l1 l0) by lra.
  destruct (Rltb_spec l0 0) as [|Hl0]; [discriminate|].
  assert (Hl : l0 < l1).
  { destruct (Req_dec l0 l1) as [Heq|]; [|lra]. exfalso. apply Hne. rewrite A, B, Heq. ring. }
  assert (Hdiff : m00 M - m11 M = (c*c - s0*s0) * (l0 - l1)) by (rewrite A, B; ring).
  assert (Hcs : c*c - s0*s0 <> 0).
  { intros Hz. apply Hne. assert (m00 M - m11 M = 0) by (rewrite Hdiff, Hz; ring). lra. }
  assert (Hq : m01 M / (m00 M - m11 M) = c * s0 / (c*c - s0*s0)).
  { rewrite Hdiff, C. field. split; first [exact Hcs | lra]. }
  assert (Hsq0 : sqrt l0 ^ 2 = l0) by (apply pow2_sqrt; lra).
  assert (Hsq1 : sqrt l1 ^ 2 = l1) by (apply pow2_sqrt; lra).
  assert (Hsl : sqrt l0 < sqrt l1) by (apply sqrt_lt_1; lra).
  pose proof (sqrt_pos l0) as Hp0.
  rewrite Hq. rewrite !sign_R. rewrite Ec.
  pose proof (mass_matrix_of M ew ev) as MM.
  assert (Hsgn : forall k : Z, (k = 1 \/ k = -1)%Z -> forall t, cos (IZR k * t) = cos t /\ sin (IZR k * t) = IZR k * sin t).
  { intros k [->| ->] t.
    - rewrite !Rmult_1_l. auto.
    - replace (-1 * t) with (- t) by ring. rewrite cos_neg, sin_neg. split; ring. }
  destruct (Rlt_dec (m00 M) (m11 M)) as [Hlt|Hlt].
  - (* rotation *)
    destruct Hcol as [[E1 E2]|[E1 E2]]; [|exfalso; rewrite Ec, Es, E1, E2 in Hconv; nra].
    rewrite E2, E1. rewrite Z.eqb_refl.
    assert (Hpos : 0 < c*c - s0*s0) by nra.
    destruct (acos_abs_facts c s0 Hn) as (Ha0 & Hac & Has).
    rewrite (Rabs_right (acos (Rabs c))) by lra.
    set (k := if Rle_dec 0 (c * s0 / (c * c - s0 * s0)) then 1%Z else (-1)%Z).
    assert (Hk : (k = 1 \/ k = -1)%Z) by (unfold k; destruct (Rle_dec _ _); auto).
    destruct (Hsgn k Hk (acos (Rabs c))) as [HC HSn].
    unfold sort_ev. unR. cbn [v0 v1]. rewrite Rltb_false by lra.
    intros HOk. injection HOk as <- <- <-.
    split; [|split; [reflexivity|cbn [v0 v1]; lra]].
    apply (MM _ l0 l1 Hs eq_refl eq_refl); try assumption.
    + rewrite HC, HSn, Hac, Has, Ec, Es.
      assert (IZR k * IZR k = 1) by (destruct Hk as [->| ->]; lra).
      replace (IZR k * Rabs s0 * (IZR k * Rabs s0)) with (IZR k * IZR k * (Rabs s0 * Rabs s0)) by ring.
      rewrite H. rewrite <- !Rabs_mult, (Rabs_right (c*c)), (Rabs_right (s0*s0)) by nra. ring.
    + rewrite HC, HSn, Hac, Has, Ec, Es. unfold k.
      replace (IZR _ * Rabs s0 * Rabs c) with (IZR (if Rle_dec 0 (c * s0 / (c * c - s0 * s0)) then 1 else -1) * Rabs (c * s0)) by (rewrite Rabs_mult; ring).
      assert (Hd : c * s0 / (c*c-s0*s0) * (c*c - s0*s0) = c * s0) by (field; assumption).
      destruct (Rle_dec 0 (c * s0 / (c * c - s0 * s0))) as [Hle|Hle].
      * rewrite Rabs_right by nra. ring.
      * rewrite Rabs_left by nra. ring.
  - (* reflection *)
    assert (Hgt : m11 M < m00 M) by lra.
    destruct Hcol as [[E1 E2]|[E1 E2]]; [exfalso; rewrite Ec, Es, E1, E2 in Hconv; nra|].
    rewrite E2, E1.
    assert (Hneg : c*c - s0*s0 < 0) by nra.
    assert (Hd : c * s0 / (c*c-s0*s0) * (c*c - s0*s0) = c * s0) by (field; assumption).
    set (k := if Rle_dec 0 (c * s0 / (c * c - s0 * s0)) then 1%Z else (-1)%Z).
    assert (Hk : (k = 1 \/ k = -1)%Z) by (unfold k; destruct (Rle_dec _ _); auto).
    destruct (Req_dec c 0) as [Hc0|Hc0].
    + (* c = 0: both signs count as positive *)
      assert (Hsg : ((if Rle_dec 0 c then 1 else -1) =? (if Rle_dec 0 (- c) then 1 else -1))%Z = true).
      { destruct (Rle_dec 0 c), (Rle_dec 0 (- c)); try lra; reflexivity. }
      rewrite Hsg. unfold k. rewrite Hc0. rewrite Rabs_R0, acos_0.
      rewrite (Rabs_right (PI / 2)) by (pose proof PI_RGT_0; lra).
      replace (0 * s0 / (0 * 0 - s0 * s0)) with 0 by (unfold Rdiv; ring).
      destruct (Rle_dec 0 0) as [_|]; [|lra]. rewrite Rmult_1_l.
      unfold sort_ev. unR. cbn [v0 v1]. rewrite Rltb_false by lra.
      intros HOk. injection HOk as <- <- <-.
      split; [|split; [reflexivity|cbn [v0 v1]; lra]].
      apply (MM _ l0 l1 Hs eq_refl eq_refl); try assumption; rewrite cos_PI2, sin_PI2, Ec, Es, Hc0; [|ring].
      rewrite Hc0 in Hn. lra.
    + assert (Hsg : ((if Rle_dec 0 c then 1 else -1) =? (if Rle_dec 0 (- c) then 1 else -1))%Z = false).
      { destruct (Rle_dec 0 c), (Rle_dec 0 (- c)); try lra; reflexivity. }
      rewrite Hsg.
      destruct (acos_abs_facts s0 c) as (Ha0 & Hac & Has); [lra|].
      rewrite (Rabs_right (acos (Rabs s0))) by lra.
      destruct (Hsgn k Hk (acos (Rabs s0))) as [HC HSn].
      unfold sort_ev, half. unR. cbn [v0 v1]. rewrite Rltb_true by lra. rewrite Rdec_51. cbn [Rconst].
      replace (/ 2 * PI) with (PI / 2) by field.
      intros HOk. injection HOk as <- <- <-.
      split; [|split; [reflexivity|cbn [v0 v1]; lra]].
      apply (MM _ l0 l1 Hs eq_refl eq_refl); try assumption;
        rewrite cos_plus, sin_plus, cos_PI2, sin_PI2, HC, HSn, Hac, Has, Ec, Es.
      * assert (IZR k * IZR k = 1) by (destruct Hk as [->| ->]; lra).
        replace (_ - _) with (IZR k * IZR k * (Rabs c * Rabs c) - Rabs s0 * Rabs s0) by ring.
        rewrite H. rewrite <- !Rabs_mult, (Rabs_right (c*c)), (Rabs_right (s0*s0)) by nra. ring.
      * replace (_ * _) with (- (IZR k * Rabs (c * s0))) by (rewrite Rabs_mult; ring).
        unfold k. destruct (Rle_dec 0 (c * s0 / (c * c - s0 * s0))) as [Hle|Hle].
        -- rewrite Rabs_left1 by nra. ring.
        -- rewrite Rabs_right by nra. ring.
Qed.
