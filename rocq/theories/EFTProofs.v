From Coq Require Import Reals ZArith Bool List Lra Lia.
From Verif Require Import Num NumFacts Except Params HierFormulas PV Thresh ThreshTwo Threshold ThreshProofs Mh2EFT EFTForm ThreshSpec EFTSpec.
Import ListNotations.
Open Scope R_scope.

Lemma discard_some (x : PR) : exists r : R, discardNaN x = (Some r : PR).
Proof. unfold discardNaN. destruct x as [r|]; unP; cbn; [exists r | exists 0]; reflexivity. Qed.
Lemma w_some (b : bool) (d : R) : (if b then (Some d : PR) else nint 0) = Some (if b then d else 0).
Proof. destruct b; unP; reflexivity. Qed.
Lemma pdiv_some (a b : R) : b <> 0 -> pdiv (Some a) (Some b) = Some (a / b).
Proof. intros H. unfold pdiv, Reqb. destruct (Req_EM_T b 0); [contradiction|reflexivity]. Qed.
Lemma mul_if (b : bool) (c d : R) : c * (if b then d else 0) = if b then c * d else 0.
Proof. destruct b; ring. Qed.
Lemma if_negb {A} (b : bool) (x y : A) : (if negb b then x else y) = (if b then y else x).
Proof. destruct b; reflexivity. Qed.
Lemma mul_ifn (b : bool) (c d : R) : c * (if b then 0 else d) = if b then 0 else c * d.
Proof. destruct b; ring. Qed.

Ltac name_term d t :=
  let H := fresh "D" in
  destruct (discard_some t) as [d H].

Section Add.
  Variables (E : EigenLib PR) (p : Params PR) (tc : TC PR) (s m : Z).
  Hypotheses (HT : newTC E p false = Ok tc) (HL : known_limit (getLimit tc)) (HC : couplings_defined p).

  Definition contributions (f : EFT PR -> res PR) : Prop :=
    exists r : cord -> R, (forall k, f (mkEFT p (only k)) = Ok (Some (sum_enabled (only k) r)) /\
                           (In k all_orders -> sum_enabled (only k) r = r k)) /\
                          (forall o, f (mkEFT p o) = Ok (Some (sum_enabled o r))).
  Lemma sum_only r k : In k all_orders -> sum_enabled (only k) r = r k.
  Proof.
    unfold all_orders, sum_enabled, only, cord_eqb. intros H. cbn [In] in H.
    repeat destruct H as [<-|H]; try contradiction H; cbn [fold_right all_orders cord_index Z.eqb Pos.eqb]; ring.
  Qed.
  Lemma contributions_intro f (r : cord -> R) : (forall o, f (mkEFT p o) = Ok (Some (sum_enabled o r))) -> contributions f.
  Proof. intros H. exists r. split; [|exact H]. intros k. split; [apply H | apply sum_only]. Qed.

  Lemma some_of (t : PR) : (exists x, t = discardNaN x) -> exists d : R, t = (Some d : PR).
  Proof. intros [x ->]. apply discard_some. Qed.
  Ltac start :=
    destruct HC as (g1' & g2' & g3' & Mt' & Mb' & Mtau' & vu' & vd' & E1 & E2 & E3 & E4 & E5 & E6 & E7 & E8 & N7 & N8).
  Lemma one_loop_additive : contributions (fun c => getDeltaMh2EFT1Loop E c s m).
  Proof.
    start.
    destruct (some_of (dmh2g12g22 p tc s m)) as [d0 D0]; [eexists; reflexivity|].
    destruct (some_of (dmh2g14 p tc s m)) as [d1 D1]; [eexists; reflexivity|].
    destruct (some_of (dmh2g24 p tc s m)) as [d2 D2]; [eexists; reflexivity|].
    destruct (some_of (dmh2g12yb2 p tc s m)) as [d3 D3]; [eexists; reflexivity|].
    destruct (some_of (dmh2g22yb2 p tc s m)) as [d4 D4]; [eexists; reflexivity|].
    destruct (some_of (dmh2yb4 p tc s m)) as [d5 D5]; [eexists; reflexivity|].
    destruct (some_of (dmh2g12yt2 p tc s m)) as [d6 D6]; [eexists; reflexivity|].
    destruct (some_of (dmh2g22yt2 p tc s m)) as [d7 D7]; [eexists; reflexivity|].
    destruct (some_of (dmh2yt4 p tc s m)) as [d8 D8]; [eexists; reflexivity|].
    destruct (some_of (dmh2g12ytau2 p tc s m)) as [d9 D9]; [eexists; reflexivity|].
    destruct (some_of (dmh2g22ytau2 p tc s m)) as [d10 D10]; [eexists; reflexivity|].
    destruct (some_of (dmh2ytau4 p tc s m)) as [d11 D11]; [eexists; reflexivity|].
    pose (yt := sqrt 2 * Mt' / vu'). pose (yb := sqrt 2 * Mb' / vd'). pose (yl := sqrt 2 * Mtau' / vd').
    pose (k := 1 / (4 * PI * (4 * PI))).
    apply contributions_intro with (r := fun o => match o with
      | YT4 => d8 | G12G22 => k * ((g1' * g2') * (g1' * g2') * d0) | G14 => k * (g1' * g1' * (g1' * g1') * d1)
      | G24 => k * (g2' * g2' * (g2' * g2') * d2) | G12YB2 => k * ((g1' * yb) * (g1' * yb) * d3)
      | G22YB2 => k * ((g2' * yb) * (g2' * yb) * d4) | YB4 => k * (yb * yb * (yb * yb) * d5)
      | G12YT2 => k * ((g1' * yt) * (g1' * yt) * d6) | G22YT2 => k * ((g2' * yt) * (g2' * yt) * d7)
      | G12YTAU2 => k * ((g1' * yl) * (g1' * yl) * d9) | G22YTAU2 => k * ((g2' * yl) * (g2' * yl) * d10)
      | YTAU4 => k * (yl * yl * (yl * yl) * d11) | _ => 0 end).
    intros o. rewrite (one_form_eq E p o s m tc HT HL). f_equal. unfold one_form. cbv zeta.
    rewrite D0, D1, D2, D3, D4, D5, D6, D7, D8, D9, D10, D11, E1, E2, E4, E5, E6, E7, E8. rewrite !w_some.
    unfold pow4, pow2. unP. cbn [p2 Rconst]. rewrite !pdiv_some by assumption. cbn [p2]. f_equal.
    unfold sum_enabled, all_orders. cbn [fold_right]. rewrite !if_negb, !mul_ifn. fold yt yb yl k.
    rewrite !Rmult_plus_distr_l, !mul_ifn. 
    repeat match goal with |- context [(o ?K =? 0)%Z] => let b := fresh "b" in set (b := (o K =? 0)%Z) end.
    assert (Z0 : forall b : bool, (if b then 0 else 0) = 0) by (intros []; reflexivity). rewrite !Z0. ring.
  Qed.
  Lemma two_loop_additive : contributions (fun c => getDeltaMh2EFT2Loop E c s m).
  Proof.
    start.
    destruct (some_of (dmh2yt4g32 p tc s m)) as [d0 D0]; [eexists; reflexivity|].
    destruct (some_of (dmh2yb4g32 p tc s m)) as [d1 D1]; [eexists; reflexivity|].
    destruct (some_of (dmh2yb6 p tc s m)) as [d2 D2]; [eexists; reflexivity|].
    destruct (some_of (dmh2yt6 p tc s m)) as [d3 D3]; [eexists; reflexivity|].
    destruct (some_of (dmh2yb4ytau2 p tc s m)) as [d4 D4]; [eexists; reflexivity|].
    destruct (some_of (dmh2yb2ytau4 p tc s m)) as [d5 D5]; [eexists; reflexivity|].
    destruct (some_of (dmh2ytau6 p tc s m)) as [d6 D6]; [eexists; reflexivity|].
    destruct (some_of (dmh2yt2yb4 p tc s m)) as [d7 D7]; [eexists; reflexivity|].
    destruct (some_of (dmh2yt4yb2 p tc s m)) as [d8 D8]; [eexists; reflexivity|].
    pose (t2 := 2 * (Mt' / vu' * (Mt' / vu'))). pose (b2 := 2 * (Mb' / vd' * (Mb' / vd'))). pose (l2 := 2 * (Mtau' / vd' * (Mtau' / vd'))).
    pose (k := 1 / (4 * PI * (4 * PI) * (4 * PI * (4 * PI)))).
    apply contributions_intro with (r := fun o => match o with
      | G32YT4 => d0 | G32YB4 => k * (g3' * g3' * (b2 * b2) * d1) | YB6 => k * (b2 * b2 * b2 * d2) | YT6 => k * (t2 * t2 * t2 * d3)
      | YTAU2YB4 => k * (b2 * b2 * l2 * d4) | YTAU4YB2 => k * (b2 * (l2 * l2) * d5) | YTAU6 => k * (l2 * l2 * l2 * d6)
      | YT2YB4 => k * (t2 * (b2 * b2) * d7) | YB2YT4 => k * (t2 * t2 * b2 * d8) | _ => 0 end).
    intros o. rewrite (two_form_eq E p o s m tc HT HL). f_equal. unfold two_form. cbv zeta.
    rewrite D0, D1, D2, D3, D4, D5, D6, D7, D8, E3, E4, E5, E6, E7, E8. rewrite !w_some.
    unfold pow3, pow4, pow2. unP. cbn [p2 Rconst]. rewrite !pdiv_some by assumption. cbn [p2]. f_equal.
    unfold sum_enabled, all_orders. cbn [fold_right]. rewrite !if_negb, !mul_ifn. fold t2 b2 l2 k.
    rewrite !Rmult_plus_distr_l, !mul_ifn.
    repeat match goal with |- context [(o ?K =? 0)%Z] => let b := fresh "b" in set (b := (o K =? 0)%Z) end.
    assert (Z0 : forall b : bool, (if b then 0 else 0) = 0) by (intros []; reflexivity). rewrite !Z0. ring.
  Qed.
End Add.
