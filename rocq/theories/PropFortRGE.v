(** * Renormalisation-group consistency of the O(at as) correction to the Higgs mass matrix: property theorem C56 *)
From Coq Require Import Reals ZArith Bool List Lra Lia Psatz.
From Coquelicot Require Import Coquelicot.
From Verif Require Import Num NumFacts Except Linalg DSZ Fortran FOSpec FOProofs PropFO2 FortProofs FortRelabel FortRGE PropFort.
Open Scope R_scope.

(** ** Specification *)
(** the one-loop O(at) correction to the CP-even Higgs mass matrix in the basis (H_d, H_u), with the program's sign convention for mu:
    A_t = X_t - mu cot(beta), X_t = (m1^2 - m2^2) sin(2 theta) / (2 mt), and h_t = sqrt(2) mt / (v sin(beta)) *)
Definition one_loop (pi mt T1 T2 z mu tb v2 : R) : mat2 R :=
  let ht2 := 2 / v2 * (mt * mt) / (sin (atan tb) * sin (atan tb)) in
  let A := (T1 - T2) * z / 2 / mt - mu / tb in
  let F1 := ln T1 + ln T2 - 4 * ln mt in
  let F2 := ln T1 - ln T2 in
  let F3 := 2 - (T1 + T2) / (T1 - T2) * (ln T1 - ln T2) in
  let S11 := / 2 * (mu * mu) * (z * z) * F3 in
  let S12 := / 2 * mu * A * (z * z) * F3 + mt * mu * z * F2 in
  let S22 := / 2 * (A * A) * (z * z) * F3 + 2 * mt * A * z * F2 + 2 * (mt * mt) * F1 in
  let k := 3 / (16 * (pi * pi)) * ht2 in
  mkM2 (k * S11) (k * S12) (k * S12) (k * S22).

(** the one-loop O(at) correction to the CP-odd mass squared at the scale Q^2 = q *)
Definition one_loop_odd (pi mt T1 T2 z q mu tb v2 : R) : R :=
  let ht2 := 2 / v2 * (mt * mt) / (sin (atan tb) * sin (atan tb)) in
  let A := (T1 - T2) * z / 2 / mt - mu / tb in
  3 / (16 * (pi * pi)) * ht2 * mu * A / (sin (atan tb) * cos (atan tb)) *
  ((T1 * (1 - ln (T1 / q)) - T2 * (1 - ln (T2 / q))) / (T1 - T2)).
(** one- and two-loop O(at), O(at as) terms of the beta function of the Higgs mixing parameter b = m_A^2 sin(beta) cos(beta), divided by
    sin(beta) cos(beta), for the program's sign of mu: 3 ht^2 mu A_t / (16 pi^2) and 16 g3^2 ht^2 mu (A_t - m_gluino) / (16 pi^2)^2 *)
Definition beta_b (pi mt A mg gs mu tb v2 : R) : R :=
  let ht2 := 2 / v2 * (mt * mt) / (sin (atan tb) * sin (atan tb)) in
  (3 * ht2 * mu * A / (16 * (pi * pi)) + 16 * (gs * gs) * ht2 * mu * (A - mg) / (16 * (pi * pi)) ^ 2) / (sin (atan tb) * cos (atan tb)).

(** running stop parameters as functions of s = ln Q^2: T1, T2, th diagonalise the stop mass matrix with soft masses mQ2, mU2 and mixing Xt *)
Definition diagonalises (mt mQ2 mU2 Xt T1 T2 th : R -> R) : Prop := forall s,
  mQ2 s + mt s * mt s = cos (th s) * cos (th s) * T1 s + sin (th s) * sin (th s) * T2 s /\
  mU2 s + mt s * mt s = sin (th s) * sin (th s) * T1 s + cos (th s) * cos (th s) * T2 s /\
  mt s * Xt s = (T1 s - T2 s) * sin (th s) * cos (th s).
(** one-loop SUSY-QCD beta functions (DR-bar', C_F = 4/3) *)
Definition runs (kappa mg : R) (mt mQ2 mU2 Xt : R -> R) : Prop :=
  is_derive mt 0 (- 2 * kappa * mt 0) /\
  is_derive mQ2 0 (- 4 * kappa * (mg * mg)) /\
  is_derive mU2 0 (- 4 * kappa * (mg * mg)) /\
  is_derive Xt 0 (4 * kappa * mg).

(** ** Proof *)
Section Form.
  Variable fx : FExt R.
  Variables (t mg a b s c q mu tb v gs : R).
  Let z := 2 * c * s. Let c2 := pow2 c - pow2 s. Let mt := sqrt t.
  Let A := (a - b) * z / 2 / mt - mu / tb.
  Let ht := sqrt (2 / v) * mt / sin (atan tb).
  Let k := 4 * pow2 gs / pow2 (16 * pow2 (@pi_f R _)).
  Let F := f_strfuncs fx t mg a b z c2 q.
  Let G := f_strresfuncs fx t mg a b q.
  Hypothesis Hz : z <> 0.
  Lemma dszhiggs_form : f_dszhiggs fx t mg a b s c q mu tb v gs 0 =
    (k * (pow2 ht * (/ 2 * (mu * mu) * (z * z) * snd F)),
     k * (pow2 ht * (/ 2 * (A * A) * (z * z) * snd F + 2 * A * (mt * z * snd (fst F) + / 2 * (z * z) * snd G) + 2 * (mt * z * snd (fst G) + mt * mt * fst (fst F)))),
     k * (pow2 ht * (/ 2 * mu * A * (z * z) * snd F + mu * (mt * z * snd (fst F) + / 2 * (z * z) * snd G)))).
  Proof.
    unfold f_dszhiggs. cbv zeta. unR. change (2 * c * s) with z. change (pow2 c - pow2 s) with c2. change (sqrt t) with mt.
    change ((a - b) * z / 2 / mt - mu / tb) with A. change (sqrt (2 / v) * mt / sin (atan tb)) with ht.
    change (f_strfuncs fx t mg a b z c2 q) with F. change (4 * pow2 gs / pow2 (16 * pow2 pi_f)) with k.
    destruct F as [[f1 f2] f3] eqn:HF. destruct (f_strdfuncs _ _ _ _ _ _ _ _ _) as [[[[d1 d2] d3] d4] d5].
    replace (Reqb z 0) with false by (symmetry; apply Reqb_false; exact Hz). cbn [negb andb].
    replace (Rdec 5 1) with (/2) by (unfold Rdec; simpl; field).
    destruct (Reqb_spec A 0) as [HA|HA]; cbn [negb andb fst snd].
    - unfold G. unfold f_strresfuncs, f_strsfuncs. cbv zeta. cbn [fst snd]. unR. rewrite !HA.
      apply triple_eq; unfold pow2; unR; ring.
    - unfold G. unfold f_strresfuncs, f_strsfuncs. cbv zeta. cbn [fst snd]. unR.
      set (u1 := pow2 (ln (b / q))). set (u2 := pow2 (ln (a / q))). set (u3 := b * ln (b / q) - a * ln (a / q)).
      unfold Rdiv. set (w := / (a - b)).
      apply triple_eq; unfold pow2; unR; field; assumption.
  Qed.
End Form.

Ltac eta_derive := repeat match goal with |- context[Derive (fun x => ?f x) ?y] => change (Derive (fun x => f x) y) with (Derive f y) end.

Section C56.
  Variable fx : FExt R.
  Variables (mt mQ2 mU2 Xt T1 T2 th : R -> R) (mg q mu tb v gs : R).
  Let kappa := 4 / 3 * (gs * gs) / (16 * (@pi_f R _ * @pi_f R _)).
  Hypothesis Hdiag : diagonalises mt mQ2 mU2 Xt T1 T2 th.
  Hypothesis Hrun : runs kappa mg mt mQ2 mU2 Xt.
  Hypotheses (D1 : ex_derive T1 0) (D2 : ex_derive T2 0) (D3 : ex_derive th 0).
  Let m := mt 0. Let a := T1 0. Let b := T2 0.
  Hypotheses (Hm : 0 < m) (Ha : 0 < a) (Hb : 0 < b) (Hab : a <> b) (Hz : sin (2 * th 0) <> 0).
  Let z := sin (2 * th 0). Let c2 := cos (2 * th 0).
  Let dLR := - ((a - b) * z) + 4 * mg * m.
  Let da := - 4 * (mg * mg + m * m) + z * dLR.
  Let db := - 4 * (mg * mg + m * m) - z * dLR.
  Let dz := 2 * (1 - z * z) * dLR / (a - b).
  Lemma paths : is_derive T1 0 (kappa * da) /\ is_derive T2 0 (kappa * db) /\ is_derive (fun s => (sin (2 * th s) : R)) 0 (kappa * dz).
  Proof.
    destruct Hrun as (Rm & RQ & RU & RX). destruct D1 as [a' E1]. destruct D2 as [b' E2]. destruct D3 as [t' E3].
    assert (Hs1 : forall s, T1 s + T2 s = mQ2 s + mU2 s + 2 * (mt s * mt s)).
    { intros s. destruct (Hdiag s) as (X1 & X2 & _). assert (HH := sin2_cos2 (th s)). unfold Rsqr in HH.
      assert (mQ2 s + mt s * mt s + (mU2 s + mt s * mt s) = (sin (th s) * sin (th s) + cos (th s) * cos (th s)) * (T1 s + T2 s)) by (rewrite X1, X2; ring).
      rewrite HH in H. lra. }
    assert (Hs2 : forall s, (T1 s - T2 s) * cos (2 * th s) = mQ2 s - mU2 s).
    { intros s. destruct (Hdiag s) as (X1 & X2 & _). rewrite cos_2a. 
      replace (mQ2 s - mU2 s) with ((mQ2 s + mt s * mt s) - (mU2 s + mt s * mt s)) by ring. rewrite X1, X2. ring. }
    assert (Hs3 : forall s, (T1 s - T2 s) * sin (2 * th s) = 2 * (mt s * Xt s)).
    { intros s. destruct (Hdiag s) as (_ & _ & X3). rewrite sin_2a, X3. ring. }
    assert (G1 : a' + b' = - 8 * kappa * (mg * mg + m * m)).
    { assert (U1 : is_derive (fun s => (T1 s + T2 s : R)) 0 (a' + b')) by (apply (is_derive_plus (V := R_NormedModule)); assumption).
      assert (U2 : is_derive (fun s => (T1 s + T2 s : R)) 0 (- 4 * kappa * (mg * mg) + - 4 * kappa * (mg * mg) + 2 * (2 * m * (- 2 * kappa * m)))).
      { apply is_derive_ext with (fun s => (mQ2 s + mU2 s + 2 * (mt s * mt s) : R)); [intros s; symmetry; apply Hs1|].
        auto_derive. { repeat split; eexists; eassumption. }
        eta_derive.
        rewrite (is_derive_unique _ _ _ Rm), (is_derive_unique _ _ _ RQ), (is_derive_unique _ _ _ RU). fold m. ring. }
      rewrite <- (is_derive_unique _ _ _ U1), (is_derive_unique _ _ _ U2). ring. }
    assert (G2 : (a' - b') * c2 - (a - b) * z * (2 * t') = 0).
    { assert (U1 : is_derive (fun s => ((T1 s - T2 s) * cos (2 * th s) : R)) 0 ((a' - b') * c2 - (a - b) * z * (2 * t'))).
      { auto_derive. { repeat split; eexists; eassumption. }
        eta_derive.
        rewrite (is_derive_unique _ _ _ E1), (is_derive_unique _ _ _ E2), (is_derive_unique _ _ _ E3). unfold a, b, c2, z. ring. }
      assert (U2 : is_derive (fun s => ((T1 s - T2 s) * cos (2 * th s) : R)) 0 0).
      { apply is_derive_ext with (fun s => (mQ2 s - mU2 s : R)); [intros s; symmetry; apply Hs2|].
        auto_derive. { repeat split; eexists; eassumption. }
        eta_derive.
        rewrite (is_derive_unique _ _ _ RQ), (is_derive_unique _ _ _ RU). ring. }
      rewrite <- (is_derive_unique _ _ _ U1), (is_derive_unique _ _ _ U2). ring. }
    assert (HX : 2 * (m * Xt 0) = (a - b) * z) by (symmetry; apply Hs3).
    assert (G3 : (a' - b') * z + (a - b) * c2 * (2 * t') = 2 * kappa * dLR).
    { assert (U1 : is_derive (fun s => ((T1 s - T2 s) * sin (2 * th s) : R)) 0 ((a' - b') * z + (a - b) * c2 * (2 * t'))).
      { auto_derive. { repeat split; eexists; eassumption. }
        eta_derive.
        rewrite (is_derive_unique _ _ _ E1), (is_derive_unique _ _ _ E2), (is_derive_unique _ _ _ E3). unfold a, b, c2, z. ring. }
      assert (U2 : is_derive (fun s => ((T1 s - T2 s) * sin (2 * th s) : R)) 0 (2 * (- 2 * kappa * m * Xt 0 + m * (4 * kappa * mg)))).
      { apply is_derive_ext with (fun s => (2 * (mt s * Xt s) : R)); [intros s; symmetry; apply Hs3|].
        auto_derive. { repeat split; eexists; eassumption. }
        eta_derive.
        rewrite (is_derive_unique _ _ _ Rm), (is_derive_unique _ _ _ RX). fold m. ring. }
      rewrite <- (is_derive_unique _ _ _ U1), (is_derive_unique _ _ _ U2). unfold dLR. rewrite <- HX. ring. }
    assert (HC : c2 * c2 = 1 - z * z). { assert (HH := sin2_cos2 (2 * th 0)). unfold Rsqr in HH. fold z c2 in HH. lra. }
    assert (G4 : a' - b' = 2 * kappa * z * dLR).
    { replace (a' - b') with ((a' - b') * (c2 * c2 + z * z)) by (rewrite HC; ring).
      replace ((a' - b') * (c2 * c2 + z * z)) with (c2 * ((a' - b') * c2 - (a - b) * z * (2 * t')) + z * ((a' - b') * z + (a - b) * c2 * (2 * t'))) by ring.
      rewrite G2, G3. ring. }
    assert (G5 : (a - b) * (2 * t') = 2 * kappa * c2 * dLR).
    { replace ((a - b) * (2 * t')) with ((a - b) * (2 * t') * (c2 * c2 + z * z)) by (rewrite HC; ring).
      replace ((a - b) * (2 * t') * (c2 * c2 + z * z)) with (c2 * ((a' - b') * z + (a - b) * c2 * (2 * t')) - z * ((a' - b') * c2 - (a - b) * z * (2 * t'))) by ring.
      rewrite G2, G3. ring. }
    split; [|split].
    - replace (kappa * da) with a'; [exact E1|]. unfold da. lra.
    - replace (kappa * db) with b'; [exact E2|]. unfold db. lra.
    - auto_derive. { eexists; eassumption. }
        eta_derive.
      rewrite (is_derive_unique _ _ _ E3). unfold dz. fold c2.
      apply Rmult_eq_reg_l with (a - b); [|lra].
      transitivity (c2 * ((a - b) * (2 * t'))); [unfold c2; ring|]. rewrite G5.
      replace (c2 * (2 * kappa * c2 * dLR)) with (2 * kappa * (c2 * c2) * dLR) by ring. rewrite HC. field. lra.
  Qed.
  Hypotheses (Hg : 0 < mg) (Hq : 0 < q) (Hv : 0 < v) (Htb : 0 < tb) (Hsep : separated a b).
  Hypothesis HD1 : mg * mg * (mg * mg) + m * m * (m * m) + a * a - 2 * (mg * mg * (m * m) + mg * mg * a + m * m * a) <> 0.
  Hypothesis HD2 : mg * mg * (mg * mg) + m * m * (m * m) + b * b - 2 * (mg * mg * (m * m) + mg * mg * b + m * m * b) <> 0.
  Let total (s : R) : mat2 R :=
    mat2_add (one_loop pi_f (mt s) (T1 s) (T2 s) (sin (2 * th s)) mu tb v)
             (delta_mh2_2loop_at_as (fortran fx) (m * m) mg a b (sin (th 0)) (cos (th 0)) (q * exp s) mu tb v gs 0).
  Lemma even_all : is_derive (fun s => (m00 (total s) : R)) 0 0 /\ is_derive (fun s => (m01 (total s) : R)) 0 0 /\
    is_derive (fun s => (m10 (total s) : R)) 0 0 /\ is_derive (fun s => (m11 (total s) : R)) 0 0.
  Proof.
    assert (Hz2 : 2 * cos (th 0) * sin (th 0) = z) by (unfold z; rewrite sin_2a; ring).
    assert (Hc2 : pow2 (cos (th 0)) - pow2 (sin (th 0)) = c2) by (unfold c2, pow2; unR; rewrite cos_2a; ring).
    assert (HC : c2 * c2 = 1 - z * z). { assert (HH := sin2_cos2 (2 * th 0)). unfold Rsqr in HH. fold z c2 in HH. lra. }
    assert (Hsq : sqrt (m * m) = m) by (apply sqrt_square; lra).
    assert (HS : sin (atan tb) <> 0). { rewrite sin_atan. apply Rgt_not_eq, Rdiv_lt_0_compat; [exact Htb|apply sqrt_lt_R0; unfold Rsqr; nra]. }
    assert (HP : @pi_f R _ <> 0) by (unfold pi_f; unR; unfold Rdec; simpl; lra).
    destruct paths as (P1 & P2 & P3). destruct Hrun as (P0 & _).
    set (A0 := (a - b) * z / 2 / m - mu / tb).
    set (F3 := fun s : R => snd (f_strfuncs fx (m * m) mg a b z c2 (q * exp s))).
    set (F2 := fun s : R => (m * z * snd (fst (f_strfuncs fx (m * m) mg a b z c2 (q * exp s))) + / 2 * (z * z) * snd (f_strresfuncs fx (m * m) mg a b (q * exp s)) : R)).
    set (F1 := fun s : R => (m * z * snd (fst (f_strresfuncs fx (m * m) mg a b (q * exp s))) + m * m * fst (fst (f_strfuncs fx (m * m) mg a b z c2 (q * exp s))) : R)).
    assert (E3 := rge3 fx m mg a b z q Hm Hg Ha Hb Hab Hz Hq HD1 HD2 c2 HC).
    assert (E2 := rge2 fx m mg a b z q Hm Hg Ha Hb Hab Hz Hq c2 HC).
    assert (E1 := rge1 fx m mg a b z q Hm Hg Ha Hb Hq c2 HC).
    cbv beta in E1, E2, E3.
    change (is_derive F3 0 (- (-4 * o3 a b + 2 * dz / z * o3 a b + do3 m mg a b z))) in E3.
    change (is_derive F2 0 (- (-6 * m * z * o2 a b + m * dz * o2 a b + m * z * do2 m mg a b z + / 2 * (z * z) * (4 * mg) * o3 a b))) in E2.
    change (is_derive F1 0 (- (m * z * (4 * mg) * o2 a b + m * m * (-8 * o1 m a b + do1 m mg a b z)))) in E1.
    set (k := 4 * (gs * gs) / (16 * (@pi_f R _ * @pi_f R _) * (16 * (@pi_f R _ * @pi_f R _)))).
    set (h2 := 2 / v * (m * m) / (sin (atan tb) * sin (atan tb))).
    assert (HT : forall s, delta_mh2_2loop_at_as (fortran fx) (m * m) mg a b (sin (th 0)) (cos (th 0)) (q * exp s) mu tb v gs 0 =
      let S12 := k * (h2 * (/ 2 * mu * A0 * (z * z) * F3 s + mu * F2 s)) in
      mkM2 (k * (h2 * (/ 2 * (mu * mu) * (z * z) * F3 s))) S12 S12
           (k * (h2 * (/ 2 * (A0 * A0) * (z * z) * F3 s + 2 * A0 * F2 s + 2 * F1 s)))).
    { intros s. unfold delta_mh2_2loop_at_as, delta_mh2_2loop_at_as_general. cbv zeta. unR. rewrite separated_bool by exact Hsep.
      cbn [ft_dszhiggs fortran Z.eqb negb]. rewrite dszhiggs_form by (rewrite Hz2; exact Hz).
      rewrite Hz2, Hc2, Hsq. cbn [sym_result]. fold A0.
      replace (pow2 (sqrt (2 / v) * m / sin (atan tb))) with h2.
      2: { unfold h2, pow2. unR. assert (HR := sqrt_sqrt (2 / v) (Rlt_le _ _ (Rdiv_lt_0_compat 2 v ltac:(lra) Hv))).
           transitivity (sqrt (2 / v) * sqrt (2 / v) * (m * m) / (sin (atan tb) * sin (atan tb))); [rewrite HR; reflexivity|field; exact HS]. }
      change (4 * pow2 gs / pow2 (16 * pow2 pi_f)) with k.
      rewrite rotate_form. unfold mat2_add. unR. cbn [m00 m01 m10 m11]. unfold F1, F2, F3. f_equal; ring. }
    assert (G : forall s, total s = mat2_add (one_loop pi_f (mt s) (T1 s) (T2 s) (sin (2 * th s)) mu tb v)
      (let S12 := k * (h2 * (/ 2 * mu * A0 * (z * z) * F3 s + mu * F2 s)) in
       mkM2 (k * (h2 * (/ 2 * (mu * mu) * (z * z) * F3 s))) S12 S12
           (k * (h2 * (/ 2 * (A0 * A0) * (z * z) * F3 s + 2 * A0 * F2 s + 2 * F1 s))))).
    { intros s. unfold total. rewrite HT. reflexivity. }
    clear HT. clearbody F1 F2 F3.
    set (Z := fun s : R => (sin (2 * th s) : R)) in *.
    change (is_derive Z 0 (kappa * dz)) in P3.
    assert (HZ0 : Z 0 = z) by reflexivity.
    set (w := @pi_f R _) in *. assert (Hk : kappa = 4 / 3 * (gs * gs) / (16 * (w * w))) by reflexivity. clearbody w kappa.
    assert (H01 : is_derive (fun s => (m01 (total s) : R)) 0 0 /\ is_derive (fun s => (m00 (total s) : R)) 0 0 /\ is_derive (fun s => (m11 (total s) : R)) 0 0).
    { assert (X0 : ex_derive mt 0) by (eexists; exact P0). assert (X1 : ex_derive T1 0) by (eexists; exact P1).
      assert (X2 : ex_derive T2 0) by (eexists; exact P2). assert (X3 : ex_derive Z 0) by (eexists; exact P3).
      assert (Y1 : ex_derive F1 0) by (eexists; exact E1). assert (Y2 : ex_derive F2 0) by (eexists; exact E2). assert (Y3 : ex_derive F3 0) by (eexists; exact E3).
      apply is_derive_unique in P0, P1, P2, P3, E1, E2, E3.
      split; [|split]; (eapply is_derive_ext; [intros s; rewrite G; unfold mat2_add, one_loop; cbv zeta; unR; cbn [m00 m01 m10 m11]; change (sin (2 * th s)) with (Z s); reflexivity|]);
      clear G total; clearbody Z;
      (auto_derive; [fold m a b; repeat split; try assumption; try (apply Rgt_not_eq; assumption); lra|]);
      eta_derive; rewrite ?P0, ?P1, ?P2, ?P3, ?E1, ?E2, ?E3, ?HZ0; fold m a b;
      unfold do1, do2, do3, o1, o2, o3, da, db, dz, dLR, k, h2, A0; rewrite ?Hk;
      set (A := ln a); set (B := ln b); set (L := ln m); set (sb := sin (atan tb)) in *;
      match goal with |- ?x = ?y => change (@eq R x y) end; field; repeat split; try assumption; try lra. }
    destruct H01 as (J1 & J2 & J3). split; [exact J2|]. split; [exact J1|]. split; [|exact J3].
    apply (is_derive_ext (fun s => (m01 (total s) : R))); [|exact J1]. intros s. rewrite !G. unfold mat2_add, one_loop. cbv zeta. unR. cbn [m00 m01 m10 m11]. reflexivity.
  Qed.
  Let total_odd (s : R) : R :=
    one_loop_odd pi_f (mt s) (T1 s) (T2 s) (sin (2 * th s)) (q * exp s) mu tb v +
    delta_ma2_2loop_at_as (fortran fx) (m * m) mg a b (sin (th 0)) (cos (th 0)) (q * exp s) mu tb v gs.
  Lemma odd_all : is_derive (fun s => (total_odd s : R)) 0 (beta_b pi_f m ((a - b) * z / 2 / m - mu / tb) mg gs mu tb v).
  Proof.
    assert (Hz2 : 2 * cos (th 0) * sin (th 0) = z) by (unfold z; rewrite sin_2a; ring).
    assert (HC : c2 * c2 = 1 - z * z). { assert (HH := sin2_cos2 (2 * th 0)). unfold Rsqr in HH. fold z c2 in HH. lra. }
    assert (Hsq : sqrt (m * m) = m) by (apply sqrt_square; lra).
    assert (HS : sin (atan tb) <> 0). { rewrite sin_atan. apply Rgt_not_eq, Rdiv_lt_0_compat; [exact Htb|apply sqrt_lt_R0; unfold Rsqr; nra]. }
    assert (HCb : cos (atan tb) <> 0). { rewrite cos_atan. apply Rgt_not_eq, Rdiv_lt_0_compat; [lra|apply sqrt_lt_R0; unfold Rsqr; nra]. }
    assert (HP : @pi_f R _ <> 0) by (unfold pi_f; unR; unfold Rdec; simpl; lra).
    destruct paths as (P1 & P2 & P3). destruct Hrun as (P0 & _).
    set (A0 := (a - b) * z / 2 / m - mu / tb).
    set (k := 4 * (gs * gs) / (16 * (@pi_f R _ * @pi_f R _) * (16 * (@pi_f R _ * @pi_f R _)))).
    set (h2 := 2 / v * (m * m) / (sin (atan tb) * sin (atan tb))).
    set (F := fun s : R => if Reqb A0 0 then snd (f_strfuncsodd fx (m * m) mg a b z (q * exp s) 0) else (A0 * fst (f_strfuncsodd fx (m * m) mg a b z (q * exp s) A0) : R)).
    assert (E : is_derive F 0 (Xodd m mg a b z q A0)).
    { unfold F. destruct (Reqb_spec A0 0) as [HA|HA].
      - rewrite HA. exact (rge_odd0 fx m mg a b z q Hm Hg Ha Hb Hab Hq c2 HC).
      - exact (rge_odd fx m mg a b z q Hm Hg Ha Hb Hab Hq c2 HC A0 HA). }
    assert (HT : forall s, delta_ma2_2loop_at_as (fortran fx) (m * m) mg a b (sin (th 0)) (cos (th 0)) (q * exp s) mu tb v gs =
      k * (h2 * mu / (a - b) / sin (atan tb) / cos (atan tb) * F s)).
    { intros s. unfold delta_ma2_2loop_at_as, delta_ma2_2loop_at_as_general. cbv zeta. unR. rewrite separated_bool by exact Hsep.
      cbn [ft_dszodd fortran]. unfold f_dszodd. cbv zeta. unR. rewrite Hz2, Hsq. fold A0.
      replace (pow2 (sqrt (2 / v) * m / sin (atan tb))) with h2.
      2: { unfold h2, pow2. unR. assert (HR := sqrt_sqrt (2 / v) (Rlt_le _ _ (Rdiv_lt_0_compat 2 v ltac:(lra) Hv))).
           transitivity (sqrt (2 / v) * sqrt (2 / v) * (m * m) / (sin (atan tb) * sin (atan tb))); [rewrite HR; reflexivity|field; exact HS]. }
      change (4 * pow2 gs / pow2 (16 * pow2 pi_f)) with k. unfold F.
      destruct (Reqb_spec A0 0) as [HA|HA]; cbn [negb].
      - rewrite HA. destruct (f_strfuncsodd _ _ _ _ _ _ _ _) as [f g]. reflexivity.
      - destruct (f_strfuncsodd _ _ _ _ _ _ _ _) as [f g]. cbn [fst snd]. field. repeat split; assumption || lra. }
    assert (G : forall s, total_odd s = one_loop_odd pi_f (mt s) (T1 s) (T2 s) (sin (2 * th s)) (q * exp s) mu tb v +
      k * (h2 * mu / (a - b) / sin (atan tb) / cos (atan tb) * F s)).
    { intros s. unfold total_odd. rewrite HT. reflexivity. }
    clear HT. clearbody F.
    set (Z := fun s : R => (sin (2 * th s) : R)) in *.
    change (is_derive Z 0 (kappa * dz)) in P3.
    assert (HZ0 : Z 0 = z) by reflexivity.
    set (w := @pi_f R _) in *. assert (Hk : kappa = 4 / 3 * (gs * gs) / (16 * (w * w))) by reflexivity. clearbody w kappa.
    assert (X0 : ex_derive mt 0) by (eexists; exact P0). assert (X1 : ex_derive T1 0) by (eexists; exact P1).
    assert (X2 : ex_derive T2 0) by (eexists; exact P2). assert (X3 : ex_derive Z 0) by (eexists; exact P3).
    assert (Y3 : ex_derive F 0) by (eexists; exact E).
    apply is_derive_unique in P0, P1, P2, P3, E.
    apply (is_derive_ext (fun s => (one_loop_odd w (mt s) (T1 s) (T2 s) (Z s) (q * exp s) mu tb v + k * (h2 * mu / (a - b) / sin (atan tb) / cos (atan tb) * F s) : R)));
      [intros s; symmetry; apply G|].
    unfold one_loop_odd. cbv zeta.
    clear G total_odd. clearbody Z.
    auto_derive. 
    { fold m a b. rewrite exp_0. assert (0 < q * 1) by lra. 
      assert (0 < a * / (q * 1)) by (apply Rmult_lt_0_compat; [exact Ha|apply Rinv_0_lt_compat; assumption]).
      assert (0 < b * / (q * 1)) by (apply Rmult_lt_0_compat; [exact Hb|apply Rinv_0_lt_compat; assumption]).
      repeat split; try assumption; try (apply Rgt_not_eq; assumption); lra. }
    eta_derive. rewrite ?P0, ?P1, ?P2, ?P3, ?E, ?HZ0, ?exp_0. fold m a b.
    rewrite !log1 by assumption.
    unfold beta_b, Xodd, da, db, dz, dLR, k, h2, A0. rewrite ?Hk.
    set (A := ln a). set (B := ln b). set (L := ln q). set (sb := sin (atan tb)) in *. set (cb := cos (atan tb)) in *.
    match goal with |- ?x = ?y => change (@eq R x y) end. field. repeat split; try assumption; try lra.
  Qed.
End C56.

(** the result does not depend on the renormalisation scale up to higher orders: if mt, m_Q3^2, m_U3^2 and A_t run with their one-loop
    SUSY-QCD beta functions, the change of the one-loop correction is compensated by the explicit scale dependence of the program's
    two-loop correction, for all four matrix elements *)
Theorem C56 (fx : FExt R) (mt mQ2 mU2 Xt T1 T2 th : R -> R) (mg q mu tb v gs : R) :
  let t := mt 0 * mt 0 in let g := mg * mg in
  diagonalises mt mQ2 mU2 Xt T1 T2 th ->
  runs (4 / 3 * (gs * gs) / (16 * (pi_f * pi_f))) mg mt mQ2 mU2 Xt ->
  ex_derive T1 0 -> ex_derive T2 0 -> ex_derive th 0 ->
  0 < mt 0 -> 0 < T1 0 -> 0 < T2 0 -> separated (T1 0) (T2 0) -> sin (2 * th 0) <> 0 -> 0 < mg -> 0 < q -> 0 < v -> 0 < tb ->
  g * g + t * t + T1 0 * T1 0 - 2 * (g * t + g * T1 0 + t * T1 0) <> 0 ->
  g * g + t * t + T2 0 * T2 0 - 2 * (g * t + g * T2 0 + t * T2 0) <> 0 ->
  let total s := mat2_add (one_loop pi_f (mt s) (T1 s) (T2 s) (sin (2 * th s)) mu tb v)
    (delta_mh2_2loop_at_as (fortran fx) t mg (T1 0) (T2 0) (sin (th 0)) (cos (th 0)) (q * exp s) mu tb v gs 0) in
  is_derive (fun s => (m00 (total s) : R)) 0 0 /\ is_derive (fun s => (m01 (total s) : R)) 0 0 /\
  is_derive (fun s => (m10 (total s) : R)) 0 0 /\ is_derive (fun s => (m11 (total s) : R)) 0 0.
Proof.
  cbv zeta. intros H1 H2 H3 H4 H5 H6 H7 H8 H9 H10 H11 H12 H13 H14 H15 H16.
  exact (even_all fx mt mQ2 mU2 Xt T1 T2 th mg q mu tb v gs H1 H2 H3 H4 H5 H6 H7 H8 (separated_ne _ _ H7 H9) H10 H11 H12 H13 H14 H9 H15 H16).
Qed.
(** the CP-odd mass changes with the scale exactly as the running parameter b = m_A^2 sin(beta) cos(beta) does at O(at) and O(at as) *)
Theorem C56_odd (fx : FExt R) (mt mQ2 mU2 Xt T1 T2 th : R -> R) (mg q mu tb v gs : R) :
  let t := mt 0 * mt 0 in let g := mg * mg in
  diagonalises mt mQ2 mU2 Xt T1 T2 th ->
  runs (4 / 3 * (gs * gs) / (16 * (pi_f * pi_f))) mg mt mQ2 mU2 Xt ->
  ex_derive T1 0 -> ex_derive T2 0 -> ex_derive th 0 ->
  0 < mt 0 -> 0 < T1 0 -> 0 < T2 0 -> separated (T1 0) (T2 0) -> 0 < mg -> 0 < q -> 0 < v -> 0 < tb ->
  let A := Xt 0 - mu / tb in
  is_derive (fun s => (one_loop_odd pi_f (mt s) (T1 s) (T2 s) (sin (2 * th s)) (q * exp s) mu tb v +
    delta_ma2_2loop_at_as (fortran fx) t mg (T1 0) (T2 0) (sin (th 0)) (cos (th 0)) (q * exp s) mu tb v gs : R)) 0
    (beta_b pi_f (mt 0) A mg gs mu tb v).
Proof.
  cbv zeta. intros H1 H2 H3 H4 H5 H6 H7 H8 H9 H11 H12 H13 H14.
  replace (Xt 0 - mu / tb) with ((T1 0 - T2 0) * sin (2 * th 0) / 2 / mt 0 - mu / tb).
  - exact (odd_all fx mt mQ2 mU2 Xt T1 T2 th mg q mu tb v gs H1 H2 H3 H4 H5 H6 H7 H8 (separated_ne _ _ H7 H9) H11 H12 H13 H14 H9).
  - destruct (H1 0) as (_ & _ & X3). rewrite sin_2a. f_equal. apply Rmult_eq_reg_l with (mt 0); [|lra]. rewrite X3. field. lra.
Qed.
(** such running parameters exist for every starting point *)
Theorem C56_paths_exist (kappa mg m a b th0 : R) : 0 < m -> a <> b ->
  exists mt mQ2 mU2 Xt T1 T2 th : R -> R,
    diagonalises mt mQ2 mU2 Xt T1 T2 th /\ runs kappa mg mt mQ2 mU2 Xt /\ ex_derive T1 0 /\ ex_derive T2 0 /\ ex_derive th 0 /\
    mt 0 = m /\ T1 0 = a /\ T2 0 = b /\ th 0 = th0.
Proof.
  intros Hm Hab.
  set (L := - ((a - b) * sin (2 * th0)) + 4 * mg * m). set (dA := - 4 * (mg * mg + m * m) + sin (2 * th0) * L).
  set (dB := - 4 * (mg * mg + m * m) - sin (2 * th0) * L). set (dT := cos (2 * th0) * L / (a - b)).
  set (mt := fun s : R => m * exp (- 2 * kappa * s)). set (T1 := fun s : R => a + kappa * dA * s). set (T2 := fun s : R => b + kappa * dB * s).
  set (th := fun s : R => th0 + kappa * dT * s).
  set (mQ2 := fun s : R => cos (th s) * cos (th s) * T1 s + sin (th s) * sin (th s) * T2 s - mt s * mt s).
  set (mU2 := fun s : R => sin (th s) * sin (th s) * T1 s + cos (th s) * cos (th s) * T2 s - mt s * mt s).
  set (Xt := fun s : R => (T1 s - T2 s) * sin (th s) * cos (th s) / mt s).
  exists mt, mQ2, mU2, Xt, T1, T2, th.
  assert (HP : forall s, mt s <> 0) by (intros s; unfold mt; apply Rgt_not_eq, Rmult_lt_0_compat; [exact Hm|apply exp_pos]).
  assert (HS := sin2_cos2 th0). unfold Rsqr in HS.
  assert (E1 : th 0 = th0) by (unfold th; ring). assert (E2 : T1 0 = a) by (unfold T1; ring). assert (E3 : T2 0 = b) by (unfold T2; ring).
  assert (E4 : mt 0 = m) by (unfold mt; rewrite Rmult_0_r, exp_0; ring).
  assert (HC : cos th0 * cos th0 = 1 - sin th0 * sin th0) by lra.
  split; [|split].
  - intros s. split; [unfold mQ2; ring|]. split; [unfold mU2; ring|]. unfold Xt. field. apply HP.
  - unfold runs. rewrite E4. split; [|split; [|split]].
    + unfold mt. auto_derive; [trivial|]. rewrite Rmult_0_r, exp_0. ring.
    + apply (is_derive_ext (fun s => ((T1 s + T2 s) / 2 + (T1 s - T2 s) / 2 * cos (2 * th s) - mt s * mt s : R))).
      { intros s. unfold mQ2. rewrite cos_2a. assert (HH := sin2_cos2 (th s)). unfold Rsqr in HH.
        replace (cos (th s) * cos (th s)) with (1 - sin (th s) * sin (th s)) by lra. match goal with |- ?x = ?y => change (@eq R x y) end. field. }
      unfold mt, T1, T2, th. auto_derive; [trivial|]. rewrite !Rmult_0_r, !Rplus_0_r, exp_0. unfold dA, dB, dT, L.
      set (u := sin (2 * th0)). set (w := cos (2 * th0)). match goal with |- ?x = ?y => change (@eq R x y) end. field. lra.
    + apply (is_derive_ext (fun s => ((T1 s + T2 s) / 2 - (T1 s - T2 s) / 2 * cos (2 * th s) - mt s * mt s : R))).
      { intros s. unfold mU2. rewrite cos_2a. assert (HH := sin2_cos2 (th s)). unfold Rsqr in HH.
        replace (cos (th s) * cos (th s)) with (1 - sin (th s) * sin (th s)) by lra. match goal with |- ?x = ?y => change (@eq R x y) end. field. }
      unfold mt, T1, T2, th. auto_derive; [trivial|]. rewrite !Rmult_0_r, !Rplus_0_r, exp_0. unfold dA, dB, dT, L.
      set (u := sin (2 * th0)). set (w := cos (2 * th0)). match goal with |- ?x = ?y => change (@eq R x y) end. field. lra.
    + apply (is_derive_ext (fun s => ((T1 s - T2 s) / 2 * sin (2 * th s) / mt s : R))).
      { intros s. unfold Xt. rewrite sin_2a. match goal with |- ?x = ?y => change (@eq R x y) end. field. apply HP. }
      unfold mt, T1, T2, th. auto_derive. { rewrite Rmult_0_r, exp_0. lra. }
      rewrite !Rmult_0_r, !Rplus_0_r, exp_0.
      assert (HH := sin2_cos2 (2 * th0)). unfold Rsqr in HH.
      match goal with |- ?x = _ => transitivity (kappa * (sin (2 * th0) * ((dA - dB) / 2) + cos (2 * th0) * ((a - b) * dT) + (a - b) * sin (2 * th0)) / m) end.
      { match goal with |- ?x = ?y => change (@eq R x y) end. field. lra. }
      replace ((dA - dB) / 2) with (sin (2 * th0) * L) by (unfold dA, dB; field).
      replace ((a - b) * dT) with (cos (2 * th0) * L) by (unfold dT; field; lra).
      replace (sin (2 * th0) * (sin (2 * th0) * L) + cos (2 * th0) * (cos (2 * th0) * L)) with ((sin (2 * th0) * sin (2 * th0) + cos (2 * th0) * cos (2 * th0)) * L) by ring.
      rewrite HH. unfold L. match goal with |- ?x = ?y => change (@eq R x y) end. field. lra.
  - repeat split; try assumption; [unfold T1|unfold T2|unfold th]; auto_derive; trivial.
Qed.
