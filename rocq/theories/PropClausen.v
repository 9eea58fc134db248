(** * C28: the library's Clausen function is the Clausen function *)
From Coq Require Import Reals ZArith List Bool Lra Lia QArith Qreals.
From Coquelicot Require Import Coquelicot.
From Verif Require Import Num NumFacts Dilog ConstBounds ClausenSpec ClausenExists ClausenApprox.
Close Scope Q_scope.
Open Scope R_scope.

(** the two halves of the function: after the sign, and after the reduction to [0, pi] (Li2.cpp:246-293) *)
Definition low (x sgn : PR) : PR :=
  if neqb x (nint 0) then x else if neqb x (ndec 314159265358979324 17) then nint 0 else
  let h := if nltb x (ndiv (ndec 314159265358979324 17) (nint 2)) then
    let y := nmul x x in let y2 := nmul y y in
    let p := nadd (nadd (ndec 13888888888888889 18) (nmul y (nneg (ndec 43286930203743071 20)))) (nmul y2 (nadd (ndec 32779814789973427 22) (nmul y (nneg (ndec 36001540369575084 25))))) in
    let q := nadd (nadd (nint 1) (nmul y (nneg (ndec 36166589746694121 18)))) (nmul y2 (nadd (ndec 36015827281202639 20) (nmul y (nneg (ndec 83646182842184428 23))))) in
    nmul x (nadd (nsub (nint 1) (nlog x)) (ndiv (nmul y p) q))
  else
    let y := nsub (ndec 314159265358979324 17) x in
    let z := nsub (nmul y y) (ndiv (nmul (ndec 314159265358979324 17) (ndec 314159265358979324 17)) (nint 8)) in
    let z2 := nmul z z in let z4 := nmul z2 z2 in
    let p := nadd (nadd (nadd (ndec 64005702446195512 17) (nmul z (nneg (ndec 20641655351338783 17)))) (nmul z2 (nadd (ndec 24175305223497718 18) (nmul z (nneg (ndec 12355955287855728 19))))))
      (nmul z4 (nadd (ndec 25649833551291124 21) (nmul z (nneg (ndec 1478382912877332 22))))) in
    let q := nadd (nadd (nadd (nint 1) (nmul z (nneg (ndec 25299102015666356 17)))) (nmul z2 (nadd (ndec 22148751048467057 18) (nmul z (nneg (ndec 78183920462457496 20))))))
      (nmul z4 (nadd (ndec 9543254219631067 21) (nmul z (nneg (ndec 18184302880448247 24))))) in
    ndiv (nmul y p) q in
  nmul sgn h.
Definition red (x sgn : PR) : PR :=
  let x := if nleb (nmul (nint 2) (ndec 314159265358979324 17)) x then nfmod x (nmul (nint 2) (ndec 314159265358979324 17)) else x in
  if nltb (ndec 314159265358979324 17) x then low (nadd (nsub (ndec 628125 5) x) (ndec 19353071795864769253 22)) (nneg sgn) else low x sgn.
Lemma cl_split (x : PR) : clausen_2 x = if nltb x (nint 0) then red (nneg x) (nint (-1)) else red x (nint 1).
Proof.
  unfold clausen_2. cbv zeta. destruct (nltb x (nint 0)); unfold red; cbv zeta;
    match goal with |- context [if nltb (ndec 314159265358979324 17) ?t then _ else _] => destruct (nltb (ndec 314159265358979324 17) t) end; reflexivity.
Qed.

Lemma case_lt (a b : R) : a < b -> Rltb a b = true. Proof. intros. destruct (Rltb_spec a b); [reflexivity|lra]. Qed.
Lemma case_ge (a b : R) : b <= a -> Rltb a b = false. Proof. intros. destruct (Rltb_spec a b); [lra|reflexivity]. Qed.
Lemma case_ne (a b : R) : a <> b -> Reqb a b = false. Proof. intros. destruct (Reqb_spec a b); [contradiction|reflexivity]. Qed.
Lemma case_eq (a b : R) : a = b -> Reqb a b = true. Proof. intros. destruct (Reqb_spec a b); [reflexivity|contradiction]. Qed.
Lemma case_le (a b : R) : a <= b -> Rleb a b = true. Proof. intros. unfold Rleb. destruct (Rle_dec a b); [reflexivity|contradiction]. Qed.
Lemma case_gt (a b : R) : b < a -> Rleb a b = false. Proof. intros. unfold Rleb. destruct (Rle_dec a b); [lra|reflexivity]. Qed.
Ltac op := unP; cbv beta iota zeta delta [p1 p2 pdiv pguard pcmp option_map]; fold pl.

Lemma low_0 s : low (Some 0 : PR) s = Some 0.
Proof. unfold low. op. rewrite case_eq by lra. reflexivity. Qed.
Lemma low_pl s : low (Some pl : PR) s = Some 0.
Proof. unfold low. assert (H := pl_val). op. rewrite case_ne by lra. rewrite case_eq by lra. reflexivity. Qed.
Lemma low_1 x s : 0 < x < pl / 2 -> low (Some x : PR) (Some s : PR) = Some (s * h1 x).
Proof.
  intros H. destruct (h1_ok x H) as [Q _]. unfold low. op. assert (HP := pl_val).
  rewrite case_ne by lra. rewrite case_ne by lra. rewrite (case_ne 2 0) by lra. cbv beta iota. rewrite case_lt by lra. cbv beta iota. rewrite case_lt by lra. cbv beta iota.
  match goal with |- context [Reqb ?t 0] => change t with (q1k (x * x)) end. rewrite case_ne by lra. reflexivity.
Qed.
Lemma low_2 x s : pl / 2 <= x < pl -> low (Some x : PR) (Some s : PR) = Some (s * h2 x).
Proof.
  intros H. destruct (h2_ok x H) as [Q _]. unfold low. op. assert (HP := pl_val).
  rewrite case_ne by lra. rewrite case_ne by lra. rewrite (case_ne 2 0) by lra. rewrite (case_ne 8 0) by lra. cbv beta iota. rewrite case_ge by lra. cbv beta iota.
  match goal with |- context [Reqb ?t 0] => change t with (q2k ((pl - x) * (pl - x) - pl * pl / 8)) end. rewrite case_ne by lra. reflexivity.
Qed.
(** the reduced function has the value of the integral, with the sign in front *)
Lemma low_ok x s : 0 <= x <= pl -> exists v, low (Some x : PR) (Some s : PR) = Some (s * v) /\ Rabs (v - J x) <= 22 / 10 ^ 18.
Proof.
  intros Hx. destruct (Req_EM_T x 0) as [->|N0].
  { exists 0. rewrite low_0, Rmult_0_r. split; [reflexivity|]. unfold J. destruct (Req_EM_T 0 0); [|lra]. rewrite Rminus_0_r, Rabs_R0. simpl pow. lra. }
  assert (HP := pl_val). destruct (Rlt_dec x (pl / 2)) as [C|C].
  { exists (h1 x). rewrite low_1 by lra. split; [reflexivity|]. destruct (h1_ok x ltac:(lra)) as [_ E]. simpl pow in *. lra. }
  assert (JS := J_shift x ltac:(lra)). destruct (Req_EM_T x pl) as [->|N].
  { exists 0. rewrite low_pl, Rmult_0_r. split; [reflexivity|]. rewrite Rminus_eq_0, Rminus_0_r, J_pi in JS. simpl pow in *. lra. }
  exists (h2 x). rewrite low_2 by lra. split; [reflexivity|]. destruct (h2_ok x ltac:(lra)) as [_ E].
  replace (h2 x - J x) with ((h2 x - J (PI - (pl - x))) + (J (PI - (pl - x)) - J x)) by ring. eapply Rle_trans; [apply Rabs_triang|]. simpl pow in *. lra.
Qed.
Lemma J0 : J 0 = 0. Proof. unfold J. destruct (Req_EM_T 0 0); [reflexivity|lra]. Qed.
Lemma red_ok x s : 0 <= x <= 2 * PI -> exists v, red (Some x : PR) (Some s : PR) = Some (s * v) /\ Rabs (v - Clx x) <= 3 / 10 ^ 17.
Proof.
  intros Hx. assert (HP := pi_near). assert (PP := pi_rough). assert (HL := pl_val). assert (HLL := pll_val). unfold red. op.
  rewrite case_gt by lra. cbv beta iota. destruct (Rlt_dec pl x) as [C|C].
  - rewrite case_lt by lra. cbv beta iota. replace (Rdec 628125 5 - x + Rdec 19353071795864769253 22) with (pll - x) by (unfold pll; ring).
    destruct (low_ok (pll - x) (- s) ltac:(lra)) as [v [E B]]. exists (- v). split. { rewrite E. f_equal. ring. }
    assert (EC : Clx x = - J (2 * PI - x)).
    { unfold Clx. destruct (Req_EM_T x (2 * PI)) as [->|N].
      - rewrite (rx_unique (2 * PI) 0 1) by (try lra; simpl; lra). rewrite Rminus_eq_0, J0. ring.
      - rewrite rx_id by lra. rewrite J_reflect by lra. ring. }
    rewrite EC. set (t := 2 * PI - x) in *. assert (ET := J_eta t (pll - 2 * PI) ltac:(unfold t; lra) ltac:(unfold t; lra) ltac:(lra)).
    replace (t + (pll - 2 * PI)) with (pll - x) in ET by (unfold t; ring).
    replace (- v - - J t) with (- ((v - J (pll - x)) + (J (pll - x) - J t))) by ring. rewrite Rabs_Ropp. eapply Rle_trans; [apply Rabs_triang|]. simpl pow in *. lra.
  - rewrite case_ge by lra. cbv beta iota. destruct (low_ok x s ltac:(lra)) as [v [E B]]. exists v. split; [exact E|]. unfold Clx. rewrite rx_id by (simpl pow in *; lra). simpl pow in *. lra.
Qed.

(** ** accuracy: for |x| <= 2 pi the function is defined and differs from the Clausen function by at most 3e-17 *)
Theorem C28_clausen : forall C, is_Cl2 C -> forall x : R, - (2 * PI) <= x <= 2 * PI -> exists v,
  clausen_2 (Some x : PR) = Some v /\ Rabs (v - C x) <= 3 / 10 ^ 17.
Proof.
  intros C HC x Hx. rewrite cl_split. op. destruct (Rlt_dec x 0) as [N|N].
  - rewrite case_lt by lra. destruct (red_ok (- x) (-1) ltac:(lra)) as [v [E B]]. exists (- v). split. { rewrite E. f_equal. ring. }
    replace (C x) with (- C (- x)) by (rewrite (proj1 HC); ring). rewrite (Cl2_unique C Clx HC Clx_is). replace (- v - - Clx (- x)) with (- (v - Clx (- x))) by ring. rewrite Rabs_Ropp. exact B.
  - rewrite case_ge by lra. destruct (red_ok x 1 ltac:(lra)) as [v [E B]]. exists v. split. { rewrite E. f_equal. ring. }
    rewrite (Cl2_unique C Clx HC Clx_is). exact B.
Qed.

(** ** symmetries, exactly *)
Lemma low_opp x s : low x (nneg s) = nneg (low x s).
Proof.
  destruct x as [x|]; [|destruct s; reflexivity]. destruct s as [s|].
  - unfold low. op. destruct (Reqb_spec x 0) as [->|_]. { rewrite Ropp_0. reflexivity. } destruct (Reqb_spec x pl) as [_|_]. { rewrite Ropp_0. reflexivity. }
    match goal with |- (match ?h with Some y => _ | None => _ end) = _ => destruct h as [v|] end; [|reflexivity]. f_equal. ring.
  - unfold low. op. destruct (Reqb_spec x 0) as [->|_]. { rewrite Ropp_0. reflexivity. } destruct (Reqb_spec x pl) as [_|_]. { rewrite Ropp_0. reflexivity. } reflexivity.
Qed.
Theorem C28_odd : forall x : R, clausen_2 (Some (- x) : PR) = nneg (clausen_2 (Some x : PR)).
Proof.
  assert (H : forall x, 0 < x -> clausen_2 (Some (- x) : PR) = nneg (clausen_2 (Some x : PR))).
  { intros x Hx. rewrite !cl_split. change (nneg (Some (- x) : PR)) with (Some (- - x) : PR). rewrite Ropp_involutive.
    change (nltb (Some (- x) : PR) (nint 0)) with (Rltb (- x) 0). change (nltb (Some x : PR) (nint 0)) with (Rltb x 0). rewrite case_lt by lra. rewrite case_ge by lra.
    unfold red. cbv zeta. change (nint (-1) : PR) with (nneg (nint 1) : PR).
    match goal with |- context [if nltb ?a ?b then _ else _] => destruct (nltb a b) end; apply low_opp. }
  intros x. destruct (Rtotal_order x 0) as [N|[->|N]].
  - replace x with (- - x) at 2 by ring. rewrite (H (- x)) by lra. destruct (clausen_2 (Some (- x) : PR)) as [v|]; [|reflexivity]. cbn. rewrite Ropp_involutive. reflexivity.
  - rewrite Ropp_0. rewrite !cl_split. change (nltb (Some 0 : PR) (nint 0)) with (Rltb 0 0). rewrite case_ge by lra. unfold red. op. assert (HL := pl_val). rewrite case_gt by lra. cbv beta iota. rewrite case_ge by lra. rewrite low_0. rewrite Ropp_0. reflexivity.
  - apply H, N.
Qed.
(** the period the code works with is twice its own literal for pi *)
Definition period : R := 2 * (314159265358979324 / 100000000000000000).
Lemma fmod_add x (k : nat) : 0 <= x < 2 * pl -> Rfmod (x + INR k * (2 * pl)) (2 * pl) = x.
Proof.
  intros Hx. assert (HL := pl_val). assert (PK := pos_INR k). unfold Rfmod, Rtrunc. assert (D : (x + INR k * (2 * pl)) / (2 * pl) = x / (2 * pl) + INR k) by (field; lra). rewrite D.
  assert (F : 0 <= x / (2 * pl) < 1). { assert (IP : 0 < / (2 * pl)) by (apply Rinv_0_lt_compat; lra). assert (I : 2 * pl * / (2 * pl) = 1) by (field; lra). unfold Rdiv. split; nra. }
  destruct (Rle_dec 0 (x / (2 * pl) + INR k)) as [_|N]; [|lra].
  replace (Int_part (x / (2 * pl) + INR k)) with (Z.of_nat k).
  - rewrite <- INR_IZR_INZ. ring.
  - destruct (base_Int_part (x / (2 * pl) + INR k)) as [B1 B2]. rewrite INR_IZR_INZ in *. set (n := Int_part _) in *. clearbody n.
    assert (Z.of_nat k < n + 1)%Z by (apply lt_IZR; rewrite plus_IZR; lra). assert (n < Z.of_nat k + 1)%Z by (apply lt_IZR; rewrite plus_IZR; lra). lia.
Qed.
Theorem C28_period : forall (x : R) (k : nat), 0 <= x < period -> clausen_2 (Some (x + INR k * period) : PR) = clausen_2 (Some x : PR).
Proof.
  unfold period. rewrite <- pl_val. intros x k Hx. assert (HL := pl_val). assert (PK := pos_INR k). assert (0 <= INR k * (2 * pl)) by (apply Rmult_le_pos; lra).
  rewrite !cl_split. op. rewrite case_ge by lra. rewrite case_ge by lra. unfold red. op. rewrite (case_gt (2 * pl) x) by lra. cbv beta iota.
  destruct k as [|k].
  - cbn [INR]. rewrite Rmult_0_l, Rplus_0_r. rewrite case_gt by lra. reflexivity.
  - rewrite case_le. 2: { assert (1 <= INR (S k)) by (apply (le_INR 1); lia). nra. }
    assert (EM : nfmod (Some (x + INR (S k) * (2 * pl)) : PR) (Some (2 * pl) : PR) = Some x).
    { change (nfmod (Some (x + INR (S k) * (2 * pl)) : PR) (Some (2 * pl) : PR)) with (if Reqb (2 * pl) 0 then None else Some (Rfmod (x + INR (S k) * (2 * pl)) (2 * pl))). rewrite case_ne by lra. rewrite fmod_add by lra. reflexivity. }
    rewrite EM. reflexivity.
Qed.
(** the reference function exists and is unique *)
Theorem C28_reference : (exists C, is_Cl2 C) /\ forall C1 C2, is_Cl2 C1 -> is_Cl2 C2 -> forall x, C1 x = C2 x.
Proof. split; [exact Cl2_exists|exact Cl2_unique]. Qed.
