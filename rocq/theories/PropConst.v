(** * C47: the named constants of Constants.hpp:13-31 *)
From Coq Require Import ZArith QArith Qreals Reals Lra Lia List Floats.SpecFloat.
From Verif Require Import Num QInterval ConstBounds ConstSpec ConstNear ConstSeries.
Import ListNotations.
Local Open Scope R_scope.

(** atoms: pi, ln 2, ln 3 - ln 2, sqrt 2, sqrt 3, sqrt 15, sqrt (3/5), zeta 3, Li4(1/2), 2/sqrt 3 Cl2(pi/3), Im Li3/sqrt 3 *)
Definition atoms (z3 l4 c2 i3 : R) : list R :=
  [PI; ln 2; ln 3 - ln 2; sqrt 2; sqrt 3; sqrt 15; sqrt (3 / 5); z3; l4; 2 / sqrt 3 * c2; i3 / sqrt 3].
Definition bounds : list (Q * Q) :=
  [pi_bounds; ln2_bounds; ln32_bounds; sqrt_bounds 2 1; sqrt_bounds 3 1; sqrt_bounds 15 1; sqrt_bounds 3 5;
   z3_bounds; l4_bounds; cl_bounds; i3_bounds].
Lemma atoms_in z3 l4 c2 i3 : zeta3_is z3 -> li4_half_is l4 -> cl2_pi3_is c2 -> im_li3_is i3 -> Forall2 qin (atoms z3 l4 c2 i3) bounds.
Proof.
  intros A B C D. unfold atoms, bounds. repeat (apply Forall2_cons || apply Forall2_nil).
  1: exact pi_in. 1: exact ln2_in. 1: exact (ln32_b_in 27).
  1: replace 2 with (2 / 1) by field; apply (sqrt_q_in 2 1); vm_compute; reflexivity.
  1: replace 3 with (3 / 1) by field; apply (sqrt_q_in 3 1); vm_compute; reflexivity.
  1: replace 15 with (15 / 1) by field; apply (sqrt_q_in 15 1); vm_compute; reflexivity.
  1: apply (sqrt_q_in 3 5); vm_compute; reflexivity.
  1: exact (z3_b_in _ 1000 A). 1: exact (l4_b_in _ 80 B). 1: exact (cl_b_in _ 400 C). 1: exact (i3_b_in _ 120 D).
Qed.
Definition vbounds : list (Q * Q) := Eval vm_compute in bounds.
Lemma vatoms_in z3 l4 c2 i3 : zeta3_is z3 -> li4_half_is l4 -> cl2_pi3_is c2 -> im_li3_is i3 -> Forall2 qin (atoms z3 l4 c2 i3) vbounds.
Proof. intros. replace vbounds with bounds by (vm_compute; reflexivity). apply atoms_in; assumption. Qed.

(** the doc-comment formulas in terms of the atoms *)
Definition a0 := AVar 0. Definition a1 := AVar 1. Definition a2 := AVar 2.
Definition aq (n : Z) (d : positive) := AQ (Qmake n d).
Definition amul3 a b c := AMul a (AMul b c).
Definition asq a := AMul a a.
Definition az2 := AMul (asq a0) (aq 1 6).
Definition az4 := AMul (asq (asq a0)) (aq 1 90).
Definition aln3 := AAdd a1 a2.
Definition as3 := AVar 4.
Definition ac2 := AMul (AMul as3 (aq 1 2)) (AVar 9).        (* Cl2 = sqrt 3/2 * atom *)
Definition ai3 := AMul as3 (AVar 10).
Fixpoint asum (l : list aexp) : aexp := match l with [] => aq 0 1 | [a] => a | a :: l => AAdd a (asum l) end.
Definition a4pi2 := AInv (asq (AMul (aq 4 1) a0)).
Definition formula (c : mathconst) : aexp :=
  match c with
  | CPi => a0
  | Cz2 => az2
  | Cz3 => AVar 7
  | Cz4 => az4
  | Csqrt2 => AVar 3 | Csqrt3 => AVar 4 | Csqrt15 => AVar 5 | Csqrt35 => AVar 6
  | Cinv_sqrt2 => AInv (AVar 3)
  | Clog2 => a1
  | ConeLoop => a4pi2
  | CtwoLoop => asq a4pi2
  | CthreeLoop => AMul a4pi2 (asq a4pi2)
  | CB4 => asum [AMul (aq (-4) 1) (AMul az2 (asq a1)); AMul (aq 2 3) (asq (asq a1)); AMul (aq (-13) 2) az4; AMul (aq 16 1) (AVar 8)]
  | CD3 => asum [AMul (aq 6 1) (AVar 7); AMul (aq (-15) 4) az4; AMul (aq (-6) 1) (asq ac2)]
  | CDN => asum [AMul (aq 6 1) (AVar 7); AMul (aq (-4) 1) (AMul az2 (asq a1)); AMul (aq 2 3) (asq (asq a1)); AMul (aq (-21) 2) az4; AMul (aq 16 1) (AVar 8)]
  | COepS2 => asum [aq (-763) 32; AMul (aq (-9) 16) (amul3 a0 as3 (asq aln3)); AMul (aq (-35) 48) (AMul (AMul a0 (asq a0)) as3);
                    AMul (aq 195 16) az2; AMul (aq (-15) 4) (AVar 7); AMul (aq 57 16) az4;
                    AMul (aq 45 2) (AMul as3 ac2); AMul (aq (-27) 1) (AMul as3 ai3)]
  | CS2 => AMul (aq 2 9) (AVar 9)
  | CT1ep => asum [aq (-45) 2; AMul (aq (-1) 8) (amul3 a0 as3 (asq aln3)); AMul (aq (-35) 216) (AMul (AMul a0 (asq a0)) as3);
                   AMul (aq (-9) 2) az2; AVar 7; AMul (aq 6 1) (AMul as3 ac2); AMul (aq (-6) 1) (AMul as3 ai3)]
  end.

Lemma formula_ok c r : constant_is c r -> exists z3 l4 c2 i3,
  zeta3_is z3 /\ li4_half_is l4 /\ cl2_pi3_is c2 /\ im_li3_is i3 /\ aeval (atoms z3 l4 c2 i3) (formula c) = r.
Proof.
  intros H. destruct zeta3_ex as [z3 Hz]. destruct li4_ex as [l4 Hl]. destruct cl2_ex as [c2 Hc]. destruct li3_ex as [i3 Hi].
  pose proof PI_RGT_0 as P. assert (P2 : 0 < sqrt 2) by (apply sqrt_lt_R0; lra). assert (P3 : 0 < sqrt 3) by (apply sqrt_lt_R0; lra).
  destruct c; cbn [constant_is] in H;
  repeat match goal with
         | H : exists _, _ |- _ => destruct H as [? H]
         | H : _ /\ _ |- _ => destruct H as [? H]
         end;
  repeat match goal with H : r = _ |- _ => rewrite H; clear H end.
  all: repeat match goal with
       | H : zeta3_is ?x, H' : zeta3_is ?y |- _ => clear H'
       | H : li4_half_is ?x, H' : li4_half_is ?y |- _ => clear H'
       | H : cl2_pi3_is ?x, H' : cl2_pi3_is ?y |- _ => clear H'
       | H : im_li3_is ?x, H' : im_li3_is ?y |- _ => clear H'
       end.
  all: do 4 eexists; split; [eassumption|]; split; [eassumption|]; split; [eassumption|]; split; [eassumption|].
  all: cbn [formula asum aeval atoms nth az2 az4 a0 a1 a2 aq asq aln3 as3 ac2 ai3 a4pi2 amul3]; unfold Q2R; cbn [Qnum Qden].
  all: try (unfold Rdiv; reflexivity).
  all: try (field; lra).
Qed.

(** the double stored in the program for constant [c]: the literal of Constants.hpp read by a correctly rounding compiler *)
Definition stored (lm : Libm) (c : mathconst) : F64 := @nconst F64 (NumF lm) c.

Definition check_nearest (c : mathconst) : bool :=
  let '(m, k) := const_decimal c in
  match half_ulp (F64dec m k) with Some (lo, hi) => acheck vbounds (formula c) lo hi | None => false end.
Lemma check_nearest_ok lm c r : check_nearest c = true -> constant_is c r -> nearest_double r (stored lm c).
Proof.
  intros H Hr. apply formula_ok in Hr. destruct Hr as (z3 & l4 & c2 & i3 & A & B & C & D & <-).
  unfold check_nearest in H. unfold stored. change (@nconst F64 (NumF lm) c) with (let '(m, k) := const_decimal c in F64dec m k).
  destruct (const_decimal c) as [m k]. destruct (half_ulp (F64dec m k)) as [[lo hi]|] eqn:E; [|discriminate].
  apply (half_ulp_ok _ _ _ E). cbn [fst snd]. eapply acheck_ok; [apply vatoms_in; eassumption|exact H].
Qed.

(** C47: every constant except B4 is stored as the double nearest to the number its doc comment defines *)
Theorem C47_nearest_double lm c r : c <> CB4 -> constant_is c r -> nearest_double r (stored lm c).
Proof.
  intros Hc. apply check_nearest_ok. destruct c; try (vm_compute; reflexivity). congruence.
Qed.
(** every doc comment defines a number (so the theorem is not vacuous) *)
Theorem C47_constants_exist c : exists r, constant_is c r.
Proof.
  destruct zeta3_ex as [z3 Hz]. destruct li4_ex as [l4 Hl]. destruct cl2_ex as [c2 Hc]. destruct li3_ex as [i3 Hi].
  destruct c; cbn [constant_is]; try (eexists; reflexivity).
  - exists z3. exact Hz.
  - eexists. exists l4. split; [exact Hl|reflexivity].
  - eexists. exists z3, c2. repeat (split; [eassumption|]). reflexivity.
  - eexists. exists z3, l4. repeat (split; [eassumption|]). reflexivity.
  - eexists. exists z3, c2, i3. repeat (split; [eassumption|]). reflexivity.
  - eexists. exists c2. repeat (split; [eassumption|]). reflexivity.
  - eexists. exists z3, c2, i3. repeat (split; [eassumption|]). reflexivity.
Qed.

Definition decQ (c : mathconst) : Q := let '(m, k) := const_decimal c in Qmake m (Z.to_pos (10 ^ k)).
Definition check_digit (c : mathconst) : bool :=
  let '(m, k) := const_decimal c in
  acheck vbounds (formula c) (Qmake (2 * m - 1) (2 * Z.to_pos (10 ^ k))) (Qmake (2 * m + 1) (2 * Z.to_pos (10 ^ k))).
Lemma check_digit_ok c r : check_digit c = true -> constant_is c r -> let '(m, k) := const_decimal c in to_last_digit r m k.
Proof.
  intros H Hr. apply formula_ok in Hr. destruct Hr as (z3 & l4 & c2 & i3 & A & B & C & D & <-).
  unfold check_digit in H. destruct (const_decimal c) as [m k] eqn:E.
  assert (K : (0 < 10 ^ k)%Z) by (apply Z.pow_pos_nonneg; [reflexivity|]; destruct c; cbn in E; injection E; intros; subst; discriminate).
  pose proof (acheck_ok _ _ _ _ _ (vatoms_in _ _ _ _ A B C D) H) as [L U].
  rewrite Q2R_make, Pos2Z.inj_mul, mult_IZR, Z2Pos.id in L, U by exact K.
  assert (P : 0 < / IZR (10 ^ k)) by (apply Rinv_0_lt_compat, IZR_lt, K).
  assert (N : IZR (10 ^ k) <> 0) by (apply not_0_IZR; lia).
  rewrite minus_IZR, mult_IZR in L. rewrite plus_IZR, mult_IZR in U. unfold to_last_digit. set (d := IZR (10 ^ k)) in *.
  set (v := aeval _ _) in *. clearbody v d. clear - P N L U. 
  replace ((2 * IZR m - 1) / (2 * d)) with (IZR m * / d - /2 * / d) in L by (field; exact N).
  replace ((2 * IZR m + 1) / (2 * d)) with (IZR m * / d + /2 * / d) in U by (field; exact N).
  unfold Rdiv. apply Rabs_le. lra.
Qed.
(** every printed digit of every literal except the three loop factors is right (last digit rounded) *)
Theorem C47_last_digit c r : c <> ConeLoop -> c <> CtwoLoop -> c <> CthreeLoop -> constant_is c r ->
  let '(m, k) := const_decimal c in to_last_digit r m k.
Proof.
  intros H1 H2 H3. apply check_digit_ok. destruct c; try (vm_compute; reflexivity); congruence.
Qed.

(** FINDING: the loop factors 1/(4 pi)^2, 1/(4 pi)^4, 1/(4 pi)^6 are wrong in their last three (or two) printed digits:
    by more than 247, 318 and 83 units of the last printed digit (they still round to the nearest double, see above) *)
Definition check_off (c : mathconst) (u : Z) : bool :=
  let '(m, k) := const_decimal c in
  acheck vbounds (formula c) (Qmake (m - u - 1) (Z.to_pos (10 ^ k))) (Qmake (m - u) (Z.to_pos (10 ^ k))) ||
  acheck vbounds (formula c) (Qmake (m + u) (Z.to_pos (10 ^ k))) (Qmake (m + u + 1) (Z.to_pos (10 ^ k))).
Lemma check_off_ok c u r : (0 <= u)%Z -> check_off c u = true -> constant_is c r ->
  let '(m, k) := const_decimal c in Rabs (r - IZR m / IZR (10 ^ k)) > IZR u / IZR (10 ^ k).
Proof.
  intros Hu H Hr. apply formula_ok in Hr. destruct Hr as (z3 & l4 & c2 & i3 & A & B & C & D & <-).
  unfold check_off in H. destruct (const_decimal c) as [m k] eqn:E.
  assert (K : (0 < 10 ^ k)%Z) by (apply Z.pow_pos_nonneg; [reflexivity|]; destruct c; cbn in E; injection E; intros; subst; discriminate).
  assert (P : 0 < / IZR (10 ^ k)) by (apply Rinv_0_lt_compat, IZR_lt, K).
  apply orb_prop in H. destruct H as [H|H]; pose proof (acheck_ok _ _ _ _ _ (vatoms_in _ _ _ _ A B C D) H) as [L U];
    rewrite Q2R_make, Z2Pos.id in L, U by exact K; rewrite ?plus_IZR, ?minus_IZR in L, U; set (d := IZR (10 ^ k)) in *;
    set (v := aeval _ _) in *; clearbody v d; apply IZR_le in Hu; unfold Rdiv in *; unfold Rabs; destruct (Rcase_abs _); nra.
Qed.
Theorem C47_loop_factor_digits_refuted r1 r2 r3 :
  constant_is ConeLoop r1 -> constant_is CtwoLoop r2 -> constant_is CthreeLoop r3 ->
  Rabs (r1 - 6332573977646110963 / IZR (10 ^ 21)) > 247 / IZR (10 ^ 21) /\
  Rabs (r2 - 4010149318236068752 / IZR (10 ^ 23)) > 318 / IZR (10 ^ 23) /\
  Rabs (r3 - 2539456721913701978 / IZR (10 ^ 25)) > 83 / IZR (10 ^ 25).
Proof.
  intros H1 H2 H3. split; [|split].
  - apply (check_off_ok ConeLoop 247 r1); [discriminate|vm_compute; reflexivity|exact H1].
  - apply (check_off_ok CtwoLoop 318 r2); [discriminate|vm_compute; reflexivity|exact H2].
  - apply (check_off_ok CthreeLoop 83 r3); [discriminate|vm_compute; reflexivity|exact H3].
Qed.

(** FINDING: the literal -1.7628000870737709 for B4 has too few digits: the stored double is not the one nearest to B4
    (the neighbouring double is closer) *)
Lemma nearer r e x : - (x + /2) * powerRZ 2 e < r < - (x - /2) * powerRZ 2 e ->
  Rabs (r - -1 * x * powerRZ 2 e) < Rabs (r - -1 * (x + 1) * powerRZ 2 e).
Proof.
  intros H. pose proof (pow2_pos e) as P. set (p := powerRZ 2 e) in *.
  unfold Rabs. destruct (Rcase_abs (r - -1 * x * p)), (Rcase_abs (r - -1 * (x + 1) * p)); nra.
Qed.
Theorem C47_B4_not_nearest_refuted lm r : constant_is CB4 r -> ~ nearest_double r (stored lm CB4).
Proof.
  intros Hr. replace (stored lm CB4) with (S754_finite true 7938945815274113 (-52)) by (vm_compute; reflexivity).
  apply (not_nearest _ _ _ _ (S754_finite true 7938945815274112 (-52))); [reflexivity|reflexivity|].
  apply formula_ok in Hr. destruct Hr as (z3 & l4 & c2 & i3 & A & B & C & D & <-).
  assert (K : acheck vbounds (formula CB4) (Qmake (-15877891630548225) (2 ^ 53)) (Qmake (-15877891630548223) (2 ^ 53)) = true) by (vm_compute; reflexivity).
  pose proof (acheck_ok _ _ _ _ _ (vatoms_in _ _ _ _ A B C D) K) as H. clear K.
  rewrite !Q2R_make in H. set (v := aeval _ _) in *. clearbody v.
  cbn [f64_value]. replace 7938945815274113 with (7938945815274112 + 1) by lra. apply nearer.
  rewrite (pow2_neg 52). change (Pos.succ 52) with 53%positive. change (Pos.pow 2 53) with 9007199254740992%positive in *. lra.
Qed.

(** all nineteen constants, B4 included, have a relative error below 1.3e-16 *)
Definition check_rel (c : mathconst) : bool :=
  let '(m, k) := const_decimal c in
  match F64dec m k with
  | S754_finite s n (Zneg e) =>
      let v := Qmake (sgnZ s n) (Pos.pow 2 e) in
      acheck vbounds (formula c)
        (v - (Qmake (Zpos n) (Pos.pow 2 e)) * Qmake 125 1000000000000000000)%Q
        (v + (Qmake (Zpos n) (Pos.pow 2 e)) * Qmake 125 1000000000000000000)%Q
  | _ => false
  end.
Theorem C47_relative_error lm c r : constant_is c r ->
  Rabs (f64_value (stored lm c) - r) <= 13 / IZR (10 ^ 17) * Rabs r.
Proof.
  intros Hr. assert (K : check_rel c = true) by (destruct c; vm_compute; reflexivity).
  apply formula_ok in Hr. destruct Hr as (z3 & l4 & c2 & i3 & A & B & C & D & <-).
  unfold stored. change (@nconst F64 (NumF lm) c) with (let '(m, k) := const_decimal c in F64dec m k).
  unfold check_rel in K. destruct (const_decimal c) as [m k]. destruct (F64dec m k) as [| | |s n e0]; try discriminate K.
  destruct e0 as [| |e]; try discriminate K.
  pose proof (acheck_ok _ _ _ _ _ (vatoms_in _ _ _ _ A B C D) K) as [L U]. rewrite Q2R_minus, Q2R_mult in L. rewrite Q2R_plus, Q2R_mult in U.
  rewrite !Q2R_make in L, U. rewrite f64_value_sgn.
  assert (E : powerRZ 2 (Zneg e) = / IZR (Zpos (Pos.pow 2 e))).
  { cbn [powerRZ]. f_equal. rewrite Pos2Z.inj_pow, <- (positive_nat_Z e), <- pow_IZR. reflexivity. }
  rewrite E. set (p := IZR (Zpos (Pos.pow 2 e))) in *. assert (P : 0 < / p) by (apply Rinv_0_lt_compat, IZR_lt; reflexivity).
  set (v := aeval _ _) in *. clearbody v. clear K E.
  assert (N : 1 <= IZR (Zpos n)) by (apply IZR_le; lia). change (10 ^ 17)%Z with 100000000000000000%Z.
  assert (SG : IZR (sgnZ s n) = IZR (Zpos n) \/ IZR (sgnZ s n) = - IZR (Zpos n)).
  { destruct s; [right|left; reflexivity]. cbn [sgnZ]. rewrite <- opp_IZR. reflexivity. }
  unfold Rdiv in *. set (x := IZR (Zpos n)) in *. set (y := IZR (sgnZ s n)) in *. set (q := / p) in *.
  assert (X : 0 < x * q) by (apply Rmult_lt_0_compat; lra).
  destruct SG as [-> | ->]; unfold Rabs; destruct (Rcase_abs _), (Rcase_abs _); nra.
Qed.
