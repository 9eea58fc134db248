(** * C43: calls of the two-loop wrappers from several threads *)
From Coq Require Import List Arith Lia Bool.
From Verif Require Import Lock.
Import ListNotations.

Section C43.
  Context {V Args Res F : Type}.
  Variable vplus : V -> V -> V.
  Variable term : Args -> nat -> V.
  Variable swap guard : Args -> Args.
  Variable funcs : Args -> list V -> list V -> F.
  Variable higgs odd : Args -> F -> Res.
  Variable combine : Res -> Res -> Res.

  (** ** Specification: what one call returns when nothing else runs *)
  Definition positions (i : nat) : list nat :=
    filter (fun j => Nat.eqb (nth j makederiv_assigns 99) i) (seq 0 (length makederiv_assigns)).
  (** the i-th derivative: the sum of its parts *)
  Definition derivative (a : Args) (i : nat) : list V :=
    match positions i with
    | [] => []
    | j :: js => [fold_left (fun x j' => vplus x (term a j')) js (term a j)]
    end.
  Definition functions (a : Args) : F :=
    funcs a (flat_map (derivative (swap a)) copied) (flat_map (derivative a) (seq 0 38)).
  Definition result_odd (a : Args) : Res := odd (guard a) (functions (guard a)).
  Definition result (c : call Args Res) : Res :=
    match c with
    | CallHiggs a => combine (higgs (guard a) (functions (guard a))) (result_odd (guard a))
    | CallOdd a => result_odd a
    | CallOther r => r
    end.

  Local Notation program := (thread_program vplus term swap guard funcs higgs odd combine).
  Local Notation start := (initial vplus term swap guard funcs higgs odd combine).

  (** ** A program running alone *)
  Fixpoint alone (p : prog V Res) (cm : nat -> V) : list Res :=
    match p with
    | Done => []
    | Lock k | Unlock k | Enter k | Leave k => alone k cm
    | Wr i v k => alone k (upd cm i v)
    | Rd i k => alone (k (cm i)) cm
    | Emit r k => r :: alone k cm
    end.
  Definition indep (p : prog V Res) : Prop := forall cm cm', alone p cm = alone p cm'.

  Fixpoint wl (held ins : bool) (p : prog V Res) : Prop :=
    match p with
    | Done => held = false /\ ins = false
    | Lock k => held = false /\ ins = false /\ wl true false k
    | Unlock k => held = true /\ ins = false /\ wl false false k /\ indep k
    | Enter k => held = true /\ ins = false /\ wl true true k
    | Leave k => held = true /\ ins = true /\ wl true false k
    | Wr _ _ k => held = true /\ ins = true /\ wl true true k
    | Rd _ k => held = true /\ ins = true /\ forall v, wl true true (k v)
    | Emit _ k => wl held ins k
    end.

  (** the COMMON block after the assignments of makederiv *)
  Fixpoint after (a : Args) (l : list nat) (seen : list nat) (j : nat) (cm : nat -> V) : nat -> V :=
    match l with
    | [] => cm
    | i :: r =>
        if existsb (Nat.eqb i) seen
        then after a r seen (S j) (upd cm i (vplus (cm i) (term a j)))
        else after a r (i :: seen) (S j) (upd cm i (term a j))
    end.
  Lemma alone_assigns a l : forall seen j k cm,
    alone (assigns vplus term a l seen j k) cm = alone k (after a l seen j cm).
  Proof.
    induction l as [|i l IH]; intros seen j k cm; cbn [assigns after]; [reflexivity|].
    destruct (existsb _ seen); cbn [alone]; apply IH.
  Qed.
  Lemma alone_reads l : forall acc k cm, alone (reads (Res := Res) (V := V) l acc k) cm = alone (k (acc ++ map cm l)) cm.
  Proof.
    induction l as [|i l IH]; intros acc k cm; cbn [reads alone map]; [now rewrite app_nil_r|].
    rewrite IH, <- app_assoc. reflexivity.
  Qed.
  Lemma after_derivative a cm i : (i < 38)%nat -> [after a makederiv_assigns [] 0 cm i] = derivative a i.
  Proof.
    intros H. do 38 (destruct i as [|i]; [vm_compute; reflexivity|]). lia.
  Qed.
  Lemma map_after a cm l : Forall (fun i => i < 38)%nat l ->
    map (after a makederiv_assigns [] 0 cm) l = flat_map (derivative a) l.
  Proof.
    induction 1 as [|i l Hi Hl IH]; [reflexivity|]. cbn [map flat_map]. rewrite <- (after_derivative a cm i Hi), IH.
    reflexivity.
  Qed.
  Lemma alone_makefuncs a k cm :
    exists cm', alone (makefuncs vplus term swap funcs a k) cm = alone (k (functions a)) cm'.
  Proof.
    eexists. unfold makefuncs, makederiv. rewrite alone_assigns, alone_reads. cbn [app].
    rewrite alone_assigns, alone_reads. cbn [app]. rewrite map_after, map_after; [reflexivity| |].
    - apply Forall_forall. intros i Hi. apply in_seq in Hi. lia.
    - repeat constructor.
  Qed.

  Lemma wl_assigns a l : forall seen j k, wl true true k -> wl true true (assigns vplus term a l seen j k).
  Proof.
    induction l as [|i l IH]; intros seen j k Hk; cbn [assigns]; [exact Hk|].
    destruct (existsb _ seen); cbn [wl]; repeat split; auto.
  Qed.
  Lemma wl_reads l : forall acc k, (forall d, wl true true (k d)) -> wl true true (reads (Res := Res) (V := V) l acc k).
  Proof. induction l as [|i l IH]; intros acc k Hk; cbn [reads]; [apply Hk|]. cbn [wl]. repeat split; auto. Qed.
  Lemma wl_makefuncs a k : (forall f, wl true true (k f)) -> wl true true (makefuncs vplus term swap funcs a k).
  Proof.
    intros Hk. unfold makefuncs, makederiv. apply wl_assigns, wl_reads. intros c. apply wl_assigns, wl_reads.
    intros d. apply Hk.
  Qed.

  Lemma alone_Lock k cm : alone (Lock k) cm = alone k cm. Proof. reflexivity. Qed.
  Lemma alone_Unlock k cm : alone (Unlock k) cm = alone k cm. Proof. reflexivity. Qed.
  Lemma alone_Enter k cm : alone (Enter k) cm = alone k cm. Proof. reflexivity. Qed.
  Lemma alone_Leave k cm : alone (Leave k) cm = alone k cm. Proof. reflexivity. Qed.
  Lemma alone_Emit r k cm : alone (Emit r k) cm = r :: alone k cm. Proof. reflexivity. Qed.
  Lemma alone_ma2 a k cm :
    exists cm', alone (delta_ma2_2loop_at_at vplus term swap guard funcs odd a k) cm = alone (k (result_odd a)) cm'.
  Proof.
    unfold delta_ma2_2loop_at_at. rewrite alone_Lock, alone_Enter.
    destruct (alone_makefuncs (guard a) (fun f => Leave (Unlock (k (odd (guard a) f)))) cm) as [cm' E].
    exists cm'. rewrite E, alone_Leave, alone_Unlock. reflexivity.
  Qed.
  Lemma alone_mh2 a k cm :
    exists cm', alone (delta_mh2_2loop_at_at vplus term swap guard funcs higgs odd combine a k) cm
      = alone (k (result (CallHiggs a))) cm'.
  Proof.
    unfold delta_mh2_2loop_at_at. rewrite alone_Lock, alone_Enter.
    match goal with |- context[makefuncs vplus term swap funcs ?x ?y] =>
      destruct (alone_makefuncs x y cm) as [c1 E1]; rewrite E1 end.
    rewrite alone_Leave, alone_Unlock. destruct (alone_ma2 (guard a) (fun r2 => k (combine (higgs (guard a) (functions (guard a))) r2)) c1)
      as [c2 E2].
    exists c2. rewrite E2. reflexivity.
  Qed.
  Lemma alone_call c k cm : exists cm',
    alone (run_call vplus term swap guard funcs higgs odd combine c k) cm = result c :: alone k cm'.
  Proof.
    destruct c as [a|a|r]; cbn [run_call].
    - destruct (alone_mh2 a (fun r => Emit r k) cm) as [c' E]. exists c'. rewrite E, alone_Emit. reflexivity.
    - destruct (alone_ma2 a (fun r => Emit r k) cm) as [c' E]. exists c'. rewrite E, alone_Emit. reflexivity.
    - exists cm. reflexivity.
  Qed.
  Lemma alone_thread cs : forall cm, alone (program cs) cm = map result cs.
  Proof.
    induction cs as [|c cs IH]; intros cm; [reflexivity|]. cbn [thread_program fold_right map].
    destruct (alone_call c (program cs) cm) as [cm' E]. unfold thread_program in *. rewrite E, IH. reflexivity.
  Qed.
  Lemma indep_thread cs : indep (program cs).
  Proof. intros cm cm'. rewrite !alone_thread. reflexivity. Qed.

  Lemma wl_LE k : wl true true k -> wl false false (Lock (Enter k)).
  Proof. intros H. cbn [wl]. repeat split; assumption. Qed.
  Lemma wl_LU k : wl false false k -> indep k -> wl true true (Leave (Unlock k)).
  Proof. intros H H'. cbn [wl]. repeat split; assumption. Qed.
  Lemma wl_ma2 a k : (forall r, wl false false (k r) /\ indep (k r)) ->
    wl false false (delta_ma2_2loop_at_at vplus term swap guard funcs odd a k).
  Proof.
    intros Hk. unfold delta_ma2_2loop_at_at. apply wl_LE, wl_makefuncs. intros f. apply wl_LU; apply Hk.
  Qed.
  Lemma indep_ma2 a k : (forall r, indep (k r)) ->
    indep (delta_ma2_2loop_at_at vplus term swap guard funcs odd a k).
  Proof.
    intros Hk c1 c2. destruct (alone_ma2 a k c1) as [x ->]. destruct (alone_ma2 a k c2) as [y ->]. apply Hk.
  Qed.
  Lemma wl_call c k : wl false false k -> indep k ->
    wl false false (run_call vplus term swap guard funcs higgs odd combine c k).
  Proof.
    intros Hk Hi. assert (HE : forall r, wl false false (Emit r k) /\ indep (Emit r k)).
    { intros r. split; [exact Hk|]. intros c1 c2. cbn. f_equal. apply Hi. }
    destruct c as [a|a|r]; cbn [run_call].
    - unfold delta_mh2_2loop_at_at. apply wl_LE, wl_makefuncs. intros f. apply wl_LU; [apply wl_ma2|apply indep_ma2]; intros r2; apply HE.
    - apply wl_ma2, HE.
    - apply HE.
  Qed.
  Lemma wl_thread cs : wl false false (program cs).
  Proof.
    induction cs as [|c cs IH]; [split; reflexivity|]. apply wl_call; [exact IH|apply indep_thread].
  Qed.

  (** ** The invariant *)
  Definition holds (s : state V Res) (t : nat) : bool :=
    match owner s with Some o => Nat.eqb o t | None => false end.
  Definition thread_ok (s : state V Res) (t : nat) (th : thread V Res) (cs : list (call Args Res)) : Prop :=
    wl (holds s t) (t_inside th) (t_prog th)
    /\ t_results th ++ alone (t_prog th) (common s) = map result cs
    /\ (holds s t = false -> indep (t_prog th)).
  Definition inv (calls : list (list (call Args Res))) (s : state V Res) : Prop :=
    length (threads s) = length calls
    /\ (forall o, owner s = Some o -> (o < length calls)%nat)
    /\ forall t th cs, nth_error (threads s) t = Some th -> nth_error calls t = Some cs -> thread_ok s t th cs.

  Lemma set_nth_length {A} (l : list A) n x : length (set_nth l n x) = length l.
  Proof. revert n. induction l as [|y l IH]; intros [|n]; cbn; auto. Qed.
  Lemma set_nth_same {A} (l : list A) n x y : nth_error l n = Some y -> nth_error (set_nth l n x) n = Some x.
  Proof. revert n. induction l as [|z l IH]; intros [|n]; cbn; try discriminate; auto. Qed.
  Lemma set_nth_other {A} (l : list A) n m x : n <> m -> nth_error (set_nth l n x) m = nth_error l m.
  Proof. revert n m. induction l as [|z l IH]; intros [|n] [|m] H; cbn; auto; try congruence. Qed.

  Lemma initial_inv cm calls : inv calls (start cm calls).
  Proof.
    unfold initial. split; [|split].
    - cbn. apply map_length.
    - cbn. discriminate.
    - cbn [threads]. intros t th cs H1 H2. rewrite nth_error_map, H2 in H1. cbn in H1. injection H1. intros <-.
      unfold thread_ok. cbn [t_prog t_inside t_results holds owner common app].
      repeat split; [apply wl_thread|apply alone_thread|]. intros _. apply indep_thread.
  Qed.

  Lemma step_inv calls s t s' : inv calls s -> step s t = Some s' -> inv calls s'.
  Proof.
    intros (HL & HO & HT). unfold step. destruct (nth_error (threads s) t) as [[p ins rs]|] eqn:Ht; [|discriminate].
    assert (Hc : exists cs, nth_error calls t = Some cs).
    { destruct (nth_error calls t) as [cs|] eqn:E; [eauto|]. apply nth_error_None in E.
      assert (nth_error (threads s) t <> None) as W by congruence. apply nth_error_Some in W. lia. }
    destruct Hc as [cs Hcs]. assert (Htl : (t < length calls)%nat) by (apply nth_error_Some; congruence).
    pose proof (HT t _ cs Ht Hcs) as (W & A & I). cbn [t_prog t_inside t_results] in W, A, I.
    (* the other threads: the owner is unaffected or was/becomes t; COMMON changes only if t holds the lock *)
    assert (OTHER : forall o' cm' th', 
       (forall u, u <> t -> match o' with Some o => Nat.eqb o u | None => false end = holds s u) ->
       (holds s t = true \/ cm' = common s) ->
       (forall o, o' = Some o -> (o < length calls)%nat) ->
       thread_ok (mkState o' cm' (set_nth (threads s) t th')) t th' cs ->
       inv calls (mkState o' cm' (set_nth (threads s) t th'))).
    { intros o' cm' th' Ho Hcm Hb Hth. split; [|split].
      - cbn. rewrite set_nth_length. exact HL.
      - exact Hb.
      - cbn [threads]. intros u th2 cs2 H1 H2. destruct (Nat.eq_dec t u) as [<-|Hne].
        + rewrite (set_nth_same _ _ _ _ Ht) in H1. injection H1. intros <-. rewrite Hcs in H2. injection H2. intros <-.
          exact Hth.
        + rewrite (set_nth_other _ _ _ _ Hne) in H1. pose proof (HT u th2 cs2 H1 H2) as (W2 & A2 & I2).
          unfold thread_ok. cbn [holds owner common]. unfold holds at 1. cbn [owner]. rewrite Ho by auto.
          repeat split; [exact W2| |intros Hf; apply I2; unfold holds in Hf; cbn [owner] in Hf; rewrite Ho in Hf by auto; exact Hf].
          destruct Hcm as [Hcm| ->]; [|exact A2].
          assert (Hu : holds s u = false).
          { unfold holds in *. destruct (owner s) as [o|]; [|discriminate]. apply Nat.eqb_eq in Hcm. subst o.
            apply Nat.eqb_neq. congruence. }
          rewrite <- A2. f_equal. apply I2, Hu. }
    assert (HOLD : holds s t = true -> owner s = Some t).
    { unfold holds. destruct (owner s) as [o|]; [|discriminate]. intros E. apply Nat.eqb_eq in E. now subst. }
    assert (KEEP : forall u : nat, u <> t -> match owner s with Some o => Nat.eqb o u | None => false end = holds s u)
      by (intros; reflexivity).
    destruct p as [|k|k|k|k|i v k|i k|r k]; cbn [wl alone] in W, A.
    - discriminate.
    - destruct W as (W1 & W2 & W3). destruct (owner s) as [o|] eqn:Eo; [discriminate|]. intros E. injection E. intros <-.
      apply OTHER.
      + intros u Hu. unfold holds. rewrite Eo. apply Nat.eqb_neq. congruence.
      + right. reflexivity.
      + intros o E2. injection E2. intros <-. exact Htl.
      + unfold thread_ok. cbn [holds owner common t_prog t_inside t_results]. unfold holds. cbn [owner].
        rewrite Nat.eqb_refl. rewrite W2. repeat split; [exact W3|exact A|discriminate].
    - destruct W as (W1 & W2 & W3 & W4). intros E. injection E. intros <-. apply OTHER.
      + intros u Hu. unfold holds. rewrite (HOLD W1). symmetry. apply Nat.eqb_neq. congruence.
      + right. reflexivity.
      + discriminate.
      + unfold thread_ok. cbn [holds owner common t_prog t_inside t_results]. rewrite W2.
        repeat split; [exact W3|exact A|intros _; exact W4].
    - destruct W as (W1 & W2 & W3). intros E. injection E. intros <-. apply OTHER; auto.
      unfold thread_ok. cbn [holds owner common t_prog t_inside t_results].
      change (holds (mkState (owner s) (common s) _) t) with (holds s t). rewrite W1.
      repeat split; [exact W3|exact A|discriminate].
    - destruct W as (W1 & W2 & W3). intros E. injection E. intros <-. apply OTHER; auto.
      unfold thread_ok. cbn [holds owner common t_prog t_inside t_results].
      change (holds (mkState (owner s) (common s) _) t) with (holds s t). rewrite W1.
      repeat split; [exact W3|exact A|discriminate].
    - destruct W as (W1 & W2 & W3). intros E. injection E. intros <-. apply OTHER; auto.
      unfold thread_ok. cbn [holds owner common t_prog t_inside t_results].
      change (holds (mkState (owner s) _ _) t) with (holds s t). rewrite W1, W2.
      repeat split; [exact W3|exact A|discriminate].
    - destruct W as (W1 & W2 & W3). intros E. injection E. intros <-. apply OTHER; auto.
      unfold thread_ok. cbn [holds owner common t_prog t_inside t_results].
      change (holds (mkState (owner s) _ _) t) with (holds s t). rewrite W1, W2.
      repeat split; [apply W3|exact A|discriminate].
    - intros E. injection E. intros <-. apply OTHER; auto.
      unfold thread_ok. cbn [holds owner common t_prog t_inside t_results].
      change (holds (mkState (owner s) _ _) t) with (holds s t).
      repeat split; [exact W|rewrite <- app_assoc; exact A|].
      intros Hf c1 c2. specialize (I Hf c1 c2). cbn [alone] in I. congruence.
  Qed.

  Lemma run_inv calls : forall schedule s, inv calls s -> inv calls (run s schedule).
  Proof.
    induction schedule as [|t r IH]; intros s Hs; [exact Hs|]. cbn [run fold_left]. apply IH.
    unfold step_or_skip. destruct (step s t) eqn:E; [eapply step_inv; eauto|exact Hs].
  Qed.

  (** ** Bounded number of steps *)
  Fixpoint at_most (p : prog V Res) (n : nat) : Prop :=
    match p with
    | Done => True
    | Lock k | Unlock k | Enter k | Leave k | Wr _ _ k | Emit _ k =>
        match n with O => False | S m => at_most k m end
    | Rd _ k => match n with O => False | S m => forall v, at_most (k v) m end
    end.
  Lemma at_most_assigns a l : forall seen j k n, at_most k n ->
    exists m, at_most (assigns vplus term a l seen j k) m.
  Proof.
    induction l as [|i l IH]; intros seen j k n Hk; cbn [assigns]; [eauto|].
    destruct (existsb _ seen).
    - destruct (IH seen (S j) k n Hk) as [m Hm]. exists (S (S m)). intros v. exact Hm.
    - destruct (IH (i :: seen) (S j) k n Hk) as [m Hm]. exists (S m). exact Hm.
  Qed.
  Lemma at_most_reads l : forall acc k n, (forall d, at_most (k d) n) ->
    at_most (reads (Res := Res) (V := V) l acc k) (length l + n).
  Proof. induction l as [|i l IH]; intros acc k n Hk; [apply Hk|]. cbn [reads at_most length Nat.add]. intros v. apply IH, Hk. Qed.
  Lemma at_most_assigns_u a l : forall seen j, exists m, forall k n, at_most k n ->
    at_most (assigns vplus term a l seen j k) (m + n).
  Proof.
    induction l as [|i l IH]; intros seen j; cbn [assigns]; [exists 0; auto|].
    destruct (existsb _ seen).
    - destruct (IH seen (S j)) as [m Hm]. exists (S (S m)). intros k n Hk v. exact (Hm k n Hk).
    - destruct (IH (i :: seen) (S j)) as [m Hm]. exists (S m). intros k n Hk. exact (Hm k n Hk).
  Qed.
  Lemma at_most_makefuncs a n : exists m, forall k, (forall f, at_most (k f) n) ->
    at_most (makefuncs vplus term swap funcs a k) m.
  Proof.
    destruct (at_most_assigns_u (swap a) makederiv_assigns [] 0) as [m1 H1].
    destruct (at_most_assigns_u a makederiv_assigns [] 0) as [m2 H2].
    exists (m1 + (length copied + (m2 + (length (seq 0 38) + n)))). intros k Hk.
    apply H1, at_most_reads. intros c. apply H2, at_most_reads. intros d. apply Hk.
  Qed.
  Lemma at_most_LE k n : at_most k n -> at_most (Lock (Enter k)) (S (S n)).
  Proof. intros H. exact H. Qed.
  Lemma at_most_LU k n : at_most k n -> at_most (Leave (Unlock k)) (S (S n)).
  Proof. intros H. exact H. Qed.
  Lemma at_most_ma2 a n : exists m, forall k, (forall r, at_most (k r) n) ->
    at_most (delta_ma2_2loop_at_at vplus term swap guard funcs odd a k) m.
  Proof.
    destruct (at_most_makefuncs (guard a) (S (S n))) as [m Hm]. exists (S (S m)). intros k Hk.
    apply at_most_LE, Hm. intros f. apply at_most_LU, Hk.
  Qed.
  Lemma at_most_call c k n : at_most k n -> exists m, at_most (run_call vplus term swap guard funcs higgs odd combine c k) m.
  Proof.
    intros Hk. destruct c as [a|a|r]; cbn [run_call].
    - destruct (at_most_ma2 (guard a) (S n)) as [m1 H1].
      destruct (at_most_makefuncs (guard a) (S (S m1))) as [m2 H2]. exists (S (S m2)).
      apply at_most_LE, H2. intros f. apply at_most_LU, H1. intros r. exact Hk.
    - destruct (at_most_ma2 a (S n)) as [m1 H1]. exists m1. apply H1. intros r. exact Hk.
    - exists (S n). exact Hk.
  Qed.
  Lemma at_most_thread cs : exists m, at_most (program cs) m.
  Proof.
    induction cs as [|c cs [m IH]]; [exists 0; exact I|]. apply (at_most_call c _ m IH).
  Qed.

  Definition total_at_most (ths : list (thread V Res)) (B : nat) : Prop :=
    exists ns, Forall2 (fun th n => at_most (t_prog th) n) ths ns /\ list_sum ns = B.
  Lemma total_step ths ns t th th' :
    Forall2 (fun th n => at_most (t_prog th) n) ths ns -> nth_error ths t = Some th ->
    (forall n, at_most (t_prog th) n -> exists m, n = S m /\ at_most (t_prog th') m) ->
    exists ns', Forall2 (fun th n => at_most (t_prog th) n) (set_nth ths t th') ns' /\ list_sum ns = S (list_sum ns').
  Proof.
    intros Hf. revert t. induction Hf as [|x n xs ns Hx Hf IH]; intros [|t] Ht Hs; cbn in Ht; try discriminate.
    - injection Ht. intros ->. destruct (Hs n Hx) as (m & -> & Hm). exists (m :: ns).
      split; [constructor; assumption|reflexivity].
    - destruct (IH t Ht Hs) as (ns' & Hf' & Hsum). exists (n :: ns').
      split; [constructor; assumption|]. cbn [list_sum fold_right]. unfold list_sum in Hsum. rewrite Hsum. lia.
  Qed.
  Lemma step_total s t s' B : step s t = Some s' -> total_at_most (threads s) B ->
    exists B', B = S B' /\ total_at_most (threads s') B'.
  Proof.
    unfold step. destruct (nth_error (threads s) t) as [[p ins rs]|] eqn:Ht; [|discriminate].
    intros E (ns & Hf & HB).
    assert (G : forall p' ins' rs' o cm, s' = mkState o cm (set_nth (threads s) t (mkThread p' ins' rs')) ->
      (forall n, at_most p n -> exists m, n = S m /\ at_most p' m) ->
      exists B', B = S B' /\ total_at_most (threads s') B').
    { intros p' ins' rs' o cm -> Hp. destruct (total_step _ _ _ _ (mkThread p' ins' rs') Hf Ht Hp) as (ns' & Hf' & Hs).
      exists (list_sum ns'). split; [congruence|]. exists ns'. split; [exact Hf'|reflexivity]. }
    destruct p as [|k|k|k|k|i v k|i k|r k]; try discriminate E.
    - destruct (owner s); [discriminate|]. injection E. intros <-. eapply G; [reflexivity|].
      intros [|n] Hn; [destruct Hn|]. eauto.
    - injection E. intros <-. eapply G; [reflexivity|]. intros [|n] Hn; [destruct Hn|]. eauto.
    - injection E. intros <-. eapply G; [reflexivity|]. intros [|n] Hn; [destruct Hn|]. eauto.
    - injection E. intros <-. eapply G; [reflexivity|]. intros [|n] Hn; [destruct Hn|]. eauto.
    - injection E. intros <-. eapply G; [reflexivity|]. intros [|n] Hn; [destruct Hn|]. eauto.
    - injection E. intros <-. eapply G; [reflexivity|]. intros [|n] Hn; [destruct Hn|]. eauto.
    - injection E. intros <-. eapply G; [reflexivity|]. intros [|n] Hn; [destruct Hn|]. eauto.
  Qed.

  (** every thread of the schedule could move when it was its turn *)
  Fixpoint effective (s : state V Res) (schedule : list nat) : Prop :=
    match schedule with
    | [] => True
    | t :: r => match step s t with Some s' => effective s' r | None => False end
    end.
  Lemma effective_bounded : forall schedule s B, effective s schedule -> total_at_most (threads s) B -> (length schedule <= B)%nat.
  Proof.
    induction schedule as [|t r IH]; intros s B He Ht; cbn [effective length] in *; [lia|].
    destruct (step s t) as [s'|] eqn:E; [|destruct He].
    destruct (step_total _ _ _ _ E Ht) as (B' & -> & Ht'). specialize (IH s' B' He Ht'). lia.
  Qed.
  Lemma total_initial cm calls : exists B, total_at_most (threads (start cm calls)) B.
  Proof.
    cbn [initial threads]. induction calls as [|cs calls [B (ns & Hf & HB)]]; [exists 0, []; split; [constructor|reflexivity]|].
    destruct (at_most_thread cs) as [m Hm]. exists (m + B), (m :: ns). split; [constructor; [exact Hm|exact Hf]|].
    cbn [list_sum fold_right]. unfold list_sum in HB. rewrite HB. reflexivity.
  Qed.

  (** ** The theorems.  [calls]: for every thread the calls it makes; [cm]: initial content of the COMMON block. *)
  Definition inside (s : state V Res) (t : nat) : Prop :=
    exists th, nth_error (threads s) t = Some th /\ t_inside th = true.
  Definition finished (s : state V Res) : Prop := Forall (fun th => t_prog th = Done) (threads s).

(** mutual exclusion *)
Theorem C43 cm (calls : list (list (call Args Res))) (schedule : list nat) (t1 t2 : nat) :
  let s := run (start cm calls) schedule in
  inside s t1 -> inside s t2 -> t1 = t2 /\ owner s = Some t1.
Proof.
  intros s. assert (H : inv calls s) by (apply run_inv, initial_inv).
  assert (G : forall t, inside s t -> owner s = Some t).
  { intros t (th & Hn & Hi). destruct H as (HL & HO & HT).
    assert (exists cs, nth_error calls t = Some cs) as [cs Hcs].
    { destruct (nth_error calls t) as [cs|] eqn:E; [eauto|]. apply nth_error_None in E.
      assert (nth_error (threads s) t <> None) as W by congruence. apply nth_error_Some in W. lia. }
    destruct (HT t th cs Hn Hcs) as (W & _ & _). rewrite Hi in W. clear - W. unfold holds in W.
    assert (forall h p, wl h true p -> h = true) as Q.
    { intros h p. induction p; cbn [wl]; intuition congruence. }
    apply Q in W. destruct (owner s) as [o|]; [|discriminate]. apply Nat.eqb_eq in W. now subst. }
  intros H1 H2. apply G in H1, H2. split; congruence.
Qed.

(** no deadlock: as long as a call is unfinished some thread can move; when all are finished the mutex is free *)
Theorem C43_no_deadlock cm (calls : list (list (call Args Res))) (schedule : list nat) :
  let s := run (start cm calls) schedule in
  (finished s /\ owner s = None) \/ (exists t s', step s t = Some s').
Proof.
  intros s. assert (H : inv calls s) by (apply run_inv, initial_inv). destruct H as (HL & HO & HT).
  assert (NC : forall t th, nth_error (threads s) t = Some th -> exists cs, nth_error calls t = Some cs).
  { intros t th Hn. destruct (nth_error calls t) as [cs|] eqn:E; [eauto|]. apply nth_error_None in E.
    assert (nth_error (threads s) t <> None) as W by congruence. apply nth_error_Some in W. lia. }
  destruct (owner s) as [o|] eqn:Eo.
  - right. pose proof (HO o eq_refl) as Hlt.
    destruct (nth_error (threads s) o) as [[p ins rs]|] eqn:Ht; [|apply nth_error_None in Ht; lia].
    destruct (NC _ _ Ht) as [cs Hcs]. destruct (HT o _ cs Ht Hcs) as (W & _ & _).
    unfold holds in W. rewrite Eo, Nat.eqb_refl in W. cbn [t_inside t_prog] in W.
    exists o. unfold step. rewrite Ht.
    destruct p as [|k|k|k|k|i v k|i k|r k]; cbn [wl] in W; try (eexists; reflexivity);
      destruct W as [W _]; discriminate.
  - assert (D : finished s \/ exists t th, nth_error (threads s) t = Some th /\ t_prog th <> Done).
    { unfold finished. clear. induction (threads s) as [|th l IH]; [left; constructor|].
      destruct (t_prog th) eqn:E.
      { destruct IH as [IH|(t & th' & A & B)]; [left; constructor; assumption|right; exists (S t), th'; auto]. }
      all: right; exists 0, th; split; [reflexivity|congruence]. }
    destruct D as [D|(t & [p ins rs] & Ht & Hd)]; [left; split; [exact D|reflexivity]|]. right.
    exists t. unfold step. rewrite Ht, Eo.
    destruct p; cbn [t_prog] in Hd; try (eexists; reflexivity). congruence.
Qed.

(** every execution ends: the number of moves is bounded by a number that depends on the calls only *)
Theorem C43_terminates cm (calls : list (list (call Args Res))) :
  exists B, forall schedule, effective (start cm calls) schedule -> (length schedule <= B)%nat.
Proof.
  destruct (total_initial cm calls) as [B HB]. exists B. intros schedule He. eapply effective_bounded; eauto.
Qed.

(** whatever the interleaving, every finished thread got the results it would have got alone *)
Theorem C43_results cm (calls : list (list (call Args Res))) (schedule : list nat) :
  let s := run (start cm calls) schedule in
  finished s -> map (@t_results V Res) (threads s) = map (map result) calls.
Proof.
  intros s Hf. assert (H : inv calls s) by (apply run_inv, initial_inv). destruct H as (HL & HO & HT).
  unfold finished in Hf. clearbody s. clear cm schedule HO.
  assert (G : forall t th cs, nth_error (threads s) t = Some th -> nth_error calls t = Some cs ->
    t_prog th = Done -> t_results th = map result cs).
  { intros t th cs H1 H2 H3. destruct (HT t th cs H1 H2) as (_ & A & _). rewrite H3 in A. cbn in A.
    rewrite app_nil_r in A. exact A. }
  clear HT. revert calls HL G. induction Hf as [|th l Hd Hf IH]; intros [|cs calls] HL G; cbn in HL; try lia; [reflexivity|].
  cbn [map]. f_equal.
  - apply (G 0 th cs); auto.
  - apply IH; [lia|]. intros t. apply (G (S t)).
Qed.
End C43.

Lemma inside_dec {V Res} (s : state V Res) t :
  match nth_error (threads s) t with Some th => t_inside th | None => false end = true -> inside s t.
Proof. unfold inside. destruct (nth_error (threads s) t) as [th|]; [eauto|discriminate]. Qed.
(** a non-trivial case: two threads, thread 0 has entered the Fortran routine, thread 1 waits for the mutex *)
Example C43_example :
  let s := run (initial Nat.add (fun a j => a + j) (fun a => a + 1) (fun a => a) (fun a c d => list_sum c + list_sum d)
                  (fun a f => a + f) (fun a f => a * f) Nat.add (fun _ => 7)
                  [[CallHiggs 3; CallOther 5]; [CallOdd 4]]) [0; 0; 1; 0] in
  inside s 0 /\ step s 1 = None /\ owner s = Some 0.
Proof. split; [|split]; [apply inside_dec; vm_compute; reflexivity|vm_compute; reflexivity|vm_compute; reflexivity]. Qed.

(** ... and the lock matters: the same two calls without it can give a different result *)
Example C43_lock_needed :
  let body a k := makefuncs Nat.add (fun a j => a + j) (fun a => a + 1) (fun a c d => list_sum c + list_sum d) a k in
  let th a : thread nat nat := mkThread (body a (fun f => Emit f Done)) false [] in
  let s0 := mkState None (fun _ => 7) [th 3; th 9] in
  let sequential := run s0 (repeat 0 1000 ++ repeat 1 1000) in
  let interleaved := run s0 (repeat 0 100 ++ repeat 1 1000 ++ repeat 0 1000) in
  finished sequential /\ finished interleaved
  /\ map (@t_results nat nat) (threads sequential) <> map (@t_results nat nat) (threads interleaved).
Proof.
  cbv zeta. split; [|split].
  - vm_compute. repeat constructor.
  - vm_compute. repeat constructor.
  - vm_compute. discriminate.
Qed.
