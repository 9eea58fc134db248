(** * Differentiation of large expressions with respect to one variable
    [dstep] proves [is_derive f x ?d] for the arithmetic expressions of the threshold corrections.  Subterms that do
    not contain the variable are not traversed, so that [d] stays small. *)
From Coq Require Import Reals Lra.
From Coquelicot Require Import Coquelicot.
From Verif Require Import Num NumFacts.
Open Scope R_scope.

Lemma dv_const (k x : R) : is_derive (fun _ : R => k) x 0.
Proof. apply (is_derive_const k x). Qed.
Lemma dv_id (x : R) : is_derive (fun L : R => L) x 1.
Proof. apply (is_derive_id x). Qed.
Lemma dv_add (f g : R -> R) (x a b : R) : is_derive f x a -> is_derive g x b -> is_derive (fun L : R => f L + g L) x (a + b).
Proof. intros. apply (is_derive_plus f g x a b); assumption. Qed.
Lemma dv_addl (k : R) (g : R -> R) (x b : R) : is_derive g x b -> is_derive (fun L : R => k + g L) x b.
Proof. intros H. replace b with (0 + b) by ring. apply dv_add; [apply dv_const | exact H]. Qed.
Lemma dv_addr (f : R -> R) (k x a : R) : is_derive f x a -> is_derive (fun L : R => f L + k) x a.
Proof. intros H. replace a with (a + 0) by ring. apply dv_add; [exact H | apply dv_const]. Qed.
Lemma dv_sub (f g : R -> R) (x a b : R) : is_derive f x a -> is_derive g x b -> is_derive (fun L : R => f L - g L) x (a - b).
Proof. intros. apply (is_derive_minus f g x a b); assumption. Qed.
Lemma dv_subl (k : R) (g : R -> R) (x b : R) : is_derive g x b -> is_derive (fun L : R => k - g L) x (- b).
Proof. intros H. replace (- b) with (0 - b) by ring. apply dv_sub; [apply dv_const | exact H]. Qed.
Lemma dv_subr (f : R -> R) (k x a : R) : is_derive f x a -> is_derive (fun L : R => f L - k) x a.
Proof. intros H. replace a with (a - 0) by ring. apply dv_sub; [exact H | apply dv_const]. Qed.
Lemma dv_opp (f : R -> R) (x a : R) : is_derive f x a -> is_derive (fun L : R => - f L) x (- a).
Proof. intros. apply (is_derive_opp f x a); assumption. Qed.
Lemma dv_mul (f g : R -> R) (x a b : R) : is_derive f x a -> is_derive g x b -> is_derive (fun L : R => f L * g L) x (a * g x + f x * b).
Proof. intros. apply (is_derive_mult f g x a b); try assumption. intros; apply Rmult_comm. Qed.
Lemma dv_mull (k : R) (g : R -> R) (x b : R) : is_derive g x b -> is_derive (fun L : R => k * g L) x (k * b).
Proof. intros H. replace (k * b) with (0 * g x + k * b) by ring. apply dv_mul; [apply dv_const | exact H]. Qed.
Lemma dv_mulr (f : R -> R) (k x a : R) : is_derive f x a -> is_derive (fun L : R => f L * k) x (a * k).
Proof. intros H. replace (a * k) with (a * k + f x * 0) by ring. apply (dv_mul f (fun _ => k)); [exact H | apply dv_const]. Qed.
Lemma dv_divr (f : R -> R) (k x a : R) : is_derive f x a -> is_derive (fun L : R => f L / k) x (a / k).
Proof. intros H. apply dv_mulr, H. Qed.
Lemma dv_pow2 (f : R -> R) (x a : R) : is_derive f x a -> is_derive (fun L : R => pow2 (f L)) x (2 * f x * a).
Proof. intros H. replace (2 * f x * a) with (a * f x + f x * a) by ring. apply (dv_mul f f); exact H. Qed.
Lemma dv_pow3 (f : R -> R) (x a : R) : is_derive f x a -> is_derive (fun L : R => pow3 (f L)) x (3 * (f x * f x) * a).
Proof.
  intros H. replace (3 * (f x * f x) * a) with ((2 * f x * a) * f x + (f x * f x) * a) by ring.
  apply (dv_mul (fun L => f L * f L) f); [apply (dv_pow2 f x a H) | exact H].
Qed.
Lemma dv_pow4 (f : R -> R) (x a : R) : is_derive f x a -> is_derive (fun L : R => pow4 (f L)) x (4 * pow3 (f x) * a).
Proof.
  intros H. unfold pow4. replace (4 * pow3 (f x) * a) with (2 * pow2 (f x) * (2 * f x * a)) by (unfold pow3, pow2; unR; ring).
  apply (dv_pow2 (fun L => pow2 (f L))), dv_pow2, H.
Qed.
Lemma dv_pow5 (f : R -> R) (x a : R) : is_derive f x a -> is_derive (fun L : R => pow5 (f L)) x (5 * pow4 (f x) * a).
Proof.
  intros H. unfold pow5. replace (5 * pow4 (f x) * a) with (4 * pow3 (f x) * a * f x + pow4 (f x) * a) by (unfold pow4, pow3, pow2; unR; ring).
  apply (dv_mul (fun L => pow4 (f L))); [apply dv_pow4, H | exact H].
Qed.
Lemma dv_pow6 (f : R -> R) (x a : R) : is_derive f x a -> is_derive (fun L : R => pow6 (f L)) x (6 * pow5 (f x) * a).
Proof.
  intros H. unfold pow6.
  replace (6 * pow5 (f x) * a) with (2 * (pow2 (f x) * f x) * (2 * f x * a * f x + pow2 (f x) * a)) by (unfold pow5, pow4, pow2; unR; ring).
  apply (dv_pow2 (fun L => pow2 (f L) * f L)). apply (dv_mul (fun L => pow2 (f L))); [apply dv_pow2, H | exact H].
Qed.
Lemma dv_pow7 (f : R -> R) (x a : R) : is_derive f x a -> is_derive (fun L : R => pow7 (f L)) x (7 * pow6 (f x) * a).
Proof.
  intros H. unfold pow7. replace (7 * pow6 (f x) * a) with (6 * pow5 (f x) * a * f x + pow6 (f x) * a)
    by (unfold pow6, pow5, pow4, pow3, pow2; unR; ring).
  apply (dv_mul (fun L => pow6 (f L))); [apply dv_pow6, H | exact H].
Qed.
Lemma dv_pow8 (f : R -> R) (x a : R) : is_derive f x a -> is_derive (fun L : R => pow8 (f L)) x (8 * pow7 (f x) * a).
Proof.
  intros H. unfold pow8. replace (8 * pow7 (f x) * a) with (2 * pow4 (f x) * (4 * pow3 (f x) * a))
    by (unfold pow7, pow6, pow5, pow4, pow3, pow2; unR; ring).
  apply (dv_pow2 (fun L => pow4 (f L))), dv_pow4, H.
Qed.
Lemma dv_power10 (f : R -> R) (x a : R) : is_derive f x a -> is_derive (fun L : R => power10 (f L)) x (10 * pow9 (f x) * a).
Proof.
  intros H. unfold power10. replace (10 * pow9 (f x) * a) with (2 * pow5 (f x) * (5 * pow4 (f x) * a))
    by (unfold pow9, pow8, pow5, pow4, pow3, pow2; unR; ring).
  apply (dv_pow2 (fun L => pow5 (f L))), dv_pow5, H.
Qed.
Lemma dv_div (f g : R -> R) (x a b : R) : is_derive f x a -> is_derive g x b -> g x <> 0 ->
  is_derive (fun L : R => f L / g L) x ((a * g x - f x * b) / (g x * g x)).
Proof.
  intros H K N. replace ((a * g x - f x * b) / (g x * g x)) with ((a * g x - f x * b) / g x ^ 2) by (field; exact N).
  apply is_derive_div; assumption.
Qed.
Lemma dv_ln (f : R -> R) (x a : R) : is_derive f x a -> 0 < f x -> is_derive (fun L : R => ln (f L)) x (a / f x).
Proof.
  intros H N. replace (a / f x) with (scal a (/ f x)) by (unfold scal; simpl; unfold mult; simpl; unfold Rdiv; ring).
  apply (is_derive_comp ln f x); [apply is_derive_ln, N | exact H].
Qed.
Lemma dv_comp (h h' f : R -> R) (x a : R) : is_derive f x a -> is_derive h (f x) (h' (f x)) -> is_derive (fun L : R => h (f L)) x (a * h' (f x)).
Proof.
  intros H K. exact (is_derive_comp h f x (h' (f x)) a K H).
Qed.
(** [other f] : called on anything else *)
Ltac dstep_with other :=
  let rec go _ :=
  lazymatch goal with |- is_derive ?f _ _ =>
    lazymatch f with
    | (fun _ => ?k) => exact (dv_const k _)
    | (fun L => L) => exact (dv_id _)
    | (fun L => @?f L + @?g L) =>
        lazymatch f with
        | (fun _ => ?k) => eapply (dv_addl k g); go tt
        | _ => lazymatch g with
               | (fun _ => ?k) => eapply (dv_addr f k); go tt
               | _ => eapply (dv_add f g); [go tt | go tt]
               end
        end
    | (fun L => @?f L - @?g L) =>
        lazymatch f with
        | (fun _ => ?k) => eapply (dv_subl k g); go tt
        | _ => lazymatch g with
               | (fun _ => ?k) => eapply (dv_subr f k); go tt
               | _ => eapply (dv_sub f g); [go tt | go tt]
               end
        end
    | (fun L => @?f L * @?g L) =>
        lazymatch f with
        | (fun _ => ?k) => eapply (dv_mull k g); go tt
        | _ => lazymatch g with
               | (fun _ => ?k) => eapply (dv_mulr f k); go tt
               | _ => eapply (dv_mul f g); [go tt | go tt]
               end
        end
    | (fun L => @?f L / @?g L) =>
        lazymatch g with
        | (fun _ => ?k) => eapply (dv_divr f k); go tt
        | _ => eapply (dv_div f g); [go tt | go tt | cbv beta]
        end
    | (fun L => - @?g L) => eapply (dv_opp g); go tt
    | (fun L => ln (@?g L)) => eapply (dv_ln g); [go tt | cbv beta]
    | (fun L => pow2 (@?g L)) => eapply (dv_pow2 g); go tt
    | (fun L => pow3 (@?g L)) => eapply (dv_pow3 g); go tt
    | (fun L => pow4 (@?g L)) => eapply (dv_pow4 g); go tt
    | (fun L => pow5 (@?g L)) => eapply (dv_pow5 g); go tt
    | (fun L => pow6 (@?g L)) => eapply (dv_pow6 g); go tt
    | (fun L => pow7 (@?g L)) => eapply (dv_pow7 g); go tt
    | (fun L => pow8 (@?g L)) => eapply (dv_pow8 g); go tt
    | (fun L => power10 (@?g L)) => eapply (dv_power10 g); go tt
    | _ => other go
    end
  end in go tt.
Ltac dstep := dstep_with ltac:(fun go => eassumption).
