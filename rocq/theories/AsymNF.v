(** * Normal forms near coinciding masses: expressions in masses, logarithms and dilogarithms as fractions of series *)
From Coq Require Import Reals Lra Lia List ZArith Bool BinList.
From Coquelicot Require Import Coquelicot.
From Verif Require Import Num NumFacts HierFormulas DilogSpec Taylor Defined Agree AsymPoly AsymODE.
Import ListNotations.
Open Scope R_scope.

(** expressions with an arbitrary function in place of the dilogarithm *)
Fixpoint evL (L : R -> R) (v : list R) (e : ex) : R :=
  match e with
  | EV n => List.nth n v 0
  | EZ z => @nint R NumR z
  | EC m k => @ndec R NumR m k
  | EA a b => @nadd R NumR (evL L v a) (evL L v b)
  | Defined.ES a b => @nsub R NumR (evL L v a) (evL L v b)
  | EM a b => @nmul R NumR (evL L v a) (evL L v b)
  | EN a => @nneg R NumR (evL L v a)
  | ED a b => @ndiv R NumR (evL L v a) (evL L v b)
  | EP n a => powR n (evL L v a)
  | EL a => @nlog R NumR (evL L v a)
  | EI a => L (evL L v a)
  | ER a => @nsqrt R NumR (evL L v a)
  | EB b x y => if b then evL L v x else evL L v y
  end.
Lemma powR_pow n x : (2 <= n <= 18)%nat -> powR n x = x ^ n.
Proof.
  intros H. do 19 (destruct n as [|n]; [try (exfalso; lia); cbn [powR]; unfold pow18, pow17, pow16, pow15, pow14, pow13, pow12, pow11, power10, pow9, pow8, pow7, pow6, pow5, pow4, pow3, pow2; cbn [nmul NumR]; ring|]). exfalso; lia.
Qed.

(** the masses: q, q (1 + e), q x1, q x2 *)
Inductive kind := K0 | KE | K1 | K2.
Definition linR (q x1 x2 : R) (k : kind) (e : R) : R := match k with K0 => q | KE => q * (1 + e) | K1 => q * x1 | K2 => q * x2 end.
Definition linS (k : kind) : list P :=
  match k with K0 => [pX 1] | KE => [pX 1; pX 1] | K1 => [pmul (pX 1) (pX 2)] | K2 => [pmul (pX 1) (pX 3)] end.
Definition psq (p : P) := pmul p p.
Definition sqS (k : kind) : list P :=
  match k with K0 => [psq (pX 1)] | KE => [psq (pX 1); pmul (pc 2) (psq (pX 1)); psq (pX 1)] | K1 => [psq (pmul (pX 1) (pX 2))] | K2 => [psq (pmul (pX 1) (pX 3))] end.
Definition tab : list (list P) :=
  [ [pX 1]; [pX 2]; [pX 3]; [pc 1; pc 1]; [pc 2; pc 1]; [psub (psq (pX 2)) (pc 1)]; [psub (psq (pX 3)) (pc 1)]; [psub (psq (pX 2)) (psq (pX 3))];
    [psub (pc 1) (psq (pX 2)); pc 2; pc 1]; [psub (pc 1) (psq (pX 3)); pc 2; pc 1] ].
Definition env (L : R -> R) (q x1 x2 : R) (w : list R) : list R :=
  [q; x1; x2; ln (x1 * x1); ln (x2 * x2)] ++ [L (1 - 1 / (x1 * x1)); L (1 - 1 / (x2 * x2)); L (1 - x1 * x1 / (x2 * x2))] ++ w.
(** exactly known denominators *)
Definition dmul (a b : option (Z * nat * list nat)) := match a, b with Some (c, k, x), Some (c', k', x') => Some ((c * c')%Z, (k + k')%nat, xadd x x') | _, _ => None end.
Definition dpow (n : nat) (a : option (Z * nat * list nat)) := match a with Some (c, k, x) => Some (Z.pow c (Z.of_nat n), (n * k)%nat, map (Nat.mul n) x) | None => None end.
Definition dopp (a : option (Z * nat * list nat)) := match a with Some (c, k, x) => Some ((- c)%Z, k, x) | None => None end.
Definition ddiff (a b : kind) : option (Z * nat * list nat) :=
  match a, b with
  | KE, K0 => Some (1%Z, 1, [2;0;0;0;1]) | K0, KE => Some ((-1)%Z, 1, [2;0;0;0;1])
  | K1, K0 => Some (1%Z, 0, [2;0;0;0;0;1]) | K0, K1 => Some ((-1)%Z, 0, [2;0;0;0;0;1])
  | K2, K0 => Some (1%Z, 0, [2;0;0;0;0;0;1]) | K0, K2 => Some ((-1)%Z, 0, [2;0;0;0;0;0;1])
  | K1, K2 => Some (1%Z, 0, [2;0;0;0;0;0;0;1]) | K2, K1 => Some ((-1)%Z, 0, [2;0;0;0;0;0;0;1])
  | KE, K1 => Some (1%Z, 0, [2;0;0;0;0;0;0;0;1]) | K1, KE => Some ((-1)%Z, 0, [2;0;0;0;0;0;0;0;1])
  | KE, K2 => Some (1%Z, 0, [2;0;0;0;0;0;0;0;0;1]) | K2, KE => Some ((-1)%Z, 0, [2;0;0;0;0;0;0;0;0;1])
  | _, _ => None
  end%nat.
Section NF.
  Context (n : nat) (cfg : list kind).
  Definition kd (i : nat) : kind := List.nth i cfg K0.
  Definition nm := length cfg.
  (** the kind of a squared mass *)
  Definition sqk (e : ex) : option kind :=
    match e with EV i => if (i <? nm)%nat then Some (kd i) else None | EP 2 (EV i) => if ((nm <=? i) && (i <? 2 * nm))%nat then Some (kd (i - nm)) else None | _ => None end.
  (** monomials in the masses: exponents of the masses of the four kinds *)
  Definition mexp := (nat * nat * nat * nat)%type.
  Definition m1 (k : kind) : mexp := match k with K0 => (1, 0, 0, 0) | KE => (0, 1, 0, 0) | K1 => (0, 0, 1, 0) | K2 => (0, 0, 0, 1) end%nat.
  Definition m2 (f : nat -> nat -> nat) (x y : mexp) : mexp := let '(a, b, c, d) := x in let '(a', b', c', d') := y in (f a a', f b b', f c c', f d d').
  Fixpoint mono (e : ex) : option mexp :=
    match e with
    | EV i => if (i <? nm)%nat then Some (m2 Nat.add (m1 (kd i)) (m1 (kd i))) else if (i <? 2 * nm)%nat then Some (m1 (kd (i - nm))) else None
    | EM a b => match mono a, mono b with Some x, Some y => Some (m2 Nat.add x y) | _, _ => None end
    | EP k a => if ((2 <=? k) && (k <=? 18))%nat then match mono a with Some x => Some (m2 Nat.mul (k, k, k, k) x) | None => None end else None
    | _ => None
    end.
  Definition unsq (x : mexp) : option kind := match x with (2, 0, 0, 0) => Some K0 | (0, 2, 0, 0) => Some KE | (0, 0, 2, 0) => Some K1 | (0, 0, 0, 2) => Some K2 | _ => None end%nat.
  Definition dmono (x : mexp) : option (Z * nat * list nat) := let '(a, b, c, d) := x in Some (1%Z, 0%nat, [a + b + c + d; c; d; b]%nat).
  Definition dsub (a b : option mexp) : option (Z * nat * list nat) :=
    match a, b with Some x, Some y => let g := m2 Nat.min x y in
      match unsq (m2 Nat.sub x g), unsq (m2 Nat.sub y g) with Some s, Some t => dmul (dmono g) (ddiff s t) | _, _ => None end | _, _ => None end.
  Fixpoint dn (e : ex) : option (Z * nat * list nat) :=
    match e with
    | EZ z => if (z =? 0)%Z then None else Some (z, 0%nat, [])
    | EV i => match mono e with Some x => dmono x | None => None end
    | EP k a => if ((2 <=? k) && (k <=? 18))%nat then dpow k (dn a) else None
    | EM a b => dmul (dn a) (dn b)
    | EN a => dopp (dn a)
    | Defined.ES a b => dsub (mono a) (mono b)
    | EA (EN a) b => dsub (mono b) (mono a)
    | _ => None
    end.

  (** lcm(1..n) ln(1+e), and the dilogarithms of 1 - (1+e)^2 and 1 - (1+e)^2/x^2 *)
  Definition lM : Z := fold_left Z.lcm (map Z.of_nat (seq 1 n)) 1%Z.
  Definition lnA : list P := pc 0 :: map (fun j => pc ((if Nat.even j then 1 else -1) * (lM / Z.of_nat (S j)))%Z) (seq 0 n).
  Definition chk_ln : bool := szero n (sadd [pc lM] (sopp (smul n (sder lnA) [pc 1; pc 1]))).
  Fixpoint ppow (p : P) (k : nat) : P := match k with O => pc 1 | S k' => pmul p (ppow p k') end.
  Definition get (s : list P) (j : nat) : P := List.nth j s (pc 0).
  Definition S0h : list P := tl (smul (S n) [pc (-4); pc (-4)] lnA).
  Fixpoint S0b (j : nat) : P := padd (pmul (get S0h j) (ppow (pc 2) j)) (match j with O => pc 0 | S i => popp (S0b i) end).
  Definition S0A : list P := pc 0 :: map (fun j => pmul (pmul (pc (lM / Z.of_nat (S j))) (S0b j)) (ppow (pc 2) (n - 1 - j))) (seq 0 n).
  Definition S0K : Z := (lM * lM * 2 ^ Z.of_nat n)%Z.
  Definition chk_S0 : bool := szero (S n) (sadd (sscal (pc (lM * 2 ^ Z.of_nat n)) (smul (S n) [pc (-4); pc (-4)] lnA)) (sopp (smul (S n) (pc 0 :: sder S0A) [pc 2; pc 1]))).
  Section Sx.
    Context (x lx dx : P).
    Definition Sxy : P := psub (psq x) (pc 1).
    Definition Sxh : list P := smul (S n) [pc 2; pc 2] (sadd (sscal (pc 2) lnA) [popp (pmul (pc lM) lx)]).
    Fixpoint Sxb (j : nat) : P * P :=    (* b_j, b_(j-1) *)
      match j with
      | O => (get Sxh 0, pc 0)
      | S i => let '(b, b') := Sxb i in (padd (pmul (get Sxh j) (ppow Sxy j)) (padd (pmul (pc 2) b) (pmul Sxy b')), b)
      end.
    Definition SxA : list P := pmul (pmul (pc (lM * lM)) (ppow Sxy n)) dx :: map (fun j => pmul (pmul (pc (lM / Z.of_nat (S j))) (fst (Sxb j))) (ppow Sxy (n - 1 - j))) (seq 0 n).
    Definition chk_Sx : bool := szero n (sadd (sscal (pmul (pc lM) (ppow Sxy n)) Sxh) (sopp (smul n (sder SxA) [Sxy; pc (-2); pc (-1)]))).
  End Sx.
  Definition S1A := SxA (pX 2) (pX 4) (pX 6).
  Definition S2A := SxA (pX 3) (pX 5) (pX 7).
  Definition chk : bool := negb (lM =? 0)%Z && chk_ln && chk_S0 && chk_Sx (pX 2) (pX 4) (pX 6) && chk_Sx (pX 3) (pX 5) (pX 7).
  (** logarithm of a squared mass over q^2, times lM *)
  Definition lkS (k : kind) : list P := match k with K0 => [] | KE => sscal (pc 2) lnA | K1 => [pmul (pc lM) (pX 4)] | K2 => [pmul (pc lM) (pX 5)] end.
  Definition logF (a b : kind) : frac := mkF (sadd (lkS a) (sopp (lkS b))) lM 0 [].
  Definition keqb (a b : kind) : bool := match a, b with K0, K0 | KE, KE | K1, K1 | K2, K2 => true | _, _ => false end.
  Definition dlF (a b : kind) : option frac :=
    match a, b with
    | K0, K1 => Some (fpoly n [pX 6]) | K0, K2 => Some (fpoly n [pX 7]) | K1, K2 => Some (fpoly n [pX 8])
    | KE, K0 => Some (mkF S0A S0K 0 [])
    | KE, K1 => Some (mkF S1A (lM * lM) 0 [0;0;0;0;0;n]%nat)
    | KE, K2 => Some (mkF S2A (lM * lM) 0 [0;0;0;0;0;0;n]%nat)
    | _, _ => None
    end.
  Definition dilF (a b : kind) : option frac :=
    if keqb a b then Some (fpoly n []) else
    match dlF a b with Some F => Some F | None =>
      match dlF b a with Some F => fadd n tab (fopp (fdiv (fmul n (logF b a) (logF b a)) 2 0 [])) (fopp F) | None => None end end.
  Definition wv (j : nat) : option P := match j with 0 => Some (pX 9) | 1 => Some (pX 10) | 2 => Some (pX 11) | 3 => Some (pX 12) | 4 => Some (pX 13) | 5 => Some (pX 14) | _ => None end%nat.
  Definition o2 (f : frac -> frac -> option frac) (a b : option frac) : option frac := match a, b with Some x, Some y => f x y | _, _ => None end.
  Fixpoint nf (e : ex) : option frac :=
    match e with
    | EV i => if (i <? nm)%nat then Some (fpoly n (sqS (kd i))) else if (i <? 2 * nm)%nat then Some (fpoly n (linS (kd (i - nm)))) else match wv (i - 2 * nm) with Some p => Some (fpoly n [p]) | None => None end
    | EZ z => Some (fpoly n [pc z])
    | EA a b => o2 (fadd n tab) (nf a) (nf b)
    | Defined.ES a b => o2 (fun x y => fadd n tab x (fopp y)) (nf a) (nf b)
    | EM a b => o2 (fun x y => Some (fmul n x y)) (nf a) (nf b)
    | EN a => option_map fopp (nf a)
    | ED a b => match nf a, dn b with Some F, Some (c, k, x) => if (c =? 0)%Z then None else Some (fdiv F c k x) | _, _ => None end
    | EP k a => if ((2 <=? k) && (k <=? 18))%nat then option_map (fpow n k) (nf a) else None
    | EL (ED a b) => match sqk a, sqk b with Some s, Some t => Some (logF s t) | _, _ => None end
    | EI (Defined.ES (EZ 1) (ED a b)) => match sqk a, sqk b with Some s, Some t => dilF s t | _, _ => None end
    | _ => None
    end.
End NF.
