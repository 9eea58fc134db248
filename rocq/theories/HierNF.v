(** * Normal forms for the hierarchy classes (proof tool)
    Polynomial variables for the data members, and the soundness of [nf] for the value of an
    expression of class h at an input point. *)
From Coq Require Import ZArith List Reals Lra Lia Bool.
From Verif Require Import Num NumFacts HierCalc HierExpr HierPoly HierLib HierInp.
Import ListNotations.

Definition idx (v : hvar) : positive :=
  (match v with
   | vCbeta => 1 | vSbeta => 2 (* 3: a scaling parameter *) | vMt => 4 | vMst1 => 5 | vMst2 => 6 | vMsq => 7 | vMgl => 8 | vMsusy => 9
   | vMuSUSY => 10 | vDmglst1 => 11 | vDmglst2 => 12 | vDmsqst1 => 13 | vDmsqst2 => 14 | vDmst12 => 15 | vAt => 16 | vs2t => 17
   | vlmMst1 => 18 | vlmMst2 => 19 | vlmMsq => 20 | vlmMgl => 21 | vlmMsusy => 22 | vlmMt => 23 | vAl4p => 24
   | vshiftst1 => 25 | vshiftst2 => 26 | vshiftst3 => 27 | vxDR2DRMOD => 28 | vx => 29 | vxDmglst1 => 30 | vxDmglst2 => 31
   | vxDmst12 => 32 | vxDmsqst1 => 33 | vxDmsqst2 => 34 | vxMsq => 35 | vxMst => 36 | vxMgl => 37 | vxAt => 38 | vxlmMsusy => 39
   | vxMsusy => 40 | voneLoopFlag => 41 | vtwoLoopFlag => 42 | vthreeLoopFlag => 43 | vTbeta => 44 end)%positive.
Definition cidx (c : mathconst) : positive :=
  (match c with
   | Cz2 => 45 | Cz3 => 46 | Cz4 => 47 | CB4 => 48 | CD3 => 49 | CDN => 50 | COepS2 => 51 | CS2 => 52 | CT1ep => 53
   | CPi => 54 | Csqrt2 => 55 | Csqrt3 => 56 | Csqrt15 => 57 | Csqrt35 => 58 | Cinv_sqrt2 => 59 | Clog2 => 60
   | ConeLoop => 61 | CtwoLoop => 62 | CthreeLoop => 63 end)%positive.
(** 64: log(Mst1^2/Mst2^2), 65: log(Mst1^2/Msq^2), 66: log(Mst1^2/Mgl^2), 67: log(Msq^2/Msusy^2) *)
Definition lidx (a b : hvar) : option positive :=
  match a, b with
  | vMst1, vMst2 => Some 64%positive
  | vMst1, vMsq => Some 65%positive
  | vMst1, vMgl => Some 66%positive
  | vMsq, vMsusy => Some 67%positive
  | _, _ => None
  end.
Definition ninv : positive := 9.

Definition pv (v : positive) : lp := (PX v 1 (PC 1) (PC 0), 1%positive).
Definition lc (z : Z) : lp := (PC z, 1%positive).
Definition f0 (v : hvar) : lp :=
  match v with vTbeta => (PX 1 (-1) (PX 2 1 (PC 1) (PC 0)) (PC 0), 1%positive) | _ => pv (idx v) end.
Definition lg0 (a b : hvar) : option lp := match lidx a b with Some v => Some (pv v) | None => None end.

Definition read_raw (m k : Z) : lp := (PC m, Z.to_pos (10 ^ k)).

Definition hsenv (rd : Z -> Z -> lp) (h : Z) (f : hvar -> lp) (lg : hvar -> hvar -> option lp) : senv :=
  mkSenv ninv (fun v => if hier_sets h v then f v else (PC 0, 1%positive)) (fun c => pv (cidx c)) rd
    (fun a b => if hier_sets h a && hier_sets h b then lg a b else None).
Definition hnf rd h f lg e : option lp := nf (hsenv rd h f lg) e.

Definition rho_of (u : hvar -> R) (t : R) (p : positive) : R :=
  match p with
  | 1%positive => u vCbeta | 2%positive => u vSbeta | 3%positive => t | 4%positive => u vMt | 5%positive => u vMst1 | 6%positive => u vMst2 | 7%positive => u vMsq | 8%positive => u vMgl | 9%positive => u vMsusy
  | 10%positive => u vMuSUSY | 11%positive => u vDmglst1 | 12%positive => u vDmglst2 | 13%positive => u vDmsqst1 | 14%positive => u vDmsqst2 | 15%positive => u vDmst12 | 16%positive => u vAt | 17%positive => u vs2t
  | 18%positive => u vlmMst1 | 19%positive => u vlmMst2 | 20%positive => u vlmMsq | 21%positive => u vlmMgl | 22%positive => u vlmMsusy | 23%positive => u vlmMt | 24%positive => u vAl4p
  | 25%positive => u vshiftst1 | 26%positive => u vshiftst2 | 27%positive => u vshiftst3 | 28%positive => u vxDR2DRMOD | 29%positive => u vx | 30%positive => u vxDmglst1 | 31%positive => u vxDmglst2
  | 32%positive => u vxDmst12 | 33%positive => u vxDmsqst1 | 34%positive => u vxDmsqst2 | 35%positive => u vxMsq | 36%positive => u vxMst | 37%positive => u vxMgl | 38%positive => u vxAt | 39%positive => u vxlmMsusy
  | 40%positive => u vxMsusy | 41%positive => u voneLoopFlag | 42%positive => u vtwoLoopFlag | 43%positive => u vthreeLoopFlag | 44%positive => u vTbeta
  | 45%positive => Rconst Cz2 | 46%positive => Rconst Cz3 | 47%positive => Rconst Cz4 | 48%positive => Rconst CB4 | 49%positive => Rconst CD3 | 50%positive => Rconst CDN | 51%positive => Rconst COepS2
  | 52%positive => Rconst CS2 | 53%positive => Rconst CT1ep | 54%positive => Rconst CPi | 55%positive => Rconst Csqrt2 | 56%positive => Rconst Csqrt3 | 57%positive => Rconst Csqrt15
  | 58%positive => Rconst Csqrt35 | 59%positive => Rconst Cinv_sqrt2 | 60%positive => Rconst Clog2 | 61%positive => Rconst ConeLoop | 62%positive => Rconst CtwoLoop | 63%positive => Rconst CthreeLoop
  | 64%positive => ln (u vMst1 ^ 2 / u vMst2 ^ 2)%R | 65%positive => ln (u vMst1 ^ 2 / u vMsq ^ 2)%R | 66%positive => ln (u vMst1 ^ 2 / u vMgl ^ 2)%R
  | 67%positive => ln (u vMsq ^ 2 / u vMsusy ^ 2)%R
  | _ => 0%R
  end.


Local Open Scope R_scope.
Lemma lev_pv rho v : lev rho (pv v) = rho v.
Proof. unfold lev, pv; cbn [fst snd pev]. change (xp rho v 1) with (rho v * 1). field. Qed.
Lemma lev_lc rho z : lev rho (lc z) = IZR z.
Proof. unfold lev, lc; cbn. field. Qed.
Lemma lwf_pv v : lwf ninv (pv v).
Proof. cbn. split; [right; lia|tauto]. Qed.
Lemma lwf_lc z : lwf ninv (lc z).
Proof. exact I. Qed.

Definition is_mass (v : hvar) : bool := match v with vMt | vMst1 | vMst2 | vMsq | vMgl | vMsusy => true | _ => false end.
Lemma mass_pos i d mdr f1 f2 f3 v : inp_ok i -> is_mass v = true -> 0 < member i d mdr f1 f2 f3 v.
Proof. intros (A & B & C & D & E & F & _) H. destruct v; try discriminate; cbn; try assumption. unfold msusy; lra. Qed.

Lemma rho_ninv i d mdr f1 f2 f3 t : inp_ok i -> 0 < t ->
  forall v, (v <= ninv)%positive -> rho_of (member i d mdr f1 f2 f3) t v <> 0.
Proof.
  intros Hi Ht v Hv. apply Rgt_not_eq.
  pose proof (cos_beta_pos i Hi). pose proof (sin_beta_pos i Hi).
  destruct Hi as (A & B & C & D & E & F & _).
  assert (v = 1 \/ v = 2 \/ v = 3 \/ v = 4 \/ v = 5 \/ v = 6 \/ v = 7 \/ v = 8 \/ v = 9)%positive as W by (unfold ninv in Hv; lia).
  repeat (destruct W as [->|W]; [cbn; first [assumption|unfold msusy; lra]|]). subst v. cbn. unfold msusy; lra.
Qed.
Lemma rho_const u t c : rho_of u t (cidx c) = Rconst c.
Proof. destruct c; reflexivity. Qed.
Lemma nconst_P c : @nconst PR NumP c = Some (Rconst c).
Proof. reflexivity. Qed.

Lemma read_raw_ok rho m k : (0 <= k)%Z -> @ndec PR NumP m k = Some (lev rho (read_raw m k)).
Proof.
  intros Hk. change (@ndec PR NumP m k) with (Some (Rdec m k)). f_equal.
  unfold Rdec, lev, read_raw; cbn [fst snd pev]. rewrite Z2Pos.id; [reflexivity|].
  apply Z.pow_pos_nonneg; lia.
Qed.

(** value of an expression of class h; [rho] need not be the one of the point [i] *)
Theorem hnf_sound rd lit rho h f lg i d mdr f1 f2 f3 e l :
  hnumber h -> inp_ok i ->
  (forall v, (v <= ninv)%positive -> rho v <> 0) ->
  (forall c, rho (cidx c) = Rconst c) ->
  (forall m k, (0 <= k)%Z -> lit m k = Some (lev rho (rd m k)) /\ lwf ninv (rd m k)) ->
  (forall v, member i d mdr f1 f2 f3 v = lev rho (f v) /\ lwf ninv (f v)) ->
  (forall a b l, lg a b = Some l -> is_mass a = true /\ is_mass b = true /\
     ln (member i d mdr f1 f2 f3 a ^ 2 / member i d mdr f1 f2 f3 b ^ 2) = lev rho l /\ lwf ninv l) ->
  hnf rd h f lg e = Some l ->
  eval_lit lit (hier_members h d (arg_list h i) mdr f1 f2 f3) e = (Some (lev rho l) : PR) /\ lwf ninv l.
Proof.
  intros Hh Hi HK Hc Hlit Hf Hlg H.
  apply (nf_sound rho ninv HK (hsenv rd h f lg) eq_refl _ lit); [| |exact Hlit| |exact H]; cbn [s_var s_const s_log hsenv].
  - intros v. rewrite members_ok by assumption. destruct (hier_sets h v).
    + destruct (Hf v) as (A & B). rewrite A. split; [reflexivity|exact B].
    + split; [|exact I]. f_equal. unfold lev; cbn. field.
  - intros c. rewrite nconst_P, lev_pv, Hc. split; [reflexivity|apply lwf_pv].
  - intros a b l' Hl. destruct (hier_sets h a) eqn:Sa; [|discriminate]. destruct (hier_sets h b) eqn:Sb; [|discriminate].
    cbn [andb] in Hl. destruct (Hlg a b l' Hl) as (Ma & Mb & E & W).
    exists (member i d mdr f1 f2 f3 a), (member i d mdr f1 f2 f3 b).
    rewrite !members_ok by assumption. rewrite Sa, Sb.
    repeat split; try exact E; try exact W; apply mass_pos; assumption.
Qed.

(** the standard substitution: every member is its own variable *)
Lemma f0_ok i d mdr f1 f2 f3 t : inp_ok i -> forall v,
  member i d mdr f1 f2 f3 v = lev (rho_of (member i d mdr f1 f2 f3) t) (f0 v) /\ lwf ninv (f0 v).
Proof.
  intros Hi v. pose proof (cos_beta_pos i Hi).
  destruct v; unfold f0; try (rewrite lev_pv; split; [reflexivity|apply lwf_pv]).
  split; [|cbn; split; [left; unfold ninv; lia|split; [split; [right; lia|tauto]|tauto]]].
  unfold lev; cbn [fst snd pev]. change (xp (rho_of (member i d mdr f1 f2 f3) t) 2 1) with (sin (i_beta i) * 1).
  change (xp (rho_of (member i d mdr f1 f2 f3) t) 1 (-1)) with (/ (cos (i_beta i) * 1)).
  unfold member, tan. field. lra.
Qed.
Lemma lg0_ok i d mdr f1 f2 f3 t a b l : lg0 a b = Some l -> is_mass a = true /\ is_mass b = true /\
  ln (member i d mdr f1 f2 f3 a ^ 2 / member i d mdr f1 f2 f3 b ^ 2) = lev (rho_of (member i d mdr f1 f2 f3) t) l /\ lwf ninv l.
Proof.
  unfold lg0. destruct a; try discriminate; destruct b; try discriminate; cbn [lidx]; intros H; inversion H; subst;
    rewrite lev_pv; (split; [reflexivity|split; [reflexivity|split; [reflexivity|apply lwf_pv]]]).
Qed.

Lemma lev_zero rho l : lzero (Some l) = true -> lev rho l = 0.
Proof.
  destruct l as [[[| |]|] p]; try discriminate. intros _. unfold lev; cbn. field. apply Zpos_neq0.
Qed.

(** the seven functions of a class *)
Inductive hfun := FS1 | FS2 | FS12 | FC0 | FC1 | FC2 | FC3.
Definition hout (g : hfun) {T} : HierOut T -> T :=
  match g with FS1 => getS1 | FS2 => getS2 | FS12 => getS12 | FC0 => coef0 | FC1 => coef1 | FC2 => coef2 | FC3 => coef3 end.
Definition hexpr (h : Z) (g : hfun) : expr :=
  let x := hier_exprs h in
  match g with FS1 => xS1 x | FS2 => xS2 x | FS12 => xS12 x | FC0 => xc0 x | FC1 => xc1 x | FC2 => xc2 x | FC3 => xc3 x end.
Lemma hout_eval {T} {N : Num T} lit h d args mdr f1 f2 f3 g :
  hout g (hier_lib_lit lit h d args mdr f1 f2 f3) = eval_lit lit (hier_members h d args mdr f1 f2 f3) (hexpr h g).
Proof. destruct g; reflexivity. Qed.

Definition hall (f : Z -> bool) : bool := forallb f [0; 1; 2; 3; 4; 5; 6; 7; 8; 9; 10; 11; 12; 13]%Z.
Lemma hall_ok f h : hall f = true -> hnumber h -> f h = true.
Proof.
  unfold hall. intros H. cbn [forallb] in H. rewrite !andb_true_iff in H.
  revert h. apply hnumber_cases; tauto.
Qed.

(** small polynomial identities between normal forms *)
Inductive lt := LA (l : lp) | LV (v : positive) | LZ (z : Z) | LAdd (a b : lt) | LSub (a b : lt) | LMul (a b : lt).
Fixpoint lt_nf (t : lt) : lp :=
  match t with
  | LA l => l | LV v => pv v | LZ z => lc z
  | LAdd a b => ladd (lt_nf a) (lt_nf b) | LSub a b => ladd (lt_nf a) (lneg (lt_nf b)) | LMul a b => lmul (lt_nf a) (lt_nf b)
  end.
Fixpoint lt_ev (rho : positive -> R) (t : lt) : R :=
  match t with
  | LA l => lev rho l | LV v => rho v | LZ z => IZR z
  | LAdd a b => lt_ev rho a + lt_ev rho b | LSub a b => lt_ev rho a - lt_ev rho b | LMul a b => lt_ev rho a * lt_ev rho b
  end.
Fixpoint lt_wf (t : lt) : Prop :=
  match t with LA l => lwf ninv l | LV _ | LZ _ => True | LAdd a b | LSub a b | LMul a b => lt_wf a /\ lt_wf b end.
Lemma lt_ok rho t : (forall v, (v <= ninv)%positive -> rho v <> 0) -> lt_wf t ->
  lev rho (lt_nf t) = lt_ev rho t /\ lwf ninv (lt_nf t).
Proof.
  intros HK. induction t as [l|v|z|a IHa b IHb|a IHa b IHb|a IHa b IHb]; cbn [lt_wf lt_nf lt_ev]; intros W.
  - split; [reflexivity|exact W].
  - split; [apply lev_pv|apply lwf_pv].
  - split; [apply lev_lc|exact I].
  - destruct W as (Wa & Wb). destruct (IHa Wa) as (A1 & A2), (IHb Wb) as (B1 & B2).
    destruct (ladd_ok rho ninv _ _ A2 B2) as (C & D). rewrite C, A1, B1. split; [reflexivity|exact D].
  - destruct W as (Wa & Wb). destruct (IHa Wa) as (A1 & A2), (IHb Wb) as (B1 & B2).
    destruct (lneg_ok rho ninv _ B2) as (N1 & N2). destruct (ladd_ok rho ninv _ _ A2 N2) as (C & D).
    rewrite C, N1, A1, B1. split; [reflexivity|exact D].
  - destruct W as (Wa & Wb). destruct (IHa Wa) as (A1 & A2), (IHb Wb) as (B1 & B2).
    destruct (lmul_ok rho ninv HK _ _ A2 B2) as (C & D). rewrite C, A1, B1. split; [reflexivity|exact D].
Qed.
Lemma lt_zero rho t : (forall v, (v <= ninv)%positive -> rho v <> 0) -> lt_wf t -> lzero (Some (lt_nf t)) = true -> lt_ev rho t = 0.
Proof. intros HK W H. destruct (lt_ok rho t HK W) as (A & _). rewrite <- A. apply lev_zero. exact H. Qed.

(** a substitution that gives every member its value at the point (i, d, mdr, f1, f2, f3) *)
Definition valid (rho : positive -> R) i d mdr f1 f2 f3 (f : hvar -> lp) (lg : hvar -> hvar -> option lp) : Prop :=
  inp_ok i /\
  (forall v, member i d mdr f1 f2 f3 v = lev rho (f v) /\ lwf ninv (f v)) /\
  (forall a b l, lg a b = Some l -> is_mass a = true /\ is_mass b = true /\
     ln (member i d mdr f1 f2 f3 a ^ 2 / member i d mdr f1 f2 f3 b ^ 2) = lev rho l /\ lwf ninv l).
Definition env_ok (rho : positive -> R) : Prop :=
  (forall v, (v <= ninv)%positive -> rho v <> 0) /\ (forall c, rho (cidx c) = Rconst c).
Lemma env_ok_rho i d mdr f1 f2 f3 t : inp_ok i -> 0 < t -> env_ok (rho_of (member i d mdr f1 f2 f3) t).
Proof. intros Hi Ht. split; [apply rho_ninv; assumption|apply rho_const]. Qed.
Lemma valid_f0 i d mdr f1 f2 f3 t : inp_ok i -> valid (rho_of (member i d mdr f1 f2 f3) t) i d mdr f1 f2 f3 f0 lg0.
Proof. intros Hi. split; [exact Hi|split; [apply f0_ok; exact Hi|apply lg0_ok]]. Qed.

(** literals: [lit] is [ndec] with raw reading *)
Definition lit_ok (lit : Z -> Z -> PR) (rd : Z -> Z -> lp) : Prop :=
  forall rho m k, (0 <= k)%Z -> lit m k = Some (lev rho (rd m k)) /\ lwf ninv (rd m k).
Lemma lit_raw : lit_ok ndec read_raw.
Proof. intros rho m k H. split; [apply read_raw_ok; exact H|exact I]. Qed.

Theorem hout_nf lit rd rho h f lg i d mdr f1 f2 f3 g l : lit_ok lit rd -> hnumber h -> env_ok rho -> valid rho i d mdr f1 f2 f3 f lg ->
  hnf rd h f lg (hexpr h g) = Some l ->
  hout g (hier_lib_lit lit h d (arg_list h i) mdr f1 f2 f3) = (Some (lev rho l) : PR) /\ lwf ninv l.
Proof.
  intros HL Hh (HK & Hc) (Hi & Hf & Hl) H. rewrite hout_eval.
  apply (hnf_sound rd lit rho h f lg); try assumption. intros; apply HL; assumption.
Qed.
