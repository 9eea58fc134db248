(** * Unit dependence of the corrections that use the three-mass function
    GENERATED by tools/gen_unitfalse.py.  Proof tool. *)
From Coq Require Import Reals ZArith List Bool String Lra Lia.
From Verif Require Import Num NumFacts Except Params HierFormulas Dilog LoopFun Thresh ThreshTwo Threshold HierExpr HierPoly FieldPoly FieldNF ThreshTree ThreshDeep Grading UnitSpec UnitProofs.
Import ListNotations.
Open Scope R_scope.

Definition dg (a b c : R) : mat3 R := mkM3 a 0 0 0 b 0 0 0 c.
(** a point with stop, sbottom and stau masses 1, 3, 4, mA = 1, mu = 2, tan(beta) = 3/4 *)
Definition pt (A_u A_d A_e : R) : Params R :=
  mkParams 1 2 1 1 1 4 3 (dg 1 1 1) (dg 1 1 9) (dg 1 1 16) (dg 1 1 1) (dg 1 1 9) (dg 0 0 A_u) (dg 0 0 A_d) (dg 0 0 A_e) (dg 0 0 1) (dg 0 0 1) (dg 0 0 1)
    1 1 1 1 1 1 1 1 1 (mkV2 1 4) (mkV2 1 3) (mkV2 1 3) 0 0 0 0 0 0 0%Z.
(** the same for Yt6, whose squark masses are multiplied by 1.02 and 0.98 in the code *)
Definition q103 : R := R_sqrt.sqrt (Rdec 103 2).
Definition pt6 (A_u : R) : Params R :=
  mkParams 1 (2 / q103) 1 1 1 4 3 (dg 1 1 (50 / 51)) (dg 1 1 9) (dg 1 1 (450 / 49)) (dg 1 1 1) (dg 1 1 9) (dg 0 0 (A_u + 2 / q103 / (3 / 4))) (dg 0 0 0) (dg 0 0 0) (dg 0 0 1) (dg 0 0 1) (dg 0 0 1)
    1 1 1 1 1 1 1 1 1 (mkV2 1 4) (mkV2 1 3) (mkV2 1 3) 0 0 0 0 0 0 0%Z.

Definition leafX (k a b c : Z) (v : positive) : rx :=
  match v with
  | 5%positive => XZ k
  | 22%positive => XZ (2 * k)
  | 3%positive => XZ (k * k)
  | 4%positive => XZ (9 * k * k)
  | 20%positive => XZ (16 * k * k)
  | 15%positive => XZ (k * k)
  | 12%positive => XZ (9 * k * k)
  | 21%positive => XZ k
  | 2%positive => XZ 1
  | 28%positive => XDiv (XZ 3) (XZ 5)
  | 27%positive => XDiv (XZ 4) (XZ 5)
  | 1%positive => XZ (8 * k * k * k)
  | 25%positive => XSub (XZ (k * a)) (XDiv (XZ (2 * k)) (XDiv (XZ 3) (XZ 4)))
  | 6%positive => XSub (XZ (k * b)) (XMul (XZ (2 * k)) (XDiv (XZ 3) (XZ 4)))
  | 26%positive => XSub (XZ (k * c)) (XMul (XZ (2 * k)) (XDiv (XZ 3) (XZ 4)))
  | 36%positive => XAdd (XZ (k * a)) (XMul (XZ (2 * k)) (XDiv (XZ 3) (XZ 4)))
  | 35%positive => XAdd (XZ (k * b)) (XDiv (XZ (2 * k)) (XDiv (XZ 3) (XZ 4)))
  | 37%positive => XAdd (XZ (k * c)) (XDiv (XZ (2 * k)) (XDiv (XZ 3) (XZ 4)))
  | 16%positive => XZ (k * k)
  | 17%positive => XZ (k * k)
  | 8%positive => XZ (k * k)
  | 9%positive => XZ (k * k)
  | 18%positive => XZ (k * k)
  | 19%positive => XZ (k * k)
  | 13%positive => XZ (k * k)
  | 14%positive => XZ (k * k)
  | 10%positive => XZ (k * k)
  | 11%positive => XZ (k * k)
  | 7%positive => XV 7
  | 29%positive => XDiv (XZ 3) (XZ 4)
  | 23%positive => XZ k
  | 24%positive => XZ k
  | 30%positive => XZ k
  | 31%positive => XZ (4 * k)
  | 32%positive => XZ (3 * k)
  | 33%positive => XZ (k * k)
  | 34%positive => XZ k
  | _ => XZ 0
  end.
Definition leafX6 (k a b c : Z) (v : positive) : rx :=
  match v with
  | 5%positive => XZ k
  | 22%positive => XDiv (XZ (2 * k)) (XSqrt (XDec 103 2))
  | 3%positive => XDiv (XZ (50 * k * k)) (XZ 51)
  | 20%positive => XDiv (XZ (450 * k * k)) (XZ 49)
  | 21%positive => XZ k
  | 2%positive => XZ 1
  | 28%positive => XDiv (XZ 3) (XZ 5)
  | 27%positive => XDiv (XZ 4) (XZ 5)
  | 25%positive => XSub (XAdd (XZ (k * a)) (XDiv (XDiv (XZ (2 * k)) (XSqrt (XDec 103 2))) (XDiv (XZ 3) (XZ 4)))) (XDiv (XDiv (XZ (2 * k)) (XSqrt (XDec 103 2))) (XDiv (XZ 3) (XZ 4)))
  | 36%positive => XAdd (XAdd (XZ (k * a)) (XDiv (XDiv (XZ (2 * k)) (XSqrt (XDec 103 2))) (XDiv (XZ 3) (XZ 4)))) (XMul (XDiv (XZ (2 * k)) (XSqrt (XDec 103 2))) (XDiv (XZ 3) (XZ 4)))
  | _ => XZ 0
  end.

(** numbers: 1 ln 2, 2 ln 3, 3 ln(50/51), 5 ln(103/25), 10.. dilogarithms, 40.. Phi; 100 = sqrt(1.03) and larger are never 0 *)
Definition rho0 (v : positive) : R :=
  match v with
  | 1%positive => ln 2 | 2%positive => ln 3 | 3%positive => ln (50 / 51) | 4%positive => atan (3 / 4) | 5%positive => ln (103 / 25)
  | 10%positive => dilog ((-15) / 1)
  | 11%positive => dilog ((-8) / 1)
  | 12%positive => dilog ((-3) / 1)
  | 13%positive => dilog ((-5) / 4)
  | 14%positive => dilog ((-122) / 103)
  | 15%positive => dilog ((-7) / 9)
  | 16%positive => dilog ((0) / 1)
  | 17%positive => dilog ((7) / 16)
  | 18%positive => dilog ((5) / 9)
  | 19%positive => dilog ((3) / 4)
  | 20%positive => dilog ((78) / 103)
  | 21%positive => dilog ((8) / 9)
  | 22%positive => dilog ((15) / 16)
  | 40%positive => phi_xyz 1 1 1
  | 41%positive => phi_xyz 1 1 9
  | 42%positive => phi_xyz 1 9 9
  | 43%positive => phi_xyz 1 16 1
  | 44%positive => phi_xyz 1 16 9
  | 50%positive => Rconst CPi | 51%positive => Rconst Cz2 | 52%positive => Rconst Cz3 | 53%positive => Rconst Cz4 | 54%positive => Rconst Csqrt2
  | 55%positive => Rconst Csqrt3 | 56%positive => Rconst Csqrt15 | 57%positive => Rconst Csqrt35 | 58%positive => Rconst Cinv_sqrt2 | 59%positive => Rconst Clog2
  | 60%positive => Rconst ConeLoop | 61%positive => Rconst CtwoLoop | 62%positive => Rconst CthreeLoop | 63%positive => Rconst CB4 | 64%positive => Rconst CD3
  | 65%positive => Rconst CDN | 66%positive => Rconst COepS2 | 67%positive => Rconst CS2 | 68%positive => Rconst CT1ep
  | 102%positive => q103 | _ => 1
  end.
Definition tab_li : list (lp * lp) := [((PC (-15), 1%positive), (PX 10 1 (PC 1) (PC 0), 1%positive)); ((PC (-8), 1%positive), (PX 11 1 (PC 1) (PC 0), 1%positive)); ((PC (-3), 1%positive), (PX 12 1 (PC 1) (PC 0), 1%positive)); ((PC (-5), 4%positive), (PX 13 1 (PC 1) (PC 0), 1%positive)); ((PC (-122), 103%positive), (PX 14 1 (PC 1) (PC 0), 1%positive)); ((PC (-7), 9%positive), (PX 15 1 (PC 1) (PC 0), 1%positive)); ((PC (0), 1%positive), (PX 16 1 (PC 1) (PC 0), 1%positive)); ((PC (7), 16%positive), (PX 17 1 (PC 1) (PC 0), 1%positive)); ((PC (5), 9%positive), (PX 18 1 (PC 1) (PC 0), 1%positive)); ((PC (3), 4%positive), (PX 19 1 (PC 1) (PC 0), 1%positive)); ((PC (78), 103%positive), (PX 20 1 (PC 1) (PC 0), 1%positive)); ((PC (8), 9%positive), (PX 21 1 (PC 1) (PC 0), 1%positive)); ((PC (15), 16%positive), (PX 22 1 (PC 1) (PC 0), 1%positive))].
Definition tab_lg : list (lp * lp) := [((PC (50), 51%positive), (PX 3 1 (PC 1) (PC 0), 1%positive)); ((PC (103), 25%positive), (PX 5 1 (PC 1) (PC 0), 1%positive)); ((PC (1), 16%positive), (padd (pscale (-4) (PX 1 1 (PC 1) (PC 0))) (pscale (0) (PX 2 1 (PC 1) (PC 0))), 1%positive)); ((PC (1), 9%positive), (padd (pscale (0) (PX 1 1 (PC 1) (PC 0))) (pscale (-2) (PX 2 1 (PC 1) (PC 0))), 1%positive)); ((PC (1), 8%positive), (padd (pscale (-3) (PX 1 1 (PC 1) (PC 0))) (pscale (0) (PX 2 1 (PC 1) (PC 0))), 1%positive)); ((PC (3), 16%positive), (padd (pscale (-4) (PX 1 1 (PC 1) (PC 0))) (pscale (1) (PX 2 1 (PC 1) (PC 0))), 1%positive)); ((PC (2), 9%positive), (padd (pscale (1) (PX 1 1 (PC 1) (PC 0))) (pscale (-2) (PX 2 1 (PC 1) (PC 0))), 1%positive)); ((PC (1), 4%positive), (padd (pscale (-2) (PX 1 1 (PC 1) (PC 0))) (pscale (0) (PX 2 1 (PC 1) (PC 0))), 1%positive)); ((PC (1), 3%positive), (padd (pscale (0) (PX 1 1 (PC 1) (PC 0))) (pscale (-1) (PX 2 1 (PC 1) (PC 0))), 1%positive)); ((PC (4), 9%positive), (padd (pscale (2) (PX 1 1 (PC 1) (PC 0))) (pscale (-2) (PX 2 1 (PC 1) (PC 0))), 1%positive)); ((PC (1), 2%positive), (padd (pscale (-1) (PX 1 1 (PC 1) (PC 0))) (pscale (0) (PX 2 1 (PC 1) (PC 0))), 1%positive)); ((PC (9), 16%positive), (padd (pscale (-4) (PX 1 1 (PC 1) (PC 0))) (pscale (2) (PX 2 1 (PC 1) (PC 0))), 1%positive)); ((PC (2), 3%positive), (padd (pscale (1) (PX 1 1 (PC 1) (PC 0))) (pscale (-1) (PX 2 1 (PC 1) (PC 0))), 1%positive)); ((PC (3), 4%positive), (padd (pscale (-2) (PX 1 1 (PC 1) (PC 0))) (pscale (1) (PX 2 1 (PC 1) (PC 0))), 1%positive)); ((PC (1), 1%positive), (padd (pscale (0) (PX 1 1 (PC 1) (PC 0))) (pscale (0) (PX 2 1 (PC 1) (PC 0))), 1%positive)); ((PC (4), 3%positive), (padd (pscale (2) (PX 1 1 (PC 1) (PC 0))) (pscale (-1) (PX 2 1 (PC 1) (PC 0))), 1%positive)); ((PC (3), 2%positive), (padd (pscale (-1) (PX 1 1 (PC 1) (PC 0))) (pscale (1) (PX 2 1 (PC 1) (PC 0))), 1%positive)); ((PC (16), 9%positive), (padd (pscale (4) (PX 1 1 (PC 1) (PC 0))) (pscale (-2) (PX 2 1 (PC 1) (PC 0))), 1%positive)); ((PC (2), 1%positive), (padd (pscale (1) (PX 1 1 (PC 1) (PC 0))) (pscale (0) (PX 2 1 (PC 1) (PC 0))), 1%positive)); ((PC (9), 4%positive), (padd (pscale (-2) (PX 1 1 (PC 1) (PC 0))) (pscale (2) (PX 2 1 (PC 1) (PC 0))), 1%positive)); ((PC (3), 1%positive), (padd (pscale (0) (PX 1 1 (PC 1) (PC 0))) (pscale (1) (PX 2 1 (PC 1) (PC 0))), 1%positive)); ((PC (4), 1%positive), (padd (pscale (2) (PX 1 1 (PC 1) (PC 0))) (pscale (0) (PX 2 1 (PC 1) (PC 0))), 1%positive)); ((PC (9), 2%positive), (padd (pscale (-1) (PX 1 1 (PC 1) (PC 0))) (pscale (2) (PX 2 1 (PC 1) (PC 0))), 1%positive)); ((PC (16), 3%positive), (padd (pscale (4) (PX 1 1 (PC 1) (PC 0))) (pscale (-1) (PX 2 1 (PC 1) (PC 0))), 1%positive)); ((PC (6), 1%positive), (padd (pscale (1) (PX 1 1 (PC 1) (PC 0))) (pscale (1) (PX 2 1 (PC 1) (PC 0))), 1%positive)); ((PC (8), 1%positive), (padd (pscale (3) (PX 1 1 (PC 1) (PC 0))) (pscale (0) (PX 2 1 (PC 1) (PC 0))), 1%positive)); ((PC (9), 1%positive), (padd (pscale (0) (PX 1 1 (PC 1) (PC 0))) (pscale (2) (PX 2 1 (PC 1) (PC 0))), 1%positive)); ((PC (12), 1%positive), (padd (pscale (2) (PX 1 1 (PC 1) (PC 0))) (pscale (1) (PX 2 1 (PC 1) (PC 0))), 1%positive)); ((PC (16), 1%positive), (padd (pscale (4) (PX 1 1 (PC 1) (PC 0))) (pscale (0) (PX 2 1 (PC 1) (PC 0))), 1%positive)); ((PC (18), 1%positive), (padd (pscale (1) (PX 1 1 (PC 1) (PC 0))) (pscale (2) (PX 2 1 (PC 1) (PC 0))), 1%positive)); ((PC (32), 1%positive), (padd (pscale (5) (PX 1 1 (PC 1) (PC 0))) (pscale (0) (PX 2 1 (PC 1) (PC 0))), 1%positive)); ((PC (36), 1%positive), (padd (pscale (2) (PX 1 1 (PC 1) (PC 0))) (pscale (2) (PX 2 1 (PC 1) (PC 0))), 1%positive)); ((PC (64), 1%positive), (padd (pscale (6) (PX 1 1 (PC 1) (PC 0))) (pscale (0) (PX 2 1 (PC 1) (PC 0))), 1%positive))].
Definition tab_sq : list (lp * lp) := [((PC (103), 100%positive), (PX 102 1 (PC 1) (PC 0), 1%positive)); ((PC (1), 1%positive), (PC (1), 1%positive)); ((PC (4), 1%positive), (PC (2), 1%positive)); ((PC (9), 1%positive), (PC (3), 1%positive)); ((PC (16), 1%positive), (PC (4), 1%positive)); ((PC (36), 1%positive), (PC (6), 1%positive)); ((PC (64), 1%positive), (PC (8), 1%positive))].
Definition tab_phi : list (lp * lp * lp * lp) := [((PC (1), 1%positive), (PC (1), 1%positive), (PC (1), 1%positive), (PX 40 1 (PC 1) (PC 0), 1%positive)); ((PC (4), 1%positive), (PC (4), 1%positive), (PC (4), 1%positive), (PX 40 1 (PC 4) (PC 0), 1%positive)); ((PC (1), 1%positive), (PC (1), 1%positive), (PC (9), 1%positive), (PX 41 1 (PC 1) (PC 0), 1%positive)); ((PC (4), 1%positive), (PC (4), 1%positive), (PC (36), 1%positive), (PX 41 1 (PC 4) (PC 0), 1%positive)); ((PC (1), 1%positive), (PC (9), 1%positive), (PC (9), 1%positive), (PX 42 1 (PC 1) (PC 0), 1%positive)); ((PC (4), 1%positive), (PC (36), 1%positive), (PC (36), 1%positive), (PX 42 1 (PC 4) (PC 0), 1%positive)); ((PC (1), 1%positive), (PC (16), 1%positive), (PC (1), 1%positive), (PX 43 1 (PC 1) (PC 0), 1%positive)); ((PC (4), 1%positive), (PC (64), 1%positive), (PC (4), 1%positive), (PX 43 1 (PC 4) (PC 0), 1%positive)); ((PC (1), 1%positive), (PC (16), 1%positive), (PC (9), 1%positive), (PX 44 1 (PC 1) (PC 0), 1%positive)); ((PC (4), 1%positive), (PC (64), 1%positive), (PC (36), 1%positive), (PX 44 1 (PC 4) (PC 0), 1%positive)); ((PC (1), 1%positive), (PC (9), 1%positive), (PC (1), 1%positive), (PX 41 1 (PC 1) (PC 0), 1%positive)); ((PC (4), 1%positive), (PC (36), 1%positive), (PC (4), 1%positive), (PX 41 1 (PC 4) (PC 0), 1%positive))].
Definition cnum (c : mathconst) : positive :=
  match c with
  | CPi => 50 | Cz2 => 51 | Cz3 => 52 | Cz4 => 53 | Csqrt2 => 54 | Csqrt3 => 55 | Csqrt15 => 56 | Csqrt35 => 57 | Cinv_sqrt2 => 58 | Clog2 => 59
  | ConeLoop => 60 | CtwoLoop => 61 | CthreeLoop => 62 | CB4 => 63 | CD3 => 64 | CDN => 65 | COepS2 => 66 | CS2 => 67 | CT1ep => 68
  end.
Definition u0 (v : positive) : R := match v with 7%positive => atan (3 / 4) | _ => 0 end.
Definition env0 : fenv := mkFenv 100 101 (fun v => match v with 7%positive => (PX 4 1 (PC 1) (PC 0), 1%positive) | _ => (PC 0, 1%positive) end)
  (fun c => (PX (cnum c) 1 (PC 1) (PC 0), 1%positive))
  (fun v => None) [] tab_li tab_lg tab_sq tab_phi.


(** the last case of the code *)
Fixpoint genr (x : rs) : rx := match x with SRet e => e | SIf _ _ b => genr b | SThrow _ => XZ 0 end.
Definition at2 (L : Z -> positive -> rx) (x : rs) : rx := XSub (xsub (L 2%Z) (genr x)) (xsub (L 1%Z) (genr x)).

Definition id_Yb6 : rx := XAdd (XMul (XZ (72969344530128)) (at2 (fun k => leafX k (0) (-3) (0)) d_getDeltaLambdaYb6)) ( XAdd (XMul (XZ (-101486733499120)) (at2 (fun k => leafX k (0) (-2) (0)) d_getDeltaLambdaYb6)) ( XAdd (XMul (XZ (192105443848048)) (at2 (fun k => leafX k (0) (-1) (0)) d_getDeltaLambdaYb6)) ( XMul (XZ (1914074183743029)) (XF3 1 (XZ 1) (XZ 1) (XZ 1))))).
Lemma id_Yb6_ok : fcheck env0 id_Yb6 = true.
Proof. vm_compute. reflexivity. Qed.
Definition id_Ytau6 : rx := XAdd (XMul (XZ (1485799303545504)) (at2 (fun k => leafX k (0) (0) (-3)) d_getDeltaLambdaYtau6)) ( XAdd (XMul (XZ (-1898598490594528)) (at2 (fun k => leafX k (0) (0) (-2)) d_getDeltaLambdaYtau6)) ( XAdd (XMul (XZ (3591133146435040)) (at2 (fun k => leafX k (0) (0) (-1)) d_getDeltaLambdaYtau6)) ( XMul (XZ (10804004723993949)) (XF3 1 (XZ 1) (XZ 1) (XZ 1))))).
Lemma id_Ytau6_ok : fcheck env0 id_Ytau6 = true.
Proof. vm_compute. reflexivity. Qed.
Definition id_Yt2Yb4 : rx := XAdd (XMul (XZ (173837673439125695)) (at2 (fun k => leafX k (0) (-3) (0)) d_getDeltaLambdaYt2Yb4)) ( XAdd (XMul (XZ (718840921418358051)) (at2 (fun k => leafX k (0) (-2) (0)) d_getDeltaLambdaYt2Yb4)) ( XAdd (XMul (XZ (-2709590482410634155)) (at2 (fun k => leafX k (0) (-1) (0)) d_getDeltaLambdaYt2Yb4)) ( XAdd (XMul (XZ (1909503171242516809)) (at2 (fun k => leafX k (0) (0) (0)) d_getDeltaLambdaYt2Yb4)) ( XMul (XZ (30630939581497685100)) (XF3 1 (XZ 1) (XZ 1) (XZ 1)))))).
Lemma id_Yt2Yb4_ok : fcheck env0 id_Yt2Yb4 = true.
Proof. vm_compute. reflexivity. Qed.
Definition id_Yt4Yb2 : rx := XAdd (XMul (XZ (-1331965570529065091)) (at2 (fun k => leafX k (-3) (0) (0)) d_getDeltaLambdaYt4Yb2)) ( XAdd (XMul (XZ (4679245650615949482)) (at2 (fun k => leafX k (-2) (0) (0)) d_getDeltaLambdaYt4Yb2)) ( XAdd (XMul (XZ (-5306497015253027757)) (at2 (fun k => leafX k (-1) (0) (0)) d_getDeltaLambdaYt4Yb2)) ( XAdd (XMul (XZ (1851580216836341366)) (at2 (fun k => leafX k (0) (0) (0)) d_getDeltaLambdaYt4Yb2)) ( XMul (XZ (-46684397718517942800)) (XF3 1 (XZ 1) (XZ 1) (XZ 1)))))).
Lemma id_Yt4Yb2_ok : fcheck env0 id_Yt4Yb2 = true.
Proof. vm_compute. reflexivity. Qed.
Definition id_Yt6 : rx := XAdd (XMul (XZ (-13356771)) (at2 (fun k => leafX6 k (-3) (0) (0)) d_getDeltaLambdaYt6)) ( XAdd (XMul (XZ (96613099)) (at2 (fun k => leafX6 k (-2) (0) (0)) d_getDeltaLambdaYt6)) ( XAdd (XMul (XZ (-84910055)) (at2 (fun k => leafX6 k (-1) (0) (0)) d_getDeltaLambdaYt6)) ( XAdd (XMul (XZ (84910055)) (at2 (fun k => leafX6 k (1) (0) (0)) d_getDeltaLambdaYt6)) ( XAdd (XMul (XZ (-96613099)) (at2 (fun k => leafX6 k (2) (0) (0)) d_getDeltaLambdaYt6)) ( XAdd (XMul (XZ (13356771)) (at2 (fun k => leafX6 k (3) (0) (0)) d_getDeltaLambdaYt6)) ( XMul (XZ (-8211264000)) (XDiv (XF3 1 (XZ 1) (XZ 1) (XZ 1)) (XSqrt (XDec 103 2))))))))).
Lemma id_Yt6_ok : fcheck env0 id_Yt6 = true.
Proof. vm_compute. reflexivity. Qed.