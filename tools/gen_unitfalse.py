#!/usr/bin/env python3
"""Generates rocq/theories/UnitFalse.v: for the five corrections that call the three-mass function, weighted sums over a few parameter points
in which everything but Phi(1,1,1) cancels.  The weights come from exact linear algebra outside Coq; Coq checks the identities."""
import os
from fractions import Fraction as F
OUT = os.path.join(os.path.dirname(os.path.abspath(__file__)), '..', 'rocq', 'theories')
RES = {'Yb6': ([(-3, 72969344530128), (-2, -101486733499120), (-1, 192105443848048)], -638024727914343), 'Ytau6': ([(-3, 1485799303545504), (-2, -1898598490594528), (-1, 3591133146435040)], -3601334907997983), 'Yt2Yb4': ([(-3, 173837673439125695), (-2, 718840921418358051), (-1, -2709590482410634155), (0, 1909503171242516809)], -10210313193832561700), 'Yt4Yb2': ([(-3, -1331965570529065091), (-2, 4679245650615949482), (-1, -5306497015253027757), (0, 1851580216836341366)], 15561465906172647600), 'Yt6': ([(-3, -13356771), (-2, 96613099), (-1, -84910055), (1, 84910055), (2, -96613099), (3, 13356771)], 2737088000)}
VAR = {'Yb6': 'Ad', 'Ytau6': 'Ae', 'Yt2Yb4': 'Ad', 'Yt4Yb2': 'Au', 'Yt6': 'Au'}
M2 = [1, 4, 9, 16]
def lp(q): q = F(q); return "(PC (%d), %d%%positive)" % (q.numerator, q.denominator)
# dilogarithm keys
keys = sorted(set(1 - F(a, b) for a in M2 for b in M2) | {F(78, 103), F(-122, 103)})
LI = {k: 10 + i for i, k in enumerate(keys)}        # variables 10..
# logarithm keys 2^a 3^b
logs = {}
for k in (1, 2):
    for a in M2 + [3, 2]:
        for b in M2 + [3, 2]: logs[F(a, b)] = 1; logs[F(k * a)] = 1; logs[F(k * k * a)] = 1
def ex(q):
    q = F(q); e2 = e3 = 0
    n, d = q.numerator, q.denominator
    while n % 2 == 0: n //= 2; e2 += 1
    while d % 2 == 0: d //= 2; e2 -= 1
    while n % 3 == 0: n //= 3; e3 += 1
    while d % 3 == 0: d //= 3; e3 -= 1
    assert n == d == 1, q
    return e2, e3
TR = [(1, 1, 1), (1, 1, 9), (1, 9, 9), (1, 16, 1), (1, 16, 9), (1, 9, 1)]
PH = {t: 40 + i for i, t in enumerate(TR)}
PH[(1, 9, 1)] = PH[(1, 1, 9)]          # by symmetry
o = ["""(** * Unit dependence of the corrections that use the three-mass function
    GENERATED by tools/gen_unitfalse.py.  Proof tool. *)
From Coq Require Import Reals ZArith List Bool String Lra Lia.
From Verif Require Import Num NumFacts Except Params HierFormulas Dilog LoopFun Thresh ThreshTwo Threshold HierExpr HierPoly FieldPoly FieldNF ThreshTree ThreshDeep Grading UnitSpec UnitProofs.
Import ListNotations.
Open Scope R_scope.

Definition dg (a b c : R) : mat3 R := mkM3 a 0 0 0 b 0 0 0 c.
(** a point with stop, sbottom and stau masses 1, 3, 4, mA = 1, mu = 2, tan(beta) = 3/4 *)
Definition pt (A_u A_d A_e : R) : Params R :=
  mkParams 1 2 1 1 1 4 3 (dg 1 1 1) (dg 1 1 9) (dg 1 1 16) (dg 1 1 1) (dg 1 1 9) (dg 0 0 A_u) (dg 0 0 A_d) (dg 0 0 A_e) (dg 0 0 1) (dg 0 0 1) (dg 0 0 1)
    1 1 1 1 1 1 1 1 1 (mkV2 1 4) (mkV2 1 3) (mkV2 1 3) 0 0 0 0 0 0 0%Z.
(** the same for Yt6, whose squark masses are multiplied by 1.02 and 0.98 in the code *)
Definition q103 : R := R_sqrt.sqrt (Rdec 103 2).
Definition pt6 (A_u : R) : Params R :=
  mkParams 1 (2 / q103) 1 1 1 4 3 (dg 1 1 (50 / 51)) (dg 1 1 9) (dg 1 1 (450 / 49)) (dg 1 1 1) (dg 1 1 9) (dg 0 0 (A_u + 2 / q103 / (3 / 4))) (dg 0 0 0) (dg 0 0 0) (dg 0 0 1) (dg 0 0 1) (dg 0 0 1)
    1 1 1 1 1 1 1 1 1 (mkV2 1 4) (mkV2 1 3) (mkV2 1 3) 0 0 0 0 0 0 0%Z.
"""]
# symbolic leaves
acc = {'scale': 'XZ k', 'mu': 'XZ (2 * k)', 'mq2_a22': 'XZ (k * k)', 'md2_a22': 'XZ (9 * k * k)', 'mu2_a22': 'XZ (16 * k * k)', 'ml2_a22': 'XZ (k * k)', 'me2_a22': 'XZ (9 * k * k)',
       'MA': 'XZ k', 'O': 'XZ 1', 'calcSinBeta': 'XDiv (XZ 3) (XZ 5)', 'calcCosBeta': 'XDiv (XZ 4) (XZ 5)', 'mu3': 'XZ (8 * k * k * k)',
       'calcXt': 'XSub (XZ (k * a)) (XDiv (XZ (2 * k)) (XDiv (XZ 3) (XZ 4)))', 'calcXb': 'XSub (XZ (k * b)) (XMul (XZ (2 * k)) (XDiv (XZ 3) (XZ 4)))', 'calcXtau': 'XSub (XZ (k * c)) (XMul (XZ (2 * k)) (XDiv (XZ 3) (XZ 4)))',
       'calcYt': 'XAdd (XZ (k * a)) (XMul (XZ (2 * k)) (XDiv (XZ 3) (XZ 4)))', 'calcYb': 'XAdd (XZ (k * b)) (XDiv (XZ (2 * k)) (XDiv (XZ 3) (XZ 4)))', 'calcYtau': 'XAdd (XZ (k * c)) (XDiv (XZ (2 * k)) (XDiv (XZ 3) (XZ 4)))'}
for x in 'mq2 md2 mu2 ml2 me2'.split():
    acc[x + '_a00'] = acc[x + '_a11'] = 'XZ (k * k)'
acc.update(calcBeta='XV 7', calcTanBeta='XDiv (XZ 3) (XZ 4)', M1='XZ k', M2='XZ k', MG='XZ k', vd='XZ (4 * k)', vu='XZ (3 * k)', msq2='XZ (k * k)', MSt_v0='XZ k')
import re
deep = open(OUT + '/ThreshDeep.v').read()
num = {m.group(1): int(m.group(2)) for m in re.finditer(r"Definition L_(\w+) := XV (\d+)\.", deep)}
o.append("Definition leafX (k a b c : Z) (v : positive) : rx :=\n  match v with")
for n in acc: o.append("  | %d%%positive => %s" % (num[n], acc[n]))
o.append("  | _ => XZ 0\n  end.")
mu6 = "XDiv (XZ (2 * k)) (XSqrt (XDec 103 2))"
A6 = "(XAdd (XZ (k * a)) (XDiv (%s) (XDiv (XZ 3) (XZ 4))))" % mu6
# the leaves that getDeltaLambdaYt6 reads
acc6 = dict(acc, mu=mu6, mq2_a22='XDiv (XZ (50 * k * k)) (XZ 51)', mu2_a22='XDiv (XZ (450 * k * k)) (XZ 49)',
            calcXt="XSub %s (XDiv (%s) (XDiv (XZ 3) (XZ 4)))" % (A6, mu6), calcYt="XAdd %s (XMul (%s) (XDiv (XZ 3) (XZ 4)))" % (A6, mu6))
acc6 = {k: acc6[k] for k in "scale mu mq2_a22 mu2_a22 MA O calcSinBeta calcCosBeta calcXt calcYt".split()}
assert set(acc) == set(num), set(num) - set(acc)
o.append("Definition leafX6 (k a b c : Z) (v : positive) : rx :=\n  match v with")
for n in acc6: o.append("  | %d%%positive => %s" % (num[n], acc6[n]))
o.append("  | _ => XZ 0\n  end.")
# environment
o.append("""
(** numbers: 1 ln 2, 2 ln 3, 3 ln(50/51), 5 ln(103/25), 10.. dilogarithms, 40.. Phi; 100 = sqrt(1.03) and larger are never 0 *)
Definition rho0 (v : positive) : R :=
  match v with
  | 1%positive => ln 2 | 2%positive => ln 3 | 3%positive => ln (50 / 51) | 4%positive => atan (3 / 4) | 5%positive => ln (103 / 25)""")
for k, v in LI.items(): o.append("  | %d%%positive => dilog ((%d) / %d)" % (v, k.numerator, k.denominator))
for t, v in PH.items():
    if t != (1, 9, 1): o.append("  | %d%%positive => phi_xyz %d %d %d" % ((v,) + t))
o.append("""  | 50%positive => Rconst CPi | 51%positive => Rconst Cz2 | 52%positive => Rconst Cz3 | 53%positive => Rconst Cz4 | 54%positive => Rconst Csqrt2
  | 55%positive => Rconst Csqrt3 | 56%positive => Rconst Csqrt15 | 57%positive => Rconst Csqrt35 | 58%positive => Rconst Cinv_sqrt2 | 59%positive => Rconst Clog2
  | 60%positive => Rconst ConeLoop | 61%positive => Rconst CtwoLoop | 62%positive => Rconst CthreeLoop | 63%positive => Rconst CB4 | 64%positive => Rconst CD3
  | 65%positive => Rconst CDN | 66%positive => Rconst COepS2 | 67%positive => Rconst CS2 | 68%positive => Rconst CT1ep
  | 102%positive => q103 | _ => 1
  end.""")
o.append("Definition tab_li : list (lp * lp) := [" + "; ".join("(%s, (PX %d 1 (PC 1) (PC 0), 1%%positive))" % (lp(k), v) for k, v in LI.items()) + "].")
o.append("Definition tab_lg : list (lp * lp) := [(%s, (PX 3 1 (PC 1) (PC 0), 1%%positive)); (%s, (PX 5 1 (PC 1) (PC 0), 1%%positive)); " % (lp(F(50, 51)), lp(F(103, 25))) + "; ".join("(%s, (padd (pscale (%d) (PX 1 1 (PC 1) (PC 0))) (pscale (%d) (PX 2 1 (PC 1) (PC 0))), 1%%positive))" % ((lp(q),) + ex(q)) for q in sorted(logs)) + "].")
sq = [(F(x * k * k), F(int(x ** .5) * k)) for k in (1, 2) for x in M2]
sq = sorted(set(sq))
o.append("Definition tab_sq : list (lp * lp) := [(%s, (PX 102 1 (PC 1) (PC 0), 1%%positive)); " % lp(F(103, 100)) + "; ".join("(%s, %s)" % (lp(a), lp(b)) for a, b in sq) + "].")
o.append("Definition tab_phi : list (lp * lp * lp * lp) := [" + "; ".join("(%s, %s, %s, (PX %d 1 (PC %d) (PC 0), 1%%positive))" % (lp(t[0] * k), lp(t[1] * k), lp(t[2] * k), v, k) for t, v in PH.items() for k in (1, 4)) + "].")
o.append("""Definition cnum (c : mathconst) : positive :=
  match c with
  | CPi => 50 | Cz2 => 51 | Cz3 => 52 | Cz4 => 53 | Csqrt2 => 54 | Csqrt3 => 55 | Csqrt15 => 56 | Csqrt35 => 57 | Cinv_sqrt2 => 58 | Clog2 => 59
  | ConeLoop => 60 | CtwoLoop => 61 | CthreeLoop => 62 | CB4 => 63 | CD3 => 64 | CDN => 65 | COepS2 => 66 | CS2 => 67 | CT1ep => 68
  end.
Definition u0 (v : positive) : R := match v with 7%positive => atan (3 / 4) | _ => 0 end.
Definition env0 : fenv := mkFenv 100 101 (fun v => match v with 7%positive => (PX 4 1 (PC 1) (PC 0), 1%positive) | _ => (PC 0, 1%positive) end)
  (fun c => (PX (cnum c) 1 (PC 1) (PC 0), 1%positive))
  (fun v => None) [] tab_li tab_lg tab_sq tab_phi.
""")
o.append('''
(** the last case of the code *)
Fixpoint genr (x : rs) : rx := match x with SRet e => e | SIf _ _ b => genr b | SThrow _ => XZ 0 end.
Definition at2 (L : Z -> positive -> rx) (x : rs) : rx := XSub (xsub (L 2%Z) (genr x)) (xsub (L 1%Z) (genr x)).
''')
for n, (ws, c) in RES.items():
    a = {'Au': '%d 0 0', 'Ad': '0 %d 0', 'Ae': '0 0 %d'}[VAR[n]]
    L = 'leafX6' if n == 'Yt6' else 'leafX'
    t = " ".join("XAdd (XMul (XZ (%d)) (at2 (fun k => %s k %s) d_getDeltaLambda%s)) (" % (w, L, " ".join("(%s)" % y for y in (a % i).split()), n) for i, w in ws)
    ph = "(XF3 1 (XZ 1) (XZ 1) (XZ 1))"
    if n == 'Yt6': ph = "(XDiv %s (XSqrt (XDec 103 2)))" % ph
    o.append("Definition id_%s : rx := %s XMul (XZ (%d)) %s%s." % (n, t, -3 * c, ph, ")" * len(ws)))
    o.append("Lemma id_%s_ok : fcheck env0 id_%s = true.\nProof. vm_compute. reflexivity. Qed." % (n, n))
open(OUT + '/UnitFalse.v', 'w').write("\n".join(o))
