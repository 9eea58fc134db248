#!/usr/bin/env python3
"""Generates rocq/theories/Thresh.v (one-loop corrections) and ThreshTwo.v (two- and three-loop ones)
from source/himalaya/mh2_eft/ThresholdCalculator.cpp."""
from fun2coq import *
import fun2coq
sys.setrecursionlimit(100000)
OUT = os.path.join(os.path.dirname(os.path.abspath(__file__)), '..', 'rocq', 'theories')
rel = 'source/himalaya/mh2_eft/ThresholdCalculator.cpp'
S = Src('/repo/' + rel)
LIM = "GENERAL MQ3_EQ_MU3 MQ3_EQ_M3 MU3_EQ_M3 MQ3_EQ_MU3_EQ_M3 DEGENERATE".split()

class TFun(Fun):
    """adds: switch (limit), throw, conditions on the integer [limit] and [xtOrder..], and functions that can throw"""
    def __init__(s, em, throws):
        super().__init__(em); s.throws = throws
    def ex(s, t):
        if re.search(r"\blimit\s*==", t):
            t = re.sub(r"\blimit\s*==\s*Limits::(\w+)", r"(limit =? \1)%Z", t)
            assert re.fullmatch(r"[\w\s()=?%|]*", t), t
            return t
        m = re.match(r"(xtOrder\w*)\s*(<|!=)\s*(\d+)\s*\?\s*0\s*:\s*(.*)$", t, re.S)
        if m:
            c = "(%s <? %s)%%Z" % (m.group(1), m.group(3)) if m.group(2) == '<' else "negb (%s =? %s)%%Z" % (m.group(1), m.group(3))
            return "if %s then #0 else %s" % (c, s.ex(m.group(4)))
        if t.strip().startswith("Limits::"): return t.strip()[8:]
        return super().ex(t)
    def emit(s, sts, ind="    ", k=None):
        if sts and sts[0][0] == 's':
            t = sts[0][1]
            if t.startswith('throw'):
                return ind + 'Throw %s%%string' % re.search(r'"[^"]*"', t).group(0)
            if t.startswith('return') and s.throws:
                return ind + "Ok (" + s.ex(t[6:].strip()) + ")"
        return super().emit(sts, ind, k)

def deswitch(body):
    """switch (limit) { case A: {..} case B: return ..; default: .. }  ->  if-chain; a [break] in default falls through"""
    m = re.search(r"switch \(limit\) \{", body)
    if not m: return body
    d, i = 1, m.end()
    while d: d += (body[i] == '{') - (body[i] == '}'); i += 1
    inner, after = body[m.end():i-1], body[i:]
    parts = re.split(r"\bcase Limits::(\w+)\s*:|\b(default)\s*:", inner)
    assert not parts[0].strip()
    out, rest = "", ""
    for j in range(1, len(parts), 3):
        lab, dflt, code = parts[j], parts[j+1], parts[j+2]
        if dflt:
            code = code.strip()
            rest = "" if code == 'break;' else code
        else:
            assert 'return' in code and 'break' not in code
            assert lab in LIM
            out += "if (limit == Limits::%s) {%s}\n" % (lab, code)
    after = after.strip()
    if after.startswith(';'): after = after[1:]
    return body[:m.start()] + out + rest + after

calc = "calcBeta calcTanBeta calcV calcV2 calcSinBeta calcCosBeta calcXt calcXb calcXtau calcYt calcYb calcYtau".split()
loopf = "F1 F2 F3 F4 F5 F6 F7 F9 f1 f2 f3 f4 f5 f6 f7 f8".split()
ren = {c: c + " p" for c in calc}
funs = {f: f for f in loopf}
funs.update({'dilog': 'dilog', 'phixyz': 'phi_xyz', 'deltaxyz': 'delta_xyz', 'is_equal_rel': 'is_equal_rel', 'f1HD': 'f1HD', 'f2HD': 'f2HD', 'f3HD': 'f3HD',
  'getDeltaLambdaYt6_SUSYHD': 'getDeltaLambdaYt6_SUSYHD p'})
em = Emit(ints=('omitLogs',), ren=ren, funs=funs)

def gen(name):
    sig, body, a, b = S.func(r"(?<=\n)double ThresholdCalculator::" + name + r"\(")
    body = deswitch(body)
    throws = 'throw' in body
    ar = sig[sig.index('('):]
    ints = [x for x in re.findall(r"(?:int|Limits)\s+(\w+)", ar)]
    usesmsq = re.search(r"\bmsq2\b", body) is not None
    usesxt = 'xtOrderLambdaAtAs2' in body
    par = "(p : Params T)" + (" (msq2 : T)" if usesmsq else "") + (" (xtOrderLambdaAtAs2 : Z)" if usesxt else "") + ("".join(" (%s : Z)" % v for v in ints))
    # a local variable hides a constant of the same name
    local = set(re.findall(r"(?:double|auto)\s+(\w+)\s*=", body))
    em = Emit(ints=('omitLogs',), ren=ren, funs=funs, consts={k: v for k, v in CONST.items() if k not in local})
    f = TFun(em, throws)
    txt = f.emit(split_stmts(body)).replace("SUSYHD p #omitLogs", "SUSYHD p omitLogs")
    return "  (** %s:%d-%d *)\n  Definition %s %s : %s :=\n%s.\n" % (rel, a, b, name, par, "res T" if throws else "T", txt)

def freefun(name):
    sig, body, a, b = S.func(r"(?<=\n)double " + name + r"\(")
    return "  (** %s:%d-%d *)\n  Definition %s (x : T) : T :=\n%s.\n" % (rel, a, b, name, Fun(em).emit(split_stmts(body)))

if __name__ == '__main__':
    one = """getDeltaLambdaYb2G12 getDeltaLambdaG14 getDeltaLambdaRegG14 getDeltaLambdaChiG14 getDeltaLambdaChiG24 getDeltaLambdaG24
    getDeltaLambdaRegG24 getDeltaLambdaG12G22 getDeltaLambdaRegG12G22 getDeltaLambdaChiG12G22 getDeltaLambdaYb2G22 getDeltaLambdaYb4
    getDeltaLambdaYt2G12 getDeltaLambdaYt2G22 getDeltaLambdaYtau2G12 getDeltaLambdaYtau2G22 getDeltaLambdaYtau4 getDeltaG1G1 getDeltaG2G2
    getDeltaYtYt getDeltaYtauYtau getDeltaYbYb getDeltaYbYt getDeltaYbAs getDeltaYtYb getDeltaVevYt2 getDeltaVevYb2 getDeltaVevYtau2
    getDeltaYtauYb getDeltaG3Alphas getDeltaYtAlphas getDeltaLambdaAlphat""".split()
    two = """getDeltaLambdaYb4G32 getDeltaLambdaYb6 getDeltaLambdaYt6_SUSYHD getDeltaLambdaYt6 getDeltaLambdaYtau6 getDeltaLambdaYt2Yb4
    getDeltaLambdaYt4Yb2 getDeltaLambdaYtau4Yb2 getDeltaLambdaYtau2Yb4 getDeltaYtAlphas2 getDeltaLambdaAlphatAlphas
    getDeltaLambdaAlphatAlphas2 getDRbarPrimeToMSbarXtTerms""".split()
    def line(pat): return S.line(S.txt.index(pat))
    o = ["""(** * Threshold corrections, one loop
    GENERATED by tools/gen_thresh.py from source/himalaya/mh2_eft/ThresholdCalculator.cpp, statement by statement.
    [omitLogs], [limit] are C++ int / enum values (any integer, as the enum is cast from a user-supplied int); omitLogs is
    converted to double exactly.  A [switch (limit)] is an if-chain over the integer value.
    getDeltaVevG12, getDeltaVevG22 (:889-900) return NaN and are represented in Threshold.v. *)
From Coq Require Import ZArith Bool String.
From Verif Require Import Num Except Params HierFormulas Dilog LoopFun.

(** mh2_eft/ThresholdCalculator.hpp / EFTFlags.hpp: enum class Limits *)
"""]
    lim = open('/repo/source/himalaya/mh2_eft/EFTFlags.hpp').read()
    hpp = None
    for fn in os.popen("grep -rlE 'enum class Limits' /repo/source /repo/include").read().split():
        hpp = fn; txt = strip_comments(open(fn).read())
        body = re.search(r"enum class Limits[^{]*\{([^}]*)\}", txt).group(1)
        vals = [x.strip() for x in body.split(',') if x.strip()]
    cur = -1; L = []
    for v in vals:
        m = re.match(r"(\w+)\s*(?:=\s*(\d+))?$", v)
        cur = int(m.group(2)) if m.group(2) else cur + 1
        L.append((m.group(1), cur))
    assert L[-1] == ('NUMBER_OF_LIMITS', 6); L = L[:-1]
    assert [x for x, _ in L] == LIM and [y for _, y in L] == list(range(6)), L
    o[0] = o[0].replace("mh2_eft/ThresholdCalculator.hpp / EFTFlags.hpp", os.path.relpath(hpp, '/repo'))
    o.append("".join("Definition %s := %d%%Z.\n" % x for x in L))
    o.append("""Section Thresh.
  Context {T : Type} {N : Num T}.
  Open Scope num_scope.
""")
    # calcBeta..calcCosBeta are textually those of HierarchyCalculator.cpp
    H = Src('/repo/source/himalaya/HierarchyCalculator.cpp')
    for c in calc[:6]:
        b1 = re.sub(r"\s+", " ", S.func(r"ThresholdCalculator::" + c + r"\(")[1]); b2 = re.sub(r"\s+", " ", H.func(r"HierarchyCalculator::" + c + r"\(")[1])
        assert b1 == b2, (c, b1, b2)
    o.append("  (** calcBeta, calcTanBeta, calcV, calcV2, calcSinBeta, calcCosBeta (:5958-5986) have the same text as in\n      HierarchyCalculator.cpp and are taken from HierFormulas.v. *)\n")
    for c in calc[6:]:
        sig, body, a, b = S.func(r"(?<=\n)double ThresholdCalculator::" + c + r"\(")
        o.append("  (** %s:%d-%d *)\n  Definition %s (p : Params T) : T :=\n%s.\n" % (rel, a, b, c, Fun(em).emit(split_stmts(body))))
    sig, body, a, b = S.func(r"bool isGeneralStable\(")
    o.append("  (** %s:%d-%d *)\n  Definition isGeneralStable (exact shifted limit : T) : bool :=\n%s.\n" % (rel, a, b, Fun(em).emit(split_stmts(body))))
    for n in one: o.append(gen(n))
    o.append("End Thresh.\n")
    open(OUT + '/Thresh.v', 'w').write("\n".join(o))
    o = ["""(** * Threshold corrections, two and three loops
    GENERATED by tools/gen_thresh.py from source/himalaya/mh2_eft/ThresholdCalculator.cpp, statement by statement.
    SIMPLIFIED: in f3HD (:59-76) the complex logarithm std::log(cden) enters only through the real part of a product with
    real factors, so it is written log|den|. *)
From Coq Require Import ZArith Bool String.
From Verif Require Import Num Except Params HierFormulas Dilog LoopFun Thresh.

Section ThreshTwo.
  Context {T : Type} {N : Num T}.
  Open Scope num_scope.
  (** the class instance is written explicitly, to spare instance search on the large terms below *)
  Local Notation "a + b" := (@nadd T N a b). Local Notation "a - b" := (@nsub T N a b).
  Local Notation "a * b" := (@nmul T N a b). Local Notation "a / b" := (@ndiv T N a b).
  Local Notation "- a" := (@nneg T N a). Local Notation "# z" := (@nint T N z) (at level 1, z constr at level 0).
  Local Notation ndec := (@Num.ndec T N). Local Notation nconst := (@Num.nconst T N).
  Local Notation nlog := (@Num.nlog T N). Local Notation nsqrt := (@Num.nsqrt T N).
  Local Notation dilog := (@Dilog.dilog T N). Local Notation phi_xyz := (@LoopFun.phi_xyz T N).
  Local Notation delta_xyz := (@LoopFun.delta_xyz T N).
""" + "".join("  Local Notation %s := (@Num.%s T N).\n" % (f, f) for f in ["power10" if k == 10 else "pow%d" % k for k in range(2, 21)])]
    o.append(freefun('f1HD')); o.append(freefun('f2HD'))
    sig, body, a, b = S.func(r"(?<=\n)double f3HD\(")
    body = body.replace("const std::complex<double> cden = den;", "").replace("const std::complex<double> result =", "return ").replace("std::log(cden)", "std::log(std::abs(den))").replace("return result.real();", "").replace("using himalaya::dilog;", "")
    o.append("  (** %s:%d-%d *)\n  Definition f3HD (x : T) : T :=\n%s.\n" % (rel, a, b, Fun(em).emit(split_stmts(body))))
    for n in two: o.append(gen(n))
    o.append("End ThreshTwo.\n")
    open(OUT + '/ThreshTwo.v', 'w').write("\n".join(o))
