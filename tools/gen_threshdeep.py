#!/usr/bin/env python3
"""Generates rocq/theories/ThreshDeep.v: every threshold correction of Thresh.v / ThreshTwo.v as a syntax tree (ThreshTree.v), with a lemma
(by reflexivity) that the model function is the value of the tree.  Proof tool only."""
from gen_thresh import *
one = """getDeltaLambdaYb2G12 getDeltaLambdaG14 getDeltaLambdaRegG14 getDeltaLambdaChiG14 getDeltaLambdaChiG24 getDeltaLambdaG24
    getDeltaLambdaRegG24 getDeltaLambdaG12G22 getDeltaLambdaRegG12G22 getDeltaLambdaChiG12G22 getDeltaLambdaYb2G22 getDeltaLambdaYb4
    getDeltaLambdaYt2G12 getDeltaLambdaYt2G22 getDeltaLambdaYtau2G12 getDeltaLambdaYtau2G22 getDeltaLambdaYtau4 getDeltaG1G1 getDeltaG2G2
    getDeltaYtYt getDeltaYtauYtau getDeltaYbYb getDeltaYbYt getDeltaYbAs getDeltaYtYb getDeltaVevYt2 getDeltaVevYb2 getDeltaVevYtau2
    getDeltaYtauYb getDeltaG3Alphas getDeltaYtAlphas getDeltaLambdaAlphat""".split()
two = """getDeltaLambdaYb4G32 getDeltaLambdaYb6 getDeltaLambdaYt6_SUSYHD getDeltaLambdaYt6 getDeltaLambdaYtau6 getDeltaLambdaYt2Yb4
    getDeltaLambdaYt4Yb2 getDeltaLambdaYtau4Yb2 getDeltaLambdaYtau2Yb4 getDeltaYtAlphas2 getDeltaLambdaAlphatAlphas
    getDeltaLambdaAlphatAlphas2 getDRbarPrimeToMSbarXtTerms""".split()
U1 = dict(dilog=1, nsin=2, ncos=3, ntan=4, F1=5, F2=6, F3=7, F4=8, F5=9, F6=10, F7=11, f1=12, f2=13, f3=14, f4=15, f1HD=16, f2HD=17, f3HD=18)
U2 = dict(F9=1, f5=2, f6=3, f7=4, f8=5, F8=6)
leaves = {}
DIM = {'scale': 1, 'mu': 1, 'M1': 1, 'M2': 1, 'MG': 1, 'MA': 1, 'v0 (MSt p)': 1, 'calcXt': 1, 'calcXb': 1, 'calcXtau': 1, 'calcYt': 1, 'calcYb': 1, 'calcYtau': 1,
       'calcBeta': 0, 'calcTanBeta': 0, 'calcSinBeta': 0, 'calcCosBeta': 0, 'vu': 1, 'vd': 1}
def leaf(key, acc, d):
    if key not in leaves: leaves[key] = (len(leaves) + 1, acc, d)
    return "L_" + key
def leafs(t):
    t = t.replace("npow Mu2 (ndec 15 1)", leaf("mu3", "npow (pow2 (mu p)) (ndec 15 1)", 3))
    t = re.sub(r"npow\s+Mu2\s+\(ndec\s+15\s+1\)", "L_mu3", t)
    t = re.sub(r"#omitLogs\b", lambda m: leaf("O", "nint o", 0), t)
    t = re.sub(r"\bmsq2\b", lambda m: leaf("msq2", "msq2", 2), t)
    def sub(m):
        a, b = m.group(1), m.group(2)
        d = DIM.get("%s (%s p)" % (a, b), 2 if b in ('mq2', 'mu2', 'md2', 'ml2', 'me2') else 1)
        return leaf("%s_%s" % (b, a), "%s (%s p)" % (a, b), d)
    t = re.sub(r"\b(a\d\d|v[01])\s+\((\w+)\s+p\)", sub, t)
    t = re.sub(r"\b([A-Za-z]\w*)\s+p\b", lambda m: m.group(0) if m.group(1) == 'getDeltaLambdaYt6_SUSYHD' else leaf(m.group(1), m.group(1) + " p", DIM[m.group(1)]), t)
    return t
def conv_ifs(t, throws):
    """statement-level conditions on reals become SIf; conditions on the integers limit / xtOrder stay"""
    toks = re.split(r"(\bif\b|\bthen\b|\belse\b)", t)
    out, stack = "", []
    i = 0
    while i < len(toks):
        k = toks[i]
        if k == 'if':
            c = toks[i+1]
            assert toks[i+2] == 'then'
            if '%Z' in c:
                if '||' in c:
                    x, y = c.split('||'); c = " orb %s %s " % (x.strip(), y.strip())
                pre = out.rstrip()
                if re.search(r"let limit :=$", pre): out += "if" + c + "then"; stack.append(0)
                elif re.search(r"let \w+ :=$", pre): out += "SEL (" + c.strip() + ") THEN"; stack.append(1)
                else: out += "IFF (CB (" + c.strip() + ")) THEN"; stack.append(1)
            else:
                out += "IFF (" + c + ") THEN"; stack.append(1)
            i += 3; continue
        if k == 'else':
            out += "ELSE" if stack.pop() else "else"
        else: out += k
        i += 1
    return out
body_out = []
for name in one + two:
    txt = gen(name)
    m = re.match(r"\s*\(\*\*.*?\*\)\s*Definition (\w+) (.*?) : (T|res T) :=\n(.*)\.\n$", txt, re.S)
    nm, par, ty, body = m.group(1), m.group(2), m.group(3), m.group(4)
    throws = ty == 'res T'
    zs = [v for v in re.findall(r"\((\w+) : Z\)", par) if v != 'omitLogs']
    body = leafs(body)
    body = body.replace("getDeltaLambdaYt6_SUSYHD p omitLogs", "d_getDeltaLambdaYt6_SUSYHD")
    body = conv_ifs(body, throws)
    if throws:
        body = re.sub(r"\bOk \(", "SRet (", body)
        body = re.sub(r"\bThrow (\"[^\"]*\"%string)", r"SThrow \1", body)
    else:
        # wrap the returned expressions: every tail expression
        lines = body.split("\n")
        # tail expressions start after a line ending in THEN/ELSE/'then'/'else' or 'in' at statement level; find them by a small parser
        def tails(b):
            b = b.strip()
            mm = re.match(r"let\s+(\w+)\s*:=", b)
            if mm:
                # find the matching ' in' at depth 0 of nested lets
                d, i = 1, mm.end()
                for tk in re.finditer(r"\blet\b|\bin\b", b[mm.end():]):
                    d += 1 if tk.group(0) == 'let' else -1
                    if d == 0:
                        i = mm.end() + tk.end(); break
                return b[:i] + "\n    " + tails(b[i:])
            for (I, TH, EL) in (("IFF", "THEN", "ELSE"), ("if", "then", "else")):
                if re.match(I + r"\b", b):
                    p1 = re.search(r"\b%s\b" % TH, b)
                    d, rest = 1, b[p1.end():]
                    for tk in re.finditer(r"\b(IFF|if|ELSE|else)\b", rest):
                        d += 1 if tk.group(0) in ('IFF', 'if') else -1
                        if d == 0:
                            return b[:p1.end()] + "\n    " + tails(rest[:tk.start()]) + "\n    " + tk.group(0) + "\n    " + tails(rest[tk.end():])
            if b.startswith('d_getDeltaLambdaYt6_SUSYHD'): return b
            return "SRet (" + b + ")"
        body = tails(body)
    body = re.sub(r"\bCPi\b|\bC\w+\b", lambda m: m.group(0), body)
    zp = "".join(" (%s : Z)" % z for z in zs); za = "".join(" " + z for z in zs)
    has_o = 'omitLogs' in par; has_m = '(msq2 : T)' in par
    body_out.append("Definition d_%s%s : rs :=\n    %s.\n" % (nm, zp, body.strip()))
    order = re.findall(r"\((\w+) : ", par)
    args = " ".join({'omitLogs': 'o'}.get(v, v) for v in order)
    ev = "sev" if throws else "sevT"
    body_out.append("Lemma d_%s_eq (p : Params R) (msq2 : R)%s (o : Z) : %s %s = %s (leafR p msq2 o) (d_%s%s).\nProof. reflexivity. Qed.\n" % (nm, zp, nm, args, ev, nm, za))
hd = ["""(** * The threshold corrections as syntax trees
    GENERATED by tools/gen_threshdeep.py; not part of the model, only used in proofs: each tree is proved equal to the model function by
    evaluation ([reflexivity]). *)
From Coq Require Import Reals ZArith Bool String.
From Verif Require Import Num Except Params HierFormulas Dilog LoopFun Thresh ThreshTwo FieldNF ThreshTree.
"""]
for k, (n, acc, d) in leaves.items(): hd.append("Definition L_%s := XV %d." % (k, n))
hd.append("Definition leafR (p : Params R) (msq2 : R) (o : Z) (v : positive) : R :=\n  match v with")
for k, (n, acc, d) in leaves.items(): hd.append("  | %d%%positive => %s" % (n, acc))
hd.append("  | _ => 0%R\n  end.")
hd.append("Definition leafD (v : positive) : Z :=\n  match v with")
for k, (n, acc, d) in leaves.items(): hd.append("  | %d%%positive => %d" % (n, d))
hd.append("  | _ => 0\n  end%Z.")
hd.append("Definition n_leaves := %d%%positive." % len(leaves))
hd.append("""Open Scope num_scope.
Local Notation "a + b" := (XAdd a b) : num_scope. Local Notation "a - b" := (XSub a b) : num_scope.
Local Notation "a * b" := (XMul a b) : num_scope. Local Notation "a / b" := (XDiv a b) : num_scope.
Local Notation "- a" := (XNeg a) : num_scope. Local Notation "# z" := (XZ z) (at level 1, z constr at level 0) : num_scope.
Local Notation "a <? b" := (CLt a b) : num_scope. Local Notation "a && b" := (CAnd a b) : num_scope. Local Notation "a || b" := (COr a b) : num_scope.
Local Notation "'IFF' c 'THEN' a 'ELSE' b" := (SIf c a b) (at level 200, c at level 100, a at level 200, b at level 200) : num_scope.
Local Notation "'SEL' c 'THEN' a 'ELSE' b" := (XSel c a b) (at level 200, c at level 100, a at level 200, b at level 200) : num_scope.
Local Notation is_equal_rel := CRel (only parsing).
Local Notation ndec := XDec. Local Notation nconst := XC. Local Notation nlog := XLog. Local Notation nsqrt := XSqrt. Local Notation nabs := XAbs.
Local Notation delta_xyz := (@LoopFun.delta_xyz rx NumX). Local Notation phi_xyz := (XF3 1).""")
for k in range(2, 21):
    f = "power10" if k == 10 else "pow%d" % k
    hd.append("Local Notation %s := (@Num.%s rx NumX)." % (f, f))
hd += ["Local Notation %s := (XF1 %d)." % x for x in U1.items()] + ["Local Notation %s := (XF2 %d)." % x for x in U2.items()]
tree = """(** * Syntax trees for straight-line code with conditions
    Statements over the expressions of FieldNF.v.  GENERATED by tools/gen_threshdeep.py.  Proof tool only, nothing here models code. *)
From Coq Require Import Reals ZArith Bool String.
From Verif Require Import Num Except Params HierFormulas Dilog LoopFun Thresh ThreshTwo FieldNF.

Inductive cx := CLt (a b : rx) | CRel (a b c : rx) | CB (b : bool) | CAnd (a b : cx) | COr (a b : cx).
Inductive rs := SRet (e : rx) | SIf (c : cx) (a b : rs) | SThrow (m : string).

(** the functions called by the corrections *)
Definition fun1 (f : positive) : R -> R :=
  match f with
""" + "".join("  | %d%%positive => %s\n" % (v, "@Num.%s R NumR" % k if k.startswith('n') else "@%s R NumR" % k) for k, v in U1.items()) + """  | _ => fun _ => 0%R
  end.
Definition fun2 (f : positive) : R -> R -> R :=
  match f with
""" + "".join("  | %d%%positive => @%s R NumR\n" % (v, k) for k, v in U2.items()) + """  | _ => fun _ _ => 0%R
  end.
Definition fun3 (f : positive) : R -> R -> R -> R :=
  match f with 1%positive => @phi_xyz R NumR | _ => fun _ _ _ => 0%R end.

Section Sem.
  Variables (G3 : positive -> R -> R -> R -> R) (u : positive -> R).
  Notation ev := (rev u fun1 fun2 G3).
  Fixpoint cev (c : cx) : bool :=
    match c with
    | CLt a b => nltb (ev a) (ev b)
    | CRel a b c => is_equal_rel (ev a) (ev b) (ev c)
    | CB b => b
    | CAnd a b => andb (cev a) (cev b)
    | COr a b => orb (cev a) (cev b)
    end.
  Fixpoint sevG (x : rs) : res R :=
    match x with
    | SRet e => Ok (ev e)
    | SIf c a b => if cev c then sevG a else sevG b
    | SThrow m => Throw m
    end.
  (** for functions that do not throw *)
  Fixpoint sevTG (x : rs) : R :=
    match x with
    | SRet e => ev e
    | SIf c a b => if cev c then sevTG a else sevTG b
    | SThrow m => 0%R
    end.
End Sem.
Definition sev := sevG fun3.
Definition sevT := sevTG fun3.
"""
open(OUT + '/ThreshTree.v', 'w').write(tree)
open(OUT + '/ThreshDeep.v', 'w').write("\n".join(hd) + "\n\n" + "\n".join(body_out))
