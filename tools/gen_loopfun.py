#!/usr/bin/env python3
"""Generates rocq/theories/Dilog.v and LoopFun.v."""
from fun2coq import *
OUT = os.path.join(os.path.dirname(os.path.abspath(__file__)), '..', 'rocq', 'theories')

def pre(t):
    t = re.sub(r"std::numeric_limits<double>::epsilon\(\)", "eps_default", t)
    t = re.sub(r"\b([PQ])\[(\d+)\]", r"\1_\2", t)
    return t

def gen(src, pat, em, coqname=None, rel=None, note="", ret="T", args=None):
    sig, body, a, b = src.func(pat)
    name = coqname or re.search(r"(\w+)\s*\(", sig).group(1)
    ps = args or params(sig)
    f = Fun(em, pre)
    txt = f.emit(split_stmts(body))
    c = "  (** %s:%d-%d%s *)\n" % (rel, a, b, note)
    return c + "  Definition %s %s: %s :=\n%s.\n" % (name, "(%s : T) " % " ".join(ps), ret, txt)

# ---- Dilog.v
rel = 'source/himalaya/misc/Li2.cpp'
S = Src('/repo/' + rel)
em = Emit(consts={}, ren={}, funs={'fmod':'nfmod'})
o = ["""(** * Real dilogarithm and Clausen function
    GENERATED by tools/gen_loopfun.py from source/himalaya/misc/Li2.cpp, statement by statement.
    The complex overload of dilog (Li2.cpp:57ff) is not modelled. *)
From Coq Require Import ZArith Bool.
From Verif Require Import Num.

Section Dilog.
  Context {T : Type} {N : Num T}.
  Open Scope num_scope.
"""]
o.append(gen(S, r"double dilog\(double x\)", em, rel=rel,
  note=".\n      [P_i], [Q_i] are the elements of the local arrays P, Q."))
o.append(gen(S, r"double clausen_2\(double x\)", em, rel=rel))
o.append("End Dilog.\n")
open(OUT + '/Dilog.v', 'w').write("\n".join(o))

# ---- LoopFun.v
rel = 'source/himalaya/mh2_eft/ThresholdLoopFunctions.cpp'
S = Src('/repo/' + rel)
names = """logx xlogx F1 F2 F3 F4 F5 F6 F7 F8_1_1 F8_1_x2 F8_0_x2 F8_x1_x2 F8 F9_1_1 F9_1_x2 F9_0_x2 F9_x1_x2 F9 f g f1 f2 f3 f4
f5_0_0 f5_1_1 f5_1_r2 f5_0_r2 f5_r1_r2 f5 f6_0_0 f6_1_1 f6_0_1 f6_1_r2 f6_0_r2 f6_r1_r2 f6
f7_0_0 f7_1_1 f7_0_1 f7_1_r2 f7_0_r2 f7_r1_r2 f7 f8_0_0 f8_1_1 f8_0_1 f8_1_r2 f8_0_r2 f8_r1_r2 f8 delta_xyz""".split()
names2 = "lambda_2 l00 l0v lv0 luv phi_pos cl2acos phi_neg_1v phi_neg phi_uv phi_xyz".split()
funs = {'cube':'pow3','quad':'pow4','is_zero':'is_zero','is_equal':'is_equal','is_close':'is_close','dilog':'dilog','clausen_2':'clausen_2','acos':'nacos'}
for n in names + names2: funs[n] = n
em = Emit(consts={}, ren={}, funs=funs)
em2 = Emit(consts={}, ren={'eps':'phi_eps'}, funs=funs)
o = ["""(** * Threshold loop functions
    GENERATED by tools/gen_loopfun.py from source/himalaya/mh2_eft/ThresholdLoopFunctions.cpp, statement by statement.
    sqr, cube, quad, pow5 (lines 39-43) are pow2, pow3, pow4, pow5 of Num.v (same association). *)
From Coq Require Import ZArith Bool.
From Verif Require Import Num Dilog.

Section LoopFun.
  Context {T : Type} {N : Num T}.
  Open Scope num_scope.
"""]
for n in names:
    o.append(gen(S, r"(?<=\n)(?:   )?(?:static )?double " + n + r"\s*\(", em, rel=rel))
i = S.txt.index('constexpr double eps')
o.append("""  (** %s:%d-%d: namespace constants eps and qdrt_eps *)
  Definition phi_eps : T := ndec 10 0 * eps_default.
  Definition qdrt_eps : T := npow phi_eps (ndec 25 2).
""" % (rel, S.line(i), S.line(i)+1))
assert 'constexpr double eps = 10.0*std::numeric_limits<double>::epsilon();' in S.txt and 'const double qdrt_eps = std::pow(eps, 0.25);' in S.txt
sg, bd, a, b = S.func(r"void sort\(")
assert re.sub(r"\s+", " ", bd).strip() == "if (x > y) { std::swap(x, y); } if (y > z) { std::swap(y, z); } if (x > y) { std::swap(x, y); }"
o.append("""  (** %s:%d-%d (the three reference arguments become a triple) *)
  Definition sort3 (x y z : T) : T * T * T :=
    let '(x, y) := if x >? y then (y, x) else (x, y) in
    let '(y, z) := if y >? z then (z, y) else (y, z) in
    let '(x, y) := if x >? y then (y, x) else (x, y) in
    (x, y, z).
""" % (rel, a, b))
for n in names2[:-1]:
    p = r"(?<=\n)\s*(?:std::tuple<double,double>|double) " + n + r"\s*\("
    t = gen(S, p, em2, rel=rel, ret="T * T" if n == 'luv' else "T")
    o.append(t)
sg, bd, a, b = S.func(r"double phi_xyz\(")
bd = bd.replace("sort(x, y, z);", "std::tie(x, y, z) = sort3(x, y, z);")
em2.funs['sort3'] = 'sort3'
f = Fun(em2, pre)
o.append("  (** %s:%d-%d *)\n  Definition phi_xyz (x y z : T) : T :=\n%s.\n" % (rel, a, b, f.emit(split_stmts(bd))))
o.append("End LoopFun.\n")
open(OUT + '/LoopFun.v', 'w').write("\n".join(o))
