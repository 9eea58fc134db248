#!/usr/bin/env python3
"""Generate rocq/theories/HierH*.v (expressions and constructors of the hierarchy classes) and HierLib.v."""
import re, sys, threading
sys.path.insert(0, '/verif/tools'); sys.setrecursionlimit(1000000); threading.stack_size(512*1024*1024)
from cpp2coq import parse, strip_comments, CONST
NAMES = "H3 H32q2g H3q22g H4 H5 H5g1 H6 H6b H6b2qg2 H6bq22g H6bq2g2 H6g2 H9 H9q2".split()
OUT = '/verif/rocq/theories/'
SRC = '/repo/source/himalaya/hierarchies/%s.cpp'
POW = {'pow%d' % i: 'P%d' % i for i in range(2, 21)}; POW['power10'] = 'P10'
FUNS = ['getS1', 'getS2', 'getS12'] + ['calc_coef_at_as2_no_sm_logs_log%d' % i for i in range(4)]
SHORT = {f: f for f in FUNS[:3]}; SHORT.update({'calc_coef_at_as2_no_sm_logs_log%d' % i: 'coef%d' % i for i in range(4)})
INTS = set("oneLoopFlag twoLoopFlag threeLoopFlag x xDR2DRMOD shiftst1 shiftst2 shiftst3".split())
def isint(v): return v in INTS or re.fullmatch(r'x[A-Z]\w*|xlm\w+', v) is not None

class Ck:
    """C++ typing of a subexpression: 'd', or (lowest, highest, width in bits) of an integer (flags are 0 or 1);
    a literal of 2^31 or more has type long"""
    def t(s, e):
        k = e[0]
        if k == 'int': return (e[1], e[1], 32 if e[1] < 2**31 else 64)
        if k == 'dbl': return 'd'
        if k == 'var': return (0, 1, 32) if isint(e[1]) else 'd'
        if k == 'neg':
            a = s.t(e[1]); return 'd' if a == 'd' else (-a[1], -a[0], a[2])
        if k == 'call':
            a = s.t(e[2][0])
            if a == 'd' or e[1] == 'log':
                assert a == 'd'; return 'd'
            n = int(POW[e[1]][1:]); m = max(abs(a[0]), abs(a[1])) ** n; r = (-m, m, a[2])
        else:
            a, b = s.t(e[1]), s.t(e[2])
            if a == 'd' or b == 'd': return 'd'
            w = max(a[2], b[2])
            if k == '+': r = (a[0]+b[0], a[1]+b[1], w)
            elif k == '-': r = (a[0]-b[1], a[1]-b[0], w)
            elif k == '*':
                c = [x*y for x in a[:2] for y in b[:2]]; r = (min(c), max(c), w)
            else: raise TypeError("integer division " + str(e))
        if max(abs(r[0]), abs(r[1])) >= 2**(r[2]-1): s.ovf.append((e, r))
        return r

LV = {'+': 4, '-': 4, '*': 5, '/': 5, 'neg': 6}
def out(e):
    k = e[0]
    if k == 'int': return "#%d" % e[1]
    if k == 'dbl': return "#%d" % e[1] if e[2] == 0 else "EDec %d %d" % (e[1], e[2])
    if k == 'var': return ("EConst " + CONST[e[1]]) if e[1] in CONST else "EVar v" + e[1]
    def sub(x, l):
        r = out(x)
        lv = LV.get(x[0], 7 if x[0] in ('call', 'var') or (x[0] == 'dbl' and x[2]) else 9)
        return "(" + r + ")" if lv < l else r
    if k == 'neg': return "- " + sub(e[1], 6)
    if k == 'call':
        a = sub(e[2][0], 9)
        return "ELog " + a if e[1] == 'log' else "EPow %s %s" % (POW[e[1]], a)
    if k in '+-': return sub(e[1], 4) + " " + k + " " + sub(e[2], 5)
    return sub(e[1], 5) + " " + k + " " + sub(e[2], 6)

def wrap(s, w=118):
    lines, cur = [], ""
    for t in s.split(" "):
        if len(cur) + 1 + len(t) > w: lines.append(cur); cur = "   " + t
        else: cur = (cur + " " + t) if cur else t
    lines.append(cur); return "\n".join(lines)

def load(name):
    s = open(SRC % name).read(); t = strip_comments(s); res = {}
    for m in re.finditer(r'double (\w+)::(\w+)\(\) const\s*\{(.*?)\n\}', t, re.S):
        st = [x.strip() for x in m.group(3).split(';') if x.strip()]
        if len(st) == 1: assert st[0].startswith('return'); e = st[0][6:]
        else:
            assert len(st) == 2 and st[1] == 'return result', st[1:]
            e = re.sub(r'^const double result\s*=', '', st[0])
        l0 = t[:m.start()].count("\n") + 1; l1 = t[:m.end()].count("\n") + 1
        res[m.group(2)] = (parse(e), l0, l1)
    assert sorted(res) == sorted(FUNS)
    m = re.search(r'^%s::%s\s*\((.*?)\)\s*\{(.*?)\n\}' % (name, name), t, re.S | re.M)
    args = [a.strip() for a in m.group(1).split(',')]
    assert args[0].startswith('const ExpansionFlags_t')
    assert args[-4:] == ['int mdrFlag', 'int oneLoopFlag', 'int twoLoopFlag', 'int threeLoopFlag'], args
    dbl = [re.fullmatch(r'double (\w+)', a).group(1) for a in args[1:-4]]
    asg = []
    for x in m.group(2).split(';'):
        x = x.strip()
        if not x: continue
        q = re.fullmatch(r'(?:this\s*->\s*)?(\w+)\s*=\s*(.*)', x, re.S)
        l, r = q.group(1), q.group(2).strip()
        ed = re.fullmatch(r'expansionDepth\.at\(ExpansionDepth::(\w+)\)', r)
        tr = re.fullmatch(r'(tan|sin|cos)\(beta\)', r)
        if ed: v = "nint (x_%s d)" % ed.group(1)
        elif tr: v = "n%s a_beta" % tr.group(1)
        elif r in ('mdrFlag', 'oneLoopFlag', 'twoLoopFlag', 'threeLoopFlag'): v = "nint " + {'mdrFlag': 'mdr', 'oneLoopFlag': 'f1', 'twoLoopFlag': 'f2', 'threeLoopFlag': 'f3'}[r]
        else: assert r in dbl, r; v = "a_" + r
        asg.append((l, v))
    lines = (t[:m.start()].count("\n") + 1, t[:m.end()].count("\n") + 1)
    return res, dbl, asg, lines

def main():
    lib = []
    for i, n in enumerate(NAMES):
        fs, dbl, asg, cl = load(n)
        o = ["(** * Class %s" % n, "    GENERATED by tools/gen_hier.py from source/himalaya/hierarchies/%s.cpp (expressions are transcribed operator by operator;" % n,
             "    no subexpression is an integer division, and integer subexpressions stay below 2^31 when the flags are 0 or 1). *)",
             "From Coq Require Import ZArith List.", "From Verif Require Import Num HierExpr HierCalc.", "Local Open Scope hx_scope.", ""]
        for f in FUNS:
            e, a, b = fs[f]; c = Ck(); c.ovf = []; c.t(e)
            for x in c.ovf: print('OVERFLOW', n, f, str(x)[:300])
            o.append("(** %s.cpp:%d-%d *)" % (n, a, b))
            o.append("Definition %s_%s : expr :=" % (n, SHORT[f])); o.append("  " + wrap(out(e)) + "."); o.append("")
        o.append("(** the constructor, %s.cpp:%d-%d: value of each data member (members it does not assign are zero, %s.hpp) *)" % (n, cl[0], cl[1], n))
        o.append(wrap("Definition %s_ctor {T : Type} {N : Num T} (d : Depth) (%s : T) (mdr f1 f2 f3 : Z) (v : hvar) : T :=" % (n, " ".join("a_" + a for a in dbl))))
        o.append("  match v with")
        seen = set()
        for l, v in asg:
            assert l not in seen; seen.add(l); o.append("  | v%s => %s" % (l, v))
        o.append("  | _ => nint 0"); o.append("  end."); o.append("")
        open(OUT + "Hier%s.v" % n, "w").write("\n".join(o))
        lib.append((i, n, dbl, [l for l, v in asg]))
    o = ["(** * The hierarchy classes as a library for HierCalc", "    GENERATED by tools/gen_hier.py: calculateHierarchy (HierarchyCalculator.cpp:477-815) constructs an object of the class",
         "    and calls its member functions; [hier_lib] is that, as a value for the field [env_hier] of [Env]. *)",
         "From Coq Require Import ZArith List.", "From Verif Require Import Num HierExpr HierCalc.",
         "From Verif Require Import " + " ".join("Hier" + n for n in NAMES) + ".", "Import ListNotations.", "",
         "(** the seven expressions of the class with hierarchy number h (hierarchies/HierarchyFlags.hpp:17-34) *)",
         "Record HExprs := mkHExprs { xS1 : expr; xS2 : expr; xS12 : expr; xc0 : expr; xc1 : expr; xc2 : expr; xc3 : expr }.",
         "Definition hier_exprs (h : Z) : HExprs :=", "  match h with"]
    for i, n, d, ms in lib: o.append("  | %d%%Z => mkHExprs %s" % (i, " ".join("%s_%s" % (n, SHORT[f]) for f in FUNS)))
    o += ["  | _ => mkHExprs (EInt 0) (EInt 0) (EInt 0) (EInt 0) (EInt 0) (EInt 0) (EInt 0)", "  end.", "",
          "(** the data members of the object that the constructor of class number h makes from the double arguments [args];",
          "    an argument list of another length does not occur (it does not compile) *)",
          "Definition hier_members {T} {N : Num T} (h : Z) (d : Depth) (args : list T) (mdr f1 f2 f3 : Z) : hvar -> T :=", "  match h, args with"]
    for i, n, d, ms in lib:
        v = ["y%d" % k for k in range(len(d))]
        o.append("  | %d%%Z, [%s] => %s_ctor d %s mdr f1 f2 f3" % (i, "; ".join(v), n, " ".join(v)))
    o += ["  | _, _ => fun _ => nint 0", "  end.", "",
          "(** the members that the constructor of class number h assigns *)",
          "Definition hier_sets (h : Z) (v : hvar) : bool :=", "  match h with"]
    for i, n, d, ms in lib: o.append(wrap("  | %d%%Z => match v with %s => true | _ => false end" % (i, " | ".join("v" + x for x in ms))))
    o += ["  | _ => false", "  end.", "",
          "(** [lit] is the value of a floating literal: [ndec] in the program *)",
          "Definition hier_lib_lit {T} {N : Num T} (lit : Z -> Z -> T) (h : Z) (d : Depth) (args : list T) (mdr f1 f2 f3 : Z) : HierOut T :=",
          "  let r := hier_members h d args mdr f1 f2 f3 in",
          "  let x := hier_exprs h in",
          "  let ev := eval_lit lit r in",
          "  mkHierOut (ev (xS1 x)) (ev (xS2 x)) (ev (xS12 x)) (ev (xc0 x)) (ev (xc1 x)) (ev (xc2 x)) (ev (xc3 x)).",
          "Definition hier_lib {T} {N : Num T} := hier_lib_lit (T := T) ndec.", ""]
    open(OUT + "HierLib.v", "w").write("\n".join(o))
t = threading.Thread(target=main); t.start(); t.join()
