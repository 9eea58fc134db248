#!/usr/bin/env python3
"""Generates rocq/theories/ThreshViews.v: for the corrections with a mass-limit switch, the expression of each case
as a function of the masses, Xt and lmQ3MR, over the reals, with a lemma (by reflexivity) that the model function
is this expression.  Nothing here is part of the model: the lemmas are checked by Coq."""
from gen_thresh import *
FN = {'getDeltaYtAlphas': 'yta', 'getDeltaYtAlphas2': 'yta2', 'getDeltaLambdaAlphat': 'lat', 'getDeltaLambdaAlphatAlphas': 'lata',
      'getDeltaLambdaAlphatAlphas2': 'lata2', 'getDRbarPrimeToMSbarXtTerms': 'xtt', 'getDeltaVevYt2': 'vev'}
VARS = "mQ32 mU32 m32 mQ3 mU3 m3 msq2 msq Xt Xt2 Xt4 Xt5 Xt6 z3 lmQ3MR".split()
out = ["""(** * Mass-limit cases of the corrections as plain functions over R
    GENERATED by tools/gen_threshviews.py; not part of the model, only used in proofs. *)
From Coq Require Import Reals ZArith Bool String.
From Verif Require Import Num Except Params HierFormulas Dilog LoopFun Thresh ThreshTwo.
Open Scope num_scope.
Local Notation "a + b" := (@nadd R NumR a b) : num_scope. Local Notation "a - b" := (@nsub R NumR a b) : num_scope.
Local Notation "a * b" := (@nmul R NumR a b) : num_scope. Local Notation "a / b" := (@ndiv R NumR a b) : num_scope.
Local Notation "- a" := (@nneg R NumR a) : num_scope. Local Notation "# z" := (@nint R NumR z) (at level 1, z constr at level 0) : num_scope.
Local Notation nlog := (@Num.nlog R NumR). Local Notation nsqrt := (@Num.nsqrt R NumR).
"""]
SH = {'GENERAL': 'G', 'MQ3_EQ_MU3': 'QU', 'MQ3_EQ_M3': 'QM', 'MU3_EQ_M3': 'UM', 'MQ3_EQ_MU3_EQ_M3': 'QUM', 'DEGENERATE': 'D'}
VAL = {'mQ32': '(a22 (mq2 p))', 'mU32': '(a22 (mu2 p))', 'm32': '(pow2 (MG p))', 'mQ3': '(nsqrt (a22 (mq2 p)))', 'mU3': '(nsqrt (a22 (mu2 p)))',
       'm3': '(nsqrt (pow2 (MG p)))', 'msq2': 'msq2', 'msq': '(nsqrt msq2)', 'z3': '(ndec 1202056903159594 15)', 'Xt4': '(if (xo <? 4)%Z then #0 else pow4 (calcXt p))', 'Xt5': '(if (xo <? 5)%Z then #0 else pow5 (calcXt p))', 'Xt': '(calcXt p)', 'Xt2': '(pow2 (calcXt p))',
       'lmQ3MR': '(#o * nlog (pow2 (v0 (MSt p)) / pow2 (scale p)) + nlog (a22 (mq2 p) / pow2 (v0 (MSt p))))'}
class VFun(Fun):
    def emit(s, sts, ind="    ", k=None):
        if sts and sts[0][0] == 's' and sts[0][1].startswith('return'):
            return ind + s.ex(sts[0][1][6:].strip())
        return super().emit(sts, ind, k)
for name in "getDeltaVevYt2 getDeltaYtAlphas getDeltaLambdaAlphat getDeltaYtAlphas2 getDeltaLambdaAlphatAlphas getDeltaLambdaAlphatAlphas2 getDRbarPrimeToMSbarXtTerms".split():
    sig, body, a, b = S.func(r"(?<=\n)double ThresholdCalculator::" + name + r"\(")
    sts = split_stmts(deswitch(body))
    msq = name in ('getDeltaYtAlphas2', 'getDeltaLambdaAlphatAlphas2', 'getDRbarPrimeToMSbarXtTerms')
    VAL2 = dict(VAL); xo1 = xo2 = ''
    if name == 'getDeltaLambdaAlphatAlphas2': xo1 = ' xo'
    if name == 'getDRbarPrimeToMSbarXtTerms':
        xo2 = ' xo'
        for n in (4, 5, 6): VAL2['Xt%d' % n] = '(if negb (xo =? %d)%%Z then #0 else pow%d (calcXt p))' % (n, n)
    em = Emit(ints=('omitLogs',), ren=ren, funs=funs, consts={k: v for k, v in CONST.items() if k != 'z3'})
    for st in sts:
        if st[0] != 'if': continue
        m = re.fullmatch(r"\s*limit\s*==\s*Limits::(\w+)\s*", st[1])
        blk = flat(st[2])
        if not m or not has_return(('blk', blk)):
            print('skip', name, st[1]); continue
        while len(blk) == 1 and blk[0][0] == "blk": blk = blk[0][1]
        lim = m.group(1)
        blk = [x for x in blk if not (x[0] == 's' and re.match(r"const\s+\w+\s+mU32\s*=", x[1]))]
        e = re.sub(r"\bdlatas2Const\b", "#0", VFun(em).emit(blk))
        li = bool(re.search(r"\bdilog\b", e)); e = re.sub(r"\bdilog\b", "Li2", e)
        ws = set(re.findall(r"\w+", e))
        vs = [v for v in VARS if v in ws]
        nm = "%s_%s" % (FN[name], SH[lim])
        out.append("Definition %s%s (%s : R) : R :=\n%s.\n" % (nm, " (Li2 : R -> R)" if li else "", " ".join(vs), e))
        args = ("dilog " if li else "") + " ".join(VAL2[v] for v in vs)
        if name == 'getDeltaVevYt2':
            out.append("Lemma %s_eq (p : Params R) : %s p %s = %s %s.\nProof. reflexivity. Qed.\n" % (nm, name, lim, nm, args))
        else:
            out.append("Lemma %s_eq (p : Params R)%s (o : Z) : %s p%s %s o = Ok (%s %s).\nProof. reflexivity. Qed.\n" % (nm, (' (msq2 : R)' if msq else '') + (' (xo : Z)' if xo1 + xo2 else ''), name, (' msq2' if msq else '') + xo1, lim + xo2, nm, args))
open(OUT + '/ThreshViews.v', 'w').write("\n".join(out))
