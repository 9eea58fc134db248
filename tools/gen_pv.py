#!/usr/bin/env python3
"""Generates rocq/theories/PV.v."""
from fun2coq import *
from gen_loopfun import gen, OUT
rel = 'source/himalaya/mh2_fo/PV.cpp'
S = Src('/repo/' + rel)
funs = {'hypot':'hypot', 'b0xx':'b0xx', 'b0_general':'b0_general'}
em = Emit(consts={}, ren={'EPSTOL':'EPSTOL'}, funs=funs)
o = ["""(** * Passarino-Veltman functions
    GENERATED by tools/gen_pv.py from source/himalaya/mh2_fo/PV.cpp, statement by statement; the complex
    arithmetic of the general branch of b0 and of fB is written out by hand on pairs (re, im).
    SIMPLIFIED: std::complex division and square root and std::hypot are the textbook formulas (no rescaling
    against overflow), std::atan2 ignores the sign of a zero argument. *)
From Coq Require Import ZArith Bool.
From Verif Require Import Num.

Section PV.
  Context {T : Type} {N : Num T}.
  Open Scope num_scope.

  (** source/himalaya/mh2_fo/PV.cpp:25 *)
  Definition EPSTOL : T := ndec 1 15.

  (** source/himalaya/mh2_fo/PV.cpp:28-31 *)
  Definition sign (x : T) : T := if x >=? #0 then #1 else - #1.

  (** std::hypot, std::complex *)
  Definition hypot (a b : T) : T := nsqrt (a * a + b * b).
  Definition C2 : Type := (T * T)%type.
  Definition cre (x : T) : C2 := (x, #0).
  Definition cadd (a b : C2) : C2 := (fst a + fst b, snd a + snd b).
  Definition csub (a b : C2) : C2 := (fst a - fst b, snd a - snd b).
  Definition cneg (a : C2) : C2 := (- fst a, - snd a).
  Definition cmul (a b : C2) : C2 := (fst a * fst b - snd a * snd b, fst a * snd b + snd a * fst b).
  Definition cscale (r : T) (a : C2) : C2 := (r * fst a, r * snd a).
  Definition cdivr (a : C2) (r : T) : C2 := (fst a / r, snd a / r).
  Definition cdiv (a b : C2) : C2 :=
    let n := fst b * fst b + snd b * snd b in
    ((fst a * fst b + snd a * snd b) / n, (snd a * fst b - fst a * snd b) / n).
  Definition csqrt (a : C2) : C2 :=
    let m := hypot (fst a) (snd a) in
    let re := nsqrt ((m + fst a) / #2) in
    let im := nsqrt ((m - fst a) / #2) in
    (re, if snd a <? #0 then - im else im).
  Definition atan2 (y x : T) : T :=
    if x >? #0 then natan (y / x)
    else if x <? #0 then (if y >=? #0 then natan (y / x) + nconst CPi else natan (y / x) - nconst CPi)
    else if y >? #0 then nconst CPi / #2 else if y <? #0 then - (nconst CPi / #2) else #0.

  (** source/himalaya/mh2_fo/PV.cpp:34-42 *)
  Definition fast_log (z : C2) : C2 :=
    (ndec 5 1 * nlog (fst z * fst z + snd z * snd z), atan2 (snd z) (fst z)).

  (** source/himalaya/mh2_fo/PV.cpp:45-64 *)
  Definition fB (x : C2) : T :=
    let re := fst x in
    let im := snd x in
    if ((nabs re =? #0) || (nabs re =? #1)) && (im =? #0) then #(-1)
    else if nabs (re - #1) <? ndec 1 3 then
      let d := csub x (cre #1) in
      let logd := fast_log d in
      fst (cadd (cre #(-1)) (cmul d (cadd (csub (cre #1) logd) (cmul d (csub (cre (ndec 5 1)) (cdivr d #6))))))
    else if nabs re >? #1000 then
      fst (cadd (csub (cneg (cdiv (cre (ndec 5 1)) x)) (cdiv (cre #1) (cmul (cscale #6 x) x))) (fast_log (cneg x)))
    else
      fst (csub (cadd (cre #(-1)) (fast_log (csub (cre #1) x))) (cmul x (fast_log (csub (cre #1) (cdiv (cre #1) x))))).

  (** source/himalaya/mh2_fo/PV.cpp:172-176: the two values fB(xp), fB(xm) of the general branch of b0 *)
  Definition b0_fB (p2 m12 m22 : T) : T * T :=
    let s := p2 - m22 + m12 in
    let imin := (m12, - EPSTOL * m12) in
    let x := csqrt (csub (cre (pow2 s)) (cscale (#4 * p2) imin)) in
    let xp := cdivr (cadd (cre s) (cscale (sign s) x)) (#2 * p2) in
    let xm := cdiv imin (cscale p2 xp) in
    (fB xp, fB xm).
"""]
o.append(gen(S, r"double a0\(double", em, rel=rel))
o.append(gen(S, r"double b0xx\(double", em, rel=rel))
sg, bd, a, b = S.func(r"double b0\(double")
i = bd.index("const double s = p2 - m22 + m12;")
tail = re.sub(r"\s+", " ", bd[i:]).strip()
assert tail == ("const double s = p2 - m22 + m12; const std::complex<double> imin(m12, -EPSTOL * m12); "
  "const std::complex<double> x = std::sqrt(pow2(s) - 4 * p2 * imin); const std::complex<double> xp = (s + sign(s) * x) / (2 * p2); "
  "const std::complex<double> xm = imin / (xp * p2); return -std::log(p2 / q2) - fB(xp) - fB(xm);"), tail
bd = bd[:i] + "std::tie(fp, fm) = b0_fB(p2, m12, m22); return -std::log(p2 / q2) - fp - fm;"
em.funs['b0_fB'] = 'b0_fB'
f = Fun(em)
o.append("  (** %s:%d-%d *)\n  Definition b0 (p2 m12 m22 q2 : T) : T :=\n%s.\n" % (rel, a, b, f.emit(split_stmts(bd))))
t = gen(S, r"double d1_b0\(double", em, rel=rel)
bad = "negb ((m12 <? ndec 1 14 * m22) =? (m22 <? ndec 1 14 * m12))"
assert bad in t
o.append(t.replace(bad, "xorb (m12 <? ndec 1 14 * m22) (m22 <? ndec 1 14 * m12)"))
o.append("End PV.\n")
open(OUT + '/PV.v', 'w').write("\n".join(o))
