#!/usr/bin/env python3
"""Generates rocq/theories/HierFormulas.v from /repo/source/himalaya/HierarchyCalculator.cpp."""
import sys, os
sys.path.insert(0, os.path.dirname(os.path.abspath(__file__)))
from cpp2coq import *
S = open('/repo/source/himalaya/HierarchyCalculator.cpp').read().split('\n')
def L(a, b): return '\n'.join(S[a-1:b])
def line_of(s, start):
    for i in range(start - 1, len(S)):
        if s in S[i]: return i + 1
    raise KeyError(s)
def stmt_at(prefix, start):
    """source text of the statement that starts on the first line containing prefix, after line start"""
    a = line_of(prefix, start); b = a
    while ';' not in S[b-1]: b += 1
    t = L(a, b)
    return a, b, t[t.index(prefix):t.index(';')]
def rhs(t): return t[t.index('=')+1:]
ren = {'calcMeanMsq':'calcMeanMsq p','calcAsOver4Pi':'calcAsOver4Pi p','calcTanBeta':'calcTanBeta p','calcBeta':'calcBeta p',
       'Mt':'Mt_','s2t':'s2t_'}
em = Emit(ints=['oneLoopFlag','twoLoopFlag','truncateXt','omitLogs'], ren=ren)
def X(t): return wrap(em.e(parse(t)))
out = []
w = out.append
w("""(** * Closed formulas of class HierarchyCalculator
    GENERATED by tools/gen_hierformulas.py from source/himalaya/HierarchyCalculator.cpp (expressions are
    transcribed operator by operator).  [ab] is ho.getIsAlphab(), [h] is ho.getSuitableHierarchy().
    Flags are C++ unsigned/int and are converted to double exactly (the code only passes 0 and 1). *)
From Coq Require Import String ZArith List Bool.
From Verif Require Import Num Except HObj Params.
Open Scope string_scope.

(** Hierarchy numbers, hierarchies/HierarchyFlags.hpp:17-34 *)
Definition h3 := 0%Z. Definition h32q2g := 1%Z. Definition h3q22g := 2%Z. Definition h4 := 3%Z.
Definition h5 := 4%Z. Definition h5g1 := 5%Z. Definition h6 := 6%Z. Definition h6b := 7%Z.
Definition h6b2qg2 := 8%Z. Definition h6bq22g := 9%Z. Definition h6bq2g2 := 10%Z. Definition h6g2 := 11%Z.
Definition h9 := 12%Z. Definition h9q2 := 13%Z. Definition NUMBER_OF_HIERARCHIES := 14%Z.

(** HierarchyCalculator.cpp:90-124: table hierarchyMap, and the range check before it *)
Definition hierarchyMap (h : Z) : Z :=
  match h with
  | 0 => h3 | 1 => h3 | 2 => h3
  | 3 => h4 | 4 => h5 | 5 => h5 | 6 => h6 | 11 => h6
  | 7 => h6b | 8 => h6b | 9 => h6b | 10 => h6b
  | 12 => h9 | 13 => h9
  | _ => h
  end%Z.
Definition getMotherHierarchy (h : Z) : res Z :=
  if (h <? 0)%Z || (NUMBER_OF_HIERARCHIES <=? h)%Z then
    if (h =? -1)%Z then Throw "No suitable hierarchy found!"
    else Throw ("Hierarchy " ++ to_string h ++ " not included!")
  else Ok (hierarchyMap h).

Section Formulas.
  Context {T : Type} {N : Num T}.
  Open Scope num_scope.

  (** HierarchyCalculator.cpp:1271-1330 *)
  Definition calcV2 (p : Params T) : T := pow2 (vu p) + pow2 (vd p).
  Definition calcV (p : Params T) : T := nsqrt (calcV2 p).
  Definition calcTanBeta (p : Params T) : T := vu p / vd p.
  Definition calcBeta (p : Params T) : T := natan (calcTanBeta p).
  Definition calcSinBeta (p : Params T) : T := vu p / calcV p.
  Definition calcCosBeta (p : Params T) : T := vd p / calcV p.
  Definition calcHiggsMassMatrixPrefactor (p : Params T) : T := #3 / (#2 * pow2 (nconst CPi * vu p)).
  Definition calcAsOver4Pi (p : Params T) : T := nconst ConeLoop * pow2 (g3 p).
  Definition calcMeanMsq (p : Params T) : T := nsqrt (nabs (calculateMsq2 p)).

  (** ho.getIsAlphab() ? p.MSb(i) : p.MSt(i), ho.getIsAlphab() ? p.Mb : p.Mt, etc. *)
  Definition sfMass1 (p : Params T) (ab : bool) : T := if ab then v0 (MSb p) else v0 (MSt p).
  Definition sfMass2 (p : Params T) (ab : bool) : T := if ab then v1 (MSb p) else v1 (MSt p).
  Definition fMass (p : Params T) (ab : bool) : T := if ab then Mb p else Mt p.
  Definition sfS2 (p : Params T) (ab : bool) : T := if ab then s2b p else s2t p.
  Definition sfTheta (p : Params T) (ab : bool) : T := if ab then theta_b p else theta_t p.
""")
# ---- shiftMst1 / 2
for name, start, m in (('shiftMst1ToMDR', 824, '1'), ('shiftMst2ToMDR', 880, '2')):
    ka = 'mdr2mst%ska' % m
    a, b, t = stmt_at('const double %s =' % ka, start)
    lets_ = []
    i0 = line_of('const double Mst2 = ho', start)
    lets_.append("    let Mst1 := sfMass1 p ab in\n" if m == '1' else "")
    lets_.append("    let Mst2 := sfMass2 p ab in\n")
    for ln in range(i0 + 1, a):
        st = S[ln-1].strip()
        if st: lets_.append(lets(st, em) + "\n")
    kadef = "    let %s := %s in" % (ka, X(rhs(t)))
    b6 = stmt_at('Mst%smod = (144' % m, start)
    b6b = stmt_at('Mst%smod = (48' % m, start)
    end = line_of('return Mst%s *' % m, start)
    e3 = X(rhs(stmt_at('Mst%smod = (1 +' % m, start)[2]))
    w("""  (** HierarchyCalculator.cpp:%d-%d *)
  Definition %s (p : Params T) (ab : bool) (h oneLoopFlag twoLoopFlag : Z) : res T :=
%s%s
    do mother <- getMotherHierarchy h;
    let mod_ :=
      if (mother =? h3)%%Z || (mother =? h4)%%Z || (mother =? h5)%%Z then
        %s
      else if (mother =? h6)%%Z then
        %s
      else if (mother =? h6b)%%Z then
        %s
      else if (mother =? h9)%%Z then
        %s
      else #0 in
    Ok (Mst%s * nsqrt mod_).
""" % (start, end + 1, name, ''.join(lets_), kadef, e3, X(rhs(b6[2])), X(rhs(b6b[2])), e3, m))
# ---- truncateXt
w("""  (** HierarchyCalculator.cpp:938-944, 1056-1062: truncation at O(Xt^2) *)
  Definition xt3_hierarchy (h : Z) : bool :=
    (h =? h3)%Z || (h =? h32q2g)%Z || (h =? h3q22g)%Z || (h =? h9)%Z || (h =? h9q2)%Z.
  Definition truncateXt_of (h : Z) : Z := if xt3_hierarchy h then 0%Z else 1%Z.
""")
# ---- shiftH3mToDRbarPrime
st = 932
def block(frm, to):  # straight-line statements between two line numbers
    return lets(L(frm, to), em)
i1 = line_of('// threshold for degenerate', st); i2 = line_of('// degenerate mass case flag', st)
j1 = line_of('const double Mst2shift', st); j2 = line_of('isDegenerate = std::abs', st)
isdeg = stmt_at('isDegenerate = std::abs', st)[2]
k = line_of('if (isDegenerate)', st)
def S_(pref, n):  # nth occurrence after k
    ln = k
    for _ in range(n):
        r = stmt_at(pref, ln); ln = r[1] + 1
    return X(rhs(r[2]))
em.ints.add('truncateXt')
w("""  (** HierarchyCalculator.cpp:932-1041 *)
  Definition shiftH3mToDRbarPrime (p : Params T) (ab : bool) (h mdr : Z) : res (mat2 T) :=
    let truncateXt := truncateXt_of h in
    let tb := calcTanBeta p in
    do Mst1 <- shiftMst1ToMDR p ab h mdr mdr;
    do Mst2 <- shiftMst2ToMDR p ab h mdr mdr;
    let Xt := if (h =? h4)%%Z then #0 else a22 (Au p) - mu p / tb in
%s
    let isDegenerate :=
      if nabs (Mst1 - Mst2) <? eps then
%s
        %s
      else false in
    let shift :=
      if isDegenerate then
        let s00 := %s in
        let s10 := %s in
        let s11 := %s in
        mkM2 s00 s10 s10 s11
      else
        let s00 := %s in
        let s10 := %s in
        let s11 := %s in
        mkM2 s00 s10 s10 s11 in
    let yt := nconst Csqrt2 * Mt p / vu p in
    let prefac := nconst CthreeLoop * pow2 (pow2 (g3 p) * Mt p * yt) in
    Ok (mat2_scale prefac shift).
""" % (block(i1, i2 - 1), block(j1, j2 - 1), X(rhs(isdeg)),
       S_('shift(0, 0) =', 1), S_('shift(1, 0) =', 1), S_('shift(1, 1) =', 1),
       S_('shift(0, 0) =', 2), S_('shift(1, 0) =', 2), S_('shift(1, 1) =', 2)))
# ---- shiftH3mToDRbarPrimeMh2
st = 1050
i1 = line_of('// threshold for degenerate', st); i2 = line_of('// degenerate mass case flag', st)
j1 = line_of('const double Mst2shift', st); j2 = line_of('isDegenerate = std::abs', st)
isdeg = stmt_at('isDegenerate = std::abs', st)[2]
k = line_of('if (isDegenerate)', st)
w("""  (** HierarchyCalculator.cpp:1050-1137 (always the stop masses, also for ab = true) *)
  Definition shiftH3mToDRbarPrimeMh2 (p : Params T) (h omitLogs : Z) : T :=
    let truncateXt := truncateXt_of h in
    let Mst1 := v0 (MSt p) in
    let Mst2 := v1 (MSt p) in
    let Xt := if (h =? h4)%%Z then #0 else a22 (Au p) - mu p / calcTanBeta p in
%s
    let isDegenerate :=
      if nabs (Mst1 - Mst2) <? eps then
%s
        %s
      else false in
    if isDegenerate then
      %s
    else
      %s.
""" % (block(i1, i2 - 1), block(j1, j2 - 1), X(rhs(isdeg)),
       S_('shift =', 1), S_('shift =', 2)))
# ---- getMt41L
st = 1147
def M_(pref):
    return X(rhs(stmt_at(pref, st)[2]))
w("""  (** HierarchyCalculator.cpp:1147-%d *)
  Definition getMt41L (p : Params T) (ab : bool) (h shiftOneLoop shiftTwoLoop : Z) : res (mat2 T) :=
    let beta := calcBeta p in
    do Mst1 <- shiftMst1ToMDR p ab h shiftOneLoop shiftTwoLoop;
    do Mst2 <- shiftMst2ToMDR p ab h shiftOneLoop shiftTwoLoop;
    let sbeta := calcSinBeta p in
    let cbeta := calcCosBeta p in
    let Mt_ := fMass p ab in
    let s2t_ := sfS2 p ab in
    let s00 := %s in
    let s01 := %s in
    let s11 := %s in
    Ok (mat2_scale (calcHiggsMassMatrixPrefactor p) (mkM2 s00 s01 s01 s11)).
End Formulas.""" % (line_of('return calcHiggsMassMatrixPrefactor() * Mt41L', st) + 1,
     M_('Mt41L(0, 0) ='), M_('Mt41L(0, 1) ='), M_('Mt41L(1, 1) =')))
open('/verif/rocq/theories/HierFormulas.v', 'w').write('\n'.join(out) + '\n')
