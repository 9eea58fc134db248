#!/usr/bin/env python3
"""Generates rocq/theories/Mh2EFT.v from source/himalaya/mh2_eft/Mh2EFTCalculator.cpp, statement by statement."""
from fun2coq import *
OUT = os.path.join(os.path.dirname(os.path.abspath(__file__)), '..', 'rocq', 'theories')
rel = 'source/himalaya/mh2_eft/Mh2EFTCalculator.cpp'
S = Src('/repo/' + rel)
ENUM = strip_comments(open('/repo/source/himalaya/misc/CouplingOrders.hpp').read())
ORD = [x.strip() for x in re.search(r"enum CouplingOrders : int \{([^}]*)\}", ENUM).group(1).split(',') if x.strip()]
assert ORD[-1] == 'NUMBER_OF_COUPLING_ORDERS'; ORD = ORD[:-1]; assert len(ORD) == 23
calc = "calcBeta calcTanBeta calcV calcV2 calcSinBeta calcCosBeta".split()
ren = {c: c + " p" for c in calc}
H = Src('/repo/source/himalaya/HierarchyCalculator.cpp')
for c in calc:
    b1 = re.sub(r"\s+", " ", S.func(r"Mh2EFTCalculator::" + c + r"\(")[1]); b2 = re.sub(r"\s+", " ", H.func(r"HierarchyCalculator::" + c + r"\(")[1])
    assert b1 == b2, c
em = Emit(ints=('omitSMLogs', 'omitMSSMLogs', 'omitlogs', 'omitDeltaLambda3L'), ren=ren, funs={'fB': 'fB'})

def args(t, name):
    """t starts with name( ... ) -> list of top-level arguments, rest"""
    i = t.index('(') ; d = 0
    for j in range(i, len(t)):
        d += (t[j] == '(') - (t[j] == ')')
        if d == 0: break
    return split_top(t[i+1:j]), t[j+1:]
GTC = re.compile(r"thresholdCalculator\.getThresholdCorrection\s*\(\s*ThresholdCouplingOrders::(\w+)\s*,\s*RenSchemes::(\w+)\s*,\s*(\w+)\s*\)", re.S)
def cond(c):
    return " || ".join("enabled c %s" % re.fullmatch(r"\s*orders\.at\(CouplingOrders::(\w+)\)\s*", x).group(1) for x in c.split('||'))
def val(e, ind, final):
    """expression that may contain getThresholdCorrection calls -> Coq of type res T"""
    binds, n = "", [0]
    def r(m):
        n[0] += 1
        nonlocal binds
        binds += "do thr%d <- getThresholdCorrection tc %s S_%s %s;\n%s" % (n[0], m.group(1), m.group(2), m.group(3), ind)
        return "thr%d" % n[0]
    e2 = GTC.sub(r, e)
    assert 'thresholdCalculator' not in e2
    if n[0] == 1 and e2.strip() == 'thr1': return binds.split("<- ")[1].split(";")[0], True
    x = wrap(em.e(parse(e2)), 100, ind + "  ")
    return binds + final(x), n[0] > 0
def stmt(t, ind):
    t = t.strip()
    m = re.match(r"ThresholdCalculator thresholdCalculator\(p\)$", t)
    if m: return ind + "do tc <- newTC E p false;\n"
    if t.startswith('return'):
        e, _ = val(t[6:], ind, lambda x: "Ok (" + x + ")")
        return ind + e
    m = re.match(r"const (?:double|int) (\w+)\s*=\s*(.*)$", t, re.S)
    v, e = m.group(1), m.group(2)
    if e.startswith('CALC_IF'):
        a, rest = args(e, 'CALC_IF'); assert len(a) == 2 and not rest.strip()
        body = a[1]
        if body.startswith('discardNaN'):
            b, rest = args(body, 'discardNaN'); assert len(b) == 2 and not rest.strip()
            x, _ = val(b[0], ind + "    ", lambda x: "Ok (discardNaN (" + x + "))")
            return ind + "do %s <- (if %s then\n%s    %s\n%s  else Ok #0);\n" % (v, cond(a[0]), ind, x, ind)
        x, isthr = val(body, ind + "    ", None); assert isthr
        return ind + "do %s <- (if %s then %s else Ok #0);\n" % (v, cond(a[0]), x)
    x, isthr = val(e, ind, lambda x: x)
    if isthr: return ind + "do %s <- %s;\n" % (v, x)
    return ind + "let %s := %s in\n" % (v, x)
def gen(name, extra="(c : EFT)", head="    let p := eft_p c in\n"):
    sig, body, a, b = S.func(r"(?<=\n)double Mh2EFTCalculator::" + name + r"\(")
    ar = sig[sig.index('('):]
    par = "".join(" (%s : %s)" % (v, "Z" if ty == 'int' else "T") for ty, v in re.findall(r"(int|double)\s+(\w+)", ar))
    sts = split_stmts(body); assert all(s[0] == 's' for s in sts)
    throws = 'thresholdCalculator' in body
    o = "".join(stmt(s[1], "    ") for s in sts)
    if not throws: o = re.sub(r"Ok \((.*)\)$", r"\1", o, flags=re.S)
    return "  (** %s:%d-%d *)\n  Definition %s%s %s%s : %s :=\n%s%s.\n" % (rel, a, b, name, " (E : EigenLib T)" if throws else "", extra, par, "res T" if throws else "T", head, o)

o = ["""(** * Mh2EFTCalculator: Higgs mass in the EFT
    GENERATED by tools/gen_eft.py from source/himalaya/mh2_eft/Mh2EFTCalculator.cpp, statement by statement.
    CALC_IF(c,e) is [if c then e else Ok #0]: e is not evaluated when the flag is 0.  The int flags multiply doubles and are
    converted exactly ([#z]).  calcBeta .. calcCosBeta (:764-792) have the same text as in HierarchyCalculator.cpp and are taken
    from HierFormulas.v.  The log output (discardNaN, setCorrectionFlag) and the stream operator (:803-822) are left out. *)
From Coq Require Import ZArith Bool String List.
From Verif Require Import Num Except Params HierFormulas PV Thresh ThreshTwo Threshold.

(** source/himalaya/misc/CouplingOrders.hpp:19-45; [ord_other] stands for any other integer used as index *)
Inductive cord :=
  | %s
  | ord_other (z : Z).
Definition cord_index (o : cord) : Z :=
  (match o with
   | %s
   | ord_other z => z end)%%Z.
Definition cord_eqb (a b : cord) : bool := (cord_index a =? cord_index b)%%Z.

Section Mh2EFT.
  Context {T : Type} {N : Num T}.
  Open Scope num_scope.

  (** data members (Mh2EFTCalculator.hpp): p and std::array<int,23> orders, here the function from index to flag *)
  Record EFT := mkEFT { eft_p : Params T; eft_orders : cord -> Z }.
  (** CALC_IF(orders.at(o), ..): an int condition is true if it is not 0.  The code only uses literal indices below 23, for
      which array::at does not throw. *)
  Definition enabled (c : EFT) (o : cord) : bool := negb (eft_orders c o =? 0)%%Z.
""" % (" | ".join(ORD), " | ".join("%s => %d" % (x, i) for i, x in enumerate(ORD)))]
sig, body, a, b = S.func(r"double discardNaN\(")
assert re.sub(r"\s+", " ", body).strip().startswith("if (std::isnan(var)) {") and "return 0.;" in body and body.strip().endswith("return var;")
o.append("  (** %s:%d-%d *)\n  Definition discardNaN (var : T) : T := if nisnan var then #0 else var.\n" % (rel, a, b))
sig, body, a, b = S.func(r"double fB\(")
assert body.strip() == "return mh2_fo::b0xx(s, x, q2);"
o.append("  (** %s:%d-%d *)\n  Definition fB (s x q2 : T) : T := b0xx s x q2.\n" % (rel, a, b))
sig, body, a, b = S.func(r"void Mh2EFTCalculator::setCorrectionFlag\(")
assert re.sub(r"\s+", " ", body).strip() == 'if (flag < 0 || flag > 1) ERROR_MSG("You can only enable (1) or disable (0) corrections!"); orders.at(order) = flag;'
o.append("""  (** %s:%d-%d.  The range check of flag only writes a log message.  array::at throws std::out_of_range for an index outside
      0..22. *)
  Definition setCorrectionFlag (c : EFT) (order : cord) (flag : Z) : res EFT :=
    if (0 <=? cord_index order)%%Z && (cord_index order <? 23)%%Z
    then Ok (mkEFT (eft_p c) (fun o => if cord_eqb o order then flag else eft_orders c o))
    else Throw "array::at"%%string.
  (** a sequence of setCorrectionFlag calls on literal indices, which cannot throw *)
  Definition setFlags (l : list (cord * Z)) (o : cord -> Z) : cord -> Z :=
    fold_left (fun o '(k, f) => fun x => if cord_eqb x k then f else o x) l o.
""" % (rel, a, b))
sig, body, a, b = S.func(r"Mh2EFTCalculator::Mh2EFTCalculator\(")
sts = split_stmts(body)
assert sts[0] == ('s', 'p.validate(verbose)') and sts[1] == ('s', 'orders.fill(1)') and sts[2][1] == 'const double eps = 1e-10'
out = "    do p <- validate E p_;\n    let o := fun _ : cord => 1%Z in\n    let eps := ndec 1 10 in\n"
def flags(l):
    r = []
    for k, t in l:
        m = re.fullmatch(r"setCorrectionFlag\(CouplingOrders::(\w+)\s*,\s*(\d)\)", t)
        r.append("(%s, %s)" % m.groups())
    return wrap("[" + "; ".join(r) + "]%Z", 110, "        ")
i = 3
while i < len(sts):
    if sts[i][0] == 'if':
        m = re.fullmatch(r"std::abs\(p\.(\w+)\) < eps", sts[i][1].strip())
        out += "    let o := if nabs (%s p) <? eps then setFlags\n        %s o else o in\n" % (m.group(1), flags(flat(sts[i][2])))
        i += 1
    else:
        j = i
        while j < len(sts) and sts[j][0] == 's': j += 1
        out += "    let o := setFlags\n        %s o in\n" % flags(sts[i:j])
        i = j
o.append("  (** %s:%d-%d *)\n  Import ListNotations.\n  Definition newEFT (E : EigenLib T) (p_ : Params T) : res EFT :=\n%s    Ok (mkEFT p o).\n" % (rel, a, b, out))
for n in "getDeltaMh2EFT0Loop getDeltaMh2EFT1Loop getDeltaMh2EFT2Loop getDeltaMh2EFT3Loop getDeltaLambdaDegenerate".split(): o.append(gen(n))
o.append("End Mh2EFT.\nArguments EFT : clear implicits.\nArguments mkEFT {T}. Arguments eft_p {T}. Arguments eft_orders {T}.\n")
open(OUT + '/Mh2EFT.v', 'w').write("\n".join(o))

# ---- EFTForm.v: the same expressions with all flags removed from the sub-expressions, and the form of the result
def form(name, base):
    sig, body, a, b = S.func(r"(?<=\n)double Mh2EFTCalculator::" + name + r"\(")
    sts = [s[1] for s in split_stmts(body)]
    pre, terms, ret = "", [], None
    for t in sts:
        if t.startswith('ThresholdCalculator'): continue
        if t.startswith('return'):
            ret = t[6:]; continue
        m = re.match(r"const (?:double|int) (\w+)\s*=\s*(.*)$", t, re.S)
        v, e = m.group(1), m.group(2)
        if e.startswith('CALC_IF'):
            a_, rest = args(e, 'CALC_IF')
            if a_[1].startswith('discardNaN'):
                b_, rest = args(a_[1], 'discardNaN')
                x = GTC.sub(lambda m: "thr(%s)" % m.group(1), b_[0])
                em2 = Emit(ints=em.ints, ren=ren, funs={'fB': 'fB', 'thr': 'thr tc omitMSSMLogs'})
                terms.append((v, cond(a_[0]).replace("enabled c ", ""), wrap(em2.e(parse(x)), 100, "      ")))
                continue
            m2 = GTC.fullmatch(a_[1].strip())
            pre += "    let %s := thr tc omitMSSMLogs %s in\n" % (v, m2.group(1))
            continue
        pre += "    let %s := %s in\n" % (v, wrap(em.e(parse(e)), 100, "      "))
    o = []
    for v, k, x in terms:
        o.append("  Definition %s (p : Params T) (tc : TC T) (omitSMLogs omitMSSMLogs : Z) : T :=\n%s    discardNaN (%s).\n" % (v, pre, x))
    ren2 = dict(ren); ren2.update({v: "(w %s (%s p tc omitSMLogs omitMSSMLogs))" % (k, v) for v, k, x in terms})
    em3 = Emit(ints=em.ints, ren=ren2, funs={'fB': 'fB'})
    o.append("  Definition %s_form (w : cord -> T -> T) (p : Params T) (tc : TC T) (omitSMLogs omitMSSMLogs : Z) : T :=\n%s    %s.\n" % (base, pre, wrap(em3.e(parse(ret)), 100, "      ")))
    o.append("  (** the calculation is this sum, with the factor of a disabled order replaced by 0 *)\n  Lemma %s_form_eq E p o s m tc : newTC E p false = Ok tc -> known_limit (getLimit tc) ->\n" % base +
      "    %s E (mkEFT p o) s m = Ok (%s_form (fun k x => if negb (o k =? 0)%%Z then x else #0) p tc s m).\n  Proof.\n" % (name, base) +
      "    intros H HL. unfold %s. cbn [eft_p]. rewrite H. cbn [bind]. cbv zeta. unfold enabled. cbn [eft_orders].\n" % name +
      "    rewrite !(gTC_ok tc m HL). repeat (first [rewrite bind_ifb | cbn [bind]]; cbv beta).\n    unfold %s_form. cbv zeta.\n" % base +
      "".join("    leaf (%s p tc s m) (o %s).\n" % (v, k) for v, k, x in terms) + "    reflexivity.\n  Qed.\n")
    return o, terms
f = ["""(** * The form of the EFT corrections
    GENERATED by tools/gen_eft.py: for each coupling order the sub-expression it contributes, with all flags of
    Mh2EFTCalculator.cpp removed, and a proof that the function of the code is the sum of the enabled ones. *)
From Coq Require Import ZArith Bool String List Lia.
From Verif Require Import Num Except Params HierFormulas PV Thresh ThreshTwo Threshold ThreshProofs Mh2EFT.

Section Form.
  Context {T : Type} {N : Num T}.
  Open Scope num_scope.
  Definition thr (tc : TC T) (m : Z) (o : tco) : T :=
    match getThresholdCorrection tc o S_DRBARPRIME m with Ok v => v | Throw _ => #0 end.
  Lemma gTC_ok (tc : TC T) (m : Z) : known_limit (getLimit tc) -> forall o, getThresholdCorrection tc o S_DRBARPRIME m = Ok (thr tc m o).
  Proof.
    intros H o. unfold thr, getLimit in *.
    assert (A1 : exists v, getDeltaYtAlphas (tc_p tc) (massLimit3LThreshold (tc_p tc)) m = Ok v).
    { destruct (known_cases _ H) as [E|[E|[E|[E|[E|E]]]]]; rewrite E; eexists; reflexivity. }
    assert (A2 : exists v, getDeltaYtAlphas2 (tc_p tc) (tc_msq2 tc) (massLimit3LThreshold (tc_p tc)) m = Ok v).
    { destruct (known_cases _ H) as [E|[E|[E|[E|[E|E]]]]]; rewrite E; eexists; reflexivity. }
    assert (A3 : exists v, getDeltaLambdaAlphat (tc_p tc) (massLimit3LThreshold (tc_p tc)) m = Ok v).
    { destruct (known_cases _ H) as [E|[E|[E|[E|[E|E]]]]]; rewrite E; eexists; reflexivity. }
    assert (A4 : exists v, getDeltaLambdaAlphatAlphas (tc_p tc) (massLimit3LThreshold (tc_p tc)) m = Ok v).
    { destruct (known_cases _ H) as [E|[E|[E|[E|[E|E]]]]]; rewrite E; eexists; reflexivity. }
    assert (A5 : exists v, getDeltaLambdaAlphatAlphas2 (tc_p tc) (tc_msq2 tc) (tc_xt tc) (massLimit3LThreshold (tc_p tc)) m = Ok v).
    { destruct (known_cases _ H) as [E|[E|[E|[E|[E|E]]]]]; rewrite E; eexists; reflexivity. }
    destruct A1 as [x1 A1], A2 as [x2 A2], A3 as [x3 A3], A4 as [x4 A4], A5 as [x5 A5].
    unfold getThresholdCorrection. destruct o; rewrite ?A1, ?A2, ?A3, ?A4, ?A5; reflexivity.
  Qed.
  Lemma bind_ifb {A B} (b : bool) (x y : A) (k : A -> res B) : bind (if b then Ok x else Ok y) k = k (if b then x else y).
  Proof. destruct b; reflexivity. Qed.
  Ltac leaf t z :=
    match goal with |- context [if negb (z =? 0)%Z then discardNaN ?A else #0] =>
      replace (if negb (z =? 0)%Z then discardNaN A else #0) with (if negb (z =? 0)%Z then t else #0)
        by (destruct (negb (z =? 0)%Z); [rewrite ?orb_true_r, ?orb_true_l; reflexivity | reflexivity]) end.
"""]
f1, T1 = form('getDeltaMh2EFT1Loop', 'one')
f2, T2 = form('getDeltaMh2EFT2Loop', 'two')
f += f1 + f2
f.append("End Form.\n")
open(OUT + '/EFTForm.v', 'w').write("\n".join(f))
