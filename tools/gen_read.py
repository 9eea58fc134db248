#!/usr/bin/env python3
"""Generate rocq/theories/HierRead.v: for each floating literal of HierH*.v with 13 or more significant digits, a rational
number that it rounds (smallest denominator with prime factors <= 13, or one of OVERRIDE)."""
import re, sys
from fractions import Fraction as F
NAMES = "H3 H32q2g H3q22g H4 H5 H5g1 H6 H6b H6b2qg2 H6bq22g H6bq2g2 H6g2 H9 H9q2".split()
OVERRIDE = {(7653372960293683, 14): F(742606013, 9702990), (32221840780308305, 15): F(257823187891, 8001504000),
            (14054626938375586, 13): F(175715865103, 125023500),
            (1508801470186938, 13): F(452725537459, 3000564000), (1467968136853605, 13): F(452725537459, 3000564000) - F(49, 12)}
sm = {1}
for p, mx in [(2, 12), (3, 10), (5, 6), (7, 5), (11, 2), (13, 1)]:
    sm = {x * p**i for x in sm for i in range(mx + 1) if x * p**i <= 3 * 10**9}
sm = sorted(sm); TOL = F(4, 10**16)
lits = set()
for n in NAMES:
    t = " ".join(open('/verif/rocq/theories/Hier%s.v' % n).read().split())
    lits |= {(int(a), int(b)) for a, b in re.findall(r'EDec (\d+) (\d+)', t)}
tab, left = {}, []
for m, k in sorted(lits):
    if len(str(m).rstrip('0')) < 13: continue
    x = F(m, 10**k)
    r = OVERRIDE.get((m, k)) or next((y for y in (F(round(x * d), d) for d in sm) if abs(y - x) <= x * TOL), None)
    if r is None: left.append((m, k)); continue
    tab[m, k] = r
print(len(lits), 'literals', len(tab), 'read', 'left', left, 'worst %.3g' % max(float(abs(r - F(m, 10**k)) / F(m, 10**k)) for (m, k), r in tab.items()))
if __name__ == '__main__':
    o = ["(** * Decimal literals that stand for rational numbers",
         "    GENERATED by tools/gen_read.py.  The formulas of the hierarchy classes contain floating literals with 16 or 17",
         "    significant digits, e.g. 20474074074074073 / 10^14, that are roundings of rational numbers, here 5528/27.",
         "    [hier_reading] lists, for %d of the %d literals, a rational number within %s of it (relatively); identities" % (len(tab), len(lits), "4 * 10^-16"),
         "    between formulas hold exactly only for these rationals. Nothing here is code: where it is used, the statement says so. *)",
         "From Coq Require Import ZArith List.", "Import ListNotations.", "Local Open Scope Z_scope.", "",
         "(** (m, k), (a, b): the literal m / 10^k is read as a / b *)",
         "Definition hier_reading : list ((Z * Z) * (Z * positive)) := ["]
    o.append(";\n".join("  ((%d, %d), (%d, %d%%positive))" % (m, k, r.numerator, r.denominator) for (m, k), r in tab.items()))
    o.append("].\n")
    open('/verif/rocq/theories/HierRead.v', 'w').write("\n".join(o))
