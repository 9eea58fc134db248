#!/usr/bin/env python3
"""Generates rocq/theories/{Linalg,Spectrum,DSZ,FixedOrder}.v (fixed-order calculation)."""
from fun2coq import *
OUT = '/verif/rocq/theories/'
FO = 'source/himalaya/mh2_fo/'

class EmitFO(Emit):
    """calls on matrices/vectors: ZT(i,j), M2St(i), MChi(i), SUM(i,0,n,e)"""
    vec2 = set('M2Su M2Sd M2Sc M2Ss M2St M2Sb M2Se M2Sm M2Stau M2hh M2Ah M2Hpm MCha'.split())
    mat2 = set('ZU ZD ZC ZS ZT ZB ZE ZM ZTau ZH ZA ZP UM UP'.split())
    def idx(s, a):
        if a[0] == 'int': return "%d%%nat" % a[1]
        if a[0] == 'var': return a[1]
        raise SyntaxError("index " + str(a))
    def e(s, e):
        if e[0] == 'call':
            f, a = e[1], e[2]
            if f == 'SUM':
                assert a[0][0] == 'var' and a[1] == ('int', 0) and a[2][0] == 'int'
                return "nsum %d (fun %s : nat => %s)" % (a[2][1], a[0][1], s.e(a[3]))
            if f in s.vec2: return "vget %s %s" % (f, s.idx(a[0]))
            if f in s.mat2: return "mget %s %s %s" % (f, s.idx(a[0]), s.idx(a[1]))
            if f == 'MChi': return "MChi %s" % s.idx(a[0])
            if f == 'ZN': return "ZN %s %s" % (s.idx(a[0]), s.idx(a[1]))
            if f in ('A0', 'B0'): return f + " q" + "".join(" " + s.at(x) for x in a)
        return Emit.e(s, e)

# ---------------------------------------------------------------- Linalg
S = Src('/repo/' + FO + 'Linalg.cpp')
sig, body, l1, l2 = S.func(r"fs_diagonalize_hermitian_perturbatively\(")
o = ["""(** * Diagonalisation of 2x2 matrices
    GENERATED by tools/gen_fo.py from source/himalaya/mh2_fo/Linalg.cpp; fs_diagonalize_hermitian (Linalg.hpp:1391-1437) by hand. *)
From Coq Require Import ZArith Bool.
From Verif Require Import Num Except Params.

Section Linalg.
  Context {T : Type} {N : Num T}.
  Open Scope num_scope.

  (** source/himalaya/mh2_fo/Linalg.hpp:1391-1437 for N = 2.  Eigen's SelfAdjointEigenSolver returns m = z diag(w) z^T with
      increasing w ([eig2], external); std::sort of the two indices by |w| swaps them iff |w(1)| < |w(0)|; z is transposed. *)
  Definition fs_diagonalize_hermitian (E : EigenLib T) (m : mat2 T) : vec2 T * mat2 T :=
    let '(w, z) := eig2 E m in
    if nabs (v1 w) <? nabs (v0 w)
    then (mkV2 (v1 w) (v0 w), mkM2 (m01 z) (m11 z) (m00 z) (m10 z))
    else (w, mkM2 (m00 z) (m10 z) (m01 z) (m11 z)).

  (** source/himalaya/mh2_fo/Linalg.cpp:%d-%d: eigenvalue pairs of order 0, 1, 2 and 3 *)
  Definition fs_diagonalize_hermitian_perturbatively (m0 m1 m2 m3 : mat2 T) : vec2 T * vec2 T * vec2 T * vec2 T :=""" % (l1, l2)]
em = Emit(consts={}, ren={})
for st in stmts(body):
    st = re.sub(r"\s+", " ", st)
    if re.match(r"V2 \w+$", st): continue
    m = re.match(r"(mh2_\dL) << (.*)$", st)
    if m:
        a, b = split_top(m.group(2))
        o.append("    let %s := mkV2 (%s) (%s) in" % (m.group(1), em.e(parse(a)), em.e(parse(b)))); continue
    m = re.match(r"return std::make_tuple\((.*)\)$", st)
    if m: o.append("    (%s)." % m.group(1)); continue
    m = re.match(r"const auto (.*)$", st)
    for d in split_top(m.group(1)):
        n, e = re.match(r"(\w+) = (.*)$", d).groups()
        mm = re.match(r"(m\d)\((\d),(\d)\)$", e)
        t = "m%s%s %s" % (mm.group(2), mm.group(3), mm.group(1)) if mm else wrap(em.e(parse(e)))
        o.append("    let %s := %s in" % (n, t))
o.append("End Linalg.")
open(OUT + 'Linalg.v', 'w').write("\n".join(o) + "\n")

# ---------------------------------------------------------------- Spectrum
S = Src('/repo/' + FO + 'MSSM_spectrum.cpp')
scal = 'M2VWm M2VZ MFt MFb MFtau M2SveL M2SvmL M2SvtL'.split()
vecs = 'M2Su M2Sd M2Sc M2Ss M2St M2Sb M2Se M2Sm M2Stau M2hh M2Ah M2Hpm'.split()
mats = 'ZU ZD ZC ZS ZT ZB ZE ZM ZTau ZH ZA ZP'.split()
o = ["""(** * Tree-level DR' spectrum
    GENERATED by tools/gen_fo.py from source/himalaya/mh2_fo/MSSM_spectrum.cpp, statement by statement.  The stream operator
    (:658-713) is left out.  4-vectors and 4x4 matrices are functions of the (0-based) indices. *)
From Coq Require Import ZArith Bool List.
From Verif Require Import Num Except Params PV Linalg.

Section Access.
  Context {T : Type}.
  Definition vget (v : vec2 T) (i : nat) : T := match i with O => v0 v | _ => v1 v end.
  Definition mget (m : mat2 T) (i j : nat) : T :=
    match i, j with O, O => m00 m | O, _ => m01 m | _, O => m10 m | _, _ => m11 m end.
End Access.

(** external decompositions (Linalg.hpp): fs_diagonalize_symmetric for a real 4x4 matrix (masses; complex mixing matrix as pairs
    re, im) and fs_svd for a real 2x2 matrix (singular values, u, v) *)
Record FermionLib (T : Type) := mkFermionLib {
  lib_sym4 : (nat -> nat -> T) -> (nat -> T) * (nat -> nat -> T * T);
  lib_svd2 : mat2 T -> vec2 T * mat2 T * mat2 T }.
Arguments mkFermionLib {T}. Arguments lib_sym4 {T}. Arguments lib_svd2 {T}.

(** source/himalaya/mh2_fo/MSSM_spectrum.hpp:33-76 *)
Record Spectrum (T : Type) := mkSpectrum {
  sp_pars : Params T;
  %s : T;
  %s : vec2 T;
  MChi : nat -> T; MCha : vec2 T;
  %s : mat2 T;
  ZN : nat -> nat -> T; UM : mat2 T; UP : mat2 T }.
Arguments mkSpectrum {T}. Arguments sp_pars {T}.""" % (" : T; ".join(scal), " : vec2 T; ".join(vecs), " : mat2 T; ".join(mats))]
o.append(" ".join("Arguments %s {T}." % n for n in scal + vecs + ['MChi', 'MCha'] + mats + ['ZN', 'UM', 'UP']))
o.append("""
Section Spectrum.
  Context {T : Type} {N : Num T}.
  Open Scope num_scope.

  (** normalize_to_interval for real matrices (MSSM_spectrum.cpp:70-81), one entry *)
  Definition clamp (x : T) : T := if x <? #(-1) then #(-1) else if x >? #1 then #1 else x.
  Definition normalize_to_interval (m : mat2 T) : mat2 T :=
    mkM2 (clamp (m00 m)) (clamp (m01 m)) (clamp (m10 m)) (clamp (m11 m)).
  (** normalize_to_interval for complex matrices (:92-102), one entry: polar(1, arg z) = z/|z| *)
  Definition normalize_c (z : T * T) : T * T :=
    let a := hypot (fst z) (snd z) in if a >? #1 then (fst z / a, snd z / a) else z.
  (** cwiseAbs().maxCoeff() of the imaginary parts of row i of a 4x4 matrix (:49) *)
  Definition max_imag (z : nat -> nat -> T * T) (i : nat) : T :=
    fold_left (fun m j => stdmax m (nabs (snd (z i j)))) (1 :: 2 :: 3 :: nil)%nat (nabs (snd (z i 0%nat))).
  (** convert_symmetric_fermion_mixings_to_slha (:43-55): masses and the real part of the converted mixing matrix;
      i*(a + i b) has real part -b *)
  Definition to_slha (m : nat -> T) (z : nat -> nat -> T * T) : (nat -> T) * (nat -> nat -> T) :=
    (fun i => if negb (is_zero (max_imag z i) eps_default) then m i * #(-1) else m i,
     fun i j => if negb (is_zero (max_imag z i) eps_default) then #0 * fst (z i j) - #1 * snd (z i j) else fst (z i j)).
  (** symmetrize (:110-121) *)
  Definition symmetrize (m : nat -> nat -> T) (i j : nat) : T := if Nat.ltb j i then m j i else m i j.
""")
em = EmitFO(consts=CONST, pname='pars')
def let_line(st):
    n, e = re.match(r"const auto (\w+) = (.*)$", st).groups()
    return "    let %s := %s in" % (n, em.e(parse(e)))
class EmitMat(EmitFO):
    """right-hand side mass_matrix_X(0,1) and the parameter fields"""
    def e(s, e):
        if e[0] == 'call' and e[1].startswith('mass_matrix'):
            return "m%d%d" % (e[2][0][1], e[2][1][1])
        return EmitFO.e(s, e)
em = EmitMat(consts=CONST, pname='pars')
# scalar masses
for f, n in [('MVWm','M2VWm'),('MVZ','M2VZ'),('MFt','MFt'),('MFb','MFb'),('MFtau','MFtau'),('MSveL','M2SveL'),('MSvmL','M2SvmL'),('MSvtL','M2SvtL')]:
    sig, body, l1, l2 = S.func(r"void MSSM_spectrum::calculate_%s\(\)" % f)
    o.append("  (** source/himalaya/mh2_fo/MSSM_spectrum.cpp:%d-%d *)" % (l1, l2))
    o.append("  Definition calculate_%s (pars : Params T) : T :=" % f)
    for st in stmts(body):
        st = re.sub(r"\s+", " ", st)
        if st.startswith('const auto'): o.append(let_line(st))
        else:
            m = re.match(r"%s = (.*)$" % n, st)
            o.append("    " + wrap(em.e(parse(m.group(1)))) + ".")
    o.append("")
# mass matrices
for f in 'Su Sd Sc Ss St Sb Se Sm Stau hh Ah Hpm Cha'.split():
    sig, body, l1, l2 = S.func(r"RM22 MSSM_spectrum::get_mass_matrix_%s\(\) const" % f)
    o.append("  (** source/himalaya/mh2_fo/MSSM_spectrum.cpp:%d-%d *)" % (l1, l2))
    o.append("  Definition get_mass_matrix_%s (pars : Params T) : mat2 T :=" % f)
    ent = []
    for st in stmts(body):
        st = re.sub(r"\s+", " ", st)
        if st.startswith('const auto'): o.append(let_line(st)); continue
        if st.startswith('RM22 mass_matrix') or st.startswith('return'): continue
        m = re.match(r"mass_matrix_%s\((\d),(\d)\) = (.*)$" % f, st)
        i, j = m.group(1), m.group(2)
        o.append("    let m%s%s := %s in" % (i, j, wrap(em.e(parse(m.group(3))))))
        ent.append(i + j)
    assert sorted(ent) == ['00', '01', '10', '11'], ent
    o.append("    mkM2 m00 m01 m10 m11.\n")
sig, body, l1, l2 = S.func(r"RM44 MSSM_spectrum::get_mass_matrix_Chi\(\) const")
o.append("  (** source/himalaya/mh2_fo/MSSM_spectrum.cpp:%d-%d.  Entries not assigned before symmetrize are #0 here; symmetrize\n      overwrites all of them. *)" % (l1, l2))
o.append("  Definition get_mass_matrix_Chi (pars : Params T) : nat -> nat -> T :=")
ent = {}
for st in stmts(body):
    st = re.sub(r"\s+", " ", st)
    if st.startswith('const auto'): o.append(let_line(st)); continue
    m = re.match(r"mass_matrix_Chi\((\d),(\d)\) = (.*)$", st)
    if m: ent[(int(m.group(1)), int(m.group(2)))] = em.e(parse(m.group(3)))
    else: assert st in ('RM44 mass_matrix_Chi', 'symmetrize(mass_matrix_Chi)', 'return mass_matrix_Chi'), st
assert sorted(ent) == [(i, j) for i in range(4) for j in range(i, 4)]
o.append("    symmetrize (fun i j => match i, j with")
for (i, j), t in sorted(ent.items()): o.append("      | %d%%nat, %d%%nat => %s" % (i, j, t))
o.append("      | _, _ => #0 end).\n")
# calculate_spectrum: check the text of the calculate_ functions
for f, w, z in zip('Su Sd Sc Ss St Sb Se Sm Stau hh Ah Hpm'.split(), vecs, mats):
    sig, body, l1, l2 = S.func(r"void MSSM_spectrum::calculate_M%s\(\)" % f)
    b = [re.sub(r"\s+", " ", x) for x in stmts(body)]
    assert b == ["const auto mass_matrix_%s = get_mass_matrix_%s()" % (f, f), "fs_diagonalize_hermitian(mass_matrix_%s, %s, %s)" % (f, w, z), "normalize_to_interval(%s)" % z], b
sig, body, l1, l2 = S.func(r"void MSSM_spectrum::calculate_MCha\(\)")
assert 'fs_svd(mass_matrix_Cha, MCha, UM, UP)' in body
sig, body, l1, l2 = S.func(r"void MSSM_spectrum::calculate_spectrum\(\)")
o.append("""  (** the calculate_M* functions of the scalars with a 2x2 mass matrix all have this body *)
  Definition diagonalise (E : EigenLib T) (m : mat2 T) : vec2 T * mat2 T :=
    let '(w, z) := fs_diagonalize_hermitian E m in (w, normalize_to_interval z).

  (** MSSM_spectrum::MSSM_spectrum, calculate_spectrum (source/himalaya/mh2_fo/MSSM_spectrum.cpp:%d-%d, 142-167) *)
  Definition newSpectrum (E : EigenLib T) (F : FermionLib T) (pars : Params T) : Spectrum T :=""" % (l1, l2))
for f, w, z in zip('Su Sd Sc Ss St Sb Se Sm Stau hh Ah Hpm'.split(), vecs, mats):
    o.append("    let '(%s, %s) := diagonalise E (get_mass_matrix_%s pars) in" % ('s_'+w, 's_'+z, f))
o.append("    let '(mchi, zn) := lib_sym4 F (get_mass_matrix_Chi pars) in")
o.append("    let '(mchi, zn) := to_slha mchi (fun i j => normalize_c (zn i j)) in")
o.append("    let '(mcha, um, up) := lib_svd2 F (get_mass_matrix_Cha pars) in")
o.append("    mkSpectrum pars (calculate_MVWm pars) (calculate_MVZ pars) (calculate_MFt pars) (calculate_MFb pars) (calculate_MFtau pars)")
o.append("      (calculate_MSveL pars) (calculate_MSvmL pars) (calculate_MSvtL pars)")
o.append("      " + " ".join('s_' + v for v in vecs) + " mchi mcha")
o.append("      " + " ".join('s_' + v for v in mats) + " zn um up.\n")
o.append("  (** masses.M2hh(0) = x *)")
o.append("  Definition set_M2hh0 (s : Spectrum T) (x : T) : Spectrum T :=")
o.append("    mkSpectrum (sp_pars s) %s\n      %s (MChi s) (MCha s)\n      %s (ZN s) (UM s) (UP s)." % (
    " ".join("(%s s)" % n for n in scal),
    " ".join("(%s s)" % n if n != 'M2hh' else "(mkV2 x (v1 (M2hh s)))" for n in vecs),
    " ".join("(%s s)" % n for n in mats)))
o.append("End Spectrum.")
open(OUT + 'Spectrum.v', 'w').write("\n".join(o) + "\n")

# ---------------------------------------------------------------- DSZ
DZ = 'source/himalaya/mh2l/DSZHiggs.cpp'
S = Src('/repo/' + DZ)
o = ["""(** * C++ wrappers of the two-loop FORTRAN routines
    GENERATED by tools/gen_fo.py from %s, statement by statement.  The FORTRAN routines (DSZHiggs.f, Li2.f90) are
    external: fields of [Fort], implemented in Fortran.v.  The mutex is the subject of Lock.v; here the calls are sequential. *)
From Coq Require Import ZArith Bool.
From Verif Require Import Num Except.

(** argument lists as in DSZHiggs.h.  Arguments are passed by address.  The result triples are what the routine stores through its three
    output addresses, in the order of the argument list.  [ft_ddshiggs] also changes seven of its input arguments: first component, the
    values of T1, B1, B2, st, ct, sb, cb on return (ddsodd does the same, but its caller does not use them afterwards). *)
Record Fort (T : Type) := mkFort {
  ft_dszhiggs : T -> T -> T -> T -> T -> T -> T -> T -> T -> T -> T -> Z -> T * T * T;
  ft_dszodd : T -> T -> T -> T -> T -> T -> T -> T -> T -> T -> T -> T;
  ft_ddshiggs : T -> T -> T -> T -> T -> T -> T -> T -> T -> T -> T -> T -> T -> T -> T -> Z ->
    (T * T * T * T * T * T * T) * (T * T * T);
  ft_ddsodd : T -> T -> T -> T -> T -> T -> T -> T -> T -> T -> T -> T -> T -> T -> T -> Z -> T;
  ft_tausqhiggs : T -> T -> T -> T -> T -> T -> T -> T -> T -> T -> T -> Z -> T * T * T;
  ft_tausqodd : T -> T -> T -> T -> T -> T -> T -> T -> T -> T -> T -> T;
  ft_taubot : T -> T -> T -> T -> T -> T -> T -> T -> T -> T -> T -> T -> T -> T -> T * T * T;
  ft_taubotodd : T -> T -> T -> T -> T -> T -> T -> T -> T -> T -> T -> T -> T -> T -> T;
  ft_li2 : T -> T   (* real part of li2c_, Li2f.cpp:28-32 *) }.
Arguments mkFort {T}.
Arguments ft_dszhiggs {T}. Arguments ft_dszodd {T}. Arguments ft_ddshiggs {T}. Arguments ft_ddsodd {T}. Arguments ft_tausqhiggs {T}.
Arguments ft_tausqodd {T}. Arguments ft_taubot {T}. Arguments ft_taubotodd {T}. Arguments ft_li2 {T}.

Section DSZ.
  Context {T : Type} {N : Num T} (ft : Fort T).
  Open Scope num_scope.

  (** %s:33 *)
  Definition sqrtabs (a : T) : T := nsqrt (nabs a).
  (** %s:34 *)
  Definition logabs (x : T) : T := nlog (nabs x).
  (** M_PI of <cmath>, rounded to nearest binary64 *)
  Definition M_PI : T := ndec 31415926535897932384626433832795028841971693993751 49.
""" % (DZ, DZ, DZ)]
funs = {'sqrtabs':'sqrtabs', 'logabs':'logabs', 'li2':'ft_li2 ft', 'phi':'phi', 'dphi_010':'dphi_010', 'calc_At':'calc_At'}
# C++ variable names that clash with Coq ones
ren = {'T':'TT', 'M_PI':'M_PI'}
ez = Emit(consts={}, ren=ren, funs=funs)
fz = Fun(ez)
fz.DECL = DECL
import fun2coq
def gen_scalar(name, ret='T'):
    sig, body, l1, l2 = S.func(r"double %s\(" % name)
    ps = [ren.get(x, x) for x in params(sig)]
    o.append("  (** %s:%d-%d *)" % (DZ, l1, l2))
    o.append("  Definition %s %s : T :=" % (name, " ".join("(%s : T)" % p for p in ps)))
    o.append(fz.emit(split_stmts(body), "    ") + ".\n")
def gen_matrix(name):
    sig, body, l1, l2 = S.func(r"Eigen::Matrix<double, 2, 2> %s\(" % name)
    pieces = split_top(sig[sig.index('(')+1:sig.rindex(')')])
    ps = [('(%s : Z)' if re.match(r"int\b", x) else '(%s : T)') % ren.get(p, p) for p, x in zip(params(sig), pieces)]
    o.append("  (** %s:%d-%d *)" % (DZ, l1, l2))
    o.append("  Definition %s %s : mat2 T :=" % (name, " ".join(ps)))
    for st in stmts(body):
        st = re.sub(r"\s+", " ", st)
        if st.startswith('Eigen::Matrix') or st.startswith('return'): continue
        m = re.match(r"(?:constexpr|const) double (\w+) = (.*)$", st)
        if m:
            o.append("    let %s := %s in" % (ren.get(m.group(1), m.group(1)), wrap(ez.e(parse(m.group(2)))))); continue
        m = re.match(r"result\((\d),(\d)\) = (.*)$", st)
        e = m.group(3)
        t = "r01" if e == 'result(0,1)' else wrap(ez.e(parse(e)))
        o.append("    let r%s%s := %s in" % (m.group(1), m.group(2), t))
    o.append("    mkM2 r00 r01 r10 r11.\n")
gen_matrix('delta_mh2_2loop_at_as_st_0_mst1_eq_mst2')
gen_matrix('rotate_by')
gen_scalar('calc_At'); gen_scalar('phi'); gen_scalar('dphi_010')
gen_scalar('delta_ma2_2loop_at_as_mst1_eq_mst2')
def lines(pat): return "%d-%d" % S.func(pat)[2:]
o.append("""  (** the output addresses are &result(0,0), &result(1,1), &result(0,1); then result(1,0) = result(0,1) *)
  Definition sym_result (r : T * T * T) : mat2 T :=
    let '(o1, o2, o3) := r in mkM2 o1 o3 o3 o2.
  (** the output addresses are &result(0,0), &result(0,1), &result(1,1); then result(1,0) = result(0,1) *)
  Definition sym_result' (r : T * T * T) : mat2 T :=
    let '(o1, o2, o3) := r in mkM2 o1 o2 o2 o3.

  (** %s:%s *)
  Definition delta_mh2_2loop_at_as_general (mt2 mg mst12 mst22 sxt cxt scale2 mu tanb vev2 g3 : T) (scheme : Z) : mat2 T :=
    sym_result (ft_dszhiggs ft mt2 mg mst12 mst22 sxt cxt scale2 mu tanb vev2 g3 scheme).

  (** %s:%s *)
  Definition delta_ma2_2loop_at_as_general (mt2 mg mst12 mst22 sxt cxt scale2 mu tanb vev2 g3 : T) : T :=
    ft_dszodd ft mt2 mg mst12 mst22 sxt cxt scale2 mu tanb vev2 g3.

  (** %s:%s *)
  Definition delta_ma2_2loop_at_as (mt2 mg mst12 mst22 sxt cxt scale2 mu tanb vev2 g3 : T) : T :=
    if nabs ((mst12 - mst22) / mst12) <? ndec 1 8 then
      let At := calc_At mt2 mst12 mst22 sxt cxt mu tanb in
      if nabs At <? eps_default then #0
      else delta_ma2_2loop_at_as_mst1_eq_mst2 mt2 mg mst12 mst22 sxt cxt scale2 mu tanb vev2 g3
    else delta_ma2_2loop_at_as_general mt2 mg mst12 mst22 sxt cxt scale2 mu tanb vev2 g3.

  (** %s:%s, without the lock *)
  Definition delta_ma2_2loop_at_at (mt2 mb2 mA2 mst12 mst22 msb12 msb22 sxt cxt sxb cxb scale2 mu tanb vev2 : T) (atat : Z) : T :=
    ft_ddsodd ft mt2 mb2 mA2 mst12 mst22 msb12 msb22 sxt cxt sxb cxb scale2 mu tanb vev2 atat.

  (** %s:%s *)
  Definition delta_mh2_2loop_at_as (mt2 mg mst12 mst22 sxt cxt scale2 mu tanb vev2 g3 : T) (include_heavy_higgs : Z) : mat2 T :=
    let result :=
      if nabs ((mst12 - mst22) / mst12) <? ndec 1 8
      then delta_mh2_2loop_at_as_st_0_mst1_eq_mst2 mt2 mg mst12 mst22 sxt cxt scale2 mu tanb vev2 g3 0
      else delta_mh2_2loop_at_as_general mt2 mg mst12 mst22 sxt cxt scale2 mu tanb vev2 g3 0 in
    let dMA := if negb (include_heavy_higgs =? 0)%%Z
               then delta_ma2_2loop_at_as mt2 mg mst12 mst22 sxt cxt scale2 mu tanb vev2 g3 else #0 in
    mat2_add result (rotate_by dMA tanb).

  (** %s:%s, without the lock *)
  Definition delta_mh2_2loop_at_at (mt2 mb2 mA2 mst12 mst22 msb12 msb22 sxt cxt sxb cxb scale2 mu tanb vev2 : T)
      (include_heavy_higgs atat : Z) : mat2 T :=
    let '((mst12, msb12, msb22, sxt, cxt, sxb, cxb), out) :=
      ft_ddshiggs ft mt2 mb2 mA2 mst12 mst22 msb12 msb22 sxt cxt sxb cxb scale2 mu tanb vev2 atat in
    let result := sym_result' out in
    let dMA := if negb (include_heavy_higgs =? 0)%%Z
               then delta_ma2_2loop_at_at mt2 mb2 mA2 mst12 mst22 msb12 msb22 sxt cxt sxb cxb scale2 mu tanb vev2 atat else #0 in
    mat2_add result (rotate_by dMA tanb).

  (** %s:%s *)
  Definition delta_mh2_2loop_ab_as (mb2 mg msb12 msb22 sxb cxb scale2 mu cotb vev2 g3 : T) (include_heavy_higgs : Z) : mat2 T :=
    let result := delta_mh2_2loop_at_as mb2 mg msb12 msb22 sxb cxb scale2 mu cotb vev2 g3 include_heavy_higgs in
    mkM2 (m11 result) (m01 result) (m10 result) (m00 result).

  (** %s:%s *)
  Definition delta_ma2_2loop_atau_atau (mtau2 mA2 msv2 mstau12 mstau22 sintau costau scale2 mu tanb vev2 : T) : T :=
    ft_tausqodd ft mtau2 mA2 msv2 mstau12 mstau22 sintau costau scale2 mu tanb vev2.

  (** %s:%s *)
  Definition delta_mh2_2loop_atau_atau (mtau2 mA2 msv2 mstau12 mstau22 sintau costau scale2 mu tanb vev2 : T)
      (include_heavy_higgs : Z) : mat2 T :=
    let result := sym_result (ft_tausqhiggs ft mtau2 mA2 msv2 mstau12 mstau22 sintau costau scale2 mu tanb vev2 0) in
    let dMA := if negb (include_heavy_higgs =? 0)%%Z
               then delta_ma2_2loop_atau_atau mtau2 mA2 msv2 mstau12 mstau22 sintau costau scale2 mu tanb vev2 else #0 in
    mat2_add result (rotate_by dMA tanb).

  (** %s:%s *)
  Definition delta_ma2_2loop_ab_atau (mtau2 mb2 mstau12 mstau22 msb12 msb22 sintau costau sxb cxb scale2 mu tanb vev2 : T) : T :=
    ft_taubotodd ft mtau2 mb2 mstau12 mstau22 msb12 msb22 sintau costau sxb cxb scale2 mu tanb vev2.

  (** %s:%s *)
  Definition delta_mh2_2loop_ab_atau (mtau2 mb2 mstau12 mstau22 msb12 msb22 sintau costau sxb cxb scale2 mu tanb vev2 : T)
      (include_heavy_higgs : Z) : mat2 T :=
    let result := sym_result (ft_taubot ft mtau2 mb2 mstau12 mstau22 msb12 msb22 sintau costau sxb cxb scale2 mu tanb vev2) in
    let dMA := if negb (include_heavy_higgs =? 0)%%Z
               then delta_ma2_2loop_ab_atau mtau2 mb2 mstau12 mstau22 msb12 msb22 sintau costau sxb cxb scale2 mu tanb vev2 else #0 in
    mat2_add result (rotate_by dMA tanb).
End DSZ.""" % tuple(sum(([DZ, lines(p)] for p in [r"delta_mh2_2loop_at_as_general\(", r"double delta_ma2_2loop_at_as_general\(", r"double delta_ma2_2loop_at_as\(",
    r"double delta_ma2_2loop_at_at\(", r"2> delta_mh2_2loop_at_as\(", r"2> delta_mh2_2loop_at_at\(", r"2> delta_mh2_2loop_ab_as\(",
    r"double delta_ma2_2loop_atau_atau\(", r"2> delta_mh2_2loop_atau_atau\(", r"double delta_ma2_2loop_ab_atau\(", r"2> delta_mh2_2loop_ab_atau\("]), [])))
open(OUT + 'DSZ.v', 'w').write("\n".join(o) + "\n")

# ---------------------------------------------------------------- FixedOrder
ME = FO + 'MSSM_mass_eigenstates.cpp'
S = Src('/repo/' + ME)
o = ["""(** * MSSM_mass_eigenstates: fixed-order Higgs mass
    GENERATED by tools/gen_fo.py from %s.  The self-energy sums are translated term by term: [accum] of the list of the
    "se += ..." right-hand sides, in source order.  The switches and loops are written by hand next to their source lines.
    Log output and the stream operator are left out.  NaN is 0/0, which is NaN in binary64 and undefined in NumP; over the
    reals there is no NaN, so nothing is claimed there about the only_at constructor. *)
From Coq Require Import ZArith Bool List String.
From Verif Require Import Num Except Params PV Linalg Spectrum DSZ Mh2EFT.
Import ListNotations.

Inductive Momentum_iteration := mi_off | mi_pert | mi_num.
Inductive Diagonalization := di_pert | di_num.

Section FixedOrder.
  Context {T : Type} {N : Num T}.
  Open Scope num_scope.

  (** Sum.hpp: double s = 0; for (i = 0; i <= fin; i++) s += f(i) *)
  Definition nsum (fin : nat) (f : nat -> T) : T := fold_left (fun s i => s + f i) (seq 0 (S fin)) #0.
  (** double s = 0; s += e1; s += e2; ... *)
  Definition accum (l : list T) : T := fold_left nadd l #0.

  (** A0, B0, D1B0: %s:676-689; [q] is pars.scale *)
  Definition A0 (q m2 : T) : T := a0 m2 (pow2 q).
  Definition B0 (q p2 m12 m22 : T) : T := b0 p2 m12 m22 (pow2 q).
  Definition D1B0 (m12 m22 : T) : T := d1_b0 m12 m22.

  (** data members (MSSM_mass_eigenstates.hpp:83-90) *)
  Record ME := mkME { me_pars : Params T; me_masses : Spectrum T; me_gaugeless : Spectrum T; me_orders : cord -> Z;
    me_mom_it : Momentum_iteration; me_precision : T; me_max_iterations : Z; me_diag : Diagonalization }.
""" % (ME, ME)]
ef = EmitFO(consts=CONST, funs={'D1B0':'D1B0'}, pname='pars')
def gen_se(name, short, extra, allowed):
    sig, body, l1, l2 = S.func(r"RM22 MSSM_mass_eigenstates::%s\(" % name)
    decl, terms = [], {'se11': [], 'se12': [], 'se22': []}
    for st in stmts(body):
        st = re.sub(r"\s+", " ", st)
        m = re.match(r"const auto (\w+) = (.*)$", st)
        if m:
            n, e = m.groups()
            if e.startswith('masses.'): t = "%s masses" % e[7:]; assert e[7:] == n
            elif e.startswith('gaugeless.'): t = "%s masses" % e[10:]; assert e[10:] == n
            elif e.startswith('orders.at'):
                mm = re.match(r"orders\.at\(CouplingOrders::(\w+)\) == 1 \? 0\. : pars\.(\w+)\(2,2\)$", e)
                t = "if (orders %s =? 1)%%Z then #0 else a22 (%s pars)" % mm.groups()
            else: t = ef.e(parse(e))
            decl.append("    let %s := %s in" % (n, t)); continue
        m = re.match(r"(se\d\d) \+= (.*)$", st)
        if m: terms[m.group(1)].append(wrap(ef.e(parse(m.group(2))), 110, "        ")); continue
        assert st in ('double se11{0.}, se12{0.}, se22{0.}', 'RM22 se(RM22::Zero())', 'RM22 se', 'se << se11, se12, se12, se22', 'return se * oneLoop'), st
    for se in ('se11', 'se12', 'se22'):
        used = set(re.findall(r"[A-Za-z_]\w*", " ".join(terms[se])))
        o.append("  (** %s:%d-%d, the terms added to %s *)" % (ME, l1, l2, se))
        o.append("  Definition %s_%s %s : list T :=" % (short, se, extra))
        if re.search(r"\b[AB]0 q\b", " ".join(terms[se])): o.append("    let q := scale pars in")
        for d in decl:
            n = re.match(r"\s*let (\w+)", d).group(1)
            if n in used: o.append(d)
        o.append("    [ " + "\n    ; ".join(terms[se]) + " ].\n")
ALL = "(pars : Params T) (masses : Spectrum T)"
gen_se('delta_mh2_1loop', 'd1', ALL + " (p2 : T)", None)
gen_se('delta_mh2_1loop_gaugeless', 'gl', ALL + " (orders : cord -> Z)", None)
gen_se('delta_mh2_1loop_gaugeless_deriv', 'gd', ALL + " (orders : cord -> Z)", None)
def L(n): return "%d-%d" % S.func(r"MSSM_mass_eigenstates::%s\(" % n)[2:]
def LL(n): return "%d-%d" % S.func(n)[2:]
o.append("""  (** se * oneLoop with se = (se11, se12; se12, se22) *)
  Definition se_matrix (l11 l12 l22 : list T) : mat2 T :=
    mkM2 (accum l11 * nconst ConeLoop) (accum l12 * nconst ConeLoop) (accum l12 * nconst ConeLoop) (accum l22 * nconst ConeLoop).
  (** %s:%s *)
  Definition delta_mh2_1loop (me : ME) (p2 : T) : mat2 T :=
    let p := me_pars me in let s := me_masses me in se_matrix (d1_se11 p s p2) (d1_se12 p s p2) (d1_se22 p s p2).
  (** %s:%s; the masses are those of the member gaugeless *)
  Definition delta_mh2_1loop_gaugeless (me : ME) : mat2 T :=
    let p := me_pars me in let s := me_gaugeless me in let o := me_orders me in se_matrix (gl_se11 p s o) (gl_se12 p s o) (gl_se22 p s o).
  (** %s:%s *)
  Definition delta_mh2_1loop_gaugeless_deriv (me : ME) : mat2 T :=
    let p := me_pars me in let s := me_gaugeless me in let o := me_orders me in se_matrix (gd_se11 p s o) (gd_se12 p s o) (gd_se22 p s o).
  (** %s:%s and %s:%s *)
  Definition fo_mass_matrix_hh (me : ME) : mat2 T := get_mass_matrix_hh (sp_pars (me_masses me)).
  Definition fo_mass_matrix_hh_gaugeless (me : ME) : mat2 T := get_mass_matrix_hh (sp_pars (me_gaugeless me)).
  (** Eigen: matrix * scalar *)
  Definition mat2_times (m : mat2 T) (x : T) : mat2 T := mkM2 (m00 m * x) (m01 m * x) (m10 m * x) (m11 m * x).

  (** %s:%s *)
  Definition delta_mh2_2loop_mom_it_pert (me : ME) : mat2 T :=
    let DMH_0L := fo_mass_matrix_hh_gaugeless me in
    let DMH_1L := delta_mh2_1loop_gaugeless me in
    let '(_, o1, _, _) := fs_diagonalize_hermitian_perturbatively DMH_0L DMH_1L mat2_zero mat2_zero in
    mat2_times (delta_mh2_1loop_gaugeless_deriv me) (v0 o1).

  (** the while loop of delta_mh2_2loop_mom_it_num: [k] iterations are still allowed.  Returns DMH, p2, has_converged and the
      number of iterations done *)
  Fixpoint mom_it_loop (E : EigenLib T) (me : ME) (goal : T) (k : nat) (DMH : mat2 T) (p2 : T) (n : nat) : mat2 T * T * bool * nat :=
    match k with
    | O => (DMH, p2, false, n)
    | S k =>
      let DMH := mat2_add (fo_mass_matrix_hh me) (delta_mh2_1loop me p2) in
      let M2hh0 := v0 (fst (fs_diagonalize_hermitian E DMH)) in
      let has_converged := is_equal_rel M2hh0 p2 goal in
      if has_converged then (DMH, M2hh0, true, S n) else mom_it_loop E me goal k DMH M2hh0 (S n)
    end.
  (** %s:%s.  n < max_iterations with n counting from 0 allows Z.to_nat max_iterations iterations *)
  Definition delta_mh2_2loop_mom_it_num (E : EigenLib T) (me : ME) (precision_goal : T) (max_iterations : Z) : mat2 T :=
    let DMH_0L := fo_mass_matrix_hh me in
    let mh2_0L := v0 (M2hh (me_masses me)) in
    let '(DMH, _, _, _) := mom_it_loop E me precision_goal (Z.to_nat max_iterations) mat2_zero mh2_0L 0 in
    mat2_sub (mat2_sub DMH DMH_0L) (delta_mh2_1loop me mh2_0L).

  (** %s:%s *)
  Definition delta_mh2_2loop (E : EigenLib T) (ft : Fort T) (me : ME) : mat2 T :=
    let pars := me_pars me in
    let g3' := g3 pars in
    let mt2 := pow2 (MFt (me_gaugeless me)) in
    let mb2 := pow2 (MFb (me_gaugeless me)) in
    let mtau2 := pow2 (MFtau (me_gaugeless me)) in
    let mg := MG pars in
    let mst12 := pow2 (v0 (MSt pars)) in
    let mst22 := pow2 (v1 (MSt pars)) in
    let msb12 := pow2 (v0 (MSb pars)) in
    let msb22 := pow2 (v1 (MSb pars)) in
    let mstau12 := pow2 (v0 (MStau pars)) in
    let mstau22 := pow2 (v1 (MStau pars)) in
    let msv2 := M2SvtL (me_gaugeless me) in
    let mA2 := pow2 (MA pars) in
    let sxt := nsin (theta_t pars) in
    let cxt := ncos (theta_t pars) in
    let sxb := nsin (theta_b pars) in
    let cxb := ncos (theta_b pars) in
    let sxtau := nsin (theta_tau pars) in
    let cxtau := ncos (theta_tau pars) in
    let scale2 := pow2 (scale pars) in
    let mu' := - mu pars in
    let tanb := vu pars / vd pars in
    let cotb := #1 / tanb in
    let vev2 := pow2 (vu pars) + pow2 (vd pars) in
    let on k := negb (me_orders me k =? 0)%%Z in
    let dmh := mat2_zero in
    let dmh := match me_mom_it me with
               | mi_pert => mat2_add dmh (delta_mh2_2loop_mom_it_pert me)
               | mi_num => mat2_add dmh (delta_mh2_2loop_mom_it_num E me (me_precision me) (me_max_iterations me))
               | mi_off => dmh end in
    let dmh := if on G32YT4
      then mat2_add dmh (delta_mh2_2loop_at_as ft mt2 mg mst12 mst22 sxt cxt scale2 mu' tanb vev2 g3' 1) else dmh in
    let dmh := if on G32YB4
      then mat2_add dmh (delta_mh2_2loop_ab_as ft mb2 mg msb12 msb22 sxb cxb scale2 mu' cotb vev2 g3' 1) else dmh in
    let dmh := if on YT6
      then mat2_add dmh (delta_mh2_2loop_at_at ft mt2 mb2 mA2 mst12 mst22 msb12 msb22 sxt cxt sxb cxb scale2 mu' tanb vev2 1
                           (me_orders me ONLY_AT_AS)) else dmh in
    let dmh := if on YTAU6
      then mat2_add dmh (delta_mh2_2loop_atau_atau ft mtau2 mA2 msv2 mstau12 mstau22 sxtau cxtau scale2 mu' tanb vev2 1) else dmh in
    let dmh := if on YTAU2YB4 || on YTAU4YB2
      then mat2_add dmh (delta_mh2_2loop_ab_atau ft mtau2 mb2 mstau12 mstau22 msb12 msb22 sxtau cxtau sxb cxb scale2 mu' tanb vev2 1)
      else dmh in
    dmh.

  (** %s:%s *)
  Definition calculate_Mh2_tree (me : ME) : vec2 T :=
    let '(o0, _, _, _) := fs_diagonalize_hermitian_perturbatively (fo_mass_matrix_hh me) mat2_zero mat2_zero mat2_zero in o0.
  (** %s:%s *)
  Definition calculate_Mh2 (E : EigenLib T) (ft : Fort T) (me : ME) : T * T * T :=
    let p2 := v0 (calculate_Mh2_tree me) in
    let m0 := fo_mass_matrix_hh me in
    let m1 := delta_mh2_1loop me p2 in
    let m2 := delta_mh2_2loop E ft me in
    match me_diag me with
    | di_pert =>
      let m0_gl := fo_mass_matrix_hh_gaugeless me in
      let m1_gl := delta_mh2_1loop_gaugeless me in
      let '(h0, h1, _, _) := fs_diagonalize_hermitian_perturbatively m0 m1 mat2_zero mat2_zero in
      let '(_, _, h2, _) := fs_diagonalize_hermitian_perturbatively m0_gl m1_gl m2 mat2_zero in
      (v0 h0, v0 h1, v0 h2)
    | di_num =>
      let M2hh_0L := fst (fs_diagonalize_hermitian E m0) in
      let M2hh_1L := fst (fs_diagonalize_hermitian E (mat2_add m0 m1)) in
      let M2hh_2L := fst (fs_diagonalize_hermitian E (mat2_add (mat2_add m0 m1) m2)) in
      (v0 M2hh_0L, v0 M2hh_1L - v0 M2hh_0L, v0 M2hh_2L - v0 M2hh_1L)
    end.

  (** %s:%s.  The range check of flag only writes a log message; array::at throws for an index outside 0..22 *)
  Definition set_correction (me : ME) (order : cord) (flag : Z) : res ME :=
    if (0 <=? cord_index order)%%Z && (cord_index order <? 23)%%Z
    then Ok (mkME (me_pars me) (me_masses me) (me_gaugeless me) (fun o => if cord_eqb o order then flag else me_orders me o)
               (me_mom_it me) (me_precision me) (me_max_iterations me) (me_diag me))
    else Throw "array::at"%%string.
  (** %s:%s *)
  Definition set_mom_it (me : ME) (mi : Momentum_iteration) (goal : T) (n : Z) : ME :=
    mkME (me_pars me) (me_masses me) (me_gaugeless me) (me_orders me) mi goal n (me_diag me).
  (** %s:%s *)
  Definition set_diagonalization (me : ME) (d : Diagonalization) : ME :=
    mkME (me_pars me) (me_masses me) (me_gaugeless me) (me_orders me) (me_mom_it me) (me_precision me) (me_max_iterations me) d.

  (** %s:%s *)
  Definition make_gaugeless (p : Params T) : Params T :=
    mkParams (scale p) (mu p) #0 #0 (g3 p) (vd p) (vu p) (mq2 p) (md2 p) (mu2 p) (ml2 p) (me2 p) (Au p) (Ad p) (Ae p) (Yu p) (Yd p) (Ye p)
      (M1 p) (M2 p) (MG p) (MW p) (MZ p) (Mt p) (Mb p) (Mtau p) (MA p) (MSt p) (MSb p) (MStau p) (s2t p) (s2b p) (s2tau p)
      (theta_t p) (theta_b p) (theta_tau p) (massLimit3LThreshold p).
  (** std::numeric_limits<double>::quiet_NaN() *)
  Definition NaN : T := #0 / #0.
  (** %s:%s *)
  Definition make_3rd_gen (E : EigenLib T) (p : Params T) : res (Params T) :=
    let eps := ndec 1 6 in
    let y (a : T) : mat3 T := mkM3 #0 #0 #0 #0 #0 #0 #0 #0 a in
    validate E (mkParams (scale p) (mu p) (g1 p) (g2 p) (g3 p) (vd p) (vu p) (mq2 p) (md2 p) (mu2 p) (ml2 p) (me2 p)
      (Au p) (Ad p) (Ae p) (y (a22 (Yu p))) (y eps) (y eps)
      (M1 p) (M2 p) (MG p) (MW p) (MZ p) (Mt p) NaN NaN (MA p) (MSt p) (mkV2 NaN NaN) (mkV2 NaN NaN) (s2t p) NaN NaN
      (theta_t p) NaN NaN (massLimit3LThreshold p)).

  (** %s:%s; the arguments E, F stand for the external decompositions *)
  Definition newME (E : EigenLib T) (F : FermionLib T) (pars_ : Params T) (only_at : bool) : res ME :=
    let gaugeless := newSpectrum E F (make_gaugeless pars_) in
    let o := fun _ : cord => 1%%Z in
    let eps := ndec 1 10 in
    let o := if nabs (Mt pars_) <? eps then setFlags [(G32YT4, 0); (YT6, 0); (YB6, 0)]%%Z o else o in
    let o := if nabs (Mb pars_) <? eps then setFlags [(G32YB4, 0); (YT6, 0); (YB6, 0); (YTAU2YB4, 0); (YTAU4YB2, 0)]%%Z o else o in
    let o := if nabs (Mtau pars_) <? eps then setFlags [(YTAU6, 0); (YTAU2YB4, 0); (YTAU4YB2, 0)]%%Z o else o in
    if only_at then
      let o := setFlags [(YB6, 0); (YTAU6, 0); (YTAU2YB4, 0); (YTAU4YB2, 0); (G32YB4, 0)]%%Z o in
      let pars := make_gaugeless pars_ in
      do gen3 <- make_3rd_gen E pars;
      Ok (mkME pars (set_M2hh0 (newSpectrum E F gen3) #0) gaugeless o mi_pert (ndec 1 5) 100 di_pert)
    else
      Ok (mkME pars_ (newSpectrum E F pars_) gaugeless (setFlags [(ONLY_AT_AS, 0)]%%Z o) mi_pert (ndec 1 5) 100 di_pert).
End FixedOrder.
Arguments ME T : clear implicits.""" % (ME, L('delta_mh2_1loop'), ME, L('delta_mh2_1loop_gaugeless'), ME, L('delta_mh2_1loop_gaugeless_deriv'),
  ME, L('get_mass_matrix_hh'), ME, L('get_mass_matrix_hh_gaugeless'), ME, L('delta_mh2_2loop_mom_it_pert'), ME, L('delta_mh2_2loop_mom_it_num'),
  ME, L('delta_mh2_2loop'), ME, L('calculate_Mh2_tree'), ME, L('calculate_Mh2'), ME, L('set_correction'), ME, L('set_mom_it'), ME, L('set_diagonalization'),
  ME, LL(r"Parameters make_gaugeless\("), ME, LL(r"Parameters make_3rd_gen\("), ME, LL(r"MSSM_mass_eigenstates::MSSM_mass_eigenstates\(")))
open(OUT + 'FixedOrder.v', 'w').write("\n".join(o) + "\n")
