import json
P=[]
def p(title, statement, quant, why, anchors):
    P.append(dict(id="C%02d"%(len(P)+1), title=title, statement=statement, quantifier=quant, why_tests_cant=why, anchors=anchors))
HO="source/himalaya/HierarchyObject.cpp"; HC="source/himalaya/HierarchyCalculator.cpp"; IF="source/himalaya/Himalaya_interface.cpp"
TL="source/himalaya/mh2_eft/ThresholdLoopFunctions.cpp"; TC="source/himalaya/mh2_eft/ThresholdCalculator.cpp"; EF="source/himalaya/mh2_eft/Mh2EFTCalculator.cpp"
PV="source/himalaya/mh2_fo/PV.cpp"; LI="source/himalaya/misc/Li2.cpp"; LA="source/himalaya/mh2_fo/Linalg.cpp"; SP="source/himalaya/mh2_fo/MSSM_spectrum.cpp"
ME="source/himalaya/mh2_fo/MSSM_mass_eigenstates.cpp"; DS="source/himalaya/mh2l/DSZHiggs.cpp"; LL="source/himalaya/LibraryLink/Himalaya_LibraryLink.cpp"
# ---- result object
p("Result object behaves like independent registers",
  "After any sequence of setter calls on a HierarchyObject, every getter returns the value most recently stored by a successful call of its own setter (with that loop order), or the documented initial value if there was none; no setter call changes what any other getter, or the same getter at another loop order, returns. (The two MDR masses are stored sorted.)",
  "all finite sequences of setter calls with all arguments (any int loop order, any doubles), all getters and loop orders",
  "the number of call histories is unbounded; a test only observes a few sequences", [HO+": setDMh, getDMh, setDMh2, setDLambda, ...", "include/himalaya/HierarchyObject.hpp"])
p("Out-of-range loop orders and flags are rejected without side effects",
  "A getter or setter taking a loop order throws exactly when the order is outside 0..3 (outside 1..3 for the expansion uncertainty), setMDRFlag throws exactly for values other than 0/1, setRenormalizationScheme exactly for values outside 0..3; a throwing call leaves every stored value unchanged.",
  "all ints passed as loop order / flag / scheme, all object states reachable by any history", "int domain and object histories are unbounded", [HO])
p("MDR masses are returned in ascending order", "After setMDRMasses(v) the getter returns a permutation of v; if no entry is NaN it is in ascending order; setting the returned pair again changes nothing.",
  "all pairs of doubles including NaN, infinities and signed zeros", "floating-point pairs, incl. special values, are too many to enumerate", [HO+": setMDRMasses, sortVector"])
p("Quartic-coupling uncertainty is a sum of absolute values", "getDLambdaUncertainty is 0 for loop orders 0,1,2; at order 3 it is |Xt uncertainty| + |DLambdaEFT - DLambdaH3m|, hence never negative, zero only if both parts vanish, and an upper bound for each part; any other order throws.",
  "all stored real values, all int loop orders", "holds for every stored value", [HO+": getDLambdaUncertainty"])
p("Hierarchy names are total and unambiguous", "getH3mHierarchyNotation returns a string for every int; the 14 hierarchies 0..13 get 14 pairwise distinct names, none of which equals the text produced for an int outside 0..13.", "all ints (and all pairs of ints for distinctness)", "unbounded int domain", [HO+": getH3mHierarchyNotation"])
# ---- parameter validation
p("Validation accepts or rejects exactly as documented", "Parameters::validate throws if any entry of one of the five soft-breaking squared sfermion mass matrices is negative, if MG < 0, or if vu or vd is NaN or <= 0, or if a sfermion mass matrix that has to be diagonalised has a negative eigenvalue, and otherwise returns normally.",
  "all parameter points (every double incl. NaN/inf in every field), every eigensolver result", "the parameter space has > 100 doubles", [IF+": Parameters::validate", IF+": calculate_MSf_s2f"])
p("Validation never overrides what the user supplied", "Every given (not NaN) MW, MZ, Mt, Mb, Mtau and every sfermion doublet given completely (both masses and s2f or theta) is left as given by validate, except for reordering a sfermion doublet (with the mixing adjusted), the documented 1e-8 shift of degenerate masses and replacing MG by its absolute value; fields left NaN are filled from the running parameters.",
  "all parameter points", "any subset of fields may be given", [IF+": Parameters::validate"])
p("Sfermion doublets come out of validation ordered", "After a successful validate, if the doublet masses are not NaN, MSt(0) <= MSt(1), MSb(0) <= MSb(1) and MStau(0) <= MStau(1); stops are strictly ordered when positive, so formulas dividing by MSt(0)^2-MSt(1)^2 never divide by zero.",
  "all parameter points accepted by validate", "all inputs", [IF+": sort_ev", IF+": validate"])
p("Reordering a doublet preserves the sfermion mass matrix", "Swapping the two masses together with theta -> theta + pi/2 and s2f -> -s2f describes the same 2x2 mass matrix, and keeps s2f = sin(2 theta).",
  "all masses and mixing angles", "continuous domain", [IF+": sort_ev"])
p("Validation is idempotent", "Validating an already validated parameter point leaves it unchanged (the library validates the same point repeatedly: HierarchyCalculator, Mh2EFTCalculator and ThresholdCalculator each do).",
  "all accepted parameter points, any number of repeated validations", "all points and repetition counts", [IF+": validate", HC, EF, TC])
p("Average squark mass depends on the light squarks as documented", "calculateMsq2 is the tenth root of the product of ten positive squared masses; it depends on nothing else and lies between the smallest and the largest of the ten.",
  "all positive masses", "continuous domain", [IF+": calculateMsq2"])
# ---- hierarchy selection
p("The chosen hierarchy is a best suitable one", "compareHierarchies returns a hierarchy that is suitable for the mass spectrum and whose error estimate is minimal among all suitable hierarchies, the lowest-numbered one in case of ties; the stored 2-loop differences and expansion uncertainties are those of the returned hierarchy; it returns -1 iff no hierarchy is suitable.",
  "all mass spectra and all real error values", "all error tables; the selection loop must be right for every one", [HC+": compareHierarchies"])
p("A NaN error estimate never wins over a finite one", "If the error estimate of some suitable hierarchy is NaN and that of another suitable one is finite, the finite one is chosen.",
  "all tables of error values incl. NaN", "NaN arises only at rare points", [HC+": compareHierarchies"])
p("A suitable hierarchy exists for every admissible spectrum", "For positive masses with Mst1 <= Mst2 and with Mst2 and Mgl at most 1.3 times the mean squark mass, at least one of the 14 hierarchies is suitable, so calculateDMh3L does not fail with 'No suitable hierarchy found!'; if Mst2 or Mgl exceeds 1.3 Msq none is.",
  "all positive mass quadruples (Mst1, Mst2, Mgl, Msq)", "boundary cases have measure zero; sampling misses them", [HC+": isHierarchySuitable"])
p("Hierarchy conditions match their mass orderings", "Whenever a hierarchy is declared suitable the masses satisfy the ordering its name stands for (e.g. h3: Mst2 < Mgl; h5*: Mst2 < Msq and the gluino closer to stop 1; h6*: gluino closer to stop 2; h9*: both stops closer to each other than the light gluino is to stop 1).",
  "all mass quadruples", "continuous domain", [HC+": isHierarchySuitable"])
p("Mother-hierarchy map is total, consistent and rejects others", "Each of the 14 hierarchies maps to one of h3,h4,h5,h6,h6b,h9, each of these maps to itself, the map is idempotent, and every other int raises an exception (with the text 'No suitable hierarchy found!' for -1).",
  "all ints", "int domain", [HC+": getMotherHierarchy"])
p("Calculations leave the calculator unchanged, also on exceptions", "compareHierarchies, getExpansionUncertainty and calculateDMh3L restore all expansion-depth settings on every exit, normal or by an exception thrown at any point; hence calling calculateDMh3L again (any number of times, with any sequence of alpha_t/alpha_b choices) gives the same results as on a fresh calculator.",
  "all call sequences, all points at which an exception can be thrown", "requires every crash point and history", [HC+": calculateDMh3L", "source/himalaya/misc/RAII.hpp"])
p("Loop corrections to the mass matrix are symmetric", "For every loop order 0..3 the matrix returned by getDMh, and the two scheme-shift matrices, are symmetric.", "all parameter points, both alpha_t and alpha_b mode, all hierarchies, all 2-loop routine outputs", "all parameter points", [HC+": calculateDMh3L, calculateHierarchy, getMt41L, shiftH3mToDRbarPrime", DS])
p("Results of the hierarchy search do not leak into the reported corrections", "The values reported by calculateDMh3L for getDMh(3), getDLambdaH3m/EFT/NonLog, getMDRMasses and the scheme shifts are functions of the parameters and the selected hierarchy only; they do not depend on the hierarchies tried and discarded during the selection.",
  "all parameter points and all intermediate object states", "intermediate states are not observable by tests", [HC+": compareHierarchies, calcDeltaLambda3L, calculateHierarchy"])
p("The expansion uncertainty is non-negative and vanishes when the truncated terms vanish", "getExpansionUncertainty is the square root of the sum of squared mass differences over the expansion variables of the mother hierarchy; it is >= 0, is 0 iff lowering any of these expansion orders does not change the mass, does not modify the HierarchyObject passed in, and throws for a HierarchyObject whose hierarchy is not 0..13.",
  "all calculators, objects and matrices", "all inputs", [HC+": getExpansionUncertainty"])
p("Loop-order flags select additively", "calculateHierarchy with several loop-order flags set returns the sum of the results with one flag each; with none set it returns the zero matrix.", "all flag combinations and parameter points", "all points", [HC+": calculateHierarchy"])
p("No MDR shift if the MDR flag is off", "With the MDR flag 0 the stop masses used equal the input stop masses (for all hierarchies) and the difference between MDR and DR corrections is zero.", "all positive masses, all hierarchies", "all points", [HC+": shiftMst1ToMDR, shiftMst2ToMDR, calcDRbarToMDRbarShift"])
p("alpha_b mode reports no quartic coupling correction at three loops", "In alpha_b mode calculateDMh3L returns 0 for getDLambda(3), getDLambdaH3m, getDLambdaEFT, getDLambdaNonLog, the three-loop MS-bar shift and the three-loop lambda uncertainty.", "all parameter points", "all points", [HC+": calculateDMh3L"])
# ---- threshold / loop functions
p("Loop functions near equal masses agree with the exact function", "In the window around x = 1 where F1..F7 and f1..f4 switch to a series expansion, the value returned differs from the exact closed form by at most C*|x-1|^k with the k and C stated; the switch therefore introduces no jump larger than that.",
  "all x in the switching window (a continuum)", "a test samples a few points of a continuum", [TL+": F1..F7, f1..f4"])
p("Loop functions are defined for every mass ratio", "F1..F7, f1..f4 return a real number (no division by zero, no logarithm of a non-positive number) for every positive mass ratio; the two-argument functions f5..f8, F8, F9 do so for all positive ratio pairs.",
  "all positive reals (pairs)", "singular points are isolated; sampling misses them", [TL])
p("Two-argument loop functions are symmetric in equal-role arguments", "F8(x1,x2) = F8(x2,x1) and F9(x1,x2) = F9(x2,x1), f5..f8 are symmetric in their two ratio arguments, and phi_xyz is invariant under permutation of its arguments (up to the scaling by the largest).",
  "all positive arguments, incl. the boundaries of the special-case windows", "two-dimensional continuum with many branch boundaries", [TL+": F8, F9, f5..f8, phi_xyz"])
p("The real dilogarithm is accurate on the whole real axis", "For every real x the value returned by himalaya::dilog (in real arithmetic) exists and differs from the real part of Li2(x) by at most 2e-16; for -1 < x < 1/2 the error is at most 1e-16 times |x|.",
  "all reals x", "continuum; identity must hold on each branch", [LI+": dilog"])
p("The library's Clausen function is the Clausen function", "Read with exact real arithmetic, clausen_2(x) is defined for every x with |x| <= 2 pi and differs from Cl2(x) = -int_0^x ln|2 sin(t/2)| dt by at most 3e-17; it is exactly odd, and exactly periodic (for x >= 0) with the period of its own literal, 2*3.14159265358979324.", "all real x (accuracy: |x| <= 2 pi; beyond, by the period)", "continuum; the rational approximations must be good between any two sampled points", [LI+": clausen_2"])
p("Passarino-Veltman functions are symmetric, scale correctly and join continuously", "b0 and d1_b0 are symmetric in the masses, a0, b0 depend on the scale through -log(scale) only, b0(0,m,m) agrees with the limit of b0(0,m1,m2), and the equal-mass and massless special cases equal the limits of the general formula.",
  "all masses, momenta and scales", "continuum", [PV+": a0, b0xx, b0, d1_b0"])
p("Degenerate-mass formulas are the limits of the general ones", "For the strong threshold corrections (g3, yt to two loops, lambda to three loops), the vev corrections and the DR'-bar/MS-bar conversion of the three-loop term, in every scheme and with or without logarithms: when a mass (or a pair of equal masses) approaches another one, the result of the more general formula converges to the result of the formula for equal masses (with the dilogarithm in place of its numerical approximation, cf. C27). The H3m/DR'-bar conversion is continuous where the stop masses coincide.",
  "all masses, parameters, schemes; masses coincide one after the other", "a limit statement", [TC+": getDeltaLambdaAlphat, getDeltaLambdaAlphatAlphas, getDeltaLambdaAlphatAlphas2, getDeltaYtAlphas, getDeltaYtAlphas2, getDRbarPrimeToMSbarXtTerms, getDeltaVevYt2, getDeltaVevYb2, getDeltaVevYtau2", HC+": shiftH3mToDRbarPrime, shiftH3mToDRbarPrimeMh2"])
p("Renormalisation-scale dependence of threshold corrections", "The one-loop corrections to g3, yt (O(alpha_s)) and lambda (O(alpha_t)) change with the scale only through a fixed coefficient times log(mu^2) (e.g. 12 for lambda, -4/3*... for yt), in every mass limit; with the log switch off they do not depend on the scale at all.",
  "all masses, mass limits and scales", "continuum", [TC+": getDeltaG3Alphas, getDeltaYtAlphas, getDeltaLambdaAlphat"])
p("Scheme conversion of threshold corrections is consistent", "getThresholdCorrection for a coupling order with scheme-dependent value differs between schemes exactly by the conversion terms documented; for scheme-independent coupling orders the scheme argument has no effect; an unknown coupling order gives 0 or an exception, never another order's value.",
  "all coupling orders, schemes, parameter points", "all points", [TC+": getThresholdCorrection"])
p("ThresholdCalculator picks a mass limit consistent with the masses", "The automatically chosen mass limit only declares masses equal that agree within the tolerance, is the most degenerate applicable one, is only used if the general formula is numerically unstable, and a user-supplied limit is used unchanged.",
  "all masses", "continuum with several thresholds", [TC+": ThresholdCalculator, isGeneralStable"])
# ---- EFT
p("Only the enabled EFT coupling orders contribute", "After construction an Mh2EFTCalculator includes exactly the coupling orders documented for the non-vanishing couplings; a disabled coupling order contributes exactly 0 even where its expression is NaN or infinite, and corrections are additive over coupling orders.",
  "all parameter points, all sequences of setCorrectionFlag calls", "all histories and points", [EF])
p("Invalid correction flags are rejected", "setCorrectionFlag (EFT) and set_correction (fixed order) with a flag other than 0 or 1 leave the stored flags unchanged.", "all ints", "int domain", [EF+": setCorrectionFlag", ME+": set_correction"])
p("Tree-level EFT Higgs mass bound", "getDeltaMh2EFT0Loop equals (MZ cos 2beta)^2, lies in [0, MZ^2], is invariant under exchanging vu and vd, and vanishes iff vu = vd (for MZ > 0).", "all vu, vd > 0 and MZ", "continuum", [EF+": getDeltaMh2EFT0Loop"])
# ---- fixed order
p("Perturbative diagonalisation is the Taylor expansion of the exact eigenvalues", "For a symmetric 2x2 tree-level matrix with distinct eigenvalues and symmetric corrections m1, m2, m3 the returned shifts are the coefficients of t, t^2, t^3 in the expansion of the exact ordered eigenvalues of m0 + t m1 + t^2 m2 + t^3 m3; at every order the two shifts sum to the trace of the correction.",
  "all real symmetric matrices with distinct eigenvalues", "continuum; identity of power series", [LA+": fs_diagonalize_hermitian_perturbatively"])
p("Tree-level Higgs spectrum obeys the MSSM sum rules", "The CP-odd mass matrix has eigenvalues MZ^2 (Goldstone, Feynman gauge) and MA^2, the charged one MW^2 and MA^2 + MW^2, the CP-even one has trace MA^2 + MZ^2 and determinant MA^2 MZ^2 cos^2(2beta), and the light CP-even mass squared is between 0 and min(MA^2, MZ^2) cos^2 2beta.",
  "all g1, g2, vu, vd > 0, MA", "continuum", [SP+": get_mass_matrix_hh, get_mass_matrix_Ah, get_mass_matrix_Hpm"])
p("Sfermion mass matrices are symmetric and obey the D-term sum rules", "Every sfermion mass matrix is symmetric; the traces of up- and down-type matrices of a generation differ from the soft masses only by the D- and F-terms (sum over a generation's D-terms vanishes); neutralino matrix is symmetric.",
  "all parameter points", "continuum", [SP])
p("Momentum iteration terminates", "delta_mh2_2loop_mom_it_num performs at most max_iterations self-energy evaluations for any input, and if it stops earlier the relative change of the mass in the last step was below the precision goal.",
  "all inputs, precision goals (incl. NaN) and iteration limits (incl. <= 0)", "termination on all inputs", [ME+": delta_mh2_2loop_mom_it_num"])
p("Fixed-order corrections: only enabled orders contribute", "delta_mh2_2loop is the sum of exactly the enabled two-loop orders, each evaluated once; disabled ones are not evaluated.", "all flag settings", "all flag combos and points", [ME+": delta_mh2_2loop"])
# ---- 2-loop wrappers
p("Heavy-Higgs rotation of the CP-odd shift", "The matrix added for include_heavy_higgs is symmetric, has trace equal to the CP-odd shift, zero determinant and annihilates the vector (cos beta, sin beta).", "all shifts and tan(beta)", "continuum", [DS+": rotate_by"])
p("Non-thread-safe Fortran routines never overlap", "In every interleaving of any number of threads calling the 2-loop wrappers, at most one thread is inside a Fortran routine that uses COMMON storage at any time, and the lock is released on every return, so no call deadlocks.",
  "all schedules of any number of threads and calls", "needs all interleavings", [DS+": mtx, delta_mh2_2loop_at_at, delta_ma2_2loop_at_at", "source/himalaya/mh2l/DSZHiggs.f: common/listderiv/"])
# ---- LibraryLink
p("Mathematica parameter list is decoded without loss", "make_data accepts exactly lists of 127 numbers, reads each entry exactly once, and puts entry i into the documented field; encoding any parameter record and decoding it gives the same record (mass fields <= 0 meaning 'not given').",
  "all lists of all lengths", "all list lengths and values", [LL+": make_data"])
p("LibraryLink always returns exactly one complete expression", "For every input list, every set of log messages and every outcome (success, exception at any point) the sequence of items put on the link forms exactly one complete Mathematica expression.",
  "all inputs, message lists and failure points", "all crash points", [LL+": HimalayaCalculateDMh3L, put_result, put_message, Redirect_output"])
# ---- appended while the model grew
p("Computed sfermion masses and mixing reproduce the mass matrix", "When stop, sbottom or stau masses are not given, the masses, mixing angle and sin(2 theta) that validate computes satisfy R(theta) diag(m^2) R(theta)^T = M for the 2x2 mass matrix M built from the running parameters, and s2f = sin(2 theta).",
  "all real symmetric 2x2 mass matrices with non-negative eigenvalues, every valid eigenvector sign choice", "continuum of matrices; sign conventions of the eigensolver", [IF+": calculate_MSf_s2f"])
p("Mathematical constants are accurate", "Every named constant of Constants.hpp (Pi, zeta values, square roots, log 2, loop factors 1/(4 pi)^(2n), and the three-loop master-integral constants B4, D3, DN, OepS2, S2, T1ep) is, as the double the compiled program uses, within a relative error of 1.3e-16 of the exact real number its doc comment defines; it is the double nearest to that number, and its printed digits are the digits of that number.",
  "all named constants (exact real comparison, not a floating-point one)", "a test compares floating-point values with the same literals or with libm, not with the exact numbers", ["source/himalaya/misc/Constants.hpp"])
p("The two-loop DR'-MSbar shift of lambda is the derivative of the one-loop term", "The reported two-loop DR'-to-MSbar shift of the quartic coupling equals -4 times the reported one-loop correction times the one-loop y_t conversion factor g3^2/(4 pi)^2 * YT_AS.",
  "all parameter points", "continuum; no reference value exists in the tests", [HC+": calculateDMh3L"])
p("The finished result object is self-consistent", "After calculateDMh3L the three-loop entries of the mass, fixed-order and fixed-order-alpha_t maps coincide, DMh2 is the perturbative diagonalisation of the reported matrices, the tree-level matrix is the MSSM one, the 0- and 1-loop MSbar shifts and the 1-loop expansion uncertainty are 0, and DLambda(3) equals DLambdaEFT.",
  "all parameter points, both modes, all outputs of the called routines", "all inputs", [HC+": calculateDMh3L"])
p("Threshold corrections obey the renormalisation group equations",
  "The explicit scale dependence of the threshold corrections is the one demanded by the renormalisation group: the sum of all one-loop pieces of the quartic coupling runs like the SM coupling minus the tree-level MSSM expression, the Yukawa and gauge pieces run with the difference of the SM and MSSM beta functions, and the two-loop pieces at O(alpha_t alpha_s) and O(alpha_s^2) change with the scale as their one-loop counterparts, the running soft parameters and the two-loop beta functions dictate.",
  "all masses, mixings, couplings and scales",
  "continuum; involves derivatives", ["source/himalaya/mh2_eft/ThresholdCalculator.cpp"])
p("The EFT Higgs mass does not depend on the renormalisation scale",
  "The O(alpha_t) EFT correction returned by getDeltaMh2EFT1Loop is the same number at every renormalisation scale, and the explicit scale dependence of the O(alpha_t alpha_s) correction of getDeltaMh2EFT2Loop cancels the change of the O(alpha_t) correction when the top mass and the soft parameters run with their one-loop SUSY-QCD beta functions.",
  "all parameter points with distinct stop and gluino masses, all scales", "continuum; involves derivatives", ["source/himalaya/mh2_eft/Mh2EFTCalculator.cpp: getDeltaMh2EFT1Loop, getDeltaMh2EFT2Loop"])
p("The two sfermion mass matrices in the library agree",
  "The stop, sbottom and stau mass matrices that Parameters::validate builds from MW, MZ and the running fermion masses equal the ones the fixed-order spectrum builds from the gauge and Yukawa couplings, whenever MW, MZ and the fermion masses are the tree-level expressions of those couplings.",
  "all parameter points", "continuum; two independent implementations", [IF+": calculate_MSt_s2t", "source/himalaya/mh2_fo/MSSM_spectrum.cpp: get_mass_matrix_St, get_mass_matrix_Sb, get_mass_matrix_Stau"])
p("Two-loop corrections change correctly when the up-type Higgs doublet is reflected",
  "Replacing mu by -mu and tan(beta) by -tan(beta) (the field redefinition H_u -> -H_u), with all masses and mixing angles unchanged, leaves the diagonal elements of every two-loop correction to the CP-even Higgs mass matrix in the (H_d, H_u) basis unchanged and reverses the sign of the off-diagonal one.",
  "all parameter points, with and without the CP-odd mass shift", "continuum; no test evaluates reflected points", [DS+": delta_mh2_2loop_at_as, delta_mh2_2loop_ab_as, delta_mh2_2loop_atau_atau, delta_mh2_2loop_ab_atau", "source/himalaya/mh2l/DSZHiggs.f: DSZHiggs, DSZodd, tausqhiggs, tausqodd, taubot, taubotodd"])
p("The O(at^2 + at ab + ab^2) correction is evaluated at the parameters it is given",
  "delta_mh2_2loop_at_at evaluates the two-loop formulas at the stop and sbottom masses, sines and cosines passed by the caller; masses or sines that lie on a pole of the formulas are first moved away from it, by at most a relative (for sines: absolute) 2e-5, such that afterwards no pole is left.",
  "all masses and all mixing angles", "continuum; the special cases are measure-zero sets", [DS+": delta_mh2_2loop_at_at", "source/himalaya/mh2l/DSZHiggs.f: DDSHiggs, DDSodd"])
p("Two-loop corrections do not depend on how the two sfermions are numbered",
  "Exchanging the two stop (sbottom, stau) masses together with a rotation of the mixing angle by pi/2 leaves every two-loop correction unchanged.",
  "all masses, mixing angles and couplings", "continuum", [DS, "source/himalaya/mh2l/DSZHiggs.f"])
p("The fixed-order O(at as) corrections obey the renormalisation group",
  "The explicit scale dependence of the two-loop O(alpha_t alpha_s) correction to every element of the CP-even Higgs mass matrix cancels the change of the one-loop O(alpha_t) correction when the top mass, the stop soft masses and A_t run with their one-loop SUSY-QCD beta functions; the CP-odd mass correction changes with the scale exactly as the running Higgs mixing parameter does at one and two loops.",
  "all stop masses and mixings, gluino masses, scales and couplings with distinct stop masses", "continuum; involves derivatives", [DS+": delta_mh2_2loop_at_as, delta_ma2_2loop_at_as", "source/himalaya/mh2l/DSZHiggs.f: DSZHiggs, DSZodd, strfuncs, strsfuncs, strresfuncs, strfuncsodd"])
p("The one-loop reference of the hierarchy selection is the O(at) correction",
  "The one-loop matrix against which calculateDMh3L expands and which it reports is the O(alpha_t) correction to the CP-even Higgs mass matrix, for every hierarchy.",
  "all stop masses, mixings, mu and tan(beta), all hierarchies", "continuum", [HC+": getMt41L, shiftMst1ToMDR, shiftMst2ToMDR"])
FO="source/himalaya/mh2_fo/MSSM_mass_eigenstates.cpp"
p("The fixed-order Higgs mass is returned order by order",
  "calculate_Mh2 returns three numbers. With numerical diagonalisation their partial sums are the smallest eigenvalues of the tree-level, one-loop and one-plus-two-loop corrected mass matrices, the one-loop self energy being taken at the tree-level light Higgs mass. With perturbative diagonalisation they are the coefficients of the loop-counting expansion of the light eigenvalue: tree level and one loop with gauge couplings, two loops in the gaugeless limit. With the perturbative momentum iteration the two-loop matrix contains the momentum derivative of the gaugeless one-loop matrix times the gaugeless one-loop shift of the light Higgs mass.",
  "all spectra, correction flags and settings", "continuum; the expansion coefficient is a limit statement", [FO+": calculate_Mh2, delta_mh2_2loop_mom_it_pert"])
p("All Higgs mass matrices are symmetric",
  "Every CP-even Higgs mass matrix computed by the fixed-order calculation (tree level, gaugeless, one loop at any momentum, its derivative, and the two-loop sum for any setting of the flags) is symmetric, in floating point as well as in exact arithmetic.",
  "all inputs, every arithmetic (including IEEE double), every result of the external routines", "must hold bit-wise for all inputs", [FO])
p("A new fixed-order calculation includes exactly the documented corrections",
  "A freshly constructed calculation enables every correction except those involving a massless fermion (|m| < 1e-10); in the top-only mode additionally all bottom and tau corrections are disabled and the ONLY_AT_AS flag is set, otherwise it is not. All flags are 0 or 1.",
  "all parameter points, both modes, all coupling orders", "combination of three mass conditions and the mode over all inputs", [FO+": MSSM_mass_eigenstates constructor"])

TH="source/himalaya/mh2_eft/ThresholdCalculator.cpp"
p("The one-loop matching of the quartic coupling follows from the effective potential",
  "The one-loop threshold corrections to the quartic Higgs coupling from sfermions and the heavy Higgs doublet, added with their couplings, equal the fourth-order field coefficient (second derivative with respect to the squared field) of the one-loop Coleman-Weinberg potential of these particles, with full D-terms and left-right mixing, plus the effect of the Higgs field renormalisation on the tree-level coupling, of the redefinition of the gauge couplings, and of the change from DRbar to MSbar.",
  "all sfermion masses, mixings, scales, tan(beta) and couplings, with mass ratios outside the 1% windows where the loop functions are expanded", "continuum; compares closed formulas with a physical definition containing derivatives and integrals", [TH+": getDeltaLambdaYt4 ... getDeltaLambdaRegG24", "source/himalaya/misc: loop functions F1..F8"])
p("Higgs field renormalisation enters vev and Yukawa thresholds universally",
  "The one-loop vev thresholds are one half of the Higgs field renormalisation caused by the trilinear Higgs-sfermion couplings, and every Yukawa threshold contains minus one half of it.",
  "all sfermion masses, mixings and couplings outside the 1% windows", "continuum; relates several closed formulas to an integral", [TH+": getDeltaVevYt2, getDeltaVevYb2, getDeltaVevYtau2, getDeltaYtYt, getDeltaYtYb, getDeltaYtauYtau, getDeltaYtauYb, getDeltaYbYt, getDeltaYbYb"])
p("The three-loop scheme shift contains exactly the requested powers of Xt",
  "The DR'-to-MSbar shift of the three-loop quartic coupling is a polynomial in Xt: the difference of the three-loop threshold correction between the two schemes with the powers of Xt above the requested order (3 or 4) removed, for every mass limit whose masses it is used for.",
  "all masses, all trilinear couplings, the six mass limits, both settings of both log switches, all requested orders", "the removed terms are long independent formulas; tests compare a few points", [TH+": getDRbarPrimeToMSbarShift, getDRbarPrimeToMSbarXtTerms, getThresholdCorrection"])
p("The strong threshold corrections are defined wherever their mass limit applies",
  "In each mass limit every strong threshold correction (and the three-loop scheme shift) is a finite number for all positive masses the limit can tell apart, in every scheme; and the limit that the constructor chooses is one whose formulas are defined at the given masses.",
  "all positive masses, the six mass limits, all schemes and switches", "0/0 occurs on surfaces of measure zero that sampled tests miss", [TH+": ThresholdCalculator, getThresholdCorrection, getDeltaYtAlphas2, getDRbarPrimeToMSbarShift"])

HH="source/himalaya/hierarchies/"
p("The hierarchy classes receive the quantities their formulas are written in",
  "For every hierarchy, calculateHierarchy hands the class the masses, mass differences, logarithms, mixing and couplings of the parameter point that its data members stand for, and all seven numbers it returns (three self energies, four Delta lambda coefficients) exist whenever the masses are positive and 0 < beta < pi/2. The returned mass matrix is 3/(2 pi^2 vu^2) times the self energies, and at three loops the stored Delta lambda is the polynomial in the logarithm with the four coefficients.",
  "all parameter points, hierarchies, loop orders, expansion depths, both renormalisation schemes", "positional constructor arguments of the same type; division by zero on surfaces of measure zero", [HC+": calculateHierarchy", HH+"H*.cpp: constructors, getS1, getS2, getS12"])
p("Loop orders and the strong coupling",
  "Each self energy of each hierarchy is the sum of the one-, two- and three-loop parts selected by the flags, which are proportional to the zeroth, first and second power of alpha_s; the Delta lambda coefficients depend neither on flags nor on alpha_s.",
  "all points, all hierarchies, all flag values, all expansion depths", "coefficients of thousands of terms", [HH+"H*.cpp"])
p("The hierarchy results do not depend on the unit of mass",
  "Expressing all dimensionful parameters in another unit multiplies the self energies by the fourth power of the conversion factor and leaves the Delta lambda coefficients unchanged.",
  "all points, all hierarchies, all conversion factors", "every one of thousands of terms must have the same dimension", [HH+"H*.cpp", HC+": calculateHierarchy"])
p("Hierarchies of one family agree where their expansions overlap",
  "Two hierarchies that differ only in whether one mass is identified with another one and expanded in the difference give the same result where the masses coincide, and differ by the first omitted power of the difference away from there.",
  "all points and settings, all nine pairs of sibling hierarchies", "limit statement uniform over a continuum of points", [HH+"H*.cpp"])
p("The three-loop Delta lambda is the light-Higgs projection of the three-loop mass matrix",
  "For every hierarchy, at Q = mt and without MDR shifts, the Delta lambda coefficients times powers of the logarithm add up to the three-loop self energies projected on the light Higgs direction.",
  "all masses, mixings, mu, tan(beta); all hierarchies", "identity between independently coded formulas with thousands of terms", [HH+"H*.cpp: getS1, getS2, getS12, calc_coef_at_as2_no_sm_logs_log0..3"])
p("The light Higgs mass depends on mu and tan(beta) only through the mixing",
  "The projection of the self energies on the light Higgs direction, divided by sin^2(beta), does not depend on mu and tan(beta) at fixed squark masses and mixing.",
  "all points, all values of mu and beta, all hierarchies and loop orders", "identity between three independently coded formulas", [HH+"H*.cpp: getS1, getS2, getS12"])
p("The expansion flags truncate the expansions they are named after",
  "Switching off the flag of an expansion variable changes the self energies by terms of at least the second order in that variable, so the expansion uncertainty measures the size of the highest orders in each expansion variable of the hierarchy.",
  "all points, all hierarchies and flags", "uniform limit statement over all points", [HH+"H*.cpp: constructors", HC+": getExpansionUncertainty", "source/himalaya/hierarchies/ExpansionFlags.hpp"])
p("Threshold corrections do not depend on the unit of mass",
  "Expressing all masses, vacuum expectation values, trilinear couplings and the scale in another unit changes no threshold correction, no conversion shift and not the automatically chosen mass limit.",
  "all parameter points, all conversion factors, all couplings orders, schemes and settings", "every term of every correction must be dimensionless; tests compare numbers in one unit", [TC+": getThresholdCorrection, getDRbarPrimeToMSbarShift, ThresholdCalculator", TL+": phi_xyz"])
p("The bottom corrections are the top corrections with the roles of top and bottom exchanged",
  "Exchanging the two Higgs doublets and right-handed top and bottom superfields turns the one-loop strong correction of the top Yukawa coupling into that of the bottom Yukawa coupling, and the correction of order at^2 as into that of order ab^2 as, up to the product of one-loop terms that comes from expressing the result by the MSSM instead of the SM Yukawa coupling.",
  "all masses, mixings and scales, the five degeneracy cases", "identity between two independently coded formulas with many terms and case distinctions", [TC+": getDeltaLambdaYb4G32, getDeltaLambdaAlphatAlphas, getDeltaYtAlphas, getDeltaYbAs"])
p("Exchange of sbottoms and staus",
  "Exchanging the third-generation down squarks with the sleptons (masses and trilinear couplings) exchanges the corrections of order atau^2 ab and atau ab^2.",
  "all masses, mixings, scales and tan(beta)", "identity between two independently coded formulas", [TC+": getDeltaLambdaYtau4Yb2, getDeltaLambdaYtau2Yb4"])
p("The corrections of order ab^3 and atau^3 belong together",
  "If the sleptons have the masses and mixing of the sbottoms, the correction of order ab^3 is three times the one of order atau^3 plus the mixed one, up to products of one-loop terms.",
  "all non-degenerate masses, mixings, mu, MA, tan(beta)", "identity between independently coded formulas with hundreds of terms", [TC+": getDeltaLambdaYb6, getDeltaLambdaYtau6, getDeltaLambdaYtau4Yb2"])
p("The two mixed top-bottom corrections are mirror images of each other",
  "Exchanging top and bottom turns the correction of order at^2 ab into the one of order at ab^2 up to a constant and a product of one-loop terms.",
  "all non-degenerate masses, mixings, mu, MA, tan(beta)", "identity between independently coded formulas with hundreds of terms", [TC+": getDeltaLambdaYt4Yb2, getDeltaLambdaYt2Yb4"])
p("Expansions of the two-argument loop functions near their singular lines",
  "Where the code of F8, F9, f5, f6, f7, f8 replaces the closed form by an expansion because the two ratios are nearly equal, or one of them is near 1 or near 0, the error vanishes at least like the stated power of the distance from the line, uniformly on every bounded range of the other ratio and in both orders of the arguments.",
  "all ratios in the windows the code uses, every bound on the other ratio", "uniform limit statement; a wrong high-order coefficient is invisible in tests with a tolerance", [TL+": F8, F9, f5, f6, f7, f8 and their special-case branches"])
p("F8 and F9 depend on the moduli of their arguments only",
  "F8(x1,x2) and F9(x1,x2) are unchanged if the sign of one or both arguments is changed, in every special case.",
  "all real arguments", "the special cases test different combinations of arguments and moduli", [TL+": F8, F9"])
p("Expansions of the two-argument loop functions at the corners of their domain",
  "Where one ratio is near 0 and the other near 1, or both are near 0, the error of F8, F9, f5, f6, f7, f8 vanishes at least like a power of the distance from the corner.",
  "all ratios in the windows the code uses", "uniform limit statement in two variables with logarithms", [TL+": F8_1_x2, f5_1_r2, f6_0_1, f7_0_1, f8_0_1, f5_0_0, f6_0_0, f7_0_0, f8_0_0, F9_0_x2"])
p("The two-loop function Phi is written in the right roots",
  "Where the discriminant is positive, the function Phi(x,y,z) is the combination of logarithms and dilogarithms of the two roots x, y = (1 - lambda +- (u - v))/2 of the ratios u < v of the masses; where the code replaces the roots by expansions in small ratios they are right up to the order at which the expansions end.",
  "all ratios u <= v < 1 with positive discriminant, u and v not within 10^-14 of each other or equal and small", "uniform bound over a two-parameter domain; the switch between expansions decides where each is used", [TL+": luv, l00, l0v, lv0, phi_pos, phi_xyz"])
p("The two-loop function Phi for negative discriminant",
  "Where the discriminant is negative, the function Phi is 2/sqrt(-lambda^2) times the sum of the Clausen functions of the three doubled angles of the triangle with squared sides 1, u, v; the separate formulas for equal ratios and for a ratio equal to one give the same value.",
  "all positive ratios with negative discriminant that are equal to each other and to 1 or differ by more than 10^-14", "equality of different closed forms through the duplication formula of the Clausen function, for a two-parameter family", [TL+": phi_neg, phi_neg_1v, cl2acos", LI+": clausen_2"])
p("Phi is one function for both signs of the discriminant",
  "The dilogarithm form used for positive and the Clausen form used for negative discriminant satisfy the same linear differential equation in each ratio, lambda^2 dPhi/du + (u - v - 1) Phi = 2 ln u + (1-u-v)/u ln v, and the code evaluates these forms to an absolute accuracy of 10^-15/|lambda|.",
  "all positive ratios with non-zero discriminant (below one together, where it is positive); for the code ratios above 1/4000 that differ by more than 10^-14", "relation between derivatives of two closed forms on a two-parameter domain", [TL+": phi_uv, phi_pos, phi_neg, luv, lambda_2", LI+": dilog, clausen_2"])
with open('/verif/properties.jsonl','w') as f:
    for x in P: f.write(json.dumps(x, ensure_ascii=True)+"\n")
print(len(P))
