{"id": "C01", "title": "Result object behaves like independent registers", "statement": "After any sequence of setter calls on a HierarchyObject, every getter returns the value most recently stored by a successful call of its own setter (with that loop order), or the documented initial value if there was none; no setter call changes what any other getter, or the same getter at another loop order, returns. (The two MDR masses are stored sorted.)", "quantifier": "all finite sequences of setter calls with all arguments (any int loop order, any doubles), all getters and loop orders", "why_tests_cant": "the number of call histories is unbounded; a test only observes a few sequences", "anchors": ["source/himalaya/HierarchyObject.cpp: setDMh, getDMh, setDMh2, setDLambda, ...", "include/himalaya/HierarchyObject.hpp"]}
{"id": "C02", "title": "Out-of-range loop orders and flags are rejected without side effects", "statement": "A getter or setter taking a loop order throws exactly when the order is outside 0..3 (outside 1..3 for the expansion uncertainty), setMDRFlag throws exactly for values other than 0/1, setRenormalizationScheme exactly for values outside 0..3; a throwing call leaves every stored value unchanged.", "quantifier": "all ints passed as loop order / flag / scheme, all object states reachable by any history", "why_tests_cant": "int domain and object histories are unbounded", "anchors": ["source/himalaya/HierarchyObject.cpp"]}
{"id": "C03", "title": "MDR masses are returned in ascending order", "statement": "After setMDRMasses(v) the getter returns a permutation of v; if no entry is NaN it is in ascending order; setting the returned pair again changes nothing.", "quantifier": "all pairs of doubles including NaN, infinities and signed zeros", "why_tests_cant": "floating-point pairs, incl. special values, are too many to enumerate", "anchors": ["source/himalaya/HierarchyObject.cpp: setMDRMasses, sortVector"]}
{"id": "C04", "title": "Quartic-coupling uncertainty is a sum of absolute values", "statement": "getDLambdaUncertainty is 0 for loop orders 0,1,2; at order 3 it is |Xt uncertainty| + |DLambdaEFT - DLambdaH3m|, hence never negative, zero only if both parts vanish, and an upper bound for each part; any other order throws.", "quantifier": "all stored real values, all int loop orders", "why_tests_cant": "holds for every stored value", "anchors": ["source/himalaya/HierarchyObject.cpp: getDLambdaUncertainty"]}
{"id": "C05", "title": "Hierarchy names are total and unambiguous", "statement": "getH3mHierarchyNotation returns a string for every int; the 14 hierarchies 0..13 get 14 pairwise distinct names, none of which equals the text produced for an int outside 0..13.", "quantifier": "all ints (and all pairs of ints for distinctness)", "why_tests_cant": "unbounded int domain", "anchors": ["source/himalaya/HierarchyObject.cpp: getH3mHierarchyNotation"]}
{"id": "C06", "title": "Validation accepts or rejects exactly as documented", "statement": "Parameters::validate throws if any entry of one of the five soft-breaking squared sfermion mass matrices is negative, if MG < 0, or if vu or vd is NaN or <= 0, or if a sfermion mass matrix that has to be diagonalised has a negative eigenvalue, and otherwise returns normally.", "quantifier": "all parameter points (every double incl. NaN/inf in every field), every eigensolver result", "why_tests_cant": "the parameter space has > 100 doubles", "anchors": ["source/himalaya/Himalaya_interface.cpp: Parameters::validate", "source/himalaya/Himalaya_interface.cpp: calculate_MSf_s2f"]}
{"id": "C07", "title": "Validation never overrides what the user supplied", "statement": "Every given (not NaN) MW, MZ, Mt, Mb, Mtau and every sfermion doublet given completely (both masses and s2f or theta) is left as given by validate, except for reordering a sfermion doublet (with the mixing adjusted), the documented 1e-8 shift of degenerate masses and replacing MG by its absolute value; fields left NaN are filled from the running parameters.", "quantifier": "all parameter points", "why_tests_cant": "any subset of fields may be given", "anchors": ["source/himalaya/Himalaya_interface.cpp: Parameters::validate"]}
{"id": "C08", "title": "Sfermion doublets come out of validation ordered", "statement": "After a successful validate, if the doublet masses are not NaN, MSt(0) <= MSt(1), MSb(0) <= MSb(1) and MStau(0) <= MStau(1); stops are strictly ordered when positive, so formulas dividing by MSt(0)^2-MSt(1)^2 never divide by zero.", "quantifier": "all parameter points accepted by validate", "why_tests_cant": "all inputs", "anchors": ["source/himalaya/Himalaya_interface.cpp: sort_ev", "source/himalaya/Himalaya_interface.cpp: validate"]}
{"id": "C09", "title": "Reordering a doublet preserves the sfermion mass matrix", "statement": "Swapping the two masses together with theta -> theta + pi/2 and s2f -> -s2f describes the same 2x2 mass matrix, and keeps s2f = sin(2 theta).", "quantifier": "all masses and mixing angles", "why_tests_cant": "continuous domain", "anchors": ["source/himalaya/Himalaya_interface.cpp: sort_ev"]}
{"id": "C10", "title": "Validation is idempotent", "statement": "Validating an already validated parameter point leaves it unchanged (the library validates the same point repeatedly: HierarchyCalculator, Mh2EFTCalculator and ThresholdCalculator each do).", "quantifier": "all accepted parameter points, any number of repeated validations", "why_tests_cant": "all points and repetition counts", "anchors": ["source/himalaya/Himalaya_interface.cpp: validate", "source/himalaya/HierarchyCalculator.cpp", "source/himalaya/mh2_eft/Mh2EFTCalculator.cpp", "source/himalaya/mh2_eft/ThresholdCalculator.cpp"]}
{"id": "C11", "title": "Average squark mass depends on the light squarks as documented", "statement": "calculateMsq2 is the tenth root of the product of ten positive squared masses; it depends on nothing else and lies between the smallest and the largest of the ten.", "quantifier": "all positive masses", "why_tests_cant": "continuous domain", "anchors": ["source/himalaya/Himalaya_interface.cpp: calculateMsq2"]}
{"id": "C12", "title": "The chosen hierarchy is a best suitable one", "statement": "compareHierarchies returns a hierarchy that is suitable for the mass spectrum and whose error estimate is minimal among all suitable hierarchies, the lowest-numbered one in case of ties; the stored 2-loop differences and expansion uncertainties are those of the returned hierarchy; it returns -1 iff no hierarchy is suitable.", "quantifier": "all mass spectra and all real error values", "why_tests_cant": "all error tables; the selection loop must be right for every one", "anchors": ["source/himalaya/HierarchyCalculator.cpp: compareHierarchies"]}
{"id": "C13", "title": "A NaN error estimate never wins over a finite one", "statement": "If the error estimate of some suitable hierarchy is NaN and that of another suitable one is finite, the finite one is chosen.", "quantifier": "all tables of error values incl. NaN", "why_tests_cant": "NaN arises only at rare points", "anchors": ["source/himalaya/HierarchyCalculator.cpp: compareHierarchies"]}
{"id": "C14", "title": "A suitable hierarchy exists for every admissible spectrum", "statement": "For positive masses with Mst1 <= Mst2 and with Mst2 and Mgl at most 1.3 times the mean squark mass, at least one of the 14 hierarchies is suitable, so calculateDMh3L does not fail with 'No suitable hierarchy found!'; if Mst2 or Mgl exceeds 1.3 Msq none is.", "quantifier": "all positive mass quadruples (Mst1, Mst2, Mgl, Msq)", "why_tests_cant": "boundary cases have measure zero; sampling misses them", "anchors": ["source/himalaya/HierarchyCalculator.cpp: isHierarchySuitable"]}
{"id": "C15", "title": "Hierarchy conditions match their mass orderings", "statement": "Whenever a hierarchy is declared suitable the masses satisfy the ordering its name stands for (e.g. h3: Mst2 < Mgl; h5*: Mst2 < Msq and the gluino closer to stop 1; h6*: gluino closer to stop 2; h9*: both stops closer to each other than the light gluino is to stop 1).", "quantifier": "all mass quadruples", "why_tests_cant": "continuous domain", "anchors": ["source/himalaya/HierarchyCalculator.cpp: isHierarchySuitable"]}
{"id": "C16", "title": "Mother-hierarchy map is total, consistent and rejects others", "statement": "Each of the 14 hierarchies maps to one of h3,h4,h5,h6,h6b,h9, each of these maps to itself, the map is idempotent, and every other int raises an exception (with the text 'No suitable hierarchy found!' for -1).", "quantifier": "all ints", "why_tests_cant": "int domain", "anchors": ["source/himalaya/HierarchyCalculator.cpp: getMotherHierarchy"]}
{"id": "C17", "title": "Calculations leave the calculator unchanged, also on exceptions", "statement": "compareHierarchies, getExpansionUncertainty and calculateDMh3L restore all expansion-depth settings on every exit, normal or by an exception thrown at any point; hence calling calculateDMh3L again (any number of times, with any sequence of alpha_t/alpha_b choices) gives the same results as on a fresh calculator.", "quantifier": "all call sequences, all points at which an exception can be thrown", "why_tests_cant": "requires every crash point and history", "anchors": ["source/himalaya/HierarchyCalculator.cpp: calculateDMh3L", "source/himalaya/misc/RAII.hpp"]}
{"id": "C18", "title": "Loop corrections to the mass matrix are symmetric", "statement": "For every loop order 0..3 the matrix returned by getDMh, and the two scheme-shift matrices, are symmetric.", "quantifier": "all parameter points, both alpha_t and alpha_b mode, all hierarchies, all 2-loop routine outputs", "why_tests_cant": "all parameter points", "anchors": ["source/himalaya/HierarchyCalculator.cpp: calculateDMh3L, calculateHierarchy, getMt41L, shiftH3mToDRbarPrime", "source/himalaya/mh2l/DSZHiggs.cpp"]}
{"id": "C19", "title": "Results of the hierarchy search do not leak into the reported corrections", "statement": "The values reported by calculateDMh3L for getDMh(3), getDLambdaH3m/EFT/NonLog, getMDRMasses and the scheme shifts are functions of the parameters and the selected hierarchy only; they do not depend on the hierarchies tried and discarded during the selection.", "quantifier": "all parameter points and all intermediate object states", "why_tests_cant": "intermediate states are not observable by tests", "anchors": ["source/himalaya/HierarchyCalculator.cpp: compareHierarchies, calcDeltaLambda3L, calculateHierarchy"]}
{"id": "C20", "title": "The expansion uncertainty is non-negative and vanishes when the truncated terms vanish", "statement": "getExpansionUncertainty is the square root of the sum of squared mass differences over the expansion variables of the mother hierarchy; it is >= 0, is 0 iff lowering any of these expansion orders does not change the mass, does not modify the HierarchyObject passed in, and throws for a HierarchyObject whose hierarchy is not 0..13.", "quantifier": "all calculators, objects and matrices", "why_tests_cant": "all inputs", "anchors": ["source/himalaya/HierarchyCalculator.cpp: getExpansionUncertainty"]}
{"id": "C21", "title": "Loop-order flags select additively", "statement": "calculateHierarchy with several loop-order flags set returns the sum of the results with one flag each; with none set it returns the zero matrix.", "quantifier": "all flag combinations and parameter points", "why_tests_cant": "all points", "anchors": ["source/himalaya/HierarchyCalculator.cpp: calculateHierarchy"]}
{"id": "C22", "title": "No MDR shift if the MDR flag is off", "statement": "With the MDR flag 0 the stop masses used equal the input stop masses (for all hierarchies) and the difference between MDR and DR corrections is zero.", "quantifier": "all positive masses, all hierarchies", "why_tests_cant": "all points", "anchors": ["source/himalaya/HierarchyCalculator.cpp: shiftMst1ToMDR, shiftMst2ToMDR, calcDRbarToMDRbarShift"]}
{"id": "C23", "title": "alpha_b mode reports no quartic coupling correction at three loops", "statement": "In alpha_b mode calculateDMh3L returns 0 for getDLambda(3), getDLambdaH3m, getDLambdaEFT, getDLambdaNonLog, the three-loop MS-bar shift and the three-loop lambda uncertainty.", "quantifier": "all parameter points", "why_tests_cant": "all points", "anchors": ["source/himalaya/HierarchyCalculator.cpp: calculateDMh3L"]}
{"id": "C24", "title": "Loop functions near equal masses agree with the exact function", "statement": "In the window around x = 1 where F1..F7 and f1..f4 switch to a series expansion, the value returned differs from the exact closed form by at most C*|x-1|^k with the k and C stated; the switch therefore introduces no jump larger than that.", "quantifier": "all x in the switching window (a continuum)", "why_tests_cant": "a test samples a few points of a continuum", "anchors": ["source/himalaya/mh2_eft/ThresholdLoopFunctions.cpp: F1..F7, f1..f4"]}
{"id": "C25", "title": "Loop functions are defined for every mass ratio", "statement": "F1..F7, f1..f4 return a real number (no division by zero, no logarithm of a non-positive number) for every positive mass ratio; the two-argument functions f5..f8, F8, F9 do so for all positive ratio pairs.", "quantifier": "all positive reals (pairs)", "why_tests_cant": "singular points are isolated; sampling misses them", "anchors": ["source/himalaya/mh2_eft/ThresholdLoopFunctions.cpp"]}
{"id": "C26", "title": "Two-argument loop functions are symmetric in equal-role arguments", "statement": "F8(x1,x2) = F8(x2,x1) and F9(x1,x2) = F9(x2,x1), f5..f8 are symmetric in their two ratio arguments, and phi_xyz is invariant under permutation of its arguments (up to the scaling by the largest).", "quantifier": "all positive arguments, incl. the boundaries of the special-case windows", "why_tests_cant": "two-dimensional continuum with many branch boundaries", "anchors": ["source/himalaya/mh2_eft/ThresholdLoopFunctions.cpp: F8, F9, f5..f8, phi_xyz"]}
{"id": "C27", "title": "The real dilogarithm is accurate on the whole real axis", "statement": "For every real x the value returned by himalaya::dilog (in real arithmetic) exists and differs from the real part of Li2(x) by at most 2e-16; for -1 < x < 1/2 the error is at most 1e-16 times |x|.", "quantifier": "all reals x", "why_tests_cant": "continuum; identity must hold on each branch", "anchors": ["source/himalaya/misc/Li2.cpp: dilog"]}
{"id": "C28", "title": "The library's Clausen function is the Clausen function", "statement": "Read with exact real arithmetic, clausen_2(x) is defined for every x with |x| <= 2 pi and differs from Cl2(x) = -int_0^x ln|2 sin(t/2)| dt by at most 3e-17; it is exactly odd, and exactly periodic (for x >= 0) with the period of its own literal, 2*3.14159265358979324.", "quantifier": "all real x (accuracy: |x| <= 2 pi; beyond, by the period)", "why_tests_cant": "continuum; the rational approximations must be good between any two sampled points", "anchors": ["source/himalaya/misc/Li2.cpp: clausen_2"]}
{"id": "C29", "title": "Passarino-Veltman functions are symmetric, scale correctly and join continuously", "statement": "b0 and d1_b0 are symmetric in the masses, a0, b0 depend on the scale through -log(scale) only, b0(0,m,m) agrees with the limit of b0(0,m1,m2), and the equal-mass and massless special cases equal the limits of the general formula.", "quantifier": "all masses, momenta and scales", "why_tests_cant": "continuum", "anchors": ["source/himalaya/mh2_fo/PV.cpp: a0, b0xx, b0, d1_b0"]}
{"id": "C30", "title": "Degenerate-mass formulas are the limits of the general ones", "statement": "For the strong threshold corrections (g3, yt to two loops, lambda to three loops), the vev corrections and the DR'-bar/MS-bar conversion of the three-loop term, in every scheme and with or without logarithms: when a mass (or a pair of equal masses) approaches another one, the result of the more general formula converges to the result of the formula for equal masses (with the dilogarithm in place of its numerical approximation, cf. C27). The H3m/DR'-bar conversion is continuous where the stop masses coincide.", "quantifier": "all masses, parameters, schemes; masses coincide one after the other", "why_tests_cant": "a limit statement", "anchors": ["source/himalaya/mh2_eft/ThresholdCalculator.cpp: getDeltaLambdaAlphat, getDeltaLambdaAlphatAlphas, getDeltaLambdaAlphatAlphas2, getDeltaYtAlphas, getDeltaYtAlphas2, getDRbarPrimeToMSbarXtTerms, getDeltaVevYt2, getDeltaVevYb2, getDeltaVevYtau2", "source/himalaya/HierarchyCalculator.cpp: shiftH3mToDRbarPrime, shiftH3mToDRbarPrimeMh2"]}
{"id": "C31", "title": "Renormalisation-scale dependence of threshold corrections", "statement": "The one-loop corrections to g3, yt (O(alpha_s)) and lambda (O(alpha_t)) change with the scale only through a fixed coefficient times log(mu^2) (e.g. 12 for lambda, -4/3*... for yt), in every mass limit; with the log switch off they do not depend on the scale at all.", "quantifier": "all masses, mass limits and scales", "why_tests_cant": "continuum", "anchors": ["source/himalaya/mh2_eft/ThresholdCalculator.cpp: getDeltaG3Alphas, getDeltaYtAlphas, getDeltaLambdaAlphat"]}
{"id": "C32", "title": "Scheme conversion of threshold corrections is consistent", "statement": "getThresholdCorrection for a coupling order with scheme-dependent value differs between schemes exactly by the conversion terms documented; for scheme-independent coupling orders the scheme argument has no effect; an unknown coupling order gives 0 or an exception, never another order's value.", "quantifier": "all coupling orders, schemes, parameter points", "why_tests_cant": "all points", "anchors": ["source/himalaya/mh2_eft/ThresholdCalculator.cpp: getThresholdCorrection"]}
{"id": "C33", "title": "ThresholdCalculator picks a mass limit consistent with the masses", "statement": "The automatically chosen mass limit only declares masses equal that agree within the tolerance, is the most degenerate applicable one, is only used if the general formula is numerically unstable, and a user-supplied limit is used unchanged.", "quantifier": "all masses", "why_tests_cant": "continuum with several thresholds", "anchors": ["source/himalaya/mh2_eft/ThresholdCalculator.cpp: ThresholdCalculator, isGeneralStable"]}
{"id": "C34", "title": "Only the enabled EFT coupling orders contribute", "statement": "After construction an Mh2EFTCalculator includes exactly the coupling orders documented for the non-vanishing couplings; a disabled coupling order contributes exactly 0 even where its expression is NaN or infinite, and corrections are additive over coupling orders.", "quantifier": "all parameter points, all sequences of setCorrectionFlag calls", "why_tests_cant": "all histories and points", "anchors": ["source/himalaya/mh2_eft/Mh2EFTCalculator.cpp"]}
{"id": "C35", "title": "Invalid correction flags are rejected", "statement": "setCorrectionFlag (EFT) and set_correction (fixed order) with a flag other than 0 or 1 leave the stored flags unchanged.", "quantifier": "all ints", "why_tests_cant": "int domain", "anchors": ["source/himalaya/mh2_eft/Mh2EFTCalculator.cpp: setCorrectionFlag", "source/himalaya/mh2_fo/MSSM_mass_eigenstates.cpp: set_correction"]}
{"id": "C36", "title": "Tree-level EFT Higgs mass bound", "statement": "getDeltaMh2EFT0Loop equals (MZ cos 2beta)^2, lies in [0, MZ^2], is invariant under exchanging vu and vd, and vanishes iff vu = vd (for MZ > 0).", "quantifier": "all vu, vd > 0 and MZ", "why_tests_cant": "continuum", "anchors": ["source/himalaya/mh2_eft/Mh2EFTCalculator.cpp: getDeltaMh2EFT0Loop"]}
{"id": "C37", "title": "Perturbative diagonalisation is the Taylor expansion of the exact eigenvalues", "statement": "For a symmetric 2x2 tree-level matrix with distinct eigenvalues and symmetric corrections m1, m2, m3 the returned shifts are the coefficients of t, t^2, t^3 in the expansion of the exact ordered eigenvalues of m0 + t m1 + t^2 m2 + t^3 m3; at every order the two shifts sum to the trace of the correction.", "quantifier": "all real symmetric matrices with distinct eigenvalues", "why_tests_cant": "continuum; identity of power series", "anchors": ["source/himalaya/mh2_fo/Linalg.cpp: fs_diagonalize_hermitian_perturbatively"]}
{"id": "C38", "title": "Tree-level Higgs spectrum obeys the MSSM sum rules", "statement": "The CP-odd mass matrix has eigenvalues MZ^2 (Goldstone, Feynman gauge) and MA^2, the charged one MW^2 and MA^2 + MW^2, the CP-even one has trace MA^2 + MZ^2 and determinant MA^2 MZ^2 cos^2(2beta), and the light CP-even mass squared is between 0 and min(MA^2, MZ^2) cos^2 2beta.", "quantifier": "all g1, g2, vu, vd > 0, MA", "why_tests_cant": "continuum", "anchors": ["source/himalaya/mh2_fo/MSSM_spectrum.cpp: get_mass_matrix_hh, get_mass_matrix_Ah, get_mass_matrix_Hpm"]}
{"id": "C39", "title": "Sfermion mass matrices are symmetric and obey the D-term sum rules", "statement": "Every sfermion mass matrix is symmetric; the traces of up- and down-type matrices of a generation differ from the soft masses only by the D- and F-terms (sum over a generation's D-terms vanishes); neutralino matrix is symmetric.", "quantifier": "all parameter points", "why_tests_cant": "continuum", "anchors": ["source/himalaya/mh2_fo/MSSM_spectrum.cpp"]}
{"id": "C40", "title": "Momentum iteration terminates", "statement": "delta_mh2_2loop_mom_it_num performs at most max_iterations self-energy evaluations for any input, and if it stops earlier the relative change of the mass in the last step was below the precision goal.", "quantifier": "all inputs, precision goals (incl. NaN) and iteration limits (incl. <= 0)", "why_tests_cant": "termination on all inputs", "anchors": ["source/himalaya/mh2_fo/MSSM_mass_eigenstates.cpp: delta_mh2_2loop_mom_it_num"]}
{"id": "C41", "title": "Fixed-order corrections: only enabled orders contribute", "statement": "delta_mh2_2loop is the sum of exactly the enabled two-loop orders, each evaluated once; disabled ones are not evaluated.", "quantifier": "all flag settings", "why_tests_cant": "all flag combos and points", "anchors": ["source/himalaya/mh2_fo/MSSM_mass_eigenstates.cpp: delta_mh2_2loop"]}
{"id": "C42", "title": "Heavy-Higgs rotation of the CP-odd shift", "statement": "The matrix added for include_heavy_higgs is symmetric, has trace equal to the CP-odd shift, zero determinant and annihilates the vector (cos beta, sin beta).", "quantifier": "all shifts and tan(beta)", "why_tests_cant": "continuum", "anchors": ["source/himalaya/mh2l/DSZHiggs.cpp: rotate_by"]}
{"id": "C43", "title": "Non-thread-safe Fortran routines never overlap", "statement": "In every interleaving of any number of threads calling the 2-loop wrappers, at most one thread is inside a Fortran routine that uses COMMON storage at any time, and the lock is released on every return, so no call deadlocks.", "quantifier": "all schedules of any number of threads and calls", "why_tests_cant": "needs all interleavings", "anchors": ["source/himalaya/mh2l/DSZHiggs.cpp: mtx, delta_mh2_2loop_at_at, delta_ma2_2loop_at_at", "source/himalaya/mh2l/DSZHiggs.f: common/listderiv/"]}
{"id": "C44", "title": "Mathematica parameter list is decoded without loss", "statement": "make_data accepts exactly lists of 127 numbers, reads each entry exactly once, and puts entry i into the documented field; encoding any parameter record and decoding it gives the same record (mass fields <= 0 meaning 'not given').", "quantifier": "all lists of all lengths", "why_tests_cant": "all list lengths and values", "anchors": ["source/himalaya/LibraryLink/Himalaya_LibraryLink.cpp: make_data"]}
{"id": "C45", "title": "LibraryLink always returns exactly one complete expression", "statement": "For every input list, every set of log messages and every outcome (success, exception at any point) the sequence of items put on the link forms exactly one complete Mathematica expression.", "quantifier": "all inputs, message lists and failure points", "why_tests_cant": "all crash points", "anchors": ["source/himalaya/LibraryLink/Himalaya_LibraryLink.cpp: HimalayaCalculateDMh3L, put_result, put_message, Redirect_output"]}
{"id": "C46", "title": "Computed sfermion masses and mixing reproduce the mass matrix", "statement": "When stop, sbottom or stau masses are not given, the masses, mixing angle and sin(2 theta) that validate computes satisfy R(theta) diag(m^2) R(theta)^T = M for the 2x2 mass matrix M built from the running parameters, and s2f = sin(2 theta).", "quantifier": "all real symmetric 2x2 mass matrices with non-negative eigenvalues, every valid eigenvector sign choice", "why_tests_cant": "continuum of matrices; sign conventions of the eigensolver", "anchors": ["source/himalaya/Himalaya_interface.cpp: calculate_MSf_s2f"]}
{"id": "C47", "title": "Mathematical constants are accurate", "statement": "Every named constant of Constants.hpp (Pi, zeta values, square roots, log 2, loop factors 1/(4 pi)^(2n), and the three-loop master-integral constants B4, D3, DN, OepS2, S2, T1ep) is, as the double the compiled program uses, within a relative error of 1.3e-16 of the exact real number its doc comment defines; it is the double nearest to that number, and its printed digits are the digits of that number.", "quantifier": "all named constants (exact real comparison, not a floating-point one)", "why_tests_cant": "a test compares floating-point values with the same literals or with libm, not with the exact numbers", "anchors": ["source/himalaya/misc/Constants.hpp"]}
{"id": "C48", "title": "The two-loop DR'-MSbar shift of lambda is the derivative of the one-loop term", "statement": "The reported two-loop DR'-to-MSbar shift of the quartic coupling equals -4 times the reported one-loop correction times the one-loop y_t conversion factor g3^2/(4 pi)^2 * YT_AS.", "quantifier": "all parameter points", "why_tests_cant": "continuum; no reference value exists in the tests", "anchors": ["source/himalaya/HierarchyCalculator.cpp: calculateDMh3L"]}
{"id": "C49", "title": "The finished result object is self-consistent", "statement": "After calculateDMh3L the three-loop entries of the mass, fixed-order and fixed-order-alpha_t maps coincide, DMh2 is the perturbative diagonalisation of the reported matrices, the tree-level matrix is the MSSM one, the 0- and 1-loop MSbar shifts and the 1-loop expansion uncertainty are 0, and DLambda(3) equals DLambdaEFT.", "quantifier": "all parameter points, both modes, all outputs of the called routines", "why_tests_cant": "all inputs", "anchors": ["source/himalaya/HierarchyCalculator.cpp: calculateDMh3L"]}
{"id": "C50", "title": "Threshold corrections obey the renormalisation group equations", "statement": "The explicit scale dependence of the threshold corrections is the one demanded by the renormalisation group: the sum of all one-loop pieces of the quartic coupling runs like the SM coupling minus the tree-level MSSM expression, the Yukawa and gauge pieces run with the difference of the SM and MSSM beta functions, and the two-loop pieces at O(alpha_t alpha_s) and O(alpha_s^2) change with the scale as their one-loop counterparts, the running soft parameters and the two-loop beta functions dictate.", "quantifier": "all masses, mixings, couplings and scales", "why_tests_cant": "continuum; involves derivatives", "anchors": ["source/himalaya/mh2_eft/ThresholdCalculator.cpp"]}
{"id": "C51", "title": "The EFT Higgs mass does not depend on the renormalisation scale", "statement": "The O(alpha_t) EFT correction returned by getDeltaMh2EFT1Loop is the same number at every renormalisation scale, and the explicit scale dependence of the O(alpha_t alpha_s) correction of getDeltaMh2EFT2Loop cancels the change of the O(alpha_t) correction when the top mass and the soft parameters run with their one-loop SUSY-QCD beta functions.", "quantifier": "all parameter points with distinct stop and gluino masses, all scales", "why_tests_cant": "continuum; involves derivatives", "anchors": ["source/himalaya/mh2_eft/Mh2EFTCalculator.cpp: getDeltaMh2EFT1Loop, getDeltaMh2EFT2Loop"]}
{"id": "C52", "title": "The two sfermion mass matrices in the library agree", "statement": "The stop, sbottom and stau mass matrices that Parameters::validate builds from MW, MZ and the running fermion masses equal the ones the fixed-order spectrum builds from the gauge and Yukawa couplings, whenever MW, MZ and the fermion masses are the tree-level expressions of those couplings.", "quantifier": "all parameter points", "why_tests_cant": "continuum; two independent implementations", "anchors": ["source/himalaya/Himalaya_interface.cpp: calculate_MSt_s2t", "source/himalaya/mh2_fo/MSSM_spectrum.cpp: get_mass_matrix_St, get_mass_matrix_Sb, get_mass_matrix_Stau"]}
{"id": "C53", "title": "Two-loop corrections change correctly when the up-type Higgs doublet is reflected", "statement": "Replacing mu by -mu and tan(beta) by -tan(beta) (the field redefinition H_u -> -H_u), with all masses and mixing angles unchanged, leaves the diagonal elements of every two-loop correction to the CP-even Higgs mass matrix in the (H_d, H_u) basis unchanged and reverses the sign of the off-diagonal one.", "quantifier": "all parameter points, with and without the CP-odd mass shift", "why_tests_cant": "continuum; no test evaluates reflected points", "anchors": ["source/himalaya/mh2l/DSZHiggs.cpp: delta_mh2_2loop_at_as, delta_mh2_2loop_ab_as, delta_mh2_2loop_atau_atau, delta_mh2_2loop_ab_atau", "source/himalaya/mh2l/DSZHiggs.f: DSZHiggs, DSZodd, tausqhiggs, tausqodd, taubot, taubotodd"]}
{"id": "C54", "title": "The O(at^2 + at ab + ab^2) correction is evaluated at the parameters it is given", "statement": "delta_mh2_2loop_at_at evaluates the two-loop formulas at the stop and sbottom masses, sines and cosines passed by the caller; masses or sines that lie on a pole of the formulas are first moved away from it, by at most a relative (for sines: absolute) 2e-5, such that afterwards no pole is left.", "quantifier": "all masses and all mixing angles", "why_tests_cant": "continuum; the special cases are measure-zero sets", "anchors": ["source/himalaya/mh2l/DSZHiggs.cpp: delta_mh2_2loop_at_at", "source/himalaya/mh2l/DSZHiggs.f: DDSHiggs, DDSodd"]}
{"id": "C55", "title": "Two-loop corrections do not depend on how the two sfermions are numbered", "statement": "Exchanging the two stop (sbottom, stau) masses together with a rotation of the mixing angle by pi/2 leaves every two-loop correction unchanged.", "quantifier": "all masses, mixing angles and couplings", "why_tests_cant": "continuum", "anchors": ["source/himalaya/mh2l/DSZHiggs.cpp", "source/himalaya/mh2l/DSZHiggs.f"]}
{"id": "C56", "title": "The fixed-order O(at as) corrections obey the renormalisation group", "statement": "The explicit scale dependence of the two-loop O(alpha_t alpha_s) correction to every element of the CP-even Higgs mass matrix cancels the change of the one-loop O(alpha_t) correction when the top mass, the stop soft masses and A_t run with their one-loop SUSY-QCD beta functions; the CP-odd mass correction changes with the scale exactly as the running Higgs mixing parameter does at one and two loops.", "quantifier": "all stop masses and mixings, gluino masses, scales and couplings with distinct stop masses", "why_tests_cant": "continuum; involves derivatives", "anchors": ["source/himalaya/mh2l/DSZHiggs.cpp: delta_mh2_2loop_at_as, delta_ma2_2loop_at_as", "source/himalaya/mh2l/DSZHiggs.f: DSZHiggs, DSZodd, strfuncs, strsfuncs, strresfuncs, strfuncsodd"]}
{"id": "C57", "title": "The one-loop reference of the hierarchy selection is the O(at) correction", "statement": "The one-loop matrix against which calculateDMh3L expands and which it reports is the O(alpha_t) correction to the CP-even Higgs mass matrix, for every hierarchy.", "quantifier": "all stop masses, mixings, mu and tan(beta), all hierarchies", "why_tests_cant": "continuum", "anchors": ["source/himalaya/HierarchyCalculator.cpp: getMt41L, shiftMst1ToMDR, shiftMst2ToMDR"]}
{"id": "C58", "title": "The fixed-order Higgs mass is returned order by order", "statement": "calculate_Mh2 returns three numbers. With numerical diagonalisation their partial sums are the smallest eigenvalues of the tree-level, one-loop and one-plus-two-loop corrected mass matrices, the one-loop self energy being taken at the tree-level light Higgs mass. With perturbative diagonalisation they are the coefficients of the loop-counting expansion of the light eigenvalue: tree level and one loop with gauge couplings, two loops in the gaugeless limit. With the perturbative momentum iteration the two-loop matrix contains the momentum derivative of the gaugeless one-loop matrix times the gaugeless one-loop shift of the light Higgs mass.", "quantifier": "all spectra, correction flags and settings", "why_tests_cant": "continuum; the expansion coefficient is a limit statement", "anchors": ["source/himalaya/mh2_fo/MSSM_mass_eigenstates.cpp: calculate_Mh2, delta_mh2_2loop_mom_it_pert"]}
{"id": "C59", "title": "All Higgs mass matrices are symmetric", "statement": "Every CP-even Higgs mass matrix computed by the fixed-order calculation (tree level, gaugeless, one loop at any momentum, its derivative, and the two-loop sum for any setting of the flags) is symmetric, in floating point as well as in exact arithmetic.", "quantifier": "all inputs, every arithmetic (including IEEE double), every result of the external routines", "why_tests_cant": "must hold bit-wise for all inputs", "anchors": ["source/himalaya/mh2_fo/MSSM_mass_eigenstates.cpp"]}
{"id": "C60", "title": "A new fixed-order calculation includes exactly the documented corrections", "statement": "A freshly constructed calculation enables every correction except those involving a massless fermion (|m| < 1e-10); in the top-only mode additionally all bottom and tau corrections are disabled and the ONLY_AT_AS flag is set, otherwise it is not. All flags are 0 or 1.", "quantifier": "all parameter points, both modes, all coupling orders", "why_tests_cant": "combination of three mass conditions and the mode over all inputs", "anchors": ["source/himalaya/mh2_fo/MSSM_mass_eigenstates.cpp: MSSM_mass_eigenstates constructor"]}
{"id": "C61", "title": "The one-loop matching of the quartic coupling follows from the effective potential", "statement": "The one-loop threshold corrections to the quartic Higgs coupling from sfermions and the heavy Higgs doublet, added with their couplings, equal the fourth-order field coefficient (second derivative with respect to the squared field) of the one-loop Coleman-Weinberg potential of these particles, with full D-terms and left-right mixing, plus the effect of the Higgs field renormalisation on the tree-level coupling, of the redefinition of the gauge couplings, and of the change from DRbar to MSbar.", "quantifier": "all sfermion masses, mixings, scales, tan(beta) and couplings, with mass ratios outside the 1% windows where the loop functions are expanded", "why_tests_cant": "continuum; compares closed formulas with a physical definition containing derivatives and integrals", "anchors": ["source/himalaya/mh2_eft/ThresholdCalculator.cpp: getDeltaLambdaYt4 ... getDeltaLambdaRegG24", "source/himalaya/misc: loop functions F1..F8"]}
{"id": "C62", "title": "Higgs field renormalisation enters vev and Yukawa thresholds universally", "statement": "The one-loop vev thresholds are one half of the Higgs field renormalisation caused by the trilinear Higgs-sfermion couplings, and every Yukawa threshold contains minus one half of it.", "quantifier": "all sfermion masses, mixings and couplings outside the 1% windows", "why_tests_cant": "continuum; relates several closed formulas to an integral", "anchors": ["source/himalaya/mh2_eft/ThresholdCalculator.cpp: getDeltaVevYt2, getDeltaVevYb2, getDeltaVevYtau2, getDeltaYtYt, getDeltaYtYb, getDeltaYtauYtau, getDeltaYtauYb, getDeltaYbYt, getDeltaYbYb"]}
{"id": "C63", "title": "The three-loop scheme shift contains exactly the requested powers of Xt", "statement": "The DR'-to-MSbar shift of the three-loop quartic coupling is a polynomial in Xt: the difference of the three-loop threshold correction between the two schemes with the powers of Xt above the requested order (3 or 4) removed, for every mass limit whose masses it is used for.", "quantifier": "all masses, all trilinear couplings, the six mass limits, both settings of both log switches, all requested orders", "why_tests_cant": "the removed terms are long independent formulas; tests compare a few points", "anchors": ["source/himalaya/mh2_eft/ThresholdCalculator.cpp: getDRbarPrimeToMSbarShift, getDRbarPrimeToMSbarXtTerms, getThresholdCorrection"]}
{"id": "C64", "title": "The strong threshold corrections are defined wherever their mass limit applies", "statement": "In each mass limit every strong threshold correction (and the three-loop scheme shift) is a finite number for all positive masses the limit can tell apart, in every scheme; and the limit that the constructor chooses is one whose formulas are defined at the given masses.", "quantifier": "all positive masses, the six mass limits, all schemes and switches", "why_tests_cant": "0/0 occurs on surfaces of measure zero that sampled tests miss", "anchors": ["source/himalaya/mh2_eft/ThresholdCalculator.cpp: ThresholdCalculator, getThresholdCorrection, getDeltaYtAlphas2, getDRbarPrimeToMSbarShift"]}
{"id": "C65", "title": "The hierarchy classes receive the quantities their formulas are written in", "statement": "For every hierarchy, calculateHierarchy hands the class the masses, mass differences, logarithms, mixing and couplings of the parameter point that its data members stand for, and all seven numbers it returns (three self energies, four Delta lambda coefficients) exist whenever the masses are positive and 0 < beta < pi/2. The returned mass matrix is 3/(2 pi^2 vu^2) times the self energies, and at three loops the stored Delta lambda is the polynomial in the logarithm with the four coefficients.", "quantifier": "all parameter points, hierarchies, loop orders, expansion depths, both renormalisation schemes", "why_tests_cant": "positional constructor arguments of the same type; division by zero on surfaces of measure zero", "anchors": ["source/himalaya/HierarchyCalculator.cpp: calculateHierarchy", "source/himalaya/hierarchies/H*.cpp: constructors, getS1, getS2, getS12"]}
{"id": "C66", "title": "Loop orders and the strong coupling", "statement": "Each self energy of each hierarchy is the sum of the one-, two- and three-loop parts selected by the flags, which are proportional to the zeroth, first and second power of alpha_s; the Delta lambda coefficients depend neither on flags nor on alpha_s.", "quantifier": "all points, all hierarchies, all flag values, all expansion depths", "why_tests_cant": "coefficients of thousands of terms", "anchors": ["source/himalaya/hierarchies/H*.cpp"]}
{"id": "C67", "title": "The hierarchy results do not depend on the unit of mass", "statement": "Expressing all dimensionful parameters in another unit multiplies the self energies by the fourth power of the conversion factor and leaves the Delta lambda coefficients unchanged.", "quantifier": "all points, all hierarchies, all conversion factors", "why_tests_cant": "every one of thousands of terms must have the same dimension", "anchors": ["source/himalaya/hierarchies/H*.cpp", "source/himalaya/HierarchyCalculator.cpp: calculateHierarchy"]}
{"id": "C68", "title": "Hierarchies of one family agree where their expansions overlap", "statement": "Two hierarchies that differ only in whether one mass is identified with another one and expanded in the difference give the same result where the masses coincide, and differ by the first omitted power of the difference away from there.", "quantifier": "all points and settings, all nine pairs of sibling hierarchies", "why_tests_cant": "limit statement uniform over a continuum of points", "anchors": ["source/himalaya/hierarchies/H*.cpp"]}
{"id": "C69", "title": "The three-loop Delta lambda is the light-Higgs projection of the three-loop mass matrix", "statement": "For every hierarchy, at Q = mt and without MDR shifts, the Delta lambda coefficients times powers of the logarithm add up to the three-loop self energies projected on the light Higgs direction.", "quantifier": "all masses, mixings, mu, tan(beta); all hierarchies", "why_tests_cant": "identity between independently coded formulas with thousands of terms", "anchors": ["source/himalaya/hierarchies/H*.cpp: getS1, getS2, getS12, calc_coef_at_as2_no_sm_logs_log0..3"]}
{"id": "C70", "title": "The light Higgs mass depends on mu and tan(beta) only through the mixing", "statement": "The projection of the self energies on the light Higgs direction, divided by sin^2(beta), does not depend on mu and tan(beta) at fixed squark masses and mixing.", "quantifier": "all points, all values of mu and beta, all hierarchies and loop orders", "why_tests_cant": "identity between three independently coded formulas", "anchors": ["source/himalaya/hierarchies/H*.cpp: getS1, getS2, getS12"]}
{"id": "C71", "title": "The expansion flags truncate the expansions they are named after", "statement": "Switching off the flag of an expansion variable changes the self energies by terms of at least the second order in that variable, so the expansion uncertainty measures the size of the highest orders in each expansion variable of the hierarchy.", "quantifier": "all points, all hierarchies and flags", "why_tests_cant": "uniform limit statement over all points", "anchors": ["source/himalaya/hierarchies/H*.cpp: constructors", "source/himalaya/HierarchyCalculator.cpp: getExpansionUncertainty", "source/himalaya/hierarchies/ExpansionFlags.hpp"]}
{"id": "C72", "title": "Threshold corrections do not depend on the unit of mass", "statement": "Expressing all masses, vacuum expectation values, trilinear couplings and the scale in another unit changes no threshold correction, no conversion shift and not the automatically chosen mass limit.", "quantifier": "all parameter points, all conversion factors, all couplings orders, schemes and settings", "why_tests_cant": "every term of every correction must be dimensionless; tests compare numbers in one unit", "anchors": ["source/himalaya/mh2_eft/ThresholdCalculator.cpp: getThresholdCorrection, getDRbarPrimeToMSbarShift, ThresholdCalculator", "source/himalaya/mh2_eft/ThresholdLoopFunctions.cpp: phi_xyz"]}
{"id": "C73", "title": "The bottom corrections are the top corrections with the roles of top and bottom exchanged", "statement": "Exchanging the two Higgs doublets and right-handed top and bottom superfields turns the one-loop strong correction of the top Yukawa coupling into that of the bottom Yukawa coupling, and the correction of order at^2 as into that of order ab^2 as, up to the product of one-loop terms that comes from expressing the result by the MSSM instead of the SM Yukawa coupling.", "quantifier": "all masses, mixings and scales, the five degeneracy cases", "why_tests_cant": "identity between two independently coded formulas with many terms and case distinctions", "anchors": ["source/himalaya/mh2_eft/ThresholdCalculator.cpp: getDeltaLambdaYb4G32, getDeltaLambdaAlphatAlphas, getDeltaYtAlphas, getDeltaYbAs"]}
{"id": "C74", "title": "Exchange of sbottoms and staus", "statement": "Exchanging the third-generation down squarks with the sleptons (masses and trilinear couplings) exchanges the corrections of order atau^2 ab and atau ab^2.", "quantifier": "all masses, mixings, scales and tan(beta)", "why_tests_cant": "identity between two independently coded formulas", "anchors": ["source/himalaya/mh2_eft/ThresholdCalculator.cpp: getDeltaLambdaYtau4Yb2, getDeltaLambdaYtau2Yb4"]}
{"id": "C75", "title": "The corrections of order ab^3 and atau^3 belong together", "statement": "If the sleptons have the masses and mixing of the sbottoms, the correction of order ab^3 is three times the one of order atau^3 plus the mixed one, up to products of one-loop terms.", "quantifier": "all non-degenerate masses, mixings, mu, MA, tan(beta)", "why_tests_cant": "identity between independently coded formulas with hundreds of terms", "anchors": ["source/himalaya/mh2_eft/ThresholdCalculator.cpp: getDeltaLambdaYb6, getDeltaLambdaYtau6, getDeltaLambdaYtau4Yb2"]}
{"id": "C76", "title": "The two mixed top-bottom corrections are mirror images of each other", "statement": "Exchanging top and bottom turns the correction of order at^2 ab into the one of order at ab^2 up to a constant and a product of one-loop terms.", "quantifier": "all non-degenerate masses, mixings, mu, MA, tan(beta)", "why_tests_cant": "identity between independently coded formulas with hundreds of terms", "anchors": ["source/himalaya/mh2_eft/ThresholdCalculator.cpp: getDeltaLambdaYt4Yb2, getDeltaLambdaYt2Yb4"]}
{"id": "C77", "title": "Expansions of the two-argument loop functions near their singular lines", "statement": "Where the code of F8, F9, f5, f6, f7, f8 replaces the closed form by an expansion because the two ratios are nearly equal, or one of them is near 1 or near 0, the error vanishes at least like the stated power of the distance from the line, uniformly on every bounded range of the other ratio and in both orders of the arguments.", "quantifier": "all ratios in the windows the code uses, every bound on the other ratio", "why_tests_cant": "uniform limit statement; a wrong high-order coefficient is invisible in tests with a tolerance", "anchors": ["source/himalaya/mh2_eft/ThresholdLoopFunctions.cpp: F8, F9, f5, f6, f7, f8 and their special-case branches"]}
{"id": "C78", "title": "F8 and F9 depend on the moduli of their arguments only", "statement": "F8(x1,x2) and F9(x1,x2) are unchanged if the sign of one or both arguments is changed, in every special case.", "quantifier": "all real arguments", "why_tests_cant": "the special cases test different combinations of arguments and moduli", "anchors": ["source/himalaya/mh2_eft/ThresholdLoopFunctions.cpp: F8, F9"]}
{"id": "C79", "title": "Expansions of the two-argument loop functions at the corners of their domain", "statement": "Where one ratio is near 0 and the other near 1, or both are near 0, the error of F8, F9, f5, f6, f7, f8 vanishes at least like a power of the distance from the corner.", "quantifier": "all ratios in the windows the code uses", "why_tests_cant": "uniform limit statement in two variables with logarithms", "anchors": ["source/himalaya/mh2_eft/ThresholdLoopFunctions.cpp: F8_1_x2, f5_1_r2, f6_0_1, f7_0_1, f8_0_1, f5_0_0, f6_0_0, f7_0_0, f8_0_0, F9_0_x2"]}
{"id": "C80", "title": "The two-loop function Phi is written in the right roots", "statement": "Where the discriminant is positive, the function Phi(x,y,z) is the combination of logarithms and dilogarithms of the two roots x, y = (1 - lambda +- (u - v))/2 of the ratios u < v of the masses; where the code replaces the roots by expansions in small ratios they are right up to the order at which the expansions end.", "quantifier": "all ratios u <= v < 1 with positive discriminant, u and v not within 10^-14 of each other or equal and small", "why_tests_cant": "uniform bound over a two-parameter domain; the switch between expansions decides where each is used", "anchors": ["source/himalaya/mh2_eft/ThresholdLoopFunctions.cpp: luv, l00, l0v, lv0, phi_pos, phi_xyz"]}
{"id": "C81", "title": "The two-loop function Phi for negative discriminant", "statement": "Where the discriminant is negative, the function Phi is 2/sqrt(-lambda^2) times the sum of the Clausen functions of the three doubled angles of the triangle with squared sides 1, u, v; the separate formulas for equal ratios and for a ratio equal to one give the same value.", "quantifier": "all positive ratios with negative discriminant that are equal to each other and to 1 or differ by more than 10^-14", "why_tests_cant": "equality of different closed forms through the duplication formula of the Clausen function, for a two-parameter family", "anchors": ["source/himalaya/mh2_eft/ThresholdLoopFunctions.cpp: phi_neg, phi_neg_1v, cl2acos", "source/himalaya/misc/Li2.cpp: clausen_2"]}
{"id": "C82", "title": "Phi is one function for both signs of the discriminant", "statement": "The dilogarithm form used for positive and the Clausen form used for negative discriminant satisfy the same linear differential equation in each ratio, lambda^2 dPhi/du + (u - v - 1) Phi = 2 ln u + (1-u-v)/u ln v, and the code evaluates these forms to an absolute accuracy of 10^-15/|lambda|.", "quantifier": "all positive ratios with non-zero discriminant (below one together, where it is positive); for the code ratios above 1/4000 that differ by more than 10^-14", "why_tests_cant": "relation between derivatives of two closed forms on a two-parameter domain", "anchors": ["source/himalaya/mh2_eft/ThresholdLoopFunctions.cpp: phi_uv, phi_pos, phi_neg, luv, lambda_2", "source/himalaya/misc/Li2.cpp: dilog, clausen_2"]}
