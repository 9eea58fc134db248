# Formal model of Himalaya: design and trusted base

Source: `/repo` (Himalaya, C++), read as text. Model and proofs: `rocq/theories/*.v`, Coq 8.16.1.

## 1. Architecture

One model, three readings. Every modelled C++ function is a Gallina function over the class
`Num T` (`Num.v`), i.e. over an abstract `double`. The class is instantiated at

| reading | carrier | used for |
|---|---|---|
| `NumR` | stdlib `R` | analytic and algebraic statements (limits, Taylor windows, symmetry, sum rules) |
| `NumP` | `option R`, `None` = "not a real number" (x/0, log of <=0, sqrt of <0) | definedness statements; no totalisation trick can make them true |
| `NumF lm` | IEEE binary64, stdlib `SpecFloat` (53, 1024), `lm` = C math library | NaN, infinity and control-flow statements, refutations by computation |

C++ exceptions are values of an error type (`Except.v`: `Ok a | Throw msg`); the RAII class
`Temporarily_set` is a bracket combinator that restores on both outcomes. Member functions become
functions taking and returning the object state. Undefined behaviour (out-of-range enum, array index)
is a `Throw` with a distinct text or an explicit third outcome.

External code (Eigen eigen/SVD solvers, P. Slavich's Fortran routines, the C math library, the
several-thousand-line generated hierarchy formulas) enters as function arguments ("oracles"): theorems
quantify over all of them, or over those satisfying a stated specification (e.g. "the columns returned
are orthonormal eigenvectors"). No axiom describes them.

Files: `<Module>.v` model only; `<Module>Spec.v` independent specifications; `<Module>Proofs.v` and others lemmas;
`Prop*.v` contain the property theorems (names `Cnn...`), the small definitions their statements need, and the `Example`s showing that
the hypotheses are satisfiable. `_refuted` theorems exhibit where the English property is false of the code (findings, section 4);
for those properties the strongest true statement is proved next to it, usually with the exact condition.

Generated model files: long formulas are translated mechanically from the C++/Fortran text by the scripts in `tools/`
(`cpp2coq.py`, `fun2coq.py`, `fort2coq.py` and the `gen_*.py` drivers); the generated `.v` files are committed, and the scripts are not needed for the build.
The scripts are not trusted beyond "the generated text is what it is": every generated definition carries the file and line range it was made from and can be compared with the source by eye.

## 2. Plan per property

| id | model | proof |
|---|---|---|
| C01-C05 | `HObj.v`: HierarchyObject as a record, every setter/getter, op language | refinement to a map from slots to values, induction over histories |
| C06-C11, C46 | `Params.v`: Parameters, validate, sort_ev, calculate_MSf_s2f, calculateMsq2; Eigen as oracle | case analysis over all branches; R reading for mixing-angle and mean-mass statements; binary64 for the idempotence refutation |
| C12-C17, C20 | `HierCalc.v`: compareHierarchies, isHierarchySuitable, getMotherHierarchy, getExpansionUncertainty, RAII | loop invariant over the hierarchy list; state-restoration lemma for every exit |
| C18, C19, C21-C23, C48, C49 | `HierCalc.v`, `HierFormulas.v`: calculateHierarchy, shift*, getMt41L, getMt42L, calcDeltaLambda3L, calculateDMh3L; per-hierarchy three-loop expansions as oracles | unfolding to a closed form of every reported field |
| C24-C26 | `LoopFun.v`: ThresholdLoopFunctions.cpp | Taylor bounds for ln(1+d) with explicit remainders (`Taylor*.v`), branch analysis, window-by-window polynomial identities |
| C27 | `Dilog.v` (Li2.cpp, real case); `DilogSpec.v`: Re Li2 as the function with derivative -ln|1-x|/x and value 0 at 0 | functional equations on each branch; kernel approximation bounded by interval polynomials checked by computation in the kernel |
| C28 | `Dilog.v`: clausen_2; spec `ClausenSpec.v` | the integral is split as x - x ln x - int ln(2 sin(t/2)/t); power series of both parts with remainders checked by a differential equation (`ClausenSeries*.v`), P/Q against the series on 40 sub-intervals (`ClausenKernel.v`), then one lemma per branch |
| C29 | `PV.v`, `PVSpec.v` (Feynman parameter integrals) | Coquelicot integrals, exact antiderivatives |
| C30 | `Thresh.v`, `ThreshTwo.v`, `HierFormulas.v`; statements in `LimitSpec.v`, `PathSpec.v` | 77 asymptotic expansions in the mass difference, computed by a verified normal-form checker (`AsymPoly/ODE/NF/NFok/Reif/Cases`: power series with rational-function coefficients, logarithms and dilogarithms reduced to a basis, certificates checked by `vm_compute`), lifted to the API in `PropLimit.v`, `PropLimitH.v` |
| C31-C33, C50 | `Thresh.v`, `ThreshTwo.v`, `Threshold.v`: all of ThresholdCalculator.cpp (one-, two- and three-loop formulas, constructor, dispatch, scheme shift); `ThreshViews.v` the same formulas as functions of the logarithms | derivative identities by `field`; re-expansion identities; RGEs of the soft masses as specification |
| C34-C36, C51 | `Mh2EFT.v`: Mh2EFTCalculator flags, orders and sums | invariants over flag histories; RG invariance from C50 |
| C37-C41, C58-C60 | `Linalg.v`, `Spectrum.v`, `FixedOrder.v`, `PV.v`: MSSM_spectrum, MSSM_mass_eigenstates, Linalg | algebra (`field`, `nra`), expansion of eigenvalues, induction on iterations |
| C42, C53-C56 | `DSZ.v` wrappers, `Fortran.v`: DSZHiggs.f routines | algebra; derivative identities; relabelling symmetry by reflection |
| C43 | `Lock.v`: interleaving semantics of the wrappers in DSZHiggs.cpp | invariant over all schedules |
| C44-C45 | `LibraryLink.v`: make_data, token stream | induction on the list; prefix-code well-formedness |
| C47 | `ConstSpec.v`: defining integrals and series of the constants | verified interval arithmetic over Q (`QInterval.v`), series remainders |
| C52 | `Params.v` and `Spectrum.v` | identity of the two mass matrices |
| C57 | `HierFormulas.v` getMt41L against `FixedOrder.v` | algebra with the mixing-angle relations |
| C61, C62 | `PotSpec.v`: Coleman-Weinberg potential and the wave-function integral as specification; `Thresh.v` one-loop formulas | fourth derivative of the potential at zero by explicit Taylor expansion of the eigenvalue sums |
| C63 | `XtCoef.v`, `XtIdent.v` (coefficients of Xt of every strong formula) | polynomial identities by `field`, Landen's identity of the implemented dilogarithm |
| C64 | `Defined.v`, `Agree.v`: reflective definedness checker for the partial reals | the side conditions of every division and logarithm are collected by `vm_compute` and discharged from the hypotheses |
| C65-C71 | `HierExpr.v` (syntax of the formulas), `HierH*.v` (transcription of the 14 classes by `tools/gen_hier.py`), `HierLib.v` (constructors, dispatch); `HierInp.v`: the quantities in physical terms | reflection: `HierPoly.v` computes a normal form (Laurent polynomial over the integers in masses, logarithms, flags, constants) that is proved equal to the value of the formula; weights, degrees, occurrences and identities are decided on the normal form by `vm_compute` and the decision procedures are proved sound |
| C72 | `ThreshDeep.v` (generated by `tools/gen_threshdeep.py`): the body of every threshold function as a syntax tree, with a lemma (by reflexivity) that the tree evaluates to the model function; `UnitSpec.v`: the change of unit. | `Grading.v`: a checker that every term of a tree has the same dimension, proved sound once; the checker runs on every tree. Refutations: `UnitFalse.v` finds integer combinations of a few points in which everything but Phi(1,1,1) cancels, checked by `FieldNF.v` (normal form of rational functions, proved sound), `UnitRefute.v` concludes. | proved where true; partial |
| C73 | `MirrorSpec.v`: the exchange of up- and down-type quantities. | `MirrorNF.v`: case selection in the trees of `ThreshDeep.v`, opaque loop functions as atoms; both sides are put in normal form as rational functions (`FieldNF.v`, `MirrorTab.v`), `MirrorProofs.v`. | partial: sign of Xb |
| C74 | `MirrorSpec.v`: exchange of sbottoms and staus. | as C73, `MirrorProofs2.v` (four degeneracy cases). | proved |
| C75 | the three-mass function as a parameter of the trees. | as C73, with dilogarithms reduced by Landen's relation and atoms for Phi, `MirrorTab2.v`, `MirrorProofs3.v`. | partial: the implemented Phi has another symmetry |
| C76 | as C75 | as C75 | partial, as C75 |
| C77 | `LoopFun.v` (special-case branches), closed forms of `LoopSpec.v`. | `WindowNF.v`: normal form of the difference with logarithms replaced by series plus remainder (`Taylor.v`), every term of the numerator has the required weight; soundness `wbound`. `WindowTab.v`, `WindowProofs*.v`. | proved |
| C78 | as C77 | case by case | proved |
| C79 | as C77 | as C77 | partial: false for F9, some sub-cases missing |
| C80 | luv, l00, l0v, lv0, phi_pos over R | the expansions are put into the quadratic equation of the roots; the residual is a polynomial with positive coefficients, bounded term by term | partial: refuted for u small and v near 1; negative discriminant not covered |
| C81 | phi_neg, phi_neg_1v, cl2acos over partial reals, clausen_2 as in C28 | the special formulas are reduced to the general one by trigonometry and the duplication formula of the Clausen function | proved |
| C82 | phi_uv, phi_pos, phi_neg over partial reals | differentiation of both closed forms (Coquelicot), with the roots' product relations and the law of sines; accuracy from C27 and C28 | proved |

## 3. Trusted base

* The kernel of Coq 8.16.1 (with its `vm_compute` virtual machine). No `native_compute`, no plugin, no flag that weakens checking.
* Axioms: no axiom is declared in this development. `ASSUMPTIONS.md` lists the output of `Print Assumptions` for every theorem named in
  `MANIFEST.json` (written by `tools/print_assumptions.py`). The only axioms are those of the standard library:
  `ClassicalDedekindReals.sig_forall_dec`, `ClassicalDedekindReals.sig_not_dec` (the construction of the reals),
  `FunctionalExtensionality.functional_extensionality_dep` and `Classical_Prop.classic` (used by Coquelicot and the reals library). 57 theorems depend on none of them.
* Libraries: Coq standard library and Coquelicot (derivatives and integrals).
* The correspondence between model and C++: read and translated by hand or by the scripts in `tools/`; not verified. Each definition cites the modelled lines.

Modelled: `HierarchyObject.cpp`, `Himalaya_interface.cpp` (all of Parameters), `HierarchyCalculator.cpp` (all control flow, the closed formulas in it),
`hierarchies/H*.cpp` (all 14 classes), `Powers.hpp`, `Constants.hpp`, `RAII.hpp`, `Numerics.hpp` (what is used), `Li2.cpp` (real dilogarithm, clausen_2), `ThresholdLoopFunctions.cpp` (all),
`ThresholdCalculator.cpp` (all), `Mh2EFTCalculator.cpp` (all), `PV.cpp` (real part, see below), `Linalg.*` (2x2 and the fs_* interface as contracts),
`MSSM_spectrum.cpp` (all mass matrices and mixings), `MSSM_mass_eigenstates.cpp` (all), `DSZHiggs.cpp` (all wrappers and the mutex),
`DSZHiggs.f` (dszhiggs, dszodd, ddshiggs/ddsodd up to makefuncs, tausqhiggs, tausqodd, taubot, taubotodd as far as `Fortran.v` says), `Himalaya_LibraryLink.cpp` and the sender in `.m`.

Not modelled, and how they enter:
* the expansion formulas in `hierarchies/H*.cpp` are modelled (`HierH*.v`), but in C12-C23, C48 they are function arguments: those theorems hold for any such functions; C65-C71 are about the actual ones;
* Eigen's solvers and SVD: function arguments with their documented contract where needed;
* complex dilogarithm, complex branch of the Fortran `myphi`, `makefuncs`/`makederiv`: function arguments (`FExt`);
* tadpole routines of `DSZHiggs.f` that the library does not call; complex arithmetic in `PV.cpp` where the imaginary part is dropped at the end (the real part is modelled);
* rounding: the analytic theorems are about real arithmetic with the literals of the source read as exact decimals. The binary64 reading is used for control flow, NaN and refutations. No theorem bounds accumulated rounding errors;
* logging, stream output, build system, the MathLink transport and `std::mutex` itself.

Simplifications are stated at the definitions. The main ones: exceptions as values; `int` is `Z` (no overflow); `std::pow(x, n)` for the `powN` templates is the product the template computes.

## 4. Findings (places where the code does not do what its interface suggests)

1. `h9q2` is declared suitable by comparing Mst1 with itself (C15).
2. A NaN error estimate of the lowest-numbered suitable hierarchy wins the comparison (C13).
3. `validate` shifts nearly degenerate sbottom masses again on every call (C10).
4. The last coefficient of the expansion of F6 around 1 has the wrong sign (C24).
5. F8(x,0), f7(-1,2) are undefined; F8 is asymmetric for tiny arguments; F9 near (1,0) has a wrong sign; f5, f7 near (0,0) are only accurate to second order (C24-C26).
6. `ThresholdCalculator` computes msq2 from the parameters before they are validated.
7. `setCorrectionFlag`/`set_correction` store any integer (C35).
8. In `Mh2EFTCalculator`, a vanishing bottom mass also disables YT6, and YTAU2YT4 does nothing (C34).
9. `b0` with one massless line has a wrong logarithm (C29).
10. `disable_non_as_terms` names G12YB2 twice and omits YTAU2YT4.
11. No hierarchy is suitable if Mgl = Mst2 and Mst2 - Mst1 <= Mst1/10 (C14).
12. In alpha_b mode the H3m -> DR' shifts use top quantities.
13. `calculate_MSf_s2f` relies on a sign choice of the eigensolver (C46).
14. `compareHierarchies` reads stale Delta lambda registers (no effect on results).
15. The two-loop DR'-MSbar lambda shift contains its prefactor twice (C48).
16. `omitLogs` is ignored in some branches of the Yb4G32, Yt6, Ytau6 corrections.
17. A user-supplied mass limit is overwritten for nearly equal masses (C33).
18. The YTAU_YB threshold uses top-sector Xt and mU3.
19. G1_G1/G2_G2 follow the opposite sign convention from the other corrections (C31).
20. The flag YB6 is unused at two loops; `mom_it_num` with max_iterations <= 0 returns minus the tree-level matrix (C41, C40).
21. Perturbative diagonalisation is 0/0 for degenerate tree-level eigenvalues (C37).
22. `delta_mh2_2loop_ab_atau`: S12 and S22 are swapped between wrapper and Fortran routine (C53).
23. `DDSHiggs` takes cosines as positive and its guards change the caller's variables (C54).
24. LibraryLink drops masses that come without a mixing angle (C44).
25. Literals: the loop factors are wrong in the last printed digits, B4 is not the nearest double (C47).
26. `clausen_2` uses two inconsistent literals for 2 pi.
27. The bottom Yukawa thresholds violate the universality of the Higgs field renormalisation (C62).
28. At mQ3 = msq (or mU3 = msq) with a gluino within 1% the constructor of `ThresholdCalculator` switches to a limit whose two-loop y_t formula is 0/0, although the general formula is defined (C64).
29. `calculateHierarchy` passes msq - m2 where h6b, h6b2qg2, h6bq22g, h6bq2g2 need msq^2 - m2^2 (HierarchyCalculator.cpp:689,707,725,743): results depend on the unit of mass (C67).
30. `xDmst12` of H3, H32q2g, H3q22g, H9, H9q2 is read from the flag of Dmglst1 (H3.cpp:68, H32q2g.cpp:65, H3q22g.cpp:67, H9.cpp:67, H9q2.cpp:69): the flag Dmst12 has no effect and the expansion uncertainty of these families misses that expansion (C71).
31. The Delta lambda coefficients of H5 and H5g1 differ in terms with mu where the classes should coincide (C68); the projection of H5/H5g1 on the light Higgs depends on mu at one loop (C70).
32. getS12 of H6bq22g and H6bq2g2 contains terms with Dmsqst2^4 that the other self energies lack (C69, C70); getS12 of H3, H32q2g, H3q22g contains Dmst12^3 without the truncation flag; the two-loop Dmglst2^2 (Mst1/Mst2)^6 terms of H6, H6g2 are inconsistent between getS1, getS2, getS12 (C70).
33. The Delta lambda coefficients of H4 multiply powers of log(Q^2/Msusy^2), but `calculateHierarchy` multiplies them by powers of log(Q^2/Mst1^2) (C69).
34. getS2 of H6b2qg2, H6bq2g2 multiplies unsuppressed terms by the flag of Mst. `shiftH3mToDRbarPrimeMh2` ignores omitLogs for one logarithm.
35. The function called Phi(x,y,z) of Davydychev and Tausk in the code (ThresholdLoopFunctions.cpp:1399-1404) returns Phi times z lambda^2/2: it is totally symmetric and has dimension mass^2 instead of 0. LAMBDA_YB6, YT6, YTAU6, YT2_YB4 and YT4_YB2 insert it where a dimensionless function is needed, so their value depends on whether masses are given in GeV or TeV (`C72_unit_refuted`).
36. getDeltaLambdaYb4G32 multiplies only log(MR^2) by omitLogs; the logarithms of the masses stay, so with omitLogs = 0 the result depends on the unit (`C72_yb4g32_refuted`).
37. getDeltaLambdaYb4G32 has the odd powers of m3 Xb with the opposite sign of the mirror image of getDeltaLambdaAlphatAlphas, although getDeltaYbAs and getDeltaYtAlphas have the same sign (`C73_sign_refuted`).
38. The formulas of LAMBDA_YB6, YTAU6, YT4_YB2 and YT2_YB4 are consistent with each other (C75, C76) if Phi(x,y,z)/z is symmetric, as in the literature; the implemented function is symmetric itself.
39. getDeltaYtYb and getDeltaYbYt contain + F9 and an additional term in F5 compared with the shift (`bottom_shift`) that C76 requires.
40. F9 with both ratios below 10^-4 keeps the logarithm of one ratio only: for F9(x/2, x) the error stays above 1/2 for all x <= 10^-4 (`C79_F9_both_near_zero_refuted`).
41. The function Phi (`luv`) uses the expansion in small u for every v < 1, but the expansion parameter is u/(1-v)^2: at u = 10^-4, v = 0.97 (discriminant positive) the root, hence its logarithm and dilogarithm, is wrong by 0.8 per cent (`C80_window_refuted`).

## 5. Testing the theorems

`seeded/LOG.jsonl` records edits of the model that imitate realistic bugs, the theorems that then fail to prove, and, for edits that no theorem noticed, the theorem that was added or tightened.
