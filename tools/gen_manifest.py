import json,re,glob
C=[]
def c(pid,status,theorems,note=""): C.append(dict(property=pid,status=status,theorems=theorems.split(),note=note))
c("C01","proved","C01_registers C01_frame")
c("C02","proved","C02_setter_rejects C02_getter_rejects C02_rejected_unchanged C02_uncertainty_rejects")
c("C03","proved","C03_permutation C03_min_max C03_sorted_binary64 C03_idempotent_binary64")
c("C04","proved","C04_uncertainty C04_low_orders")
c("C05","proved","C05_injective C05_out_of_range")
c("C06","proved","C06_validate_throws_iff")
c("C07","proved","C07_frame C07_filled C07_doublets","incomplete doublets are recomputed by the code; the claim covers complete ones")
c("C08","proved","C08_ordered")
c("C09","proved","C09_sort_preserves_matrix")
c("C10","partial","C10_idempotent_partial C10_idempotent_refuted","false as stated: nearly degenerate sbottom masses below 1 are shifted again by a second validate; exact condition proved")
c("C11","proved","C11_msq2")
c("C12","proved","C12_best_hierarchy C12_best_hierarchy_binary64 C12_none")
c("C13","partial","C13_nan_partial C13_nan_first_sticks C13_refuted","false as stated: a NaN error of the lowest-numbered suitable hierarchy always wins; true if that error is not NaN")
c("C14","partial","C14_coverage C14_coverage_binary64 C14_calculate C14_calculate_binary64 C14_refuted","false as stated: nothing is suitable if Mgl = Mst2 and Mst2 - Mst1 <= Mst1/10 (unless Mst1 = Mst2 < Msq); the exact condition is proved")
c("C15","partial","C15_meaning_partial C15_refuted","false for h9q2 (the code compares Mst1 - Mst1); proved for the other 13")
c("C16","proved","C16_mother")
c("C17","proved","C17_calculator_unchanged")
c("C18","proved","C18_symmetric")
c("C19","proved","C19_no_leak")
c("C20","proved","C20_uncertainty C20_throws")
c("C21","proved","C21_additive C21_zero")
c("C22","proved","C22_no_shift C22_no_strong_coupling")
c("C23","proved","C23_alphab C23_alphab_uncertainty")
c("C24","partial","C24_window C24_window_minus1 C24_window_F6_F7 C24_window_f C24_at_1 C24_window_F8_F9 C24_window_f5_f8 C24_window_f6_f7 C24_window_minus1_f5_f8 C24_window_minus1_f6_f7 C24_outside C24_outside_f C24_outside_two C24_F6_refuted C24_F9_refuted","proved for the windows around 1 and outside all windows; F6 is one order worse than the others, F9 near (1,0) is wrong at the percent level (both proved as findings); mixed windows of the two-argument functions not bounded")
c("C25","proved","C25_defined C25_defined_two C25_nonpositive_refuted","for positive ratios as stated; zero and negative ratios fail")
c("C26","partial","C26_symmetric_partial C26_symmetric_refuted C26_phi_symmetric","false as stated if both arguments are tiny; exact symmetry proved outside the tiny and nearly-equal windows; phi_xyz fully symmetric")
c("C27","proved","C27_dilog C27_reference","Partial-real semantics (so no branch takes a logarithm of a non-positive number or divides by zero); literals read as decimals; floating-point rounding is not part of this theorem. The reference is the continuous function with Li2(0)=0 and derivative -ln|1-x|/x, proved to exist and be unique; the rational approximation is verified on [0,1/2] by interval subdivision with the kernel's integer arithmetic.")
c("C28","proved","C28_clausen C28_odd C28_period C28_reference","Partial-real semantics, literals read as decimals, floating-point rounding not part of the theorem. The reference (odd, 2 pi periodic, continuous, derivative -ln(2 sin(x/2)) on (0,2 pi)) is proved to exist and be unique; both rational approximations are verified by power series with proved remainders and interval subdivision in the kernel's integer arithmetic. Beyond 2 pi only the exact periodicity with the literal's period (which is 3e-18 above 2 pi) is stated.")
c("C29","partial","C29_symmetric C29_abs C29_scale C29_scale_a0 C29_zero_momentum C29_equal_masses C29_derivative C29_derivative_symmetric C29_massless_reference C29_massless_refuted C29_massless_unbounded C29_massless_zero_momentum","symmetry, scale dependence, zero momentum, equal masses and the derivative proved against the Feynman integrals; false for one massless line (wrong logarithm in the code, proved); the general complex branch is not compared with its integral")
c("C30","proved","C30 C30_shift C30_code C30_vev_bottom C30_vev_tau C30_shift_mh2 C30_shift_matrix C30_nonvacuous correction_with_code shift_with_code","masses that coincide at the same time along an arbitrary curve are not covered; matrix: DR-bar masses (mdr flag 0); the corrections with a dilogarithm are stated for the dilogarithm itself (correction_with), which is the model for the dilogarithm of the code")
c("C31","proved","C31_strong_one_loop C31_gauge","also for every other one-loop order (lemmas coef_* in ThreshProofs.v)")
c("C32","proved","C32_scheme_independent C32_only_DRbarprime_converts C32_unknown_order C32_yt_conversion C32_lambda_conversion C32_defined","")
c("C33","partial","C33_choice_consistent C33_far_masses C33_switches C33_check_keeps_limit","a user-supplied limit is overwritten for nearly equal masses when the general formula is unstable, unless check is set (C33_switches)")
c("C50","partial","C50_lambda_one_loop C50_yukawa_one_loop C50_lambda_two_loop_partial C50_yt_two_loop_partial","one loop: all orders, all limits; two loops: strong corrections for distinct masses; the three-loop correction is not covered")
c("C34","proved","C34_one_loop_additive C34_two_loop_additive C34_loop_order C34_constructed C34_all_off C34_example","finding: a vanishing bottom mass also switches off the O(at^2) order YT6; the order YTAU2YT4 contributes to nothing")
c("C36","proved","C36_tree_level","")
c("C51","proved","C51_one_loop_scale C51_two_loop_rge C51_example","")
c("C35","partial","C35_eft_refuted C35_eft_partial C35_eft_any_nonzero_partial C35_fo_refuted C35_fo_partial","false of the code: any int is stored (only a log message is written); proved what is stored and that every int other than 0 acts as 1")
c("C37","proved","C37 C37_eigenvalues_exist C37_degenerate_undefined","outside the hypothesis (equal tree-level eigenvalues) the corrections are 0/0")
c("C38","proved","C38","")
c("C39","proved","C39 C39_sum_rules C39_inos","")
c("C40","proved","C40 C40_no_iterations C40_relative_change C40_momentum_eigenvalue","finding: with max_iterations <= 0 the result is minus the tree-level matrix minus the one-loop correction")
c("C41","proved","C41 C41_disabled_not_evaluated C41_relevant_flags","findings: the flag YB6 has no effect; YTAU2YB4 and YTAU4YB2 both switch on the same function")
c("C42","proved","C42_rotate C42_heavy_higgs","")
c("C43","proved","C43 C43_no_deadlock C43_terminates C43_results","unit of interleaving: one access to the mutex or to one COMMON variable; std::mutex and the absence of SAVE'd locals in the Fortran code are trusted")
c("C44","proved","C44 C44_length C44_sender_length C44_each_once C44_double C44_exact C44_masses_without_mixing_ignored","the sender is the argument list of Himalaya_LibraryLink.m; finding: masses given without mixing angle are silently dropped")
c("C45","proved","C45 C45_unique","failures of the MathLink calls themselves are not modelled")
c("C46","partial","C46_mixing_angle_partial C46_mixing_angle_refuted","true iff the eigensolver's sign choice makes the eigenvector matrix a proper rotation exactly when M00 < M11; false for another valid sign choice")
c("C47","partial","C47_relative_error C47_nearest_double C47_last_digit C47_constants_exist C47_loop_factor_digits_refuted C47_B4_not_nearest_refuted","The relative error bound is proved for all nineteen constants, nearest-double for all except B4 and last-digit accuracy for all except the loop factors. For those the claim is false of the code, which is proved too: the literal of B4 has too few digits and rounds to the neighbouring double; the loop-factor literals are off by 247, 318 and 83 units in the last printed digit.")
c("C48","partial","C48_two_loop_shift_refuted","false of the code: the value differs from the expected one by the factor (Mt yt)^2/((4 pi)^2 v^2), proved exactly")
c("C49","proved","C49_consistent")
c("C52","proved","C52","")
c("C53","partial","C53_up_reflection C53_ab_atau_elements C53_ab_atau_wrong_parity C53_ab_atau_refuted","Proved for the O(at as), O(ab as) and O(atau^2) corrections. False for O(ab atau): the routine taubot stores S11, S12, S22 while the wrapper passes the addresses of the elements (0,0), (1,1), (0,1), so two elements are exchanged (finding 22). The O(at^2) correction is not covered: makefuncs is a parameter of the model.")
c("C54","partial","C54_cosines_ignored C54_guards C54_right_angle_refuted C54_partial C54_negative_cosine_refuted","Proved for non-negative cosines away from the guards, together with what the guards guarantee. The full statement is false: the cosines are recomputed as +sqrt(1 - s^2), so a negative cosine is evaluated with the opposite sign of X_t, and theta = pi/2 is not guarded (finding 23).")
c("C55","proved","C55","at_as, ab_as, atau_atau and ab_atau, for masses outside the degenerate-stop switch of at_as")
c("C56","proved","C56 C56_odd C56_paths_exist","for sin(2 theta) <> 0 and outside the degenerate-stop switch; the FORTRAN literal for pi is used in the loop factors; A_t = 0 is included")
c("C57","proved","C57","stop sector, without conversion to the MDR scheme")
c("C58","proved","C58_numerical C58_perturbative C58_momentum","for every eigenvalue routine satisfying its contract; eigenvalues distinct where the expansion exists")
c("C59","proved","C59","for every arithmetic")
c("C60","proved","C60","over the reals (the comparison |m| < 1e-10)")
c("C61","proved","C61","chargino and neutralino pieces are not part of the statement; mass ratios outside the windows of the loop functions (inside, see C24)")
c("C62","partial","C62_vev C62_yukawa C62_bottom_refuted","Proved for the vev thresholds and for YT_YT and YTAU_YTAU. False for YB_YB, YT_YB, YTAU_YB and YB_YT: at every point their dependence on the mixing differs from the universal one")
c("C63","proved","C63 C63_truncated","Real-number model. For masses that satisfy exactly the relations of the limit; excluded: pairs of squared masses with ratio exactly 2, where the implementation of the dilogarithm switches branches.")
c("C64","partial","C64 C64_shift C64_sharp C64_chosen C64_refuted","Arithmetic with undefined values (x/0, ln of non-positive numbers). Proved: defined exactly at the regular points, equal to the total real model there. The last part of the statement is false: C64_chosen characterises exactly when the constructor picks a limit whose formulas are undefined, C64_refuted is a point where it does (finding 28) although the general formula is defined.")
c("C65","proved","C65_matrix C65_three_loops C65_defined C65_members C65_readings","Real-number model with undefined values. C65_members assigns to the member xDmst12 the depth of Dmglst1, as the code does (see C71).")
c("C66","proved","C66_orders C66_coefficients","Real-number model, all 14 classes.")
c("C67","partial","C67_self_energies C67_coefficients C67_other_classes C67_unit_dependence","Proved for ten classes, and for the other four if Dmsqst2 were a squared mass. calculateHierarchy passes msq - m2 for h6b, h6b2qg2, h6bq22g, h6bq2g2: C67_unit_dependence shows that their result depends on the unit.")
c("C68","partial","C68_coincide C68_coincide_read C68_coefficients C68_siblings C68_h5_disagrees","All nine pairs for the self energies, all but (H5, H5g1) for the Delta lambda coefficients, for which the claim is false. Where the classes contain rounded rational numbers the statement is about the exact rationals (C65_readings). Q2 pairs: for Dmsqst2 = msq^2 - m2^2 (see C67).")
c("C69","partial","C69_lambda_partial C69_lambda_upto_partial C69_lambda_h5_partial","Exact for eleven classes; h6bq22g and h6bq2g2 up to Dmsqst2^4 (spurious higher orders in getS12); H5 for mu = 0 up to the gluino-stop mass difference. At H4 the logarithm is that of Msusy while calculateHierarchy uses Mst1.")
c("C70","partial","C70_projection C70_projection_upto C70_h5_depends_on_mu","Exact for H3, H32q2g, H3q22g, H4, H9, H9q2; to the stated order for the H6 families; false for H5 and H5g1 already at one loop.")
c("C71","partial","C71_truncation C71_dmst12_ignored C71_uncertainty_without_dmst12","Differences and A_t; not the flags of heavy masses (Msq, Mst, Mgl, Msusy). False for Dmst12: its flag is never read (the classes read the flag of Dmglst1), so the expansion uncertainty of the h3 and h9 families does not contain it.")
c("C72","partial","C72_threshold_unit C72_shift_unit C72_limit_unit C72_unit_refuted C72_yb4g32_refuted",
  "Proved for every correction except LAMBDA_YB6, YT6, YTAU6, YT2_YB4, YT4_YB2 and YB4_G32, for the conversion shift and for the chosen limit, all points and factors. False for the first five (C72_unit_refuted: the code's three-mass function has dimension mass^2, finding 35) and for YB4_G32 with omitLogs = 0 (C72_yb4g32_refuted, finding 36). Missing: YB4_G32 with omitLogs = 1.")
c("C73","partial","C73_bottom_is_mirrored_top_partial C73_bottom_yukawa_is_mirrored_top C73_sign_refuted","omitLogs = 1. The Yukawa corrections are mirror images. The order ab^2 as is the mirror image only after changing the sign of Xb; as claimed, without that change, it is false (C73_sign_refuted, finding 37).")
c("C74","proved","C74_sbottom_stau_exchange","Both functions compare mass differences with 1% of mQ3, which the exchange turns into mL3; the theorem assumes the two comparisons agree.")
c("C75","partial","C75_sbottom_from_stau_partial C75_literature_phi C75_implemented","Proved with the three-mass function of the formulas replaced by any function with the permutation property of the literature; the implemented one does not have it (finding 35), so the claim is not established for the functions as they are.")
c("C76","partial","C76_mixed_mirror_partial C76_implemented","As C75.")
c("C77","proved","C77_equal_arguments C77_one_argument_near_one C77_one_argument_near_zero","Real-number model. The other ratio neither small (1/1000, 1/100) nor within 2-3 percent of 1 in modulus; corners: C24 and C79.")
c("C78","proved","C78_F8_F9_of_moduli","All real arguments.")
c("C79","partial","C79_zero_and_one_partial C79_both_near_zero_partial C79_F9_both_near_zero_refuted","False for F9: near (1,0) see C24_F9_refuted, near (0,0) see C79_F9_both_near_zero_refuted (finding 40). Missing: two small ratios within a factor 2 of each other, both below the thresholds at which constants are returned, f5 for a negative larger ratio, f6 with the larger ratio first.")
c("C80","partial","C80_both_ratios_small C80_one_ratio_small C80_equal_ratios C80_phi_of_roots C80_window_refuted","False as the code stands: the small-u expansion is used up to v = 1, see C80_window_refuted (finding 41). C80_phi_of_roots covers v <= 1/2 with roots right to 10^-7, C80_one_ratio_small all v with u <= (1-v)^2/16. Missing: negative discriminant (phi_neg), ratios within the comparison tolerance of each other but not equal.")
c("C81","proved","C81_phi_negative C81_all_equal","Partial-real semantics: defined and within 2e-16/sqrt(-lambda^2) (1e-15 at u = v = 1, where the code has a literal) of the sum over the angles; uses C28_clausen and the duplication formula, proved from the specification of the Clausen function.")
c("C82","proved","C82_equation C82_code C81_phi_negative","The dilogarithm and the Clausen function enter by their specifications (C27, C28). C82_code: positive discriminant, partial-real semantics; negative: C81_phi_negative. Small ratios: C80.")
EXTRA=True
ids=[json.loads(l)["id"] for l in open('/verif/properties.jsonl')]
src="".join(open(f).read() for f in glob.glob('/verif/rocq/theories/*.v'))
for x in C:
    for t in x["theorems"]:
        assert re.search(r'^(Theorem|Corollary)\s+'+t+r'\b',src,re.M),t
    assert x["property"] in ids,x
done={x["property"] for x in C}
print("missing:",[i for i in ids if i not in done])
thm=set(re.findall(r'^(?:Theorem|Corollary)\s+(C\d\d\w*)',src,re.M))
used={t for x in C for t in x["theorems"]}
print("unused theorems:",sorted(thm-used))
json.dump({"claims":C},open('/verif/MANIFEST.json','w'),indent=1)
