# Print Assumptions of every theorem in MANIFEST.json

Written by tools/print_assumptions.py. All axioms are axioms of the Coq standard library.

## Closed under the global context

C01_registers, C01_frame, C02_setter_rejects, C02_getter_rejects, C02_rejected_unchanged, C02_uncertainty_rejects, C03_permutation, C03_sorted_binary64, C03_idempotent_binary64, C04_low_orders, C05_injective, C05_out_of_range, C07_frame, C10_idempotent_refuted, C12_best_hierarchy_binary64, C12_none, C13_nan_partial, C13_nan_first_sticks, C13_refuted, C14_coverage_binary64, C14_calculate_binary64, C16_mother, C17_calculator_unchanged, C18_symmetric, C19_no_leak, C20_throws, C23_alphab, C32_scheme_independent, C32_only_DRbarprime_converts, C32_unknown_order, C33_switches, C33_check_keeps_limit, C34_loop_order, C34_constructed, C35_eft_partial, C35_eft_any_nonzero_partial, C35_fo_refuted, C35_fo_partial, C40, C40_no_iterations, C41, C41_disabled_not_evaluated, C41_relevant_flags, C43, C43_no_deadlock, C43_terminates, C43_results, C44, C44_length, C44_sender_length, C44_each_once, C44_double, C45, C45_unique, C49_consistent, C54_cosines_ignored, C59, C71_dmst12_ignored

## `ClassicalDedekindReals.sig_forall_dec`, `FunctionalExtensionality.functional_extensionality_dep`

C35_eft_refuted, C65_readings

## `ClassicalDedekindReals.sig_forall_dec`, `ClassicalDedekindReals.sig_not_dec`, `FunctionalExtensionality.functional_extensionality_dep`

C51_example, C37_eigenvalues_exist

## `ClassicalDedekindReals.sig_forall_dec`, `ClassicalDedekindReals.sig_not_dec`, `Classical_Prop.classic`, `FunctionalExtensionality.functional_extensionality_dep`

C03_min_max, C04_uncertainty, C06_validate_throws_iff, C07_filled, C07_doublets, C08_ordered, C09_sort_preserves_matrix, C10_idempotent_partial, C11_msq2, C12_best_hierarchy, C14_coverage, C14_calculate, C14_refuted, C15_meaning_partial, C15_refuted, C20_uncertainty, C21_additive, C21_zero, C22_no_shift, C22_no_strong_coupling, C23_alphab_uncertainty, C24_window, C24_window_minus1, C24_window_F6_F7, C24_window_f, C24_at_1, C24_window_F8_F9, C24_window_f5_f8, C24_window_f6_f7, C24_window_minus1_f5_f8, C24_window_minus1_f6_f7, C24_outside, C24_outside_f, C24_outside_two, C24_F6_refuted, C24_F9_refuted, C25_defined, C25_defined_two, C25_nonpositive_refuted, C26_symmetric_partial, C26_symmetric_refuted, C26_phi_symmetric, C27_dilog, C27_reference, C28_clausen, C28_odd, C28_period, C28_reference, C29_symmetric, C29_abs, C29_scale, C29_scale_a0, C29_zero_momentum, C29_equal_masses, C29_derivative, C29_derivative_symmetric, C29_massless_reference, C29_massless_refuted, C29_massless_unbounded, C29_massless_zero_momentum, C30, C30_shift, C30_code, C30_vev_bottom, C30_vev_tau, C30_shift_mh2, C30_shift_matrix, C30_nonvacuous, correction_with_code, shift_with_code, C31_strong_one_loop, C31_gauge, C32_yt_conversion, C32_lambda_conversion, C32_defined, C33_choice_consistent, C33_far_masses, C50_lambda_one_loop, C50_yukawa_one_loop, C50_lambda_two_loop_partial, C50_yt_two_loop_partial, C34_one_loop_additive, C34_two_loop_additive, C34_all_off, C34_example, C36_tree_level, C51_one_loop_scale, C51_two_loop_rge, C37, C37_degenerate_undefined, C38, C39, C39_sum_rules, C39_inos, C40_relative_change, C40_momentum_eigenvalue, C42_rotate, C42_heavy_higgs, C44_exact, C44_masses_without_mixing_ignored, C46_mixing_angle_partial, C46_mixing_angle_refuted, C47_relative_error, C47_nearest_double, C47_last_digit, C47_constants_exist, C47_loop_factor_digits_refuted, C47_B4_not_nearest_refuted, C48_two_loop_shift_refuted, C52, C53_up_reflection, C53_ab_atau_elements, C53_ab_atau_wrong_parity, C53_ab_atau_refuted, C54_guards, C54_right_angle_refuted, C54_partial, C54_negative_cosine_refuted, C55, C56, C56_odd, C56_paths_exist, C57, C58_numerical, C58_perturbative, C58_momentum, C60, C61, C62_vev, C62_yukawa, C62_bottom_refuted, C63, C63_truncated, C64, C64_shift, C64_sharp, C64_chosen, C64_refuted, C65_matrix, C65_three_loops, C65_defined, C65_members, C66_orders, C66_coefficients, C67_self_energies, C67_coefficients, C67_other_classes, C67_unit_dependence, C68_coincide, C68_coincide_read, C68_coefficients, C68_siblings, C68_h5_disagrees, C69_lambda_partial, C69_lambda_upto_partial, C69_lambda_h5_partial, C70_projection, C70_projection_upto, C70_h5_depends_on_mu, C71_truncation, C71_uncertainty_without_dmst12, C72_threshold_unit, C72_shift_unit, C72_limit_unit, C72_unit_refuted, C72_yb4g32_refuted, C73_bottom_is_mirrored_top_partial, C73_bottom_yukawa_is_mirrored_top, C73_sign_refuted, C74_sbottom_stau_exchange, C75_sbottom_from_stau_partial, C75_literature_phi, C75_implemented, C76_mixed_mirror_partial, C76_implemented, C77_equal_arguments, C77_one_argument_near_one, C77_one_argument_near_zero, C78_F8_F9_of_moduli, C79_zero_and_one_partial, C79_both_near_zero_partial, C79_F9_both_near_zero_refuted, C80_both_ratios_small, C80_one_ratio_small, C80_equal_ratios, C80_phi_of_roots, C80_window_refuted, C81_phi_negative, C81_all_equal, C82_equation, C82_code
