{"claims":[
{"property": "C01", "status": "proved", "theorems": ["C01_bits_roundtrip", "C01_bits_decode"], "note": ""},
{"property": "C02", "status": "proved", "theorems": ["C02_abs"], "note": ""},
{"property": "C03", "status": "proved", "theorems": ["C03_copysign"], "note": ""},
{"property": "C04", "status": "proved", "theorems": ["C04_signum"], "note": ""},
{"property": "C05", "status": "proved", "theorems": ["C05_trunc_exact"], "note": ""},
{"property": "C06", "status": "proved", "theorems": ["C06_trunc_cut", "C06_large_is_integer", "C06_trunc_refuted", "C06_trunc_nonfinite"], "note": ""},
{"property": "C07", "status": "proved", "theorems": ["C07_fract_exact", "C07_fract_total", "C07_fract_refuted"], "note": ""},
{"property": "C08", "status": "proved", "theorems": ["C08_floor_exact"], "note": ""},
{"property": "C09", "status": "proved", "theorems": ["C09_floor_saturates", "C09_ceil_saturates", "C09_nan", "C09_floor_ceil_wrong"], "note": ""},
{"property": "C10", "status": "proved", "theorems": ["C10_ceil_exact"], "note": ""},
{"property": "C11", "status": "proved", "theorems": ["C11_round_exact", "C11_round_refuted", "C11_round_2p23_2p24", "C11_round_2p24_2p31", "C11_round_saturates", "C11_round_nan"], "note": ""},
{"property": "C12", "status": "proved", "theorems": ["C12_rem_euclid", "C12_euclid_quot_meaning", "C12_rem_euclid_below_refuted", "C12_rem_euclid_nan"], "note": ""},
{"property": "C13", "status": "proved", "theorems": ["C13_div_euclid", "C13_div_euclid_exact", "C13_div_euclid_refuted"], "note": ""},
{"property": "C14", "status": "proved", "theorems": ["C14_sqrt_accuracy"], "note": ""},
{"property": "C15", "status": "proved", "theorems": ["C15_sqrt_total", "C15_sqrt_monotone"], "note": ""},
{"property": "C16", "status": "proved", "theorems": ["C16_sqrt_nan", "C16_sqrt_edges"], "note": ""},
{"property": "C17", "status": "proved", "theorems": ["C17_invsqrt_accuracy"], "note": ""},
{"property": "C18", "status": "proved", "theorems": ["C18_invsqrt_panic", "C18_invsqrt_panic_value", "C18_invsqrt_release"], "note": ""},
{"property": "C19", "status": "proved", "theorems": ["C19_invsqrt_antitone"], "note": ""},
{"property": "C20", "status": "proved", "theorems": ["C20_inv_accuracy", "C20_inv_involutive", "C20_inv_antitone"], "note": ""},
{"property": "C21", "status": "proved", "theorems": ["C21_inv_edges"], "note": ""},
{"property": "C22", "status": "proved", "theorems": ["C22_recip_accuracy"], "note": ""},
{"property": "C23", "status": "proved", "theorems": ["C23_recip_edges", "C23_recip_nan", "C23_recip_odd", "C23_recip_large_refuted"], "note": ""},
{"property": "C24", "status": "proved", "theorems": ["C24_hypot_accuracy", "C24_hypot_symmetry", "C24_hypot_total"], "note": ""},
{"property": "C25", "status": "proved", "theorems": ["C25_mul_add", "C25_mul_add_fused_refuted"], "note": ""},
{"property": "C26", "status": "proved", "theorems": ["C26_exp_accuracy_nonneg", "C26_exp_accuracy_neg", "C26_exp_error_0_001_refuted"], "note": ""},
{"property": "C27", "status": "proved", "theorems": ["C27_exp_window", "C27_exp_panic_iff"], "note": ""},
{"property": "C28", "status": "proved", "theorems": ["C28_exp_over", "C28_exp_under", "C28_exp_gradual", "C28_exp_total_outside"], "note": ""},
{"property": "C29", "status": "proved", "theorems": ["C29_exp_nan"], "note": ""},
{"property": "C30", "status": "proved", "theorems": ["C30_ln_accuracy_ge1", "C30_ln_accuracy_lt1", "C30_ln_uniform_accuracy_refuted"], "note": ""},
{"property": "C31", "status": "proved", "theorems": ["C31_ln_negative", "C31_ln_nan", "C31_ln_inf", "C31_ln_zero", "C31_ln_subnormal", "C31_ln_subnormal_accuracy_refuted"], "note": ""},
{"property": "C32", "status": "proved", "theorems": ["C32_log2_accuracy_ge1", "C32_log10_accuracy_ge1", "C32_log2_accuracy_lt1", "C32_log10_accuracy_lt1"], "note": ""},
{"property": "C33", "status": "proved", "theorems": ["C33_log_accuracy"], "note": ""},
{"property": "C34", "status": "proved", "theorems": ["C34_powf_even", "C34_powf_odd", "C34_powf_not_integer", "C34_powf_integer_2_32_refuted"], "note": ""},
{"property": "C35", "status": "proved", "theorems": ["C35_powf_power_of_two", "C35_powf_below_one"], "note": ""},
{"property": "C36", "status": "proved", "theorems": ["C36_powi_exponent_zero", "C36_powi_zero_base", "C36_powi_exponent_one", "C36_powi_nonfinite", "C36_powi_nonfinite_neg"], "note": ""},
{"property": "C37", "status": "proved", "theorems": ["C37_powi_accuracy_base_ge1", "C37_powi_accuracy_base_le1", "C37_powi_accuracy_negative_ge1", "C37_powi_accuracy_negative_le1"], "note": ""},
{"property": "C38", "status": "proved", "theorems": ["C38_powi_terminates", "C38_powi_small_exponents_total", "C38_powi_panic_iff"], "note": ""},
{"property": "C39", "status": "proved", "theorems": ["C39_powi_min_checked", "C39_powi_min_unchecked_loops", "C39_powi_min_unchecked_returns"], "note": ""},
{"property": "C40", "status": "proved", "theorems": ["C40_powi_early_inf", "C40_powi_early_zero", "C40_powi_underflow_exit_refuted", "C40_powi_overflow_exit_refuted", "C40_powi_exponent_product_overflow_refuted"], "note": ""},
{"property": "C41", "status": "proved", "theorems": ["C41_powi_even", "C41_powi_odd", "C41_powi_odd_middle"], "note": ""},
{"property": "C42", "status": "proved", "theorems": ["C42_cosh_even", "C42_cosh_accuracy", "C42_cosh_0_pi", "C42_cosh_0_2pi", "C42_cosh_documented_error_refuted", "C42_cosh_documented_error_tau_refuted", "C42_cosh_panic_iff"], "note": ""},
{"property": "C43", "status": "proved", "theorems": ["C43_cos_accuracy", "C43_cos_documented_error", "C43_cos_002_refuted"], "note": ""},
{"property": "C44", "status": "proved", "theorems": ["C44_sin_accuracy", "C44_sin_documented_error", "C44_sin_002_refuted"], "note": ""},
{"property": "C45", "status": "proved", "theorems": ["C45_cos_sin_bounded", "C45_cos_bounded_refuted", "C45_infinite_argument", "C45_nan_argument"], "note": ""},
{"property": "C46", "status": "proved", "theorems": ["C46_sin_cos_pair", "C46_sin_cos_unit"], "note": ""},
{"property": "C47", "status": "proved", "theorems": ["C47_tan_accuracy", "C47_tan_accuracy_1_2", "C47_tan_06_refuted"], "note": ""},
{"property": "C48", "status": "proved", "theorems": ["C48_atan_accuracy", "C48_atan_002_refuted"], "note": ""},
{"property": "C49", "status": "proved", "theorems": ["C49_atan_norm_accuracy", "C49_atan_odd", "C49_atan_overflow_nan"], "note": ""},
{"property": "C50", "status": "proved", "theorems": ["C50_atan2_accuracy", "C50_atan2_accuracy_plain", "C50_atan2_negative_axis_refuted"], "note": ""},
{"property": "C51", "status": "proved", "theorems": ["C51_atan2_origin_nan", "C51_atan2_overflow_nan", "C51_atan2_underflow_refuted", "C51_atan2_norm_range_refuted", "C51_atan2_norm_range"], "note": ""},
{"property": "C52", "status": "proved", "theorems": ["C52_asin_accuracy", "C52_asin_panic", "C52_asin_unchecked_total", "C52_asin_nan", "C52_asin_outside_refuted"], "note": ""},
{"property": "C53", "status": "proved", "theorems": ["C53_acos_accuracy", "C53_acos_tiny_nan", "C53_acos_outside_nan", "C53_acos_total"], "note": ""},
{"property": "C54", "status": "proved", "theorems": ["C54_from_int_exact", "C54_from_int_order", "C54_vector_conversions"], "note": ""},
{"property": "C55", "status": "proved", "theorems": ["C55_from_slice_2", "C55_from_slice_3"], "note": ""},
{"property": "C56", "status": "proved", "theorems": ["C56_iterator_2", "C56_iterator_3"], "note": ""},
{"property": "C57", "status": "proved", "theorems": ["C57_get_index_2", "C57_get_index_3"], "note": ""},
{"property": "C58", "status": "proved", "theorems": ["C58_conversions_2", "C58_conversions_3"], "note": ""},
{"property": "C59", "status": "proved", "theorems": ["C59_add_2", "C59_sub_2", "C59_scale_2", "C59_add_3", "C59_sub_3", "C59_scale_3"], "note": ""},
{"property": "C60", "status": "proved", "theorems": ["C60_div_2", "C60_div_3", "C60_div_assign"], "note": ""},
{"property": "C61", "status": "proved", "theorems": ["C61_int_2", "C61_int_3", "C61_f32", "C61_commutes"], "note": ""},
{"property": "C62", "status": "proved", "theorems": ["C62_dot_checked_2", "C62_dot_checked_3", "C62_dot_release", "C62_dot_symmetric", "C62_dot_linear_2", "C62_dot_linear_3", "C62_dot_f32", "C62_magnitude_sq"], "note": ""},
{"property": "C63", "status": "proved", "theorems": ["C63_cross_checked", "C63_cross_release", "C63_cross_anti", "C63_cross_self", "C63_cross_orthogonal", "C63_lagrange", "C63_cross_f32_anti", "C63_cross_f32_self"], "note": ""},
{"property": "C64", "status": "proved", "theorems": ["C64_cross_int", "C64_perp_int", "C64_cross_f32"], "note": ""},
{"property": "C65", "status": "proved", "theorems": ["C65_sum_checked_2", "C65_sum_checked_3", "C65_sum_release_2", "C65_sum_release_3", "C65_sum_permutation", "C65_sum_fold"], "note": ""},
{"property": "C66", "status": "proved", "theorems": ["C66_magnitude_2", "C66_magnitude_3", "C66_distance_2", "C66_distance_3", "C66_distance_symmetric", "C66_distance_self", "C66_total"], "note": ""},
{"property": "C67", "status": "proved", "theorems": ["C67_normalized_2", "C67_normalized_3", "C67_normalized_zero"], "note": ""},
{"property": "C68", "status": "proved", "theorems": ["C68_map"], "note": ""},
{"property": "C69", "status": "proved", "theorems": ["C69_mean_definition", "C69_mean_empty_nan", "C69_mean_counter_panics", "C69_mean_accuracy"], "note": ""},
{"property": "C70", "status": "proved", "theorems": ["C70_variance_nonnegative", "C70_variance_definition", "C70_one_element_nan", "C70_empty_slice"], "note": ""},
{"property": "C71", "status": "proved", "theorems": ["C71_stddev_accuracy", "C71_stddev_total"], "note": ""},
{"property": "C72", "status": "proved", "theorems": ["C72_trim_selects", "C72_trim_iterator", "C72_trim_default"], "note": ""},
{"property": "C73", "status": "proved", "theorems": ["C73_trim_one_element", "C73_trim_nonfinite", "C73_trim_nan_threshold", "C73_trim_nonpositive_threshold"], "note": ""},
{"property": "C74", "status": "proved", "theorems": ["C74_tuple_roundtrip", "C74_array_roundtrip", "C74_from_vector"], "note": ""},
{"property": "C75", "status": "proved", "theorems": ["C75_units", "C75_associative", "C75_bilinear", "C75_norm_multiplicative", "C75_mul_rounding"], "note": ""},
{"property": "C76", "status": "proved", "theorems": ["C76_identity_neutral", "C76_identity_infinite_refuted"], "note": ""},
{"property": "C77", "status": "proved", "theorems": ["C77_conj_involutive", "C77_norm_conj", "C77_mul_conj_real", "C77_conj_real"], "note": ""},
{"property": "C78", "status": "proved", "theorems": ["C78_inv_panic", "C78_inv_nonzero_panics", "C78_inv_accuracy"], "note": ""},
{"property": "C79", "status": "proved", "theorems": ["C79_normalize", "C79_magnitude", "C79_zero_norm_panics", "C79_direction"], "note": ""},
{"property": "C80", "status": "proved", "theorems": ["C80_rotate_conjugation", "C80_rotate_isometry", "C80_rotate_composition", "C80_rotate_rounding"], "note": ""},
{"property": "C81", "status": "proved", "theorems": ["C81_axis_angle"], "note": ""},
{"property": "C82", "status": "proved", "theorems": ["C82_euler_panic_iff", "C82_euler_unchecked_total", "C82_euler_no_panic", "C82_euler_after_normalize"], "note": ""},
{"property": "C83", "status": "proved", "theorems": ["C83_from_two_total", "C83_between_rotates", "C83_antiparallel_branch", "C83_opposite_refuted", "C83_antiparallel_axis"], "note": ""},
{"property": "C84", "status": "proved", "theorems": ["C84_quaternion_scaling", "C84_quaternion_assign", "C84_vector_assign"], "note": ""},
{"property": "C85", "status": "proved", "theorems": ["C85_ext_panic_iff", "C85_ext_total", "C85_ext_terminates"], "note": ""},
{"property": "C86", "status": "proved", "theorems": ["C86_ext_nan", "C86_ext_nan_others", "C86_div_euclid_nan", "C86_invsqrt_nan"], "note": ""},
{"property": "C87", "status": "proved", "theorems": ["C87_powf_accuracy_ge1", "C87_powf_accuracy_small_exponent", "C87_powf_accuracy_lt1", "C87_powf_accuracy_lt1_neg", "C87_powf_test_error_refuted", "C87_powf_small_base_refuted"], "note": ""},
{"property": "C88", "status": "proved", "theorems": ["C88_powf_exponent_zero", "C88_powf_base_one", "C88_powf_base_zero", "C88_powf_zero_half_refuted", "C88_powf_nan_exponent", "C88_powf_nan_exponent_negative", "C88_powf_nan_base", "C88_powf_inf_base", "C88_powf_negative_zero_base"], "note": ""},
{"property": "C89", "status": "proved", "theorems": ["C89_powf_overflow", "C89_powf_underflow", "C89_powf_panic_iff", "C89_powf_release_total", "C89_powf_overflow_panics_refuted"], "note": ""},
{"property": "C90", "status": "proved", "theorems": ["C90_euler_accuracy", "C90_euler_pole_refuted"], "note": ""},
{"property": "C91", "status": "proved", "theorems": ["C91_euler_reconstructs_rotation", "C91_euler_lengths"], "note": ""},
{"property": "C92", "status": "proved", "theorems": ["C92_add", "C92_sub", "C92_mul", "C92_div", "C92_rem", "C92_nan", "C92_neg"], "note": ""},
{"property": "C93", "status": "proved", "theorems": ["C93_partial_cmp", "C93_eq", "C93_swap", "C93_trans"], "note": ""},
{"property": "C94", "status": "proved", "theorems": ["C94_sum", "C94_product", "C94_nan"], "note": ""},
{"property": "C95", "status": "proved", "theorems": ["C95_extremes", "C95_epsilon", "C95_exponents", "C95_digits", "C95_classify"], "note": ""},
{"property": "C96", "status": "proved", "theorems": ["C96_num_traits"], "note": ""},
{"property": "C97", "status": "proved", "theorems": ["C97_ln_sign", "C97_log2_sign", "C97_log10_sign", "C97_ln_jump", "C97_ln_monotone_refuted"], "note": ""},
{"property": "C98", "status": "proved", "theorems": ["C98_exp_monotone", "C98_exp_monotone_refuted", "C98_exp_monotone_negative_refuted"], "note": ""},
{"property": "C99", "status": "proved", "theorems": ["C99_exp_ge_one", "C99_exp_le_one", "C99_cosh_ge_one", "C99_cosh_monotone_refuted"], "note": ""},
{"property": "C100", "status": "proved", "theorems": ["C100_powf_le_one", "C100_powf_ge_one", "C100_powf_monotone_exponent"], "note": ""},
{"property": "C101", "status": "proved", "theorems": ["C101_ext_forwards"], "note": ""},
{"property": "C102", "status": "proved", "theorems": ["C102_mul_3_checked", "C102_mul_2", "C102_mul_is_cross", "C102_cross_f32_rounding", "C102_mul_vector"], "note": ""},
{"property": "C103", "status": "proved", "theorems": ["C103_textbook", "C103_mul_rounding", "C103_dot_rounding", "C103_dot_symmetric"], "note": ""},
{"property": "C104", "status": "proved", "theorems": ["C104_between_exact", "C104_from_two_accuracy", "C104_from_two_turns"], "note": ""},
{"property": "C105", "status": "proved", "theorems": ["C105_variance_accuracy", "C105_stddev_accuracy"], "note": ""},
{"property": "C106", "status": "proved", "theorems": ["C106_axis_angle_rotates", "C106_exact"], "note": ""},
{"property": "C107", "status": "proved", "theorems": ["C107_x_is_roll", "C107_y_is_pitch", "C107_z_is_yaw", "C107_y_pole_refuted"], "note": ""},
{"property": "C108", "status": "proved", "theorems": ["C108_zero_signs", "C108_zero_unchanged_refuted"], "note": ""},
{"property": "C109", "status": "proved", "theorems": ["C109_monotone", "C109_fract_monotone_refuted"], "note": ""},
{"property": "C110", "status": "proved", "theorems": ["C110_idempotent", "C110_negation", "C110_round_odd_refuted", "C110_around"], "note": ""},
{"property": "C111", "status": "proved", "theorems": ["C111_exp_ln", "C111_exp_ln_below_one", "C111_exp_ln_refuted", "C111_ln_exp", "C111_sin_asin", "C111_cos_acos", "C111_tan_atan", "C111_square_sqrt", "C111_sqrt_invsqrt"], "note": ""},
{"property": "C112", "status": "proved", "theorems": ["C112_atan_odd", "C112_asin_odd", "C112_acos_supplement", "C112_cos_even", "C112_cos_even_refuted", "C112_sin_odd", "C112_sin_odd_refuted", "C112_tan_odd_refuted"], "note": ""},
{"property": "C113", "status": "proved", "theorems": ["C113_sqrt_exact", "C113_inv_exact", "C113_invsqrt_never_exact"], "note": ""},
{"property": "C114", "status": "proved", "theorems": ["C114_cos_bound_sharp", "C114_sin_bound_sharp", "C114_tan_bound_sharp", "C114_atan_bound_sharp", "C114_asin_bound_sharp", "C114_acos_bound_sharp", "C114_exp_pos_bound_sharp", "C114_exp_neg_bound_sharp", "C114_cosh_bound_sharp", "C114_ln_ge1_bound_sharp", "C114_ln_lt1_bound_sharp", "C114_log2_bound_sharp", "C114_log2_lt1_bound_sharp", "C114_log10_bound_sharp", "C114_log10_lt1_bound_sharp", "C114_sqrt_hi_bound_sharp", "C114_sqrt_lo_bound_sharp", "C114_invsqrt_hi_bound_sharp", "C114_invsqrt_lo_bound_sharp", "C114_inv_bound_sharp", "C114_recip_bound_sharp"], "note": ""},
{"property": "C115", "status": "proved", "theorems": ["C115_sin_tiny", "C115_tan_tiny", "C115_cos_tiny", "C115_atan_small", "C115_asin_small"], "note": ""},
{"property": "C116", "status": "proved", "theorems": ["C116_mean_correctly_rounded", "C116_mean_of_integers", "C116_mean_of_equal_samples", "C116_spread_of_equal_samples", "C116_mean_between_extremes_refuted", "C116_mean_order_independent_refuted", "C116_negated_samples"], "note": ""},
{"property": "C117", "status": "proved", "theorems": ["C117_sqrt", "C117_invsqrt", "C117_inv", "C117_recip", "C117_hypot", "C117_magnitude_2d", "C117_magnitude_3d", "C117_normalized_2d", "C117_normalized_3d", "C117_quaternion_norm", "C117_quaternion_magnitude", "C117_quaternion_normalize", "C117_quaternion_inverse", "C117_atan2", "C117_statistics", "C117_stddev_zero_variance_refuted"], "note": ""},
{"property": "C118", "status": "proved", "theorems": ["C118_rotate_bits", "C118_rotate_all", "C118_to_euler", "C118_norm", "C118_magnitude", "C118_normalize", "C118_inverse", "C118_conjugate", "C118_scale", "C118_negation_is_scale", "C118_product", "C118_rotate_negated_vector", "C118_axis_angle_negated_axis", "C118_from_two_vectors_swapped", "C118_conjugate_of_product_refuted"], "note": ""},
{"property": "C119", "status": "proved", "theorems": ["C119_powi", "C119_hypot", "C119_vector2d_magnitude", "C119_vector3d_magnitude", "C119_quaternion_magnitude", "C119_mean", "C119_recip_refuted", "C119_atan_refuted", "C119_asin_refuted", "C119_acos_refuted", "C119_cos_refuted", "C119_tan_refuted"], "note": ""},
{"property": "C120", "status": "proved", "theorems": ["C120_trim", "C120_trim_few", "C120_trim_at", "C120_sqrt_never_low", "C120_overflow_refuted"], "note": ""},
{"property": "C121", "status": "proved", "theorems": ["C121_exact", "C121_integer", "C121_power_of_two", "C121_power_of_two_negative", "C121_square", "C121_square_tiny_refuted", "C121_cube", "C121_minus_one", "C121_antitone", "C121_zero_negative", "C121_side_of_one"], "note": ""},
{"property": "C122", "status": "proved", "theorems": ["C122_dot_2", "C122_dot_3", "C122_perpendicular_dot", "C122_magnitude_is_sqrt_dot_2", "C122_magnitude_is_sqrt_dot_3", "C122_distance_is_magnitude_2", "C122_distance_is_magnitude_3", "C122_hypot_is_magnitude", "C122_magnitude_2", "C122_magnitude_3", "C122_cauchy_schwarz_2", "C122_cauchy_schwarz_3", "C122_triangle_2", "C122_triangle_3", "C122_sum_2", "C122_sum_3", "C122_triangle_refuted", "C122_normalized_2", "C122_normalized_3", "C122_cosine_2", "C122_cosine_3", "C122_cosine_refuted"], "note": ""},
{"property": "C123", "status": "proved", "theorems": ["C123_associative", "C123_associative_refuted", "C123_compose", "C123_compose_refuted", "C123_back", "C123_norm", "C123_isometry", "C123_inverse", "C123_axis_angle"], "note": ""},
{"property": "C124", "status": "proved", "theorems": ["C124_turns_close", "C124_cos_rising", "C124_cos_falling", "C124_cos_falling_near", "C124_cos_falling_refuted", "C124_cos_intervals", "C124_sin_intervals", "C124_sin_falling_refuted"], "note": ""},
{"property": "C125", "status": "proved", "theorems": ["C125_atan", "C125_atan_tiny", "C125_atan_refuted", "C125_asin", "C125_asin_refuted", "C125_acos", "C125_acos_refuted"], "note": ""},
{"property": "C126", "status": "proved", "theorems": ["C126_ln", "C126_log2_log10", "C126_strict", "C126_refuted"], "note": ""},
{"property": "C127", "status": "proved", "theorems": ["C127_exp", "C127_exp_all", "C127_cosh"], "note": ""},
{"property": "C128", "status": "proved", "theorems": ["C128_exponent", "C128_base", "C128_refuted"], "note": ""},
{"property": "C129", "status": "proved", "theorems": ["C129_cos_exact", "C129_tan", "C129_poles", "C129_refuted"], "note": ""},
{"property": "C130", "status": "proved", "theorems": ["C130_int", "C130_f32", "C130_equivalence", "C130_same", "C130_vector2d", "C130_vector3d", "C130_metric", "C130_quaternion", "C130_quaternion_norm", "C130_neutral", "C130_conversions", "C130_refuted"], "note": ""},
{"property": "C131", "status": "proved", "theorems": ["C131_identical", "C131_hypot", "C131_equal", "C131_equal2", "C131_euler", "C131_axis_angle", "C131_refuted"], "note": ""},
{"property": "C132", "status": "proved", "theorems": ["C132_functions", "C132_helpers", "C132_operators", "C132_num_traits", "C132_any_call", "C132_covered"], "note": ""},
{"property": "C133", "status": "proved", "theorems": ["C133_f32ext", "C133_vector2d", "C133_vector3d", "C133_vector2d_int", "C133_vector3d_int", "C133_vector2d_f32", "C133_vector3d_f32", "C133_dot", "C133_quaternion", "C133_quaternion_vector", "C133_statistics", "C133_sum", "C133_covered"], "note": ""},
{"property": "C134", "status": "proved", "theorems": ["C134_sqrt", "C134_floor", "C134_cos", "C134_atan", "C134_exp", "C134_exp_panic", "C134_invsqrt_panic", "C134_dot", "C134_mean", "C134_inverse", "C134_distance"], "note": ""}
]}
