# What `Print Assumptions` lists

Generated by `tools/assumptions.py` (theorem by theorem, grouped by equal answers).

## Closed under the global context (no axioms)

248 theorems: C01_mul_entry, C01_mul_assoc, C01_mul_add_l, C01_mul_add_r, C01_mul_sub_l, C01_mul_sub_r, C01_identity, C01_zeros, C02_mul_v_entry, C02_mul_v_mul, C02_mul_v_add, C02_mul_v_scale, C02_mul_v_identity, C03_row_product_partial, C03_transpose_partial, C03_mul_partial, C03_size3_column_product, C03_row_product_refuted, C03_mul_refuted, C04_det_laplace, C04_det_expand_row, C05_det_mul, C05_det_transpose, C05_det_identity, C05_det_scale, C05_det_swap_rows, C08_transpose_add, C08_transpose_mul, C08_transpose_entry, C08_transpose_involutive, C09_trace_diagonal, C09_trace_add, C09_trace_mul_comm, C13_get_rows, C13_get_cols, C13_new_from_vecs, C13_cols_round_trip, C13_as_vec, C13_get_diagonal, C13_get_upper_triangular, C13_get_lower_triangular, C14_for_each_entry, C14_for_each_id, C14_for_each_compose, C15_read_in_range, C15_read_out_of_range, C15_write_in_range, C15_write_out_of_range, C15_vector, C16_skip_spec, C16_get_submatrix, C16_get_submatrix_panic, C16_copy_elements, C16_copy_elements_panic, C17_add_assoc, C17_add_comm, C17_add_zeros, C17_add_neg, C17_sub_neg, C17_scale_add, C17_vadd_assoc, C17_vadd_comm, C17_vadd_zeros, C17_vadd_neg, C17_vsub_neg, C17_vscale_add, C17_vlscale, C17_mlscale, C17_assign_ops, C18_dot_bilinear, C20_cross_bilinear, C20_cross_anticomm, C20_cross_orthogonal, C20_jacobi, C20_lagrange, C20_cross_norm, C20_triple_det, C20_axes, C21_positions, C21_empty_panics, C21_extremal, C22_norm_l, C22_norm_inf_is_max, C22_norm_inf_partial, C22_norm_inf_refuted, C22_norm_inf_negative_refuted, C24_compare_vecs_partial, C24_compare_vecs_prefix, C24_compare_vecs_refuted, C24_check_elements, C26_mul_hamilton, C26_mul_assoc, C26_mul_one, C26_distr, C26_additive_group, C26_scale, C26_conj_mul, C26_conj_involutive, C26_abs2, C26_abs2_mul, C26_units, C27_to_rotation_sandwich, C27_action_sandwich, C27_to_rotation_action, C27_to_rotation_mul, C27_to_rotation_conj, C27_to_rotation_neg, C27_action_neg, C27_to_rotation_gram, C27_to_rotation_SO3, C27_action_compose, C27_action_linear, C27_action_dot, C27_action_cross, C27_action_conj, C35_mul_spec, C35_mul_assoc, C35_mul_one, C35_distr, C35_additive_group, C35_scale, C35_epsilon, C35_conj_mul, C35_conj_involutive, C35_norm, C35_norm_mul, C35_unit_mul, C35_unit_conj, C36_transform_point_rotates, C36_to_homogeneous_mul, C36_to_homogeneous_SE3, C36_to_homogeneous_point, C36_transform_point_compose_partial, C36_transform_point_refuted, C42_parts_round_trip, C42_parts_SE3, C42_homogeneous_SE3, C42_SE3_mul, C42_SE3_identity, C42_inverse, C42_point, C43_skew_round_trip, C43_skew_cross, C43_skew_antisymmetric, C43_skew_from_to, C43_skew_linear, C43_skew_bracket, C43_twist_round_trip, C43_twist_se3, C43_se3_round_trip, C43_se3_parts, C43_skew_scalar, C43_skew_v6, C43_skew_v6_twist, C43_skew_aug, C47_adjoint_total, C47_adjoint_identity, C47_adjoint_mul, C47_adjoint_conjugation, C54_inverse, C54_qr, C54_normalize, C54_lu_panic_iff, C54_find_max_min_panic_iff, C54_rotation_panic_iff, C54_matrix_exponential, C54_quat_div_panic_iff, C54_rot_trans_panic_iff, C54_dual_inverse_panic_iff, C54_dual_div_panic_iff, C54_screw_lerp_panic_iff, C54_log_panic_iff, C54_new_from_homogeneous_panic_iff, C54_sin_panic_iff, C57_div_entry, C57_vdiv_entry, C57_quat_div_entry, C58_is_zero, C58_vis_zero, C58_eq, C58_veq, C58_zeros_is_zero, C58_ones, C59_eq_iff, C59_dual_eq_iff, C59_is_zero_partial, C59_dual_is_zero_partial, C59_eq_refuted, C59_dual_eq_refuted, C59_is_zero_refuted, C60_dot_panic_iff, C60_project_panic_iff, C60_dot, C61_quaternion_parts, C61_dual_parts, C61_parts_agree, C63_axis_velocity, C63_axis_point, C63_axis_moved, C69_compare_iff, C70_vector_text, C70_matrix_text, C70_quaternion_text, C70_dual_text, C71_no_output_partial, C71_matrix_prints, C71_no_output_refuted, C72_shape, C72_bitand, C72_from_array, C72_new_from, C72_zeros, C72_m22, C72_axes, C75_quat_trusted, C75_dual_trusted, C75_dual_untrusted, C75_quat_flagged, C75_quat_unflagged, C75_dual_flagged, C75_dual_unflagged, C76_debug_add_iff, C76_debug_sub_iff, C76_debug_scale_iff, C76_debug_neg_iff, C76_div_iff, C76_div_scale, C76_debug_dot_iff, C76_debug_mul_v_iff, C76_debug_mul_iff, C76_debug_mul_bound, C76_debug_quat_exact, C76_debug_quat_bound, C76_debug_dual_exact, C76_debug_dual_bound, C76_debug_rotate, C76_release_mul, C76_release_mul_v, C76_release_dot, C76_release_linear, C76_release_quat, C76_release_dual, C76_debug_release, C76_release_ring, C78_new_from, C78_deref, C78_row_read, C78_row_write

## `ClassicalDedekindReals.sig_forall_dec`, `FunctionalExtensionality.functional_extensionality_dep`

21 theorems: C18_dot_nonneg, C18_dot_zero_iff, C24_compare_floats_R, C37_from_array, C42_from_quaternion, C50_gamma, C52_translation_2d, C52_translation_3d, C53_tangent, C57_div_scale, C57_vdiv_scale, C57_quat_div_scale, C58_is_zero_R, C60_project, C61_array_motion, C73_dual_translation, C73_dual_array, C77_scalar_div, C77_vdiv, C83_triangular, C83_nearly_triangular

## `ClassicalDedekindReals.sig_forall_dec`, `ClassicalDedekindReals.sig_not_dec`, `FunctionalExtensionality.functional_extensionality_dep`

1 theorems: C29_rodrigues_meaning

## `ClassicalDedekindReals.sig_forall_dec`, `Classical_Prop.classic`, `FunctionalExtensionality.functional_extensionality_dep`

1 theorems: C77_project

## `ClassicalDedekindReals.sig_forall_dec`, `ClassicalDedekindReals.sig_not_dec`, `Classical_Prop.classic`, `FunctionalExtensionality.functional_extensionality_dep`

403 theorems: C06_inverse_two_sided, C06_inverse_total, C07_inverse_none_iff, C07_inverse_partial, C07_inverse_unique, C07_inverse_refuted, C09_norm2_square, C09_norm2_nonneg, C09_norm2_zero_iff, C09_norm2_submultiplicative, C09_norm2_transpose, C10_lu_reconstructs, C10_lu_perturbed, C11_lu_det_partial, C11_lu_panic_iff, C11_lu_panic_refuted, C11_lu_singular_refuted, C11_lu_det_refuted, C12_qr, C12_qr_none_iff, C12_qr_total, C12_qr_unique, C17_float_vadd_comm, C17_float_add_comm, C17_float_vlscale, C17_float_sub_neg, C17_float_vsub_neg, C17_float_neg_neg, C17_float_dot_comm, C18_norm2_dot, C18_cauchy_schwarz, C18_triangle, C18_norm2_scale, C19_normalize_err_iff, C19_normalize_ok, C19_slice_normalize, C23_symmetric, C23_reflexive, C23_nan, C23_zero, C23_nearly_zero, C23_infinity, C23_monotone, C23_relative_R, C24_nearly_zero_R, C24_check_elements_R, C25_accepts_rotations_partial, C25_accepts_rigid_partial, C25_accepted_det_partial, C25_is_rotation_refuted, C25_is_rotation_h_refuted, C28_from_rotation, C28_from_to_rotation, C28_to_rotation_surjective, C29_rotation, C29_rotation_panic_iff, C29_norm_encoded, C29_norm_encoded_tiny, C29_norm_encoded_always_refuted, C29_angle_range, C29_get_angle, C29_get_axis, C29_axis_angle_round_trip, C30_elementary_rotations, C30_euler_sequences_partial, C30_YZX_computes_XYZ, C30_euler_sequences_refuted, C30_euler_SO3, C30_from_euler_angles, C31_pitch_range, C31_exact, C31_approx, C31_exact_everywhere_refuted, C32_normalize_none_iff, C32_normalize_some, C32_inverse_none_iff, C32_inverse_two_sided, C32_inverse_unique, C32_div_mul, C32_div_panic_iff, C32_normalize_q, C32_flag_partial, C32_flag_approx, C32_flag_refuted, C33_exp_polar, C33_exp_pure_unit_partial, C33_exp_pure_unit_approx, C33_exp_pure_unit_refuted, C33_exp_ln_partial, C33_exp_ln_approx, C33_exp_ln_refuted, C33_ln_exp_partial, C33_ln_exp_refuted, C33_sqrt_partial, C33_pow_nat_partial, C33_pow_add_partial, C33_sqrt_refuted, C34_unit_partial, C34_endpoints_partial, C34_constant_speed_partial, C34_swapped_refuted, C34_zero_refuted, C37_rot_trans, C37_rot_trans_panic_iff, C37_translation_then_rotation, C37_homogeneous_round_trip, C37_dual_round_trip, C38_inverse_two_sided_partial, C38_inverse_panic_iff, C38_normalize_none_iff, C38_normalize_partial, C38_honest_constructors, C38_flag_refuted, C38_normalize_refuted, C38_is_normalized_sound, C38_is_normalized_complete, C38_is_normalized_refuted, C39_screw_round_trip, C39_screw_axis, C39_screw_parameters, C39_pow_partial, C39_pow_nat_partial, C39_pow_translation, C39_pow_one_refuted, C40_screw_motion_partial, C40_endpoints_partial, C40_start_refuted, C40_end_refuted, C41_div_mul_partial, C41_div_panic_iff, C41_div_refuted, C42_inverse_agrees, C42_inverse_transform, C44_axis_angle_rodrigues, C44_exponential, C44_exponential_tiny, C44_axis_angle, C44_total, C45_log_skew, C45_exp_log_partial, C45_exp_log_tiny, C45_log_exp, C45_exp_log_refuted, C45_log_series, C46_exponential_partial, C46_translation_refuted, C46_log_series, C46_exp_log_partial, C46_log_exp, C46_exp_log_refuted, C46_total, C48_eigenvalues, C48_eigenvalues_vieta, C49_dot_exact, C49_mul_v_exact, C49_mul_exact, C49_det_exact, C50_dot_error, C50_mul_v_error, C50_mul_error, C51_distance_nonneg, C51_distance_zero_iff, C51_distance_infinite, C51_distance_value, C52_rot2_SO2, C52_rot2_add, C52_rot2_0, C52_ksi_split, C52_ksi_compose, C52_rot_add, C53_derivative, C54_float_lu_panic_iff, C55_sin_total, C55_sin_cos, C55_pythagoras, C56_log, C56_log_total_refuted, C62_to_euler_round_trip, C62_to_euler_approx, C62_get_parts, C63_screw_motion, C64_axis_angle, C64_axis_angle_panic_iff, C64_axis_angle6_rotation, C64_axis_angle6_translation, C65_rotation_inverse, C66_scale_one, C66_mul_identity, C66_mul_v_identity, C66_same_value, C66_zero, C67_transpose_mul_partial, C67_transpose_mul4_partial, C67_transpose_mul4_refuted, C68_epsilon, C68_inverse_none_iff, C68_inverse_nan, C68_qr_none_iff, C69_eq_reflexive_iff, C69_eq_symmetric, C69_compare_symmetric, C69_compare_reflexive_iff, C73_normalize, C73_inverse, C73_div, C73_rotation, C73_rotation_norm_encoded, C73_from_euler_angles, C73_get_angle, C73_get_axis, C73_normalize_q, C73_argq, C73_exp, C73_ln, C73_sqrt, C73_pow, C73_sin, C73_cos, C73_slerp, C73_from_rotation, C73_dual_inverse, C73_dual_div, C73_dual_normalize, C73_dual_is_normalized, C73_dual_log, C73_dual_rot_trans, C73_dual_homogeneous, C73_new_from_screw, C73_axis_angle, C73_exponential, C73_exponential6, C73_axis_angle6, C73_log, C73_rotation_to_euler, C73_to_euler_angles, C73_get_parts, C73_inverse_transform, C73_is_rotation, C73_is_rotation_h, C73_distance_to_manifold, C74_screw_parameters_partial, C74_pow_partial, C74_log6_partial, C74_screw_lerp_partial, C74_screw_lerp_refuted, C74_pow_refuted, C74_screw_parameters_refuted, C74_log6_refuted, C75_log_refuted, C77_inverse, C77_qr, C77_lu, C77_norm2, C77_real_eigenvals, C77_vnorm2, C77_vnormalize, C77_slice_norm2, C77_slice_normalize, C79_exp_series, C79_sin_cos_series, C80_det_error, C80_det_error_max, C80_det_sign, C80_inverse_gate, C80_det_finite, C80_cross_error, C80_q_mul_error, C80_q_mul_v_error, C80_to_rotation_error, C81_norm2_error_partial, C81_normalize_error_partial, C81_q_norm2_error_partial, C81_normalize_overflow_refuted, C81_normalize_underflow_refuted, C82_inverse_error, C82_inverse_not_finite, C82_inverse_residual, C82_inverse_overflow, C83_step, C83_step_invariants, C83_eigenvalues_partial, C83_eigenvalues_refuted, C84_solve_error, C84_check_error, C84_solve, C84_solve_none_iff, C84_inverse_check, C85_turns, C85_full_turns, C85_quaternions_turns, C85_quaternions_euler_partial, C85_quaternions_euler_refuted, C85_dual_quaternions, C85_screw_parameters, C85_transform_points, C86_lu_panic_iff, C86_lu_error, C87_cross_error, C87_q_mul_error, C87_q_mul_v_error, C87_to_rotation_error, C87_to_rotation_orthogonal, C87_normalize, C87_unit_rotation, C87_rotate_length, C87_normalized_rotation, C88_nearly_one_accepts, C88_nearly_one_sound, C88_is_rotation_h_unit, C88_is_rotation_h_normalized, C88_is_rotation_h_sound, C88_is_rotation_refuted, C88_shear_refuted, C88_is_rotation_h_f32_refuted, C89_qr_r_error, C89_qr_residual, C89_qr_columns, C89_qr_refuted, C89_qr_nan_refuted, C90_slice_normalize, C90_vector_normalize, C91_product_drift, C91_product_rotation, C91_compose_matrices, C91_compose_vectors, C91_normalize_near, C92_round_trip, C92_round_trip_back, C92_inverse_product, C92_quaternion, C92_inverse_transform_refuted, C93_eigenvalues, C93_diagonal_refuted, C93_complex_refuted, C93_nan_refuted, C93_small_refuted, C94_translation, C94_translation_array, C94_translation_normalized, C94_compose, C94_inverse, C94_pure_translation, C94_is_normalized_refuted, C95_from_rotation, C95_matrix_round_trip, C95_quaternion_round_trip, C95_new_from_homogeneous, C96_compose, C96_product, C96_near_rot, C96_elementary, C96_euler_to_rotation, C96_from_euler_angles, C96_quaternion_matrix, C96_euler_agree, C96_rotation, C96_axis_angle, C96_axis_angle_direction, C96_exponential, C96_rotation_norm_encoded, C96_rotation_agree, C97_compose, C97_apply, C97_from_rotation, C97_inverse, C97_chain, C97_dual_quaternion, C97_round_trip, C98_regular_partial, C98_lock, C98_quaternion_partial, C98_round_trip_refuted, C99_regular_partial, C99_exp_log_partial, C99_half_turn_refuted, C99_small_refuted, C100_pow_nan, C100_pow_rotation_partial, C100_screw_lerp_refuted, C101_slerp_partial, C101_same_refuted, C101_zero_refuted, C101_swapped_refuted, C102_angle, C102_axis, C102_round_trip, C102_small_refuted, C103_exp, C103_ln, C103_exp_ln, C103_sqrt, C103_ln_refuted, C104_exponential6, C104_translation_refuted, C104_small_refuted, C105_regular_partial, C105_half_turn_refuted, C106_adjoint, C106_twist, C107_derivative, C107_screw_to_axis, C107_rot2, C107_ksi
