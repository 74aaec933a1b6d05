{
"c01_identity": "RT",
"c01_mul_add_l": "RT",
"c01_mul_add_r": "RT",
"c01_mul_assoc": "RT",
"c01_mul_entry": "RT",
"c01_mul_sub_l": "RT",
"c01_mul_sub_r": "RT",
"c01_zeros": "RT",
"c02_mul_v_add": "RT",
"c02_mul_v_entry": "RT",
"c02_mul_v_identity": "RT",
"c02_mul_v_mul": "RT",
"c02_mul_v_scale": "RT",
"c03_mul_partial": "RT",
"c03_row_product_partial": "RT",
"c03_size3_column_product": "RT",
"c03_transpose_partial": "RT",
"c04_det_expand_row": "RT",
"c04_det_laplace": "RT",
"c05_det_identity": "RT",
"c05_det_mul": "RT",
"c05_det_scale": "RT",
"c05_det_swap_rows": "RT",
"c05_det_transpose": "RT",
"c06_inverse_total": "OK",
"c06_inverse_two_sided": "OK",
"c07_inverse_none_iff": "OK",
"c07_inverse_partial": "OK",
"c07_inverse_refuted": "OK",
"c07_inverse_unique": "OK",
"c08_transpose_mul": "RT",
"c09_trace_add": "RT",
"c09_trace_diagonal": "RT",
"c09_trace_mul_comm": "RT",
"c100_pow_rotation_partial": "Hp11 He4",
"c101_slerp_partial": "Hp11 He4",
"c102_angle": "Hp11 He4",
"c102_axis": "Hp11 He4",
"c102_round_trip": "Hp11 He4",
"c103_exp": "Hp11 He4",
"c103_exp_ln": "Hp11 He4",
"c103_ln": "Hp11 He4",
"c103_sqrt": "Hp11 He4",
"c104_exponential6": "Hp11 He4",
"c105_regular_partial": "Hp11 He4",
"c106_adjoint": "Hp11 He4",
"c106_twist": "Hp11 He4",
"c107_derivative": "Hp11 He4",
"c107_ksi": "Hp11 He4",
"c107_rot2": "Hp11 He4",
"c10_lu_perturbed": "OK",
"c10_lu_reconstructs": "OK",
"c11_lu_det_partial": "OK",
"c11_lu_det_refuted": "OK",
"c11_lu_panic_iff": "OK",
"c11_lu_panic_refuted": "OK",
"c11_lu_singular_refuted": "OK",
"c12_qr": "OK",
"c12_qr_none_iff": "OK",
"c12_qr_total": "OK",
"c12_qr_unique": "OK",
"c17_add_assoc": "RT",
"c17_add_comm": "RT",
"c17_add_neg": "RT",
"c17_add_zeros": "RT",
"c17_mlscale": "RT",
"c17_scale_add": "RT",
"c17_sub_neg": "RT",
"c17_vadd_assoc": "RT",
"c17_vadd_comm": "RT",
"c17_vadd_neg": "RT",
"c17_vadd_zeros": "RT",
"c17_vlscale": "RT",
"c17_vscale_add": "RT",
"c17_vsub_neg": "RT",
"c18_dot_bilinear": "RT",
"c20_axes": "RT",
"c20_cross_anticomm": "RT",
"c20_cross_bilinear": "RT",
"c20_cross_norm": "RT",
"c20_cross_orthogonal": "RT",
"c20_jacobi": "RT",
"c20_lagrange": "RT",
"c20_triple_det": "RT",
"c23_relative_R": "@",
"c25_accepted_det_partial": "OK",
"c26_abs2": "RT",
"c26_abs2_mul": "RT",
"c26_additive_group": "RT",
"c26_conj_involutive": "RT",
"c26_conj_mul": "RT",
"c26_distr": "RT",
"c26_mul_assoc": "RT",
"c26_mul_hamilton": "RT",
"c26_mul_one": "RT",
"c26_scale": "RT",
"c26_units": "RT",
"c27_action_compose": "RT",
"c27_action_conj": "RT",
"c27_action_cross": "RT",
"c27_action_dot": "RT",
"c27_action_linear": "RT",
"c27_action_neg": "RT",
"c27_action_sandwich": "RT",
"c27_to_rotation_SO3": "RT",
"c27_to_rotation_action": "RT",
"c27_to_rotation_conj": "RT",
"c27_to_rotation_gram": "RT",
"c27_to_rotation_mul": "RT",
"c27_to_rotation_neg": "RT",
"c27_to_rotation_sandwich": "RT",
"c29_axis_angle_round_trip": "OK",
"c29_get_axis": "OK",
"c29_norm_encoded": "OK",
"c29_norm_encoded_always_refuted": "OK",
"c29_norm_encoded_tiny": "OK",
"c31_approx": "OK",
"c31_exact": "OK",
"c31_exact_everywhere_refuted": "OK",
"c32_div_mul": "OK",
"c32_div_panic_iff": "OK",
"c32_flag_approx": "OK",
"c32_flag_partial": "OK",
"c32_flag_refuted": "OK",
"c32_inverse_none_iff": "OK",
"c32_inverse_two_sided": "OK",
"c32_inverse_unique": "OK",
"c32_normalize_none_iff": "OK",
"c32_normalize_q": "OK",
"c32_normalize_some": "OK",
"c33_exp_ln_approx": "OK",
"c33_exp_ln_partial": "OK",
"c33_exp_ln_refuted": "OK",
"c33_exp_polar": "OK",
"c33_exp_pure_unit_approx": "OK",
"c33_exp_pure_unit_partial": "OK",
"c33_exp_pure_unit_refuted": "OK",
"c33_ln_exp_partial": "OK",
"c33_ln_exp_refuted": "OK",
"c33_pow_add_partial": "OK",
"c33_pow_nat_partial": "OK",
"c33_sqrt_partial": "OK",
"c33_sqrt_refuted": "OK",
"c34_constant_speed_partial": "OK",
"c34_endpoints_partial": "OK",
"c34_swapped_refuted": "OK",
"c34_unit_partial": "OK",
"c34_zero_refuted": "OK",
"c35_additive_group": "RT",
"c35_conj_involutive": "RT",
"c35_conj_mul": "RT",
"c35_distr": "RT",
"c35_epsilon": "RT",
"c35_mul_assoc": "RT",
"c35_mul_one": "RT",
"c35_mul_spec": "RT",
"c35_norm": "RT",
"c35_norm_mul": "RT",
"c35_scale": "RT",
"c35_unit_conj": "RT",
"c35_unit_mul": "RT",
"c36_to_homogeneous_SE3": "RT",
"c36_to_homogeneous_mul": "RT",
"c36_to_homogeneous_point": "RT",
"c36_transform_point_compose_partial": "RT",
"c36_transform_point_rotates": "RT",
"c37_dual_round_trip": "OK",
"c37_homogeneous_round_trip": "OK",
"c37_rot_trans": "OK",
"c37_rot_trans_panic_iff": "OK",
"c37_translation_then_rotation": "OK",
"c38_honest_constructors": "OK",
"c38_inverse_panic_iff": "OK",
"c38_inverse_two_sided_partial": "OK",
"c38_is_normalized_complete": "OK",
"c38_is_normalized_refuted": "OK",
"c38_is_normalized_sound": "OK",
"c38_normalize_none_iff": "OK",
"c38_normalize_partial": "OK",
"c38_normalize_refuted": "OK",
"c39_pow_nat_partial": "OK",
"c39_pow_one_refuted": "OK",
"c39_pow_partial": "OK",
"c39_screw_axis": "OK",
"c39_screw_parameters": "OK",
"c39_screw_round_trip": "OK",
"c40_end_refuted": "OK",
"c40_endpoints_partial": "OK",
"c40_screw_motion_partial": "OK",
"c40_start_refuted": "OK",
"c41_div_mul_partial": "OK",
"c41_div_panic_iff": "OK",
"c41_div_refuted": "OK",
"c42_SE3_identity": "RT",
"c42_SE3_mul": "RT",
"c42_inverse": "RT",
"c42_inverse_agrees": "OK",
"c42_point": "RT",
"c43_skew_antisymmetric": "RT",
"c43_skew_bracket": "RT",
"c43_skew_cross": "RT",
"c43_skew_linear": "RT",
"c43_skew_scalar": "RT",
"c43_twist_se3": "RT",
"c44_axis_angle": "OK",
"c44_exponential": "OK",
"c44_exponential_tiny": "OK",
"c44_total": "OK",
"c45_exp_log_partial": "OK",
"c45_exp_log_refuted": "OK",
"c45_exp_log_tiny": "OK",
"c45_log_exp": "OK",
"c45_log_series": "OK",
"c46_exp_log_partial": "OK",
"c46_exp_log_refuted": "OK",
"c46_exponential_partial": "OK",
"c46_log_exp": "OK",
"c46_log_series": "OK",
"c46_total": "OK",
"c46_translation_refuted": "OK",
"c47_adjoint_conjugation": "RT",
"c47_adjoint_identity": "RT",
"c47_adjoint_mul": "RT",
"c51_distance_nonneg": "OK",
"c51_distance_zero_iff": "OK",
"c54_lu_panic_iff": "@",
"c55_pythagoras": "OK",
"c55_sin_cos": "OK",
"c55_sin_total": "OK",
"c56_log_total_refuted": "OK",
"c60_dot": "RT",
"c62_get_parts": "OK",
"c62_to_euler_approx": "OK",
"c62_to_euler_round_trip": "OK",
"c63_axis_moved": "RT",
"c63_axis_point": "RT",
"c63_axis_velocity": "RT",
"c63_screw_motion": "OK",
"c64_axis_angle6_rotation": "OK",
"c64_axis_angle6_translation": "OK",
"c65_rotation_inverse": "OK",
"c72_axes": "RT",
"c72_m22": "RT",
"c72_zeros": "RT",
"c73_argq": "OK",
"c73_axis_angle6": "OK",
"c73_cos": "OK",
"c73_div": "OK",
"c73_dual_div": "OK",
"c73_dual_homogeneous": "OK",
"c73_dual_inverse": "OK",
"c73_dual_is_normalized": "OK",
"c73_dual_log": "OK",
"c73_dual_normalize": "OK",
"c73_dual_rot_trans": "OK",
"c73_exp": "OK",
"c73_exponential": "OK",
"c73_exponential6": "OK",
"c73_get_axis": "OK",
"c73_get_parts": "OK",
"c73_inverse": "OK",
"c73_inverse_transform": "OK",
"c73_is_rotation": "OK",
"c73_is_rotation_h": "OK",
"c73_ln": "OK",
"c73_log": "OK",
"c73_normalize": "OK",
"c73_normalize_q": "OK",
"c73_pow": "OK",
"c73_rotation_norm_encoded": "OK",
"c73_rotation_to_euler": "OK",
"c73_sin": "OK",
"c73_slerp": "OK",
"c73_sqrt": "OK",
"c73_to_euler_angles": "OK",
"c74_log6_partial": "OK",
"c74_log6_refuted": "OK",
"c74_pow_partial": "OK",
"c74_pow_refuted": "OK",
"c74_screw_lerp_partial": "OK",
"c74_screw_lerp_refuted": "OK",
"c74_screw_parameters_partial": "OK",
"c74_screw_parameters_refuted": "OK",
"c76_debug_add_iff": "sg w",
"c76_debug_dot_iff": "sg w",
"c76_debug_dual_bound": "w Hw",
"c76_debug_dual_exact": "w Hw",
"c76_debug_mul_bound": "sg w",
"c76_debug_mul_iff": "sg w",
"c76_debug_mul_v_iff": "sg w",
"c76_debug_neg_iff": "sg w",
"c76_debug_quat_bound": "w Hw",
"c76_debug_quat_exact": "w Hw",
"c76_debug_release": "sg w Hm",
"c76_debug_rotate": "w Hw",
"c76_debug_scale_iff": "sg w",
"c76_debug_sub_iff": "sg w",
"c76_div_iff": "sg w",
"c76_div_scale": "sg w",
"c76_release_dot": "sg w Hm",
"c76_release_dual": "w Hm",
"c76_release_linear": "sg w Hm",
"c76_release_mul": "sg w Hm",
"c76_release_mul_v": "sg w Hm",
"c76_release_quat": "w Hm",
"c76_release_ring": "w Hm",
"c77_inverse": "OK",
"c77_lu": "OK",
"c77_qr": "OK",
"c79_exp_series": "OK",
"c79_sin_cos_series": "OK",
"c83_eigenvalues_partial": "OK",
"c83_eigenvalues_refuted": "OK",
"c83_step": "OK",
"c83_step_invariants": "OK",
"c84_inverse_check": "OK",
"c84_solve": "OK",
"c84_solve_none_iff": "OK",
"c85_dual_quaternions": "OK",
"c85_full_turns": "OK",
"c85_quaternions_euler_partial": "OK",
"c85_quaternions_turns": "OK",
"c85_screw_parameters": "OK",
"c85_transform_points": "OK",
"c85_turns": "OK",
"c87_normalize": "Hp11 He4",
"c87_normalized_rotation": "Hp11 He4",
"c87_rotate_length": "Hp11 He4",
"c87_unit_rotation": "Hp11 He4",
"c88_is_rotation_h_normalized": "Hp11 He4",
"c88_is_rotation_h_sound": "Hp11 He4",
"c88_is_rotation_h_unit": "Hp11 He4",
"c88_nearly_one_accepts": "Hp11 He4",
"c88_nearly_one_sound": "Hp11 He4",
"c89_qr_columns": "Hp11 He4",
"c90_slice_normalize": "Hp11 He4",
"c90_vector_normalize": "Hp11 He4",
"c91_compose_matrices": "Hp11 He4",
"c91_compose_vectors": "Hp11 He4",
"c91_normalize_near": "Hp11 He4",
"c91_product_drift": "Hp11 He4",
"c91_product_rotation": "Hp11 He4",
"c92_inverse_product": "Hp11 He4",
"c92_quaternion": "Hp11 He4",
"c92_round_trip": "Hp11 He4",
"c92_round_trip_back": "Hp11 He4",
"c93_eigenvalues": "Hp11 He4",
"c94_compose": "Hp11 He4",
"c94_inverse": "Hp11 He4",
"c94_pure_translation": "Hp11 He4",
"c94_translation": "Hp11 He4",
"c94_translation_array": "Hp11 He4",
"c94_translation_normalized": "Hp11 He4",
"c95_from_rotation": "Hp11 He4",
"c95_matrix_round_trip": "Hp11 He4",
"c95_new_from_homogeneous": "Hp11 He4",
"c95_quaternion_round_trip": "Hp11 He4",
"c96_axis_angle": "Hp11 He4",
"c96_axis_angle_direction": "Hp11 He4",
"c96_compose": "Hp11 He4",
"c96_euler_agree": "Hp11 He4",
"c96_euler_to_rotation": "Hp11 He4",
"c96_exponential": "Hp11 He4",
"c96_from_euler_angles": "Hp11 He4",
"c96_product": "Hp11 He4",
"c96_quaternion_matrix": "Hp11 He4",
"c96_rotation": "Hp11 He4",
"c96_rotation_agree": "Hp11 He4",
"c96_rotation_norm_encoded": "Hp11 He4",
"c97_apply": "Hp11 He4",
"c97_chain": "Hp11 He4",
"c97_compose": "Hp11 He4",
"c97_dual_quaternion": "Hp11 He4",
"c97_inverse": "Hp11 He4",
"c97_round_trip": "Hp11 He4",
"c98_lock": "Hp11 He4",
"c98_quaternion_partial": "Hp11 He4",
"c98_regular_partial": "Hp11 He4",
"c99_exp_log_partial": "Hp11 He4",
"c99_regular_partial": "Hp11 He4"
}
