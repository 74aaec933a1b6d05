{
 "claims": [
  {
   "property": "C01",
   "status": "proved",
   "theorems": [
    "C01_mul_entry",
    "C01_mul_assoc",
    "C01_mul_add_l",
    "C01_mul_add_r",
    "C01_mul_sub_l",
    "C01_mul_sub_r",
    "C01_identity",
    "C01_zeros"
   ],
   "note": "entry formula, ring laws, unit and zero, for every size and every commutative ring"
  },
  {
   "property": "C02",
   "status": "proved",
   "theorems": [
    "C02_mul_v_entry",
    "C02_mul_v_mul",
    "C02_mul_v_add",
    "C02_mul_v_scale",
    "C02_mul_v_identity"
   ],
   "note": "entry formula and linearity for every size and every commutative ring"
  },
  {
   "property": "C03",
   "status": "partial",
   "theorems": [
    "C03_row_product_partial",
    "C03_transpose_partial",
    "C03_mul_partial",
    "C03_size3_column_product",
    "C03_row_product_refuted",
    "C03_mul_refuted"
   ],
   "note": "REFUTED as stated for size 3: C03_row_product_refuted, C03_mul_refuted (vector3.rs:202-212 computes M*v, C03_size3_column_product); the row product holds for sizes 2, 4, 5, 6 (the _partial theorems)"
  },
  {
   "property": "C04",
   "status": "proved",
   "theorems": [
    "C04_det_laplace",
    "C04_det_expand_row"
   ],
   "note": "all five hand-expanded determinants equal the Laplace expansion, over every commutative ring"
  },
  {
   "property": "C05",
   "status": "proved",
   "theorems": [
    "C05_det_mul",
    "C05_det_transpose",
    "C05_det_identity",
    "C05_det_scale",
    "C05_det_swap_rows"
   ],
   "note": "from C04 and the determinant theory for arbitrary n in RingDet.v"
  },
  {
   "property": "C06",
   "status": "proved",
   "theorems": [
    "C06_inverse_two_sided",
    "C06_inverse_total"
   ],
   "note": "all five sizes, exact real arithmetic"
  },
  {
   "property": "C07",
   "status": "partial",
   "theorems": [
    "C07_inverse_none_iff",
    "C07_inverse_partial",
    "C07_inverse_unique",
    "C07_inverse_refuted"
   ],
   "note": "REFUTED as stated: C07_inverse_refuted (invertible matrices with |det| < epsilon give None, every size); C07_inverse_none_iff is the exact condition, singular => None holds (C07_inverse_partial)"
  },
  {
   "property": "C08",
   "status": "proved",
   "theorems": [
    "C08_transpose_add",
    "C08_transpose_mul",
    "C08_transpose_entry",
    "C08_transpose_involutive"
   ],
   "note": "entry law and involution for any element type; additivity and reversal of products over every commutative ring"
  },
  {
   "property": "C09",
   "status": "proved",
   "theorems": [
    "C09_norm2_square",
    "C09_norm2_nonneg",
    "C09_norm2_zero_iff",
    "C09_norm2_submultiplicative",
    "C09_norm2_transpose",
    "C09_trace_diagonal",
    "C09_trace_add",
    "C09_trace_mul_comm"
   ],
   "note": "Frobenius norm laws, all five sizes, exact real arithmetic"
  },
  {
   "property": "C10",
   "status": "proved",
   "theorems": [
    "C10_lu_reconstructs",
    "C10_lu_perturbed"
   ],
   "note": "all five sizes, exact real arithmetic; C10_lu_perturbed says what happens to singular matrices"
  },
  {
   "property": "C11",
   "status": "partial",
   "theorems": [
    "C11_lu_det_partial",
    "C11_lu_panic_iff",
    "C11_lu_panic_refuted",
    "C11_lu_singular_refuted",
    "C11_lu_det_refuted"
   ],
   "note": "REFUTED as stated: C11_lu_panic_refuted (panics on non-zero matrices with zero first row), C11_lu_det_refuted / C11_lu_singular_refuted (non-zero determinant reported for singular matrices); exact panic condition C11_lu_panic_iff, determinant correct on invertible matrices (C11_lu_det_partial)"
  },
  {
   "property": "C12",
   "status": "proved",
   "theorems": [
    "C12_qr",
    "C12_qr_none_iff",
    "C12_qr_total",
    "C12_qr_unique"
   ],
   "note": "all five sizes, exact real arithmetic"
  },
  {
   "property": "C13",
   "status": "proved",
   "theorems": [
    "C13_get_rows",
    "C13_get_cols",
    "C13_new_from_vecs",
    "C13_cols_round_trip",
    "C13_as_vec",
    "C13_get_diagonal",
    "C13_get_upper_triangular",
    "C13_get_lower_triangular"
   ],
   "note": "for every size and element type"
  },
  {
   "property": "C14",
   "status": "proved",
   "theorems": [
    "C14_for_each_entry",
    "C14_for_each_id",
    "C14_for_each_compose"
   ],
   "note": "for every size and every closure"
  },
  {
   "property": "C15",
   "status": "proved",
   "theorems": [
    "C15_read_in_range",
    "C15_read_out_of_range",
    "C15_write_in_range",
    "C15_write_out_of_range",
    "C15_vector"
   ],
   "note": "for every size and element type"
  },
  {
   "property": "C16",
   "status": "proved",
   "theorems": [
    "C16_skip_spec",
    "C16_get_submatrix",
    "C16_get_submatrix_panic",
    "C16_copy_elements",
    "C16_copy_elements_panic"
   ],
   "note": "sizes 4, 5, 6, with the out-of-range panics"
  },
  {
   "property": "C17",
   "status": "proved",
   "theorems": [
    "C17_float_vadd_comm",
    "C17_float_add_comm",
    "C17_float_vlscale",
    "C17_float_sub_neg",
    "C17_float_vsub_neg",
    "C17_float_neg_neg",
    "C17_float_dot_comm",
    "C17_add_assoc",
    "C17_add_comm",
    "C17_add_zeros",
    "C17_add_neg",
    "C17_sub_neg",
    "C17_scale_add",
    "C17_vadd_assoc",
    "C17_vadd_comm",
    "C17_vadd_zeros",
    "C17_vadd_neg",
    "C17_vsub_neg",
    "C17_vscale_add",
    "C17_vlscale",
    "C17_mlscale",
    "C17_assign_ops"
   ],
   "note": "all sizes over every commutative ring (ProofsRing); bit-for-bit float laws for every IEEE format (the C17_float theorems). Associativity fails for floats (C17_float_add_not_assoc)"
  },
  {
   "property": "C18",
   "status": "proved",
   "theorems": [
    "C18_norm2_dot",
    "C18_dot_nonneg",
    "C18_dot_zero_iff",
    "C18_cauchy_schwarz",
    "C18_triangle",
    "C18_norm2_scale",
    "C18_dot_bilinear"
   ],
   "note": "all vector sizes, exact real arithmetic"
  },
  {
   "property": "C19",
   "status": "proved",
   "theorems": [
    "C19_normalize_err_iff",
    "C19_normalize_ok",
    "C19_slice_normalize"
   ],
   "note": "all vector sizes and slices, exact real arithmetic; normalize fails exactly on the zero vector"
  },
  {
   "property": "C20",
   "status": "proved",
   "theorems": [
    "C20_cross_bilinear",
    "C20_cross_anticomm",
    "C20_cross_orthogonal",
    "C20_jacobi",
    "C20_lagrange",
    "C20_cross_norm",
    "C20_triple_det",
    "C20_axes"
   ],
   "note": "all identities over every commutative ring"
  },
  {
   "property": "C21",
   "status": "proved",
   "theorems": [
    "C21_positions",
    "C21_empty_panics",
    "C21_extremal"
   ],
   "note": "for every slice and every total order; empty slice panics"
  },
  {
   "property": "C22",
   "status": "partial",
   "theorems": [
    "C22_norm_l",
    "C22_norm_inf_is_max",
    "C22_norm_inf_partial",
    "C22_norm_inf_refuted",
    "C22_norm_inf_negative_refuted"
   ],
   "note": "REFUTED as stated: C22_norm_inf_refuted, C22_norm_inf_negative_refuted (no absolute value is taken); norm_l and the nonnegative case hold"
  },
  {
   "property": "C23",
   "status": "proved",
   "theorems": [
    "C23_symmetric",
    "C23_reflexive",
    "C23_nan",
    "C23_zero",
    "C23_nearly_zero",
    "C23_infinity",
    "C23_monotone",
    "C23_relative_R"
   ],
   "note": "every IEEE format, single-NaN model; C23_relative_R gives the meaning between non-zero numbers in exact arithmetic"
  },
  {
   "property": "C24",
   "status": "partial",
   "theorems": [
    "C24_compare_vecs_partial",
    "C24_compare_vecs_prefix",
    "C24_compare_vecs_refuted",
    "C24_check_elements",
    "C24_nearly_zero_R",
    "C24_compare_floats_R",
    "C24_check_elements_R"
   ],
   "note": "REFUTED as stated: C24_compare_vecs_refuted (a longer second slice is ignored); the prefix comparison and check_elements hold"
  },
  {
   "property": "C25",
   "status": "partial",
   "theorems": [
    "C25_accepts_rotations_partial",
    "C25_accepts_rigid_partial",
    "C25_accepted_det_partial",
    "C25_is_rotation_refuted",
    "C25_is_rotation_h_refuted"
   ],
   "note": "REFUTED as stated: C25_is_rotation_refuted, C25_is_rotation_h_refuted (only determinants are tested; a stretch is accepted); every rotation is accepted and acceptance bounds the determinant"
  },
  {
   "property": "C26",
   "status": "proved",
   "theorems": [
    "C26_mul_hamilton",
    "C26_mul_assoc",
    "C26_mul_one",
    "C26_distr",
    "C26_additive_group",
    "C26_scale",
    "C26_conj_mul",
    "C26_conj_involutive",
    "C26_abs2",
    "C26_abs2_mul",
    "C26_units"
   ],
   "note": "over every commutative ring; division is C32"
  },
  {
   "property": "C27",
   "status": "proved",
   "theorems": [
    "C27_to_rotation_sandwich",
    "C27_action_sandwich",
    "C27_to_rotation_action",
    "C27_to_rotation_mul",
    "C27_to_rotation_conj",
    "C27_to_rotation_neg",
    "C27_action_neg",
    "C27_to_rotation_gram",
    "C27_to_rotation_SO3",
    "C27_action_compose",
    "C27_action_linear",
    "C27_action_dot",
    "C27_action_cross",
    "C27_action_conj"
   ],
   "note": "over every commutative ring"
  },
  {
   "property": "C28",
   "status": "proved",
   "theorems": [
    "C28_from_rotation",
    "C28_from_to_rotation",
    "C28_to_rotation_surjective"
   ],
   "note": "all of SO(3), exact real arithmetic; every branch has t >= 1 so no division by zero"
  },
  {
   "property": "C29",
   "status": "proved",
   "theorems": [
    "C29_rotation",
    "C29_rotation_panic_iff",
    "C29_rodrigues_meaning",
    "C29_norm_encoded",
    "C29_norm_encoded_tiny",
    "C29_norm_encoded_always_refuted",
    "C29_angle_range",
    "C29_get_angle",
    "C29_get_axis",
    "C29_axis_angle_round_trip"
   ],
   "note": "the tolerance of rotation_norm_encoded is part of the statement; that it makes the function differ from rotation below epsilon is C29_norm_encoded_always_refuted"
  },
  {
   "property": "C30",
   "status": "partial",
   "theorems": [
    "C30_elementary_rotations",
    "C30_euler_sequences_partial",
    "C30_YZX_computes_XYZ",
    "C30_euler_sequences_refuted",
    "C30_euler_SO3",
    "C30_from_euler_angles"
   ],
   "note": "REFUTED as stated: C30_euler_sequences_refuted (YZX computes XYZ); the nine other sequences, SO(3) membership and from_euler_angles hold"
  },
  {
   "property": "C31",
   "status": "proved",
   "theorems": [
    "C31_pitch_range",
    "C31_exact",
    "C31_approx",
    "C31_exact_everywhere_refuted"
   ],
   "note": "exact outside the gimbal tolerance and at gimbal lock, 8 epsilon everywhere; exactness everywhere is refuted (C31_exact_everywhere_refuted)"
  },
  {
   "property": "C32",
   "status": "partial",
   "theorems": [
    "C32_normalize_none_iff",
    "C32_normalize_some",
    "C32_inverse_none_iff",
    "C32_inverse_two_sided",
    "C32_inverse_unique",
    "C32_div_mul",
    "C32_div_panic_iff",
    "C32_normalize_q",
    "C32_flag_partial",
    "C32_flag_approx",
    "C32_flag_refuted"
   ],
   "note": "REFUTED as stated: C32_flag_refuted (exp sets the flag of quaternions whose norm is not one, so inverse returns a wrong value); without exp/sqrt/pow the flag is right (C32_flag_partial), with them right up to 3 epsilon (C32_flag_approx). normalize, inverse, division, normalize_q are proved for every quaternion whose flag is honest"
  },
  {
   "property": "C33",
   "status": "partial",
   "theorems": [
    "C33_exp_polar",
    "C33_exp_pure_unit_partial",
    "C33_exp_pure_unit_approx",
    "C33_exp_pure_unit_refuted",
    "C33_exp_ln_partial",
    "C33_exp_ln_approx",
    "C33_exp_ln_refuted",
    "C33_ln_exp_partial",
    "C33_ln_exp_refuted",
    "C33_sqrt_partial",
    "C33_pow_nat_partial",
    "C33_pow_add_partial",
    "C33_sqrt_refuted"
   ],
   "note": "REFUTED as stated inside the epsilon tolerance: C33_exp_ln_refuted, C33_ln_exp_refuted (error larger than 1 close to a half-turn), C33_sqrt_refuted, C33_exp_pure_unit_refuted; exact outside it (the _partial theorems), exp(ln q) within 2 epsilon |q| for every q (C33_exp_ln_approx)"
  },
  {
   "property": "C34",
   "status": "partial",
   "theorems": [
    "C34_unit_partial",
    "C34_endpoints_partial",
    "C34_constant_speed_partial",
    "C34_swapped_refuted",
    "C34_zero_refuted"
   ],
   "note": "REFUTED as stated: C34_swapped_refuted, C34_zero_refuted (near-parallel branch); unit norm, end points and constant speed hold when the rotations are equal or the sine of the half angle is at least 1e-3"
  },
  {
   "property": "C35",
   "status": "proved",
   "theorems": [
    "C35_mul_spec",
    "C35_mul_assoc",
    "C35_mul_one",
    "C35_distr",
    "C35_additive_group",
    "C35_scale",
    "C35_epsilon",
    "C35_conj_mul",
    "C35_conj_involutive",
    "C35_norm",
    "C35_norm_mul",
    "C35_unit_mul",
    "C35_unit_conj"
   ],
   "note": "over every commutative ring"
  },
  {
   "property": "C36",
   "status": "partial",
   "theorems": [
    "C36_transform_point_rotates",
    "C36_to_homogeneous_mul",
    "C36_to_homogeneous_SE3",
    "C36_to_homogeneous_point",
    "C36_transform_point_compose_partial",
    "C36_transform_point_refuted"
   ],
   "note": "REFUTED as stated: C36_transform_point_refuted (transform_point drops the translation, C36_transform_point_rotates); to_homogeneous is multiplicative and acts as q*p + t"
  },
  {
   "property": "C37",
   "status": "proved",
   "theorems": [
    "C37_rot_trans",
    "C37_rot_trans_panic_iff",
    "C37_translation_then_rotation",
    "C37_homogeneous_round_trip",
    "C37_dual_round_trip",
    "C37_from_array"
   ],
   "note": "over the reals; also the reverse round trip up to the double cover (C37_dual_round_trip), and the exact panic condition of new_from_rot_trans"
  },
  {
   "property": "C38",
   "status": "partial",
   "theorems": [
    "C38_inverse_two_sided_partial",
    "C38_inverse_panic_iff",
    "C38_normalize_none_iff",
    "C38_normalize_partial",
    "C38_honest_constructors",
    "C38_flag_refuted",
    "C38_normalize_refuted",
    "C38_is_normalized_sound",
    "C38_is_normalized_complete",
    "C38_is_normalized_refuted"
   ],
   "note": "REFUTED as stated: C38_flag_refuted (new_from_rotation flags a non-unit quaternion and its inverse is then the conjugate), C38_normalize_refuted (normalize sets the flag without orthogonalising the dual part), C38_is_normalized_refuted; holding part: C38_inverse_two_sided_partial for every dual quaternion whose flag is truthful, exact panic/None conditions, C38_normalize_partial, and the constructors whose flag is truthful; C38_is_normalized_sound and _complete say exactly what is_normalized() accepts"
  },
  {
   "property": "C39",
   "status": "partial",
   "theorems": [
    "C39_screw_round_trip",
    "C39_screw_axis",
    "C39_screw_parameters",
    "C39_pow_partial",
    "C39_pow_nat_partial",
    "C39_pow_translation",
    "C39_pow_one_refuted"
   ],
   "note": "REFUTED as stated for rotations within the tolerance: C39_pow_one_refuted (pow(1) of a pure translation doubles it, C39_pow_translation); holding part: screw parameters both round trips and their geometric meaning, pow laws (C39_pow_partial, C39_pow_nat_partial) whenever the rotation part is non-zero and its angle above the tolerance"
  },
  {
   "property": "C40",
   "status": "partial",
   "theorems": [
    "C40_screw_motion_partial",
    "C40_endpoints_partial",
    "C40_start_refuted",
    "C40_end_refuted"
   ],
   "note": "REFUTED as stated: C40_start_refuted (only the real part is negated, so the translation of the start is negated), C40_end_refuted (relative motion a pure translation); holding part: C40_endpoints_partial and C40_screw_motion_partial"
  },
  {
   "property": "C41",
   "status": "partial",
   "theorems": [
    "C41_div_mul_partial",
    "C41_div_panic_iff",
    "C41_div_refuted"
   ],
   "note": "REFUTED as stated: C41_div_refuted; holding part: real part always, everything when the real part of the divisor commutes with both dual parts (C41_div_mul_partial); exact panic condition C41_div_panic_iff"
  },
  {
   "property": "C42",
   "status": "proved",
   "theorems": [
    "C42_parts_round_trip",
    "C42_parts_SE3",
    "C42_homogeneous_SE3",
    "C42_SE3_mul",
    "C42_SE3_identity",
    "C42_inverse",
    "C42_point",
    "C42_inverse_agrees",
    "C42_inverse_transform",
    "C42_from_quaternion"
   ],
   "note": "ring-level laws over every commutative ring; agreement with inverse() over the reals"
  },
  {
   "property": "C43",
   "status": "proved",
   "theorems": [
    "C43_skew_round_trip",
    "C43_skew_cross",
    "C43_skew_antisymmetric",
    "C43_skew_from_to",
    "C43_skew_linear",
    "C43_skew_bracket",
    "C43_twist_round_trip",
    "C43_twist_se3",
    "C43_se3_round_trip",
    "C43_se3_parts",
    "C43_skew_scalar",
    "C43_skew_v6",
    "C43_skew_v6_twist",
    "C43_skew_aug"
   ],
   "note": "over every commutative ring"
  },
  {
   "property": "C44",
   "status": "proved",
   "theorems": [
    "C44_axis_angle_rodrigues",
    "C44_exponential",
    "C44_exponential_tiny",
    "C44_axis_angle",
    "C44_total"
   ],
   "note": "C44_exponential: sum of the series and SO(3) for |vec A| >= epsilon; C44_exponential_tiny: below the tolerance the result is the identity, within 2*epsilon of the exponential. C44_total: never panics."
  },
  {
   "property": "C45",
   "status": "partial",
   "theorems": [
    "C45_log_skew",
    "C45_exp_log_partial",
    "C45_exp_log_tiny",
    "C45_log_exp",
    "C45_exp_log_refuted",
    "C45_log_series"
   ],
   "note": "REFUTED as stated: C45_exp_log_refuted (half turn about x: the third branch of matrix_log adds one to the wrong entry). Holding part: C45_exp_log_partial (identity or angle >= epsilon, and at half turns 1 + r22 or 1 + r11 >= epsilon), C45_exp_log_tiny (angle below epsilon), C45_log_series (matrix_log is a logarithm in the sense of the series, no tolerance), C45_log_exp, C45_log_skew."
  },
  {
   "property": "C46",
   "status": "partial",
   "theorems": [
    "C46_exponential_partial",
    "C46_translation_refuted",
    "C46_log_series",
    "C46_exp_log_partial",
    "C46_log_exp",
    "C46_exp_log_refuted",
    "C46_total"
   ],
   "note": "REFUTED as stated: C46_translation_refuted and C46_exp_log_refuted (every pure translation: the result carries a stray one at entry (0,2) and is no rigid motion). Holding part: C46_exponential_partial (rotation part of norm >= epsilon), C46_log_series (matrix_log6 is a logarithm in the sense of the series, pure translations included), C46_exp_log_partial, C46_log_exp (log after exp, below a half turn), C46_total."
  },
  {
   "property": "C47",
   "status": "proved",
   "theorems": [
    "C47_adjoint_total",
    "C47_adjoint_identity",
    "C47_adjoint_mul",
    "C47_adjoint_conjugation"
   ],
   "note": "over every commutative ring"
  },
  {
   "property": "C48",
   "status": "proved",
   "theorems": [
    "C48_eigenvalues",
    "C48_eigenvalues_vieta"
   ],
   "note": "all real 2x2 matrices"
  },
  {
   "property": "C49",
   "status": "proved",
   "theorems": [
    "C49_dot_exact",
    "C49_mul_v_exact",
    "C49_mul_exact",
    "C49_det_exact"
   ],
   "note": "every IEEE format; determinants under n! K^n <= 2^prec"
  },
  {
   "property": "C50",
   "status": "proved",
   "theorems": [
    "C50_dot_error",
    "C50_mul_v_error",
    "C50_mul_error",
    "C50_gamma"
   ],
   "note": "every IEEE format; also matrix products and matrix-vector products; finiteness of the result is the only hypothesis"
  },
  {
   "property": "C51",
   "status": "proved",
   "theorems": [
    "C51_distance_nonneg",
    "C51_distance_zero_iff",
    "C51_distance_infinite",
    "C51_distance_value"
   ],
   "note": "all real 3x3 matrices; infinity is a large number in the real model"
  },
  {
   "property": "C52",
   "status": "proved",
   "theorems": [
    "C52_rot2_SO2",
    "C52_rot2_add",
    "C52_rot2_0",
    "C52_ksi_split",
    "C52_ksi_compose",
    "C52_translation_2d",
    "C52_translation_3d",
    "C52_rot_add"
   ],
   "note": "all angles and displacements"
  },
  {
   "property": "C53",
   "status": "proved",
   "theorems": [
    "C53_derivative",
    "C53_tangent"
   ],
   "note": "derivable_pt_lim of every component"
  },
  {
   "property": "C54",
   "status": "proved",
   "theorems": [
    "C54_inverse",
    "C54_qr",
    "C54_normalize",
    "C54_lu_panic_iff",
    "C54_find_max_min_panic_iff",
    "C54_rotation_panic_iff",
    "C54_matrix_exponential",
    "C54_quat_div_panic_iff",
    "C54_rot_trans_panic_iff",
    "C54_dual_inverse_panic_iff",
    "C54_dual_div_panic_iff",
    "C54_screw_lerp_panic_iff",
    "C54_log_panic_iff",
    "C54_new_from_homogeneous_panic_iff",
    "C54_sin_panic_iff",
    "C54_float_lu_panic_iff"
   ],
   "note": "any scalar type; indexing, slices of different lengths, get_submatrix, copy_elements_from and adjoint: C15_*, C60_*_panic_iff, C16_*_panic, C47_adjoint_total"
  },
  {
   "property": "C55",
   "status": "proved",
   "theorems": [
    "C55_sin_total",
    "C55_sin_cos",
    "C55_pythagoras"
   ],
   "note": "the tolerance zones are part of the statement"
  },
  {
   "property": "C56",
   "status": "partial",
   "theorems": [
    "C56_log",
    "C56_log_total_refuted"
   ],
   "note": "REFUTED in the last clause: C56_log_total_refuted (pure translations and the identity panic); C56_log gives the value and the exact None/panic conditions"
  },
  {
   "property": "C57",
   "status": "proved",
   "theorems": [
    "C57_div_entry",
    "C57_vdiv_entry",
    "C57_quat_div_entry",
    "C57_div_scale",
    "C57_vdiv_scale",
    "C57_quat_div_scale"
   ],
   "note": "entrywise over any scalar; cancellation over the reals"
  },
  {
   "property": "C58",
   "status": "proved",
   "theorems": [
    "C58_is_zero",
    "C58_vis_zero",
    "C58_eq",
    "C58_veq",
    "C58_zeros_is_zero",
    "C58_ones",
    "C58_is_zero_R"
   ],
   "note": "any scalar type; == needs a lawful scalar equality; IEEE floats: see C69"
  },
  {
   "property": "C59",
   "status": "partial",
   "theorems": [
    "C59_eq_iff",
    "C59_dual_eq_iff",
    "C59_is_zero_partial",
    "C59_dual_is_zero_partial",
    "C59_eq_refuted",
    "C59_dual_eq_refuted",
    "C59_is_zero_refuted"
   ],
   "note": "REFUTED as stated: C59_eq_refuted, C59_dual_eq_refuted (one() * one() != one()), C59_is_zero_refuted (a zero dual quaternion built from a rotation is not is_zero()); the derived PartialEq also compares the normalized flags. Holding part: C59_eq_iff, C59_dual_eq_iff (exact characterisation), C59_is_zero_partial, C59_dual_is_zero_partial."
  },
  {
   "property": "C60",
   "status": "proved",
   "theorems": [
    "C60_dot_panic_iff",
    "C60_project_panic_iff",
    "C60_dot",
    "C60_project"
   ],
   "note": "panic conditions over any scalar, value over every ring, projection over the reals"
  },
  {
   "property": "C61",
   "status": "proved",
   "theorems": [
    "C61_quaternion_parts",
    "C61_dual_parts",
    "C61_parts_agree",
    "C61_array_motion"
   ],
   "note": ""
  },
  {
   "property": "C62",
   "status": "proved",
   "theorems": [
    "C62_to_euler_round_trip",
    "C62_to_euler_approx",
    "C62_get_parts"
   ],
   "note": "real arithmetic; proviso gimbal_ok part of the statement, approximate version unconditional"
  },
  {
   "property": "C63",
   "status": "proved",
   "theorems": [
    "C63_axis_velocity",
    "C63_axis_point",
    "C63_axis_moved",
    "C63_screw_motion"
   ],
   "note": "kinematics over every ring, motion over the reals for |theta| >= eps"
  },
  {
   "property": "C64",
   "status": "proved",
   "theorems": [
    "C64_axis_angle",
    "C64_axis_angle_panic_iff",
    "C64_axis_angle6_rotation",
    "C64_axis_angle6_translation"
   ],
   "note": "real arithmetic; the zero twist (0/0) is excluded"
  },
  {
   "property": "C65",
   "status": "proved",
   "theorems": [
    "C65_rotation_inverse"
   ],
   "note": "real arithmetic"
  },
  {
   "property": "C66",
   "status": "proved",
   "theorems": [
    "C66_scale_one",
    "C66_mul_identity",
    "C66_mul_v_identity",
    "C66_same_value",
    "C66_zero"
   ],
   "note": "every IEEE format with one NaN"
  },
  {
   "property": "C67",
   "status": "partial",
   "theorems": [
    "C67_transpose_mul_partial",
    "C67_transpose_mul4_partial",
    "C67_transpose_mul4_refuted"
   ],
   "note": "REFUTED as stated for size 4: C67_transpose_mul4_refuted (f64; row 2 of the 4x4 product sums its terms in another order than the other rows). Holding part: C67_transpose_mul_partial (sizes 2, 3, 5, 6), C67_transpose_mul4_partial (entries of size 4 outside row and column 2)"
  },
  {
   "property": "C68",
   "status": "proved",
   "theorems": [
    "C68_epsilon",
    "C68_inverse_none_iff",
    "C68_inverse_nan",
    "C68_qr_none_iff"
   ],
   "note": ""
  },
  {
   "property": "C69",
   "status": "proved",
   "theorems": [
    "C69_eq_reflexive_iff",
    "C69_eq_symmetric",
    "C69_compare_iff",
    "C69_compare_symmetric",
    "C69_compare_reflexive_iff"
   ],
   "note": ""
  },
  {
   "property": "C70",
   "status": "proved",
   "theorems": [
    "C70_vector_text",
    "C70_matrix_text",
    "C70_quaternion_text",
    "C70_dual_text"
   ],
   "note": "Write errors of the formatter are not modelled; how one element is shown under a padding/precision spec is a parameter."
  },
  {
   "property": "C71",
   "status": "partial",
   "theorems": [
    "C71_no_output_partial",
    "C71_matrix_prints",
    "C71_no_output_refuted"
   ],
   "note": "REFUTED as stated: theorem C71_no_output_refuted (every matrix size calls println!()); C71_matrix_prints states exactly what is printed; holding part C71_no_output_partial (vectors, quaternions, dual quaternions)."
  },
  {
   "property": "C72",
   "status": "proved",
   "theorems": [
    "C72_shape",
    "C72_bitand",
    "C72_from_array",
    "C72_new_from",
    "C72_zeros",
    "C72_m22",
    "C72_axes"
   ],
   "note": "Constants are f32 in the code; here over every scalar type."
  },
  {
   "property": "C73",
   "status": "proved",
   "theorems": [
    "C73_normalize",
    "C73_inverse",
    "C73_div",
    "C73_rotation",
    "C73_rotation_norm_encoded",
    "C73_from_euler_angles",
    "C73_get_angle",
    "C73_get_axis",
    "C73_normalize_q",
    "C73_argq",
    "C73_exp",
    "C73_ln",
    "C73_sqrt",
    "C73_pow",
    "C73_sin",
    "C73_cos",
    "C73_slerp",
    "C73_from_rotation",
    "C73_dual_inverse",
    "C73_dual_div",
    "C73_dual_normalize",
    "C73_dual_is_normalized",
    "C73_dual_log",
    "C73_dual_rot_trans",
    "C73_dual_homogeneous",
    "C73_dual_translation",
    "C73_dual_array",
    "C73_new_from_screw",
    "C73_axis_angle",
    "C73_exponential",
    "C73_exponential6",
    "C73_axis_angle6",
    "C73_log",
    "C73_rotation_to_euler",
    "C73_to_euler_angles",
    "C73_get_parts",
    "C73_inverse_transform",
    "C73_is_rotation",
    "C73_is_rotation_h",
    "C73_distance_to_manifold"
   ],
   "note": "ProofsDefined*.v, over the error-valued reals of InstE.v."
  },
  {
   "property": "C74",
   "status": "partial",
   "theorems": [
    "C74_screw_parameters_partial",
    "C74_pow_partial",
    "C74_log6_partial",
    "C74_screw_lerp_partial",
    "C74_screw_lerp_refuted",
    "C74_pow_refuted",
    "C74_screw_parameters_refuted",
    "C74_log6_refuted"
   ],
   "note": "REFUTED as stated: C74_screw_parameters_refuted and C74_log6_refuted (half turns: tangent pole), C74_pow_refuted (scalar part -1), C74_screw_lerp_refuted (a half-turn pose interpolated to itself is 0/0). The exact set of inputs on which each is defined: C74_screw_parameters_partial, C74_log6_partial, C74_pow_partial, C74_screw_lerp_partial (equivalences)."
  },
  {
   "property": "C75",
   "status": "partial",
   "theorems": [
    "C75_quat_trusted",
    "C75_dual_trusted",
    "C75_dual_untrusted",
    "C75_quat_flagged",
    "C75_quat_unflagged",
    "C75_dual_flagged",
    "C75_dual_unflagged",
    "C75_log_refuted"
   ],
   "note": "REFUTED as stated in its last sentence: C75_log_refuted (the product of two rotations has log() = None); C75_dual_untrusted says log() is None for every untrusted value. Everything else is proved: C75_quat_trusted, C75_dual_trusted, C75_quat_flagged, C75_dual_flagged, C75_quat_unflagged, C75_dual_unflagged."
  },
  {
   "property": "C76",
   "status": "proved",
   "theorems": [
    "C76_debug_add_iff",
    "C76_debug_sub_iff",
    "C76_debug_scale_iff",
    "C76_debug_neg_iff",
    "C76_div_iff",
    "C76_div_scale",
    "C76_debug_dot_iff",
    "C76_debug_mul_v_iff",
    "C76_debug_mul_iff",
    "C76_debug_mul_bound",
    "C76_debug_quat_exact",
    "C76_debug_quat_bound",
    "C76_debug_dual_exact",
    "C76_debug_dual_bound",
    "C76_debug_rotate",
    "C76_release_mul",
    "C76_release_mul_v",
    "C76_release_dot",
    "C76_release_linear",
    "C76_release_quat",
    "C76_release_dual",
    "C76_debug_release",
    "C76_release_ring"
   ],
   "note": "InstI.v, ProofsInt.v; evaluation is strict, so a function panics when one of its components does; quaternion statements for signed types; determinant, inverse etc. need T: Float and do not exist for integers."
  },
  {
   "property": "C77",
   "status": "proved",
   "theorems": [
    "C77_scalar_div",
    "C77_inverse",
    "C77_qr",
    "C77_lu",
    "C77_norm2",
    "C77_real_eigenvals",
    "C77_vnorm2",
    "C77_vdiv",
    "C77_vnormalize",
    "C77_slice_norm2",
    "C77_slice_normalize",
    "C77_project"
   ],
   "note": ""
  },
  {
   "property": "C78",
   "status": "proved",
   "theorems": [
    "C78_new_from",
    "C78_deref",
    "C78_row_read",
    "C78_row_write"
   ],
   "note": ""
  },
  {
   "property": "C79",
   "status": "proved",
   "theorems": [
    "C79_exp_series",
    "C79_sin_cos_series"
   ],
   "note": "the tolerance zones are part of the statement; the Cauchy product used in the proof is from Coquelicot"
  },
  {
   "property": "C80",
   "status": "proved",
   "theorems": [
    "C80_det_error",
    "C80_det_error_max",
    "C80_det_sign",
    "C80_inverse_gate",
    "C80_det_finite",
    "C80_cross_error",
    "C80_q_mul_error",
    "C80_q_mul_v_error",
    "C80_to_rotation_error"
   ],
   "note": "u is the unit roundoff 2^-prec; the hypotheses on the grid and on finiteness are part of the statement"
  },
  {
   "property": "C81",
   "status": "partial",
   "theorems": [
    "C81_norm2_error_partial",
    "C81_normalize_error_partial",
    "C81_q_norm2_error_partial",
    "C81_normalize_overflow_refuted",
    "C81_normalize_underflow_refuted"
   ],
   "note": "REFUTED as stated: theorems C81_normalize_overflow_refuted (a finite f64 vector of size 2^600 normalizes to the zero vector) and C81_normalize_underflow_refuted (size 2^-600: the norm is 0 and normalize answers Err). Holding part: C81_norm2_error_partial, C81_normalize_error_partial and C81_q_norm2_error_partial, with the stated bounds, whenever the entries are multiples of 2^q with 2q >= emin (the squares do not underflow) and the computed norm is finite."
  },
  {
   "property": "C82",
   "status": "proved",
   "theorems": [
    "C82_inverse_error",
    "C82_inverse_not_finite",
    "C82_inverse_residual",
    "C82_inverse_overflow"
   ],
   "note": "The bounds assume finite entries of the result; C82_inverse_overflow exhibits a finite invertible f64 matrix whose computed inverse has a zero diagonal."
  },
  {
   "property": "C83",
   "status": "partial",
   "theorems": [
    "C83_step",
    "C83_step_invariants",
    "C83_eigenvalues_partial",
    "C83_triangular",
    "C83_nearly_triangular",
    "C83_eigenvalues_refuted"
   ],
   "note": "REFUTED as stated: theorem C83_eigenvalues_refuted (check_elements is true when one entry is small, so the loop can stop at once with numbers that are no eigenvalues). Holding part: every iterate is orthogonally similar to the given matrix, so has its characteristic polynomial, trace and determinant (C83_step, C83_step_invariants, C83_eigenvalues_partial); a diagonal is made of eigenvalues when all entries below it are zero (C83_triangular), nearly when they are nearly zero (C83_nearly_triangular)."
  },
  {
   "property": "C84",
   "status": "proved",
   "theorems": [
    "C84_solve_error",
    "C84_check_error",
    "C84_solve",
    "C84_solve_none_iff",
    "C84_inverse_check"
   ],
   "note": "Exact part over the reals; C84_solve_error and C84_check_error for every IEEE format under the hypotheses of C82."
  },
  {
   "property": "C85",
   "status": "partial",
   "theorems": [
    "C85_turns",
    "C85_full_turns",
    "C85_quaternions_turns",
    "C85_quaternions_euler_partial",
    "C85_quaternions_euler_refuted",
    "C85_dual_quaternions",
    "C85_screw_parameters",
    "C85_transform_points"
   ],
   "note": "REFUTED as stated: theorem C85_quaternions_euler_refuted (at gimbal lock the roll comes back as zero). Holding part: C85_quaternions_euler_partial away from it (cosine of the pitch at least 4 epsilon), and all other programs without restriction; C85_transform_points shows that both sides agree because the program gives the point fourth coordinate 0, so that neither adds the translation."
  },
  {
   "property": "C86",
   "status": "proved",
   "theorems": [
    "C86_lu_panic_iff",
    "C86_lu_error"
   ],
   "note": "for every Flocq binary format; 1e-40 is a parameter of the model, nonzero by hypothesis in the error bound"
  },
  {
   "property": "C87",
   "status": "proved",
   "theorems": [
    "C87_cross_error",
    "C87_q_mul_error",
    "C87_q_mul_v_error",
    "C87_to_rotation_error",
    "C87_to_rotation_orthogonal",
    "C87_normalize",
    "C87_unit_rotation",
    "C87_rotate_length",
    "C87_normalized_rotation"
   ],
   "note": "for every Flocq binary format; the bounds after normalize() need precision >= 11 and emax >= 4 precision, met by f32 and f64"
  },
  {
   "property": "C88",
   "status": "partial",
   "theorems": [
    "C88_nearly_one_accepts",
    "C88_nearly_one_sound",
    "C88_is_rotation_h_unit",
    "C88_is_rotation_h_normalized",
    "C88_is_rotation_h_sound",
    "C88_is_rotation_refuted",
    "C88_shear_refuted",
    "C88_is_rotation_h_f32_refuted"
   ],
   "note": "REFUTED as stated: theorem C88_is_rotation_refuted (the f64 matrix of the normalized quarter turn about z fails is_rotation, whose tolerance is epsilon) and C88_shear_refuted (a scaled shear of determinant one passes both tests); holding part: C88_is_rotation_h_normalized (is_rotation_h accepts the homogeneous matrix of every normalized quaternion with any translation up to 2^(emax-20)), C88_is_rotation_h_unit (the same from |b.b - 1| <= d), C88_is_rotation_h_sound (an accepted matrix has both computed determinants within 3e-6 of one), C88_nearly_one_accepts and C88_nearly_one_sound (nearly_equal against one, both directions). The acceptance holds for every IEEE format whose 1e-6 is at least 18056 unit roundoffs (f64); for f32 it fails: C88_is_rotation_h_f32_refuted gives a normalized quaternion whose homogeneous matrix is rejected."
  },
  {
   "property": "C89",
   "status": "partial",
   "theorems": [
    "C89_qr_r_error",
    "C89_qr_residual",
    "C89_qr_columns",
    "C89_qr_refuted",
    "C89_qr_nan_refuted"
   ],
   "note": "REFUTED as stated: C89_qr_refuted is a 3x3 f64 matrix with finite Q and R, two columns of Q whose dot product exceeds 0.7 and an entry of Q R that is 2560 where the input has 1024; C89_qr_nan_refuted is a diagonal matrix with finite entries whose Q holds a NaN and an infinity. Holding parts, in every IEEE format and size: R is the rounded product of Q transposed and the input with an explicit bound (C89_qr_r_error); Q R differs from the input by at most the distance of Q Q^T from the identity times the input plus rounding (C89_qr_residual); every column of Q is the projected vector divided by its computed norm, and is a unit vector within (9n/8 + 9/2)u when that norm neither overflows nor underflows (C89_qr_columns)."
  },
  {
   "property": "C90",
   "status": "proved",
   "theorems": [
    "C90_slice_normalize",
    "C90_vector_normalize"
   ],
   "note": "C90_slice_normalize, C90_vector_normalize; the failures outside the range of the norm are C81_*_refuted."
  },
  {
   "property": "C91",
   "status": "proved",
   "theorems": [
    "C91_product_drift",
    "C91_product_rotation",
    "C91_compose_matrices",
    "C91_compose_vectors",
    "C91_normalize_near"
   ],
   "note": "u = 2^-prec is the rounding unit, eta half the smallest positive float"
  },
  {
   "property": "C92",
   "status": "partial",
   "theorems": [
    "C92_round_trip",
    "C92_round_trip_back",
    "C92_inverse_product",
    "C92_quaternion",
    "C92_inverse_transform_refuted"
   ],
   "note": "REFUTED as stated: C92_inverse_transform_refuted (the translation of the inverse matrix overflows and is multiplied by zero: NaN where the answer is zero). Holding part, with the range hypothesis: C92_round_trip, C92_round_trip_back, C92_inverse_product, C92_quaternion."
  },
  {
   "property": "C93",
   "status": "partial",
   "theorems": [
    "C93_eigenvalues",
    "C93_diagonal_refuted",
    "C93_complex_refuted",
    "C93_nan_refuted",
    "C93_small_refuted"
   ],
   "note": "REFUTED as stated: C93_diagonal_refuted (the diagonal matrix 1 + 2^-52, 1 is given None), C93_complex_refuted (a matrix without real eigenvalues is given two), C93_nan_refuted (finite entries, NaN eigenvalues) and C93_small_refuted (an invertible diagonal matrix is given the eigenvalue 0); the holding part, with the bounds of the statement, is C93_eigenvalues."
  },
  {
   "property": "C94",
   "status": "partial",
   "theorems": [
    "C94_translation",
    "C94_translation_array",
    "C94_translation_normalized",
    "C94_compose",
    "C94_inverse",
    "C94_pure_translation",
    "C94_is_normalized_refuted"
   ],
   "note": "REFUTED in its last sentence: C94_is_normalized_refuted (two f64 motions made by new_from_rot_trans, accepted with and without their flag, whose product is rejected); the bounds are C94_translation, C94_translation_array, C94_translation_normalized, C94_compose, C94_inverse and C94_pure_translation."
  },
  {
   "property": "C95",
   "status": "proved",
   "theorems": [
    "C95_from_rotation",
    "C95_matrix_round_trip",
    "C95_quaternion_round_trip",
    "C95_new_from_homogeneous"
   ],
   "note": ""
  },
  {
   "property": "C96",
   "status": "proved",
   "theorems": [
    "C96_compose",
    "C96_product",
    "C96_near_rot",
    "C96_elementary",
    "C96_euler_to_rotation",
    "C96_from_euler_angles",
    "C96_quaternion_matrix",
    "C96_euler_agree",
    "C96_rotation",
    "C96_axis_angle",
    "C96_axis_angle_direction",
    "C96_exponential",
    "C96_rotation_norm_encoded",
    "C96_rotation_agree"
   ],
   "note": "sine and cosine enter through their error at the angles used (trig_ok); the Examples instantiate it with correctly rounded functions; the sequence YZX is excluded because the code multiplies other axes (C30)"
  },
  {
   "property": "C97",
   "status": "proved",
   "theorems": [
    "C97_compose",
    "C97_apply",
    "C97_from_rotation",
    "C97_inverse",
    "C97_chain",
    "C97_dual_quaternion",
    "C97_round_trip"
   ],
   "note": "One product, chains, application to a point, the inverse, assembly, and the passage through dual quaternions. The real matrices compared with are rigid motions; the bounds are worst case and do not track cancellation of errors."
  },
  {
   "property": "C98",
   "status": "partial",
   "theorems": [
    "C98_regular_partial",
    "C98_lock",
    "C98_quaternion_partial",
    "C98_round_trip_refuted"
   ],
   "note": "REFUTED as stated: theorem C98_round_trip_refuted; holding parts C98_regular_partial (error grows as 1/cos pitch), C98_quaternion_partial and C98_lock (gimbal lock branch)"
  },
  {
   "property": "C99",
   "status": "partial",
   "theorems": [
    "C99_regular_partial",
    "C99_exp_log_partial",
    "C99_half_turn_refuted",
    "C99_small_refuted"
   ],
   "note": "REFUTED as stated: theorems C99_half_turn_refuted (the logarithm of a half turn computed as zero) and C99_small_refuted (small rotations lost); holding parts C99_regular_partial and C99_exp_log_partial (error grows as 1/sin^2 of the angle)"
  },
  {
   "property": "C100",
   "status": "partial",
   "theorems": [
    "C100_pow_nan",
    "C100_pow_rotation_partial",
    "C100_screw_lerp_refuted"
   ],
   "note": "REFUTED as stated: theorem C100_screw_lerp_refuted (a pose whose interpolation with itself is NaN), explained in general by C100_pow_nan. Holding part: C100_pow_rotation_partial bounds the rotation part of a power; the dual part is missing."
  },
  {
   "property": "C101",
   "status": "partial",
   "theorems": [
    "C101_slerp_partial",
    "C101_same_refuted",
    "C101_zero_refuted",
    "C101_swapped_refuted"
   ],
   "note": "REFUTED as stated: theorems C101_same_refuted (the first argument is returned at t = 1), C101_zero_refuted (zero quaternion) and C101_swapped_refuted (components change places). Holding part: C101_slerp_partial, accuracy of the regular branch for both signs of the inner product."
  },
  {
   "property": "C102",
   "status": "partial",
   "theorems": [
    "C102_angle",
    "C102_axis",
    "C102_round_trip",
    "C102_small_refuted"
   ],
   "note": "REFUTED as stated: theorem C102_small_refuted (non-zero vector part, angle zero, no axis). Holding parts: C102_angle, C102_axis and C102_round_trip."
  },
  {
   "property": "C103",
   "status": "partial",
   "theorems": [
    "C103_exp",
    "C103_ln",
    "C103_exp_ln",
    "C103_sqrt",
    "C103_ln_refuted"
   ],
   "note": "REFUTED as stated: theorem C103_ln_refuted gives a quaternion next to -1 whose logarithm points along the first axis; holding part C103_exp, C103_ln (with division by sin h), C103_exp_ln and C103_sqrt (both for every angle)"
  },
  {
   "property": "C104",
   "status": "partial",
   "theorems": [
    "C104_exponential6",
    "C104_translation_refuted",
    "C104_small_refuted"
   ],
   "note": "REFUTED as stated: theorems C104_translation_refuted (turns below epsilon) and C104_small_refuted (loss of accuracy for small turns); holding part C104_exponential6 (explicit bound on rotation and translation for all turns up to 7)"
  },
  {
   "property": "C105",
   "status": "partial",
   "theorems": [
    "C105_regular_partial",
    "C105_half_turn_refuted"
   ],
   "note": "REFUTED as stated: theorem C105_half_turn_refuted (a half turn is read as a pure translation); holding part C105_regular_partial (explicit bound on both parts for all turns away from 0 and pi). Turns with sin^2 t below 100(E + e + 5u) are not bounded."
  },
  {
   "property": "C106",
   "status": "proved",
   "theorems": [
    "C106_adjoint",
    "C106_twist"
   ],
   "note": "C106_adjoint (finite entries, blocks and their error), C106_twist (error of a moved twist)."
  },
  {
   "property": "C107",
   "status": "proved",
   "theorems": [
    "C107_derivative",
    "C107_screw_to_axis",
    "C107_rot2",
    "C107_ksi"
   ],
   "note": "C107_rot2, C107_ksi, C107_screw_to_axis, C107_derivative; fits x says that x is finite and at most 2^(emax-10) in magnitude, emb (0, w) embeds a vector as a quaternion."
  }
 ]
}