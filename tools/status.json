{
"C01": {
"status": "proved",
"note": "entry formula, ring laws, unit and zero, for every size and every commutative ring"
},
"C02": {
"status": "proved",
"note": "entry formula and linearity for every size and every commutative ring"
},
"C03": {
"status": "partial",
"note": "REFUTED as stated for size 3: C03_row_product_refuted, C03_mul_refuted (vector3.rs:202-212 computes M*v, C03_size3_column_product); the row product holds for sizes 2, 4, 5, 6 (the _partial theorems)"
},
"C04": {
"status": "proved",
"note": "all five hand-expanded determinants equal the Laplace expansion, over every commutative ring"
},
"C05": {
"status": "proved",
"note": "from C04 and the determinant theory for arbitrary n in RingDet.v"
},
"C06": {
"status": "proved",
"note": "all five sizes, exact real arithmetic"
},
"C07": {
"status": "partial",
"note": "REFUTED as stated: C07_inverse_refuted (invertible matrices with |det| < epsilon give None, every size); C07_inverse_none_iff is the exact condition, singular => None holds (C07_inverse_partial)"
},
"C08": {
"status": "proved",
"note": "entry law and involution for any element type; additivity and reversal of products over every commutative ring"
},
"C09": {
"status": "proved",
"note": "Frobenius norm laws, all five sizes, exact real arithmetic"
},
"C10": {
"status": "proved",
"note": "all five sizes, exact real arithmetic; C10_lu_perturbed says what happens to singular matrices"
},
"C100": {
"status": "partial",
"note": "REFUTED as stated: theorem C100_screw_lerp_refuted (a pose whose interpolation with itself is NaN), explained in general by C100_pow_nan. Holding part: C100_pow_rotation_partial bounds the rotation part of a power; the dual part is missing."
},
"C101": {
"status": "partial",
"note": "REFUTED as stated: theorems C101_same_refuted (the first argument is returned at t = 1), C101_zero_refuted (zero quaternion) and C101_swapped_refuted (components change places). Holding part: C101_slerp_partial, accuracy of the regular branch for both signs of the inner product."
},
"C102": {
"status": "partial",
"note": "REFUTED as stated: theorem C102_small_refuted (non-zero vector part, angle zero, no axis). Holding parts: C102_angle, C102_axis and C102_round_trip."
},
"C103": {
"status": "partial",
"note": "REFUTED as stated: theorem C103_ln_refuted gives a quaternion next to -1 whose logarithm points along the first axis; holding part C103_exp, C103_ln (with division by sin h), C103_exp_ln and C103_sqrt (both for every angle)"
},
"C104": {
"status": "partial",
"note": "REFUTED as stated: theorems C104_translation_refuted (turns below epsilon) and C104_small_refuted (loss of accuracy for small turns); holding part C104_exponential6 (explicit bound on rotation and translation for all turns up to 7)"
},
"C105": {
"status": "partial",
"note": "REFUTED as stated: theorem C105_half_turn_refuted (a half turn is read as a pure translation); holding part C105_regular_partial (explicit bound on both parts for all turns away from 0 and pi). Turns with sin^2 t below 100(E + e + 5u) are not bounded."
},
"C106": {
"status": "proved",
"note": "C106_adjoint (finite entries, blocks and their error), C106_twist (error of a moved twist)."
},
"C107": {
"status": "proved",
"note": "C107_rot2, C107_ksi, C107_screw_to_axis, C107_derivative; fits x says that x is finite and at most 2^(emax-10) in magnitude, emb (0, w) embeds a vector as a quaternion."
},
"C11": {
"status": "partial",
"note": "REFUTED as stated: C11_lu_panic_refuted (panics on non-zero matrices with zero first row), C11_lu_det_refuted / C11_lu_singular_refuted (non-zero determinant reported for singular matrices); exact panic condition C11_lu_panic_iff, determinant correct on invertible matrices (C11_lu_det_partial)"
},
"C12": {
"status": "proved",
"note": "all five sizes, exact real arithmetic"
},
"C13": {
"status": "proved",
"note": "for every size and element type"
},
"C14": {
"status": "proved",
"note": "for every size and every closure"
},
"C15": {
"status": "proved",
"note": "for every size and element type"
},
"C16": {
"status": "proved",
"note": "sizes 4, 5, 6, with the out-of-range panics"
},
"C17": {
"status": "proved",
"note": "all sizes over every commutative ring (ProofsRing); bit-for-bit float laws for every IEEE format (the C17_float theorems). Associativity fails for floats (C17_float_add_not_assoc)"
},
"C18": {
"status": "proved",
"note": "all vector sizes, exact real arithmetic"
},
"C19": {
"status": "proved",
"note": "all vector sizes and slices, exact real arithmetic; normalize fails exactly on the zero vector"
},
"C20": {
"status": "proved",
"note": "all identities over every commutative ring"
},
"C21": {
"status": "proved",
"note": "for every slice and every total order; empty slice panics"
},
"C22": {
"status": "partial",
"note": "REFUTED as stated: C22_norm_inf_refuted, C22_norm_inf_negative_refuted (no absolute value is taken); norm_l and the nonnegative case hold"
},
"C23": {
"status": "proved",
"note": "every IEEE format, single-NaN model; C23_relative_R gives the meaning between non-zero numbers in exact arithmetic"
},
"C24": {
"status": "partial",
"note": "REFUTED as stated: C24_compare_vecs_refuted (a longer second slice is ignored); the prefix comparison and check_elements hold"
},
"C25": {
"status": "partial",
"note": "REFUTED as stated: C25_is_rotation_refuted, C25_is_rotation_h_refuted (only determinants are tested; a stretch is accepted); every rotation is accepted and acceptance bounds the determinant"
},
"C26": {
"status": "proved",
"note": "over every commutative ring; division is C32"
},
"C27": {
"status": "proved",
"note": "over every commutative ring"
},
"C28": {
"status": "proved",
"note": "all of SO(3), exact real arithmetic; every branch has t >= 1 so no division by zero"
},
"C29": {
"status": "proved",
"note": "the tolerance of rotation_norm_encoded is part of the statement; that it makes the function differ from rotation below epsilon is C29_norm_encoded_always_refuted"
},
"C30": {
"status": "partial",
"note": "REFUTED as stated: C30_euler_sequences_refuted (YZX computes XYZ); the nine other sequences, SO(3) membership and from_euler_angles hold"
},
"C31": {
"status": "proved",
"note": "exact outside the gimbal tolerance and at gimbal lock, 8 epsilon everywhere; exactness everywhere is refuted (C31_exact_everywhere_refuted)"
},
"C32": {
"status": "partial",
"note": "REFUTED as stated: C32_flag_refuted (exp sets the flag of quaternions whose norm is not one, so inverse returns a wrong value); without exp/sqrt/pow the flag is right (C32_flag_partial), with them right up to 3 epsilon (C32_flag_approx). normalize, inverse, division, normalize_q are proved for every quaternion whose flag is honest"
},
"C33": {
"status": "partial",
"note": "REFUTED as stated inside the epsilon tolerance: C33_exp_ln_refuted, C33_ln_exp_refuted (error larger than 1 close to a half-turn), C33_sqrt_refuted, C33_exp_pure_unit_refuted; exact outside it (the _partial theorems), exp(ln q) within 2 epsilon |q| for every q (C33_exp_ln_approx)"
},
"C34": {
"status": "partial",
"note": "REFUTED as stated: C34_swapped_refuted, C34_zero_refuted (near-parallel branch); unit norm, end points and constant speed hold when the rotations are equal or the sine of the half angle is at least 1e-3"
},
"C35": {
"status": "proved",
"note": "over every commutative ring"
},
"C36": {
"status": "partial",
"note": "REFUTED as stated: C36_transform_point_refuted (transform_point drops the translation, C36_transform_point_rotates); to_homogeneous is multiplicative and acts as q*p + t"
},
"C37": {
"status": "proved",
"note": "over the reals; also the reverse round trip up to the double cover (C37_dual_round_trip), and the exact panic condition of new_from_rot_trans"
},
"C38": {
"status": "partial",
"note": "REFUTED as stated: C38_flag_refuted (new_from_rotation flags a non-unit quaternion and its inverse is then the conjugate), C38_normalize_refuted (normalize sets the flag without orthogonalising the dual part), C38_is_normalized_refuted; holding part: C38_inverse_two_sided_partial for every dual quaternion whose flag is truthful, exact panic/None conditions, C38_normalize_partial, and the constructors whose flag is truthful; C38_is_normalized_sound and _complete say exactly what is_normalized() accepts"
},
"C39": {
"status": "partial",
"note": "REFUTED as stated for rotations within the tolerance: C39_pow_one_refuted (pow(1) of a pure translation doubles it, C39_pow_translation); holding part: screw parameters both round trips and their geometric meaning, pow laws (C39_pow_partial, C39_pow_nat_partial) whenever the rotation part is non-zero and its angle above the tolerance"
},
"C40": {
"status": "partial",
"note": "REFUTED as stated: C40_start_refuted (only the real part is negated, so the translation of the start is negated), C40_end_refuted (relative motion a pure translation); holding part: C40_endpoints_partial and C40_screw_motion_partial"
},
"C41": {
"status": "partial",
"note": "REFUTED as stated: C41_div_refuted; holding part: real part always, everything when the real part of the divisor commutes with both dual parts (C41_div_mul_partial); exact panic condition C41_div_panic_iff"
},
"C42": {
"status": "proved",
"note": "ring-level laws over every commutative ring; agreement with inverse() over the reals"
},
"C43": {
"status": "proved",
"note": "over every commutative ring"
},
"C44": {
"status": "proved",
"note": "C44_exponential: sum of the series and SO(3) for |vec A| >= epsilon; C44_exponential_tiny: below the tolerance the result is the identity, within 2*epsilon of the exponential. C44_total: never panics."
},
"C45": {
"status": "partial",
"note": "REFUTED as stated: C45_exp_log_refuted (half turn about x: the third branch of matrix_log adds one to the wrong entry). Holding part: C45_exp_log_partial (identity or angle >= epsilon, and at half turns 1 + r22 or 1 + r11 >= epsilon), C45_exp_log_tiny (angle below epsilon), C45_log_series (matrix_log is a logarithm in the sense of the series, no tolerance), C45_log_exp, C45_log_skew."
},
"C46": {
"status": "partial",
"note": "REFUTED as stated: C46_translation_refuted and C46_exp_log_refuted (every pure translation: the result carries a stray one at entry (0,2) and is no rigid motion). Holding part: C46_exponential_partial (rotation part of norm >= epsilon), C46_log_series (matrix_log6 is a logarithm in the sense of the series, pure translations included), C46_exp_log_partial, C46_log_exp (log after exp, below a half turn), C46_total."
},
"C47": {
"status": "proved",
"note": "over every commutative ring"
},
"C48": {
"status": "proved",
"note": "all real 2x2 matrices"
},
"C49": {
"status": "proved",
"note": "every IEEE format; determinants under n! K^n <= 2^prec"
},
"C50": {
"status": "proved",
"note": "every IEEE format; also matrix products and matrix-vector products; finiteness of the result is the only hypothesis"
},
"C51": {
"status": "proved",
"note": "all real 3x3 matrices; infinity is a large number in the real model"
},
"C52": {
"status": "proved",
"note": "all angles and displacements"
},
"C53": {
"status": "proved",
"note": "derivable_pt_lim of every component"
},
"C54": {
"status": "proved",
"note": "any scalar type; indexing, slices of different lengths, get_submatrix, copy_elements_from and adjoint: C15_*, C60_*_panic_iff, C16_*_panic, C47_adjoint_total"
},
"C55": {
"status": "proved",
"note": "the tolerance zones are part of the statement"
},
"C56": {
"status": "partial",
"note": "REFUTED in the last clause: C56_log_total_refuted (pure translations and the identity panic); C56_log gives the value and the exact None/panic conditions"
},
"C57": {
"status": "proved",
"note": "entrywise over any scalar; cancellation over the reals"
},
"C58": {
"status": "proved",
"note": "any scalar type; == needs a lawful scalar equality; IEEE floats: see C69"
},
"C59": {
"status": "partial",
"note": "REFUTED as stated: C59_eq_refuted, C59_dual_eq_refuted (one() * one() != one()), C59_is_zero_refuted (a zero dual quaternion built from a rotation is not is_zero()); the derived PartialEq also compares the normalized flags. Holding part: C59_eq_iff, C59_dual_eq_iff (exact characterisation), C59_is_zero_partial, C59_dual_is_zero_partial."
},
"C60": {
"status": "proved",
"note": "panic conditions over any scalar, value over every ring, projection over the reals"
},
"C61": {
"status": "proved",
"note": ""
},
"C62": {
"status": "proved",
"note": "real arithmetic; proviso gimbal_ok part of the statement, approximate version unconditional"
},
"C63": {
"status": "proved",
"note": "kinematics over every ring, motion over the reals for |theta| >= eps"
},
"C64": {
"status": "proved",
"note": "real arithmetic; the zero twist (0/0) is excluded"
},
"C65": {
"status": "proved",
"note": "real arithmetic"
},
"C66": {
"status": "proved",
"note": "every IEEE format with one NaN"
},
"C67": {
"status": "partial",
"note": "REFUTED as stated for size 4: C67_transpose_mul4_refuted (f64; row 2 of the 4x4 product sums its terms in another order than the other rows). Holding part: C67_transpose_mul_partial (sizes 2, 3, 5, 6), C67_transpose_mul4_partial (entries of size 4 outside row and column 2)"
},
"C68": {
"status": "proved",
"note": ""
},
"C69": {
"status": "proved",
"note": ""
},
"C70": {
"status": "proved",
"note": "Write errors of the formatter are not modelled; how one element is shown under a padding/precision spec is a parameter."
},
"C71": {
"status": "partial",
"note": "REFUTED as stated: theorem C71_no_output_refuted (every matrix size calls println!()); C71_matrix_prints states exactly what is printed; holding part C71_no_output_partial (vectors, quaternions, dual quaternions)."
},
"C72": {
"status": "proved",
"note": "Constants are f32 in the code; here over every scalar type."
},
"C73": {
"status": "proved",
"note": "ProofsDefined*.v, over the error-valued reals of InstE.v."
},
"C74": {
"status": "partial",
"note": "REFUTED as stated: C74_screw_parameters_refuted and C74_log6_refuted (half turns: tangent pole), C74_pow_refuted (scalar part -1), C74_screw_lerp_refuted (a half-turn pose interpolated to itself is 0/0). The exact set of inputs on which each is defined: C74_screw_parameters_partial, C74_log6_partial, C74_pow_partial, C74_screw_lerp_partial (equivalences)."
},
"C75": {
"status": "partial",
"note": "REFUTED as stated in its last sentence: C75_log_refuted (the product of two rotations has log() = None); C75_dual_untrusted says log() is None for every untrusted value. Everything else is proved: C75_quat_trusted, C75_dual_trusted, C75_quat_flagged, C75_dual_flagged, C75_quat_unflagged, C75_dual_unflagged."
},
"C76": {
"status": "proved",
"note": "InstI.v, ProofsInt.v; evaluation is strict, so a function panics when one of its components does; quaternion statements for signed types; determinant, inverse etc. need T: Float and do not exist for integers."
},
"C77": {
"status": "proved",
"note": ""
},
"C78": {
"status": "proved",
"note": ""
},
"C79": {
"status": "proved",
"note": "the tolerance zones are part of the statement; the Cauchy product used in the proof is from Coquelicot"
},
"C80": {
"status": "proved",
"note": "u is the unit roundoff 2^-prec; the hypotheses on the grid and on finiteness are part of the statement"
},
"C81": {
"status": "partial",
"note": "REFUTED as stated: theorems C81_normalize_overflow_refuted (a finite f64 vector of size 2^600 normalizes to the zero vector) and C81_normalize_underflow_refuted (size 2^-600: the norm is 0 and normalize answers Err). Holding part: C81_norm2_error_partial, C81_normalize_error_partial and C81_q_norm2_error_partial, with the stated bounds, whenever the entries are multiples of 2^q with 2q >= emin (the squares do not underflow) and the computed norm is finite."
},
"C82": {
"status": "proved",
"note": "The bounds assume finite entries of the result; C82_inverse_overflow exhibits a finite invertible f64 matrix whose computed inverse has a zero diagonal."
},
"C83": {
"status": "partial",
"note": "REFUTED as stated: theorem C83_eigenvalues_refuted (check_elements is true when one entry is small, so the loop can stop at once with numbers that are no eigenvalues). Holding part: every iterate is orthogonally similar to the given matrix, so has its characteristic polynomial, trace and determinant (C83_step, C83_step_invariants, C83_eigenvalues_partial); a diagonal is made of eigenvalues when all entries below it are zero (C83_triangular), nearly when they are nearly zero (C83_nearly_triangular)."
},
"C84": {
"status": "proved",
"note": "Exact part over the reals; C84_solve_error and C84_check_error for every IEEE format under the hypotheses of C82."
},
"C85": {
"status": "partial",
"note": "REFUTED as stated: theorem C85_quaternions_euler_refuted (at gimbal lock the roll comes back as zero). Holding part: C85_quaternions_euler_partial away from it (cosine of the pitch at least 4 epsilon), and all other programs without restriction; C85_transform_points shows that both sides agree because the program gives the point fourth coordinate 0, so that neither adds the translation."
},
"C86": {
"status": "proved",
"note": "for every Flocq binary format; 1e-40 is a parameter of the model, nonzero by hypothesis in the error bound"
},
"C87": {
"status": "proved",
"note": "for every Flocq binary format; the bounds after normalize() need precision >= 11 and emax >= 4 precision, met by f32 and f64"
},
"C88": {
"status": "partial",
"note": "REFUTED as stated: theorem C88_is_rotation_refuted (the f64 matrix of the normalized quarter turn about z fails is_rotation, whose tolerance is epsilon) and C88_shear_refuted (a scaled shear of determinant one passes both tests); holding part: C88_is_rotation_h_normalized (is_rotation_h accepts the homogeneous matrix of every normalized quaternion with any translation up to 2^(emax-20)), C88_is_rotation_h_unit (the same from |b.b - 1| <= d), C88_is_rotation_h_sound (an accepted matrix has both computed determinants within 3e-6 of one), C88_nearly_one_accepts and C88_nearly_one_sound (nearly_equal against one, both directions). The acceptance holds for every IEEE format whose 1e-6 is at least 18056 unit roundoffs (f64); for f32 it fails: C88_is_rotation_h_f32_refuted gives a normalized quaternion whose homogeneous matrix is rejected."
},
"C89": {
"status": "partial",
"note": "REFUTED as stated: C89_qr_refuted is a 3x3 f64 matrix with finite Q and R, two columns of Q whose dot product exceeds 0.7 and an entry of Q R that is 2560 where the input has 1024; C89_qr_nan_refuted is a diagonal matrix with finite entries whose Q holds a NaN and an infinity. Holding parts, in every IEEE format and size: R is the rounded product of Q transposed and the input with an explicit bound (C89_qr_r_error); Q R differs from the input by at most the distance of Q Q^T from the identity times the input plus rounding (C89_qr_residual); every column of Q is the projected vector divided by its computed norm, and is a unit vector within (9n/8 + 9/2)u when that norm neither overflows nor underflows (C89_qr_columns)."
},
"C90": {
"status": "proved",
"note": "C90_slice_normalize, C90_vector_normalize; the failures outside the range of the norm are C81_*_refuted."
},
"C91": {
"status": "proved",
"note": "u = 2^-prec is the rounding unit, eta half the smallest positive float"
},
"C92": {
"status": "partial",
"note": "REFUTED as stated: C92_inverse_transform_refuted (the translation of the inverse matrix overflows and is multiplied by zero: NaN where the answer is zero). Holding part, with the range hypothesis: C92_round_trip, C92_round_trip_back, C92_inverse_product, C92_quaternion."
},
"C93": {
"status": "partial",
"note": "REFUTED as stated: C93_diagonal_refuted (the diagonal matrix 1 + 2^-52, 1 is given None), C93_complex_refuted (a matrix without real eigenvalues is given two), C93_nan_refuted (finite entries, NaN eigenvalues) and C93_small_refuted (an invertible diagonal matrix is given the eigenvalue 0); the holding part, with the bounds of the statement, is C93_eigenvalues."
},
"C94": {
"status": "partial",
"note": "REFUTED in its last sentence: C94_is_normalized_refuted (two f64 motions made by new_from_rot_trans, accepted with and without their flag, whose product is rejected); the bounds are C94_translation, C94_translation_array, C94_translation_normalized, C94_compose, C94_inverse and C94_pure_translation."
},
"C95": {
"status": "proved",
"note": ""
},
"C96": {
"status": "proved",
"note": "sine and cosine enter through their error at the angles used (trig_ok); the Examples instantiate it with correctly rounded functions; the sequence YZX is excluded because the code multiplies other axes (C30)"
},
"C97": {
"status": "proved",
"note": "One product, chains, application to a point, the inverse, assembly, and the passage through dual quaternions. The real matrices compared with are rigid motions; the bounds are worst case and do not track cancellation of errors."
},
"C98": {
"status": "partial",
"note": "REFUTED as stated: theorem C98_round_trip_refuted; holding parts C98_regular_partial (error grows as 1/cos pitch), C98_quaternion_partial and C98_lock (gimbal lock branch)"
},
"C99": {
"status": "partial",
"note": "REFUTED as stated: theorems C99_half_turn_refuted (the logarithm of a half turn computed as zero) and C99_small_refuted (small rotations lost); holding parts C99_regular_partial and C99_exp_log_partial (error grows as 1/sin^2 of the angle)"
}
}
