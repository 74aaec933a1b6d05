(** * The unit tests of src/dual_quaternion.rs, run on the model (tools/replay.py)

    Tests, not proofs: each runs one input. Where the source asserts under
    [if let Some(..)], the branch is required to be taken unless said otherwise. *)

From Coq Require Import ZArith List Bool.
From Flocq Require Import Core IEEE754.BinarySingleNaN.
From Verif Require Import Base Scalar Vec Mat2 Mat3 Mat4 Mat5 Mat6 MatLoops MatOps Slices Quat DualQuat Transf Ctor InstF InstI Replay.
Import ListNotations.
Open Scope Z_scope.

(** dual_quaternion.rs:515-521 *)
Example test_unity_product_dual_quaternion_test : (
  let unit_ := (dq_one (T:=f32)) in
  let expected_ := (dq_new_from_translation (v3_z_axis (T:=f32))) in
  let result_ := (dq_mul unit_ expected_) in
  Ok ((compare_dual_quaternions result_ expected_ (lit (13743895) (-37) : f32)))) = Ok true.
Proof. vm_compute. reflexivity. Qed.

(** dual_quaternion.rs:523-556 *)
Example test_dual_quaternion_creation_tests : (
  let dq_ := (dq_new_from_translation (v3_z_axis (T:=f32))) in
  let result_ := (dq_to_rotation_translation dq_) in
  let result2_ := (dq_to_quaternion_translation dq_) in
  let expected1_ := (v3_z_axis (T:=f32)) in
  if (arr_eq eqb) (snd result_) expected1_ then
  if (arr_eq eqb) (snd result2_) expected1_ then
  let expected2_ := (m33_identity (T:=f32)) in
  t4 <- as_vec 9 (fst result_) ;;
  t5 <- as_vec 9 expected2_ ;;
  if (compare_vecs (alist t4) (alist t5) (lit (13743895) (-37) : f32)) then
  let expected3_ := (q_one (T:=f32)) in
  if (nearly_equal (q_real (fst result2_)) (q_real expected3_) (lit (13743895) (-37) : f32)) then
  t7 <- aget (q_imag (fst result2_)) 0%nat ;;
  t8 <- aget (q_imag expected3_) 0%nat ;;
  if (nearly_equal t7 t8 (lit (13743895) (-37) : f32)) then
  t9 <- aget (q_imag (fst result2_)) 1%nat ;;
  t10 <- aget (q_imag expected3_) 1%nat ;;
  if (nearly_equal t9 t10 (lit (13743895) (-37) : f32)) then
  t11 <- aget (q_imag (fst result2_)) 2%nat ;;
  t12 <- aget (q_imag expected3_) 2%nat ;;
  Ok ((nearly_equal t11 t12 (lit (13743895) (-37) : f32)))
  else Ok false
  else Ok false
  else Ok false
  else Ok false
  else Ok false
  else Ok false) = Ok true.
Proof. vm_compute. reflexivity. Qed.

(** dual_quaternion.rs:558-571 *)
Example test_dual_quaternion_test_norm : (
  let dq_ := (dq_new_from_vecs (v4_new_from (lit (1) (0) : f32) (lit (1) (1) : f32) (lit (3) (0) : f32) (lit (1) (2) : f32)) (v4_new_from (lit (5) (0) : f32) (lit (3) (1) : f32) (lit (7) (0) : f32) (lit (1) (3) : f32))) in
  let one_ := (dq_one (T:=f32)) in
  t2 <- unwrap (dq_normalize dq_) ;;
  let normalized_ := t2 in
  if (dq_is_normalized normalized_) then
  if (dq_is_normalized one_) then
  t3 <- unwrap (dq_normalize one_) ;;
  Ok ((compare_dual_quaternions one_ t3 (lit (13743895) (-37) : f32)))
  else Ok false
  else Ok false) = Ok true.
Proof. vm_compute. reflexivity. Qed.

(** dual_quaternion.rs:574-585 *)
Example test_homogeneous_conversions : (
  let q_ := (q_from_euler_angles (to_radians (lit (5) (1) : f32)) (to_radians (lit (5) (1) : f32)) (to_radians (lit (5) (1) : f32))) in
  let expected_ := (homogeneous_from_quaternion q_ (v3_new_from (lit (1) (0) : f32) (lit (1) (1) : f32) (lit (3) (0) : f32))) in
  t1 <- dq_new_from_homogeneous expected_ ;;
  let result_ := (dq_to_homogeneous t1) in
  t2 <- as_vec 16 result_ ;;
  t3 <- as_vec 16 expected_ ;;
  Ok ((compare_vecs (alist t2) (alist t3) (lit (13743895) (-37) : f32)))) = Ok true.
Proof. vm_compute. reflexivity. Qed.

(** dual_quaternion.rs:587-606 *)
Example test_conjugate_product_test : (
  let q1_ := (q_from_euler_angles (to_radians (lit (5) (1) : f32)) (to_radians (lit (5) (1) : f32)) (to_radians (lit (5) (1) : f32))) in
  let q2_ := (q_from_euler_angles (to_radians (lit (15) (1) : f32)) (to_radians (lit (5) (1) : f32)) (to_radians (lit (15) (1) : f32))) in
  t2 <- dq_new_from_rot_trans q1_ (v3_x_axis (T:=f32)) ;;
  let dq1_ := t2 in
  t4 <- dq_new_from_rot_trans q2_ (v3_z_axis (T:=f32)) ;;
  let dq2_ := t4 in
  let result_ := (dq_conj (dq_mul dq1_ dq2_)) in
  let expected_ := (dq_mul (dq_conj dq2_) (dq_conj dq1_)) in
  Ok ((compare_dual_quaternions result_ expected_ (lit (13743895) (-37) : f32)))) = Ok true.
Proof. vm_compute. reflexivity. Qed.

(** dual_quaternion.rs:609-634 *)
Example test_combined_transformations_tests : (
  let rot_ := (euler_to_rotation (to_radians (lit (5) (1) : f32)) (to_radians (lit (5) (1) : f32)) (to_radians (lit (5) (1) : f32)) None) in
  let q_ := (q_from_euler_angles (to_radians (lit (5) (1) : f32)) (to_radians (lit (5) (1) : f32)) (to_radians (lit (5) (1) : f32))) in
  let t_pure_ := (dq_new_from_translation (v3_x_axis (T:=f32))) in
  let r_pure_ := (dq_new_from_rotation q_) in
  t3 <- dq_new_from_rot_trans q_ (v3_x_axis (T:=f32)) ;;
  let expected_ := t3 in
  let result1_ := (dq_mul t_pure_ r_pure_) in
  let r_pure2_ := (dq_new_from_rotation_matrix rot_) in
  let result2_ := (dq_mul t_pure_ r_pure2_) in
  if (compare_dual_quaternions result1_ expected_ (lit (13743895) (-37) : f32)) then
  Ok ((compare_dual_quaternions result2_ expected_ (lit (13743895) (-37) : f32)))
  else Ok false) = Ok true.
Proof. vm_compute. reflexivity. Qed.

(** dual_quaternion.rs:638-650 *)
Example test_dual_quaternion_inverse_test : (
  let q_ := (q_from_euler_angles (to_radians (lit (5) (1) : f32)) (to_radians (lit (5) (1) : f32)) (to_radians (lit (5) (1) : f32))) in
  t2 <- dq_new_from_rot_trans q_ (v3_x_axis (T:=f32)) ;;
  let dq_ := t2 in
  t3 <- dq_inverse dq_ ;;
  let result_ := (dq_mul t3 dq_) in
  let expected_ := (dq_one (T:=f32)) in
  Ok ((compare_dual_quaternions result_ expected_ (lit (13743895) (-37) : f32)))) = Ok true.
Proof. vm_compute. reflexivity. Qed.

(** dual_quaternion.rs:654-679 *)
Example test_dual_quaternion_transformation_inverse : (
  let t_1_2_ := ([| [| (B754_zero false : f32); (lit (1) (0) : f32); (B754_zero false : f32); (lit (1) (1) : f32) |]; [| (lit (-1) (0) : f32); (B754_zero false : f32); (B754_zero false : f32); (lit (1) (2) : f32) |]; [| (B754_zero false : f32); (B754_zero false : f32); (lit (1) (0) : f32); (lit (3) (1) : f32) |]; [| (B754_zero false : f32); (B754_zero false : f32); (B754_zero false : f32); (lit (1) (0) : f32) |] |]) in
  let t_2_1_ := ([| [| (B754_zero false : f32); (lit (-1) (0) : f32); (B754_zero false : f32); (lit (1) (2) : f32) |]; [| (lit (1) (0) : f32); (B754_zero false : f32); (B754_zero false : f32); (lit (-1) (1) : f32) |]; [| (B754_zero false : f32); (B754_zero false : f32); (lit (1) (0) : f32); (lit (-3) (1) : f32) |]; [| (B754_zero false : f32); (B754_zero false : f32); (B754_zero false : f32); (lit (1) (0) : f32) |] |]) in
  t1 <- dq_new_from_homogeneous t_1_2_ ;;
  let dq_1_2_ := t1 in
  t2 <- dq_new_from_homogeneous t_2_1_ ;;
  let dq_2_1_ := t2 in
  t3 <- as_vec 16 (dq_to_homogeneous dq_2_1_) ;;
  t4 <- dq_inverse dq_1_2_ ;;
  t5 <- as_vec 16 (dq_to_homogeneous t4) ;;
  if (compare_vecs (alist t3) (alist t5) (lit (13743895) (-37) : f32)) then
  t6 <- as_vec 16 (dq_to_homogeneous dq_1_2_) ;;
  t7 <- dq_inverse dq_2_1_ ;;
  t8 <- as_vec 16 (dq_to_homogeneous t7) ;;
  Ok ((compare_vecs (alist t6) (alist t8) (lit (13743895) (-37) : f32)))
  else Ok false) = Ok true.
Proof. vm_compute. reflexivity. Qed.

(** dual_quaternion.rs:681-703 *)
Example test_dual_quaternion_transform_point_test : (
  let q_ := (q_from_euler_angles (to_radians (lit (5) (1) : f32)) (to_radians (lit (5) (1) : f32)) (to_radians (lit (5) (1) : f32))) in
  let t_ := (homogeneous_from_quaternion q_ (v3_new_from (lit (1) (0) : f32) (lit (1) (1) : f32) (lit (3) (0) : f32))) in
  let p_ := (v4_new_from (lit (1) (0) : f32) (lit (1) (1) : f32) (lit (3) (0) : f32) (B754_zero false : f32)) in
  let expected_ := (m44_mul_v t_ p_) in
  let p_ := (v3_new_from (lit (1) (0) : f32) (lit (1) (1) : f32) (lit (3) (0) : f32)) in
  t1 <- dq_new_from_homogeneous t_ ;;
  let dq_ := t1 in
  let result_ := (dq_transform_point dq_ p_) in
  t2 <- aget result_ 0%nat ;;
  t3 <- aget expected_ 0%nat ;;
  if (nearly_equal t2 t3 (lit (13743895) (-37) : f32)) then
  t4 <- aget result_ 1%nat ;;
  t5 <- aget expected_ 1%nat ;;
  if (nearly_equal t4 t5 (lit (13743895) (-37) : f32)) then
  t6 <- aget result_ 2%nat ;;
  t7 <- aget expected_ 2%nat ;;
  if (nearly_equal t6 t7 (lit (13743895) (-37) : f32)) then
  t8 <- aget expected_ 3%nat ;;
  Ok ((nearly_zero t8))
  else Ok false
  else Ok false
  else Ok false) = Ok true.
Proof. vm_compute. reflexivity. Qed.

(** dual_quaternion.rs:705-723 *)
Example test_dual_quaternion_get_screw_params_translation_test : (
  let trans_ := (v3_new_from (lit (5) (1) : f32) (lit (15518925) (-22) : f32) (lit (7654605) (-20) : f32)) in
  let t_pure_ := (dq_new_from_translation trans_) in
  let ' (l_result_, m_result_, theta_result_, d_result_) := (dq_get_screw_parameters t_pure_) in
  let inf_ := (infinity : f32) in
  if (nearly_equal (v3_norm2 l_result_) (lit (1) (0) : f32) (lit (13743895) (-37) : f32)) then
  if (compare_vecs (alist m_result_) (alist (v3_new_from inf_ inf_ inf_)) (lit (13743895) (-37) : f32)) then
  if (nearly_zero theta_result_) then
  if (is_finite d_result_) then
  Ok ((nearly_equal d_result_ (v3_norm2 trans_) (lit (13743895) (-37) : f32)))
  else Ok false
  else Ok false
  else Ok false
  else Ok false) = Ok true.
Proof. vm_compute. reflexivity. Qed.

(** dual_quaternion.rs:725-744 *)
Example test_dual_quaternion_screw_params_rotation_test : (
  let q_ := (q_from_euler_angles (to_radians (lit (73) (0) : f32)) (to_radians (lit (5) (1) : f32)) (to_radians (lit (5) (1) : f32))) in
  let r_pure_ := (dq_new_from_rotation q_) in
  let ' (l_result_, m_result_, theta_result_, d_result_) := (dq_get_screw_parameters r_pure_) in
  if (nearly_equal (v3_norm2 l_result_) (lit (1) (0) : f32) (lit (13743895) (-37) : f32)) then
  if (compare_vecs (alist m_result_) (alist (v3_zeros (T:=f32))) (lit (13743895) (-37) : f32)) then
  if (nearly_equal theta_result_ (q_get_angle q_) (lit (13743895) (-37) : f32)) then
  Ok ((nearly_zero d_result_))
  else Ok false
  else Ok false
  else Ok false) = Ok true.
Proof. vm_compute. reflexivity. Qed.

(** dual_quaternion.rs:750-761 *)
Example test_dual_quternion_screw_paras_full : (
  let v_ := (v3_scale (v3_z_axis (T:=f32)) (to_radians (lit (45) (0) : f32))) in
  let q_ := (q_rotation_norm_encoded v_) in
  let trans_ := (v3_new_from (B754_zero false : f32) (B754_zero false : f32) (lit (7) (0) : f32)) in
  t2 <- dq_new_from_rot_trans q_ trans_ ;;
  let dq_full_ := t2 in
  let ' (l_, m_, theta_, d_) := (dq_get_screw_parameters dq_full_) in
  if (compare_vecs (alist l_) (alist (v3_z_axis (T:=f32))) (lit (13743895) (-37) : f32)) then
  if (compare_vecs (alist m_) (alist (v3_zeros (T:=f32))) (lit (13743895) (-37) : f32)) then
  if (nearly_equal theta_ (to_radians (lit (45) (0) : f32)) (lit (13743895) (-37) : f32)) then
  Ok ((nearly_equal d_ (lit (7) (0) : f32) (lit (13743895) (-37) : f32)))
  else Ok false
  else Ok false
  else Ok false) = Ok true.
Proof. vm_compute. reflexivity. Qed.

(** dual_quaternion.rs:763-773 *)
Example test_dual_quaternion_screw_params_test : (
  let v_ := (v3_scale (v3_z_axis (T:=f32)) (to_radians (lit (45) (0) : f32))) in
  let q_ := (q_rotation_norm_encoded v_) in
  let trans_ := (v3_new_from (B754_zero false : f32) (B754_zero false : f32) (lit (7) (0) : f32)) in
  t2 <- dq_new_from_rot_trans q_ trans_ ;;
  let dq_full_ := t2 in
  let ' (l_, m_, theta_, d_) := (dq_get_screw_parameters dq_full_) in
  let result_ := (dq_new_from_screw_parameters l_ m_ theta_ d_) in
  Ok ((compare_dual_quaternions dq_full_ result_ (lit (13743895) (-37) : f32)))) = Ok true.
Proof. vm_compute. reflexivity. Qed.

(** dual_quaternion.rs:775-788 *)
Example test_dual_quaternion_pow_test : (
  let q_ := (q_from_euler_angles (to_radians (lit (73) (0) : f32)) (to_radians (lit (5) (1) : f32)) (to_radians (lit (5) (1) : f32))) in
  let trans_ := (v3_new_from (B754_zero false : f32) (B754_zero false : f32) (lit (7) (0) : f32)) in
  t1 <- dq_new_from_rot_trans q_ trans_ ;;
  let dq_full_ := t1 in
  let expected_ := (dq_mul (dq_mul dq_full_ dq_full_) dq_full_) in
  let result_ := (dq_pow dq_full_ (lit (3) (0) : f32)) in
  Ok ((compare_dual_quaternions expected_ result_ (lit (13743895) (-37) : f32)))) = Ok true.
Proof. vm_compute. reflexivity. Qed.

(** dual_quaternion.rs:790-810 *)
Example test_dual_quaternion_interpolation_test : (
  let taus_ := [| (B754_zero false : f32); (lit (3103785) (-23) : f32); (lit (1530921) (-21) : f32); (lit (1) (0) : f32) |] in
  let q_ := (q_from_euler_angles (to_radians (lit (73) (0) : f32)) (to_radians (lit (5) (1) : f32)) (to_radians (lit (5) (1) : f32))) in
  let trans_ := (v3_new_from (B754_zero false : f32) (B754_zero false : f32) (lit (7) (0) : f32)) in
  t1 <- dq_new_from_rot_trans q_ trans_ ;;
  t2 <- unwrap (dq_normalize t1) ;;
  let dq_ := t2 in
  let ' (l_, m_, theta_, d_) := (dq_get_screw_parameters dq_) in
  all_ok (alist taus_) (fun tau_ =>
  t4 <- dq_screw_lerp (dq_one (T:=f32)) dq_ tau_ ;;
  let result_ := t4 in
  let expected_ := (dq_new_from_screw_parameters l_ m_ (mul tau_ theta_) (mul tau_ d_)) in
  Ok ((compare_dual_quaternions expected_ result_ (lit (13743895) (-37) : f32))))) = Ok true.
Proof. vm_compute. reflexivity. Qed.
