(** * The unit tests of src/quaternion.rs, run on the model (tools/replay.py)

    Tests, not proofs: each runs one input. Where the source asserts under
    [if let Some(..)], the branch is required to be taken unless said otherwise. *)

From Coq Require Import ZArith List Bool.
From Flocq Require Import Core IEEE754.BinarySingleNaN.
From Verif Require Import Base Scalar Vec Mat2 Mat3 Mat4 Mat5 Mat6 MatLoops MatOps Slices Quat DualQuat Transf Ctor InstF InstI Replay.
Import ListNotations.
Open Scope Z_scope.

(** quaternion.rs:569-582 *)
Example test_quaternion_creation_test : (
  let q_ := (q_new (int (0)) (v3_ones (T:=i32))) in
  let expected_ := ([| (int (1)); (int (1)); (int (1)) |]) in
  if (eqb) (q0 q_) (int (0)) then
  Ok ((arr_eq eqb) (q q_) expected_)
  else Ok false) = Ok true.
Proof. vm_compute. reflexivity. Qed.

(** quaternion.rs:584-605 *)
Example test_quaternion_product_test : (
  let a_ := (q_new (int (1)) (v3_ones (T:=i32))) in
  let b_ := (q_new (int (1)) (v3_ones (T:=i32))) in
  let result_ := (q_mul a_ b_) in
  if (eqb) (q0 result_) (int (-2)) then
  t3 <- aget (q result_) 0%nat ;;
  if (eqb) t3 (int (2)) then
  t4 <- aget (q result_) 1%nat ;;
  if (eqb) t4 (int (2)) then
  t5 <- aget (q result_) 2%nat ;;
  if (eqb) t5 (int (2)) then
  let q1_ := (q_new (int (1)) (v3_ones (T:=i32))) in
  let q2_ := (q_conj q1_) in
  let result_ := (q_mul q1_ q2_) in
  let expected_ := (q_new (q_dot q1_ q1_) (v3_zeros (T:=i32))) in
  if (eqb) (q0 result_) (q0 expected_) then
  t8 <- aget (q result_) 0%nat ;;
  t9 <- aget (q expected_) 0%nat ;;
  if (eqb) t8 t9 then
  t10 <- aget (q result_) 1%nat ;;
  t11 <- aget (q expected_) 1%nat ;;
  if (eqb) t10 t11 then
  t12 <- aget (q result_) 2%nat ;;
  t13 <- aget (q expected_) 2%nat ;;
  Ok ((eqb) t12 t13)
  else Ok false
  else Ok false
  else Ok false
  else Ok false
  else Ok false
  else Ok false
  else Ok false) = Ok true.
Proof. vm_compute. reflexivity. Qed.

(** quaternion.rs:607-623 *)
Example test_quaternion_conj : (
  let a_ := (q_new (int (1)) (v3_ones (T:=i32))) in
  let result_ := (q_conj a_) in
  if (eqb) (q0 result_) (int (1)) then
  t2 <- aget (q result_) 0%nat ;;
  if (eqb) t2 (int (-1)) then
  t3 <- aget (q result_) 1%nat ;;
  if (eqb) t3 (int (-1)) then
  t4 <- aget (q result_) 2%nat ;;
  if (eqb) t4 (int (-1)) then
  let a_float_ := (q_new (lit (1) (0) : f64) (v3_ones (T:=f64))) in
  let result_float_ := (q_conj a_float_) in
  if (eqb) (q0 result_float_) (lit (1) (0) : f64) then
  t6 <- aget (q result_float_) 0%nat ;;
  if (eqb) t6 (lit (-1) (0) : f64) then
  t7 <- aget (q result_float_) 1%nat ;;
  if (eqb) t7 (lit (-1) (0) : f64) then
  t8 <- aget (q result_float_) 2%nat ;;
  Ok ((eqb) t8 (lit (-1) (0) : f64))
  else Ok false
  else Ok false
  else Ok false
  else Ok false
  else Ok false
  else Ok false
  else Ok false) = Ok true.
Proof. vm_compute. reflexivity. Qed.

(** quaternion.rs:626-636 *)
Example test_rotate_vec : (
  t1 <- q_rotation (to_radians (lit (45) (1) : f32)) (v3_new_from (B754_zero false : f32) (B754_zero false : f32) (lit (1) (0) : f32)) ;;
  let q1_ := t1 in
  let x_ := (v3_new_from (lit (1) (0) : f32) (B754_zero false : f32) (B754_zero false : f32)) in
  let result_ := (q_mul_v q1_ x_) in
  let expected_ := (v3_new_from (B754_zero false : f32) (lit (1) (0) : f32) (B754_zero false : f32)) in
  t2 <- aget result_ 0%nat ;;
  t3 <- aget expected_ 0%nat ;;
  if (nearly_equal t2 t3 (lit (8796093) (-43) : f32)) then
  t4 <- aget result_ 1%nat ;;
  t5 <- aget expected_ 1%nat ;;
  if (nearly_equal t4 t5 (lit (8796093) (-43) : f32)) then
  t6 <- aget result_ 2%nat ;;
  t7 <- aget expected_ 2%nat ;;
  Ok ((nearly_equal t6 t7 (lit (8796093) (-43) : f32)))
  else Ok false
  else Ok false) = Ok true.
Proof. vm_compute. reflexivity. Qed.

(** quaternion.rs:638-647 *)
Example test_rotate_vec_composition_360 : (
  t1 <- q_rotation (to_radians (lit (45) (1) : f32)) (v3_new_from (B754_zero false : f32) (B754_zero false : f32) (lit (1) (0) : f32)) ;;
  let q1_ := t1 in
  let x_ := (v3_new_from (lit (1) (0) : f32) (B754_zero false : f32) (B754_zero false : f32)) in
  let result_ := (q_mul_v (q_mul (q_mul (q_mul q1_ q1_) q1_) q1_) x_) in
  t2 <- aget result_ 0%nat ;;
  t3 <- aget x_ 0%nat ;;
  if (nearly_equal t2 t3 (lit (8796093) (-43) : f32)) then
  t4 <- aget result_ 1%nat ;;
  t5 <- aget x_ 1%nat ;;
  if (nearly_equal t4 t5 (lit (8796093) (-43) : f32)) then
  t6 <- aget result_ 2%nat ;;
  t7 <- aget x_ 2%nat ;;
  Ok ((nearly_equal t6 t7 (lit (8796093) (-43) : f32)))
  else Ok false
  else Ok false) = Ok true.
Proof. vm_compute. reflexivity. Qed.

(** quaternion.rs:649-658 *)
Example test_rotate_vec_angle_encode : (
  let q_ := (q_rotation_norm_encoded (v3_new_from (B754_zero false : f32) (B754_zero false : f32) (to_radians (lit (45) (1) : f32)))) in
  let x_ := (v3_x_axis (T:=f32)) in
  let result_ := (q_mul_v q_ x_) in
  let expected_ := (v3_new_from (B754_zero false : f32) (lit (1) (0) : f32) (B754_zero false : f32)) in
  t2 <- aget result_ 0%nat ;;
  t3 <- aget expected_ 0%nat ;;
  if (nearly_equal t2 t3 (lit (8796093) (-43) : f32)) then
  t4 <- aget result_ 1%nat ;;
  t5 <- aget expected_ 1%nat ;;
  if (nearly_equal t4 t5 (lit (8796093) (-43) : f32)) then
  t6 <- aget result_ 2%nat ;;
  t7 <- aget expected_ 2%nat ;;
  Ok ((nearly_equal t6 t7 (lit (8796093) (-43) : f32)))
  else Ok false
  else Ok false) = Ok true.
Proof. vm_compute. reflexivity. Qed.

(** quaternion.rs:660-674 *)
Example test_convert_rotation_test : (
  let q_ := (q_rotation_norm_encoded (v3_new_from (B754_zero false : f32) (B754_zero false : f32) (to_radians (lit (45) (1) : f32)))) in
  let x_ := (v3_x_axis (T:=f32)) in
  let expected_ := (q_mul_v (q_mul (q_mul (q_mul q_ q_) q_) q_) x_) in
  let m_ := (q_to_rotation q_) in
  let result_ := (m33_mul_v (m33_mul (m33_mul (m33_mul m_ m_) m_) m_) x_) in
  t2 <- aget result_ 0%nat ;;
  t3 <- aget expected_ 0%nat ;;
  if (nearly_equal t2 t3 (lit (8796093) (-43) : f32)) then
  t4 <- aget result_ 1%nat ;;
  t5 <- aget expected_ 1%nat ;;
  if (nearly_equal t4 t5 (lit (8796093) (-43) : f32)) then
  t6 <- aget result_ 2%nat ;;
  t7 <- aget expected_ 2%nat ;;
  Ok ((nearly_equal t6 t7 (lit (8796093) (-43) : f32)))
  else Ok false
  else Ok false) = Ok true.
Proof. vm_compute. reflexivity. Qed.

(** quaternion.rs:676-687 *)
Example test_inverse_test : (
  let q_ := (q_new_from (lit (1) (0) : f32) (lit (1) (0) : f32) (lit (1) (0) : f32) (lit (5) (1) : f32)) in
  match (q_inverse q_) with None => Ok false | Some inv_ =>
  let result_ := (q_mul q_ inv_) in
  let expected_ := (q_one (T:=f32)) in
  if (nearly_equal (q0 result_) (q0 expected_) (lit (8796093) (-43) : f32)) then
  t2 <- aget (q result_) 0%nat ;;
  t3 <- aget (q expected_) 0%nat ;;
  if (nearly_equal t2 t3 (lit (8796093) (-43) : f32)) then
  t4 <- aget (q result_) 1%nat ;;
  t5 <- aget (q expected_) 1%nat ;;
  if (nearly_equal t4 t5 (lit (8796093) (-43) : f32)) then
  t6 <- aget (q result_) 2%nat ;;
  t7 <- aget (q expected_) 2%nat ;;
  Ok ((nearly_equal t6 t7 (lit (8796093) (-43) : f32)))
  else Ok false
  else Ok false
  else Ok false
  end) = Ok true.
Proof. vm_compute. reflexivity. Qed.

(** quaternion.rs:689-698 *)
Example test_division_test : (
  let q_ := (q_new_from (lit (5) (1) : f32) (lit (3) (0) : f32) (lit (7) (0) : f32) (lit (1) (0) : f32)) in
  t1 <- q_div q_ q_ ;;
  let result_ := t1 in
  let expected_ := (q_one (T:=f32)) in
  if (nearly_equal (q0 result_) (q0 expected_) (lit (8796093) (-43) : f32)) then
  t3 <- aget (q result_) 0%nat ;;
  t4 <- aget (q expected_) 0%nat ;;
  if (nearly_equal t3 t4 (lit (8796093) (-43) : f32)) then
  t5 <- aget (q result_) 1%nat ;;
  t6 <- aget (q expected_) 1%nat ;;
  if (nearly_equal t5 t6 (lit (8796093) (-43) : f32)) then
  t7 <- aget (q result_) 2%nat ;;
  t8 <- aget (q expected_) 2%nat ;;
  Ok ((nearly_equal t7 t8 (lit (8796093) (-43) : f32)))
  else Ok false
  else Ok false
  else Ok false) = Ok true.
Proof. vm_compute. reflexivity. Qed.

(** quaternion.rs:700-708 *)
Example test_euler_and_quaternions : (
  let expected_ := ((lit (13421773) (-27) : f32), (lit (13421773) (-26) : f32), (lit (5033165) (-24) : f32)) in
  let q_ := (q_from_euler_angles (fst (fst expected_)) (snd (fst expected_)) (snd expected_)) in
  let result_ := (q_to_euler_angles q_) in
  if (nearly_equal (fst (fst result_)) (fst (fst expected_)) (lit (8796093) (-43) : f32)) then
  if (nearly_equal (snd (fst result_)) (snd (fst expected_)) (lit (8796093) (-43) : f32)) then
  Ok ((nearly_equal (snd result_) (snd expected_) (lit (8796093) (-43) : f32)))
  else Ok false
  else Ok false) = Ok true.
Proof. vm_compute. reflexivity. Qed.

(** quaternion.rs:710-721 *)
Example test_slerp_test : (
  t1 <- q_rotation (lit (7465861) (-22) : f32) (v3_new_from (lit (1) (0) : f32) (lit (1) (1) : f32) (lit (3) (0) : f32)) ;;
  let a_ := t1 in
  t3 <- q_rotation (lit (7465861) (-22) : f32) (v3_x_axis (T:=f32)) ;;
  let b_ := t3 in
  let result_ := (q_slerp a_ b_ (lit (5033165) (-24) : f32)) in
  let expected_ := (q_new_from (lit (5868605) (-23) : f32) (lit (3602687) (-23) : f32) (lit (1328645) (-22) : f32) (lit (3985935) (-23) : f32)) in
  if (nearly_equal (q0 result_) (q0 expected_) (lit (8796093) (-43) : f32)) then
  t4 <- aget (q result_) 0%nat ;;
  t5 <- aget (q expected_) 0%nat ;;
  if (nearly_equal t4 t5 (lit (8796093) (-43) : f32)) then
  t6 <- aget (q result_) 1%nat ;;
  t7 <- aget (q expected_) 1%nat ;;
  if (nearly_equal t6 t7 (lit (8796093) (-43) : f32)) then
  t8 <- aget (q result_) 2%nat ;;
  t9 <- aget (q expected_) 2%nat ;;
  Ok ((nearly_equal t8 t9 (lit (8796093) (-43) : f32)))
  else Ok false
  else Ok false
  else Ok false) = Ok true.
Proof. vm_compute. reflexivity. Qed.

(** quaternion.rs:724-730 *)
Example test_to_rotation_test : (
  let expected_ := (m33_mul (rotx (to_radians (lit (5) (2) : f32))) (roty (to_radians (lit (15) (1) : f32)))) in
  let q_ := (q_from_rotation expected_) in
  let result_ := (q_to_rotation q_) in
  t1 <- as_vec 9 result_ ;;
  t2 <- as_vec 9 expected_ ;;
  Ok ((compare_vecs (alist t1) (alist t2) (lit (8796093) (-43) : f32)))) = Ok true.
Proof. vm_compute. reflexivity. Qed.
