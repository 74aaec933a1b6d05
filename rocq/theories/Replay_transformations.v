(** * The unit tests of src/transformations.rs, run on the model (tools/replay.py)

    Tests, not proofs: each runs one input. Where the source asserts under
    [if let Some(..)], the branch is required to be taken unless said otherwise. *)

From Coq Require Import ZArith List Bool.
From Flocq Require Import Core IEEE754.BinarySingleNaN.
From Verif Require Import Base Scalar Vec Mat2 Mat3 Mat4 Mat5 Mat6 MatLoops MatOps Slices Quat DualQuat Transf Ctor InstF InstI Replay.
Import ListNotations.
Open Scope Z_scope.

(** transformations.rs:672-680 *)
Example test_rotation_and_euler_test : (
  let expected_ := ((lit (13421773) (-27) : f32), (lit (13421773) (-26) : f32), (lit (5033165) (-24) : f32)) in
  let r_ := (euler_to_rotation (fst (fst expected_)) (snd (fst expected_)) (snd expected_) None) in
  let result_ := (rotation_to_euler r_) in
  if (nearly_equal (fst (fst result_)) (fst (fst expected_)) (lit (8796093) (-43) : f32)) then
  if (nearly_equal (snd (fst result_)) (snd (fst expected_)) (lit (8796093) (-43) : f32)) then
  Ok ((nearly_equal (snd result_) (snd expected_) (lit (8796093) (-43) : f32)))
  else Ok false
  else Ok false) = Ok true.
Proof. vm_compute. reflexivity. Qed.

(** transformations.rs:682-686 *)
Example test_rotation_x : (
  let r_ := (rotx (to_radians (lit (5) (2) : f32))) in
  Ok ((is_rotation r_))) = Ok true.
Proof. vm_compute. reflexivity. Qed.

(** transformations.rs:688-692 *)
Example test_rotation_y : (
  let r_ := (roty (to_radians (lit (5) (2) : f32))) in
  Ok ((is_rotation r_))) = Ok true.
Proof. vm_compute. reflexivity. Qed.

(** transformations.rs:694-698 *)
Example test_rotation_z : (
  let r_ := (rotz (to_radians (lit (5) (2) : f32))) in
  Ok ((is_rotation r_))) = Ok true.
Proof. vm_compute. reflexivity. Qed.

(** transformations.rs:700-706 *)
Example test_homogeneous_transform_test : (
  let v_ := (v3_scale (v3_y_axis (T:=f32)) (FRAC_PI_2 : f32)) in
  let q_ := (q_rotation_norm_encoded v_) in
  let iso_s_ := (homogeneous_from_quaternion q_ (v3_new_from (B754_zero false : f32) (B754_zero false : f32) (lit (3) (0) : f32))) in
  Ok ((is_rotation_h iso_s_))) = Ok true.
Proof. vm_compute. reflexivity. Qed.

(** transformations.rs:708-716 *)
Example test_homogeneous_inverse_test : (
  let v_ := (v3_scale (v3_y_axis (T:=f32)) (FRAC_PI_2 : f32)) in
  let q_ := (q_rotation_norm_encoded v_) in
  let iso_s_ := (homogeneous_from_quaternion q_ (v3_new_from (B754_zero false : f32) (B754_zero false : f32) (lit (3) (0) : f32))) in
  let result_ := (m44_mul iso_s_ (homogeneous_inverse iso_s_)) in
  let expected_ := (m44_identity (T:=f32)) in
  t3 <- as_vec 16 result_ ;;
  t4 <- as_vec 16 expected_ ;;
  Ok ((compare_vecs (alist t3) (alist t4) (lit (8796093) (-43) : f32)))) = Ok true.
Proof. vm_compute. reflexivity. Qed.

(** transformations.rs:720-728 *)
Example test_inverse_point_transform_test : (
  let v_ := (v3_scale (v3_y_axis (T:=f32)) (FRAC_PI_2 : f32)) in
  let q_ := (q_rotation_norm_encoded v_) in
  let iso_s_ := (homogeneous_from_quaternion q_ (v3_new_from (B754_zero false : f32) (B754_zero false : f32) (lit (3) (0) : f32))) in
  let result_ := (homogeneous_inverse_transform iso_s_ (v3_new_from (lit (1) (0) : f32) (lit (1) (1) : f32) (lit (3) (0) : f32))) in
  let expected_ := (v3_new_from (B754_zero false : f32) (lit (1) (1) : f32) (lit (1) (0) : f32)) in
  Ok ((compare_vecs (alist result_) (alist expected_) (lit (8796093) (-43) : f32)))) = Ok true.
Proof. vm_compute. reflexivity. Qed.

(** transformations.rs:730-740 *)
Example test_matrix_log_test : (
  let r_ := ([| [| (B754_zero false : f32); (B754_zero false : f32); (lit (1) (0) : f32) |]; [| (lit (1) (0) : f32); (B754_zero false : f32); (B754_zero false : f32) |]; [| (B754_zero false : f32); (lit (1) (0) : f32); (B754_zero false : f32) |] |]) in
  let result_ := (matrix_log r_) in
  let expected_ := ([| [| (B754_zero false : f32); (lit (-10143501) (-23) : f32); (lit (10143501) (-23) : f32) |]; [| (lit (10143501) (-23) : f32); (B754_zero false : f32); (lit (-10143501) (-23) : f32) |]; [| (lit (-10143501) (-23) : f32); (lit (10143501) (-23) : f32); (B754_zero false : f32) |] |]) in
  t1 <- as_vec 9 result_ ;;
  t2 <- as_vec 9 expected_ ;;
  Ok ((compare_vecs (alist t1) (alist t2) (lit (8796093) (-43) : f32)))) = Ok true.
Proof. vm_compute. reflexivity. Qed.

(** transformations.rs:742-750 *)
Example test_matrix_exponential_test : (
  let so3_ := (skew_from_vec (v3_new_from (lit (1) (0) : f32) (lit (1) (1) : f32) (lit (3) (0) : f32))) in
  t1 <- (matrix_exponential so3_) ;;
  let result_ := t1 in
  let expected_ := ([| [| (lit (-728677) (-20) : f32); (lit (748181) (-20) : f32); (lit (11984685) (-27) : f32) |]; [| (lit (-6442685) (-25) : f32); (lit (-5096667) (-24) : f32); (lit (7828185) (-23) : f32) |]; [| (lit (2906561) (-22) : f32); (lit (5296145) (-23) : f32); (lit (11680549) (-25) : f32) |] |]) in
  t2 <- as_vec 9 result_ ;;
  t3 <- as_vec 9 expected_ ;;
  Ok ((compare_vecs (alist t2) (alist t3) (lit (8796093) (-43) : f32)))) = Ok true.
Proof. vm_compute. reflexivity. Qed.

(** transformations.rs:752-760 *)
Example test_twist_to_se3_test : (
  let result_ := (twist_to_se3 (v6_new_from (lit (1) (0) : f32) (lit (1) (1) : f32) (lit (3) (0) : f32) (lit (1) (2) : f32) (lit (5) (0) : f32) (lit (3) (1) : f32))) in
  let expected_ := ([| [| (B754_zero false : f32); (lit (-3) (0) : f32); (lit (1) (1) : f32); (lit (1) (2) : f32) |]; [| (lit (3) (0) : f32); (B754_zero false : f32); (lit (-1) (0) : f32); (lit (5) (0) : f32) |]; [| (lit (-1) (1) : f32); (lit (1) (0) : f32); (B754_zero false : f32); (lit (3) (1) : f32) |]; [| (B754_zero false : f32); (B754_zero false : f32); (B754_zero false : f32); (B754_zero false : f32) |] |]) in
  t1 <- as_vec 16 result_ ;;
  t2 <- as_vec 16 expected_ ;;
  Ok ((compare_vecs (alist t1) (alist t2) (lit (8796093) (-43) : f32)))) = Ok true.
Proof. vm_compute. reflexivity. Qed.

(** transformations.rs:762-777 *)
Example test_se3_to_twist_test : (
  let se3_ := ([| [| (B754_zero false : f64); (lit (-3) (0) : f64); (lit (1) (1) : f64); (lit (1) (2) : f64) |]; [| (lit (3) (0) : f64); (B754_zero false : f64); (lit (-1) (0) : f64); (lit (5) (0) : f64) |]; [| (lit (-1) (1) : f64); (lit (1) (0) : f64); (B754_zero false : f64); (lit (3) (1) : f64) |]; [| (B754_zero false : f64); (B754_zero false : f64); (B754_zero false : f64); (B754_zero false : f64) |] |]) in
  let result_ := (se3_to_twist se3_) in
  let expected_ := (v6_new_from (lit (1) (0) : f64) (lit (1) (1) : f64) (lit (3) (0) : f64) (lit (1) (2) : f64) (lit (5) (0) : f64) (lit (3) (1) : f64)) in
  Ok ((arr_eq eqb) result_ expected_)) = Ok true.
Proof. vm_compute. reflexivity. Qed.

(** transformations.rs:779-795 *)
Example test_adjoint_test : (
  let t_ := ([| [| (lit (1) (0) : f32); (B754_zero false : f32); (B754_zero false : f32); (B754_zero false : f32) |]; [| (B754_zero false : f32); (B754_zero false : f32); (lit (-1) (0) : f32); (B754_zero false : f32) |]; [| (B754_zero false : f32); (lit (1) (0) : f32); (B754_zero false : f32); (lit (3) (0) : f32) |]; [| (B754_zero false : f32); (B754_zero false : f32); (B754_zero false : f32); (lit (1) (0) : f32) |] |]) in
  t1 <- (adjoint t_) ;;
  let result_ := t1 in
  let expected_ := ([| [| (lit (1) (0) : f32); (B754_zero false : f32); (B754_zero false : f32); (B754_zero false : f32); (B754_zero false : f32); (B754_zero false : f32) |]; [| (B754_zero false : f32); (B754_zero false : f32); (lit (-1) (0) : f32); (B754_zero false : f32); (B754_zero false : f32); (B754_zero false : f32) |]; [| (B754_zero false : f32); (lit (1) (0) : f32); (B754_zero false : f32); (B754_zero false : f32); (B754_zero false : f32); (B754_zero false : f32) |]; [| (B754_zero false : f32); (B754_zero false : f32); (lit (3) (0) : f32); (lit (1) (0) : f32); (B754_zero false : f32); (B754_zero false : f32) |]; [| (lit (3) (0) : f32); (B754_zero false : f32); (B754_zero false : f32); (B754_zero false : f32); (B754_zero false : f32); (lit (-1) (0) : f32) |]; [| (B754_zero false : f32); (B754_zero false : f32); (B754_zero false : f32); (B754_zero false : f32); (lit (1) (0) : f32); (B754_zero false : f32) |] |]) in
  t2 <- as_vec 36 result_ ;;
  t3 <- as_vec 36 expected_ ;;
  Ok ((compare_vecs (alist t2) (alist t3) (lit (8796093) (-43) : f32)))) = Ok true.
Proof. vm_compute. reflexivity. Qed.

(** transformations.rs:797-811 *)
Example test_screw_to_axis_test : (
  let q_ := (v3_new_from (lit (3) (0) : f64) (B754_zero false : f64) (B754_zero false : f64)) in
  let s_ := (v3_new_from (B754_zero false : f64) (B754_zero false : f64) (lit (1) (0) : f64)) in
  let h_ := (lit (1) (1) : f64) in
  let result_ := (screw_to_axis q_ s_ h_) in
  let expected_ := (v6_new_from (B754_zero false : f64) (B754_zero false : f64) (lit (1) (0) : f64) (B754_zero false : f64) (lit (-3) (0) : f64) (lit (1) (1) : f64)) in
  Ok ((arr_eq eqb) result_ expected_)) = Ok true.
Proof. vm_compute. reflexivity. Qed.

(** transformations.rs:813-826 *)
Example test_axis_angle6_test : (
  let v_ := (v6_new_from (lit (1) (0) : f32) (B754_zero false : f32) (B754_zero false : f32) (lit (1) (0) : f32) (lit (1) (1) : f32) (lit (3) (0) : f32)) in
  let result_ := (axis_angle6 v_) in
  let expected_ := ((v6_new_from (lit (1) (0) : f32) (B754_zero false : f32) (B754_zero false : f32) (lit (1) (0) : f32) (lit (1) (1) : f32) (lit (3) (0) : f32)), (lit (1) (0) : f32)) in
  if (arr_eq eqb) (fst result_) (fst expected_) then
  Ok ((nearly_equal (snd result_) (snd expected_) (lit (8796093) (-43) : f32)))
  else Ok false) = Ok true.
Proof. vm_compute. reflexivity. Qed.

(** transformations.rs:828-841 *)
Example test_matrix_exponential6_test : (
  let se3mat_ := ([| [| (B754_zero false : f32); (B754_zero false : f32); (B754_zero false : f32); (B754_zero false : f32) |]; [| (B754_zero false : f32); (B754_zero false : f32); (lit (-13176795) (-23) : f32); (lit (2470649) (-20) : f32) |]; [| (B754_zero false : f32); (lit (13176795) (-23) : f32); (B754_zero false : f32); (lit (2470649) (-20) : f32) |]; [| (B754_zero false : f32); (B754_zero false : f32); (B754_zero false : f32); (B754_zero false : f32) |] |]) in
  t1 <- (matrix_exponential6 se3mat_) ;;
  let result_ := t1 in
  let expected_ := ([| [| (lit (1) (0) : f32); (B754_zero false : f32); (B754_zero false : f32); (B754_zero false : f32) |]; [| (B754_zero false : f32); (B754_zero false : f32); (lit (-1) (0) : f32); (B754_zero false : f32) |]; [| (B754_zero false : f32); (lit (1) (0) : f32); (B754_zero false : f32); (lit (3) (0) : f32) |]; [| (B754_zero false : f32); (B754_zero false : f32); (B754_zero false : f32); (lit (1) (0) : f32) |] |]) in
  t2 <- as_vec 16 result_ ;;
  t3 <- as_vec 16 expected_ ;;
  Ok ((compare_vecs (alist t2) (alist t3) (lit (8796093) (-43) : f32)))) = Ok true.
Proof. vm_compute. reflexivity. Qed.

(** transformations.rs:843-857 *)
Example test_matrix_log6_test : (
  let t_ := ([| [| (lit (1) (0) : f32); (B754_zero false : f32); (B754_zero false : f32); (B754_zero false : f32) |]; [| (B754_zero false : f32); (B754_zero false : f32); (lit (-1) (0) : f32); (B754_zero false : f32) |]; [| (B754_zero false : f32); (lit (1) (0) : f32); (B754_zero false : f32); (lit (3) (0) : f32) |]; [| (B754_zero false : f32); (B754_zero false : f32); (B754_zero false : f32); (lit (1) (0) : f32) |] |]) in
  let result_ := (matrix_log6 t_) in
  let expected_ := ([| [| (B754_zero false : f32); (B754_zero false : f32); (B754_zero false : f32); (B754_zero false : f32) |]; [| (B754_zero false : f32); (B754_zero false : f32); (lit (-13176795) (-23) : f32); (lit (2470649) (-20) : f32) |]; [| (B754_zero false : f32); (lit (13176795) (-23) : f32); (B754_zero false : f32); (lit (2470649) (-20) : f32) |]; [| (B754_zero false : f32); (B754_zero false : f32); (B754_zero false : f32); (B754_zero false : f32) |] |]) in
  t1 <- as_vec 16 result_ ;;
  t2 <- as_vec 16 expected_ ;;
  Ok ((compare_vecs (alist t1) (alist t2) (lit (8796093) (-43) : f32)))) = Ok true.
Proof. vm_compute. reflexivity. Qed.

(** transformations.rs:859-868 *)
Example test_distance_to_manifold_test : (
  let mat_ := ([| [| (lit (1) (0) : f32); (B754_zero false : f32); (B754_zero false : f32) |]; [| (B754_zero false : f32); (lit (13421773) (-27) : f32); (lit (-15938355) (-24) : f32) |]; [| (B754_zero false : f32); (lit (1) (0) : f32); (lit (13421773) (-27) : f32) |] |]) in
  let result_ := (distance_to_manifold mat_) in
  let expected_ := (lit (11858537) (-27) : f32) in
  Ok ((nearly_equal result_ expected_ (lit (8796093) (-43) : f32)))) = Ok true.
Proof. vm_compute. reflexivity. Qed.
