(** * The unit tests of src/vector4.rs, run on the model (tools/replay.py)

    Tests, not proofs: each runs one input. Where the source asserts under
    [if let Some(..)], the branch is required to be taken unless said otherwise. *)

From Coq Require Import ZArith List Bool.
From Flocq Require Import Core IEEE754.BinarySingleNaN.
From Verif Require Import Base Scalar Vec Mat2 Mat3 Mat4 Mat5 Mat6 MatLoops MatOps Slices Quat DualQuat Transf Ctor InstF InstI Replay.
Import ListNotations.
Open Scope Z_scope.

(** vector4.rs:274-281 *)
Example test_vector4_creation_test : (
  let v_ := ([| (int (1)); (int (1)); (int (1)); (int (1)) |]) in
  t1 <- aget v_ 0%nat ;;
  if (eqb) t1 (int (1)) then
  t2 <- aget v_ 1%nat ;;
  if (eqb) t2 (int (1)) then
  t3 <- aget v_ 2%nat ;;
  if (eqb) t3 (int (1)) then
  t4 <- aget v_ 3%nat ;;
  Ok ((eqb) t4 (int (1)))
  else Ok false
  else Ok false
  else Ok false) = Ok true.
Proof. vm_compute. reflexivity. Qed.

(** vector4.rs:283-294 *)
Example test_vector4_zeros_test : (
  let result_ := (v4_zeros (T:=f32)) in
  let expected_ := ([| (B754_zero false : f32); (B754_zero false : f32); (B754_zero false : f32); (B754_zero false : f32) |]) in
  Ok ((arr_eq eqb) result_ expected_)) = Ok true.
Proof. vm_compute. reflexivity. Qed.

(** vector4.rs:296-309 *)
Example test_vector4_add_test : (
  let v1_ := ([| (lit (1) (0) : f64); (lit (1) (1) : f64); (lit (3) (0) : f64); (lit (1) (2) : f64) |]) in
  let v2_ := ([| (lit (5) (0) : f64); (lit (3) (1) : f64); (lit (7) (0) : f64); (lit (1) (3) : f64) |]) in
  let result_ := (v4_add v1_ v2_) in
  let expected_ := ([| (lit (3) (1) : f64); (lit (1) (3) : f64); (lit (5) (1) : f64); (lit (3) (2) : f64) |]) in
  Ok ((arr_eq eqb) result_ expected_)) = Ok true.
Proof. vm_compute. reflexivity. Qed.

(** vector4.rs:311-324 *)
Example test_sub_test : (
  let v1_ := ([| (lit (1) (0) : f64); (lit (1) (1) : f64); (lit (3) (0) : f64); (lit (1) (2) : f64) |]) in
  let v2_ := ([| (lit (5) (0) : f64); (lit (3) (1) : f64); (lit (7) (0) : f64); (lit (1) (3) : f64) |]) in
  let result_ := (v4_sub v1_ v2_) in
  let expected_ := ([| (lit (-1) (2) : f64); (lit (-1) (2) : f64); (lit (-1) (2) : f64); (lit (-1) (2) : f64) |]) in
  Ok ((arr_eq eqb) result_ expected_)) = Ok true.
Proof. vm_compute. reflexivity. Qed.

(** vector4.rs:326-333 *)
Example test_vector4_product_test : (
  let v1_ := ([| (lit (1) (0) : f64); (lit (1) (1) : f64); (lit (3) (0) : f64); (lit (1) (2) : f64) |]) in
  let v2_ := ([| (lit (5) (0) : f64); (lit (3) (1) : f64); (lit (7) (0) : f64); (lit (1) (3) : f64) |]) in
  let result_ := (v4_dot v1_ v2_) in
  let expected_ := (lit (35) (1) : f64) in
  Ok ((eqb) result_ expected_)) = Ok true.
Proof. vm_compute. reflexivity. Qed.

(** vector4.rs:335-341 *)
Example test_vector4_norm_test : (
  let v1_ := ([| (lit (1) (0) : f64); (lit (1) (1) : f64); (lit (3) (0) : f64); (lit (1) (2) : f64) |]) in
  let result_ := (v4_norm2 v1_) in
  let expected_ := (lit (6166807764706703) (-50) : f64) in
  Ok ((eqb) result_ expected_)) = Ok true.
Proof. vm_compute. reflexivity. Qed.

(** vector4.rs:343-355 *)
Example test_mul_const_rhs : (
  let v_ := ([| (lit (1) (0) : f64); (lit (1) (1) : f64); (lit (3) (0) : f64); (lit (1) (2) : f64) |]) in
  let result_ := (v4_lscale (lit (1) (1) : f64) v_) in
  let expected_ := ([| (lit (1) (1) : f64); (lit (1) (2) : f64); (lit (3) (1) : f64); (lit (1) (3) : f64) |]) in
  Ok ((arr_eq eqb) result_ expected_)) = Ok true.
Proof. vm_compute. reflexivity. Qed.

(** vector4.rs:357-369 *)
Example test_mul_const : (
  let v_ := ([| (lit (1) (0) : f64); (lit (1) (1) : f64); (lit (3) (0) : f64); (lit (1) (2) : f64) |]) in
  let result_ := (v4_scale v_ (lit (1) (1) : f64)) in
  let expected_ := ([| (lit (1) (1) : f64); (lit (1) (2) : f64); (lit (3) (1) : f64); (lit (1) (3) : f64) |]) in
  Ok ((arr_eq eqb) result_ expected_)) = Ok true.
Proof. vm_compute. reflexivity. Qed.

(** vector4.rs:371-390 *)
Example test_vector4_mul_matrix4x4_test : (
  let m_ := ([| [| (lit (1) (0) : f64); (lit (1) (1) : f64); (lit (3) (0) : f64); (lit (1) (2) : f64) |]; [| (lit (5) (0) : f64); (lit (3) (1) : f64); (lit (7) (0) : f64); (lit (1) (3) : f64) |]; [| (lit (9) (0) : f64); (lit (5) (1) : f64); (lit (11) (0) : f64); (lit (3) (2) : f64) |]; [| (lit (13) (0) : f64); (lit (7) (1) : f64); (lit (15) (0) : f64); (lit (1) (4) : f64) |] |]) in
  let v1_ := ([| (lit (1) (0) : f64); (lit (1) (1) : f64); (lit (3) (0) : f64); (lit (1) (2) : f64) |]) in
  let result_ := (v4_mul_m v1_ m_) in
  let expected_ := ([| (lit (45) (1) : f64); (lit (25) (2) : f64); (lit (55) (1) : f64); (lit (15) (3) : f64) |]) in
  Ok ((arr_eq eqb) result_ expected_)) = Ok true.
Proof. vm_compute. reflexivity. Qed.

(** vector4.rs:392-403 *)
Example test_normalize_test : (
  t1 <- v4_normalize ([| (lit (1) (0) : f64); (lit (1) (0) : f64); (lit (1) (0) : f64); (lit (1) (0) : f64) |]) ;;
  t2 <- unwrap t1 ;;
  let result_ := t2 in
  let expected_ := ([| (lit (1) (-1) : f64); (lit (1) (-1) : f64); (lit (1) (-1) : f64); (lit (1) (-1) : f64) |]) in
  Ok ((arr_eq eqb) result_ expected_)) = Ok true.
Proof. vm_compute. reflexivity. Qed.

(** vector4.rs:405-418 *)
Example test_sub_assigment_test : (
  let result_ := ([| (lit (1) (0) : f64); (lit (1) (1) : f64); (lit (3) (0) : f64); (lit (1) (2) : f64) |]) in
  let v_ := ([| (lit (5) (0) : f64); (lit (3) (1) : f64); (lit (7) (0) : f64); (lit (1) (3) : f64) |]) in
  let expected_ := ([| (lit (-1) (2) : f64); (lit (-1) (2) : f64); (lit (-1) (2) : f64); (lit (-1) (2) : f64) |]) in
  let result_ := v4_sub_assign result_ v_ in
  Ok ((arr_eq eqb) result_ expected_)) = Ok true.
Proof. vm_compute. reflexivity. Qed.

(** vector4.rs:420-433 *)
Example test_add_assigment_test : (
  let result_ := (v4_new_from (lit (1) (0) : f64) (lit (1) (1) : f64) (lit (3) (0) : f64) (lit (1) (2) : f64)) in
  let v_ := (v4_new_from (lit (5) (0) : f64) (lit (3) (1) : f64) (lit (7) (0) : f64) (lit (1) (3) : f64)) in
  let expected_ := (v4_new_from (lit (3) (1) : f64) (lit (1) (3) : f64) (lit (5) (1) : f64) (lit (3) (2) : f64)) in
  let result_ := v4_add_assign result_ v_ in
  Ok ((arr_eq eqb) result_ expected_)) = Ok true.
Proof. vm_compute. reflexivity. Qed.

(** vector4.rs:435-441 *)
Example test_norm_inf_test : (
  let v_ := (v4_new_from (int (10)) (int (100)) (int (-9)) (int (0))) in
  t1 <- norm_inf (alist v_) ;;
  let result_ := t1 in
  let expected_ := (int (100)) in
  Ok ((eqb) result_ expected_)) = Ok true.
Proof. vm_compute. reflexivity. Qed.

(** vector4.rs:443-449 *)
Example test_norm_l_test : (
  let v_ := (v4_new_from (int (1)) (int (-1)) (int (1)) (int (-1))) in
  let result_ := (norm_l (alist v_)) in
  let expected_ := (int (4)) in
  Ok ((eqb) result_ expected_)) = Ok true.
Proof. vm_compute. reflexivity. Qed.

(** vector4.rs:451-457 *)
Example test_product_lhs_f32_test : (
  let v_ := (v4_new_from (lit (1) (0) : f32) (lit (1) (1) : f32) (lit (3) (0) : f32) (lit (1) (2) : f32)) in
  let result_ := (v4_lscale (lit (1) (1) : f32) v_) in
  let expected_ := (v4_new_from (lit (1) (1) : f32) (lit (1) (2) : f32) (lit (3) (1) : f32) (lit (1) (3) : f32)) in
  Ok ((arr_eq eqb) result_ expected_)) = Ok true.
Proof. vm_compute. reflexivity. Qed.
