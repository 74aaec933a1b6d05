(** * The unit tests of src/matrix4x4.rs, run on the model (tools/replay.py)

    Tests, not proofs: each runs one input. Where the source asserts under
    [if let Some(..)], the branch is required to be taken unless said otherwise. *)

From Coq Require Import ZArith List Bool.
From Flocq Require Import Core IEEE754.BinarySingleNaN.
From Verif Require Import Base Scalar Vec Mat2 Mat3 Mat4 Mat5 Mat6 MatLoops MatOps Slices Quat DualQuat Transf Ctor InstF InstI Replay.
Import ListNotations.
Open Scope Z_scope.

(** matrix4x4.rs:890-900 *)
Example test_matrix4x4_create_matrix4x4_test : (
  let m_ := ([| [| (lit (1) (0) : f64); (lit (1) (1) : f64); (lit (3) (0) : f64); (lit (1) (2) : f64) |]; [| (lit (5) (0) : f64); (lit (3) (1) : f64); (lit (7) (0) : f64); (lit (1) (3) : f64) |]; [| (lit (9) (0) : f64); (lit (5) (1) : f64); (lit (11) (0) : f64); (lit (3) (2) : f64) |]; [| (lit (13) (0) : f64); (lit (7) (1) : f64); (lit (15) (0) : f64); (lit (1) (4) : f64) |] |]) in
  t1 <- mget m_ 1%nat 1%nat ;;
  Ok ((eqb) t1 (lit (3) (1) : f64))) = Ok true.
Proof. vm_compute. reflexivity. Qed.

(** matrix4x4.rs:902-915 *)
Example test_matrix4x4_identity_creation_test : (
  let expected_ := ([| [| (lit (1) (0) : f32); (B754_zero false : f32); (B754_zero false : f32); (B754_zero false : f32) |]; [| (B754_zero false : f32); (lit (1) (0) : f32); (B754_zero false : f32); (B754_zero false : f32) |]; [| (B754_zero false : f32); (B754_zero false : f32); (lit (1) (0) : f32); (B754_zero false : f32) |]; [| (B754_zero false : f32); (B754_zero false : f32); (B754_zero false : f32); (lit (1) (0) : f32) |] |]) in
  let result_ := (m44_identity (T:=f32)) in
  t2 <- as_vec 16 result_ ;;
  t3 <- as_vec 16 expected_ ;;
  Ok ((compare_vecs (alist t2) (alist t3) (lit (11258999) (-50) : f32)))) = Ok true.
Proof. vm_compute. reflexivity. Qed.

(** matrix4x4.rs:917-944 *)
Example test_matrix4x4_add_test : (
  let m1_ := ([| [| (lit (1) (0) : f32); (lit (1) (1) : f32); (lit (3) (0) : f32); (lit (1) (2) : f32) |]; [| (lit (5) (0) : f32); (lit (3) (1) : f32); (lit (7) (0) : f32); (lit (1) (3) : f32) |]; [| (lit (9) (0) : f32); (lit (5) (1) : f32); (lit (11) (0) : f32); (lit (3) (2) : f32) |]; [| (lit (13) (0) : f32); (lit (7) (1) : f32); (lit (15) (0) : f32); (lit (1) (4) : f32) |] |]) in
  let m2_ := ([| [| (lit (1) (0) : f32); (lit (1) (1) : f32); (lit (3) (0) : f32); (lit (1) (2) : f32) |]; [| (lit (5) (0) : f32); (lit (3) (1) : f32); (lit (7) (0) : f32); (lit (1) (3) : f32) |]; [| (lit (9) (0) : f32); (lit (5) (1) : f32); (lit (11) (0) : f32); (lit (3) (2) : f32) |]; [| (lit (13) (0) : f32); (lit (7) (1) : f32); (lit (15) (0) : f32); (lit (1) (4) : f32) |] |]) in
  let expected_ := ([| [| (lit (1) (1) : f32); (lit (1) (2) : f32); (lit (3) (1) : f32); (lit (1) (3) : f32) |]; [| (lit (5) (1) : f32); (lit (3) (2) : f32); (lit (7) (1) : f32); (lit (1) (4) : f32) |]; [| (lit (9) (1) : f32); (lit (5) (2) : f32); (lit (11) (1) : f32); (lit (3) (3) : f32) |]; [| (lit (13) (1) : f32); (lit (7) (2) : f32); (lit (15) (1) : f32); (lit (1) (5) : f32) |] |]) in
  let result_ := (m44_add m1_ m2_) in
  t1 <- as_vec 16 result_ ;;
  t2 <- as_vec 16 expected_ ;;
  Ok ((compare_vecs (alist t1) (alist t2) (lit (11258999) (-50) : f32)))) = Ok true.
Proof. vm_compute. reflexivity. Qed.

(** matrix4x4.rs:946-965 *)
Example test_mul_vector_rhs : (
  let m_ := ([| [| (lit (1) (0) : f64); (lit (1) (1) : f64); (lit (3) (0) : f64); (lit (1) (2) : f64) |]; [| (lit (5) (0) : f64); (lit (3) (1) : f64); (lit (7) (0) : f64); (lit (1) (3) : f64) |]; [| (lit (9) (0) : f64); (lit (5) (1) : f64); (lit (11) (0) : f64); (lit (3) (2) : f64) |]; [| (lit (13) (0) : f64); (lit (7) (1) : f64); (lit (15) (0) : f64); (lit (1) (4) : f64) |] |]) in
  let v_ := ([| (B754_zero false : f64); (lit (1) (0) : f64); (lit (1) (1) : f64); (lit (3) (0) : f64) |]) in
  let result_ := (m44_mul_v m_ v_) in
  let expected_ := ([| (lit (5) (2) : f64); (lit (11) (2) : f64); (lit (17) (2) : f64); (lit (23) (2) : f64) |]) in
  Ok ((arr_eq eqb) result_ expected_)) = Ok true.
Proof. vm_compute. reflexivity. Qed.

(** matrix4x4.rs:967-986 *)
Example test_sub_test : (
  let m1_ := ([| [| (lit (1) (0) : f32); (lit (1) (1) : f32); (lit (3) (0) : f32); (lit (1) (2) : f32) |]; [| (lit (5) (0) : f32); (lit (3) (1) : f32); (lit (7) (0) : f32); (lit (1) (3) : f32) |]; [| (lit (9) (0) : f32); (lit (5) (1) : f32); (lit (11) (0) : f32); (lit (3) (2) : f32) |]; [| (lit (13) (0) : f32); (lit (7) (1) : f32); (lit (15) (0) : f32); (lit (1) (4) : f32) |] |]) in
  let m2_ := ([| [| (lit (1) (0) : f32); (lit (1) (1) : f32); (lit (3) (0) : f32); (lit (1) (2) : f32) |]; [| (lit (5) (0) : f32); (lit (3) (1) : f32); (lit (7) (0) : f32); (lit (1) (3) : f32) |]; [| (lit (9) (0) : f32); (lit (5) (1) : f32); (lit (11) (0) : f32); (lit (3) (2) : f32) |]; [| (lit (13) (0) : f32); (lit (7) (1) : f32); (lit (15) (0) : f32); (lit (1) (4) : f32) |] |]) in
  let result_ := (m44_sub m1_ m2_) in
  let expected_ := ([| [| (B754_zero false : f32); (B754_zero false : f32); (B754_zero false : f32); (B754_zero false : f32) |]; [| (B754_zero false : f32); (B754_zero false : f32); (B754_zero false : f32); (B754_zero false : f32) |]; [| (B754_zero false : f32); (B754_zero false : f32); (B754_zero false : f32); (B754_zero false : f32) |]; [| (B754_zero false : f32); (B754_zero false : f32); (B754_zero false : f32); (B754_zero false : f32) |] |]) in
  t1 <- as_vec 16 result_ ;;
  t2 <- as_vec 16 expected_ ;;
  Ok ((compare_vecs (alist t1) (alist t2) (lit (11258999) (-50) : f32)))) = Ok true.
Proof. vm_compute. reflexivity. Qed.

(** matrix4x4.rs:988-1015 *)
Example test_matrix4x4_product_test : (
  let m1_ := ([| [| (lit (1) (0) : f32); (lit (1) (1) : f32); (lit (3) (0) : f32); (lit (1) (2) : f32) |]; [| (lit (5) (0) : f32); (lit (3) (1) : f32); (lit (7) (0) : f32); (lit (1) (3) : f32) |]; [| (lit (9) (0) : f32); (lit (5) (1) : f32); (lit (11) (0) : f32); (lit (3) (2) : f32) |]; [| (lit (13) (0) : f32); (lit (7) (1) : f32); (lit (15) (0) : f32); (lit (1) (4) : f32) |] |]) in
  let m2_ := ([| [| (lit (1) (0) : f32); (lit (1) (1) : f32); (lit (3) (0) : f32); (lit (1) (2) : f32) |]; [| (lit (5) (0) : f32); (lit (3) (1) : f32); (lit (7) (0) : f32); (lit (1) (3) : f32) |]; [| (lit (9) (0) : f32); (lit (5) (1) : f32); (lit (11) (0) : f32); (lit (3) (2) : f32) |]; [| (lit (13) (0) : f32); (lit (7) (1) : f32); (lit (15) (0) : f32); (lit (1) (4) : f32) |] |]) in
  let expected_ := ([| [| (lit (45) (1) : f32); (lit (25) (2) : f32); (lit (55) (1) : f32); (lit (15) (3) : f32) |]; [| (lit (101) (1) : f32); (lit (57) (2) : f32); (lit (127) (1) : f32); (lit (35) (3) : f32) |]; [| (lit (157) (1) : f32); (lit (89) (2) : f32); (lit (199) (1) : f32); (lit (55) (3) : f32) |]; [| (lit (213) (1) : f32); (lit (121) (2) : f32); (lit (271) (1) : f32); (lit (75) (3) : f32) |] |]) in
  let result_ := (m44_mul m1_ m2_) in
  t1 <- as_vec 16 result_ ;;
  t2 <- as_vec 16 expected_ ;;
  Ok ((compare_vecs (alist t1) (alist t2) (lit (11258999) (-50) : f32)))) = Ok true.
Proof. vm_compute. reflexivity. Qed.

(** matrix4x4.rs:1017-1029 *)
Example test_matrix4x4_det_test : (
  let m1_ := ([| [| (lit (1) (0) : f64); (lit (1) (1) : f64); (lit (3) (0) : f64); (lit (1) (0) : f64) |]; [| (lit (5) (0) : f64); (lit (3) (1) : f64); (lit (7) (0) : f64); (lit (1) (3) : f64) |]; [| (lit (9) (0) : f64); (B754_zero false : f64); (lit (11) (0) : f64); (lit (3) (2) : f64) |]; [| (lit (13) (0) : f64); (lit (1) (0) : f64); (lit (15) (0) : f64); (lit (1) (4) : f64) |] |]) in
  let expected_ := (lit (21) (3) : f64) in
  let result_ := (m44_det m1_) in
  Ok ((eqb) result_ expected_)) = Ok true.
Proof. vm_compute. reflexivity. Qed.

(** matrix4x4.rs:1031-1046 *)
Example test_matrix4x4_norm_test : (
  let m1_ := ([| [| (lit (1) (0) : f32); (lit (1) (1) : f32); (lit (3) (0) : f32); (lit (1) (2) : f32) |]; [| (lit (5) (0) : f32); (lit (3) (1) : f32); (lit (7) (0) : f32); (lit (1) (3) : f32) |]; [| (lit (9) (0) : f32); (lit (5) (1) : f32); (lit (11) (0) : f32); (lit (3) (2) : f32) |]; [| (lit (13) (0) : f32); (lit (7) (1) : f32); (lit (15) (0) : f32); (lit (1) (4) : f32) |] |]) in
  let expected_ := (lit (10139247) (-18) : f32) in
  let result_ := (m44_norm2 m1_) in
  Ok ((nearly_equal result_ expected_ (lit (11258999) (-50) : f32)))) = Ok true.
Proof. vm_compute. reflexivity. Qed.

(** matrix4x4.rs:1048-1068 *)
Example test_matrix4x4_transpose_test : (
  let m1_ := ([| [| (lit (1) (0) : f32); (lit (1) (1) : f32); (lit (3) (0) : f32); (lit (1) (2) : f32) |]; [| (lit (5) (0) : f32); (lit (3) (1) : f32); (lit (7) (0) : f32); (lit (1) (3) : f32) |]; [| (lit (9) (0) : f32); (lit (5) (1) : f32); (lit (11) (0) : f32); (lit (3) (2) : f32) |]; [| (lit (13) (0) : f32); (lit (7) (1) : f32); (lit (15) (0) : f32); (lit (1) (4) : f32) |] |]) in
  let expected_ := ([| [| (lit (1) (0) : f32); (lit (5) (0) : f32); (lit (9) (0) : f32); (lit (13) (0) : f32) |]; [| (lit (1) (1) : f32); (lit (3) (1) : f32); (lit (5) (1) : f32); (lit (7) (1) : f32) |]; [| (lit (3) (0) : f32); (lit (7) (0) : f32); (lit (11) (0) : f32); (lit (15) (0) : f32) |]; [| (lit (1) (2) : f32); (lit (1) (3) : f32); (lit (3) (2) : f32); (lit (1) (4) : f32) |] |]) in
  let result_ := (m44_transpose m1_) in
  t1 <- as_vec 16 result_ ;;
  t2 <- as_vec 16 expected_ ;;
  Ok ((compare_vecs (alist t1) (alist t2) (lit (11258999) (-50) : f32)))) = Ok true.
Proof. vm_compute. reflexivity. Qed.

(** matrix4x4.rs:1070-1083 *)
Example test_matrix4x4_zeros_test : (
  let expected_ := ([| [| (B754_zero false : f32); (B754_zero false : f32); (B754_zero false : f32); (B754_zero false : f32) |]; [| (B754_zero false : f32); (B754_zero false : f32); (B754_zero false : f32); (B754_zero false : f32) |]; [| (B754_zero false : f32); (B754_zero false : f32); (B754_zero false : f32); (B754_zero false : f32) |]; [| (B754_zero false : f32); (B754_zero false : f32); (B754_zero false : f32); (B754_zero false : f32) |] |]) in
  let result_ := (m44_zeros (T:=f32)) in
  t2 <- as_vec 16 result_ ;;
  t3 <- as_vec 16 expected_ ;;
  Ok ((compare_vecs (alist t2) (alist t3) (lit (11258999) (-50) : f32)))) = Ok true.
Proof. vm_compute. reflexivity. Qed.

(** matrix4x4.rs:1085-1114 *)
Example test_matrix4x4_get_submatrix_test : (
  let m_ := ([| [| (lit (1) (0) : f32); (lit (1) (1) : f32); (lit (3) (0) : f32); (lit (1) (2) : f32) |]; [| (lit (5) (0) : f32); (lit (3) (1) : f32); (lit (7) (0) : f32); (lit (1) (3) : f32) |]; [| (lit (9) (0) : f32); (lit (5) (1) : f32); (lit (11) (0) : f32); (lit (3) (2) : f32) |]; [| (lit (13) (0) : f32); (lit (7) (1) : f32); (lit (15) (0) : f32); (lit (1) (4) : f32) |] |]) in
  t1 <- m44_get_submatrix m_ (0%nat, 0%nat) ;;
  let result1_ := t1 in
  let expected1_ := ([| [| (lit (3) (1) : f32); (lit (7) (0) : f32); (lit (1) (3) : f32) |]; [| (lit (5) (1) : f32); (lit (11) (0) : f32); (lit (3) (2) : f32) |]; [| (lit (7) (1) : f32); (lit (15) (0) : f32); (lit (1) (4) : f32) |] |]) in
  t2 <- as_vec 9 result1_ ;;
  t3 <- as_vec 9 expected1_ ;;
  if (compare_vecs (alist t2) (alist t3) (lit (11258999) (-50) : f32)) then
  t4 <- m44_get_submatrix m_ (0%nat, 1%nat) ;;
  let result2_ := t4 in
  let expected2_ := ([| [| (lit (5) (0) : f32); (lit (7) (0) : f32); (lit (1) (3) : f32) |]; [| (lit (9) (0) : f32); (lit (11) (0) : f32); (lit (3) (2) : f32) |]; [| (lit (13) (0) : f32); (lit (15) (0) : f32); (lit (1) (4) : f32) |] |]) in
  t5 <- as_vec 9 result2_ ;;
  t6 <- as_vec 9 expected2_ ;;
  if (compare_vecs (alist t5) (alist t6) (lit (11258999) (-50) : f32)) then
  t7 <- m44_get_submatrix m_ (0%nat, 2%nat) ;;
  let result3_ := t7 in
  let expected3_ := ([| [| (lit (5) (0) : f32); (lit (3) (1) : f32); (lit (1) (3) : f32) |]; [| (lit (9) (0) : f32); (lit (5) (1) : f32); (lit (3) (2) : f32) |]; [| (lit (13) (0) : f32); (lit (7) (1) : f32); (lit (1) (4) : f32) |] |]) in
  t8 <- as_vec 9 result3_ ;;
  t9 <- as_vec 9 expected3_ ;;
  Ok ((compare_vecs (alist t8) (alist t9) (lit (11258999) (-50) : f32)))
  else Ok false
  else Ok false) = Ok true.
Proof. vm_compute. reflexivity. Qed.

(** matrix4x4.rs:1116-1138 *)
Example test_matrix4x4_inverse_test : (
  let m_ := ([| [| (lit (1) (0) : f32); (lit (1) (0) : f32); (lit (1) (0) : f32); (lit (-1) (0) : f32) |]; [| (lit (1) (0) : f32); (lit (1) (0) : f32); (lit (-1) (0) : f32); (lit (1) (0) : f32) |]; [| (lit (1) (0) : f32); (lit (-1) (0) : f32); (lit (1) (0) : f32); (lit (1) (0) : f32) |]; [| (lit (-1) (0) : f32); (lit (1) (0) : f32); (lit (1) (0) : f32); (lit (1) (0) : f32) |] |]) in
  let expected_ := ([| [| (div (lit (1) (0) : f32) (lit (1) (2) : f32)); (div (lit (1) (0) : f32) (lit (1) (2) : f32)); (div (lit (1) (0) : f32) (lit (1) (2) : f32)); (div (lit (-1) (0) : f32) (lit (1) (2) : f32)) |]; [| (div (lit (1) (0) : f32) (lit (1) (2) : f32)); (div (lit (1) (0) : f32) (lit (1) (2) : f32)); (div (lit (-1) (0) : f32) (lit (1) (2) : f32)); (div (lit (1) (0) : f32) (lit (1) (2) : f32)) |]; [| (div (lit (1) (0) : f32) (lit (1) (2) : f32)); (div (lit (-1) (0) : f32) (lit (1) (2) : f32)); (div (lit (1) (0) : f32) (lit (1) (2) : f32)); (div (lit (1) (0) : f32) (lit (1) (2) : f32)) |]; [| (div (lit (-1) (0) : f32) (lit (1) (2) : f32)); (div (lit (1) (0) : f32) (lit (1) (2) : f32)); (div (lit (1) (0) : f32) (lit (1) (2) : f32)); (div (lit (1) (0) : f32) (lit (1) (2) : f32)) |] |]) in
  t1 <- m44_inverse m_ ;;
  match t1 with None => Ok false | Some result_ =>
  t2 <- as_vec 16 result_ ;;
  t3 <- as_vec 16 expected_ ;;
  Ok ((compare_vecs (alist t2) (alist t3) (lit (11258999) (-50) : f32)))
  end) = Ok true.
Proof. vm_compute. reflexivity. Qed.

(** matrix4x4.rs:1140-1152 *)
Example test_inverse_fail : (
  let m_ := ([| [| (lit (1) (0) : f64); (lit (1) (0) : f64); (lit (1) (0) : f64); (lit (-1) (0) : f64) |]; [| (lit (1) (0) : f64); (lit (1) (0) : f64); (lit (1) (0) : f64); (lit (-1) (0) : f64) |]; [| (lit (1) (0) : f64); (lit (-1) (0) : f64); (lit (1) (0) : f64); (lit (1) (0) : f64) |]; [| (lit (-1) (0) : f64); (lit (1) (0) : f64); (lit (1) (0) : f64); (lit (1) (0) : f64) |] |]) in
  t1 <- m44_inverse m_ ;;
  let result_ := t1 in
  let expected_ := None in
  Ok ((opt_eq (arr_eq (n:=4) (arr_eq (n:=4) eqb))) result_ expected_)) = Ok true.
Proof. vm_compute. reflexivity. Qed.

(** matrix4x4.rs:1154-1177 *)
Example test_get_cols_test : (
  let m_ := ([| [| (B754_zero false : f64); (lit (1) (0) : f64); (lit (1) (1) : f64); (lit (3) (0) : f64) |]; [| (lit (1) (2) : f64); (lit (5) (0) : f64); (lit (3) (1) : f64); (lit (7) (0) : f64) |]; [| (lit (1) (3) : f64); (lit (9) (0) : f64); (lit (5) (1) : f64); (lit (11) (0) : f64) |]; [| (lit (3) (2) : f64); (lit (13) (0) : f64); (lit (7) (1) : f64); (lit (15) (0) : f64) |] |]) in
  t1 <- m44_get_cols m_ ;;
  let result_ := t1 in
  let expected0_ := ([| (B754_zero false : f64); (lit (1) (2) : f64); (lit (1) (3) : f64); (lit (3) (2) : f64) |]) in
  let expected1_ := ([| (lit (1) (0) : f64); (lit (5) (0) : f64); (lit (9) (0) : f64); (lit (13) (0) : f64) |]) in
  let expected2_ := ([| (lit (1) (1) : f64); (lit (3) (1) : f64); (lit (5) (1) : f64); (lit (7) (1) : f64) |]) in
  let expected3_ := ([| (lit (3) (0) : f64); (lit (7) (0) : f64); (lit (11) (0) : f64); (lit (15) (0) : f64) |]) in
  let expected_ := ([| expected0_; expected1_; expected2_; expected3_ |]) in
  Ok ((arr_eq (arr_eq (n:=4) eqb)) result_ expected_)) = Ok true.
Proof. vm_compute. reflexivity. Qed.

(** matrix4x4.rs:1179-1202 *)
Example test_get_rows_test : (
  let m_ := ([| [| (B754_zero false : f64); (lit (1) (0) : f64); (lit (1) (1) : f64); (lit (3) (0) : f64) |]; [| (lit (1) (2) : f64); (lit (5) (0) : f64); (lit (3) (1) : f64); (lit (7) (0) : f64) |]; [| (lit (1) (3) : f64); (lit (9) (0) : f64); (lit (5) (1) : f64); (lit (11) (0) : f64) |]; [| (lit (3) (2) : f64); (lit (13) (0) : f64); (lit (7) (1) : f64); (lit (15) (0) : f64) |] |]) in
  t1 <- m44_get_rows m_ ;;
  let result_ := t1 in
  let expected0_ := ([| (B754_zero false : f64); (lit (1) (0) : f64); (lit (1) (1) : f64); (lit (3) (0) : f64) |]) in
  let expected1_ := ([| (lit (1) (2) : f64); (lit (5) (0) : f64); (lit (3) (1) : f64); (lit (7) (0) : f64) |]) in
  let expected2_ := ([| (lit (1) (3) : f64); (lit (9) (0) : f64); (lit (5) (1) : f64); (lit (11) (0) : f64) |]) in
  let expected3_ := ([| (lit (3) (2) : f64); (lit (13) (0) : f64); (lit (7) (1) : f64); (lit (15) (0) : f64) |]) in
  let expected_ := ([| expected0_; expected1_; expected2_; expected3_ |]) in
  Ok ((arr_eq (arr_eq (n:=4) eqb)) result_ expected_)) = Ok true.
Proof. vm_compute. reflexivity. Qed.

(** matrix4x4.rs:1204-1216 *)
Example test_new_from_vecs_test : (
  let expected_ := ([| [| (B754_zero false : f32); (lit (1) (0) : f32); (lit (1) (1) : f32); (lit (3) (0) : f32) |]; [| (lit (1) (2) : f32); (lit (5) (0) : f32); (lit (3) (1) : f32); (lit (7) (0) : f32) |]; [| (lit (1) (3) : f32); (lit (9) (0) : f32); (lit (5) (1) : f32); (lit (11) (0) : f32) |]; [| (lit (3) (2) : f32); (lit (13) (0) : f32); (lit (7) (1) : f32); (lit (15) (0) : f32) |] |]) in
  t1 <- m44_get_cols expected_ ;;
  let cols_ := t1 in
  t2 <- m44_new_from_vecs cols_ ;;
  let result_ := t2 in
  t3 <- as_vec 16 result_ ;;
  t4 <- as_vec 16 expected_ ;;
  Ok ((compare_vecs (alist t3) (alist t4) (lit (11258999) (-50) : f32)))) = Ok true.
Proof. vm_compute. reflexivity. Qed.

(** matrix4x4.rs:1218-1229 *)
Example test_qr_test : (
  let expected_ := ([| [| (B754_zero false : f32); (lit (1) (0) : f32); (lit (1) (1) : f32); (lit (3) (0) : f32) |]; [| (lit (1) (2) : f32); (lit (5) (0) : f32); (lit (3) (1) : f32); (lit (7) (0) : f32) |]; [| (lit (1) (3) : f32); (lit (9) (0) : f32); (lit (5) (1) : f32); (lit (11) (0) : f32) |]; [| (lit (3) (2) : f32); (lit (13) (0) : f32); (lit (7) (1) : f32); (lit (15) (0) : f32) |] |]) in
  t1 <- m44_qr expected_ ;;
  match t1 with None => Ok true | Some (q_, r_) =>
  let result_ := (m44_mul q_ r_) in
  t2 <- as_vec 16 result_ ;;
  t3 <- as_vec 16 expected_ ;;
  if (compare_vecs (alist t2) (alist t3) (lit (11258999) (-50) : f32)) then
  Ok ((nearly_equal (abs (m44_det q_)) (lit (1) (0) : f32) (lit (11258999) (-50) : f32)))
  else Ok false
  end) = Ok true.
Proof. vm_compute. reflexivity. Qed.

(** the branch of this test is not taken *)
Example test_qr_test_none : (
  let expected_ := ([| [| (B754_zero false : f32); (lit (1) (0) : f32); (lit (1) (1) : f32); (lit (3) (0) : f32) |]; [| (lit (1) (2) : f32); (lit (5) (0) : f32); (lit (3) (1) : f32); (lit (7) (0) : f32) |]; [| (lit (1) (3) : f32); (lit (9) (0) : f32); (lit (5) (1) : f32); (lit (11) (0) : f32) |]; [| (lit (3) (2) : f32); (lit (13) (0) : f32); (lit (7) (1) : f32); (lit (15) (0) : f32) |] |]) in
  t1 <- m44_qr expected_ ;;
  match t1 with None => Ok false | Some (q_, r_) =>
  let result_ := (m44_mul q_ r_) in
  t2 <- as_vec 16 result_ ;;
  t3 <- as_vec 16 expected_ ;;
  if (compare_vecs (alist t2) (alist t3) (lit (11258999) (-50) : f32)) then
  Ok ((nearly_equal (abs (m44_det q_)) (lit (1) (0) : f32) (lit (11258999) (-50) : f32)))
  else Ok false
  end) = Ok false.
Proof. vm_compute. reflexivity. Qed.

(** matrix4x4.rs:1231-1246 *)
Example test_get_diagonal : (
  let m_ := ([| [| (B754_zero false : f64); (lit (1) (0) : f64); (lit (1) (1) : f64); (lit (3) (0) : f64) |]; [| (lit (1) (2) : f64); (lit (5) (0) : f64); (lit (3) (1) : f64); (lit (7) (0) : f64) |]; [| (lit (1) (3) : f64); (lit (9) (0) : f64); (lit (5) (1) : f64); (lit (11) (0) : f64) |]; [| (lit (3) (2) : f64); (lit (13) (0) : f64); (lit (7) (1) : f64); (lit (15) (0) : f64) |] |]) in
  t1 <- get_diagonal m_ ;;
  let result_ := t1 in
  let expected_ := ([| (B754_zero false : f64); (lit (5) (0) : f64); (lit (5) (1) : f64); (lit (15) (0) : f64) |]) in
  Ok ((arr_eq eqb) result_ expected_)) = Ok true.
Proof. vm_compute. reflexivity. Qed.

(** matrix4x4.rs:1248-1263 *)
Example test_get_upper_triangular_test : (
  let m_ := ([| [| (B754_zero false : f64); (lit (1) (0) : f64); (lit (1) (1) : f64); (lit (3) (0) : f64) |]; [| (lit (1) (2) : f64); (lit (5) (0) : f64); (lit (3) (1) : f64); (lit (7) (0) : f64) |]; [| (lit (1) (3) : f64); (lit (9) (0) : f64); (lit (5) (1) : f64); (lit (11) (0) : f64) |]; [| (lit (3) (2) : f64); (lit (13) (0) : f64); (lit (7) (1) : f64); (lit (15) (0) : f64) |] |]) in
  t1 <- get_upper_triangular 6 m_ ;;
  let result_ := t1 in
  let expected_ := [| (lit (1) (0) : f64); (lit (1) (1) : f64); (lit (3) (0) : f64); (lit (3) (1) : f64); (lit (7) (0) : f64); (lit (11) (0) : f64) |] in
  Ok ((arr_eq (eqb)) result_ expected_)) = Ok true.
Proof. vm_compute. reflexivity. Qed.

(** matrix4x4.rs:1265-1281 *)
Example test_get_lower_triangular_test : (
  let m_ := ([| [| (B754_zero false : f64); (lit (1) (0) : f64); (lit (1) (1) : f64); (lit (3) (0) : f64) |]; [| (lit (1) (2) : f64); (lit (5) (0) : f64); (lit (3) (1) : f64); (lit (7) (0) : f64) |]; [| (lit (1) (3) : f64); (lit (9) (0) : f64); (lit (5) (1) : f64); (lit (11) (0) : f64) |]; [| (lit (3) (2) : f64); (lit (13) (0) : f64); (lit (7) (1) : f64); (lit (15) (0) : f64) |] |]) in
  t1 <- get_lower_triangular 6 m_ ;;
  let result_ := t1 in
  let expected_ := [| (lit (1) (2) : f64); (lit (1) (3) : f64); (lit (9) (0) : f64); (lit (3) (2) : f64); (lit (13) (0) : f64); (lit (7) (1) : f64) |] in
  Ok ((arr_eq (eqb)) result_ expected_)) = Ok true.
Proof. vm_compute. reflexivity. Qed.

(** matrix4x4.rs:1283-1295 *)
Example test_for_each_test : (
  let m_ := ([| [| (B754_zero false : f32); (lit (1) (0) : f32); (lit (1) (1) : f32); (lit (3) (0) : f32) |]; [| (lit (1) (2) : f32); (lit (5) (0) : f32); (lit (3) (1) : f32); (lit (7) (0) : f32) |]; [| (lit (1) (3) : f32); (lit (9) (0) : f32); (lit (5) (1) : f32); (lit (11) (0) : f32) |]; [| (lit (3) (2) : f32); (lit (13) (0) : f32); (lit (7) (1) : f32); (lit (15) (0) : f32) |] |]) in
  t1 <- for_each m_ (fun element => (add element (lit (1) (0) : f32))) ;;
  let result_ := t1 in
  let expected_ := ([| [| (lit (1) (0) : f32); (lit (1) (1) : f32); (lit (3) (0) : f32); (lit (1) (2) : f32) |]; [| (lit (5) (0) : f32); (lit (3) (1) : f32); (lit (7) (0) : f32); (lit (1) (3) : f32) |]; [| (lit (9) (0) : f32); (lit (5) (1) : f32); (lit (11) (0) : f32); (lit (3) (2) : f32) |]; [| (lit (13) (0) : f32); (lit (7) (1) : f32); (lit (15) (0) : f32); (lit (1) (4) : f32) |] |]) in
  t2 <- as_vec 16 result_ ;;
  t3 <- as_vec 16 expected_ ;;
  Ok ((compare_vecs (alist t2) (alist t3) (lit (11258999) (-50) : f32)))) = Ok true.
Proof. vm_compute. reflexivity. Qed.
