(** * The unit tests of src/matrix2x2.rs, run on the model (tools/replay.py)

    Tests, not proofs: each runs one input. Where the source asserts under
    [if let Some(..)], the branch is required to be taken unless said otherwise. *)

From Coq Require Import ZArith List Bool.
From Flocq Require Import Core IEEE754.BinarySingleNaN.
From Verif Require Import Base Scalar Vec Mat2 Mat3 Mat4 Mat5 Mat6 MatLoops MatOps Slices Quat DualQuat Transf Ctor InstF InstI Replay.
Import ListNotations.
Open Scope Z_scope.

(** matrix2x2.rs:555-562 *)
Example test_create_m22_floats : (
  let matrix_ := ([| [| (B754_zero false : f64); (lit (1) (0) : f64) |]; [| (lit (1) (1) : f64); (lit (3) (0) : f64) |] |]) in
  t1 <- mget matrix_ 0%nat 0%nat ;;
  if (eqb) t1 (B754_zero false : f64) then
  t2 <- mget matrix_ 0%nat 1%nat ;;
  if (eqb) t2 (lit (1) (0) : f64) then
  t3 <- mget matrix_ 1%nat 0%nat ;;
  if (eqb) t3 (lit (1) (1) : f64) then
  t4 <- mget matrix_ 1%nat 1%nat ;;
  Ok ((eqb) t4 (lit (3) (0) : f64))
  else Ok false
  else Ok false
  else Ok false) = Ok true.
Proof. vm_compute. reflexivity. Qed.

(** matrix2x2.rs:564-573 *)
Example test_create_m22_test : (
  let m_ := ([| [| (B754_zero false : f64); (lit (1) (0) : f64) |]; [| (lit (1) (1) : f64); (lit (3) (0) : f64) |] |]) in
  t1 <- mget m_ 0%nat 0%nat ;;
  if (eqb) t1 (B754_zero false : f64) then
  t2 <- mget m_ 0%nat 1%nat ;;
  if (eqb) t2 (lit (1) (0) : f64) then
  t3 <- mget m_ 1%nat 0%nat ;;
  if (eqb) t3 (lit (1) (1) : f64) then
  t4 <- mget m_ 1%nat 1%nat ;;
  Ok ((eqb) t4 (lit (3) (0) : f64))
  else Ok false
  else Ok false
  else Ok false) = Ok true.
Proof. vm_compute. reflexivity. Qed.

(** matrix2x2.rs:575-582 *)
Example test_create_m22_ints : (
  let m_ := ([| [| (int (0)); (int (1)) |]; [| (int (2)); (int (3)) |] |]) in
  t1 <- mget m_ 0%nat 0%nat ;;
  if (eqb) t1 (int (0)) then
  t2 <- mget m_ 0%nat 1%nat ;;
  if (eqb) t2 (int (1)) then
  t3 <- mget m_ 1%nat 0%nat ;;
  if (eqb) t3 (int (2)) then
  t4 <- mget m_ 1%nat 1%nat ;;
  Ok ((eqb) t4 (int (3)))
  else Ok false
  else Ok false
  else Ok false) = Ok true.
Proof. vm_compute. reflexivity. Qed.

(** matrix2x2.rs:584-589 *)
Example test_create_identity_floats : (
  let expected_ := ([| [| (lit (1) (0) : f64); (B754_zero false : f64) |]; [| (B754_zero false : f64); (lit (1) (0) : f64) |] |]) in
  let result_ := (m22_identity (T:=f64)) in
  t2 <- as_vec 4 result_ ;;
  t3 <- as_vec 4 expected_ ;;
  Ok ((arr_eq (eqb)) t2 t3)) = Ok true.
Proof. vm_compute. reflexivity. Qed.

(** matrix2x2.rs:591-596 *)
Example test_create_identity_ints : (
  let expected_ := ([| [| (int (1)); (int (0)) |]; [| (int (0)); (int (1)) |] |]) in
  let result_ := (m22_identity (T:=i32)) in
  t2 <- as_vec 4 result_ ;;
  t3 <- as_vec 4 expected_ ;;
  Ok ((arr_eq (eqb)) t2 t3)) = Ok true.
Proof. vm_compute. reflexivity. Qed.

(** matrix2x2.rs:598-605 *)
Example test_add_m22_floats : (
  let m1_ := ([| [| (lit (1) (0) : f64); (lit (1) (1) : f64) |]; [| (lit (3) (0) : f64); (lit (1) (2) : f64) |] |]) in
  let m2_ := ([| [| (lit (5) (0) : f64); (lit (3) (1) : f64) |]; [| (lit (7) (0) : f64); (lit (1) (3) : f64) |] |]) in
  let expected_ := ([| [| (lit (3) (1) : f64); (lit (1) (3) : f64) |]; [| (lit (5) (1) : f64); (lit (3) (2) : f64) |] |]) in
  let result_ := (m22_add m1_ m2_) in
  t1 <- as_vec 4 result_ ;;
  t2 <- as_vec 4 expected_ ;;
  Ok ((arr_eq (eqb)) t1 t2)) = Ok true.
Proof. vm_compute. reflexivity. Qed.

(** matrix2x2.rs:607-617 *)
Example test_sub_test : (
  let m1_ := ([| [| (lit (1) (0) : f64); (lit (1) (1) : f64) |]; [| (lit (3) (0) : f64); (lit (1) (2) : f64) |] |]) in
  let m2_ := ([| [| (lit (5) (0) : f64); (lit (3) (1) : f64) |]; [| (lit (7) (0) : f64); (lit (1) (3) : f64) |] |]) in
  let expected_ := ([| [| (lit (-1) (2) : f64); (lit (-1) (2) : f64) |]; [| (lit (-1) (2) : f64); (lit (-1) (2) : f64) |] |]) in
  let result_ := (m22_sub m1_ m2_) in
  t1 <- as_vec 4 result_ ;;
  t2 <- as_vec 4 expected_ ;;
  Ok ((arr_eq (eqb)) t1 t2)) = Ok true.
Proof. vm_compute. reflexivity. Qed.

(** matrix2x2.rs:619-626 *)
Example test_add_m22_ints : (
  let m1_ := ([| [| (int (1)); (int (2)) |]; [| (int (3)); (int (4)) |] |]) in
  let m2_ := ([| [| (int (5)); (int (6)) |]; [| (int (7)); (int (8)) |] |]) in
  let expected_ := ([| [| (int (6)); (int (8)) |]; [| (int (10)); (int (12)) |] |]) in
  let result_ := (m22_add m1_ m2_) in
  t1 <- as_vec 4 result_ ;;
  t2 <- as_vec 4 expected_ ;;
  Ok ((arr_eq (eqb)) t1 t2)) = Ok true.
Proof. vm_compute. reflexivity. Qed.

(** matrix2x2.rs:628-634 *)
Example test_test_determinant : (
  let m1_ := ([| [| (lit (1) (0) : f64); (lit (1) (1) : f64) |]; [| (lit (1) (0) : f64); (lit (1) (1) : f64) |] |]) in
  let result_ := (m22_det m1_) in
  let expected_ := (B754_zero false : f64) in
  Ok ((eqb) result_ expected_)) = Ok true.
Proof. vm_compute. reflexivity. Qed.

(** matrix2x2.rs:636-650 *)
Example test_product_with_vector2_rhs_test : (
  let m1_ := ([| [| (lit (1) (0) : f64); (lit (1) (1) : f64) |]; [| (lit (3) (0) : f64); (lit (1) (2) : f64) |] |]) in
  let v_ := ([| (lit (1) (0) : f64); (lit (1) (1) : f64) |]) in
  let result_ := (m22_mul_v m1_ v_) in
  let expected_ := ([| (lit (5) (0) : f64); (lit (11) (0) : f64) |]) in
  Ok ((arr_eq eqb) result_ expected_)) = Ok true.
Proof. vm_compute. reflexivity. Qed.

(** matrix2x2.rs:652-665 *)
Example test_product_with_matrix2x2_rhs_test : (
  let v_ := ([| (lit (1) (0) : f64); (lit (1) (1) : f64) |]) in
  let m1_ := ([| [| (lit (1) (0) : f64); (lit (1) (1) : f64) |]; [| (lit (3) (0) : f64); (lit (1) (2) : f64) |] |]) in
  let result_ := (v2_mul_m v_ m1_) in
  let expected_ := ([| (lit (7) (0) : f64); (lit (5) (1) : f64) |]) in
  Ok ((arr_eq eqb) result_ expected_)) = Ok true.
Proof. vm_compute. reflexivity. Qed.

(** matrix2x2.rs:667-677 *)
Example test_inverse_test : (
  let m1_ := ([| [| (lit (1) (0) : f32); (lit (1) (1) : f32) |]; [| (lit (3) (0) : f32); (lit (1) (2) : f32) |] |]) in
  let expected_ := ([| [| (lit (-1) (1) : f32); (lit (1) (0) : f32) |]; [| (lit (3) (-1) : f32); (lit (-1) (-1) : f32) |] |]) in
  t1 <- m22_inverse m1_ ;;
  match t1 with None => Ok false | Some result_ =>
  t2 <- as_vec 4 result_ ;;
  t3 <- as_vec 4 expected_ ;;
  Ok ((compare_vecs (alist t2) (alist t3) (lit (14073749) (-47) : f32)))
  end) = Ok true.
Proof. vm_compute. reflexivity. Qed.

(** matrix2x2.rs:679-684 *)
Example test_inverse_fail : (
  let m1_ := ([| [| (lit (1) (0) : f64); (lit (1) (1) : f64) |]; [| (lit (1) (0) : f64); (lit (1) (1) : f64) |] |]) in
  t1 <- m22_inverse m1_ ;;
  let result_ := t1 in
  Ok ((match result_ with None => true | Some _ => false end))) = Ok true.
Proof. vm_compute. reflexivity. Qed.

(** matrix2x2.rs:686-702 *)
Example test_get_columns_test : (
  let m1_ := ([| [| (lit (1) (0) : f64); (lit (1) (1) : f64) |]; [| (lit (3) (0) : f64); (lit (1) (2) : f64) |] |]) in
  t1 <- m22_get_cols m1_ ;;
  let result_ := t1 in
  let expected1_ := ([| (lit (1) (0) : f64); (lit (3) (0) : f64) |]) in
  let expected2_ := ([| (lit (1) (1) : f64); (lit (1) (2) : f64) |]) in
  let expected_ := ([| expected1_; expected2_ |]) in
  Ok ((arr_eq (arr_eq (n:=2) eqb)) result_ expected_)) = Ok true.
Proof. vm_compute. reflexivity. Qed.

(** matrix2x2.rs:704-720 *)
Example test_get_rows_test : (
  let m1_ := ([| [| (lit (1) (0) : f64); (lit (1) (1) : f64) |]; [| (lit (3) (0) : f64); (lit (1) (2) : f64) |] |]) in
  t1 <- m22_get_rows m1_ ;;
  let result_ := t1 in
  let expected1_ := ([| (lit (1) (0) : f64); (lit (1) (1) : f64) |]) in
  let expected2_ := ([| (lit (3) (0) : f64); (lit (1) (2) : f64) |]) in
  let expected_ := ([| expected1_; expected2_ |]) in
  Ok ((arr_eq (arr_eq (n:=2) eqb)) result_ expected_)) = Ok true.
Proof. vm_compute. reflexivity. Qed.

(** matrix2x2.rs:722-732 *)
Example test_new_from_vecs_test : (
  let expected_ := ([| [| (lit (1) (0) : f32); (lit (1) (1) : f32) |]; [| (lit (3) (0) : f32); (lit (1) (2) : f32) |] |]) in
  t1 <- m22_get_cols expected_ ;;
  let cols_ := t1 in
  t2 <- m22_new_from_vecs cols_ ;;
  let result_ := t2 in
  t3 <- as_vec 4 result_ ;;
  t4 <- as_vec 4 expected_ ;;
  Ok ((compare_vecs (alist t3) (alist t4) (lit (14073749) (-47) : f32)))) = Ok true.
Proof. vm_compute. reflexivity. Qed.

(** matrix2x2.rs:734-743 *)
Example test_qr_test : (
  let expected_ := ([| [| (lit (5) (1) : f32); (lit (1) (1) : f32) |]; [| (lit (3) (0) : f32); (lit (-1) (2) : f32) |] |]) in
  t1 <- m22_qr expected_ ;;
  match t1 with None => Ok false | Some (q_, r_) =>
  let result_ := (m22_mul q_ r_) in
  t2 <- as_vec 4 result_ ;;
  t3 <- as_vec 4 expected_ ;;
  if (compare_vecs (alist t2) (alist t3) (lit (14073749) (-47) : f32)) then
  Ok ((nearly_equal (abs (m22_det q_)) (lit (1) (0) : f32) (lit (14073749) (-47) : f32)))
  else Ok false
  end) = Ok true.
Proof. vm_compute. reflexivity. Qed.

(** matrix2x2.rs:745-758 *)
Example test_get_diagonal : (
  let m_ := ([| [| (lit (5) (1) : f64); (lit (1) (1) : f64) |]; [| (lit (3) (0) : f64); (lit (-1) (2) : f64) |] |]) in
  t1 <- get_diagonal m_ ;;
  let result_ := t1 in
  let expected_ := ([| (lit (5) (1) : f64); (lit (-1) (2) : f64) |]) in
  Ok ((arr_eq eqb) result_ expected_)) = Ok true.
Proof. vm_compute. reflexivity. Qed.

(** matrix2x2.rs:760-769 *)
Example test_for_each_test : (
  let m_ := ([| [| (lit (5) (1) : f32); (lit (1) (1) : f32) |]; [| (lit (3) (0) : f32); (lit (-1) (2) : f32) |] |]) in
  t1 <- for_each m_ (fun element => (add element (lit (37) (0) : f32))) ;;
  let result_ := t1 in
  let expected_ := ([| [| (lit (47) (0) : f32); (lit (39) (0) : f32) |]; [| (lit (5) (3) : f32); (lit (33) (0) : f32) |] |]) in
  t2 <- as_vec 4 result_ ;;
  t3 <- as_vec 4 expected_ ;;
  Ok ((compare_vecs (alist t2) (alist t3) (lit (14073749) (-47) : f32)))) = Ok true.
Proof. vm_compute. reflexivity. Qed.
