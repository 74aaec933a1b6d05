(** * The unit tests of src/matrix3x3.rs, run on the model (tools/replay.py)

    Tests, not proofs: each runs one input. Where the source asserts under
    [if let Some(..)], the branch is required to be taken unless said otherwise. *)

From Coq Require Import ZArith List Bool.
From Flocq Require Import Core IEEE754.BinarySingleNaN.
From Verif Require Import Base Scalar Vec Mat2 Mat3 Mat4 Mat5 Mat6 MatLoops MatOps Slices Quat DualQuat Transf Ctor InstF InstI Replay.
Import ListNotations.
Open Scope Z_scope.

(** matrix3x3.rs:682-694 *)
Example test_create_matrix : (
  let matrix_ := ([| [| (B754_zero false : f64); (lit (1) (0) : f64); (lit (1) (1) : f64) |]; [| (lit (3) (0) : f64); (lit (1) (2) : f64); (lit (5) (0) : f64) |]; [| (lit (3) (1) : f64); (lit (7) (0) : f64); (lit (1) (3) : f64) |] |]) in
  t1 <- mget matrix_ 0%nat 0%nat ;;
  if (eqb) t1 (B754_zero false : f64) then
  t2 <- mget matrix_ 0%nat 1%nat ;;
  if (eqb) t2 (lit (1) (0) : f64) then
  t3 <- mget matrix_ 0%nat 2%nat ;;
  if (eqb) t3 (lit (1) (1) : f64) then
  t4 <- mget matrix_ 1%nat 0%nat ;;
  if (eqb) t4 (lit (3) (0) : f64) then
  t5 <- mget matrix_ 1%nat 1%nat ;;
  if (eqb) t5 (lit (1) (2) : f64) then
  t6 <- mget matrix_ 1%nat 2%nat ;;
  if (eqb) t6 (lit (5) (0) : f64) then
  t7 <- mget matrix_ 2%nat 0%nat ;;
  if (eqb) t7 (lit (3) (1) : f64) then
  t8 <- mget matrix_ 2%nat 1%nat ;;
  if (eqb) t8 (lit (7) (0) : f64) then
  t9 <- mget matrix_ 2%nat 2%nat ;;
  Ok ((eqb) t9 (lit (1) (3) : f64))
  else Ok false
  else Ok false
  else Ok false
  else Ok false
  else Ok false
  else Ok false
  else Ok false
  else Ok false) = Ok true.
Proof. vm_compute. reflexivity. Qed.

(** matrix3x3.rs:696-700 *)
Example test_trace_test : (
  let matrix_ := ([| [| (B754_zero false : f64); (lit (1) (0) : f64); (lit (1) (1) : f64) |]; [| (lit (3) (0) : f64); (lit (1) (2) : f64); (lit (5) (0) : f64) |]; [| (lit (3) (1) : f64); (lit (7) (0) : f64); (lit (1) (3) : f64) |] |]) in
  Ok ((eqb) (m33_trace matrix_) (lit (3) (2) : f64))) = Ok true.
Proof. vm_compute. reflexivity. Qed.

(** matrix3x3.rs:702-712 *)
Example test_add_matrix : (
  let m1_ := ([| [| (B754_zero false : f32); (lit (1) (0) : f32); (lit (1) (1) : f32) |]; [| (lit (3) (0) : f32); (lit (1) (2) : f32); (lit (5) (0) : f32) |]; [| (lit (3) (1) : f32); (lit (7) (0) : f32); (lit (1) (3) : f32) |] |]) in
  let m2_ := ([| [| (B754_zero false : f32); (lit (1) (0) : f32); (lit (1) (1) : f32) |]; [| (lit (3) (0) : f32); (lit (1) (2) : f32); (lit (5) (0) : f32) |]; [| (lit (3) (1) : f32); (lit (7) (0) : f32); (lit (1) (3) : f32) |] |]) in
  let expected_ := ([| [| (B754_zero false : f32); (lit (1) (1) : f32); (lit (1) (2) : f32) |]; [| (lit (3) (1) : f32); (lit (1) (3) : f32); (lit (5) (1) : f32) |]; [| (lit (3) (2) : f32); (lit (7) (1) : f32); (lit (1) (4) : f32) |] |]) in
  let result_ := (m33_add m1_ m2_) in
  t1 <- as_vec 9 result_ ;;
  t2 <- as_vec 9 expected_ ;;
  Ok ((compare_vecs (alist t1) (alist t2) (lit (11258999) (-50) : f32)))) = Ok true.
Proof. vm_compute. reflexivity. Qed.

(** matrix3x3.rs:714-731 *)
Example test_sub_test : (
  let m1_ := ([| [| (B754_zero false : f32); (lit (1) (0) : f32); (lit (1) (1) : f32) |]; [| (lit (3) (0) : f32); (lit (1) (2) : f32); (lit (5) (0) : f32) |]; [| (lit (3) (1) : f32); (lit (7) (0) : f32); (lit (1) (3) : f32) |] |]) in
  let m2_ := ([| [| (B754_zero false : f32); (lit (1) (0) : f32); (lit (1) (1) : f32) |]; [| (lit (3) (0) : f32); (lit (1) (2) : f32); (lit (5) (0) : f32) |]; [| (lit (3) (1) : f32); (lit (7) (0) : f32); (lit (1) (3) : f32) |] |]) in
  let expected_ := ([| [| (B754_zero false : f32); (B754_zero false : f32); (B754_zero false : f32) |]; [| (B754_zero false : f32); (B754_zero false : f32); (B754_zero false : f32) |]; [| (B754_zero false : f32); (B754_zero false : f32); (B754_zero false : f32) |] |]) in
  let result_ := (m33_sub m1_ m2_) in
  t1 <- as_vec 9 result_ ;;
  t2 <- as_vec 9 expected_ ;;
  Ok ((compare_vecs (alist t1) (alist t2) (lit (11258999) (-50) : f32)))) = Ok true.
Proof. vm_compute. reflexivity. Qed.

(** matrix3x3.rs:733-740 *)
Example test_test_identity_creation : (
  let identity_ := (m33_identity (T:=f32)) in
  let expected_ := ([| [| (lit (1) (0) : f32); (B754_zero false : f32); (B754_zero false : f32) |]; [| (B754_zero false : f32); (lit (1) (0) : f32); (B754_zero false : f32) |]; [| (B754_zero false : f32); (B754_zero false : f32); (lit (1) (0) : f32) |] |]) in
  t2 <- as_vec 9 identity_ ;;
  t3 <- as_vec 9 expected_ ;;
  Ok ((compare_vecs (alist t2) (alist t3) (lit (11258999) (-50) : f32)))) = Ok true.
Proof. vm_compute. reflexivity. Qed.

(** matrix3x3.rs:742-749 *)
Example test_test_zeros_creation : (
  let zero_ := (m33_zeros (T:=f32)) in
  let expected_ := ([| [| (B754_zero false : f32); (B754_zero false : f32); (B754_zero false : f32) |]; [| (B754_zero false : f32); (B754_zero false : f32); (B754_zero false : f32) |]; [| (B754_zero false : f32); (B754_zero false : f32); (B754_zero false : f32) |] |]) in
  t2 <- as_vec 9 zero_ ;;
  t3 <- as_vec 9 expected_ ;;
  Ok ((compare_vecs (alist t2) (alist t3) (lit (11258999) (-50) : f32)))) = Ok true.
Proof. vm_compute. reflexivity. Qed.

(** matrix3x3.rs:751-755 *)
Example test_test_trace : (
  let m_ := (m33_identity (T:=f32)) in
  Ok ((eqb) (m33_trace m_) (lit (3) (0) : f32))) = Ok true.
Proof. vm_compute. reflexivity. Qed.

(** matrix3x3.rs:757-762 *)
Example test_test_norm2 : (
  let m_ := ([| [| (B754_zero false : f32); (lit (1) (0) : f32); (lit (1) (1) : f32) |]; [| (lit (3) (0) : f32); (lit (1) (2) : f32); (lit (5) (0) : f32) |]; [| (lit (3) (1) : f32); (lit (7) (0) : f32); (lit (1) (3) : f32) |] |]) in
  Ok ((nearly_equal (m33_norm2 m_) (lit (14976661) (-20) : f32) (lit (11258999) (-50) : f32)))) = Ok true.
Proof. vm_compute. reflexivity. Qed.

(** matrix3x3.rs:764-771 *)
Example test_determinant_test : (
  let m_ := ([| [| (B754_zero false : f32); (lit (1) (0) : f32); (lit (1) (1) : f32) |]; [| (lit (3) (0) : f32); (lit (1) (2) : f32); (lit (5) (0) : f32) |]; [| (lit (3) (1) : f32); (lit (7) (0) : f32); (lit (9) (0) : f32) |] |]) in
  let expected_ := (lit (-3) (0) : f32) in
  let result_ := (m33_det m_) in
  Ok ((nearly_equal result_ expected_ (lit (11258999) (-50) : f32)))) = Ok true.
Proof. vm_compute. reflexivity. Qed.

(** matrix3x3.rs:773-787 *)
Example test_inverse_test : (
  let m_ := ([| [| (lit (1) (0) : f32); (B754_zero false : f32); (lit (3) (0) : f32) |]; [| (lit (1) (1) : f32); (lit (1) (0) : f32); (lit (3) (1) : f32) |]; [| (lit (1) (0) : f32); (B754_zero false : f32); (lit (9) (0) : f32) |] |]) in
  let expected_ := ([| [| (lit (3) (-1) : f32); (B754_zero false : f32); (lit (-1) (-1) : f32) |]; [| (lit (-1) (1) : f32); (lit (1) (0) : f32); (B754_zero false : f32) |]; [| (lit (-11184811) (-26) : f32); (B754_zero false : f32); (lit (11184811) (-26) : f32) |] |]) in
  t1 <- m33_inverse m_ ;;
  match t1 with None => Ok false | Some result_ =>
  t2 <- as_vec 9 result_ ;;
  t3 <- as_vec 9 expected_ ;;
  Ok ((compare_vecs (alist t2) (alist t3) (lit (11258999) (-50) : f32)))
  end) = Ok true.
Proof. vm_compute. reflexivity. Qed.

(** matrix3x3.rs:789-795 *)
Example test_inverse_fail : (
  let m_ := ([| [| (lit (1) (0) : f64); (B754_zero false : f64); (lit (3) (0) : f64) |]; [| (lit (1) (0) : f64); (B754_zero false : f64); (lit (3) (0) : f64) |]; [| (lit (5) (1) : f64); (B754_zero false : f64); (lit (3) (0) : f64) |] |]) in
  t1 <- m33_inverse m_ ;;
  let result_ := t1 in
  let expected_ := None in
  Ok ((opt_eq (arr_eq (n:=3) (arr_eq (n:=3) eqb))) result_ expected_)) = Ok true.
Proof. vm_compute. reflexivity. Qed.

(** matrix3x3.rs:797-810 *)
Example test_test_mul_m33_v3 : (
  let m_ := ([| [| (lit (1) (0) : f64); (lit (1) (0) : f64); (lit (1) (0) : f64) |]; [| (lit (3) (0) : f64); (lit (1) (1) : f64); (lit (1) (0) : f64) |]; [| (lit (7) (0) : f64); (lit (3) (0) : f64); (lit (3) (0) : f64) |] |]) in
  let v_ := ([| (lit (1) (1) : f64); (lit (7) (0) : f64); (lit (3) (1) : f64) |]) in
  let result_ := (m33_mul_v m_ v_) in
  let expected_ := ([| (lit (15) (0) : f64); (lit (13) (1) : f64); (lit (53) (0) : f64) |]) in
  Ok ((arr_eq eqb) result_ expected_)) = Ok true.
Proof. vm_compute. reflexivity. Qed.

(** matrix3x3.rs:812-832 *)
Example test_get_columns_test : (
  let m_ := ([| [| (B754_zero false : f64); (lit (1) (0) : f64); (lit (1) (1) : f64) |]; [| (lit (3) (0) : f64); (lit (1) (2) : f64); (lit (5) (0) : f64) |]; [| (lit (3) (1) : f64); (lit (7) (0) : f64); (lit (1) (3) : f64) |] |]) in
  t1 <- m33_get_cols m_ ;;
  let result_ := t1 in
  let expected0_ := ([| (B754_zero false : f64); (lit (3) (0) : f64); (lit (3) (1) : f64) |]) in
  let expected1_ := ([| (lit (1) (0) : f64); (lit (1) (2) : f64); (lit (7) (0) : f64) |]) in
  let expected2_ := ([| (lit (1) (1) : f64); (lit (5) (0) : f64); (lit (1) (3) : f64) |]) in
  let expected_ := ([| expected0_; expected1_; expected2_ |]) in
  Ok ((arr_eq (arr_eq (n:=3) eqb)) result_ expected_)) = Ok true.
Proof. vm_compute. reflexivity. Qed.

(** matrix3x3.rs:834-855 *)
Example test_get_rows_test : (
  let m_ := ([| [| (B754_zero false : f64); (lit (1) (0) : f64); (lit (1) (1) : f64) |]; [| (lit (3) (0) : f64); (lit (1) (2) : f64); (lit (5) (0) : f64) |]; [| (lit (3) (1) : f64); (lit (7) (0) : f64); (lit (1) (3) : f64) |] |]) in
  t1 <- m33_get_rows m_ ;;
  let result_ := t1 in
  let expected0_ := ([| (B754_zero false : f64); (lit (1) (0) : f64); (lit (1) (1) : f64) |]) in
  let expected1_ := ([| (lit (3) (0) : f64); (lit (1) (2) : f64); (lit (5) (0) : f64) |]) in
  let expected2_ := ([| (lit (3) (1) : f64); (lit (7) (0) : f64); (lit (1) (3) : f64) |]) in
  let expected_ := ([| expected0_; expected1_; expected2_ |]) in
  Ok ((arr_eq (arr_eq (n:=3) eqb)) result_ expected_)) = Ok true.
Proof. vm_compute. reflexivity. Qed.

(** matrix3x3.rs:857-868 *)
Example test_new_from_vecs_test : (
  let expected_ := ([| [| (B754_zero false : f32); (lit (1) (0) : f32); (lit (1) (1) : f32) |]; [| (lit (3) (0) : f32); (lit (1) (2) : f32); (lit (5) (0) : f32) |]; [| (lit (3) (1) : f32); (lit (7) (0) : f32); (lit (1) (3) : f32) |] |]) in
  t1 <- m33_get_cols expected_ ;;
  let cols_ := t1 in
  t2 <- m33_new_from_vecs cols_ ;;
  let result_ := t2 in
  t3 <- as_vec 9 result_ ;;
  t4 <- as_vec 9 expected_ ;;
  Ok ((compare_vecs (alist t3) (alist t4) (lit (11258999) (-50) : f32)))) = Ok true.
Proof. vm_compute. reflexivity. Qed.

(** matrix3x3.rs:870-880 *)
Example test_qr_test : (
  let expected_ := ([| [| (B754_zero false : f32); (lit (1) (0) : f32); (lit (1) (1) : f32) |]; [| (lit (3) (0) : f32); (lit (1) (2) : f32); (lit (5) (0) : f32) |]; [| (lit (3) (1) : f32); (lit (7) (0) : f32); (lit (1) (3) : f32) |] |]) in
  t1 <- m33_qr expected_ ;;
  match t1 with None => Ok true | Some (q_, r_) =>
  let result_ := (m33_mul q_ r_) in
  t2 <- as_vec 9 result_ ;;
  t3 <- as_vec 9 expected_ ;;
  if (compare_vecs (alist t2) (alist t3) (lit (11258999) (-50) : f32)) then
  Ok ((nearly_equal (abs (m33_det q_)) (lit (1) (0) : f32) (lit (11258999) (-50) : f32)))
  else Ok false
  end) = Ok true.
Proof. vm_compute. reflexivity. Qed.

(** the branch of this test is not taken *)
Example test_qr_test_none : (
  let expected_ := ([| [| (B754_zero false : f32); (lit (1) (0) : f32); (lit (1) (1) : f32) |]; [| (lit (3) (0) : f32); (lit (1) (2) : f32); (lit (5) (0) : f32) |]; [| (lit (3) (1) : f32); (lit (7) (0) : f32); (lit (1) (3) : f32) |] |]) in
  t1 <- m33_qr expected_ ;;
  match t1 with None => Ok false | Some (q_, r_) =>
  let result_ := (m33_mul q_ r_) in
  t2 <- as_vec 9 result_ ;;
  t3 <- as_vec 9 expected_ ;;
  if (compare_vecs (alist t2) (alist t3) (lit (11258999) (-50) : f32)) then
  Ok ((nearly_equal (abs (m33_det q_)) (lit (1) (0) : f32) (lit (11258999) (-50) : f32)))
  else Ok false
  end) = Ok false.
Proof. vm_compute. reflexivity. Qed.

(** matrix3x3.rs:882-896 *)
Example test_get_diagonal : (
  let m_ := ([| [| (B754_zero false : f64); (lit (1) (0) : f64); (lit (1) (1) : f64) |]; [| (lit (3) (0) : f64); (lit (1) (2) : f64); (lit (5) (0) : f64) |]; [| (lit (3) (1) : f64); (lit (7) (0) : f64); (lit (1) (3) : f64) |] |]) in
  t1 <- get_diagonal m_ ;;
  let result_ := t1 in
  let expected_ := ([| (B754_zero false : f64); (lit (1) (2) : f64); (lit (1) (3) : f64) |]) in
  Ok ((arr_eq eqb) result_ expected_)) = Ok true.
Proof. vm_compute. reflexivity. Qed.

(** matrix3x3.rs:898-912 *)
Example test_get_upper_triangular_test : (
  let m_ := ([| [| (B754_zero false : f64); (lit (1) (0) : f64); (lit (1) (1) : f64) |]; [| (lit (3) (0) : f64); (lit (1) (2) : f64); (lit (5) (0) : f64) |]; [| (lit (3) (1) : f64); (lit (7) (0) : f64); (lit (1) (3) : f64) |] |]) in
  t1 <- get_upper_triangular 3 m_ ;;
  let result_ := t1 in
  let expected_ := [| (lit (1) (0) : f64); (lit (1) (1) : f64); (lit (5) (0) : f64) |] in
  Ok ((arr_eq (eqb)) result_ expected_)) = Ok true.
Proof. vm_compute. reflexivity. Qed.

(** matrix3x3.rs:914-928 *)
Example test_get_lower_triangular_test : (
  let m_ := ([| [| (B754_zero false : f64); (lit (1) (0) : f64); (lit (1) (1) : f64) |]; [| (lit (3) (0) : f64); (lit (1) (2) : f64); (lit (5) (0) : f64) |]; [| (lit (3) (1) : f64); (lit (7) (0) : f64); (lit (1) (3) : f64) |] |]) in
  t1 <- get_lower_triangular 3 m_ ;;
  let result_ := t1 in
  let expected_ := [| (lit (3) (0) : f64); (lit (3) (1) : f64); (lit (7) (0) : f64) |] in
  Ok ((arr_eq (eqb)) result_ expected_)) = Ok true.
Proof. vm_compute. reflexivity. Qed.

(** matrix3x3.rs:930-940 *)
Example test_for_each_test : (
  let m_ := ([| [| (B754_zero false : f32); (lit (1) (0) : f32); (lit (1) (1) : f32) |]; [| (lit (3) (0) : f32); (lit (1) (2) : f32); (lit (5) (0) : f32) |]; [| (lit (3) (1) : f32); (lit (7) (0) : f32); (lit (1) (3) : f32) |] |]) in
  t1 <- for_each m_ (fun element => (add element (lit (1) (0) : f32))) ;;
  let result_ := t1 in
  let expected_ := ([| [| (lit (1) (0) : f32); (lit (1) (1) : f32); (lit (3) (0) : f32) |]; [| (lit (1) (2) : f32); (lit (5) (0) : f32); (lit (3) (1) : f32) |]; [| (lit (7) (0) : f32); (lit (1) (3) : f32); (lit (9) (0) : f32) |] |]) in
  t2 <- as_vec 9 result_ ;;
  t3 <- as_vec 9 expected_ ;;
  Ok ((compare_vecs (alist t2) (alist t3) (lit (11258999) (-50) : f32)))) = Ok true.
Proof. vm_compute. reflexivity. Qed.
