(** * The unit tests of src/vector3.rs, run on the model (tools/replay.py)

    Tests, not proofs: each runs one input. Where the source asserts under
    [if let Some(..)], the branch is required to be taken unless said otherwise. *)

From Coq Require Import ZArith List Bool.
From Flocq Require Import Core IEEE754.BinarySingleNaN.
From Verif Require Import Base Scalar Vec Mat2 Mat3 Mat4 Mat5 Mat6 MatLoops MatOps Slices Quat DualQuat Transf Ctor InstF InstI Replay.
Import ListNotations.
Open Scope Z_scope.

(** vector3.rs:315-321 *)
Example test_create_vector3_test : (
  let v_ := ([| (lit (1) (0) : f64); (lit (1) (0) : f64); (lit (1) (0) : f64) |]) in
  t1 <- aget v_ 0%nat ;;
  if (eqb) t1 (lit (1) (0) : f64) then
  t2 <- aget v_ 1%nat ;;
  if (eqb) t2 (lit (1) (0) : f64) then
  t3 <- aget v_ 2%nat ;;
  Ok ((eqb) t3 (lit (1) (0) : f64))
  else Ok false
  else Ok false) = Ok true.
Proof. vm_compute. reflexivity. Qed.

(** vector3.rs:323-334 *)
Example test_zero_vector3_test : (
  let result_ := (v3_zeros (T:=f64)) in
  let expected_ := ([| (B754_zero false : f64); (B754_zero false : f64); (B754_zero false : f64) |]) in
  Ok ((arr_eq eqb) result_ expected_)) = Ok true.
Proof. vm_compute. reflexivity. Qed.

(** vector3.rs:336-343 *)
Example test_product_test : (
  let v1_ := ([| (lit (1) (0) : f64); (lit (1) (1) : f64); (lit (3) (0) : f64) |]) in
  let v2_ := ([| (lit (1) (2) : f64); (lit (5) (0) : f64); (lit (3) (1) : f64) |]) in
  let result_ := (v3_dot v1_ v2_) in
  let expected_ := (lit (1) (5) : f64) in
  Ok ((eqb) result_ expected_)) = Ok true.
Proof. vm_compute. reflexivity. Qed.

(** vector3.rs:345-358 *)
Example test_add_test : (
  let v1_ := ([| (lit (1) (0) : f64); (lit (1) (1) : f64); (lit (3) (0) : f64) |]) in
  let v2_ := ([| (lit (1) (2) : f64); (lit (5) (0) : f64); (lit (3) (1) : f64) |]) in
  let result_ := (v3_add v1_ v2_) in
  let expected_ := ([| (lit (5) (0) : f64); (lit (7) (0) : f64); (lit (9) (0) : f64) |]) in
  Ok ((arr_eq eqb) result_ expected_)) = Ok true.
Proof. vm_compute. reflexivity. Qed.

(** vector3.rs:360-366 *)
Example test_norm2_test : (
  let v1_ := ([| (lit (1) (0) : f64); (lit (1) (1) : f64); (lit (3) (0) : f64) |]) in
  let expected_ := (lit (8425463406411593) (-51) : f64) in
  let result_ := (v3_norm2 v1_) in
  Ok ((eqb) result_ expected_)) = Ok true.
Proof. vm_compute. reflexivity. Qed.

(** vector3.rs:368-380 *)
Example test_mul_const_rhs : (
  let v_ := ([| (lit (1) (0) : f64); (lit (1) (1) : f64); (lit (3) (0) : f64) |]) in
  let result_ := (v3_lscale (lit (1) (1) : f64) v_) in
  let expected_ := ([| (lit (1) (1) : f64); (lit (1) (2) : f64); (lit (3) (1) : f64) |]) in
  Ok ((arr_eq eqb) result_ expected_)) = Ok true.
Proof. vm_compute. reflexivity. Qed.

(** vector3.rs:382-394 *)
Example test_mul_const : (
  let v_ := ([| (lit (1) (0) : f64); (lit (1) (1) : f64); (lit (3) (0) : f64) |]) in
  let result_ := (v3_scale v_ (lit (1) (1) : f64)) in
  let expected_ := ([| (lit (1) (1) : f64); (lit (1) (2) : f64); (lit (3) (1) : f64) |]) in
  Ok ((arr_eq eqb) result_ expected_)) = Ok true.
Proof. vm_compute. reflexivity. Qed.

(** vector3.rs:396-409 *)
Example test_sub_test : (
  let v1_ := ([| (lit (1) (0) : f64); (lit (1) (0) : f64); (lit (1) (0) : f64) |]) in
  let v2_ := ([| (lit (1) (1) : f64); (lit (3) (0) : f64); (lit (1) (2) : f64) |]) in
  let result_ := (v3_sub v1_ v2_) in
  let expected_ := ([| (lit (-1) (0) : f64); (lit (-1) (1) : f64); (lit (-3) (0) : f64) |]) in
  Ok ((arr_eq eqb) result_ expected_)) = Ok true.
Proof. vm_compute. reflexivity. Qed.

(** vector3.rs:411-422 *)
Example test_normalize_test : (
  t1 <- v3_normalize ([| (lit (1) (0) : f64); (lit (1) (0) : f64); (lit (1) (0) : f64) |]) ;;
  t2 <- unwrap t1 ;;
  let result_ := t2 in
  let expected_ := ([| (lit (5200308914369309) (-53) : f64); (lit (5200308914369309) (-53) : f64); (lit (5200308914369309) (-53) : f64) |]) in
  Ok ((arr_eq eqb) result_ expected_)) = Ok true.
Proof. vm_compute. reflexivity. Qed.

(** vector3.rs:424-439 *)
Example test_cross_test : (
  let x_ := ([| (lit (1) (0) : f64); (B754_zero false : f64); (B754_zero false : f64) |]) in
  let y_ := ([| (B754_zero false : f64); (lit (1) (0) : f64); (B754_zero false : f64) |]) in
  let result_ := (v3_cross x_ y_) in
  let expected_ := ([| (B754_zero false : f64); (B754_zero false : f64); (lit (1) (0) : f64) |]) in
  Ok ((arr_eq eqb) result_ expected_)) = Ok true.
Proof. vm_compute. reflexivity. Qed.

(** vector3.rs:441-454 *)
Example test_sub_assigment_test : (
  let result_ := ([| (lit (1) (0) : f64); (lit (1) (1) : f64); (lit (3) (0) : f64) |]) in
  let v_ := ([| (lit (1) (2) : f64); (lit (5) (0) : f64); (lit (3) (1) : f64) |]) in
  let expected_ := ([| (lit (-3) (0) : f64); (lit (-3) (0) : f64); (lit (-3) (0) : f64) |]) in
  let result_ := v3_sub_assign result_ v_ in
  Ok ((arr_eq eqb) result_ expected_)) = Ok true.
Proof. vm_compute. reflexivity. Qed.

(** vector3.rs:456-469 *)
Example test_add_assigment_test : (
  let result_ := (v3_new_from (lit (1) (0) : f64) (lit (1) (1) : f64) (lit (3) (0) : f64)) in
  let v_ := (v3_new_from (lit (1) (2) : f64) (lit (5) (0) : f64) (lit (3) (1) : f64)) in
  let expected_ := (v3_new_from (lit (5) (0) : f64) (lit (7) (0) : f64) (lit (9) (0) : f64)) in
  let result_ := v3_add_assign result_ v_ in
  Ok ((arr_eq eqb) result_ expected_)) = Ok true.
Proof. vm_compute. reflexivity. Qed.

(** vector3.rs:471-477 *)
Example test_norm_inf_test : (
  let v_ := (v3_new_from (int (1)) (int (-10)) (int (73))) in
  t1 <- norm_inf (alist v_) ;;
  let result_ := t1 in
  let expected_ := (int (73)) in
  Ok ((eqb) result_ expected_)) = Ok true.
Proof. vm_compute. reflexivity. Qed.

(** vector3.rs:479-485 *)
Example test_norm_l_test : (
  let v_ := (v3_new_from (int (1)) (int (-1)) (int (1))) in
  let result_ := (norm_l (alist v_)) in
  let expected_ := (int (3)) in
  Ok ((eqb) result_ expected_)) = Ok true.
Proof. vm_compute. reflexivity. Qed.
