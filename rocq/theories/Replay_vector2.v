(** * The unit tests of src/vector2.rs, run on the model (tools/replay.py)

    Tests, not proofs: each runs one input. Where the source asserts under
    [if let Some(..)], the branch is required to be taken unless said otherwise. *)

From Coq Require Import ZArith List Bool.
From Flocq Require Import Core IEEE754.BinarySingleNaN.
From Verif Require Import Base Scalar Vec Mat2 Mat3 Mat4 Mat5 Mat6 MatLoops MatOps Slices Quat DualQuat Transf Ctor InstF InstI Replay.
Import ListNotations.
Open Scope Z_scope.

(** vector2.rs:266-271 *)
Example test_create_vector2_test : (
  let v_ := ([| (lit (1) (0) : f64); (lit (1) (1) : f64) |]) in
  t1 <- aget v_ 0%nat ;;
  if (eqb) t1 (lit (1) (0) : f64) then
  t2 <- aget v_ 1%nat ;;
  Ok ((eqb) t2 (lit (1) (1) : f64))
  else Ok false) = Ok true.
Proof. vm_compute. reflexivity. Qed.

(** vector2.rs:273-284 *)
Example test_zero_vector2_test : (
  let result_ := (v2_zeros (T:=f64)) in
  let expected_ := ([| (B754_zero false : f64); (B754_zero false : f64) |]) in
  Ok ((arr_eq eqb) result_ expected_)) = Ok true.
Proof. vm_compute. reflexivity. Qed.

(** vector2.rs:286-293 *)
Example test_product_test : (
  let v1_ := ([| (lit (1) (0) : f64); (lit (1) (1) : f64) |]) in
  let v2_ := ([| (lit (3) (0) : f64); (lit (1) (2) : f64) |]) in
  let result_ := (v2_dot v1_ v2_) in
  let expected_ := (lit (11) (0) : f64) in
  Ok ((eqb) result_ expected_)) = Ok true.
Proof. vm_compute. reflexivity. Qed.

(** vector2.rs:295-308 *)
Example test_add_test : (
  let v1_ := ([| (lit (1) (0) : f64); (lit (1) (1) : f64) |]) in
  let v2_ := ([| (lit (3) (0) : f64); (lit (1) (2) : f64) |]) in
  let result_ := (v2_add v1_ v2_) in
  let expected_ := ([| (lit (1) (2) : f64); (lit (3) (1) : f64) |]) in
  Ok ((arr_eq eqb) result_ expected_)) = Ok true.
Proof. vm_compute. reflexivity. Qed.

(** vector2.rs:310-324 *)
Example test_sub_test : (
  let v1_ := ([| (lit (1) (0) : f64); (lit (1) (1) : f64) |]) in
  let v2_ := ([| (lit (1) (1) : f64); (lit (3) (0) : f64) |]) in
  let expected_ := ([| (lit (-1) (0) : f64); (lit (-1) (0) : f64) |]) in
  let result_ := (v2_sub v1_ v2_) in
  Ok ((arr_eq eqb) result_ expected_)) = Ok true.
Proof. vm_compute. reflexivity. Qed.

(** vector2.rs:326-338 *)
Example test_mul_const_rhs : (
  let v1_ := (v2_new_from (lit (1) (0) : f64) (lit (1) (1) : f64)) in
  let result_ := (v2_lscale (lit (1) (1) : f64) v1_) in
  let expected_ := (v2_new_from (lit (1) (1) : f64) (lit (1) (2) : f64)) in
  Ok ((arr_eq eqb) result_ expected_)) = Ok true.
Proof. vm_compute. reflexivity. Qed.

(** vector2.rs:340-352 *)
Example test_mul_const : (
  let v1_ := (v2_new_from (lit (1) (0) : f64) (lit (1) (1) : f64)) in
  let result_ := (v2_scale v1_ (lit (5) (1) : f64)) in
  let expected_ := (v2_new_from (lit (5) (1) : f64) (lit (5) (2) : f64)) in
  Ok ((arr_eq eqb) result_ expected_)) = Ok true.
Proof. vm_compute. reflexivity. Qed.

(** vector2.rs:354-360 *)
Example test_norm2_test : (
  let v1_ := (v2_new_from (lit (1) (0) : f64) (lit (1) (1) : f64)) in
  let expected_ := (lit (629397181890197) (-48) : f64) in
  let result_ := (v2_norm2 v1_) in
  Ok ((eqb) result_ expected_)) = Ok true.
Proof. vm_compute. reflexivity. Qed.

(** vector2.rs:362-373 *)
Example test_normalize_test : (
  t1 <- v2_normalize ([| (lit (1) (0) : f64); (lit (1) (0) : f64) |]) ;;
  t2 <- unwrap t1 ;;
  let result_ := t2 in
  let expected_ := ([| (lit (1592262918131443) (-51) : f64); (lit (1592262918131443) (-51) : f64) |]) in
  Ok ((arr_eq eqb) result_ expected_)) = Ok true.
Proof. vm_compute. reflexivity. Qed.

(** vector2.rs:375-388 *)
Example test_sub_assigment_test : (
  let result_ := (v2_new_from (lit (1) (0) : f64) (lit (3) (0) : f64)) in
  let v2_ := (v2_new_from (lit (3) (0) : f64) (lit (3) (0) : f64)) in
  let expected_ := (v2_new_from (lit (-1) (1) : f64) (B754_zero false : f64)) in
  let result_ := v2_sub_assign result_ v2_ in
  Ok ((arr_eq eqb) result_ expected_)) = Ok true.
Proof. vm_compute. reflexivity. Qed.

(** vector2.rs:390-403 *)
Example test_add_assigment_test : (
  let result_ := (v2_new_from (lit (1) (0) : f64) (lit (3) (0) : f64)) in
  let v2_ := (v2_new_from (lit (3) (0) : f64) (lit (3) (0) : f64)) in
  let expected_ := (v2_new_from (lit (1) (2) : f64) (lit (3) (1) : f64)) in
  let result_ := v2_add_assign result_ v2_ in
  Ok ((arr_eq eqb) result_ expected_)) = Ok true.
Proof. vm_compute. reflexivity. Qed.

(** vector2.rs:405-411 *)
Example test_norm_inf_test : (
  let v_ := (v2_new_from (int (1)) (int (10))) in
  t1 <- norm_inf (alist v_) ;;
  let result_ := t1 in
  let expected_ := (int (10)) in
  Ok ((eqb) result_ expected_)) = Ok true.
Proof. vm_compute. reflexivity. Qed.

(** vector2.rs:413-419 *)
Example test_norm_l_test : (
  let v_ := (v2_new_from (int (-1)) (int (1))) in
  let result_ := (norm_l (alist v_)) in
  let expected_ := (int (2)) in
  Ok ((eqb) result_ expected_)) = Ok true.
Proof. vm_compute. reflexivity. Qed.
