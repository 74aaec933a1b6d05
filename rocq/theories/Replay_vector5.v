(** * The unit tests of src/vector5.rs, run on the model (tools/replay.py)

    Tests, not proofs: each runs one input. Where the source asserts under
    [if let Some(..)], the branch is required to be taken unless said otherwise. *)

From Coq Require Import ZArith List Bool.
From Flocq Require Import Core IEEE754.BinarySingleNaN.
From Verif Require Import Base Scalar Vec Mat2 Mat3 Mat4 Mat5 Mat6 MatLoops MatOps Slices Quat DualQuat Transf Ctor InstF InstI Replay.
Import ListNotations.
Open Scope Z_scope.

(** vector5.rs:259-267 *)
Example test_vector5_creation_test : (
  let v_ := ([| (lit (1) (0) : f64); (lit (1) (1) : f64); (lit (3) (0) : f64); (lit (1) (2) : f64); (lit (5) (0) : f64) |]) in
  t1 <- aget v_ 0%nat ;;
  if (eqb) t1 (lit (1) (0) : f64) then
  t2 <- aget v_ 1%nat ;;
  if (eqb) t2 (lit (1) (1) : f64) then
  t3 <- aget v_ 2%nat ;;
  if (eqb) t3 (lit (3) (0) : f64) then
  t4 <- aget v_ 3%nat ;;
  if (eqb) t4 (lit (1) (2) : f64) then
  t5 <- aget v_ 4%nat ;;
  Ok ((eqb) t5 (lit (5) (0) : f64))
  else Ok false
  else Ok false
  else Ok false
  else Ok false) = Ok true.
Proof. vm_compute. reflexivity. Qed.

(** vector5.rs:269-280 *)
Example test_vector5_zeros_test : (
  let result_ := (v5_zeros (T:=f32)) in
  let expected_ := ([| (B754_zero false : f32); (B754_zero false : f32); (B754_zero false : f32); (B754_zero false : f32); (B754_zero false : f32) |]) in
  Ok ((arr_eq eqb) result_ expected_)) = Ok true.
Proof. vm_compute. reflexivity. Qed.

(** vector5.rs:282-295 *)
Example test_vector5_add_test : (
  let v1_ := ([| (lit (1) (0) : f64); (lit (1) (1) : f64); (lit (3) (0) : f64); (lit (1) (2) : f64); (lit (5) (0) : f64) |]) in
  let v2_ := ([| (lit (3) (1) : f64); (lit (7) (0) : f64); (lit (1) (3) : f64); (lit (9) (0) : f64); (lit (5) (1) : f64) |]) in
  let result_ := (v5_add v1_ v2_) in
  let expected_ := ([| (lit (7) (0) : f64); (lit (9) (0) : f64); (lit (11) (0) : f64); (lit (13) (0) : f64); (lit (15) (0) : f64) |]) in
  Ok ((arr_eq eqb) result_ expected_)) = Ok true.
Proof. vm_compute. reflexivity. Qed.

(** vector5.rs:297-310 *)
Example test_sub_test : (
  let v1_ := ([| (lit (1) (0) : f64); (lit (1) (1) : f64); (lit (3) (0) : f64); (lit (1) (2) : f64); (lit (5) (0) : f64) |]) in
  let v2_ := ([| (lit (3) (1) : f64); (lit (7) (0) : f64); (lit (1) (3) : f64); (lit (9) (0) : f64); (lit (5) (1) : f64) |]) in
  let result_ := (v5_sub v1_ v2_) in
  let expected_ := ([| (lit (-5) (0) : f64); (lit (-5) (0) : f64); (lit (-5) (0) : f64); (lit (-5) (0) : f64); (lit (-5) (0) : f64) |]) in
  Ok ((arr_eq eqb) result_ expected_)) = Ok true.
Proof. vm_compute. reflexivity. Qed.

(** vector5.rs:312-319 *)
Example test_vector5_mul_test : (
  let v1_ := ([| (lit (1) (0) : f64); (lit (1) (1) : f64); (lit (3) (0) : f64); (lit (1) (2) : f64); (lit (5) (0) : f64) |]) in
  let v2_ := ([| (lit (3) (1) : f64); (lit (7) (0) : f64); (lit (1) (3) : f64); (lit (9) (0) : f64); (lit (5) (1) : f64) |]) in
  let result_ := (v5_dot v1_ v2_) in
  let expected_ := (lit (65) (1) : f64) in
  Ok ((eqb) result_ expected_)) = Ok true.
Proof. vm_compute. reflexivity. Qed.

(** vector5.rs:321-327 *)
Example test_vector5_norm_test : (
  let v1_ := ([| (lit (1) (0) : f64); (lit (1) (1) : f64); (lit (3) (0) : f64); (lit (1) (2) : f64); (lit (5) (0) : f64) |]) in
  let result_ := (v5_norm2 v1_) in
  let expected_ := (lit (1043737148218427) (-47) : f64) in
  Ok ((eqb) result_ expected_)) = Ok true.
Proof. vm_compute. reflexivity. Qed.

(** vector5.rs:329-341 *)
Example test_mul_const_rhs : (
  let v_ := ([| (lit (1) (0) : f64); (lit (1) (1) : f64); (lit (3) (0) : f64); (lit (1) (2) : f64); (lit (5) (0) : f64) |]) in
  let result_ := (v5_lscale (lit (1) (1) : f64) v_) in
  let expected_ := ([| (lit (1) (1) : f64); (lit (1) (2) : f64); (lit (3) (1) : f64); (lit (1) (3) : f64); (lit (5) (1) : f64) |]) in
  Ok ((arr_eq eqb) result_ expected_)) = Ok true.
Proof. vm_compute. reflexivity. Qed.

(** vector5.rs:343-355 *)
Example test_mul_const : (
  let v_ := ([| (lit (1) (0) : f64); (lit (1) (1) : f64); (lit (3) (0) : f64); (lit (1) (2) : f64); (lit (5) (0) : f64) |]) in
  let result_ := (v5_scale v_ (lit (1) (1) : f64)) in
  let expected_ := ([| (lit (1) (1) : f64); (lit (1) (2) : f64); (lit (3) (1) : f64); (lit (1) (3) : f64); (lit (5) (1) : f64) |]) in
  Ok ((arr_eq eqb) result_ expected_)) = Ok true.
Proof. vm_compute. reflexivity. Qed.

(** vector5.rs:357-376 *)
Example test_vector5_mul_matrix5x5_test : (
  let v1_ := ([| (lit (1) (0) : f64); (lit (1) (1) : f64); (lit (3) (0) : f64); (lit (1) (2) : f64); (lit (5) (0) : f64) |]) in
  let m_ := ([| [| (lit (5) (1) : f64); (lit (1) (0) : f64); (lit (7) (0) : f64); (lit (1) (0) : f64); (lit (5) (0) : f64) |]; [| (lit (1) (1) : f64); (lit (1) (2) : f64); (lit (1) (3) : f64); (lit (3) (0) : f64); (lit (1) (1) : f64) |]; [| (lit (5) (0) : f64); (lit (1) (0) : f64); (lit (1) (1) : f64); (lit (9) (0) : f64); (lit (5) (1) : f64) |]; [| (lit (3) (1) : f64); (lit (9) (0) : f64); (lit (9) (0) : f64); (lit (7) (0) : f64); (lit (3) (0) : f64) |]; [| (lit (1) (0) : f64); (lit (1) (3) : f64); (lit (1) (3) : f64); (lit (5) (1) : f64); (lit (5) (0) : f64) |] |]) in
  let result_ := (v5_mul_m v1_ m_) in
  let expected_ := ([| (lit (29) (1) : f64); (lit (11) (3) : f64); (lit (105) (0) : f64); (lit (7) (4) : f64); (lit (19) (2) : f64) |]) in
  Ok ((arr_eq eqb) result_ expected_)) = Ok true.
Proof. vm_compute. reflexivity. Qed.

(** vector5.rs:378-389 *)
Example test_normalize_test : (
  t1 <- v5_normalize ([| (lit (1) (0) : f64); (lit (1) (0) : f64); (lit (1) (0) : f64); (lit (1) (0) : f64); (lit (1) (0) : f64) |]) ;;
  t2 <- unwrap t1 ;;
  let result_ := t2 in
  let expected_ := ([| (lit (8056283928194521) (-54) : f64); (lit (8056283928194521) (-54) : f64); (lit (8056283928194521) (-54) : f64); (lit (8056283928194521) (-54) : f64); (lit (8056283928194521) (-54) : f64) |]) in
  Ok ((arr_eq eqb) result_ expected_)) = Ok true.
Proof. vm_compute. reflexivity. Qed.

(** vector5.rs:391-404 *)
Example test_sub_assigment_test : (
  let result_ := ([| (lit (1) (0) : f64); (lit (1) (1) : f64); (lit (3) (0) : f64); (lit (1) (2) : f64); (lit (5) (0) : f64) |]) in
  let v_ := ([| (B754_zero false : f64); (lit (1) (0) : f64); (lit (1) (1) : f64); (lit (3) (0) : f64); (lit (1) (2) : f64) |]) in
  let expected_ := ([| (lit (1) (0) : f64); (lit (1) (0) : f64); (lit (1) (0) : f64); (lit (1) (0) : f64); (lit (1) (0) : f64) |]) in
  let result_ := v5_sub_assign result_ v_ in
  Ok ((arr_eq eqb) result_ expected_)) = Ok true.
Proof. vm_compute. reflexivity. Qed.

(** vector5.rs:406-419 *)
Example test_add_assigment_test : (
  let result_ := (v5_new_from (lit (1) (0) : f64) (lit (1) (1) : f64) (lit (3) (0) : f64) (lit (1) (2) : f64) (lit (5) (0) : f64)) in
  let v_ := (v5_new_from (B754_zero false : f64) (lit (1) (0) : f64) (lit (1) (1) : f64) (lit (3) (0) : f64) (lit (1) (2) : f64)) in
  let expected_ := (v5_new_from (lit (1) (0) : f64) (lit (3) (0) : f64) (lit (5) (0) : f64) (lit (7) (0) : f64) (lit (9) (0) : f64)) in
  let result_ := v5_add_assign result_ v_ in
  Ok ((arr_eq eqb) result_ expected_)) = Ok true.
Proof. vm_compute. reflexivity. Qed.

(** vector5.rs:421-427 *)
Example test_norm_inf_test : (
  let v_ := (v5_new_from (int (1)) (int (2)) (int (30)) (int (91)) (int (10))) in
  t1 <- norm_inf (alist v_) ;;
  let result_ := t1 in
  let expected_ := (int (91)) in
  Ok ((eqb) result_ expected_)) = Ok true.
Proof. vm_compute. reflexivity. Qed.

(** vector5.rs:429-435 *)
Example test_norm_l_test : (
  let v_ := (v5_new_from (int (-1)) (int (1)) (int (-1)) (int (1)) (int (-1))) in
  let result_ := (norm_l (alist v_)) in
  let expected_ := (int (5)) in
  Ok ((eqb) result_ expected_)) = Ok true.
Proof. vm_compute. reflexivity. Qed.
