(** * The unit tests of src/vector6.rs, run on the model (tools/replay.py)

    Tests, not proofs: each runs one input. Where the source asserts under
    [if let Some(..)], the branch is required to be taken unless said otherwise. *)

From Coq Require Import ZArith List Bool.
From Flocq Require Import Core IEEE754.BinarySingleNaN.
From Verif Require Import Base Scalar Vec Mat2 Mat3 Mat4 Mat5 Mat6 MatLoops MatOps Slices Quat DualQuat Transf Ctor InstF InstI Replay.
Import ListNotations.
Open Scope Z_scope.

(** vector6.rs:316-325 *)
Example test_vector6_creation_test : (
  let v_ := ([| (lit (1) (0) : f64); (lit (1) (1) : f64); (lit (3) (0) : f64); (lit (1) (2) : f64); (lit (5) (0) : f64); (lit (3) (1) : f64) |]) in
  t1 <- aget v_ 0%nat ;;
  if (eqb) t1 (lit (1) (0) : f64) then
  t2 <- aget v_ 1%nat ;;
  if (eqb) t2 (lit (1) (1) : f64) then
  t3 <- aget v_ 2%nat ;;
  if (eqb) t3 (lit (3) (0) : f64) then
  t4 <- aget v_ 3%nat ;;
  if (eqb) t4 (lit (1) (2) : f64) then
  t5 <- aget v_ 4%nat ;;
  if (eqb) t5 (lit (5) (0) : f64) then
  t6 <- aget v_ 5%nat ;;
  Ok ((eqb) t6 (lit (3) (1) : f64))
  else Ok false
  else Ok false
  else Ok false
  else Ok false
  else Ok false) = Ok true.
Proof. vm_compute. reflexivity. Qed.

(** vector6.rs:327-339 *)
Example test_vector6_add_test : (
  let v_ := ([| (lit (1) (0) : f64); (lit (1) (1) : f64); (lit (3) (0) : f64); (lit (1) (2) : f64); (lit (5) (0) : f64); (lit (3) (1) : f64) |]) in
  let result_ := (v6_add v_ v_) in
  let expected_ := ([| (lit (1) (1) : f64); (lit (1) (2) : f64); (lit (3) (1) : f64); (lit (1) (3) : f64); (lit (5) (1) : f64); (lit (3) (2) : f64) |]) in
  Ok ((arr_eq eqb) result_ expected_)) = Ok true.
Proof. vm_compute. reflexivity. Qed.

(** vector6.rs:341-353 *)
Example test_sub_test : (
  let v_ := ([| (lit (1) (0) : f64); (lit (1) (1) : f64); (lit (3) (0) : f64); (lit (1) (2) : f64); (lit (5) (0) : f64); (lit (3) (1) : f64) |]) in
  let result_ := (v6_sub v_ v_) in
  let expected_ := ([| (B754_zero false : f64); (B754_zero false : f64); (B754_zero false : f64); (B754_zero false : f64); (B754_zero false : f64); (B754_zero false : f64) |]) in
  Ok ((arr_eq eqb) result_ expected_)) = Ok true.
Proof. vm_compute. reflexivity. Qed.

(** vector6.rs:355-367 *)
Example test_mul_const_rhs : (
  let v_ := ([| (lit (1) (0) : f64); (lit (1) (1) : f64); (lit (3) (0) : f64); (lit (1) (2) : f64); (lit (5) (0) : f64); (lit (3) (1) : f64) |]) in
  let result_ := (v6_lscale (lit (1) (1) : f64) v_) in
  let expected_ := ([| (lit (1) (1) : f64); (lit (1) (2) : f64); (lit (3) (1) : f64); (lit (1) (3) : f64); (lit (5) (1) : f64); (lit (3) (2) : f64) |]) in
  Ok ((arr_eq eqb) result_ expected_)) = Ok true.
Proof. vm_compute. reflexivity. Qed.

(** vector6.rs:369-381 *)
Example test_mul_const : (
  let v_ := ([| (lit (1) (0) : f64); (lit (1) (1) : f64); (lit (3) (0) : f64); (lit (1) (2) : f64); (lit (5) (0) : f64); (lit (3) (1) : f64) |]) in
  let result_ := (v6_scale v_ (lit (1) (1) : f64)) in
  let expected_ := ([| (lit (1) (1) : f64); (lit (1) (2) : f64); (lit (3) (1) : f64); (lit (1) (3) : f64); (lit (5) (1) : f64); (lit (3) (2) : f64) |]) in
  Ok ((arr_eq eqb) result_ expected_)) = Ok true.
Proof. vm_compute. reflexivity. Qed.

(** vector6.rs:383-389 *)
Example test_product_test : (
  let v_ := ([| (lit (1) (0) : f64); (lit (1) (1) : f64); (lit (3) (0) : f64); (lit (1) (2) : f64); (lit (5) (0) : f64); (lit (3) (1) : f64) |]) in
  let result_ := (v6_dot v_ v_) in
  let expected_ := (lit (91) (0) : f64) in
  Ok ((eqb) result_ expected_)) = Ok true.
Proof. vm_compute. reflexivity. Qed.

(** vector6.rs:390-411 *)
Example test_product_matrix6x6_test : (
  let v_ := ([| (lit (1) (0) : f64); (lit (1) (1) : f64); (lit (3) (0) : f64); (lit (1) (2) : f64); (lit (5) (0) : f64); (lit (3) (1) : f64) |]) in
  let m_ := ([| [| (B754_zero false : f64); (lit (1) (0) : f64); (lit (1) (1) : f64); (lit (3) (0) : f64); (lit (1) (2) : f64); (lit (5) (0) : f64) |]; [| (lit (3) (1) : f64); (lit (7) (0) : f64); (lit (1) (3) : f64); (lit (9) (0) : f64); (lit (5) (1) : f64); (lit (11) (0) : f64) |]; [| (lit (3) (2) : f64); (lit (13) (0) : f64); (lit (7) (1) : f64); (lit (15) (0) : f64); (lit (1) (4) : f64); (lit (17) (0) : f64) |]; [| (lit (9) (1) : f64); (lit (19) (0) : f64); (lit (5) (2) : f64); (lit (21) (0) : f64); (lit (11) (1) : f64); (lit (23) (0) : f64) |]; [| (lit (3) (3) : f64); (lit (25) (0) : f64); (lit (13) (1) : f64); (lit (27) (0) : f64); (lit (7) (2) : f64); (lit (29) (0) : f64) |]; [| (lit (15) (1) : f64); (lit (31) (0) : f64); (lit (1) (5) : f64); (lit (33) (0) : f64); (lit (17) (1) : f64); (lit (35) (0) : f64) |] |]) in
  let result_ := (v6_mul_m v_ m_) in
  let expected_ := ([| (lit (105) (2) : f64); (lit (441) (0) : f64); (lit (231) (1) : f64); (lit (483) (0) : f64); (lit (63) (3) : f64); (lit (525) (0) : f64) |]) in
  Ok ((arr_eq eqb) result_ expected_)) = Ok true.
Proof. vm_compute. reflexivity. Qed.

(** vector6.rs:413-424 *)
Example test_normalize_test : (
  t1 <- v6_normalize ([| (lit (1) (0) : f64); (lit (1) (0) : f64); (lit (1) (0) : f64); (lit (1) (0) : f64); (lit (1) (0) : f64); (lit (1) (0) : f64) |]) ;;
  t2 <- unwrap t1 ;;
  let result_ := t2 in
  let expected_ := ([| (lit (7354347395230783) (-54) : f64); (lit (7354347395230783) (-54) : f64); (lit (7354347395230783) (-54) : f64); (lit (7354347395230783) (-54) : f64); (lit (7354347395230783) (-54) : f64); (lit (7354347395230783) (-54) : f64) |]) in
  Ok ((arr_eq eqb) result_ expected_)) = Ok true.
Proof. vm_compute. reflexivity. Qed.

(** vector6.rs:426-439 *)
Example test_sub_assigment_test : (
  let result_ := ([| (lit (1) (0) : f64); (lit (1) (1) : f64); (lit (3) (0) : f64); (lit (1) (2) : f64); (lit (5) (0) : f64); (lit (3) (1) : f64) |]) in
  let v_ := ([| (B754_zero false : f64); (lit (1) (0) : f64); (lit (1) (1) : f64); (lit (3) (0) : f64); (lit (1) (2) : f64); (lit (5) (0) : f64) |]) in
  let expected_ := ([| (lit (1) (0) : f64); (lit (1) (0) : f64); (lit (1) (0) : f64); (lit (1) (0) : f64); (lit (1) (0) : f64); (lit (1) (0) : f64) |]) in
  let result_ := v6_sub_assign result_ v_ in
  Ok ((arr_eq eqb) result_ expected_)) = Ok true.
Proof. vm_compute. reflexivity. Qed.

(** vector6.rs:441-454 *)
Example test_add_assigment_test : (
  let result_ := (v6_new_from (lit (1) (0) : f64) (lit (1) (1) : f64) (lit (3) (0) : f64) (lit (1) (2) : f64) (lit (5) (0) : f64) (lit (3) (1) : f64)) in
  let v_ := (v6_new_from (B754_zero false : f64) (lit (1) (0) : f64) (lit (1) (1) : f64) (lit (3) (0) : f64) (lit (1) (2) : f64) (lit (5) (0) : f64)) in
  let expected_ := (v6_new_from (lit (1) (0) : f64) (lit (3) (0) : f64) (lit (5) (0) : f64) (lit (7) (0) : f64) (lit (9) (0) : f64) (lit (11) (0) : f64)) in
  let result_ := v6_add_assign result_ v_ in
  Ok ((arr_eq eqb) result_ expected_)) = Ok true.
Proof. vm_compute. reflexivity. Qed.

(** vector6.rs:456-462 *)
Example test_norm_inf_test : (
  let v_ := (v6_new_from (int (1)) (int (10)) (int (-10)) (int (10)) (int (100)) (int (3))) in
  t1 <- norm_inf (alist v_) ;;
  let result_ := t1 in
  let expected_ := (int (100)) in
  Ok ((eqb) result_ expected_)) = Ok true.
Proof. vm_compute. reflexivity. Qed.

(** vector6.rs:464-470 *)
Example test_norm_l_test : (
  let v_ := (v6_new_from (int (1)) (int (-1)) (int (1)) (int (-1)) (int (1)) (int (-1))) in
  let result_ := (norm_l (alist v_)) in
  let expected_ := (int (6)) in
  Ok ((eqb) result_ expected_)) = Ok true.
Proof. vm_compute. reflexivity. Qed.
