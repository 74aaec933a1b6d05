(** * The unit tests of src/matrix5x5.rs, run on the model (tools/replay.py)

    Tests, not proofs: each runs one input. Where the source asserts under
    [if let Some(..)], the branch is required to be taken unless said otherwise. *)

From Coq Require Import ZArith List Bool.
From Flocq Require Import Core IEEE754.BinarySingleNaN.
From Verif Require Import Base Scalar Vec Mat2 Mat3 Mat4 Mat5 Mat6 MatLoops MatOps Slices Quat DualQuat Transf Ctor InstF InstI Replay.
Import ListNotations.
Open Scope Z_scope.

(** matrix5x5.rs:1163-1178 *)
Example test_matrix5x5_det_test : (
  let m_ := ([| [| (lit (5) (1) : f32); (lit (1) (0) : f32); (lit (7) (0) : f32); (lit (1) (0) : f32); (lit (5) (0) : f32) |]; [| (lit (1) (1) : f32); (lit (1) (2) : f32); (lit (1) (3) : f32); (lit (3) (0) : f32); (lit (1) (1) : f32) |]; [| (lit (5) (0) : f32); (lit (1) (0) : f32); (lit (1) (1) : f32); (lit (9) (0) : f32); (lit (5) (1) : f32) |]; [| (lit (3) (1) : f32); (lit (9) (0) : f32); (lit (9) (0) : f32); (lit (7) (0) : f32); (lit (3) (0) : f32) |]; [| (lit (1) (0) : f32); (lit (1) (3) : f32); (lit (1) (3) : f32); (lit (5) (1) : f32); (lit (5) (0) : f32) |] |]) in
  let result_ := (m55_det m_) in
  let expected_ := (lit (25) (1) : f32) in
  Ok ((nearly_equal result_ expected_ (lit (8796093) (-43) : f32)))) = Ok true.
Proof. vm_compute. reflexivity. Qed.

(** matrix5x5.rs:1180-1203 *)
Example test_matrix5x5_sum_test : (
  let m_ := ([| [| (lit (5) (1) : f32); (lit (1) (0) : f32); (lit (7) (0) : f32); (lit (1) (0) : f32); (lit (5) (0) : f32) |]; [| (lit (1) (1) : f32); (lit (1) (2) : f32); (lit (1) (3) : f32); (lit (3) (0) : f32); (lit (1) (1) : f32) |]; [| (lit (5) (0) : f32); (lit (1) (0) : f32); (lit (1) (1) : f32); (lit (9) (0) : f32); (lit (5) (1) : f32) |]; [| (lit (3) (1) : f32); (lit (9) (0) : f32); (lit (9) (0) : f32); (lit (7) (0) : f32); (lit (3) (0) : f32) |]; [| (lit (1) (0) : f32); (lit (1) (3) : f32); (lit (1) (3) : f32); (lit (5) (1) : f32); (lit (5) (0) : f32) |] |]) in
  let expected_ := ([| [| (lit (5) (2) : f32); (lit (1) (1) : f32); (lit (7) (1) : f32); (lit (1) (1) : f32); (lit (5) (1) : f32) |]; [| (lit (1) (2) : f32); (lit (1) (3) : f32); (lit (1) (4) : f32); (lit (3) (1) : f32); (lit (1) (2) : f32) |]; [| (lit (5) (1) : f32); (lit (1) (1) : f32); (lit (1) (2) : f32); (lit (9) (1) : f32); (lit (5) (2) : f32) |]; [| (lit (3) (2) : f32); (lit (9) (1) : f32); (lit (9) (1) : f32); (lit (7) (1) : f32); (lit (3) (1) : f32) |]; [| (lit (1) (1) : f32); (lit (1) (4) : f32); (lit (1) (4) : f32); (lit (5) (2) : f32); (lit (5) (1) : f32) |] |]) in
  let result_ := (m55_add m_ m_) in
  t1 <- as_vec 25 result_ ;;
  t2 <- as_vec 25 expected_ ;;
  Ok ((compare_vecs (alist t1) (alist t2) (lit (8796093) (-43) : f32)))) = Ok true.
Proof. vm_compute. reflexivity. Qed.

(** matrix5x5.rs:1205-1229 *)
Example test_sub_test : (
  let m1_ := ([| [| (lit (5) (1) : f32); (lit (1) (0) : f32); (lit (7) (0) : f32); (lit (1) (0) : f32); (lit (5) (0) : f32) |]; [| (lit (1) (1) : f32); (lit (1) (2) : f32); (lit (1) (3) : f32); (lit (3) (0) : f32); (lit (1) (1) : f32) |]; [| (lit (5) (0) : f32); (lit (1) (0) : f32); (lit (1) (1) : f32); (lit (9) (0) : f32); (lit (5) (1) : f32) |]; [| (lit (3) (1) : f32); (lit (9) (0) : f32); (lit (9) (0) : f32); (lit (7) (0) : f32); (lit (3) (0) : f32) |]; [| (lit (1) (0) : f32); (lit (1) (3) : f32); (lit (1) (3) : f32); (lit (5) (1) : f32); (lit (5) (0) : f32) |] |]) in
  let m2_ := ([| [| (lit (5) (1) : f32); (lit (1) (0) : f32); (lit (7) (0) : f32); (lit (1) (0) : f32); (lit (5) (0) : f32) |]; [| (lit (1) (1) : f32); (lit (1) (2) : f32); (lit (1) (3) : f32); (lit (3) (0) : f32); (lit (1) (1) : f32) |]; [| (lit (5) (0) : f32); (lit (1) (0) : f32); (lit (1) (1) : f32); (lit (9) (0) : f32); (lit (5) (1) : f32) |]; [| (lit (3) (1) : f32); (lit (9) (0) : f32); (lit (9) (0) : f32); (lit (7) (0) : f32); (lit (3) (0) : f32) |]; [| (lit (1) (0) : f32); (lit (1) (3) : f32); (lit (1) (3) : f32); (lit (5) (1) : f32); (lit (5) (0) : f32) |] |]) in
  let result_ := (m55_sub m1_ m2_) in
  let expected_ := ([| [| (B754_zero false : f32); (B754_zero false : f32); (B754_zero false : f32); (B754_zero false : f32); (B754_zero false : f32) |]; [| (B754_zero false : f32); (B754_zero false : f32); (B754_zero false : f32); (B754_zero false : f32); (B754_zero false : f32) |]; [| (B754_zero false : f32); (B754_zero false : f32); (B754_zero false : f32); (B754_zero false : f32); (B754_zero false : f32) |]; [| (B754_zero false : f32); (B754_zero false : f32); (B754_zero false : f32); (B754_zero false : f32); (B754_zero false : f32) |]; [| (B754_zero false : f32); (B754_zero false : f32); (B754_zero false : f32); (B754_zero false : f32); (B754_zero false : f32) |] |]) in
  t1 <- as_vec 25 result_ ;;
  t2 <- as_vec 25 expected_ ;;
  Ok ((compare_vecs (alist t1) (alist t2) (lit (8796093) (-43) : f32)))) = Ok true.
Proof. vm_compute. reflexivity. Qed.

(** matrix5x5.rs:1231-1253 *)
Example test_matrix5x5_product_test : (
  let m_ := ([| [| (lit (5) (1) : f32); (lit (1) (0) : f32); (lit (7) (0) : f32); (lit (1) (0) : f32); (lit (5) (0) : f32) |]; [| (lit (1) (1) : f32); (lit (1) (2) : f32); (lit (1) (3) : f32); (lit (3) (0) : f32); (lit (1) (1) : f32) |]; [| (lit (5) (0) : f32); (lit (1) (0) : f32); (lit (1) (1) : f32); (lit (9) (0) : f32); (lit (5) (1) : f32) |]; [| (lit (3) (1) : f32); (lit (9) (0) : f32); (lit (9) (0) : f32); (lit (7) (0) : f32); (lit (3) (0) : f32) |]; [| (lit (1) (0) : f32); (lit (1) (3) : f32); (lit (1) (3) : f32); (lit (5) (1) : f32); (lit (5) (0) : f32) |] |]) in
  let result_ := (m55_mul m_ m_) in
  let expected_ := ([| [| (lit (37) (2) : f32); (lit (35) (1) : f32); (lit (141) (0) : f32); (lit (133) (0) : f32); (lit (75) (1) : f32) |]; [| (lit (11) (3) : f32); (lit (69) (0) : f32); (lit (105) (0) : f32); (lit (127) (0) : f32); (lit (117) (0) : f32) |]; [| (lit (63) (1) : f32); (lit (43) (2) : f32); (lit (13) (4) : f32); (lit (189) (0) : f32); (lit (31) (2) : f32) |]; [| (lit (21) (3) : f32); (lit (69) (1) : f32); (lit (219) (0) : f32); (lit (193) (0) : f32); (lit (87) (1) : f32) |]; [| (lit (131) (0) : f32); (lit (171) (0) : f32); (lit (217) (0) : f32); (lit (217) (0) : f32); (lit (39) (2) : f32) |] |]) in
  t1 <- as_vec 25 result_ ;;
  t2 <- as_vec 25 expected_ ;;
  Ok ((compare_vecs (alist t1) (alist t2) (lit (8796093) (-43) : f32)))) = Ok true.
Proof. vm_compute. reflexivity. Qed.

(** matrix5x5.rs:1254-1270 *)
Example test_matrix5x5_norm2_test : (
  let m_ := ([| [| (lit (5) (1) : f32); (lit (1) (0) : f32); (lit (7) (0) : f32); (lit (1) (0) : f32); (lit (5) (0) : f32) |]; [| (lit (1) (1) : f32); (lit (1) (2) : f32); (lit (1) (3) : f32); (lit (3) (0) : f32); (lit (1) (1) : f32) |]; [| (lit (5) (0) : f32); (lit (1) (0) : f32); (lit (1) (1) : f32); (lit (9) (0) : f32); (lit (5) (1) : f32) |]; [| (lit (3) (1) : f32); (lit (9) (0) : f32); (lit (9) (0) : f32); (lit (7) (0) : f32); (lit (3) (0) : f32) |]; [| (lit (1) (0) : f32); (lit (1) (3) : f32); (lit (1) (3) : f32); (lit (5) (1) : f32); (lit (5) (0) : f32) |] |]) in
  let result_ := (m55_norm2 m_) in
  let expected_ := (lit (16529629) (-19) : f32) in
  Ok ((nearly_equal result_ expected_ (lit (8796093) (-43) : f32)))) = Ok true.
Proof. vm_compute. reflexivity. Qed.

(** matrix5x5.rs:1272-1294 *)
Example test_matrix5x5_const_product_test : (
  let m_ := ([| [| (lit (5) (1) : f32); (lit (1) (0) : f32); (lit (7) (0) : f32); (lit (1) (0) : f32); (lit (5) (0) : f32) |]; [| (lit (1) (1) : f32); (lit (1) (2) : f32); (lit (1) (3) : f32); (lit (3) (0) : f32); (lit (1) (1) : f32) |]; [| (lit (5) (0) : f32); (lit (1) (0) : f32); (lit (1) (1) : f32); (lit (9) (0) : f32); (lit (5) (1) : f32) |]; [| (lit (3) (1) : f32); (lit (9) (0) : f32); (lit (9) (0) : f32); (lit (7) (0) : f32); (lit (3) (0) : f32) |]; [| (lit (1) (0) : f32); (lit (1) (3) : f32); (lit (1) (3) : f32); (lit (5) (1) : f32); (lit (5) (0) : f32) |] |]) in
  let result_ := (m55_scale m_ (lit (1) (-1) : f32)) in
  let expected_ := ([| [| (lit (5) (0) : f32); (lit (1) (-1) : f32); (lit (7) (-1) : f32); (lit (1) (-1) : f32); (lit (5) (-1) : f32) |]; [| (lit (1) (0) : f32); (lit (1) (1) : f32); (lit (1) (2) : f32); (lit (3) (-1) : f32); (lit (1) (0) : f32) |]; [| (lit (5) (-1) : f32); (lit (1) (-1) : f32); (lit (1) (0) : f32); (lit (9) (-1) : f32); (lit (5) (0) : f32) |]; [| (lit (3) (0) : f32); (lit (9) (-1) : f32); (lit (9) (-1) : f32); (lit (7) (-1) : f32); (lit (3) (-1) : f32) |]; [| (lit (1) (-1) : f32); (lit (1) (2) : f32); (lit (1) (2) : f32); (lit (5) (0) : f32); (lit (5) (-1) : f32) |] |]) in
  t1 <- as_vec 25 result_ ;;
  t2 <- as_vec 25 expected_ ;;
  Ok ((compare_vecs (alist t1) (alist t2) (lit (8796093) (-43) : f32)))) = Ok true.
Proof. vm_compute. reflexivity. Qed.

(** matrix5x5.rs:1295-1318 *)
Example test_matrix5x5_inv_test : (
  let m_ := ([| [| (lit (5) (1) : f32); (lit (1) (0) : f32); (lit (7) (0) : f32); (lit (1) (0) : f32); (lit (5) (0) : f32) |]; [| (lit (1) (1) : f32); (lit (1) (2) : f32); (lit (1) (3) : f32); (lit (3) (0) : f32); (lit (1) (1) : f32) |]; [| (lit (5) (0) : f32); (lit (1) (0) : f32); (lit (1) (1) : f32); (lit (9) (0) : f32); (lit (5) (1) : f32) |]; [| (lit (3) (1) : f32); (lit (9) (0) : f32); (lit (9) (0) : f32); (lit (7) (0) : f32); (lit (3) (0) : f32) |]; [| (lit (1) (0) : f32); (lit (1) (3) : f32); (lit (1) (3) : f32); (lit (5) (1) : f32); (lit (5) (0) : f32) |] |]) in
  let expected_ := ([| [| (lit (-3140485) (-18) : f32); (lit (16399729) (-20) : f32); (lit (1221591) (-17) : f32); (lit (2710569) (-18) : f32); (lit (-10024387) (-19) : f32) |]; [| (lit (8813281) (-18) : f32); (lit (-11576279) (-18) : f32); (lit (-13673431) (-19) : f32); (lit (-3730309) (-17) : f32); (lit (1745879) (-15) : f32) |]; [| (lit (-9814671) (-20) : f32); (lit (3271557) (-18) : f32); (lit (3795845) (-19) : f32); (lit (8262779) (-20) : f32); (lit (-3890217) (-18) : f32) |]; [| (lit (-9751757) (-18) : f32); (lit (6370099) (-17) : f32); (lit (7549747) (-18) : f32); (lit (16567501) (-19) : f32); (lit (-15414067) (-18) : f32) |]; [| (lit (9956229) (-18) : f32); (lit (-3253207) (-16) : f32); (lit (-3843031) (-17) : f32); (lit (-8477737) (-18) : f32); (lit (15760097) (-18) : f32) |] |]) in
  t1 <- m55_inverse m_ ;;
  match t1 with None => Ok false | Some result_ =>
  t2 <- as_vec 25 result_ ;;
  t3 <- as_vec 25 expected_ ;;
  Ok ((compare_vecs (alist t2) (alist t3) (lit (8796093) (-43) : f32)))
  end) = Ok true.
Proof. vm_compute. reflexivity. Qed.

(** matrix5x5.rs:1320-1332 *)
Example test_inverse_fail : (
  let m_ := ([| [| (lit (5) (1) : f64); (lit (1) (0) : f64); (lit (7) (0) : f64); (lit (1) (0) : f64); (lit (5) (0) : f64) |]; [| (lit (5) (1) : f64); (lit (1) (0) : f64); (lit (7) (0) : f64); (lit (1) (0) : f64); (lit (5) (0) : f64) |]; [| (lit (5) (0) : f64); (lit (1) (0) : f64); (lit (1) (1) : f64); (lit (9) (0) : f64); (lit (5) (1) : f64) |]; [| (lit (3) (1) : f64); (lit (9) (0) : f64); (lit (9) (0) : f64); (lit (7) (0) : f64); (lit (3) (0) : f64) |]; [| (lit (1) (0) : f64); (lit (1) (3) : f64); (lit (1) (3) : f64); (lit (5) (1) : f64); (lit (5) (0) : f64) |] |]) in
  t1 <- m55_inverse m_ ;;
  let result_ := t1 in
  let expected_ := None in
  Ok ((opt_eq (arr_eq (n:=5) (arr_eq (n:=5) eqb))) result_ expected_)) = Ok true.
Proof. vm_compute. reflexivity. Qed.

(** matrix5x5.rs:1334-1358 *)
Example test_get_cols_test : (
  let m1_ := ([| [| (lit (5) (1) : f64); (lit (1) (0) : f64); (lit (7) (0) : f64); (lit (1) (0) : f64); (lit (5) (0) : f64) |]; [| (lit (1) (1) : f64); (lit (1) (2) : f64); (lit (1) (3) : f64); (lit (3) (0) : f64); (lit (1) (1) : f64) |]; [| (lit (5) (0) : f64); (lit (1) (0) : f64); (lit (1) (1) : f64); (lit (9) (0) : f64); (lit (5) (1) : f64) |]; [| (lit (3) (1) : f64); (lit (9) (0) : f64); (lit (9) (0) : f64); (lit (7) (0) : f64); (lit (3) (0) : f64) |]; [| (lit (1) (0) : f64); (lit (1) (3) : f64); (lit (1) (3) : f64); (lit (5) (1) : f64); (lit (5) (0) : f64) |] |]) in
  t1 <- m55_get_cols m1_ ;;
  let result_ := t1 in
  let expected0_ := ([| (lit (5) (1) : f64); (lit (1) (1) : f64); (lit (5) (0) : f64); (lit (3) (1) : f64); (lit (1) (0) : f64) |]) in
  let expected1_ := ([| (lit (1) (0) : f64); (lit (1) (2) : f64); (lit (1) (0) : f64); (lit (9) (0) : f64); (lit (1) (3) : f64) |]) in
  let expected2_ := ([| (lit (7) (0) : f64); (lit (1) (3) : f64); (lit (1) (1) : f64); (lit (9) (0) : f64); (lit (1) (3) : f64) |]) in
  let expected3_ := ([| (lit (1) (0) : f64); (lit (3) (0) : f64); (lit (9) (0) : f64); (lit (7) (0) : f64); (lit (5) (1) : f64) |]) in
  let expected4_ := ([| (lit (5) (0) : f64); (lit (1) (1) : f64); (lit (5) (1) : f64); (lit (3) (0) : f64); (lit (5) (0) : f64) |]) in
  let expected_ := ([| expected0_; expected1_; expected2_; expected3_; expected4_ |]) in
  Ok ((arr_eq (arr_eq (n:=5) eqb)) result_ expected_)) = Ok true.
Proof. vm_compute. reflexivity. Qed.

(** matrix5x5.rs:1360-1379 *)
Example test_mul_vector_rhs : (
  let m_ := ([| [| (lit (5) (1) : f64); (lit (1) (0) : f64); (lit (7) (0) : f64); (lit (1) (0) : f64); (lit (5) (0) : f64) |]; [| (lit (1) (1) : f64); (lit (1) (2) : f64); (lit (1) (3) : f64); (lit (3) (0) : f64); (lit (1) (1) : f64) |]; [| (lit (5) (0) : f64); (lit (1) (0) : f64); (lit (1) (1) : f64); (lit (9) (0) : f64); (lit (5) (1) : f64) |]; [| (lit (3) (1) : f64); (lit (9) (0) : f64); (lit (9) (0) : f64); (lit (7) (0) : f64); (lit (3) (0) : f64) |]; [| (lit (1) (0) : f64); (lit (1) (3) : f64); (lit (1) (3) : f64); (lit (5) (1) : f64); (lit (5) (0) : f64) |] |]) in
  let v_ := ([| (B754_zero false : f64); (lit (1) (0) : f64); (lit (1) (1) : f64); (lit (3) (0) : f64); (lit (1) (2) : f64) |]) in
  let result_ := (m55_mul_v m_ v_) in
  let expected_ := ([| (lit (19) (1) : f64); (lit (37) (0) : f64); (lit (9) (3) : f64); (lit (15) (2) : f64); (lit (37) (1) : f64) |]) in
  Ok ((arr_eq eqb) result_ expected_)) = Ok true.
Proof. vm_compute. reflexivity. Qed.

(** matrix5x5.rs:1381-1405 *)
Example test_get_rows_test : (
  let m1_ := ([| [| (lit (5) (1) : f64); (lit (1) (0) : f64); (lit (7) (0) : f64); (lit (1) (0) : f64); (lit (5) (0) : f64) |]; [| (lit (1) (1) : f64); (lit (1) (2) : f64); (lit (1) (3) : f64); (lit (3) (0) : f64); (lit (1) (1) : f64) |]; [| (lit (5) (0) : f64); (lit (1) (0) : f64); (lit (1) (1) : f64); (lit (9) (0) : f64); (lit (5) (1) : f64) |]; [| (lit (3) (1) : f64); (lit (9) (0) : f64); (lit (9) (0) : f64); (lit (7) (0) : f64); (lit (3) (0) : f64) |]; [| (lit (1) (0) : f64); (lit (1) (3) : f64); (lit (1) (3) : f64); (lit (5) (1) : f64); (lit (5) (0) : f64) |] |]) in
  t1 <- m55_get_rows (m55_transpose m1_) ;;
  let result_ := t1 in
  let expected0_ := ([| (lit (5) (1) : f64); (lit (1) (1) : f64); (lit (5) (0) : f64); (lit (3) (1) : f64); (lit (1) (0) : f64) |]) in
  let expected1_ := ([| (lit (1) (0) : f64); (lit (1) (2) : f64); (lit (1) (0) : f64); (lit (9) (0) : f64); (lit (1) (3) : f64) |]) in
  let expected2_ := ([| (lit (7) (0) : f64); (lit (1) (3) : f64); (lit (1) (1) : f64); (lit (9) (0) : f64); (lit (1) (3) : f64) |]) in
  let expected3_ := ([| (lit (1) (0) : f64); (lit (3) (0) : f64); (lit (9) (0) : f64); (lit (7) (0) : f64); (lit (5) (1) : f64) |]) in
  let expected4_ := ([| (lit (5) (0) : f64); (lit (1) (1) : f64); (lit (5) (1) : f64); (lit (3) (0) : f64); (lit (5) (0) : f64) |]) in
  let expected_ := ([| expected0_; expected1_; expected2_; expected3_; expected4_ |]) in
  Ok ((arr_eq (arr_eq (n:=5) eqb)) result_ expected_)) = Ok true.
Proof. vm_compute. reflexivity. Qed.

(** matrix5x5.rs:1407-1420 *)
Example test_new_from_vecs_test : (
  let expected_ := ([| [| (lit (5) (1) : f32); (lit (1) (0) : f32); (lit (7) (0) : f32); (lit (1) (0) : f32); (lit (5) (0) : f32) |]; [| (lit (1) (1) : f32); (lit (1) (2) : f32); (lit (1) (3) : f32); (lit (3) (0) : f32); (lit (1) (1) : f32) |]; [| (lit (5) (0) : f32); (lit (1) (0) : f32); (lit (1) (1) : f32); (lit (9) (0) : f32); (lit (5) (1) : f32) |]; [| (lit (3) (1) : f32); (lit (9) (0) : f32); (lit (9) (0) : f32); (lit (7) (0) : f32); (lit (3) (0) : f32) |]; [| (lit (1) (0) : f32); (lit (1) (3) : f32); (lit (1) (3) : f32); (lit (5) (1) : f32); (lit (5) (0) : f32) |] |]) in
  t1 <- m55_get_cols expected_ ;;
  let cols_ := t1 in
  t2 <- m55_new_from_vecs cols_ ;;
  let result_ := t2 in
  t3 <- as_vec 25 result_ ;;
  t4 <- as_vec 25 expected_ ;;
  Ok ((compare_vecs (alist t3) (alist t4) (lit (8796093) (-43) : f32)))) = Ok true.
Proof. vm_compute. reflexivity. Qed.

(** matrix5x5.rs:1422-1434 *)
Example test_qr_test : (
  let expected_ := ([| [| (lit (5) (1) : f32); (lit (1) (0) : f32); (lit (7) (0) : f32); (lit (1) (0) : f32); (lit (5) (0) : f32) |]; [| (lit (1) (1) : f32); (lit (1) (0) : f32); (lit (1) (3) : f32); (lit (3) (0) : f32); (lit (1) (1) : f32) |]; [| (lit (5) (0) : f32); (lit (1) (0) : f32); (lit (1) (0) : f32); (lit (9) (0) : f32); (lit (5) (1) : f32) |]; [| (lit (3) (1) : f32); (lit (9) (0) : f32); (lit (9) (0) : f32); (lit (1) (0) : f32); (lit (3) (0) : f32) |]; [| (lit (1) (0) : f32); (lit (1) (3) : f32); (lit (1) (3) : f32); (lit (5) (1) : f32); (lit (5) (0) : f32) |] |]) in
  t1 <- m55_qr expected_ ;;
  match t1 with None => Ok false | Some (q_, r_) =>
  let result_ := (m55_mul q_ r_) in
  t2 <- as_vec 25 result_ ;;
  t3 <- as_vec 25 expected_ ;;
  if (compare_vecs (alist t2) (alist t3) (lit (8796093) (-43) : f32)) then
  Ok ((nearly_equal (abs (m55_det q_)) (lit (1) (0) : f32) (lit (8796093) (-43) : f32)))
  else Ok false
  end) = Ok true.
Proof. vm_compute. reflexivity. Qed.

(** matrix5x5.rs:1436-1452 *)
Example test_get_diagonal : (
  let m_ := ([| [| (lit (5) (1) : f64); (lit (1) (0) : f64); (lit (7) (0) : f64); (lit (1) (0) : f64); (lit (5) (0) : f64) |]; [| (lit (1) (1) : f64); (lit (1) (0) : f64); (lit (1) (3) : f64); (lit (3) (0) : f64); (lit (1) (1) : f64) |]; [| (lit (5) (0) : f64); (lit (1) (0) : f64); (lit (1) (0) : f64); (lit (9) (0) : f64); (lit (5) (1) : f64) |]; [| (lit (3) (1) : f64); (lit (9) (0) : f64); (lit (9) (0) : f64); (lit (1) (0) : f64); (lit (3) (0) : f64) |]; [| (lit (1) (0) : f64); (lit (1) (3) : f64); (lit (1) (3) : f64); (lit (5) (1) : f64); (lit (5) (0) : f64) |] |]) in
  t1 <- get_diagonal m_ ;;
  let result_ := t1 in
  let expected_ := ([| (lit (5) (1) : f64); (lit (1) (0) : f64); (lit (1) (0) : f64); (lit (1) (0) : f64); (lit (5) (0) : f64) |]) in
  Ok ((arr_eq eqb) result_ expected_)) = Ok true.
Proof. vm_compute. reflexivity. Qed.

(** matrix5x5.rs:1454-1470 *)
Example test_get_upper_triangular_test : (
  let m_ := ([| [| (lit (5) (1) : f64); (lit (1) (0) : f64); (lit (7) (0) : f64); (lit (1) (0) : f64); (lit (5) (0) : f64) |]; [| (lit (1) (1) : f64); (lit (1) (0) : f64); (lit (1) (3) : f64); (lit (3) (0) : f64); (lit (1) (1) : f64) |]; [| (lit (5) (0) : f64); (lit (1) (0) : f64); (lit (1) (0) : f64); (lit (9) (0) : f64); (lit (5) (1) : f64) |]; [| (lit (3) (1) : f64); (lit (9) (0) : f64); (lit (9) (0) : f64); (lit (1) (0) : f64); (lit (3) (0) : f64) |]; [| (lit (1) (0) : f64); (lit (1) (3) : f64); (lit (1) (3) : f64); (lit (5) (1) : f64); (lit (5) (0) : f64) |] |]) in
  t1 <- get_upper_triangular 10 m_ ;;
  let result_ := t1 in
  let expected_ := [| (lit (1) (0) : f64); (lit (7) (0) : f64); (lit (1) (0) : f64); (lit (5) (0) : f64); (lit (1) (3) : f64); (lit (3) (0) : f64); (lit (1) (1) : f64); (lit (9) (0) : f64); (lit (5) (1) : f64); (lit (3) (0) : f64) |] in
  Ok ((arr_eq (eqb)) result_ expected_)) = Ok true.
Proof. vm_compute. reflexivity. Qed.

(** matrix5x5.rs:1472-1488 *)
Example test_get_lower_triangular_test : (
  let m_ := ([| [| (lit (5) (1) : f64); (lit (1) (0) : f64); (lit (7) (0) : f64); (lit (1) (0) : f64); (lit (5) (0) : f64) |]; [| (lit (1) (1) : f64); (lit (1) (0) : f64); (lit (1) (3) : f64); (lit (3) (0) : f64); (lit (1) (1) : f64) |]; [| (lit (5) (0) : f64); (lit (1) (0) : f64); (lit (1) (0) : f64); (lit (9) (0) : f64); (lit (5) (1) : f64) |]; [| (lit (3) (1) : f64); (lit (9) (0) : f64); (lit (9) (0) : f64); (lit (1) (0) : f64); (lit (3) (0) : f64) |]; [| (lit (1) (0) : f64); (lit (1) (3) : f64); (lit (1) (3) : f64); (lit (5) (1) : f64); (lit (5) (0) : f64) |] |]) in
  t1 <- get_lower_triangular 10 m_ ;;
  let result_ := t1 in
  let expected_ := [| (lit (1) (1) : f64); (lit (5) (0) : f64); (lit (1) (0) : f64); (lit (3) (1) : f64); (lit (9) (0) : f64); (lit (9) (0) : f64); (lit (1) (0) : f64); (lit (1) (3) : f64); (lit (1) (3) : f64); (lit (5) (1) : f64) |] in
  Ok ((arr_eq (eqb)) result_ expected_)) = Ok true.
Proof. vm_compute. reflexivity. Qed.

(** matrix5x5.rs:1490-1507 *)
Example test_for_each_test : (
  let m_ := ([| [| (lit (5) (1) : f32); (lit (1) (0) : f32); (lit (7) (0) : f32); (lit (1) (0) : f32); (lit (5) (0) : f32) |]; [| (lit (1) (1) : f32); (lit (1) (0) : f32); (lit (1) (3) : f32); (lit (3) (0) : f32); (lit (1) (1) : f32) |]; [| (lit (5) (0) : f32); (lit (1) (0) : f32); (lit (1) (0) : f32); (lit (9) (0) : f32); (lit (5) (1) : f32) |]; [| (lit (3) (1) : f32); (lit (9) (0) : f32); (lit (9) (0) : f32); (lit (1) (0) : f32); (lit (3) (0) : f32) |]; [| (lit (1) (0) : f32); (lit (1) (3) : f32); (lit (1) (3) : f32); (lit (5) (1) : f32); (lit (5) (0) : f32) |] |]) in
  t1 <- for_each m_ (fun element => (add element (lit (1) (0) : f32))) ;;
  let result_ := t1 in
  let expected_ := ([| [| (lit (11) (0) : f32); (lit (1) (1) : f32); (lit (1) (3) : f32); (lit (1) (1) : f32); (lit (3) (1) : f32) |]; [| (lit (3) (0) : f32); (lit (1) (1) : f32); (lit (9) (0) : f32); (lit (1) (2) : f32); (lit (3) (0) : f32) |]; [| (lit (3) (1) : f32); (lit (1) (1) : f32); (lit (1) (1) : f32); (lit (5) (1) : f32); (lit (11) (0) : f32) |]; [| (lit (7) (0) : f32); (lit (5) (1) : f32); (lit (5) (1) : f32); (lit (1) (1) : f32); (lit (1) (2) : f32) |]; [| (lit (1) (1) : f32); (lit (9) (0) : f32); (lit (9) (0) : f32); (lit (11) (0) : f32); (lit (3) (1) : f32) |] |]) in
  t2 <- as_vec 25 result_ ;;
  t3 <- as_vec 25 expected_ ;;
  Ok ((compare_vecs (alist t2) (alist t3) (lit (8796093) (-43) : f32)))) = Ok true.
Proof. vm_compute. reflexivity. Qed.
