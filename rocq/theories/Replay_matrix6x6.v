(** * The unit tests of src/matrix6x6.rs, run on the model (tools/replay.py)

    Tests, not proofs: each runs one input. Where the source asserts under
    [if let Some(..)], the branch is required to be taken unless said otherwise. *)

From Coq Require Import ZArith List Bool.
From Flocq Require Import Core IEEE754.BinarySingleNaN.
From Verif Require Import Base Scalar Vec Mat2 Mat3 Mat4 Mat5 Mat6 MatLoops MatOps Slices Quat DualQuat Transf Ctor InstF InstI Replay.
Import ListNotations.
Open Scope Z_scope.

(** matrix6x6.rs:2012-2037 *)
Example test_sub_test : (
  let m1_ := ([| [| (B754_zero false : f32); (lit (1) (0) : f32); (lit (1) (1) : f32); (lit (3) (0) : f32); (lit (1) (2) : f32); (lit (5) (0) : f32) |]; [| (lit (3) (1) : f32); (lit (7) (0) : f32); (lit (1) (3) : f32); (lit (9) (0) : f32); (lit (5) (1) : f32); (lit (11) (0) : f32) |]; [| (lit (3) (2) : f32); (lit (13) (0) : f32); (lit (7) (1) : f32); (lit (15) (0) : f32); (lit (1) (4) : f32); (lit (17) (0) : f32) |]; [| (lit (9) (1) : f32); (lit (19) (0) : f32); (lit (5) (2) : f32); (lit (21) (0) : f32); (lit (11) (1) : f32); (lit (23) (0) : f32) |]; [| (lit (3) (3) : f32); (lit (25) (0) : f32); (lit (13) (1) : f32); (lit (27) (0) : f32); (lit (7) (2) : f32); (lit (29) (0) : f32) |]; [| (lit (15) (1) : f32); (lit (31) (0) : f32); (lit (1) (5) : f32); (lit (33) (0) : f32); (lit (17) (1) : f32); (lit (35) (0) : f32) |] |]) in
  let m2_ := ([| [| (B754_zero false : f32); (lit (1) (0) : f32); (lit (1) (1) : f32); (lit (3) (0) : f32); (lit (1) (2) : f32); (lit (5) (0) : f32) |]; [| (lit (3) (1) : f32); (lit (7) (0) : f32); (lit (1) (3) : f32); (lit (9) (0) : f32); (lit (5) (1) : f32); (lit (11) (0) : f32) |]; [| (lit (3) (2) : f32); (lit (13) (0) : f32); (lit (7) (1) : f32); (lit (15) (0) : f32); (lit (1) (4) : f32); (lit (17) (0) : f32) |]; [| (lit (9) (1) : f32); (lit (19) (0) : f32); (lit (5) (2) : f32); (lit (21) (0) : f32); (lit (11) (1) : f32); (lit (23) (0) : f32) |]; [| (lit (3) (3) : f32); (lit (25) (0) : f32); (lit (13) (1) : f32); (lit (27) (0) : f32); (lit (7) (2) : f32); (lit (29) (0) : f32) |]; [| (lit (15) (1) : f32); (lit (31) (0) : f32); (lit (1) (5) : f32); (lit (33) (0) : f32); (lit (17) (1) : f32); (lit (35) (0) : f32) |] |]) in
  let result_ := (m66_sub m1_ m2_) in
  let expected_ := ([| [| (B754_zero false : f32); (B754_zero false : f32); (B754_zero false : f32); (B754_zero false : f32); (B754_zero false : f32); (B754_zero false : f32) |]; [| (B754_zero false : f32); (B754_zero false : f32); (B754_zero false : f32); (B754_zero false : f32); (B754_zero false : f32); (B754_zero false : f32) |]; [| (B754_zero false : f32); (B754_zero false : f32); (B754_zero false : f32); (B754_zero false : f32); (B754_zero false : f32); (B754_zero false : f32) |]; [| (B754_zero false : f32); (B754_zero false : f32); (B754_zero false : f32); (B754_zero false : f32); (B754_zero false : f32); (B754_zero false : f32) |]; [| (B754_zero false : f32); (B754_zero false : f32); (B754_zero false : f32); (B754_zero false : f32); (B754_zero false : f32); (B754_zero false : f32) |]; [| (B754_zero false : f32); (B754_zero false : f32); (B754_zero false : f32); (B754_zero false : f32); (B754_zero false : f32); (B754_zero false : f32) |] |]) in
  t1 <- as_vec 36 result_ ;;
  t2 <- as_vec 36 expected_ ;;
  Ok ((compare_vecs (alist t1) (alist t2) (lit (13743895) (-37) : f32)))) = Ok true.
Proof. vm_compute. reflexivity. Qed.

(** matrix6x6.rs:2039-2065 *)
Example test_sum_test : (
  let m1_ := ([| [| (B754_zero false : f32); (lit (1) (0) : f32); (lit (1) (1) : f32); (lit (3) (0) : f32); (lit (1) (2) : f32); (lit (5) (0) : f32) |]; [| (lit (3) (1) : f32); (lit (7) (0) : f32); (lit (1) (3) : f32); (lit (9) (0) : f32); (lit (5) (1) : f32); (lit (11) (0) : f32) |]; [| (lit (3) (2) : f32); (lit (13) (0) : f32); (lit (7) (1) : f32); (lit (15) (0) : f32); (lit (1) (4) : f32); (lit (17) (0) : f32) |]; [| (lit (9) (1) : f32); (lit (19) (0) : f32); (lit (5) (2) : f32); (lit (21) (0) : f32); (lit (11) (1) : f32); (lit (23) (0) : f32) |]; [| (lit (3) (3) : f32); (lit (25) (0) : f32); (lit (13) (1) : f32); (lit (27) (0) : f32); (lit (7) (2) : f32); (lit (29) (0) : f32) |]; [| (lit (15) (1) : f32); (lit (31) (0) : f32); (lit (1) (5) : f32); (lit (33) (0) : f32); (lit (17) (1) : f32); (lit (35) (0) : f32) |] |]) in
  let m2_ := ([| [| (B754_zero false : f32); (lit (1) (0) : f32); (lit (1) (1) : f32); (lit (3) (0) : f32); (lit (1) (2) : f32); (lit (5) (0) : f32) |]; [| (lit (3) (1) : f32); (lit (7) (0) : f32); (lit (1) (3) : f32); (lit (9) (0) : f32); (lit (5) (1) : f32); (lit (11) (0) : f32) |]; [| (lit (3) (2) : f32); (lit (13) (0) : f32); (lit (7) (1) : f32); (lit (15) (0) : f32); (lit (1) (4) : f32); (lit (17) (0) : f32) |]; [| (lit (9) (1) : f32); (lit (19) (0) : f32); (lit (5) (2) : f32); (lit (21) (0) : f32); (lit (11) (1) : f32); (lit (23) (0) : f32) |]; [| (lit (3) (3) : f32); (lit (25) (0) : f32); (lit (13) (1) : f32); (lit (27) (0) : f32); (lit (7) (2) : f32); (lit (29) (0) : f32) |]; [| (lit (15) (1) : f32); (lit (31) (0) : f32); (lit (1) (5) : f32); (lit (33) (0) : f32); (lit (17) (1) : f32); (lit (35) (0) : f32) |] |]) in
  let result_ := (m66_add m1_ m2_) in
  let expected_ := ([| [| (B754_zero false : f32); (lit (1) (1) : f32); (lit (1) (2) : f32); (lit (3) (1) : f32); (lit (1) (3) : f32); (lit (5) (1) : f32) |]; [| (lit (3) (2) : f32); (lit (7) (1) : f32); (lit (1) (4) : f32); (lit (9) (1) : f32); (lit (5) (2) : f32); (lit (11) (1) : f32) |]; [| (lit (3) (3) : f32); (lit (13) (1) : f32); (lit (7) (2) : f32); (lit (15) (1) : f32); (lit (1) (5) : f32); (lit (17) (1) : f32) |]; [| (lit (9) (2) : f32); (lit (19) (1) : f32); (lit (5) (3) : f32); (lit (21) (1) : f32); (lit (11) (2) : f32); (lit (23) (1) : f32) |]; [| (lit (3) (4) : f32); (lit (25) (1) : f32); (lit (13) (2) : f32); (lit (27) (1) : f32); (lit (7) (3) : f32); (lit (29) (1) : f32) |]; [| (lit (15) (2) : f32); (lit (31) (1) : f32); (lit (1) (6) : f32); (lit (33) (1) : f32); (lit (17) (2) : f32); (lit (35) (1) : f32) |] |]) in
  t1 <- as_vec 36 result_ ;;
  t2 <- as_vec 36 expected_ ;;
  Ok ((compare_vecs (alist t1) (alist t2) (lit (13743895) (-37) : f32)))) = Ok true.
Proof. vm_compute. reflexivity. Qed.

(** matrix6x6.rs:2067-2084 *)
Example test_matrix6x6_det_test : (
  let m_ := ([| [| (lit (1) (0) : f32); (lit (1) (0) : f32); (lit (3) (0) : f32); (lit (1) (2) : f32); (lit (9) (0) : f32); (lit (3) (0) : f32) |]; [| (lit (5) (1) : f32); (lit (5) (1) : f32); (lit (1) (0) : f32); (lit (1) (1) : f32); (lit (1) (1) : f32); (lit (5) (0) : f32) |]; [| (lit (1) (1) : f32); (lit (9) (0) : f32); (lit (3) (1) : f32); (lit (5) (1) : f32); (lit (5) (1) : f32); (lit (9) (0) : f32) |]; [| (lit (5) (1) : f32); (lit (9) (0) : f32); (lit (9) (0) : f32); (lit (7) (0) : f32); (lit (3) (0) : f32); (lit (3) (1) : f32) |]; [| (lit (7) (0) : f32); (lit (3) (1) : f32); (lit (3) (1) : f32); (lit (1) (1) : f32); (lit (9) (0) : f32); (lit (5) (0) : f32) |]; [| (lit (3) (0) : f32); (lit (1) (3) : f32); (lit (1) (0) : f32); (lit (1) (2) : f32); (lit (1) (0) : f32); (lit (5) (0) : f32) |] |]) in
  let result_ := (m66_det m_) in
  let expected_ := (lit (409) (3) : f32) in
  Ok ((nearly_equal result_ expected_ (lit (13743895) (-37) : f32)))) = Ok true.
Proof. vm_compute. reflexivity. Qed.

(** matrix6x6.rs:2086-2110 *)
Example test_matrix6x6_mul_test : (
  let m_ := ([| [| (B754_zero false : f32); (lit (1) (0) : f32); (lit (1) (1) : f32); (lit (3) (0) : f32); (lit (1) (2) : f32); (lit (5) (0) : f32) |]; [| (lit (3) (1) : f32); (lit (7) (0) : f32); (lit (1) (3) : f32); (lit (9) (0) : f32); (lit (5) (1) : f32); (lit (11) (0) : f32) |]; [| (lit (3) (2) : f32); (lit (13) (0) : f32); (lit (7) (1) : f32); (lit (15) (0) : f32); (lit (1) (4) : f32); (lit (17) (0) : f32) |]; [| (lit (9) (1) : f32); (lit (19) (0) : f32); (lit (5) (2) : f32); (lit (21) (0) : f32); (lit (11) (1) : f32); (lit (23) (0) : f32) |]; [| (lit (3) (3) : f32); (lit (25) (0) : f32); (lit (13) (1) : f32); (lit (27) (0) : f32); (lit (7) (2) : f32); (lit (29) (0) : f32) |]; [| (lit (15) (1) : f32); (lit (31) (0) : f32); (lit (1) (5) : f32); (lit (33) (0) : f32); (lit (17) (1) : f32); (lit (35) (0) : f32) |] |]) in
  let result_ := (m66_mul m_ m_) in
  let expected_ := ([| [| (lit (165) (1) : f32); (lit (345) (0) : f32); (lit (45) (3) : f32); (lit (375) (0) : f32); (lit (195) (1) : f32); (lit (405) (0) : f32) |]; [| (lit (435) (1) : f32); (lit (921) (0) : f32); (lit (243) (2) : f32); (lit (1023) (0) : f32); (lit (537) (1) : f32); (lit (1125) (0) : f32) |]; [| (lit (705) (1) : f32); (lit (1497) (0) : f32); (lit (99) (4) : f32); (lit (1671) (0) : f32); (lit (879) (1) : f32); (lit (1845) (0) : f32) |]; [| (lit (975) (1) : f32); (lit (2073) (0) : f32); (lit (549) (2) : f32); (lit (2319) (0) : f32); (lit (1221) (1) : f32); (lit (2565) (0) : f32) |]; [| (lit (1245) (1) : f32); (lit (2649) (0) : f32); (lit (351) (3) : f32); (lit (2967) (0) : f32); (lit (1563) (1) : f32); (lit (3285) (0) : f32) |]; [| (lit (1515) (1) : f32); (lit (3225) (0) : f32); (lit (855) (2) : f32); (lit (3615) (0) : f32); (lit (1905) (1) : f32); (lit (4005) (0) : f32) |] |]) in
  t1 <- as_vec 36 result_ ;;
  t2 <- as_vec 36 expected_ ;;
  Ok ((compare_vecs (alist t1) (alist t2) (lit (13743895) (-37) : f32)))) = Ok true.
Proof. vm_compute. reflexivity. Qed.

(** matrix6x6.rs:2112-2127 *)
Example test_matrix6x6_norm2_test : (
  let m_ := ([| [| (B754_zero false : f32); (lit (1) (0) : f32); (lit (1) (1) : f32); (lit (3) (0) : f32); (lit (1) (2) : f32); (lit (5) (0) : f32) |]; [| (lit (3) (1) : f32); (lit (7) (0) : f32); (lit (1) (3) : f32); (lit (9) (0) : f32); (lit (5) (1) : f32); (lit (11) (0) : f32) |]; [| (lit (3) (2) : f32); (lit (13) (0) : f32); (lit (7) (1) : f32); (lit (15) (0) : f32); (lit (1) (4) : f32); (lit (17) (0) : f32) |]; [| (lit (9) (1) : f32); (lit (19) (0) : f32); (lit (5) (2) : f32); (lit (21) (0) : f32); (lit (11) (1) : f32); (lit (23) (0) : f32) |]; [| (lit (3) (3) : f32); (lit (25) (0) : f32); (lit (13) (1) : f32); (lit (27) (0) : f32); (lit (7) (2) : f32); (lit (29) (0) : f32) |]; [| (lit (15) (1) : f32); (lit (31) (0) : f32); (lit (1) (5) : f32); (lit (33) (0) : f32); (lit (17) (1) : f32); (lit (35) (0) : f32) |] |]) in
  let result_ := (m66_norm2 m_) in
  let expected_ := (lit (16004745) (-17) : f32) in
  Ok ((nearly_equal result_ expected_ (lit (13743895) (-37) : f32)))) = Ok true.
Proof. vm_compute. reflexivity. Qed.

(** matrix6x6.rs:2129-2151 *)
Example test_matrix6x6_inv_test : (
  let m_ := ([| [| (lit (1) (0) : f32); (lit (1) (0) : f32); (lit (3) (0) : f32); (lit (1) (2) : f32); (lit (9) (0) : f32); (lit (3) (0) : f32) |]; [| (lit (5) (1) : f32); (lit (5) (1) : f32); (lit (1) (0) : f32); (lit (1) (1) : f32); (lit (1) (1) : f32); (lit (5) (0) : f32) |]; [| (lit (1) (1) : f32); (lit (9) (0) : f32); (lit (3) (1) : f32); (lit (5) (1) : f32); (lit (5) (1) : f32); (lit (9) (0) : f32) |]; [| (lit (5) (1) : f32); (lit (9) (0) : f32); (lit (9) (0) : f32); (lit (7) (0) : f32); (lit (3) (0) : f32); (lit (3) (1) : f32) |]; [| (lit (7) (0) : f32); (lit (3) (1) : f32); (lit (3) (1) : f32); (lit (1) (1) : f32); (lit (9) (0) : f32); (lit (5) (0) : f32) |]; [| (lit (3) (0) : f32); (lit (1) (3) : f32); (lit (1) (0) : f32); (lit (1) (2) : f32); (lit (1) (0) : f32); (lit (5) (0) : f32) |] |]) in
  let expected_ := ([| [| (lit (-9039799) (-24) : f32); (lit (2424031) (-22) : f32); (lit (5581293) (-23) : f32); (lit (-2809875) (-25) : f32); (lit (-11383073) (-26) : f32); (lit (-9916593) (-23) : f32) |]; [| (lit (2265721) (-20) : f32); (lit (-12813683) (-23) : f32); (lit (-1279635) (-19) : f32); (lit (7404121) (-24) : f32); (lit (10890829) (-25) : f32); (lit (15813239) (-22) : f32) |]; [| (lit (14398073) (-26) : f32); (lit (-13926331) (-25) : f32); (lit (-13228969) (-25) : f32); (lit (9926877) (-26) : f32); (lit (414047) (-21) : f32); (lit (325597) (-19) : f32) |]; [| (lit (11747121) (-24) : f32); (lit (-16141427) (-26) : f32); (lit (-8824447) (-24) : f32); (lit (6829837) (-25) : f32); (lit (-888341) (-22) : f32); (lit (12326539) (-24) : f32) |]; [| (lit (14269861) (-24) : f32); (lit (-7911749) (-24) : f32); (lit (-3472607) (-22) : f32); (lit (14849313) (-27) : f32); (lit (480705) (-22) : f32); (lit (5050613) (-22) : f32) |]; [| (lit (-16387523) (-22) : f32); (lit (5173653) (-21) : f32); (lit (546721) (-17) : f32); (lit (-14603157) (-24) : f32); (lit (-10419087) (-25) : f32); (lit (-12741855) (-21) : f32) |] |]) in
  t1 <- m66_inverse m_ ;;
  match t1 with None => Ok false | Some result_ =>
  t2 <- as_vec 36 result_ ;;
  t3 <- as_vec 36 expected_ ;;
  Ok ((compare_vecs (alist t2) (alist t3) (lit (13743895) (-37) : f32)))
  end) = Ok true.
Proof. vm_compute. reflexivity. Qed.

(** matrix6x6.rs:2153-2166 *)
Example test_inverse_fail : (
  let m_ := ([| [| (lit (1) (0) : f64); (lit (1) (0) : f64); (lit (3) (0) : f64); (lit (1) (2) : f64); (lit (9) (0) : f64); (lit (3) (0) : f64) |]; [| (lit (5) (1) : f64); (lit (5) (1) : f64); (lit (1) (0) : f64); (lit (1) (1) : f64); (lit (1) (1) : f64); (lit (5) (0) : f64) |]; [| (lit (1) (1) : f64); (lit (9) (0) : f64); (lit (3) (1) : f64); (lit (5) (1) : f64); (lit (5) (1) : f64); (lit (9) (0) : f64) |]; [| (lit (1) (1) : f64); (lit (9) (0) : f64); (lit (3) (1) : f64); (lit (5) (1) : f64); (lit (5) (1) : f64); (lit (9) (0) : f64) |]; [| (lit (7) (0) : f64); (lit (3) (1) : f64); (lit (3) (1) : f64); (lit (1) (1) : f64); (lit (9) (0) : f64); (lit (5) (0) : f64) |]; [| (lit (3) (0) : f64); (lit (1) (3) : f64); (lit (1) (0) : f64); (lit (1) (2) : f64); (lit (1) (0) : f64); (lit (5) (0) : f64) |] |]) in
  t1 <- m66_inverse m_ ;;
  let result_ := t1 in
  let expected_ := None in
  Ok ((opt_eq (arr_eq (n:=6) (arr_eq (n:=6) eqb))) result_ expected_)) = Ok true.
Proof. vm_compute. reflexivity. Qed.

(** matrix6x6.rs:2168-2191 *)
Example test_mul_vec_rhs : (
  let m_ := ([| [| (lit (1) (0) : f64); (lit (1) (0) : f64); (lit (3) (0) : f64); (lit (1) (2) : f64); (lit (9) (0) : f64); (lit (3) (0) : f64) |]; [| (lit (5) (1) : f64); (lit (5) (1) : f64); (lit (1) (0) : f64); (lit (1) (1) : f64); (lit (1) (1) : f64); (lit (5) (0) : f64) |]; [| (lit (1) (1) : f64); (lit (9) (0) : f64); (lit (3) (1) : f64); (lit (5) (1) : f64); (lit (5) (1) : f64); (lit (9) (0) : f64) |]; [| (lit (5) (1) : f64); (lit (9) (0) : f64); (lit (9) (0) : f64); (lit (7) (0) : f64); (lit (3) (0) : f64); (lit (3) (1) : f64) |]; [| (lit (7) (0) : f64); (lit (3) (1) : f64); (lit (3) (1) : f64); (lit (1) (1) : f64); (lit (9) (0) : f64); (lit (5) (0) : f64) |]; [| (lit (3) (0) : f64); (lit (1) (3) : f64); (lit (1) (0) : f64); (lit (1) (2) : f64); (lit (1) (0) : f64); (lit (5) (0) : f64) |] |]) in
  let v_ := ([| (B754_zero false : f64); (lit (1) (0) : f64); (lit (1) (1) : f64); (lit (3) (0) : f64); (lit (1) (2) : f64); (lit (5) (0) : f64) |]) in
  let result_ := (m66_mul_v m_ v_) in
  let expected_ := ([| (lit (35) (1) : f64); (lit (51) (0) : f64); (lit (17) (3) : f64); (lit (45) (1) : f64); (lit (85) (0) : f64); (lit (51) (0) : f64) |]) in
  Ok ((arr_eq eqb) result_ expected_)) = Ok true.
Proof. vm_compute. reflexivity. Qed.

(** matrix6x6.rs:2193-2218 *)
Example test_get_cols_test : (
  let m_ := ([| [| (lit (1) (0) : f64); (lit (1) (0) : f64); (lit (3) (0) : f64); (lit (1) (2) : f64); (lit (9) (0) : f64); (lit (3) (0) : f64) |]; [| (lit (5) (1) : f64); (lit (5) (1) : f64); (lit (1) (0) : f64); (lit (1) (1) : f64); (lit (1) (1) : f64); (lit (5) (0) : f64) |]; [| (lit (1) (1) : f64); (lit (9) (0) : f64); (lit (3) (1) : f64); (lit (5) (1) : f64); (lit (5) (1) : f64); (lit (9) (0) : f64) |]; [| (lit (5) (1) : f64); (lit (9) (0) : f64); (lit (9) (0) : f64); (lit (7) (0) : f64); (lit (3) (0) : f64); (lit (3) (1) : f64) |]; [| (lit (7) (0) : f64); (lit (3) (1) : f64); (lit (3) (1) : f64); (lit (1) (1) : f64); (lit (9) (0) : f64); (lit (5) (0) : f64) |]; [| (lit (3) (0) : f64); (lit (1) (3) : f64); (lit (1) (0) : f64); (lit (1) (2) : f64); (lit (1) (0) : f64); (lit (5) (0) : f64) |] |]) in
  t1 <- m66_get_cols m_ ;;
  let result_ := t1 in
  let expected0_ := ([| (lit (1) (0) : f64); (lit (5) (1) : f64); (lit (1) (1) : f64); (lit (5) (1) : f64); (lit (7) (0) : f64); (lit (3) (0) : f64) |]) in
  let expected1_ := ([| (lit (1) (0) : f64); (lit (5) (1) : f64); (lit (9) (0) : f64); (lit (9) (0) : f64); (lit (3) (1) : f64); (lit (1) (3) : f64) |]) in
  let expected2_ := ([| (lit (3) (0) : f64); (lit (1) (0) : f64); (lit (3) (1) : f64); (lit (9) (0) : f64); (lit (3) (1) : f64); (lit (1) (0) : f64) |]) in
  let expected3_ := ([| (lit (1) (2) : f64); (lit (1) (1) : f64); (lit (5) (1) : f64); (lit (7) (0) : f64); (lit (1) (1) : f64); (lit (1) (2) : f64) |]) in
  let expected4_ := ([| (lit (9) (0) : f64); (lit (1) (1) : f64); (lit (5) (1) : f64); (lit (3) (0) : f64); (lit (9) (0) : f64); (lit (1) (0) : f64) |]) in
  let expected5_ := ([| (lit (3) (0) : f64); (lit (5) (0) : f64); (lit (9) (0) : f64); (lit (3) (1) : f64); (lit (5) (0) : f64); (lit (5) (0) : f64) |]) in
  let expected_ := ([| expected0_; expected1_; expected2_; expected3_; expected4_; expected5_ |]) in
  Ok ((arr_eq (arr_eq (n:=6) eqb)) result_ expected_)) = Ok true.
Proof. vm_compute. reflexivity. Qed.

(** matrix6x6.rs:2220-2246 *)
Example test_get_rows_test : (
  let m_ := ([| [| (lit (1) (0) : f64); (lit (1) (0) : f64); (lit (3) (0) : f64); (lit (1) (2) : f64); (lit (9) (0) : f64); (lit (3) (0) : f64) |]; [| (lit (5) (1) : f64); (lit (5) (1) : f64); (lit (1) (0) : f64); (lit (1) (1) : f64); (lit (1) (1) : f64); (lit (5) (0) : f64) |]; [| (lit (1) (1) : f64); (lit (9) (0) : f64); (lit (3) (1) : f64); (lit (5) (1) : f64); (lit (5) (1) : f64); (lit (9) (0) : f64) |]; [| (lit (5) (1) : f64); (lit (9) (0) : f64); (lit (9) (0) : f64); (lit (7) (0) : f64); (lit (3) (0) : f64); (lit (3) (1) : f64) |]; [| (lit (7) (0) : f64); (lit (3) (1) : f64); (lit (3) (1) : f64); (lit (1) (1) : f64); (lit (9) (0) : f64); (lit (5) (0) : f64) |]; [| (lit (3) (0) : f64); (lit (1) (3) : f64); (lit (1) (0) : f64); (lit (1) (2) : f64); (lit (1) (0) : f64); (lit (5) (0) : f64) |] |]) in
  t1 <- m66_get_rows (m66_transpose m_) ;;
  let result_ := t1 in
  let expected0_ := ([| (lit (1) (0) : f64); (lit (5) (1) : f64); (lit (1) (1) : f64); (lit (5) (1) : f64); (lit (7) (0) : f64); (lit (3) (0) : f64) |]) in
  let expected1_ := ([| (lit (1) (0) : f64); (lit (5) (1) : f64); (lit (9) (0) : f64); (lit (9) (0) : f64); (lit (3) (1) : f64); (lit (1) (3) : f64) |]) in
  let expected2_ := ([| (lit (3) (0) : f64); (lit (1) (0) : f64); (lit (3) (1) : f64); (lit (9) (0) : f64); (lit (3) (1) : f64); (lit (1) (0) : f64) |]) in
  let expected3_ := ([| (lit (1) (2) : f64); (lit (1) (1) : f64); (lit (5) (1) : f64); (lit (7) (0) : f64); (lit (1) (1) : f64); (lit (1) (2) : f64) |]) in
  let expected4_ := ([| (lit (9) (0) : f64); (lit (1) (1) : f64); (lit (5) (1) : f64); (lit (3) (0) : f64); (lit (9) (0) : f64); (lit (1) (0) : f64) |]) in
  let expected5_ := ([| (lit (3) (0) : f64); (lit (5) (0) : f64); (lit (9) (0) : f64); (lit (3) (1) : f64); (lit (5) (0) : f64); (lit (5) (0) : f64) |]) in
  let expected_ := ([| expected0_; expected1_; expected2_; expected3_; expected4_; expected5_ |]) in
  Ok ((arr_eq (arr_eq (n:=6) eqb)) result_ expected_)) = Ok true.
Proof. vm_compute. reflexivity. Qed.

(** matrix6x6.rs:2248-2263 *)
Example test_new_from_vecs_test : (
  let expected_ := ([| [| (lit (1) (0) : f32); (lit (1) (0) : f32); (lit (3) (0) : f32); (lit (1) (2) : f32); (lit (9) (0) : f32); (lit (3) (0) : f32) |]; [| (lit (5) (1) : f32); (lit (5) (1) : f32); (lit (1) (0) : f32); (lit (1) (1) : f32); (lit (1) (1) : f32); (lit (5) (0) : f32) |]; [| (lit (1) (1) : f32); (lit (9) (0) : f32); (lit (3) (1) : f32); (lit (5) (1) : f32); (lit (5) (1) : f32); (lit (9) (0) : f32) |]; [| (lit (5) (1) : f32); (lit (9) (0) : f32); (lit (9) (0) : f32); (lit (7) (0) : f32); (lit (3) (0) : f32); (lit (3) (1) : f32) |]; [| (lit (7) (0) : f32); (lit (3) (1) : f32); (lit (3) (1) : f32); (lit (1) (1) : f32); (lit (9) (0) : f32); (lit (5) (0) : f32) |]; [| (lit (3) (0) : f32); (lit (1) (3) : f32); (lit (1) (0) : f32); (lit (1) (2) : f32); (lit (1) (0) : f32); (lit (5) (0) : f32) |] |]) in
  t1 <- m66_get_cols expected_ ;;
  let cols_ := t1 in
  t2 <- m66_new_from_vecs cols_ ;;
  let result_ := t2 in
  t3 <- as_vec 36 result_ ;;
  t4 <- as_vec 36 expected_ ;;
  Ok ((compare_vecs (alist t3) (alist t4) (lit (13743895) (-37) : f32)))) = Ok true.
Proof. vm_compute. reflexivity. Qed.

(** matrix6x6.rs:2265-2278 *)
Example test_qr_test : (
  let expected_ := ([| [| (lit (1) (0) : f32); (lit (1) (0) : f32); (lit (3) (0) : f32); (lit (1) (2) : f32); (lit (9) (0) : f32); (lit (3) (0) : f32) |]; [| (lit (5) (1) : f32); (lit (5) (1) : f32); (lit (1) (0) : f32); (lit (1) (1) : f32); (lit (1) (1) : f32); (lit (5) (0) : f32) |]; [| (lit (1) (1) : f32); (lit (9) (0) : f32); (lit (3) (1) : f32); (lit (5) (1) : f32); (lit (5) (1) : f32); (lit (9) (0) : f32) |]; [| (lit (5) (1) : f32); (lit (9) (0) : f32); (lit (9) (0) : f32); (lit (7) (0) : f32); (lit (3) (0) : f32); (lit (3) (1) : f32) |]; [| (lit (7) (0) : f32); (lit (3) (1) : f32); (lit (3) (1) : f32); (lit (1) (1) : f32); (lit (9) (0) : f32); (lit (5) (0) : f32) |]; [| (lit (3) (0) : f32); (lit (1) (3) : f32); (lit (1) (0) : f32); (lit (1) (2) : f32); (lit (1) (0) : f32); (lit (5) (0) : f32) |] |]) in
  t1 <- m66_qr expected_ ;;
  match t1 with None => Ok false | Some (q_, r_) =>
  let result_ := (m66_mul q_ r_) in
  t2 <- as_vec 36 result_ ;;
  t3 <- as_vec 36 expected_ ;;
  if (compare_vecs (alist t2) (alist t3) (lit (13743895) (-37) : f32)) then
  Ok ((nearly_equal (abs (m66_det q_)) (lit (1) (0) : f32) (lit (13743895) (-37) : f32)))
  else Ok false
  end) = Ok true.
Proof. vm_compute. reflexivity. Qed.

(** matrix6x6.rs:2280-2297 *)
Example test_get_diagonal_test : (
  let m_ := ([| [| (lit (1) (0) : f64); (lit (1) (0) : f64); (lit (3) (0) : f64); (lit (1) (2) : f64); (lit (9) (0) : f64); (lit (3) (0) : f64) |]; [| (lit (5) (1) : f64); (lit (5) (1) : f64); (lit (1) (0) : f64); (lit (1) (1) : f64); (lit (1) (1) : f64); (lit (5) (0) : f64) |]; [| (lit (1) (1) : f64); (lit (9) (0) : f64); (lit (3) (1) : f64); (lit (5) (1) : f64); (lit (5) (1) : f64); (lit (9) (0) : f64) |]; [| (lit (5) (1) : f64); (lit (9) (0) : f64); (lit (9) (0) : f64); (lit (7) (0) : f64); (lit (3) (0) : f64); (lit (3) (1) : f64) |]; [| (lit (7) (0) : f64); (lit (3) (1) : f64); (lit (3) (1) : f64); (lit (1) (1) : f64); (lit (9) (0) : f64); (lit (5) (0) : f64) |]; [| (lit (3) (0) : f64); (lit (1) (3) : f64); (lit (1) (0) : f64); (lit (1) (2) : f64); (lit (1) (0) : f64); (lit (5) (0) : f64) |] |]) in
  t1 <- get_diagonal m_ ;;
  let result_ := t1 in
  let expected_ := ([| (lit (1) (0) : f64); (lit (5) (1) : f64); (lit (3) (1) : f64); (lit (7) (0) : f64); (lit (9) (0) : f64); (lit (5) (0) : f64) |]) in
  Ok ((arr_eq eqb) result_ expected_)) = Ok true.
Proof. vm_compute. reflexivity. Qed.

(** matrix6x6.rs:2299-2316 *)
Example test_get_upper_triangular_test : (
  let m_ := ([| [| (lit (1) (0) : f64); (lit (1) (0) : f64); (lit (3) (0) : f64); (lit (1) (2) : f64); (lit (9) (0) : f64); (lit (3) (0) : f64) |]; [| (lit (5) (1) : f64); (lit (5) (1) : f64); (lit (1) (0) : f64); (lit (1) (1) : f64); (lit (1) (1) : f64); (lit (5) (0) : f64) |]; [| (lit (1) (1) : f64); (lit (9) (0) : f64); (lit (3) (1) : f64); (lit (5) (1) : f64); (lit (5) (1) : f64); (lit (9) (0) : f64) |]; [| (lit (5) (1) : f64); (lit (9) (0) : f64); (lit (9) (0) : f64); (lit (7) (0) : f64); (lit (3) (0) : f64); (lit (3) (1) : f64) |]; [| (lit (7) (0) : f64); (lit (3) (1) : f64); (lit (3) (1) : f64); (lit (1) (1) : f64); (lit (9) (0) : f64); (lit (5) (0) : f64) |]; [| (lit (3) (0) : f64); (lit (1) (3) : f64); (lit (1) (0) : f64); (lit (1) (2) : f64); (lit (1) (0) : f64); (lit (5) (0) : f64) |] |]) in
  t1 <- get_upper_triangular 15 m_ ;;
  let result_ := t1 in
  let expected_ := [| (lit (1) (0) : f64); (lit (3) (0) : f64); (lit (1) (2) : f64); (lit (9) (0) : f64); (lit (3) (0) : f64); (lit (1) (0) : f64); (lit (1) (1) : f64); (lit (1) (1) : f64); (lit (5) (0) : f64); (lit (5) (1) : f64); (lit (5) (1) : f64); (lit (9) (0) : f64); (lit (3) (0) : f64); (lit (3) (1) : f64); (lit (5) (0) : f64) |] in
  Ok ((arr_eq (eqb)) result_ expected_)) = Ok true.
Proof. vm_compute. reflexivity. Qed.

(** matrix6x6.rs:2318-2335 *)
Example test_get_lower_triangular_test : (
  let m_ := ([| [| (lit (1) (0) : f64); (lit (1) (0) : f64); (lit (3) (0) : f64); (lit (1) (2) : f64); (lit (9) (0) : f64); (lit (3) (0) : f64) |]; [| (lit (5) (1) : f64); (lit (5) (1) : f64); (lit (1) (0) : f64); (lit (1) (1) : f64); (lit (1) (1) : f64); (lit (5) (0) : f64) |]; [| (lit (1) (1) : f64); (lit (9) (0) : f64); (lit (3) (1) : f64); (lit (5) (1) : f64); (lit (5) (1) : f64); (lit (9) (0) : f64) |]; [| (lit (5) (1) : f64); (lit (9) (0) : f64); (lit (9) (0) : f64); (lit (7) (0) : f64); (lit (3) (0) : f64); (lit (3) (1) : f64) |]; [| (lit (7) (0) : f64); (lit (3) (1) : f64); (lit (3) (1) : f64); (lit (1) (1) : f64); (lit (9) (0) : f64); (lit (5) (0) : f64) |]; [| (lit (3) (0) : f64); (lit (1) (3) : f64); (lit (1) (0) : f64); (lit (1) (2) : f64); (lit (1) (0) : f64); (lit (5) (0) : f64) |] |]) in
  t1 <- get_lower_triangular 15 m_ ;;
  let result_ := t1 in
  let expected_ := [| (lit (5) (1) : f64); (lit (1) (1) : f64); (lit (9) (0) : f64); (lit (5) (1) : f64); (lit (9) (0) : f64); (lit (9) (0) : f64); (lit (7) (0) : f64); (lit (3) (1) : f64); (lit (3) (1) : f64); (lit (1) (1) : f64); (lit (3) (0) : f64); (lit (1) (3) : f64); (lit (1) (0) : f64); (lit (1) (2) : f64); (lit (1) (0) : f64) |] in
  Ok ((arr_eq (eqb)) result_ expected_)) = Ok true.
Proof. vm_compute. reflexivity. Qed.

(** matrix6x6.rs:2337-2356 *)
Example test_for_each_test : (
  let m_ := ([| [| (lit (1) (0) : f32); (lit (1) (0) : f32); (lit (3) (0) : f32); (lit (1) (2) : f32); (lit (9) (0) : f32); (lit (3) (0) : f32) |]; [| (lit (5) (1) : f32); (lit (5) (1) : f32); (lit (1) (0) : f32); (lit (1) (1) : f32); (lit (1) (1) : f32); (lit (5) (0) : f32) |]; [| (lit (1) (1) : f32); (lit (9) (0) : f32); (lit (3) (1) : f32); (lit (5) (1) : f32); (lit (5) (1) : f32); (lit (9) (0) : f32) |]; [| (lit (5) (1) : f32); (lit (9) (0) : f32); (lit (9) (0) : f32); (lit (7) (0) : f32); (lit (3) (0) : f32); (lit (3) (1) : f32) |]; [| (lit (7) (0) : f32); (lit (3) (1) : f32); (lit (3) (1) : f32); (lit (1) (1) : f32); (lit (9) (0) : f32); (lit (5) (0) : f32) |]; [| (lit (3) (0) : f32); (lit (1) (3) : f32); (lit (1) (0) : f32); (lit (1) (2) : f32); (lit (1) (0) : f32); (lit (5) (0) : f32) |] |]) in
  t1 <- for_each m_ (fun element => (add element (lit (1) (0) : f32))) ;;
  let result_ := t1 in
  let expected_ := ([| [| (lit (1) (1) : f32); (lit (1) (1) : f32); (lit (1) (2) : f32); (lit (5) (0) : f32); (lit (5) (1) : f32); (lit (1) (2) : f32) |]; [| (lit (11) (0) : f32); (lit (11) (0) : f32); (lit (1) (1) : f32); (lit (3) (0) : f32); (lit (3) (0) : f32); (lit (3) (1) : f32) |]; [| (lit (3) (0) : f32); (lit (5) (1) : f32); (lit (7) (0) : f32); (lit (11) (0) : f32); (lit (11) (0) : f32); (lit (5) (1) : f32) |]; [| (lit (11) (0) : f32); (lit (5) (1) : f32); (lit (5) (1) : f32); (lit (1) (3) : f32); (lit (1) (2) : f32); (lit (7) (0) : f32) |]; [| (lit (1) (3) : f32); (lit (7) (0) : f32); (lit (7) (0) : f32); (lit (3) (0) : f32); (lit (5) (1) : f32); (lit (3) (1) : f32) |]; [| (lit (1) (2) : f32); (lit (9) (0) : f32); (lit (1) (1) : f32); (lit (5) (0) : f32); (lit (1) (1) : f32); (lit (3) (1) : f32) |] |]) in
  t2 <- as_vec 36 result_ ;;
  t3 <- as_vec 36 expected_ ;;
  Ok ((compare_vecs (alist t2) (alist t3) (lit (13743895) (-37) : f32)))) = Ok true.
Proof. vm_compute. reflexivity. Qed.
