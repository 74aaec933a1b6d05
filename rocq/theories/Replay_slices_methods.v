(** * The unit tests of src/slices_methods.rs, run on the model (tools/replay.py)

    Tests, not proofs: each runs one input. Where the source asserts under
    [if let Some(..)], the branch is required to be taken unless said otherwise. *)

From Coq Require Import ZArith List Bool.
From Flocq Require Import Core IEEE754.BinarySingleNaN.
From Verif Require Import Base Scalar Vec Mat2 Mat3 Mat4 Mat5 Mat6 MatLoops MatOps Slices Quat DualQuat Transf Ctor InstF InstI Replay.
Import ListNotations.
Open Scope Z_scope.

(** slices_methods.rs:120-132 *)
Example test_find_max_min_test : (
  let v_ := ([| (int (1)); (int (10)); (int (37)) |]) in
  t1 <- find_max_min (alist v_) ;;
  let result_ := t1 in
  let expected_ := (mkMaxMin ((int (37)), 2%nat) ((int (1)), 0%nat)) in
  Ok ((mm_eq) result_ expected_)) = Ok true.
Proof. vm_compute. reflexivity. Qed.

(** slices_methods.rs:134-143 *)
Example test_dot_tests : (
  let v1_ := ([| (int (1)); (int (1)); (int (1)) |]) in
  let v2_ := ([| (int (1)); (int (1)); (int (3)) |]) in
  t1 <- dot (alist v1_) (alist v2_) ;;
  let result_ := t1 in
  let expected_ := (int (5)) in
  Ok ((eqb) result_ expected_)) = Ok true.
Proof. vm_compute. reflexivity. Qed.

(** slices_methods.rs:145-159 *)
Example test_normalize_test : (
  let v1_ := ([| (lit (1) (0) : f64); (lit (1) (0) : f64); (lit (1) (0) : f64) |]) in
  let v1_ := normalize v1_ in
  let expected_ := ([| (lit (5200308914369309) (-53) : f64); (lit (5200308914369309) (-53) : f64); (lit (5200308914369309) (-53) : f64) |]) in
  Ok ((arr_eq eqb) v1_ expected_)) = Ok true.
Proof. vm_compute. reflexivity. Qed.
