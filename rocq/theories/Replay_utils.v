(** * The unit tests of src/utils.rs, run on the model (tools/replay.py)

    Tests, not proofs: each runs one input. Where the source asserts under
    [if let Some(..)], the branch is required to be taken unless said otherwise. *)

From Coq Require Import ZArith List Bool.
From Flocq Require Import Core IEEE754.BinarySingleNaN.
From Verif Require Import Base Scalar Vec Mat2 Mat3 Mat4 Mat5 Mat6 MatLoops MatOps Slices Quat DualQuat Transf Ctor InstF InstI Replay.
Import ListNotations.
Open Scope Z_scope.

(** utils.rs:109-114 *)
Example test_test_nearly_equal : (
  let a_ := (add (lit (5404319552844595) (-55) : f64) (lit (5404319552844595) (-55) : f64)) in
  let b_ := (add (lit (3602879701896397) (-55) : f64) (lit (3602879701896397) (-54) : f64)) in
  Ok ((Bool.eqb) (nearly_equal a_ b_ (lit (7737125245533627) (-86) : f64)) true)) = Ok true.
Proof. vm_compute. reflexivity. Qed.

(** utils.rs:116-121 *)
Example test_test_zero_signs : (
  let a_ := (B754_zero false : f64) in
  let b_ := (B754_zero true : f64) in
  Ok ((Bool.eqb) (nearly_equal a_ b_ (lit (7737125245533627) (-86) : f64)) true)) = Ok true.
Proof. vm_compute. reflexivity. Qed.

(** utils.rs:123-128 *)
Example test_test_one_zero : (
  let b_ := (lit (-5379157239749687) (-83) : f64) in
  let a_ := (B754_zero false : f64) in
  Ok ((Bool.eqb) (nearly_equal a_ b_ (lit (3022314549036573) (-78) : f64)) true)) = Ok true.
Proof. vm_compute. reflexivity. Qed.
