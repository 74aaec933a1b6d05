(** * PropsFloatRigid: homogeneous transformations on floats (C92) *)

From Coq Require Import List Arith ZArith Reals Bool Lra Lia.
From Flocq Require Import Core Relative Sterbenz IEEE754.BinarySingleNaN.
From Verif Require Import Base Scalar Vec Mat2 Mat3 Mat4 Mat5 Mat6 Slices MatLoops MatOps Quat Transf RingDet Spec LoopFacts Entries InstZ InstR RFacts LUFacts QRFacts ProofsRing ProofsQuat InstF FloatFacts ProofsFloat ProofsFloat2 ProofsFloatErr ProofsFloatInv ProofsFloatNorm ProofsFloatRot ProofsFloatDrift.
From Verif Require Import ProofsFloatRigid.
(** Concrete cases meeting the hypotheses: the Examples of ProofsFloatRigid.v and of Cases.v. *)
Local Open Scope R_scope.

Section F.
Context {prec emax : Z} {Hp : Prec_gt_0 prec} {He : Prec_lt_emax prec emax} {O : FOracle (binary_float prec emax)}.
Notation fl := (binary_float prec emax).
Notation uro := (uro (prec := prec)).
Notation eta := (eta (prec := prec) (emax := emax)).
Hypothesis Hp11 : (11 <= prec)%Z.
Hypothesis He4 : (4 * prec <= emax)%Z.

(** moving a point and moving it back *)
Theorem C92_round_trip : forall dl (r : M33 fl) (t p : V3 fl), near_rot dl r -> dl <= / 100 ->
  vec_le (bpow radix2 (emax - 10)) t -> vec_le (bpow radix2 (emax - 10)) p ->
  let M := homogeneous_from_rotation r t in
  let y := m44_mul_v M [| p.[0]; p.[1]; p.[2]; one |] in
  let x := homogeneous_inverse_transform M [| y.[0]; y.[1]; y.[2] |] in
  (forall k, (k < 3)%nat -> is_finite (vfun x k) = true) /\
  nrm 3 (fun k => vR x k - vR p k) <= (3 * dl + 29 * uro) * nrm 3 (vR p) + 8 * uro * nrm 3 (vR t) + 30 * eta.
Proof. exact (c92_round_trip Hp11 He4). Qed.
Print Assumptions C92_round_trip.

(** moving a point back and forth: the rows must be orthonormal too *)
Theorem C92_round_trip_back : forall dl (r : M33 fl) (t p : V3 fl), near_rot dl r -> near_rot dl (m33_transpose r) -> dl <= / 100 ->
  vec_le (bpow radix2 (emax - 10)) t -> vec_le (bpow radix2 (emax - 10)) p ->
  let M := homogeneous_from_rotation r t in
  let x := homogeneous_inverse_transform M p in
  let y := m44_mul_v M [| x.[0]; x.[1]; x.[2]; one |] in
  (forall k, (k < 3)%nat -> is_finite (vfun y k) = true) /\
  nrm 3 (fun k => B2R (vfun y k) - vR p k) <= (301 / 100 * dl + 27 * uro) * nrm 3 (fun k => vR p k - vR t k) + 5 * uro * nrm 3 (vR t) + 26 * eta.
Proof. exact (c92_round_trip_back Hp11 He4). Qed.
Print Assumptions C92_round_trip_back.

(** the inverse matrix times the matrix *)
Theorem C92_inverse_product : forall dl (r : M33 fl) (t : V3 fl), near_rot dl r -> dl <= / 100 -> vec_le (bpow radix2 (emax - 10)) t ->
  let M := homogeneous_from_rotation r t in let Q := m44_mul (homogeneous_inverse M) M in
  (forall i j, (i < 4)%nat -> (j < 4)%nat -> is_finite (mfun Q i j) = true) /\
  (forall i j, (i < 3)%nat -> (j < 3)%nat -> Rabs (B2R (mfun Q i j) - (if Nat.eqb i j then 1 else 0)) <= dl + 42 / 10 * uro) /\
  (forall i, (i < 3)%nat -> Rabs (B2R (mfun Q i 3)) <= 12 * uro * nrm 3 (vR t) + 10 * eta) /\
  (forall j, (j < 4)%nat -> B2R (mfun Q 3 j) = if Nat.eqb j 3 then 1 else 0).
Proof. exact (c92_inverse_product Hp11 He4). Qed.
Print Assumptions C92_inverse_product.

Theorem C92_quaternion : forall dl (a : Quaternion fl), near_unit dl a -> dl <= / 1000 ->
  near_rot (405 / 100 * dl + 25 * uro) (q_to_rotation a) /\ near_rot (405 / 100 * dl + 25 * uro) (m33_transpose (q_to_rotation a)).
Proof. exact (c92_quaternion Hp11 He4). Qed.
Print Assumptions C92_quaternion.

End F.
#[local] Instance prec53 : Prec_gt_0 53 := eq_refl.
#[local] Instance emax1024 : Prec_lt_emax 53 1024 := eq_refl.
#[local] Notation f64 := (binary_float 53 1024).

(** [homogeneous_inverse_transform] multiplies the translation of the inverse matrix by zero. When that translation
    overflows the result is NaN, although the point is the origin of the moved frame and its image is zero *)
Theorem C92_inverse_transform_refuted : forall O : FOracle f64, exists (r : M33 f64) (t : V3 f64),
  is_rotation r = true /\ (forall k, (k < 3)%nat -> is_finite (vfun t k) = true) /\
  v3_sub t t = [| zero; zero; zero |] /\
  vfun (homogeneous_inverse_transform (homogeneous_from_rotation r t) t) 0 = B754_nan.
Proof. exact c92_inverse_transform_refuted. Qed.
Print Assumptions C92_inverse_transform_refuted.
