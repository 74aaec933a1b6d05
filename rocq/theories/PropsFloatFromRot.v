(** * PropsFloatFromRot: from rotation matrices to quaternions on floats (C95) *)

From Coq Require Import List Arith ZArith Reals Bool Lra Lia.
From Flocq Require Import Core Relative Sterbenz Mult_error IEEE754.BinarySingleNaN.
From Verif Require Import Base Scalar Vec Mat2 Mat3 Mat4 Mat5 Mat6 Slices MatLoops MatOps Quat Transf DualQuat RingDet Spec LoopFacts Entries InstZ InstR RFacts LUFacts QRFacts ProofsRing ProofsQuat ProofsRot InstF FloatFacts ProofsFloat ProofsFloat2 ProofsFloatErr ProofsFloatInv ProofsFloatNorm ProofsFloatRot ProofsFloatDrift ProofsFloatDQ.
From Verif Require Import ProofsFloatFromRot.
(** Concrete cases meeting the hypotheses: the Examples of ProofsFloatFromRot.v and of Cases.v. *)
Local Open Scope R_scope.

Section F.
Context {prec emax : Z} {Hp : Prec_gt_0 prec} {He : Prec_lt_emax prec emax} {O : FOracle (binary_float prec emax)}.
Notation fl := (binary_float prec emax).
Notation uro := (uro (prec := prec)).
Notation eta := (eta (prec := prec) (emax := emax)).
Hypothesis Hp11 : (11 <= prec)%Z.
Hypothesis He4 : (4 * prec <= emax)%Z.

Theorem C95_from_rotation : forall (m : M33 fl) (r : M33 R) e, SO3 r -> e <= / 100 ->
  (forall i j, (i < 3)%nat -> (j < 3)%nat -> is_finite (mfun m i j) = true /\ Rabs (B2R (mfun m i j) - mfun r i j) <= e) ->
  exists A : Quaternion R, unit_quat A /\ q_to_rotation A = r /\
  forall k, (k < 4)%nat -> is_finite (qcomp k (q_from_rotation m)) = true /\ Rabs (B2R (qcomp k (q_from_rotation m)) - qcomp k A) <= 312 / 100 * e + 116 / 10 * uro.
Proof. exact (c95_from_rotation Hp11 He4). Qed.
Print Assumptions C95_from_rotation.

(** matrix to quaternion to matrix *)
Theorem C95_matrix_round_trip : forall (m : M33 fl) (r : M33 R) e, SO3 r -> 7 * e + 24 * uro <= / 220 ->
  (forall i j, (i < 3)%nat -> (j < 3)%nat -> is_finite (mfun m i j) = true /\ Rabs (B2R (mfun m i j) - mfun r i j) <= e) ->
  near_unit (7 * e + 24 * uro) (q_from_rotation m) /\
  forall i j, (i < 3)%nat -> (j < 3)%nat -> is_finite (mfun (q_to_rotation (q_from_rotation m)) i j) = true /\
  Rabs (B2R (mfun (q_to_rotation (q_from_rotation m)) i j) - B2R (mfun m i j)) <= 15 * e + 52 * uro.
Proof. exact (c95_matrix_round_trip Hp11 He4). Qed.
Print Assumptions C95_matrix_round_trip.

(** quaternion to matrix to quaternion, up to the sign *)
Theorem C95_quaternion_round_trip : forall dl (a : Quaternion fl), near_unit dl a -> dl <= / 300 ->
  exists s, (s = 1 \/ s = -1) /\ forall k, (k < 4)%nat -> is_finite (qcomp k (q_from_rotation (q_to_rotation a))) = true /\
  Rabs (B2R (qcomp k (q_from_rotation (q_to_rotation a))) - s * B2R (qcomp k a)) <= 73 / 10 * dl + 25 * uro.
Proof. exact (c95_quaternion_round_trip Hp11 He4). Qed.
Print Assumptions C95_quaternion_round_trip.

Theorem C95_new_from_homogeneous : forall (m : M44 fl) (r : M33 R) e, SO3 r -> e <= / 200 ->
  (forall i j, (i < 3)%nat -> (j < 3)%nat -> is_finite (mfun m i j) = true /\ Rabs (B2R (mfun m i j) - mfun r i j) <= e) ->
  (forall i, (i < 3)%nat -> is_finite (mfun m i 3) = true /\ Rabs (B2R (mfun m i 3)) <= bpow radix2 (emax - 12)) ->
  exists D (A : Quaternion R), dq_new_from_homogeneous m = Ok D /\ unit_quat A /\ q_to_rotation A = r /\ near_unit (9 * uro) (dq_real D) /\
  (forall k, (k < 4)%nat -> Rabs (B2R (qcomp k (dq_real D)) - qcomp k A) <= 94 / 10 * e + 41 * uro) /\
  (forall i, (i < 3)%nat -> is_finite (vfun (dq_get_translation D) i) = true) /\
  nrm 3 (fun i => B2R (vfun (dq_get_translation D) i) - B2R (mfun m i 3)) <= 36 * uro * nrm 3 (fun i => B2R (mfun m i 3)) + 35 * eta.
Proof. exact (c95_new_from_homogeneous Hp11 He4). Qed.
Print Assumptions C95_new_from_homogeneous.

End F.
