(** * PropsFloatAxis: the axis and the angle of float quaternions (C102) *)

From Coq Require Import List Arith ZArith Reals Bool Lra Lia.
From Flocq Require Import Core Relative Sterbenz Mult_error IEEE754.BinarySingleNaN.
From Verif Require Import Base Scalar Vec Mat2 Mat3 Mat4 Mat5 Mat6 Slices MatLoops MatOps Quat Transf DualQuat RingDet Spec LoopFacts Entries InstZ InstR RFacts TrigFacts LUFacts QRFacts ProofsRing ProofsQuat ProofsRot ProofsRigid ProofsEuler ProofsSlerp InstF FloatFacts ProofsFloat ProofsFloat2 ProofsFloatErr ProofsFloatInv ProofsFloatNorm ProofsFloatRot ProofsFloatDrift ProofsFloatRigid ProofsFloatDQ ProofsFloatFromRot ProofsFloatRotH ProofsFloatQR ExpSeries ProofsExp ProofsFloatAngles ProofsFloatEuler ProofsFloatLog ProofsFloatScrew ProofsFloatSlerp.
From Verif Require Import ProofsFloatAxis.
(** Concrete cases meeting the hypotheses: the Examples of ProofsFloatAxis.v and of Cases.v. *)
Local Open Scope R_scope.

Section F.
Context {prec emax : Z} {Hp : Prec_gt_0 prec} {He : Prec_lt_emax prec emax} {O : FOracle (binary_float prec emax)}.
Notation fl := (binary_float prec emax).
Notation uro := (uro (prec := prec)).
Notation eta := (eta (prec := prec) (emax := emax)).
Hypothesis Hp11 : (11 <= prec)%Z.
Hypothesis He4 : (4 * prec <= emax)%Z.

Theorem C102_angle : forall e E (a : Quaternion fl) (u : V3 R) h, v3_dot u u = 1 -> 0 <= h <= PI -> close4 E a (polar u h) -> E <= / 25 -> atan_ok e -> e <= / 25 ->
  is_finite (q_get_angle a) = true /\ Rabs (B2R (q_get_angle a) - 2 * h) <= 22 / 10 * E + 2 * e + 18 * uro.
Proof. exact (c102_angle Hp11 He4). Qed.
Print Assumptions C102_angle.

Theorem C102_axis : forall e E (a : Quaternion fl) (u : V3 R) h, v3_dot u u = 1 -> 0 <= h <= PI -> close4 E a (polar u h) -> atan_ok e -> 250 * (E + e + 5 * uro) <= sin h ->
  exists ax, q_get_axis a = Some ax /\ closev ((5 * E + 3 * e + 25 * uro) / sin h) ax u.
Proof. exact (c102_axis Hp11 He4). Qed.
Print Assumptions C102_axis.

(** ** the rotation of the extracted angle and axis *)
Theorem C102_round_trip : forall e E (a : Quaternion fl) (u : V3 R) h, v3_dot u u = 1 -> 0 <= h <= PI -> close4 E a (polar u h) -> atan_ok e -> 250 * (E + e + 5 * uro) <= sin h ->
  exists ax q, q_axis_angle a = (Some ax, q_get_angle a) /\ q_rotation (q_get_angle a) ax = Ok q /\ normalized q = true /\ close4 (13 * E + 10 * e + 75 * uro) q (polar u h).
Proof. exact (c102_round_trip Hp11 He4). Qed.
Print Assumptions C102_round_trip.

End F.
#[local] Existing Instance ProofsFloatAngles.prec53.
#[local] Existing Instance ProofsFloatAngles.emax1024.
#[local] Notation f64 := (binary_float 53 1024).
#[local] Notation u53 := (FloatFacts.uro (prec := 53)).

(** a quaternion of a small turn about the first axis has no axis, and its angle is zero *)
Theorem C102_small_refuted : forall O : FOracle f64, fatan2 plus0 (one : f64) = plus0 -> fsin plus0 = plus0 ->
  exists a : Quaternion f64, close4 (/ 10 ^ 100) a (polar [| 1; 0; 0 |] (/ 2 ^ 600)) /\ 0 < B2R (qcomp 1 a) /\ q_axis_angle a = (None, plus0).
Proof. exact c102_small_refuted. Qed.
Print Assumptions C102_small_refuted.
