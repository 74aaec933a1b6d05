(** * PropsFloatEuler: Euler angles of float rotation matrices (C98) *)

From Coq Require Import List Arith ZArith Reals Bool Lra Lia.
From Flocq Require Import Core Relative Sterbenz Mult_error IEEE754.BinarySingleNaN.
From Verif Require Import Base Scalar Vec Mat2 Mat3 Mat4 Mat5 Mat6 Slices MatLoops MatOps Quat Transf DualQuat RingDet Spec LoopFacts Entries InstZ InstR RFacts TrigFacts LUFacts QRFacts ProofsRing ProofsQuat ProofsRot ProofsRigid ProofsEuler InstF FloatFacts ProofsFloat ProofsFloat2 ProofsFloatErr ProofsFloatInv ProofsFloatNorm ProofsFloatRot ProofsFloatDrift ProofsFloatRigid ProofsFloatDQ ProofsFloatFromRot ProofsFloatRotH ProofsFloatQR ExpSeries ProofsExp ProofsFloatAngles.
From Verif Require Import ProofsFloatEuler.
(** Concrete cases meeting the hypotheses: the Examples of ProofsFloatEuler.v and of Cases.v. *)
Local Open Scope R_scope.

Section F.
Context {prec emax : Z} {Hp : Prec_gt_0 prec} {He : Prec_lt_emax prec emax} {O : FOracle (binary_float prec emax)}.
Notation fl := (binary_float prec emax).
Notation uro := (uro (prec := prec)).
Notation eta := (eta (prec := prec) (emax := emax)).
Hypothesis Hp11 : (11 <= prec)%Z.
Hypothesis He4 : (4 * prec <= emax)%Z.

Theorem C98_regular_partial : forall e E (m : M33 fl) (r : M33 R), math_ok e -> e <= / 800 -> SO3 r -> close3 E m r -> 20 * (E + uro + e) <= cos_pitch r ->
  close3 (9 * E / cos_pitch r + 29 * uro + 13 * e) (rebuilt_f m) r.
Proof. exact (c98_regular_partial Hp11 He4). Qed.
Print Assumptions C98_regular_partial.

(** with the gimbal lock test positive *)
Theorem C98_lock : forall e E (m : M33 fl) (r : M33 R), math_ok e -> e <= / 800 -> SO3 r -> close3 E m r -> E <= / 100 ->
  (let p := snd (fst (rotation_to_euler m)) in nearly_equal p FRAC_PI_2 epsilon = true \/ nearly_equal p (mul (neg one) FRAC_PI_2) epsilon = true) ->
  close3 (18 * E + 125 * uro + 26 * e) (rebuilt_f m) r.
Proof. exact (c98_lock Hp11 He4). Qed.
Print Assumptions C98_lock.

(** the angles of a float quaternion *)
Theorem C98_quaternion_partial : forall e E (a : Quaternion fl) (A : Quaternion R), math_ok e -> e <= / 800 -> unit_quat A -> close4 E a A -> E <= / 220 ->
  20 * (61 / 10 * E + 14 * uro + e) <= cos_pitch (q_to_rotation A) ->
  let '(y, p, q) := q_to_euler_angles a in close3 ((55 * E + 111 * uro) / cos_pitch (q_to_rotation A) + 29 * uro + 13 * e) (euler_to_rotation y p q None) (q_to_rotation A).
Proof. exact (c98_quaternion_partial Hp11 He4). Qed.
Print Assumptions C98_quaternion_partial.

End F.
#[local] Instance prec53 : Prec_gt_0 53 := eq_refl.
#[local] Instance emax1024 : Prec_lt_emax 53 1024 := eq_refl.
#[local] Notation f64 := (binary_float 53 1024).
#[local] Notation u53 := (FloatFacts.uro (prec := 53)).

(** with any accurate math library the angles of this quaternion describe another rotation *)
Theorem C98_round_trip_refuted : forall O : FOracle f64, math_ok (O := O) (21 / 10 * u53) ->
  exists a : Quaternion f64, near_unit u53 a /\
  let '(y, p, q) := q_to_euler_angles a in / 10 <= Rabs (B2R (mfun (euler_to_rotation y p q None) 1 1) - B2R (mfun (q_to_rotation a) 1 1)).
Proof. exact c98_round_trip_refuted. Qed.
Print Assumptions C98_round_trip_refuted.
