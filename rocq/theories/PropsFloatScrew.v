(** * PropsFloatScrew: powers and screw interpolation of float dual quaternions (C100) *)

From Coq Require Import List Arith ZArith Reals Bool Lra Lia.
From Flocq Require Import Core Relative Sterbenz Mult_error IEEE754.BinarySingleNaN.
From Verif Require Import Base Scalar Vec Mat2 Mat3 Mat4 Mat5 Mat6 Slices MatLoops MatOps Quat Transf DualQuat RingDet Spec LoopFacts Entries InstZ InstR RFacts TrigFacts LUFacts QRFacts ProofsRing ProofsQuat ProofsRot ProofsRigid ProofsEuler InstF FloatFacts ProofsFloat ProofsFloat2 ProofsFloatErr ProofsFloatInv ProofsFloatNorm ProofsFloatRot ProofsFloatDrift ProofsFloatRigid ProofsFloatDQ ProofsFloatFromRot ProofsFloatRotH ProofsFloatQR ExpSeries ProofsExp ProofsFloatAngles ProofsFloatEuler ProofsFloatLog.
From Verif Require Import ProofsFloatScrew.
(** Concrete cases meeting the hypotheses: the Examples of ProofsFloatScrew.v and of Cases.v. *)
Local Open Scope R_scope.

Section F.
Context {prec emax : Z} {Hp : Prec_gt_0 prec} {He : Prec_lt_emax prec emax} {O : FOracle (binary_float prec emax)}.
Notation fl := (binary_float prec emax).
Notation uro := (uro (prec := prec)).
Notation eta := (eta (prec := prec) (emax := emax)).
Hypothesis Hp11 : (11 <= prec)%Z.
Hypothesis He4 : (4 * prec <= emax)%Z.

Theorem C100_pow_nan : forall (a : DualQuaternion fl) x, nan_math -> is_finite (qcomp 0 (dq_real a)) = true -> 1 < Rabs (B2R (qcomp 0 (dq_real a))) -> all_nan (dq_pow a x).
Proof. exact c100_pow_nan. Qed.
Print Assumptions C100_pow_nan.

Theorem C100_pow_rotation_partial : forall e E (a : DualQuaternion fl) (x : fl) (u : V3 R) h, v3_dot u u = 1 -> 0 < h < PI -> close4 E (dq_real a) (polar u h) -> acos_ok e ->
  is_finite x = true -> Rabs (B2R x) <= 1 -> 100 * (E + e + 5 * uro) <= sin h * sin h ->
  close4 ((5 * E + 7 * e + 24 * uro) / (sin h * sin h)) (dq_real (dq_pow a x)) (polar u (B2R x * h)).
Proof. exact (c100_pow_rotation_partial Hp11 He4). Qed.
Print Assumptions C100_pow_rotation_partial.

End F.
#[local] Instance prec53 : Prec_gt_0 53 := eq_refl.
#[local] Instance emax1024 : Prec_lt_emax 53 1024 := eq_refl.
#[local] Notation f64 := (binary_float 53 1024).
#[local] Notation u53 := (FloatFacts.uro (prec := 53)).

Theorem C100_screw_lerp_refuted : forall O : FOracle f64, nan_math -> exists (rot : Quaternion f64) (t : V3 f64) (D : DualQuaternion f64),
  dq_new_from_rot_trans rot t = Ok D /\ dq_is_normalized D = true
  /\ (forall k, (k < 4)%nat -> is_finite (qcomp k (dq_real D)) = true /\ is_finite (qcomp k (dq_dual D)) = true)
  /\ forall tau, exists r, dq_screw_lerp D D tau = Ok r /\ all_nan r.
Proof. exact c100_screw_lerp_refuted. Qed.
Print Assumptions C100_screw_lerp_refuted.
