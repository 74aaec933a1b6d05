(** * PropsFloatExp: exponential, logarithm and square root of float quaternions (C103) *)

From Coq Require Import List Arith ZArith Reals Bool Lra Lia.
From Flocq Require Import Core Relative Sterbenz Mult_error IEEE754.BinarySingleNaN.
From Verif Require Import Base Scalar Vec Mat2 Mat3 Mat4 Mat5 Mat6 Slices MatLoops MatOps Quat Transf DualQuat RingDet Spec LoopFacts Entries InstZ InstR RFacts TrigFacts LUFacts QRFacts ProofsRing ProofsQuat ProofsRot ProofsRigid ProofsEuler ProofsSlerp InstF FloatFacts ProofsFloat ProofsFloat2 ProofsFloatErr ProofsFloatInv ProofsFloatNorm ProofsFloatRot ProofsFloatDrift ProofsFloatRigid ProofsFloatDQ ProofsFloatFromRot ProofsFloatRotH ProofsFloatQR ExpSeries ProofsExp ProofsFloatAngles ProofsFloatEuler ProofsFloatLog ProofsFloatScrew ProofsFloatSlerp ProofsFloatAxis.
From Verif Require Import ProofsFloatExp.
(** Concrete cases meeting the hypotheses: the Examples of ProofsFloatExp.v and of Cases.v. *)
Local Open Scope R_scope.

Section F.
Context {prec emax : Z} {Hp : Prec_gt_0 prec} {He : Prec_lt_emax prec emax} {O : FOracle (binary_float prec emax)}.
Notation fl := (binary_float prec emax).
Notation uro := (uro (prec := prec)).
Notation eta := (eta (prec := prec) (emax := emax)).
Hypothesis Hp11 : (11 <= prec)%Z.
Hypothesis He4 : (4 * prec <= emax)%Z.

(** ** the exponential *)
Theorem C103_exp : forall e tau rho (q : Quaternion fl) (d : V3 R) t, v3_dot d d = 1 -> Rabs t <= 7 / 2 -> (forall k, (k < 4)%nat -> is_finite (qcomp k q) = true) ->
  Rabs (B2R (qcomp 0 q)) <= rho -> rho <= / 10 -> sqrt (sumn 3 (fun k => (B2R (qcomp (S k) q) - t * vfun d k) ^ 2)) <= tau -> tau <= / 10 -> explog_ok e -> e <= / 50 ->
  close4 (4 * tau + 5 / 2 * rho + 5 * e + 62 * uro) (q_exp q) (polar d t).
Proof. exact (c103_exp Hp11 He4). Qed.
Print Assumptions C103_exp.

(** the logarithm: a real part near 0 and a vector part near the angle times the axis *)
Theorem C103_ln : forall e E (a : Quaternion fl) (u : V3 R) h, v3_dot u u = 1 -> 0 <= h <= PI -> close4 E a (polar u h) -> E <= / 60 -> explog_ok e -> e <= / 50 -> 0 < sin h ->
  is_finite (qcomp 0 (q_ln a)) = true /\ Rabs (B2R (qcomp 0 (q_ln a))) <= e + 112 / 100 * E + 72 / 10 * uro /\ closev ((15 * E + e + 110 * uro) / sin h) (Quat.q (q_ln a)) (v3_scale u h).
Proof. exact (c103_ln Hp11 He4). Qed.
Print Assumptions C103_ln.

(** the exponential of the logarithm gives the rotation back, whatever its angle *)
Theorem C103_exp_ln : forall e E (a : Quaternion fl) (u : V3 R) h, v3_dot u u = 1 -> 0 <= h <= PI -> close4 E a (polar u h) -> E <= / 60 -> explog_ok e -> e <= / 50 ->
  close4 (12 * E + 10 * e + 200 * uro) (q_exp (q_ln a)) (polar u h).
Proof. exact (c103_exp_ln Hp11 He4). Qed.
Print Assumptions C103_exp_ln.

Theorem C103_sqrt : forall e E (a : Quaternion fl) (u : V3 R) h, v3_dot u u = 1 -> 0 <= h <= PI -> close4 E a (polar u h) -> E <= / 60 -> explog_ok e -> e <= / 50 ->
  close4 (12 * E + 16 * e + 320 * uro) (q_mul (q_sqrt a) (q_sqrt a)) (polar u h).
Proof. exact (c103_sqrt Hp11 He4). Qed.
Print Assumptions C103_sqrt.

End F.
#[local] Existing Instance ProofsFloatAngles.prec53.
#[local] Existing Instance ProofsFloatAngles.emax1024.
#[local] Notation f64 := (binary_float 53 1024).
#[local] Notation u53 := (FloatFacts.uro (prec := 53)).

(** close to a whole turn ([cos h] near -1) the logarithm points along the first axis whatever the axis of the rotation is *)
Theorem C103_ln_refuted : forall O : FOracle f64, is_finite (fatan2 plus0 (neg one : f64)) = true -> Rabs (B2R (fatan2 plus0 (neg one : f64)) - PI) <= / 10 ->
  exists (a : Quaternion f64) (u : V3 R) h, v3_dot u u = 1 /\ 0 <= h <= PI /\ 0 < sin h /\ close4 (/ 10 ^ 100) a (polar u h) /\ ~ closev 1 (Quat.q (q_ln a)) (v3_scale u h).
Proof. exact c103_ln_refuted. Qed.
Print Assumptions C103_ln_refuted.
