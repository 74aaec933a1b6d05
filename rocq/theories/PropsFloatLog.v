(** * PropsFloatLog: the logarithm of float rotation matrices (C99) *)

From Coq Require Import List Arith ZArith Reals Bool Lra Lia.
From Flocq Require Import Core Relative Sterbenz Mult_error IEEE754.BinarySingleNaN.
From Verif Require Import Base Scalar Vec Mat2 Mat3 Mat4 Mat5 Mat6 Slices MatLoops MatOps Quat Transf DualQuat RingDet Spec LoopFacts Entries InstZ InstR RFacts TrigFacts LUFacts QRFacts ProofsRing ProofsQuat ProofsRot ProofsRigid ProofsEuler InstF FloatFacts ProofsFloat ProofsFloat2 ProofsFloatErr ProofsFloatInv ProofsFloatNorm ProofsFloatRot ProofsFloatDrift ProofsFloatRigid ProofsFloatDQ ProofsFloatFromRot ProofsFloatRotH ProofsFloatQR ExpSeries ProofsExp ProofsFloatAngles ProofsFloatEuler.
From Verif Require Import ProofsFloatLog.
(** Concrete cases meeting the hypotheses: the Examples of ProofsFloatLog.v and of Cases.v. *)
Local Open Scope R_scope.

Section F.
Context {prec emax : Z} {Hp : Prec_gt_0 prec} {He : Prec_lt_emax prec emax} {O : FOracle (binary_float prec emax)}.
Notation fl := (binary_float prec emax).
Notation uro := (uro (prec := prec)).
Notation eta := (eta (prec := prec) (emax := emax)).
Hypothesis Hp11 : (11 <= prec)%Z.
Hypothesis He4 : (4 * prec <= emax)%Z.

Theorem C99_regular_partial : forall e E (m : M33 fl) (a : V3 R) t, v3_dot a a = 1 -> 0 < t < PI -> close3 E m (rodrigues a t) -> acos_ok e ->
  100 * (E + e + 5 * uro) <= sin t * sin t ->
  close3 ((16 * E + 13 * e + 60 * uro) / (sin t * sin t)) (matrix_log m) (skew_from_vec (v3_scale a t)).
Proof. exact (c99_regular_partial Hp11 He4). Qed.
Print Assumptions C99_regular_partial.

Theorem C99_exp_log_partial : forall e E (m : M33 fl) (a : V3 R) t, v3_dot a a = 1 -> 0 < t < PI -> close3 E m (rodrigues a t) -> acos_ok e ->
  100 * (E + e + 5 * uro) <= sin t * sin t -> let d := (16 * E + 13 * e + 60 * uro) / (sin t * sin t) in 1000 * d <= t ->
  exists m', matrix_exponential (matrix_log m) = Ok m' /\ close3 (33 * d / t) m' (rodrigues a t).
Proof. exact (c99_exp_log_partial Hp11 He4). Qed.
Print Assumptions C99_exp_log_partial.

End F.
#[local] Instance prec53 : Prec_gt_0 53 := eq_refl.
#[local] Instance emax1024 : Prec_lt_emax 53 1024 := eq_refl.
#[local] Notation f64 := (binary_float 53 1024).
#[local] Notation u53 := (FloatFacts.uro (prec := 53)).

Theorem C99_half_turn_refuted : exists (m : M33 f64) (a : V3 R), v3_dot a a = 1 /\ close3 (4 * u53) m (rodrigues a PI) /\
  forall (O : FOracle f64) e, acos_ok (O := O) e -> e <= / 10 ^ 9 ->
  (forall i j, (i < 3)%nat -> (j < 3)%nat -> B2R (mfun (matrix_log m) i j) = 0) /\
  forall b : V3 R, is_mexp 3 (mfun (skew_from_vec b)) (mfun (rodrigues a PI)) -> ~ close3 2 (matrix_log m) (skew_from_vec b).
Proof. exact c99_half_turn_refuted. Qed.
Print Assumptions C99_half_turn_refuted.

Theorem C99_small_refuted : exists (m : M33 f64) (a : V3 R) t, v3_dot a a = 1 /\ 0 < t < PI /\ close3 u53 m (rodrigues a t) /\
  forall O : FOracle f64, matrix_log m = m33_zeros /\ ~ close3 (10 ^ 7 * u53) (matrix_log m) (skew_from_vec (v3_scale a t)).
Proof. exact c99_small_refuted. Qed.
Print Assumptions C99_small_refuted.
