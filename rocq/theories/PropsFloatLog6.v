(** * PropsFloatLog6: the logarithm of float rigid motions (C105) *)

From Coq Require Import List Arith ZArith Reals Bool Lra Lia.
From Flocq Require Import Core Relative Sterbenz Mult_error IEEE754.BinarySingleNaN.
From Verif Require Import Base Scalar Vec Mat2 Mat3 Mat4 Mat5 Mat6 Slices MatLoops MatOps Quat Transf DualQuat RingDet Spec LoopFacts Entries InstZ InstR RFacts TrigFacts LUFacts QRFacts ProofsRing ProofsQuat ProofsRot ProofsRigid ProofsEuler ProofsSlerp ProofsQuatR InstF FloatFacts ProofsFloat ProofsFloat2 ProofsFloatErr ProofsFloatInv ProofsFloatNorm ProofsFloatRot ProofsFloatDrift ProofsFloatRigid ProofsFloatDQ ProofsFloatFromRot ProofsFloatRotH ProofsFloatQR ExpSeries ProofsExp ProofsFloatAngles ProofsFloatChain ProofsFloatEuler ProofsFloatLog ProofsFloatScrew ProofsFloatSlerp ProofsFloatAxis ProofsFloatExp ProofsFloatTwist.
From Verif Require Import ProofsFloatLog6.
(** Concrete cases meeting the hypotheses: the Examples of ProofsFloatLog6.v and of Cases.v. *)
Local Open Scope R_scope.

Section F.
Context {prec emax : Z} {Hp : Prec_gt_0 prec} {He : Prec_lt_emax prec emax} {O : FOracle (binary_float prec emax)}.
Notation fl := (binary_float prec emax).
Notation uro := (uro (prec := prec)).
Notation eta := (eta (prec := prec) (emax := emax)).
Hypothesis Hp11 : (11 <= prec)%Z.
Hypothesis He4 : (4 * prec <= emax)%Z.

Theorem C105_regular_partial : forall e E D (M : M44 fl) (a p : V3 R) t, v3_dot a a = 1 -> 0 < t < PI -> let A := homogeneous_from_rotation (rodrigues a t) p in
  closeH E D M A -> acos_ok e -> tan_ok e -> 100 * (E + e + 5 * uro) <= sin t * sin t ->
  let d := (16 * E + 13 * e + 60 * uro) / (sin t * sin t) in 10 * d <= t -> tlen A + D <= bpow radix2 (emax - 12) ->
  exists v : V3 R, is_mexp 4 (mfun (twist_to_se3 (tw (v3_scale a t) v))) (mfun A) /\
  closeT d (61 / 10 * d * (tlen A + D) + 77 / 10 * D + 7 * eta) (matrix_log6 M) (twist_to_se3 (tw (v3_scale a t) v)).
Proof. exact (c105_regular_partial Hp11 He4). Qed.
Print Assumptions C105_regular_partial.

End F.
#[local] Existing Instance ProofsFloatAngles.prec53.
#[local] Existing Instance ProofsFloatAngles.emax1024.
#[local] Notation f64 := (binary_float 53 1024).
#[local] Notation u53 := (FloatFacts.uro (prec := 53)).

Theorem C105_half_turn_refuted : exists (M : M44 f64) (A : M44 R), SE3 A /\ closeH (4 * u53) 0 M A /\
  forall (O : FOracle f64) e, acos_ok (O := O) e -> e <= / 10 ^ 9 ->
  (forall i j, (i < 3)%nat -> (j < 3)%nat -> B2R (mfun (matrix_log6 M) i j) = 0) /\
  forall (b v : V3 R) D, is_mexp 4 (mfun (twist_to_se3 (tw b v))) (mfun A) -> ~ closeT 2 D (matrix_log6 M) (twist_to_se3 (tw b v)).
Proof. exact c105_half_turn_refuted. Qed.
Print Assumptions C105_half_turn_refuted.
