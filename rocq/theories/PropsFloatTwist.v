(** * PropsFloatTwist: the exponential of float twists (C104) *)

From Coq Require Import List Arith ZArith Reals Bool Lra Lia.
From Flocq Require Import Core Relative Sterbenz Mult_error IEEE754.BinarySingleNaN.
From Verif Require Import Base Scalar Vec Mat2 Mat3 Mat4 Mat5 Mat6 Slices MatLoops MatOps Quat Transf DualQuat RingDet Spec LoopFacts Entries InstZ InstR RFacts TrigFacts LUFacts QRFacts ProofsRing ProofsQuat ProofsRot ProofsRigid ProofsEuler ProofsSlerp InstF FloatFacts ProofsFloat ProofsFloat2 ProofsFloatErr ProofsFloatInv ProofsFloatNorm ProofsFloatRot ProofsFloatDrift ProofsFloatRigid ProofsFloatDQ ProofsFloatFromRot ProofsFloatRotH ProofsFloatQR ExpSeries ProofsExp ProofsFloatAngles ProofsFloatChain ProofsFloatEuler ProofsFloatLog ProofsFloatScrew ProofsFloatSlerp ProofsFloatAxis ProofsFloatExp.
From Verif Require Import ProofsFloatTwist.
(** Concrete cases meeting the hypotheses: the Examples of ProofsFloatTwist.v and of Cases.v. *)
Local Open Scope R_scope.

Section F.
Context {prec emax : Z} {Hp : Prec_gt_0 prec} {He : Prec_lt_emax prec emax} {O : FOracle (binary_float prec emax)}.
Notation fl := (binary_float prec emax).
Notation uro := (uro (prec := prec)).
Notation eta := (eta (prec := prec) (emax := emax)).
Hypothesis Hp11 : (11 <= prec)%Z.
Hypothesis He4 : (4 * prec <= emax)%Z.

Theorem C104_exponential6 : forall e (w v : V3 fl), norm_ok w -> nearly_zero (v3_norm2 w) = false -> trig_ok e (v3_norm2 w) -> len3 w <= 7 -> e + 28 / 10 * uro * len3 w <= / 250 ->
  (forall k, (k < 3)%nat -> is_finite (vfun v k) = true) -> len3 v <= len3 w * bpow radix2 (emax - 12) ->
  exists (m : M44 fl) (A : M44 R), matrix_exponential6 (twist_to_se3 (tw w v)) = Ok m /\
  is_mexp 4 (mfun (twist_to_se3 (tw [| B2R (vfun w 0); B2R (vfun w 1); B2R (vfun w 2) |] [| B2R (vfun v 0); B2R (vfun v 1); B2R (vfun v 2) |]))) (mfun A) /\ SE3 A /\
  closeH (29 / 10 * e + 82 / 10 * uro * len3 w + 66 * uro) (((3 * e + 480 * uro) * len3 v + 8 * eta) / len3 w + 24 * uro * len3 v + 2 * eta) m A.
Proof. exact (c104_exponential6 Hp11 He4). Qed.
Print Assumptions C104_exponential6.

(** ** turns taken for translations *)
Theorem C104_translation_refuted : forall w v : V3 fl, nearly_zero (v3_norm2 w) = true ->
  exists m : M44 fl, matrix_exponential6 (twist_to_se3 (tw w v)) = Ok m /\ forall E D (A : M44 R), SE3 A -> closeH E D m A -> 4 / 10 <= E.
Proof. exact c104_translation_refuted. Qed.
Print Assumptions C104_translation_refuted.

End F.
#[local] Existing Instance ProofsFloatAngles.prec53.
#[local] Existing Instance ProofsFloatAngles.emax1024.
#[local] Notation f64 := (binary_float 53 1024).

Theorem C104_small_refuted : forall O : FOracle f64, fcos p27 = one -> fsin p27 = p27 ->
  let w := [| p27; zero; zero |] : V3 f64 in let v := [| zero; one; zero |] : V3 f64 in
  norm_ok w /\ nearly_zero (v3_norm2 w) = false /\
  exists m, matrix_exponential6 (twist_to_se3 (tw w v)) = Ok m /\
  forall E D (A : M44 R), is_mexp 4 (mfun (twist_to_se3 (tw [| B2R (vfun w 0); B2R (vfun w 1); B2R (vfun w 2) |] [| B2R (vfun v 0); B2R (vfun v 1); B2R (vfun v 2) |]))) (mfun A) ->
  closeH E D m A -> 1000000 * FloatFacts.uro (prec := 53) <= D.
Proof. exact c104_small_refuted. Qed.
Print Assumptions C104_small_refuted.
