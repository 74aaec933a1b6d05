(** * PropsFloatAdj: the adjoint of float rigid motions (C106) *)

From Coq Require Import List Arith ZArith Reals Bool Lra Lia.
From Flocq Require Import Core Relative Sterbenz Mult_error IEEE754.BinarySingleNaN.
From Verif Require Import Base Scalar Vec Mat2 Mat3 Mat4 Mat5 Mat6 Slices MatLoops MatOps Quat Transf DualQuat RingDet Spec LoopFacts Entries InstZ InstR RFacts TrigFacts LUFacts QRFacts ProofsRing ProofsQuat ProofsRot ProofsRigid ProofsEuler ProofsSlerp ProofsQuatR InstF FloatFacts ProofsFloat ProofsFloat2 ProofsFloatErr ProofsFloatInv ProofsFloatNorm ProofsFloatRot ProofsFloatDrift ProofsFloatRigid ProofsFloatDQ ProofsFloatFromRot ProofsFloatRotH ProofsFloatQR ExpSeries ProofsExp ProofsFloatAngles ProofsFloatChain ProofsFloatEuler ProofsFloatLog.
From Verif Require Import ProofsFloatAdj.
(** Concrete cases meeting the hypotheses: the Examples of ProofsFloatAdj.v and of Cases.v. *)
Local Open Scope R_scope.

Section F.
Context {prec emax : Z} {Hp : Prec_gt_0 prec} {He : Prec_lt_emax prec emax} {O : FOracle (binary_float prec emax)}.
Notation fl := (binary_float prec emax).
Notation uro := (uro (prec := prec)).
Notation eta := (eta (prec := prec) (emax := emax)).
Hypothesis Hp11 : (11 <= prec)%Z.
Hypothesis He4 : (4 * prec <= emax)%Z.

Theorem C106_adjoint : forall E D (M : M44 fl) (A : M44 R), SE3 A -> closeH E D M A -> E <= / 100 -> tlen A + D <= bpow radix2 (emax - 10) ->
  exists X Y, adjoint M = Ok X /\ adjoint A = Ok Y /\
  (forall i j, (i < 6)%nat -> (j < 6)%nat -> is_finite (mfun X i j) = true) /\
  (forall i j, (i < 3)%nat -> (j < 3)%nat -> B2R (mfun X i (3 + j)) = 0 /\ mfun Y i (3 + j) = 0 /\
     mfun X (3 + i) (3 + j) = mfun X i j /\ mfun Y (3 + i) (3 + j) = mfun Y i j) /\
  sqrt (sumn 3 (fun i => sumn 3 (fun j => (B2R (mfun X i j) - mfun Y i j) ^ 2))) <= E /\
  sqrt (sumn 3 (fun i => sumn 3 (fun j => (B2R (mfun X (3 + i) j) - mfun Y (3 + i) j) ^ 2))) <= 1415 / 1000 * (D + E * (tlen A + D)) + 75 / 10 * uro * (tlen A + D) + 12 * eta.
Proof. exact (c106_adjoint Hp11 He4). Qed.
Print Assumptions C106_adjoint.

Theorem C106_twist : forall E D (M : M44 fl) (A : M44 R) (x : V6 fl) (x' : V6 R) X Y, SE3 A -> closeH E D M A -> E <= / 100 -> tlen A + D <= bpow radix2 (emax - 10) ->
  adjoint M = Ok X -> adjoint A = Ok Y -> (forall k, (k < 6)%nat -> vfun x' k = B2R (vfun x k)) ->
  (forall i, (i < 6)%nat -> is_finite (vfun (m66_mul_v X x) i) = true) ->
  let e := fun i => B2R (vfun (m66_mul_v X x) i) - vfun (m66_mul_v Y x') i in
  let w := part3 (vfun x') 0 in let v := part3 (vfun x') 3 in let K := 1415 / 1000 * (D + E * (tlen A + D)) + 75 / 10 * uro * (tlen A + D) + 12 * eta in
  part3 e 0 <= (E + 106 / 10 * uro) * w + 105 / 10 * eta /\
  part3 e 3 <= (E + 106 / 10 * uro) * v + (K + 605 / 100 * uro * (1415 / 1000 * tlen A + K)) * w + 105 / 10 * eta.
Proof. exact (c106_twist Hp11 He4). Qed.
Print Assumptions C106_twist.

End F.
