(** * PropsFloatChain: chains of float rigid motions (C97) *)

From Coq Require Import List Arith ZArith Reals Bool Lra Lia.
From Flocq Require Import Core Relative Sterbenz Mult_error IEEE754.BinarySingleNaN.
From Verif Require Import Base Scalar Vec Mat2 Mat3 Mat4 Mat5 Mat6 Slices MatLoops MatOps Quat Transf DualQuat RingDet Spec LoopFacts Entries InstZ InstR RFacts LUFacts QRFacts ProofsRing ProofsQuat ProofsRot ProofsRigid InstF FloatFacts ProofsFloat ProofsFloat2 ProofsFloatErr ProofsFloatInv ProofsFloatNorm ProofsFloatRot ProofsFloatDrift ProofsFloatRigid ProofsFloatDQ ProofsFloatFromRot ProofsFloatQR ExpSeries ProofsExp ProofsFloatAngles.
From Verif Require Import ProofsFloatChain.
(** Concrete cases meeting the hypotheses: the Examples of ProofsFloatChain.v and of Cases.v. *)
Local Open Scope R_scope.

Section F.
Context {prec emax : Z} {Hp : Prec_gt_0 prec} {He : Prec_lt_emax prec emax} {O : FOracle (binary_float prec emax)}.
Notation fl := (binary_float prec emax).
Notation uro := (uro (prec := prec)).
Notation eta := (eta (prec := prec) (emax := emax)).
Hypothesis Hp11 : (11 <= prec)%Z.
Hypothesis He4 : (4 * prec <= emax)%Z.

(** ** one product *)
Theorem C97_compose : forall (M N : M44 fl) (A B : M44 R) E D E' D', SE3 A -> SE3 B -> closeH E D M A -> closeH E' D' N B -> E <= / 100 -> E' <= / 100 ->
  tlen A + D <= bpow radix2 (emax - 10) -> tlen B + D' <= bpow radix2 (emax - 10) ->
  closeH (E + E' + E * E' + 123 / 10 * uro) (D + D' + E * (tlen B + D') + 7 * uro * (tlen A + D + tlen B + D') + 9 * eta) (m44_mul M N) (m44_mul A B).
Proof. exact (c97_compose Hp11 He4). Qed.
Print Assumptions C97_compose.

(** ** a point *)
Theorem C97_apply : forall E D (M : M44 fl) (A : M44 R) (p : V3 fl), SE3 A -> closeH E D M A -> E <= / 100 -> tlen A + D <= bpow radix2 (emax - 10) ->
  (forall i, (i < 3)%nat -> is_finite (vfun p i) = true /\ Rabs (B2R (vfun p i)) <= bpow radix2 (emax - 10)) ->
  let P := [| B2R (vfun p 0); B2R (vfun p 1); B2R (vfun p 2) |] in let x := m44_mul_v M (point p) in let X := m44_mul_v A (point P) in
  (forall i, (i < 4)%nat -> is_finite (vfun x i) = true) /\ B2R (vfun x 3) = 1 /\
  sqrt (sumn 3 (fun i => (B2R (vfun x i) - vfun X i) ^ 2)) <= D + E * sqrt (sumn 3 (fun i => B2R (vfun p i) ^ 2)) + 7 * uro * (tlen A + D + sqrt (sumn 3 (fun i => B2R (vfun p i) ^ 2))) + 9 * eta.
Proof. exact (c97_apply Hp11 He4). Qed.
Print Assumptions C97_apply.

(** ** a matrix assembled from a rotation and a translation *)
Theorem C97_from_rotation : forall E D (m : M33 fl) (r : M33 R) (t : V3 fl) (T : V3 R), SO3 r -> close3 E m r -> (forall i, (i < 3)%nat -> is_finite (vfun t i) = true) ->
  sqrt (sumn 3 (fun i => (B2R (vfun t i) - vfun T i) ^ 2)) <= D ->
  SE3 (homogeneous_from_rotation r T) /\ closeH E D (homogeneous_from_rotation m t) (homogeneous_from_rotation r T).
Proof. exact c97_from_rotation. Qed.
Print Assumptions C97_from_rotation.

(** ** the inverse *)
Theorem C97_inverse : forall E D (M : M44 fl) (A : M44 R), SE3 A -> closeH E D M A -> E <= / 100 -> tlen A + D <= bpow radix2 (emax - 10) ->
  SE3 (homogeneous_inverse A) /\ tlen (homogeneous_inverse A) = tlen A /\
  closeH E (D + E * (tlen A + D) + 53 / 10 * uro * (tlen A + D) + 7 * eta) (homogeneous_inverse M) (homogeneous_inverse A).
Proof. exact (c97_inverse Hp11 He4). Qed.
Print Assumptions C97_inverse.

Theorem C97_chain : forall E D L (Ms : list (M44 fl)) (As : list (M44 R)) (M : M44 fl) (A : M44 R), SE3 A -> closeH E D M A -> tlen A <= L ->
  Forall2 (fun M A => SE3 A /\ closeH E D M A /\ tlen A <= L) Ms As ->
  let n := INR (length Ms) in
  (n + 1) * (102 / 100 * E + 123 / 10 * uro) <= / 100 -> (n + 1) * (101 / 100 * L + 103 / 100 * D + 10 * eta) <= bpow radix2 (emax - 10) ->
  SE3 (fold_left m44_mul As A) /\ tlen (fold_left m44_mul As A) <= (n + 1) * L /\
  closeH (E + n * (101 / 100 * E + 123 / 10 * uro)) ((n + 1) * (103 / 100 * D + 10 * eta) + (n + 1) ^ 2 * (E + 10 * uro) * L) (fold_left m44_mul Ms M) (fold_left m44_mul As A).
Proof. exact (c97_chain Hp11 He4). Qed.
Print Assumptions C97_chain.

Theorem C97_dual_quaternion : forall E rot (t : V3 fl) D (A : Quaternion R), dq_new_from_rot_trans rot t = Ok D -> unit_quat A -> close4 E (dq_real D) A -> E <= / 220 ->
  (forall i, (i < 3)%nat -> is_finite (vfun t i) = true /\ Rabs (B2R (vfun t i)) <= bpow radix2 (emax - 12)) ->
  let T := [| B2R (vfun t 0); B2R (vfun t 1); B2R (vfun t 2) |] in let H := homogeneous_from_rotation (q_to_rotation A) T in
  SE3 H /\ closeH (603 / 100 * E + 123 / 10 * uro) ((201 / 100 * E + 17 * uro) * tlen H + 35 * eta) (dq_to_homogeneous D) H.
Proof. exact (c97_dual_quaternion Hp11 He4). Qed.
Print Assumptions C97_dual_quaternion.

Theorem C97_round_trip : forall E D (M : M44 fl) (A : M44 R), SE3 A -> closeH E D M A -> 188 / 10 * E + 82 * uro <= / 220 -> tlen A + D <= bpow radix2 (emax - 12) ->
  exists Q, dq_new_from_homogeneous M = Ok Q /\
  closeH (114 * E + 507 * uro) (D + 36 * uro * (tlen A + D) + 35 * eta) (dq_to_homogeneous Q) A.
Proof. exact (c97_round_trip Hp11 He4). Qed.
Print Assumptions C97_round_trip.

End F.
