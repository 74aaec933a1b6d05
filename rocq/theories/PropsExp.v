(** * PropsExp: C44-C46, exponential and logarithm on SO(3) and SE(3) *)

From Coq Require Import List Arith Lia Bool Reals Lra Psatz Nsatz.
From Verif Require Import Base Scalar Vec Mat2 Mat3 Mat4 Mat6 Slices MatLoops MatOps Quat Transf
  DualQuat RingDet Spec Entries DetEntries InstR RFacts TrigFacts ProofsRing ProofsInverse ProofsNorm
  ProofsQuat ProofsRigid ProofsRot ProofsQuatR ProofsQuatFlag ProofsQuatExp ProofsSlerp ProofsDual ExpSeries.
From Verif Require Import ProofsExp.
(** Concrete cases meeting the hypotheses: the Examples of ProofsExp.v and of Cases.v. *)
Import ListNotations.
Local Open Scope R_scope.

Section R.
Context {K : RConsts} (OK : RConstsOk K).

Theorem C44_axis_angle_rodrigues : forall (w : V3 R) theta, unit3 w ->
  rotation_from_axis_angle w theta = rodrigues w theta /\ SO3 (rotation_from_axis_angle w theta).
Proof. exact c44_axis_angle_rodrigues. Qed.
Print Assumptions C44_axis_angle_rodrigues.

Theorem C44_exponential : forall A : M33 R, skew3 A -> r_eps <= v3_norm2 (skew_to_vec A) ->
  exists E, matrix_exponential A = Ok E /\ is_mexp 3 (mfun A) (mfun E) /\ SO3 E.
Proof. exact (c44_exponential OK). Qed.
Print Assumptions C44_exponential.

Theorem C44_exponential_tiny : forall A : M33 R, skew3 A -> v3_norm2 (skew_to_vec A) < r_eps ->
  matrix_exponential A = Ok m33_identity
  /\ exists E : M33 R, is_mexp 3 (mfun A) (mfun E)
     /\ forall i j, (i < 3)%nat -> (j < 3)%nat -> Rabs (mfun m33_identity i j - mfun E i j) <= 2 * r_eps.
Proof. exact (c44_exponential_tiny OK). Qed.
Print Assumptions C44_exponential_tiny.

(** axis-angle form and exponential coordinates agree *)
Theorem C44_axis_angle : forall (w : V3 R) theta, unit3 w -> r_eps <= Rabs theta ->
  matrix_exponential (skew_from_vec (v3_scale w theta)) = Ok (rotation_from_axis_angle w theta)
  /\ is_mexp 3 (mfun (skew_from_vec (v3_scale w theta))) (mfun (rotation_from_axis_angle w theta)).
Proof. exact (c44_axis_angle OK). Qed.
Print Assumptions C44_axis_angle.

(** the function never panics *)
Theorem C44_total : forall A : M33 R, matrix_exponential A <> Panic.
Proof. exact (c44_total OK). Qed.
Print Assumptions C44_total.

Theorem C45_log_skew : forall A : M33 R, skew3 (matrix_log A).
Proof. exact c45_log_skew. Qed.
Print Assumptions C45_log_skew.

Theorem C45_exp_log_partial : forall A : M33 R, SO3 A ->
  A = m33_identity \/ r_eps <= rot_angle A ->
  (rot_angle A = PI -> r_eps <= 1 + mfun A 2 2 \/ r_eps <= 1 + mfun A 1 1) ->
  matrix_exponential (matrix_log A) = Ok A
  /\ v3_norm2 (skew_to_vec (matrix_log A)) = rot_angle A.
Proof. exact (c45_exp_log_partial OK). Qed.
Print Assumptions C45_exp_log_partial.

(** rotations by less than the tolerance come back as the identity *)
Theorem C45_exp_log_tiny : forall A : M33 R, SO3 A -> rot_angle A < r_eps ->
  matrix_exponential (matrix_log A) = Ok m33_identity
  /\ forall i j, (i < 3)%nat -> (j < 3)%nat -> Rabs (mfun A i j - mfun m33_identity i j) <= 2 * r_eps.
Proof. exact (c45_exp_log_tiny OK). Qed.
Print Assumptions C45_exp_log_tiny.

(** the logarithm undoes the exponential below a half turn *)
Theorem C45_log_exp : forall (A E : M33 R), skew3 A -> r_eps <= v3_norm2 (skew_to_vec A) < PI ->
  matrix_exponential A = Ok E -> matrix_log E = A.
Proof. exact (c45_log_exp OK). Qed.
Print Assumptions C45_log_exp.

(** half turns about (nearly) the x axis take the third branch, which adds one
    to the wrong entry *)
Theorem C45_exp_log_refuted : exists A : M33 R, SO3 A /\ r_eps <= rot_angle A
  /\ matrix_exponential (matrix_log A) <> Ok A.
Proof. exact (c45_exp_log_refuted OK). Qed.
Print Assumptions C45_exp_log_refuted.

Theorem C46_exponential_partial : forall B : M44 R, se3 B -> r_eps <= v3_norm2 (tw_w (se3_to_twist B)) ->
  exists E, matrix_exponential6 B = Ok E /\ is_mexp 4 (mfun B) (mfun E) /\ SE3 E.
Proof. exact (c46_exponential_partial OK). Qed.
Print Assumptions C46_exponential_partial.

(** pure translations: a stray one at (0, 2); the result is no rigid motion *)
Theorem C46_translation_refuted : forall v : V3 R,
  exists E, matrix_exponential6 (twist_to_se3 (tw v3_zeros v)) = Ok E /\ ~ SE3 E
   /\ is_mexp 4 (mfun (twist_to_se3 (tw v3_zeros v))) (mfun (translation_3d (vfun v 0) (vfun v 1) (vfun v 2)))
   /\ mfun E 0 2 = 1.
Proof. exact (c46_translation_refuted OK). Qed.
Print Assumptions C46_translation_refuted.

(** no tolerance: [matrix_log A] is a logarithm of [A] in the sense of the series *)
Theorem C45_log_series : forall A : M33 R, SO3 A ->
  (rot_angle A = PI -> r_eps <= 1 + mfun A 2 2 \/ r_eps <= 1 + mfun A 1 1) ->
  is_mexp 3 (mfun (matrix_log A)) (mfun A).
Proof. exact (c45_log_series OK). Qed.
Print Assumptions C45_log_series.

Theorem C46_log_series : forall A : M44 R, SE3 A ->
  (rot_angle (rot_of A) = PI -> r_eps <= 1 + mfun A 2 2 \/ r_eps <= 1 + mfun A 1 1) ->
  se3 (matrix_log6 A) /\ is_mexp 4 (mfun (matrix_log6 A)) (mfun A).
Proof. exact (c46_log_series OK). Qed.
Print Assumptions C46_log_series.

Theorem C46_exp_log_partial : forall A : M44 R, SE3 A -> r_eps <= rot_angle (rot_of A) ->
  (rot_angle (rot_of A) = PI -> r_eps <= 1 + mfun A 2 2 \/ r_eps <= 1 + mfun A 1 1) ->
  matrix_exponential6 (matrix_log6 A) = Ok A.
Proof. exact (c46_exp_log_partial OK). Qed.
Print Assumptions C46_exp_log_partial.

(** the logarithm undoes the exponential of a screw motion by less than a half turn *)
Theorem C46_log_exp : forall B E : M44 R, se3 B -> r_eps <= v3_norm2 (tw_w (se3_to_twist B)) < PI ->
  matrix_exponential6 B = Ok E -> matrix_log6 E = B.
Proof. exact (c46_log_exp OK). Qed.
Print Assumptions C46_log_exp.

Theorem C46_exp_log_refuted : forall p : V3 R, let A := homogeneous_from_rotation (m33_identity : M33 R) p in
  SE3 A /\ matrix_exponential6 (matrix_log6 A) <> Ok A.
Proof. exact (c46_exp_log_refuted OK). Qed.
Print Assumptions C46_exp_log_refuted.

(** the exponential never panics on any matrix, and its last row is (0,0,0,1) *)
Theorem C46_total : forall B : M44 R, exists E, matrix_exponential6 B = Ok E
  /\ mfun E 3 0 = 0 /\ mfun E 3 1 = 0 /\ mfun E 3 2 = 0 /\ mfun E 3 3 = 1.
Proof. exact (c46_total OK). Qed.
Print Assumptions C46_total.

End R.
