(** * PropsPrograms2: C85 (the quaternion and dual quaternion programs of examples/) *)

From Coq Require Import List Arith Lia Bool Reals Lra Psatz.
From Verif Require Import Base Scalar Vec Mat2 Mat3 Mat4 Mat6 Slices MatLoops MatOps Quat Transf
  DualQuat Programs RingDet Spec Entries DetEntries InstR RFacts TrigFacts ProofsRing ProofsInverse ProofsNorm
  ProofsQuat ProofsRigid ProofsRot ProofsQuatR ProofsQuatFlag ProofsQuatExp ProofsEuler ProofsDual.
From Verif Require Import ProofsPrograms2.
(** Concrete cases meeting the hypotheses: the Examples of ProofsPrograms2.v and of Cases.v. *)
Import ListNotations.
Local Open Scope R_scope.

Section R.
Context {K : RConsts} (OK : RConstsOk K).
Notation Q := (Quaternion R).
Notation DQ := (DualQuaternion R).

(** [n] turns of [|v|] about [v] are one turn of [n |v|] *)
Theorem C85_turns : forall n v x, r_eps <= v3_norm2 v ->
  q_mul_v (q_times (q_rotation_norm_encoded v) n) x = m33_mul_v (rodrigues (unit_of v) (INR (S n) * v3_norm2 v)) x.
Proof. exact (c85_turns OK). Qed.
Print Assumptions C85_turns.

(** when they add up to whole turns, every vector comes back; the tolerance of
    [rotation_norm_encoded] does not matter *)
Theorem C85_full_turns : forall n k v x, INR (S n) * v3_norm2 v = 2 * PI * INR k ->
  q_mul_v (q_times (q_rotation_norm_encoded v) n) x = x.
Proof. exact (c85_full_turns OK). Qed.
Print Assumptions C85_full_turns.

(** the program: four turns about one axis *)
Theorem C85_quaternions_turns : forall v x,
  (r_eps <= v3_norm2 v -> quaternions_turns v x = m33_mul_v (rodrigues (unit_of v) (4 * v3_norm2 v)) x)
  /\ (forall k, v3_norm2 v = PI / 2 * INR k -> quaternions_turns v x = x).
Proof. exact (c85_quaternions_turns OK). Qed.
Print Assumptions C85_quaternions_turns.

(** ** Euler angles *)
(** the angles come back, in the usual ranges, unless the cosine of the pitch is below four epsilon *)
Theorem C85_quaternions_euler_partial : forall y p r, - PI < y <= PI -> - PI < r <= PI ->
  - (PI / 2) < p < PI / 2 -> 4 * r_eps <= cos p -> quaternions_euler y p r = (y, p, r).
Proof. exact (c85_quaternions_euler_partial OK). Qed.
Print Assumptions C85_quaternions_euler_partial.

(** at gimbal lock they do not: a roll comes back as zero *)
Theorem C85_quaternions_euler_refuted : exists y p r, - PI < y <= PI /\ - PI < r <= PI /\ - (PI / 2) <= p <= PI / 2
  /\ quaternions_euler y p r <> (y, p, r).
Proof. exact c85_quaternions_euler_refuted. Qed.
Print Assumptions C85_quaternions_euler_refuted.

(** ** Dual quaternions *)
(** [t] and [double] are the same; [normal] and [combined] are the same; [combined2] is the same up
    to the sign, so the same motion *)
Theorem C85_dual_quaternions : forall y p r (pos x : V3 R),
  exists t double normal combined combined2,
  dual_quaternions y p r pos x = Ok (t, double, normal, combined, combined2)
  /\ SE3 t /\ double = t /\ dqval combined = dqval normal
  /\ (dqval combined2 = dqval normal \/ dqval combined2 = dqval (dq_neg normal))
  /\ dq_to_homogeneous normal = homogeneous_from_rotation (euler_to_rotation y p r None) x
  /\ dq_to_homogeneous combined2 = dq_to_homogeneous normal.
Proof. exact (c85_dual_quaternions OK). Qed.
Print Assumptions C85_dual_quaternions.

(** the rotation by [theta] about the unit vector [l], followed by the translation by [d l], has the
    screw parameters [l], 0, [theta], [d] *)
Theorem C85_screw_parameters : forall (l : V3 R) theta d, unit3 l -> r_eps <= theta < 2 * PI ->
  screw_parameters (v3_scale l theta) (v3_scale l d) = Ok (l, v3_zeros, theta, d).
Proof. exact (c85_screw_parameters OK). Qed.
Print Assumptions C85_screw_parameters.

(** the program's comparison: the fourth coordinate is 0, so both sides are the rotated point *)
Theorem C85_transform_points : forall y p r (trans x : V3 R),
  exists expected result, transform_points y p r trans x = Ok (expected, result)
  /\ expected = [| vfun result 0; vfun result 1; vfun result 2; 0 |]
  /\ result = m33_mul_v (euler_to_rotation y p r None) x.
Proof. exact (c85_transform_points OK). Qed.
Print Assumptions C85_transform_points.

End R.
