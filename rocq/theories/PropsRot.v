(** * PropsRot: rotation matrices over the reals: C25, C28, C30, C42 (rest),
      C48, C51, C52 *)

From Coq Require Import List Arith Lia Bool Reals Lra Psatz.
From Verif Require Import Base Scalar Vec Mat2 Mat3 Mat4 Mat6 Slices MatLoops MatOps Quat Transf
  DualQuat RingDet Spec Entries DetEntries InstR RFacts TrigFacts ProofsRing ProofsInverse ProofsNorm
  ProofsQuat ProofsRigid.
From Verif Require Import ProofsRot.
(** Concrete cases meeting the hypotheses: the Examples of ProofsRot.v and of Cases.v. *)
Import ListNotations.
Local Open Scope R_scope.

Section Near.
Context {K : RConsts} (OK : RConstsOk K).

(** ** C25: is_rotation *)
Theorem C25_accepts_rotations_partial : forall r : M33 R, SO3 r -> is_rotation r = true.
Proof. exact c25_accepts_rotations_partial. Qed.
Print Assumptions C25_accepts_rotations_partial.

Theorem C25_accepts_rigid_partial : forall r : M44 R, SE3 r -> is_rotation_h r = true.
Proof. exact c25_accepts_rigid_partial. Qed.
Print Assumptions C25_accepts_rigid_partial.

(** what acceptance does guarantee: the determinant is close to one *)
Theorem C25_accepted_det_partial : forall r : M33 R, is_rotation r = true ->
  Rabs (ldet 3 (mfun r) - 1) < 3 * r_eps.
Proof. exact (c25_accepted_det_partial OK). Qed.
Print Assumptions C25_accepted_det_partial.

(** but not orthogonality: a stretch by 2 and 1/2 is accepted *)
Theorem C25_is_rotation_refuted : exists r : M33 R,
  is_rotation r = true /\ mfun (m33_mul (m33_transpose r) r) 0 0 = 4.
Proof. exact c25_is_rotation_refuted. Qed.
Print Assumptions C25_is_rotation_refuted.

Theorem C25_is_rotation_h_refuted : exists r : M44 R,
  is_rotation_h r = true /\ ~ SE3 r /\ mfun r 3 0 = 7
  /\ mfun (m33_mul (m33_transpose (rot_of r)) (rot_of r)) 0 0 = 4.
Proof. exact c25_is_rotation_h_refuted. Qed.
Print Assumptions C25_is_rotation_h_refuted.

Theorem C28_from_rotation : forall r : M33 R, SO3 r ->
  unit_quat (q_from_rotation r) /\ q_to_rotation (q_from_rotation r) = r.
Proof. exact c28_from_rotation. Qed.
Print Assumptions C28_from_rotation.

Theorem C28_from_to_rotation : forall q : Quaternion R, unit_quat q ->
  let p := q_from_rotation (q_to_rotation q) in qval p = qval q \/ qval p = qval (q_neg q).
Proof. exact c28_from_to_rotation. Qed.
Print Assumptions C28_from_to_rotation.

(** every rotation matrix comes from a unit quaternion *)
Theorem C28_to_rotation_surjective : forall r : M33 R, SO3 r ->
  exists q, unit_quat q /\ q_to_rotation q = r.
Proof. exact c28_to_rotation_surjective. Qed.
Print Assumptions C28_to_rotation_surjective.

Theorem C30_elementary_rotations : forall a,
  rotx a = rodrigues ex a /\ roty a = rodrigues ey a /\ rotz a = rodrigues ez a.
Proof. exact c30_elementary_rotations. Qed.
Print Assumptions C30_elementary_rotations.

Theorem C30_euler_sequences_partial : forall s a b c, s <> Some YZX ->
  euler_to_rotation a b c s = euler_product s a b c.
Proof. exact c30_euler_sequences_partial. Qed.
Print Assumptions C30_euler_sequences_partial.

Theorem C30_YZX_computes_XYZ : forall a b c,
  euler_to_rotation a b c (Some YZX) = euler_to_rotation a b c (Some XYZ).
Proof. exact c30_YZX_computes_XYZ. Qed.
Print Assumptions C30_YZX_computes_XYZ.

Theorem C30_euler_sequences_refuted : exists a b c,
  euler_to_rotation a b c (Some YZX) <> euler_product (Some YZX) a b c.
Proof. exact c30_euler_sequences_refuted. Qed.
Print Assumptions C30_euler_sequences_refuted.

Theorem C30_euler_SO3 : forall s a b c, SO3 (euler_to_rotation a b c s).
Proof. exact c30_euler_SO3. Qed.
Print Assumptions C30_euler_SO3.

Theorem C30_from_euler_angles : forall y p r,
  unit_quat (q_from_euler_angles y p r) /\ normalized (q_from_euler_angles y p r) = true
  /\ q_to_rotation (q_from_euler_angles y p r) = euler_to_rotation y p r None
  /\ q_to_rotation (q_from_euler_angles y p r) = euler_product None y p r.
Proof. exact c30_from_euler_angles. Qed.
Print Assumptions C30_from_euler_angles.

(** ** C42, the remaining parts *)
Theorem C42_inverse_agrees : forall A : M44 R, SE3 A ->
  d_inverse D4 A = Ok (Some (homogeneous_inverse A)).
Proof. exact (c42_inverse_agrees OK). Qed.
Print Assumptions C42_inverse_agrees.

(** the inverse motion: the unique point that [A] sends to [p] *)
Theorem C42_inverse_transform : forall (A : M44 R) p, SE3 A ->
  point (homogeneous_inverse_transform A p) = m44_mul_v (homogeneous_inverse A) (point p)
  /\ m44_mul_v A (point (homogeneous_inverse_transform A p)) = point p.
Proof. exact c42_inverse_transform. Qed.
Print Assumptions C42_inverse_transform.

Theorem C42_from_quaternion : forall (q : Quaternion R) p, unit_quat q ->
  SE3 (homogeneous_from_quaternion q p)
  /\ forall x, m44_mul_v (homogeneous_from_quaternion q p) (point x)
                = point (v3_add (q_mul_v q x) p).
Proof. exact c42_from_quaternion. Qed.
Print Assumptions C42_from_quaternion.

Theorem C48_eigenvalues : forall A : M22 R,
  match m22_real_eigenvals A with
  | Some l => forall x, charpoly A x = (x - vfun l 0) * (x - vfun l 1)
  | None => forall x, charpoly A x <> 0
  end.
Proof. exact c48_eigenvalues. Qed.
Print Assumptions C48_eigenvalues.

Theorem C48_eigenvalues_vieta : forall (A : M22 R) l, m22_real_eigenvals A = Some l ->
  vfun l 0 + vfun l 1 = m22_trace A /\ vfun l 0 * vfun l 1 = m22_det A /\ vfun l 1 <= vfun l 0.
Proof. exact c48_eigenvalues_vieta. Qed.
Print Assumptions C48_eigenvalues_vieta.

(** ** C51: distance_to_manifold *)
Theorem C51_distance_nonneg : forall m : M33 R, 0 <= distance_to_manifold m.
Proof. exact (c51_distance_nonneg OK). Qed.
Print Assumptions C51_distance_nonneg.

Theorem C51_distance_zero_iff : forall m : M33 R, distance_to_manifold m = 0 <-> SO3 m.
Proof. exact (c51_distance_zero_iff OK). Qed.
Print Assumptions C51_distance_zero_iff.

Theorem C51_distance_infinite : forall m : M33 R, m33_det m <= 0 ->
  distance_to_manifold m = infinity.
Proof. exact c51_distance_infinite. Qed.
Print Assumptions C51_distance_infinite.

Theorem C51_distance_value : forall m : M33 R, 0 < m33_det m ->
  distance_to_manifold m = m33_norm2 (m33_sub (m33_mul m (m33_transpose m)) m33_identity).
Proof. exact c51_distance_value. Qed.
Print Assumptions C51_distance_value.

(** ** C52: planar transformations *)
Theorem C52_rot2_SO2 : forall a,
  m22_mul (m22_transpose (rot2 a)) (rot2 a) = m22_identity
  /\ m22_mul (rot2 a) (m22_transpose (rot2 a)) = m22_identity /\ m22_det (rot2 a) = 1.
Proof. exact c52_rot2_SO2. Qed.
Print Assumptions C52_rot2_SO2.

Theorem C52_rot2_add : forall a b, m22_mul (rot2 a) (rot2 b) = rot2 (a + b).
Proof. exact c52_rot2_add. Qed.
Print Assumptions C52_rot2_add.

Theorem C52_rot2_0 : rot2 0 = m22_identity.
Proof. exact c52_rot2_0. Qed.
Print Assumptions C52_rot2_0.

Theorem C52_ksi_split : forall a x y, ksi a x y = m33_mul (translation_2d x y) (ksi a 0 0).
Proof. exact c52_ksi_split. Qed.
Print Assumptions C52_ksi_split.

Theorem C52_ksi_compose : forall a x y b u v,
  m33_mul (ksi a x y) (ksi b u v)
  = ksi (a + b) (x + vfun (m22_mul_v (rot2 a) [| u; v |]) 0) (y + vfun (m22_mul_v (rot2 a) [| u; v |]) 1).
Proof. exact c52_ksi_compose. Qed.
Print Assumptions C52_ksi_compose.

Theorem C52_translation_2d : forall x y u v,
  m33_mul (translation_2d x y) (translation_2d u v) = translation_2d (x + u) (y + v)
  /\ m33_mul_v (translation_2d x y) [| u; v; 1 |] = [| u + x; v + y; 1 |].
Proof. exact c52_translation_2d. Qed.
Print Assumptions C52_translation_2d.

Theorem C52_translation_3d : forall x y z u v w,
  m44_mul (translation_3d x y z) (translation_3d u v w) = translation_3d (x + u) (y + v) (z + w)
  /\ m44_mul_v (translation_3d x y z) (point [| u; v; w |]) = point [| u + x; v + y; w + z |].
Proof. exact c52_translation_3d. Qed.
Print Assumptions C52_translation_3d.

Theorem C52_rot_add : forall a b,
  m33_mul (rotx a) (rotx b) = rotx (a + b) /\ m33_mul (roty a) (roty b) = roty (a + b)
  /\ m33_mul (rotz a) (rotz b) = rotz (a + b).
Proof. exact c52_rot_add. Qed.
Print Assumptions C52_rot_add.

End Near.
