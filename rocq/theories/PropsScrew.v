(** * PropsScrew: constructors and parts of dual quaternions (C61), Euler angles
      of quaternions and homogeneous matrices (C62), screw axes and twists
      (C63, C64), inverse rotations (C65) *)

From Coq Require Import List Arith Lia Bool Reals Lra ZArith Ring Nsatz.
From Verif Require Import Base Scalar Vec Mat2 Mat3 Mat4 Mat5 Mat6 Slices MatLoops MatOps
  Quat Transf DualQuat RingDet Spec Entries DetEntries InstZ InstR ProofsRing RFacts InvFacts ProofsInverse QRFacts ProofsNorm ProofsQuat ProofsRigid
  TrigFacts ProofsRot ProofsQuatR ProofsQuatExp ProofsEuler ProofsDual ExpSeries ProofsExp.
From Verif Require Import ProofsScrew.
(** Concrete cases meeting the hypotheses: the Examples of ProofsScrew.v and of Cases.v. *)
Import ListNotations.
Open Scope sc_scope.

Section AnyScalar.
Context {T : Type} {nT : Num T} {sT : Signed T} {oT : POrd T} {fT : Float T}.

(** ** C61 *)
Theorem C61_quaternion_parts : forall (w x y z : T),
  let a := q_new_from w x y z in
  qval a = (w, x, y, z) /\ q_real a = w /\ q_imag a = [| x; y; z |]
  /\ qval (q_new w [| x; y; z |]) = (w, x, y, z) /\ qval (q_new_from_vec [| w; x; y; z |]) = (w, x, y, z)
  /\ qval (q_new_real w) = (w, zero, zero, zero) /\ qval (q_new_imag [| x; y; z |]) = (zero, x, y, z)
  /\ normalized a = false.
Proof. exact c61_quaternion_parts. Qed.
Print Assumptions C61_quaternion_parts.

Theorem C61_dual_parts : forall (p r : Quaternion T) (v w : V4 T),
  dq_real (dq_new p r) = p /\ dq_dual (dq_new p r) = r
  /\ dqval (dq_new_from_vecs v w)
     = ((vfun v 0, vfun v 1, vfun v 2, vfun v 3), (vfun w 0, vfun w 1, vfun w 2, vfun w 3)).
Proof. exact c61_dual_parts. Qed.
Print Assumptions C61_dual_parts.

(** the three ways of reading a motion agree *)
Theorem C61_parts_agree : forall a : DualQuaternion T,
  dq_to_quaternion_translation a = (dq_real a, dq_get_translation a)
  /\ dq_to_rotation_translation a = (q_to_rotation (dq_real a), dq_get_translation a).
Proof. exact c61_parts_agree. Qed.
Print Assumptions C61_parts_agree.

End AnyScalar.

Section AnyRing.
Context {T : Type} {nT : Num T} {sT : Signed T} {fT : Float T}.
Variable RT : RingLaws T.

(** ** C63: screw axes *)
(** axis with direction [s] through the point [q], pitch [h]: the velocity of
    the axis points is [h s], the angular velocity is [s] *)
Theorem C63_axis_velocity : forall (q s : V3 T) h,
  m44_mul_v (twist_to_se3 (screw_to_axis q s h)) (point q)
  = [| vfun s 0 * h; vfun s 1 * h; vfun s 2 * h; zero |]
  /\ tw_w (screw_to_axis q s h) = s.
Proof. exact (c63_axis_velocity RT). Qed.
Print Assumptions C63_axis_velocity.

(** the axis does not depend on the choice of the point on it *)
Theorem C63_axis_point : forall (q s : V3 T) h k,
  screw_to_axis (v3_add q (v3_scale s k)) s h = screw_to_axis q s h.
Proof. exact (c63_axis_point RT). Qed.
Print Assumptions C63_axis_point.

(** rigid motions move the axis *)
Theorem C63_axis_moved : forall (A : M44 T) (q s : V3 T) h, SE3 A ->
  exists X, adjoint A = Ok X /\
  m66_mul_v X (screw_to_axis q s h)
  = screw_to_axis (v3_add (m33_mul_v (rot_of A) q) (trans_of A)) (m33_mul_v (rot_of A) s) h.
Proof. exact (c63_axis_moved RT). Qed.
Print Assumptions C63_axis_moved.

End AnyRing.

Section Real.
Context {K : RConsts} (OK : RConstsOk K).
Local Open Scope R_scope.
Notation Q := (Quaternion R).

(** ** C61: seven numbers, quaternion then translation *)
Theorem C61_array_motion : forall q0 q1 q2 q3 x y z : R,
  q0 * q0 + q1 * q1 + q2 * q2 + q3 * q3 = 1 ->
  let a := dq_new_from_array [| q0; q1; q2; q3; x; y; z |] in
  dq_to_homogeneous a = homogeneous_from_quaternion (q_new_from q0 q1 q2 q3) [| x; y; z |]
  /\ dq_to_quaternion_translation a = (q_new_from q0 q1 q2 q3, [| x; y; z |]).
Proof. exact c61_array_motion. Qed.
Print Assumptions C61_array_motion.

Theorem C62_to_euler_round_trip : forall q : Q, unit_quat q -> gimbal_ok (q_to_rotation q) ->
  let '(yaw, pitch, roll) := q_to_euler_angles q in
  let p := q_from_euler_angles yaw pitch roll in
  q_to_rotation p = q_to_rotation q /\ (qval p = qval q \/ qval p = qval (q_neg q)).
Proof. exact (c62_to_euler_round_trip OK). Qed.
Print Assumptions C62_to_euler_round_trip.

(** everywhere, the rotation is recovered within [8 epsilon] *)
Theorem C62_to_euler_approx : forall q : Q, unit_quat q ->
  let '(yaw, pitch, roll) := q_to_euler_angles q in
  forall i j, (i < 3)%nat -> (j < 3)%nat ->
  Rabs (mfun (q_to_rotation (q_from_euler_angles yaw pitch roll)) i j - mfun (q_to_rotation q) i j) <= 8 * r_eps.
Proof. exact (c62_to_euler_approx OK). Qed.
Print Assumptions C62_to_euler_approx.

(** [get_parts] splits a homogeneous matrix into its rotation and translation *)
Theorem C62_get_parts : forall A : M44 R, SE3 A -> gimbal_ok (rot_of A) ->
  let '(q, p) := get_parts A in unit_quat q /\ normalized q = true /\ homogeneous_from_quaternion q p = A.
Proof. exact (c62_get_parts OK). Qed.
Print Assumptions C62_get_parts.

(** rotation by [theta] about the line through [q] with direction [s], and a
    displacement of [h theta] along it *)
Theorem C63_screw_motion : forall (q s : V3 R) h theta, unit3 s -> r_eps <= Rabs theta -> exists E,
  matrix_exponential6 (twist_to_se3 (v6_scale (screw_to_axis q s h) theta)) = Ok E
  /\ forall x, m44_mul_v E (point x)
     = point (v3_add (v3_add q (m33_mul_v (rodrigues s theta) (v3_sub x q))) (v3_scale s (h * theta))).
Proof. exact (c63_screw_motion OK). Qed.
Print Assumptions C63_screw_motion.

(** ** C64: exponential coordinates *)
Theorem C64_axis_angle : forall v : V3 R, v <> v3_zeros -> exists n,
  axis_angle v = Ok (n, v3_norm2 v) /\ unit3 n /\ v3_scale n (v3_norm2 v) = v.
Proof. exact c64_axis_angle. Qed.
Print Assumptions C64_axis_angle.

Theorem C64_axis_angle_panic_iff : forall v : V3 R, axis_angle v = Panic <-> v = v3_zeros.
Proof. exact c64_axis_angle_panic_iff. Qed.
Print Assumptions C64_axis_angle_panic_iff.

(** a twist with rotation: the rotation part is normalised *)
Theorem C64_axis_angle6_rotation : forall e : V6 R, r_eps <= v3_norm2 (tw_w e) ->
  let '(axis, theta) := axis_angle6 e in
  theta = v3_norm2 (tw_w e) /\ v6_scale axis theta = e /\ v3_norm2 (tw_w axis) = 1.
Proof. exact (c64_axis_angle6_rotation OK). Qed.
Print Assumptions C64_axis_angle6_rotation.

(** no (significant) rotation: the translation part is normalised *)
Theorem C64_axis_angle6_translation : forall e : V6 R, v3_norm2 (tw_w e) < r_eps -> tw_v e <> v3_zeros ->
  let '(axis, theta) := axis_angle6 e in
  theta = v3_norm2 (tw_v e) /\ v6_scale axis theta = e /\ v3_norm2 (tw_v axis) = 1.
Proof. exact (c64_axis_angle6_translation OK). Qed.
Print Assumptions C64_axis_angle6_translation.

(** ** C65 *)
Theorem C65_rotation_inverse : forall r : M33 R, SO3 r ->
  m33_mul r (rotation_inverse r) = m33_identity /\ m33_mul (rotation_inverse r) r = m33_identity
  /\ SO3 (rotation_inverse r) /\ d_inverse D3 r = Ok (Some (rotation_inverse r)).
Proof. exact (c65_rotation_inverse OK). Qed.
Print Assumptions C65_rotation_inverse.

End Real.
