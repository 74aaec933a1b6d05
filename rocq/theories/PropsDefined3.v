(** * PropsDefined3: no undefined operation in transformations.rs (C73, C74) *)

From Coq Require Import Reals Lra Bool List Arith Lia.
From Verif Require Import Base Scalar Vec Slices Mat2 Mat3 Mat4 Mat5 Mat6 MatLoops MatOps Quat Transf DualQuat
  RingDet Spec Entries InstR RFacts TrigFacts InstE ProofsDefined ProofsDefined2 ProofsNorm ProofsQuat ProofsRigid ProofsRot
  ProofsQuatR ProofsQuatExp ProofsDual ExpSeries ProofsExp.
From Verif Require Import ProofsDefined3.
(** Concrete cases meeting the hypotheses: the Examples of ProofsDefined3.v and of Cases.v. *)
Import ListNotations.
Local Open Scope R_scope.

Section Defined.
Context {K : RConsts} (OK : RConstsOk K).

Theorem C73_axis_angle : forall w, axis_angle (up_v (n:=3) w) = up_o up_va (axis_angle w).
Proof. exact c73_axis_angle. Qed.
Print Assumptions C73_axis_angle.

Theorem C73_exponential : forall A, matrix_exponential (up_m (n:=3) A) = up_o (up_m (n:=3)) (matrix_exponential A).
Proof. exact (c73_exponential OK). Qed.
Print Assumptions C73_exponential.

Theorem C73_exponential6 : forall A, matrix_exponential6 (up_m (n:=4) A) = up_o (up_m (n:=4)) (matrix_exponential6 A).
Proof. exact (c73_exponential6 OK). Qed.
Print Assumptions C73_exponential6.

Theorem C73_axis_angle6 : forall w,
  axis_angle6 (up_v (n:=6) w) = (up_v (n:=6) (fst (axis_angle6 w)), Some (snd (axis_angle6 w)))
  <-> r_eps <= norm2 (firstn 3 (alist w)) \/ norm2 (skipn 3 (alist w)) <> 0.
Proof. exact (c73_axis_angle6 OK). Qed.
Print Assumptions C73_axis_angle6.

(** ** Logarithms *)
Theorem C73_log : forall A, SO3 A -> matrix_log (up_m (n:=3) A) = up_m (n:=3) (matrix_log A).
Proof. exact (c73_log OK). Qed.
Print Assumptions C73_log.

(** [matrix_log6] takes a tangent at its pole exactly on half turns *)
Theorem C74_log6_partial : forall A, SE3 A ->
  matrix_log6 (up_m (n:=4) A) = up_m (n:=4) (matrix_log6 A) <-> rot_angle (rot_of A) <> PI.
Proof. exact (c74_log6_partial OK). Qed.
Print Assumptions C74_log6_partial.

Theorem C73_rotation_to_euler : forall A, rotation_to_euler (up_m (n:=3) A) = up_t3 (rotation_to_euler A).
Proof. exact (c73_rotation_to_euler OK). Qed.
Print Assumptions C73_rotation_to_euler.

Theorem C73_to_euler_angles : forall a, q_to_euler_angles (up_q a) = up_t3 (q_to_euler_angles a).
Proof. exact (c73_to_euler_angles OK). Qed.
Print Assumptions C73_to_euler_angles.

Theorem C73_get_parts : forall A, get_parts (up_m (n:=4) A) = (up_q (fst (get_parts A)), up_v (n:=3) (snd (get_parts A))).
Proof. exact (c73_get_parts OK). Qed.
Print Assumptions C73_get_parts.

Theorem C73_inverse_transform : forall A p,
  homogeneous_inverse_transform (up_m (n:=4) A) (up_v (n:=3) p) = up_v (n:=3) (homogeneous_inverse_transform A p).
Proof. exact (c73_inverse_transform OK). Qed.
Print Assumptions C73_inverse_transform.

Theorem C73_is_rotation : forall A, is_rotation (up_m (n:=3) A) = is_rotation A.
Proof. exact (c73_is_rotation OK). Qed.
Print Assumptions C73_is_rotation.

Theorem C73_is_rotation_h : forall A, is_rotation_h (up_m (n:=4) A) = is_rotation_h A.
Proof. exact (c73_is_rotation_h OK). Qed.
Print Assumptions C73_is_rotation_h.

Theorem C73_distance_to_manifold : forall A, distance_to_manifold (up_m (n:=3) A) = Some (distance_to_manifold A).
Proof. exact c73_distance_to_manifold. Qed.
Print Assumptions C73_distance_to_manifold.

Theorem C74_screw_lerp_partial : forall a b tau, unit_dq a -> unit_dq b ->
  dq_screw_lerp (up_dq a) (up_dq b) (Some tau) = up_o up_dq (dq_screw_lerp a b tau)
  <-> qval (dq_real b) <> qval (q_neg (dq_real (lerp_start a b))).
Proof. exact (c74_screw_lerp_partial OK). Qed.
Print Assumptions C74_screw_lerp_partial.

(** a pose turned by half a turn, interpolated to itself: the relative motion gets
    the scalar part -1, and its axis is 0 / 0 *)
Theorem C74_screw_lerp_refuted : exists a : DualQuaternion R, unit_dq a /\ forall tau, exists r,
  dq_screw_lerp (up_dq a) (up_dq a) (Some tau) = Ok r /\ q0 (dq_real r) = None.
Proof. exact (c74_screw_lerp_refuted OK). Qed.
Print Assumptions C74_screw_lerp_refuted.

Theorem C74_pow_refuted : exists a : DualQuaternion R, unit_dq a
  /\ forall x, ix0 (q (dq_real (dq_pow (up_dq a) (Some x)))) = None.
Proof. exact (c74_pow_refuted OK). Qed.
Print Assumptions C74_pow_refuted.

(** half turns *)
Theorem C74_screw_parameters_refuted : exists a : DualQuaternion R, unit_dq a
  /\ dq_get_screw_parameters (up_dq a) <> up_screw (dq_get_screw_parameters a).
Proof. exact (c74_screw_parameters_refuted OK). Qed.
Print Assumptions C74_screw_parameters_refuted.

Theorem C74_log6_refuted : exists A : M44 R, SE3 A /\ matrix_log6 (up_m (n:=4) A) <> up_m (n:=4) (matrix_log6 A).
Proof. exact (c74_log6_refuted OK). Qed.
Print Assumptions C74_log6_refuted.

End Defined.
