(** * PropsQuatR: quaternions over the reals: C29 (axis and angle), C32
      (normalize, inverse, division, the cached flag) *)

From Coq Require Import List Arith Lia Bool Reals Lra Psatz.
From Verif Require Import Base Scalar Vec Mat2 Mat3 Mat4 Mat6 Slices MatLoops MatOps Quat Transf
  DualQuat RingDet Spec Entries DetEntries InstR RFacts TrigFacts ProofsRing ProofsInverse ProofsNorm
  ProofsQuat ProofsRigid ProofsRot.
From Verif Require Import ProofsQuatR.
Import ListNotations.
Local Open Scope R_scope.

Section R.
Context {K : RConsts} (OK : RConstsOk K).

Theorem C29_rotation : forall theta v, v <> v3_zeros ->
  exists q, q_rotation theta v = Ok q /\ normalized q = true /\ unit_quat q
    /\ q_to_rotation q = rodrigues (unit_of v) theta
    /\ forall x, q_mul_v q x = m33_mul_v (rodrigues (unit_of v) theta) x.
Proof. exact c29_rotation. Qed.
Print Assumptions C29_rotation.

Theorem C29_rotation_panic_iff : forall theta v, q_rotation theta v = Panic <-> v = v3_zeros.
Proof. exact c29_rotation_panic_iff. Qed.
Print Assumptions C29_rotation_panic_iff.

(** Rodrigues' matrix is the rotation about its axis by its angle: it fixes the
    axis and turns the orthogonal plane *)
Theorem C29_rodrigues_meaning : forall u a, v3_dot u u = 1 ->
  m33_mul_v (rodrigues u a) u = u
  /\ forall x, v3_dot u x = 0 ->
     m33_mul_v (rodrigues u a) x = v3_add (v3_scale x (cos a)) (v3_scale (v3_cross u x) (sin a)).
Proof. exact c29_rodrigues_meaning. Qed.
Print Assumptions C29_rodrigues_meaning.

(** rotation_norm_encoded: the rotation vector, up to the tolerance *)
Theorem C29_norm_encoded : forall v, r_eps <= v3_norm2 v ->
  q_rotation (v3_norm2 v) v = Ok (q_rotation_norm_encoded v).
Proof. exact (c29_norm_encoded OK). Qed.
Print Assumptions C29_norm_encoded.

(** below the tolerance the result is the identity rotation *)
Theorem C29_norm_encoded_tiny : forall v, v3_norm2 v < r_eps ->
  q_rotation_norm_encoded v = q_new 1 v3_zeros.
Proof. exact (c29_norm_encoded_tiny OK). Qed.
Print Assumptions C29_norm_encoded_tiny.

Theorem C29_norm_encoded_always_refuted : exists v, v <> v3_zeros /\
  forall q, q_rotation (v3_norm2 v) v = Ok q -> qval q <> qval (q_rotation_norm_encoded v).
Proof. exact (c29_norm_encoded_always_refuted OK). Qed.
Print Assumptions C29_norm_encoded_always_refuted.

(** get_angle *)
Theorem C29_angle_range : forall q, 0 <= q_get_angle q <= 2 * PI.
Proof. exact c29_angle_range. Qed.
Print Assumptions C29_angle_range.

Theorem C29_get_angle : forall theta v q, 0 <= theta <= 2 * PI ->
  q_rotation theta v = Ok q -> q_get_angle q = theta.
Proof. exact c29_get_angle. Qed.
Print Assumptions C29_get_angle.

(** get_axis recovers the axis whenever the angle is not (nearly) 0 or 2 PI *)
Theorem C29_get_axis : forall theta v q, 0 <= theta <= 2 * PI ->
  q_rotation theta v = Ok q ->
  q_get_axis q = if Rlt_dec r_eps (sin (theta / 2)) then Some (unit_of v) else None.
Proof. exact (c29_get_axis OK). Qed.
Print Assumptions C29_get_axis.

(** conversely every unit quaternion is the rotation about its axis by its angle *)
Theorem C29_axis_angle_round_trip : forall q a, unit_quat q ->
  fst (q_axis_angle q) = Some a ->
  exists p, q_rotation (snd (q_axis_angle q)) a = Ok p /\ qval p = qval q.
Proof. exact (c29_axis_angle_round_trip OK). Qed.
Print Assumptions C29_axis_angle_round_trip.

End R.
