(** * PropsSlerp: C34, slerp; C53, quaternion kinematics *)

From Coq Require Import List Arith Lia Bool Reals Lra Psatz.
From Verif Require Import Base Scalar Vec Mat2 Mat3 Mat4 Mat6 Slices MatLoops MatOps Quat Transf
  DualQuat RingDet Spec Entries DetEntries InstR RFacts TrigFacts ProofsRing ProofsInverse ProofsNorm
  ProofsQuat ProofsRigid ProofsRot ProofsQuatR ProofsQuatExp.
From Verif Require Import ProofsSlerp.
(** Concrete cases meeting the hypotheses: the Examples of ProofsSlerp.v and of Cases.v. *)
Import ListNotations.
Local Open Scope R_scope.

Section R.
Context {K : RConsts} (OK : RConstsOk K).
Notation Q := (Quaternion R).

Theorem C34_unit_partial : forall (a b : Q) t, unit_quat a -> unit_quat b -> slerp_ok a b ->
  unit_quat (q_slerp a b t).
Proof. exact (c34_unit_partial OK). Qed.
Print Assumptions C34_unit_partial.

(** the end points, as rotations *)
Theorem C34_endpoints_partial : forall (a b : Q), unit_quat a -> unit_quat b -> slerp_ok a b ->
  qval (q_slerp a b 0) = qval a
  /\ (qval (q_slerp a b 1) = qval b \/ qval (q_slerp a b 1) = qval (q_neg b))
  /\ q_to_rotation (q_slerp a b 1) = q_to_rotation b.
Proof. exact (c34_endpoints_partial OK). Qed.
Print Assumptions C34_endpoints_partial.

(** the angle to [a] grows linearly, along the shorter arc *)
Theorem C34_constant_speed_partial : forall (a b : Q) t, unit_quat a -> unit_quat b ->
  Rabs (qinner a b) < 1 -> r_1em3 <= sqrt (1 - qinner a b * qinner a b) ->
  qinner a (q_slerp a b t) = cos (t * acos (Rabs (qinner a b)))
  /\ 0 <= acos (Rabs (qinner a b)) <= PI / 2.
Proof. exact (c34_constant_speed_partial OK). Qed.
Print Assumptions C34_constant_speed_partial.

(** For nearly equal rotations the source mixes up two components of [b] ... *)
Theorem C34_swapped_refuted : exists a b : Q, unit_quat a /\ unit_quat b
  /\ qval (q_slerp a b 1) <> qval b /\ qval (q_slerp a b 1) <> qval (q_neg b)
  /\ q_to_rotation (q_slerp a b 1) <> q_to_rotation b.
Proof. exact (c34_swapped_refuted OK). Qed.
Print Assumptions C34_swapped_refuted.

(** ... and when the inner product is negative it returns the zero quaternion *)
Theorem C34_zero_refuted : exists a b : Q, unit_quat a /\ unit_quat b
  /\ forall t, q_slerp a b t = q_zero.
Proof. exact (c34_zero_refuted OK). Qed.
Print Assumptions C34_zero_refuted.

(** [tr s]: rotation by the angle |w| s about w; the body orientation is
    [tr s * q0] *)
Theorem C53_derivative : forall (w : V3 R) (q0 : Q) (tr : R -> Q), w <> v3_zeros ->
  (forall s, q_rotation (v3_norm2 w * s) w = Ok (tr s)) ->
  forall k t, derivable_pt_lim (fun s => qcomp k (q_mul (tr s) q0)) t
                               (qcomp k (q_derivative (q_mul (tr t) q0) w)).
Proof. exact c53_derivative. Qed.
Print Assumptions C53_derivative.

(** tangent to the unit sphere *)
Theorem C53_tangent : forall (q : Q) (w : V3 R), qinner q (q_derivative q w) = 0.
Proof. exact c53_tangent. Qed.
Print Assumptions C53_tangent.

End R.
