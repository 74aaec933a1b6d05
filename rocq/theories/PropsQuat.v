(** * PropsQuat: C26, C27 (quaternion algebra and the rotation action), over
      every commutative ring

    Quaternions are compared by [qval], their four components: the cached flag
    [normalized] is no part of the mathematical value. *)

From Coq Require Import List Arith Lia Bool Ring ZArith.
From Verif Require Import Base Scalar Vec Mat2 Mat3 Slices MatLoops MatOps Quat RingDet Spec
  Entries DetEntries InstZ.
From Verif Require Import ProofsQuat.
(** Concrete cases meeting the hypotheses: the Examples of ProofsQuat.v and of Cases.v. *)
Import ListNotations.
Open Scope sc_scope.

Section WithRing.
Context {T : Type} {nT : Num T} {sT : Signed T}.
Variable RT : RingLaws T.

(** ** C26 *)
Theorem C26_mul_hamilton : forall a b : Quaternion T,
  qval (q_mul a b) = hamilton (qval a) (qval b).
Proof. exact (c26_mul_hamilton RT). Qed.
Print Assumptions C26_mul_hamilton.

Theorem C26_mul_assoc : forall a b c : Quaternion T,
  q_mul (q_mul a b) c = q_mul a (q_mul b c).
Proof. exact (c26_mul_assoc RT). Qed.
Print Assumptions C26_mul_assoc.

Theorem C26_mul_one : forall a : Quaternion T,
  qval (q_mul q_one a) = qval a /\ qval (q_mul a q_one) = qval a.
Proof. exact (c26_mul_one RT). Qed.
Print Assumptions C26_mul_one.

Theorem C26_distr : forall a b c : Quaternion T,
  q_mul a (q_add b c) = q_add (q_mul a b) (q_mul a c)
  /\ q_mul (q_add a b) c = q_add (q_mul a c) (q_mul b c).
Proof. exact (c26_distr RT). Qed.
Print Assumptions C26_distr.

Theorem C26_additive_group : forall a b c : Quaternion T,
  q_add (q_add a b) c = q_add a (q_add b c) /\ q_add a b = q_add b a
  /\ qval (q_add a q_zero) = qval a /\ qval (q_add a (q_neg a)) = qval q_zero
  /\ q_sub a b = q_add a (q_neg b).
Proof. exact (c26_additive_group RT). Qed.
Print Assumptions C26_additive_group.

Theorem C26_scale : forall (a b : Quaternion T) s,
  qval (q_scale a s) = qval (q_mul (q_new_real s) a)
  /\ qval (q_mul (q_scale a s) b) = qval (q_scale (q_mul a b) s)
  /\ qval (q_mul a (q_scale b s)) = qval (q_scale (q_mul a b) s).
Proof. exact (c26_scale RT). Qed.
Print Assumptions C26_scale.

Theorem C26_conj_mul : forall a b : Quaternion T,
  q_conj (q_mul a b) = q_mul (q_conj b) (q_conj a).
Proof. exact (c26_conj_mul RT). Qed.
Print Assumptions C26_conj_mul.

Theorem C26_conj_involutive : forall a : Quaternion T, qval (q_conj (q_conj a)) = qval a.
Proof. exact (c26_conj_involutive RT). Qed.
Print Assumptions C26_conj_involutive.

Theorem C26_abs2 : forall a : Quaternion T,
  q_abs2 a = qnormsq a /\ q_dot a a = qnormsq a
  /\ qval (q_mul a (q_conj a)) = (qnormsq a, zero, zero, zero)
  /\ qval (q_mul (q_conj a) a) = (qnormsq a, zero, zero, zero).
Proof. exact (c26_abs2 RT). Qed.
Print Assumptions C26_abs2.

Theorem C26_abs2_mul : forall a b : Quaternion T, q_abs2 (q_mul a b) = q_abs2 a * q_abs2 b.
Proof. exact (c26_abs2_mul RT). Qed.
Print Assumptions C26_abs2_mul.

Theorem C26_units :
  let i := q_new_from zero one zero zero in
  let j := q_new_from zero zero one zero in
  let k := q_new_from zero zero zero one in
  let m1 := q_new_from (- one) zero zero zero in
  q_mul i i = m1 /\ q_mul j j = m1 /\ q_mul k k = m1 /\ q_mul (q_mul i j) k = m1
  /\ q_mul i j = k /\ q_mul j k = i /\ q_mul k i = j.
Proof. exact (c26_units RT). Qed.
Print Assumptions C26_units.

(** ** C27 *)
(** the two ways the crate computes the action *)
Theorem C27_to_rotation_sandwich : forall (a : Quaternion T) v,
  m33_mul_v (q_to_rotation a) v = sandwich a v.
Proof. exact (c27_to_rotation_sandwich RT). Qed.
Print Assumptions C27_to_rotation_sandwich.

Theorem C27_action_sandwich : forall (a : Quaternion T) v, unit_quat a ->
  q_mul_v a v = sandwich a v.
Proof. exact (c27_action_sandwich RT). Qed.
Print Assumptions C27_action_sandwich.

Theorem C27_to_rotation_action : forall (a : Quaternion T) v, unit_quat a ->
  m33_mul_v (q_to_rotation a) v = q_mul_v a v.
Proof. exact (c27_to_rotation_action RT). Qed.
Print Assumptions C27_to_rotation_action.

Theorem C27_to_rotation_mul : forall a b : Quaternion T,
  q_to_rotation (q_mul a b) = m33_mul (q_to_rotation a) (q_to_rotation b).
Proof. exact (c27_to_rotation_mul RT). Qed.
Print Assumptions C27_to_rotation_mul.

Theorem C27_to_rotation_conj : forall a : Quaternion T,
  q_to_rotation (q_conj a) = m33_transpose (q_to_rotation a).
Proof. exact (c27_to_rotation_conj RT). Qed.
Print Assumptions C27_to_rotation_conj.

Theorem C27_to_rotation_neg : forall a : Quaternion T, q_to_rotation (q_neg a) = q_to_rotation a.
Proof. exact (c27_to_rotation_neg RT). Qed.
Print Assumptions C27_to_rotation_neg.

Theorem C27_action_neg : forall (a : Quaternion T) v, q_mul_v (q_neg a) v = q_mul_v a v.
Proof. exact (c27_action_neg RT). Qed.
Print Assumptions C27_action_neg.

(** without any hypothesis the matrix is orthogonal up to the squared norm *)
Theorem C27_to_rotation_gram : forall a : Quaternion T,
  m33_mul (q_to_rotation a) (m33_transpose (q_to_rotation a))
    = m33_scale m33_identity (qnormsq a * qnormsq a)
  /\ m33_mul (m33_transpose (q_to_rotation a)) (q_to_rotation a)
    = m33_scale m33_identity (qnormsq a * qnormsq a)
  /\ m33_det (q_to_rotation a) = qnormsq a * qnormsq a * qnormsq a.
Proof. exact (c27_to_rotation_gram RT). Qed.
Print Assumptions C27_to_rotation_gram.

Theorem C27_to_rotation_SO3 : forall a : Quaternion T, unit_quat a -> SO3 (q_to_rotation a).
Proof. exact (c27_to_rotation_SO3 RT). Qed.
Print Assumptions C27_to_rotation_SO3.

Theorem C27_action_compose : forall (a b : Quaternion T) v, unit_quat a -> unit_quat b ->
  q_mul_v (q_mul a b) v = q_mul_v a (q_mul_v b v).
Proof. exact (c27_action_compose RT). Qed.
Print Assumptions C27_action_compose.

Theorem C27_action_linear : forall (a : Quaternion T) u v s,
  q_mul_v a (v3_add u v) = v3_add (q_mul_v a u) (q_mul_v a v)
  /\ q_mul_v a (v3_scale v s) = v3_scale (q_mul_v a v) s.
Proof. exact (c27_action_linear RT). Qed.
Print Assumptions C27_action_linear.

(** dot products, hence norms, are preserved *)
Theorem C27_action_dot : forall (a : Quaternion T) u v, unit_quat a ->
  v3_dot (q_mul_v a u) (q_mul_v a v) = v3_dot u v.
Proof. exact (c27_action_dot RT). Qed.
Print Assumptions C27_action_dot.

(** cross products (orientation) are preserved *)
Theorem C27_action_cross : forall (a : Quaternion T) u v, unit_quat a ->
  q_mul_v a (v3_cross u v) = v3_cross (q_mul_v a u) (q_mul_v a v).
Proof. exact (c27_action_cross RT). Qed.
Print Assumptions C27_action_cross.

(** the conjugate undoes the rotation *)
Theorem C27_action_conj : forall (a : Quaternion T) v, unit_quat a ->
  q_mul_v (q_conj a) (q_mul_v a v) = v.
Proof. exact (c27_action_conj RT). Qed.
Print Assumptions C27_action_conj.

End WithRing.
