(** * PropsRigid: C35, C36, C42, C43, C47 over every commutative ring

    The polynomial laws of dual quaternions, homogeneous matrices, skew/twist
    encodings and the adjoint representation. *)

From Coq Require Import List Arith Lia Bool Ring ZArith.
From Verif Require Import Base Scalar Vec Mat2 Mat3 Mat4 Mat6 Slices MatLoops MatOps Quat Transf
  DualQuat RingDet Spec Entries DetEntries InstZ ProofsRing ProofsQuat.
From Verif Require Import ProofsRigid.
(** Concrete cases meeting the hypotheses: the Examples of ProofsRigid.v and of Cases.v. *)
Import ListNotations.
Open Scope sc_scope.

Section WithRing.
Context {T : Type} {nT : Num T} {sT : Signed T}.
Variable RT : RingLaws T.

(** ** C35: the algebra of dual quaternions *)
(** the product is that of dual numbers with Hamilton coefficients *)
Theorem C35_mul_spec : forall a b : DualQuaternion T,
  qval (dq_real (dq_mul a b)) = hamilton (qval (dq_real a)) (qval (dq_real b))
  /\ qval (dq_dual (dq_mul a b))
     = (let '(x0, x1, x2, x3) := hamilton (qval (dq_real a)) (qval (dq_dual b)) in
        let '(y0, y1, y2, y3) := hamilton (qval (dq_dual a)) (qval (dq_real b)) in
        (x0 + y0, x1 + y1, x2 + y2, x3 + y3)).
Proof. exact (c35_mul_spec RT). Qed.
Print Assumptions C35_mul_spec.

Theorem C35_mul_assoc : forall a b c : DualQuaternion T,
  dq_mul (dq_mul a b) c = dq_mul a (dq_mul b c).
Proof. exact (c35_mul_assoc RT). Qed.
Print Assumptions C35_mul_assoc.

Theorem C35_mul_one : forall a : DualQuaternion T,
  dqval (dq_mul dq_one a) = dqval a /\ dqval (dq_mul a dq_one) = dqval a.
Proof. exact (c35_mul_one RT). Qed.
Print Assumptions C35_mul_one.

Theorem C35_distr : forall a b c : DualQuaternion T,
  dq_mul a (dq_add b c) = dq_add (dq_mul a b) (dq_mul a c)
  /\ dq_mul (dq_add a b) c = dq_add (dq_mul a c) (dq_mul b c).
Proof. exact (c35_distr RT). Qed.
Print Assumptions C35_distr.

Theorem C35_additive_group : forall a b c : DualQuaternion T,
  dq_add (dq_add a b) c = dq_add a (dq_add b c) /\ dq_add a b = dq_add b a
  /\ dqval (dq_add a dq_zero) = dqval a /\ dqval (dq_add a (dq_neg a)) = dqval dq_zero
  /\ dq_sub a b = dq_add a (dq_neg b).
Proof. exact (c35_additive_group RT). Qed.
Print Assumptions C35_additive_group.

Theorem C35_scale : forall (a b : DualQuaternion T) s,
  dq_mul (dq_scale a s) b = dq_scale (dq_mul a b) s
  /\ dq_mul a (dq_scale b s) = dq_scale (dq_mul a b) s
  /\ dqval (dq_scale a s) = dqval (dq_mul (dq_new (q_new_real s) q_zero) a).
Proof. exact (c35_scale RT). Qed.
Print Assumptions C35_scale.

Theorem C35_epsilon : dqval (dq_mul (dq_new q_zero q_one) (dq_new q_zero q_one))
  = dqval (@dq_zero T _).
Proof. exact (c35_epsilon RT). Qed.
Print Assumptions C35_epsilon.

Theorem C35_conj_mul : forall a b : DualQuaternion T,
  dq_conj (dq_mul a b) = dq_mul (dq_conj b) (dq_conj a)
  /\ dqval (dq_conj_as_dual (dq_mul a b)) = dqval (dq_mul (dq_conj_as_dual a) (dq_conj_as_dual b))
  /\ dqval (dq_conj_combined (dq_mul a b))
     = dqval (dq_mul (dq_conj_combined b) (dq_conj_combined a)).
Proof. exact (c35_conj_mul RT). Qed.
Print Assumptions C35_conj_mul.

Theorem C35_conj_involutive : forall a : DualQuaternion T,
  dqval (dq_conj (dq_conj a)) = dqval a
  /\ dqval (dq_conj_as_dual (dq_conj_as_dual a)) = dqval a
  /\ dqval (dq_conj_combined a) = dqval (dq_conj (dq_conj_as_dual a))
  /\ dqval (dq_conj_combined (dq_conj_combined a)) = dqval a.
Proof. exact (c35_conj_involutive RT). Qed.
Print Assumptions C35_conj_involutive.

Theorem C35_norm : forall a : DualQuaternion T,
  dqval (dq_norm a) =
  ((qnormsq (dq_real a), zero, zero, zero),
   ((one + one) * q_dot (dq_real a) (dq_dual a), zero, zero, zero)).
Proof. exact (c35_norm RT). Qed.
Print Assumptions C35_norm.

Theorem C35_norm_mul : forall a b : DualQuaternion T,
  dqval (dq_norm (dq_mul a b)) = dqval (dq_mul (dq_norm a) (dq_norm b)).
Proof. exact (c35_norm_mul RT). Qed.
Print Assumptions C35_norm_mul.

(** unit dual quaternions are exactly those of norm one (up to 2 being regular),
    and they are closed under products *)
Theorem C35_unit_mul : forall a b : DualQuaternion T, unit_dq a -> unit_dq b -> unit_dq (dq_mul a b).
Proof. exact (c35_unit_mul RT). Qed.
Print Assumptions C35_unit_mul.

Theorem C35_unit_conj : forall a : DualQuaternion T, unit_dq a ->
  dqval (dq_mul a (dq_conj a)) = dqval dq_one /\ dqval (dq_mul (dq_conj a) a) = dqval dq_one.
Proof. exact (c35_unit_conj RT). Qed.
Print Assumptions C35_unit_conj.

(** ** C36: the action on points *)
(** [transform_point] never adds the translation: its result depends on the
    rotation part only. *)
Theorem C36_transform_point_rotates : forall (a : DualQuaternion T) p,
  dq_transform_point a p = sandwich (dq_real a) p.
Proof. exact (c36_transform_point_rotates RT). Qed.
Print Assumptions C36_transform_point_rotates.

Theorem C36_to_homogeneous_mul : forall a b : DualQuaternion T,
  unit_quat (dq_real b) ->
  dq_to_homogeneous (dq_mul a b) = m44_mul (dq_to_homogeneous a) (dq_to_homogeneous b).
Proof. exact (c36_to_homogeneous_mul RT). Qed.
Print Assumptions C36_to_homogeneous_mul.

Theorem C36_to_homogeneous_SE3 : forall a : DualQuaternion T,
  unit_quat (dq_real a) -> SE3 (dq_to_homogeneous a).
Proof. exact (c36_to_homogeneous_SE3 RT). Qed.
Print Assumptions C36_to_homogeneous_SE3.

Theorem C36_to_homogeneous_point : forall (a : DualQuaternion T) p,
  unit_quat (dq_real a) ->
  m44_mul_v (dq_to_homogeneous a) (point p)
  = point (v3_add (q_mul_v (dq_real a) p) (dq_get_translation a)).
Proof. exact (c36_to_homogeneous_point RT). Qed.
Print Assumptions C36_to_homogeneous_point.

Theorem C36_transform_point_compose_partial : forall (a b : DualQuaternion T) p,
  dq_transform_point (dq_mul a b) p = dq_transform_point a (dq_transform_point b p).
Proof. exact (c36_transform_point_compose_partial RT). Qed.
Print Assumptions C36_transform_point_compose_partial.

(** ** C43: skew and twist encodings *)
Theorem C43_skew_round_trip : forall v : V3 T, skew_to_vec (skew_from_vec v) = v.
Proof. exact c43_skew_round_trip. Qed.
Print Assumptions C43_skew_round_trip.

Theorem C43_skew_cross : forall v w : V3 T, m33_mul_v (skew_from_vec v) w = v3_cross v w.
Proof. exact (c43_skew_cross RT). Qed.
Print Assumptions C43_skew_cross.

Theorem C43_skew_antisymmetric : forall v : V3 T,
  skew3 (skew_from_vec v) /\ zero_diag3 (skew_from_vec v).
Proof. exact (c43_skew_antisymmetric RT). Qed.
Print Assumptions C43_skew_antisymmetric.

Theorem C43_skew_from_to : forall A : M33 T, skew3 A -> zero_diag3 A ->
  skew_from_vec (skew_to_vec A) = A.
Proof. exact c43_skew_from_to. Qed.
Print Assumptions C43_skew_from_to.

Theorem C43_skew_linear : forall (v w : V3 T) s,
  skew_from_vec (v3_add v w) = m33_add (skew_from_vec v) (skew_from_vec w)
  /\ skew_from_vec (v3_scale v s) = m33_scale (skew_from_vec v) s.
Proof. exact (c43_skew_linear RT). Qed.
Print Assumptions C43_skew_linear.

(** the Lie bracket is the cross product *)
Theorem C43_skew_bracket : forall v w : V3 T,
  m33_sub (m33_mul (skew_from_vec v) (skew_from_vec w)) (m33_mul (skew_from_vec w) (skew_from_vec v))
  = skew_from_vec (v3_cross v w).
Proof. exact (c43_skew_bracket RT). Qed.
Print Assumptions C43_skew_bracket.

Theorem C43_twist_round_trip : forall x : V6 T, se3_to_twist (twist_to_se3 x) = x.
Proof. exact c43_twist_round_trip. Qed.
Print Assumptions C43_twist_round_trip.

Theorem C43_twist_se3 : forall x : V6 T, se3 (twist_to_se3 x).
Proof. exact (c43_twist_se3 RT). Qed.
Print Assumptions C43_twist_se3.

Theorem C43_se3_round_trip : forall A : M44 T, se3 A -> twist_to_se3 (se3_to_twist A) = A.
Proof. exact c43_se3_round_trip. Qed.
Print Assumptions C43_se3_round_trip.

Theorem C43_se3_parts : forall (A : M33 T) v, se3_get_parts (se3_from_parts A v) = (A, v).
Proof. exact c43_se3_parts. Qed.
Print Assumptions C43_se3_parts.

Theorem C43_skew_scalar : forall x : T, vex_m22 (skew_scalar x) = x
  /\ m22_transpose (skew_scalar x) = m22_neg (skew_scalar x).
Proof. exact (c43_skew_scalar RT). Qed.
Print Assumptions C43_skew_scalar.

(** the planar augmented skew matrix and the 6-vector one *)
Theorem C43_skew_v6 : forall x : V6 T,
  skew_v6 x = se3_from_parts (skew_from_vec [| vfun x 3; vfun x 4; vfun x 5 |])
                             [| vfun x 0; vfun x 1; vfun x 2 |].
Proof. exact c43_skew_v6. Qed.
Print Assumptions C43_skew_v6.

(** [skew_v6] takes (v, w), [twist_to_se3] takes (w, v) *)
Theorem C43_skew_v6_twist : forall x : V6 T,
  skew_v6 [| vfun x 3; vfun x 4; vfun x 5; vfun x 0; vfun x 1; vfun x 2 |] = twist_to_se3 x.
Proof. exact c43_skew_v6_twist. Qed.
Print Assumptions C43_skew_v6_twist.

Theorem C43_skew_aug : forall v : V3 T,
  skew_from_vec_aug v = [| [| zero; - vfun v 2; vfun v 0 |];
                           [| vfun v 2; zero; vfun v 1 |];
                           [| zero; zero; zero |] |].
Proof. exact c43_skew_aug. Qed.
Print Assumptions C43_skew_aug.

(** ** C42: homogeneous transformations *)
Theorem C42_parts_round_trip : forall (A : M33 T) p,
  get_parts_raw (homogeneous_from_rotation A p) = (A, p).
Proof. exact c42_parts_round_trip. Qed.
Print Assumptions C42_parts_round_trip.

Theorem C42_parts_SE3 : forall A : M44 T, SE3 A ->
  homogeneous_from_rotation (fst (get_parts_raw A)) (snd (get_parts_raw A)) = A
  /\ get_parts_raw A = (rot_of A, trans_of A).
Proof. exact c42_parts_SE3. Qed.
Print Assumptions C42_parts_SE3.

Theorem C42_homogeneous_SE3 : forall (A : M33 T) p, SO3 A -> SE3 (homogeneous_from_rotation A p).
Proof. exact c42_homogeneous_SE3. Qed.
Print Assumptions C42_homogeneous_SE3.

Theorem C42_SE3_mul : forall A B : M44 T, SE3 A -> SE3 B -> SE3 (m44_mul A B).
Proof. exact (c42_SE3_mul RT). Qed.
Print Assumptions C42_SE3_mul.

Theorem C42_SE3_identity : SE3 (m44_identity (T := T)).
Proof. exact (c42_SE3_identity RT). Qed.
Print Assumptions C42_SE3_identity.

Theorem C42_inverse : forall A : M44 T, SE3 A ->
  m44_mul A (homogeneous_inverse A) = m44_identity
  /\ m44_mul (homogeneous_inverse A) A = m44_identity
  /\ SE3 (homogeneous_inverse A).
Proof. exact (c42_inverse RT). Qed.
Print Assumptions C42_inverse.

Theorem C42_point : forall A p, SE3 A ->
  m44_mul_v A (point p) = point (v3_add (m33_mul_v (rot_of A) p) (trans_of A)).
Proof. exact (c42_point RT). Qed.
Print Assumptions C42_point.

Theorem C47_adjoint_total : forall A : M44 T, adjoint A <> Panic.
Proof. exact c47_adjoint_total. Qed.
Print Assumptions C47_adjoint_total.

Theorem C47_adjoint_identity : adjoint (m44_identity (T := T)) = Ok m66_identity.
Proof. exact (c47_adjoint_identity RT). Qed.
Print Assumptions C47_adjoint_identity.

Theorem C47_adjoint_mul : forall A B : M44 T, SE3 A -> SE3 B ->
  exists X Y Z, adjoint A = Ok X /\ adjoint B = Ok Y /\ adjoint (m44_mul A B) = Ok Z
  /\ Z = m66_mul X Y.
Proof. exact (c47_adjoint_mul RT). Qed.
Print Assumptions C47_adjoint_mul.

(** [adjoint T] is the conjugation action of [T] on twists *)
Theorem C47_adjoint_conjugation : forall (A : M44 T) (x : V6 T), SE3 A ->
  exists X, adjoint A = Ok X /\
  twist_to_se3 (m66_mul_v X x) = m44_mul (m44_mul A (twist_to_se3 x)) (homogeneous_inverse A).
Proof. exact (c47_adjoint_conjugation RT). Qed.
Print Assumptions C47_adjoint_conjugation.

End WithRing.

Section Examples.
Local Open Scope Z_scope.

(** C36 as stated is false: a unit dual quaternion with a translation whose
    [transform_point] disagrees with its homogeneous matrix. *)
Theorem C36_transform_point_refuted : exists (a : DualQuaternion Z) p,
  unit_dq a /\ dq_get_translation a = [| 2; 0; 0 |]
  /\ m44_mul_v (dq_to_homogeneous a) (point p) <> point (dq_transform_point a p)
  /\ dq_transform_point a p <> v3_add (q_mul_v (dq_real a) p) (dq_get_translation a).
Proof. exact c36_transform_point_refuted. Qed.
Print Assumptions C36_transform_point_refuted.

End Examples.
