(** * PropsDual: C37-C41, dual quaternions over the reals *)

From Coq Require Import List Arith Lia Bool Reals Lra Psatz Nsatz.
From Verif Require Import Base Scalar Vec Mat2 Mat3 Mat4 Mat6 Slices MatLoops MatOps Quat Transf
  DualQuat RingDet Spec Entries DetEntries InstR RFacts TrigFacts ProofsRing ProofsInverse ProofsNorm
  ProofsQuat ProofsRigid ProofsRot ProofsQuatR ProofsQuatFlag ProofsQuatExp ProofsSlerp.
From Verif Require Import ProofsDual.
(** Concrete cases meeting the hypotheses: the Examples of ProofsDual.v and of Cases.v. *)
Import ListNotations.
Local Open Scope R_scope.

Section R.
Context {K : RConsts} (OK : RConstsOk K).
Notation Q := (Quaternion R).
Notation DQ := (DualQuaternion R).

Theorem C37_rot_trans : forall (rot p : Q) t, honest rot -> q_normalize rot = Some p ->
  exists a, dq_new_from_rot_trans rot t = Ok a /\ unit_dq a /\ dq_normalized a = true
    /\ dq_real a = p /\ dq_get_translation a = t
    /\ dq_to_rotation_translation a = (q_to_rotation p, t)
    /\ dq_to_homogeneous a = homogeneous_from_rotation (q_to_rotation p) t.
Proof. exact (c37_rot_trans OK). Qed.
Print Assumptions C37_rot_trans.

Theorem C37_rot_trans_panic_iff : forall (rot : Q) t,
  dq_new_from_rot_trans rot t = Panic <-> normalized rot = false /\ sqrt (qnormsq rot) < r_eps.
Proof. exact (c37_rot_trans_panic_iff OK). Qed.
Print Assumptions C37_rot_trans_panic_iff.

Theorem C37_translation_then_rotation : forall (q : Q) t a, unit_quat q ->
  dq_new_from_rot_trans q t = Ok a ->
  dqval (dq_mul (dq_new_from_translation t) (dq_new_from_rotation q)) = dqval a.
Proof. exact (c37_translation_then_rotation OK). Qed.
Print Assumptions C37_translation_then_rotation.

Theorem C37_homogeneous_round_trip : forall A : M44 R, SE3 A ->
  exists a, dq_new_from_homogeneous A = Ok a /\ unit_dq a /\ dq_normalized a = true
    /\ dq_to_homogeneous a = A.
Proof. exact (c37_homogeneous_round_trip OK). Qed.
Print Assumptions C37_homogeneous_round_trip.

(** the other way round: up to the double cover *)
Theorem C37_dual_round_trip : forall a : DQ, unit_dq a ->
  exists b, dq_new_from_homogeneous (dq_to_homogeneous a) = Ok b
    /\ (dqval b = dqval a \/ dqval b = dqval (dq_neg a)).
Proof. exact (c37_dual_round_trip OK). Qed.
Print Assumptions C37_dual_round_trip.

(** new_from_array: rotation followed by translation components *)
Theorem C37_from_array : forall q0 q1 q2 q3 x y z : R,
  let a := dq_new_from_array [| q0; q1; q2; q3; x; y; z |] in
  qval (dq_real a) = (q0, q1, q2, q3)
  /\ (q0 * q0 + q1 * q1 + q2 * q2 + q3 * q3 = 1 -> unit_dq a /\ dq_get_translation a = [| x; y; z |]).
Proof. exact c37_from_array. Qed.
Print Assumptions C37_from_array.

Theorem C38_inverse_two_sided_partial : forall a b : DQ, dq_honest a -> honest (dq_real a) ->
  dq_inverse a = Ok b ->
  dqval (dq_mul a b) = dqval dq_one /\ dqval (dq_mul b a) = dqval dq_one.
Proof. exact (c38_inverse_two_sided_partial OK). Qed.
Print Assumptions C38_inverse_two_sided_partial.

Theorem C38_inverse_panic_iff : forall a : DQ, dq_inverse a = Panic <->
  dq_normalized a = false /\ normalized (dq_real a) = false /\ qnormsq (dq_real a) < r_eps.
Proof. exact (c38_inverse_panic_iff OK). Qed.
Print Assumptions C38_inverse_panic_iff.

Theorem C38_normalize_none_iff : forall a : DQ, dq_normalize a = None <->
  dq_normalized a = false /\ sqrt (qnormsq (dq_real a)) < r_eps.
Proof. exact (c38_normalize_none_iff OK). Qed.
Print Assumptions C38_normalize_none_iff.

(** what normalize does: divides both parts by the norm of the real part; that
    is a unit dual quaternion when the two parts are orthogonal *)
Theorem C38_normalize_partial : forall a b : DQ, dq_honest a -> dq_normalize a = Some b ->
  unit_quat (dq_real b) /\ dq_normalized b = true
  /\ dqval (dq_scale b (sqrt (qnormsq (dq_real a)))) = dqval a
  /\ (q_dot (dq_real a) (dq_dual a) = 0 -> unit_dq b).
Proof. exact (c38_normalize_partial OK). Qed.
Print Assumptions C38_normalize_partial.

(** the constructors whose flag is right *)
Theorem C38_honest_constructors : 
  unit_dq (dq_one : DQ) /\ (forall v, unit_dq (dq_new_from_point v : DQ))
  /\ (forall t, unit_dq (dq_new_from_translation t : DQ))
  /\ (forall q : Q, unit_quat q -> unit_dq (dq_new_from_rotation q))
  /\ (forall m : M33 R, SO3 m -> unit_dq (dq_new_from_rotation_matrix m))
  /\ (forall (q : Q) t a, honest q -> dq_new_from_rot_trans q t = Ok a -> unit_dq a)
  /\ (forall (A : M44 R) a, SE3 A -> dq_new_from_homogeneous A = Ok a -> unit_dq a).
Proof. exact (c38_honest_constructors OK). Qed.
Print Assumptions C38_honest_constructors.

(** new_from_rotation flags any quaternion: its "inverse" is then wrong *)
Theorem C38_flag_refuted : exists q : Q, let a := dq_new_from_rotation q in
  0 < qnormsq q /\ exists b, dq_inverse a = Ok b /\ dqval (dq_mul a b) <> dqval dq_one.
Proof. exact c38_flag_refuted. Qed.
Print Assumptions C38_flag_refuted.

(** normalize does not make the parts orthogonal, but sets the flag *)
Theorem C38_normalize_refuted : exists a b c : DQ, dq_normalized a = false
  /\ dq_normalize a = Some b /\ ~ unit_dq b
  /\ dq_inverse b = Ok c /\ dqval (dq_mul b c) <> dqval dq_one.
Proof. exact (c38_normalize_refuted OK). Qed.
Print Assumptions C38_normalize_refuted.

Theorem C38_is_normalized_sound : forall a : DQ, dq_normalized a = false -> dq_is_normalized a = true ->
  sqrt (qnormsq (dq_real a)) < r_eps
  \/ Rabs (sqrt (qnormsq (dq_real a)) - 1) < r_eps * (sqrt (qnormsq (dq_real a)) + 1).
Proof. exact (c38_is_normalized_sound OK). Qed.
Print Assumptions C38_is_normalized_sound.

Theorem C38_is_normalized_complete : forall a : DQ,
  dq_normalized a = true \/ sqrt (qnormsq (dq_real a)) < r_eps
  \/ (Rabs (sqrt (qnormsq (dq_real a)) - 1) < r_eps * (sqrt (qnormsq (dq_real a)) + 1)
      /\ sqrt (qnormsq (dq_dual a)) <= r_max / 3) ->
  dq_is_normalized a = true.
Proof. exact (c38_is_normalized_complete OK). Qed.
Print Assumptions C38_is_normalized_complete.

(** is_normalized accepts the zero dual quaternion, and one with non-orthogonal
    parts *)
Theorem C38_is_normalized_refuted :
  dq_is_normalized (dq_zero : DQ) = true
  /\ exists a : DQ, dq_normalized a = false /\ dq_is_normalized a = true /\ ~ unit_dq a
       /\ dqval (dq_norm a) <> dqval dq_one.
Proof. exact (c38_is_normalized_refuted OK). Qed.
Print Assumptions C38_is_normalized_refuted.

(** decomposing and rebuilding: the parameters describe the motion *)
Theorem C39_screw_round_trip : forall a : DQ, unit_dq a -> Quat.q (dq_real a) <> v3_zeros ->
  r_eps <= q_get_angle (dq_real a) ->
  let '(l, m, theta, d) := dq_get_screw_parameters a in
  dqval (dq_new_from_screw_parameters l m theta d) = dqval a
  /\ unit3 l /\ v3_dot l m = 0 /\ 0 < theta <= 2 * PI
  /\ d = v3_dot (dq_get_translation a) l
  /\ q_to_rotation (dq_real a) = rodrigues l theta.
Proof. exact (c39_screw_round_trip OK). Qed.
Print Assumptions C39_screw_round_trip.

(** [l], [m] are the Pluecker coordinates of the screw axis: every point [p]
    that the motion moves by [d * l] lies on the line of moment [m] *)
Theorem C39_screw_axis : forall (a : DQ) p, unit_dq a -> Quat.q (dq_real a) <> v3_zeros ->
  r_eps <= q_get_angle (dq_real a) ->
  let '(l, m, theta, d) := dq_get_screw_parameters a in
  v3_add (m33_mul_v (q_to_rotation (dq_real a)) p) (dq_get_translation a) = v3_add p (v3_scale l d) ->
  v3_cross p l = m.
Proof. exact (c39_screw_axis OK). Qed.
Print Assumptions C39_screw_axis.

(** building and decomposing: angle in (0, 2 PI) *)
Theorem C39_screw_parameters : forall (l m : V3 R) theta d, unit3 l -> v3_dot l m = 0 ->
  r_eps <= theta < 2 * PI ->
  unit_dq (dq_new_from_screw_parameters l m theta d)
  /\ dq_get_screw_parameters (dq_new_from_screw_parameters l m theta d) = (l, m, theta, d).
Proof. exact (c39_screw_parameters OK). Qed.
Print Assumptions C39_screw_parameters.

Theorem C39_pow_partial : forall a : DQ, unit_dq a -> screw_regular a ->
  dqval (dq_pow a 0) = dqval dq_one /\ dqval (dq_pow a 1) = dqval a
  /\ (forall s t, dqval (dq_mul (dq_pow a s) (dq_pow a t)) = dqval (dq_pow a (s + t)))
  /\ (forall s, unit_dq (dq_pow a s)).
Proof. exact (c39_pow_partial OK). Qed.
Print Assumptions C39_pow_partial.

Theorem C39_pow_nat_partial : forall (a : DQ) n, unit_dq a -> screw_regular a ->
  dqval (dq_pow a (INR n)) = dqval (dq_iter a n).
Proof. exact (c39_pow_nat_partial OK). Qed.
Print Assumptions C39_pow_nat_partial.

(** pow on a motion whose rotation is below the tolerance: for a pure
    translation the translation comes out twice too long *)
Theorem C39_pow_translation : forall (t : V3 R) e,
  dq_get_translation (dq_pow (dq_new_from_translation t) e) = v3_scale t (2 * e).
Proof. exact c39_pow_translation. Qed.
Print Assumptions C39_pow_translation.

Theorem C39_pow_one_refuted : exists a : DQ, unit_dq a /\ dq_normalized a = true
  /\ dqval (dq_pow a 1) <> dqval a.
Proof. exact (c39_pow_one_refuted OK). Qed.
Print Assumptions C39_pow_one_refuted.

(** interpolation is a screw motion of constant rate from the start point to
    [b]; it never panics on unit dual quaternions *)
Theorem C40_screw_motion_partial : forall a b : DQ, unit_dq a -> unit_dq b ->
  screw_regular (dq_mul (dq_conj (lerp_start a b)) b) ->
  exists l m theta d, unit3 l /\ v3_dot l m = 0 /\
  dqval b = dqval (dq_mul (lerp_start a b) (dq_new_from_screw_parameters l m theta d)) /\
  forall tau, exists r, dq_screw_lerp a b tau = Ok r /\ unit_dq r
   /\ dqval r = dqval (dq_mul (lerp_start a b) (dq_new_from_screw_parameters l m (tau * theta) (tau * d))).
Proof. exact (c40_screw_motion_partial OK). Qed.
Print Assumptions C40_screw_motion_partial.

(** endpoints: the end always; the start when the sign flip does not happen, or
    when the start has no translation *)
Theorem C40_endpoints_partial : forall a b : DQ, unit_dq a -> unit_dq b ->
  screw_regular (dq_mul (dq_conj (lerp_start a b)) b) ->
  (exists r, dq_screw_lerp a b 1 = Ok r /\ dqval r = dqval b)
  /\ (exists r, dq_screw_lerp a b 0 = Ok r /\ dqval r = dqval (lerp_start a b)
      /\ (0 <= q0 (q_mul (dq_real a) (dq_real b)) -> dqval r = dqval a)
      /\ (dq_get_translation a = v3_zeros -> dq_to_homogeneous r = dq_to_homogeneous a)).
Proof. exact (c40_endpoints_partial OK). Qed.
Print Assumptions C40_endpoints_partial.

(** when the flip happens the interpolation starts at a different motion: the
    translation of [a] is negated *)
Theorem C40_start_refuted : exists a b r : DQ, unit_dq a /\ unit_dq b
  /\ screw_regular (dq_mul (dq_conj (lerp_start a b)) b)
  /\ dq_screw_lerp a b 0 = Ok r /\ dq_to_homogeneous r <> dq_to_homogeneous a.
Proof. exact (c40_start_refuted OK). Qed.
Print Assumptions C40_start_refuted.

(** relative motions that are pure translations: the end point is missed *)
Theorem C40_end_refuted : exists a b r : DQ, unit_dq a /\ unit_dq b
  /\ dq_screw_lerp a b 1 = Ok r /\ dq_to_homogeneous r <> dq_to_homogeneous b.
Proof. exact (c40_end_refuted OK). Qed.
Print Assumptions C40_end_refuted.

(** the real part of the quotient is right; the dual part is when the real part
    of the divisor commutes with both dual parts (in particular when it is a
    real number) *)
Theorem C41_div_mul_partial : forall a b c : DQ, dq_div a b = Ok c ->
  qval (dq_real (dq_mul c b)) = qval (dq_real a)
  /\ (qval (q_mul (dq_real b) (dq_dual a)) = qval (q_mul (dq_dual a) (dq_real b)) ->
      qval (q_mul (dq_real b) (dq_dual b)) = qval (q_mul (dq_dual b) (dq_real b)) ->
      dqval (dq_mul c b) = dqval a).
Proof. exact (c41_div_mul_partial OK). Qed.
Print Assumptions C41_div_mul_partial.

Theorem C41_div_panic_iff : forall a b : DQ, dq_div a b = Panic <-> qnormsq (dq_real b) * qnormsq (dq_real b) < r_eps.
Proof. exact (c41_div_panic_iff OK). Qed.
Print Assumptions C41_div_panic_iff.

Theorem C41_div_refuted : exists a b c : DQ, unit_dq a /\ unit_dq b /\ dq_div a b = Ok c
  /\ dqval (dq_mul c b) <> dqval a.
Proof. exact (c41_div_refuted OK). Qed.
Print Assumptions C41_div_refuted.

(** ** C56: logarithm *)
(** Specification of the flagged regular case: half the rotation vector in the
    real part, half the translation in the dual part *)
Theorem C56_log : forall a : DQ,
  (dq_log a = Ok None <-> dq_normalized a = false)
  /\ (dq_log a = Panic <-> dq_normalized a = true /\ q_get_axis (dq_real a) = None)
  /\ (forall b, dq_log a = Ok (Some b) -> dq_normalized a = true /\
       exists u, q_get_axis (dq_real a) = Some u
       /\ qval (dq_real b) = (0, q_get_angle (dq_real a) / 2 * vfun u 0, q_get_angle (dq_real a) / 2 * vfun u 1,
                               q_get_angle (dq_real a) / 2 * vfun u 2)
       /\ v3_scale (Quat.q (dq_dual b)) 2 = dq_get_translation a /\ q0 (dq_dual b) = 0).
Proof. exact c56_log. Qed.
Print Assumptions C56_log.

(** pure translations, the identity included, make it panic *)
Theorem C56_log_total_refuted : forall t : V3 R, dq_log (dq_new_from_translation t) = Panic
  /\ dq_log (dq_one : DQ) = Panic.
Proof. exact (c56_log_total_refuted OK). Qed.
Print Assumptions C56_log_total_refuted.

End R.
