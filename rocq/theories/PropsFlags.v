(** * PropsFlags: what the cached [normalized] flags remember (C75)

    For every scalar type, hence for floats as well as for ideal numbers. *)

From Coq Require Import List Bool ZArith Reals Lra.
From Verif Require Import Base Scalar Vec Mat2 Mat3 Mat4 Slices Quat Transf DualQuat InstZ InstR RFacts ProofsInverse.
From Verif Require Import ProofsFlags.
(** Concrete cases meeting the hypotheses: the Examples of ProofsFlags.v and of Cases.v. *)
Import ListNotations.
Open Scope sc_scope.

Section AnyScalar.
Context {T : Type} {nT : Num T} {sT : Signed T} {oT : POrd T} {fT : Float T}.
Notation Q := (Quaternion T).
Notation DQ := (DualQuaternion T).

(** a quaternion that is trusted to be a unit: it is returned unchanged by
    normalize() and its inverse() is the conjugate, whatever its components *)
Theorem C75_quat_trusted : forall q : Q, normalized q = true ->
  q_normalize q = Some q /\ q_inverse q = Some (q_conj q).
Proof. exact c75_quat_trusted. Qed.
Print Assumptions C75_quat_trusted.

(** the same for dual quaternions: they never make inverse() panic, and log()
    looks at them *)
Theorem C75_dual_trusted : forall a : DQ, dq_normalized a = true ->
  dq_is_normalized a = true /\ dq_normalize a = Some a /\ dq_inverse a = Ok (dq_conj a)
  /\ dq_log a <> Ok None.
Proof. exact c75_dual_trusted. Qed.
Print Assumptions C75_dual_trusted.

(** a dual quaternion that is not trusted has no logarithm, however exact its
    components are *)
Theorem C75_dual_untrusted : forall a : DQ, dq_normalized a = false -> dq_log a = Ok None.
Proof. exact c75_dual_untrusted. Qed.
Print Assumptions C75_dual_untrusted.

(** constructors of unit quaternions are trusted *)
Theorem C75_quat_flagged :
  normalized (q_one : Q) = true
  /\ (forall p q : Q, q_normalize p = Some q -> normalized q = true)
  /\ (forall theta v (q : Q), q_rotation theta v = Ok q -> normalized q = true)
  /\ (forall y p r, normalized (q_from_euler_angles y p r : Q) = true)
  /\ (forall p : Q, normalized (q_normalize_q p) = true)
  /\ (forall p : Q, normalized (q_argq p) = true)
  /\ (forall v, nearly_zero (v3_norm2 v) = false -> normalized (q_rotation_norm_encoded v : Q) = true)
  /\ (forall m, normalized (fst (get_parts m) : Q) = true).
Proof. exact c75_quat_flagged. Qed.
Print Assumptions C75_quat_flagged.

(** arithmetic forgets: its results are measured again by normalize() *)
Theorem C75_quat_unflagged : forall (p q : Q) s v,
  normalized (q_add p q) = false /\ normalized (q_sub p q) = false /\ normalized (q_neg p) = false
  /\ normalized (q_mul p q) = false /\ normalized (q_scale p s) = false /\ normalized (q_div_s p s) = false
  /\ normalized (q_conj p) = false /\ normalized (q_derivative p v) = false
  /\ normalized (q_ln p) = false /\ normalized (q_new_real s : Q) = false
  /\ normalized (q_new_imag v : Q) = false /\ normalized (q_zero : Q) = false
  /\ (forall r, q_inverse p = Some r -> normalized r = false)
  /\ (forall r, q_div p q = Ok r -> normalized r = false)
  /\ (forall m, normalized (q_from_rotation m : Q) = false)
  /\ (forall t, (one <=? abs (q_dot p q)) = false -> normalized (q_slerp p q t) = false).
Proof. exact c75_quat_unflagged. Qed.
Print Assumptions C75_quat_unflagged.

(** constructors of unit dual quaternions are trusted *)
Theorem C75_dual_flagged :
  dq_normalized (dq_one : DQ) = true
  /\ (forall q : Q, dq_normalized (dq_new_from_rotation q) = true)
  /\ (forall v, dq_normalized (dq_new_from_point v : DQ) = true)
  /\ (forall v, dq_normalized (dq_new_from_translation v : DQ) = true)
  /\ (forall m, dq_normalized (dq_new_from_rotation_matrix m : DQ) = true)
  /\ (forall (q : Q) v a, dq_new_from_rot_trans q v = Ok a -> dq_normalized a = true)
  /\ (forall m (a : DQ), dq_new_from_homogeneous m = Ok a -> dq_normalized a = true)
  /\ (forall a b : DQ, dq_normalize a = Some b -> dq_normalized b = true).
Proof. exact c75_dual_flagged. Qed.
Print Assumptions C75_dual_flagged.

(** arithmetic forgets; so do new_from_array and new_from_screw_parameters; pow
    keeps the flag only for (nearly) pure translations *)
Theorem C75_dual_unflagged : forall (a b : DQ) (p q : Q) (u v : V4 T) (l m : V3 T) (w : arr T 7) (s t : T),
  dq_normalized (dq_new p q) = false /\ dq_normalized (dq_zero : DQ) = false
  /\ dq_normalized (dq_add a b) = false /\ dq_normalized (dq_sub a b) = false
  /\ dq_normalized (dq_neg a) = false /\ dq_normalized (dq_mul a b) = false
  /\ dq_normalized (dq_scale a s) = false /\ dq_normalized (dq_conj a) = false
  /\ dq_normalized (dq_conj_as_dual a) = false /\ dq_normalized (dq_conj_combined a) = false
  /\ dq_normalized (dq_norm a) = false /\ dq_normalized (dq_new_from_vecs u v) = false
  /\ dq_normalized (dq_new_from_array w) = false
  /\ dq_normalized (dq_new_from_screw_parameters l m s t) = false
  /\ dq_normalized (dq_pow a s) = nearly_zero ((one + one) * facos (q_real (dq_real a)))
  /\ (forall c, dq_div a b = Ok c -> dq_normalized c = false)
  /\ (forall c, dq_inverse a = Ok c -> dq_normalized c = false)
  /\ (forall c, dq_screw_lerp a b s = Ok c -> dq_normalized c = false).
Proof. exact c75_dual_unflagged. Qed.
Print Assumptions C75_dual_unflagged.

End AnyScalar.
#[local] Existing Instance f64_consts.

Theorem C75_log_refuted : exists a b : DualQuaternion R,
  dq_log a <> Ok None /\ dq_log b <> Ok None /\ dq_log (dq_mul a b) = Ok None.
Proof. exact c75_log_refuted. Qed.
Print Assumptions C75_log_refuted.
