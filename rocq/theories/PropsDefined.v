(** * PropsDefined: no undefined operation (C73)

    Each theorem compares a function on the reals with the same function on
    [option R] (InstE.v), where a division by zero, a root of a negative number,
    ... gives an error: on the stated inputs the two agree, so the real-number
    theorems elsewhere do not rest on the values Coq gives to undefined terms. *)

From Coq Require Import Reals Lra Bool List Arith Lia.
From Verif Require Import Base Scalar Vec Slices Mat2 Mat3 Mat4 Mat5 Mat6 MatLoops MatOps Quat Transf DualQuat
  RingDet Spec Entries InstR RFacts InstE.
From Verif Require Import ProofsDefined.
Import ListNotations.
Local Open Scope R_scope.

Section Defined.
Context {K : RConsts} (OK : RConstsOk K).

(** ** Quaternions *)
Theorem C73_normalize : forall a, q_normalize (up_q a) = option_map up_q (q_normalize a).
Proof. exact (c73_normalize OK). Qed.
Print Assumptions C73_normalize.

Theorem C73_inverse : forall a, q_inverse (up_q a) = option_map up_q (q_inverse a).
Proof. exact (c73_inverse OK). Qed.
Print Assumptions C73_inverse.

Theorem C73_div : forall a b, q_div (up_q a) (up_q b) = up_o up_q (q_div a b).
Proof. exact (c73_div OK). Qed.
Print Assumptions C73_div.

Theorem C73_rotation : forall theta v, q_rotation (Some theta) (up_v (n:=3) v) = up_o up_q (q_rotation theta v).
Proof. exact c73_rotation. Qed.
Print Assumptions C73_rotation.

Theorem C73_rotation_norm_encoded : forall v, q_rotation_norm_encoded (up_v (n:=3) v) = up_q (q_rotation_norm_encoded v).
Proof. exact (c73_rotation_norm_encoded OK). Qed.
Print Assumptions C73_rotation_norm_encoded.

Theorem C73_from_euler_angles : forall y p r,
  q_from_euler_angles (Some y) (Some p) (Some r) = up_q (q_from_euler_angles y p r).
Proof. exact c73_from_euler_angles. Qed.
Print Assumptions C73_from_euler_angles.

Theorem C73_get_angle : forall a, q_get_angle (up_q a) = Some (q_get_angle a).
Proof. exact c73_get_angle. Qed.
Print Assumptions C73_get_angle.

Theorem C73_get_axis : forall a, q_get_axis (up_q a) = option_map (up_v (n:=3)) (q_get_axis a).
Proof. exact (c73_get_axis OK). Qed.
Print Assumptions C73_get_axis.

Theorem C73_normalize_q : forall a, q_normalize_q (up_q a) = up_q (q_normalize_q a).
Proof. exact (c73_normalize_q OK). Qed.
Print Assumptions C73_normalize_q.

Theorem C73_argq : forall a, q_argq (up_q a) = up_q (q_argq a).
Proof. exact (c73_argq OK). Qed.
Print Assumptions C73_argq.

Theorem C73_exp : forall a, q_exp (up_q a) = up_q (q_exp a).
Proof. exact (c73_exp OK). Qed.
Print Assumptions C73_exp.

Theorem C73_ln : forall a, q_ln (up_q a) = up_q (q_ln a) <-> normalized a = true \/ q_dot a a <> 0.
Proof. exact (c73_ln OK). Qed.
Print Assumptions C73_ln.

Theorem C73_sqrt : forall a, normalized a = true \/ q_dot a a <> 0 -> q_sqrt (up_q a) = up_q (q_sqrt a).
Proof. exact (c73_sqrt OK). Qed.
Print Assumptions C73_sqrt.

Theorem C73_pow : forall a b, normalized a = true \/ q_dot a a <> 0 -> q_pow (up_q a) (up_q b) = up_q (q_pow a b).
Proof. exact (c73_pow OK). Qed.
Print Assumptions C73_pow.

Theorem C73_sin : forall a, q_sin (up_q a) = up_o up_q (q_sin a).
Proof. exact (c73_sin OK). Qed.
Print Assumptions C73_sin.

Theorem C73_cos : forall a, q_cos (up_q a) = up_q (q_cos a).
Proof. exact (c73_cos OK). Qed.
Print Assumptions C73_cos.

Theorem C73_slerp : forall a b t, q_slerp (up_q a) (up_q b) (Some t) = up_q (q_slerp a b t).
Proof. exact (c73_slerp OK). Qed.
Print Assumptions C73_slerp.

(** every matrix, rotation or not: the chosen [t] is at least one *)
Theorem C73_from_rotation : forall r : M33 R, q_from_rotation (up_m (n:=3) r) = up_q (q_from_rotation r).
Proof. exact c73_from_rotation. Qed.
Print Assumptions C73_from_rotation.

End Defined.
