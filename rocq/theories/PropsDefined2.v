(** * PropsDefined2: no undefined operation in dual quaternions and rigid
      transformations (C73, C74) *)

From Coq Require Import Reals Lra Bool List Arith Lia.
From Verif Require Import Base Scalar Vec Slices Mat2 Mat3 Mat4 Mat5 Mat6 MatLoops MatOps Quat Transf DualQuat
  RingDet Spec Entries InstR RFacts TrigFacts InstE ProofsDefined ProofsNorm ProofsQuat ProofsRigid ProofsRot ProofsQuatR
  ProofsDual ProofsExp.
From Verif Require Import ProofsDefined2.
Import ListNotations.
Local Open Scope R_scope.

Section Defined.
Context {K : RConsts} (OK : RConstsOk K).

Theorem C73_dual_inverse : forall a, dq_inverse (up_dq a) = up_o up_dq (dq_inverse a).
Proof. exact (c73_dual_inverse OK). Qed.
Print Assumptions C73_dual_inverse.

Theorem C73_dual_div : forall a b, dq_div (up_dq a) (up_dq b) = up_o up_dq (dq_div a b).
Proof. exact (c73_dual_div OK). Qed.
Print Assumptions C73_dual_div.

Theorem C73_dual_normalize : forall a, dq_normalize (up_dq a) = option_map up_dq (dq_normalize a).
Proof. exact (c73_dual_normalize OK). Qed.
Print Assumptions C73_dual_normalize.

Theorem C73_dual_is_normalized : forall a, dq_is_normalized (up_dq a) = dq_is_normalized a.
Proof. exact (c73_dual_is_normalized OK). Qed.
Print Assumptions C73_dual_is_normalized.

Theorem C73_dual_log : forall a, dq_log (up_dq a) = up_o (option_map up_dq) (dq_log a).
Proof. exact (c73_dual_log OK). Qed.
Print Assumptions C73_dual_log.

Theorem C73_dual_rot_trans : forall r t, dq_new_from_rot_trans (up_q r) (up_v (n:=3) t) = up_o up_dq (dq_new_from_rot_trans r t).
Proof. exact (c73_dual_rot_trans OK). Qed.
Print Assumptions C73_dual_rot_trans.

Theorem C73_dual_homogeneous : forall A, dq_new_from_homogeneous (up_m (n:=4) A) = up_o up_dq (dq_new_from_homogeneous A).
Proof. exact (c73_dual_homogeneous OK). Qed.
Print Assumptions C73_dual_homogeneous.

Theorem C73_dual_translation : forall t, dq_new_from_translation (up_v (n:=3) t) = up_dq (dq_new_from_translation t).
Proof. exact c73_dual_translation. Qed.
Print Assumptions C73_dual_translation.

Theorem C73_dual_array : forall x, dq_new_from_array (up_v (n:=7) x) = up_dq (dq_new_from_array x).
Proof. exact c73_dual_array. Qed.
Print Assumptions C73_dual_array.

Theorem C73_new_from_screw : forall l m t d,
  dq_new_from_screw_parameters (up_v (n:=3) l) (up_v (n:=3) m) (Some t) (Some d) = up_dq (dq_new_from_screw_parameters l m t d).
Proof. exact c73_new_from_screw. Qed.
Print Assumptions C73_new_from_screw.

Theorem C74_screw_parameters_partial : forall a,
  dq_get_screw_parameters (up_dq a) = up_screw (dq_get_screw_parameters a)
  <-> ~ (q0 (dq_real a) = 0 /\ v3_norm2 (q (dq_real a)) <> 0)
      /\ ~ (q0 (dq_real a) < 0 /\ v3_norm2 (q (dq_real a)) = 0)
      \/ Rabs (q_get_angle (dq_real a)) < r_eps.
Proof. exact (c74_screw_parameters_partial OK). Qed.
Print Assumptions C74_screw_parameters_partial.

(** powers: defined exactly when the scalar part is in (-1, 1] *)
Theorem C74_pow_partial : forall a x,
  dq_pow (up_dq a) (Some x) = up_dq (dq_pow a x) <-> -1 < q0 (dq_real a) <= 1.
Proof. exact (c74_pow_partial OK). Qed.
Print Assumptions C74_pow_partial.

End Defined.
