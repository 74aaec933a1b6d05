(** * PropsPanic: which calls panic (C54)

    Everything here holds for every scalar type, in particular for IEEE floats
    with their NaNs and infinities. *)

From Coq Require Import List Arith ZArith Reals Bool Lra Lia.
From Flocq Require Import Core IEEE754.BinarySingleNaN.
From Verif Require Import Base Scalar Vec Mat2 Mat3 Mat4 Mat5 Mat6 Slices MatLoops MatOps Quat Transf DualQuat RingDet Spec Entries LoopFacts ProofsLoops QRFacts ProofsQR InstZ InstR RFacts InstF.
From Verif Require Import ProofsPanic.
(** Concrete cases meeting the hypotheses: the Examples of ProofsPanic.v and of Cases.v. *)
Import ListNotations.
Open Scope sc_scope.

Section Any.
Context {T : Type} {nT : Num T} {sT : Signed T} {oT : POrd T} {fT : Float T}.

(** ** matrices and vectors: always return *)
Theorem C54_inverse : forall d (A : mat T (dimn d)), returns (d_inverse d A).
Proof. exact c54_inverse. Qed.
Print Assumptions C54_inverse.

Theorem C54_qr : forall d (A : mat T (dimn d)), returns (d_qr d A).
Proof. exact c54_qr. Qed.
Print Assumptions C54_qr.

Theorem C54_normalize : forall d (v : arr T (dimn d)), returns (d_vnormalize d v)
  /\ (d_vnormalize d v = Ok None <-> d_vnorm2 d v =? zero = true).
Proof. exact c54_normalize. Qed.
Print Assumptions C54_normalize.

End Any.

Theorem C54_lu_panic_iff : forall T {nT : Num T} {sT : Signed T} {oT : POrd T} {fT : Float T},
  (zero : T) =? zero = true ->
  (forall x : T, zero <? x = true -> x =? zero = false) ->
  (forall x y z : T, x <? y = true -> y <? z = true -> x <? z = true) ->
  forall d (A : mat T (dimn d)),
  d_lu d A = Panic <-> forall j, j < dimn d -> zero <? abs (mfun A 0 j) = false.
Proof. exact @c54_lu_panic_iff. Qed.
Print Assumptions C54_lu_panic_iff.

Section Any.
Context {T : Type} {nT : Num T} {sT : Signed T} {oT : POrd T} {fT : Float T}.

(** ** slices *)
Theorem C54_find_max_min_panic_iff : forall l : list T,
  (find_max_min l = Panic <-> l = []) /\ (norm_inf l = Panic <-> l = []).
Proof. exact c54_find_max_min_panic_iff. Qed.
Print Assumptions C54_find_max_min_panic_iff.

Theorem C54_rotation_panic_iff : forall theta (v : V3 T),
  (q_rotation theta v = Panic <-> v3_norm2 v =? zero = true)
  /\ (axis_angle v = Panic <-> v3_norm2 v =? zero = true).
Proof. exact c54_rotation_panic_iff. Qed.
Print Assumptions C54_rotation_panic_iff.

Theorem C54_matrix_exponential : forall (A : M33 T) (B : M44 T),
  returns (matrix_exponential A) /\ returns (matrix_exponential6 B).
Proof. exact c54_matrix_exponential. Qed.
Print Assumptions C54_matrix_exponential.

(** ** quaternions *)
Theorem C54_quat_div_panic_iff : forall p q : Quaternion T,
  q_div p q = Panic <-> normalized q = false /\ nearly_zero (q_abs2 q) = true.
Proof. exact c54_quat_div_panic_iff. Qed.
Print Assumptions C54_quat_div_panic_iff.

Theorem C54_rot_trans_panic_iff : forall (q : Quaternion T) t,
  dq_new_from_rot_trans q t = Panic <-> normalized q = false /\ nearly_zero (q_norm2 q) = true.
Proof. exact c54_rot_trans_panic_iff. Qed.
Print Assumptions C54_rot_trans_panic_iff.

Theorem C54_dual_inverse_panic_iff : forall a : DualQuaternion T,
  dq_inverse a = Panic <->
  dq_normalized a = false /\ normalized (dq_real a) = false /\ nearly_zero (q_abs2 (dq_real a)) = true.
Proof. exact c54_dual_inverse_panic_iff. Qed.
Print Assumptions C54_dual_inverse_panic_iff.

Theorem C54_dual_div_panic_iff : forall a b : DualQuaternion T,
  dq_div a b = Panic <-> nearly_zero (q_abs2 (q_mul (dq_real b) (dq_real b))) = true.
Proof. exact c54_dual_div_panic_iff. Qed.
Print Assumptions C54_dual_div_panic_iff.

Theorem C54_screw_lerp_panic_iff : forall (a b : DualQuaternion T) t,
  dq_screw_lerp a b t = Panic <-> dq_normalized a = false /\
    (let s := if q_real (q_mul (dq_real a) (dq_real b)) <? zero then q_scale (dq_real a) (- one) else dq_real a in
     normalized s = false /\ nearly_zero (q_abs2 s) = true).
Proof. exact c54_screw_lerp_panic_iff. Qed.
Print Assumptions C54_screw_lerp_panic_iff.

Theorem C54_log_panic_iff : forall a : DualQuaternion T,
  dq_log a = Panic <-> dq_normalized a = true /\ q_get_axis (dq_real a) = None.
Proof. exact c54_log_panic_iff. Qed.
Print Assumptions C54_log_panic_iff.

Theorem C54_new_from_homogeneous_panic_iff : forall A : M44 T,
  dq_new_from_homogeneous A = Panic <->
  (let q := q_from_rotation (fst (get_parts_raw A)) in normalized q = false /\ nearly_zero (q_norm2 q) = true).
Proof. exact c54_new_from_homogeneous_panic_iff. Qed.
Print Assumptions C54_new_from_homogeneous_panic_iff.

Theorem C54_sin_panic_iff : forall a : Quaternion T,
  q_sin a = Panic <-> nearly_zero (q_abs2 (q_scale (q_argq a) (one + one))) = true.
Proof. exact c54_sin_panic_iff. Qed.
Print Assumptions C54_sin_panic_iff.

End Any.

Section F.
Context {prec emax : Z} {Hp : Prec_gt_0 prec} {He : Prec_lt_emax prec emax}.
Notation fl := (binary_float prec emax).
Context {O : FOracle fl}.

(** [lu()] of a float matrix panics exactly when the first row consists of
    zeros and NaNs *)
Theorem C54_float_lu_panic_iff : forall d (A : mat fl (dimn d)),
  d_lu d A = Panic <-> forall j, j < dimn d -> mfun A 0 j = B754_nan \/ exists s, mfun A 0 j = B754_zero s.
Proof. exact c54_float_lu_panic_iff. Qed.
Print Assumptions C54_float_lu_panic_iff.

End F.
