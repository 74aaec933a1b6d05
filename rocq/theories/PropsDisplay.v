(** * PropsDisplay: the text shown for vectors, matrices, quaternions and dual
      quaternions (C70), what formatting does besides (C71), shape, constants,
      boolean and (C72) *)

From Coq Require Import String Ascii List Arith Lia Bool Ring ZArith Reals.
From Verif Require Import Base Scalar Vec Mat2 Mat3 MatOps Quat DualQuat Display RingDet Spec Entries
  InstZ ProofsQuat.
From Verif Require Import ProofsDisplay.
(** Concrete cases meeting the hypotheses: the Examples of ProofsDisplay.v and of Cases.v. *)
Import ListNotations.
Open Scope string_scope.

Section Text.
Context {T : Type} {dT : Display T}.

(** ** C70 *)
(** a vector is shown as its elements in order, between brackets, on one line *)
Theorem C70_vector_text : forall d (v : arr T (dimn d)) s x0,
  dest (d_vfmt d v s) = dest s ++ vector_text v x0.
Proof. exact c70_vector_text. Qed.
Print Assumptions C70_vector_text.

(** a matrix is shown row by row, one line each, elements in column order: first
    column to the left, last to the right, the others centred *)
Theorem C70_matrix_text : forall d (A : mat T (dimn d)) s x0,
  dest (d_fmt d A s) = dest s ++ matrix_text A x0.
Proof. exact c70_matrix_text. Qed.
Print Assumptions C70_matrix_text.

(** a quaternion is its scalar part, then its vector part as a vector *)
Theorem C70_quaternion_text : forall (a : Quaternion T) s x0,
  dest (q_fmt a s) = dest s ++ "q0: " ++ show (mkSpec Center 3 2) (q0 a) ++ ", q:" ++ vector_text (n := 3) (q a) x0.
Proof. exact c70_quaternion_text. Qed.
Print Assumptions C70_quaternion_text.

(** a dual quaternion is its real part, then its dual part *)
Theorem C70_dual_text : forall (a : DualQuaternion T) s,
  dest (dq_fmt a s) =
  dest s ++ "real: " ++ format (q_fmt (q_real_ a)) ++ LF ++ "dual: " ++ format (q_fmt (q_dual_ a)).
Proof. exact c70_dual_text. Qed.
Print Assumptions C70_dual_text.

(** ** C71: vectors, quaternions and dual quaternions only append to the
       destination; a matrix also prints an empty line on the standard output *)
Theorem C71_no_output_partial :
  (forall d (v : arr T (dimn d)) s, stdout (d_vfmt d v s) = stdout s)
  /\ (forall (a : Quaternion T) s, stdout (q_fmt a s) = stdout s)
  /\ (forall (a : DualQuaternion T) s, stdout (dq_fmt a s) = stdout s).
Proof. exact c71_no_output_partial. Qed.
Print Assumptions C71_no_output_partial.

Theorem C71_matrix_prints : forall d (A : mat T (dimn d)) s,
  stdout (d_fmt d A s) = stdout s ++ LF.
Proof. exact c71_matrix_prints. Qed.
Print Assumptions C71_matrix_prints.

End Text.

(** whatever the elements and however they are shown, showing a matrix is not free
    of side effects *)
Theorem C71_no_output_refuted : forall (T : Type) (dT : Display T) d (A : mat T (dimn d)),
  exists s, stdout (d_fmt d A s) <> stdout s.
Proof. exact c71_no_output_refuted. Qed.
Print Assumptions C71_no_output_refuted.

Theorem C72_shape : forall (T : Type) d (A : mat T (dimn d)), shape A = (dimn d, dimn d).
Proof. exact c72_shape. Qed.
Print Assumptions C72_shape.

Theorem C72_bitand : forall (a b : V4 bool) i x y,
  aget a i = Ok x -> aget b i = Ok y -> aget (v4_bitand a b) i = Ok (x && y)%bool.
Proof. exact c72_bitand. Qed.
Print Assumptions C72_bitand.

Section Num.
Context {T : Type} {nT : Num T}.

Theorem C72_from_array : forall (v : arr T 4),
  qval (q_from_array v) = (vfun v 0, vfun v 1, vfun v 2, vfun v 3)
  /\ normalized (q_from_array v) = false.
Proof. exact c72_from_array. Qed.
Print Assumptions C72_from_array.

Theorem C72_new_from : forall a b c e : T,
  mfun (m22_new_from a b c e) 0 0 = a /\ mfun (m22_new_from a b c e) 0 1 = b
  /\ mfun (m22_new_from a b c e) 1 0 = c /\ mfun (m22_new_from a b c e) 1 1 = e.
Proof. exact c72_new_from. Qed.
Print Assumptions C72_new_from.

End Num.

Section Laws.
Context {T : Type} {nT : Num T} {sT : Signed T}.
Variable RT : RingLaws T.
Open Scope sc_scope.

Theorem C72_zeros : forall d (v : arr T (dimn d)),
  d_vadd d (d_vZEROS d) v = v /\ d_vadd d v (d_vZEROS d) = v /\ d_vZEROS d = d_vzeros d.
Proof. exact (c72_zeros RT). Qed.
Print Assumptions C72_zeros.

Theorem C72_m22 : forall A : M22 T,
  m22_add M22_ZEROS A = A /\ m22_mul M22_IDENT A = A /\ m22_mul A M22_IDENT = A.
Proof. exact (c72_m22 RT). Qed.
Print Assumptions C72_m22.

(** the axes are a right-handed frame, and any vector is the combination of them
    by its own coordinates *)
Theorem C72_axes : v3_cross X_AXIS Y_AXIS = Z_AXIS /\ v3_cross Y_AXIS Z_AXIS = X_AXIS
  /\ v3_cross Z_AXIS X_AXIS = Y_AXIS
  /\ (forall v : V3 T, v = v3_add (v3_add (v3_scale X_AXIS (vfun v 0)) (v3_scale Y_AXIS (vfun v 1)))
                                (v3_scale Z_AXIS (vfun v 2)))
  /\ (forall v : V2 T, v = v2_add (v2_scale V2_X_AXIS (vfun v 0)) (v2_scale V2_Y_AXIS (vfun v 1))).
Proof. exact (c72_axes RT). Qed.
Print Assumptions C72_axes.

End Laws.
