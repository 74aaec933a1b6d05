(** * PropsBasic: scalar division (C57), zero tests and equality (C58, C59),
      slice products (C60) *)

From Coq Require Import List Arith Lia Bool Ring ZArith Reals Lra.
From Verif Require Import Base Scalar Vec Mat2 Mat3 Mat4 Mat5 Mat6 Slices MatLoops MatOps
  Quat Transf DualQuat RingDet Spec Entries InstZ InstR RFacts ProofsQuat ProofsRigid.
From Verif Require Import ProofsBasic.
(** Concrete cases meeting the hypotheses: the Examples of ProofsBasic.v and of Cases.v. *)
Import ListNotations.
Open Scope sc_scope.

Section AnyScalar.
Context {T : Type} {nT : Num T} {sT : Signed T} {oT : POrd T} {fT : Float T}.

Theorem C57_div_entry : forall d (A : mat T (dimn d)) s i j, i < dimn d -> j < dimn d ->
  mget (d_div d A s) i j = Ok (mfun A i j / s).
Proof. exact c57_div_entry. Qed.
Print Assumptions C57_div_entry.

Theorem C57_vdiv_entry : forall d (v : arr T (dimn d)) s i, i < dimn d ->
  aget (d_vdiv d v s) i = Ok (vfun v i / s).
Proof. exact c57_vdiv_entry. Qed.
Print Assumptions C57_vdiv_entry.

Theorem C57_quat_div_entry : forall (a : Quaternion T) s,
  qval (q_div_s a s) = (let '(w, x, y, z) := qval a in (w / s, x / s, y / s, z / s))
  /\ normalized (q_div_s a s) = false.
Proof. exact c57_quat_div_entry. Qed.
Print Assumptions C57_quat_div_entry.

(** for every element type, floats included *)
Theorem C58_is_zero : forall d (A : mat T (dimn d)),
  d_is_zero d A = true <-> forall i j, i < dimn d -> j < dimn d -> mfun A i j =? zero = true.
Proof. exact c58_is_zero. Qed.
Print Assumptions C58_is_zero.

Theorem C58_vis_zero : forall d (v : arr T (dimn d)),
  d_vis_zero d v = true <-> forall i, i < dimn d -> vfun v i =? zero = true.
Proof. exact c58_vis_zero. Qed.
Print Assumptions C58_vis_zero.

(** derived [==] is equality when the element type's [==] is *)
Theorem C58_eq : (forall x y : T, x =? y = true <-> x = y) ->
  forall n (A B : mat T n), aeqb (aeqb eqb) A B = true <-> A = B.
Proof. exact c58_eq. Qed.
Print Assumptions C58_eq.

Theorem C58_veq : (forall x y : T, x =? y = true <-> x = y) ->
  forall n (v w : arr T n), aeqb eqb v w = true <-> v = w.
Proof. exact c58_veq. Qed.
Print Assumptions C58_veq.

Theorem C58_zeros_is_zero : (zero =? zero) = true -> forall d, d_is_zero d (d_zeros d) = true /\ d_vis_zero d (d_vzeros d) = true.
Proof. exact c58_zeros_is_zero. Qed.
Print Assumptions C58_zeros_is_zero.

Theorem C58_ones : forall d i, i < dimn d -> aget (d_vones d) i = Ok one.
Proof. exact c58_ones. Qed.
Print Assumptions C58_ones.

(** ** C59: equality of quaternions and dual quaternions *)
Theorem C59_eq_iff : (forall x y : T, x =? y = true <-> x = y) ->
  forall a b : Quaternion T, q_eqb a b = true <-> qval a = qval b /\ normalized a = normalized b.
Proof. exact c59_eq_iff. Qed.
Print Assumptions C59_eq_iff.

Theorem C59_dual_eq_iff : (forall x y : T, x =? y = true <-> x = y) ->
  forall a b : DualQuaternion T, dq_eqb a b = true <-> dqval a = dqval b /\ normalized (dq_real a) = normalized (dq_real b)
    /\ normalized (dq_dual a) = normalized (dq_dual b) /\ dq_normalized a = dq_normalized b.
Proof. exact c59_dual_eq_iff. Qed.
Print Assumptions C59_dual_eq_iff.

(** unflagged values, the ones that arithmetic produces *)
Theorem C59_is_zero_partial : (forall x y : T, x =? y = true <-> x = y) ->
  forall a : Quaternion T, normalized a = false -> (q_is_zero a = true <-> qval a = (zero, zero, zero, zero)).
Proof. exact c59_is_zero_partial. Qed.
Print Assumptions C59_is_zero_partial.

Theorem C59_dual_is_zero_partial : (forall x y : T, x =? y = true <-> x = y) ->
  forall a : DualQuaternion T, normalized (dq_real a) = false -> normalized (dq_dual a) = false -> dq_normalized a = false ->
  (dq_is_zero a = true <-> dqval a = ((zero, zero, zero, zero), (zero, zero, zero, zero))).
Proof. exact c59_dual_is_zero_partial. Qed.
Print Assumptions C59_dual_is_zero_partial.

(** ** C60: slice products *)
Theorem C60_dot_panic_iff : forall x y : list T, dot x y = Panic <-> length x <> length y.
Proof. exact c60_dot_panic_iff. Qed.
Print Assumptions C60_dot_panic_iff.

Theorem C60_project_panic_iff : forall x y : list T, project_x_over_y x y = Panic <-> length x <> length y.
Proof. exact c60_project_panic_iff. Qed.
Print Assumptions C60_project_panic_iff.

End AnyScalar.

(** [one() * one() == one()] is false *)
Theorem C59_eq_refuted : exists a b : Quaternion Z,
  a = q_mul q_one q_one /\ b = q_one /\ qval a = qval b /\ q_eqb a b = false.
Proof. exact c59_eq_refuted. Qed.
Print Assumptions C59_eq_refuted.

Theorem C59_dual_eq_refuted : exists a b : DualQuaternion Z,
  a = dq_mul dq_one dq_one /\ b = dq_one /\ dqval a = dqval b /\ dq_eqb a b = false.
Proof. exact c59_dual_eq_refuted. Qed.
Print Assumptions C59_dual_eq_refuted.

(** a zero value built from a quaternion is not [is_zero()] *)
Theorem C59_is_zero_refuted : exists a : DualQuaternion Z,
  a = dq_new_from_rotation q_zero /\ dqval a = dqval dq_zero /\ dq_is_zero a = false.
Proof. exact c59_is_zero_refuted. Qed.
Print Assumptions C59_is_zero_refuted.

Section AnyRing.
Context {T : Type} {nT : Num T} {sT : Signed T}.
Variable RT : RingLaws T.

(** the inner product of the two slices *)
Theorem C60_dot : forall x y : list T, length x = length y ->
  dot x y = Ok (sumn (length x) (fun k => nth k x zero * nth k y zero)).
Proof. exact (c60_dot RT). Qed.
Print Assumptions C60_dot.

End AnyRing.

Section Real.
Context {K : RConsts} (OK : RConstsOk K).
Local Open Scope R_scope.

Theorem C57_div_scale : forall d (A : mat R (dimn d)) s, s <> 0 ->
  d_scale d (d_div d A s) s = A /\ d_div d (d_scale d A s) s = A /\ d_div d A s = d_scale d A (/ s).
Proof. exact c57_div_scale. Qed.
Print Assumptions C57_div_scale.

Theorem C57_vdiv_scale : forall d (A : arr R (dimn d)) s, s <> 0 ->
  d_vscale d (d_vdiv d A s) s = A /\ d_vdiv d (d_vscale d A s) s = A /\ d_vdiv d A s = d_vscale d A (/ s).
Proof. exact c57_vdiv_scale. Qed.
Print Assumptions C57_vdiv_scale.

Theorem C57_quat_div_scale : forall (a : Quaternion R) s, s <> 0 ->
  qval (q_scale (q_div_s a s) s) = qval a /\ qval (q_div_s (q_scale a s) s) = qval a.
Proof. exact c57_quat_div_scale. Qed.
Print Assumptions C57_quat_div_scale.

Theorem C58_is_zero_R : forall d (A : mat R (dimn d)) (v : arr R (dimn d)),
  (d_is_zero d A = true <-> A = d_zeros d) /\ (d_vis_zero d v = true <-> v = d_vzeros d).
Proof. exact c58_is_zero_R. Qed.
Print Assumptions C58_is_zero_R.

(** [project_x_over_y] is the coefficient of the orthogonal projection: what is
    left of x is orthogonal to y *)
Theorem C60_project : forall x y : list R, length x = length y ->
  (exists k, (k < length y)%nat /\ nth k y 0 <> 0) -> exists p, project_x_over_y x y = Ok p
  /\ sumn (length x) (fun k => (nth k x 0 - p * nth k y 0) * nth k y 0) = 0.
Proof. exact c60_project. Qed.
Print Assumptions C60_project.

End Real.
