(** * PropsQuatExp: C33, exp / ln / sqrt / pow of quaternions; C55, sin / cos *)

From Coq Require Import List Arith Lia Bool Reals Lra Psatz.
From Verif Require Import Base Scalar Vec Mat2 Mat3 Mat4 Mat6 Slices MatLoops MatOps Quat Transf
  DualQuat RingDet Spec Entries DetEntries InstR RFacts TrigFacts ProofsRing ProofsInverse ProofsNorm
  ProofsQuat ProofsRigid ProofsRot ProofsQuatR ProofsQuatFlag.
From Verif Require Import ProofsQuatExp.
(** Concrete cases meeting the hypotheses: the Examples of ProofsQuatExp.v and of Cases.v. *)
Import ListNotations.
Local Open Scope R_scope.

Section R.
Context {K : RConsts} (OK : RConstsOk K).
Notation Q := (Quaternion R).

(** ** exp *)
Theorem C33_exp_polar : forall (q : Q) x s u, unit3 u -> s = 0 \/ r_eps < Rabs s ->
  qval q = (x, s * vfun u 0, s * vfun u 1, s * vfun u 2) ->
  qval (q_exp q) = qpolar (exp x) s u.
Proof. exact (c33_exp_polar OK). Qed.
Print Assumptions C33_exp_polar.

(** the exponential of a pure quaternion is a unit quaternion *)
Theorem C33_exp_pure_unit_partial : forall q : Q, q0 q = 0 ->
  v3_norm2 (Quat.q q) = 0 \/ r_eps < v3_norm2 (Quat.q q) -> unit_quat (q_exp q).
Proof. exact (c33_exp_pure_unit_partial OK). Qed.
Print Assumptions C33_exp_pure_unit_partial.

(** in the tolerance zone the norm is off by at most epsilon squared *)
Theorem C33_exp_pure_unit_approx : forall q : Q, q0 q = 0 ->
  1 <= qnormsq (q_exp q) <= 1 + r_eps * r_eps.
Proof. exact (c33_exp_pure_unit_approx OK). Qed.
Print Assumptions C33_exp_pure_unit_approx.

Theorem C33_exp_pure_unit_refuted : exists q : Q, q0 q = 0 /\ ~ unit_quat (q_exp q).
Proof. exact (c33_exp_pure_unit_refuted OK). Qed.
Print Assumptions C33_exp_pure_unit_refuted.

(** exp inverts ln *)
Theorem C33_exp_ln_partial : forall q : Q, honest q -> qval q <> (0, 0, 0, 0) ->
  clear_of_real_axis q -> qval (q_exp (q_ln q)) = qval q.
Proof. exact (c33_exp_ln_partial OK). Qed.
Print Assumptions C33_exp_ln_partial.

(** for every non-zero quaternion the error is at most two epsilon (relative) *)
Theorem C33_exp_ln_approx : forall q : Q, honest q -> qval q <> (0, 0, 0, 0) ->
  q0 (q_exp (q_ln q)) = q0 q
  /\ v3_norm2 (v3_sub (Quat.q (q_exp (q_ln q))) (Quat.q q)) <= 2 * r_eps * sqrt (qnormsq q).
Proof. exact (c33_exp_ln_approx OK). Qed.
Print Assumptions C33_exp_ln_approx.

(** near the real axis the logarithm is put on the x axis whatever the axis of
    the quaternion *)
Theorem C33_exp_ln_refuted : exists q : Q, honest q /\ qval q <> (0, 0, 0, 0)
  /\ qval (q_exp (q_ln q)) <> qval q.
Proof. exact (c33_exp_ln_refuted OK). Qed.
Print Assumptions C33_exp_ln_refuted.

(** ** ln inverts exp *)
Theorem C33_ln_exp_partial : forall q : Q,
  let m := v3_norm2 (Quat.q q) in
  m < PI -> (m = 0 /\ r_eps <= Rabs (q0 q)) \/ (r_eps < m /\ r_eps < sin m) ->
  qval (q_ln (q_exp q)) = qval q.
Proof. exact (c33_ln_exp_partial OK). Qed.
Print Assumptions C33_ln_exp_partial.

(** Close to a half-turn the axis is lost: the result differs from [q] by more
    than one. *)
Theorem C33_ln_exp_refuted : exists q : Q, v3_norm2 (Quat.q q) < PI
  /\ 1 < Rabs (vfun (Quat.q (q_ln (q_exp q))) 1 - vfun (Quat.q q) 1).
Proof. exact (c33_ln_exp_refuted OK). Qed.
Print Assumptions C33_ln_exp_refuted.

(** ** sqrt and pow *)
Theorem C33_sqrt_partial : forall q : Q, honest q -> qval q <> (0, 0, 0, 0) ->
  v3_norm2 (Quat.q q) = 0 \/ 2 * r_eps * sqrt (qnormsq q) < v3_norm2 (Quat.q q) ->
  qval (q_mul (q_sqrt q) (q_sqrt q)) = qval q.
Proof. exact (c33_sqrt_partial OK). Qed.
Print Assumptions C33_sqrt_partial.

(** pow with a natural exponent is the iterated product *)
Theorem C33_pow_nat_partial : forall (q : Q) k, honest q -> qval q <> (0, 0, 0, 0) ->
  clear_of_real_axis q -> qval (q_pow q (q_new_real (INR k))) = qval (qpow_nat q k).
Proof. exact (c33_pow_nat_partial OK). Qed.
Print Assumptions C33_pow_nat_partial.

(** real exponents add up, wherever the three exponentials are exact *)
Theorem C33_pow_add_partial : forall (q : Q) s t, honest q -> qval q <> (0, 0, 0, 0) ->
  clear_of_real_axis q ->
  (forall x, x = s \/ x = t \/ x = s + t ->
     x = 0 \/ r_eps < Rabs x * v3_norm2 (Quat.q q) / sqrt (qnormsq q) \/ v3_norm2 (Quat.q q) = 0 /\ 1 <= Rabs x) ->
  qval (q_mul (q_pow q (q_new_real s)) (q_pow q (q_new_real t))) = qval (q_pow q (q_new_real (s + t))).
Proof. exact (c33_pow_add_partial OK). Qed.
Print Assumptions C33_pow_add_partial.

(** close to the positive real axis the square root, too, forgets the axis *)
Theorem C33_sqrt_refuted : exists q : Q, honest q /\ qval q <> (0, 0, 0, 0)
  /\ qval (q_mul (q_sqrt q) (q_sqrt q)) <> qval q.
Proof. exact (c33_sqrt_refuted OK). Qed.
Print Assumptions C33_sqrt_refuted.

(** [sin] never panics, whatever its argument *)
Theorem C55_sin_total : forall q : Q, q_sin q <> Panic.
Proof. exact (c55_sin_total OK). Qed.
Print Assumptions C55_sin_total.

(** outside the tolerance zones sin and cos are the analytic functions *)
Theorem C55_sin_cos : forall (q : Q) a m u, unit3 u ->
  0 <= m -> m = 0 \/ r_eps < m * m -> a = 0 \/ r_eps < Rabs a ->
  qval q = (a, m * vfun u 0, m * vfun u 1, m * vfun u 2) ->
  (exists s, q_sin q = Ok s /\
     qval s = (sin a * cosh m, cos a * sinh m * vfun u 0, cos a * sinh m * vfun u 1, cos a * sinh m * vfun u 2))
  /\ qval (q_cos q) =
     (cos a * cosh m, - sin a * sinh m * vfun u 0, - sin a * sinh m * vfun u 1, - sin a * sinh m * vfun u 2).
Proof. exact (c55_sin_cos OK). Qed.
Print Assumptions C55_sin_cos.

(** hence the Pythagorean identity *)
Theorem C55_pythagoras : forall (q s : Q),
  v3_norm2 (Quat.q q) = 0 \/ r_eps < v3_dot (Quat.q q) (Quat.q q) ->
  q0 q = 0 \/ r_eps < Rabs (q0 q) -> q_sin q = Ok s ->
  qval (q_add (q_mul s s) (q_mul (q_cos q) (q_cos q))) = (1, 0, 0, 0).
Proof. exact (c55_pythagoras OK). Qed.
Print Assumptions C55_pythagoras.

End R.
