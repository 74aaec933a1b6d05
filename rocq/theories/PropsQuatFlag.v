(** * PropsQuatFlag: C32, normalize / inverse / division and the cached flag *)

From Coq Require Import List Arith Lia Bool Reals Lra Psatz.
From Verif Require Import Base Scalar Vec Mat2 Mat3 Mat4 Mat6 Slices MatLoops MatOps Quat Transf
  DualQuat RingDet Spec Entries DetEntries InstR RFacts TrigFacts ProofsRing ProofsInverse ProofsNorm
  ProofsQuat ProofsRigid ProofsRot ProofsQuatR.
From Verif Require Import ProofsQuatFlag.
(** Concrete cases meeting the hypotheses: the Examples of ProofsQuatFlag.v and of Cases.v. *)
Import ListNotations.
Local Open Scope R_scope.

Section R.
Context {K : RConsts} (OK : RConstsOk K).
Notation Q := (Quaternion R).

(** ** normalize *)
Theorem C32_normalize_none_iff : forall q : Q,
  q_normalize q = None <-> normalized q = false /\ sqrt (qnormsq q) < r_eps.
Proof. exact (c32_normalize_none_iff OK). Qed.
Print Assumptions C32_normalize_none_iff.

(** a unit quaternion with the same direction *)
Theorem C32_normalize_some : forall q p : Q, honest q -> q_normalize q = Some p ->
  normalized p = true /\ unit_quat p
  /\ 0 < sqrt (qnormsq q) /\ qval (q_scale p (sqrt (qnormsq q))) = qval q.
Proof. exact (c32_normalize_some OK). Qed.
Print Assumptions C32_normalize_some.

(** ** inverse and division *)
Theorem C32_inverse_none_iff : forall q : Q,
  q_inverse q = None <-> normalized q = false /\ qnormsq q < r_eps.
Proof. exact (c32_inverse_none_iff OK). Qed.
Print Assumptions C32_inverse_none_iff.

Theorem C32_inverse_two_sided : forall q p : Q, honest q -> q_inverse q = Some p ->
  qval (q_mul q p) = (1, 0, 0, 0) /\ qval (q_mul p q) = (1, 0, 0, 0).
Proof. exact (c32_inverse_two_sided OK). Qed.
Print Assumptions C32_inverse_two_sided.

Theorem C32_inverse_unique : forall q p p' : Q, honest q -> q_inverse q = Some p ->
  qval (q_mul q p') = (1, 0, 0, 0) -> qval p' = qval p.
Proof. exact (c32_inverse_unique OK). Qed.
Print Assumptions C32_inverse_unique.

Theorem C32_div_mul : forall p q r : Q, honest q -> q_div p q = Ok r ->
  qval (q_mul r q) = qval p.
Proof. exact (c32_div_mul OK). Qed.
Print Assumptions C32_div_mul.

Theorem C32_div_panic_iff : forall p q : Q,
  q_div p q = Panic <-> normalized q = false /\ qnormsq q < r_eps.
Proof. exact (c32_div_panic_iff OK). Qed.
Print Assumptions C32_div_panic_iff.

(** normalize_q always yields a flagged unit quaternion; below the tolerance it
    is the arbitrary value (0, x) *)
Theorem C32_normalize_q : forall q : Q,
  unit_quat (q_normalize_q q) /\ normalized (q_normalize_q q) = true
  /\ (r_eps < qnormsq q -> qval (q_scale (q_normalize_q q) (sqrt (qnormsq q))) = qval q)
  /\ (qnormsq q <= r_eps -> qval (q_normalize_q q) = (0, 1, 0, 0)).
Proof. exact (c32_normalize_q OK). Qed.
Print Assumptions C32_normalize_q.

(** without [exp], [sqrt] and [pow] the flag is always right *)
Theorem C32_flag_partial : forall q : Q, api false q -> honest q.
Proof. exact (c32_flag_partial OK). Qed.
Print Assumptions C32_flag_partial.

(** with them it is right up to three epsilon *)
Theorem C32_flag_approx : forall q : Q, api true q -> normalized q = true ->
  Rabs (qnormsq q - 1) <= 3 * r_eps.
Proof. exact (c32_flag_approx OK). Qed.
Print Assumptions C32_flag_approx.

(** but not exactly: [exp] of a tiny real quaternion is flagged although its
    norm is not one, and its [inverse] is not an inverse *)
Theorem C32_flag_refuted : exists q : Q, api true q /\ normalized q = true /\ qnormsq q <> 1
  /\ exists p, q_inverse q = Some p /\ qval (q_mul q p) <> (1, 0, 0, 0).
Proof. exact (c32_flag_refuted OK). Qed.
Print Assumptions C32_flag_refuted.

End R.
