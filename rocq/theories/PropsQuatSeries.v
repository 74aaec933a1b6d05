(** * PropsQuatSeries: exp, sin and cos of quaternions are the power series (C79) *)

From Coq Require Import List Arith Lia Bool Reals Lra Psatz.
From Verif Require Import Base Scalar Vec Mat2 Mat3 Mat4 Mat6 Slices MatLoops MatOps Quat Transf
  DualQuat RingDet Spec Entries DetEntries InstR RFacts TrigFacts ExpSeries ProofsRing ProofsInverse ProofsNorm
  ProofsQuat ProofsRigid ProofsRot ProofsQuatR ProofsQuatFlag ProofsQuatExp.
From Verif Require QSeries.
From Verif Require Import ProofsQuatSeries.
(** Concrete cases meeting the hypotheses: the Examples of ProofsQuatSeries.v and of Cases.v. *)
Local Open Scope R_scope.

Section R.
Context {K : RConsts} (OK : RConstsOk K).
Notation Q := (Quaternion R).

(** [exp] is the exponential series (every series has at most one sum, [hsum_unique]) *)
Theorem C79_exp_series : forall q : Q,
  v3_norm2 (Quat.q q) = 0 \/ r_eps < v3_norm2 (Quat.q q) -> is_qexp (qval q) (qval (q_exp q)).
Proof. exact (c79_exp_series OK). Qed.
Print Assumptions C79_exp_series.

Theorem C79_sin_cos_series : forall q : Q,
  v3_norm2 (Quat.q q) = 0 \/ r_eps < v3_dot (Quat.q q) (Quat.q q) ->
  q0 q = 0 \/ r_eps < Rabs (q0 q) ->
  is_qcos (qval q) (qval (q_cos q)) /\ exists s, q_sin q = Ok s /\ is_qsin (qval q) (qval s).
Proof. exact (c79_sin_cos_series OK). Qed.
Print Assumptions C79_sin_cos_series.

End R.
