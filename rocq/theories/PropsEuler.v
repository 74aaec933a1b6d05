(** * PropsEuler: C31, rotation_to_euler *)

From Coq Require Import List Arith Lia Bool Reals Lra Psatz.
From Verif Require Import Base Scalar Vec Mat2 Mat3 Mat4 Mat6 Slices MatLoops MatOps Quat Transf
  DualQuat RingDet Spec Entries DetEntries InstR RFacts TrigFacts ProofsRing ProofsInverse ProofsNorm
  ProofsQuat ProofsRigid ProofsRot ProofsQuatR.
From Verif Require Import ProofsEuler.
(** Concrete cases meeting the hypotheses: the Examples of ProofsEuler.v and of Cases.v. *)
Import ListNotations.
Local Open Scope R_scope.

Section R.
Context {K : RConsts} (OK : RConstsOk K).

Theorem C31_pitch_range : forall r : M33 R, - (PI / 2) <= pitch_of r <= PI / 2.
Proof. exact c31_pitch_range. Qed.
Print Assumptions C31_pitch_range.

(** exact at gimbal lock and outside the tolerance of the test *)
Theorem C31_exact : forall r : M33 R, SO3 r ->
  cos_pitch r = 0 \/ 4 * r_eps <= cos_pitch r -> rebuilt r = r.
Proof. exact (c31_exact OK). Qed.
Print Assumptions C31_exact.

(** for every rotation each entry is right up to eight epsilon *)
Theorem C31_approx : forall r : M33 R, SO3 r -> forall i j, (i < 3)%nat -> (j < 3)%nat ->
  Rabs (mfun (rebuilt r) i j - mfun r i j) <= 8 * r_eps.
Proof. exact (c31_approx OK). Qed.
Print Assumptions C31_approx.

(** inside the tolerance the roll is dropped *)
Theorem C31_exact_everywhere_refuted : exists r : M33 R, SO3 r /\ rebuilt r <> r.
Proof. exact (c31_exact_everywhere_refuted OK). Qed.
Print Assumptions C31_exact_everywhere_refuted.

End R.
