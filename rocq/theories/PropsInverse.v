(** * PropsInverse: C06, C07 (matrix inverse in exact real arithmetic) *)

From Coq Require Import List Arith Lia Bool Reals Lra.
From Verif Require Import Base Scalar Vec Mat2 Mat3 Mat4 Mat5 Mat6 Slices MatLoops MatOps
  RingDet Spec LoopFacts Entries DetEntries InstR RFacts InvFacts.
From Verif Require Import ProofsInverse.
(** Concrete cases meeting the hypotheses: the Examples of ProofsInverse.v and of Cases.v. *)
Import ListNotations.
Local Open Scope R_scope.

Section Props.
Context {K : RConsts} (OK : RConstsOk K).

Theorem C06_inverse_two_sided : forall d (A B : mat R (dimn d)),
  d_inverse d A = Ok (Some B) ->
  d_mul d A B = d_identity d /\ d_mul d B A = d_identity d.
Proof. exact (c06_inverse_two_sided OK). Qed.
Print Assumptions C06_inverse_two_sided.

Theorem C06_inverse_total : forall d (A : mat R (dimn d)), d_inverse d A <> Panic.
Proof. exact (c06_inverse_total OK). Qed.
Print Assumptions C06_inverse_total.

(** The exact condition: [None] iff the determinant is below [epsilon] in
    absolute value. *)
Theorem C07_inverse_none_iff : forall d (A : mat R (dimn d)),
  d_inverse d A = Ok None <-> Rabs (ldet (dimn d) (mfun A)) < r_eps.
Proof. exact (c07_inverse_none_iff OK). Qed.
Print Assumptions C07_inverse_none_iff.

(** the holding half: singular matrices give [None] *)
Theorem C07_inverse_partial : forall d (A : mat R (dimn d)),
  ldet (dimn d) (mfun A) = 0 -> d_inverse d A = Ok None.
Proof. exact (c07_inverse_partial OK). Qed.
Print Assumptions C07_inverse_partial.

(** whatever inverse exists is the one returned, unless the test rejects it *)
Theorem C07_inverse_unique : forall d (A B : mat R (dimn d)),
  d_mul d A B = d_identity d -> r_eps <= Rabs (ldet (dimn d) (mfun A)) ->
  d_inverse d A = Ok (Some B).
Proof. exact (c07_inverse_unique OK). Qed.
Print Assumptions C07_inverse_unique.

(** For every size there is an invertible matrix (its exact inverse is given)
    for which [inverse()] is [None]. *)
Theorem C07_inverse_refuted : forall d, exists A B : mat R (dimn d),
  ldet (dimn d) (mfun A) <> 0
  /\ d_mul d A B = d_identity d /\ d_mul d B A = d_identity d
  /\ d_inverse d A = Ok None.
Proof. exact (c07_inverse_refuted OK). Qed.
Print Assumptions C07_inverse_refuted.

End Props.
