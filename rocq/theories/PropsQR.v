(** * PropsQR: C12 (QR factorization in exact real arithmetic) *)

From Coq Require Import List Arith Lia Bool Reals Lra.
From Verif Require Import Base Scalar Vec Mat2 Mat3 Mat4 Mat5 Mat6 Slices MatLoops MatOps
  RingDet Spec LoopFacts Entries DetEntries ProofsLoops InstR RFacts QRFacts.
From Verif Require Import ProofsQR.
(** Concrete cases meeting the hypotheses: the Examples of ProofsQR.v and of Cases.v. *)
Import ListNotations.
Local Open Scope R_scope.

Section Props.
Context {K : RConsts} (OK : RConstsOk K).

(** The case in which [qr()] computes. *)
Theorem C12_qr : forall d (A : mat R (dimn d)),
  r_eps <= Rabs (ldet (dimn d) (mfun A)) ->
  exists q r, d_qr d A = Ok (Some (q, r))
    /\ d_mul d q r = A
    /\ d_mul d (d_transpose d q) q = d_identity d
    /\ d_mul d q (d_transpose d q) = d_identity d
    /\ (forall i j, (i < dimn d)%nat -> (j < i)%nat -> mfun r i j = 0)
    /\ (forall i, (i < dimn d)%nat -> 0 < mfun r i i).
Proof. exact (c12_qr OK). Qed.
Print Assumptions C12_qr.

(** [None] exactly below the threshold; never a panic. *)
Theorem C12_qr_none_iff : forall d (A : mat R (dimn d)),
  d_qr d A = Ok None <-> Rabs (ldet (dimn d) (mfun A)) < r_eps.
Proof. exact (c12_qr_none_iff OK). Qed.
Print Assumptions C12_qr_none_iff.

Theorem C12_qr_total : forall d (A : mat R (dimn d)), d_qr d A <> Panic.
Proof. exact (c12_qr_total OK). Qed.
Print Assumptions C12_qr_total.

Theorem C12_qr_unique : forall d (A q r : mat R (dimn d)),
  r_eps <= Rabs (ldet (dimn d) (mfun A)) ->
  d_mul d q r = A -> d_mul d (d_transpose d q) q = d_identity d ->
  (forall i j, (i < dimn d)%nat -> (j < i)%nat -> mfun r i j = 0) ->
  (forall i, (i < dimn d)%nat -> 0 < mfun r i i) ->
  d_qr d A = Ok (Some (q, r)).
Proof. exact (c12_qr_unique OK). Qed.
Print Assumptions C12_qr_unique.

End Props.
