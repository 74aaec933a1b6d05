(** * PropsLU: C10, C11 (LU factorization in exact real arithmetic)

    [Lpart]/[Upart] (LUFacts.v) read the unit lower and the upper triangle off
    the packed result, [exchange n p A] applies the row exchanges
    (0, p 0), (1, p 1), ... to [A] in this order, [pos ix] is the returned
    index vector. *)

From Coq Require Import List Arith Lia Bool Reals Lra.
From Verif Require Import Base Scalar Vec Mat2 Mat3 Mat4 Mat5 Mat6 Slices MatLoops MatOps
  RingDet Spec LoopFacts Entries DetEntries InstR RFacts LUFacts.
From Verif Require Import ProofsLU.
(** Concrete cases meeting the hypotheses: the Examples of ProofsLU.v and of Cases.v. *)
Import ListNotations.
Local Open Scope R_scope.

Section Props.
Context {K : RConsts} (OK : RConstsOk K).

(** For every invertible matrix [lu()] returns and [L U = P A]. *)
Theorem C10_lu_reconstructs : forall d (A : mat R (dimn d)),
  ldet (dimn d) (mfun A) <> 0 ->
  exists m det ix, d_lu d A = Ok (m, det, ix)
    /\ (forall k, (k < dimn d)%nat -> (k <= pos ix k < dimn d)%nat)
    /\ (forall k, (k < dimn d)%nat -> Upart (mfun m) k k <> 0)
    /\ forall i j, (i < dimn d)%nat -> (j < dimn d)%nat ->
         mmul (dimn d) (Lpart (mfun m)) (Upart (mfun m)) i j
         = exchange (dimn d) (pos ix) (mfun A) i j.
Proof. exact (c10_lu_reconstructs OK). Qed.
Print Assumptions C10_lu_reconstructs.

(** For every other matrix with a non-zero first row the factors reconstruct
    [P A] except that some diagonal entries are off by the literal 1e-40. *)
Theorem C10_lu_perturbed : forall d (A : mat R (dimn d)),
  (exists j, (j < dimn d)%nat /\ mfun A 0 j <> 0) ->
  exists m det ix e, d_lu d A = Ok (m, det, ix)
    /\ (forall k, (k < dimn d)%nat -> (k <= pos ix k < dimn d)%nat)
    /\ (forall k, e k = 0 \/ e k = r_1em40)
    /\ forall i j, (i < dimn d)%nat -> (j < dimn d)%nat ->
         mmul (dimn d) (Lpart (mfun m)) (Upart (mfun m)) i j
         = exchange (dimn d) (pos ix) (mfun A) i j + (if Nat.eqb i j then e i else 0).
Proof. exact (c10_lu_perturbed OK). Qed.
Print Assumptions C10_lu_perturbed.

(** ** C11 *)
(** the holding part: on invertible matrices the reported number is the
    determinant *)
Theorem C11_lu_det_partial : forall d (A : mat R (dimn d)),
  ldet (dimn d) (mfun A) <> 0 ->
  exists m ix, d_lu d A = Ok (m, ldet (dimn d) (mfun A), ix).
Proof. exact (c11_lu_det_partial OK). Qed.
Print Assumptions C11_lu_det_partial.

(** the exact panic condition *)
Theorem C11_lu_panic_iff : forall d (A : mat R (dimn d)),
  d_lu d A = Panic <-> forall j, (j < dimn d)%nat -> mfun A 0 j = 0.
Proof. exact (c11_lu_panic_iff OK). Qed.
Print Assumptions C11_lu_panic_iff.

(** "panics only on the zero matrix" is false: for every size there is a
    non-zero matrix on which it panics *)
Theorem C11_lu_panic_refuted : forall d, exists A : mat R (dimn d),
  A <> d_zeros d /\ d_lu d A = Panic.
Proof. exact (c11_lu_panic_refuted OK). Qed.
Print Assumptions C11_lu_panic_refuted.

(** "the second component equals det()" is false of every singular matrix with
    a non-zero first row: a non-zero number is reported *)
Theorem C11_lu_singular_refuted : forall d (A : mat R (dimn d)),
  ldet (dimn d) (mfun A) = 0 -> (exists j, (j < dimn d)%nat /\ mfun A 0 j <> 0) ->
  exists m det ix, d_lu d A = Ok (m, det, ix) /\ det <> ldet (dimn d) (mfun A).
Proof. exact (c11_lu_singular_refuted OK). Qed.
Print Assumptions C11_lu_singular_refuted.

Theorem C11_lu_det_refuted : exists (A : mat R (dimn D2)) m det ix,
  d_lu D2 A = Ok (m, det, ix) /\ det <> d_det D2 A.
Proof. exact (c11_lu_det_refuted OK). Qed.
Print Assumptions C11_lu_det_refuted.

End Props.
