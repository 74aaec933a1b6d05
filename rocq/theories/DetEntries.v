(** * DetEntries: [det()] of every size is the Laplace determinant *)

From Coq Require Import List Arith Lia Ring.
From Verif Require Import Base Scalar Vec Mat2 Mat3 Mat4 Mat5 Mat6 MatOps RingDet Spec.
Open Scope sc_scope.

Section WithRing.
Context {T : Type} {nT : Num T} {sT : Signed T}.
Variable RT : RingLaws T.
Let RT' : ring_theory zero one add mul sub neg (@eq T) := RT.
Add Ring TheRing : RT'.

Ltac expand := lazy [m22_det m33_det m44_det m55_det m66_det ix0 ix1 ix2 ix3 ix4 ix5 ahd atl
  fst snd ldet sumn minor skip sgn Nat.ltb Nat.leb mfun List.nth List.map alist]; ring.

Lemma m22_det_ldet (A : M22 T) : m22_det A = ldet 2 (mfun A).
Proof. destruct A as ((?&?&[])&(?&?&[])&[]). expand. Qed.

Lemma m33_det_ldet (A : M33 T) : m33_det A = ldet 3 (mfun A).
Proof. destruct A as ((?&?&?&[])&(?&?&?&[])&(?&?&?&[])&[]). expand. Qed.

Lemma m44_det_ldet (A : M44 T) : m44_det A = ldet 4 (mfun A).
Proof.
  destruct A as ((?&?&?&?&[])&(?&?&?&?&[])&(?&?&?&?&[])&(?&?&?&?&[])&[]). expand.
Qed.

Lemma m55_det_ldet (A : M55 T) : m55_det A = ldet 5 (mfun A).
Proof.
  destruct A as ((?&?&?&?&?&[])&(?&?&?&?&?&[])&(?&?&?&?&?&[])&(?&?&?&?&?&[])&(?&?&?&?&?&[])&[]).
  expand.
Qed.

Lemma m66_det_ldet (A : M66 T) : m66_det A = ldet 6 (mfun A).
Proof.
  destruct A as ((?&?&?&?&?&?&[])&(?&?&?&?&?&?&[])&(?&?&?&?&?&?&[])
    &(?&?&?&?&?&?&[])&(?&?&?&?&?&?&[])&(?&?&?&?&?&?&[])&[]).
  expand.
Qed.

Theorem d_det_ldet d (A : mat T (dimn d)) : d_det d A = ldet (dimn d) (mfun A).
Proof.
  destruct d; cbn [dimn d_det].
  - apply m22_det_ldet.
  - apply m33_det_ldet.
  - apply m44_det_ldet.
  - apply m55_det_ldet.
  - apply m66_det_ldet.
Qed.

End WithRing.
