(** * PropsCtor: constructors and row access (C78) *)

From Coq Require Import List Arith Lia.
From Verif Require Import Base Scalar Display Ctor MatLoops MatOps LoopFacts ProofsLoops Spec.
From Verif Require Import ProofsCtor.
(** Concrete cases meeting the hypotheses: the Examples of ProofsCtor.v and of Cases.v. *)
Import ListNotations.

Theorem C78_new_from : forall (T : Type) (a b c d e f : T),
  (forall k, aget (v2_new_from a b) k = arg [a; b] k)
  /\ (forall k, aget (v3_new_from a b c) k = arg [a; b; c] k)
  /\ (forall k, aget (v4_new_from a b c d) k = arg [a; b; c; d] k)
  /\ (forall k, aget (v5_new_from a b c d e) k = arg [a; b; c; d; e] k)
  /\ (forall k, aget (v6_new_from a b c d e f) k = arg [a; b; c; d; e; f] k)
  /\ (forall i j, i < 2 -> j < 2 -> mget (m22_new_from a b c d) i j = arg [a; b; c; d] (2 * i + j))
  /\ (forall i j, 2 <= i \/ 2 <= j -> mget (m22_new_from a b c d) i j = Panic).
Proof. exact c78_new_from. Qed.
Print Assumptions C78_new_from.

(** a slice view (Deref) has the elements of the array at the same positions and
    the length of the type; reading past the end is the only panic *)
Theorem C78_deref : forall (T : Type) n (v : arr T n) k x,
  length (alist (deref v)) = n /\ (nth_error (alist (deref v)) k = Some x <-> aget (new v) k = Ok x).
Proof. exact c78_deref. Qed.
Print Assumptions C78_deref.

(** row access: m[i] is defined exactly below n and its j-th element is m[(i,j)];
    assigning a row changes that row and nothing else *)
Theorem C78_row_read : forall (T : Type) n (m : mat T n) i,
  ((exists r, index_row m i = Ok r) <-> i < n)
  /\ (forall r, index_row m i = Ok r -> forall j, aget r j = mget m i j).
Proof. exact c78_row_read. Qed.
Print Assumptions C78_row_read.

Theorem C78_row_write : forall (T : Type) n (m : mat T n) i row,
  (n <= i -> aset m i row = Panic)
  /\ (i < n -> exists m', aset m i row = Ok m' /\ index_row m' i = Ok row
        /\ (forall a b, a <> i -> mget m' a b = mget m a b)
        /\ (forall b, mget m' i b = aget row b)).
Proof. exact c78_row_write. Qed.
Print Assumptions C78_row_write.
