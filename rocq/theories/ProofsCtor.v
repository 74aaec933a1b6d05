(** * ProofsCtor: constructors and row access (C78) *)

From Coq Require Import List Arith Lia.
From Verif Require Import Base Scalar Display Ctor MatLoops MatOps LoopFacts ProofsLoops Spec.
Import ListNotations.

(** element k of [new_from] is the k-th argument, and indexing panics exactly past
    the last one; for a matrix the arguments are read row by row *)
Definition arg {T} (l : list T) (k : nat) : outcome T :=
  match nth_error l k with Some x => Ok x | None => Panic end.

Lemma c78_new_from : forall (T : Type) (a b c d e f : T),
  (forall k, aget (v2_new_from a b) k = arg [a; b] k)
  /\ (forall k, aget (v3_new_from a b c) k = arg [a; b; c] k)
  /\ (forall k, aget (v4_new_from a b c d) k = arg [a; b; c; d] k)
  /\ (forall k, aget (v5_new_from a b c d e) k = arg [a; b; c; d; e] k)
  /\ (forall k, aget (v6_new_from a b c d e f) k = arg [a; b; c; d; e; f] k)
  /\ (forall i j, i < 2 -> j < 2 -> mget (m22_new_from a b c d) i j = arg [a; b; c; d] (2 * i + j))
  /\ (forall i j, 2 <= i \/ 2 <= j -> mget (m22_new_from a b c d) i j = Panic).
Proof.
  intros. split; [ |split; [ |split; [ |split; [ |split; [ |split] ] ] ] ].
  1-5: intros k; do 7 (destruct k as [ |k]; [reflexivity| ]); destruct k; reflexivity.
  - intros i j Hi Hj. destruct i as [ |[ |i] ]; destruct j as [ |[ |j] ]; try reflexivity; lia.
  - intros i j [H|H].
    + destruct i as [ |[ |i] ]; [lia|lia|reflexivity].
    + destruct j as [ |[ |j] ]; [lia|lia| ]. destruct i as [ |[ |i] ]; reflexivity.
Qed.

(** a slice view (Deref) has the elements of the array at the same positions and
    the length of the type; reading past the end is the only panic *)
Lemma c78_deref : forall (T : Type) n (v : arr T n) k x,
  length (alist (deref v)) = n /\ (nth_error (alist (deref v)) k = Some x <-> aget (new v) k = Ok x).
Proof.
  intros T n. unfold deref, new. induction n as [ |n IH]; intros v k x.
  - split; [reflexivity| ]. destruct k; split; discriminate.
  - split; [cbn; f_equal; apply (IH (snd v) 0 x)| ].
    destruct k as [ |k]; cbn; [split; intros H; injection H as ->; reflexivity|apply IH].
Qed.

(** row access: m[i] is defined exactly below n and its j-th element is m[(i,j)];
    assigning a row changes that row and nothing else *)
Lemma c78_row_read : forall (T : Type) n (m : mat T n) i,
  ((exists r, index_row m i = Ok r) <-> i < n)
  /\ (forall r, index_row m i = Ok r -> forall j, aget r j = mget m i j).
Proof.
  intros T n m i. unfold index_row, deref. split; [apply aget_ok_iff| ].
  intros r H j. unfold mget. now rewrite H.
Qed.

Lemma c78_row_write : forall (T : Type) n (m : mat T n) i row,
  (n <= i -> aset m i row = Panic)
  /\ (i < n -> exists m', aset m i row = Ok m' /\ index_row m' i = Ok row
        /\ (forall a b, a <> i -> mget m' a b = mget m a b)
        /\ (forall b, mget m' i b = aget row b)).
Proof.
  intros T n m i row. split; [apply aset_panic| ]. intros Hi.
  destruct (aset_ok n m i row Hi) as [m' E]. exists m'. split; [exact E| ].
  pose proof (aset_same n m m' i row E) as S. split; [exact S| ]. split.
  - intros a b Ha. unfold mget. now rewrite (aset_other n m m' i a row E Ha).
  - intros b. unfold mget. now rewrite S.
Qed.

Example C78_row_example : let m := m22_new_from 1 2 3 4 in
  index_row m 1 = Ok [|3; 4|] /\ aset m 1 [|7; 8|] = Ok (m22_new_from 1 2 7 8) /\ index_row m 2 = Panic.
Proof. repeat split. Qed.
