(** * Spec: entries of vectors and matrices as functions of the indices

    The vocabulary in which the theorems are stated. [vfun v i] and
    [mfun A i j] are the values the user reads as [v[i]] and [A[(i, j)]]
    ([vfun_aget], [mfun_mget] below show that they are exactly what the
    indexing operations of the model return in range). *)

From Coq Require Import List Arith Lia.
From Verif Require Import Base Scalar RingDet.
Import ListNotations.
Open Scope sc_scope.

Section Spec.
Context {T : Type} {nT : Num T}.

Definition vfun {n} (v : arr T n) (i : nat) : T := nth i (alist v) zero.
Definition mfun {n m} (A : arr (arr T n) m) (i j : nat) : T :=
  nth j (nth i (map alist (alist A)) nil) zero.

Lemma alist_length {U n} (v : arr U n) : length (alist v) = n.
Proof. induction n; cbn; auto. Qed.

Lemma vfun_aget n (v : arr T n) i : i < n -> aget v i = Ok (vfun v i).
Proof.
  revert i. induction n as [ |n IH]; intros i Hi; [lia| ].
  destruct i as [ |i]; cbn; [reflexivity| ]. apply IH. lia.
Qed.

Lemma vfun_ext n (v w : arr T n) : (forall i, i < n -> vfun v i = vfun w i) -> v = w.
Proof.
  induction n as [ |n IH]; intros H; [destruct v, w; reflexivity| ].
  destruct v as [x v], w as [y w]. f_equal.
  - apply (H 0%nat). lia.
  - apply IH. intros i Hi. apply (H (S i)). lia.
Qed.

Lemma mfun_row n m (A : arr (arr T n) m) i j row :
  aget A i = Ok row -> mfun A i j = vfun row j.
Proof.
  revert i. induction m as [ |m IH]; intros i H; [discriminate| ].
  destruct i as [ |i]; cbn in *.
  - inversion H; subst. reflexivity.
  - apply (IH (snd A)). exact H.
Qed.

Lemma aget_ok {U} n (v : arr U n) i : i < n -> exists x, aget v i = Ok x.
Proof.
  revert i. induction n as [ |n IH]; intros i Hi; [lia| ].
  destruct i as [ |i]; cbn; [eauto| ]. apply IH. lia.
Qed.

Lemma aget_panic {U} n (v : arr U n) i : n <= i -> aget v i = Panic.
Proof.
  revert i. induction n as [ |n IH]; intros i Hi; [reflexivity| ].
  destruct i as [ |i]; cbn; [lia| ]. apply IH. lia.
Qed.

Lemma mfun_mget n (A : mat T n) i j : i < n -> j < n -> mget A i j = Ok (mfun A i j).
Proof.
  intros Hi Hj. unfold mget. destruct (aget_ok n A i Hi) as [row E].
  rewrite E. cbn. rewrite (mfun_row n n A i j row E). apply vfun_aget; auto.
Qed.

Lemma mfun_ext_gen n m (A B : arr (arr T n) m) :
  (forall i j, i < m -> j < n -> mfun A i j = mfun B i j) -> A = B.
Proof.
  induction m as [ |m IH]; intros H; [destruct A, B; reflexivity| ].
  destruct A as [x A], B as [y B]. f_equal.
  - apply vfun_ext. intros i Hi. apply (H 0%nat i); lia.
  - apply IH. intros i j Hi Hj. apply (H (S i) j); lia.
Qed.

Lemma mfun_ext n (A B : mat T n) :
  (forall i j, i < n -> j < n -> mfun A i j = mfun B i j) -> A = B.
Proof. apply mfun_ext_gen. Qed.

End Spec.

(** Arrays of any element type are determined by what indexing returns. *)
Lemma aget_ext {U} n (v w : arr U n) : (forall i, i < n -> aget v i = aget w i) -> v = w.
Proof.
  induction n as [ |n IH]; intros H; [destruct v, w; reflexivity| ].
  destruct v as [x v], w as [y w]. f_equal.
  - specialize (H 0%nat ltac:(lia)). cbn in H. congruence.
  - apply IH. intros i Hi. apply (H (S i)). lia.
Qed.

Lemma mget_ext {U} n (A B : mat U n) :
  (forall i j, i < n -> j < n -> mget A i j = mget B i j) -> A = B.
Proof.
  intros H. apply aget_ext. intros i Hi. unfold mget in H.
  destruct (aget_ok n A i Hi) as [x E], (aget_ok n B i Hi) as [y F]. rewrite E, F. f_equal.
  apply aget_ext. intros j Hj. specialize (H i j Hi Hj). rewrite E, F in H. exact H.
Qed.

Arguments vfun : simpl never.
Arguments mfun : simpl never.

(** Split an index [i] with [H : i < n], [n] a numeral, into its [n] values. *)
Ltac all_lt i H :=
  match type of H with
  | (_ < 0)%nat => exfalso; exact (Nat.nlt_0_r _ H)
  | (_ < S _)%nat =>
      destruct i as [ |i]; [clear H | apply Nat.succ_lt_mono in H; all_lt i H]
  end.
