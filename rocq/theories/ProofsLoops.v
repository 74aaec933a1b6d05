(** * ProofsLoops: layout, indexing and blocks (C13-C16)

    All theorems of this file hold for every scalar type [T] with any
    operations at all (floats with NaN included): no law is assumed. *)

From Coq Require Import List Arith Lia Bool ZArith.
From Verif Require Import Base Scalar Vec Mat2 Mat3 Mat4 Mat5 Mat6 Slices MatLoops MatOps
  RingDet Spec LoopFacts InstZ.
Import ListNotations.
Open Scope sc_scope.

Ltac destr22 A := destruct A as ((?&?&[])&(?&?&[])&[]).
Ltac destr33 A := destruct A as ((?&?&?&[])&(?&?&?&[])&(?&?&?&[])&[]).
Ltac destr44 A := destruct A as ((?&?&?&?&[])&(?&?&?&?&[])&(?&?&?&?&[])&(?&?&?&?&[])&[]).
Ltac destr55 A := destruct A as
  ((?&?&?&?&?&[])&(?&?&?&?&?&[])&(?&?&?&?&?&[])&(?&?&?&?&?&[])&(?&?&?&?&?&[])&[]).
Ltac destr66 A := destruct A as
  ((?&?&?&?&?&?&[])&(?&?&?&?&?&?&[])&(?&?&?&?&?&?&[])&(?&?&?&?&?&?&[])&(?&?&?&?&?&?&[])&(?&?&?&?&?&?&[])&[]).
Ltac destr d A := destruct d; cbn [dimn] in *; [destr22 A|destr33 A|destr44 A|destr55 A|destr66 A].

(** ** The loops that only move cells around *)

Section Any.
Context {T : Type} {nT : Num T}.

(** *** C13 *)

Lemma get_rows_eq d (m : mat T (dimn d)) : d_get_rows d m = Ok m.
Proof. destr d m; lazy; reflexivity. Qed.

Lemma get_cols_eq d (m : mat T (dimn d)) : d_get_cols d m = Ok (d_transpose d m).
Proof. destr d m; lazy; reflexivity. Qed.

Lemma new_from_vecs_eq d (c : arr (arr T (dimn d)) (dimn d)) :
  d_new_from_vecs d c = Ok (d_transpose d c).
Proof. destr d c; lazy; reflexivity. Qed.

Lemma c13_get_rows : forall d (m : mat T (dimn d)),
  exists rows, d_get_rows d m = Ok rows /\
  forall i j, i < dimn d -> j < dimn d -> (r <- aget rows i ;; aget r j) = mget m i j.
Proof. intros. exists m. split; [apply get_rows_eq | reflexivity]. Qed.

Lemma c13_get_cols : forall d (m : mat T (dimn d)),
  exists cols, d_get_cols d m = Ok cols /\
  forall i j, i < dimn d -> j < dimn d -> (c <- aget cols j ;; aget c i) = mget m i j.
Proof.
  intros. exists (d_transpose d m). split; [apply get_cols_eq | ].
  intros i j Hi Hj. destruct d; cbn [dimn] in *; all_lt i Hi; all_lt j Hj; reflexivity.
Qed.

Lemma c13_new_from_vecs : forall d (cols : arr (arr T (dimn d)) (dimn d)),
  exists m, d_new_from_vecs d cols = Ok m /\
  forall i j, i < dimn d -> j < dimn d -> mget m i j = (c <- aget cols j ;; aget c i).
Proof.
  intros d cols. exists (d_transpose d cols). split; [apply new_from_vecs_eq | ].
  intros i j Hi Hj. destruct d; cbn [dimn] in *; all_lt i Hi; all_lt j Hj; reflexivity.
Qed.

Lemma c13_cols_round_trip : forall d (m : mat T (dimn d)),
  (cols <- d_get_cols d m ;; d_new_from_vecs d cols) = Ok m.
Proof.
  intros. rewrite get_cols_eq. cbn. rewrite new_from_vecs_eq. f_equal.
  destr d m; reflexivity.
Qed.

Lemma c13_as_vec : forall d (m : mat T (dimn d)),
  exists v, d_as_vec d m = Ok v /\
  forall i j, i < dimn d -> j < dimn d -> aget v (i * dimn d + j) = mget m i j.
Proof.
  intros d m. destr d m; (eexists; split; [lazy; reflexivity | ]);
  intros i j Hi Hj; all_lt i Hi; all_lt j Hj; reflexivity.
Qed.

Lemma c13_get_diagonal : forall d (m : mat T (dimn d)),
  exists v, d_get_diagonal d m = Ok v /\ forall i, i < dimn d -> aget v i = mget m i i.
Proof.
  intros d m. destr d m; (eexists; split; [lazy; reflexivity | ]);
  intros i Hi; all_lt i Hi; reflexivity.
Qed.

(** The selected cells, in row-major order. *)
Definition row_major (n : nat) (sel : nat -> nat -> bool) (m : mat T n) : list (outcome T) :=
  flat_map (fun i => map (mget m i) (filter (sel i) (seq 0 n))) (seq 0 n).

Lemma c13_get_upper_triangular :
  (forall m : M33 T, exists v, get_upper_triangular 3 m = Ok v
     /\ map Ok (alist v) = row_major 3 Nat.ltb m)
  /\ (forall m : M44 T, exists v, get_upper_triangular 6 m = Ok v
     /\ map Ok (alist v) = row_major 4 Nat.ltb m)
  /\ (forall m : M55 T, exists v, get_upper_triangular 10 m = Ok v
     /\ map Ok (alist v) = row_major 5 Nat.ltb m)
  /\ (forall m : M66 T, exists v, get_upper_triangular 15 m = Ok v
     /\ map Ok (alist v) = row_major 6 Nat.ltb m).
Proof.
  repeat split; intros m;
  [destr33 m|destr44 m|destr55 m|destr66 m]; (eexists; split; [lazy; reflexivity | ]);
  reflexivity.
Qed.

Lemma c13_get_lower_triangular :
  (forall m : M33 T, exists v, get_lower_triangular 3 m = Ok v
     /\ map Ok (alist v) = row_major 3 (fun i j => Nat.ltb j i) m)
  /\ (forall m : M44 T, exists v, get_lower_triangular 6 m = Ok v
     /\ map Ok (alist v) = row_major 4 (fun i j => Nat.ltb j i) m)
  /\ (forall m : M55 T, exists v, get_lower_triangular 10 m = Ok v
     /\ map Ok (alist v) = row_major 5 (fun i j => Nat.ltb j i) m)
  /\ (forall m : M66 T, exists v, get_lower_triangular 15 m = Ok v
     /\ map Ok (alist v) = row_major 6 (fun i j => Nat.ltb j i) m).
Proof.
  repeat split; intros m;
  [destr33 m|destr44 m|destr55 m|destr66 m]; (eexists; split; [lazy; reflexivity | ]);
  reflexivity.
Qed.

(** *** C14 *)

Lemma c14_for_each_entry : forall n (m : mat T n) f,
  exists r, for_each m f = Ok r /\
  forall i j, i < n -> j < n -> mget r i j = (x <- mget m i j ;; Ok (f x)).
Proof.
  intros n m f. unfold for_each.
  destruct (fill_matrix n (fun i j result => x <- mget m i j ;; mset result i j (f x))
    (fun i j => f (mfun m i j)) (amake n (amake n zero))) as (r & E & H).
  - intros i j m1 Hi Hj. rewrite mfun_mget by assumption. cbn.
    destruct (mset_ok n m1 i j (f (mfun m i j)) Hi Hj) as [m2 ->]. eauto.
  - exists r. split; [exact E| ]. intros i j Hi Hj.
    rewrite !mfun_mget by assumption. cbn. f_equal. auto.
Qed.

Lemma c14_for_each_id : forall n (m : mat T n), for_each m (fun x => x) = Ok m.
Proof.
  intros n m. destruct (c14_for_each_entry n m (fun x => x)) as (r & -> & H). f_equal.
  apply mget_ext. intros i j Hi Hj. rewrite H by assumption.
  rewrite mfun_mget by assumption. reflexivity.
Qed.

Lemma c14_for_each_compose : forall n (m : mat T n) f g,
  (r <- for_each m f ;; for_each r g) = for_each m (fun x => g (f x)).
Proof.
  intros n m f g.
  destruct (c14_for_each_entry n m f) as (r & -> & H). cbn.
  destruct (c14_for_each_entry n r g) as (r1 & -> & H1).
  destruct (c14_for_each_entry n m (fun x => g (f x))) as (r2 & -> & H2). f_equal.
  apply mget_ext. intros i j Hi Hj. rewrite H1, H, H2 by assumption.
  rewrite mfun_mget by assumption. reflexivity.
Qed.

(** *** C16 *)

Lemma submatrix_44 (m : M44 T) i j : i < 4 -> j < 4 ->
  exists s, m44_get_submatrix m (i, j) = Ok s /\
  forall a b, a < 3 -> b < 3 -> mget s a b = mget m (skip i a) (skip j b).
Proof.
  intros Hi Hj. destr44 m. all_lt i Hi; all_lt j Hj;
  (eexists; split; [lazy; reflexivity | ]); intros a b Ha Hb; all_lt a Ha; all_lt b Hb; reflexivity.
Qed.

Lemma submatrix_55 (m : M55 T) i j : i < 5 -> j < 5 ->
  exists s, m55_get_submatrix m (i, j) = Ok s /\
  forall a b, a < 4 -> b < 4 -> mget s a b = mget m (skip i a) (skip j b).
Proof.
  intros Hi Hj. destr55 m. all_lt i Hi; all_lt j Hj;
  (eexists; split; [lazy; reflexivity | ]); intros a b Ha Hb; all_lt a Ha; all_lt b Hb; reflexivity.
Qed.

Lemma submatrix_66 (m : M66 T) i j : i < 6 -> j < 6 ->
  exists s, m66_get_submatrix m (i, j) = Ok s /\
  forall a b, a < 5 -> b < 5 -> mget s a b = mget m (skip i a) (skip j b).
Proof.
  intros Hi Hj. destr66 m. all_lt i Hi; all_lt j Hj;
  (eexists; split; [lazy; reflexivity | ]); intros a b Ha Hb; all_lt a Ha; all_lt b Hb; reflexivity.
Qed.

(** [skip i] enumerates, in increasing order, exactly the indices other than [i] *)
Lemma c16_skip_spec : forall i n, i < S n ->
  map (skip i) (seq 0 n) = filter (fun k => negb (Nat.eqb k i)) (seq 0 (S n)).
Proof.
  assert (G : forall n i lo, lo <= i -> i < lo + S n ->
    map (skip i) (seq lo n) = filter (fun k => negb (Nat.eqb k i)) (seq lo (S n))).
  { induction n as [ |n IH]; intros i lo H1 H2.
    - cbn. replace lo with i by lia. rewrite Nat.eqb_refl. reflexivity.
    - cbn [seq map filter]. destruct (Nat.eqb_spec lo i) as [->|Hne]; cbn [negb].
      + unfold skip at 1. rewrite Nat.ltb_irrefl.
        assert (P : forall k lo, i <= lo ->
          map (skip i) (seq (S lo) k) = filter (fun k => negb (Nat.eqb k i)) (seq (S (S lo)) k)).
        { induction k as [ |k IHk]; intros lo' Hlo; cbn [seq map filter]; [reflexivity| ].
          unfold skip at 1. destruct (Nat.ltb_spec (S lo') i); [lia| ].
          destruct (Nat.eqb_spec (S (S lo')) i); [lia| ]. cbn [negb]. f_equal. apply IHk. lia. }
        destruct (Nat.eqb_spec (S i) i); [lia| ]. cbn [negb]. f_equal. apply (P n i); lia.
      + unfold skip at 1. destruct (Nat.ltb_spec lo i); [ |lia]. f_equal.
        apply (IH i (S lo)); lia. }
  intros i n H. apply G; lia.
Qed.

Lemma c16_get_submatrix : forall (m4 : M44 T) (m5 : M55 T) (m6 : M66 T) i j,
  (i < 4 -> j < 4 -> exists s, m44_get_submatrix m4 (i, j) = Ok s /\
     forall a b, a < 3 -> b < 3 -> mget s a b = mget m4 (skip i a) (skip j b))
  /\ (i < 5 -> j < 5 -> exists s, m55_get_submatrix m5 (i, j) = Ok s /\
     forall a b, a < 4 -> b < 4 -> mget s a b = mget m5 (skip i a) (skip j b))
  /\ (i < 6 -> j < 6 -> exists s, m66_get_submatrix m6 (i, j) = Ok s /\
     forall a b, a < 5 -> b < 5 -> mget s a b = mget m6 (skip i a) (skip j b)).
Proof.
  intros. split; [apply submatrix_44 | split; [apply submatrix_55 | apply submatrix_66]].
Qed.

Ltac peel n i :=
  match n with O => idtac | S ?k => destruct i as [ |i]; [ | peel k i] end.

Lemma c16_get_submatrix_panic : forall (m4 : M44 T) (m5 : M55 T) (m6 : M66 T) i j,
  (4 <= i \/ 4 <= j -> m44_get_submatrix m4 (i, j) = Panic)
  /\ (5 <= i \/ 5 <= j -> m55_get_submatrix m5 (i, j) = Panic)
  /\ (6 <= i \/ 6 <= j -> m66_get_submatrix m6 (i, j) = Panic).
Proof.
  intros m4 m5 m6 i j. destr44 m4. destr55 m5. destr66 m6.
  repeat split; intros H; [peel 4 i; peel 4 j | peel 5 i; peel 5 j | peel 6 i; peel 6 j];
  first [exfalso; lia | lazy; reflexivity].
Qed.

(** Cell [(i, j)] belongs to quadrant [q] iff [i] is in the row block and [j] in
    the column block; blocks have three rows and three columns. *)
Definition in_quadrant (q i j : nat) : bool :=
  match q with
  | 1 => Nat.ltb i 3 && Nat.ltb j 3
  | 2 => Nat.ltb i 3 && Nat.leb 3 j
  | 3 => Nat.leb 3 i && Nat.ltb j 3
  | 4 => Nat.leb 3 i && Nat.leb 3 j
  | _ => false
  end.

Lemma c16_copy_elements : forall (m : M66 T) (r : M33 T) q, 1 <= q <= 4 ->
  exists m', m66_copy_elements_from m r q = Ok m' /\
  forall i j, i < 6 -> j < 6 ->
    mget m' i j = if in_quadrant q i j then mget r (i mod 3) (j mod 3) else mget m i j.
Proof.
  intros m r q Hq. destr66 m. destr33 r.
  destruct q as [ |[ |[ |[ |[ |q]]]]]; try (exfalso; lia);
  (eexists; split; [lazy; reflexivity | ]);
  intros i j Hi Hj; all_lt i Hi; all_lt j Hj; reflexivity.
Qed.

Lemma c16_copy_elements_panic : forall (m : M66 T) (r : M33 T) q,
  q = 0 \/ 4 < q -> m66_copy_elements_from m r q = Panic.
Proof.
  intros m r q Hq. do 5 (destruct q as [ |q]; [first [exfalso; lia | reflexivity] | ]).
  reflexivity.
Qed.

End Any.

(** *** C15: any element type *)

Lemma c15_read_in_range : forall U n (m : mat U n) i j,
  (exists x, mget m i j = Ok x) <-> i < n /\ j < n.
Proof. exact @mget_ok_iff. Qed.

Lemma c15_read_out_of_range : forall U n (m : mat U n) i j,
  n <= i \/ n <= j -> mget m i j = Panic.
Proof. exact @mget_panic. Qed.

Lemma c15_write_in_range : forall U n (m : mat U n) i j x, i < n -> j < n ->
  exists m', mset m i j x = Ok m' /\ mget m' i j = Ok x /\
  forall a b, (a, b) <> (i, j) -> mget m' a b = mget m a b.
Proof.
  intros U n m i j x Hi Hj. destruct (mset_ok n m i j x Hi Hj) as [m' E].
  exists m'. split; [exact E | split].
  - exact (mset_same n m m' i j x E).
  - intros a b. exact (mset_other n m m' i j a b x E).
Qed.

Lemma c15_write_out_of_range : forall U n (m : mat U n) i j x,
  n <= i \/ n <= j -> mset m i j x = Panic.
Proof. exact @mset_panic. Qed.

(** vectors *)
Lemma c15_vector : forall U n (v : arr U n) i x,
  ((exists y, aget v i = Ok y) <-> i < n)
  /\ (i < n -> exists w, aset v i x = Ok w /\ aget w i = Ok x
        /\ forall a, a <> i -> aget w a = aget v a)
  /\ (n <= i -> aget v i = Panic /\ aset v i x = Panic).
Proof.
  intros U n v i x. split; [apply aget_ok_iff | split].
  - intros Hi. destruct (aset_ok n v i x Hi) as [w E]. exists w.
    split; [exact E | split; [exact (aset_same n v w i x E) | ]].
    intros a. exact (aset_other n v w i a x E).
  - intros Hi. split; [apply aget_panic | apply aset_panic]; exact Hi.
Qed.

(** ** Concrete cases *)

Definition exM44 : M44 Z :=
  [|[|1; 2; 3; 4|]; [|5; 6; 7; 8|]; [|9; 10; 11; 12|]; [|13; 14; 15; 16|]|]%Z.

Example C13_example :
  d_as_vec D2 [|[|1; 2|]; [|3; 4|]|]%Z = Ok [|1; 2; 3; 4|]%Z
  /\ d_get_cols D2 [|[|1; 2|]; [|3; 4|]|]%Z = Ok [|[|1; 3|]; [|2; 4|]|]%Z
  /\ get_upper_triangular 6 exM44 = Ok [|2; 3; 4; 7; 8; 12|]%Z
  /\ get_lower_triangular 6 exM44 = Ok [|5; 9; 10; 13; 14; 15|]%Z
  /\ d_get_diagonal D4 exM44 = Ok [|1; 6; 11; 16|]%Z.
Proof. repeat split. Qed.
Example C14_example : for_each ([|[|1; -2|]; [|3; 4|]|] : mat Z 2)%Z Z.abs
  = Ok [|[|1; 2|]; [|3; 4|]|]%Z.
Proof. reflexivity. Qed.
Example C15_example : mget exM44 2 1 = Ok 10%Z /\ mget exM44 4 0 = Panic
  /\ exists m, mset exM44 3 3 0%Z = Ok m /\ mget m 3 3 = Ok 0%Z /\ mget m 3 2 = Ok 15%Z.
Proof. repeat split. eexists. repeat split. Qed.
Example C16_example :
  m44_get_submatrix exM44 (1, 2) = Ok [|[|1; 2; 4|]; [|9; 10; 12|]; [|13; 14; 16|]|]%Z
  /\ m44_get_submatrix exM44 (1, 4) = Panic
  /\ (m <- m66_copy_elements_from m66_zeros [|[|1; 2; 3|]; [|4; 5; 6|]; [|7; 8; 9|]|]%Z 3 ;;
      x <- mget m 4 2 ;; y <- mget m 1 2 ;; Ok (x, y)) = Ok (6, 0)%Z.
Proof. repeat split; vm_compute; reflexivity. Qed.
